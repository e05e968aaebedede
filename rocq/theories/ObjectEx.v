(** Files, streams and objects for the examples of Prop_Object.v; a checker for [moderate].  Models no code. *)
From Coq Require Import ZifyBool ZifyNat ZifyN.
From Verif Require Import Base Base64 PyStr Xml Xml_sound Tree XPath Time FindSpec FindEx Db Api ApiSpec ApiEx StructSpec CredSpec IntegritySpec Lib Keyfile Construct Kdbx Kdbx_file Kdbx_v3 KdbxSpec Toy Toy_facts Save Save_facts Object ObjectSpec Object_facts NoDecrypt.

Definition moderateb (L : lib) (k : kdbx) (key : bytes) : bool :=
  match doc_of k with Some t => modest t | None => true end &&
  if h_major (k_hdr k) =? 4 then
    match k_body k with
    | Some b => match snd (pack4 L (b_payload b)), hcomp (k_hdr k), hcipher (k_hdr k), master_key L (k_hdr k) key, hbytes Ex_Attribute (k_hdr k) H_iv with
        | Ok p, Ok comp, Ok c, Ok mk, Ok iv => match payload_encrypt L c mk iv (compress L comp p) with Ok ct => lenN ct <=? 2 ^ 83 | Err _ => true end
        | _, _, _, _, _ => true
        end
    | None => true
    end
  else
    match doc_of k, hcomp (k_hdr k), hpsid (k_hdr k) with
    | Some t, Ok comp, Ok s => match snd (protect L s (hbytes Ex_Key (k_hdr k) H_pskey) t) with Ok t' => lenN (compress L comp (xml_ser L t')) <=? 2 ^ 51 | Err _ => true end
    | _, _, _ => true
    end.
Lemma moderateb_ok L k key : moderateb L k key = true -> moderate L k key.
Proof.
  unfold moderateb, moderate. intros H. apply andb_true_iff in H as [H0 H]. split; [|intros t E; rewrite E in H0; exact H0]. clear H0. split; intros M; rewrite M in H; cbn [N.eqb Pos.eqb] in H.
  - intros b p comp c mk iv ct E1 E2 E3 E4 E5 E6 E7. rewrite E1, E2, E3, E4, E5, E6, E7 in H. now apply N.leb_le.
  - intros t comp E1 s t' E2 E3 E4. rewrite E1, E4, E2, E3 in H. now apply N.leb_le.
Qed.
Lemma toy_sound : xml_sound toy. Proof. intros b t H. exact (xml_parse_ok b t H). Qed.

Definition ex_doc : xml := xdoc 9 [xentry 2 $"mail" $"ann" $"s3cret" [xs $"pin" $"1234"; xbinary $"a.txt" $"0"]; xgroup 3 $"sub" [xentry 5 $"shop" $"eve" $"x" []]].
Definition other_doc : xml := xdoc 9 [xentry 4 $"bank" $"bob" $"pw" []].
Definition written (k : kdbx) (pw : str) (kf : kfsrc) (x : xml) : bytes := fst (fst (build_kdbx toy (MkCreds (Some pw) kf None true) (edited k [[0; 65]; [1; 66]] x))).
Definition P_db := MkPath $"/d" $"db.kdbx".
Definition P_tmp := MkPath $"/d" $"db.tmp".
Definition P_v3 := MkPath $"/d" $"old.kdbx".
Definition P_other := MkPath $"/d" $"other.kdbx".
Definition P_keyed := MkPath $"/d" $"keyed.kdbx".
Definition P_keyed3 := MkPath $"/d" $"keyed3.kdbx".
Definition P_ktmp := MkPath $"/d" $"keyed.tmp".
Definition P_blank := MkPath $"/lib" $"blank_database.kdbx".
Definition P_new := MkPath $"/d" $"new.kdbx".
Definition P_key := MkPath $"/d" $"my.key".
(** A key file of 32 bytes. *)
Definition key_data : bytes := map N.of_nat (seq 40 32).
Definition ex_fs : fs := fold_left (fun s f => fs_set s (fst f) (Some (snd f)))
  [(P_db, written k4 $"secret" KF_none ex_doc); (P_v3, written k3 $"secret" KF_none ex_doc); (P_other, written k4 $"other" KF_none other_doc); (P_blank, written k4 $"password" KF_none other_doc);
   (P_keyed, written k4 $"secret" (KF_path (Some key_data)) ex_doc); (P_keyed3, written k3 $"secret" (KF_path (Some key_data)) ex_doc); (P_key, key_data); (P_ktmp, key_data)] (fun _ => None).
(** Stream 0 cannot be rewound; all hold the key data. *)
Definition ex_w : world := MkWorld ex_fs (fun n => MkStream key_data O (negb (n =? O)%nat)).
Lemma fs_set_bytes s p b : (forall q c, s q = Some c -> bytes_ok c) -> bytes_ok b -> forall q c, fs_set s p (Some b) q = Some c -> bytes_ok c.
Proof. intros Hs Hb q c. unfold fs_set. destruct (Save.path_eqb p q); [intros E; injection E as <-; exact Hb|apply Hs]. Qed.
Lemma ex_bytes : bytes_world ex_w.
Proof.
  split; cbn [ex_w w_fs w_st st_data]; [|intros _; apply all_bytesb_ok; vm_compute; reflexivity]. unfold ex_fs. cbn [fold_left fst snd]. repeat (apply fs_set_bytes; [|apply all_bytesb_ok; vm_compute; reflexivity]). discriminate.
Qed.
Definition no_loss : bytes -> nat := fun _ => O.
Definition ok_env : env := MkEnv true None (fun b => [b]) true.
Lemma ok_env_ok : env_ok ok_env. Proof. intros b. cbn. apply app_nil_r. Qed.
Definition result (r : res obj * world) : obj := match fst r with Ok o => o | Err _ => fresh end.
Definition o_db : obj := Eval vm_compute in result (open_db toy no_loss ex_w (F_path P_db) (Some $"secret") N_none None true).
Definition o_v3 : obj := Eval vm_compute in result (open_db toy no_loss ex_w (F_path P_v3) (Some $"secret") N_none None true).
Lemma o_db_open : open_db toy no_loss ex_w (F_path P_db) (Some $"secret") N_none None true = (Ok o_db, ex_w). Proof. vm_compute. reflexivity. Qed.
Lemma o_v3_open : open_db toy no_loss ex_w (F_path P_v3) (Some $"secret") N_none None true = (Ok o_v3, ex_w). Proof. vm_compute. reflexivity. Qed.
Lemma o_db_reached : reached toy lit no_z no_loss o_db. Proof. exact (R_open toy lit no_z no_loss ex_w _ _ _ _ _ _ _ ex_bytes o_db_open). Qed.
Lemma o_v3_reached : reached toy lit no_z no_loss o_v3. Proof. exact (R_open toy lit no_z no_loss ex_w _ _ _ _ _ _ _ ex_bytes o_v3_open). Qed.
Definition db_in (o : obj) : db := match o_kdbx o with Some (_, Some d) => d | _ => edb end.
Definition kdbx_in (o : obj) : kdbx := match o_kdbx o with Some (k, _) => k | _ => dummy_k end.
(** Results without computing worlds. *)
Definition okb {A} (r : res A) : bool := match r with Ok _ => true | Err _ => false end.
Lemma open_is x : okb (fst x) = true -> x = (Ok (result x), snd x).
Proof. destruct x as [[o|e] w]; [reflexivity|discriminate]. Qed.
Lemma save_is L e w o fn tk : okb (fst (fst (save L e w o fn tk))) = true -> save L e w o fn tk = (Ok tt, o, snd (save L e w o fn tk)).
Proof. intros H. pose proof (save_obj L e w o fn tk) as E. destruct (save L e w o fn tk) as [[[[]|x] o'] w']; [|discriminate]. cbn [fst snd] in *. now subst. Qed.
Lemma read_is {A} (x : res A * obj * world) e : fst (fst x) = Err e -> x = (Err e, snd (fst x), snd x).
Proof. destruct x as [[r o] w]. cbn [fst snd]. now intros ->. Qed.
