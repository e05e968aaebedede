(** Property theorems about the published algorithms and the project's own databases and tests: C101 (statements; proofs in Real.v, Real_facts.v).
    [real]: SHA-2, HMAC, AES, ChaCha20, Salsa20, Argon2, DEFLATE and XML as published.  What is said of the sample databases and unit tests is checked by commands of RealOpen.v and Conform*.v while building and is not part of the theorems. *)
From Verif Require Import Base PyStr Xml Xml_sound Tree XPath FindSpec FindEx Db Time Api ApiSpec ApiEx StructSpec IntegritySpec Lib Keyfile Construct Kdbx KdbxSpec Kdbx_file NoDecrypt Toy Toy_facts Save Save_facts Object ObjectSpec Object_facts Object_claims ObjectEx Real Real_facts.

(** Everything the other theorems assume of libraries holds, for all inputs. *)
Theorem c101_premises : lib_ok real /\ xml_sound real /\ libs_calm real.
Proof. exact (conj real_ok (conj real_sound real_calm)). Qed.
Print Assumptions c101_premises.
(** So saving with these algorithms and opening with the credentials in use keeps the contents, whatever calls were made; nothing is assumed of libraries. *)
Theorem c101_round_trip : forall R Zl lost e w o fn tk p tmp k d w', reached real R Zl lost o -> o_kdbx o = Some (k, Some d) ->
  goes_to o fn p -> apart p tmp (o_keyfile o) -> steady w p (o_keyfile o) -> env_ok e -> (forall key, key_for real w (o_password o) (o_keyfile o) tk (k_hdr k) = Ok key -> moderate real (current (k, Some d)) key) ->
  save real e w o fn tk = (Ok tt, o, w') ->
  exists o2 w3, open_db real lost w' (F_path p) (o_password o) (o_keyfile o) tk true = (Ok o2, w3) /\ same_contents k d o2 /\ o_password o2 = o_password o /\ o_keyfile o2 = o_keyfile o /\ o_filename o2 = Some (F_path p).
Proof. intros R Zl lost e w o fn tk p tmp k d w'. exact (saved_reopens real R Zl lost e w o fn tk p tmp k d w' real_ok real_sound). Qed.
Print Assumptions c101_round_trip.

(** A small database written and opened with these algorithms (AES-KDF, ChaCha20, a protected password): the hypotheses hold of the object opened, so every theorem about reachable objects applies to it. *)
Definition small_doc : xml := el $"KeePassFile" [el $"Root" [el $"Group" [tx $"Name" $"Home"; el $"Entry" [el $"String" [tx $"Key" $"Password"; X $"Value" [($"Protected", $"True")] (Some $"pw") []]]]]].
Definition small4 : bytes := Eval vm_compute in fst (fst (build_kdbx real (MkCreds (Some $"secret") KF_none None true) (edited k4 [[0; 65]] small_doc))).
Definition P_small := MkPath $"/d" $"small.kdbx".
Definition P_stmp := MkPath $"/d" $"small.tmp".
Definition small_w : world := MkWorld (fs_set (fun _ => None) P_small (Some small4)) (fun _ => MkStream [] O true).
Definition o_small : obj := Eval vm_compute in result (open_db real no_loss small_w (F_path P_small) (Some $"secret") N_none None true).
Lemma o_small_open : fst (open_db real no_loss small_w (F_path P_small) (Some $"secret") N_none None true) = Ok o_small. Proof. vm_cast_no_check (@eq_refl (res obj) (Ok o_small)). Qed.
Lemma small_bytes : bytes_world small_w.
Proof. split; cbn [small_w w_fs w_st st_data]; [|intros _; constructor]. apply fs_set_bytes; [discriminate|apply Base.all_bytesb_ok; vm_compute; reflexivity]. Qed.
Lemma first_reached L R Zl lost w f pw kf tk o : bytes_world w -> fst (open_db L lost w f pw kf tk true) = Ok o -> reached L R Zl lost o.
Proof. intros B. destruct (open_db L lost w f pw kf tk true) as [r w'] eqn:O. cbn [fst]. intros ->. exact (R_open _ _ _ _ _ _ _ _ _ _ _ _ B O). Qed.
Lemma o_small_reached : reached real lit no_z no_loss o_small.
Proof. exact (first_reached real lit no_z no_loss small_w (F_path P_small) (Some $"secret") N_none None o_small small_bytes o_small_open). Qed.
Example c101_ex : reached real lit no_z no_loss o_small /\ option_map (fun t => str_eqb (xml_tostring t) (xml_tostring small_doc)) (document (db_in o_small)) = Some true /\
  goes_to o_small F_none P_small /\ apart P_small P_stmp (o_keyfile o_small) /\ steady small_w P_small (o_keyfile o_small) /\ env_ok ok_env /\
  exists key, key_for real small_w (o_password o_small) (o_keyfile o_small) None (k_hdr (kdbx_in o_small)) = Ok key /\ moderate real (current (kdbx_in o_small, Some (db_in o_small))) key.
Proof.
  split; [exact o_small_reached|]. split; [vm_compute; reflexivity|]. split; [right; split; vm_compute; reflexivity|]. split; [split; [vm_compute; reflexivity|split; discriminate]|].
  split; [exact I|]. split; [exact ok_env_ok|]. eexists. split; [vm_compute; reflexivity|]. apply moderateb_ok. vm_compute. reflexivity.
Qed.
