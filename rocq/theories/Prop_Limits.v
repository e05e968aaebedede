(** C102: what can be saved can be opened again, however deeply its groups are nested.  Refuted: the XML parser has a limit, the writer has none. *)
From Coq Require Import ZifyBool ZifyNat ZifyN.
From Verif Require Import Base Base64 PyStr Utf8 Uuid Xml Xml_facts Xml_sound Cbc Tree XPath Time FindSpec FindEx Db Api ApiSpec StructSpec IntegritySpec Lib Keyfile Construct Kdbx KdbxSpec Kdbx_facts Kdbx_rt Kdbx_claims Save Object Heap Toy ObjectSpec Object_facts Object_meta ApiEx StructEx ObjectEx Limits.

(** ** C102 *)
(** A file saved while the document is nested deeper than the parser allows cannot be opened, with the credentials it was saved with or any others giving the same key: opening raises the parser's exception. *)
Theorem c102_too_deep : forall L R Zl lost e w o fn tk p tmp k d key w' D x, lib_ok L -> xml_sound L -> refuses_deep L D x -> reached L R Zl lost o -> o_kdbx o = Some (k, Some d) -> (forall t, document d = Some t -> D < xml_depth t) ->
  goes_to o fn p -> apart p tmp (o_keyfile o) -> env_ok e -> key_for L w (o_password o) (o_keyfile o) tk (k_hdr k) = Ok key ->
  save L e w o fn tk = (Ok tt, o, w') ->
  forall w2 pw2 kf2 tk2, w_fs w2 p = w_fs w' p -> key_for L w2 pw2 kf2 tk2 (k_hdr k) = Ok key -> exists w3, open_db L lost w2 (F_path p) pw2 kf2 tk2 true = (Err (classify x), w3).
Proof. exact saved_lost. Qed.
Print Assumptions c102_too_deep.

(** Nothing stops a user from getting there: from every object with a group, calls of add_group reach any depth. *)
Theorem c102_any_depth : forall L R Zl lost C cur o k d g, lib_ok L -> xml_sound L -> reached L R Zl lost o -> o_kdbx o = Some (k, Some d) -> in_doc d g -> uuid_ok (uuid1 C) -> encode_time (v4 d) (now C) = Ok cur ->
  forall n, exists l d', Forall (fun c => exists p, c = (C, Op_add_group p (Some $"g") None None)) l /\ reached L R Zl lost (calls R Zl l o) /\ o_kdbx (calls R Zl l o) = Some (k, Some d') /\
    o_password (calls R Zl l o) = o_password o /\ o_keyfile (calls R Zl l o) = o_keyfile o /\ o_filename (calls R Zl l o) = o_filename o /\ forall t, document d' = Some t -> n < xml_depth t.
Proof. exact any_depth. Qed.
Print Assumptions c102_any_depth.

(** The library of the examples, with lxml's parser limited to a nesting of [D]; lxml has 256. *)
Definition toyx (D : N) : lib := MkLib (sha256 toy) (sha512 toy) (hmac256 toy) (aes_enc toy) (aes_dec toy) (chacha_ks toy) (salsa_ks toy) (argon2 toy) (gzip toy) (gunzip toy)
  (fun b => let* t := lxml_parse b in if xml_depth t <=? D then Ok t else Err Ex_XMLSyntax) (xml_ser toy) (kf_parse toy).
Lemma toyx_sound D : xml_sound (toyx D).
Proof. intros b t H. cbn [toyx xml_parse] in H. unfold lxml_parse in H. bok H y E. bok E x E'. destruct (lxml_reads x); [|discriminate]. injection E as <-. destruct (_ <=? D); [|discriminate]. injection H as <-. exact (xml_parse_ok b x E'). Qed.
Lemma toyx_ok : lib_ok (toyx 256).
Proof.
  destruct toy_ok. constructor; try assumption. intros t H. destruct (ok_xml t H) as [X _]. split; [exact X|]. intros M. cbn [toyx xml_parse xml_ser]. change (xml_ser toy t) with (xml_tostring t).
  rewrite (proj2 (lxml_codec t H) M). cbn [bind]. rewrite norm_depth. unfold lxml_reads in M. apply andb_prop in M as [-> _]. reflexivity.
Qed.
Lemma toyx_deep D : D <= 256 -> refuses_deep (toyx D) D Ex_XMLSyntax.
Proof.
  intros HD t H Hd. cbn [toyx xml_parse xml_ser]. change (xml_ser toy t) with (xml_tostring t). rewrite (proj1 (lxml_codec t H)). destruct (lxml_reads (norm t)); [|reflexivity]. cbn [bind]. rewrite norm_depth.
  destruct (xml_depth t <=? D) eqn:E; [lia|reflexivity].
Qed.
Lemma o_db_openx : open_db (toyx 256) no_loss ex_w (F_path P_db) (Some $"secret") N_none None true = (Ok o_db, ex_w). Proof. vm_compute. reflexivity. Qed.
Lemma o_db_reachedx : reached (toyx 256) lit no_z no_loss o_db. Proof. exact (R_open (toyx 256) lit no_z no_loss ex_w _ _ _ _ _ _ _ ex_bytes o_db_openx). Qed.

Definition now_text : str := Eval vm_compute in match encode_time (v4 (db_in o_db)) (now clk) with Ok s => s | Err _ => [] end.
(** So the claim is false: from the database opened in the examples, calls of add_group lead to an object that every save to a file of its own writes so that it cannot be opened; and saving returns, as the group names
    and numbers fit the file format. *)
Theorem c102_refuted : exists l k d, Forall (fun c => exists p, c = (clk, Op_add_group p (Some $"g") None None)) l /\
  let o := calls lit no_z l o_db in reached (toyx 256) lit no_z no_loss o /\ o_kdbx o = Some (k, Some d) /\
  forall e w p tmp key, apart p tmp N_none -> env_ok e -> key_for (toyx 256) w (Some $"secret") N_none None (k_hdr k) = Ok key ->
    (e_open e = true -> e_room e = None -> sizes (toyx 256) (current (k, Some d)) key -> exists w', save (toyx 256) e w o (F_path p) None = (Ok tt, o, w')) /\
    forall w', save (toyx 256) e w o (F_path p) None = (Ok tt, o, w') -> exists w3, open_db (toyx 256) no_loss w' (F_path p) (Some $"secret") N_none None true = (Err Ex_XMLSyntax, w3).
Proof.
  destruct (any_depth (toyx 256) lit no_z no_loss clk now_text o_db (kdbx_in o_db) (db_in o_db) (hd O (ids_of $"Group" (db_in o_db)))) with (n := 256) as (l & d & F & Hr & Ek & E1 & E2 & E3 & Hd).
  - exact toyx_ok.
  - apply toyx_sound.
  - exact o_db_reachedx.
  - vm_compute; reflexivity.
  - apply in_docb_ok; [|vm_compute; reflexivity]. pose proof (reached_sound (toyx 256) lit no_z no_loss o_db toyx_ok (toyx_sound 256) o_db_reachedx) as So. exact (proj1 (proj1 (proj2 So))).
  - split; [apply all_bytesb_ok|]; vm_compute; reflexivity.
  - vm_compute. reflexivity.
  - exists l, (kdbx_in o_db), d. split; [exact F|]. cbv zeta. split; [exact Hr|]. split; [exact Ek|]. intros e w p tmp key A He Hk. 
    assert (E4 : o_password (calls lit no_z l o_db) = Some $"secret") by (rewrite E1; reflexivity). assert (E5 : o_keyfile (calls lit no_z l o_db) = N_none) by (rewrite E2; reflexivity).
    split.
    + intros Ho Hro Hs. apply (save_returns (toyx 256) lit no_z no_loss e w _ (F_path p) None p tmp (kdbx_in o_db) d key toyx_ok (toyx_sound 256) Hr Ek); auto; [left; reflexivity|now rewrite E5|now rewrite E4, E5].
    + intros w' Sv. apply (saved_lost (toyx 256) lit no_z no_loss e w _ (F_path p) None p tmp (kdbx_in o_db) d key w' 256 Ex_XMLSyntax toyx_ok (toyx_sound 256) (toyx_deep 256 (N.le_refl _)) Hr Ek Hd) with (w2 := w'); auto; [left; reflexivity|now rewrite E5|now rewrite E4, E5].
Qed.
Print Assumptions c102_refuted.
(** The hypotheses on file, environment and key can be met; and, computed with a parser that allows a nesting of 8: after two groups in the group "sub", one below the other, a file is saved that opens, after a third one below them a file that does not. *)
Definition nested (n : nat) : obj := calls lit no_z (firstn n [(clk, Op_add_group 52%nat (Some $"g") None None); (clk, Op_add_group 89%nat (Some $"h") None None); (clk, Op_add_group 100%nat (Some $"i") None None)]) o_db.
Definition save_nested (n : nat) : res unit * obj * world := save (toyx 8) ok_env ex_w (nested n) (F_path P_db) None.
Definition open_nested (n : nat) : res obj := fst (open_db (toyx 8) no_loss (snd (save_nested n)) (F_path P_db) (Some $"secret") N_none None true).
Definition error_of {A} (r : res A) : option exn := match r with Ok _ => None | Err e => Some e end.
Example c102_ex : apart P_db P_tmp N_none /\ env_ok ok_env /\ (exists key, key_for (toyx 256) ex_w (Some $"secret") N_none None (k_hdr (kdbx_in o_db)) = Ok key) /\
  List.length (ids_of $"Group" (db_in (nested 3))) = 5%nat /\ option_map xml_depth (document (db_in (nested 2))) = Some 8 /\ option_map xml_depth (document (db_in (nested 3))) = Some 9 /\
  error_of (fst (fst (save_nested 2))) = None /\ error_of (open_nested 2) = None /\ error_of (fst (fst (save_nested 3))) = None /\ error_of (open_nested 3) = Some Ex_XMLSyntax.
Proof.
  split; [split; [vm_compute; reflexivity|split; discriminate]|]. split; [exact ok_env_ok|]. split; [eexists; vm_compute; reflexivity|]. repeat apply conj; vm_compute; reflexivity.
Qed.
