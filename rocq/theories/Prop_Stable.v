(** Property theorems about saving what was saved and opened: C99 (statements; proofs in Stable.v).  [compact] (Stable.v) is a
    document without empty texts and without white space in front of child elements; the rest of the vocabulary is ObjectSpec.v's. *)
From Verif Require Import Base Base64 PyStr Xml Tree XPath Time FindSpec FindEx Db Api ApiSpec ApiEx StructSpec IntegritySpec Lib Keyfile Construct Kdbx KdbxSpec Kdbx_file Kdbx_claims Toy Toy_facts Save Save_facts Object ObjectSpec Object_facts Object_claims ObjectEx Stable.

(** Whatever calls led to the object: a file written by save, opened and saved again (anywhere, later, with credentials deriving the
    same key) has the same bytes, if the document in memory at the first save was as it is read back ... *)
Theorem c99_same_bytes : forall L R Zl lost e w o fn tk p tmp k d key w', lib_ok L -> xml_sound L -> reached L R Zl lost o -> o_kdbx o = Some (k, Some d) ->
  goes_to o fn p -> apart p tmp (o_keyfile o) -> env_ok e -> key_for L w (o_password o) (o_keyfile o) tk (k_hdr k) = Ok key -> moderate L (current (k, Some d)) key ->
  save L e w o fn tk = (Ok tt, o, w') -> option_map (shown k) (document d) = document d ->
  forall w2 pw2 kf2 tk2 o2 w3, w_fs w2 p = w_fs w' p -> key_for L w2 pw2 kf2 tk2 (k_hdr k) = Ok key -> open_db L lost w2 (F_path p) pw2 kf2 tk2 true = (Ok o2, w3) ->
  forall e2 w4 fn2 tk4 q tmp2 w5, goes_to o2 fn2 q -> apart q tmp2 kf2 -> env_ok e2 -> key_for L w4 pw2 kf2 tk4 (k_hdr k) = Ok key -> save L e2 w4 o2 fn2 tk4 = (Ok tt, o2, w5) ->
  w_fs w5 q = w_fs w' p.
Proof. exact same_bytes. Qed.
Print Assumptions c99_same_bytes.
(** ... which it is if it has no empty texts and no white space between elements, *)
Theorem c99_compact : forall k t, compact t -> shown k t = t.
Proof. exact compact_shown. Qed.
Print Assumptions c99_compact.
(** ... and always is after opening a saved file. *)
Theorem c99_settles : forall L R Zl lost e w o fn tk p tmp k d key w', lib_ok L -> xml_sound L -> reached L R Zl lost o -> o_kdbx o = Some (k, Some d) ->
  goes_to o fn p -> apart p tmp (o_keyfile o) -> env_ok e -> key_for L w (o_password o) (o_keyfile o) tk (k_hdr k) = Ok key -> moderate L (current (k, Some d)) key ->
  save L e w o fn tk = (Ok tt, o, w') ->
  forall w2 pw2 kf2 tk2 o2 w3, w_fs w2 p = w_fs w' p -> key_for L w2 pw2 kf2 tk2 (k_hdr k) = Ok key -> open_db L lost w2 (F_path p) pw2 kf2 tk2 true = (Ok o2, w3) ->
  exists k2 d2, o_kdbx o2 = Some (k2, Some d2) /\ k_hdr k2 = k_hdr k /\ option_map (shown k2) (document d2) = document d2.
Proof. exact settles. Qed.
Print Assumptions c99_settles.
(** So without any condition on the document: save, open, save, open, save; the last two saves write the same bytes. *)
Theorem c99_round_trips : forall L R Zl lost e w o fn tk p tmp k d key w', lib_ok L -> xml_sound L -> reached L R Zl lost o -> o_kdbx o = Some (k, Some d) ->
  goes_to o fn p -> apart p tmp (o_keyfile o) -> env_ok e -> key_for L w (o_password o) (o_keyfile o) tk (k_hdr k) = Ok key -> moderate L (current (k, Some d)) key ->
  save L e w o fn tk = (Ok tt, o, w') ->
  forall w2 o2 w3, w_fs w2 p = w_fs w' p -> bytes_world w2 -> open_db L lost w2 (F_path p) None N_none (Some key) true = (Ok o2, w3) -> (forall k2 d2, o_kdbx o2 = Some (k2, Some d2) -> moderate L (current (k2, Some d2)) key) ->
  forall e2 w4 w5, env_ok e2 -> save L e2 w4 o2 F_none (Some key) = (Ok tt, o2, w5) ->
  forall w6 o3 w7, w_fs w6 p = w_fs w5 p -> open_db L lost w6 (F_path p) None N_none (Some key) true = (Ok o3, w7) ->
  forall e3 w8 w9, env_ok e3 -> save L e3 w8 o3 F_none (Some key) = (Ok tt, o3, w9) ->
  w_fs w9 p = w_fs w5 p.
Proof. exact round_trips. Qed.
Print Assumptions c99_round_trips.

(** A database is opened, an entry is deleted resp. an entry is added (whose auto-type sequences are empty texts in memory), and saved. *)
Definition st_cut : obj := Eval vm_compute in snd (call (IntegritySpec.run lit no_z clk (Op_delete (hd O (ids_of $"Entry" (db_in o_db))))) o_db).
Definition st_add : obj := Eval vm_compute in snd (call (IntegritySpec.run lit no_z clk (Op_add_entry (hd O (ids_of $"Group" (db_in o_db))) (Some $"shop") (Some $"ann") (Some $"pw") None None None T_none None None false)) o_db).
Definition st_save (w : world) (o : obj) : res unit * obj * world := save toy ok_env w o F_none None.
Definition st_open (w : world) : res obj * world := open_db toy no_loss w (F_path P_db) (Some $"secret") N_none None true.
Definition bytes_at (w : world) : bytes := match w_fs w P_db with Some b => b | None => [] end.
Definition again (w : world) : world := snd (st_save w (result (st_open w))).
Definition st_w (o : obj) : world := snd (st_save ex_w o).
Lemma st_reached : reached toy lit no_z no_loss st_cut /\ reached toy lit no_z no_loss st_add.
Proof.
  split; [replace st_cut with (snd (call (IntegritySpec.run lit no_z clk (Op_delete (hd O (ids_of $"Entry" (db_in o_db))))) o_db)) by (vm_compute; reflexivity)|
          replace st_add with (snd (call (IntegritySpec.run lit no_z clk (Op_add_entry (hd O (ids_of $"Group" (db_in o_db))) (Some $"shop") (Some $"ann") (Some $"pw") None None None T_none None None false)) o_db)) by (vm_compute; reflexivity)];
    apply R_call; try exact I; exact o_db_reached.
Qed.
(** The hypotheses hold; the file differs from the one opened first and stays the same afterwards. *)
Example c99_ex : reached toy lit no_z no_loss st_cut /\ o_kdbx st_cut = Some (kdbx_in st_cut, Some (db_in st_cut)) /\ goes_to st_cut F_none P_db /\ apart P_db P_tmp (o_keyfile st_cut) /\ env_ok ok_env /\
  (exists key, key_for toy ex_w (o_password st_cut) (o_keyfile st_cut) None (k_hdr (kdbx_in st_cut)) = Ok key /\ moderate toy (current (kdbx_in st_cut, Some (db_in st_cut))) key) /\
  fst (fst (st_save ex_w st_cut)) = Ok tt /\ option_map (shown (kdbx_in st_cut)) (document (db_in st_cut)) = document (db_in st_cut) /\
  bytes_at (st_w st_cut) <> bytes_at ex_w /\ bytes_at (again (st_w st_cut)) = bytes_at (st_w st_cut).
Proof.
  split; [exact (proj1 st_reached)|]. split; [vm_compute; reflexivity|]. split; [right; split; vm_compute; reflexivity|]. split; [split; [vm_compute; reflexivity|split; vm_compute; discriminate]|]. split; [exact ok_env_ok|].
  split; [eexists; split; [vm_compute; reflexivity|apply moderateb_ok; vm_compute; reflexivity]|]. split; [vm_compute; reflexivity|]. split; [vm_compute; reflexivity|]. split; [|vm_compute; reflexivity].
  intros H. apply (f_equal (@List.length N)) in H. revert H. vm_compute. discriminate.
Qed.
(** Without the condition the claim is false of the first two saves: after add_entry, saving writes other bytes than saving what that
    file opens as (the empty texts are written <a></a>, read back as no text and written <a/>). *)
Theorem c99_first_save_refuted : exists o, reached toy lit no_z no_loss o /\ goes_to o F_none P_db /\ fst (fst (st_save ex_w o)) = Ok tt /\
  (exists o2, fst (st_open (st_w o)) = Ok o2 /\ fst (fst (st_save (st_w o) o2)) = Ok tt /\ bytes_at (snd (st_save (st_w o) o2)) <> bytes_at (st_w o)) /\
  bytes_at (again (again (st_w o))) = bytes_at (again (st_w o)).
Proof.
  exists st_add. split; [exact (proj2 st_reached)|]. split; [right; split; vm_compute; reflexivity|]. split; [vm_compute; reflexivity|]. split; [|vm_compute; reflexivity].
  exists (result (st_open (st_w st_add))). split; [vm_compute; reflexivity|]. split; [vm_compute; reflexivity|]. intros H. apply (f_equal (@List.length N)) in H. revert H. vm_compute. discriminate.
Qed.
Print Assumptions c99_first_save_refuted.
