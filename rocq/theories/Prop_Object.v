(** Property theorems about opening, saving, reloading, credentials and new databases: C20, C34-C36, C69, C80-C82 (statements;
    proofs in Object_facts.v, Object_claims.v, Object_meta.v, NoDecrypt.v).  Vocabulary in ObjectSpec.v: [reached], [key_for],
    [goes_to], [apart], [steady], [moderate], [same_contents].  A world is files and streams; [L] the external libraries, constrained
    by [lib_ok] and [xml_sound] (what the parser returns can be serialised). *)
From Verif Require Import Base Base64 PyStr Xml Tree XPath Time FindSpec FindEx Db Api ApiSpec ApiEx StructSpec CredSpec IntegritySpec Lib Keyfile Construct Kdbx KdbxSpec Kdbx_file Kdbx_claims Toy Toy_facts Save Save_facts Object Heap Cred Clean ObjectSpec Object_facts NoDecrypt Object_claims Object_meta ObjectEx.

(** ** C80: whatever calls led to the object, a successful save writes a file that opens, with every combination of credentials deriving the same key, to the contents in memory. *)
Theorem c80_saved_opens : forall L R Zl lost e w o fn tk p tmp k d w', lib_ok L -> xml_sound L -> reached L R Zl lost o -> o_kdbx o = Some (k, Some d) ->
  goes_to o fn p -> apart p tmp (o_keyfile o) -> env_ok e -> (forall key, key_for L w (o_password o) (o_keyfile o) tk (k_hdr k) = Ok key -> moderate L (current (k, Some d)) key) ->
  save L e w o fn tk = (Ok tt, o, w') ->
  exists key, key_for L w (o_password o) (o_keyfile o) tk (k_hdr k) = Ok key /\
  forall w2 pw2 kf2 tk2, w_fs w2 p = w_fs w' p -> key_for L w2 pw2 kf2 tk2 (k_hdr k) = Ok key ->
    exists o2 w3, open_db L lost w2 (F_path p) pw2 kf2 tk2 true = (Ok o2, w3) /\ same_contents k d o2 /\ o_password o2 = pw2 /\ o_keyfile o2 = kf2 /\ o_filename o2 = Some (F_path p).
Proof. exact saved_opens'. Qed.
Print Assumptions c80_saved_opens.
(** In particular with the same credentials, provided the key file can still be read. *)
Theorem c80_same_credentials : forall L R Zl lost e w o fn tk p tmp k d w', lib_ok L -> xml_sound L -> reached L R Zl lost o -> o_kdbx o = Some (k, Some d) ->
  goes_to o fn p -> apart p tmp (o_keyfile o) -> steady w p (o_keyfile o) -> env_ok e -> (forall key, key_for L w (o_password o) (o_keyfile o) tk (k_hdr k) = Ok key -> moderate L (current (k, Some d)) key) ->
  save L e w o fn tk = (Ok tt, o, w') ->
  exists o2 w3, open_db L lost w' (F_path p) (o_password o) (o_keyfile o) tk true = (Ok o2, w3) /\ same_contents k d o2 /\ o_password o2 = o_password o /\ o_keyfile o2 = o_keyfile o /\ o_filename o2 = Some (F_path p).
Proof. exact saved_reopens. Qed.
Print Assumptions c80_same_credentials.
(** reload after save keeps the contents. *)
Theorem c80_reload : forall L R Zl lost e w o p tmp k d w', lib_ok L -> xml_sound L -> reached L R Zl lost o -> o_kdbx o = Some (k, Some d) -> o_filename o = Some (F_path p) ->
  apart p tmp (o_keyfile o) -> steady w p (o_keyfile o) -> env_ok e -> (forall key, key_for L w (o_password o) (o_keyfile o) None (k_hdr k) = Ok key -> moderate L (current (k, Some d)) key) ->
  save L e w o F_none None = (Ok tt, o, w') ->
  exists o2 w3, reload L lost w' o = (Ok tt, o2, w3) /\ same_contents k d o2 /\ o_password o2 = o_password o /\ o_keyfile o2 = o_keyfile o /\ o_filename o2 = o_filename o.
Proof. exact saved_reloads. Qed.
Print Assumptions c80_reload.
(** Saving returns if the directory is writable, the device has room and the credentials give a key. *)
Theorem c80_save_returns : forall L R Zl lost e w o fn tk p tmp k d key, lib_ok L -> xml_sound L -> reached L R Zl lost o -> o_kdbx o = Some (k, Some d) ->
  goes_to o fn p -> apart p tmp (o_keyfile o) -> e_open e = true -> e_room e = None -> key_for L w (o_password o) (o_keyfile o) tk (k_hdr k) = Ok key -> sizes L (current (k, Some d)) key ->
  exists w', save L e w o fn tk = (Ok tt, o, w').
Proof. exact save_returns. Qed.
Print Assumptions c80_save_returns.
(** The entry "shop" is added to a database opened before, which is then saved to its file; so for KDBX 3. *)
Definition add_shop (o : obj) : obj := snd (call (IntegritySpec.run lit no_z clk (Op_add_entry (hd O (ids_of $"Group" (db_in o))) (Some $"shop") (Some $"ann") (Some $"pw") None None None T_none None None false)) o).
Definition o_edit : obj := Eval vm_compute in add_shop o_db.
Definition o_edit3 : obj := Eval vm_compute in add_shop o_v3.
Lemma o_edit_reached : reached toy lit no_z no_loss o_edit /\ reached toy lit no_z no_loss o_edit3.
Proof. split; [replace o_edit with (add_shop o_db) by (vm_compute; reflexivity)|replace o_edit3 with (add_shop o_v3) by (vm_compute; reflexivity)]; apply R_call; try exact I; [exact o_db_reached|exact o_v3_reached]. Qed.
Definition titles (o : obj) : list (option str) := map (fun t => etext t) (filter (fun t => str_eqb (etag t) $"Value") (elements (d_forest (db_in o)))).
Definition save_ex (o : obj) : res unit * obj * world := save toy ok_env ex_w o F_none None.
Example c80_ex : List.length (titles o_edit) = S (S (S (List.length (titles o_db)))) /\
  (goes_to o_edit F_none P_db /\ apart P_db P_tmp (o_keyfile o_edit) /\ steady ex_w P_db (o_keyfile o_edit) /\
    (exists key, key_for toy ex_w (o_password o_edit) (o_keyfile o_edit) None (k_hdr (kdbx_in o_edit)) = Ok key /\ moderate toy (current (kdbx_in o_edit, Some (db_in o_edit))) key) /\
    fst (fst (save_ex o_edit)) = Ok tt /\ titles (result (open_db toy no_loss (snd (save_ex o_edit)) (F_path P_db) (Some $"secret") N_none None true)) = titles o_edit) /\
  (goes_to o_edit3 F_none P_v3 /\ h_major (k_hdr (kdbx_in o_edit3)) = 3 /\
    (exists key, key_for toy ex_w (o_password o_edit3) (o_keyfile o_edit3) None (k_hdr (kdbx_in o_edit3)) = Ok key /\ moderate toy (current (kdbx_in o_edit3, Some (db_in o_edit3))) key) /\
    fst (fst (save_ex o_edit3)) = Ok tt /\ titles (result (open_db toy no_loss (snd (save_ex o_edit3)) (F_path P_v3) (Some $"secret") N_none None true)) = titles o_edit3).
Proof.
  split; [vm_compute; reflexivity|]. split.
  - split; [right; split; vm_compute; reflexivity|]. split; [split; [vm_compute; reflexivity|split; vm_compute; discriminate]|]. split; [vm_compute; exact I|]. split; [eexists; split; [vm_compute; reflexivity|apply moderateb_ok; vm_compute; reflexivity]|]. split; vm_compute; reflexivity.
  - split; [right; split; vm_compute; reflexivity|]. split; [reflexivity|]. split; [eexists; split; [vm_compute; reflexivity|apply moderateb_ok; vm_compute; reflexivity]|]. split; vm_compute; reflexivity.
Qed.
(** Without the two conditions on the key file the claim is false: a key file given as a stream that cannot be rewound is read to its
    end by open, so save derives the key from an empty key file; and a key file named like the temporary sibling of the database is
    truncated by save before it is read.  In both cases save returns and the file does not open with the credentials in use. *)
Theorem c80_keyfile_refuted :
  (exists o w1 w', open_db toy no_loss ex_w (F_path P_keyed3) (Some $"secret") (N_stream O) None true = (Ok o, w1) /\ save toy ok_env w1 o F_none None = (Ok tt, o, w') /\
     fst (open_db toy no_loss (with_stream w' O (w_st ex_w O)) (F_path P_keyed3) (Some $"secret") (N_stream O) None true) = Err Ex_Credentials) /\
  (exists o w1 w', open_db toy no_loss ex_w (F_path P_keyed) (Some $"secret") (N_path P_ktmp) None true = (Ok o, w1) /\ save toy ok_env w1 o F_none None = (Ok tt, o, w') /\ w_fs w' P_ktmp = None /\
     fst (open_db toy no_loss (with_fs w' (fs_set (w_fs w') P_ktmp (Some key_data))) (F_path P_keyed) (Some $"secret") (N_path P_ktmp) None true) = Err Ex_Credentials).
Proof. split; eexists _, _, _; (split; [apply open_is; vm_compute; reflexivity|]); (split; [apply save_is; vm_compute; reflexivity|]); [|split]; vm_compute; reflexivity. Qed.
Print Assumptions c80_keyfile_refuted.

Definition tkey_of (o : obj) : bytes := match transformed_key o with Ok k => k | Err _ => [] end.
(** ** C81: the transformed key read from an opened database opens the file it was read from. *)
Theorem c81_transformed_key_opens : forall L lost w p pw kf tk o w' key, lib_ok L -> xml_sound L -> bytes_world w -> open_db L lost w (F_path p) pw kf tk true = (Ok o, w') -> transformed_key o = Ok key ->
  forall w2, w_fs w2 p = w_fs w p -> exists o2 w3, open_db L lost w2 (F_path p) None N_none (Some key) true = (Ok o2, w3) /\ o_kdbx o2 = o_kdbx o.
Proof. exact tkey_opens. Qed.
Print Assumptions c81_transformed_key_opens.
Example c81_ex : exists key, transformed_key o_db = Ok key /\ o_kdbx (result (open_db toy no_loss ex_w (F_path P_db) None N_none (Some key) true)) = o_kdbx o_db.
Proof. exists (tkey_of o_db). split; vm_compute; reflexivity. Qed.
(** ** C82: the attribute still opens the file after changes of the contents and a save, if the database was opened with password and key file and the key file reads the same. *)
Theorem c82_after_save_partial : forall L R Zl lost w f pw kf o w0 key l e w1 fn p tmp w' k d, lib_ok L -> xml_sound L -> bytes_world w -> open_db L lost w f pw kf None true = (Ok o, w0) -> transformed_key o = Ok key ->
  Forall (fun c => fits_call (snd c)) l -> o_kdbx (calls R Zl l o) = Some (k, Some d) -> same_kf (kf_src w1 kf) (kf_src w kf) ->
  goes_to (calls R Zl l o) fn p -> apart p tmp kf -> env_ok e -> moderate L (current (k, Some d)) key -> save L e w1 (calls R Zl l o) fn None = (Ok tt, calls R Zl l o, w') ->
  transformed_key (calls R Zl l o) = Ok key /\ forall w2, w_fs w2 p = w_fs w' p -> exists o2 w3, open_db L lost w2 (F_path p) None N_none (Some key) true = (Ok o2, w3) /\ same_contents k d o2.
Proof. exact tkey_after_save. Qed.
Print Assumptions c82_after_save_partial.
Definition shop_op (o : obj) : op := Op_add_entry (hd O (ids_of $"Group" (db_in o))) (Some $"shop") (Some $"ann") (Some $"pw") None None None T_none None None false.
Example c82_ex : Forall (fun c => fits_call (snd c)) [(clk, shop_op o_db)] /\ calls lit no_z [(clk, shop_op o_db)] o_db = o_edit /\ same_kf (kf_src ex_w N_none) (kf_src ex_w N_none) /\
  titles (result (open_db toy no_loss (snd (save_ex o_edit)) (F_path P_db) None N_none (Some (tkey_of o_db)) true)) = titles o_edit.
Proof. split; [repeat constructor|]. split; [vm_compute; reflexivity|]. split; [split; reflexivity|]. vm_compute. reflexivity. Qed.
(** Missing: after a change of password and a save the attribute is still the old key, which does not open the file. *)
Definition o_newpw : obj := snd (set_pw lit clk.(now) (Some $"changed") o_db).
Theorem c82_after_save_refuted : exists w' key, save toy ok_env ex_w o_newpw F_none None = (Ok tt, o_newpw, w') /\ transformed_key o_newpw = Ok key /\
  fst (open_db toy no_loss w' (F_path P_db) None N_none (Some key) true) = Err Ex_Credentials.
Proof. eexists _, (tkey_of o_db). split; [apply save_is; vm_compute; reflexivity|]. split; vm_compute; reflexivity. Qed.
Print Assumptions c82_after_save_refuted.

(** ** C35: false: save() derives the key from password and key file again, which were not given. *)
Theorem c35_saved_with_own_key_refuted : exists key o w1 w', open_db toy no_loss ex_w (F_path P_db) None N_none (Some key) true = (Ok o, w1) /\ save toy ok_env w1 o F_none None = (Ok tt, o, w') /\
  fst (open_db toy no_loss w' (F_path P_db) None N_none (Some key) true) = Err Ex_Credentials.
Proof.
  exists (tkey_of o_db). eexists _, _, _. split; [apply open_is; vm_compute; reflexivity|]. split; [apply save_is; vm_compute; reflexivity|vm_compute; reflexivity].
Qed.
Print Assumptions c35_saved_with_own_key_refuted.
(** What is missing above: the key has to be passed to save again, save(transformed_key=k). *)
Theorem c35_explicit_key_partial : forall L R Zl lost e w o fn key p tmp k d w', lib_ok L -> xml_sound L -> reached L R Zl lost o -> o_kdbx o = Some (k, Some d) ->
  goes_to o fn p -> apart p tmp (o_keyfile o) -> env_ok e -> moderate L (current (k, Some d)) key ->
  save L e w o fn (Some key) = (Ok tt, o, w') ->
  forall w2, w_fs w2 p = w_fs w' p -> exists o2 w3, open_db L lost w2 (F_path p) None N_none (Some key) true = (Ok o2, w3) /\ same_contents k d o2.
Proof. exact saved_with_key. Qed.
Print Assumptions c35_explicit_key_partial.
Example c35_ex : exists key w', transformed_key o_db = Ok key /\ moderate toy (current (kdbx_in o_edit, Some (db_in o_edit))) key /\ save toy ok_env ex_w o_edit F_none (Some key) = (Ok tt, o_edit, w') /\
  titles (result (open_db toy no_loss w' (F_path P_db) None N_none (Some key) true)) = titles o_edit.
Proof. exists (tkey_of o_db). eexists. split; [vm_compute; reflexivity|]. split; [apply moderateb_ok; vm_compute; reflexivity|]. split; [apply save_is; vm_compute; reflexivity|vm_compute; reflexivity]. Qed.

(** ** C36: a failing read keeps the contents and every file, a failing reload the whole object. *)
Theorem c36_failed_read_partial : forall L lost w o fn pw kf tk dec x o' w', read L lost w o fn pw kf tk dec = (Err x, o', w') -> o_kdbx o' = o_kdbx o /\ w_fs w' = w_fs w.
Proof. exact read_fails. Qed.
Print Assumptions c36_failed_read_partial.
Theorem c36_failed_reload : forall L lost w o x o' w', reload L lost w o = (Err x, o', w') -> o' = o /\ w_fs w' = w_fs w.
Proof. exact reload_fails. Qed.
Print Assumptions c36_failed_reload.
(** Missing: file name and credentials are replaced even so.  A following save() overwrites the file that could not be read with the contents of the first, under the wrong password. *)
Theorem c36_failed_read_refuted : exists o' w1 w', read toy no_loss ex_w o_db (F_path P_other) (Some $"wrong") N_none None true = (Err Ex_Credentials, o', w1) /\
  o_filename o' = Some (F_path P_other) /\ o_password o' = Some $"wrong" /\ save toy ok_env w1 o' F_none None = (Ok tt, o', w') /\
  fst (open_db toy no_loss w1 (F_path P_other) (Some $"other") N_none None true) <> Err Ex_Credentials /\ fst (open_db toy no_loss w' (F_path P_other) (Some $"other") N_none None true) = Err Ex_Credentials /\
  titles (result (open_db toy no_loss w' (F_path P_other) (Some $"wrong") N_none None true)) = titles o_db.
Proof. eexists _, _, _. split; [apply read_is; vm_compute; reflexivity|]. split; [vm_compute; reflexivity|]. split; [vm_compute; reflexivity|]. split; [apply save_is; vm_compute; reflexivity|]. split; [vm_compute; discriminate|]. split; vm_compute; reflexivity. Qed.
Print Assumptions c36_failed_read_refuted.
Example c36_ex : fst (fst (reload toy no_loss (with_fs ex_w (fs_set ex_fs P_db (Some [1; 2]))) o_db)) = Err Ex_Stream.
Proof. vm_compute. reflexivity. Qed.

(** ** C34: a new database opens with the password and key file given. *)
Theorem c34_create_opens_partial : forall L R (Zl : zlib) lost e w blank_at t1 t2 p tmp pw kf tk o w', lib_ok L -> xml_sound L -> bytes_world w -> tk = None \/ tk = Some [] -> apart p tmp kf -> steady w p kf -> env_ok e ->
  (forall k d key, o_kdbx o = Some (k, Some d) -> key_for L w pw kf None (k_hdr k) = Ok key -> moderate L (current (k, Some d)) key) ->
  create_database L R lost e w blank_at t1 t2 (F_path p) pw kf tk = (Ok o, w') ->
  exists k d, o_kdbx o = Some (k, Some d) /\ exists o2 w3, open_db L lost w' (F_path p) pw kf None true = (Ok o2, w3) /\ same_contents k d o2 /\ o_password o2 = pw /\ o_keyfile o2 = kf /\ o_filename o2 = Some (F_path p).
Proof. exact create_opens. Qed.
Print Assumptions c34_create_opens_partial.
(** With a transformed key nothing is ever created: the key is passed to save as the file name. *)
Theorem c34_transformed_key_never : forall L R lost e w blank_at t1 t2 fn pw kf c b r w', create_database L R lost e w blank_at t1 t2 fn pw kf (Some (c :: b)) = (r, w') -> (exists x, r = Err x) /\ w_fs w' = w_fs w.
Proof. exact create_tk. Qed.
Print Assumptions c34_transformed_key_never.
Definition creating (tk : option bytes) : res obj * world := create_database toy lit no_loss ok_env ex_w P_blank (now clk) (now clk) (F_path P_new) (Some $"mine") (N_path P_key) tk.
Theorem c34_create_refuted : exists tk, fst (creating (Some tk)) = Err Ex_Type /\ w_fs (snd (creating (Some tk))) P_new = None.
Proof. exists (repeat 5 32). split; vm_compute; reflexivity. Qed.
Print Assumptions c34_create_refuted.
Example c34_ex : exists o w', creating None = (Ok o, w') /\ steady ex_w P_new (N_path P_key) /\ (forall key, key_for toy ex_w (Some $"mine") (N_path P_key) None (k_hdr (kdbx_in o)) = Ok key -> moderate toy (current (kdbx_in o, Some (db_in o))) key) /\
  fst (open_db toy no_loss w' (F_path P_new) (Some $"mine") N_none None true) = Err Ex_Credentials /\ titles (result (open_db toy no_loss w' (F_path P_new) (Some $"mine") (N_path P_key) None true)) = titles o.
Proof.
  exists (result (creating None)), (snd (creating None)). split; [apply open_is; vm_compute; reflexivity|]. split; [vm_compute; discriminate|]. split; [intros key K; vm_compute in K; injection K as <-; apply moderateb_ok; vm_compute; reflexivity|]. split; vm_compute; reflexivity.
Qed.

(** ** C69: after a change of password the file saved opens with the new credentials, records the time, and refuses (KDBX 4) credentials giving another key, collisions of the keyed hash aside. *)
Theorem c69_password : forall L R Zl lost t o k d i pw, lib_ok L -> xml_sound L -> reached L R Zl lost o -> o_kdbx o = Some (k, Some d) -> setting d $"MasterKeyChanged" [i] -> present t ->
  exists o1 d1, set_pw R t pw o = (Ok tt, o1) /\ o_kdbx o1 = Some (k, Some d1) /\ ApiSpec.only [i] d d1 /\ o_password o1 = pw /\ o_keyfile o1 = o_keyfile o /\ o_filename o1 = o_filename o /\
  forall e w fn p tmp w', goes_to o1 fn p -> apart p tmp (o_keyfile o) -> env_ok e -> (forall key, key_for L w pw (o_keyfile o) None (k_hdr k) = Ok key -> moderate L (current (k, Some d1)) key) ->
    save L e w o1 fn None = (Ok tt, o1, w') -> bytes_world w' -> exists key, key_for L w pw (o_keyfile o) None (k_hdr k) = Ok key /\ keyed L R lost w' p k d1 key t.
Proof. exact password_change. Qed.
Print Assumptions c69_password.
Theorem c69_keyfile : forall L R Zl lost t o k d i kf, lib_ok L -> xml_sound L -> reached L R Zl lost o -> o_kdbx o = Some (k, Some d) -> setting d $"MasterKeyChanged" [i] -> present t ->
  exists o1 d1, set_kf R t kf o = (Ok tt, o1) /\ o_kdbx o1 = Some (k, Some d1) /\ ApiSpec.only [i] d d1 /\ o_password o1 = o_password o /\ o_keyfile o1 = kf /\ o_filename o1 = o_filename o /\
  forall e w fn p tmp w', goes_to o1 fn p -> apart p tmp kf -> env_ok e -> (forall key, key_for L w (o_password o) kf None (k_hdr k) = Ok key -> moderate L (current (k, Some d1)) key) ->
    save L e w o1 fn None = (Ok tt, o1, w') -> bytes_world w' -> exists key, key_for L w (o_password o) kf None (k_hdr k) = Ok key /\ keyed L R lost w' p k d1 key t.
Proof. exact keyfile_change. Qed.
Print Assumptions c69_keyfile.
Example c69_ex : (exists i, setting (db_in o_db) $"MasterKeyChanged" [i]) /\ present (now clk) /\
  exists w', save toy ok_env ex_w o_newpw F_none None = (Ok tt, o_newpw, w') /\ bytes_world w' /\ (forall key, key_for toy ex_w (Some $"changed") N_none None (k_hdr (kdbx_in o_newpw)) = Ok key -> moderate toy (current (kdbx_in o_newpw, Some (db_in o_newpw))) key) /\
  fst (open_db toy no_loss w' (F_path P_db) (Some $"secret") N_none None true) = Err Ex_Credentials /\
  fst (credchange_date lit (db_in (result (open_db toy no_loss w' (F_path P_db) (Some $"changed") N_none None true)))) = Ok (Some (now clk)).
Proof.
  split; [|split].
  - eexists. eexists _, _. split; [vm_compute; reflexivity|]. split; [eexists; split; vm_compute; reflexivity|]. split; vm_compute; reflexivity.
  - split; [apply dt_validb_ok; reflexivity|]. split; [reflexivity|]. eexists. split; [vm_compute; reflexivity|]. vm_compute. split; [discriminate|reflexivity].
  - assert (Fr : forall q, P_db <> q -> P_tmp <> q -> w_fs (snd (save toy ok_env ex_w o_newpw F_none None)) q = w_fs ex_w q).
    { intros q N1 N2. assert (A : apart P_db P_tmp (o_keyfile o_newpw)) by (split; [vm_compute; reflexivity|split; vm_compute; discriminate]). rewrite (save_path toy ok_env ex_w o_newpw F_none None P_db (kdbx_in o_newpw, Some (db_in o_newpw)) P_tmp (or_intror (conj eq_refl eq_refl)) eq_refl A). cbn [snd]. rewrite kf_after_fs. cbn [with_fs w_fs]. set (b := fst (build_kdbx _ _ _)). clearbody b.
      rewrite <- (firstn_all (fst (save_ops ok_env _ _ _ _))). apply save_frame; [congruence|]. intros tmp E. assert (E' : tmp_of P_db = Ok P_tmp) by (vm_compute; reflexivity). congruence. }
    exists (snd (save toy ok_env ex_w o_newpw F_none None)). split; [|split; [|split; [|split]]].
    + apply save_is. vm_compute. reflexivity.
    + split; [|intros n; vm_compute; repeat constructor]. intros q b. destruct (Save.path_eqb P_db q) eqn:E1; [apply path_eqb_eq in E1; subst q|destruct (Save.path_eqb P_tmp q) eqn:E2; [apply path_eqb_eq in E2; subst q|]].
      * intros H. apply all_bytesb_ok. vm_compute in H. injection H as <-. vm_compute. reflexivity.
      * vm_compute. discriminate.
      * rewrite Fr; [apply ex_bytes|intros <-; rewrite path_eqb_refl in E1; discriminate|intros <-; rewrite path_eqb_refl in E2; discriminate].
    + intros key K. vm_compute in K. injection K as <-. apply moderateb_ok. vm_compute. reflexivity.
    + vm_compute. reflexivity.
    + vm_compute. reflexivity.
Qed.

(** ** C20, the rest: with decrypt=False opening never blames credentials or payload (the libraries raising their own exceptions only), ... *)
Theorem c20_no_credential_error : forall L lost w fn pw kf tk x w', libs_calm L -> open_db L lost w fn pw kf tk false = (Err x, w') -> x <> Ex_Credentials /\ x <> Ex_PayloadChecksum.
Proof. exact nodec_error. Qed.
Print Assumptions c20_no_credential_error.
(** ... asking for the payload, and every call on the contents, raises ValueError, and so nothing can be saved over a file ... *)
Theorem c20_no_payload : forall L lost w fn pw kf tk o w' n m, open_db L lost w fn pw kf tk false = (Ok o, w') -> version o = Ok (n, m) -> n = 3 \/ n = 4 ->
  payload_of o = Err Ex_Value /\ (forall A (f : M A), call f o = (Err Ex_Value, o)) /\
  forall e w2 f2 tk2 p tmp, goes_to o f2 p -> apart p tmp kf -> exists x w3, save L e w2 o f2 tk2 = (Err x, o, w3) /\ w_fs w3 p = w_fs w2 p.
Proof. exact nodec_object. Qed.
Print Assumptions c20_no_payload.
(** ... and the header properties are those of a full open; of the same credentials also the transformed key. *)
Theorem c20_header_properties : forall L lost w fn pw1 kf1 tk1 dec1 o1 w1 pw2 kf2 tk2 dec2 o2 w2, open_db L lost w fn pw1 kf1 tk1 dec1 = (Ok o1, w1) -> open_db L lost w fn pw2 kf2 tk2 dec2 = (Ok o2, w2) ->
  version o1 = version o2 /\ encryption_algorithm o1 = encryption_algorithm o2 /\ database_salt o1 = database_salt o2 /\ kdf_algorithm o1 = kdf_algorithm o2 /\ (pw1 = pw2 -> kf1 = kf2 -> tk1 = tk2 -> transformed_key o1 = transformed_key o2).
Proof. exact nodec_header. Qed.
Print Assumptions c20_header_properties.
(** Libraries as in the other examples, with no key file in XML. *)
Definition calm_lib : lib := {| sha256 := sha256 toy; sha512 := sha512 toy; hmac256 := hmac256 toy; aes_enc := aes_enc toy; aes_dec := aes_dec toy; chacha_ks := chacha_ks toy; salsa_ks := salsa_ks toy; argon2 := argon2 toy; gzip := gzip toy; gunzip := gunzip toy;
  xml_parse := xml_parse toy; xml_ser := xml_ser toy; kf_parse := fun _ => Err Ex_XMLSyntax |}.
Example c20_object_ex : libs_calm calm_lib /\ (exists o w', open_db toy no_loss ex_w (F_path P_db) (Some $"wrong") N_none None false = (Ok o, w') /\ version o = Ok (4, 0 + 1) /\ payload_of o = Err Ex_Value /\
    kdf_algorithm o = kdf_algorithm o_db /\ encryption_algorithm o = Ok C_chacha) /\
  fst (open_db toy no_loss ex_w (F_path P_db) (Some $"wrong") N_none None true) = Err Ex_Credentials /\ fst (open_db calm_lib no_loss ex_w (F_path P_key) None N_none None false) = Err Ex_HeaderChecksum.
Proof. split; [split; intros; exact I|]. split; [eexists _, _; split; [apply open_is; vm_compute; reflexivity|]; vm_compute; repeat split|]. split; vm_compute; reflexivity. Qed.
