(** Property theorems about several objects on one file: C100 (statements; proofs in Shared.v). *)
From Verif Require Import Base Base64 PyStr Xml Tree XPath Time FindSpec FindEx Db Api ApiSpec ApiEx StructSpec IntegritySpec Lib Keyfile Construct Kdbx KdbxSpec Kdbx_file Kdbx_claims Toy Toy_facts Save Save_facts Object ObjectSpec Object_facts Object_claims ObjectEx Shared.

(** What save writes depends on the object and the derived key alone: saving one object twice, in any two states of files and streams
    (other contents at the target, other saves in between) and to any two paths, writes the same bytes. *)
Theorem c100_save_alone : forall L R Zl lost e1 e2 w1 w2 o fn1 fn2 tk1 tk2 p1 p2 tmp1 tmp2 k d w1' w2', lib_ok L -> xml_sound L -> reached L R Zl lost o -> o_kdbx o = Some (k, Some d) ->
  goes_to o fn1 p1 -> goes_to o fn2 p2 -> apart p1 tmp1 (o_keyfile o) -> apart p2 tmp2 (o_keyfile o) -> env_ok e1 -> env_ok e2 ->
  key_for L w2 (o_password o) (o_keyfile o) tk2 (k_hdr k) = key_for L w1 (o_password o) (o_keyfile o) tk1 (k_hdr k) ->
  save L e1 w1 o fn1 tk1 = (Ok tt, o, w1') -> save L e2 w2 o fn2 tk2 = (Ok tt, o, w2') -> w_fs w2' p2 = w_fs w1' p1.
Proof. exact save_alone. Qed.
Print Assumptions c100_save_alone.
(** After one object has saved, reload of another object with this path and credentials deriving the same key gives the saved contents. *)
Theorem c100_other_reload : forall L R Zl lost e w o1 fn tk p tmp k1 d1 w1 key o2, lib_ok L -> xml_sound L -> reached L R Zl lost o1 -> o_kdbx o1 = Some (k1, Some d1) ->
  goes_to o1 fn p -> apart p tmp (o_keyfile o1) -> env_ok e -> key_for L w (o_password o1) (o_keyfile o1) tk (k_hdr k1) = Ok key -> moderate L (current (k1, Some d1)) key ->
  save L e w o1 fn tk = (Ok tt, o1, w1) -> o_filename o2 = Some (F_path p) ->
  forall w2, w_fs w2 p = w_fs w1 p -> key_for L w2 (o_password o2) (o_keyfile o2) None (k_hdr k1) = Ok key ->
  exists o3 w3, reload L lost w2 o2 = (Ok tt, o3, w3) /\ same_contents k1 d1 o3 /\ o_password o3 = o_password o2 /\ o_keyfile o3 = o_keyfile o2 /\ o_filename o3 = o_filename o2.
Proof. exact other_reload. Qed.
Print Assumptions c100_other_reload.

(** Two objects opened from one file; an entry "shop" is added to the first, an entry "bank" to the second. *)
Definition sh_add (t : str) : obj := snd (call (IntegritySpec.run lit no_z clk (Op_add_entry (hd O (ids_of $"Group" (db_in o_db))) (Some t) (Some $"ann") (Some $"pw") None None None T_none None None false)) o_db).
Definition sh_a : obj := Eval vm_compute in sh_add $"shop2".
Definition sh_b : obj := Eval vm_compute in sh_add $"bank2".
Lemma sh_reached : reached toy lit no_z no_loss sh_a /\ reached toy lit no_z no_loss sh_b.
Proof. split; [replace sh_a with (sh_add $"shop2") by (vm_compute; reflexivity)|replace sh_b with (sh_add $"bank2") by (vm_compute; reflexivity)]; apply R_call; try exact I; exact o_db_reached. Qed.
Definition sh_save (w : world) (o : obj) : res unit * obj * world := save toy ok_env w o F_none None.
Definition texts (o : obj) : list str := flat_map (fun t => match etext t with Some s => [s] | None => [] end) (elements (d_forest (db_in o))).
Definition says (o : obj) (t : str) : bool := existsb (str_eqb t) (texts o).
Definition sh_w1 : world := snd (sh_save ex_w sh_a).
Definition sh_w2 : world := snd (sh_save sh_w1 sh_b).
Definition sh_file (w : world) : bytes := match w_fs w P_db with Some b => b | None => [] end.
Definition sh_open (w : world) : obj := result (open_db toy no_loss w (F_path P_db) (Some $"secret") N_none None true).
Definition sh_reloaded : obj := snd (fst (reload toy no_loss sh_w1 sh_b)).
(** The hypotheses hold: the second object, saved over the original file and over the first object's file, writes the same; reload takes over "shop2" and drops "bank2". *)
Example c100_ex : (goes_to sh_b F_none P_db /\ apart P_db P_tmp (o_keyfile sh_b) /\ env_ok ok_env /\
    key_for toy sh_w1 (o_password sh_b) (o_keyfile sh_b) None (k_hdr (kdbx_in sh_b)) = key_for toy ex_w (o_password sh_b) (o_keyfile sh_b) None (k_hdr (kdbx_in sh_b)) /\
    fst (fst (sh_save ex_w sh_a)) = Ok tt /\ fst (fst (sh_save sh_w1 sh_b)) = Ok tt /\ fst (fst (sh_save ex_w sh_b)) = Ok tt /\
    sh_file sh_w2 = sh_file (snd (sh_save ex_w sh_b))) /\
  ((exists key, key_for toy ex_w (o_password sh_a) (o_keyfile sh_a) None (k_hdr (kdbx_in sh_a)) = Ok key /\ moderate toy (current (kdbx_in sh_a, Some (db_in sh_a))) key /\ key_for toy sh_w1 (o_password sh_b) (o_keyfile sh_b) None (k_hdr (kdbx_in sh_a)) = Ok key) /\
   o_filename sh_b = Some (F_path P_db) /\ fst (fst (reload toy no_loss sh_w1 sh_b)) = Ok tt /\ says sh_b $"bank2" = true /\ says sh_reloaded $"shop2" = true /\ says sh_reloaded $"bank2" = false).
Proof.
  split.
  - split; [right; split; vm_compute; reflexivity|]. split; [split; [vm_compute; reflexivity|split; vm_compute; discriminate]|]. split; [exact ok_env_ok|]. split; [vm_compute; reflexivity|]. split; [vm_compute; reflexivity|]. split; [vm_compute; reflexivity|]. split; vm_compute; reflexivity.
  - split; [eexists; split; [vm_compute; reflexivity|split; [apply moderateb_ok; vm_compute; reflexivity|vm_compute; reflexivity]]|]. split; [reflexivity|]. split; [vm_compute; reflexivity|]. split; [vm_compute; reflexivity|]. split; vm_compute; reflexivity.
Qed.
(** That changes saved by another object survive a save is false: nothing tells the second object of the first one's save, its own save
    returns, and the entry "shop2" is gone from the file. *)
Theorem c100_lost_update_refuted : exists oa ob w1 w2, reached toy lit no_z no_loss oa /\ reached toy lit no_z no_loss ob /\
  save toy ok_env ex_w oa F_none None = (Ok tt, oa, w1) /\ says (sh_open w1) $"shop2" = true /\
  save toy ok_env w1 ob F_none None = (Ok tt, ob, w2) /\ says (sh_open w2) $"bank2" = true /\ says (sh_open w2) $"shop2" = false.
Proof.
  exists sh_a, sh_b, sh_w1, sh_w2. split; [exact (proj1 sh_reached)|]. split; [exact (proj2 sh_reached)|]. split; [apply save_is; vm_compute; reflexivity|]. split; [vm_compute; reflexivity|].
  split; [apply save_is; vm_compute; reflexivity|]. split; vm_compute; reflexivity.
Qed.
Print Assumptions c100_lost_update_refuted.
