(** Property theorems about reading a database after saving and opening it again (C93; statements, proofs in Reopen.v).
    Vocabulary in ReopenSpec.v: [reopened], [comes_back], [unpadded], [twins], [same_place], [faded], [dimmed], [agree], [telling],
    [aim], [both_aim], [named], [att_shape], [readable]. *)
From Coq Require Import ZifyBool.
From Verif Require Import Base Base64 PyStr Xml Tree XPath Time FindSpec Find_path FindEx Db Api ApiSpec Api_xpath ApiEx ListingEx StructSpec CredSpec IntegritySpec BinSpec Lib Keyfile Construct Kdbx KdbxSpec Kdbx_file Kdbx_claims Toy Toy_facts Save Save_facts Object Heap Cred Clean ObjectSpec Object_facts Object_claims ObjectEx Streams ReopenSpec Reopen.

(** ** C93: the documents have the same elements, in the same order. *)
Theorem c93_same_elements : forall L R0 Zl lost d d2, reopened L R0 Zl lost d d2 ->
  exists doc F doc2, d_forest d = doc :: F /\ d_forest d2 = [doc2] /\ Forall2 (twins d d2) (everything doc) (everything doc2).
Proof. intros L R0 Zl lost d d2 H. exact (same_elements d d2 (ra L R0 Zl lost d d2 H)). Qed.
Print Assumptions c93_same_elements.
Theorem c93_parts : forall L R0 Zl lost d d2, reopened L R0 Zl lost d d2 -> forall x y, twins d d2 x y ->
  etag y = etag x /\ eattrs y = eattrs x /\ faded (etext x) (etext y) /\ Forall2 (twins d d2) (ekids x) (ekids y) /\ (forall z, twins d d2 x z -> z = y) /\ forall z, twins d d2 z y -> z = x.
Proof. intros L R0 Zl lost d d2 H. exact (twins_parts d d2 (ra L R0 Zl lost d d2 H)). Qed.
Print Assumptions c93_parts.
(** ** Properties of entries and groups. *)
Theorem c93_fields : forall L R0 Zl lost d d2, reopened L R0 Zl lost d d2 -> forall x y, twins d d2 x y -> forall R p,
  exists v v2, get_prop R p (eid x) d = (Ok v, d) /\ get_prop R p (eid y) d2 = (Ok v2, d2) /\ faded v v2.
Proof. intros L R0 Zl lost d d2 H. exact (prop_twice d d2 (ra L R0 Zl lost d d2 H)). Qed.
Print Assumptions c93_fields.
Theorem c93_custom : forall L R0 Zl lost d d2, reopened L R0 Zl lost d d2 -> forall x y, twins d d2 x y -> forall R key, plain key -> key <> [] ->
  agree d2 faded (get_custom_property R (eid x) key d) (get_custom_property R (eid y) key d2) /\
  fst (is_custom_property_protected R (eid y) key d2) = fst (is_custom_property_protected R (eid x) key d).
Proof. intros L R0 Zl lost d d2 H. exact (custom_twice d d2 (ra L R0 Zl lost d d2 H)). Qed.
Print Assumptions c93_custom.
Theorem c93_custom_properties : forall L R0 Zl lost d d2, reopened L R0 Zl lost d d2 -> forall R x y l d', twins d d2 x y ->
  custom_properties R (eid x) d = (Ok l, d') -> Forall (fun a => readable (fst a)) l ->
  exists l2, custom_properties R (eid y) d2 = (Ok l2, d2) /\ Forall2 row_faded l l2.
Proof. intros L R0 Zl lost d d2 H. exact (custom_properties_twice d d2 (ra L R0 Zl lost d d2 H)). Qed.
Print Assumptions c93_custom_properties.
(** Icon ([IconID]), name and notes of groups ([Name], [Notes]). *)
Theorem c93_common : forall L R0 Zl lost d d2, reopened L R0 Zl lost d d2 -> forall x y, twins d d2 x y -> forall tag,
  exists v v2, get_sub tag (eid x) d = (Ok v, d) /\ get_sub tag (eid y) d2 = (Ok v2, d2) /\ faded v v2.
Proof. intros L R0 Zl lost d d2 H. exact (sub_twice d d2 (ra L R0 Zl lost d d2 H)). Qed.
Print Assumptions c93_common.
Theorem c93_tags : forall L R0 Zl lost d d2, reopened L R0 Zl lost d d2 -> forall x y, twins d d2 x y ->
  exists l, get_tags (eid x) d = (Ok l, d) /\ get_tags (eid y) d2 = (Ok l, d2).
Proof. intros L R0 Zl lost d d2 H. exact (tags_twice d d2 (ra L R0 Zl lost d d2 H)). Qed.
Print Assumptions c93_tags.
Theorem c93_uuid : forall L R0 Zl lost d d2, reopened L R0 Zl lost d d2 -> forall x y, twins d d2 x y -> forall u d', get_uuid (eid x) d = (Ok u, d') -> get_uuid (eid y) d2 = (Ok u, d2).
Proof. intros L R0 Zl lost d d2 H. exact (uuid_twice d d2 (ra L R0 Zl lost d d2 H)). Qed.
Print Assumptions c93_uuid.
Theorem c93_times : forall L R0 Zl lost d d2, reopened L R0 Zl lost d d2 -> forall x y, twins d d2 x y -> forall p v d', get_timeprop p (eid x) d = (Ok v, d') -> get_timeprop p (eid y) d2 = (Ok v, d2).
Proof. intros L R0 Zl lost d d2 H. exact (timeprop_twice d d2 (ra L R0 Zl lost d d2 H)). Qed.
Print Assumptions c93_times.
Theorem c93_expires : forall L R0 Zl lost d d2, reopened L R0 Zl lost d d2 -> forall x y, twins d d2 x y ->
  (forall v d', get_expires (eid x) d = (Ok v, d') -> exists v2, get_expires (eid y) d2 = (Ok v2, d2) /\ dimmed v v2) /\
  forall C b d', expired C (eid x) d = (Ok b, d') -> expired C (eid y) d2 = (Ok b, d2).
Proof. intros L R0 Zl lost d d2 H x y T. exact (conj (expires_twice d d2 (ra L R0 Zl lost d d2 H) x y T) (expired_twice d d2 (ra L R0 Zl lost d d2 H) x y T)). Qed.
Print Assumptions c93_expires.
Theorem c93_autotype : forall L R0 Zl lost d d2, reopened L R0 Zl lost d d2 -> forall x y, twins d d2 x y ->
  agree d2 dimmed (get_autotype_enabled (eid x) d) (get_autotype_enabled (eid y) d2) /\
  fst (get_autotype_sequence (eid y) d2) = fst (get_autotype_sequence (eid x) d) /\ fst (get_autotype_window (eid y) d2) = fst (get_autotype_window (eid x) d).
Proof. intros L R0 Zl lost d d2 H. exact (autotype_twice d d2 (ra L R0 Zl lost d d2 H)). Qed.
Print Assumptions c93_autotype.
(** ** Where elements are. *)
Theorem c93_place : forall L R0 Zl lost d d2, reopened L R0 Zl lost d d2 -> forall x y, twins d d2 x y ->
  (forall R, exists g g2, group_of R (eid x) d = (Ok g, d) /\ group_of R (eid y) d2 = (Ok g2, d2) /\ opt_rel (same_place d d2) g g2) /\
  fst (is_root_group (eid y) d2) = fst (is_root_group (eid x) d) /\ fst (is_a_history_entry (eid y) d2) = fst (is_a_history_entry (eid x) d).
Proof. intros L R0 Zl lost d d2 H x y T. set (A := ra L R0 Zl lost d d2 H). exact (conj (group_twice d d2 A x y T) (conj (is_root_twice d d2 A x y T) (is_history_twice d d2 A x y T))). Qed.
Print Assumptions c93_place.
(** Paths have the same names on them, leaving out empty ones. *)
Theorem c93_paths : forall L R0 Zl lost d d2, reopened L R0 Zl lost d d2 -> forall R x y, twins d d2 x y ->
  agree d2 (opt_rel (fun l l2 => named l = named l2)) (entry_path R (eid x) d) (entry_path R (eid y) d2) /\
  agree d2 (fun l l2 => named l = named l2) (group_path R (eid x) d) (group_path R (eid y) d2).
Proof. intros L R0 Zl lost d d2 H R x y T. set (A := ra L R0 Zl lost d d2 H). exact (conj (entry_path_twice d d2 A R x y T) (group_path_twice d d2 A R x y T)). Qed.
Print Assumptions c93_paths.
(** Subgroups, entries of a group, history of an entry. *)
Theorem c93_below : forall L R0 Zl lost d d2, reopened L R0 Zl lost d d2 -> forall x y, twins d d2 x y ->
  exists l l2 m m2 h h2, group_subgroups (eid x) d = (Ok l, d) /\ group_subgroups (eid y) d2 = (Ok l2, d2) /\ Forall2 (same_place d d2) l l2 /\
  group_entries (eid x) d = (Ok m, d) /\ group_entries (eid y) d2 = (Ok m2, d2) /\ Forall2 (same_place d d2) m m2 /\ history (eid x) d = (Ok h, d) /\ history (eid y) d2 = (Ok h2, d2) /\ Forall2 (same_place d d2) h h2.
Proof. intros L R0 Zl lost d d2 H. exact (kids_twice d d2 (ra L R0 Zl lost d d2 H)). Qed.
Print Assumptions c93_below.
(** ** Searches: the same entries and groups are found, in the same order. *)
Theorem c93_find_entries : forall L R0 Zl lost d d2, reopened L R0 Zl lost d d2 -> forall R rec q t t2, usable entry_keys R q -> telling q -> both_aim d d2 t t2 ->
  exists l l2, find_entries R d rec (aim t q) = Ok (map R_entry l) /\ find_entries R d2 rec (aim t2 q) = Ok (map R_entry l2) /\ Forall2 (same_place d d2) l l2.
Proof. intros L R0 Zl lost d d2 H. exact (find_twice d d2 (ra L R0 Zl lost d d2 H)). Qed.
Print Assumptions c93_find_entries.
Theorem c93_find_groups : forall L R0 Zl lost d d2, reopened L R0 Zl lost d d2 -> forall R rec q t t2, usable group_keys R q -> q_string q = [] -> telling q -> both_aim d d2 t t2 ->
  exists l l2, find_groups R d rec (aim t q) = Ok (map R_group l) /\ find_groups R d2 rec (aim t2 q) = Ok (map R_group l2) /\ Forall2 (same_place d d2) l l2.
Proof. intros L R0 Zl lost d d2 H. exact (find_groups_twice d d2 (ra L R0 Zl lost d d2 H)). Qed.
Print Assumptions c93_find_groups.
Theorem c93_find_attachments : forall L R0 Zl lost d d2, reopened L R0 Zl lost d d2 -> forall R rec q t t2, att_shape d ->
  usable attachment_keys R q -> q_string q = [] -> telling q -> (exists k v, In (k, v) (q_kw q) /\ v <> K_none) -> both_aim d d2 t t2 ->
  exists l l2, find_attachments R d rec (aim t q) = Ok (map R_att l) /\ find_attachments R d2 rec (aim t2 q) = Ok (map R_att l2) /\ Forall2 (same_place d d2) l l2.
Proof. intros L R0 Zl lost d d2 H. exact (find_attachments_twice d d2 (ra L R0 Zl lost d d2 H)). Qed.
Print Assumptions c93_find_attachments.
Theorem c93_find_path : forall L R0 Zl lost d d2, reopened L R0 Zl lost d d2 -> forall R rec q p, q_tree q = None -> path_query q p -> Forall (fun n => plain n /\ n <> []) p ->
  (p <> [] -> exists l l2, find_entries R d rec q = Ok (map R_entry l) /\ find_entries R d2 rec q = Ok (map R_entry l2) /\ Forall2 (same_place d d2) l l2) /\
  exists l l2, find_groups R d rec q = Ok (map R_group l) /\ find_groups R d2 rec q = Ok (map R_group l2) /\ Forall2 (same_place d d2) l l2.
Proof. intros L R0 Zl lost d d2 H. exact (path_searches d d2 (ra L R0 Zl lost d d2 H)). Qed.
Print Assumptions c93_find_path.
Theorem c93_listings : forall L R0 Zl lost d d2, reopened L R0 Zl lost d d2 -> forall R,
  exists l l2 m m2, entries R d = (Ok l, d) /\ entries R d2 = (Ok l2, d2) /\ Forall2 (same_place d d2) l l2 /\ groups R d = (Ok m, d) /\ groups R d2 = (Ok m2, d2) /\ Forall2 (same_place d d2) m m2.
Proof. intros L R0 Zl lost d d2 H. exact (listings_twice d d2 (ra L R0 Zl lost d d2 H)). Qed.
Print Assumptions c93_listings.
(** ** Attachments: the list, number, name and entry of each, and its data. *)
Theorem c93_attachments : forall L R0 Zl lost d d2, reopened L R0 Zl lost d d2 -> forall R, att_shape d -> (forall s, exists b, R $".*" false s = Ok b) ->
  (exists l l2, attachments R d = (Ok l, d) /\ attachments R d2 = (Ok l2, d2) /\ Forall2 (same_place d d2) l l2) /\
  forall x y, twins d d2 x y -> exists l l2, entry_attachments R (eid x) d = (Ok l, d) /\ entry_attachments R (eid y) d2 = (Ok l2, d2) /\ Forall2 (same_place d d2) l l2.
Proof. intros L R0 Zl lost d d2 H. exact (attachments_twice d d2 (ra L R0 Zl lost d d2 H)). Qed.
Print Assumptions c93_attachments.
Theorem c93_attachment : forall L R0 Zl lost d d2, reopened L R0 Zl lost d d2 -> forall x y, twins d d2 x y ->
  fst (att_id (eid y) d2) = fst (att_id (eid x) d) /\ agree d2 faded (att_filename (eid x) d) (att_filename (eid y) d2) /\ agree d2 (same_place d d2) (att_entry (eid x) d) (att_entry (eid y) d2).
Proof. intros L R0 Zl lost d d2 H x y T. set (A := ra L R0 Zl lost d d2 H). exact (conj (proj1 (att_twice d d2 A x y T)) (conj (proj2 (att_twice d d2 A x y T)) (att_entry_twice d d2 A x y T))). Qed.
Print Assumptions c93_attachment.
(** [Zl] must not turn empty input into something. *)
Theorem c93_binaries : forall L R0 Zl0 lost d d2, reopened L R0 Zl0 lost d d2 -> forall R Zl, (forall z, zinflate Zl [] = Ok z -> z = []) ->
  (forall l d', binaries R Zl d = (Ok l, d') -> binaries R Zl d2 = (Ok l, d2)) /\
  forall x y b d', twins d d2 x y -> att_binary R Zl (eid x) d = (Ok b, d') -> att_binary R Zl (eid y) d2 = (Ok b, d2).
Proof. intros L R0 Zl0 lost d d2 H R Zl HZ. set (A := ra L R0 Zl0 lost d d2 H). exact (conj (fun l d' => binaries_twice d d2 A R Zl l d' HZ) (fun x y b d' => att_binary_twice d d2 A R Zl x y b d' HZ)). Qed.
Print Assumptions c93_binaries.
(** ** The database's own properties, its root group and its recycle bin. *)
Theorem c93_database : forall L R0 Zl lost d d2, reopened L R0 Zl lost d d2 -> forall R,
  (forall tag, In tag meta_tags -> agree d2 faded (get_meta R tag d) (get_meta R tag d2)) /\
  (exists g g2, Api.root_group R d = (Ok g, d) /\ Api.root_group R d2 = (Ok g2, d2) /\ opt_rel (same_place d d2) g g2) /\
  forall g d', recyclebin_group R d = (Ok g, d') -> exists g2, recyclebin_group R d2 = (Ok g2, d2) /\ opt_rel (same_place d d2) g g2.
Proof. intros L R0 Zl lost d d2 H R. set (A := ra L R0 Zl lost d d2 H). exact (conj (meta_twice d d2 A R) (conj (root_search d d2 A R) (recyclebin_twice d d2 A R))). Qed.
Print Assumptions c93_database.

(** ** A database with attachments, an added entry and a field assigned the empty string, saved and opened again. *)
Definition add_shop (o : obj) : obj := snd (call (IntegritySpec.run lit no_z clk (Op_add_entry (hd O (ids_of $"Group" (db_in o))) (Some $"shop") (Some $"ann") (Some $"pw") None None None T_none None None false)) o).
Definition no_user (o : obj) : obj := snd (call (IntegritySpec.run lit no_z clk (Op_prop (hd O (ids_of $"Entry" (db_in o))) P_username (Some []))) o).
Definition o93 : obj := Eval vm_compute in no_user (add_shop o_db).
Lemma o93_reached : reached toy lit no_z no_loss o93.
Proof. replace o93 with (no_user (add_shop o_db)) by (vm_compute; reflexivity). apply R_call; [apply R_call; [exact o_db_reached|exact I]|exact I]. Qed.
Definition s93 := save toy ok_env ex_w o93 F_none None.
Notation op93 := (open_db toy no_loss (snd s93) (F_path P_db) (Some $"secret") N_none None true).
Definition again93 : obj := Eval vm_compute in result op93.
Definition unpaddedb (d : db) : bool := match d_forest d with doc :: _ => forallb (fun x => match etext x with Some (c :: s) => negb (forallb blank_char (c :: s)) || match ekids x with [] => true | _ => false end | _ => true end) (everything doc) | [] => true end.
Lemma unpaddedb_ok d : unpaddedb d = true -> unpadded d.
Proof.
  intros H doc F x s E Ix Et N B. unfold unpaddedb in H. rewrite E in H. pose proof (proj1 (forallb_forall _ _) H x Ix) as G. cbv beta in G. rewrite Et in G. destruct s as [|c s]; [congruence|]. rewrite B in G. cbn [negb orb] in G. now destruct (ekids x).
Qed.
Definition key93 : bytes := Eval vm_compute in match key_for toy ex_w (o_password o93) (o_keyfile o93) None (k_hdr (kdbx_in o93)) with Ok b => b | Err _ => [] end.
Lemma key93_ok : key_for toy ex_w (o_password o93) (o_keyfile o93) None (k_hdr (kdbx_in o93)) = Ok key93. Proof. vm_compute. reflexivity. Qed.
Lemma key93_mod : moderate toy (current (kdbx_in o93, Some (db_in o93))) key93. Proof. apply moderateb_ok. vm_compute. reflexivity. Qed.
Lemma key93_again : key_for toy (snd s93) (Some $"secret") N_none None (k_hdr (kdbx_in o93)) = Ok key93. Proof. vm_compute. reflexivity. Qed.
Lemma save93 : save toy ok_env ex_w o93 F_none None = (Ok tt, o93, snd s93). Proof. apply save_is. vm_compute. reflexivity. Qed.
Lemma open93 : op93 = (Ok again93, snd op93). Proof. replace again93 with (result op93) by (vm_compute; reflexivity). apply open_is. vm_compute. reflexivity. Qed.
Lemma reopened93 : reopened toy lit no_z no_loss (db_in o93) (db_in again93).
Proof.
  split; [exact toy_ok|]. split; [exact toy_sound|]. split; [|apply unpaddedb_ok; vm_compute; reflexivity].
  refine (CB_open toy lit no_z no_loss _ _ ok_env ex_w o93 F_none None P_db P_tmp (kdbx_in o93) (snd s93) key93 (snd s93) (Some $"secret") N_none None again93 (snd op93) (kdbx_in again93) o93_reached _ _ _ ok_env_ok key93_ok key93_mod save93 eq_refl key93_again open93 _).
  - reflexivity.
  - right. split; reflexivity.
  - split; [vm_compute; reflexivity|split; vm_compute; discriminate].
  - reflexivity.
Qed.
Definition opened_at (d : db) (route : list nat) : elem := match d_forest d with doc :: _ => match follow route doc with Some x => x | None => doc end | [] => El O [] [] None [] end.
Definition entry93 : elem := Eval vm_compute in opened_at (db_in o93) [1; 0; 3]%nat.
Definition entry93' : elem := Eval vm_compute in opened_at (db_in again93) [1; 0; 3]%nat.
Definition q93 (u : str) : query := MkQuery None None false false None [] [($"username", K_str u)].
Lemma twins93 : twins (db_in o93) (db_in again93) entry93 entry93'.
Proof. do 4 eexists. exists [1; 0; 3]%nat. split; [reflexivity|]. split; [reflexivity|]. split; vm_compute; reflexivity. Qed.
Definition att_shapeb (d : db) : bool :=
  forallb (fun t => negb (str_eqb (etag t) $"Binary") || forallb (fun x => (List.length (eattrs x) <=? 1)%nat && (negb (str_eqb (etag x) $"Value") || match attr_of $"Ref" x with Some _ => true | None => false end)) (ekids t)) (elements (d_forest d)) &&
  forallb (fun t => negb (str_eqb (etag t) $"Binary") || negb (existsb (fun x => str_eqb (etag x) $"Key" || str_eqb (etag x) $"Value") (ekids t)) || existsb (fun e => str_eqb (etag e) $"Entry" && existsb (fun k => (eid k =? eid t)%nat) (ekids e)) (elements (d_forest d))) (elements (d_forest d)).
Lemma att_shapeb_ok d : wf d -> att_shapeb d = true -> att_shape d.
Proof.
  intros W H. apply andb_true_iff in H as [H1 H2]. split.
  - intros t x Ht Tt Ix. pose proof (proj1 (forallb_forall _ _) H1 t Ht) as G. cbv beta in G. rewrite Tt in G. change (negb (str_eqb $"Binary" $"Binary")) with false in G. cbn [orb] in G. pose proof (proj1 (forallb_forall _ _) G x Ix) as K. cbv beta in K. apply andb_true_iff in K as [K1 K2]. split.
    + destruct (eattrs x) as [|a [|b l]]; [constructor|constructor; [intros []|constructor]|discriminate].
    + intros Tx. rewrite Tx in K2. change (negb (str_eqb $"Value" $"Value")) with false in K2. cbn [orb] in K2. destruct (attr_of $"Ref" x); [discriminate|discriminate].
  - intros t Ht Tt (x & Ix & Tx). pose proof (proj1 (forallb_forall _ _) H2 t Ht) as G. cbv beta in G. rewrite Tt in G. change (negb (str_eqb $"Binary" $"Binary")) with false in G. cbn [orb] in G.
    assert (B : existsb (fun x => str_eqb (etag x) $"Key" || str_eqb (etag x) $"Value") (ekids t) = true). { apply existsb_exists. exists x. split; [exact Ix|]. destruct Tx as [-> | ->]; reflexivity. }
    rewrite B in G. cbn [negb orb] in G. apply existsb_exists in G as (e & He & G). apply andb_true_iff in G as [Te G]. apply str_eqb_eq in Te. apply existsb_exists in G as (k & Ik & Ek). apply Nat.eqb_eq in Ek. exists e. split; [exact He|]. split; [exact Te|].
    assert (k = t) as <-; [|exact Ik]. apply (unique_inj (d_forest d)); auto; [now apply Prim.wf_unique|]. exact (Prim.has_kid d e k He Ik).
Qed.
(** The hypotheses hold; the title, the custom property, the list of entries and the attachment come back. *)
Example c93_ex : reopened toy lit no_z no_loss (db_in o93) (db_in again93) /\ twins (db_in o93) (db_in again93) entry93 entry93' /\ att_shape (db_in o93) /\ (forall s, exists b, wild $".*" false s = Ok b) /\
  fst (get_prop lit P_title (eid entry93') (db_in again93)) = Ok (Some $"mail") /\ fst (custom_properties lit (eid entry93) (db_in o93)) = Ok [(Some $"pin", Some $"1234")] /\
  readable (Some $"pin") /\ usable entry_keys lit (q93 $"ann") /\ telling (q93 $"ann") /\
  fst (entries lit (db_in again93)) = Ok [20; 63; 89]%nat /\ fst (entry_attachments wild (eid entry93) (db_in o93)) = Ok [49%nat] /\ fst (entry_attachments wild (eid entry93') (db_in again93)) = Ok [46%nat].
Proof.
  split; [exact reopened93|]. split; [exact twins93|]. split; [apply att_shapeb_ok; [exact (ag_wf _ _ (ra _ _ _ _ _ _ reopened93))|vm_compute; reflexivity]|]. split; [intros s; now exists true|].
  split; [vm_compute; reflexivity|]. split; [vm_compute; reflexivity|]. split; [eexists; split; [reflexivity|split; [vm_compute; intuition discriminate|discriminate]]|].
  split; [split; [reflexivity|]; split; [exact I|]; split; [intros ? ? []|]; intros k v [E|[]]; injection E as <- <-; split; [vm_compute; tauto|]; split; [discriminate|]; split; [discriminate|]; split; [split; [vm_compute; intuition discriminate|reflexivity]|discriminate]|].
  split; [split; [intros ? ? []|]; intros k v [E|[]]; injection E as <- <-; right; discriminate|].
  split; [vm_compute; reflexivity|]. split; vm_compute; reflexivity.
Qed.
(** The exceptions are real: a user name assigned the empty string is None afterwards, and the entry is no longer found by it. *)
Theorem c93_empty_refuted : exists L R Zl lost d d2 x y, reopened L R Zl lost d d2 /\ twins d d2 x y /\
  fst (get_prop R P_username (eid x) d) = Ok (Some []) /\ fst (get_prop R P_username (eid y) d2) = Ok None /\
  find_entries R d true (q93 []) = Ok [R_entry (eid x)] /\ find_entries R d2 true (q93 []) = Ok [].
Proof.
  exists toy, lit, no_z, no_loss, (db_in o93), (db_in again93), entry93, entry93'. split; [exact reopened93|]. split; [exact twins93|]. split; [vm_compute; reflexivity|]. split; [vm_compute; reflexivity|]. split; vm_compute; reflexivity.
Qed.
Print Assumptions c93_empty_refuted.
