(** C116: assignments to different things may be made in either order. *)
From Verif Require Import Base Base64 PyStr Xml Tree XPath Time Uuid Db Save FindSpec ApiSpec FindEx Api ApiEx StructSpec StructEx CredSpec IntegritySpec Heap Prim Struct Lib Kdbx Object ObjectSpec FailSpec AgainSpec LastSpec SwapSpec Swap Apart Inside Nested.

(** Times, expiry, auto-type settings, attachments and settings of the database are written in place. *)
Theorem c116_in_place : forall R Zl C C' o o' k k' d d1 d2, wf d -> spot d o = Some k -> spot d o' = Some k' -> k <> k' ->
  IntegritySpec.run R Zl C o d = (Ok tt, d1) -> IntegritySpec.run R Zl C' o' d1 = (Ok tt, d2) ->
  exists d3 d4, IntegritySpec.run R Zl C' o' d = (Ok tt, d3) /\ IntegritySpec.run R Zl C o d3 = (Ok tt, d4) /\ untouched d2 d4.
Proof. exact either_order. Qed.
Print Assumptions c116_in_place.
(** All properties of entries, groups and attachments, for two of them of which neither is in the other. *)
Theorem c116_apart_partial : forall R Zl C C' o o' d t t' d1 d2, wf d -> has_elem d t -> has_elem d t' -> formed o (eid t) t -> formed o' (eid t') t' -> apart d (eid t) (eid t') ->
  IntegritySpec.run R Zl C o d = (Ok tt, d1) -> IntegritySpec.run R Zl C' o' d1 = (Ok tt, d2) ->
  exists d3 d4, IntegritySpec.run R Zl C' o' d = (Ok tt, d3) /\ IntegritySpec.run R Zl C o d3 = (Ok tt, d4) /\ untouched d2 d4.
Proof. exact apart_order. Qed.
Print Assumptions c116_apart_partial.
(** A setting of the database and any property of something outside Meta, whichever comes first. *)
Theorem c116_setting : forall R Zl C C' T o o' d m k t', wf d -> setting_in d T m k -> sets T o -> has_elem d t' -> formed o' (eid t') t' -> apart d m (eid t') ->
  (forall d1 d2, IntegritySpec.run R Zl C o d = (Ok tt, d1) -> IntegritySpec.run R Zl C' o' d1 = (Ok tt, d2) -> exists d3 d4, IntegritySpec.run R Zl C' o' d = (Ok tt, d3) /\ IntegritySpec.run R Zl C o d3 = (Ok tt, d4) /\ untouched d2 d4) /\
  (forall d1 d2, IntegritySpec.run R Zl C' o' d = (Ok tt, d1) -> IntegritySpec.run R Zl C o d1 = (Ok tt, d2) -> exists d3 d4, IntegritySpec.run R Zl C o d = (Ok tt, d3) /\ IntegritySpec.run R Zl C' o' d3 = (Ok tt, d4) /\ untouched d4 d2).
Proof. exact setting_orders. Qed.
Print Assumptions c116_setting.
(** A property of any kind, and one written in place, be it of the same entry or group or of something inside it. *)
Theorem c116_inside : forall R Zl C C' o o' d t T k, wf d -> has_elem d t -> formed o (eid t) t -> stored_as o = Some T -> spot d o' = Some k -> aside d T (eid t) k ->
  (forall d1 d2, IntegritySpec.run R Zl C o d = (Ok tt, d1) -> IntegritySpec.run R Zl C' o' d1 = (Ok tt, d2) -> exists d3 d4, IntegritySpec.run R Zl C' o' d = (Ok tt, d3) /\ IntegritySpec.run R Zl C o d3 = (Ok tt, d4) /\ untouched d2 d4) /\
  (forall d1 d2, IntegritySpec.run R Zl C' o' d = (Ok tt, d1) -> IntegritySpec.run R Zl C o d1 = (Ok tt, d2) -> exists d3 d4, IntegritySpec.run R Zl C o d = (Ok tt, d3) /\ IntegritySpec.run R Zl C' o' d3 = (Ok tt, d4) /\ untouched d4 d2).
Proof. exact inside_orders. Qed.
Print Assumptions c116_inside.
(** Properties not written in place of two entries or groups, be one inside the other. *)
Theorem c116_nested : forall R Zl C C' o o' d t t' T T' d1 d2, wf d -> has_elem d t -> has_elem d t' -> formed o (eid t) t -> formed o' (eid t') t' -> stored_as o = Some T -> stored_as o' = Some T' -> aside d T (eid t) (eid t') -> aside d T' (eid t') (eid t) ->
  IntegritySpec.run R Zl C o d = (Ok tt, d1) -> IntegritySpec.run R Zl C' o' d1 = (Ok tt, d2) ->
  exists d3 d4, IntegritySpec.run R Zl C' o' d = (Ok tt, d3) /\ IntegritySpec.run R Zl C o d3 = (Ok tt, d4) /\ untouched d2 d4.
Proof. exact nested_order. Qed.
Print Assumptions c116_nested.
(** False for two string fields of one entry: they are stored in the order of the assignments. *)
Fixpoint texts (x : xml) : list str := match x with X _ _ s k => match s with Some s => [s] | None => [] end ++ flat_map texts k end.
Theorem c116_fields_refuted : exists d e d1 d2 d3 d4, wf d /\ an_entry d e /\ set_prop lit P_title e (Some $"a") d = (Ok tt, d1) /\ set_prop lit P_url e (Some $"b") d1 = (Ok tt, d2) /\
  set_prop lit P_url e (Some $"b") d = (Ok tt, d3) /\ set_prop lit P_title e (Some $"a") d3 = (Ok tt, d4) /\ ~ untouched d2 d4.
Proof.
  exists edb, 20%nat. do 4 eexists. split; [exact edb_wf|]. split; [eexists; split; vm_compute; reflexivity|]. split; [vm_compute; reflexivity|]. split; [vm_compute; reflexivity|]. split; [vm_compute; reflexivity|]. split; [vm_compute; reflexivity|].
  intros (H & _). apply (f_equal (option_map texts)) in H. vm_compute in H. discriminate H.
Qed.
Print Assumptions c116_fields_refuted.
(** Two entries; two times of one entry. *)
Lemma apartb d t u : wf d -> has_elem d t -> has_elem d u -> forallb (fun j => negb (existsb (Nat.eqb j) (ids u))) (ids t) = true -> apart d (eid t) (eid u).
Proof.
  intros W Ht Hu H x [A B]. apply (below_ids (d_forest d)) in A; [|apply W|exact Ht]. apply (below_ids (d_forest d)) in B; [|apply W|exact Hu]. rewrite forallb_forall in H. specialize (H x A). apply Bool.negb_true_iff in H.
  assert (existsb (Nat.eqb x) (ids u) = true); [|congruence]. apply existsb_exists. exists x. split; [exact B|apply Nat.eqb_refl].
Qed.
Example c116_ex : wf edb /\ has_elem edb (el edb 20) /\ has_elem edb (el edb 67) /\ formed (Op_prop 20 P_title (Some $"a")) 20 (el edb 20) /\ formed (Op_custom 67 $"k" (Some $"v") true) 67 (el edb 67) /\ apart edb (eid (el edb 20)) (eid (el edb 67)) /\
  fst ((do _ <- IntegritySpec.run lit no_z clk (Op_prop 20 P_title (Some $"a")); IntegritySpec.run lit no_z clk (Op_custom 67 $"k" (Some $"v") true)) edb) = Ok tt /\
  (exists k k', spot edb (Op_time 20 T_ctime (now clk)) = Some k /\ spot edb (Op_meta $"DatabaseName" (Some $"n")) = Some k' /\ k <> k') /\
  fst ((do _ <- IntegritySpec.run lit no_z clk (Op_time 20 T_ctime (now clk)); IntegritySpec.run lit no_z clk (Op_meta $"DatabaseName" (Some $"n"))) edb) = Ok tt.
Proof.
  assert (H1 : has_elem edb (el edb 20)) by (apply hasb_ok; vm_compute; reflexivity). assert (H2 : has_elem edb (el edb 67)) by (apply hasb_ok; vm_compute; reflexivity).
  split; [exact edb_wf|]. split; [exact H1|]. split; [exact H2|]. split; [split; [reflexivity|apply tidyb_ok; vm_compute; reflexivity]|]. split; [split; [reflexivity|]; split; [apply plainb_ok; vm_compute; reflexivity|apply tidyb_ok; vm_compute; reflexivity]|]. split; [apply apartb; [exact edb_wf|exact H1|exact H2|vm_compute; reflexivity]|]. split; [vm_compute; reflexivity|].
  split; [|vm_compute; reflexivity]. do 2 eexists. split; [vm_compute; reflexivity|]. split; [vm_compute; reflexivity|discriminate].
Qed.
Example c116_setting_ex : wf edb /\ setting_in edb $"DatabaseName" 1 2 /\ sets $"DatabaseName" (Op_meta $"DatabaseName" (Some $"n")) /\ has_elem edb (el edb 20) /\ formed (Op_prop 20 P_title (Some $"a")) 20 (el edb 20) /\ apart edb 1 20 /\
  fst ((do _ <- IntegritySpec.run lit no_z clk (Op_meta $"DatabaseName" (Some $"n")); IntegritySpec.run lit no_z clk (Op_prop 20 P_title (Some $"a"))) edb) = Ok tt /\
  fst ((do _ <- IntegritySpec.run lit no_z clk (Op_prop 20 P_title (Some $"a")); IntegritySpec.run lit no_z clk (Op_meta $"DatabaseName" (Some $"n"))) edb) = Ok tt.
Proof.
  assert (H1 : has_elem edb (el edb 20)) by (apply hasb_ok; vm_compute; reflexivity). assert (H2 : has_elem edb (el edb 1)) by (apply hasb_ok; vm_compute; reflexivity).
  split; [exact edb_wf|]. split; [exists 0%nat; split; [vm_compute; reflexivity|]; split; [eexists; split; vm_compute; reflexivity|]; split; vm_compute; reflexivity|]. split; [split; [reflexivity|now left]|]. split; [exact H1|]. split; [split; [reflexivity|apply tidyb_ok; vm_compute; reflexivity]|].
  split; [apply (apartb edb (el edb 1) (el edb 20)); [exact edb_wf|exact H2|exact H1|vm_compute; reflexivity]|]. split; vm_compute; reflexivity.
Qed.
Example c116_attachments_ex : wf edb /\ has_elem edb (el edb 53) /\ has_elem edb (el edb 93) /\ formed (Op_att_filename 53 (Some $"a")) 53 (el edb 53) /\ formed (Op_att_id 93 1) 93 (el edb 93) /\ apart edb 53 93 /\
  fst ((do _ <- IntegritySpec.run lit no_z clk (Op_att_filename 53 (Some $"a")); IntegritySpec.run lit no_z clk (Op_att_id 93 1)) edb) = Ok tt.
Proof.
  assert (H1 : has_elem edb (el edb 53)) by (apply hasb_ok; vm_compute; reflexivity). assert (H2 : has_elem edb (el edb 93)) by (apply hasb_ok; vm_compute; reflexivity).
  split; [exact edb_wf|]. split; [exact H1|]. split; [exact H2|]. split; [reflexivity|]. split; [reflexivity|]. split; [apply (apartb edb (el edb 53) (el edb 93)); [exact edb_wf|exact H1|exact H2|vm_compute; reflexivity]|]. vm_compute; reflexivity.
Qed.
(** The name of a group and the creation time of an entry in it; the title and the creation time of an entry. *)
Lemma asideb d T t k : wf d -> has_elem d t -> negb (Nat.eqb k (eid t)) && forallb (fun c => negb (existsb (Nat.eqb k) (ids c))) (kids_of T t) = true -> aside d T (eid t) k.
Proof.
  intros W Ht H. apply andb_prop in H as [H1 H2]. split; [apply Bool.negb_true_iff in H1; now apply Nat.eqb_neq|]. intros c Hc B. rewrite (Struct_bin.kids_tagged_of d t T W Ht) in Hc. apply in_map_iff in Hc as (w & <- & Hw). rewrite forallb_forall in H2. specialize (H2 w Hw). apply Bool.negb_true_iff in H2.
  apply filter_In in Hw as [Hw _]. apply (below_ids (d_forest d)) in B; [|apply W|exact (has_kid d t w Ht Hw)]. assert (X : existsb (Nat.eqb k) (ids w) = true); [|congruence]. apply existsb_exists. exists k. split; [exact B|apply Nat.eqb_refl].
Qed.
Example c116_inside_ex : wf edb /\ has_elem edb (el edb 9) /\ has_elem edb (el edb 20) /\ formed (Op_name 9 (Some $"g")) 9 (el edb 9) /\ formed (Op_prop 20 P_title (Some $"a")) 20 (el edb 20) /\ stored_as (Op_name 9 (Some $"g")) = Some $"Name" /\
  (exists k, spot edb (Op_time 20 T_ctime (now clk)) = Some k /\ below (look (d_forest edb)) 9 k /\ aside edb $"Name" 9 k /\ aside edb $"String" 20 k) /\
  fst ((do _ <- IntegritySpec.run lit no_z clk (Op_name 9 (Some $"g")); IntegritySpec.run lit no_z clk (Op_time 20 T_ctime (now clk))) edb) = Ok tt /\
  fst ((do _ <- IntegritySpec.run lit no_z clk (Op_time 20 T_ctime (now clk)); IntegritySpec.run lit no_z clk (Op_prop 20 P_title (Some $"a"))) edb) = Ok tt.
Proof.
  assert (H1 : has_elem edb (el edb 9)) by (apply hasb_ok; vm_compute; reflexivity). assert (H2 : has_elem edb (el edb 20)) by (apply hasb_ok; vm_compute; reflexivity).
  split; [exact edb_wf|]. split; [exact H1|]. split; [exact H2|]. split; [split; [reflexivity|apply Nat.leb_le; vm_compute; reflexivity]|]. split; [split; [reflexivity|apply tidyb_ok; vm_compute; reflexivity]|]. split; [reflexivity|].
  split; [|split; vm_compute; reflexivity]. eexists. split; [vm_compute; reflexivity|]. split; [|split; [apply (asideb edb _ (el edb 9)); [exact edb_wf|exact H1|vm_compute; reflexivity]|apply (asideb edb _ (el edb 20)); [exact edb_wf|exact H2|vm_compute; reflexivity]]].
  apply (below_ids (d_forest edb) (el edb 9)); [apply edb_wf|exact H1|]. match goal with |- In ?k ?l => assert (X : existsb (Nat.eqb k) l = true) by (vm_compute; reflexivity); apply existsb_exists in X as (x & Hx & E); apply Nat.eqb_eq in E; rewrite E; exact Hx end.
Qed.
(** The name of a group and the title of an entry in it. *)
Example c116_nested_ex : wf edb /\ has_elem edb (el edb 9) /\ has_elem edb (el edb 20) /\ formed (Op_name 9 (Some $"g")) 9 (el edb 9) /\ formed (Op_prop 20 P_title (Some $"a")) 20 (el edb 20) /\ below (look (d_forest edb)) 9 20 /\ aside edb $"Name" 9 20 /\ aside edb $"String" 20 9 /\
  fst ((do _ <- IntegritySpec.run lit no_z clk (Op_name 9 (Some $"g")); IntegritySpec.run lit no_z clk (Op_prop 20 P_title (Some $"a"))) edb) = Ok tt.
Proof.
  destruct c116_inside_ex as (W & H1 & H2 & F1 & F2 & _). do 5 (split; [assumption|]). split; [|split; [apply (asideb edb _ (el edb 9)); [exact W|exact H1|vm_compute; reflexivity]|split; [apply (asideb edb _ (el edb 20)); [exact W|exact H2|vm_compute; reflexivity]|vm_compute; reflexivity]]].
  apply (below_ids (d_forest edb) (el edb 9)); [apply W|exact H1|]. match goal with |- In ?k ?l => assert (X : existsb (Nat.eqb k) l = true) by (vm_compute; reflexivity); apply existsb_exists in X as (x & Hx & E); apply Nat.eqb_eq in E; rewrite E; exact Hx end.
Qed.
