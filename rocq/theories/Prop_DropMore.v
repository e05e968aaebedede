(** C117, the rest: deletions before or after assignments to the properties that are not written in place. *)
From Verif Require Import Base Base64 PyStr Xml Tree XPath Time Uuid Db Save FindSpec ApiSpec FindEx Api ApiEx StructSpec StructEx CredSpec IntegritySpec Heap Prim Struct Struct_bin Lib Kdbx Object ObjectSpec FailSpec AgainSpec LastSpec SwapSpec Last LastSet DropSpec Drop DropMore Prop_Swap.

Theorem c117_property : forall R Zl C o i p d t T, wf d -> has_elem d t -> formed o (eid t) t -> stored_as o = Some T -> is_kid d p i -> (forall c, In c (kids_tagged (look (d_forest d)) T (eid t)) -> ~ below (look (d_forest d)) c i) ->
  (forall d1 d2, IntegritySpec.run R Zl C o d = (Ok tt, d1) -> delete i d1 = (Ok tt, d2) -> exists d3 d4, delete i d = (Ok tt, d3) /\ IntegritySpec.run R Zl C o d3 = (Ok tt, d4) /\ untouched d2 d4) /\
  (forall d1 d2, delete i d = (Ok tt, d1) -> IntegritySpec.run R Zl C o d1 = (Ok tt, d2) -> exists d3 d4, IntegritySpec.run R Zl C o d = (Ok tt, d3) /\ delete i d3 = (Ok tt, d4) /\ untouched d4 d2).
Proof. exact drop_orders. Qed.
Print Assumptions c117_property.
(** The title of an entry and an attachment of it; the name of a group and an entry in it. *)
Example c117_property_ex : wf edb /\ has_elem edb (el edb 9) /\ has_elem edb (el edb 20) /\ formed (Op_name 9 (Some $"g")) 9 (el edb 9) /\ formed (Op_prop 20 P_title (Some $"a")) 20 (el edb 20) /\ (exists p, is_kid edb p 20) /\ is_kid edb 20 53 /\
  aside edb $"Name" 9 20 /\ aside edb $"String" 20 53 /\
  fst ((do _ <- IntegritySpec.run lit no_z clk (Op_name 9 (Some $"g")); delete 20) edb) = Ok tt /\ fst ((do _ <- delete 53; IntegritySpec.run lit no_z clk (Op_prop 20 P_title (Some $"a"))) edb) = Ok tt /\ fst ((do _ <- delete 20; IntegritySpec.run lit no_z clk (Op_prop 20 P_title (Some $"a"))) edb) = Ok tt.
Proof.
  destruct c116_inside_ex as (W & H1 & H2 & F1 & F2 & _). do 5 (split; [assumption|]). split; [exists 9%nat; eexists; split; [vm_compute; reflexivity|cbn; tauto]|]. split; [eexists; split; [vm_compute; reflexivity|cbn; tauto]|].
  split; [apply (asideb edb _ (el edb 9)); [exact W|exact H1|vm_compute; reflexivity]|]. split; [apply (asideb edb _ (el edb 20)); [exact W|exact H2|vm_compute; reflexivity]|]. split; [vm_compute; reflexivity|]. split; vm_compute; reflexivity.
Qed.
