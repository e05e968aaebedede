(** C117: deletions may be made in either order, and before or after assignments that write in place. *)
From Verif Require Import Base Base64 PyStr Xml Tree XPath Time Uuid Db Save FindSpec ApiSpec FindEx Api ApiEx StructSpec StructEx CredSpec IntegritySpec Heap Prim Struct Lib Kdbx Object ObjectSpec FailSpec AgainSpec LastSpec SwapSpec DropSpec Drop.

Theorem c117_deletes : forall i j d d1 d2, wf d -> delete i d = (Ok tt, d1) -> delete j d1 = (Ok tt, d2) ->
  exists d3 d4, delete j d = (Ok tt, d3) /\ delete i d3 = (Ok tt, d4) /\ untouched d2 d4.
Proof. exact deletes_order. Qed.
Print Assumptions c117_deletes.
Theorem c117_delete_assign : forall R Zl C o i k d d1 d2, wf d -> thing d i -> spot d o = Some k -> delete i d = (Ok tt, d1) -> IntegritySpec.run R Zl C o d1 = (Ok tt, d2) ->
  exists d3 d4, IntegritySpec.run R Zl C o d = (Ok tt, d3) /\ delete i d3 = (Ok tt, d4) /\ untouched d2 d4.
Proof. exact delete_assign. Qed.
Print Assumptions c117_delete_assign.
Theorem c117_assign_delete : forall R Zl C o i k d d1 d2, wf d -> thing d i -> spot d o = Some k -> IntegritySpec.run R Zl C o d = (Ok tt, d1) -> delete i d1 = (Ok tt, d2) ->
  exists d3 d4, delete i d = (Ok tt, d3) /\ IntegritySpec.run R Zl C o d3 = (Ok tt, d4) /\ untouched d4 d2.
Proof. exact assign_delete. Qed.
Print Assumptions c117_assign_delete.
(** Two entries; an attachment of an entry, and the creation time of the entry. *)
Example c117_ex : wf edb /\ fst ((do _ <- delete 20; delete 67) edb) = Ok tt /\ thing edb 53 /\ (exists k, spot edb (Op_time 20 T_ctime (now clk)) = Some k) /\
  fst ((do _ <- delete 53; IntegritySpec.run lit no_z clk (Op_time 20 T_ctime (now clk))) edb) = Ok tt /\ fst ((do _ <- IntegritySpec.run lit no_z clk (Op_time 20 T_ctime (now clk)); delete 53) edb) = Ok tt.
Proof.
  split; [exact edb_wf|]. split; [vm_compute; reflexivity|]. split; [eexists; split; [vm_compute; reflexivity|cbn; tauto]|]. split; [eexists; vm_compute; reflexivity|]. split; vm_compute; reflexivity.
Qed.
