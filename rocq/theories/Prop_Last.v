(** C115: of several assignments to a property only the last counts. *)
From Verif Require Import Base Base64 PyStr Xml Tree XPath Time Uuid Db Save FindSpec ApiSpec FindEx Api ApiEx StructSpec StructEx CredSpec IntegritySpec Lib Kdbx Object ObjectSpec FailSpec AgainSpec LastSpec Last LastSet LastAtt Prop_Cred.

Theorem c115_last_partial : forall R Zl C C' C'' o o' d d1 d2, wf d -> assigns d o -> same_property o o' ->
  IntegritySpec.run R Zl C o d = (Ok tt, d1) -> IntegritySpec.run R Zl C' o' d1 = (Ok tt, d2) ->
  exists d3, IntegritySpec.run R Zl C'' o' d = (Ok tt, d3) /\ untouched d3 d2.
Proof. exact last_counts. Qed.
Print Assumptions c115_last_partial.
Theorem c115_setting : forall R Zl C C' C'' T o o' d d1 d2 i l, wf d -> setting d T (i :: l) -> sets T o -> sets T o' ->
  IntegritySpec.run R Zl C o d = (Ok tt, d1) -> IntegritySpec.run R Zl C' o' d1 = (Ok tt, d2) ->
  exists d3, IntegritySpec.run R Zl C'' o' d = (Ok tt, d3) /\ untouched d3 d2.
Proof. exact setting_last. Qed.
Print Assumptions c115_setting.
Theorem c115_attachment : forall R Zl C C' C'' b a o o' d d1 d2 t, wf d -> has_elem d t -> eid t = a -> relabels b a o -> relabels b a o' ->
  IntegritySpec.run R Zl C o d = (Ok tt, d1) -> IntegritySpec.run R Zl C' o' d1 = (Ok tt, d2) ->
  exists d3, IntegritySpec.run R Zl C'' o' d = (Ok tt, d3) /\ untouched d3 d2.
Proof. exact label_last. Qed.
Print Assumptions c115_attachment.
(** False in general: a password that is not marked as protected is marked when it is emptied first. *)
Definition clear_db : db := snd (set_string lit $"Password" 20 (Some $"old") (Some false) edb).
Theorem c115_password_refuted : exists d e v d1 d2 d3, wf d /\ an_entry d e /\ set_prop lit P_password e (Some []) d = (Ok tt, d1) /\ set_prop lit P_password e (Some v) d1 = (Ok tt, d2) /\
  set_prop lit P_password e (Some v) d = (Ok tt, d3) /\ ~ untouched d3 d2.
Proof.
  exists clear_db, 20%nat, $"new". do 3 eexists. split; [apply wfb_ok; vm_compute; reflexivity|]. split; [eexists; split; vm_compute; reflexivity|]. split; [vm_compute; reflexivity|]. split; [vm_compute; reflexivity|]. split; [vm_compute; reflexivity|].
  intros (H & _). apply (f_equal (fun o => match o with Some x => List.length (List.filter (fun k => match k with X _ [(_, p)] _ _ => str_eqb p $"False" | _ => false end) (match x with X _ _ _ [_; X _ _ _ [X _ _ _ l]] => flat_map (fun k => match k with X _ _ _ m => flat_map (fun k => match k with X _ _ _ m => m end) m end) l | _ => [] end)) | None => O end)) in H. vm_compute in H. discriminate H.
Qed.
Print Assumptions c115_password_refuted.
(** A password assigned twice, an icon assigned twice. *)
Example c115_ex : wf edb /\ assigns edb (Op_prop 20 P_password (Some $"x")) /\ same_property (Op_prop 20 P_password (Some $"x")) (Op_prop 20 P_password (Some $"y")) /\
  fst ((do _ <- IntegritySpec.run lit no_z clk (Op_prop 20 P_password (Some $"x")); IntegritySpec.run lit no_z clk (Op_prop 20 P_password (Some $"y"))) edb) = Ok tt /\
  assigns edb (Op_name 9 (Some $"n")) /\ fst ((do _ <- IntegritySpec.run lit no_z clk (Op_name 9 (Some $"n")); IntegritySpec.run lit no_z clk (Op_name 9 (Some $"m"))) edb) = Ok tt.
Proof.
  split; [exact edb_wf|]. split; [|split; [now split|split; [vm_compute; reflexivity|split; [|vm_compute; reflexivity]]]].
  - exists (el edb 20). split; [apply hasb_ok; vm_compute; reflexivity|]. split; [vm_compute; reflexivity|]. split; [apply tidyb_ok; vm_compute; reflexivity|]. intros s [= <-]. right. left. discriminate.
  - exists (el edb 9). split; [apply hasb_ok; vm_compute; reflexivity|]. split; [vm_compute; reflexivity|]. unfold at_most_one. vm_compute. repeat constructor.
Qed.
Example c115_setting_ex : setting edb $"DatabaseName" (one_setting edb $"DatabaseName") /\ List.length (one_setting edb $"DatabaseName") = 1%nat /\ sets $"DatabaseName" (Op_meta $"DatabaseName" (Some $"a")) /\
  fst ((do _ <- IntegritySpec.run lit no_z clk (Op_meta $"DatabaseName" (Some $"a")); IntegritySpec.run lit no_z clk (Op_meta $"DatabaseName" (Some $"b"))) edb) = Ok tt.
Proof. split; [now apply edb_setting|]. split; [vm_compute; reflexivity|]. split; [cbn [sets]; split; [reflexivity|now left]|vm_compute; reflexivity]. Qed.
Example c115_attachment_ex : has_elem edb (el edb 53) /\ eid (el edb 53) = 53%nat /\
  fst ((do _ <- IntegritySpec.run lit no_z clk (Op_att_id 53 4); IntegritySpec.run lit no_z clk (Op_att_id 53 7)) edb) = Ok tt /\
  fst ((do _ <- IntegritySpec.run lit no_z clk (Op_att_filename 53 (Some $"a")); IntegritySpec.run lit no_z clk (Op_att_filename 53 None)) edb) = Ok tt.
Proof. split; [apply hasb_ok; vm_compute; reflexivity|]. split; [vm_compute; reflexivity|]. split; vm_compute; reflexivity. Qed.
