(** C114: assigning the same value again changes nothing. *)
From Verif Require Import Base Base64 PyStr Xml Tree XPath Time Uuid Db Save FindSpec ApiSpec FindEx Api ApiEx StructSpec StructEx CredSpec IntegritySpec Lib Kdbx Object ObjectSpec FailSpec AgainSpec Again LastSpec LastSet LastAtt.

Theorem c114_again_partial : forall R Zl C C' o d d1, wf d -> assigns d o -> IntegritySpec.run R Zl C o d = (Ok tt, d1) ->
  exists d2, IntegritySpec.run R Zl C' o d1 = (Ok tt, d2) /\ untouched d1 d2.
Proof. exact same_again. Qed.
Print Assumptions c114_again_partial.
Theorem c114_setting : forall R Zl C C' T o d d1 i l, wf d -> setting d T (i :: l) -> sets T o -> IntegritySpec.run R Zl C o d = (Ok tt, d1) ->
  exists d2, IntegritySpec.run R Zl C' o d1 = (Ok tt, d2) /\ untouched d1 d2.
Proof. exact setting_again. Qed.
Print Assumptions c114_setting.
Theorem c114_attachment : forall R Zl C C' b a o d d1 t, wf d -> has_elem d t -> eid t = a -> relabels b a o -> IntegritySpec.run R Zl C o d = (Ok tt, d1) ->
  exists d2, IntegritySpec.run R Zl C' o d1 = (Ok tt, d2) /\ untouched d1 d2.
Proof. exact label_again. Qed.
Print Assumptions c114_attachment.
(** False in general: emptying a password that is not marked as protected, done twice, marks it as protected ... *)
Definition bare_db : db := snd (set_string lit $"Password" 20 (Some $"old") (Some false) edb).
Theorem c114_password_refuted : exists d e d1 d2, wf d /\ an_entry d e /\ set_prop lit P_password e (Some []) d = (Ok tt, d1) /\ set_prop lit P_password e (Some []) d1 = (Ok tt, d2) /\ ~ untouched d1 d2.
Proof.
  exists bare_db, 20%nat. do 2 eexists. split; [apply wfb_ok; vm_compute; reflexivity|]. split; [eexists; split; vm_compute; reflexivity|]. split; [vm_compute; reflexivity|]. split; [vm_compute; reflexivity|].
  intros (H & _). apply (f_equal (fun o => match o with Some x => List.length (List.filter (fun k => match k with X _ [(_, p)] _ _ => str_eqb p $"False" | _ => false end) (match x with X _ _ _ [_; X _ _ _ [X _ _ _ l]] => flat_map (fun k => match k with X _ _ _ m => flat_map (fun k => match k with X _ _ _ m => m end) m end) l | _ => [] end)) | None => O end)) in H. vm_compute in H. discriminate H.
Qed.
Print Assumptions c114_password_refuted.
(** ... and with two Tags elements each assignment takes one of them away. *)
Definition tags_db : db := snd ((do _ <- lx_append_new 20 (X $"Tags" [] (Some $"a") []); lx_append_new 20 (X $"Tags" [] (Some $"b") [])) edb).
Theorem c114_tags_refuted : exists d e d1 d2, wf d /\ an_entry d e /\ set_tags e [$"a"] d = (Ok tt, d1) /\ set_tags e [$"a"] d1 = (Ok tt, d2) /\ fst (get_tags e d1) <> fst (get_tags e d2).
Proof.
  exists tags_db, 20%nat. do 2 eexists. split; [apply wfb_ok; vm_compute; reflexivity|]. split; [eexists; split; vm_compute; reflexivity|]. split; [vm_compute; reflexivity|]. split; [vm_compute; reflexivity|]. vm_compute. discriminate.
Qed.
Print Assumptions c114_tags_refuted.
(** Assignments to entry 20 and group 9. *)
Example c114_ex : wf edb /\ tidyb (el edb 20) = true /\
  Forall (fun o => fst (IntegritySpec.run lit no_z clk o edb) = Ok tt)
    [Op_prop 20 P_password (Some $"x"); Op_custom 20 $"k" (Some $"v") true; Op_tags 20 [$"a"; $"b"]; Op_icon 9 (Some $"7"); Op_name 9 (Some $"n"); Op_notes 9 (Some $"n"); Op_expires 20 true; Op_autotype_enabled 20 None] /\
  assigns edb (Op_prop 20 P_password (Some $"x")) /\ assigns edb (Op_name 9 (Some $"n")).
Proof.
  split; [exact edb_wf|]. split; [vm_compute; reflexivity|]. split; [repeat constructor; vm_compute; reflexivity|]. split.
  - exists (el edb 20). split; [apply hasb_ok; vm_compute; reflexivity|]. split; [vm_compute; reflexivity|]. split; [apply tidyb_ok; vm_compute; reflexivity|]. intros s [= <-]. right. left. discriminate.
  - exists (el edb 9). split; [apply hasb_ok; vm_compute; reflexivity|]. split; [vm_compute; reflexivity|]. unfold at_most_one. vm_compute. repeat constructor.
Qed.
