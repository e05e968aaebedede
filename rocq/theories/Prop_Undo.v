(** C113: what is done and taken back leaves the document as it was. *)
From Verif Require Import Base Base64 PyStr Xml Tree XPath Time Uuid Db Save FindSpec ApiSpec FindEx Api ApiEx StructSpec StructEx CredSpec IntegritySpec Lib Kdbx Object ObjectSpec FailSpec Undo.

(** An attachment added and deleted. *)
Theorem c113_attachment : forall d e id f a d1, wf d -> in_doc d e -> add_attachment e id f d = (Ok a, d1) -> exists d2, delete a d1 = (Ok tt, d2) /\ untouched d d2.
Proof. exact attach_undone. Qed.
Print Assumptions c113_attachment.
(** A snapshot of an entry that has a history already, taken and deleted. *)
Theorem c113_snapshot : forall d t h, wf d -> has_elem d t -> in_doc d (eid t) -> kids_of $"History" t = [h] ->
  exists s d1 d2, save_history (eid t) d = (Ok tt, d1) /\ look (d_forest d) s = None /\ delete_history (eid t) (Some s) d1 = (Ok tt, d2) /\ untouched d d2.
Proof. exact snapshot_undone. Qed.
Print Assumptions c113_snapshot.
(** The first snapshot of an entry, taken and the whole history deleted. *)
Theorem c113_first_snapshot : forall d t, wf d -> has_elem d t -> in_doc d (eid t) -> kids_of $"History" t = [] ->
  exists d1 d2, save_history (eid t) d = (Ok tt, d1) /\ delete_history (eid t) None d1 = (Ok tt, d2) /\ untouched d d2.
Proof. exact first_snapshot_undone. Qed.
Print Assumptions c113_first_snapshot.
(** A new custom property, set and deleted. *)
Theorem c113_custom : forall R d t key v b, wf d -> has_elem d t -> in_doc d (eid t) -> tidy t -> plain key -> ~ builtin (Some key) -> text_ok v = true -> look_field key (book t) = None ->
  exists d1 d2, set_custom_property R (eid t) key (Some v) b d = (Ok tt, d1) /\ delete_custom_property R (eid t) key d1 = (Ok tt, d2) /\ untouched d d2.
Proof. exact custom_undone. Qed.
Print Assumptions c113_custom.
(** The last child of a group, moved to another group and back. *)
Theorem c113_move_partial : forall d p q t l, wf d -> has_elem d t -> in_doc d p -> in_doc d q -> row_kids d p (l ++ [eid t]) -> ~ below (look (d_forest d)) (eid t) q ->
  exists d1 d2, move (eid t) q d = (Ok tt, d1) /\ move (eid t) p d1 = (Ok tt, d2) /\ untouched d d2.
Proof. exact move_undone. Qed.
Print Assumptions c113_move_partial.
(** False in general: an entry moved away and back comes after its former successors ... *)
Theorem c113_move_refuted : exists d i p q d2, wf d /\ in_doc d q /\ is_kid d p i /\ (do _ <- move i q; move i p) d = (Ok tt, d2) /\ ~ untouched d d2.
Proof.
  exists edb, 20%nat, 9%nat, 56%nat. eexists. split; [exact edb_wf|]. split; [apply in_docb_ok; [exact edb_wf|vm_compute; reflexivity]|]. split; [eexists; split; [vm_compute; reflexivity|]; cbn; tauto|]. split; [vm_compute; reflexivity|].
  intros (H & _). apply (f_equal (fun o => match o with Some (X _ _ _ [_; X _ _ _ [X _ _ _ l]]) => map xtag l | _ => [] end)) in H. vm_compute in H. discriminate H.
Qed.
Print Assumptions c113_move_refuted.
(** ... and the first snapshot of an entry, deleted by itself, leaves an empty history in the entry. *)
Theorem c113_snapshot_refuted : exists d e s d2, wf d /\ in_doc d e /\ an_entry d e /\ (do _ <- save_history e; delete_history e (Some s)) d = (Ok tt, d2) /\ fst (history e d2) = Ok [] /\ ~ untouched d d2.
Proof.
  exists edb, 20%nat.
  let s := eval vm_compute in (match fst ((do _ <- save_history 20; history 20) edb) with Ok [s] => s | _ => O end) in exists s.
  eexists. split; [exact edb_wf|]. split; [apply in_docb_ok; [exact edb_wf|vm_compute; reflexivity]|]. split; [eexists; split; vm_compute; reflexivity|]. split; [vm_compute; reflexivity|]. split; [vm_compute; reflexivity|].
  intros (H & _). apply (f_equal (fun o => match o with Some (X _ _ _ [_; X _ _ _ [X _ _ _ l]]) => map (fun k => match k with X _ _ _ m => List.length m end) l | _ => [] end)) in H. vm_compute in H. discriminate H.
Qed.
Print Assumptions c113_snapshot_refuted.
(** Entry 20 has no history and no property "new", entry 67 a history; entry 126 is the last child of group 56, and not above group 9. *)
Example c113_ex : wf edb /\ fst (add_attachment 20 0%Z (Some $"f") edb) = Ok 152%nat /\ List.length (kids_of $"History" (el edb 67)) = 1%nat /\ kids_of $"History" (el edb 20) = [] /\ in_docb edb 67 = true /\ in_docb edb 20 = true /\
  tidyb (el edb 20) = true /\ look_field $"new" (book (el edb 20)) = None /\ fst (set_custom_property lit 20 $"new" (Some $"v") true edb) = Ok tt /\
  row_kids edb 56 ([57; 58; 66; 67] ++ [eid (el edb 126)])%nat /\ existsb (Nat.eqb 9) (ids (el edb 126)) = false.
Proof. split; [exact edb_wf|]. repeat (split; [vm_compute; reflexivity|]). split; [eexists; split; vm_compute; reflexivity|vm_compute; reflexivity]. Qed.
