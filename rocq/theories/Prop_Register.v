(** C104: what is read of a property is what was last assigned to it. *)
From Verif Require Import Base Base64 PyStr Xml Tree XPath Time Uuid Db FindSpec ApiSpec FindEx Api ApiEx StructSpec StructEx CredSpec Heap Prim Struct IntegritySpec IntegrityEx Integrity LocalSpec Local_step RegisterSpec Register_mute Register.

(** UUID, icon, tags, name, notes, times, expiry flag and auto-type settings of an entry or group read the same after every history of calls in which nothing is assigned to them. *)
Theorem c104_kept : forall R Zl q i l d, wf d -> laid d -> all_typed R Zl l d -> Forall (fun c => settings (snd c)) l -> an_item d i -> ~ ever R Zl (assigns q i) l d -> fst (reading q i (later R Zl l d)) = fst (reading q i d).
Proof. exact register_kept. Qed.
Print Assumptions c104_kept.
(** After an assignment and any such history, what is read is the value assigned. *)
Theorem c104_last : forall R Zl C q d t v w l, wf d -> laid d -> In t (elements (d_forest d)) -> an_item d (eid t) -> takes q d t v w -> all_typed R Zl ((C, assignment q (eid t) v) :: l) d -> Forall (fun c => settings (snd c)) l ->
  ~ ever R Zl (assigns q (eid t)) l (next R Zl (C, assignment q (eid t) v) d) -> fst (reading q (eid t) (later R Zl ((C, assignment q (eid t) v) :: l) d)) = Ok w.
Proof. exact register_last. Qed.
Print Assumptions c104_last.
(** The version of the format, which decides how times are written, is not changed by any call. *)
Theorem c104_version : forall R Zl c d, d_major (next R Zl c d) = d_major d.
Proof. exact Level.level. Qed.
Print Assumptions c104_version.
Lemma unassigned q i l d : forallb (fun c => match target (snd c) with Some j => negb (j =? i)%nat | None => true end) l = true -> ~ ever lit no_z (assigns q i) l d.
Proof.
  intros F E. apply ever_in in E as (c & d1 & Hc & A). rewrite forallb_forall in F. specialize (F c Hc). destruct (snd c); cbn [assigns target] in *; try contradiction; destruct A as [_ ->]; rewrite Nat.eqb_refl in F; discriminate F.
Qed.
Definition later_calls : list (clock * op) := removelast calls.
(** The entry 20 of [edb] is assigned an icon; it is then edited, snapshotted and moved to the bin, other entries are moved, touched and deleted. *)
Example c104_ex : wf edb /\ laid edb /\ In (el edb 20) (elements (d_forest edb)) /\ an_item edb 20 /\ takes P_icon edb (el edb 20) $"7" (Some $"7") /\ all_typed lit no_z ((clk, assignment P_icon 20 $"7") :: later_calls) edb /\
  Forall (fun c => settings (snd c)) later_calls /\ ~ ever lit no_z (assigns P_icon 20) later_calls (next lit no_z (clk, assignment P_icon 20 $"7") edb) /\ fst (get_icon 20 edb) <> Ok (Some $"7").
Proof.
  split; [exact edb_wf|]. split; [apply laidb_ok; [exact edb_wf|vm_compute; reflexivity]|]. assert (Hb : hasb edb 20 = true) by (vm_compute; reflexivity). split; [now apply hasb_ok in Hb as [Ht _]|]. split; [left; apply tagb_is; vm_compute; reflexivity|].
  split; [split; [vm_compute; lia|]; split; reflexivity|]. split; [apply all_typedb_ok; vm_compute; reflexivity|]. split; [repeat (constructor; [exact Logic.I|]); constructor|]. split; [apply unassigned; vm_compute; reflexivity|vm_compute; discriminate].
Qed.
