(** C105: the string fields of an entry, through histories of all kinds of calls, are a ledger only its own calls write to. *)
From Verif Require Import Base Base64 PyStr Xml Tree XPath Time Uuid Db FindSpec ApiSpec FindEx Api ApiEx StructSpec StructEx CredSpec Heap Prim Struct IntegritySpec IntegrityEx Integrity RegisterSpec Ledger LineSpec Line Prop_Api.

(** Whatever else was called in between, on whatever objects: the calls on the string fields of an entry end as the ledger of C90 says, and its lines are the string fields at the end. *)
Theorem c105_ledger : forall R Zl l d t, wf d -> laid d -> In t (elements (d_forest d)) -> an_entry d (eid t) -> tidy t -> plain_keys t -> all_typed R Zl l d -> Forall (fun c => settings (snd c)) l ->
  let '(a, lines) := line_steps (calls_on (eid t) l) (book t) in
  told R Zl (eid t) l d = map ending a /\
  exists t', In t' (elements (d_forest (later R Zl l d))) /\ eid t' = eid t /\ tidy t' /\ plain_keys t' /\ book t' = lines.
Proof. exact ledger_history. Qed.
Print Assumptions c105_ledger.
(** What is read at the end (a property, a custom property, its protection, the dictionary of custom properties) is what the ledger says. *)
Theorem c105_reads : forall R Zl l d t c, wf d -> laid d -> In t (elements (d_forest d)) -> an_entry d (eid t) -> tidy t -> plain_keys t -> all_typed R Zl l d -> Forall (fun c => settings (snd c)) l -> asks c -> key_plain c ->
  fst (do_call R (eid t) c (later R Zl l d)) = fst (line_step c (snd (line_steps (calls_on (eid t) l) (book t)))).
Proof. exact ledger_reads. Qed.
Print Assumptions c105_reads.
(** The history [calls] edits the entry 20 of [edb], snapshots it, moves it to the bin, and edits it again; others are moved, deleted, given attachments. *)
Example c105_ex : wf edb /\ laid edb /\ In mail (elements (d_forest edb)) /\ an_entry edb (eid mail) /\ tidy mail /\ plain_keys mail /\ all_typed lit no_z calls edb /\ Forall (fun c => settings (snd c)) calls /\
  calls_on 20 calls = [Set_prop P_title (Some $"new"); Set_custom $"pin" (Some $"99") true; Del_custom $"pin"] /\
  fst (line_step (Get_prop P_title) (snd (line_steps (calls_on 20 calls) (book mail)))) = Ok (A_text (Some $"new")) /\ fst (get_prop lit P_title 20 edb) <> Ok (Some $"new").
Proof.
  split; [exact edb_wf|]. split; [apply laidb_ok; [exact edb_wf|vm_compute; reflexivity]|]. split; [exact mail_has|]. split; [apply tagb_is; vm_compute; reflexivity|]. split; [exact mail_tidy|]. split; [exact (proj1 Prop_Api.c46_ex)|].
  split; [apply all_typedb_ok; vm_compute; reflexivity|]. split; [repeat (constructor; [exact Logic.I|]); constructor|]. split; [reflexivity|]. split; vm_compute; [reflexivity|discriminate].
Qed.
