(** C106: the settings of the database read as last assigned, whatever else was called. *)
From Verif Require Import Base Base64 PyStr Xml Tree XPath Time Uuid Db FindSpec ApiSpec FindEx Api ApiEx StructSpec StructEx CredSpec Heap Prim Struct IntegritySpec IntegrityEx Integrity RegisterSpec SettingSpec Setting Prop_Cred.

(** Name, description, default user name, the days after which the credentials should or must be changed and the date of their last change read the same after every history of calls that does not assign to them. *)
Theorem c106_kept : forall R Zl q l d, wf d -> laid d -> all_typed R Zl l d -> Forall (fun c => settings (snd c)) l -> (forall c, In c l -> ~ sets q (snd c)) -> fst (ask R q (later R Zl l d)) = fst (ask R q d).
Proof. exact setting_kept. Qed.
Print Assumptions c106_kept.
(** After an assignment and any such history, what is read is what the assignment stored. *)
Theorem c106_last : forall R Zl C q o v l d, wf d -> laid d -> stores d q o v -> all_typed R Zl ((C, o) :: l) d -> Forall (fun c => settings (snd c)) l -> (forall c, In c l -> ~ sets q (snd c)) ->
  exists w, stores d q o w /\ fst (ask R q (later R Zl ((C, o) :: l) d)) = Ok w.
Proof. exact setting_last. Qed.
Print Assumptions c106_last.
(** Whether a change of the credentials is due, at a given time, is not changed by calls that assign neither the date nor the days. *)
Theorem c106_due : forall R Zl C w l d, wf d -> laid d -> all_typed R Zl l d -> Forall (fun c => settings (snd c)) l -> (forall c, In c l -> ~ sets Q_changed (snd c) /\ ~ sets (Q_days w) (snd c)) -> fst (due_now R C w (later R Zl l d)) = fst (due_now R C w d).
Proof. exact due_kept. Qed.
Print Assumptions c106_due.
(** [edb] is named; entries are then edited, moved, deleted, the bin is made, and the days are assigned. *)
Example c106_ex : wf edb /\ laid edb /\ (exists i, one_setting edb (text_tag M_name) = [i]) /\ stores edb (Q_text M_name) (Op_meta (text_tag M_name) (Some $"my data")) (V_text (Some $"my data")) /\
  all_typed lit no_z ((clk, Op_meta (text_tag M_name) (Some $"my data")) :: calls) edb /\ Forall (fun c => settings (snd c)) calls /\ (forall c, In c calls -> ~ sets (Q_text M_name) (snd c)) /\
  fst (ask lit (Q_text M_name) edb) <> Ok (V_text (Some $"my data")) /\ (forall c, In c calls -> ~ sets Q_changed (snd c) /\ ~ sets (Q_days Recommended) (snd c)).
Proof.
  assert (H : exists i, one_setting edb (text_tag M_name) = [i]) by (eexists; vm_compute; reflexivity).
  split; [exact edb_wf|]. split; [apply laidb_ok; [exact edb_wf|vm_compute; reflexivity]|]. split; [exact H|]. destruct H as (i & H). split; [apply stores_text with i; [now apply edb_setting|reflexivity]|].
  split; [apply all_typedb_ok; vm_compute; reflexivity|]. split; [repeat (constructor; [exact Logic.I|]); constructor|]. split; [intros c Hc; cbn in Hc; repeat (destruct Hc as [<-|Hc]; [intros []|]); destruct Hc|].
  split; [vm_compute; discriminate|]. intros c Hc. cbn in Hc. repeat (destruct Hc as [<-|Hc]; [split; [intros []|intros X; first [discriminate X|destruct X]]|]). destruct Hc.
Qed.
