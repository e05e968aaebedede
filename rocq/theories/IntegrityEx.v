(** Checkers and an example history for Prop_Integrity.v. *)
From Verif Require Import Base Base64 PyStr Xml Tree XPath Time Uuid Db FindSpec ApiSpec FindEx Api ApiEx StructSpec StructEx CredSpec Heap Prim Struct Struct_add Struct_hist Struct_claims Struct_empty Struct_find Struct_index Struct_trash Integrity IntegritySpec.

Definition fitsb (P T : str) : bool :=
  (negb (str_eqb T $"Group") || str_eqb P $"Group" || str_eqb P $"Root") && (negb (str_eqb T $"Entry") || str_eqb P $"Group" || str_eqb P $"History") &&
  (negb (str_eqb T $"History") || str_eqb P $"Entry") && (negb (str_eqb T $"Root") || str_eqb P $"KeePassFile") && negb (str_eqb T $"KeePassFile").
Lemma fitsb_ok P T : fitsb P T = true -> fits P T.
Proof.
  unfold fitsb. rewrite !andb_true_iff, !orb_true_iff, !negb_true_iff, !str_eqb_eq. intros [[[[H1 H2] H3] H4] H5].
  assert (X : forall a, str_eqb a a = true) by (intros a; now apply str_eqb_eq).
  split; [intros ->; rewrite X in H1; destruct H1 as [[C|]|]; [discriminate C|auto|auto]|]. split; [intros ->; rewrite X in H2; destruct H2 as [[C|]|]; [discriminate C|auto|auto]|].
  split; [intros ->; rewrite X in H3; destruct H3; [discriminate|auto]|]. split; [intros ->; rewrite X in H4; destruct H4; [discriminate|auto]|]. intros ->. rewrite X in H5. discriminate.
Qed.
Definition laidb (d : db) : bool := forallb (fun t => forallb (fun k => fitsb (etag t) (etag k)) (ekids t)) (elements (d_forest d)).
Lemma laidb_ok d : wf d -> laidb d = true -> laid d.
Proof.
  intros W H p x P T K TP TT. destruct (kid_rows d p x W K) as (t & k & Ht & <- & Ik & <- & Hk). unfold laidb in H. rewrite forallb_forall in H. specialize (H t Ht). rewrite forallb_forall in H. specialize (H k Ik). apply fitsb_ok in H.
  now rewrite <- (is_tag_fun _ _ _ _ (has_tag d t W Ht) TP), <- (is_tag_fun _ _ _ _ (has_tag d k W Hk) TT).
Qed.
Definition entryb (d : db) (i : nat) : bool := tagb (look (d_forest d)) $"Entry" i.
Definition groupb (d : db) (i : nat) : bool := tagb (look (d_forest d)) $"Group" i.
Definition itemb (d : db) (i : nat) : bool := entryb d i || groupb d i.
Definition attb (d : db) (i : nat) : bool := tagb (look (d_forest d)) $"Binary" i.
Definition typedb (d : db) (o : op) : bool :=
  match o with
  | Op_custom e k _ _ | Op_delete_custom e k => entryb d e && plainb k
  | Op_prop e _ _ | Op_tags e _ | Op_autotype_enabled e _ | Op_autotype_sequence e _ | Op_autotype_window e _ | Op_save_history e | Op_attach e _ _ | Op_reindex e _ => entryb d e
  | Op_delete_history e None => entryb d e
  | Op_delete_history e (Some h) => entryb d e && entryb d h
  | Op_uuid i _ | Op_icon i _ | Op_time i _ _ | Op_expires i _ | Op_touch i _ | Op_trash i => itemb d i
  | Op_delete i => itemb d i || attb d i
  | Op_name g _ | Op_notes g _ | Op_add_group g _ _ _ | Op_empty g => groupb d g
  | Op_add_entry g _ _ _ _ _ _ _ _ _ _ => groupb d g
  | Op_att_id a _ | Op_att_filename a _ => attb d a
  | Op_move i g => itemb d i && groupb d g
  | Op_append g l => groupb d g && forallb (itemb d) l
  | Op_add_binary _ _ _ | Op_delete_binary _ | Op_meta _ _ | Op_days _ _ | Op_changed _ => true
  end.
Lemma tagb_is L T i : tagb L T i = true -> is_tag L T i.
Proof. unfold tagb, is_tag. destruct (L i) as [r|]; [|discriminate]. intros H. exists r. split; [reflexivity|now apply str_eqb_eq]. Qed.
Lemma itemb_ok d i : itemb d i = true -> an_item d i.
Proof. unfold itemb. rewrite orb_true_iff. intros [H|H]; [left|right]; now apply tagb_is. Qed.
Lemma typedb_ok d o : typedb d o = true -> typed d o.
Proof.
  assert (G : forall i, groupb d i = true -> a_group d i) by (intros i; apply tagb_is). assert (E : forall i, entryb d i = true -> an_entry d i) by (intros i; apply tagb_is). assert (B : forall i, attb d i = true -> an_attachment d i) by (intros i; apply tagb_is).
  destruct o; cbn [typedb typed]; auto using itemb_ok; rewrite ?andb_true_iff, ?orb_true_iff.
  - intros [H1 H2]. split; [auto|now apply plainb_ok].
  - intros [H1 H2]. split; [auto|now apply plainb_ok].
  - destruct h; rewrite ?andb_true_iff; [intros [? ?]; auto|auto].
  - intros [H1 H2]. auto using itemb_ok.
  - intros [H1 H2]. split; [auto|]. apply Forall_forall. intros x Hx. rewrite forallb_forall in H2. apply itemb_ok. auto.
  - intros [H|H]; auto using itemb_ok.
Qed.
Fixpoint all_typedb (R : regex) (Zl : zlib) (l : list (clock * op)) (d : db) : bool := match l with [] => true | c :: l => typedb d (snd c) && all_typedb R Zl l (next R Zl c d) end.
Lemma all_typedb_ok R Zl l : forall d, all_typedb R Zl l d = true -> all_typed R Zl l d.
Proof. induction l as [|c l IH]; intros d; cbn [all_typedb all_typed]; [auto|]. rewrite andb_true_iff. intros [H1 H2]. split; [now apply typedb_ok|auto]. Qed.
(** Calls on [edb]: edits, history, new group and entry, moves (one refused: a group into itself), trash, reindexing, attachments and binaries, one removal (entry 126). *)
Definition calls : list (clock * op) := map (pair clk)
  [Op_prop 20 P_title (Some $"new"); Op_custom 20 $"pin" (Some $"99") true; Op_save_history 20; Op_add_group 9 (Some $"g2") None None; Op_move 67 9; Op_move 9 56;
   Op_delete 126; Op_trash 20; Op_touch 67 true; Op_reindex 67 (-1)%Z; Op_add_binary [1; 2] true false; Op_attach 67 0%Z (Some $"c"); Op_delete_binary 1%Z; Op_delete_custom 20 $"pin";
   Op_append 56 [67; 56]%nat; Op_days Required 9%Z; Op_uuid 20 (repeat 5 16)].
(** What a call can have removed. *)
Definition rem_list (d : db) (o : op) : list nat :=
  match o with
  | Op_move i g => if in_docb d g then [] else [i]
  | Op_append g l => if in_docb d g then [] else l
  | Op_delete i => [i]
  | Op_empty g => match look (d_forest d) g with Some r => r_kids r | None => [] end
  | Op_delete_history e None => match look (d_forest d) e with Some r => r_kids r | None => [] end
  | Op_delete_history _ (Some h) => [h]
  | _ => []
  end.
Definition removedb (x : nat) (d : db) (o : op) : bool := existsb (fun y => match elem_of (d_forest d) y with Some t => existsb (Nat.eqb x) (ids t) | None => false end) (rem_list d o).
Lemma removedb_ok x d o : wf d -> removed x d o -> removedb x d o = true.
Proof.
  intros W (y & Ry & B). apply existsb_exists. exists y. split.
  - assert (K : forall p z, is_kid d p z -> In z (match look (d_forest d) p with Some r => r_kids r | None => [] end)) by (intros p z (r & -> & I); exact I). destruct o; cbn [removes subject rem_list] in *; try contradiction; try (now left; congruence).
    + destruct h; [now left|]. destruct Ry as [Ry _]. auto.
    + destruct Ry as [-> N]. destruct (in_docb d g) eqn:E; [|now left]. exfalso. apply N. now apply in_docb_ok.
    + destruct Ry as [I N]. destruct (in_docb d g) eqn:E; [|exact I]. exfalso. apply N. now apply in_docb_ok.
    + destruct Ry as [Ry _]. auto.
  - destruct (below_has d y x W B) as (t & u & Ht & Hu & <- & <- & I). rewrite (elem_of_self _ t (wf_unique d W) Ht). apply existsb_exists. exists (eid u). split; [|apply Nat.eqb_refl]. now apply (below_ids (d_forest d) t (eid u) (wf_unique d W) Ht).
Qed.
Fixpoint neverb (R : regex) (Zl : zlib) (x : nat) (l : list (clock * op)) (d : db) : bool := match l with [] => true | c :: l => wfb d && negb (removedb x d (snd c)) && neverb R Zl x l (next R Zl c d) end.
Lemma neverb_ok R Zl x l : forall d, neverb R Zl x l d = true -> ~ ever R Zl (removed x) l d.
Proof.
  induction l as [|c l IH]; intros d; cbn [neverb ever]; [auto|]. rewrite !andb_true_iff, negb_true_iff. intros [[W H] N] [X|X]; [|now apply (IH (next R Zl c d))]. apply wfb_ok in W. apply (removedb_ok x d (snd c) W) in X. congruence.
Qed.
