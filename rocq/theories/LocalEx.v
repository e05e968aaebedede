(** Checkers for Prop_Local.v. *)
From Verif Require Import Base Base64 PyStr Xml Tree XPath Time Uuid Db FindSpec ApiSpec FindEx Api ApiEx StructSpec StructEx CredSpec Heap Prim Struct Struct_add Struct_hist Struct_claims Struct_empty Struct_find Struct_index Struct_trash Integrity IntegritySpec IntegrityEx LocalSpec.

Definition parents (d : db) (i : nat) : list nat := map eid (filter (fun t => existsb (Nat.eqb i) (map eid (ekids t))) (elements (d_forest d))).
Lemma parents_ok d p i : wf d -> is_kid d p i -> In p (parents d i).
Proof.
  intros W K. destruct (kid_rows d p i W K) as (t & k & Ht & <- & Ik & <- & _). unfold parents. apply in_map. apply filter_In. split; [exact Ht|]. apply existsb_exists. exists (eid k). split; [now apply in_map|apply Nat.eqb_refl].
Qed.
Definition opt_list (r : res (option nat) * db) : list nat := match r with (Ok (Some x), _) => [x] | _ => [] end.
Definition touch_list (R : regex) (d : db) (o : op) : list nat :=
  match o with
  | Op_prop i _ _ | Op_custom i _ _ _ | Op_delete_custom i _ | Op_uuid i _ | Op_icon i _ | Op_tags i _ | Op_name i _ | Op_notes i _
  | Op_time i _ _ | Op_expires i _ | Op_touch i _ | Op_autotype_enabled i _ | Op_autotype_sequence i _ | Op_autotype_window i _
  | Op_save_history i | Op_delete_history i _ | Op_attach i _ _ | Op_att_id i _ | Op_att_filename i _
  | Op_add_entry i _ _ _ _ _ _ _ _ _ _ | Op_add_group i _ _ _ | Op_empty i => [i]
  | Op_move i g => g :: parents d i
  | Op_append g l => g :: flat_map (parents d) l
  | Op_delete i | Op_reindex i _ => parents d i
  | Op_trash i => parents d i ++ opt_list (root_group R d) ++ opt_list (recyclebin_group R d)
  | Op_delete_binary _ => flat_map (fun t => if attb d (eid t) then eid t :: parents d (eid t) else []) (elements (d_forest d))
  | Op_meta tag _ => match meta_elem R tag d with (Ok (Some e), _) => [eid e] | _ => [] end
  | Op_add_binary _ _ _ | Op_days _ _ | Op_changed _ => []
  end.
Lemma touch_list_ok R d o x : wf d -> touches R d o x -> In x (touch_list R d o).
Proof.
  intros W. destruct o; cbn [touches touch_list]; try (intros ->; now left); try contradiction.
  - intros A. apply in_flat_map. destruct A as [A|(a & A & K)].
    + destruct (tag_has d _ x W A) as (t & Ht & <- & Et). exists t. split; [exact Ht|]. destruct (attb d (eid t)) eqn:E; [now left|]. destruct A as (r & Er & Tr). unfold attb, tagb in E. rewrite Er in E. apply str_eqb_eq in Tr. congruence.
    + destruct (tag_has d _ a W A) as (t & Ht & <- & Et). exists t. split; [exact Ht|]. destruct (attb d (eid t)) eqn:E; [right; now apply parents_ok|]. destruct A as (r & Er & Tr). unfold attb, tagb in E. rewrite Er in E. apply str_eqb_eq in Tr. congruence.
  - intros (e & -> & <-). now left.
  - intros [->|K]; [now left|right; now apply parents_ok].
  - intros [->|(i & I & K)]; [now left|right]. apply in_flat_map. exists i. split; [exact I|now apply parents_ok].
  - intros K. now apply parents_ok.
  - intros [K|[K|K]]; rewrite !in_app_iff; [left; now apply parents_ok|right; left; rewrite K; now left|right; right; rewrite K; now left].
  - intros K. now apply parents_ok.
Qed.
Fixpoint apartb (R : regex) (Zl : zlib) (xs : list nat) (l : list (clock * op)) (d : db) : bool :=
  match l with [] => true | c :: l => wfb d && forallb (fun y => negb (existsb (Nat.eqb y) xs)) (touch_list R d (snd c)) && apartb R Zl xs l (next R Zl c d) end.
Lemma apartb_ok R Zl (X : nat -> Prop) xs l : (forall x, X x -> In x xs) -> forall d, apartb R Zl xs l d = true -> ~ ever R Zl (meddled R X) l d.
Proof.
  intros HX. induction l as [|c l IH]; intros d; cbn [apartb ever]; [auto|]. rewrite !andb_true_iff. intros [[W H] N] [(x & Hx & T)|E]; [|now apply (IH (next R Zl c d))].
  apply wfb_ok in W. rewrite forallb_forall in H. specialize (H x (touch_list_ok R d (snd c) x W T)). apply negb_true_iff in H. assert (existsb (Nat.eqb x) xs = true) by (apply existsb_exists; exists x; split; [now apply HX|apply Nat.eqb_refl]). congruence.
Qed.
Lemma typed_kinds d o : typed d o -> kinds d o.
Proof. destruct o; cbn; try tauto. destruct h; tauto. Qed.
Lemma all_typed_kinds R Zl l : forall d, all_typed R Zl l d -> all_kinds R Zl l d.
Proof. induction l as [|c l IH]; intros d; cbn; [auto|]. intros [A B]. split; [now apply typed_kinds|auto]. Qed.
Lemma within_ids d i x : wf d -> hasb d i = true -> within d i x -> In x (ids (el d i)).
Proof. intros W H B. apply hasb_ok in H as [Ht Ei]. unfold within in B. rewrite <- Ei in B at 1. now apply (below_ids (d_forest d) (el d i) x (wf_unique d W) Ht). Qed.
Definition kindsb (d : db) (o : op) : bool := match o with Op_custom e _ _ _ | Op_delete_custom e _ => entryb d e | _ => typedb d o end.
Fixpoint all_kindsb (R : regex) (Zl : zlib) (l : list (clock * op)) (d : db) : bool := match l with [] => true | c :: l => kindsb d (snd c) && all_kindsb R Zl l (next R Zl c d) end.
Lemma kindsb_ok d o : kindsb d o = true -> kinds d o.
Proof. destruct o; cbn [kindsb]; try (intros H; apply typed_kinds; now apply typedb_ok); intros H; now apply tagb_is. Qed.
Lemma all_kindsb_ok R Zl l : forall d, all_kindsb R Zl l d = true -> all_kinds R Zl l d.
Proof. induction l as [|c l IH]; intros d; cbn [all_kindsb all_kinds]; [auto|]. rewrite andb_true_iff. intros [A B]. split; [now apply kindsb_ok|auto]. Qed.
Definition childb (d : db) (p x : nat) : bool := match look (d_forest d) p with Some r => existsb (Nat.eqb x) (r_kids r) | None => false end.
Lemma childb_ok d p x : childb d p x = true -> is_kid d p x.
Proof. unfold childb. destruct (look (d_forest d) p) as [r|] eqn:E; [|discriminate]. intros H. apply existsb_exists in H as (y & Hy & Ey). apply Nat.eqb_eq in Ey. subst y. now exists r. Qed.
(** Calls on the entry 67 of [edb], whose history holds the snapshot 97; among them a key with a double quote in it, whose search finds the History element itself. *)
Definition quote_key : str := $"Title""]/../../History/Entry[String/Key/text()=""Title".
Definition edits : list (clock * op) := map (pair clk)
  [Op_prop 67 P_title (Some $"t2"); Op_prop 67 P_password (Some $"p2"); Op_save_history 67; Op_custom 67 $"pin" (Some $"99") true; Op_tags 67 [$"a"]; Op_touch 67 true; Op_attach 67 0%Z (Some $"c");
   Op_autotype_sequence 67 (Some $"x"); Op_expires 67 true; Op_uuid 67 (repeat 5 16); Op_save_history 67; Op_icon 67 (Some $"3"); Op_delete_custom 67 $"pin"; Op_custom 67 quote_key (Some $"v") false].
(** The calls of IntegrityEx.v except the removal of a binary (the snapshot 97 has an attachment). *)
Definition calls2 : list (clock * op) := filter (fun c => match snd c with Op_delete_binary _ => false | _ => true end) calls.
