(** Calls that raise leave no trace: proofs of C111.  Models no code. *)
From Verif Require Import Base PyStr Xml Tree Heap XPath Uuid Time Db Save FindSpec Api ApiSpec StructSpec CredSpec Prim IntegritySpec Struct_add Integrity_ops Integrity_calls Struct Struct_empty Struct_hist Lib Kdbx Object ObjectSpec FailSpec.

Definition clean {A} (m : M A) : Prop := forall d x d', wf d -> m d = (Err x, d') -> untouched d d'.
(** Stronger: the very same state. *)
Definition strict {A} (m : M A) : Prop := forall d x d', m d = (Err x, d') -> d' = d.
Lemma untouched_refl d : untouched d d. Proof. repeat split. Qed.
Lemma untouched_trans a b c : untouched a b -> untouched b c -> untouched a c.
Proof. unfold untouched. intuition congruence. Qed.
Lemma clean_strict {A} (m : M A) : strict m -> clean m.
Proof. intros H d x d' _ E. apply H in E. subst d'. apply untouched_refl. Qed.
Lemma strict_reads {A} (m : M A) : reads m -> strict m.
Proof. intros H d x d' E. exact (reads_run m d _ d' H E). Qed.
Lemma strict_bind {A B} (m : M A) (k : A -> M B) : reads m -> (forall a, strict (k a)) -> strict (mbind m k).
Proof.
  intros Hm Hk d x d' E. apply mbind_inv in E as [(e & E & _)|(a & d1 & E & E2)]; [exact (reads_run m d _ d' Hm E)|]. apply (reads_run m d _ d1 Hm) in E. subst d1. exact (Hk a d x d' E2).
Qed.
Lemma clean_bind {A B} (m : M A) (k : A -> M B) : reads m -> (forall a, clean (k a)) -> clean (mbind m k).
Proof.
  intros Hm Hk d x d' W E. apply mbind_inv in E as [(e & E & _)|(a & d1 & E & E2)]; [apply (reads_run m d _ d' Hm) in E; subst; apply untouched_refl|]. apply (reads_run m d _ d1 Hm) in E. subst d1. exact (Hk a d x d' W E2).
Qed.
Lemma clean_quiet {A} (m : M A) : clean m -> clean (quiet m).
Proof. intros H d x d' W E. unfold quiet in E. apply mbind_inv in E as [(e & E & _)|(a & d1 & E & E2)]; [exact (H d e d' W E)|discriminate]. Qed.
Lemma strict_set_text i v : strict (lx_set_text i v).
Proof. intros d x d'. unfold lx_set_text. destruct v as [s|]; [destruct (text_ok s)|]; try discriminate. intros E. now injection E. Qed.
Lemma strict_set_attr i k v : strict (lx_set_attr i k v).
Proof. intros d x d'. unfold lx_set_attr. destruct (text_ok v); [discriminate|]. intros E. now injection E. Qed.
Lemma strict_remove p c : strict (lx_remove p c).
Proof. intros d x d'. unfold lx_remove. destruct (parent_of _ c) as [t|]; [destruct (eid t =? p)%nat; [discriminate|]|]; intros E; now injection E. Qed.
Lemma strict_append p c : strict (lx_append p c).
Proof. intros d x d'. unfold lx_append. destruct (_ || _); [|discriminate]. intros E. now injection E. Qed.
Lemma strict_delete i : strict (delete i).
Proof. intros d x d'. unfold delete. destruct (parent_of _ i) as [t|]; [apply strict_remove|]. intros E. now injection E. Qed.
(** A new element that could not be linked is left over outside the document. *)
Lemma new_untouched x d r d' : d_forest d <> [] -> lx_new x d = (r, d') -> untouched d d'.
Proof.
  intros H. unfold lx_new. destruct (label (d_next d) x) as [t n]. intros E. injection E as _ <-. unfold untouched, document. cbn [d_forest d_bins d_major d_minor]. destruct (d_forest d); [congruence|]. repeat split.
Qed.
Lemma clean_new {A} x (k : nat -> M A) : (forall c, strict (k c)) -> clean (do c <- lx_new x; k c).
Proof.
  intros Hk d y d' (W & _) E. apply mbind_inv in E as [(e & E & _)|(a & d1 & E & E2)]; [exact (new_untouched x d _ d' W E)|]. apply Hk in E2. subst d'. exact (new_untouched x d _ d1 W E).
Qed.
Lemma strict_then {A B} (m : M A) (a : A -> B) : strict m -> strict (do c <- m; ret (a c)).
Proof. intros H d x d' E. apply mbind_inv in E as [(e & E & _)|(c & d1 & E & E2)]; [exact (H d e d' E)|discriminate]. Qed.
Lemma strict_link {A} p c (a : A) : strict (do _ <- lx_append p c; ret a).
Proof. apply (strict_then (lx_append p c) (fun _ => a)). apply strict_append. Qed.
Lemma clean_append_new p x : clean (lx_append_new p x).
Proof. apply clean_new. intros c. apply strict_link. Qed.
Lemma clean_ext {A} (m m' : M A) : (forall d, m d = m' d) -> clean m -> clean m'.
Proof. intros H C d x d' W E. rewrite <- H in E. exact (C d x d' W E). Qed.

Lemma strict_time p i v : strict (set_time p i v).
Proof.
  unfold set_time. apply strict_bind; [apply reads_the|]. intros t. destruct (find1 _ t) as [ts|]; [|apply strict_reads, reads_ret]. destruct (find1 p ts) as [q|]; [|apply strict_reads, reads_ret].
  apply strict_bind; [apply reads_encode|]. intros s. apply strict_set_text.
Qed.
(** A second time set to the same value cannot raise after the first was set. *)
Lemma time_twice p q i v d d1 x d' : wf d -> set_time p i v d = (Ok tt, d1) -> set_time q i v d1 = (Err x, d') -> untouched d d'.
Proof.
  intros W E1 E2. pose proof (strict_time q i v d1 x d' E2) as Ed. subst d'. unfold set_time in E1. apply mbind_inv in E1 as [(e & _ & Hx)|(t & d0 & Et & E1)]; [discriminate|].
  apply the_ok in Et as (-> & Ht & Hi); [|exact W].
  destruct (find1 $"Times" t) as [ts|] eqn:F1; [|injection E1 as <-; apply untouched_refl]. destruct (find1 p ts) as [a|] eqn:F2; [|injection E1 as <-; apply untouched_refl].
  apply find1_in in F1 as [F1 _]. apply find1_in in F2 as [F2 _]. pose proof (has_kid d ts a (has_kid d t ts Ht F1) F2) as Ha.
  apply mbind_inv in E1 as [(e & _ & Hx)|(s & d0 & Es & E1)]; [discriminate|]. unfold encode_t, lift in Es. injection Es as Es <-.
  assert (L : text_ok s = true) by (cbn in E1; destruct (text_ok s); [reflexivity|discriminate]).
  destruct (set_text_run d (eid a) a (Some s) W Ha eq_refl L) as (d2 & E & W2 & (M1 & M2 & M3) & _ & _ & La & Lo). rewrite E1 in E. injection E as <-.
  exfalso. assert (exists u, has d1 u /\ eid u = i) as (u & Hu & Hi').
  { destruct (Nat.eq_dec i (eid a)) as [->|N].
    - apply look_elem in La as (u & Hu & He & _); [|apply W2]. eauto.
    - assert (Lt : lk d i = Some (row_of t)) by (rewrite <- Hi; apply look_self; [apply W|exact Ht]). rewrite <- (Lo i N) in Lt. apply look_elem in Lt as (u & Hu & He & _); [|apply W2]. eauto. }
  unfold set_time in E2. rewrite (mbind_ok _ _ d1 u d1 (the_run d1 i u W2 Hu Hi')) in E2. destruct (find1 _ u) as [ts'|]; [|discriminate]. destruct (find1 q ts') as [b|]; [|discriminate].
  assert (V : v4 d1 = v4 d) by (unfold v4; congruence).
  rewrite (mbind_ok _ _ d1 s d1) in E2 by (unfold encode_t, lift; rewrite V, Es; reflexivity). cbn in E2. rewrite L in E2. discriminate.
Qed.
Lemma clean_touch C m i : clean (touch C m i).
Proof.
  intros d x d' W E. unfold touch in E. cbn [set_timeprop] in E. apply mbind_inv in E as [(e & E & _)|([] & d1 & E & E2)]; [apply strict_time in E; subst; apply untouched_refl|]. destruct m; [|discriminate].
  exact (time_twice _ _ _ _ _ _ _ _ W E E2).
Qed.

(** An entry taken out of its group can be put back. *)
Lemma clean_reindex R i z : clean (reindex R i z).
Proof.
  unfold reindex. apply clean_bind; [apply reads_group|]. intros [g|]; [|apply clean_strict, strict_reads, reads_raise]. apply clean_bind; [unfold first_entry; apply reads_bind; [apply reads_the|]; intros t; destruct (first_pos _ _); reads|]. intros f d x d' H E.
  apply mbind_inv in E as [(e & E & _)|([] & d1 & E & E2)]; [apply strict_remove in E; subst; apply untouched_refl|]. exfalso.
  assert (exists tp, has d tp /\ eid tp = g /\ In i (map eid (ekids tp))) as (tp & Hp & <- & Ii).
  { unfold lx_remove in E. destruct (parent_of (d_forest d) i) as [t|] eqn:Ep; [|discriminate]. destruct (Nat.eqb_spec (eid t) g) as [<-|]; [|discriminate]. apply parent_of_In in Ep; [|apply H]. exists t. tauto. }
  assert (Kg : is_kid d (eid tp) i) by (exists (row_of tp); split; [apply look_self; [apply H|exact Hp]|exact Ii]).
  destruct (remove_run d tp i H Hp Ii) as (d0 & E1 & W1 & _ & _ & R1 & L1 & O1). rewrite E in E1. injection E1 as <-.
  apply in_map_iff in Ii as (ti & <- & Ii). pose proof (has_kid d tp ti Hp Ii) as Hi.
  destruct (look_has d1 _ _ W1 L1) as (p1 & Hp1 & Ep1 & _).
  destruct (kid_below d _ _ H Kg) as [_ Nb]. assert (Ni : ~ In (eid tp) (ids ti)) by (intros X; apply Nb; now apply below_ids; [apply H| |]).
  assert (Hi1 : has d1 ti). { apply (same_tree (d_forest d)); auto using wf_unique. intros j Hj. apply O1. intros ->. contradiction. }
  assert (Hdoc : is_doc (d_forest d1) (eid ti) = false).
  { destruct (d_forest d) as [|r0 F0] eqn:EF; [destruct H; congruence|]. assert (X : hd_error (rts d1) = Some (eid r0)) by (rewrite R1; reflexivity). unfold is_doc. destruct (d_forest d1) as [|r1 F1]; [reflexivity|]. cbn in X. injection X as X. rewrite X. apply Nat.eqb_neq. intros Y.
    rewrite <- EF in Hp. apply (root_not_child d r0 tp H); [rewrite EF; now left|exact Hp|rewrite Y; now apply in_map]. }
  rewrite <- Ep1 in Ni. destruct (insert_run d1 p1 ti (z + Z.of_nat f)%Z W1 Hp1 Hi1 Ni Hdoc) as (d2 & E3 & _). rewrite Ep1, E2 in E3. discriminate.
Qed.
Lemma clean_save i d x d' : wf d -> (forall t, has d t -> eid t = i -> in_doc d i /\ etag t = $"Entry" /\ at_most_one $"History" t) -> save_history i d = (Err x, d') -> untouched d d'.
Proof.
  intros W K E. pose proof E as E0. unfold save_history in E. apply mbind_inv in E as [(e & E & _)|(t & d1 & E & _)]; [apply (strict_reads _ (reads_the i)) in E; subst; apply untouched_refl|].
  apply the_ok in E as (-> & Ht & <-); [|exact W]. destruct (K t Ht eq_refl) as (K1 & K2 & K3). destruct (save_history_claim d t W Ht K1 K2 K3) as (s & t' & d2 & E2 & _). rewrite E0 in E2. discriminate.
Qed.
Lemma clean_trash R C i d x d' : fst (recyclebin_group R d) <> Ok None -> trash R C i d = (Err x, d') -> untouched d d'.
Proof.
  intros K E. unfold trash in E. apply mbind_inv in E as [(e & E & _)|(ok & d1 & E & E2)]; [apply (strict_reads _ (reads_can R i)) in E; subst; apply untouched_refl|]. apply (reads_run _ _ _ _ (reads_can R i)) in E. subst d1.
  destruct ok; [|injection E2 as _ <-; apply untouched_refl]. unfold create_or_get_recyclebin_group in E2. apply mbind_inv in E2 as [(e & E & _)|(b & d1 & E & E2)].
  - apply mbind_inv in E as [(e' & E & _)|(b & d1 & E & E2)]; [apply (strict_reads _ (reads_bin R)) in E; subst; apply untouched_refl|]. rewrite E in K. destruct b; [discriminate|]. now destruct K.
  - apply mbind_inv in E as [(e' & _ & X)|(b' & d2 & E & E3)]; [discriminate|]. pose proof (reads_run _ _ _ _ (reads_bin R) E). subst d2. rewrite E in K. destruct b' as [b'|]; [|now destruct K]. injection E3 as <- <-.
    apply strict_append in E2. subst d'. apply untouched_refl.
Qed.

Section Fail.
  Variable R : regex.
  Variable Zl : zlib.
  Lemma clean_add_entry C g t u p url n x tags otp icon f : clean (add_entry R C g t u p url n x tags otp icon f).
  Proof.
    unfold add_entry. cbv zeta. apply clean_bind; [apply reads_lift|]. intros dup.
    assert (G : clean (do e <- new_entry C t u p url n otp tags (Some (match x with Some _ => true | None => false end)) x icon None true None; do _ <- lx_append g e; ret e)).
    { unfold new_entry. eapply clean_ext; [intros d; symmetry; apply bind_bind|]. apply clean_bind; [apply reads_base|]. intros b. eapply clean_ext; [intros d; symmetry; apply bind_bind|]. apply clean_bind; [apply reads_of|]. intros k.
      apply clean_new. intros c. apply strict_link. }
    destruct dup as [|e dup]; [exact G|]. destruct f; [exact G|]. apply clean_strict, strict_reads, reads_bind; [apply reads_path|intros; apply reads_raise].
  Qed.
  Lemma clean_add_group C g n icon notes : clean (add_group C g n icon notes).
  Proof.
    unfold add_group, new_group. eapply clean_ext; [intros d; symmetry; apply bind_bind|]. apply clean_bind; [apply reads_base|]. intros b. eapply clean_ext; [intros d; symmetry; apply bind_bind|]. apply clean_bind; [apply reads_of|]. intros nm.
    eapply clean_ext; [intros d; symmetry; apply bind_bind|]. apply clean_bind; [destruct (truthy notes); reads|]. intros nt. apply clean_new. intros c. destruct g as [p|]; [apply strict_link|apply strict_reads, reads_raise].
  Qed.
  Lemma clean_meta tag (v : str) : strict (do e <- meta_elem R tag; match e with Some e => lx_set_text (eid e) (Some v) | None => raise Ex_Attribute end).
  Proof. apply strict_bind; [unfold meta_elem, xfirst; reads|]. intros [e|]; [apply strict_set_text|apply strict_reads, reads_raise]. Qed.
  Ltac st := apply clean_strict, strict_bind; [apply reads_the|]; intros ?.
  Lemma clean_run C o d x d' : wf d -> careful R d o -> run R Zl C o d = (Err x, d') -> untouched d d'.
  Proof.
    intros W K. destruct o; cbn [careful] in K; try contradiction; cbn [run];
      try (match goal with _ : True |- ?m d = _ -> _ => intros E; assert (G : clean m); [clear E K|exact (G d x d' W E)] end).
    - apply clean_strict. unfold delete_custom_property. apply strict_bind; [apply reads_keys|]. intros ks. destruct (existsb _ ks); [|apply strict_reads, reads_raise]. apply strict_bind; [unfold xfirst; reads|]. intros [p|]; [apply strict_remove|apply strict_reads, reads_raise].
    - apply clean_strict. match goal with |- context [set_timeprop ?p] => destruct p end; apply strict_time.
    - apply clean_strict. unfold set_expires, expires_elem. apply strict_bind; [repeat first [progress reads | match goal with |- reads (match ?q with _ => _ end) => destruct q end]|]. intros p. apply strict_set_text.
    - apply clean_touch.
    - unfold set_autotype_enabled. st. destruct (find_2 _ _ a) as [e1|]; [apply strict_set_text|apply strict_reads, reads_raise].
    - unfold set_autotype_sequence. st. destruct (find_2 _ _ a) as [e1|]; [apply strict_set_text|apply strict_reads, reads_raise].
    - unfold set_autotype_window. st. destruct (find_3 _ _ _ a) as [e1|]; [apply strict_set_text|apply strict_reads, reads_raise].
    - apply clean_save; assumption.
    - unfold delete_history. st. match goal with h : option nat |- _ => destruct h end; destruct (find1 _ a) as [e1|]; (apply strict_remove || apply strict_reads, reads_raise).
    - apply clean_quiet. unfold add_attachment. apply clean_bind; [apply reads_of|]. intros k. apply clean_append_new.
    - unfold set_att_id. st. destruct (find1 _ a0) as [e1|]; [apply strict_set_attr|apply strict_reads, reads_raise].
    - unfold set_att_filename. st. destruct (find1 _ a0) as [e1|]; [apply strict_set_text|apply strict_reads, reads_raise].
    - intros E. exfalso. unfold quiet, add_binary, mbind, get_db, set_bins, modify, binaries, lift, ret in E. rewrite K in E. unfold v4 in K, E. cbn [d_major d_bins] in E. rewrite K in E. discriminate.
    - apply clean_strict. apply clean_meta.
    - apply clean_strict. match goal with |- context [set_due_days R ?w] => destruct w end; apply clean_meta.
    - apply clean_strict. unfold set_credchange_date. apply strict_bind; [unfold meta_elem, xfirst; reads|]. intros e. apply strict_bind; [apply reads_encode|]. intros s. destruct e as [e|]; [apply strict_set_text|apply strict_reads, reads_raise].
    - apply clean_quiet, clean_add_entry.
    - apply clean_quiet, clean_add_group.
    - apply clean_strict, strict_append.
    - apply clean_strict, strict_delete.
    - now apply clean_trash.
    - intros E. destruct (empty_group_claim d g W K) as (d1 & E1 & _). rewrite E in E1. discriminate.
    - apply clean_reindex.
  Qed.
End Fail.

(** What is saved afterwards is what would have been saved before. *)
Lemma current_same k d d' : untouched d d' -> current (k, Some d') = current (k, Some d).
Proof.
  intros (E & B & _). unfold document in E. unfold current. destruct (d_forest d') as [|t' F'], (d_forest d) as [|t F]; cbn in E; try discriminate; [reflexivity|]. injection E as E. now rewrite E, B.
Qed.
Lemma call_saved L R Zl C c o x o' k d : o_kdbx o = Some (k, Some d) -> wf d -> careful R d c -> call (run R Zl C c) o = (Err x, o') ->
  forall e w fn tk, fst (fst (save L e w o' fn tk)) = fst (fst (save L e w o fn tk)) /\ snd (save L e w o' fn tk) = snd (save L e w o fn tk).
Proof.
  intros Ek W K E e w fn tk. unfold call, payload_of in E. rewrite Ek in E. destruct (run R Zl C c d) as [r d'] eqn:Er. injection E as -> <-.
  pose proof (current_same k d d' (clean_run R Zl C c d x d' W K Er)) as Ec. unfold save. cbn [o_filename o_kdbx o_password o_keyfile]. rewrite Ek.
  destruct (match fn with F_none => o_filename o | _ => Some fn end) as [[|p|n|b]|]; try (split; reflexivity).
  - destruct (tmp_of p) as [tmp|y]; [|split; reflexivity]. rewrite Ec. cbn [fst]. destruct (save_ops _ _ _ _ _) as [ops r]. split; reflexivity.
  - rewrite Ec. split; reflexivity.
Qed.
