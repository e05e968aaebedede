(** What is put into the document, worked on and deleted again leaves nothing behind. *)
From Verif Require Import Base PyStr Xml Tree XPath Uuid Time Db Save FindSpec XPath_facts XPath_eval Find_facts Find_path Api ApiSpec StructSpec CredSpec Heap Prim Api_xpath Struct Struct_add Struct_empty Struct_hist Struct_claims Struct_find Struct_index Struct_trash Struct_bin Bin_xpath IntegritySpec Integrity Integrity_ops Integrity_calls Integrity_step Integrity_hist LocalSpec Lib Kdbx Object ObjectSpec FailSpec Fail ScratchSpec Spare Calm.

Section Step.
  Variables (X : nat -> Prop) (R : regex) (Zl : zlib).
  Notation ok := (ok X). Notation keeps := (keeps X).
  Theorem step_spare C o d : on_items o -> ok d -> kinds d o -> (forall x, touches R d o x -> ~ X x) -> keeps (run R Zl C o) d.
  Proof.
    intros I O T N. pose proof (ok_wf X d O) as W. destruct o; cbn [on_items kinds touches run] in *; try contradiction; try (pose proof (N _ eq_refl) as Ni).
    - now apply (keep_prop X R p e $"Entry").
    - now apply (keep_custom X R e $"Entry").
    - now apply keep_delete_custom.
    - destruct (item_tag d i T) as (U & TU). now apply (keep_sub X _ i U).
    - destruct (item_tag d i T) as (U & TU). now apply (keep_sub X _ i U).
    - now apply (keep_sub X _ e $"Entry").
    - now apply (keep_sub X _ g $"Group").
    - now apply (keep_sub X _ g $"Group").
    - now apply keep_timeprop.
    - now apply keep_expires.
    - now apply keep_touch.
    - apply (keep_auto X (find_2 $"AutoType" $"Enabled") e); auto. intros t k. now apply find_2_out.
    - apply (keep_auto X (find_2 $"AutoType" $"DefaultSequence") e); auto. intros t k. now apply find_2_out.
    - apply (keep_auto X (find_3 $"AutoType" $"Association" $"Window") e); auto. intros t k. now apply find_3_out.
    - now apply keep_save_history.
    - now apply keep_delete_history.
    - apply keep_quiet. now apply (keep_attach X e $"Entry").
    - now apply keep_att_id.
    - now apply keep_att_filename.
    - apply keep_quiet. now apply keep_add_entry.
    - apply keep_quiet. apply keep_add_group; [exact O|]. intros g' E. injection E as <-. auto.
    - destruct T as [T1 T2]. apply keep_move; auto.
    - destruct T as [T1 T2]. rewrite Forall_forall in T2. apply keep_group_append; auto. intros x Hx. split; [now apply T2|]. intros q K. apply N. right. exists x. auto.
    - now apply keep_delete.
    - now apply keep_empty.
    - now apply keep_reindex.
  Qed.
  Lemma spare_history l : forall d, ok d -> (forall c, In c l -> on_items (snd c)) -> all_kinds R Zl l d -> ~ ever R Zl (meddled R X) l d ->
    let d' := later R Zl l d in ok d' /\ still X d d' /\ d_major d' = d_major d /\ d_minor d' = d_minor d /\ d_bins d' = d_bins d /\ hd_error (rts d') = hd_error (rts d).
  Proof.
    induction l as [|[C o] l IH]; intros d O I K N; [split; [exact O|split; [now intros x _|auto]]|]. cbn [later all_kinds ever snd] in *. destruct K as [K1 K2].
    assert (Io : on_items o) by (apply (I (C, o)); now left). assert (S : keeps (run R Zl C o) d) by (apply step_spare; auto; intros y Ty Hy; apply N; left; now exists y).
    destruct (calm_run R Zl C o Io d) as (A1 & A2 & A3 & A4). unfold next in *. cbn [fst snd] in *. destruct (run R Zl C o d) as [r d1] eqn:Er. cbn [snd] in *. destruct (S r d1 Er) as (O1 & T1 & S1).
    destruct (IH d1 O1) as (O2 & S2 & B1 & B2 & B3 & B4); [intros c Hc; apply I; now right|exact K2|tauto|]. split; [exact O2|]. split; [intros x Hx; rewrite (S2 x Hx); now apply S1|]. repeat (split; [congruence|]). rewrite B4. apply A4. apply (ok_wf X d O).
  Qed.
End Step.

(** The rows of the document are the document. *)
Lemma rows_document d d' : wf d -> wf d' -> hd_error (rts d') = hd_error (rts d) -> (forall x, in_doc d x -> lk d' x = lk d x) -> document d' = document d.
Proof.
  intros W W' H S. destruct (top_forest d W) as (r & F & EF). destruct (top_forest d' W') as (r' & F' & EF'). assert (Er : eid r' = eid r) by (rewrite EF, EF' in H; now injection H).
  assert (Hr : has d r) by (rewrite EF; apply elements_root; now left). assert (Hr' : has d' r') by (rewrite EF'; apply elements_root; now left).
  assert (In r (elements (d_forest d'))).
  { apply (same_tree (d_forest d) (d_forest d') r (wf_unique d W) (wf_unique d' W') Hr). intros j Hj. apply S. exists (eid r). split; [now rewrite EF|]. now apply (below_ids (d_forest d) r j (wf_unique d W) Hr). }
  assert (r' = r) as -> by (apply (unique_inj (d_forest d')); [apply W'|exact Hr'|assumption|exact Er]). unfold document. now rewrite EF, EF'.
Qed.
Lemma doc_spared d : keepass d -> spared d (in_doc d).
Proof.
  intros (W & L & r & Er & Tr) x (r' & Er' & B). rewrite Er in Er'. injection Er' as <-. destruct B as [q E|j k q B E Hk]; [now right; right|]. right. left. exists j. split; [now exists r|now exists q].
Qed.
Lemma add_group_puts C d p name icon notes e d' : wf d -> in_doc d p -> add_group C (Some p) name icon notes d = (Ok e, d') -> wf d' /\ added d d' p e.
Proof.
  intros H Hp. unfold add_group, new_group. rewrite assoc_group. unfold mbind at 1. pose proof (reads_base C icon None None d) as Hb. destruct (base_kids _ _ _ _ d) as [[b|y] d1]; cbn in Hb; subst d1; [|discriminate].
  unfold of_res at 1, mbind at 1. destruct (e_text _ _ _) as [n|y]; [|discriminate]. unfold mbind at 1.
  assert (Hr : exists r, (if truthy notes then of_res (let* x0 := e_text $"Notes" [] notes in Ok [x0]) else ret []) d = (r, d)) by (destruct (truthy notes); eexists; reflexivity). destruct Hr as (r & ->). destruct r as [y|y]; [|discriminate].
  destruct (append_new_claim d p (e_node $"Group" (b ++ [n] ++ y)) H Hp) as (t & d2 & E2 & _ & _ & W & A & _). intros E. unfold lx_append_new in E2. change ((do c <- lx_new (e_node $"Group" (b ++ [n] ++ y)); do _ <- lx_append p c; ret c) d = (Ok e, d')) in E. rewrite E2 in E. injection E as <- <-. auto.
Qed.
Lemma puts_laid R C g m e d d' : wf d -> laid d -> a_group d g -> puts R C g m -> m d = (Ok e, d') -> laid d'.
Proof.
  intros W L G P E. assert (O : ok (fun _ => False) d) by (split; [exact W|]; split; [exact L|]; intros x []).
  assert (K : keeps (fun _ => False) m d); [|destruct (K _ _ E) as ((_ & L1 & _) & _); exact L1].
  destruct P as [(? & ? & ? & ? & ? & ? & ? & ? & ? & ? & ->)|(? & ? & ? & ->)]; [now apply keep_add_entry|]. apply keep_add_group; [exact O|]. intros g' Eg. injection Eg as <-. auto.
Qed.
Lemma puts_added R C g m e d d' : wf d -> in_doc d g -> puts R C g m -> m d = (Ok e, d') -> wf d' /\ added d d' g e.
Proof.
  intros W G [(? & ? & ? & ? & ? & ? & ? & ? & ? & ? & ->)|(? & ? & ? & ->)] E; [|exact (add_group_puts _ _ _ _ _ _ _ _ W G E)]. destruct (add_entry_ok _ _ _ _ _ _ _ _ _ _ _ _ _ _ _ _ W G E) as (t & W1 & A & _). auto.
Qed.
Theorem scratch_gone R Zl C g m e d d1 l : keepass d -> a_group d g -> in_doc d g -> puts R C g m -> m d = (Ok e, d1) -> (forall c, In c l -> on_items (snd c)) -> all_kinds R Zl l d1 -> ~ ever R Zl (meddled R (in_doc d)) l d1 ->
  exists d2, scratch R Zl m l d = (Ok tt, d2) /\ wf d2 /\ untouched d d2 /\ forall x, in_doc d2 x <-> in_doc d x.
Proof.
  intros Kp G D P Em I K N. pose proof Kp as (W & L & _). destruct (puts_added R C g m e d d1 W D P Em) as (W1 & A). pose proof (puts_laid R C g m e d d1 W L G P Em) as L1. destruct A as (Ne & (A1 & A2 & A3 & _ & A5 & A6) & A7).
  destruct G as (rg & Eg & Tg). specialize (A7 rg Eg).
  assert (S0 : forall x r, lk d x = Some r -> exists k, lk d1 x = Some (with_kids k r) /\ forall y, In y (r_kids r) -> In y k).
  { intros x r E. destruct (Nat.eq_dec x g) as [->|Nx]; [rewrite Eg in E; injection E as <-; exists (r_kids rg ++ [e]); split; [exact A7|]; intros y Hy; apply in_app_iff; now left|]. exists (r_kids r). split; [|auto]. rewrite with_kids_id. apply A6; [exact E|]. intros [->|[]]. congruence. }
  assert (Sp : spared d1 (in_doc d)).
  { intros x Hx. destruct (doc_spared d Kp x Hx) as [[(r & E & T)|(r & E & T)]|[(p & Hp & (q & Eq & Iq))|(r & E & T)]].
    - left. left. destruct (S0 x r E) as (k & E1 & _). exists (with_kids k r). auto.
    - left. right. destruct (S0 x r E) as (k & E1 & _). exists (with_kids k r). auto.
    - right. left. exists p. split; [exact Hp|]. destruct (S0 p q Eq) as (k & E1 & Hk). exists (with_kids k q). split; [exact E1|now apply Hk].
    - right. right. destruct (S0 x r E) as (k & E1 & _). exists (with_kids k r). auto. }
  destruct (spare_history (in_doc d) R Zl l d1) as ((W2 & L2 & _) & S2 & B1 & B2 & B3 & B4); [split; auto|exact I|exact K|exact N|]. set (d2 := later R Zl l d1) in *.
  assert (Kd : is_kid d2 g e) by (exists (with_kids (r_kids rg ++ [e]) rg); split; [rewrite (S2 g D); exact A7|apply in_app_iff; right; now left]).
  assert (Dg : in_doc d2 g).
  { destruct D as (r & Er & B). exists r. split; [congruence|]. clear -B S0 S2 Er. 
    assert (forall x, below (lk d) r x -> below (lk d2) r x); [|auto]. intros x Bx. induction Bx as [q E|j k q Bx IH E Hk].
    - destruct (S0 r q E) as (k & E1 & _). apply below_self with (with_kids k q). rewrite S2; [exact E1|]. exists r. split; [exact Er|now apply below_self with q].
    - destruct (S0 j q E) as (m & E1 & Hm). apply below_kid with j (with_kids m q); [exact IH| |now apply Hm]. rewrite S2; [exact E1|]. now exists r. }
  destruct (delete_claim d2 g e W2 Dg Kd) as (d3 & E3 & W3 & (C1 & C2 & C3 & C4 & C5) & _). exists d3. split; [unfold scratch; rewrite (mbind_ok _ _ _ _ _ Em); exact E3|]. split; [exact W3|].
  assert (Hh : hd_error (rts d3) = hd_error (rts d)) by congruence.
  assert (Rows : forall x, in_doc d x -> lk d3 x = lk d x).
  { intros x Hx. pose proof Hx as (r0 & _ & Bx). assert (exists r, lk d x = Some r) as (r & E) by (clear -Bx W; destruct Bx as [q E|j k q B E Hk]; [now exists q|]; apply (kid_look d j k W); now exists q).
    assert (Old : forall k, In k (r_kids r) -> k <> e) by (intros k Hk ->; destruct (kid_look d x e W) as (q & Eq); [now exists r|congruence]).
    assert (Ls : forall l, (forall k, In k l -> k <> e) -> less e l = l).
    { clear. induction l as [|k l IH]; intros H; [reflexivity|]. unfold less in *. cbn [filter]. destruct (Nat.eqb_spec k e) as [->|_]; [now destruct (H e (or_introl eq_refl))|]. cbn [negb]. f_equal. apply IH. intros k' Hk. apply H. now right. }
    destruct (Nat.eq_dec x g) as [->|Nx].
    - rewrite Eg in E. injection E as <-. rewrite (C5 g _ (eq_trans (S2 g D) A7)), Eg. f_equal. cbn [r_kids with_kids]. unfold less. rewrite filter_app. fold (less e (r_kids rg)). rewrite (Ls _ Old). cbn [filter]. rewrite Nat.eqb_refl. cbn [negb]. rewrite app_nil_r. now destruct rg.
    - assert (E1 : lk d1 x = Some r) by (apply A6; [exact E|]; intros [->|[]]; congruence). rewrite (C5 x _ (eq_trans (S2 x Hx) E1)), E, (Ls _ Old). f_equal. apply with_kids_id. }
  split; [split; [now apply rows_document|]; repeat split; congruence|].
  intros x. split; intros (r & Er & B); exists r; (split; [congruence|]).
  - rewrite Hh in Er. induction B as [q E|j k q B IH E Hk].
    + destruct W as (Wn & _). assert (D0 : in_doc d r). { destruct Kp as (_ & _ & r1 & E1 & (q1 & Eq1 & _)). rewrite Er in E1. injection E1 as <-. exists r. split; [exact Er|now apply below_self with q1]. } rewrite (Rows r D0) in E. now apply below_self with q.
    + rewrite (Rows j) in E by (now exists r). now apply below_kid with j q.
  - induction B as [q E|j k q B IH E Hk]; [apply below_self with q; rewrite (Rows r); [exact E|exists r; split; [exact Er|now apply below_self with q]]|]. apply below_kid with j q; [exact IH| |exact Hk]. rewrite (Rows j); [exact E|now exists r].
Qed.
(** Any save afterwards is as if it had never been there. *)
Theorem scratch_saved L R Zl C g m e d d1 l o o' k : o_kdbx o = Some (k, Some d) -> keepass d -> a_group d g -> in_doc d g -> puts R C g m -> m d = (Ok e, d1) -> (forall c, In c l -> on_items (snd c)) -> all_kinds R Zl l d1 -> ~ ever R Zl (meddled R (in_doc d)) l d1 ->
  call (scratch R Zl m l) o = (Ok tt, o') ->
  forall en w fn tk, fst (fst (save L en w o' fn tk)) = fst (fst (save L en w o fn tk)) /\ snd (save L en w o' fn tk) = snd (save L en w o fn tk).
Proof.
  intros Ek Kp G D P Em I K N E en w fn tk. destruct (scratch_gone R Zl C g m e d d1 l Kp G D P Em I K N) as (d2 & Es & _ & U & _). unfold call, payload_of in E. rewrite Ek, Es in E. injection E as <-.
  pose proof (current_same k d d2 U) as Ec. unfold save. cbn [o_filename o_kdbx o_password o_keyfile]. rewrite Ek.
  destruct (match fn with F_none => o_filename o | _ => Some fn end) as [[|p|n|b]|]; try (split; reflexivity).
  - destruct (tmp_of p) as [tmp|y]; [|split; reflexivity]. rewrite Ec. cbn [fst]. destruct (save_ops _ _ _ _ _) as [ops r]. split; reflexivity.
  - rewrite Ec. split; reflexivity.
Qed.
