(** Every call, and every history of calls. *)
From Verif Require Import Base PyStr Xml Tree XPath Uuid Time Db FindSpec XPath_facts XPath_eval Find_facts Find_path Api ApiSpec StructSpec CredSpec Heap Prim Api_xpath Struct Struct_add Struct_empty Struct_hist Struct_claims Struct_find Struct_index Struct_trash Struct_bin Bin_xpath IntegritySpec Integrity Integrity_ops Integrity_calls Integrity_step.

Lemma good_next S Nw d R Zl C o : good S Nw d (run R Zl C o) d -> evolves S Nw d (next R Zl (C, o) d).
Proof. intros G. unfold next. cbn [fst snd]. destruct (run R Zl C o d) as [r d'] eqn:E. cbn [snd]. exact (proj1 (G r d' E)). Qed.
Lemma item_tag d i : an_item d i -> exists T, is_tag (lk d) T i. Proof. intros [X|X]; eauto. Qed.
Theorem step R Zl C o d : wf d -> laid d -> typed d o -> evolves (subject d o) (creates o) d (next R Zl (C, o) d).
Proof.
  intros W L T. pose proof (ev_refl (subject d o) (creates o) d W L) as E.
  destruct o; cbn [typed] in T;
    try (apply good_next; cbn [run]; first
      [ eapply op_prop; eassumption | now apply op_timeprop | now apply op_expires | now apply op_touch | now apply op_att_id | now apply op_att_filename | now apply op_delete_binary | now apply op_meta
      | apply good_quiet; eapply op_attach; eassumption | apply good_quiet; now apply op_add_binary
      | apply good_quiet; now apply op_add_entry | apply good_quiet; now apply op_add_group | now apply op_save_history
      | now apply op_auto | now apply op_delete ]).
  - destruct T as [T1 T2]. apply good_next. cbn [run]. now apply (op_custom _ _ _ W R e $"Entry").
  - destruct T as [T1 T2]. apply good_next. cbn [run]. now apply (op_delete_custom _ _ _ W R e $"Entry").
  - destruct (item_tag d i T) as (U & TU). apply good_next. cbn [run]. now apply (op_sub _ _ _ W _ i U).
  - destruct (item_tag d i T) as (U & TU). apply good_next. cbn [run]. now apply (op_sub _ _ _ W _ i U).
  - apply good_next. cbn [run]. now apply (op_sub _ _ _ W _ e $"Entry").
  - apply good_next. cbn [run]. now apply (op_sub _ _ _ W _ g $"Group").
  - apply good_next. cbn [run]. now apply (op_sub _ _ _ W _ g $"Group").
  - apply good_next. cbn [run]. apply op_delete_history; [exact W|exact E|]. destruct h; cbn [subject]; auto.
  - apply good_next. cbn [run]. destruct w; cbn [set_due_days]; unfold set_credchange_days, meta_elem; (apply good_bind_read; [exact E|apply reads_lift|]; intros [e|] _; [now apply good_text|now apply good_raise]).
  - apply good_next. cbn [run]. unfold set_credchange_date, meta_elem, encode_t. apply good_bind_read; [exact E|apply reads_lift|]. intros e _. apply good_bind_read; [exact E|apply reads_lift|]. intros s _. destruct e as [e|]; [now apply good_text|now apply good_raise].
  - apply good_next. cbn [run]. destruct T as [T1 T2]. now apply op_move.
  - apply good_next. cbn [run]. destruct T as [T1 T2]. apply op_group_append; [exact W|exact E| |exact T1]. intros x Hx. split; [exact Hx|]. rewrite Forall_forall in T2. now apply T2.
  - apply good_next. cbn [run]. apply op_trash; auto; [exact Logic.I|reflexivity].
  - unfold next. cbn [run fst snd]. destruct (empty_group g d) as [r d'] eqn:Er. exact (op_empty d g r d' W L Er).
  - unfold next. cbn [run fst snd]. destruct (reindex R e z d) as [r d'] eqn:Er. exact (op_reindex R e z d r d' W L Er).
Qed.
Lemma in_doc_dec d i : wf d -> in_doc d i \/ ~ in_doc d i.
Proof. intros W. destruct (top_forest d W) as (z & F & EF). rewrite (in_doc_root d z F i W EF). destruct (in_dec Nat.eq_dec i (ids z)); auto. Qed.
Theorem step_doc R Zl C o d x : wf d -> laid d -> typed d o -> framed d x -> in_doc d x -> in_doc (next R Zl (C, o) d) x \/ removed x d o.
Proof.
  intros W L T F D. pose proof (step R Zl C o d W L T) as E.
  assert (K : (forall y, subject d o y -> removes d o y) -> in_doc (next R Zl (C, o) d) x \/ removed x d o).
  { intros SR. destruct (doc_kept _ _ _ _ x W L E F D) as [X|(y & Sy & B)]; [now left|]. right. exists y. auto. }
  unfold next in *. cbn [fst snd] in *. destruct o; try (apply K; intros y Sy; exact Sy).
  - destruct T as [T1 T2]. destruct (in_doc_dec d g W) as [Dg|Dg]; [|apply K; intros y Sy; exact (conj Sy Dg)]. left. cbn [run]. destruct (move i g d) as [r d'] eqn:Er. now apply (move_doc_kept d i g r d' x).
  - destruct T as [T1 T2]. destruct (in_doc_dec d g W) as [Dg|Dg]; [|apply K; intros y Sy; exact (conj Sy Dg)]. left. cbn [run]. destruct (group_append g l d) as [r d'] eqn:Er. now apply (append_doc_kept g l d r d' x).
  - left. cbn [run]. destruct (trash R C i d) as [r d'] eqn:Er. now apply (trash_doc_kept R C i d r d' x).
Qed.

(** *** The root group *)
Lemma rooted_elems d r rt g : wf d -> rooted d r rt g -> exists Rr F Rt G, d_forest d = Rr :: F /\ eid Rr = r /\ etag Rr = $"KeePassFile" /\ kids_of $"Root" Rr = [Rt] /\ eid Rt = rt /\ kids_of $"Group" Rt = [G] /\ eid G = g.
Proof.
  intros H (S1 & S2 & S3 & S4). destruct (d_forest d) as [|Rr F] eqn:EF; [discriminate|]. injection S1 as <-. assert (HR : has d Rr) by (rewrite EF; apply elements_root; now left). rewrite <- EF in *.
  rewrite (kids_tagged_of d Rr _ H HR) in S3. apply map_one in S3 as (Rt & K3 & <-). assert (I3 : In Rt (kids_of $"Root" Rr)) by (rewrite K3; now left). apply kids_of_in in I3 as [I3 T3]. pose proof (has_kid d Rr Rt HR I3) as H3.
  rewrite (kids_tagged_of d Rt _ H H3) in S4. apply map_one in S4 as (G & K4 & <-). destruct S2 as (ro & E2 & T2). rewrite (look_self _ Rr (wf_unique d H) HR) in E2. injection E2 as <-. exists Rr, F, Rt, G. repeat (split; [first [assumption|reflexivity]|]). reflexivity.
Qed.
Lemma rooted_runs R d r rt g : wf d -> rooted d r rt g -> root_group R d = (Ok (Some g), d).
Proof. intros H X. destruct (rooted_elems d r rt g H X) as (Rr & F & Rt & G & EF & <- & TR & KR & <- & KG & <-). now apply (root_group_run R d Rr F Rt). Qed.
Lemma tagged_kid d T p x : In x (kids_tagged (lk d) T p) <-> is_kid d p x /\ is_tag (lk d) T x.
Proof.
  unfold kids_tagged, is_kid. destruct (lk d p) as [q|]; [|split; [intros []|intros [(q & C & _) _]; discriminate C]]. rewrite filter_In. unfold tagb, is_tag. split.
  - intros [I B]. split; [now exists q|]. destruct (lk d x) as [y|]; [|discriminate B]. exists y. split; [reflexivity|now apply str_eqb_eq].
  - intros [(q' & C & I) (y & Ey & Ty)]. injection C as <-. split; [exact I|]. rewrite Ey. now apply str_eqb_eq.
Qed.
Lemma tagged_one d T p x : wf d -> is_kid d p x -> is_tag (lk d) T x -> (forall y, is_kid d p y -> is_tag (lk d) T y -> y = x) -> kids_tagged (lk d) T p = [x].
Proof.
  intros W K TT U. assert (N : NoDup (kids_tagged (lk d) T p)). { unfold kids_tagged. destruct (lk d p) as [q|] eqn:E; [|constructor]. apply NoDup_filter. now apply (row_nodup d p). }
  assert (I : In x (kids_tagged (lk d) T p)) by (apply tagged_kid; auto). assert (A : forall y, In y (kids_tagged (lk d) T p) -> y = x) by (intros y Iy; apply tagged_kid in Iy as [? ?]; auto).
  destruct (kids_tagged (lk d) T p) as [|a [|b l]]; [destruct I| |].
  - f_equal. apply A. now left.
  - exfalso. pose proof (A a (or_introl eq_refl)). pose proof (A b (or_intror (or_introl eq_refl))). subst. apply NoDup_cons_iff in N as [N _]. apply N. now left.
Qed.
(** What lies in the document, by its tag: the document element is the only KeePassFile, a Root is directly in it, and a Group below a Group directly in a Root. *)
Lemma place d r x T : wf d -> laid d -> hd_error (rts d) = Some r -> below (lk d) r x -> is_tag (lk d) T x ->
  (T = $"KeePassFile" -> x = r) /\ (T = $"Root" -> x <> r -> is_kid d r x) /\ (T = $"Group" -> x <> r -> is_tag (lk d) $"KeePassFile" r -> exists rt g, is_kid d r rt /\ is_tag (lk d) $"Root" rt /\ is_kid d rt g /\ is_tag (lk d) $"Group" g /\ below (lk d) g x).
Proof.
  intros W L Hr B. revert T. induction B as [q Eq|j k q B IH Eq Ik]; intros T TT; [repeat split; intros; congruence|].
  assert (K : is_kid d j k) by now exists q. destruct (kid_tag d j k W K) as (P & _ & TP & _). destruct (L j k P T K TP TT) as (F1 & F2 & F3 & F4 & F5). destruct (IH P TP) as (I1 & I2 & I3). split; [|split].
  - intros C. contradiction.
  - intros -> _. rewrite <- (I1 (F4 eq_refl)). exact K.
  - intros -> _ Tr. destruct (F1 eq_refl) as [->| ->].
    + destruct I3 as (rt & g & K1 & T1 & K2 & T2 & B'); [reflexivity| |exact Tr|].
      * intros ->. now pose proof (is_tag_fun _ _ _ _ TP Tr).
      * exists rt, g. repeat (split; [assumption|]). now apply below_kid with j q.
    + exists j, k. split; [apply I2; [reflexivity|]|]. { intros ->. now pose proof (is_tag_fun _ _ _ _ TP Tr). } repeat (split; [assumption|]). destruct TT as (qk & Ek & _). now apply below_self with qk.
Qed.
Lemma rooted_step S Nw d d' r rt g : wf d -> laid d -> evolves S Nw d d' -> rooted d r rt g -> in_doc d' g -> rooted d' r rt g.
Proof.
  intros W L E (S1 & S2 & S3 & S4) D. pose proof (evw E) as W'. pose proof (ev_laid _ _ _ _ E) as L'. assert (S1' : hd_error (rts d') = Some r) by (rewrite (ev_top _ _ _ _ E); exact S1).
  assert (X3 : In rt (kids_tagged (lk d) $"Root" r)) by (rewrite S3; now left). apply tagged_kid in X3 as [K3 T3]. assert (X4 : In g (kids_tagged (lk d) $"Group" rt)) by (rewrite S4; now left). apply tagged_kid in X4 as [K4 T4].
  pose proof (ev_tag _ _ _ _ E) as Et.
  assert (O1 : forall y, is_kid d' r y -> is_tag (lk d') $"Root" y -> y = rt).
  { intros y Ky Ty. assert (K : is_kid d r y) by (apply (ev_over _ _ _ _ E r y $"KeePassFile" $"Root" Ky (Et _ _ S2) Ty); [now left|exact (tag_small d _ r W S2)]). assert (Ty0 : is_tag (lk d) $"Root" y).
    { destruct (kid_tag d r y W K) as (_ & U & _ & TU). now rewrite <- (is_tag_fun _ _ _ _ (Et _ _ TU) Ty). }
    assert (I : In y (kids_tagged (lk d) $"Root" r)) by (apply tagged_kid; auto). rewrite S3 in I. destruct I as [->|[]]. reflexivity. }
  assert (O2 : forall y, is_kid d' rt y -> is_tag (lk d') $"Group" y -> y = g).
  { intros y Ky Ty. assert (K : is_kid d rt y) by (apply (ev_over _ _ _ _ E rt y $"Root" $"Group" Ky (Et _ _ T3) Ty); [now right|exact (tag_small d _ rt W T3)]). assert (Ty0 : is_tag (lk d) $"Group" y).
    { destruct (kid_tag d rt y W K) as (_ & U & _ & TU). now rewrite <- (is_tag_fun _ _ _ _ (Et _ _ TU) Ty). }
    assert (I : In y (kids_tagged (lk d) $"Group" rt)) by (apply tagged_kid; auto). rewrite S4 in I. destruct I as [->|[]]. reflexivity. }
  destruct D as (r' & Hr' & B). assert (r' = r) as -> by congruence. destruct (place d' r g $"Group" W' L' S1' B (Et _ _ T4)) as (_ & _ & X).
  destruct X as (rt' & g' & K1 & T1 & K2 & T2 & B2); [reflexivity| |exact (Et _ _ S2)|].
  { intros ->. now pose proof (is_tag_fun _ _ _ _ S2 T4). }
  assert (rt' = rt) as -> by auto. assert (g' = g) as -> by auto.
  split; [exact S1'|]. split; [exact (Et _ _ S2)|]. split; apply tagged_one; auto.
Qed.
Lemma root_in_doc d r rt g : wf d -> rooted d r rt g -> in_doc d g /\ a_group d g.
Proof.
  intros W (S1 & S2 & S3 & S4). assert (X3 : In rt (kids_tagged (lk d) $"Root" r)) by (rewrite S3; now left). apply tagged_kid in X3 as [(q & Eq & Iq) T3]. assert (X4 : In g (kids_tagged (lk d) $"Group" rt)) by (rewrite S4; now left). apply tagged_kid in X4 as [(p & Ep & Ip) T4]. split; [|exact T4].
  exists r. split; [exact S1|]. apply below_kid with rt p; [|exact Ep|exact Ip]. apply below_kid with r q; [|exact Eq|exact Iq]. now apply below_self with q.
Qed.

(** *** Histories *)
Section Hist.
  Variables (R : regex) (Zl : zlib).
  Notation next := (next R Zl). Notation later := (later R Zl). Notation ever := (ever R Zl). Notation all_typed := (all_typed R Zl).
  Lemma next_step c d : wf d -> laid d -> typed d (snd c) -> evolves (subject d (snd c)) (creates (snd c)) d (next c d).
  Proof. destruct c as [C o]. apply step. Qed.
  Lemma later_good l : forall d, wf d -> laid d -> all_typed l d -> wf (later l d) /\ laid (later l d) /\ hd_error (rts (later l d)) = hd_error (rts d) /\ (d_next d <= d_next (later l d))%nat /\ tags_le d (later l d).
  Proof.
    induction l as [|c l IH]; intros d W L T; [split; [exact W|]; split; [exact L|]; split; [reflexivity|]; split; [apply Nat.le_refl|apply le_refl]|]. destruct T as [T1 T2]. pose proof (next_step c d W L T1) as E. cbn [IntegritySpec.later]. destruct (IH (next c d)) as (X1 & X2 & X3 & X4 & X5); [apply (evw E)|apply E|exact T2|].
    split; [exact X1|]. split; [exact X2|]. split; [rewrite X3; apply E|]. split; [pose proof (ev_next _ _ _ _ E); lia|]. intros U i TU. apply X5. now apply (ev_tag _ _ _ _ E).
  Qed.
  Lemma later_stay l : forall d p x T, wf d -> laid d -> all_typed l d -> is_kid d p x -> is_tag (lk d) T x -> frame T -> is_kid (later l d) p x \/ ever (fun d o => subject d o x) l d.
  Proof.
    induction l as [|c l IH]; intros d p x T W L TT K Tx F; [now left|]. destruct TT as [T1 T2]. pose proof (next_step c d W L T1) as E. cbn [IntegritySpec.later IntegritySpec.ever]. destruct (ev_stay _ _ _ _ E p x T K Tx F) as [X|K']; [auto|].
    destruct (IH (next c d) p x T) as [X|X]; [apply (evw E)|apply E|exact T2|exact K'|now apply (ev_tag _ _ _ _ E)|exact F|auto|auto].
  Qed.
  Lemma later_doc l : forall d x, wf d -> laid d -> all_typed l d -> framed d x -> in_doc d x -> in_doc (later l d) x \/ ever (removed x) l d.
  Proof.
    induction l as [|c l IH]; intros d x W L TT F D; [now left|]. destruct TT as [T1 T2]. pose proof (next_step c d W L T1) as E. cbn [IntegritySpec.later IntegritySpec.ever]. destruct c as [C o]. destruct (step_doc R Zl C o d x W L T1 F D) as [D'|X]; [|auto].
    destruct (IH (next (C, o) d) x) as [X|X]; [apply (evw E)|apply E|exact T2| |exact D'|auto|auto]. apply (framed_le d); [exact (ev_tag _ _ _ _ E)|exact F].
  Qed.
  Lemma later_back l : forall d x, wf d -> laid d -> all_typed l d -> framed d x -> in_doc (later l d) x -> in_doc d x \/ ever (disturbed x) l d.
  Proof.
    induction l as [|c l IH]; intros d x W L TT F D; [now left|]. destruct TT as [T1 T2]. pose proof (next_step c d W L T1) as E. cbn [IntegritySpec.later IntegritySpec.ever] in *.
    destruct (IH (next c d) x) as [X|X]; [apply (evw E)|apply E|exact T2|apply (framed_le d); [exact (ev_tag _ _ _ _ E)|exact F]|exact D| |auto].
    destruct (doc_back _ _ _ _ x W L E F X) as [Y|Y]; auto.
  Qed.
  Lemma later_made l : forall d x, wf d -> laid d -> all_typed l d -> framed (later l d) x -> framed d x \/ ((d_next d <= x)%nat /\ exists c, In c l /\ creates (snd c)).
  Proof.
    induction l as [|c l IH]; intros d x W L TT F; [now left|]. destruct TT as [T1 T2]. pose proof (next_step c d W L T1) as E. cbn [IntegritySpec.later] in *.
    destruct (IH (next c d) x) as [(T & FT & X)|(B & c' & I & Cr)]; [apply (evw E)|apply E|exact T2|exact F| |].
    - destruct (ev_made _ _ _ _ E x T X) as [Y|(B & Y)]; [left; now exists T|]. right. split; [exact B|]. exists c. split; [now left|auto].
    - right. split; [pose proof (ev_next _ _ _ _ E); lia|]. exists c'. split; [now right|exact Cr].
  Qed.
  Lemma later_root l : forall d r rt g, wf d -> laid d -> all_typed l d -> rooted d r rt g -> ~ ever (removed g) l d -> rooted (later l d) r rt g.
  Proof.
    induction l as [|c l IH]; intros d r rt g W L TT X N; [exact X|]. destruct TT as [T1 T2]. pose proof (next_step c d W L T1) as E. cbn [IntegritySpec.later IntegritySpec.ever] in *. apply IH; [apply (evw E)|apply E|exact T2| |tauto].
    apply (rooted_step _ _ _ _ r rt g W L E X). destruct (root_in_doc d r rt g W X) as [D G]. destruct c as [C o]. destruct (step_doc R Zl C o d g W L T1 (group_framed d g G) D) as [Y|Y]; [exact Y|]. exfalso. apply N. now left.
  Qed.
End Hist.
Lemma root_stays R Zl l d r rt g : wf d -> laid d -> all_typed R Zl l d -> rooted d r rt g -> ~ ever R Zl (removed g) l d ->
  rooted (later R Zl l d) r rt g /\ root_group R (later R Zl l d) = (Ok (Some g), later R Zl l d).
Proof. intros W L T X N. pose proof (later_root R Zl l d r rt g W L T X N) as Y. split; [exact Y|]. apply (rooted_runs R _ r rt g); [|exact Y]. now apply later_good. Qed.
