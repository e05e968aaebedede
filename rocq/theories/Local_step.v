(** One call and histories of calls, for parts they are not about. *)
From Verif Require Import Base PyStr Xml Tree XPath Uuid Time Db FindSpec XPath_facts XPath_eval Find_facts Find_path Api ApiSpec StructSpec CredSpec Heap Prim Api_xpath Struct Struct_add Struct_empty Struct_hist Struct_claims Struct_find Struct_index Struct_trash Struct_bin Bin_xpath IntegritySpec Integrity Integrity_ops Integrity_calls Integrity_step Integrity_hist LocalSpec Local.

Section Step.
  Variables (X : nat -> Prop) (R : regex) (Zl : zlib).
  Notation ok := (ok X). Notation keeps := (keeps X).
  Lemma keep_empty_loop T g : ~ X g -> forall n d, ok d -> keeps (empty_loop n T g) d.
  Proof.
    intros Ng. induction n as [|n IH]; intros d O; [now apply keep_raise|]. cbn [empty_loop]. apply keep_bind_read; [exact O|apply reads_the|]. intros t Ht. apply the_ok in Ht as (_ & Ht & <-); [|now apply (ok_wf X)].
    destruct (kids_of T t) as [|k l] eqn:Ek; [now apply keep_ret|]. assert (Ik : In k (kids_of T t)) by (rewrite Ek; now left). apply kids_of_in in Ik as [Ik _]. apply keep_bind.
    - apply keep_delete; [exact O|]. intros p K. rewrite (one_parent d p (eid t) (eid k) (ok_wf X d O) K (kid_elem d t k (ok_wf X d O) Ht Ik)). exact Ng.
    - intros _ d1 _ O1 _ _. now apply IH.
  Qed.
  Lemma keep_empty g d : ok d -> ~ X g -> keeps (empty_group g) d.
  Proof. intros O Ng. unfold empty_group. apply keep_bind_read; [exact O|apply reads_the|]. intros t _. cbv zeta. apply keep_bind; [now apply keep_empty_loop|]. intros _ d1 _ O1 _ _. now apply keep_empty_loop. Qed.
  Lemma insert_still g z e d r d' : wf d -> lk d g <> None -> lk d e <> None -> ~ X g -> (forall q, is_kid d q e -> ~ X q) -> lx_insert g z e d = (r, d') -> still X d d'.
  Proof.
    intros W Eg Ee Ng Nq Hr. destruct (lk d g) as [qg|] eqn:E1; [clear Eg|congruence]. destruct (lk d e) as [qe|] eqn:E2; [clear Ee|congruence]. destruct (look_has d _ _ W E1) as (tg & Hg & <- & _). destruct (look_has d _ _ W E2) as (te & He & <- & _).
    destruct (anc_or_self (d_forest d) (eid te) (eid tg) || is_doc (d_forest d) (eid te)) eqn:Ea.
    - unfold lx_insert in Hr. rewrite Ea in Hr. injection Hr as _ <-. now intros x _.
    - apply orb_false_iff in Ea as [Ea Ed]. destruct (insert_run d tg te z W Hg He) as (d1 & E & M); [|exact Ed|].
      + intros I. assert (anc_or_self (d_forest d) (eid te) (eid tg) = true); [|congruence]. apply (anc_or_self_In (d_forest d) (eid te) (eid tg) te (wf_unique d W)); [apply elem_of_self; [apply W|exact He]|exists tg; apply elem_of_self; [apply W|exact Hg]|exact I].
      + rewrite E in Hr. injection Hr as _ <-. eapply moved_still; eassumption.
  Qed.
  Lemma keep_reindex e z d : ok d -> (forall p, is_kid d p e -> ~ X p) -> keeps (reindex R e z) d.
  Proof.
    intros O Np r d' Hr. pose proof O as (W & L & P). pose proof (op_reindex R e z d r d' W L Hr) as E. assert (S : still X d d').
    { unfold reindex in Hr. apply mbind_inv in Hr as [(y & Hr & _)|(g & d1 & Hg & Hr)]; [rewrite (reads_run _ _ _ _ (reads_group R e) Hr); now intros x _|]. pose proof (reads_run _ _ _ _ (reads_group R e) Hg) as ->.
      destruct g as [g|]; [|injection Hr as _ <-; now intros x _].
      assert (Rf : reads (first_entry g)) by (unfold first_entry; apply reads_bind; [apply reads_the|]; intros t; destruct (first_pos _ _); [apply reads_ret|apply reads_raise]).
      apply mbind_inv in Hr as [(y & Hr & _)|(f & d1 & Hf & Hr)]; [rewrite (reads_run _ _ _ _ Rf Hr); now intros x _|]. pose proof (reads_run _ _ _ _ Rf Hf) as ->.
      pose proof (keep_remove X g e d O (Np g)) as Kr. apply mbind_inv in Hr as [(y & Hr & _)|([] & d1 & Hm & Hr)]; [now destruct (Kr _ _ Hr) as (_ & _ & S)|]. destruct (Kr _ _ Hm) as (O1 & T1 & S1).
      assert (K : is_kid d g e).
      { unfold lx_remove in Hm. destruct (parent_of (d_forest d) e) as [t|] eqn:Ep; [|discriminate Hm]. destruct (Nat.eqb_spec (eid t) g) as [<-|N]; [|discriminate Hm]. apply parent_of_In in Ep as [Ht Hc]; [|apply W]. exists (row_of t). split; [apply look_self; [apply W|exact Ht]|exact Hc]. }
      destruct (kid_tag d g e W K) as (Pg & Te & TPg & TTe). assert (S2 : still X d1 d').
      { apply (insert_still g (z + Z.of_nat f)%Z e d1 r d'); [now apply (ok_wf X)| | |now apply Np| |exact Hr].
        - apply T1 in TPg as (q & E1 & _). congruence.
        - apply T1 in TTe as (q & E1 & _). congruence.
        - intros q (rq & Eq & Iq) Hq. rewrite (S1 q Hq) in Eq. apply (Np q); [now exists rq|exact Hq]. }
      intros x Hx. rewrite (S2 x Hx). now apply S1. }
    split; [split; [apply (ev_wf _ _ _ _ E)|]; split; [apply E|now apply (part_still X d)]|]. split; [exact (ev_tag _ _ _ _ E)|exact S].
  Qed.
  Lemma bin_there C d b d1 : wf d -> create_or_get_recyclebin_group R C d = (Ok b, d1) -> recyclebin_group R d = (Ok (Some b), d) \/ (d_next d <= b)%nat.
  Proof.
    intros W Hr. unfold create_or_get_recyclebin_group in Hr. apply mbind_inv in Hr as [(y & _ & C1)|(o & d2 & Ho & Hr)]; [discriminate C1|]. pose proof (reads_run _ _ _ _ (reads_bin R) Ho) as ->. destruct o as [b0|]; [left; injection Hr as <- _; exact Ho|right].
    apply mbind_inv in Hr as [(y & _ & C1)|(o & d2 & Hg & Hr)]; [discriminate C1|]. assert (d2 = d) as -> by (unfold root_group, lift in Hg; injection Hg as _ <-; reflexivity). apply mbind_inv in Hr as [(y & _ & C1)|(g & d2 & Ha & Hr)]; [discriminate C1|].
    assert (b = g) as ->.
    { apply mbind_inv in Hr as [(y & _ & C1)|(e & d3 & _ & Hr)]; [discriminate C1|]. apply mbind_inv in Hr as [(y & _ & C1)|(u & d4 & _ & Hr)]; [discriminate C1|]. destruct e as [e|]; [|discriminate Hr]. apply mbind_inv in Hr as [(y & _ & C1)|(v & d5 & _ & Hr)]; [discriminate C1|]. now injection Hr as <- _. }
    unfold add_group in Ha. apply mbind_inv in Ha as [(y & _ & C1)|(c & d3 & Hc & Ha)]; [discriminate C1|]. assert (c = g) as -> by (destruct o as [p|]; [|discriminate Ha]; apply mbind_inv in Ha as [(y & _ & C1)|(v & d5 & _ & Ha)]; [discriminate C1|]; now injection Ha as -> _).
    unfold new_group in Hc. apply mbind_inv in Hc as [(y & _ & C1)|(bb & d4 & Hb & Hc)]; [discriminate C1|]. pose proof (reads_run _ _ _ _ (reads_base C None None None) Hb) as ->. apply mbind_inv in Hc as [(y & _ & C1)|(k & d4 & Hk & Hc)]; [discriminate C1|]. unfold of_res in Hk. injection Hk as _ <-.
    apply mbind_inv in Hc as [(y & _ & C1)|(nt & d4 & Hn & Hc)]; [discriminate C1|]. injection Hn as _ <-. destruct (new_run d (e_node $"Group" (bb ++ [k] ++ nt)) W) as (t & d5 & E5 & _). rewrite E5 in Hc. injection Hc as <- _. lia.
  Qed.
  Lemma keep_trash C i d : ok d -> an_item d i -> (forall x, touches R d (Op_trash i) x -> ~ X x) -> keeps (trash R C i) d.
  Proof.
    intros O It N. cbn [touches] in N. unfold trash. apply keep_bind_read; [exact O|apply reads_can|]. intros [|] _; [|now apply keep_raise]. apply keep_bind; [apply keep_bin; [exact O|]; intros x Hx; apply N; auto|]. intros b d1 Hb O1 T1 S1. pose proof O as (W & L & P).
    destruct (bin_made R C d b d1 W L Hb) as [G _]. apply keep_move; [exact O1|now apply (item_le d)|exact G| |].
    - destruct (bin_there C d b d1 W Hb) as [Eb|Lb]; [apply N; auto|]. intros Hx. destruct (lk d b) as [q|] eqn:E; [|now apply (part_look X d b W P Hx)]. pose proof (wf_look d b q W E). lia.
    - intros q (r & Er & Ir) Hq. rewrite (S1 q Hq) in Er. apply (N q); [left; now exists r|exact Hq].
  Qed.
  Theorem step_local C o d : ok d -> kinds d o -> (forall x, touches R d o x -> ~ X x) -> keeps (run R Zl C o) d.
  Proof.
    intros O T N. pose proof (ok_wf X d O) as W. destruct o; cbn [kinds touches run] in *; try (pose proof (N _ eq_refl) as Ni).
    - now apply (keep_prop X R p e $"Entry").
    - now apply (keep_custom X R e $"Entry").
    - now apply keep_delete_custom.
    - destruct (item_tag d i T) as (U & TU). now apply (keep_sub X _ i U).
    - destruct (item_tag d i T) as (U & TU). now apply (keep_sub X _ i U).
    - now apply (keep_sub X _ e $"Entry").
    - now apply (keep_sub X _ g $"Group").
    - now apply (keep_sub X _ g $"Group").
    - now apply keep_timeprop.
    - now apply keep_expires.
    - now apply keep_touch.
    - apply (keep_auto X (find_2 $"AutoType" $"Enabled") e); auto. intros t k. now apply find_2_out.
    - apply (keep_auto X (find_2 $"AutoType" $"DefaultSequence") e); auto. intros t k. now apply find_2_out.
    - apply (keep_auto X (find_3 $"AutoType" $"Association" $"Window") e); auto. intros t k. now apply find_3_out.
    - now apply keep_save_history.
    - now apply keep_delete_history.
    - apply keep_quiet. now apply (keep_attach X e $"Entry").
    - now apply keep_att_id.
    - now apply keep_att_filename.
    - apply keep_quiet. now apply keep_add_binary.
    - apply keep_delete_binary; [exact O|]. intros x Hx A. now apply (N x A).
    - apply keep_meta; [exact O|]. intros e He. apply N. exists e. auto.
    - destruct w; cbn [set_due_days]; apply keep_days; auto; cbn; tauto.
    - now apply keep_changed.
    - apply keep_quiet. now apply keep_add_entry.
    - apply keep_quiet. apply keep_add_group; [exact O|]. intros g' E. injection E as <-. auto.
    - destruct T as [T1 T2]. apply keep_move; auto. 
    - destruct T as [T1 T2]. rewrite Forall_forall in T2. apply keep_group_append; auto. intros x Hx. split; [now apply T2|]. intros q K. apply N. right. exists x. auto.
    - now apply keep_delete.
    - now apply keep_trash.
    - now apply keep_empty.
    - now apply keep_reindex.
  Qed.
  Lemma step_ok C o d : wf d -> laid d -> part d X -> kinds d o -> ~ meddled R X d o -> let d' := next R Zl (C, o) d in wf d' /\ laid d' /\ part d' X /\ tags_le d d' /\ still X d d'.
  Proof.
    intros W L P K N. assert (S : keeps (run R Zl C o) d) by (apply step_local; [now split|exact K|]; intros y Ty Hy; apply N; now exists y).
    unfold next. cbn [fst snd]. destruct (run R Zl C o d) as [r d1] eqn:Er. cbn [snd]. destruct (S r d1 Er) as ((W1 & L1 & P1) & T1 & S1). auto.
  Qed.
  Theorem local_history l : forall d, wf d -> laid d -> part d X -> all_kinds R Zl l d -> ~ ever R Zl (meddled R X) l d -> wf (later R Zl l d) /\ tags_le d (later R Zl l d) /\ forall x, X x -> look (d_forest (later R Zl l d)) x = look (d_forest d) x.
  Proof.
    induction l as [|c l IH]; intros d W L P K N; [split; [exact W|split; [apply le_refl|reflexivity]]|]. cbn [later all_kinds ever] in *. destruct K as [K1 K2]. destruct c as [C o]. cbn [snd] in *.
    destruct (step_ok C o d W L P K1) as (W1 & L1 & P1 & T1 & S1); [tauto|]. destruct (IH _ W1 L1 P1 K2) as (W2 & T2 & S2); [tauto|]. split; [exact W2|]. split; [eapply le_trans; eauto|]. intros x Hx. rewrite S2 by exact Hx. now apply S1.
  Qed.
End Step.
Theorem locality R Zl X l d : wf d -> laid d -> part d X -> all_kinds R Zl l d -> ~ ever R Zl (meddled R X) l d -> forall x, X x -> look (d_forest (later R Zl l d)) x = look (d_forest d) x.
Proof. intros W L P K N. now apply (local_history X R Zl l d). Qed.

(** *** Whole entries and groups *)
Lemma within_part d i : an_item d i -> part d (within d i).
Proof.
  intros I x B. unfold within in *. destruct B as [r E|j k r B E Hk]; [now left|]. right. exists j. split; [exact B|now exists r].
Qed.
Lemma within_tree d d' t : wf d -> wf d' -> has d t -> (forall x, within d (eid t) x -> lk d' x = lk d x) -> has d' t.
Proof.
  intros W W' Ht S. apply (same_tree (d_forest d) (d_forest d') t (wf_unique d W) (wf_unique d' W') Ht). intros j Hj. apply S. now apply (below_ids (d_forest d) t j (wf_unique d W) Ht).
Qed.
Theorem whole R Zl l d t : wf d -> laid d -> all_kinds R Zl l d -> In t (elements (d_forest d)) -> an_item d (eid t) -> ~ ever R Zl (meddled R (within d (eid t))) l d ->
  In t (elements (d_forest (later R Zl l d))).
Proof.
  intros W L K Ht I N. destruct (local_history (within d (eid t)) R Zl l d W L (within_part d _ I) K N) as (W' & _ & S). now apply (within_tree d).
Qed.
(** *** What is read from them *)
Lemma read_string R d d' t key : wf d -> wf d' -> has d t -> has d' t -> plain key -> fst (get_string R key (eid t) d') = fst (get_string R key (eid t) d).
Proof.
  intros W W' Ht Ht' Pk. unfold get_string. rewrite (mbind_ok _ _ _ _ _ (value_first R d t key W Ht Pk)), (mbind_ok _ _ _ _ _ (value_first R d' t key W' Ht' Pk)). reflexivity.
Qed.
Lemma the_tree d t : wf d -> has d t -> the (eid t) d = (Ok t, d).
Proof. intros W Ht. unfold the, lift. now rewrite (elem_of_self _ t (wf_unique d W) Ht). Qed.
Lemma read_sub T d d' t : wf d -> wf d' -> has d t -> has d' t -> fst (get_sub T (eid t) d') = fst (get_sub T (eid t) d).
Proof. intros W W' Ht Ht'. unfold get_sub. rewrite (mbind_ok _ _ _ _ _ (the_tree d t W Ht)), (mbind_ok _ _ _ _ _ (the_tree d' t W' Ht')). reflexivity. Qed.
Lemma fst_bind {A B} (m : M A) (f : A -> res B) d d' : fst (m d') = fst (m d) -> fst ((do x <- m; fun d => (f x, d)) d') = fst ((do x <- m; fun d => (f x, d)) d).
Proof. unfold mbind. destruct (m d) as [[a|e] d1], (m d') as [[a'|e'] d2]; cbn; intros E; try discriminate E; injection E as ->; reflexivity. Qed.
Lemma read_tags d d' t : wf d -> wf d' -> has d t -> has d' t -> fst (get_tags (eid t) d') = fst (get_tags (eid t) d).
Proof. intros W W' Ht Ht'. unfold get_tags. exact (fst_bind _ (fun v => Ok _) d d' (read_sub $"Tags" d d' t W W' Ht Ht')). Qed.
Theorem readings R Zl l d t : wf d -> laid d -> all_kinds R Zl l d -> In t (elements (d_forest d)) -> an_item d (eid t) -> ~ ever R Zl (meddled R (within d (eid t))) l d ->
  let d' := later R Zl l d in let i := eid t in
  (forall p, fst (get_prop R p i d') = fst (get_prop R p i d)) /\ (forall k, plain k -> fst (get_custom_property R i k d') = fst (get_custom_property R i k d)) /\
  fst (get_tags i d') = fst (get_tags i d) /\ fst (get_uuid i d') = fst (get_uuid i d) /\ fst (get_icon i d') = fst (get_icon i d) /\ fst (get_name i d') = fst (get_name i d) /\ fst (get_group_notes i d') = fst (get_group_notes i d) /\ fst (history i d') = fst (history i d).
Proof.
  intros W L K Ht I N d' i. destruct (local_history (within d (eid t)) R Zl l d W L (within_part d _ I) K N) as (W' & _ & S). pose proof (within_tree d d' t W W' Ht S) as Ht'. fold d' in W'.
  assert (Pl : forall k, forallb xml_char k = true -> existsb (N.eqb 34) k = false -> plain k).
  { intros k X Q. split; [|exact X]. intros I'. assert (existsb (N.eqb 34) k = true) by (apply existsb_exists; exists 34; auto). congruence. }
  split; [intros p; destruct p; cbn [get_prop]; apply read_string; auto; apply Pl; reflexivity|]. split; [intros k Pk; unfold get_custom_property; destruct (reserved _); [reflexivity|now apply read_string]|]. split; [now apply read_tags|].
  split; [unfold get_uuid; apply (fst_bind (get_sub $"UUID" i)); now apply read_sub|]. split; [now apply read_sub|]. split; [now apply read_sub|]. split; [now apply read_sub|].
  unfold history, i. rewrite (mbind_ok _ _ _ _ _ (the_tree d t W Ht)), (mbind_ok _ _ _ _ _ (the_tree d' t W' Ht')). reflexivity.
Qed.
(** *** Snapshots *)
Lemma snapshot_apart d e h : wf d -> snapshot d e h -> ~ within d h e.
Proof.
  intros W (_ & y & K1 & K2 & _) B. destruct (kid_below d e y W K2) as [_ N1]. destruct K1 as (r & E & I). apply N1. apply (below_trans _ _ h); [|exact B]. apply below_kid with y r; [|exact E|exact I]. now apply below_self with r.
Qed.
Lemma about_touches R d e o x : about e o -> touches R d o x -> x = e.
Proof. destruct o; cbn [about touches]; try contradiction; congruence. Qed.
Lemma ever_in R Zl P l : forall d, ever R Zl P l d -> exists c d1, In c l /\ P d1 (snd c).
Proof. induction l as [|c l IH]; intros d; [intros []|]. cbn [ever]. intros [H|H]; [exists c, d; split; [now left|exact H]|]. destruct (IH _ H) as (c' & d1 & Hc & HP). exists c', d1. split; [now right|exact HP]. Qed.
Theorem snapshots R Zl l d e h t : wf d -> laid d -> all_kinds R Zl l d -> (forall c, In c l -> about e (snd c)) -> snapshot d e h -> In t (elements (d_forest d)) -> eid t = h -> In t (elements (d_forest (later R Zl l d))).
Proof.
  intros W L K A S Ht <-. apply whole; auto; [left; apply S|]. intros E. apply ever_in in E as (c & d1 & Hc & x & Hx & Tx). apply (about_touches R d1 e) in Tx; [|now apply A]. subst x. exact (snapshot_apart d e (eid t) W S Hx).
Qed.
