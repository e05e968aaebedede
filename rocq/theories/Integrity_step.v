(** One call, and histories of calls. *)
From Verif Require Import Base PyStr Xml Tree XPath Uuid Time Db FindSpec XPath_facts XPath_eval Find_facts Find_path Api ApiSpec StructSpec CredSpec Heap Prim Api_xpath Struct Struct_add Struct_empty Struct_hist Struct_claims Struct_find Struct_index Bin_xpath IntegritySpec Integrity Integrity_ops Integrity_calls.
Notation evw E := (ev_wf _ _ _ _ E).

(** *** Place in the document *)
Lemma framed_up d p x T : wf d -> laid d -> is_kid d p x -> is_tag (lk d) T x -> frame T -> framed d p.
Proof.
  intros W L K TT FT. destruct (kid_tag d p x W K) as (P & T' & TP & TT'). clear T' TT'. destruct (L p x P T K TP TT) as (F1 & F2 & F3 & F4 & F5). exists P. split; [|exact TP].
  unfold frame in FT. cbn [In] in FT. unfold frame. cbn [In]. destruct FT as [X|[X|[X|[X|[X|[]]]]]]; symmetry in X; [now apply F5 in X|apply F4 in X|apply F1 in X|apply F2 in X|apply F3 in X]; intuition congruence.
Qed.
Lemma doc_kept S Nw d d' x : wf d -> laid d -> evolves S Nw d d' -> framed d x -> in_doc d x -> in_doc d' x \/ exists y, S y /\ below (lk d) y x.
Proof.
  intros W L E F (r & Hr & B). revert F. induction B as [q Eq|j k q B IH Eq Ik]; intros F.
  - left. exists r. split; [rewrite (ev_top _ _ _ _ E); exact Hr|]. destruct F as (T & _ & TT). apply (ev_tag _ _ _ _ E) in TT as (q' & Eq' & _). now apply below_self with q'.
  - destruct F as (T & FT & TT). assert (K : is_kid d j k) by now exists q. destruct (IH (framed_up d j k T W L K TT FT)) as [D|(y & Sy & By)].
    + destruct (ev_stay _ _ _ _ E j k T K TT FT) as [Sk|(q' & Eq' & Ik')].
      * right. exists k. split; [exact Sk|]. destruct TT as (qk & Ek & _). now apply below_self with qk.
      * left. destruct D as (r' & Hr' & D). exists r'. split; [exact Hr'|]. now apply below_kid with j q'.
    + right. exists y. split; [exact Sy|]. now apply below_kid with j q.
Qed.
Lemma doc_back S Nw d d' x : wf d -> laid d -> evolves S Nw d d' -> framed d x -> in_doc d' x -> in_doc d x \/ exists y, S y /\ below (lk d) y x.
Proof.
  intros W L E F (r & Hr & B). pose proof (evw E) as W'. revert F. induction B as [q Eq|j k q B IH Eq Ik]; intros F.
  - left. rewrite (ev_top _ _ _ _ E) in Hr. exists r. split; [exact Hr|]. destruct F as (T & _ & (q' & Eq' & _)). now apply below_self with q'.
  - destruct F as (T & FT & TT). assert (K : is_kid d' j k) by now exists q. destruct (ev_came _ _ _ _ E j k T K (ev_tag _ _ _ _ E _ _ TT) FT) as [K0|[Sk|N]].
    + destruct (IH (framed_up d j k T W L K0 TT FT)) as [D|(y & Sy & By)].
      * left. destruct D as (r' & Hr' & D). exists r'. split; [exact Hr'|]. destruct K0 as (q0 & E0 & I0). now apply below_kid with j q0.
      * right. exists y. split; [exact Sy|]. destruct K0 as (q0 & E0 & I0). now apply below_kid with j q0.
    + right. exists k. split; [exact Sk|]. destruct TT as (qk & Ek & _). now apply below_self with qk.
    + pose proof (tag_small d T k W TT). lia.
Qed.
Lemma below_kept S Nw d d' i x : wf d -> laid d -> evolves S Nw d d' -> (forall y, S y -> y = i) -> framed d x -> below (lk d) i x -> below (lk d') i x.
Proof.
  intros W L E Si F B. revert F. induction B as [q Eq|j k q B IH Eq Ik]; intros F.
  - destruct F as (T & _ & TT). apply (ev_tag _ _ _ _ E) in TT as (q' & Eq' & _). now apply below_self with q'.
  - destruct F as (T & FT & TT). assert (K : is_kid d j k) by now exists q. destruct (ev_stay _ _ _ _ E j k T K TT FT) as [Sk|(q' & Eq' & Ik')].
    + apply Si in Sk. subst k. destruct (kid_below d j i W K) as [_ N]. contradiction.
    + apply below_kid with j q'; [|exact Eq'|exact Ik']. apply IH. exact (framed_up d j k T W L K TT FT).
Qed.
Lemma item_framed d i : an_item d i -> framed d i.
Proof. intros [X|X]; eexists; (split; [|exact X]); cbn; tauto. Qed.
Lemma group_framed d i : a_group d i -> framed d i.
Proof. intros X. eexists; (split; [|exact X]); cbn; tauto. Qed.
(** Moving into a group of the document loses nothing. *)
Lemma move_doc_kept d i g r d' x : wf d -> laid d -> an_item d i -> a_group d g -> in_doc d g -> move i g d = (r, d') -> framed d x -> in_doc d x -> in_doc d' x.
Proof.
  intros W L It G D Hr F Dx. destruct (op_move (fun y => y = i) False d W i g d (ev_refl _ _ d W L) eq_refl It G r d' Hr) as [E _].
  assert (Good : r = Ok tt -> is_kid d' g i /\ ~ below (lk d) i g).
  { intros ->. unfold move in Hr. assert (J : exists T, is_tag (lk d) T i /\ joins $"Group" T) by (destruct It as [X|X]; eexists; (split; [exact X|]); [apply joins_ge|apply joins_gg]). destruct J as (T & TT & J). split.
    - destruct (ev_append (fun y => y = i) False d W g i $"Group" T d (Ok tt) d' (ev_refl _ _ d W L) G TT J) as (_ & _ & K); [right; now right|exact Hr|now apply K].
    - intros B. destruct (tag_has d T i W TT) as (t & Ht & <- & _). change (lx_append g (eid t) d) with (move (eid t) g d) in Hr. rewrite (move_refused d g t W Ht B) in Hr. discriminate Hr. }
  assert (Same : forall e, r = Err e -> d' = d).
  { intros e ->. unfold move, lx_append in Hr. destruct (_ || _); [congruence|discriminate Hr]. }
  destruct r as [[]|e]; [|now rewrite (Same e eq_refl)]. destruct (Good eq_refl) as [K N].
  destruct (doc_kept _ _ d d' x W L E F Dx) as [X|(y & -> & B)]; [exact X|].
  destruct (doc_kept _ _ d d' g W L E (group_framed d g G) D) as [X|(y & -> & B')]; [|contradiction].
  pose proof (below_kept _ _ d d' i x W L E (fun y Hy => Hy) F B) as B2. destruct X as (r0 & Hr0 & B0). exists r0. split; [exact Hr0|]. destruct K as (q & Eq & Iq). apply (below_trans _ _ i); [now apply below_kid with g q|exact B2].
Qed.
Lemma framed_le d d' x : tags_le d d' -> framed d x -> framed d' x.
Proof. intros T (U & F & X). exists U. split; [exact F|now apply T]. Qed.
Lemma append_doc_kept g l : forall d r d' x, wf d -> laid d -> Forall (an_item d) l -> a_group d g -> in_doc d g -> group_append g l d = (r, d') -> framed d x -> in_doc d x -> in_doc d' x.
Proof.
  induction l as [|e l IH]; intros d r d' x W L Fl G D Hr F Dx; [injection Hr as _ <-; exact Dx|]. cbn [group_append] in Hr. change (lx_append g e) with (move e g) in Hr. apply Forall_cons_iff in Fl as [Fe Fl]. apply mbind_inv in Hr as [(y & Hr & _)|(u & d1 & Hr & K)].
  - now apply (move_doc_kept d e g (Err y) d' x).
  - destruct (op_move (fun y => y = e) False d W e g d (ev_refl _ _ d W L) eq_refl Fe G _ d1 Hr) as [E T1]. apply (IH d1 r d' x); [apply (evw E)|apply E| |now apply T1| |exact K|now apply (framed_le d)|].
    + eapply Forall_impl; [|exact Fl]. intros y. now apply item_le.
    + apply (move_doc_kept d e g _ d1 g W L Fe G D Hr); [now apply group_framed|exact D].
    + now apply (move_doc_kept d e g _ d1 x W L Fe G D Hr).
Qed.

(** *** The recycle bin *)
Lemma add_group_ok C d g n icon notes e d' : wf d -> laid d -> a_group d g -> add_group C (Some g) n icon notes d = (Ok e, d') -> is_kid d' g e /\ a_group d' e.
Proof.
  intros W L G Hr. pose proof (ev_refl (fun _ => False) True d W L) as E0. unfold add_group in Hr. apply mbind_inv in Hr as [(y & _ & X)|(c & d1 & Hc & K)]; [discriminate X|]. unfold new_group in Hc.
  apply mbind_inv in Hc as [(y & _ & X)|(b & d2 & Hb & Hc)]; [discriminate X|]. pose proof (reads_run _ _ _ _ (reads_base C icon None None) Hb) as ->. apply mbind_inv in Hc as [(y & _ & X)|(k & d2 & Hk & Hc)]; [discriminate X|]. unfold of_res in Hk. injection Hk as Hk <-.
  apply mbind_inv in Hc as [(y & _ & X)|(nt & d2 & Hn & Hc)]; [discriminate X|]. assert (d2 = d) as -> by (destruct (truthy notes); unfold of_res, ret in Hn; injection Hn as _ <-; reflexivity).
  assert (XL : xlaid (e_node $"Group" (b ++ [k] ++ nt))).
  { apply laid_node. apply Forall_app. split; [eapply base_frameless; exact Hb|]. constructor; [eapply frameless_text; [|exact Hk]; reflexivity|].
    destruct (truthy notes); [|injection Hn as <-; constructor]. unfold of_res in Hn. injection Hn as Hn. apply bind_ok in Hn as (y & Hy & Hn). injection Hn as <-. constructor; [eapply frameless_text; [|exact Hy]; reflexivity|constructor]. }
  destruct (ev_new (fun _ => False) True d _ d _ d1 E0 XL (or_intror Logic.I) Hc) as (c' & Ec & B & Tc & E1 & T1 & _). injection Ec as <-. change (xtag (e_node $"Group" (b ++ [k] ++ nt))) with $"Group" in Tc.
  apply mbind_inv in K as [(y & _ & X)|(u & d2 & K & K2)]; [discriminate X|]. injection K2 as <- <-. destruct u.
  destruct (ev_append (fun _ => False) True d W g c $"Group" $"Group" d1 (Ok tt) d2 E1 (T1 _ _ G) Tc joins_gg) as (_ & T2 & K'); [right; now left|exact K|]. split; [now apply K'|now apply T2].
Qed.
Lemma no_subject_kept Nw d d' x : wf d -> laid d -> evolves (fun _ => False) Nw d d' -> framed d x -> in_doc d x -> in_doc d' x.
Proof. intros W L E F D. destruct (doc_kept _ _ d d' x W L E F D) as [X|(y & [] & _)]. exact X. Qed.
Lemma bin_made R C d b d' : wf d -> laid d -> create_or_get_recyclebin_group R C d = (Ok b, d') -> a_group d' b /\ in_doc d' b.
Proof.
  intros W L Hr. pose proof (ev_refl (fun _ => False) True d W L) as E0. unfold create_or_get_recyclebin_group in Hr. apply mbind_inv in Hr as [(y & _ & X)|(o & d1 & Ho & Hr)]; [discriminate X|]. pose proof (reads_run _ _ _ _ (reads_bin R) Ho) as ->. destruct o as [b0|].
  { injection Hr as <- <-. exact (bin_group_ok R d b0 d W Ho). }
  apply mbind_inv in Hr as [(y & _ & X)|(o & d1 & Hg & Hr)]; [discriminate X|]. apply mbind_inv in Hr as [(y & _ & X)|(g & d2 & Ha & Hr)]; [discriminate X|].
  destruct o as [rg|].
  2: { exfalso. unfold add_group in Ha. apply mbind_inv in Ha as [(y & _ & X)|(q & d3 & _ & X)]; discriminate X. }
  apply root_group_ok in Hg as (-> & G & D); [|exact W]. destruct (add_group_ok C d rg _ _ _ g d2 W L G Ha) as [K TG]. destruct (op_add_group (fun _ => False) True d W C rg _ _ _ d Logic.I E0 G _ d2 Ha) as [E2 _].
  assert (Dg : in_doc d2 g). { destruct (no_subject_kept _ d d2 rg W L E2 (group_framed d rg G) D) as (r0 & Hr0 & B). exists r0. split; [exact Hr0|]. destruct K as (q & Eq & Iq). now apply below_kid with rg q. }
  assert (W2 : wf d2) by apply (evw E2). assert (L2 : laid d2) by apply E2.
  apply mbind_inv in Hr as [(y & _ & X)|(e & d3 & He & Hr)]; [discriminate X|]. assert (d3 = d2) as -> by (unfold meta_elem, xfirst, lift in He; injection He as _ <-; reflexivity).
  apply mbind_inv in Hr as [(y & _ & X)|(u & d3 & Hu & Hr)]; [discriminate X|]. assert (Rg : reads (get_uuid g)) by (unfold get_uuid; apply reads_bind; [apply reads_sub|intros ?; apply reads_of]). pose proof (reads_run _ _ _ _ Rg Hu) as ->.
  destruct e as [e|]; [|discriminate Hr]. apply mbind_inv in Hr as [(y & _ & X)|(v & d3 & Hs & Hr)]; [discriminate X|]. injection Hr as <- <-.
  destruct (ev_text (fun _ => False) True d2 W2 _ _ d2 _ d3 (ev_refl _ _ d2 W2 L2) Hs) as [E3 T3]. split; [now apply T3|]. apply (no_subject_kept _ d2 d3 g W2 L2 E3); [now apply group_framed|exact Dg].
Qed.
Lemma op_trash S (Nw : Prop) d0 R C i d : wf d0 -> Nw -> evolves S Nw d0 d -> S i -> an_item d i -> good S Nw d0 (trash R C i) d.
Proof.
  intros H0 N E Si It. unfold trash. apply good_bind_read; [exact E|apply reads_can|]. intros [|] _; [|now apply good_raise]. apply good_bind; [now apply op_bin|]. intros b d1 Hb E1 T1. destruct (bin_made R C d b d1) as [G _]; [apply (evw E)|apply E|exact Hb|]. apply op_move; auto. now apply (item_le d).
Qed.
Lemma trash_doc_kept R C i d r d' x : wf d -> laid d -> an_item d i -> trash R C i d = (r, d') -> framed d x -> in_doc d x -> in_doc d' x.
Proof.
  intros W L It Hr F D. unfold trash in Hr. apply mbind_inv in Hr as [(y & Hr & _)|(ok & d1 & Hc & Hr)]; [now rewrite (reads_run _ _ _ _ (reads_can R i) Hr)|]. pose proof (reads_run _ _ _ _ (reads_can R i) Hc) as ->. destruct ok; [|injection Hr as _ <-; exact D].
  pose proof (ev_refl (fun _ => False) True d W L) as E0. pose proof (op_bin (fun _ => False) True d W R C d Logic.I E0) as Gb. apply mbind_inv in Hr as [(y & Hr & _)|(b & d1 & Hb & Hr)].
  - destruct (Gb _ _ Hr) as [E1 _]. now apply (no_subject_kept _ d d' x W L E1).
  - destruct (Gb _ _ Hb) as [E1 T1]. destruct (bin_made R C d b d1 W L Hb) as [G Db]. apply (move_doc_kept d1 i b r d' x); [apply (evw E1)|apply E1|now apply (item_le d)|exact G|exact Db|exact Hr|now apply (framed_le d)|now apply (no_subject_kept _ d d1 x W L E1)].
Qed.

(** *** Emptying and reindexing *)
Lemma cut_kid d d' i p x : cut d d' i -> (forall k, lk d' k <> None -> lk d k <> None) -> is_kid d' p x -> is_kid d p x.
Proof.
  intros (_ & _ & _ & _ & L) Nn (q & Eq & Ix). destruct (lk d p) as [q0|] eqn:E0; [|exfalso; apply (Nn p); congruence]. specialize (L p q0 E0). assert (q = with_kids (less i (r_kids q0)) q0) as -> by congruence. cbn in Ix. apply filter_In in Ix as [Ix _]. now exists q0.
Qed.
Lemma op_empty_loop d0 g T : wf d0 -> T = $"Group" \/ T = $"Entry" -> forall n d, evolves (fun x => is_kid d0 g x /\ an_item d0 x) False d0 d -> (forall x, is_kid d g x -> is_kid d0 g x) ->
  forall r d', empty_loop n T g d = (r, d') -> evolves (fun x => is_kid d0 g x /\ an_item d0 x) False d0 d' /\ tags_le d d' /\ (forall x, is_kid d' g x -> is_kid d0 g x).
Proof.
  intros H0 HT. induction n as [|n IH]; intros d E K r d' Hr; [injection Hr as _ <-; split; [exact E|]; split; [apply le_refl|exact K]|]. cbn [empty_loop] in Hr. pose proof (evw E) as W. apply mbind_inv in Hr as [(y & Hr & _)|(t & d1 & Ht & Hr)].
  - pose proof (reads_run _ _ _ _ (reads_the g) Hr) as ->. split; [exact E|]. split; [apply le_refl|exact K].
  - apply the_ok in Ht as (-> & Ht & <-); [|exact W]. destruct (kids_of T t) as [|k l] eqn:Ek; [injection Hr as _ <-; split; [exact E|]; split; [apply le_refl|exact K]|].
    assert (Ik : In k (kids_of T t)) by (rewrite Ek; now left). apply filter_In in Ik as [Ik Tk]. apply str_eqb_eq in Tk. pose proof (kid_elem d t k W Ht Ik) as Kk. pose proof (K _ Kk) as K0.
    assert (Sk : is_kid d0 (eid t) (eid k) /\ an_item d0 (eid k)).
    { split; [exact K0|]. destruct (kid_tag d0 _ _ H0 K0) as (_ & U & _ & TU). assert (U = T) as ->. { apply (is_tag_fun (lk d) _ _ (eid k)); [now apply (ev_tag _ _ _ _ E)|]. rewrite <- Tk. apply has_tag; [exact W|now apply (has_kid d t)]. } destruct HT as [->| ->]; [now right|now left]. }
    destruct (delete_run d (eid t) (eid k) W Kk) as (d1 & Ed & W1 & Ct & _). rewrite (mbind_ok _ _ _ _ _ Ed) in Hr. destruct (ev_delete _ _ d0 H0 (eid k) d _ d1 E (or_intror (or_intror Sk)) Ed) as [E1 T1].
    destruct (IH d1 E1) with (r := r) (d' := d') as (E2 & T2 & K2); [|exact Hr|].
    + intros x Kx. apply K. apply (cut_kid d d1 (eid k)); [exact Ct|now apply (delete_same d (eid t) (eid k) d1 W Kk Ed)|exact Kx].
    + split; [exact E2|]. split; [eapply le_trans; eauto|exact K2].
Qed.
Lemma op_empty d g r d' : wf d -> laid d -> empty_group g d = (r, d') -> evolves (fun x => is_kid d g x /\ an_item d x) False d d'.
Proof.
  intros W L Hr. pose proof (ev_refl (fun x => is_kid d g x /\ an_item d x) False d W L) as E. unfold empty_group in Hr. apply mbind_inv in Hr as [(y & Hr & _)|(t & d1 & Ht & Hr)]; [pose proof (reads_run _ _ _ _ (reads_the g) Hr) as ->; exact E|].
  pose proof (reads_run _ _ _ _ (reads_the g) Ht) as ->. cbv zeta in Hr. apply mbind_inv in Hr as [(y & Hr & _)|(u & d1 & Hg & Hr)].
  - eapply (op_empty_loop d g $"Group" W (or_introl eq_refl) _ d E); [auto|exact Hr].
  - destruct (op_empty_loop d g $"Group" W (or_introl eq_refl) _ d E (fun x K => K) _ _ Hg) as (E1 & _ & K1). eapply (op_empty_loop d g $"Entry" W (or_intror eq_refl) _ d1 E1); [exact K1|exact Hr].
Qed.
Lemma op_reindex R e z d r d' : wf d -> laid d -> reindex R e z d = (r, d') -> evolves (fun _ => False) False d d'.
Proof.
  intros W L Hr. pose proof (ev_refl (fun _ => False) False d W L) as E. unfold reindex in Hr. apply mbind_inv in Hr as [(y & Hr & _)|(g & d1 & Hg & Hr)]; [now rewrite (reads_run _ _ _ _ (reads_group R e) Hr)|]. pose proof (reads_run _ _ _ _ (reads_group R e) Hg) as ->.
  destruct g as [g|]; [|injection Hr as _ <-; exact E].
  assert (Rf : reads (first_entry g)) by (unfold first_entry; apply reads_bind; [apply reads_the|]; intros t; destruct (first_pos _ _); [apply reads_ret|apply reads_raise]).
  apply mbind_inv in Hr as [(y & Hr & _)|(f & d1 & Hf & Hr)]; [now rewrite (reads_run _ _ _ _ Rf Hr)|]. pose proof (reads_run _ _ _ _ Rf Hf) as ->.
  destruct (parent_of (d_forest d) e) as [t|] eqn:Ep.
  2: { assert (X : lx_remove g e d = (Err Ex_Value, d)) by (unfold lx_remove; now rewrite Ep). rewrite (mbind_err _ _ _ _ _ X) in Hr. injection Hr as _ <-. exact E. }
  destruct (Nat.eqb_spec (eid t) g) as [<-|N].
  2: { assert (X : lx_remove g e d = (Err Ex_Value, d)) by (unfold lx_remove; rewrite Ep; apply Nat.eqb_neq in N; now rewrite N). rewrite (mbind_err _ _ _ _ _ X) in Hr. injection Hr as _ <-. exact E. }
  pose proof (wf_unique d W) as U. apply parent_of_In in Ep as [Ht Hc]; [|exact U]. destruct (remove_run d t e W Ht Hc) as (d1 & E1 & W1 & _ & N1 & R1 & L1 & L2). rewrite (mbind_ok _ _ _ _ _ E1) in Hr.
  assert (K : is_kid d (eid t) e) by (exists (row_of t); split; [now apply look_self|exact Hc]). destruct (kid_rows d (eid t) e W K) as (t' & k & Ht' & Et' & Ik & Ek & Hk). assert (t' = t) as -> by (apply (unique_inj (d_forest d)); auto).
  assert (Lg : lk d1 (eid t) <> None) by congruence. destruct (lk d1 (eid t)) as [qg|] eqn:Eg; [clear Lg|congruence]. destruct (look_has d1 _ _ W1 Eg) as (tp & Htp & Etp & _).
  assert (Hk1 : has d1 k).
  { apply (same_tree (d_forest d) (d_forest d1) k U (wf_unique d1 W1) Hk). intros j Hj. apply L2. intros ->. now apply (kid_apart d t k W Ht Ik). }
  assert (Dc : is_doc (d_forest d1) (eid k) = false).
  { unfold is_doc. destruct (d_forest d1) as [|z1 F1] eqn:EF; [reflexivity|]. apply Nat.eqb_neq. intros X. destruct (top_forest d W) as (z0 & F0 & EF0). unfold roots in R1. rewrite EF0 in R1. cbn in R1. injection R1 as R1 _. apply (root_not_child d z0 t W); [rewrite EF0; now left|exact Ht|]. rewrite <- R1, X, Ek. exact Hc. }
  assert (Ap : ~ In (eid tp) (ids k)) by (rewrite Etp; now apply (kid_apart d t k)).
  destruct (insert_run d1 tp k (z + Z.of_nat f)%Z W1 Htp Hk1 Ap Dc) as (d2 & E2 & (W2 & _ & N2 & R2 & Lm)). rewrite <- Etp, <- Ek, E2 in Hr. injection Hr as _ <-. rewrite Etp, Ek in *.
  assert (Eg' : qg = with_kids (without e (map eid (ekids t))) (row_of t)) by congruence.
  assert (Kd : forall j x, is_kid d2 j x <-> is_kid d j x).
  { intros j x. unfold is_kid. rewrite Lm. destruct (Nat.eq_dec j (eid t)) as [->|Nj].
    - rewrite Eg, (look_self _ t U Ht). cbn [option_map]. unfold move_row. rewrite Nat.eqb_refl, Eg'. cbn [r_kids with_kids row_of]. split; intros (q & Eq & Ix); injection Eq as <-; eexists; (split; [reflexivity|]); cbn [r_kids with_kids row_of] in *.
      + pose proof (proj1 (Integrity.insert_at_In (fun _ => False) _ _ _ _) Ix) as [Iy| ->]; [|exact Hc]. rewrite !without_In in Iy. tauto.
      + apply (Integrity.insert_at_In (fun _ => False)). destruct (Nat.eq_dec x e) as [->|Nx]; [now right|]. left. rewrite !without_In. auto.
    - rewrite L2 by exact Nj. destruct (lk d j) as [qj|] eqn:Ej; [|reflexivity]. cbn [option_map]. unfold move_row. apply Nat.eqb_neq in Nj as Nj'. rewrite Nj'. assert (X : without e (r_kids qj) = r_kids qj).
      { apply without_absent. intros I. assert (is_kid d j e) as Kj by now exists qj. apply Nj. exact (one_parent d j (eid t) e W Kj K). }
      split; intros (q & Eq & Ix); injection Eq as <-; eexists; (split; [reflexivity|]); cbn [r_kids with_kids] in *; rewrite X in *; exact Ix. }
  assert (Tg : forall i T, is_tag (lk d2) T i <-> is_tag (lk d) T i).
  { intros i T. unfold is_tag. rewrite Lm. assert (X : option_map r_tag (lk d1 i) = option_map r_tag (lk d i)) by (destruct (Nat.eq_dec i (eid t)) as [->|Ni]; [rewrite Eg, (look_self _ t U Ht), Eg'; reflexivity|now rewrite L2]).
    destruct (lk d1 i) as [q1|], (lk d i) as [q|]; try discriminate X; cbn [option_map] in *; [|split; intros (y & C & _); discriminate C]. injection X as X. assert (Y : r_tag (move_row (eid t) e (fun k c => insert_at (lx_pos (List.length (ekids tp)) (z + Z.of_nat f)) c k) i q1) = r_tag q1) by (unfold move_row; destruct (i =? eid t)%nat; reflexivity).
    split; intros (y & C & <-); injection C as <-; eexists; (split; [reflexivity|congruence]). }
  apply (ev_link _ _ d W d d2 e O False E W2); [|congruence|exact Tg| | | |tauto].
  - rewrite R2. rewrite (doc_hd d1 e Dc). rewrite R1. destruct (top_forest d W) as (z0 & F0 & EF0). unfold roots. now rewrite EF0.
  - intros j x Kx. left. now apply Kd.
  - intros j x Kx _. now apply Kd.
  - right. intros j Kx. now apply Kd.
Qed.
