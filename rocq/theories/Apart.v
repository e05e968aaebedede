(** Assignments to different entries and groups may be made in either order. *)
From Verif Require Import Base PyStr Xml Tree XPath Uuid Time Db Save FindSpec XPath_facts XPath_eval Find_facts Api ApiSpec StructSpec CredSpec Heap Prim Api_xpath Api_fields Api_sub Api_claims Struct Struct_bin Struct_trash Bin_xpath Cred Relabel Integrity_ops IntegritySpec Lib Kdbx Object ObjectSpec FailSpec Scratch AgainSpec Again LastSpec Last LastSet LastAtt SwapSpec Swap.

(** *** The same call in two databases that have the element *)
Definition matched (d d1 e e1 : db) (t : elem) : Prop := exists k s1 s2, In k (ids t) /\ only [k] d d1 /\ only [k] e e1 /\ wf d1 /\ wf e1 /\ has d1 s1 /\ has e1 s2 /\ eid s1 = k /\ eid s2 = k /\ erase s1 = erase s2 /\
  (forall j, In j (ids s1) -> In j (ids t) \/ (d_next d <= j)%nat) /\ (forall j, In j (ids s2) -> In j (ids t) \/ (d_next e <= j)%nat) /\ (forall r, lk d k = Some r -> r_tag r = etag s1).
Lemma everything_trans u p t : In u (everything p) -> In p (everything t) -> In u (everything t).
Proof. intros Hu Hp. now apply (everything_sub _ _ Hp). Qed.
Lemma self_ids t : In (eid t) (ids t). Proof. destruct t. now left. Qed.
Lemma kid_ids_in t K n j : incl K (ekids t) -> In j (ids (set_kids (K ++ [n]) t)) -> In j (ids t) \/ In j (ids n).
Proof.
  intros S. destruct t as [i g a x k]. cbn [set_kids ids ekids] in *. intros [H|H]; [left; now left|]. apply in_flat_map in H as (c & Hc & Hj). apply in_app_or in Hc as [Hc|[->|[]]]; [|now right]. left. right. apply in_flat_map. exists c. auto.
Qed.
Lemma kid_matched d d1 e e1 t K n m : wf d -> wf e -> has d t -> rekids d d1 t (K ++ [n]) -> rekids e e1 t (K ++ [m]) -> erase n = erase m -> incl K (ekids t) -> (forall j, In j (ids n) -> (d_next d <= j)%nat) -> (forall j, In j (ids m) -> (d_next e <= j)%nat) -> matched d d1 e e1 t.
Proof.
  intros W V Ht H H' E S F F'. exists (eid t), (set_kids (K ++ [n]) t), (set_kids (K ++ [m]) t). split; [apply self_ids|]. split; [exact (rekids_only _ _ _ _ W H)|]. split; [exact (rekids_only _ _ _ _ V H')|]. destruct H as (W1 & _ & _ & _ & H1 & _). destruct H' as (V1 & _ & _ & _ & H1' & _). do 4 (split; [assumption|]). do 2 (split; [apply set_kids_eid|]). split; [|split; [|split]].
  - destruct t as [i g x y k]. cbn [set_kids erase]. now rewrite !map_app, (f_equal (fun e => [e]) E : map erase [n] = map erase [m]).
  - intros j Hj. destruct (kid_ids_in t K n j S Hj); auto.
  - intros j Hj. destruct (kid_ids_in t K m j S Hj); auto.
  - intros r Er. rewrite (look_self _ t (wf_unique _ W) Ht) in Er. apply Some_inj in Er. subst r. now destruct t.
Qed.
Lemma rest_incl P t : incl (rest P t) (ekids t). Proof. unfold rest. intros c Hc. now apply filter_In in Hc as [Hc _]. Qed.
Lemma text_matched d d1 e e1 t p v : wf d -> wf e -> has d t -> In p (everything t) -> retext d d1 p v -> retext e e1 p v -> matched d d1 e e1 t.
Proof.
  intros W V Ht Hp H H'. assert (S : forall j, In j (ids (set_text v p)) -> In j (ids t)).
  { intros j Hj. assert (Hj' : In j (ids p)) by (destruct p; exact Hj). rewrite ids_everything in Hj' |- *. apply in_map_iff in Hj' as (u & <- & Hu). apply in_map. exact (everything_trans u p t Hu Hp). }
  exists (eid p), (set_text v p), (set_text v p). assert (Ei : eid (set_text v p) = eid p) by now destruct p. split; [rewrite <- Ei; apply S, self_ids|]. split; [exact (retext_only _ _ _ _ H)|]. split; [exact (retext_only _ _ _ _ H')|]. destruct H as (W1 & _ & _ & _ & H1 & _). destruct H' as (V1 & _ & _ & _ & H1' & _). do 6 (split; [assumption|]). split; [reflexivity|]. do 2 (split; [intros j Hj; left; auto|]).
  intros r Er. rewrite (look_self _ p (wf_unique _ W) (elements_sub _ t Ht p Hp)) in Er. apply Some_inj in Er. subst r. now destruct p.
Qed.
Lemma none_matched d e t : wf d -> wf e -> has d t -> has e t -> matched d d e e t.
Proof.
  intros W V H H'. exists (eid t), t, t. split; [apply self_ids|]. do 2 (split; [repeat split; auto|]). do 9 (split; [auto|]). intros r Er. rewrite (look_self _ t (wf_unique _ W) H) in Er. apply Some_inj in Er. now subst r.
Qed.
Lemma slot_in T t p : time_slot T t = Some p -> In p (everything t).
Proof.
  unfold time_slot. intros E. destruct (find1 $"Times" t) as [ts|] eqn:F; [|discriminate]. assert (A : forall U w q, find1 U w = Some q -> In q (ekids w)) by (intros U w q X; unfold find1 in X; apply hd_in in X; now apply kids_of_in in X as [X _]). apply (everything_trans p ts t); [apply everything_kid; now apply (A T)|apply everything_kid; now apply (A _ t ts F)].
Qed.
Lemma desc_in p t : desc p t -> In p (everything t). Proof. intros (k & Hk & Hp). apply (everything_trans p k t Hp). now apply everything_kid. Qed.

Lemma sub_matched d e t T v d1 : wf d -> wf e -> has d t -> has e t -> at_most_one T t -> set_sub T (eid t) v d = (Ok tt, d1) -> exists e1, set_sub T (eid t) v e = (Ok tt, e1) /\ matched d d1 e e1 t.
Proof.
  intros W V Ht Ht' Ho E. destruct (accepted_or v) as [(s & -> & Hs)|X]; [|exfalso; destruct (set_sub_rejected d t T v W Ht X) as (x & d' & t' & Y & _); rewrite E in Y; discriminate].
  destruct (set_sub_exact_fresh d t T s W Ht Hs Ho) as (d1' & n & E1 & K1 & X1 & F1). rewrite E in E1. injection E1 as <-. destruct (set_sub_exact_fresh e t T s V Ht' Hs Ho) as (e1 & m & E2 & K2 & X2 & F2).
  exists e1. split; [exact E2|]. apply (kid_matched d d1 e e1 t (rest (tagged T) t) n m W V Ht K1 K2); auto using rest_incl. congruence.
Qed.
Lemma string_matched R d e t key v p d1 : wf d -> wf e -> has d t -> has e t -> tidy t -> plain key -> set_string R key (eid t) v p d = (Ok tt, d1) -> exists e1, set_string R key (eid t) v p e = (Ok tt, e1) /\ matched d d1 e e1 t.
Proof.
  intros W V Ht Ht' Hy Hk E. destruct (accepted_or v) as [(s & -> & Hs)|X]; [|exfalso; destruct (set_string_rejected R d t key v p W Ht Hy Hk X) as (x & d' & t' & Y & _); rewrite E in Y; discriminate].
  destruct (set_string_exact_fresh R d t key s p W Ht Hy Hk Hs) as (d1' & n & E1 & K1 & X1 & F1). rewrite E in E1. injection E1 as <-. destruct (set_string_exact_fresh R e t key s p V Ht' Hy Hk Hs) as (e1 & m & E2 & K2 & X2 & F2).
  exists e1. split; [exact E2|]. apply (kid_matched d d1 e e1 t (rest (keyed key) t) n m W V Ht K1 K2); auto using rest_incl. congruence.
Qed.
Lemma auto_matched n v d e t d1 (m : M unit) : wf d -> wf e -> has d t -> has e t -> (forall d0 p, wf d0 -> has d0 t -> at_slot n t = Some p -> m d0 = lx_set_text (eid p) v d0) -> (at_slot n t = None -> exists x, fst (m d) = Err x) -> m d = (Ok tt, d1) ->
  exists e1, m e = (Ok tt, e1) /\ matched d d1 e e1 t.
Proof.
  intros W V Ht Ht' Hm Hn E. destruct (at_slot n t) as [p|] eqn:Ep; [|destruct (Hn eq_refl) as (x & Ex); rewrite E in Ex; discriminate].
  pose proof (at_slot_In _ _ _ Ep) as [Hd _]. destruct (desc_apart d t p W Ht Hd) as [Hp _]. destruct (desc_apart e t p V Ht' Hd) as [Hp' _]. rewrite (Hm d p W Ht eq_refl) in E. rewrite (Hm e p V Ht' eq_refl).
  assert (L : legal v = true) by (destruct v as [s|]; [|reflexivity]; cbn; destruct (text_ok s) eqn:Es; [reflexivity|rewrite (set_text_illegal d _ s Es) in E; discriminate]).
  destruct (set_text_retext d p v W Hp L) as (d1' & E' & Hr). rewrite E in E'. injection E' as <-. destruct (set_text_retext e p v V Hp' L) as (e1 & E2 & Hr2). exists e1. split; [exact E2|]. exact (text_matched d d1 e e1 t p v W V Ht (desc_in _ _ Hd) Hr Hr2).
Qed.
Lemma attr_matched d e t q n v d1 : wf d -> wf e -> has d t -> has e t -> In q (everything t) -> text_ok v = true -> lx_set_attr (eid q) n v d = (Ok tt, d1) -> exists e1, lx_set_attr (eid q) n v e = (Ok tt, e1) /\ matched d d1 e e1 t.
Proof.
  intros W V Ht Ht' Hq Hv E. assert (G : forall d0, wf d0 -> has d0 t -> exists d0', lx_set_attr (eid q) n v d0 = (Ok tt, d0') /\ only [eid q] d0 d0' /\ wf d0' /\ has d0' (set_attr n v q)).
  { intros d0 W0 H0. pose proof (elements_sub _ t H0 q Hq) as Hq0. destruct (set_attr_run d0 (eid q) q n v W0 Hq0 eq_refl Hv) as (d0' & E0 & W' & (M1 & M2 & M3) & N & Rr & L1 & L2). exists d0'. split; [exact E0|]. split; [|split; [exact W'|]].
    - do 3 (split; [assumption|]). split; [lia|]. split; [now rewrite Rr|]. intros j r Ej Nj. rewrite L2; [exact Ej|]. intros ->. apply Nj. now left.
    - destruct q as [i g a x k]. apply (look_build (d_forest d0') i _ k (wf_unique _ W') L1); [reflexivity|]. intros c Hc. apply (same_tree (d_forest d0)); auto using wf_unique; [now apply (has_kid d0 (El i g a x k))|]. intros j Hj. apply L2. intros ->. revert Hj. now apply (kid_apart d0 (El i g a x k)). }
  destruct (G d W Ht) as (d1' & E1 & O1 & W1 & H1). rewrite E in E1. injection E1 as <-. destruct (G e V Ht') as (e1 & E2 & O2 & V1 & H2). exists e1. split; [exact E2|].
  assert (Ei : eid (set_attr n v q) = eid q) by now destruct q. assert (S : forall j, In j (ids (set_attr n v q)) -> In j (ids t)).
  { intros j Hj. assert (Hj' : In j (ids q)) by (destruct q; exact Hj). rewrite ids_everything in Hj' |- *. apply in_map_iff in Hj' as (u & <- & Hu). apply in_map. exact (everything_trans u q t Hu Hq). }
  exists (eid q), (set_attr n v q), (set_attr n v q). split; [rewrite <- Ei; apply S, self_ids|]. do 8 (split; [assumption|]). split; [reflexivity|]. do 2 (split; [intros j Hj; left; auto|]).
  intros r Er. rewrite (look_self _ q (wf_unique _ W) (elements_sub _ t Ht q Hq)) in Er. apply Some_inj in Er. subst r. now destruct q.
Qed.
Lemma same_call R Zl C o d e t d1 : wf d -> wf e -> has d t -> has e t -> v4 e = v4 d -> formed o (eid t) t -> IntegritySpec.run R Zl C o d = (Ok tt, d1) -> exists e1, IntegritySpec.run R Zl C o e = (Ok tt, e1) /\ matched d d1 e e1 t.
Proof.
  intros W V Ht Ht' V4 Fo E. destruct o; cbn [formed] in Fo; try contradiction; cbn [IntegritySpec.run] in *.
  - destruct Fo as [-> Hy]. destruct (accepted_or v) as [(s & -> & Hs)|X]; [|exfalso; destruct (prop_rejected R d t p v W Ht Hy X) as (x & d' & t' & Y & _); rewrite E in Y; discriminate].
    rewrite (set_prop_string R d t p s W Ht Hy) in E. rewrite (set_prop_string R e t p s V Ht' Hy). exact (string_matched R d e t _ _ _ d1 W V Ht Ht' Hy (Api_fields.prop_plain p) E).
  - destruct Fo as (-> & Hk & Hy). unfold set_custom_property in *. destruct (reserved (Some key)); [discriminate|]. exact (string_matched R d e t _ _ _ d1 W V Ht Ht' Hy Hk E).
  - destruct Fo as [-> Ho]. exact (sub_matched d e t _ _ d1 W V Ht Ht' Ho E).
  - destruct Fo as [-> Ho]. exact (sub_matched d e t _ _ d1 W V Ht Ht' Ho E).
  - destruct Fo as [-> Ho]. exact (sub_matched d e t _ _ d1 W V Ht Ht' Ho E).
  - destruct Fo as [-> Ho]. exact (sub_matched d e t _ _ d1 W V Ht Ht' Ho E).
  - destruct Fo as [-> Ho]. exact (sub_matched d e t _ _ d1 W V Ht Ht' Ho E).
  - subst i. rewrite set_timeprop_name in *. destruct (time_slot (time_name p) t) as [q|] eqn:Ep.
    + destruct (encode_time (v4 d) v) as [s|x] eqn:Es.
      * destruct (set_time_run d t _ q v s W Ht Ep Es) as (d1' & E' & Hr). rewrite E in E'. injection E' as <-. rewrite <- V4 in Es. destruct (set_time_run e t _ q v s V Ht' Ep Es) as (e1 & E2 & Hr2). exists e1. split; [exact E2|]. exact (text_matched d d1 e e1 t q _ W V Ht (slot_in _ _ _ Ep) Hr Hr2).
      * exfalso. destruct (slot_facts d t _ q W Ht Ep) as (ts & E1 & E2 & _). unfold set_time in E. rewrite (mbind_ok _ _ _ _ _ (the_run d (eid t) t W Ht eq_refl)), E1, E2 in E. unfold mbind, encode_t, lift in E. rewrite Es in E. discriminate.
    + assert (N : forall d0, wf d0 -> has d0 t -> set_time (time_name p) (eid t) v d0 = (Ok tt, d0)).
      { intros d0 W0 H0. unfold set_time. rewrite (mbind_ok _ _ _ _ _ (the_run d0 (eid t) t W0 H0 eq_refl)). unfold time_slot in Ep. destruct (find1 $"Times" t) as [ts|]; [rewrite Ep|]; reflexivity. }
      rewrite (N d W Ht) in E. injection E as <-. exists e. split; [now apply N|]. now apply none_matched.
  - subst i. destruct (time_slot $"Expires" t) as [q|] eqn:Ep.
    + destruct (set_expires_run d t q b W Ht Ep) as (d1' & E' & Hr). rewrite E in E'. injection E' as <-. destruct (set_expires_run e t q b V Ht' Ep) as (e1 & E2 & Hr2). exists e1. split; [exact E2|]. exact (text_matched d d1 e e1 t q _ W V Ht (slot_in _ _ _ Ep) Hr Hr2).
    + exfalso. unfold set_expires, expires_elem in E. unfold time_slot in Ep. unfold mbind at 1 in E. rewrite (mbind_ok _ _ _ _ _ (the_run d (eid t) t W Ht eq_refl)) in E. destruct (find1 $"Times" t) as [ts|]; [rewrite Ep in E|]; discriminate.
  - rename e0 into i. subst i. apply (auto_matched 0 (option_map py_str_bool v) d e t d1 _ W V Ht Ht'); [intros d0 q W0 H0 X; now apply set_at_enabled| |exact E].
    intros N. exists Ex_Attribute. unfold set_autotype_enabled. rewrite (mbind_ok _ _ _ _ _ (the_run d (eid t) t W Ht eq_refl)). cbn [at_slot] in N. now rewrite N.
  - rename e0 into i. subst i. apply (auto_matched 1 v d e t d1 _ W V Ht Ht'); [intros d0 q W0 H0 X; now apply set_at_sequence| |exact E].
    intros N. exists Ex_Attribute. unfold set_autotype_sequence. rewrite (mbind_ok _ _ _ _ _ (the_run d (eid t) t W Ht eq_refl)). cbn [at_slot] in N. now rewrite N.
  - rename e0 into i. subst i. apply (auto_matched 2 v d e t d1 _ W V Ht Ht'); [intros d0 q W0 H0 X; now apply set_at_window| |exact E].
    intros N. exists Ex_Attribute. unfold set_autotype_window. rewrite (mbind_ok _ _ _ _ _ (the_run d (eid t) t W Ht eq_refl)). cbn [at_slot] in N. now rewrite N.
  - subst a. unfold set_att_id in *. rewrite (mbind_ok _ _ _ _ _ (the_run d (eid t) t W Ht eq_refl)) in E. rewrite (mbind_ok _ _ _ _ _ (the_run e (eid t) t V Ht' eq_refl)). destruct (find1 $"Value" t) as [q|] eqn:Fq; [|discriminate].
    assert (Hq : In q (everything t)) by (apply everything_kid; unfold find1 in Fq; apply hd_in in Fq; now apply kids_of_in in Fq as [Fq _]). exact (attr_matched d e t q _ _ d1 W V Ht Ht' Hq (int_text id) E).
  - subst a. unfold set_att_filename in *. rewrite (mbind_ok _ _ _ _ _ (the_run d (eid t) t W Ht eq_refl)) in E. rewrite (mbind_ok _ _ _ _ _ (the_run e (eid t) t V Ht' eq_refl)). destruct (find1 $"Key" t) as [q|] eqn:Fq; [|discriminate].
    assert (Hq : In q (everything t)) by (apply everything_kid; unfold find1 in Fq; apply hd_in in Fq; now apply kids_of_in in Fq as [Fq _]).
    assert (L : legal v = true) by (destruct v as [s|]; [|reflexivity]; cbn; destruct (text_ok s) eqn:Es; [reflexivity|rewrite (set_text_illegal d _ s Es) in E; discriminate]).
    destruct (set_text_retext d q v W (elements_sub _ t Ht q Hq) L) as (d1' & E' & Hr). rewrite E in E'. injection E' as <-. destruct (set_text_retext e q v V (elements_sub _ t Ht' q Hq) L) as (e1 & E2 & Hr2). exists e1. split; [exact E2|]. exact (text_matched d d1 e e1 t q v W V Ht Hq Hr Hr2).
Qed.

(** *** Two databases made from one by changing two elements *)
Lemma two_looking d a b k k' sa sb sa' sb' : wf d -> wf a -> wf b -> has a sa -> has b sb -> has a sa' -> has b sb' -> eid sa = k -> eid sb = k -> eid sa' = k' -> eid sb' = k' -> erase sa = erase sb -> erase sa' = erase sb' ->
  (forall j r, lk d j = Some r -> j <> k -> j <> k' -> lk a j = Some r /\ lk b j = Some r) ->
  forall n u, (List.length (ids u) <= n)%nat -> has d u -> exists ua ub, has a ua /\ has b ub /\ eid ua = eid u /\ eid ub = eid u /\ erase ua = erase ub.
Proof.
  intros W Wa Wb Ha Hb Ha' Hb' Ea Eb Ea' Eb' Ee Ee' O. induction n as [|n IH]; intros u Hn Hu; [destruct u; cbn in Hn; lia|].
  destruct (Nat.eq_dec (eid u) k) as [E|E]; [exists sa, sb; rewrite E; auto|]. destruct (Nat.eq_dec (eid u) k') as [E'|E']; [exists sa', sb'; rewrite E'; auto|].
  destruct (O (eid u) (row_of u)) as [La Lb]; [now apply look_self; [apply W|]|exact E|exact E'|].
  destruct (look_has a _ _ Wa La) as (ua & Hua & Eua & Era). destruct (look_has b _ _ Wb Lb) as (ub & Hub & Eub & Erb). exists ua, ub. do 4 (split; [assumption|]).
  destruct u as [i g0 a0 x l], ua as [i1 g1 a1 x1 l1], ub as [i2 g2 a2 x2 l2]. cbn [row_of etag eattrs etext ekids] in Era, Erb. injection Era as -> -> -> E1. injection Erb as -> -> -> E2. cbn [erase]. f_equal.
  assert (G : forall c, In c l -> exists ca cb, has a ca /\ has b cb /\ eid ca = eid c /\ eid cb = eid c /\ erase ca = erase cb).
  { intros c Hc. apply IH; [|apply (has_kid d _ c Hu); exact Hc]. cbn [ids List.length] in Hn. clear -Hc Hn. assert (List.length (ids c) <= List.length (flat_map ids l))%nat; [|lia]. clear Hn. induction l as [|c' l IH]; [destruct Hc|]. cbn [flat_map]. rewrite app_length. destruct Hc as [->|Hc]; [lia|]. specialize (IH Hc). lia. }
  assert (H1 : forall c, In c l1 -> has a c) by (intros c Hc; apply (has_kid a _ c Hua); exact Hc).
  assert (H2 : forall c, In c l2 -> has b c) by (intros c Hc; apply (has_kid b _ c Hub); exact Hc).
  clear -G H1 H2 E1 E2 Wa Wb. revert l1 l2 E1 E2 H1 H2. induction l as [|c l IHk]; intros [|c1 l1] [|c2 l2] E1 E2 H1 H2; try discriminate; [reflexivity|]. cbn [map] in *. injection E1 as F1 E1. injection E2 as F2 E2. f_equal.
  - destruct (G c) as (wa & wb & Ha & Hb & Ea & Eb & Er); [now left|].
    assert (c1 = wa) as -> by (apply (unique_inj (d_forest a)); [apply Wa|apply H1; now left|exact Ha|congruence]).
    assert (c2 = wb) as -> by (apply (unique_inj (d_forest b)); [apply Wb|apply H2; now left|exact Hb|congruence]). exact Er.
  - apply IHk; [intros x Hx; apply G; now right|exact E1|exact E2|intros x Hx; apply H1; now right|intros x Hx; apply H2; now right].
Qed.
Lemma only_keeps d d1 k u : wf d -> wf d1 -> only [k] d d1 -> has d u -> ~ In k (ids u) -> has d1 u.
Proof.
  intros W W1 (_ & _ & _ & _ & _ & O) Hu N. apply (same_tree (d_forest d)); auto using wf_unique. intros j Hj.
  rewrite ids_everything in Hj. apply in_map_iff in Hj as (w & <- & Hw). assert (Hw' : has d w) by (now apply (elements_sub _ u)). rewrite (look_self _ w (wf_unique _ W) Hw'). apply O; [now apply look_self; [apply W|]|]. intros [X|[]]. apply N. rewrite X. now apply ids_In.
Qed.
Lemma matched_order d d1 d2 d3 d4 t t' : wf d -> has d t -> has d t' -> (forall j, In j (ids t) -> In j (ids t') -> False) -> matched d d1 d3 d4 t -> matched d1 d2 d d3 t' -> untouched d2 d4.
Proof.
  intros W Ht Ht' D (k & s1 & s4 & I & O1 & O4 & W1 & W4 & H1 & H4 & K1 & K4 & Er & S1 & _ & _) (k' & s2 & s3 & I' & O2 & O3 & W2 & W3 & H2 & H3 & K2 & K3 & Er' & _ & S3 & _).
  pose proof (ids_has d t k W Ht I) as Lk. pose proof (ids_has d t' k' W Ht' I') as Lk'.
  assert (H12 : has d2 s1). { apply (only_keeps d1 d2 k' s1 W1 W2 O2 H1). intros X. destruct (S1 _ X) as [Y|Y]; [exact (D _ Y I')|lia]. }
  assert (H34 : has d4 s3). { apply (only_keeps d3 d4 k s3 W3 W4 O4 H3). intros X. destruct (S3 _ X) as [Y|Y]; [exact (D _ I Y)|lia]. }
  assert (S := two_looking d d2 d4 k k' s1 s4 s2 s3 W W2 W4 H12 H4 H2 H34 K1 K4 K2 K3 Er Er').
  destruct O1 as (A1 & A2 & A3 & _ & A5 & A6). destruct O2 as (B1 & B2 & B3 & _ & B5 & B6). destruct O3 as (C1 & C2 & C3 & _ & C5 & C6). destruct O4 as (D1 & D2 & D3 & _ & D5 & D6).
  split; [|repeat split; congruence]. specialize (S (fun j r X N N' => conj (B6 j r (A6 j r X (fun Y => match Y with or_introl Y => N (eq_sym Y) | or_intror Y => Y end)) (fun Y => match Y with or_introl Y => N' (eq_sym Y) | or_intror Y => Y end)) (D6 j r (C6 j r X (fun Y => match Y with or_introl Y => N' (eq_sym Y) | or_intror Y => Y end)) (fun Y => match Y with or_introl Y => N (eq_sym Y) | or_intror Y => Y end)))).
  destruct (top_forest d W) as (r & G & EF). destruct (top_forest d2 W2) as (ra & Ga & EFa). destruct (top_forest d4 W4) as (rb & Gb & EFb).
  assert (Ra : hd_error (rts d2) = hd_error (rts d)) by congruence. assert (Rb : hd_error (rts d4) = hd_error (rts d)) by congruence.
  assert (Era : eid ra = eid r) by (rewrite EF, EFa in Ra; now injection Ra). assert (Erb : eid rb = eid r) by (rewrite EF, EFb in Rb; now injection Rb).
  destruct (S _ r (le_n _)) as (wa & wb & Hwa & Hwb & Ea & Eb & Ew); [rewrite EF; apply elements_root; now left|].
  assert (ra = wa) as -> by (apply (unique_inj (d_forest d2)); [apply W2|rewrite EFa; apply elements_root; now left|exact Hwa|congruence]).
  assert (rb = wb) as -> by (apply (unique_inj (d_forest d4)); [apply W4|rewrite EFb; apply elements_root; now left|exact Hwb|congruence]).
  unfold document. rewrite EFa, EFb. cbn [hd_error option_map]. now rewrite Ew.
Qed.
Theorem apart_order R Zl C C' o o' d t t' d1 d2 : wf d -> has_elem d t -> has_elem d t' -> formed o (eid t) t -> formed o' (eid t') t' -> apart d (eid t) (eid t') -> IntegritySpec.run R Zl C o d = (Ok tt, d1) -> IntegritySpec.run R Zl C' o' d1 = (Ok tt, d2) ->
  exists d3 d4, IntegritySpec.run R Zl C' o' d = (Ok tt, d3) /\ IntegritySpec.run R Zl C o d3 = (Ok tt, d4) /\ untouched d2 d4.
Proof.
  intros W Ht Ht' Fo Fo' A E F. assert (D : forall j, In j (ids t) -> In j (ids t') -> False).
  { intros j H H'. apply (A j). split; apply (below_ids (d_forest d)); auto using wf_unique. }
  destruct (same_call R Zl C o d d t d1 W W Ht Ht eq_refl Fo E) as (_ & _ & k0 & _ & _ & I0 & O0 & _ & W1 & _). assert (Ht1 : has d1 t') by (apply (only_keeps d d1 k0 t' W W1 O0 Ht'); intros X; exact (D _ I0 X)).
  assert (V1 : v4 d = v4 d1) by (destruct O0 as (M & _); unfold v4; now rewrite M).
  destruct (same_call R Zl C' o' d1 d t' d2 W1 W Ht1 Ht' V1 Fo' F) as (d3 & E3 & M3). destruct (M3) as (k' & s2 & s3 & I' & O2 & O3 & W2 & W3 & H2 & H3 & K2 & K3 & Er' & _ & S3 & _).
  assert (Ht3 : has d3 t) by (apply (only_keeps d d3 k' t W W3 O3 Ht); intros X; exact (D _ X I')). assert (V3 : v4 d3 = v4 d) by (destruct O3 as (M & _); unfold v4; now rewrite M).
  destruct (same_call R Zl C o d d3 t d1 W W3 Ht Ht3 V3 Fo E) as (d4 & E4 & M4). exists d3, d4. split; [exact E3|]. split; [exact E4|]. exact (matched_order d d1 d2 d3 d4 t t' W Ht Ht' D M4 M3).
Qed.

(** *** A setting of the database and a property *)
Lemma setting_stays d d3 k' T m k : wf d -> setting_in d T m k -> only [k'] d d3 -> m <> k' -> (forall r, kids_tagged (lk d) $"Meta" r = [m] -> r <> k') -> (exists x y, lk d k' = Some x /\ lk d3 k' = Some y /\ r_tag x = r_tag y) -> setting_in d3 T m k.
Proof.
  intros W (r & A & B & M & K) (_ & _ & _ & _ & Rr & O) N N' (x & y & X & Y & Z). exists r. specialize (N' r M).
  assert (L : forall j z, lk d j = Some z -> exists z', lk d3 j = Some z' /\ r_tag z' = r_tag z).
  { intros j z Hz. destruct (Nat.eq_dec j k') as [->|Nj]; [exists y; split; [exact Y|congruence]|]. exists z. split; [apply O; [exact Hz|intros [E|[]]; congruence]|reflexivity]. }
  assert (G : forall T0 j, (exists z, lk d j = Some z) -> j <> k' -> kids_tagged (lk d3) T0 j = kids_tagged (lk d) T0 j).
  { intros T0 j (z & Hz) Nj. unfold kids_tagged. rewrite (O j z Hz), Hz by (intros [E|[]]; congruence). apply filter_ext_in. intros c Hc. destruct (look_has d j z W Hz) as (u & Hu & Eu & Ez). subst z j. cbn [row_of r_kids] in Hc. apply in_map_iff in Hc as (w & <- & Hw). pose proof (look_self _ w (wf_unique _ W) (has_kid d u w Hu Hw)) as Lw. destruct (L _ _ Lw) as (z' & Lz & Ez). unfold tagb. rewrite Lz, Lw. now rewrite Ez. }
  assert (Pr : forall T0 j l c, kids_tagged (lk d) T0 j = c :: l -> exists z, lk d j = Some z) by (intros T0 j l c E; unfold kids_tagged in E; destruct (lk d j) as [z|]; [now exists z|discriminate]).
  split; [now rewrite Rr|]. split; [destruct B as (z & Hz & Ez); destruct (L r z Hz) as (z' & Hz' & E'); exists z'; split; [exact Hz'|congruence]|]. split; [rewrite G; [exact M|exact (Pr _ _ _ _ M)|exact N']|]. rewrite G; [exact K|destruct (kids_tagged (lk d) T m) as [|c l] eqn:Ek; [discriminate K|exact (Pr _ _ _ _ Ek)]|exact N].
Qed.
Lemma setting_of d T m k : setting_in d T m k -> exists l, setting d T (k :: l).
Proof. intros (r & A & B & M & K). destruct (kids_tagged (lk d) T m) as [|c l] eqn:E; [discriminate K|]. injection K as ->. exists l, r, m. auto. Qed.
Lemma setting_below d T m k tk t' : wf d -> setting_in d T m k -> has d tk -> eid tk = k -> has d t' -> apart d m (eid t') -> (forall j, In j (ids tk) -> In j (ids t') -> False) /\ ~ In m (ids t') /\ (forall r, kids_tagged (lk d) $"Meta" r = [m] -> ~ In r (ids t')).
Proof.
  intros W (r & A & B & M & K) Hk Ek Ht' Ap.
  assert (Kid : forall T0 j c l, kids_tagged (lk d) T0 j = l -> In c l -> exists u w, has d u /\ has d w /\ eid u = j /\ eid w = c /\ In w (ekids u)).
  { intros T0 j c l <- Hc. unfold kids_tagged in Hc. destruct (lk d j) as [z|] eqn:Ez; [|destruct Hc]. apply filter_In in Hc as [Hc _]. destruct (look_has d j z W Ez) as (u & Hu & Eu & Er). subst z. cbn [row_of r_kids] in Hc. apply in_map_iff in Hc as (w & Ew & Hw). exists u, w. split; [exact Hu|]. split; [now apply (has_kid d u w)|auto]. }
  destruct (kids_tagged (lk d) T m) as [|c l] eqn:Em; [discriminate K|]. injection K as ->. destruct (Kid T m k _ Em (or_introl eq_refl)) as (mt & w & Hm & Hw & Emt & Ew & Iw).
  assert (w = tk) as -> by (apply (unique_inj (d_forest d)); [apply W|exact Hw|exact Hk|congruence]).
  assert (D : forall j, In j (ids mt) -> In j (ids t') -> False). { intros j H H'. apply (Ap j). subst m. split; apply (below_ids (d_forest d)); auto using wf_unique. }
  split; [|split].
  - intros j Hj. apply D. rewrite ids_everything in *. apply in_map_iff in Hj as (x & <- & Hx). apply in_map. apply (everything_trans x tk mt Hx). now apply everything_kid.
  - intros X. apply (D m); [rewrite <- Emt; apply self_ids|exact X].
  - intros r0 M0 I. destruct (Kid _ r0 m _ M0 (or_introl eq_refl)) as (u & w & Hu & Hw' & Eu & Ew' & Iw'). apply (D m); [rewrite <- Emt; apply self_ids|]. rewrite ids_everything in I |- *. apply in_map_iff in I as (x & Ex & Hx).
    assert (x = u) as -> by (apply (unique_inj (d_forest d)); [apply W|now apply (elements_sub _ t')|exact Hu|congruence]). rewrite <- Ew'. apply in_map. apply (everything_trans w u t'); [now apply everything_kid|exact Hx].
Qed.
Lemma setting_after R Zl C o' d t' d3 T m k tk : wf d -> setting_in d T m k -> has d tk -> eid tk = k -> has d t' -> formed o' (eid t') t' -> apart d m (eid t') -> IntegritySpec.run R Zl C o' d = (Ok tt, d3) -> wf d3 /\ setting_in d3 T m k /\ has d3 tk /\ v4 d3 = v4 d.
Proof.
  intros W S Hk Ek Ht' F Ap E. destruct (setting_below d T m k tk t' W S Hk Ek Ht' Ap) as (D & Nm & Nr). destruct (same_call R Zl C o' d d t' d3 W W Ht' Ht' eq_refl F E) as (_ & _ & k' & s & _ & I & O & _ & W3 & _ & Hs & _ & Es & _ & _ & _ & _ & Tg).
  split; [exact W3|]. split; [|split; [apply (only_keeps d d3 k' tk W W3 O Hk); intros X; exact (D _ X I)|destruct O as (M & _); unfold v4; now rewrite M]].
  apply (setting_stays d d3 k' T m k W S O); [intros ->; auto|intros r Mr ->; exact (Nr _ Mr I)|].
  rewrite ids_everything in I. apply in_map_iff in I as (x & Ex & Hx). pose proof (look_self _ x (wf_unique _ W) (elements_sub _ t' Ht' x Hx)) as Lx. rewrite Ex in Lx. pose proof (look_self _ s (wf_unique _ W3) Hs) as Ls. rewrite Es in Ls. exists (row_of x), (row_of s). split; [exact Lx|]. split; [exact Ls|]. now rewrite (Tg _ Lx).
Qed.
Theorem setting_order R Zl C C' T o o' d m k t' d1 d2 : wf d -> setting_in d T m k -> sets T o -> has_elem d t' -> formed o' (eid t') t' -> apart d m (eid t') -> IntegritySpec.run R Zl C o d = (Ok tt, d1) -> IntegritySpec.run R Zl C' o' d1 = (Ok tt, d2) ->
  exists d3 d4, IntegritySpec.run R Zl C' o' d = (Ok tt, d3) /\ IntegritySpec.run R Zl C o d3 = (Ok tt, d4) /\ untouched d2 d4.
Proof.
  intros W S A Ht' F Ap E E2. destruct (setting_of d T m k S) as (l & Sl). destruct (sets_retext R Zl C T o d d1 k l W Sl A E) as (tk & s & Hk & Ek & Et & L & Hr & _).
  destruct (setting_below d T m k tk t' W S Hk Ek Ht' Ap) as (D & _ & _). assert (Ik : In tk (everything tk)) by (destruct tk; now left).
  destruct (text_matched d d1 d d1 tk tk (Some s) W W Hk Ik Hr Hr) as (k0 & _ & _ & I0 & O0 & _ & W1 & _).
  assert (Ht1 : has d1 t') by (apply (only_keeps d d1 k0 t' W W1 O0 Ht'); intros X; exact (D _ I0 X)). assert (V1 : v4 d = v4 d1) by (destruct O0 as (M & _); unfold v4; now rewrite M).
  destruct (same_call R Zl C' o' d1 d t' d2 W1 W Ht1 Ht' V1 F E2) as (d3 & E3 & M3). destruct (setting_after R Zl C' o' d t' d3 T m k tk W S Hk Ek Ht' F Ap E3) as (W3 & S3 & Hk3 & V3).
  destruct (setting_of d3 T m k S3) as (l3 & Sl3). rewrite <- V3 in Et. destruct (sets_again R Zl C T o d3 tk k l3 s W3 Sl3 Hk3 Ek A Et L) as (d4 & E4 & Hr4). exists d3, d4. split; [exact E3|]. split; [exact E4|].
  exact (matched_order d d1 d2 d3 d4 tk t' W Hk Ht' D (text_matched d d1 d3 d4 tk tk (Some s) W W3 Hk Ik Hr Hr4) M3).
Qed.
Theorem setting_order_back R Zl C C' T o o' d m k t' d1 d2 : wf d -> setting_in d T m k -> sets T o -> has_elem d t' -> formed o' (eid t') t' -> apart d m (eid t') -> IntegritySpec.run R Zl C' o' d = (Ok tt, d1) -> IntegritySpec.run R Zl C o d1 = (Ok tt, d2) ->
  exists d3 d4, IntegritySpec.run R Zl C o d = (Ok tt, d3) /\ IntegritySpec.run R Zl C' o' d3 = (Ok tt, d4) /\ untouched d4 d2.
Proof.
  intros W S A Ht' F Ap E E2. destruct (setting_of d T m k S) as (l & Sl). destruct (setting_run R d T (k :: l) W Sl (sets_known T o A)) as (tk & Hk & Ek & _).
  destruct (setting_after R Zl C' o' d t' d1 T m k tk W S Hk Ek Ht' F Ap E) as (W1 & S1 & Hk1 & V1). destruct (setting_of d1 T m k S1) as (l1 & Sl1). destruct (sets_retext R Zl C T o d1 d2 k l1 W1 Sl1 A E2) as (_ & s & _ & _ & Et & L & _). rewrite V1 in Et.
  destruct (sets_again R Zl C T o d tk k l s W Sl Hk Ek A Et L) as (d3 & E3 & Hr). destruct (setting_below d T m k tk t' W S Hk Ek Ht' Ap) as (D & _ & _). assert (Ik : In tk (everything tk)) by (destruct tk; now left).
  destruct (text_matched d d3 d d3 tk tk (Some s) W W Hk Ik Hr Hr) as (k0 & _ & _ & I0 & O0 & _ & W3 & _).
  assert (Ht3 : has d3 t') by (apply (only_keeps d d3 k0 t' W W3 O0 Ht'); intros X; exact (D _ I0 X)). assert (V3 : v4 d3 = v4 d) by (destruct O0 as (M & _); unfold v4; now rewrite M).
  destruct (same_call R Zl C' o' d d3 t' d1 W W3 Ht' Ht3 V3 F E) as (d4 & E4 & _). exists d3, d4. split; [exact E3|]. split; [exact E4|].
  destruct (setting_order R Zl C C' T o o' d m k t' d3 d4 W S A Ht' F Ap E3 E4) as (a & b & Ea & Eb & U). congruence.
Qed.
Theorem setting_orders R Zl C C' T o o' d m k t' : wf d -> setting_in d T m k -> sets T o -> has_elem d t' -> formed o' (eid t') t' -> apart d m (eid t') ->
  (forall d1 d2, IntegritySpec.run R Zl C o d = (Ok tt, d1) -> IntegritySpec.run R Zl C' o' d1 = (Ok tt, d2) -> exists d3 d4, IntegritySpec.run R Zl C' o' d = (Ok tt, d3) /\ IntegritySpec.run R Zl C o d3 = (Ok tt, d4) /\ untouched d2 d4) /\
  (forall d1 d2, IntegritySpec.run R Zl C' o' d = (Ok tt, d1) -> IntegritySpec.run R Zl C o d1 = (Ok tt, d2) -> exists d3 d4, IntegritySpec.run R Zl C o d = (Ok tt, d3) /\ IntegritySpec.run R Zl C' o' d3 = (Ok tt, d4) /\ untouched d4 d2).
Proof. intros W S A H F Ap. split; intros d1 d2; [apply (setting_order R Zl C C' T o o' d m k t')|apply (setting_order_back R Zl C C' T o o' d m k t')]; assumption. Qed.
