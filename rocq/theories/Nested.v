(** Two assignments that put elements at the end of different entries and groups, be one inside the other, may be made in either order. *)
From Verif Require Import Base PyStr Xml Tree XPath Uuid Time Db Save FindSpec XPath_facts XPath_eval Find_facts Api ApiSpec StructSpec CredSpec Heap Prim Api_xpath Api_fields Api_sub Api_claims Struct Struct_bin Struct_trash Bin_xpath Cred Relabel Integrity_ops IntegritySpec Lib Kdbx Object ObjectSpec FailSpec Scratch AgainSpec Again LastSpec Last LastSet LastAtt SwapSpec Swap Apart Inside.

Definition grown (a b : db) (u : elem) : Prop := exists K Ka Kb n m g x y, incl K (ekids u) /\ map eid Ka = map eid K /\ map eid Kb = map eid K /\ has a n /\ has b m /\ erase n = erase m /\
  lk a (eid u) = Some (row_of (El (eid u) g x y (Ka ++ [n]))) /\ lk b (eid u) = Some (row_of (El (eid u) g x y (Kb ++ [m]))).
Lemma grown_looking d a b : wf d -> wf a -> wf b -> (forall u, has d u -> grown a b u \/ exists r, lk a (eid u) = Some r /\ lk b (eid u) = Some r /\ r_kids r = map eid (ekids u)) ->
  forall s u, (List.length (ids u) <= s)%nat -> has d u -> exists ua ub, has a ua /\ has b ub /\ eid ua = eid u /\ eid ub = eid u /\ erase ua = erase ub.
Proof.
  intros W Wa Wb O. induction s as [|s IH]; intros u Hs Hu; [destruct u; cbn in Hs; lia|].
  assert (G : forall c, In c (ekids u) -> exists ca cb, has a ca /\ has b cb /\ eid ca = eid c /\ eid cb = eid c /\ erase ca = erase cb).
  { intros c Hc. apply IH; [|now apply (has_kid d u c Hu)]. destruct u as [i0 g0 a0 x0 l]. cbn [ids List.length ekids] in *. clear -Hc Hs. assert (List.length (ids c) <= List.length (flat_map ids l))%nat; [|lia]. clear Hs. induction l as [|c' l IH]; [destruct Hc|]. cbn [flat_map]. rewrite app_length. destruct Hc as [->|Hc]; [lia|]. specialize (IH Hc). lia. }
  destruct (O u Hu) as [(K & Ka & Kb & n & m & g & x & y & IK & Ea & Eb & Hn & Hm & Ee & La & Lb)|(r & La & Lb & Rk)]; destruct (look_has a _ _ Wa La) as (ua & Hua & Eua & Era); destruct (look_has b _ _ Wb Lb) as (ub & Hub & Eub & Erb); exists ua, ub; do 4 (split; [assumption|]);
    assert (H1 : forall c, In c (ekids ua) -> has a c) by (intros c Hc; now apply (has_kid a ua)); assert (H2 : forall c, In c (ekids ub) -> has b c) by (intros c Hc; now apply (has_kid b ub)).
  - pose proof (f_equal r_kids Era) as Xa. pose proof (f_equal r_kids Erb) as Xb. cbn [row_of r_kids ekids] in Xa, Xb. rewrite map_app in Xa, Xb. cbn [map] in Xa, Xb. destruct (last_kid a _ _ n Wa H1 Hn Xa) as (l1 & X1 & Y1). destruct (last_kid b _ _ m Wb H2 Hm Xb) as (l2 & X2 & Y2).
    assert (S : map erase l1 = map erase l2). { apply (same_lists a b K l1 l2 Wa Wb); [intros c Hc; apply G, IK, Hc|congruence|congruence|intros c Hc; apply H1; rewrite X1; apply in_or_app; now left|intros c Hc; apply H2; rewrite X2; apply in_or_app; now left]. }
    pose proof (f_equal r_tag Era) as T1. pose proof (f_equal r_attrs Era) as T2. pose proof (f_equal r_text Era) as T3. pose proof (f_equal r_tag Erb) as U1. pose proof (f_equal r_attrs Erb) as U2. pose proof (f_equal r_text Erb) as U3.
    destruct ua as [i1 g1 a1 x1 k1], ub as [i2 g2 a2 x2 k2]. cbn [row_of etag eattrs etext ekids r_tag r_attrs r_text] in *. subst. cbn [erase]. rewrite !map_app. cbn [map]. now rewrite S, Ee.
  - assert (S : map erase (ekids ua) = map erase (ekids ub)). { apply (same_lists a b (ekids u) _ _ Wa Wb G); [|  |exact H1|exact H2]; [subst r; exact Rk|rewrite <- Erb in Rk; exact Rk]. }
    rewrite <- Erb in Era. pose proof (f_equal r_tag Era) as T1. pose proof (f_equal r_attrs Era) as T2. pose proof (f_equal r_text Era) as T3. destruct ua as [i1 g1 a1 x1 k1], ub as [i2 g2 a2 x2 k2]. cbn [row_of etag eattrs etext ekids r_tag r_attrs r_text] in *. subst. cbn [erase]. now rewrite S.
Qed.
(** *** Another element after a renewal *)
Lemma kids_renewed d d1 t u P n : wf d -> has d t -> has d u -> eid u <> eid t -> renewal d d1 t P n -> exists u1, has d1 u1 /\ eid u1 = eid u /\ row_of u1 = row_of u /\ Forall2 (fun c c3 => eid c3 = eid c /\ etag c3 = etag c /\ (~ In (eid t) (ids c) -> c3 = c)) (ekids u) (ekids u1).
Proof.
  intros W Ht Hu N ((W1 & M1 & N1 & R1 & H1 & L1) & F1). pose proof (look_self _ u (wf_unique _ W) Hu) as E. rewrite <- L1 in E by (exact N || exact (wf_look d _ _ W E)). destruct (look_has d1 _ _ W1 E) as (u1 & Hu1 & Ei & Er). exists u1. do 3 (split; [assumption|]).
  assert (K : map eid (ekids u1) = map eid (ekids u)) by (exact (f_equal r_kids Er)).
  assert (A : forall c, In c (ekids u) -> has d c) by (intros c Hc; now apply (has_kid d u)). assert (A3 : forall c, In c (ekids u1) -> has d1 c) by (intros c Hc; now apply (has_kid d1 u1)).
  assert (Q : forall c, has d c -> ~ In (eid t) (ids c) -> has d1 c) by (intros c Hc Nc; apply (rekids_keeps d d1 t (rest P t ++ [n]) c W); [repeat (split; [assumption|]); assumption|exact Hc|exact Nc]).
  revert K A A3. generalize (ekids u) (ekids u1). clear -W W1 L1 H1 Ht Q. induction l as [|c l IH]; intros [|c3 l3] K A A3; try discriminate; constructor.
  - cbn [map] in K. injection K as Ec _. split; [exact Ec|]. assert (Hc : has d c) by (apply A; now left). assert (Hc3 : has d1 c3) by (apply A3; now left). split.
    + destruct (Nat.eq_dec (eid c) (eid t)) as [X|X].
      * assert (c = t) as -> by (apply (unique_inj (d_forest d)); [apply W|exact Hc|exact Ht|exact X]). assert (c3 = set_kids (rest P t ++ [n]) t) as -> by (apply (unique_inj (d_forest d1)); [apply W1|exact Hc3|exact H1|now rewrite set_kids_eid]). now destruct t.
      * pose proof (look_self _ c (wf_unique _ W) Hc) as Y. pose proof (look_self _ c3 (wf_unique _ W1) Hc3) as Z. rewrite Ec, L1, Y in Z by (exact X || exact (wf_look d _ _ W Y)). apply Some_inj in Z. symmetry. exact (f_equal r_tag Z).
    + intros Nk. apply (unique_inj (d_forest d1)); [apply W1|exact Hc3|now apply Q|exact Ec].
  - apply IH; [cbn [map] in K; now injection K|intros x Hx; apply A; now right|intros x Hx; apply A3; now right].
Qed.
Lemma row_grown u w K n : row_of w = row_of u -> row_of (set_kids (K ++ [n]) w) = row_of (El (eid u) (etag u) (eattrs u) (etext u) (K ++ [n])).
Proof. intros E. pose proof (f_equal r_tag E) as A. pose proof (f_equal r_attrs E) as B. pose proof (f_equal r_text E) as C. cbn [row_of r_tag r_attrs r_text] in A, B, C. rewrite <- A, <- B, <- C. now destruct w. Qed.
Theorem nested_order R Zl C C' o o' d t t' T T' d1 d2 : wf d -> has_elem d t -> has_elem d t' -> formed o (eid t) t -> formed o' (eid t') t' -> stored_as o = Some T -> stored_as o' = Some T' -> aside d T (eid t) (eid t') -> aside d T' (eid t') (eid t) ->
  IntegritySpec.run R Zl C o d = (Ok tt, d1) -> IntegritySpec.run R Zl C' o' d1 = (Ok tt, d2) -> exists d3 d4, IntegritySpec.run R Zl C' o' d = (Ok tt, d3) /\ IntegritySpec.run R Zl C o d3 = (Ok tt, d4) /\ untouched d2 d4.
Proof.
  intros W Ht Ht' Fo Fo' So So' A A' E1 E2. pose proof (aside_kids d T t _ W Ht A) as Ak. pose proof (aside_kids d T' t' _ W Ht' A') as Ak'. destruct A as (N & _). destruct A' as (N' & _).
  destruct (op_renews R Zl C o d t T d1 W Ht Fo So E1) as (P & n & Re1 & _ & HP & _ & Again). destruct (kids_renewed d d1 t t' P n W Ht Ht' N Re1) as (u1 & Hu1 & Ei1 & Er1 & F1). pose proof (kids_of_after T' _ _ _ F1 Ak') as K1. change (kids_of T' u1 = kids_of T' t') in K1.
  pose proof Re1 as ((W1 & M1 & X1 & R1 & H1 & L1) & Fr1).
  destruct (op_renews R Zl C' o' d1 u1 T' d2 W1 Hu1 (formed_after o' t' u1 T' So' Ei1 K1 Fo') So' E2) as (P' & n' & Re2 & _ & HP' & _ & Again'). destruct (Again' d t' W Ht' (eq_sym Ei1) (eq_sym K1)) as (d3 & m' & E3 & Re3 & Ee').
  destruct (kids_renewed d d3 t' t P' m' W Ht' Ht N' Re3) as (t3 & Ht3 & Ei3 & Er3 & F3). pose proof (kids_of_after T _ _ _ F3 Ak) as K3. change (kids_of T t3 = kids_of T t) in K3.
  pose proof Re3 as ((W3 & M3 & X3 & R3 & H3 & L3) & Fr3). destruct (Again d3 t3 W3 Ht3 Ei3 K3) as (d4 & m & E4 & Re4 & Ee). exists d3, d4. split; [exact E3|]. split; [exact E4|].
  pose proof Re2 as (Rk2 & _). pose proof Re4 as (Rk4 & _). pose proof Rk2 as (W2 & M2 & X2 & R2 & H2 & L2). pose proof Rk4 as (W4 & M4 & X4 & R4 & H4 & L4). rewrite Ei1 in L2. rewrite Ei3 in L4.
  pose proof (wf_look d _ _ W (look_self _ t (wf_unique _ W) Ht)) as B. pose proof (wf_look d _ _ W (look_self _ t' (wf_unique _ W) Ht')) as B'.
  apply (looking_untouched d d2 d4 W W2 W4).
  - destruct M1 as (? & ? & ?), M2 as (? & ? & ?). repeat split; congruence.
  - destruct M3 as (? & ? & ?), M4 as (? & ? & ?). repeat split; congruence.
  - congruence.
  - congruence.
  - intros u Hu. apply (grown_looking d d2 d4 W W2 W4) with (s := List.length (ids u)); [|apply le_n|exact Hu]. clear u Hu. intros u Hu. destruct (Nat.eq_dec (eid u) (eid t)) as [X|X]; [|destruct (Nat.eq_dec (eid u) (eid t')) as [X'|X']].
    + assert (u = t) as -> by (apply (unique_inj (d_forest d)); [apply W|exact Hu|exact Ht|exact X]). left. exists (rest P t), (rest P t), (rest P t3), n, m, (etag t), (eattrs t), (etext t). split; [apply rest_incl|]. split; [reflexivity|]. split; [exact (rest_after T _ P _ _ F3 Ak HP)|].
      split; [|split; [apply (has_kid d4 _ m H4); rewrite set_kids_ekids; apply in_or_app; right; now left|]]. { apply (rekids_keeps d1 d2 u1 _ n W1 Rk2); [apply (has_kid d1 _ n H1); rewrite set_kids_ekids; apply in_or_app; right; now left|]. intros Y. apply Fr1 in Y. lia. }
      split; [now symmetry|]. split.
      * rewrite L2 by (congruence || lia). pose proof (look_self _ _ (wf_unique _ W1) H1) as Y. rewrite set_kids_eid in Y. rewrite Y. f_equal. now apply row_grown.
      * pose proof (look_self _ _ (wf_unique _ W4) H4) as Y. rewrite set_kids_eid, Ei3 in Y. rewrite Y. f_equal. now apply row_grown.
    + assert (u = t') as -> by (apply (unique_inj (d_forest d)); [apply W|exact Hu|exact Ht'|exact X']). left. exists (rest P' t'), (rest P' u1), (rest P' t'), n', m', (etag t'), (eattrs t'), (etext t'). split; [apply rest_incl|]. split; [exact (rest_after T' _ P' _ _ F1 Ak' HP')|]. split; [reflexivity|].
      split; [apply (has_kid d2 _ n' H2); rewrite set_kids_ekids; apply in_or_app; right; now left|]. split. { apply (rekids_keeps d3 d4 t3 _ m' W3 Rk4); [apply (has_kid d3 _ m' H3); rewrite set_kids_ekids; apply in_or_app; right; now left|]. intros Y. apply Fr3 in Y. lia. }
      split; [now symmetry|]. split.
      * pose proof (look_self _ _ (wf_unique _ W2) H2) as Y. rewrite set_kids_eid, Ei1 in Y. rewrite Y. f_equal. now apply row_grown.
      * rewrite L4 by (congruence || lia). pose proof (look_self _ _ (wf_unique _ W3) H3) as Y. rewrite set_kids_eid in Y. rewrite Y. f_equal. now apply row_grown.
    + right. pose proof (look_self _ u (wf_unique _ W) Hu) as Lu. pose proof (wf_look d _ _ W Lu) as Bu. exists (row_of u). split; [rewrite L2, L1 by (assumption || lia); exact Lu|]. split; [rewrite L4, L3 by (assumption || lia); exact Lu|reflexivity].
Qed.
