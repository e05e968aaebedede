(** Deleting something, and assigning to a property that is not written in place, may be done in either order. *)
From Verif Require Import Base PyStr Xml Tree XPath Uuid Time Db Save FindSpec XPath_facts XPath_eval Find_facts Api ApiSpec StructSpec CredSpec Heap Prim Api_xpath Api_fields Api_sub Api_claims Struct Struct_bin Struct_trash Bin_xpath Cred Relabel Integrity_ops IntegritySpec Lib Kdbx Object ObjectSpec FailSpec Scratch AgainSpec Again LastSpec Last LastSet LastAtt SwapSpec Swap Apart Inside DropSpec Drop.

Definition grew (a b : db) (u : elem) : Prop := exists K Ka Kb n m g x y, incl K (ekids u) /\ map eid Ka = map eid K /\ map eid Kb = map eid K /\ has a n /\ has b m /\ erase n = erase m /\
  lk a (eid u) = Some (row_of (El (eid u) g x y (Ka ++ [n]))) /\ lk b (eid u) = Some (row_of (El (eid u) g x y (Kb ++ [m]))).
Lemma less_looking d a b : wf d -> wf a -> wf b -> (forall u, has d u -> grew a b u \/ exists r K, lk a (eid u) = Some r /\ lk b (eid u) = Some r /\ incl K (ekids u) /\ r_kids r = map eid K) ->
  forall s u, (List.length (ids u) <= s)%nat -> has d u -> exists ua ub, has a ua /\ has b ub /\ eid ua = eid u /\ eid ub = eid u /\ erase ua = erase ub.
Proof.
  intros W Wa Wb O. induction s as [|s IH]; intros u Hs Hu; [destruct u; cbn in Hs; lia|].
  assert (G : forall c, In c (ekids u) -> exists ca cb, has a ca /\ has b cb /\ eid ca = eid c /\ eid cb = eid c /\ erase ca = erase cb).
  { intros c Hc. apply IH; [|now apply (has_kid d u c Hu)]. destruct u as [i0 g0 a0 x0 l]. cbn [ids List.length ekids] in *. clear -Hc Hs. assert (List.length (ids c) <= List.length (flat_map ids l))%nat; [|lia]. clear Hs. induction l as [|c' l IH]; [destruct Hc|]. cbn [flat_map]. rewrite app_length. destruct Hc as [->|Hc]; [lia|]. specialize (IH Hc). lia. }
  destruct (O u Hu) as [(K & Ka & Kb & n & m & g & x & y & IK & Ea & Eb & Hn & Hm & Ee & La & Lb)|(r & K & La & Lb & IK & Rk)]; destruct (look_has a _ _ Wa La) as (ua & Hua & Eua & Era); destruct (look_has b _ _ Wb Lb) as (ub & Hub & Eub & Erb); exists ua, ub; do 4 (split; [assumption|]);
    assert (H1 : forall c, In c (ekids ua) -> has a c) by (intros c Hc; now apply (has_kid a ua)); assert (H2 : forall c, In c (ekids ub) -> has b c) by (intros c Hc; now apply (has_kid b ub)).
  - pose proof (f_equal r_kids Era) as Xa. pose proof (f_equal r_kids Erb) as Xb. cbn [row_of r_kids ekids] in Xa, Xb. rewrite map_app in Xa, Xb. cbn [map] in Xa, Xb. destruct (last_kid a _ _ n Wa H1 Hn Xa) as (l1 & X1 & Y1). destruct (last_kid b _ _ m Wb H2 Hm Xb) as (l2 & X2 & Y2).
    assert (S : map erase l1 = map erase l2). { apply (same_lists a b K l1 l2 Wa Wb); [intros c Hc; apply G, IK, Hc|congruence|congruence|intros c Hc; apply H1; rewrite X1; apply in_or_app; now left|intros c Hc; apply H2; rewrite X2; apply in_or_app; now left]. }
    pose proof (f_equal r_tag Era) as T1. pose proof (f_equal r_attrs Era) as T2. pose proof (f_equal r_text Era) as T3. pose proof (f_equal r_tag Erb) as U1. pose proof (f_equal r_attrs Erb) as U2. pose proof (f_equal r_text Erb) as U3.
    destruct ua as [i1 g1 a1 x1 k1], ub as [i2 g2 a2 x2 k2]. cbn [row_of etag eattrs etext ekids r_tag r_attrs r_text] in *. subst. cbn [erase]. rewrite !map_app. cbn [map]. now rewrite S, Ee.
  - assert (S : map erase (ekids ua) = map erase (ekids ub)). { apply (same_lists a b K _ _ Wa Wb); [intros c Hc; apply G, IK, Hc| | |exact H1|exact H2]; [subst r; exact Rk|rewrite <- Erb in Rk; exact Rk]. }
    rewrite <- Erb in Era. pose proof (f_equal r_tag Era) as T1. pose proof (f_equal r_attrs Era) as T2. pose proof (f_equal r_text Era) as T3. destruct ua as [i1 g1 a1 x1 k1], ub as [i2 g2 a2 x2 k2]. cbn [row_of etag eattrs etext ekids r_tag r_attrs r_text] in *. subst. cbn [erase]. now rewrite S.
Qed.
(** *** The element after the deletion *)
Definition other (i : nat) (c : elem) : bool := negb (eid c =? i)%nat.
Lemma less_eids i l : less i (map eid l) = map eid (filter (other i) l).
Proof. unfold less, other. induction l as [|c l IH]; [reflexivity|]. cbn [map filter]. destruct (eid c =? i)%nat; cbn [negb map]; congruence. Qed.
Lemma cut_keeps d d1 i u : wf d -> wf d1 -> cut d d1 i -> has d u -> ~ In i (ids u) -> has d1 u.
Proof.
  intros W W1 (_ & _ & _ & _ & L) Hu N. apply (same_tree (d_forest d)); auto using wf_unique. intros j Hj. rewrite ids_everything in Hj. apply in_map_iff in Hj as (w & <- & Hw). pose proof (look_self _ w (wf_unique _ W) (elements_sub _ u Hu w Hw)) as Lw. rewrite (L _ _ Lw), Lw. f_equal. rewrite <- without_less, without_absent; [now destruct w|].
  cbn [row_of r_kids]. intros X. apply N. apply in_map_iff in X as (c & <- & Hc). rewrite ids_everything. apply in_map. apply (everything_trans c w u); [now apply everything_kid|exact Hw].
Qed.
Lemma cut_kid d d1 i c c1 : wf d -> wf d1 -> cut d d1 i -> has d c -> has d1 c1 -> eid c1 = eid c -> etag c1 = etag c /\ eattrs c1 = eattrs c /\ etext c1 = etext c /\ map eid (ekids c1) = less i (map eid (ekids c)).
Proof.
  intros W W1 (_ & _ & _ & _ & L) Hc Hc1 E. pose proof (L _ _ (look_self _ c (wf_unique _ W) Hc)) as X. pose proof (look_self _ c1 (wf_unique _ W1) Hc1) as Y. rewrite E, X in Y. apply Some_inj in Y. pose proof (f_equal r_tag Y) as A. pose proof (f_equal r_attrs Y) as B. pose proof (f_equal r_text Y) as C. pose proof (f_equal r_kids Y) as D. cbn in A, B, C, D. auto.
Qed.
Lemma cut_lists T P i l l3 : (forall c c3, In c l -> In c3 l3 -> eid c3 = eid c -> etag c3 = etag c /\ (etag c = T -> c3 = c)) -> (forall c c', etag c' = etag c -> (etag c = T -> c' = c) -> P c' = P c) -> (forall c, In c l -> eid c = i -> etag c <> T) -> map eid l3 = less i (map eid l) ->
  filter (fun c => str_eqb (etag c) T) l3 = filter (fun c => str_eqb (etag c) T) l /\ map eid (filter (fun c => negb (P c)) l3) = less i (map eid (filter (fun c => negb (P c)) l)).
Proof.
  revert l3. induction l as [|c l IH]; intros l3 H HP Ni E; [destruct l3; [split; reflexivity|discriminate]|]. unfold less in E. cbn [map filter] in E. destruct (Nat.eqb_spec (eid c) i) as [Ei|Ei]; cbn [negb] in E.
  - destruct (IH l3 (fun a b Ha Hb => H a b (or_intror Ha) Hb) HP (fun a Ha => Ni a (or_intror Ha)) E) as [I1 I2]. cbn [filter]. split.
    + rewrite I1. destruct (str_eqb (etag c) T) eqn:X; [apply str_eqb_eq in X; exfalso; now apply (Ni c (or_introl eq_refl) Ei)|reflexivity].
    + rewrite I2. destruct (negb (P c)); [|reflexivity]. unfold less. cbn [map filter]. now rewrite (proj2 (Nat.eqb_eq _ _) Ei).
  - destruct l3 as [|c3 l3]; [discriminate|]. cbn [map] in E. injection E as E3 E. destruct (H c c3 (or_introl eq_refl) (or_introl eq_refl) E3) as [Et Ec]. destruct (IH l3 (fun a b Ha Hb => H a b (or_intror Ha) (or_intror Hb)) HP (fun a Ha => Ni a (or_intror Ha)) E) as [I1 I2]. cbn [filter]. rewrite Et, I1, (HP c c3 Et Ec). split.
    + destruct (str_eqb (etag c) T) eqn:X; [apply str_eqb_eq in X; now rewrite (Ec X)|reflexivity].
    + destruct (negb (P c)); [|exact I2]. unfold less in *. cbn [map filter]. rewrite E3, (proj2 (Nat.eqb_neq _ _) Ei). cbn [negb]. now rewrite I2.
Qed.
Lemma cut_after d d3 i t T : wf d -> wf d3 -> cut d d3 i -> has d t -> (forall c, In c (ekids t) -> etag c = T -> ~ In i (ids c)) ->
  exists t3, has d3 t3 /\ eid t3 = eid t /\ etag t3 = etag t /\ eattrs t3 = eattrs t /\ etext t3 = etext t /\ kids_of T t3 = kids_of T t /\ forall P, (forall c c', etag c' = etag c -> (etag c = T -> c' = c) -> P c' = P c) -> map eid (rest P t3) = less i (map eid (rest P t)).
Proof.
  intros W W3 Cu Ht A. pose proof Cu as (_ & _ & _ & _ & L). destruct (look_has d3 _ _ W3 (L _ _ (look_self _ t (wf_unique _ W) Ht))) as (t3 & Ht3 & Ei & _). exists t3. split; [exact Ht3|]. split; [exact Ei|]. destruct (cut_kid d d3 i t t3 W W3 Cu Ht Ht3 Ei) as (E1 & E2 & E3 & E4). do 3 (split; [assumption|]).
  assert (H : forall c c3, In c (ekids t) -> In c3 (ekids t3) -> eid c3 = eid c -> etag c3 = etag c /\ (etag c = T -> c3 = c)).
  { intros c c3 Hc Hc3 Ec. pose proof (has_kid d t c Ht Hc) as Kc. pose proof (has_kid d3 t3 c3 Ht3 Hc3) as Kc3. split; [exact (proj1 (cut_kid d d3 i c c3 W W3 Cu Kc Kc3 Ec))|]. intros Tc. apply (unique_inj (d_forest d3)); [apply W3|exact Kc3|apply (cut_keeps d d3 i c W W3 Cu Kc), (A c Hc Tc)|exact Ec]. }
  assert (Ni : forall c, In c (ekids t) -> eid c = i -> etag c <> T) by (intros c Hc Ec Tc; apply (A c Hc Tc); rewrite <- Ec; apply self_ids).
  split; [exact (proj1 (cut_lists T (fun _ => false) i (ekids t) (ekids t3) H (fun _ _ _ _ => eq_refl) Ni E4))|]. intros P HP. exact (proj2 (cut_lists T P i (ekids t) (ekids t3) H HP Ni E4)).
Qed.
Lemma drop_square d d1 d2 d3 d4 t t3 P n m i : wf d -> has d t -> (i < d_next d)%nat -> renewal d d1 t P n -> cut d1 d2 i -> wf d2 -> cut d d3 i -> wf d3 -> has d3 t3 -> eid t3 = eid t -> etag t3 = etag t -> eattrs t3 = eattrs t -> etext t3 = etext t -> map eid (rest P t3) = less i (map eid (rest P t)) -> renewal d3 d4 t3 P m -> erase n = erase m -> untouched d2 d4.
Proof.
  intros W Ht Bi ((W1 & M1 & _ & R1 & H1 & L1) & F1) Cu2 W2 Cu3 W3 Ht3 Ei Eg Ea Et EK ((W4 & M4 & _ & R4 & H4 & L4) & _) Ee. pose proof Cu2 as (A1 & A2 & A3 & A4 & A5). pose proof Cu3 as (B1 & B2 & B3 & B4 & B5).
  assert (Kn : has d1 n) by (apply (has_kid d1 _ n H1); rewrite set_kids_ekids; apply in_or_app; right; now left). assert (Hm : has d4 m) by (apply (has_kid d4 _ m H4); rewrite set_kids_ekids; apply in_or_app; right; now left).
  assert (Nn : ~ In i (ids n)) by (intros X; apply F1 in X; lia). pose proof (cut_keeps d1 d2 i n W1 W2 Cu2 Kn Nn) as Hn. assert (Ni : eid n <> i) by (intros X; apply Nn; rewrite <- X; apply self_ids).
  apply (looking_untouched d d2 d4 W W2 W4).
  - destruct M1 as (? & ? & ?). repeat split; congruence.
  - destruct M4 as (? & ? & ?). repeat split; congruence.
  - congruence.
  - congruence.
  - intros u Hu. apply (less_looking d d2 d4 W W2 W4) with (s := List.length (ids u)); [|apply le_n|exact Hu]. clear u Hu. intros u Hu. destruct (Nat.eq_dec (eid u) (eid t)) as [X|X].
    + assert (u = t) as -> by (apply (unique_inj (d_forest d)); [apply W|exact Hu|exact Ht|exact X]). left. exists (filter (other i) (rest P t)), (filter (other i) (rest P t)), (rest P t3), n, m, (etag t), (eattrs t), (etext t). split; [intros c Hc; apply filter_In in Hc as [Hc _]; now apply rest_incl in Hc|]. split; [reflexivity|]. split; [rewrite EK; apply less_eids|]. do 3 (split; [assumption|]). split.
      * pose proof (look_self _ _ (wf_unique _ W1) H1) as Y. rewrite set_kids_eid in Y. rewrite (A5 _ _ Y). f_equal. unfold with_kids. cbn [row_of r_kids r_tag r_attrs r_text]. rewrite set_kids_ekids, less_eids, filter_app. cbn [filter]. unfold other at 2. rewrite (proj2 (Nat.eqb_neq _ _) Ni). cbn [negb]. now destruct t.
      * pose proof (look_self _ _ (wf_unique _ W4) H4) as Y. rewrite set_kids_eid, Ei in Y. rewrite Y. f_equal. rewrite <- Eg, <- Ea, <- Et. now destruct t3.
    + right. pose proof (look_self _ u (wf_unique _ W) Hu) as Lu. pose proof (wf_look d _ _ W Lu) as Bu. exists (with_kids (less i (r_kids (row_of u))) (row_of u)), (filter (other i) (ekids u)).
      split; [apply A5; rewrite L1 by assumption; exact Lu|]. pose proof (B5 _ _ Lu) as L3. split; [rewrite L4; [exact L3|exact (wf_look d3 _ _ W3 L3)|congruence]|]. split; [intros c Hc; now apply filter_In in Hc as [Hc _]|]. cbn [with_kids r_kids row_of]. apply less_eids.
Qed.
Lemma kid_renewed d d1 t P n T p i : wf d -> has d t -> renewal d d1 t P n -> (forall c, P c = true -> etag c = T) -> (forall c, In c (ekids t) -> etag c = T -> ~ In i (ids c)) -> is_kid d p i -> is_kid d1 p i.
Proof.
  intros W Ht ((W1 & _ & _ & _ & H1 & L1) & _) HP A (r & Er & I). destruct (Nat.eq_dec p (eid t)) as [->|N]; [|exists r; split; [rewrite L1; [exact Er|exact (wf_look d _ _ W Er)|exact N]|exact I]].
  rewrite (look_self _ t (wf_unique _ W) Ht) in Er. apply Some_inj in Er. subst r. cbn [row_of r_kids] in I. pose proof (look_self _ _ (wf_unique _ W1) H1) as Y. rewrite set_kids_eid in Y. eexists. split; [exact Y|]. cbn [row_of r_kids]. rewrite set_kids_ekids, map_app. apply in_or_app. left.
  apply in_map_iff in I as (c & <- & Hc). apply in_map. unfold rest. apply filter_In. split; [exact Hc|]. destruct (P c) eqn:Pc; [|reflexivity]. exfalso. apply (A c Hc (HP c Pc)), self_ids.
Qed.
Theorem drop_orders R Zl C o i p d t T : wf d -> has_elem d t -> formed o (eid t) t -> stored_as o = Some T -> is_kid d p i -> (forall c, In c (kids_tagged (look (d_forest d)) T (eid t)) -> ~ below (look (d_forest d)) c i) ->
  (forall d1 d2, IntegritySpec.run R Zl C o d = (Ok tt, d1) -> delete i d1 = (Ok tt, d2) -> exists d3 d4, delete i d = (Ok tt, d3) /\ IntegritySpec.run R Zl C o d3 = (Ok tt, d4) /\ untouched d2 d4) /\
  (forall d1 d2, delete i d = (Ok tt, d1) -> IntegritySpec.run R Zl C o d1 = (Ok tt, d2) -> exists d3 d4, IntegritySpec.run R Zl C o d = (Ok tt, d3) /\ delete i d3 = (Ok tt, d4) /\ untouched d4 d2).
Proof.
  intros W Ht Fo So K A0. assert (A : forall c, In c (ekids t) -> etag c = T -> ~ In i (ids c)).
  { intros c Hc Tc I. apply (A0 (eid c)); [rewrite (kids_tagged_of d t T W Ht); apply in_map; unfold kids_of; apply filter_In; split; [exact Hc|rewrite Tc; apply str_eqb_refl]|]. apply (below_ids (d_forest d)); [apply W|now apply (has_kid d t)|exact I]. }
  destruct (kid_look d p i W K) as (ri & Li). pose proof (wf_look d _ _ W Li) as Bi. destruct (delete_run d p i W K) as (d3 & E3 & W3 & Cu3 & _). destruct (cut_after d d3 i t T W W3 Cu3 Ht A) as (t3 & Ht3 & Ei & Eg & Ea & Et & Ek & ER).
  split; intros da db E F.
  - destruct (op_renews R Zl C o d t T da W Ht Fo So E) as (P & n & Re & HP & HP' & Tn & Again). destruct (Again d3 t3 W3 Ht3 Ei Ek) as (d4 & m & E4 & Re4 & Ee). exists d3, d4. split; [exact E3|]. split; [exact E4|]. pose proof Re as ((W1 & _) & _). destruct (delete_cut da i db W1 F) as (W2 & Cu2 & _).
    exact (drop_square d da db d3 d4 t t3 P n m i W Ht Bi Re Cu2 W2 Cu3 W3 Ht3 Ei Eg Ea Et (ER P HP') Re4 (eq_sym Ee)).
  - rewrite E in E3. injection E3 as <-. destruct (op_renews R Zl C o da t3 T db W3 Ht3 (formed_after o t t3 T So Ei Ek Fo) So F) as (P & m & Re4 & HP & HP' & Tm & Again). destruct (Again d t W Ht (eq_sym Ei) (eq_sym Ek)) as (d1 & n & E1 & Re & Ee). pose proof Re as ((W1 & _) & _).
    destruct (delete_run d1 p i W1 (kid_renewed d d1 t P n T p i W Ht Re HP A K)) as (d2 & E2 & W2 & Cu2 & _). exists d1, d2. split; [exact E1|]. split; [exact E2|]. exact (drop_square d d1 d2 da db t t3 P n m i W Ht Bi Re Cu2 W2 Cu3 W3 Ht3 Ei Eg Ea Et (ER P HP') Re4 Ee).
Qed.
