(** The fixed parts of the document, and the recycle bin. *)
From Coq Require Import ZifyBool ZifyNat ZifyN.
From Verif Require Import Base PyStr Xml Tree XPath Time Db XPath_parse XPath_facts XPath_eval FindSpec Find_facts Find_path Find_more ApiSpec StructSpec Heap Uuid Api Prim Api_xpath Api_fields Api_custom Api_sub Api_claims Struct Struct_add Struct_find.

(** *** From rows to elements *)
Lemma filter_eid (P : nat -> bool) (Q : elem -> bool) l : (forall k, In k l -> P (eid k) = Q k) -> filter P (map eid l) = map eid (filter Q l).
Proof. induction l as [|k l IH]; intros H; [reflexivity|]. cbn [map filter]. rewrite (H k (or_introl eq_refl)), IH by (intros; apply H; now right). destruct (Q k); reflexivity. Qed.
Lemma kids_tagged_of d t T : wf d -> has d t -> kids_tagged (lk d) T (eid t) = map eid (kids_of T t).
Proof.
  intros H Ht. unfold kids_tagged. rewrite (look_self _ t (wf_unique d H) Ht). cbn [r_kids row_of]. apply filter_eid. intros k Hk. unfold tagb. rewrite (look_self _ k (wf_unique d H)) by now apply (has_kid d t). reflexivity.
Qed.
Lemma map_one {A B} (f : A -> B) l x : map f l = [x] -> exists y, l = [y] /\ f y = x.
Proof. destruct l as [|y [|z l]]; try discriminate. intros [= <-]. eauto. Qed.
Lemma kids_of_in T t k : In k (kids_of T t) -> In k (ekids t) /\ etag k = T.
Proof. intros H. apply filter_In in H as [H1 H2]. apply str_eqb_eq in H2. auto. Qed.
Lemma skeleton_elems d r rt g m e : wf d -> skeleton d r rt g m e ->
  exists R F Rt G M E, d_forest d = R :: F /\ eid R = r /\ etag R = $"KeePassFile" /\ kids_of $"Root" R = [Rt] /\ eid Rt = rt /\ kids_of $"Group" Rt = [G] /\ eid G = g /\
    kids_of $"Meta" R = [M] /\ eid M = m /\ kids_of $"RecycleBinUUID" M = [E] /\ eid E = e /\ has d R /\ has d Rt /\ has d G /\ has d M /\ has d E.
Proof.
  intros H [S1 S2 S3 S4 S5 S6]. destruct (d_forest d) as [|R F] eqn:EF; [discriminate|]. injection S1 as <-. assert (HR : has d R) by (rewrite EF; apply elements_root; now left). rewrite <- EF in *.
  rewrite (kids_tagged_of d R _ H HR) in S3. rewrite (kids_tagged_of d R _ H HR) in S5. apply map_one in S3 as (Rt & K3 & <-). apply map_one in S5 as (M & K5 & <-).
  assert (I3 : In Rt (kids_of $"Root" R)) by (rewrite K3; now left). apply kids_of_in in I3 as [I3 T3]. pose proof (has_kid d R Rt HR I3) as H3.
  assert (I5 : In M (kids_of $"Meta" R)) by (rewrite K5; now left). apply kids_of_in in I5 as [I5 T5]. pose proof (has_kid d R M HR I5) as H5.
  rewrite (kids_tagged_of d Rt _ H H3) in S4. rewrite (kids_tagged_of d M _ H H5) in S6. apply map_one in S4 as (G & K4 & <-). apply map_one in S6 as (E & K6 & <-).
  assert (I4 : In G (kids_of $"Group" Rt)) by (rewrite K4; now left). apply kids_of_in in I4 as [I4 T4]. pose proof (has_kid d Rt G H3 I4) as H4.
  assert (I6 : In E (kids_of $"RecycleBinUUID" M)) by (rewrite K6; now left). apply kids_of_in in I6 as [I6 T6]. pose proof (has_kid d M E H5 I6) as H6.
  destruct S2 as (ro & E2 & T2). rewrite (look_self _ R (wf_unique d H) HR) in E2. injection E2 as <-. exists R, F, Rt, G, M, E. repeat (split; [first [assumption|reflexivity]|]). exact H6.
Qed.
Lemma skeleton_facts d r rt g m e : wf d -> skeleton d r rt g m e ->
  is_tag (lk d) $"Root" rt /\ is_tag (lk d) $"Group" g /\ is_tag (lk d) $"Meta" m /\ is_tag (lk d) $"RecycleBinUUID" e /\ is_kid d r rt /\ is_kid d rt g /\ is_kid d r m /\ is_kid d m e.
Proof.
  intros H S. destruct (skeleton_elems d r rt g m e H S) as (R & F & Rt & G & M & E & EF & <- & TR & KR & <- & KG & <- & KM & <- & KE & <- & HR & HRt & HG & HM & HE).
  assert (X : forall T p k, has d p -> kids_of T p = [k] -> is_tag (lk d) T (eid k) /\ is_kid d (eid p) (eid k)).
  { intros T p k Hp K. assert (I : In k (kids_of T p)) by (rewrite K; now left). apply kids_of_in in I as [I1 I2]. split.
    - exists (row_of k). split; [apply look_self; [apply H|now apply (has_kid d p)]|exact I2].
    - exists (row_of p). split; [now apply look_self; [apply H|]|]. cbn. now apply in_map. }
  destruct (X _ _ _ HR KR), (X _ _ _ HRt KG), (X _ _ _ HR KM), (X _ _ _ HM KE). tauto.
Qed.
Lemma tag_inj L T U i : is_tag L T i -> is_tag L U i -> T = U.
Proof. intros (r & E & <-) (s & E' & <-). congruence. Qed.
(** Keeping the skeleton when rows keep their tags and the fixed rows lose at most [i]. *)
Definition keeps_tags (d d' : db) : Prop := forall j r, lk d j = Some r -> exists r', lk d' j = Some r' /\ r_tag r' = r_tag r.
Lemma kids_tagged_less d d' T j i : wf d -> keeps_tags d d' -> (exists r, lk d j = Some r) -> (forall r, lk d j = Some r -> exists r', lk d' j = Some r' /\ r_kids r' = less i (r_kids r)) ->
  kids_tagged (lk d') T j = less i (kids_tagged (lk d) T j).
Proof.
  intros H K (r & Er) Hj. destruct (Hj r Er) as (r' & Er' & Ek). unfold kids_tagged. rewrite Er, Er', Ek. unfold less.
  assert (G : forall l, (forall k, In k l -> exists q, lk d k = Some q) -> filter (tagb (lk d') T) (filter (fun j => negb (j =? i)%nat) l) = filter (fun j => negb (j =? i)%nat) (filter (tagb (lk d) T) l)).
  { induction l as [|k l IH]; intros Hl; [reflexivity|]. cbn [filter]. assert (Et : tagb (lk d') T k = tagb (lk d) T k). { destruct (Hl k (or_introl eq_refl)) as (q & Eq). destruct (K k q Eq) as (q' & Eq' & Et). unfold tagb. now rewrite Eq, Eq', Et. }
    specialize (IH (fun x Hx => Hl x (or_intror Hx))). destruct (negb (k =? i)%nat) eqn:Ei, (tagb (lk d) T k) eqn:Ek'; cbn [filter]; rewrite ?Et, ?Ei, IH; reflexivity. }
  apply G. intros k Hk. apply (kid_look d j k H). exists r. auto.
Qed.
Lemma less_one i k : i <> k -> less i [k] = [k].
Proof. intros N. unfold less. cbn [filter]. destruct (Nat.eqb_spec k i); [congruence|reflexivity]. Qed.
Lemma skeleton_keep d d' r rt g m e i : wf d -> skeleton d r rt g m e -> keeps_tags d d' -> hd_error (rts d') = hd_error (rts d) -> ~ In i [rt; g; m; e] ->
  (forall j q, In j [r; rt; m] -> lk d j = Some q -> exists q', lk d' j = Some q' /\ r_kids q' = less i (r_kids q)) -> skeleton d' r rt g m e.
Proof.
  intros H S K R Ni Hj. destruct (skeleton_facts d r rt g m e H S) as ((q2 & E2 & _) & _ & (q3 & E3 & _) & _). pose proof S as [S1 (q1 & E1 & T1) S3 S4 S5 S6]. cbn [In] in Ni.
  assert (X : forall j T k q, In j [r; rt; m] -> lk d j = Some q -> kids_tagged (lk d) T j = [k] -> In k [rt; g; m; e] -> kids_tagged (lk d') T j = [k]).
  { intros j T k q Ij Ej Ek Ik. rewrite (kids_tagged_less d d' T j i H K); [rewrite Ek; apply less_one; intros ->; exact (Ni Ik)|eauto|]. intros q' Eq'. apply (Hj j q' Ij Eq'). }
  constructor; [congruence| |eapply X|eapply X|eapply X|eapply X]; eauto; cbn [In]; auto.
  destruct (K r q1 E1) as (q1' & E1' & T1'). exists q1'. split; [exact E1'|congruence].
Qed.
Lemma skeleton_relocated d d' r rt g m e p i : wf d -> skeleton d r rt g m e -> relocated d d' p i -> ~ In i [rt; g; m; e] -> ~ In p [r; rt; m] -> skeleton d' r rt g m e.
Proof.
  intros H S (_ & _ & _ & R & L) Ni Np. apply (skeleton_keep d d' r rt g m e i H S); auto.
  - intros j q E. eexists. split; [apply L, E|]. destruct (j =? p)%nat; reflexivity.
  - intros j q Ij E. eexists. split; [apply L, E|]. destruct (Nat.eqb_spec j p) as [->|]; [contradiction|reflexivity].
Qed.
Lemma skeleton_cut d d' r rt g m e i : wf d -> skeleton d r rt g m e -> cut d d' i -> ~ In i [rt; g; m; e] -> skeleton d' r rt g m e.
Proof.
  intros H S (_ & _ & _ & R & L) Ni. apply (skeleton_keep d d' r rt g m e i H S); auto.
  - intros j q E. eexists. split; [apply L, E|]. reflexivity.
  - intros j q Ij E. eexists. split; [apply L, E|]. reflexivity.
Qed.
(** Any change confined to rows other than the fixed ones, keeping tags. *)
Lemma less_absent i l : ~ In i l -> less i l = l.
Proof. intros H. rewrite <- without_less. now apply without_absent. Qed.
Lemma skeleton_same d d' r rt g m e : wf d -> skeleton d r rt g m e -> keeps_tags d d' -> hd_error (rts d') = hd_error (rts d) ->
  (forall j q, In j [r; rt; m] -> lk d j = Some q -> exists q', lk d' j = Some q' /\ r_kids q' = r_kids q) -> skeleton d' r rt g m e.
Proof.
  intros H S K R Hj. destruct (skeleton_facts d r rt g m e H S) as ((q2 & E2 & _) & (q3 & E3 & _) & (q4 & E4 & _) & (q5 & E5 & _) & _).
  apply (skeleton_keep d d' r rt g m e (d_next d) H S K R).
  - intros Hn. assert (Hq : exists q, lk d (d_next d) = Some q) by (cbn [In] in Hn; intuition; subst; eauto). destruct Hq as (q & Eq). apply (wf_look d _ q H) in Eq. lia.
  - intros j q Ij E. destruct (Hj j q Ij E) as (q' & E' & Ek). exists q'. split; [exact E'|]. rewrite Ek. symmetry. apply less_absent. intros Hn. pose proof (rows_small d j q H E _ Hn). lia.
Qed.
Lemma skeleton_added d d' r rt g m e p i : wf d -> skeleton d r rt g m e -> added d d' p i -> (exists q, lk d p = Some q) -> ~ In p [r; rt; m] -> skeleton d' r rt g m e.
Proof.
  intros H S (_ & (_ & _ & _ & _ & R & O) & A) (qp & Ep) Np. apply (skeleton_same d d' r rt g m e H S); auto.
  - intros j q E. destruct (Nat.eq_dec j p) as [->|N]; [eexists; split; [apply A, E|reflexivity]|]. exists q. split; [apply O; [exact E|intros [G|[]]; auto]|reflexivity].
  - intros j q Ij E. exists q. split; [|reflexivity]. apply O; [exact E|]. intros [<-|[]]. contradiction.
Qed.
Lemma skeleton_texts d d' ps r rt g m e : wf d -> skeleton d r rt g m e -> (forall p, In p ps -> has d p) -> only_texts ps d d' -> skeleton d' r rt g m e.
Proof.
  intros H S Hps ((_ & _ & _ & _ & R & O) & _ & _ & T). 
  assert (X : forall j q, lk d j = Some q -> exists q', lk d' j = Some q' /\ r_tag q' = r_tag q /\ r_kids q' = r_kids q).
  { intros j q E. destruct (in_dec Nat.eq_dec j (map eid ps)) as [I|I]; [|exists q; split; [now apply O|auto]]. apply in_map_iff in I as (p & <- & Hp). destruct (T p Hp) as (v & Ev). rewrite (look_self _ p (wf_unique d H) (Hps p Hp)) in E. injection E as <-. eexists. split; [exact Ev|auto]. }
  apply (skeleton_same d d' r rt g m e H S); auto.
  - intros j q E. destruct (X j q E) as (q' & E' & T' & _). eauto.
  - intros j q _ E. destruct (X j q E) as (q' & E' & _ & K'). eauto.
Qed.
