(** Trashing. *)
From Coq Require Import ZifyBool ZifyNat ZifyN.
From Verif Require Import Base PyStr Xml Tree XPath Time Db XPath_parse XPath_facts XPath_eval FindSpec Find_facts Find_path Find_more ApiSpec StructSpec Heap Uuid Api Prim Api_xpath Api_fields Api_custom Api_sub Api_claims Struct Struct_add Struct_find Struct_bin.

Lemma skel_root R d r rt g m e : wf d -> skeleton d r rt g m e -> root_group R d = (Ok (Some g), d).
Proof.
  intros H S. destruct (skeleton_elems d r rt g m e H S) as (Rr & F & Rt & G & M & E & EF & <- & TR & KR & <- & KG & <- & KM & <- & KE & <- & _). now apply (root_group_run R d Rr F Rt).
Qed.
Lemma skel_meta_of d r rt g m e : wf d -> skeleton d r rt g m e -> exists Rr F E, d_forest d = Rr :: F /\ meta_of $"RecycleBinUUID" Rr = Some E /\ eid E = e /\ has d E.
Proof.
  intros H S. destruct (skeleton_elems d r rt g m e H S) as (Rr & F & Rt & G & M & E & EF & <- & TR & KR & <- & KG & <- & KM & <- & KE & <- & _ & _ & _ & _ & HE). exists Rr, F, E. split; [exact EF|]. split; [|auto].
  unfold meta_of. rewrite TR, KM. cbn [flat_map app]. rewrite KE. reflexivity.
Qed.
Lemma skel_meta R d r rt g m e : wf d -> skeleton d r rt g m e -> exists E, meta_elem R $"RecycleBinUUID" d = (Ok (Some E), d) /\ eid E = e /\ has d E.
Proof. intros H S. destruct (skel_meta_of d r rt g m e H S) as (Rr & F & E & EF & Em & Ee & HE). exists E. split; [|auto]. rewrite (meta_run R d Rr F $"RecycleBinUUID" H EF ltac:(now left)), Em. reflexivity. Qed.
Lemma picks_first {A} (P : A -> Prop) l m x : picks P l m -> hd_error m = Some x -> first_such P l x.
Proof.
  induction 1 as [|y l m Hy Hp IH|y l m Hy Hp IH]; intros E; [discriminate| |].
  - injection E as ->. exists [], l. split; [reflexivity|]. split; [exact Hy|]. intros z [].
  - destruct (IH E) as (a & b & -> & Hx & Ha). exists (y :: a), b. split; [reflexivity|]. split; [exact Hx|]. intros z [<-|Hz]; auto.
Qed.
Lemma first_same {A} (P : A -> Prop) l x y : first_such P l x -> first_such P l y -> x = y.
Proof.
  intros (a & b & -> & Hx & Ha) (c & f & E & Hy & Hc). revert c E Hc. induction a as [|z a IH]; intros [|w c] E Hc; cbn in E.
  - congruence.
  - injection E as -> _. exfalso. exact (Hc w (or_introl eq_refl) Hx).
  - injection E as -> _. exfalso. exact (Ha y (or_introl eq_refl) Hy).
  - injection E as -> E. apply (IH (fun v Hv => Ha v (or_intror Hv)) c E). intros v Hv. apply Hc. now right.
Qed.
Lemma first_in {A} (P : A -> Prop) l x : first_such P l x -> In x l /\ P x.
Proof. intros (a & b & -> & Hx & _). split; [apply in_or_app; right; now left|exact Hx]. Qed.
Lemma doc_elems_has d x : In x (doc_elems d) -> has d x.
Proof. unfold doc_elems. destruct (d_forest d) as [|R F] eqn:E; [intros []|]. intros H. unfold elements. cbn [flat_map]. apply in_or_app. now left. Qed.
Lemma doc_elems_doc d x : wf d -> has d x -> (In x (doc_elems d) <-> in_doc d (eid x)).
Proof.
  intros H Hx. unfold doc_elems. destruct (d_forest d) as [|R F] eqn:E; [destruct H; congruence|]. rewrite (in_doc_root d R F _ H E). split; [apply ids_In|]. intros I. rewrite ids_everything in I. apply in_map_iff in I as (y & Ey & Iy).
  assert (Hy : has d y) by (rewrite E; unfold elements; cbn [flat_map]; apply in_or_app; now left). rewrite <- E in Hx. assert (y = x) as -> by (apply (unique_inj (d_forest d)); auto; apply H). exact Iy.
Qed.
(** What the recycle bin query answers. *)
Lemma skel_bin R d r rt g m e u v : wf d -> skeleton d r rt g m e -> text_at d e v -> uuid_of_text v = Ok u ->
  exists o, recyclebin_group R d = (Ok (option_map eid o), d) /\ match o with Some b => first_such (is_bin (d_forest d) u) (doc_elems d) b | None => forall x, In x (doc_elems d) -> ~ is_bin (d_forest d) u x end.
Proof.
  intros H S (q & Eq & Ev) Eu. destruct (skel_meta_of d r rt g m e H S) as (Rr & F & E & EF & Em & <- & HE). rewrite (look_self _ E (wf_unique d H) HE) in Eq. injection Eq as <-. cbn in Ev. subst v.
  destruct (recyclebin_run R d Rr F E u H EF Em Eu) as (l & Hp & X). exists (hd_error l). split; [exact X|]. unfold doc_elems. rewrite EF in *. destruct (hd_error l) as [b|] eqn:Eb; [now apply (picks_first _ _ _ _ Hp)|now apply (picks_none _ _ _ Hp)].
Qed.
(** *** Above the fixed elements *)
Lemma above d p k i : wf d -> is_kid d p k -> below (lk d) i k -> i = k \/ below (lk d) i p.
Proof. intros H K B. destruct (Nat.eq_dec i k) as [->|N]; [now left|right]. apply (below_up d i p k H B); [auto|exact K]. Qed.
Lemma above_group d r rt g m e i : wf d -> skeleton d r rt g m e -> below (lk d) i g -> i = g \/ i = rt \/ i = r.
Proof.
  intros H S B. destruct (skeleton_facts d r rt g m e H S) as (_ & _ & _ & _ & K1 & K2 & _). destruct (above d rt g i H K2 B) as [->|B1]; [auto|]. destruct (above d r rt i H K1 B1) as [->|B2]; [auto|]. right. right. apply (root_below d r i H (sk_top _ _ _ _ _ _ S) B2).
Qed.
Lemma above_bin d r rt g m e i : wf d -> skeleton d r rt g m e -> below (lk d) i e -> i = e \/ i = m \/ i = r.
Proof.
  intros H S B. destruct (skeleton_facts d r rt g m e H S) as (_ & _ & _ & _ & _ & _ & K1 & K2). destruct (above d m e i H K2 B) as [->|B1]; [auto|]. destruct (above d r m i H K1 B1) as [->|B2]; [auto|]. right. right. apply (root_below d r i H (sk_top _ _ _ _ _ _ S) B2).
Qed.
Lemma skel_in_doc d r rt g m e : wf d -> skeleton d r rt g m e -> in_doc d g /\ in_doc d e.
Proof.
  intros H S. destruct (skeleton_facts d r rt g m e H S) as (_ & _ & _ & _ & (q1 & E1 & K1) & (q2 & E2 & K2) & (q3 & E3 & K3) & (q4 & E4 & K4)). rewrite E1 in E3. injection E3 as <-.
  assert (B : below (lk d) r r) by (eapply below_self; eassumption). split; exists r; (split; [apply (sk_top _ _ _ _ _ _ S)|]).
  - exact (below_kid _ _ _ _ _ (below_kid _ _ _ _ _ B E1 K1) E2 K2).
  - exact (below_kid _ _ _ _ _ (below_kid _ _ _ _ _ B E1 K3) E4 K4).
Qed.
Definition item (t : elem) : Prop := etag t = $"Entry" \/ etag t = $"Group".
Lemma item_fixed d r rt g m e t : wf d -> skeleton d r rt g m e -> has d t -> item t -> ~ In (eid t) [r; rt; m; e].
Proof.
  intros H S Ht It Hi. destruct (skeleton_facts d r rt g m e H S) as (T1 & T2 & T3 & T4 & _). pose proof (sk_tag _ _ _ _ _ _ S) as T0.
  assert (X : is_tag (lk d) (etag t) (eid t)) by (exists (row_of t); split; [now apply look_self; [apply H|]|reflexivity]).
  cbn [In] in Hi. destruct It as [It|It]; rewrite It in X; destruct Hi as [E|[E|[E|[E|[]]]]]; rewrite <- E in X; match goal with T : is_tag _ _ ?a, X : is_tag _ _ ?a |- _ => pose proof (tag_inj _ _ _ _ T X) as C; discriminate C end.
Qed.
(** *** Refusals *)
Lemma get_uuid_run d t u : wf d -> has d t -> uuid_is t u -> get_uuid (eid t) d = (Ok u, d).
Proof. intros H Ht E. unfold get_uuid. rewrite (mbind_ok _ _ _ _ _ (get_sub_run d t $"UUID" H Ht)). unfold of_res. now rewrite E. Qed.
Lemma same_run d t g u v : wf d -> has d t -> has d g -> uuid_is t u -> uuid_is g v -> same (eid t) (eid g) d = (Ok (el_eq (IdElement u) (IdElement v)), d).
Proof. intros H Ht Hg Eu Ev. unfold same. rewrite (mbind_ok _ _ _ _ _ (get_uuid_run d t u H Ht Eu)), (mbind_ok _ _ _ _ _ (get_uuid_run d g v H Hg Ev)). reflexivity. Qed.
Lemma trash_root R C d r rt g m e t u : wf d -> skeleton d r rt g m e -> has d t -> uuid_is t u -> (exists q, has d q /\ eid q = g /\ uuid_is q u) ->
  trash R C (eid t) d = (Err Ex_UnableToSendToRecycleBin, d).
Proof.
  intros H S Ht Eu (q & Hq & <- & Eq). unfold trash, can_be_moved_to_recyclebin.
  rewrite (mbind_ok _ _ d false d); [reflexivity|]. rewrite (mbind_ok _ _ _ _ _ (skel_root R d _ _ _ _ _ H S)). rewrite (mbind_ok _ _ _ _ _ (same_run d t q u u H Ht Hq Eu Eq)). unfold el_eq. rewrite N.eqb_refl. reflexivity.
Qed.
(** [t] is another item than the root group, as the library compares them. *)
Definition not_root (d : db) (g : nat) (u : bytes) : Prop := exists q v, has d q /\ eid q = g /\ uuid_is q v /\ el_eq (IdElement u) (IdElement v) = false.
Lemma can_move_run R d r rt g m e t u w v : wf d -> skeleton d r rt g m e -> has d t -> uuid_is t u -> not_root d g u -> text_at d e v -> uuid_of_text v = Ok w ->
  exists o, recyclebin_group R d = (Ok (option_map eid o), d) /\ match o with Some b => first_such (is_bin (d_forest d) w) (doc_elems d) b | None => forall x, In x (doc_elems d) -> ~ is_bin (d_forest d) w x end /\
    can_be_moved_to_recyclebin R (eid t) d = (Ok (match o with Some b => negb (has_uuidb u b) | None => true end), d).
Proof.
  intros H S Ht Eu (q & z & Hq & <- & Eq & Ne) Et Ew. destruct (skel_bin R d _ _ _ _ _ w v H S Et Ew) as (o & Ho & Hf). exists o. split; [exact Ho|]. split; [exact Hf|]. unfold can_be_moved_to_recyclebin.
  rewrite (mbind_ok _ _ _ _ _ (skel_root R d _ _ _ _ _ H S)), (mbind_ok _ _ _ _ _ (same_run d t q u z H Ht Hq Eu Eq)), Ne, (mbind_ok _ _ _ _ _ Ho). destruct o as [b|]; [|reflexivity]. cbn [option_map].
  rewrite (mbind_ok _ _ _ _ _ (get_uuid_run d t u H Ht Eu)). apply first_in in Hf as [Hb _]. apply doc_elems_has in Hb. fold (self_uuid u). rewrite (mbind_ok _ _ _ _ _ (self_uuid_run R d b u H Hb (uuid_of_text_ok _ _ Eu))). destruct (has_uuidb u b); reflexivity.
Qed.
(** The bin itself (or anything with its UUID) is refused. *)
Lemma trash_bin R C d r rt g m e t u w v b : wf d -> skeleton d r rt g m e -> has d t -> uuid_is t u -> not_root d g u -> text_at d e v -> uuid_of_text v = Ok w ->
  first_such (is_bin (d_forest d) w) (doc_elems d) b -> has_uuid u b -> trash R C (eid t) d = (Err Ex_UnableToSendToRecycleBin, d).
Proof.
  intros H S Ht Eu Hr Et Ew Hb Hu. destruct (can_move_run R d _ _ _ _ _ t u w v H S Ht Eu Hr Et Ew) as (o & _ & Ho & E). unfold trash. rewrite (mbind_ok _ _ _ _ _ E).
  destruct o as [b'|]; [|exfalso; destruct (first_in _ _ _ Hb) as [I P]; exact (Ho b I P)]. rewrite (first_same _ _ _ _ Ho Hb). apply has_uuidb_iff in Hu. rewrite Hu. reflexivity.
Qed.
Lemma trash_ready R C d r rt g m e t u w v b : wf d -> skeleton d r rt g m e -> has d t -> uuid_is t u -> not_root d g u -> text_at d e v -> uuid_of_text v = Ok w ->
  first_such (is_bin (d_forest d) w) (doc_elems d) b -> ~ has_uuid u b -> trash R C (eid t) d = move (eid t) (eid b) d.
Proof.
  intros H S Ht Eu Hr Et Ew Hb Hu. destruct (can_move_run R d _ _ _ _ _ t u w v H S Ht Eu Hr Et Ew) as (o & Eb & Ho & E). unfold trash. rewrite (mbind_ok _ _ _ _ _ E).
  destruct o as [b'|]; [|exfalso; destruct (first_in _ _ _ Hb) as [I P]; exact (Ho b I P)]. assert (b' = b) as -> by apply (first_same _ _ _ _ Ho Hb). destruct (has_uuidb u b) eqn:C'; [apply has_uuidb_iff in C'; contradiction|]. cbn [negb].
  rewrite (mbind_ok _ _ d (eid b) d); [reflexivity|]. unfold create_or_get_recyclebin_group. rewrite (mbind_ok _ _ _ _ _ Eb). reflexivity.
Qed.
Lemma trash_moves R C d r rt g m e t u w v b : wf d -> skeleton d r rt g m e -> has d t -> item t -> uuid_is t u -> not_root d g u -> text_at d e v -> uuid_of_text v = Ok w ->
  first_such (is_bin (d_forest d) w) (doc_elems d) b -> ~ has_uuid u b -> ~ below (lk d) (eid t) (eid b) ->
  exists d', trash R C (eid t) d = (Ok tt, d') /\ wf d' /\ relocated d d' (eid b) (eid t) /\ has d' t /\ (forall j, in_doc d' j <-> in_doc d j \/ below (lk d) (eid t) j) /\ skeleton d' r rt g m e /\ text_at d' e v.
Proof.
  intros H S Ht It Eu Hr Et Ew Hb Hu Hn. rewrite (trash_ready R C d _ _ _ _ _ t u w v b H S Ht Eu Hr Et Ew Hb Hu). destruct (first_in _ _ _ Hb) as [Ib (Tb & _ & _)]. pose proof (doc_elems_has d b Ib) as Kb.
  pose proof (item_fixed d _ _ _ _ _ t H S Ht It) as Nt. pose proof (item_fixed d _ _ _ _ _ b H S Kb (or_intror Tb)) as Nb.
  destruct (move_claim d (eid b) t H) as (d' & E & W & L & T & _ & D & _); auto; [now apply (doc_elems_doc d b H Kb)|intros C'; rewrite (sk_top _ _ _ _ _ _ S) in C'; injection C' as C'; apply Nt; now left|].
  exists d'. split; [exact E|]. split; [exact W|]. split; [exact L|]. split; [exact T|]. split; [exact D|]. split.
  - apply (skeleton_relocated d d' r rt g m e (eid b) (eid t) H S L).
    + cbn [In] in *. intros X. destruct Hr as (q & z & Hq & Eg & Eq & Ne). assert (eid t <> g). { intros C'. assert (t = q) as -> by (apply (unique_inj (d_forest d)); auto; [apply H|congruence]). unfold uuid_is in *. rewrite Eu in Eq. injection Eq as ->. unfold el_eq in Ne. now rewrite N.eqb_refl in Ne. } intuition.
    + cbn [In] in *. intuition.
  - destruct Et as (qe & Ee & Ve). destruct L as (_ & _ & _ & _ & L). eexists. split; [apply L, Ee|]. destruct (e =? eid b)%nat; exact Ve.
Qed.
Lemma trash_holds_bin R C d r rt g m e t u w v b : wf d -> skeleton d r rt g m e -> has d t -> uuid_is t u -> not_root d g u -> text_at d e v -> uuid_of_text v = Ok w ->
  first_such (is_bin (d_forest d) w) (doc_elems d) b -> ~ has_uuid u b -> below (lk d) (eid t) (eid b) -> trash R C (eid t) d = (Err Ex_Value, d).
Proof. intros H S Ht Eu Hr Et Ew Hb Hu Hn. rewrite (trash_ready R C d _ _ _ _ _ t u w v b H S Ht Eu Hr Et Ew Hb Hu). now apply move_refused. Qed.
(** *** No bin yet *)
Lemma below_kids L M a j : (forall k, option_map r_kids (L k) = option_map r_kids (M k)) -> below L a j -> below M a j.
Proof.
  intros X. induction 1 as [r E|j k r B IH E Hk].
  - specialize (X a). rewrite E in X. cbn in X. destruct (M a) eqn:Ea; [|discriminate]. eapply below_self; exact Ea.
  - specialize (X j). rewrite E in X. cbn in X. destruct (M j) as [r'|] eqn:Ej; [|discriminate]. injection X as X. eapply below_kid; [exact IH|exact Ej|congruence].
Qed.
Lemma retext_kids d d' p v : wf d -> has d p -> retext d d' p v -> forall k, option_map r_kids (lk d k) = option_map r_kids (lk d' k).
Proof.
  intros H Hp (W & _ & _ & _ & T & L) k. destruct (Nat.eq_dec k (eid p)) as [->|N]; [|now rewrite (L k N)]. pose proof (look_self _ _ (wf_unique d H) Hp) as E1. pose proof (look_self _ _ (wf_unique d' W) T) as E2. destruct p as [i g a x k]. cbn [eid set_text] in *. rewrite E1, E2. reflexivity.
Qed.
Lemma retext_doc d d' p v : wf d -> has d p -> retext d d' p v -> forall j, in_doc d' j <-> in_doc d j.
Proof.
  intros H Hp Hr j. pose proof (retext_kids d d' p v H Hp Hr) as K. destruct Hr as (_ & _ & _ & R & _). unfold in_doc. rewrite R. split; intros (r & E & B); exists r; (split; [exact E|]); revert B; apply below_kids; intros k; rewrite K; reflexivity.
Qed.
Lemma create_bin R C d r rt g m e w v cur : wf d -> skeleton d r rt g m e -> text_at d e v -> uuid_of_text v = Ok w -> (forall x, In x (doc_elems d) -> ~ is_bin (d_forest d) w x) ->
  uuid_ok (uuid1 C) -> encode_time (v4 d) (now C) = Ok cur ->
  exists b d1 d2, create_or_get_recyclebin_group R C d = (Ok (eid b), d2) /\ wf d1 /\ wf d2 /\ added d d1 g (eid b) /\ has d1 b /\ has d2 b /\ etag b = $"Group" /\ first_text $"Name" b = Some $"Recycle Bin" /\ first_text $"UUID" b = Some (uuid_text (uuid1 C)) /\
    kids_of $"Entry" b = [] /\ kids_of $"Group" b = [] /\ (forall y, In y (everything b) -> y = b \/ kids_of $"UUID" y = []) /\ (exists k, kids_of $"UUID" b = [k]) /\
    only [e] d1 d2 /\ (forall q, lk d1 e = Some q -> lk d2 e = Some (with_text (Some (uuid_text (uuid1 C))) q)) /\ (forall j, in_doc d2 j <-> in_doc d j \/ In j (ids b)) /\ skeleton d1 r rt g m e /\ skeleton d2 r rt g m e /\ (forall k, lk d1 k = None -> lk d2 k = None).
Proof.
  intros H S Et Ew Hno HU Ec. destruct (skel_bin R d _ _ _ _ _ w v H S Et Ew) as (o & Eo & Ho). assert (o = None) as -> by (destruct o as [b|]; [exfalso; apply first_in in Ho as [I P]; exact (Hno b I P)|reflexivity]).
  destruct (skel_in_doc d _ _ _ _ _ H S) as [Dg De]. destruct (skeleton_facts d _ _ _ _ _ H S) as (T1 & T2 & T3 & T4 & _). pose proof (sk_tag _ _ _ _ _ _ S) as T0.
  destruct (add_group_claim C d g (Some $"Recycle Bin") None None cur H Dg HU) as (b & t & d1 & E1 & W1 & A1 & H1 & <- & D1 & Tg & N1 & _ & U1 & _ & _ & _ & _ & _ & _ & K1 & K2 & K3 & k0 & K4); [exists $"Recycle Bin"; split; reflexivity|exact I|exact I|exact Ec|].
  assert (Ng : ~ In g [r; rt; m]). { intros [X|[X|[X|[]]]]; subst; match goal with T : is_tag _ $"Group" ?a, X : is_tag _ _ ?a |- _ => pose proof (tag_inj _ _ _ _ T X) as C'; discriminate C' end. }
  assert (S1 : skeleton d1 r rt g m e). { apply (skeleton_added d d1 r rt g m e g (eid t) H S A1); [destruct T2 as (q & Eq & _); eauto|exact Ng]. }
  destruct (skel_meta R d1 _ _ _ _ _ W1 S1) as (E & EE & Ee & HE).
  destruct (set_text_retext d1 E (Some (uuid_text (uuid1 C))) W1 HE (uuid_legal _ HU)) as (d2 & E2 & R2). pose proof (retext_texts _ _ _ _ R2 HE W1) as O2.
  assert (Hb2 : has d2 t). { apply (retext_keeps d1 d2 E _ t W1 R2 H1). intros I. apply (below_ids _ t _ (wf_unique _ W1) H1) in I. rewrite Ee in I. apply (above_bin d1 _ _ _ _ _ _ W1 S1) in I. pose proof (item_fixed d1 _ _ _ _ _ t W1 S1 H1 (or_intror Tg)) as X. cbn [In] in X. intuition. }
  assert (W2 : wf d2) by apply R2. exists t, d1, d2. split.
  { unfold create_or_get_recyclebin_group. rewrite (mbind_ok _ _ _ _ _ Eo). cbn [option_map]. rewrite (mbind_ok _ _ _ _ _ (skel_root R d _ _ _ _ _ H S)), (mbind_ok _ _ _ _ _ E1), (mbind_ok _ _ _ _ _ EE).
    rewrite (mbind_ok _ _ _ _ _ (get_uuid_run d1 t (uuid1 C) W1 H1 ltac:(unfold uuid_is; rewrite U1; apply uuid_text_roundtrip, HU))), (mbind_ok _ _ _ _ _ E2). reflexivity. }
  split; [exact W1|]. split; [exact W2|]. split; [exact A1|]. split; [exact H1|]. split; [exact Hb2|]. split; [exact Tg|]. split; [exact N1|]. split; [exact U1|]. split; [exact K1|]. split; [exact K2|]. split; [exact K3|]. split; [exists k0; exact K4|].
  split; [pose proof (retext_only _ _ _ _ R2) as X; rewrite Ee in X; exact X|]. split.
  { intros q Eq. subst e. rewrite (look_self _ E (wf_unique _ W1) HE) in Eq. injection Eq as <-. pose proof R2 as (_ & _ & _ & _ & HE2 & _). pose proof (look_self _ _ (wf_unique _ W2) HE2) as X. destruct E; exact X. }
  split; [intros j; rewrite (retext_doc d1 d2 E _ W1 HE R2 j); apply D1|]. split; [exact S1|]. split; [apply (skeleton_texts d1 d2 [E] r rt g m e W1 S1); [intros p [<-|[]]; exact HE|exact O2]|].
  intros k Hk. destruct R2 as (_ & _ & _ & _ & _ & L). rewrite L; [exact Hk|]. intros ->. rewrite (look_self _ E (wf_unique _ W1) HE) in Hk. discriminate.
Qed.
Lemma Some_inj {A} (x y : A) : Some x = Some y -> x = y. Proof. congruence. Qed.
Lemma everything_has d t u : has d t -> In u (everything t) -> has d u.
Proof. intros Ht Hu. unfold elements in *. apply in_flat_map in Ht as (r & Hr & Ht). apply in_flat_map. exists r. split; [exact Hr|]. now apply (everything_sub r t). Qed.
Lemma skel_group_visible d r rt g m e : wf d -> skeleton d r rt g m e -> exists G, has d G /\ eid G = g /\ In G (visible (d_forest d)) /\ etag G = $"Group".
Proof.
  intros H S. destruct (skeleton_elems d r rt g m e H S) as (Rr & F & Rt & G & M & E & EF & <- & TR & KR & <- & KG & <- & _ & _ & _ & _ & HR & HRt & HG & _). exists G. split; [exact HG|]. split; [reflexivity|].
  assert (I1 : In Rt (kids_of $"Root" Rr)) by (rewrite KR; now left). assert (I2 : In G (kids_of $"Group" Rt)) by (rewrite KG; now left). apply kids_of_in in I1 as [I1 X1], I2 as [I2 X2]. split; [|exact X2].
  apply (kid_visible _ Rt); [apply H|exact HRt| |rewrite X1; discriminate|exact I2]. apply (kid_visible _ Rr); [apply H|exact HR| |rewrite TR; discriminate|exact I1]. unfold visible. rewrite EF. cbn [flat_map]. apply in_or_app. left. destruct Rr. cbn [unarchived]. now left.
Qed.
(** The only element carrying the recorded UUID is the bin. *)
Lemma bin_unique d w b : wf d -> has d b -> in_doc d (eid b) -> is_bin (d_forest d) w b -> (forall x, In x (doc_elems d) -> is_bin (d_forest d) w x -> eid x = eid b) -> first_such (is_bin (d_forest d) w) (doc_elems d) b.
Proof.
  intros H Hb Db Pb U. apply (doc_elems_doc d b H Hb) in Db. destruct (in_split _ _ Db) as (l1 & l2 & E). 
  assert (N : NoDup (map eid (doc_elems d))). { pose proof (wf_unique d H) as X. unfold unique in X. unfold doc_elems. destruct (d_forest d) as [|Rr F]; [constructor|]. unfold elements in X. cbn [flat_map] in X. rewrite map_app in X. now apply NoDup_app_l in X. }
  exists l1, l2. split; [exact E|]. split; [exact Pb|]. intros y Hy Py. assert (In y (doc_elems d)) as Iy by (rewrite E; apply in_or_app; now left). specialize (U y Iy Py). rewrite E, map_app in N. cbn [map] in N. apply NoDup_remove_2 in N. apply N, in_or_app. left. rewrite <- U. now apply in_map.
Qed.
Lemma trash_creates R C d r rt g m e t u w v cur : wf d -> skeleton d r rt g m e -> has d t -> item t -> in_doc d (eid t) -> uuid_is t u -> not_root d g u -> text_at d e v -> uuid_of_text v = Ok w ->
  (forall x, In x (doc_elems d) -> ~ is_bin (d_forest d) w x) -> uuid_ok (uuid1 C) -> encode_time (v4 d) (now C) = Ok cur ->
  exists b d1 d2 d', trash R C (eid t) d = (Ok tt, d') /\ wf d' /\ added d d1 g (eid b) /\ etag b = $"Group" /\ first_text $"Name" b = Some $"Recycle Bin" /\ first_text $"UUID" b = Some (uuid_text (uuid1 C)) /\ kids_of $"Entry" b = [] /\ kids_of $"Group" b = [] /\ has d1 b /\
    only [e] d1 d2 /\ relocated d2 d' (eid b) (eid t) /\ has d' t /\ (forall j, in_doc d' j <-> in_doc d j \/ In j (ids b)) /\ skeleton d' r rt g m e /\ text_at d' e (Some (uuid_text (uuid1 C))) /\
    ((forall x, has d x -> ~ has_uuid (uuid1 C) x) -> recyclebin_group R d' = (Ok (Some (eid b)), d')).
Proof.
  intros H S Ht It Dt Eu Hr Et Ew Hno HU Ec. destruct (can_move_run R d _ _ _ _ _ t u w v H S Ht Eu Hr Et Ew) as (o & _ & Ho & Em). assert (o = None) as -> by (destruct o as [b|]; [exfalso; apply first_in in Ho as [I P]; exact (Hno b I P)|reflexivity]).
  destruct (create_bin R C d r rt g m e w v cur H S Et Ew Hno HU Ec) as (b & d1 & d2 & E2 & W1 & W2 & A & Hb1 & Hb2 & Tb & Nb & Ub & Kb1 & Kb2 & Kb3 & _ & O2 & Le & D2 & S1 & S2 & L2).
  assert (Ntg : eid t <> g). { destruct Hr as (q & z & Hq & Eg & Eq & Ne). intros C'. assert (t = q) as -> by (apply (unique_inj (d_forest d)); auto; [apply H|congruence]). unfold uuid_is in *. rewrite Eu in Eq. injection Eq as ->. unfold el_eq in Ne. now rewrite N.eqb_refl in Ne. }
  pose proof (item_fixed d _ _ _ _ _ t H S Ht It) as Nt. cbn [In] in Nt. pose proof (item_fixed d1 _ _ _ _ _ b W1 S1 Hb1 (or_intror Tb)) as Nbf. cbn [In] in Nbf. pose proof A as (A1 & O1 & A2). pose proof O1 as (_ & _ & _ & _ & _ & LO1). pose proof O2 as (_ & _ & _ & _ & _ & LO2).
  assert (Tb0 : eid t <> eid b) by (intros X; rewrite <- X, (look_self _ t (wf_unique _ H) Ht) in A1; discriminate).
  assert (Gt : ~ In g (ids t)). { intros I. apply (below_ids _ t _ (wf_unique _ H) Ht) in I. apply (above_group d _ _ _ _ _ _ H S) in I. intuition. }
  assert (Ge : ~ In e (ids t)). { intros I. apply (below_ids _ t _ (wf_unique _ H) Ht) in I. apply (above_bin d _ _ _ _ _ _ H S) in I. intuition. }
  assert (Lt : forall j, In j (ids t) -> exists q, lk d j = Some q). { intros j Hj. apply (below_look (d_forest d) (eid t) j (wf_unique _ H)). now apply below_ids; [apply H| |]. }
  assert (Ht1 : has d1 t). { apply (same_tree (d_forest d)); auto using wf_unique. intros j Hj. destruct (Lt j Hj) as (q & Eq). rewrite Eq. apply LO1; [exact Eq|]. intros [<-|[]]. contradiction. }
  assert (Ht2 : has d2 t). { apply (same_tree (d_forest d1)); auto using wf_unique. intros j Hj. destruct (Lt j Hj) as (q & Eq). assert (Eq1 : lk d1 j = Some q) by (apply LO1; [exact Eq|intros [<-|[]]; contradiction]). rewrite Eq1. apply LO2; [exact Eq1|]. intros [<-|[]]. contradiction. }
  assert (Gk : is_kid d2 g (eid b)). { destruct (skeleton_facts d _ _ _ _ _ H S) as (_ & (qg & Eg & _) & _). pose proof (A2 _ Eg) as X. exists (with_kids (r_kids qg ++ [eid b]) qg). split; [apply LO2; [exact X|]|cbn; apply in_or_app; right; now left].
    intros [<-|[]]. destruct (skeleton_facts d _ _ _ _ _ H S) as (_ & Y1 & _ & Y2 & _). pose proof (tag_inj _ _ _ _ Y1 Y2) as C'. discriminate C'. }
  assert (Nbel : ~ below (lk d2) (eid t) (eid b)). { intros B. destruct (above d2 g (eid b) (eid t) W2 Gk B) as [X|B1]; [auto|]. apply (above_group d2 _ _ _ _ _ _ W2 S2) in B1. intuition. }
  assert (Db : in_doc d2 (eid b)) by (apply D2; right; rewrite ids_everything; apply in_map; rewrite everything_eq; now left).
  destruct (move_claim d2 (eid b) t W2 Db Ht2 Nbel) as (d' & E' & W' & L & T' & _ & D' & L'); [rewrite (sk_top _ _ _ _ _ _ S2); intros C'; injection C' as C'; intuition|].
  assert (S' : skeleton d' r rt g m e) by (apply (skeleton_relocated d2 d' r rt g m e (eid b) (eid t) W2 S2 L); cbn [In]; intuition).
  assert (Te : text_at d' e (Some (uuid_text (uuid1 C)))).
  { destruct (skeleton_facts d1 _ _ _ _ _ W1 S1) as (_ & _ & _ & (qe & Ee & _) & _). specialize (Le qe Ee). destruct L as (_ & _ & _ & _ & L). eexists. split; [apply L, Le|]. destruct (e =? eid b)%nat; reflexivity. }
  assert (DD : forall j, in_doc d' j <-> in_doc d j \/ In j (ids b)).
  { intros j. rewrite D', <- D2. split; [|tauto]. intros [X|X]; [exact X|]. apply D2. left. apply (below_ids _ t _ (wf_unique _ W2) Ht2), (below_ids _ t _ (wf_unique _ H) Ht) in X. destruct Dt as (r0 & E0 & B0). exists r0. split; [exact E0|]. eapply below_trans; eassumption. }
  exists b, d1, d2, d'. split; [unfold trash; rewrite (mbind_ok _ _ _ _ _ Em), (mbind_ok _ _ _ _ _ E2); exact E'|]. repeat (split; [assumption|]).
  intros Fresh. assert (Hrow : lk d' (eid b) = Some (with_kids (less (eid t) (map eid (ekids b)) ++ [eid t]) (row_of b))). { destruct L as (_ & _ & _ & _ & L). rewrite (L _ _ (look_self _ b (wf_unique _ W2) Hb2)), Nat.eqb_refl. reflexivity. }
  destruct (look_has d' _ _ W' Hrow) as (B & HB & EB & RB). destruct (skel_bin R d' _ _ _ _ _ (uuid1 C) _ W' S' Te (uuid_text_roundtrip _ HU)) as (o & Eo & Po). rewrite Eo.
  assert (PB : is_bin (d_forest d') (uuid1 C) B).
  { split; [|split].
    - change (r_tag (row_of B) = $"Group"). now rewrite RB.
    - destruct (skel_group_visible d' _ _ _ _ _ W' S') as (G & HG & EG & VG & TG). apply (kid_visible _ G); [apply W'|exact HG|exact VG|rewrite TG; discriminate|]. destruct Gk as (qg & Eqg & Kg). pose proof L as (_ & _ & _ & _ & L1). specialize (L1 _ _ Eqg). rewrite <- EG in L1 at 1. rewrite (look_self _ G (wf_unique _ W') HG) in L1. apply Some_inj in L1.
      assert (In (eid b) (map eid (ekids G))). { change (map eid (ekids G)) with (r_kids (row_of G)). rewrite L1. assert (I : In (eid b) (less (eid t) (r_kids qg))) by (unfold less; apply filter_In; split; [exact Kg|apply negb_true_iff, Nat.eqb_neq; auto]). destruct (g =? eid b)%nat; [cbn; apply in_or_app; now left|exact I]. }
      apply in_map_iff in H0 as (B' & EB' & HB'). assert (B' = B) as <- by (apply (unique_inj (d_forest d')); [apply W'|now apply (has_kid d' G)|exact HB|congruence]). exact HB'.
    - destruct (kids_of $"UUID" b) as [|k0 l0] eqn:Ek; [unfold first_text, find1 in Ub; rewrite Ek in Ub; discriminate|]. assert (I0 : In k0 (kids_of $"UUID" b)) by (rewrite Ek; now left). apply kids_of_in in I0 as [I0 T0]. assert (X0 : etext k0 = Some (uuid_text (uuid1 C))) by (unfold first_text, find1 in Ub; now rewrite Ek in Ub).
      assert (Hk2 : has d2 k0) by now apply (has_kid d2 b). assert (Nk : eid k0 <> eid t). { intros X. assert (k0 = t) as -> by (apply (unique_inj (d_forest d2)); auto; apply W2). destruct It as [Y|Y]; rewrite Y in T0; discriminate T0. }
      assert (Rk : exists q, lk d' (eid k0) = Some q /\ r_tag q = $"UUID" /\ r_text q = Some (uuid_text (uuid1 C))). { destruct L as (_ & _ & _ & _ & L1). eexists. split; [apply L1, (look_self _ k0 (wf_unique _ W2) Hk2)|]. destruct (eid k0 =? eid b)%nat; split; [exact T0|exact X0|exact T0|exact X0]. }
      destruct Rk as (q & Eq & Tq & Xq). destruct (look_has d' _ _ W' Eq) as (k & Hk & Ek' & Rk'). subst q. exists k. split; [|split; [exact Tq|exact Xq]].
      assert (In (eid k) (map eid (ekids B))). { change (map eid (ekids B)) with (r_kids (row_of B)). rewrite RB, Ek'. cbn. apply in_or_app. left. unfold less. apply filter_In. split; [now apply in_map|]. apply negb_true_iff, Nat.eqb_neq, Nk. }
      apply in_map_iff in H0 as (k' & Ek'' & Hk''). assert (k' = k) as <- by (apply (unique_inj (d_forest d')); [apply W'|now apply (has_kid d' B)|exact Hk|congruence]). exact Hk''. }
  assert (Un : forall x, In x (doc_elems d') -> is_bin (d_forest d') (uuid1 C) x -> eid x = eid B).
  { intros x Ix (Tx & _ & (k & Hk & Tk & Xk)). pose proof (doc_elems_has d' x Ix) as Hx. apply (doc_elems_doc d' x W' Hx), DD in Ix.
    destruct (Nat.eq_dec (eid x) (eid B)) as [Ex|Nx]; [exact Ex|exfalso]. rewrite EB in Nx. pose proof (has_kid d' x k Hx Hk) as Hkd. pose proof (look_self _ x (wf_unique _ W') Hx) as Rx. pose proof (look_self _ k (wf_unique _ W') Hkd) as Rk. pose proof L as (_ & _ & _ & _ & L1).
    assert (Kx2 : exists q qk, lk d2 (eid x) = Some q /\ In (eid k) (r_kids q) /\ lk d2 (eid k) = Some qk /\ r_tag qk = $"UUID" /\ r_text qk = Some (uuid_text (uuid1 C))).
    { destruct (lk d2 (eid x)) as [q|] eqn:Eq; [|rewrite (L' _ Eq) in Rx; discriminate]. destruct (lk d2 (eid k)) as [qk|] eqn:Eqk; [|rewrite (L' _ Eqk) in Rk; discriminate]. exists q, qk. split; [reflexivity|].
      rewrite (L1 _ _ Eq) in Rx. apply Nat.eqb_neq in Nx. rewrite Nx in Rx. apply Some_inj in Rx. rewrite (L1 _ _ Eqk) in Rk. apply Some_inj in Rk. split; [|split; [reflexivity|]].
      - assert (I : In (eid k) (r_kids (row_of x))) by (cbn; now apply in_map). rewrite <- Rx in I. cbn in I. unfold less in I. apply filter_In in I. apply I.
      - assert (G1 : r_tag (row_of k) = $"UUID") by exact Tk. assert (G2 : r_text (row_of k) = Some (uuid_text (uuid1 C))) by exact Xk. rewrite <- Rk in G1, G2. split; [exact G1|exact G2]. }
    destruct Kx2 as (q & qk & Eq & Ik & Eqk & Tqk & Xqk). destruct Ix as [Ix|Ix].
    - destruct (in_doc_has d (eid x) H Ix) as (x0 & Hx0 & Ex0). apply (Fresh x0 Hx0). pose proof (look_self _ x0 (wf_unique _ H) Hx0) as R0. rewrite Ex0 in R0.
      assert (Ne : eid x <> e). { intros X. destruct (skeleton_facts d' _ _ _ _ _ W' S') as (_ & _ & _ & (q1 & E1 & T1) & _). rewrite <- X, (look_self _ x (wf_unique _ W') Hx) in E1. injection E1 as <-. cbn in T1. rewrite Tx in T1. discriminate T1. }
      assert (Nke : eid k <> e). { intros X. destruct (skeleton_facts d2 _ _ _ _ _ W2 S2) as (_ & _ & _ & (q1 & E1 & T1) & _). rewrite <- X, Eqk in E1. injection E1 as <-. rewrite Tqk in T1. discriminate T1. }
      assert (Nkb : eid k <> eid b). { intros X. rewrite X, (look_self _ b (wf_unique _ W2) Hb2) in Eqk. injection Eqk as <-. cbn in Tqk. rewrite Tb in Tqk. discriminate Tqk. }
      assert (Ik0 : In (eid k) (map eid (ekids x0))).
      { destruct (Nat.eq_dec (eid x) g) as [Xg|Xg].
        - rewrite Xg in *. pose proof (A2 _ R0) as R1. assert (R2 : lk d2 g = Some (with_kids (r_kids (row_of x0) ++ [eid b]) (row_of x0))) by (apply LO2; [exact R1|intros [X|[]]; congruence]). rewrite R2 in Eq. injection Eq as <-. cbn in Ik. apply in_app_or in Ik as [Ik|[Ik|[]]]; [exact Ik|congruence].
        - assert (R1 : lk d1 (eid x) = Some (row_of x0)) by (apply LO1; [exact R0|intros [X|[]]; congruence]). assert (R2 : lk d2 (eid x) = Some (row_of x0)) by (apply LO2; [exact R1|intros [X|[]]; congruence]). rewrite R2 in Eq. injection Eq as <-. exact Ik. }
      apply in_map_iff in Ik0 as (k0 & Ek0 & Ik0). exists k0. split; [exact Ik0|]. pose proof (look_self _ k0 (wf_unique _ H) (has_kid d x0 k0 Hx0 Ik0)) as K0. rewrite Ek0 in K0.
      assert (Nkg : eid k <> g). { intros X. destruct (skeleton_facts d2 _ _ _ _ _ W2 S2) as (_ & (q1 & E1 & T1) & _). rewrite <- X, Eqk in E1. injection E1 as <-. rewrite Tqk in T1. discriminate T1. }
      assert (K1 : lk d1 (eid k) = Some (row_of k0)) by (apply LO1; [exact K0|intros [X|[]]; congruence]). assert (K2 : lk d2 (eid k) = Some (row_of k0)) by (apply LO2; [exact K1|intros [X|[]]; congruence]). rewrite K2 in Eqk. injection Eqk as <-. split; [exact Tqk|exact Xqk].
    - rewrite ids_everything in Ix. apply in_map_iff in Ix as (y & Ey & Iy). destruct (Kb3 y Iy) as [->|Ky]; [congruence|]. assert (Hy : has d2 y) by now apply (everything_has d2 b). pose proof (look_self _ y (wf_unique _ W2) Hy) as Ry. rewrite Ey, Eq in Ry. injection Ry as ->. cbn in Ik. apply in_map_iff in Ik as (k0 & Ek0 & Ik0).
      assert (Hk0 : has d2 k0) by now apply (has_kid d2 y). pose proof (look_self _ k0 (wf_unique _ W2) Hk0) as Rk0. rewrite Ek0, Eqk in Rk0. injection Rk0 as ->. assert (In k0 (kids_of $"UUID" y)) by (apply filter_In; split; [exact Ik0|apply str_eqb_eq; exact Tqk]). rewrite Ky in H0. destruct H0. }
  pose proof (bin_unique d' (uuid1 C) B W' HB ltac:(rewrite EB; apply DD; right; rewrite ids_everything; apply in_map; rewrite everything_eq; now left) PB Un) as FB.
  destruct o as [B'|]; [rewrite (first_same _ _ _ _ Po FB); cbn [option_map]; now rewrite EB|]. exfalso. destruct (first_in _ _ _ FB) as [IB _]. exact (Po B IB PB).
Qed.
