(** Several calls of trash_entry and trash_group, one after another. *)
From Coq Require Import ZifyBool ZifyNat ZifyN.
From Verif Require Import Base PyStr Xml Tree XPath Time Db XPath_parse XPath_facts XPath_eval FindSpec Find_facts Find_path Find_more ApiSpec StructSpec Heap Uuid Api Prim Api_xpath Api_fields Api_custom Api_sub Api_claims Struct Struct_add Struct_find Struct_bin Struct_trash BinSpec Bin.

(** *** Specification *)
(** The element [i] carries the UUID [u]; reading its UUID gives [u]. *)
Definition bears (d : db) (u : bytes) (i : nat) : Prop := exists t, has_elem d t /\ eid t = i /\ has_uuid u t.
Definition named (d : db) (u : bytes) (i : nat) : Prop := exists t, has_elem d t /\ eid t = i /\ uuid_is t u.
(** [b] is the recycle bin: the one group of the document with the recorded UUID, outside histories. *)
Record trashcan (d : db) (r rt g m e : nat) (v : option str) (w : bytes) (b : nat) : Prop := Can {
  tc_wf : wf d;
  tc_skel : skeleton d r rt g m e;
  tc_text : text_at d e v;
  tc_uuid : uuid_of_text v = Ok w;
  tc_tag : is_tag (look (d_forest d)) $"Group" b;
  tc_doc : in_doc d b;
  tc_live : ~ in_history d b;
  tc_bears : bears d w b;
  tc_one : forall i, in_doc d i -> is_tag (look (d_forest d)) $"Group" i -> bears d w i -> i = b }.
(** An entry or group that may be sent to the bin: not the root group, not the bin, not around the bin. *)
Definition disposable (d : db) (g b x : nat) : Prop :=
  in_doc d x /\ (is_tag (look (d_forest d)) $"Entry" x \/ is_tag (look (d_forest d)) $"Group" x) /\ ~ below (look (d_forest d)) x b /\
  exists u z, named d u x /\ named d z g /\ el_eq (IdElement u) (IdElement z) = false /\ ~ bears d u b.
(** The calls, each at its own time. *)
Fixpoint trash_all (R : regex) (l : list (clock * nat)) : M unit :=
  match l with [] => ret tt | (C, x) :: l => do _ <- trash R C x; trash_all R l end.
Definition inb (l : list nat) (x : nat) : bool := existsb (Nat.eqb x) l.
(** The elements [ts] leave their places and stand, in this order, at the end of [b]. *)
Definition gathered (d d' : db) (b : nat) (ts : list nat) : Prop :=
  d_major d' = d_major d /\ d_minor d' = d_minor d /\ d_bins d' = d_bins d /\
  hd_error (roots (d_forest d')) = hd_error (roots (d_forest d)) /\
  forall j r, look (d_forest d) j = Some r ->
    look (d_forest d') j = Some (with_kids (filter (fun k => negb (inb ts k)) (r_kids r) ++ (if (j =? b)%nat then ts else [])) r).

(** *** UUIDs of rows *)
Definition uuid_texts (d : db) (i : nat) : list (option str) :=
  map (fun k => match lk d k with Some r => r_text r | None => None end) (kids_tagged (lk d) $"UUID" i).
Lemma uuid_texts_of d t : wf d -> has d t -> uuid_texts d (eid t) = map etext (kids_of $"UUID" t).
Proof.
  intros H Ht. unfold uuid_texts. rewrite (kids_tagged_of d t _ H Ht), map_map. apply map_ext_in. intros k Hk. apply kids_of_in in Hk as [Hk _].
  rewrite (look_self _ k (wf_unique d H)) by now apply (has_kid d t). reflexivity.
Qed.
Lemma bears_iff d u i : wf d -> (bears d u i <-> (exists r, lk d i = Some r) /\ In (Some (uuid_text u)) (uuid_texts d i)).
Proof.
  intros H. split.
  - intros (t & Ht & <- & (k & Hk & Tk & Xk)). split; [exists (row_of t); now apply look_self; [apply H|]|]. rewrite (uuid_texts_of d t H Ht). rewrite <- Xk. apply in_map. apply filter_In. split; [exact Hk|apply str_eqb_eq; exact Tk].
  - intros ((r & Er) & I). destruct (look_has d i r H Er) as (t & Ht & <- & _). rewrite (uuid_texts_of d t H Ht) in I. apply in_map_iff in I as (k & Xk & Hk). apply kids_of_in in Hk as [Hk Tk]. exists t. split; [exact Ht|]. split; [reflexivity|]. exists k. auto.
Qed.
Lemma first_text_hd T t : first_text T t = match map etext (kids_of T t) with x :: _ => x | [] => None end.
Proof. unfold first_text, find1. destruct (kids_of T t); reflexivity. Qed.
Lemma named_iff d u i : wf d -> (named d u i <-> (exists r, lk d i = Some r) /\ uuid_of_text (match uuid_texts d i with x :: _ => x | [] => None end) = Ok u).
Proof.
  intros H. split.
  - intros (t & Ht & <- & E). split; [exists (row_of t); now apply look_self; [apply H|]|]. rewrite (uuid_texts_of d t H Ht). unfold uuid_is in E. now rewrite first_text_hd in E.
  - intros ((r & Er) & E). destruct (look_has d i r H Er) as (t & Ht & <- & _). rewrite (uuid_texts_of d t H Ht) in E. exists t. split; [exact Ht|]. split; [reflexivity|]. unfold uuid_is. now rewrite first_text_hd.
Qed.

(** *** One relocation into the bin *)
Section Step.
Context (d d' : db) (b x : nat).
Context (H : wf d) (W : wf d') (L : relocated d d' b x) (L0 : forall j, lk d j = None -> lk d' j = None) (Hx : exists r, lk d x = Some r) (Hb : exists r, lk d b = Some r) (Nb : ~ below (lk d) x b).
Context (Tx : is_tag (lk d) $"Entry" x \/ is_tag (lk d) $"Group" x).
Lemma step_rows j : lk d' j = link_rows (cut_rows (lk d) x) b x j.
Proof.
  destruct L as (_ & _ & _ & _ & LL). unfold link_rows, cut_rows. destruct (lk d j) as [r|] eqn:E; [|now rewrite (L0 j E)]. rewrite (LL j r E). cbn [option_map]. destruct (j =? b)%nat; reflexivity.
Qed.
Lemma step_look j : (exists r, lk d j = Some r) <-> (exists r, lk d' j = Some r).
Proof. rewrite step_rows. unfold link_rows, cut_rows. destruct (lk d j) as [q|]; cbn [option_map]; split; intros (r & E); try discriminate; eauto. Qed.
Lemma step_tag T j : is_tag (lk d) T j <-> is_tag (lk d') T j.
Proof.
  unfold is_tag. rewrite step_rows. unfold link_rows, cut_rows. destruct (lk d j) as [r|]; cbn [option_map].
  - split; intros (q & E & <-); apply Some_inj in E; subst q; eexists; (split; [reflexivity|]); destruct (j =? b)%nat; reflexivity.
  - split; intros (q & E & _); discriminate.
Qed.
Lemma step_below a j : below (lk d') a j <-> (below (lk d) a j /\ (below (lk d) x j -> below (lk d) x a)) \/ (below (lk d) a b /\ below (lk d) x j).
Proof.
  rewrite (below_same _ _ a j step_rows), link_below.
  - rewrite !cut_below by exact H. assert (below (lk d) x x) by (destruct Hx as (r & E); eapply below_self; exact E). tauto.
  - unfold cut_rows. destruct Hb as (r & ->). cbn. eauto.
  - unfold cut_rows. destruct Hx as (r & ->). cbn. eauto.
Qed.
Lemma step_tagb T j : tagb (lk d') T j = tagb (lk d) T j.
Proof. unfold tagb. rewrite step_rows. unfold link_rows, cut_rows. destruct (lk d j) as [r|]; [|reflexivity]. cbn [option_map]. destruct (j =? b)%nat; reflexivity. Qed.
Lemma step_x_uuid : tagb (lk d) $"UUID" x = false.
Proof. unfold tagb. destruct Tx as [(r & -> & ->)|(r & -> & ->)]; reflexivity. Qed.
Lemma step_texts j : uuid_texts d' j = uuid_texts d j.
Proof.
  unfold uuid_texts. assert (K : kids_tagged (lk d') $"UUID" j = kids_tagged (lk d) $"UUID" j).
  { unfold kids_tagged. rewrite step_rows. unfold link_rows, cut_rows. destruct (lk d j) as [r|]; [|reflexivity]. cbn [option_map].
    assert (G : filter (tagb (lk d') $"UUID") (less x (r_kids r)) = filter (tagb (lk d) $"UUID") (r_kids r)).
    { unfold less. induction (r_kids r) as [|k l IH]; [reflexivity|]. cbn [filter]. destruct (Nat.eqb_spec k x) as [->|N]; cbn [negb filter]; [rewrite step_x_uuid; exact IH|]. rewrite step_tagb, IH. reflexivity. }
    destruct (j =? b)%nat; cbn [r_kids with_kids]; [|exact G]. rewrite filter_app, G. cbn [filter]. rewrite step_tagb, step_x_uuid. apply app_nil_r. }
  rewrite K. apply map_ext. intros k. rewrite step_rows. unfold link_rows, cut_rows. destruct (lk d k) as [r|]; [|reflexivity]. cbn [option_map]. destruct (k =? b)%nat; reflexivity.
Qed.
Lemma step_bears u i : bears d' u i <-> bears d u i.
Proof. rewrite (bears_iff d u i H), (bears_iff d' u i W), step_texts, <- step_look. reflexivity. Qed.
Lemma step_named u i : named d' u i <-> named d u i.
Proof. rewrite (named_iff d u i H), (named_iff d' u i W), step_texts, <- step_look. reflexivity. Qed.
Lemma step_bin_below a : below (lk d') a b -> below (lk d) a b.
Proof. intros B. apply step_below in B. tauto. Qed.
End Step.

Lemma can_first d r rt g m e v w b : trashcan d r rt g m e v w b -> exists B, eid B = b /\ has d B /\ first_such (is_bin (d_forest d) w) (doc_elems d) B.
Proof.
  intros K. pose proof (tc_wf _ _ _ _ _ _ _ _ _ K) as H. destruct (tc_bears _ _ _ _ _ _ _ _ _ K) as (B & HB & E & U). exists B. split; [exact E|]. split; [exact HB|]. subst b.
  apply bin_unique; auto; [apply K| |].
  - split; [|split; [|exact U]]; [|apply (visible_live d B H HB); apply K]. destruct (tc_tag _ _ _ _ _ _ _ _ _ K) as (q & Eq & Tq). rewrite (look_self _ B (wf_unique _ H) HB) in Eq. apply Some_inj in Eq. subst q. exact Tq.
  - intros y Iy (Ty & _ & Uy). pose proof (doc_elems_has d y Iy) as Hy. apply (tc_one _ _ _ _ _ _ _ _ _ K); [now apply doc_elems_doc|exists (row_of y); split; [apply look_self; [apply H|exact Hy]|exact Ty]|exists y; auto].
Qed.

Lemma trash_step R C d r rt g m e v w b x : trashcan d r rt g m e v w b -> disposable d g b x ->
  exists d', trash R C x d = (Ok tt, d') /\ relocated d d' b x /\ trashcan d' r rt g m e v w b /\ (forall j, in_doc d' j <-> in_doc d j) /\ (forall j, lk d j = None -> lk d' j = None) /\
    (forall y, disposable d g b y -> disposable d' g b y).
Proof.
  intros K (Dx & Tx & Nx & u & z & (t & Ht & <- & Ut) & (q & Hq & Eg & Uq) & Ne & Nu). pose proof (tc_wf _ _ _ _ _ _ _ _ _ K) as H. pose proof (tc_skel _ _ _ _ _ _ _ _ _ K) as S.
  destruct (can_first d r rt g m e v w b K) as (B & EB & HB & FB). subst b. destruct (first_in _ _ _ FB) as [IB (TB & _ & _)].
  assert (It : item t). { unfold item. destruct Tx as [(q0 & Eq & Tq)|(q0 & Eq & Tq)]; rewrite (look_self _ t (wf_unique _ H) Ht) in Eq; apply Some_inj in Eq; subst q0; cbn in Tq; auto. }
  assert (Nr : not_root d g u) by (exists q, z; auto). assert (Nu' : ~ has_uuid u B) by (intros X; apply Nu; exists B; auto).
  pose proof (trash_ready R C d _ _ _ _ _ t u w v B H S Ht Ut Nr (tc_text _ _ _ _ _ _ _ _ _ K) (tc_uuid _ _ _ _ _ _ _ _ _ K) FB Nu') as E.
  pose proof (item_fixed d _ _ _ _ _ t H S Ht It) as Nt. pose proof (item_fixed d _ _ _ _ _ B H S HB (or_intror TB)) as NB. cbn [In] in Nt, NB.
  assert (Ntg : eid t <> g). { intros C'. assert (t = q) as -> by (apply (unique_inj (d_forest d)); auto; [apply H|congruence]). unfold uuid_is in *. rewrite Ut in Uq. injection Uq as ->. unfold el_eq in Ne. now rewrite N.eqb_refl in Ne. }
  destruct (move_claim d (eid B) t H) as (d' & E' & W & L & T & _ & D & L0); auto; [apply K|intros C'; rewrite (sk_top _ _ _ _ _ _ S) in C'; injection C' as C'; apply Nt; now left|]. rewrite E' in E.
  assert (D' : forall j, in_doc d' j <-> in_doc d j). { intros j. rewrite D. split; [|tauto]. intros [X|X]; [exact X|]. destruct Dx as (a & Ea & Ba). exists a. split; [exact Ea|]. now apply (below_trans _ _ (eid t)). }
  assert (Lx : exists q, lk d (eid t) = Some q) by (exists (row_of t); now apply look_self; [apply H|]). assert (Lb : exists q, lk d (eid B) = Some q) by (exists (row_of B); now apply look_self; [apply H|]).
  pose proof (step_bears d d' (eid B) (eid t) H W L L0 Tx) as SB. pose proof (step_named d d' (eid B) (eid t) H W L L0 Tx) as SN. pose proof (step_tag d d' (eid B) (eid t) L L0) as ST. pose proof (step_bin_below d d' (eid B) (eid t) H L L0 Lx Lb Nx) as SW.
  exists d'. split; [exact E|]. split; [exact L|]. split; [|split; [exact D'|split; [exact L0|]]].
  - constructor; auto.
    + apply (skeleton_relocated d d' r rt g m e (eid B) (eid t) H S L); cbn [In]; intuition.
    + destruct (tc_text _ _ _ _ _ _ _ _ _ K) as (qe & Ee & Ve). destruct L as (_ & _ & _ & _ & L). eexists. split; [apply L, Ee|]. destruct (e =? eid B)%nat; exact Ve.
    + apply K.
    + apply ST, K.
    + apply D', K.
    + intros (h & Th & Nh & Bh). apply (tc_live _ _ _ _ _ _ _ _ _ K). exists h. split; [now apply ST|]. auto.
    + apply SB, K.
    + intros i Di Ti Ui. apply (tc_one _ _ _ _ _ _ _ _ _ K); [now apply D'|now apply ST|now apply SB].
  - intros y (Dy & Ty & By & uy & zy & U1 & U2 & U3 & U4). split; [now apply D'|]. split; [destruct Ty; [left|right]; now apply ST|]. split; [auto|].
    exists uy, zy. split; [now apply SN|]. split; [now apply SN|]. split; [exact U3|]. rewrite SB. exact U4.
Qed.
Lemma inb_iff l x : inb l x = true <-> In x l.
Proof. unfold inb. rewrite existsb_exists. split; [intros (y & Hy & E); apply Nat.eqb_eq in E; now subst|intros I; exists x; split; [exact I|apply Nat.eqb_refl]]. Qed.
Lemma filter_less ts x l : filter (fun k => negb (inb ts k)) (less x l) = filter (fun k => negb (inb (x :: ts) k)) l.
Proof. unfold less. induction l as [|k l IH]; [reflexivity|]. cbn [filter]. unfold inb at 2. cbn [existsb]. fold (inb ts k). destruct (k =? x)%nat; cbn [negb orb filter]; [exact IH|]. now rewrite IH. Qed.
Lemma trash_seq R : forall l d r rt g m e v w b, trashcan d r rt g m e v w b -> NoDup (map snd l) -> Forall (fun p => disposable d g b (snd p)) l ->
  exists d', trash_all R l d = (Ok tt, d') /\ gathered d d' b (map snd l) /\ trashcan d' r rt g m e v w b /\ (forall j, in_doc d' j <-> in_doc d j) /\ (forall j, lk d j = None -> lk d' j = None).
Proof.
  induction l as [|[C x] l IH]; intros d r rt g m e v w b K Nd F.
  - exists d. split; [reflexivity|]. split; [|split; [exact K|split; [tauto|auto]]]. repeat (split; [reflexivity|]). intros j r0 E. rewrite E. f_equal. cbn [map].
    replace (filter (fun k => negb (inb [] k)) (r_kids r0)) with (r_kids r0). 2: { induction (r_kids r0) as [|k ks IHk]; [reflexivity|]. cbn. f_equal. exact IHk. } destruct (j =? b)%nat; rewrite app_nil_r; destruct r0; reflexivity.
  - cbn [map snd] in Nd. apply NoDup_cons_iff in Nd as [Nx Nd]. apply Forall_cons_iff in F as [F1 F]. cbn [snd] in F1.
    destruct (trash_step R C d r rt g m e v w b x K F1) as (d1 & E1 & L1 & K1 & D1 & Z1 & P1).
    destruct (IH d1 r rt g m e v w b K1 Nd) as (d' & E' & G & K' & D' & Z'); [eapply Forall_impl; [|exact F]; intros [C' y]; apply P1|].
    exists d'. split; [cbn [trash_all]; rewrite (mbind_ok _ _ _ _ _ E1); exact E'|]. split; [|split; [exact K'|split; [intros j; now rewrite D', D1|auto]]].
    destruct L1 as (M1 & M2 & M3 & M4 & L1), G as (G1 & G2 & G3 & G4 & G). repeat (split; [congruence|]). intros j q Eq. rewrite (G j _ (L1 j q Eq)). f_equal. cbn [map snd].
    destruct (Nat.eqb_spec j b) as [->|Nj]; cbn [r_kids with_kids r_tag r_attrs r_text]; [|rewrite filter_less; reflexivity].
    rewrite filter_app, filter_less. cbn [filter]. destruct (inb (map snd l) x) eqn:Ix; [apply inb_iff in Ix; contradiction|]. cbn [negb]. rewrite <- app_assoc. reflexivity.
Qed.

(** *** The first call makes the bin *)
Lemma texts_keep d d2 j r r' : wf d -> (forall k q, lk d k = Some q -> exists q', lk d2 k = Some q' /\ r_tag q' = r_tag q /\ (r_tag q = $"UUID" -> r_text q' = r_text q)) ->
  lk d j = Some r -> lk d2 j = Some r' -> (r_kids r' = r_kids r \/ exists b, r_kids r' = r_kids r ++ [b] /\ tagb (lk d2) $"UUID" b = false) -> uuid_texts d2 j = uuid_texts d j.
Proof.
  intros H K Er Er' Kk. unfold uuid_texts, kids_tagged. rewrite Er, Er'.
  assert (Kd : forall k, In k (r_kids r) -> exists q, lk d k = Some q) by (intros k Hk; apply (kid_look d j k H); exists r; auto).
  assert (F : filter (tagb (lk d2) $"UUID") (r_kids r') = filter (tagb (lk d) $"UUID") (r_kids r)).
  { assert (G : filter (tagb (lk d2) $"UUID") (r_kids r) = filter (tagb (lk d) $"UUID") (r_kids r)). { apply filter_ext_in. intros k Hk. destruct (Kd k Hk) as (q & Eq). destruct (K k q Eq) as (q' & Eq' & Tq & _). unfold tagb. now rewrite Eq, Eq', Tq. }
    destruct Kk as [->|(b & -> & Tb)]; [exact G|]. rewrite filter_app, G. cbn [filter]. rewrite Tb. apply app_nil_r. }
  rewrite F. apply map_ext_in. intros k Hk. apply filter_In in Hk as [Hk Tk]. destruct (Kd k Hk) as (q & Eq). destruct (K k q Eq) as (q' & Eq' & _ & Xq). rewrite Eq, Eq'. apply Xq. unfold tagb in Tk. rewrite Eq in Tk. now apply str_eqb_eq.
Qed.
(** An entry or group that may be sent to a bin still to be made with the UUID [n]. *)
Definition discardable (d : db) (g : nat) (n : bytes) (x : nat) : Prop :=
  in_doc d x /\ (is_tag (look (d_forest d)) $"Entry" x \/ is_tag (look (d_forest d)) $"Group" x) /\
  exists u z, named d u x /\ named d z g /\ el_eq (IdElement u) (IdElement z) = false /\ u <> n.
Lemma created_can R C d r rt g m e w v cur : wf d -> skeleton d r rt g m e -> text_at d e v -> uuid_of_text v = Ok w -> (forall x, In x (doc_elems d) -> ~ is_bin (d_forest d) w x) ->
  uuid_ok (uuid1 C) -> encode_time (v4 d) (now C) = Ok cur -> (forall x, has d x -> ~ has_uuid (uuid1 C) x) ->
  exists b d1 d2, create_or_get_recyclebin_group R C d = (Ok (eid b), d2) /\ added d d1 g (eid b) /\ only [e] d1 d2 /\ has d2 b /\ first_text $"Name" b = Some $"Recycle Bin" /\ first_text $"UUID" b = Some (uuid_text (uuid1 C)) /\ kids_of $"Entry" b = [] /\ kids_of $"Group" b = [] /\
    (forall j, in_doc d2 j <-> in_doc d j \/ In j (ids b)) /\ trashcan d2 r rt g m e (Some (uuid_text (uuid1 C))) (uuid1 C) (eid b) /\ (forall y, discardable d g (uuid1 C) y -> disposable d2 g (eid b) y).
Proof.
  intros H S Et Ew Hno HU Ec Fr. destruct (create_bin R C d r rt g m e w v cur H S Et Ew Hno HU Ec) as (b & d1 & d2 & E2 & W1 & W2 & A & Hb1 & Hb2 & Tb & Nb & Ub & Kb1 & Kb2 & Kb3 & (k0 & Kb4) & O2 & Le & D2 & S1 & S2 & L2).
  exists b, d1, d2. split; [exact E2|]. split; [exact A|]. split; [exact O2|]. split; [exact Hb2|]. split; [exact Nb|]. split; [exact Ub|]. split; [exact Kb1|]. split; [exact Kb2|]. split; [exact D2|].
  destruct A as (A0 & (_ & _ & _ & _ & _ & A1) & A2). destruct O2 as (_ & _ & _ & _ & _ & O2). destruct (skeleton_facts d _ _ _ _ _ H S) as (T1 & T2 & T3 & T4 & _). destruct (skeleton_facts d2 _ _ _ _ _ W2 S2) as (U1 & U2 & U3 & U4 & _).
  assert (Ng : g <> e) by (intros ->; pose proof (tag_inj _ _ _ _ T2 T4) as X; discriminate X).
  assert (TbR : tagb (lk d2) $"UUID" (eid b) = false) by (unfold tagb; rewrite (look_self _ b (wf_unique _ W2) Hb2); cbn [r_tag row_of]; now rewrite Tb).
  assert (Rows : forall k q, lk d k = Some q -> exists q', lk d2 k = Some q' /\ r_tag q' = r_tag q /\ (k <> e -> r_text q' = r_text q) /\ r_kids q' = r_kids q ++ (if (k =? g)%nat then [eid b] else [])).
  { intros k q Eq. assert (X : exists q1, lk d1 k = Some q1 /\ r_tag q1 = r_tag q /\ r_text q1 = r_text q /\ r_kids q1 = r_kids q ++ (if (k =? g)%nat then [eid b] else [])).
    { destruct (Nat.eqb_spec k g) as [->|N]; [eexists; split; [apply A2, Eq|]; repeat (split; [reflexivity|]); reflexivity|]. exists q. split; [apply A1; [exact Eq|intros [C'|[]]; congruence]|]. repeat (split; [reflexivity|]). now rewrite app_nil_r. }
    destruct X as (q1 & Eq1 & Tq & Xq & Kq). destruct (Nat.eq_dec k e) as [->|N].
    - eexists. split; [apply Le, Eq1|]. split; [exact Tq|]. split; [congruence|exact Kq].
    - exists q1. split; [apply O2; [exact Eq1|intros [C'|[]]; congruence]|]. auto. }
  assert (Txt : forall j q, lk d j = Some q -> uuid_texts d2 j = uuid_texts d j).
  { intros j q Eq. destruct (Rows j q Eq) as (q' & Eq' & _ & _ & Kq). apply (texts_keep d d2 j q q' H); auto.
    - intros k p Ep. destruct (Rows k p Ep) as (p' & Ep' & Tp & Xp & _). exists p'. split; [exact Ep'|]. split; [exact Tp|]. intros Up. apply Xp. intros ->. assert (Y : is_tag (lk d) $"UUID" e) by (exists p; auto). pose proof (tag_inj _ _ _ _ Y T4) as X. discriminate X.
    - rewrite Kq. destruct (j =? g)%nat; [right; exists (eid b); auto|left; apply app_nil_r]. }
  assert (Tg2 : forall T j, is_tag (lk d) T j -> is_tag (lk d2) T j). { intros T j (q & Eq & Tq). destruct (Rows j q Eq) as (q' & Eq' & Tq' & _). exists q'. split; [exact Eq'|congruence]. }
  assert (KB : is_kid d2 g (eid b)). { destruct T2 as (q & Eq & _). destruct (Rows g q Eq) as (q' & Eq' & _ & _ & Kq). exists q'. split; [exact Eq'|]. rewrite Kq, Nat.eqb_refl. apply in_or_app. right. now left. }
  assert (Up : forall a, below (lk d2) a (eid b) -> a = eid b \/ a = g \/ a = rt \/ a = r). { intros a B. destruct (above d2 g (eid b) a W2 KB B) as [->|B']; [now left|right]. now apply (above_group d2 _ _ _ _ _ _ W2 S2). }
  assert (Db : in_doc d2 (eid b)) by (apply D2; right; rewrite ids_everything; apply in_map; rewrite everything_eq; now left).
  split.
  - constructor; auto.
    + destruct U4 as (q & Eq & _). destruct T4 as (q0 & Eq0 & _). destruct (lk d1 e) as [q1|] eqn:Eq1; [|rewrite (L2 _ Eq1) in Eq; discriminate]. eexists. split; [apply Le; reflexivity|]. reflexivity.
    + now apply uuid_text_roundtrip.
    + exists (row_of b). split; [apply look_self; [apply W2|exact Hb2]|exact Tb].
    + intros (h & Th & Nh & Bh). pose proof (sk_tag _ _ _ _ _ _ S2) as U0. destruct (Up h Bh) as [X|[X|[X|X]]]; [congruence|subst h..]; match goal with T : is_tag _ _ ?a, X : is_tag _ _ ?a |- _ => pose proof (tag_inj _ _ _ _ T X) as C'; discriminate C' end.
    + exists b. split; [exact Hb2|]. split; [reflexivity|]. unfold first_text, find1 in Ub. rewrite Kb4 in Ub. cbn [hd_error] in Ub. assert (I : In k0 (kids_of $"UUID" b)) by (rewrite Kb4; now left). apply kids_of_in in I as [I T0]. exists k0. auto.
    + intros i Di Ti Bi. apply (bears_iff d2 _ i W2) in Bi as [_ Bi]. apply D2 in Di as [Di|Di].
      * exfalso. destruct (in_doc_has d i H Di) as (t & Ht & <-). pose proof (look_self _ t (wf_unique _ H) Ht) as Rt. rewrite (Txt _ _ Rt) in Bi. destruct (proj2 (bears_iff d (uuid1 C) (eid t) H) (conj (ex_intro _ _ Rt) Bi)) as (y & Hy & _ & Uy). exact (Fr y Hy Uy).
      * rewrite ids_everything in Di. apply in_map_iff in Di as (y & <- & Iy). destruct (Kb3 y Iy) as [->|Ky]; [reflexivity|exfalso]. rewrite (uuid_texts_of d2 y W2 (everything_has d2 b y Hb2 Iy)), Ky in Bi. destruct Bi.
  - intros y (Dy & Ty & u & z & Nu & Nz & Ne & Nn). destruct (proj1 (named_iff d u y H) Nu) as [(qy & Ey) Uy]. destruct (proj1 (named_iff d z g H) Nz) as [(qg & Eg) Ug].
    assert (Lk : forall j q, lk d j = Some q -> exists q', lk d2 j = Some q') by (intros j q Eq; destruct (Rows j q Eq) as (q' & Eq' & _); eauto).
    split; [apply D2; now left|]. split; [destruct Ty; [left|right]; now apply Tg2|]. split.
    + intros B. pose proof (sk_tag _ _ _ _ _ _ S) as T0. destruct (Up y B) as [X|[X|[X|X]]]; subst y; [congruence| | |].
      * rewrite Uy in Ug. injection Ug as ->. unfold el_eq in Ne. now rewrite N.eqb_refl in Ne.
      * destruct Ty as [Ty|Ty]; pose proof (tag_inj _ _ _ _ Ty T1) as C'; discriminate C'.
      * destruct Ty as [Ty|Ty]; pose proof (tag_inj _ _ _ _ Ty T0) as C'; discriminate C'.
    + exists u, z. split; [apply named_iff; [exact W2|]; split; [eauto|rewrite (Txt _ _ Ey); exact Uy]|]. split; [apply named_iff; [exact W2|]; split; [eauto|rewrite (Txt _ _ Eg); exact Ug]|]. split; [exact Ne|].
      intros Bu. apply (bears_iff d2 u _ W2) in Bu as [_ Bu]. rewrite (uuid_texts_of d2 b W2 Hb2), Kb4 in Bu. unfold first_text, find1 in Ub. rewrite Kb4 in Ub. cbn [hd_error] in Ub. destruct Bu as [Bu|[]]. rewrite Ub in Bu. injection Bu as Bu. apply Nn. symmetry. apply uuid_text_inj; auto. apply (uuid_of_text_ok _ _ Uy).
Qed.
Lemma trash_seq_first R C x l d r rt g m e w v cur : wf d -> skeleton d r rt g m e -> text_at d e v -> uuid_of_text v = Ok w -> (forall x, In x (doc_elems d) -> ~ is_bin (d_forest d) w x) ->
  uuid_ok (uuid1 C) -> encode_time (v4 d) (now C) = Ok cur -> (forall x, has d x -> ~ has_uuid (uuid1 C) x) -> NoDup (x :: map snd l) -> Forall (discardable d g (uuid1 C)) (x :: map snd l) ->
  exists b d1 d2 d', trash_all R ((C, x) :: l) d = (Ok tt, d') /\ added d d1 g (eid b) /\ only [e] d1 d2 /\ has d2 b /\ first_text $"Name" b = Some $"Recycle Bin" /\ first_text $"UUID" b = Some (uuid_text (uuid1 C)) /\ kids_of $"Entry" b = [] /\ kids_of $"Group" b = [] /\
    (forall j, in_doc d' j <-> in_doc d j \/ In j (ids b)) /\ gathered d2 d' (eid b) (x :: map snd l) /\ trashcan d' r rt g m e (Some (uuid_text (uuid1 C))) (uuid1 C) (eid b).
Proof.
  intros H S Et Ew Hno HU Ec Fr Nd F. destruct (created_can R C d r rt g m e w v cur H S Et Ew Hno HU Ec Fr) as (b & d1 & d2 & E2 & A & O2 & Hb & Nb & Ub & Kb1 & Kb2 & D2 & K & P).
  assert (F2 : Forall (disposable d2 g (eid b)) (x :: map snd l)) by (eapply Forall_impl; [|exact F]; exact P).
  destruct (trash_seq R ((C, x) :: l) d2 r rt g m e _ _ _ K Nd) as (d' & E' & G & K' & D' & _). { apply Forall_forall. intros [C' y] Hy. apply (proj1 (Forall_forall _ _) F2). apply (in_map snd) in Hy. exact Hy. }
  exists b, d1, d2, d'. split. 2: { split; [exact A|]. split; [exact O2|]. split; [exact Hb|]. split; [exact Nb|]. split; [exact Ub|]. split; [exact Kb1|]. split; [exact Kb2|]. split; [intros j; rewrite D'; apply D2|]. split; [exact G|exact K']. }
  rewrite <- E'. cbn [trash_all]. assert (X : trash R C x d = trash R C x d2); [|unfold mbind; now rewrite X].
  apply Forall_cons_iff in F as [Fx _]. apply Forall_cons_iff in F2 as [Fx2 _].
  destruct Fx as (Dx & Tx & u & z & (t & Ht & <- & Ut) & (q & Hq & Eg & Uq) & Ne & Nu).
  destruct (can_move_run R d _ _ _ _ _ t u w v H S Ht Ut ltac:(exists q, z; auto) Et Ew) as (o & _ & Ho & Em). assert (o = None) as -> by (destruct o as [b'|]; [exfalso; apply first_in in Ho as [I P']; exact (Hno b' I P')|reflexivity]).
  destruct Fx2 as (Dx2 & Tx2 & Nx2 & u2 & z2 & (t2 & Ht2 & Et2 & Ut2) & (q2 & Hq2 & Eg2 & Uq2) & Ne2 & Nu2). destruct (can_first d2 r rt g m e _ _ _ K) as (B & EB & HB & FB).
  assert (X2 : trash R C (eid t) d2 = move (eid t) (eid b) d2). { rewrite <- Et2, <- EB. apply (trash_ready R C d2 r rt g m e t2 u2 (uuid1 C) (Some (uuid_text (uuid1 C))) B); auto; [apply K|apply K|exists q2, z2; auto|apply K|apply K|]. intros X. apply Nu2. exists B. auto. }
  rewrite X2. unfold trash. rewrite (mbind_ok _ _ _ _ _ Em). cbn [negb]. rewrite (mbind_ok _ _ _ _ _ E2). reflexivity.
Qed.
