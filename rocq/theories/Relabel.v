(** Assigning the file name and the number of an attachment (attachment.py:22-38); histories (entry.py:271-277, 322-328); lists given to Group.append (group.py:90-101). *)
From Verif Require Import Base PyStr Xml Tree XPath Time Db FindSpec Find_path Heap Uuid ApiSpec Api Prim Api_sub Api_claims StructSpec Struct Struct_add Struct_bin Struct_trash Struct_hist Struct_claims PathSpec Integrity Path BinSpec Bin BinStore Cred Listing.

(** ** One row keeps its tag and children, all others stay. *)
Definition one_row (d d' : db) (k : nat) : Prop :=
  same_meta d d' /\ hd_error (rts d') = hd_error (rts d) /\ (forall j, j <> k -> lk d' j = lk d j) /\
  exists r r', lk d k = Some r /\ lk d' k = Some r' /\ r_tag r' = r_tag r /\ r_kids r' = r_kids r.
Lemma one_row_tagb d d' k T j : one_row d d' k -> tagb (lk d') T j = tagb (lk d) T j.
Proof. intros (_ & _ & L & r & r' & E & E' & Et & _). unfold tagb. destruct (Nat.eq_dec j k) as [->|N]; [now rewrite E, E', Et|now rewrite L]. Qed.
Lemma one_row_tagged d d' k T j : one_row d d' k -> kids_tagged (lk d') T j = kids_tagged (lk d) T j.
Proof.
  intros H. assert (G : forall l, filter (tagb (lk d') T) l = filter (tagb (lk d) T) l) by (intros l; apply filter_ext; intros i; now apply (one_row_tagb d d' k)).
  unfold kids_tagged. destruct H as (_ & _ & L & r & r' & E & E' & _ & Ek). destruct (Nat.eq_dec j k) as [->|N]; [rewrite E, E', Ek|rewrite L by exact N; destruct (lk d j); [|reflexivity]]; apply G.
Qed.
Lemma one_row_is_tag d d' k T j : one_row d d' k -> (is_tag (lk d') T j <-> is_tag (lk d) T j).
Proof.
  intros (_ & _ & L & r & r' & E & E' & Et & _). unfold is_tag. destruct (Nat.eq_dec j k) as [->|N]; [|now rewrite L]. rewrite E, E'. split; intros (q & Eq & Tq); injection Eq as <-; eexists; (split; [reflexivity|congruence]).
Qed.
Lemma one_row_below d d' k a j : one_row d d' k -> (below (lk d') a j <-> below (lk d) a j).
Proof.
  intros (_ & _ & L & r & r' & E & E' & _ & Ek). split.
  - induction 1 as [q Eq|i m q B IH Eq Im].
    + destruct (Nat.eq_dec a k) as [->|N]; [eapply below_self, E|rewrite L in Eq by exact N; eapply below_self, Eq].
    + destruct (Nat.eq_dec i k) as [->|N]; [rewrite E' in Eq; injection Eq as <-; rewrite Ek in Im; eapply below_kid; eauto|rewrite L in Eq by exact N; eapply below_kid; eauto].
  - induction 1 as [q Eq|i m q B IH Eq Im].
    + destruct (Nat.eq_dec a k) as [->|N]; [eapply below_self, E'|rewrite <- L in Eq by exact N; eapply below_self, Eq].
    + destruct (Nat.eq_dec i k) as [->|N]; [rewrite E in Eq; injection Eq as <-; rewrite <- Ek in Im; eapply below_kid; eauto|rewrite <- L in Eq by exact N; eapply below_kid; eauto].
Qed.
Lemma one_row_doc d d' k j : one_row d d' k -> (in_doc d' j <-> in_doc d j).
Proof. intros H. unfold in_doc. pose proof H as (_ & -> & _). split; intros (r & E & B); exists r; (split; [exact E|]); now apply (one_row_below d d' k). Qed.
Lemma one_row_shelf Zl d d' k : one_row d d' k -> ~ is_tag (lk d) $"Binary" k -> forall n is xs, shelf Zl (lk d) n is xs -> shelf Zl (lk d') n is xs.
Proof.
  intros (_ & _ & L & _) NB n is xs S. induction S as [n|n i is x xs r m Ei Tr Kr Nr Ir Ln Hr S IH]; [constructor|]. eapply shelf_cons; eauto. rewrite L; [exact Ei|]. intros ->. apply NB. exists r. auto.
Qed.
Lemma one_row_store Zl d d' k l : one_row d d' k -> ~ is_tag (lk d) $"Binary" k -> ~ is_tag (lk d) $"Binaries" k -> store Zl d l -> store Zl d' l.
Proof.
  intros H NB NS [L F|r m b q L E1 E2 E3 E4 E5 S].
  - destruct H as ((M1 & M2 & M3) & _). apply store4; [now rewrite M1|now rewrite M3].
  - pose proof H as ((M1 & M2 & M3) & R0 & Lj & _). apply (store3 Zl d' l r m b q); [now rewrite M1|now rewrite R0|now apply (one_row_is_tag d d' k)|now rewrite (one_row_tagged d d' k)|now rewrite (one_row_tagged d d' k)| |now apply (one_row_shelf Zl d d' k)].
    rewrite Lj; [exact E5|]. intros ->. apply NS. unfold kids_tagged in E4. destruct (lk d m) as [rm|]; [|discriminate].
    assert (X : In k (filter (tagb (lk d) $"Binaries") (r_kids rm))) by (rewrite E4; now left). apply filter_In in X as [_ X]. unfold tagb in X. rewrite E5 in X. apply str_eqb_eq in X. exists q. auto.
Qed.
Lemma att_binary_refs R Zl d l a v n : wf d -> store Zl d l -> refs d a v n ->
  att_binary R Zl a d = (match nth_error l n with Some x => Ok x | None => Err Ex_Binary end, d).
Proof.
  intros H S A. unfold att_binary. pose proof (att_id_run d a v n H A) as E. rewrite (mbind_ok _ _ _ _ _ (binaries_run R Zl d l H S)), (mbind_ok _ _ _ _ _ E). unfold of_res, py_index. destruct (Z.ltb_spec (Z.of_nat n) 0); [lia|]. destruct (Z.ltb_spec (Z.of_nat n) 0); [lia|]. rewrite Nat2Z.id. destruct (nth_error l n); [reflexivity|]. now rewrite E.
Qed.
Lemma other_tag d i S T : is_tag (lk d) S i -> S <> T -> ~ is_tag (lk d) T i.
Proof. intros (r & E & A) N (q & Eq & B). rewrite E in Eq. injection Eq as <-. congruence. Qed.

(** ** The file name *)
Lemma filename_back R Zl d t k v x l n : wf d -> has d t -> find1 $"Key" t = Some k -> match x with Some s => text_ok s = true | None => True end -> regular d -> attached d (eid t) v n -> store Zl d l ->
  exists d', set_att_filename (eid t) x d = (Ok tt, d') /\ wf d' /\ only_texts [k] d d' /\ att_filename (eid t) d' = (Ok x, d') /\
    attached d' (eid t) v n /\ (forall j, in_doc d' j <-> in_doc d j) /\ att_binary R Zl (eid t) d' = (fst (att_binary R Zl (eid t) d), d').
Proof.
  intros H Ht Hk Hx G A S. assert (Hl : legal x = true) by (destruct x; [exact Hx|reflexivity]).
  assert (Ik : In k (kids_of $"Key" t)) by (unfold find1 in Hk; destruct (kids_of $"Key" t); [discriminate|injection Hk as <-; now left]). apply kids_of_in in Ik as [Ik Tk]. pose proof (has_kid d t k Ht Ik) as Hh.
  destruct (set_text_retext d k x H Hh Hl) as (d' & E & Hr). exists d'. split; [unfold set_att_filename; rewrite (mbind_ok _ _ _ _ _ (the_run d (eid t) t H Ht eq_refl)), Hk; exact E|].
  pose proof Hr as (W & M & N & R0 & T & L). split; [exact W|]. split; [now apply (retext_texts d d' k x)|].
  assert (O : one_row d d' (eid k)).
  { split; [exact M|]. split; [now rewrite R0|]. split; [exact L|]. exists (row_of k), (row_of (set_text x k)). split; [apply (look_self _ k (wf_unique d H) Hh)|]. split; [|destruct k; split; reflexivity].
    pose proof (look_self (d_forest d') (set_text x k) (wf_unique d' W) T) as Z. destruct k; exact Z. }
  assert (TK : is_tag (lk d) $"Key" (eid k)) by (rewrite <- Tk; now apply has_tag).
  assert (Nt : eid t <> eid k). { intros C. apply (unique_inj (d_forest d)) in C; [|apply H|assumption..]. subst k. destruct (at_tag d _ v n A) as (r & Er & Tr). rewrite (look_self _ t (wf_unique d H) Ht) in Er. injection Er as <-. change (etag t = $"Binary") in Tr. rewrite Tk in Tr. discriminate. }
  pose proof (attached_refs d _ v n H G A) as Rf.
  assert (Nv : v <> eid k). { intros ->. destruct (refs_elems d _ _ n H Rf) as (t1 & V & Ht1 & E1 & _ & K1 & HV & EV & _). assert (t1 = t) as -> by (apply (unique_inj (d_forest d)); auto; apply H). assert (V = k) as -> by (apply (unique_inj (d_forest d)); auto; apply H).
    assert (I : In k (kids_of $"Value" t)) by (rewrite K1; now left). apply kids_of_in in I as [_ I]. rewrite Tk in I. discriminate. }
  split.
  { unfold att_filename. pose proof (retext_tree d d' k x H Hh Hr t Ht) as Ht'. assert (Ee : eid (upd (eid k) (set_text x) t) = eid t) by apply upd_text_head.
    rewrite (mbind_ok _ _ _ _ _ (the_run d' (eid t) _ W Ht' Ee)), (find1_upd _ _ _ _ Nt), Hk. cbn [option_map]. rewrite upd_here by reflexivity. destruct k; reflexivity. }
  split; [destruct A as [A1 A2 A3 A4]; split; [now apply (one_row_doc d d' (eid k))|now apply (one_row_is_tag d d' (eid k))|now rewrite (one_row_tagged d d' (eid k))|]; destruct A4 as (q & Eq & Iq); exists q; split; [now rewrite L|exact Iq]|].
  split; [intros j; now apply (one_row_doc d d' (eid k))|].
  assert (S' : store Zl d' l) by (apply (one_row_store Zl d d' (eid k)); auto; apply (other_tag d _ $"Key"); auto; discriminate).
  assert (Rf' : refs d' (eid t) v n). { destruct Rf as (B1 & B2 & q & Eq & B3 & B4). split; [now apply (one_row_is_tag d d' (eid k))|]. split; [now rewrite (one_row_tagged d d' (eid k))|]. exists q. rewrite L by exact Nv. auto. }
  rewrite (att_binary_refs R Zl d' l _ v n W S' Rf'), (att_binary_refs R Zl d l _ v n H S Rf). reflexivity.
Qed.
Lemma filename_illegal d t k s : wf d -> has d t -> find1 $"Key" t = Some k -> text_ok s = false -> set_att_filename (eid t) (Some s) d = (Err Ex_Value, d).
Proof. intros H Ht Hk Hs. unfold set_att_filename. rewrite (mbind_ok _ _ _ _ _ (the_run d (eid t) t H Ht eq_refl)), Hk. now apply set_text_illegal. Qed.

(** ** The number *)
Lemma attr_put_other k v l m w : m <> k -> (In (m, w) (attr_put k v l) <-> In (m, w) l).
Proof.
  intros N. induction l as [|[a b] l IH]; cbn [attr_put]; [split; [intros [E|[]]; injection E as <- <-; congruence|intros []]|].
  destruct (str_eqb a k) eqn:E.
  - apply str_eqb_eq in E. subst a. split; (intros [X|X]; [injection X as <- <-; congruence|now right]).
  - split; (intros [X|X]; [now left|right; now apply IH]).
Qed.
(** Everything stays but the attribute [k] of the element [i], which is [v] now. *)
Definition relabelled (d d' : db) (i : nat) (k v : str) : Prop :=
  only [i] d d' /\ exists r r', lk d i = Some r /\ lk d' i = Some r' /\ r_tag r' = r_tag r /\ r_text r' = r_text r /\ r_kids r' = r_kids r /\ (forall m w, m <> k -> (In (m, w) (r_attrs r') <-> In (m, w) (r_attrs r))) /\ NoDup (map fst (r_attrs r')) /\ In (k, v) (r_attrs r').
Lemma number_back R Zl d a v n z l : wf d -> regular d -> attached d a v n -> store Zl d l ->
  exists d', set_att_id a z d = (Ok tt, d') /\ wf d' /\ relabelled d d' v $"Ref" (str_of_Z z) /\ att_id a d' = (Ok z, d') /\ (forall j, in_doc d' j <-> in_doc d j) /\ store Zl d' l /\ (forall m, z = Z.of_nat m -> attached d' a v m /\ att_binary R Zl a d' = (match nth_error l m with Some x => Ok x | None => Err Ex_Binary end, d')) /\ (forall b w m, attached d b w m -> b <> a -> att_binary R Zl b d' = (fst (att_binary R Zl b d), d')).
Proof.
  intros H G A S. pose proof (attached_refs d _ v n H G A) as Rf. destruct (refs_elems d a v n H Rf) as (t & V & Ht & Ea & Tt & K & HV & EV & ND & IR & AR & IV). subst a v.
  assert (TV : etag V = $"Value") by (assert (I : In V (kids_of $"Value" t)) by (rewrite K; now left); apply kids_of_in in I; tauto).
  destruct (set_attr_run d (eid V) V $"Ref" (str_of_Z z) H HV eq_refl (int_text z)) as (d' & E & W & M & N & R0 & L1 & L2). exists d'. split; [now rewrite (set_att_id_run d _ _ n z H Rf)|]. split; [exact W|].
  pose proof (look_self _ V (wf_unique d H) HV) as LV.
  assert (O : one_row d d' (eid V)) by (split; [exact M|]; split; [now rewrite R0|]; split; [exact L2|]; exists (row_of V), (with_attrs (attr_put $"Ref" (str_of_Z z) (eattrs V)) (row_of V)); repeat split; assumption).
  assert (ND' : NoDup (map fst (attr_put $"Ref" (str_of_Z z) (eattrs V)))) by (now rewrite (attr_put_fst _ _ _ _ IR)).
  split.
  { split. { destruct M as (M1 & M2 & M3). split; [exact M1|]. split; [exact M2|]. split; [exact M3|]. split; [lia|]. split; [now rewrite R0|]. intros j r Ej Nj. rewrite L2; [exact Ej|]. intros ->. apply Nj. now left. }
    exists (row_of V), (with_attrs (attr_put $"Ref" (str_of_Z z) (eattrs V)) (row_of V)). split; [exact LV|]. split; [exact L1|]. split; [reflexivity|]. split; [reflexivity|]. split; [reflexivity|]. split; [intros m w Nm; now apply attr_put_other|]. split; [exact ND'|apply attr_put_In]. }
  assert (TVr : is_tag (lk d) $"Value" (eid V)) by (rewrite <- TV; now apply has_tag).
  assert (S' : store Zl d' l) by (apply (one_row_store Zl d d' (eid V)); auto; apply (other_tag d _ $"Value"); auto; discriminate).
  assert (Ra : forall s, In ($"Ref", s) (attr_put $"Ref" (str_of_Z z) (eattrs V)) -> forall m, s = number m -> refs d' (eid t) (eid V) m).
  { intros s Is m ->. split; [now apply (one_row_is_tag d d' (eid V)), (at_tag d _ _ n A)|]. split; [rewrite (one_row_tagged d d' (eid V)) by exact O; apply (at_value d _ _ n A)|]. exists (with_attrs (attr_put $"Ref" (str_of_Z z) (eattrs V)) (row_of V)). split; [exact L1|]. split; [exact ND'|exact Is]. }
  split.
  { destruct (look_has d' (eid V) _ W L1) as (V' & HV' & EV' & RV). destruct (at_tag d _ _ n A) as (r & Er & Tr). assert (X : lk d' (eid t) = Some (row_of t)).
    { rewrite L2; [apply (look_self _ t (wf_unique d H) Ht)|]. intros C. apply (unique_inj (d_forest d)) in C; [|apply H|assumption..]. subst V. rewrite TV in Tt. discriminate. }
    destruct (look_has d' (eid t) _ W X) as (t' & Ht' & Et' & Rt). pose proof (kids_tagged_of d' t' $"Value" W Ht') as KK. rewrite Et', (one_row_tagged d d' (eid V) _ _ O), (at_value d _ _ n A) in KK. symmetry in KK. apply map_one in KK as (V2 & K2 & E2).
    assert (I2 : In V2 (kids_of $"Value" t')) by (rewrite K2; now left). apply kids_of_in in I2 as [I2 _]. assert (V2 = V') as -> by (apply (unique_inj (d_forest d')); [apply W|now apply (has_kid d' t')|exact HV'|congruence]).
    unfold att_id. rewrite (mbind_ok _ _ _ _ _ (the_run d' (eid t) t' W Ht' Et')). unfold find1. rewrite K2. cbn [hd_error].
    assert (AV : eattrs V' = attr_put $"Ref" (str_of_Z z) (eattrs V)) by (change (eattrs V') with (r_attrs (row_of V')); rewrite RV; reflexivity).
    assert (attr_of $"Ref" V' = Some (str_of_Z z)) as -> by (apply attr_In; rewrite AV; [exact ND'|apply attr_put_In]). unfold of_res. now rewrite int_of_str_Z. }
  split; [intros j; now apply (one_row_doc d d' (eid V))|]. split; [exact S'|]. split.
  - intros m ->. assert (Rm : refs d' (eid t) (eid V) m) by (apply (Ra (number m)); [apply attr_put_In|reflexivity]). split.
    + destruct Rm as (B1 & B2 & q & Eq & _ & Iq). split; [apply (one_row_doc d d' (eid V)); [exact O|apply (at_doc d _ _ n A)]|exact B1|exact B2|exists q; auto].
    + exact (att_binary_refs R Zl d' l _ _ m W S' Rm).
  - intros b w m Ab Nb. pose proof (attached_refs d b w m H G Ab) as Rb. assert (Nw : w <> eid V) by (intros ->; destruct (refs_value_inj d _ _ n H Rf b m Rb); congruence).
    assert (Rb' : refs d' b w m). { destruct Rb as (B1 & B2 & q & Eq & B3 & B4). split; [now apply (one_row_is_tag d d' (eid V))|]. split; [now rewrite (one_row_tagged d d' (eid V))|]. exists q. rewrite L2 by exact Nw. auto. }
    rewrite (att_binary_refs R Zl d' l _ _ m W S' Rb'), (att_binary_refs R Zl d l _ _ m H S Rb). reflexivity.
Qed.

(** ** Histories *)
Lemma history_lists d t h : wf d -> has d t -> kids_tagged (lk d) $"History" (eid t) = [h] -> history (eid t) d = (Ok (kids_tagged (lk d) $"Entry" h), d).
Proof.
  intros H Ht K. rewrite (kids_tagged_of d t _ H Ht) in K. apply map_one in K as (e & K & <-). assert (I : In e (kids_of $"History" t)) by (rewrite K; now left). apply kids_of_in in I as [I _].
  unfold history. rewrite (mbind_ok _ _ _ _ _ (the_run d (eid t) t H Ht eq_refl)). unfold find1. rewrite K. cbn [hd_error]. rewrite (kids_tagged_of d e _ H (has_kid d t e Ht I)). reflexivity.
Qed.
Lemma history_empty d t : wf d -> has d t -> kids_tagged (lk d) $"History" (eid t) = [] -> history (eid t) d = (Ok [], d).
Proof.
  intros H Ht K. rewrite (kids_tagged_of d t _ H Ht) in K. apply map_eq_nil in K. unfold history. rewrite (mbind_ok _ _ _ _ _ (the_run d (eid t) t H Ht eq_refl)). unfold find1. now rewrite K.
Qed.
Lemma history_entry_run d i : wf d -> exists b, is_a_history_entry i d = (Ok b, d) /\ (b = true <-> exists h, is_kid d h i /\ is_tag (lk d) $"History" h).
Proof.
  intros H. unfold is_a_history_entry, lift. eexists. split; [reflexivity|]. destruct (parent_of (d_forest d) i) as [p|] eqn:E.
  - apply parent_of_In in E as [Hp Ip]; [|apply H]. split.
    + intros T. apply str_eqb_eq in T. exists (eid p). split; [exists (row_of p); split; [apply (look_self _ p (wf_unique d H) Hp)|exact Ip]|rewrite <- T; now apply has_tag].
    + intros (h & (r & Er & Ir) & (q & Eq & Tq)). rewrite Er in Eq. injection Eq as <-. destruct (look_has d h r H Er) as (u & Hu & <- & <-). assert (u = p) as -> by (apply (unique_parent d i H); auto). change (etag p = $"History") in Tq. rewrite Tq. apply str_eqb_refl.
  - split; [discriminate|]. intros (h & (r & Er & Ir) & _). destruct (look_has d h r H Er) as (u & Hu & <- & <-). assert (X : parent_of (d_forest d) i = Some u) by (apply parent_of_In; [apply H|split; [exact Hu|exact Ir]]). rewrite E in X. discriminate.
Qed.
Lemma in_history_past d i h : wf d -> is_kid d h i -> is_tag (lk d) $"History" h -> past d i.
Proof.
  intros H K T. exists h. split; [exact T|]. destruct (kid_below d h i H K) as [B N]. split; [|exact B]. intros ->. apply N. destruct (kid_look d i i H K) as (r & E). eapply below_self, E.
Qed.
Lemma listed_live R d doc F : wf d -> d_forest d = doc :: F -> exists l, entries R d = (Ok l, d) /\ forall i, In i l -> is_a_history_entry i d = (Ok false, d).
Proof.
  intros H EF. destruct (entries_all R d doc F H EF) as (l & E & P). exists (map eid l). split; [exact E|]. intros i Ii. apply in_map_iff in Ii as (t & <- & It). apply (picks_In _ _ _ _ P) in It as (_ & _ & NP).
  destruct (history_entry_run d (eid t) H) as (b & Eb & Hb). rewrite Eb. destruct b; [|reflexivity]. destruct Hb as [Hb _]. destruct (Hb eq_refl) as (h & K & T). exfalso. apply NP. now apply (in_history_past d (eid t) h).
Qed.
Lemma snapshots_marked d t h : wf d -> has d t -> kids_tagged (lk d) $"History" (eid t) = [h] -> forall i, In i (kids_tagged (lk d) $"Entry" h) -> is_a_history_entry i d = (Ok true, d).
Proof.
  intros H Ht K i Ii. destruct (history_entry_run d i H) as (b & Eb & Hb). rewrite Eb. assert (b = true) as ->; [|reflexivity]. apply Hb. exists h.
  assert (X : In h (kids_tagged (lk d) $"History" (eid t))) by (rewrite K; now left). unfold kids_tagged in X, Ii. destruct (lk d (eid t)) as [r|]; [|destruct X]. apply filter_In in X as [_ X]. unfold tagb in X. destruct (lk d h) as [q|] eqn:Eh; [|discriminate]. apply str_eqb_eq in X. apply filter_In in Ii as [Ii _]. split; exists q; auto.
Qed.

(** ** Group.append *)
Definition others (l k : list nat) : list nat := filter (fun i => negb (existsb (Nat.eqb i) l)) k.
(** All of [l] moved, in this order, to the end of [g]; nothing else changed. *)
Definition gathered (d d' : db) (g : nat) (l : list nat) : Prop :=
  d_major d' = d_major d /\ d_minor d' = d_minor d /\ d_bins d' = d_bins d /\ hd_error (roots (d_forest d')) = hd_error (roots (d_forest d)) /\ forall j r, lk d j = Some r -> lk d' j = Some (with_kids (if (j =? g)%nat then others l (r_kids r) ++ l else others l (r_kids r)) r).
Lemma others_cons e l k : others (e :: l) k = others l (less e k).
Proof.
  unfold others, less. induction k as [|x k IH]; [reflexivity|]. cbn [filter existsb] in IH |- *. destruct (Nat.eqb_spec x e) as [->|N]; cbn [orb negb filter]; [exact IH|]. destruct (existsb (Nat.eqb x) l); cbn [negb]; [exact IH|now rewrite IH].
Qed.
Lemma others_id l k : (forall x, In x k -> ~ In x l) -> others l k = k.
Proof.
  intros H. unfold others. induction k as [|x k IH]; [reflexivity|]. cbn [filter]. destruct (existsb (Nat.eqb x) l) eqn:E.
  - apply existsb_exists in E as (y & Iy & Ey). apply Nat.eqb_eq in Ey. subst y. exfalso. apply (H x); [now left|exact Iy].
  - cbn [negb]. f_equal. apply IH. intros y Iy. apply H. now right.
Qed.
Lemma others_app l a b : others l (a ++ b) = others l a ++ others l b.
Proof. unfold others. apply filter_app. Qed.
Lemma append_gathers g l : forall d, wf d -> in_doc d g -> NoDup l -> (forall i, In i l -> in_doc d i /\ hd_error (rts d) <> Some i /\ ~ below (lk d) i g) ->
  exists d', group_append g l d = (Ok tt, d') /\ wf d' /\ gathered d d' g l /\ forall j, in_doc d' j <-> in_doc d j.
Proof.
  induction l as [|e l IH]; intros d H Hg ND Hl.
  - exists d. split; [reflexivity|]. split; [exact H|]. split; [|reflexivity]. repeat (split; [reflexivity|]). intros j r E. rewrite E. f_equal. rewrite app_nil_r, (others_id [] (r_kids r)) by (intros ? _ []). destruct r; destruct (j =? g)%nat; reflexivity.
  - destruct (Hl e (or_introl eq_refl)) as (De & Re & Be). destruct (in_doc_has d e H De) as (t & Ht & <-). apply NoDup_cons_iff in ND as [Ne ND].
    destruct (move_claim d g t H Hg Ht Be Re) as (d1 & E1 & W1 & (M1 & M2 & M3 & R1 & L1) & _ & _ & D1 & L0). unfold move in E1.
    assert (D1' : forall j, in_doc d1 j <-> in_doc d j).
    { intros j. rewrite D1. split; [intros [X|X]; [exact X|]|now left]. destruct De as (r & Er & B). exists r. split; [exact Er|]. now apply (below_trans _ _ (eid t)). }
    assert (X : forall k, lk d1 k = link_rows (cut_rows (lk d) (eid t)) g (eid t) k).
    { intros k. unfold link_rows, cut_rows. destruct (lk d k) as [r|] eqn:Ek; [|now apply L0]. rewrite (L1 k r Ek). cbn [option_map]. destruct (k =? g)%nat; reflexivity. }
    assert (Lg : exists r, cut_rows (lk d) (eid t) g = Some r) by (destruct (in_doc_has d g H Hg) as (q & Hq & <-); unfold cut_rows; rewrite (look_self _ q (wf_unique d H) Hq); eexists; reflexivity).
    assert (Lt : exists r, cut_rows (lk d) (eid t) (eid t) = Some r) by (unfold cut_rows; rewrite (look_self _ t (wf_unique d H) Ht); eexists; reflexivity).
    destruct (IH d1 W1) as (d2 & E2 & W2 & (N1 & N2 & N3 & R2 & L2) & D2); [now apply D1'|exact ND| |].
    { intros i Ii. destruct (Hl i (or_intror Ii)) as (Di & Ri & Bi). split; [now apply D1'|]. split; [rewrite R1; exact Ri|]. intros B. apply (below_same _ _ _ _ X), (link_below _ _ _ _ _ Lg Lt) in B. apply Bi. destruct B as [B|[B _]]; now apply (cut_below d (eid t) i g H) in B as [B _]. }
    exists d2. split; [cbn [group_append]; rewrite (mbind_ok _ _ _ _ _ E1); exact E2|]. split; [exact W2|]. split; [|intros j; now rewrite D2, D1'].
    split; [congruence|]. split; [congruence|]. split; [congruence|]. split; [congruence|]. intros j r Ej. rewrite (L2 j _ (L1 j r Ej)). cbn [r_kids with_kids]. f_equal. rewrite others_cons. destruct (j =? g)%nat; [|destruct r; reflexivity].
    rewrite others_app, (others_id l [eid t]), <- app_assoc; [reflexivity|]. intros x [<-|[]]. exact Ne.
Qed.

(** ** add_group (pykeepass.py:510-530) *)
Definition new_group_reads (C : clock) (d' : db) (e : nat) (name icon notes : option str) (x : dt) : Prop :=
  get_name e d' = (Ok name, d') /\ get_group_notes e d' = (Ok (blank_none notes), d') /\ get_icon e d' = (Ok (blank_none icon), d') /\ get_uuid e d' = (Ok (uuid1 C), d') /\
  get_timeprop T_ctime e d' = (Ok (Some x), d') /\ get_timeprop T_mtime e d' = (Ok (Some x), d') /\ get_timeprop T_atime e d' = (Ok (Some x), d') /\ get_timeprop T_expiry e d' = (Ok (Some x), d') /\
  get_expires e d' = (Ok (Some false), d') /\ group_entries e d' = (Ok [], d') /\ group_subgroups e d' = (Ok [], d').
Lemma subgroups_run d t : wf d -> has d t -> group_subgroups (eid t) d = (Ok (map eid (kids_of $"Group" t)), d) /\ group_entries (eid t) d = (Ok (map eid (kids_of $"Entry" t)), d).
Proof. intros H Ht. unfold group_subgroups, group_entries. rewrite !(mbind_ok _ _ _ _ _ (the_run d (eid t) t H Ht eq_refl)). split; reflexivity. Qed.
Lemma add_group_reads C d g name icon notes cur x : wf d -> has d g -> in_doc d (eid g) -> uuid_ok (uuid1 C) -> some_text name -> opt_text icon -> opt_text notes -> encode_time (v4 d) (now C) = Ok cur -> decode_time (v4 d) cur = Ok x ->
  exists e t d', add_group C (Some (eid g)) name icon notes d = (Ok e, d') /\ wf d' /\ added d d' (eid g) e /\ has d' t /\ eid t = e /\ etag t = $"Group" /\ (forall j, in_doc d' j <-> in_doc d j \/ In j (ids t)) /\
    new_group_reads C d' e name icon notes x /\
    (forall l, fst (group_subgroups (eid g) d) = Ok l -> group_subgroups (eid g) d' = (Ok (l ++ [e]), d')) /\ group_entries (eid g) d' = (fst (group_entries (eid g) d), d').
Proof.
  intros H Hg D HU Sn Oi On Ec Dc. destruct (add_group_claim C d (eid g) name icon notes cur H D HU Sn Oi On Ec) as (e & t & d' & E & W & A & T & Et & Dj & Tg & F1 & F2 & F3 & F4 & S1 & S2 & S3 & S4 & S5 & KE & KG & _).
  exists e, t, d'. repeat (split; [assumption|]). subst e. pose proof (added_v4 _ _ _ _ A) as Ev. rewrite <- Ev in Dc. split.
  - unfold new_group_reads. split; [unfold get_name; now rewrite (get_sub_run d' t $"Name" W T), F1|]. split; [unfold get_group_notes; now rewrite (get_sub_run d' t $"Notes" W T), F2|]. split; [unfold get_icon; now rewrite (get_sub_run d' t $"IconID" W T), F4|].
    split; [apply (get_uuid_run d' t); auto; unfold uuid_is; rewrite F3; now apply uuid_text_roundtrip|].
    split; [exact (slot_read d' t _ cur x W T S1 Dc)|]. split; [exact (slot_read d' t _ cur x W T S2 Dc)|]. split; [exact (slot_read d' t _ cur x W T S3 Dc)|]. split; [exact (slot_read d' t _ cur x W T S4 Dc)|].
    split; [apply slot_some in S5 as (p & Ep & Ex'); rewrite (get_expires_run d' t p W T Ep), Ex'; reflexivity|]. destruct (subgroups_run d' t W T) as [X Y]. rewrite X, Y, KE, KG. split; reflexivity.
  - pose proof (added_tree d d' g t H W A Hg T) as Hg'. destruct (subgroups_run d g H Hg) as [X Y]. destruct (subgroups_run d' _ W Hg') as [X' Y']. assert (Ee : eid (with_last g t) = eid g) by (destruct g; reflexivity). rewrite Ee in X', Y'. rewrite X, Y. cbn [fst].
    assert (K : forall U, kids_of U (with_last g t) = kids_of U g ++ if str_eqb (etag t) U then [t] else []). { intros U. destruct g as [gi gt ga gx gk]. unfold kids_of. cbn [with_last ekids]. rewrite filter_app. cbn [filter]. destruct (str_eqb (etag t) U); reflexivity. }
    split.
    + intros l El. injection El as <-. rewrite X', K, Tg. change (str_eqb $"Group" $"Group") with true. cbv iota. now rewrite map_app.
    + rewrite Y', K, Tg. change (str_eqb $"Group" $"Entry") with false. cbv iota. now rewrite app_nil_r.
Qed.
