(** Structural operations: delete, move, add. *)
From Coq Require Import ZifyBool ZifyNat ZifyN.
From Verif Require Import Base PyStr Xml Tree XPath Time Db XPath_facts FindSpec Find_facts Find_path Find_more ApiSpec StructSpec Heap Uuid Api Prim Api_xpath Api_fields Api_custom Api_sub.

(** *** Descendants *)
Lemma below_trans L i j k : below L i j -> below L j k -> below L i k.
Proof. intros H. induction 1 as [|j' k r _ IH E Hk]; [exact H|]. eapply below_kid; eauto. Qed.
Lemma below_start L i j : below L i j -> exists r, L i = Some r.
Proof. induction 1; eauto. Qed.
Lemma below_ids F t j : unique F -> In t (elements F) -> (below (look F) (eid t) j <-> In j (ids t)).
Proof.
  intros Hu Ht. split.
  - intros H. assert (G : exists u, In u (everything t) /\ eid u = j); [|destruct G as (u & G & <-); now apply ids_In].
    induction H as [r E|j k r H IH E Hk]; [exists t; split; [apply everything_self|reflexivity]|]. destruct IH as (u & G & <-).
    assert (Hu' : In u (elements F)) by now apply (elements_sub F t). rewrite (look_self F u Hu Hu') in E. injection E as <-. cbn in Hk. apply in_map_iff in Hk as (c & <- & Hc). exists c. split; [|reflexivity]. apply (everything_sub t u); [exact G|]. now apply everything_kid.
  - intros H. rewrite ids_everything in H. apply in_map_iff in H as (u & <- & H). revert u H.
    assert (G : forall a, In a (elements F) -> forall i, below (look F) i (eid a) -> forall u, In u (everything a) -> below (look F) i (eid u)).
    { induction a as [n g at' x k IH] using elem_ind'. intros Ha i Hb u H. rewrite everything_eq in H. destruct H as [<-|H]; [exact Hb|]. cbn [ekids] in H. apply in_flat_map in H as (c & Hc & H). rewrite Forall_forall in IH. apply (IH c Hc); [now apply (elements_kid F (El n g at' x k))| |exact H].
      apply (below_kid (look F) i n (eid c) _ Hb (look_self F _ Hu Ha)). cbn. now apply in_map. }
    intros u H. apply (G t Ht); [|exact H]. apply (below_self (look F) (eid t) _ (look_self F t Hu Ht)).
Qed.
Lemma below_look F i j : unique F -> below (look F) i j -> exists r, look F j = Some r.
Proof.
  intros Hu H. destruct H as [r E|j k r H E Hk]; [eauto|]. apply look_elem in E; [|exact Hu]. destruct E as (t & Ht & _ & <-). cbn in Hk. apply in_map_iff in Hk as (c & <- & Hc). exists (row_of c). apply look_self; [exact Hu|]. now apply (elements_kid F t).
Qed.
Lemma look_has d j r : wf d -> lk d j = Some r -> exists t, has d t /\ eid t = j /\ row_of t = r.
Proof. intros H E. apply look_elem in E; [exact E|apply H]. Qed.
Lemma in_doc_has d i : wf d -> in_doc d i -> exists t, has d t /\ eid t = i.
Proof. intros H (r & _ & B). destruct (below_look _ _ _ (wf_unique d H) B) as (ro & E). destruct (look_has d i ro H E) as (t & Ht & Ei & _). eauto. Qed.
Lemma in_doc_root d r F j : wf d -> d_forest d = r :: F -> (in_doc d j <-> In j (ids r)).
Proof.
  intros H E. assert (Hr : has d r) by (rewrite E; apply elements_root; now left). unfold in_doc. rewrite E. cbn [roots map hd_error]. rewrite <- E. split.
  - intros (q & Eq & B). injection Eq as <-. now apply (below_ids _ r j (wf_unique d H)).
  - intros Hj. exists (eid r). split; [reflexivity|]. now apply below_ids; [apply H| |].
Qed.
Lemma everything_size t : forall u, In u (everything t) -> u = t \/ (List.length (everything u) < List.length (everything t))%nat.
Proof.
  induction t as [i g at' x k IH] using elem_ind'. intros a Ha. rewrite everything_eq in Ha. destruct Ha as [<-|Ha]; [now left|]. right. rewrite (everything_eq (El i g at' x k)). cbn [List.length ekids] in *. apply in_flat_map in Ha as (c & Hc & Ha). rewrite Forall_forall in IH. specialize (IH c Hc a Ha).
  assert (List.length (everything c) <= List.length (flat_map everything k))%nat; [|destruct IH as [->|IH]; lia]. clear -Hc. induction k as [|y k IHk]; [destruct Hc|]. cbn [flat_map]. rewrite app_length. destruct Hc as [->|Hc]; [lia|]. specialize (IHk Hc). lia.
Qed.
Lemma below_has d i j : wf d -> below (lk d) i j -> exists t u, has d t /\ has d u /\ eid t = i /\ eid u = j /\ In u (everything t).
Proof.
  intros H B. destruct (below_start _ _ _ B) as (ri & Ei). destruct (look_has d i ri H Ei) as (t & Ht & <- & _). apply (below_ids _ t j (wf_unique d H) Ht) in B. rewrite ids_everything in B. apply in_map_iff in B as (u & <- & Hu). exists t, u. repeat split; auto. now apply (elements_sub _ t).
Qed.
Lemma below_antisym d i j : wf d -> below (lk d) i j -> below (lk d) j i -> i = j.
Proof.
  intros H B1 B2. destruct (below_has d i j H B1) as (t & u & Ht & Hu & <- & <- & I1). destruct (below_has d (eid u) (eid t) H B2) as (u' & t' & Hu' & Ht' & E1 & E2 & I2).
  assert (u' = u) as -> by (apply (unique_inj (d_forest d)); auto; apply H). assert (t' = t) as -> by (apply (unique_inj (d_forest d)); auto; apply H).
  destruct (everything_size t u I1) as [->|S1]; [reflexivity|]. destruct (everything_size u t I2) as [->|S2]; [reflexivity|lia].
Qed.
Lemma kid_below d p i : wf d -> is_kid d p i -> below (lk d) p i /\ ~ below (lk d) i p.
Proof.
  intros H (r & E & Hi). assert (B : below (lk d) p i) by (eapply below_kid; [eapply below_self, E|exact E|exact Hi]). split; [exact B|]. intros B2. pose proof (below_antisym d p i H B B2) as <-.
  destruct (look_has d p r H E) as (t & Ht & <- & <-). cbn in Hi. apply in_map_iff in Hi as (c & Ec & Hc). apply (kid_apart d t c H Ht Hc). rewrite <- Ec. apply ids_In, everything_self.
Qed.
Lemma one_parent d p q i : wf d -> is_kid d p i -> is_kid d q i -> p = q.
Proof. intros H (r & E & Hi) (s & F & Hj). destruct (look_has d p r H E) as (t & Ht & <- & <-). destruct (look_has d q s H F) as (u & Hu & <- & <-). f_equal. exact (unique_parent d i H t u Ht Hu Hi Hj). Qed.
Lemma below_up d i j k : wf d -> below (lk d) i k -> k <> i -> is_kid d j k -> below (lk d) i j.
Proof. intros H B N K. destruct B as [r E|j' k r B E Hk]; [congruence|]. assert (j' = j) as <- by (apply (one_parent d j' j k H); [exists r; auto|exact K]). exact B. Qed.
Lemma root_no_kid d r0 p : wf d -> hd_error (rts d) = Some r0 -> ~ is_kid d p r0.
Proof.
  intros H E (r & Er & Hi). destruct (look_has d p r H Er) as (t & Ht & <- & <-). cbn in Hi. destruct (d_forest d) as [|q F] eqn:EF; [discriminate|]. injection E as <-. apply (root_not_child d q t H) in Hi; [exact Hi|rewrite EF; now left|rewrite EF; exact Ht].
Qed.
Lemma root_below d r0 i : wf d -> hd_error (rts d) = Some r0 -> below (lk d) i r0 -> i = r0.
Proof. intros H E B. destruct B as [r _|j k r B Ej Hk]; [reflexivity|]. exfalso. apply (root_no_kid d k j H E). exists r. auto. Qed.

(** *** Taking an element out *)
Lemma without_less c l : without c l = less c l. Proof. reflexivity. Qed.
Lemma less_id d p i : wf d -> is_kid d p i -> forall j r, lk d j = Some r -> j <> p -> less i (r_kids r) = r_kids r.
Proof.
  intros H K j r E N. rewrite <- without_less. apply without_absent. intros G. apply N. apply (one_parent d j p i H); [exists r; auto|exact K].
Qed.
Lemma delete_run d p i : wf d -> is_kid d p i ->
  exists d', delete i d = (Ok tt, d') /\ wf d' /\ cut d d' i /\ d_next d' = d_next d /\ rts d' = rts d ++ [i].
Proof.
  intros H K. pose proof K as (rp & Ep & Hi). destruct (look_has d p rp H Ep) as (q & Hq & <- & <-). cbn in Hi.
  destruct (remove_run d q i H Hq Hi) as (d' & E & W & M & N & R & L1 & L2). exists d'. split.
  - unfold delete. assert (parent_of (d_forest d) i = Some q) as ->; [|exact E]. apply parent_of_In; [apply H|auto].
  - split; [exact W|]. split; [|auto]. destruct M as (M1 & M2 & M3). split; [exact M1|]. split; [exact M2|]. split; [exact M3|]. split; [rewrite R; destruct H as (H & _); destruct (d_forest d); [congruence|reflexivity]|].
    intros j r Ej. destruct (Nat.eq_dec j (eid q)) as [->|Nj].
    + rewrite Ej in Ep. injection Ep as ->. rewrite L1. reflexivity.
    + rewrite L2 by exact Nj. rewrite (less_id d (eid q) i H K j r Ej Nj), with_kids_id. exact Ej.
Qed.
Lemma delete_same d p i d' : wf d -> is_kid d p i -> delete i d = (Ok tt, d') -> forall k, lk d' k <> None -> lk d k <> None.
Proof.
  intros H K E k. pose proof K as (rp & Ep & Hi). destruct (look_has d p rp H Ep) as (q & Hq & <- & <-). cbn in Hi. unfold delete in E. assert (Ep' : parent_of (d_forest d) i = Some q) by (apply parent_of_In; [apply H|auto]). rewrite Ep' in E.
  destruct (remove_run d q i H Hq Hi) as (d1 & E1 & _ & _ & _ & _ & L1 & L2). rewrite E1 in E. injection E as <-. destruct (Nat.eq_dec k (eid q)) as [->|N]; [rewrite Ep; discriminate|]. now rewrite L2.
Qed.
Lemma kid_look d p i : wf d -> is_kid d p i -> exists r, lk d i = Some r.
Proof.
  intros H (rp & Ep & Hp). destruct (look_has d p rp H Ep) as (q & Hq & <- & <-). cbn in Hp. apply in_map_iff in Hp as (c & <- & Hc). exists (row_of c). apply (look_self _ c (wf_unique d H)). now apply (has_kid d q).
Qed.
Definition cut_rows (L : nat -> option row) (i : nat) : nat -> option row := fun j => option_map (fun r => with_kids (less i (r_kids r)) r) (L j).
Definition link_rows (L : nat -> option row) (p i : nat) : nat -> option row := fun j => option_map (fun r => if (j =? p)%nat then with_kids (r_kids r ++ [i]) r else r) (L j).
Lemma below_ext L M a j : (forall k, L k = M k) -> below L a j -> below M a j.
Proof. intros E. induction 1 as [r F|j k r B IH F Hk]; [eapply below_self; rewrite <- E; exact F|eapply below_kid; [exact IH|rewrite <- E; exact F|exact Hk]]. Qed.
Lemma below_same L M a j : (forall k, L k = M k) -> (below L a j <-> below M a j).
Proof. intros E. split; apply below_ext; auto. Qed.
(** What is below what after the cut. *)
Lemma cut_below d i a j : wf d -> (below (cut_rows (lk d) i) a j <-> below (lk d) a j /\ (below (lk d) i j -> below (lk d) i a)).
Proof.
  intros H. split.
  - induction 1 as [r' E|j k r' B [IH1 IH2] E Hk]; unfold cut_rows in E.
    + destruct (lk d a) as [r|] eqn:Er; [|discriminate]. split; [eapply below_self, Er|auto].
    + destruct (lk d j) as [r|] eqn:Er; [|discriminate]. injection E as <-. cbn in Hk. apply filter_In in Hk as [Hk Nk]. split; [eapply below_kid; eauto|]. intros Bk. apply IH2. apply (below_up d i j k H Bk); [intros ->; rewrite Nat.eqb_refl in Nk; discriminate|]. exists r. auto.
  - intros [B Hi]. induction B as [r E|j k r B IH E Hk]; [eapply below_self; unfold cut_rows; rewrite E; reflexivity|].
    assert (Kk : is_kid d j k) by (exists r; auto). assert (N : k <> i).
    { intros ->. destruct (kid_look d j i H Kk) as (ri & Ei). specialize (Hi (below_self _ _ _ Ei)). destruct (kid_below d j i H Kk) as [_ G]. apply G. eapply below_trans; eauto. }
    eapply below_kid; [apply IH|unfold cut_rows; rewrite E; reflexivity|].
    + intros Bj. apply Hi. eapply below_kid; eauto.
    + cbn. apply filter_In. split; [exact Hk|]. destruct (Nat.eqb_spec k i); [congruence|reflexivity].
Qed.
Lemma link_below L p i a j : (exists r, L p = Some r) -> (exists r, L i = Some r) -> (below (link_rows L p i) a j <-> below L a j \/ (below L a p /\ below L i j)).
Proof.
  intros (rp & Ep) (ri & Ei). unfold link_rows. split.
  - induction 1 as [r' E|j k r' B IH E Hk].
    + left. destruct (L a) as [r|] eqn:Er; [|discriminate]. eapply below_self, Er.
    + destruct (L j) as [r|] eqn:Er; [|discriminate]. injection E as <-. assert (Hk' : In k (r_kids r) \/ (j = p /\ k = i)) by (destruct (Nat.eqb_spec j p); [|now left]; cbn in Hk; apply in_app_iff in Hk as [Hk|[Hk|[]]]; auto).
      destruct Hk' as [Hk'|[-> ->]]; [|right; split; [tauto|eapply below_self, Ei]]. destruct IH as [IH|[IH1 IH2]]; [left|right; split; [exact IH1|]]; eapply below_kid; eauto.
  - assert (G : forall x y, below L x y -> below (fun j => option_map (fun r => if (j =? p)%nat then with_kids (r_kids r ++ [i]) r else r) (L j)) x y).
    { induction 1 as [r E|y k r B IH E Hk]; [eapply below_self; cbv beta; rewrite E; reflexivity|]. eapply below_kid; [exact IH|cbv beta; rewrite E; reflexivity|]. destruct (y =? p)%nat; [cbn; apply in_or_app; now left|exact Hk]. }
    intros [B|[B1 B2]]; [auto|]. eapply below_trans; [|apply G, B2]. eapply below_kid; [apply G, B1|cbv beta; rewrite Ep; reflexivity|]. rewrite Nat.eqb_refl. cbn. apply in_or_app. right. now left.
Qed.
Lemma delete_claim d p i : wf d -> in_doc d p -> is_kid d p i ->
  exists d', delete i d = (Ok tt, d') /\ wf d' /\ cut d d' i /\ forall j, in_doc d' j <-> in_doc d j /\ ~ below (lk d) i j.
Proof.
  intros H Hp K. destruct (delete_run d p i H K) as (d' & E & W & Hc & Hn & _). exists d'. split; [exact E|]. split; [exact W|]. split; [exact Hc|]. pose proof (delete_same d p i d' H K E) as Hs. pose proof Hc as (_ & _ & _ & R & L).
  assert (X : forall k, lk d' k = cut_rows (lk d) i k). { intros k. unfold cut_rows. destruct (lk d k) as [r|] eqn:Ek; [exact (L k r Ek)|]. destruct (lk d' k) eqn:Ek'; [|reflexivity]. exfalso. apply (Hs k); congruence. }
  intros j. unfold in_doc. rewrite R. destruct Hp as (r0 & E0 & _). rewrite E0. split.
  - intros (r & Er & B). injection Er as <-. apply (below_same _ _ _ _ X), (cut_below d i r0 j H) in B as [B Bi]. split; [eauto|]. intros C. apply Bi in C. apply (root_below d r0 i H E0) in C. subst i. exact (root_no_kid d r0 p H E0 K).
  - intros [(r & Er & B) N]. injection Er as <-. exists r0. split; [reflexivity|]. apply (below_same _ _ _ _ X), (cut_below d i r0 j H). tauto.
Qed.

(** *** Moving *)
Lemma link_cut_row p i j r : move_row p i (fun k c => k ++ [c]) j r = (if (j =? p)%nat then with_kids (less i (r_kids r) ++ [i]) r else with_kids (less i (r_kids r)) r).
Proof. unfold move_row. destruct (j =? p)%nat; reflexivity. Qed.
Lemma move_claim d p t : wf d -> in_doc d p -> has d t -> ~ below (lk d) (eid t) p -> hd_error (rts d) <> Some (eid t) ->
  exists d', move (eid t) p d = (Ok tt, d') /\ wf d' /\ relocated d d' p (eid t) /\ has d' t /\ d_next d' = d_next d /\
    (forall j, in_doc d' j <-> in_doc d j \/ below (lk d) (eid t) j) /\ (forall j, lk d j = None -> lk d' j = None).
Proof.
  intros H Hp Ht Hn Hr. destruct (in_doc_has d p H Hp) as (q & Hq & <-). pose proof (wf_unique d H) as Hu.
  assert (Hi : ~ In (eid q) (ids t)) by (intros G; apply Hn; now apply below_ids).
  assert (Hd : is_doc (d_forest d) (eid t) = false). { unfold is_doc. destruct (d_forest d) as [|r F]; [reflexivity|]. apply Nat.eqb_neq. intros E. apply Hr. cbn. congruence. }
  destruct (append_run d q t H Hq Ht Hi Hd) as (d' & E & W & (M1 & M2 & M3) & N & R & L). exists d'. split; [exact E|]. split; [exact W|].
  assert (R0 : hd_error (rts d') = hd_error (rts d)). { rewrite R. destruct (rts d) as [|r l] eqn:Er; [reflexivity|]. cbn [without filter]. unfold without. cbn [filter]. destruct (Nat.eqb_spec r (eid t)) as [->|]; [exfalso; apply Hr; reflexivity|reflexivity]. }
  assert (X : forall k, lk d' k = link_rows (cut_rows (lk d) (eid t)) (eid q) (eid t) k).
  { intros k. rewrite L. unfold link_rows, cut_rows. destruct (lk d k) as [r|]; [|reflexivity]. cbn [option_map]. f_equal. rewrite link_cut_row. destruct (k =? eid q)%nat; reflexivity. }
  split; [|split; [|split; [exact N|split]]].
  - split; [exact M1|]. split; [exact M2|]. split; [exact M3|]. split; [exact R0|]. intros j r Ej. rewrite L, Ej. cbn [option_map]. rewrite link_cut_row. destruct (j =? eid q)%nat; reflexivity.
  - apply (same_tree (d_forest d)); auto using wf_unique. intros j Hj. rewrite L. destruct (lk d j) as [r|] eqn:Ej; [|reflexivity]. cbn [option_map]. f_equal. rewrite link_cut_row. destruct (Nat.eqb_spec j (eid q)) as [->|_]; [contradiction|].
    rewrite <- without_less, without_absent; [apply with_kids_id|]. intros G. assert (K : is_kid d j (eid t)) by (exists r; auto). destruct (kid_below d j (eid t) H K) as [_ C]. apply C. now apply below_ids.
  - intros j. unfold in_doc. rewrite R0. destruct Hp as (r0 & E0 & Bp). rewrite E0.
    assert (Lp : exists r, cut_rows (lk d) (eid t) (eid q) = Some r) by (unfold cut_rows; rewrite (look_self _ q Hu Hq); eexists; reflexivity). assert (Li : exists r, cut_rows (lk d) (eid t) (eid t) = Some r) by (unfold cut_rows; rewrite (look_self _ t Hu Ht); eexists; reflexivity).
    assert (Bi : below (lk d) (eid t) (eid t)) by (eapply below_self, (look_self _ t Hu Ht)).
    assert (C0 : ~ below (lk d) (eid t) r0) by (intros C; apply Hr; rewrite E0; f_equal; symmetry; now apply (root_below d r0 (eid t) H E0)).
    assert (G : below (lk d') r0 j <-> (below (lk d) r0 j /\ ~ below (lk d) (eid t) j) \/ below (lk d) (eid t) j).
    { rewrite (below_same _ _ _ _ X), (link_below _ _ _ _ _ Lp Li), !(cut_below d (eid t) _ _ H). split.
      - intros [[B C]|[_ [B _]]]; [|now right]. destruct (below_ids (d_forest d) t j Hu Ht) as [I1 I2]. destruct (in_dec Nat.eq_dec j (ids t)) as [I|I]; [right; auto|left]. tauto.
      - intros [[B C]|B]; [left; tauto|right]. split; [tauto|]. split; [exact B|auto]. }
    split.
    + intros (r & Er & B). injection Er as <-. apply G in B as [[B _]|B]; [left; eauto|now right].
    + intros HB. exists r0. split; [reflexivity|]. apply G. destruct (in_dec Nat.eq_dec j (ids t)) as [I|I]; [right; now apply below_ids|]. left. destruct HB as [(r & Er & B)|B]; [injection Er as <-; split; [exact B|intros C; apply I; now apply (below_ids (d_forest d) t j Hu Ht)]|exfalso; apply I; now apply (below_ids (d_forest d) t j Hu Ht)].
  - intros j Ej. rewrite L, Ej. reflexivity.
Qed.
Lemma move_refused d p t : wf d -> has d t -> below (lk d) (eid t) p -> move (eid t) p d = (Err Ex_Value, d).
Proof.
  intros H Ht B. destruct (below_has d (eid t) p H B) as (t' & q & Ht' & Hq & E & <- & I). assert (t' = t) as -> by (apply (unique_inj (d_forest d)); auto; apply H). apply append_refused; auto. now apply ids_In.
Qed.
