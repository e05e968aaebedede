(** What the lxml primitives of Api.v do to the rows of a state. *)
From Coq Require Import Permutation.
From Verif Require Import Base PyStr Xml Tree XPath Db FindSpec XPath_facts Find_facts ApiSpec Heap Api.

(** *** Numbering *)
Lemma label_spec x : forall n, eid (fst (label n x)) = n /\ erase (fst (label n x)) = x /\ (n < snd (label n x))%nat /\ ids (fst (label n x)) = seq n (snd (label n x) - n).
Proof.
  induction x as [g a x k IH] using xml_ind'. intros n. cbn [label].
  set (go := fix go (n : nat) (l : list xml) : list elem * nat := match l with [] => ([], n) | c :: l' => let '(c', n1) := label n c in let '(l'', n2) := go n1 l' in (c' :: l'', n2) end).
  assert (G : forall n, map erase (fst (go n k)) = k /\ (n <= snd (go n k))%nat /\ flat_map ids (fst (go n k)) = seq n (snd (go n k) - n)).
  { clear n. induction IH as [|c k Hc Hk IHk]; intros n; [cbn; rewrite Nat.sub_diag; auto|]. cbn [go]. fold go. destruct (Hc n) as (H1 & H2 & H3 & H4). destruct (label n c) as [c' n1]. cbn [fst snd] in *.
    destruct (IHk n1) as (G1 & G2 & G3). destruct (go n1 k) as [l'' n2]. cbn [fst snd] in *. cbn [map flat_map]. split; [now rewrite H2, G1|]. split; [lia|]. rewrite H4, G3.
    replace (n2 - n)%nat with ((n1 - n) + (n2 - n1))%nat by lia. rewrite seq_app. do 2 f_equal. lia. }
  destruct (G (S n)) as (G1 & G2 & G3). destruct (go (S n) k) as [k' n']. cbn [fst snd eid erase ids] in *. split; [reflexivity|]. split; [now rewrite G1|]. split; [lia|].
  rewrite G3. replace (n' - n)%nat with (S (n' - S n)) by lia. reflexivity.
Qed.
Lemma seq_NoDup' n k : NoDup (seq n k). Proof. apply seq_NoDup. Qed.

(** The parts of the state other than the document. *)
Definition same_meta (d d' : db) : Prop := d_major d' = d_major d /\ d_minor d' = d_minor d /\ d_bins d' = d_bins d.
Lemma same_meta_refl d : same_meta d d. Proof. repeat split. Qed.
Lemma same_meta_trans a b c : same_meta a b -> same_meta b c -> same_meta a c.
Proof. intros (H1 & H2 & H3) (G1 & G2 & G3). repeat split; congruence. Qed.
Lemma meta_v4 d d' : same_meta d d' -> v4 d' = v4 d.
Proof. intros (H & _). unfold v4. now rewrite H. Qed.
Notation lk d := (look (d_forest d)).
Notation rts d := (roots (d_forest d)).
Notation has d t := (In t (elements (d_forest d))).

Lemma wf_unique d : wf d -> unique (d_forest d). Proof. intros H. apply H. Qed.
Lemma wf_look d i r : wf d -> lk d i = Some r -> (i < d_next d)%nat.
Proof. intros (H1 & H2 & H3) E. apply look_elem in E; [|exact H2]. destruct E as (t & Ht & <- & _). auto. Qed.
Lemma wf_edit d F p r r' : wf d -> edit (d_forest d) F p r r' -> roots F <> [] -> wf (set_forest d F).
Proof.
  intros (H1 & H2 & H3) He Hr. split; [cbn; intros ->; now apply Hr|]. split; [cbn; eapply edit_unique; eauto|]. cbn. intros t Ht.
  pose proof (edit_ids _ _ _ _ _ He) as P. assert (In (eid t) (map eid (elements (d_forest d)))) as Hi by (rewrite <- P; now apply in_map). apply in_map_iff in Hi as (u & <- & Hu). auto.
Qed.
Lemma the_run d i t : wf d -> has d t -> eid t = i -> the i d = (Ok t, d).
Proof. intros H Ht <-. unfold the, lift. rewrite elem_of_self; [reflexivity|apply H|exact Ht]. Qed.
Lemma the_ok d i t d' : wf d -> the i d = (Ok t, d') -> d' = d /\ has d t /\ eid t = i.
Proof.
  intros H. unfold the, lift. destruct (elem_of (d_forest d) i) as [u|] eqn:E; [|discriminate]. intros [= <- <-]. apply elem_of_In in E; [|apply H]. tauto.
Qed.
Lemma mbind_ok {A B} (m : M A) (k : A -> M B) d a d' : m d = (Ok a, d') -> mbind m k d = k a d'.
Proof. intros H. unfold mbind. now rewrite H. Qed.
Lemma mbind_err {A B} (m : M A) (k : A -> M B) d e d' : m d = (Err e, d') -> mbind m k d = (Err e, d').
Proof. intros H. unfold mbind. now rewrite H. Qed.
Lemma mbind_inv {A B} (m : M A) (k : A -> M B) d r d' : mbind m k d = (r, d') -> (exists e, m d = (Err e, d') /\ r = Err e) \/ (exists a d1, m d = (Ok a, d1) /\ k a d1 = (r, d')).
Proof. unfold mbind. destruct (m d) as [[a|e] d1]; intros H; [right; eauto|left]. injection H as <- <-. eauto. Qed.

(** *** In-place changes *)
Definition legal (v : option str) : bool := match v with Some s => text_ok s | None => true end.
Lemma on_run d i t f g : wf d -> has d t -> eid t = i -> eid (f t) = i -> ekids (f t) = ekids t -> row_of (f t) = g (row_of t) ->
  exists d', on i f d = (Ok tt, d') /\ wf d' /\ same_meta d d' /\ d_next d' = d_next d /\ rts d' = rts d /\ lk d' i = Some (g (row_of t)) /\ forall j, j <> i -> lk d' j = lk d j.
Proof.
  intros H Ht <- He Hk Hg. destruct (edit_in_place (d_forest d) t f (wf_unique d H) Ht He Hk) as [E ER]. rewrite Hg in E. eexists. split; [reflexivity|]. split; [eapply wf_edit; eauto|].
  - rewrite ER. destruct H as (H & _). destruct (d_forest d); [congruence|discriminate].
  - split; [repeat split|]. split; [reflexivity|]. split; [exact ER|]. apply edit_look in E; [|apply H]. tauto.
Qed.
Lemma set_text_run d i t v : wf d -> has d t -> eid t = i -> legal v = true ->
  exists d', lx_set_text i v d = (Ok tt, d') /\ wf d' /\ same_meta d d' /\ d_next d' = d_next d /\ rts d' = rts d /\ lk d' i = Some (with_text v (row_of t)) /\ forall j, j <> i -> lk d' j = lk d j.
Proof.
  intros H Ht E Hv. assert (G := on_run d i t (set_text v) (with_text v) H Ht E). replace (lx_set_text i v d) with (on i (set_text v) d) by (destruct v as [s|]; cbn in *; [now rewrite Hv|reflexivity]).
  apply G; destruct t; cbn in *; auto.
Qed.
Lemma set_attr_run d i t k v : wf d -> has d t -> eid t = i -> text_ok v = true ->
  exists d', lx_set_attr i k v d = (Ok tt, d') /\ wf d' /\ same_meta d d' /\ d_next d' = d_next d /\ rts d' = rts d /\ lk d' i = Some (with_attrs (attr_put k v (eattrs t)) (row_of t)) /\ forall j, j <> i -> lk d' j = lk d j.
Proof.
  intros H Ht E Hv. unfold lx_set_attr. rewrite Hv. assert (G := on_run d i t (set_attr k v) (fun r => with_attrs (attr_put k v (r_attrs r)) r) H Ht E). destruct t. apply G; cbn in *; auto.
Qed.

(** *** Removing a child *)
Definition without (c : nat) (l : list nat) : list nat := filter (fun j => negb (j =? c)%nat) l.
Lemma without_absent c l : ~ In c l -> without c l = l.
Proof. unfold without. induction l as [|x l IH]; [reflexivity|]. cbn. intros H. destruct (Nat.eqb_spec x c); [tauto|]. cbn. f_equal. apply IH. tauto. Qed.
Lemma without_In c l x : In x (without c l) <-> In x l /\ x <> c.
Proof. unfold without. rewrite filter_In. destruct (Nat.eqb_spec x c); cbn; intuition congruence. Qed.
Lemma remove_run d p c : wf d -> has d p -> In c (map eid (ekids p)) ->
  exists d', lx_remove (eid p) c d = (Ok tt, d') /\ wf d' /\ same_meta d d' /\ d_next d' = d_next d /\ rts d' = rts d ++ [c] /\
    lk d' (eid p) = Some (with_kids (without c (map eid (ekids p))) (row_of p)) /\ forall j, j <> eid p -> lk d' j = lk d j.
Proof.
  intros H Hp Hc. assert (E : parent_of (d_forest d) c = Some p) by (apply parent_of_In; [apply H|auto]). unfold lx_remove. rewrite E, Nat.eqb_refl. eexists. split; [reflexivity|].
  destruct (edit_detach (d_forest d) c p (wf_unique d H) E) as (Ee & Er & _). split; [eapply wf_edit; [exact H|exact Ee|]|].
  - rewrite Er. destruct (roots (d_forest d)); discriminate.
  - split; [repeat split|]. split; [reflexivity|]. split; [exact Er|]. apply edit_look in Ee; [|apply H]. tauto.
Qed.

(** *** Appending *)
Definition one_child (d : db) (c : nat) : Prop := forall p q, has d p -> has d q -> In c (map eid (ekids p)) -> In c (map eid (ekids q)) -> p = q.
Lemma unique_parent d c : wf d -> one_child d c.
Proof.
  intros H p q Hp Hq Hcp Hcq. assert (E1 : parent_of (d_forest d) c = Some p) by (apply parent_of_In; [apply H|auto]). assert (E2 : parent_of (d_forest d) c = Some q) by (apply parent_of_In; [apply H|auto]). congruence.
Qed.
Lemma root_not_child d t p : wf d -> In t (d_forest d) -> has d p -> ~ In (eid t) (map eid (ekids p)).
Proof. intros H. apply root_no_parent. apply H. Qed.
Definition move_row (p c : nat) (at_ : list nat -> nat -> list nat) (j : nat) (r : row) : row :=
  with_kids (let k := without c (r_kids r) in if (j =? p)%nat then at_ k c else k) r.
Lemma with_kids_id r : with_kids (r_kids r) r = r. Proof. destruct r. reflexivity. Qed.
Lemma relink_run d p c t (n : list nat -> nat) (m : nat) : wf d -> has d p -> has d t -> eid t = c -> ~ In (eid p) (ids t) -> is_doc (d_forest d) c = false ->
  m = n (without c (map eid (ekids p))) ->
  exists F, relink (d_forest d) (eid p) c (insert_kid m) = F /\ wf (set_forest d F) /\
    roots F = without c (rts d) /\ forall j, look F j = option_map (move_row (eid p) c (fun k c => insert_at (n k) c k) j) (lk d j).
Proof.
  intros H Hp Ht Ec Hn Hd Em. eexists. split; [reflexivity|]. unfold relink. pose proof (wf_unique d H) as Hu. subst c.
  destruct (is_root (d_forest d) (eid t)) eqn:Er.
  - unfold detach. rewrite Er. apply is_root_In, roots_In in Er as (t' & Ht' & E'). assert (t' = t) as -> by (apply (unique_inj (d_forest d)); auto; now apply elements_root).
    destruct (edit_link (d_forest d) t p m Hu Ht' Hp Hn) as (l & r & EF & ET & Ee & Ero). rewrite ET.
    assert (Hk : forall q, has d q -> ~ In (eid t) (map eid (ekids q))) by (intros q Hq; now apply (root_not_child d t q H)).
    assert (Ewo : roots l ++ roots r = without (eid t) (rts d)).
    { rewrite EF. unfold roots. rewrite map_app. cbn [map]. unfold without. rewrite filter_app. cbn [filter]. rewrite Nat.eqb_refl. cbn [negb].
      rewrite EF in Hu. unfold unique in Hu. rewrite elements_app, map_app in Hu. change (t :: r) with ([t] ++ r) in Hu. rewrite elements_app, map_app in Hu.
      change (map eid l ++ map eid r = without (eid t) (map eid l) ++ without (eid t) (map eid r)). rewrite !without_absent; [reflexivity| |].
      - intros Hi. apply in_map_iff in Hi as (u & E & Hi). apply NoDup_app_r in Hu. apply (NoDup_app_disj _ _ (eid t) Hu); [apply in_map, elements_root; now left|]. rewrite <- E. now apply in_map, elements_root.
      - intros Hi. apply in_map_iff in Hi as (u & E & Hi). apply (NoDup_app_disj _ _ (eid t) Hu); [rewrite <- E; now apply in_map, elements_root|]. apply in_or_app. left. apply in_map, elements_root. now left. }
    split; [eapply wf_edit; [exact H|exact Ee|]|].
    + rewrite Ero. unfold is_doc in Hd. rewrite EF in Hd. destruct l; [cbn in Hd; rewrite Nat.eqb_refl in Hd; discriminate|discriminate].
    + split; [now rewrite Ero|]. intros j. destruct (edit_look _ _ _ _ _ Ee Hu) as (L1 & L2 & L3). destruct (Nat.eq_dec j (eid p)) as [->|Hj].
      * rewrite L1, L2. cbn [option_map]. unfold move_row. rewrite Nat.eqb_refl. cbn [r_kids row_of with_kids]. rewrite Em. rewrite without_absent by (now apply Hk). reflexivity.
      * rewrite L3 by exact Hj. destruct (lk d j) as [rw|] eqn:E; [|reflexivity]. cbn [option_map]. f_equal. unfold move_row. destruct (Nat.eqb_spec j (eid p)); [congruence|]. apply look_elem in E; [|exact Hu]. destruct E as (q & Hq & <- & <-). cbn [r_kids row_of]. rewrite without_absent by (now apply Hk). reflexivity.
  - assert (exists q, parent_of (d_forest d) (eid t) = Some q) as (q & Eq).
    { destruct (parent_of (d_forest d) (eid t)) as [q|] eqn:E; [eauto|]. exfalso. unfold parent_of in E. rewrite elements_fpre in Ht. apply in_map_iff in Ht as (nd & <- & Hnd). assert (node_of (d_forest d) (eid (nd_el nd)) = Some nd) as En by (apply node_of_In; auto). rewrite En in E. apply fpre_In in Hnd as (r0 & Hr0 & Hnd).
      destruct (pre_parent _ _ _ Hnd) as [->|(p' & up & E1 & _)]; [|rewrite E1 in E; discriminate]. cbn [nd_el] in *. assert (is_root (d_forest d) (eid r0) = true) by (apply is_root_In, roots_In; eauto). congruence. }
    destruct (edit_detach (d_forest d) (eid t) q Hu Eq) as (Ee & Ero & Hnr). set (F1 := detach (d_forest d) (eid t)) in *.
    pose proof (edit_unique _ _ _ _ _ Ee Hu) as Hu1. destruct (edit_look _ _ _ _ _ Ee Hu) as (L1 & L2 & L3).
    pose proof (proj1 (parent_of_In _ _ _ Hu) Eq) as (Hq & Hqc).
    assert (Hqt : ~ In (eid q) (ids t)).
    { intros Hi. assert (G : anc_or_self (d_forest d) (eid t) (eid q) = true). { apply (anc_or_self_In (d_forest d) (eid t) (eid q) t Hu); [apply elem_of_self; auto|exists q; now apply elem_of_self|exact Hi]. }
      (* the parent of t cannot lie below t: sizes *)
      rewrite ids_everything in Hi. apply in_map_iff in Hi as (q' & E' & Hq'). assert (q' = q) as -> by (apply (unique_inj (d_forest d)); auto; now apply (elements_sub _ t)).
      apply in_map_iff in Hqc as (t' & E'' & Ht'). assert (t' = t) as -> by (apply (unique_inj (d_forest d)); auto; now apply (elements_kid _ q)).
      assert (S1 : forall a b, In a (everything b) -> (List.length (everything a) <= List.length (everything b))%nat).
      { clear. intros a b. revert a. induction b as [i g at' x k IH] using elem_ind'. intros a Ha. rewrite everything_eq in Ha. destruct Ha as [<-|Ha]; [apply le_n|]. rewrite (everything_eq (El i g at' x k)). cbn [List.length ekids] in *. apply in_flat_map in Ha as (c & Hc & Ha). rewrite Forall_forall in IH. specialize (IH c Hc a Ha).
        assert (List.length (everything c) <= List.length (flat_map everything k))%nat; [|lia]. clear -Hc. induction k as [|y k IHk]; [destruct Hc|]. cbn [flat_map]. rewrite app_length. destruct Hc as [->|Hc]; [lia|]. specialize (IHk Hc). lia. }
      assert (S2 : (List.length (everything t) < List.length (everything q))%nat).
      { rewrite (everything_eq q). cbn [List.length]. pose proof (in_flat_map everything (ekids q)) as _. clear -Ht'. induction (ekids q) as [|y k IHk]; [destruct Ht'|]. cbn [flat_map]. rewrite app_length. destruct Ht' as [->|Hc]; [lia|]. specialize (IHk Hc). lia. }
      specialize (S1 q t Hq'). lia. }
    assert (Hl1 : forall j, In j (ids t) -> look F1 j = lk d j). { intros j Hj. apply L3. intros ->. now apply Hqt. }
    assert (Ht1 : In t (elements F1)) by (apply (same_tree (d_forest d)); auto).
    assert (HtF : In t F1). { assert (In (eid t) (roots F1)) as Hi by (rewrite Ero; apply in_or_app; right; now left). apply roots_In in Hi as (t' & H' & E'). assert (t' = t) as -> by (apply (unique_inj F1); auto; now apply elements_root). exact H'. }
    assert (exists p1, In p1 (elements F1) /\ eid p1 = eid p /\ row_of p1 = with_kids (without (eid t) (map eid (ekids p))) (row_of p)) as (p1 & Hp1 & Ep1 & Rp1).
    { apply (look_elem F1 (eid p)); [exact Hu1|]. destruct (Nat.eq_dec (eid p) (eid q)) as [E|E].
      - assert (p = q) as -> by (apply (unique_inj (d_forest d)); auto). exact L2.
      - rewrite L3 by exact E. rewrite without_absent; [rewrite (look_self _ p); auto|]. intros Hi. apply E. f_equal. apply (unique_parent d (eid t) H p q); auto. }
    rewrite <- Ep1 in Hn. destruct (edit_link F1 t p1 m Hu1 HtF Hp1 Hn) as (l & r & EF & ET & Ee2 & Ero2). rewrite ET. rewrite <- Ep1.
    destruct (edit_look _ _ _ _ _ Ee2 Hu1) as (M1 & M2 & M3).
    assert (Ewo : roots l ++ roots r = without (eid t) (rts d)).
    { assert (E : roots l ++ eid t :: roots r = rts d ++ [eid t]) by (rewrite <- Ero, EF; unfold roots; rewrite map_app; reflexivity).
      rewrite without_absent by exact Hnr. apply (f_equal (without (eid t))) in E. unfold without in E. rewrite !filter_app in E. cbn [filter] in E. rewrite Nat.eqb_refl in E. cbn [negb] in E. rewrite app_nil_r in E.
      change (without (eid t) (roots l) ++ without (eid t) (roots r) = without (eid t) (rts d)) in E. rewrite (without_absent _ _ Hnr) in E.
      assert (Hlr : ~ In (eid t) (roots l) /\ ~ In (eid t) (roots r)).
      { assert (E2 : roots l ++ eid t :: roots r = rts d ++ [eid t]) by (rewrite <- Ero, EF; unfold roots; rewrite map_app; reflexivity). assert (D : NoDup (roots l ++ eid t :: roots r)).
        { assert (D0 : forall G, unique G -> NoDup (roots G)). { clear. induction G as [|a G IH]; [constructor|]. intros U. cbn. unfold unique, elements in U. cbn [flat_map] in U. rewrite map_app in U. constructor; [|apply IH; apply NoDup_app_r in U; exact U]. intros Hi. apply in_map_iff in Hi as (b & E & Hb). apply (NoDup_app_disj _ _ (eid a) U); [apply in_map, everything_self|]. rewrite <- E. apply in_map, in_flat_map. exists b. split; [exact Hb|apply everything_self]. }
          rewrite E2, <- Ero. apply D0, Hu1. }
        apply NoDup_remove_2 in D. rewrite in_app_iff in D. tauto. }
      destruct Hlr as [Hl Hr]. rewrite !without_absent in E by assumption. exact E. }
    split; [|split].
    + split; [|split].
      * cbn. intros E0. assert (roots (fupd (eid p1) (insert_kid m t) (l ++ r)) = []) as E1 by (rewrite E0; reflexivity). rewrite Ero2, Ewo in E1. rewrite without_absent in E1 by exact Hnr. destruct H as (H & _). destruct (d_forest d); [congruence|discriminate].
      * cbn. eapply edit_unique; eauto.
      * cbn. intros u Hu2. assert (In (eid u) (map eid (elements (d_forest d)))) as Hi.
        { rewrite <- (edit_ids _ _ _ _ _ Ee), <- (edit_ids _ _ _ _ _ Ee2). now apply in_map. }
        apply in_map_iff in Hi as (w & <- & Hw). now apply H.
    + now rewrite Ero2.
    + intros j. destruct (Nat.eq_dec j (eid p1)) as [->|Hj].
      * rewrite M2. rewrite Ep1, (look_self _ p Hu Hp). cbn [option_map]. f_equal. unfold move_row. rewrite Nat.eqb_refl. cbn [row_of r_kids with_kids].
        assert (ER := Rp1). injection ER as E1 E2 E3 E4. unfold row_of, with_kids. cbn [r_tag r_attrs r_text]. rewrite E1, E2, E3, E4, Em. reflexivity.
      * rewrite M3 by exact Hj. rewrite Ep1 in Hj. unfold move_row. destruct (Nat.eq_dec j (eid q)) as [->|Hq'].
        -- rewrite L1, L2. cbn [option_map]. rewrite Ep1. destruct (Nat.eqb_spec (eid q) (eid p)); [congruence|]. reflexivity.
        -- rewrite L3 by exact Hq'. destruct (lk d j) as [rw|] eqn:E; [|reflexivity]. cbn [option_map]. f_equal. rewrite Ep1. destruct (Nat.eqb_spec j (eid p)); [congruence|].
           apply look_elem in E; [|exact Hu]. destruct E as (w & Hw & <- & <-). cbn [r_kids row_of]. rewrite without_absent; [reflexivity|]. intros Hi. apply Hq'. f_equal. apply (unique_parent d (eid t) H w q); auto.
Qed.

Lemma insert_at_end {A} n (c : A) l : (List.length l <= n)%nat -> insert_at n c l = l ++ [c].
Proof. intros H. unfold insert_at. rewrite firstn_all2, skipn_all2 by exact H. reflexivity. Qed.
Lemma upd_ext i f g t : (forall u, In u (everything t) -> f u = g u) -> upd i f t = upd i g t.
Proof.
  induction t as [j tg a x k IH] using elem_ind'. intros H. cbn [upd]. rewrite (H _ (everything_self _)). destruct (j =? i)%nat; [reflexivity|]. f_equal. rewrite Forall_forall in IH. apply map_ext_in. intros c Hc. apply IH; [exact Hc|].
  intros u Hu. apply H. rewrite everything_eq. right. apply in_flat_map. eauto.
Qed.
Lemma relink_add F p c : exists m0, forall m, (m0 <= m)%nat -> relink F p c add_kid = relink F p c (insert_kid m).
Proof.
  unfold relink. destruct (take_root (detach F c) c) as [[t F']|]; [|exists O; reflexivity].
  exists (List.length (elements F')). intros m Hm. unfold fupd. apply map_ext_in. intros t' Ht'. apply upd_ext. intros u Hu. unfold add_kid, insert_kid. rewrite insert_at_end; [reflexivity|].
  assert (G : forall b a, In a (everything b) -> (List.length (ekids a) <= List.length (everything b))%nat).
  { clear. induction b as [i g at' x k IH] using elem_ind'. intros a Ha. rewrite everything_eq in Ha. rewrite (everything_eq (El i g at' x k)). cbn [ekids List.length] in *. destruct Ha as [<-|Ha].
    - cbn [ekids]. assert (List.length k <= List.length (flat_map everything k))%nat; [|lia]. clear. induction k as [|c k IHk]; [cbn; lia|]. cbn [flat_map]. rewrite app_length, everything_eq. cbn. lia.
    - apply in_flat_map in Ha as (c & Hc & Ha). rewrite Forall_forall in IH. specialize (IH c Hc a Ha). assert (List.length (everything c) <= List.length (flat_map everything k))%nat; [|lia]. clear -Hc. induction k as [|y k IHk]; [destruct Hc|]. cbn [flat_map]. rewrite app_length. destruct Hc as [->|Hc]; [lia|]. specialize (IHk Hc). lia. }
  specialize (G t' u Hu). assert (List.length (everything t') <= List.length (elements F'))%nat; [|lia]. clear -Ht'. unfold elements. induction F' as [|y k IHk]; [destruct Ht'|]. cbn [flat_map]. rewrite app_length. destruct Ht' as [->|Hc]; [lia|]. specialize (IHk Hc). lia.
Qed.
Lemma without_length c l : (List.length (without c l) <= List.length l)%nat.
Proof. unfold without. induction l as [|x l IH]; [cbn; lia|]. cbn. destruct (negb _); cbn; lia. Qed.
Definition moved (d d' : db) (p c : nat) (at_ : list nat -> nat -> list nat) : Prop :=
  wf d' /\ same_meta d d' /\ d_next d' = d_next d /\ rts d' = without c (rts d) /\ forall j, lk d' j = option_map (move_row p c at_ j) (lk d j).
Lemma append_run d p t : wf d -> has d p -> has d t -> ~ In (eid p) (ids t) -> is_doc (d_forest d) (eid t) = false ->
  exists d', lx_append (eid p) (eid t) d = (Ok tt, d') /\ moved d d' (eid p) (eid t) (fun k c => k ++ [c]).
Proof.
  intros H Hp Ht Hn Hd. pose proof (wf_unique d H) as Hu. unfold lx_append.
  assert (anc_or_self (d_forest d) (eid t) (eid p) = false) as ->.
  { destruct (anc_or_self _ _ _) eqn:E; [|reflexivity]. exfalso. apply Hn. apply (anc_or_self_In (d_forest d) (eid t) (eid p) t Hu); [now apply elem_of_self|exists p; now apply elem_of_self|exact E]. }
  rewrite Hd. cbn [orb]. eexists. split; [reflexivity|]. destruct (relink_add (d_forest d) (eid p) (eid t)) as (m0 & Hm). set (m := Nat.max m0 (List.length (ekids p))). rewrite (Hm m) by lia.
  destruct (relink_run d p (eid t) t (fun _ => m) m H Hp Ht eq_refl Hn Hd eq_refl) as (F & -> & Hw & Hr & Hl). split; [exact Hw|]. split; [repeat split|]. split; [reflexivity|]. split; [exact Hr|]. intros j. cbn [set_forest d_forest]. rewrite Hl.
  destruct (lk d j) as [r|] eqn:E; [|reflexivity]. cbn [option_map]. f_equal. unfold move_row. destruct (Nat.eqb_spec j (eid p)) as [->|]; [|reflexivity].
  rewrite (look_self _ p Hu Hp) in E. injection E as <-. rewrite insert_at_end; [reflexivity|]. cbn [row_of r_kids]. pose proof (without_length (eid t) (map eid (ekids p))) as L. rewrite map_length in L. lia.
Qed.
Definition lx_pos (n : nat) (index : Z) : nat :=
  if (0 <=? index)%Z then Z.to_nat (Z.min index (Z.of_nat n)) else let j := (Z.of_nat n + index)%Z in if (0 <=? j)%Z then Z.to_nat j else n.
Lemma insert_run d p t z : wf d -> has d p -> has d t -> ~ In (eid p) (ids t) -> is_doc (d_forest d) (eid t) = false ->
  exists d', lx_insert (eid p) z (eid t) d = (Ok tt, d') /\ moved d d' (eid p) (eid t) (fun k c => insert_at (lx_pos (List.length (ekids p)) z) c k).
Proof.
  intros H Hp Ht Hn Hd. pose proof (wf_unique d H) as Hu. unfold lx_insert.
  assert (anc_or_self (d_forest d) (eid t) (eid p) = false) as ->.
  { destruct (anc_or_self _ _ _) eqn:E; [|reflexivity]. exfalso. apply Hn. apply (anc_or_self_In (d_forest d) (eid t) (eid p) t Hu); [now apply elem_of_self|exists p; now apply elem_of_self|exact E]. }
  rewrite Hd. cbn [orb]. rewrite (elem_of_self _ p Hu Hp). fold (lx_pos (List.length (ekids p)) z). eexists. split; [reflexivity|].
  destruct (relink_run d p (eid t) t (fun _ => lx_pos (List.length (ekids p)) z) _ H Hp Ht eq_refl Hn Hd eq_refl) as (F & -> & Hw & Hr & Hl). split; [exact Hw|]. split; [repeat split|]. split; [reflexivity|]. split; [exact Hr|]. exact Hl.
Qed.
Lemma append_refused d p t : wf d -> has d p -> has d t -> In (eid p) (ids t) -> lx_append (eid p) (eid t) d = (Err Ex_Value, d).
Proof.
  intros H Hp Ht Hi. pose proof (wf_unique d H) as Hu. unfold lx_append. replace (anc_or_self (d_forest d) (eid t) (eid p)) with true; [reflexivity|]. symmetry.
  apply (anc_or_self_In (d_forest d) (eid t) (eid p) t Hu); [now apply elem_of_self|exists p; now apply elem_of_self|exact Hi].
Qed.

(** *** New trees *)
Lemma new_run d x : wf d ->
  exists t d', lx_new x d = (Ok (d_next d), d') /\ eid t = d_next d /\ erase t = x /\ d_forest d' = d_forest d ++ [t] /\ wf d' /\ same_meta d d' /\ (d_next d < d_next d')%nat /\ has d' t /\ rts d' = rts d ++ [d_next d] /\
    (forall j, In j (ids t) -> (d_next d <= j < d_next d')%nat) /\ forall j, (j < d_next d)%nat -> lk d' j = lk d j.
Proof.
  intros H. unfold lx_new. destruct (label_spec x (d_next d)) as (L1 & L2 & L3 & L4). destruct (label (d_next d) x) as [t n]. cbn [fst snd] in *. exists t. eexists. rewrite L1. split; [reflexivity|]. cbn [d_forest d_next].
  pose proof H as (H1 & H2 & H3). assert (Hids : forall j, In j (ids t) -> (d_next d <= j < n)%nat) by (intros j Hj; rewrite L4 in Hj; apply in_seq in Hj; lia).
  assert (Hu : unique (d_forest d ++ [t])).
  { unfold unique. rewrite elements_app, map_app. unfold elements at 2. cbn [flat_map]. rewrite app_nil_r, <- ids_everything. assert (Hd := H2). unfold unique in Hd.
    assert (G : forall l m : list nat, NoDup l -> NoDup m -> (forall i, In i l -> ~ In i m) -> NoDup (l ++ m)).
    { clear. induction l as [|a l IH]; [auto|]. intros m Hl Hm Hd. cbn. apply NoDup_cons_iff in Hl as [Ha Hl]. constructor; [rewrite in_app_iff; intros [G|G]; [auto|]; exact (Hd a (or_introl eq_refl) G)|]. apply IH; auto. intros i Hi. apply Hd. now right. }
    apply G; [exact Hd|rewrite L4; apply seq_NoDup|]. intros i Hi Hj. apply Hids in Hj. apply in_map_iff in Hi as (u & <- & Hu). apply H3 in Hu. lia. }
  split; [reflexivity|]. split; [exact L2|]. split; [reflexivity|]. split.
  { split; [cbn; destruct (d_forest d); discriminate|]. split; [exact Hu|]. cbn. intros u Hi. rewrite elements_app in Hi. apply in_app_iff in Hi as [Hi|Hi]; [apply H3 in Hi; lia|].
    unfold elements in Hi. cbn in Hi. rewrite app_nil_r in Hi. apply (in_map eid) in Hi. rewrite <- ids_everything in Hi. apply Hids in Hi. lia. }
  split; [repeat split|]. split; [exact L3|]. split; [apply elements_root, in_or_app; right; now left|]. split; [unfold roots; rewrite map_app; cbn; now rewrite L1|]. split; [exact Hids|].
  intros j Hj. destruct (lk d j) as [r|] eqn:E.
  - apply look_elem in E; [|exact H2]. destruct E as (u & Hin & <- & <-). apply look_self; [exact Hu|]. rewrite elements_app. apply in_or_app. now left.
  - apply look_None. apply look_None in E. rewrite elements_app, map_app, in_app_iff. intros [G|G]; [auto|]. unfold elements in G. cbn in G. rewrite app_nil_r, <- ids_everything in G. apply Hids in G. lia.
Qed.
Lemma wf_has d t : wf d -> has d t -> (eid t < d_next d)%nat. Proof. intros H. apply H. Qed.
Lemma ids_In t u : In u (everything t) -> In (eid u) (ids t). Proof. intros H. rewrite ids_everything. now apply in_map. Qed.
Lemma ids_has d t j : wf d -> has d t -> In j (ids t) -> (j < d_next d)%nat.
Proof. intros H Ht Hj. rewrite ids_everything in Hj. apply in_map_iff in Hj as (u & <- & Hu). apply wf_has; [exact H|]. now apply (elements_sub _ t). Qed.
Lemma has_kid d t k : has d t -> In k (ekids t) -> has d k. Proof. apply elements_kid. Qed.
Lemma kid_apart d t k : wf d -> has d t -> In k (ekids t) -> ~ In (eid t) (ids k).
Proof.
  intros H Ht Hk Hi. rewrite ids_everything in Hi. apply in_map_iff in Hi as (q & E & Hq). pose proof (wf_unique d H) as Hu.
  assert (q = t) as -> by (apply (unique_inj (d_forest d)); auto; apply (elements_sub _ k); [now apply (has_kid d t)|exact Hq]).
  assert (S1 : forall a b, In a (everything b) -> (List.length (everything a) <= List.length (everything b))%nat).
  { clear. intros a b. revert a. induction b as [i g at' x k IH] using elem_ind'. intros a Ha. rewrite everything_eq in Ha. destruct Ha as [<-|Ha]; [apply le_n|]. rewrite (everything_eq (El i g at' x k)). cbn [List.length ekids] in *. apply in_flat_map in Ha as (c & Hc & Ha). rewrite Forall_forall in IH. specialize (IH c Hc a Ha).
    assert (List.length (everything c) <= List.length (flat_map everything k))%nat; [|lia]. clear -Hc. induction k as [|y k IHk]; [destruct Hc|]. cbn [flat_map]. rewrite app_length. destruct Hc as [->|Hc]; [lia|]. specialize (IHk Hc). lia. }
  specialize (S1 t k Hq). rewrite (everything_eq t) in S1. cbn [List.length] in S1.
  assert (List.length (everything k) <= List.length (flat_map everything (ekids t)))%nat; [|lia]. clear -Hk. induction (ekids t) as [|y l IHk]; [destruct Hk|]. cbn [flat_map]. rewrite app_length. destruct Hk as [->|Hc]; [lia|]. specialize (IHk Hc). lia.
Qed.

(** *** One element's children change: the shape of most operations *)
(** From [d] to [d'] element [p] has children [k] instead (same tag, attributes, text); all other old elements keep their row. *)
Definition rekids (d d' : db) (p : elem) (k : list elem) : Prop :=
  wf d' /\ same_meta d d' /\ (d_next d <= d_next d')%nat /\ hd_error (rts d') = hd_error (rts d) /\ has d' (set_kids k p) /\
  forall j, (j < d_next d)%nat -> j <> eid p -> lk d' j = lk d j.
Lemma rekids_keeps d d' p k u : wf d -> rekids d d' p k -> has d u -> ~ In (eid p) (ids u) -> has d' u.
Proof.
  intros H (H1 & H2 & H3 & H4 & H5 & H6) Hu Hn. apply (same_tree (d_forest d)); auto using wf_unique. intros j Hj. apply H6; [now apply (ids_has d u)|]. intros ->. auto.
Qed.
Lemma set_kids_row k t : row_of (set_kids k t) = with_kids (map eid k) (row_of t). Proof. now destruct t. Qed.
Lemma set_kids_eid k t : eid (set_kids k t) = eid t. Proof. now destruct t. Qed.
Lemma set_kids_ekids k t : ekids (set_kids k t) = k. Proof. now destruct t. Qed.
Lemma set_kids_etag k t : etag (set_kids k t) = etag t. Proof. now destruct t. Qed.
Lemma set_kids_eattrs k t : eattrs (set_kids k t) = eattrs t. Proof. now destruct t. Qed.
Lemma set_kids_etext k t : etext (set_kids k t) = etext t. Proof. now destruct t. Qed.
Lemma set_kids_set k k' t : set_kids k (set_kids k' t) = set_kids k t. Proof. now destruct t. Qed.
Lemma set_kids_id t : set_kids (ekids t) t = t. Proof. now destruct t. Qed.
Lemma build_kids d p r k : wf d -> lk d (eid p) = Some r -> r = with_kids (map eid k) (row_of p) -> (forall c, In c k -> has d c) -> has d (set_kids k p).
Proof. intros H E -> Hk. destruct p as [i g a x kk]. apply (look_build (d_forest d) i _ k (wf_unique d H) E); auto. Qed.
Lemma rekids_trans d d1 d2 p k k' : rekids d d1 p k -> rekids d1 d2 (set_kids k p) k' -> rekids d d2 p k'.
Proof.
  intros (H1 & H2 & H3 & H4 & H5 & H6) (G1 & G2 & G3 & G4 & G5 & G6). rewrite set_kids_set in G5. rewrite set_kids_eid in G6. split; [exact G1|]. split; [eapply same_meta_trans; eauto|]. split; [lia|]. split; [congruence|]. split; [exact G5|].
  intros j Hj Hn. rewrite G6 by (auto; lia). auto.
Qed.
Lemma rekids_refl d p : wf d -> has d p -> rekids d d p (ekids p).
Proof. intros H Hp. rewrite <- (set_kids_id p) in Hp. split; [exact H|]. split; [apply same_meta_refl|]. split; [lia|]. split; [reflexivity|]. split; [exact Hp|reflexivity]. Qed.
Definition drop (c : nat) (l : list elem) : list elem := filter (fun u => negb (eid u =? c)%nat) l.
Lemma drop_ids c l : map eid (drop c l) = without c (map eid l).
Proof. unfold drop, without. induction l as [|x l IH]; [reflexivity|]. cbn. destruct (negb _); cbn; now rewrite IH. Qed.
Lemma remove_rekids d p c : wf d -> has d p -> In c (map eid (ekids p)) ->
  exists d', lx_remove (eid p) c d = (Ok tt, d') /\ rekids d d' p (drop c (ekids p)) /\ d_next d' = d_next d /\ rts d' = rts d ++ [c].
Proof.
  intros H Hp Hc. destruct (remove_run d p c H Hp Hc) as (d' & E & H1 & H2 & H3 & H4 & H5 & H6). exists d'. split; [exact E|]. split; [|auto]. split; [exact H1|]. split; [exact H2|]. split; [lia|]. split; [rewrite H4; destruct H as (H & _); destruct (d_forest d); [congruence|reflexivity]|]. split; [|auto].
  apply (build_kids d' p _ _ H1 H5); [now rewrite drop_ids|]. intros u Hu. apply filter_In in Hu as [Hu _]. apply (same_tree (d_forest d)); auto using wf_unique; [now apply (has_kid d p)|]. intros j Hj. apply H6. intros ->. revert Hj. now apply kid_apart with (d := d).
Qed.
Lemma append_new_rekids d p x : wf d -> has d p ->
  exists t d', lx_append_new (eid p) x d = (Ok (d_next d), d') /\ eid t = d_next d /\ erase t = x /\ rekids d d' p (ekids p ++ [t]) /\ rts d' = rts d /\ (forall j, In j (ids t) -> (d_next d <= j < d_next d')%nat).
Proof.
  intros H Hp. destruct (new_run d x H) as (t & d1 & E1 & Et & Ex & EF & W1 & M1 & N1 & T1 & R1 & I1 & L1). pose proof (wf_unique _ W1) as Hu1.
  assert (Hp1 : has d1 p) by (rewrite EF, elements_app; apply in_or_app; now left). pose proof (wf_has _ _ H Hp) as Lp.
  assert (Hn : ~ In (eid p) (ids t)) by (intros G; apply I1 in G; lia).
  assert (Hdoc : is_doc (d_forest d1) (eid t) = false). { rewrite EF. destruct H as (H & _ & H3). destruct (d_forest d) as [|r F] eqn:E; [congruence|]. cbn. apply Nat.eqb_neq. specialize (H3 r (elements_root (r :: F) r (or_introl eq_refl))). lia. }
  destruct (append_run d1 p t W1 Hp1 T1 Hn Hdoc) as (d2 & E2 & W2 & M2 & N2 & R2 & L2). exists t, d2. unfold lx_append_new, mbind. rewrite E1. cbn [fst snd]. rewrite <- Et at 1. rewrite E2. cbn. split; [reflexivity|]. split; [exact Et|]. split; [exact Ex|].
  assert (Hrow : forall j r, lk d j = Some r -> ~ In (d_next d) (r_kids r)).
  { intros j r E Hi. apply look_elem in E; [|apply H]. destruct E as (u & Hu & _ & <-). cbn in Hi. apply in_map_iff in Hi as (c & E & Hc). pose proof (wf_has _ c H (has_kid _ _ _ Hu Hc)). lia. }
  assert (Hother : forall j, (j < d_next d)%nat -> j <> eid p -> lk d2 j = lk d j).
  { intros j Hj Hne. rewrite L2, L1 by exact Hj. destruct (lk d j) as [r|] eqn:E; [|reflexivity]. cbn. unfold move_row. destruct (Nat.eqb_spec j (eid p)); [congruence|]. rewrite without_absent; [now rewrite with_kids_id|]. rewrite Et. now apply (Hrow j). }
  assert (Ht2 : has d2 t).
  { apply (same_tree (d_forest d1)); auto using wf_unique. intros j Hj. rewrite L2. destruct (lk d1 j) as [r|] eqn:E; [|reflexivity]. cbn. unfold move_row. destruct (Nat.eqb_spec j (eid p)) as [->|]; [tauto|]. rewrite without_absent; [now rewrite with_kids_id|].
    apply look_elem in E; [|exact Hu1]. destruct E as (u & Hu & _ & <-). cbn. apply (root_no_parent (d_forest d1)); auto. rewrite EF. apply in_or_app. right. now left. }
  split; [|split].
  - split; [exact W2|]. split; [eapply same_meta_trans; eauto|]. split; [lia|]. split.
    + rewrite R2, R1, Et. unfold without. rewrite filter_app. cbn [filter]. rewrite Nat.eqb_refl. cbn [negb]. rewrite app_nil_r. destruct H as (H & _ & H3). destruct (d_forest d) as [|r F] eqn:E; [congruence|]. cbn. specialize (H3 r (elements_root (r :: F) r (or_introl eq_refl))). destruct (Nat.eqb_spec (eid r) (d_next d)); [lia|]. reflexivity.
    + split; [|exact Hother]. apply (build_kids d2 p (with_kids (map eid (ekids p) ++ [eid t]) (row_of p))); [exact W2| | |].
      * rewrite L2, L1 by exact Lp. rewrite (look_self _ p (wf_unique _ H) Hp). cbn. unfold move_row. rewrite Nat.eqb_refl. cbn [row_of r_kids]. rewrite without_absent; [reflexivity|]. rewrite Et. apply (Hrow (eid p) (row_of p)). now apply look_self; [apply H|].
      * now rewrite map_app.
      * intros c Hc. apply in_app_iff in Hc as [Hc|[<-|[]]]; [|exact Ht2]. apply (same_tree (d_forest d)); auto using wf_unique; [now apply (has_kid d p)|]. intros j Hj. apply Hother; [apply (ids_has d c); auto; now apply (has_kid d p)|]. intros ->. revert Hj. now apply kid_apart with (d := d).
  - rewrite R2, R1, Et. unfold without. rewrite filter_app. cbn [filter]. rewrite Nat.eqb_refl. cbn [negb]. rewrite app_nil_r. apply without_absent. intros Hi. apply roots_In in Hi as (r & Hr & E). pose proof (wf_has _ r H (elements_root _ r Hr)). lia.
  - intros j Hj. apply I1 in Hj. lia.
Qed.
(** A text changes. *)
Definition retext (d d' : db) (t : elem) (v : option str) : Prop :=
  wf d' /\ same_meta d d' /\ d_next d' = d_next d /\ rts d' = rts d /\ has d' (set_text v t) /\ forall j, j <> eid t -> lk d' j = lk d j.
Lemma set_text_retext d t v : wf d -> has d t -> legal v = true -> exists d', lx_set_text (eid t) v d = (Ok tt, d') /\ retext d d' t v.
Proof.
  intros H Ht Hv. destruct (set_text_run d (eid t) t v H Ht eq_refl Hv) as (d' & E & H1 & H2 & H3 & H4 & H5 & H6). exists d'. split; [exact E|]. split; [exact H1|]. split; [exact H2|]. split; [exact H3|]. split; [exact H4|]. split; [|exact H6].
  destruct t as [i g a x k]. apply (look_build (d_forest d') i _ k (wf_unique _ H1) H5); [reflexivity|]. intros c Hc. apply (same_tree (d_forest d)); auto using wf_unique; [now apply (has_kid d (El i g a x k))|]. intros j Hj. apply H6. intros ->. revert Hj. now apply (kid_apart d (El i g a x k)).
Qed.
Lemma retext_keeps d d' t v u : wf d -> retext d d' t v -> has d u -> ~ In (eid t) (ids u) -> has d' u.
Proof. intros H (H1 & H2 & H3 & H4 & H5 & H6) Hu Hn. apply (same_tree (d_forest d)); auto using wf_unique. intros j Hj. apply H6. intros ->. auto. Qed.
Lemma set_text_illegal d i s : text_ok s = false -> lx_set_text i (Some s) d = (Err Ex_Value, d).
Proof. intros H. unfold lx_set_text. now rewrite H. Qed.
