(** Positions of entries in their group. *)
From Coq Require Import ZifyBool ZifyNat ZifyN.
From Verif Require Import Base PyStr Xml Tree XPath Time Db XPath_facts FindSpec Find_facts Find_path Find_more ApiSpec StructSpec Heap Uuid Api Prim Api_xpath Api_fields Api_custom Api_sub Api_claims Struct Struct_add Struct_find Struct_bin Struct_trash Struct_empty.

Lemma kid_group R d g i : wf d -> is_tag (lk d) $"Group" g -> is_kid d g i -> group_of R i d = (Ok (Some g), d).
Proof.
  intros H (q & Eq & Tq) K. destruct (kid_rows d g i H K) as (tp & tk & Hp & <- & I & <- & Hk). rewrite (look_self _ tp (wf_unique d H) Hp) in Eq. injection Eq as <-. change (etag tp = $"Group") in Tq.
  rewrite elements_fpre in Hp. apply in_map_iff in Hp as (n & <- & Hn). pose proof (fpre_kid _ n tk Hn I) as Hk'. change (eid tk) with (nid (Nd tk (nd_el n :: nd_up n))). rewrite (group_of_run R d _ H Hk'). cbn [nd_up List.find]. apply str_eqb_eq in Tq. rewrite Tq. reflexivity.
Qed.
Lemma first_pos_app P l1 x l2 : Forall (fun e => P e = false) l1 -> P x = true -> first_pos P (l1 ++ x :: l2) = Some (List.length l1).
Proof. induction 1 as [|a l1 Ha H IH]; intros Hx; cbn [app first_pos]; [now rewrite Hx|]. rewrite Ha, (IH Hx). reflexivity. Qed.
Lemma map_split {A B} (f : A -> B) l a b : map f l = a ++ b -> exists x y, l = x ++ y /\ map f x = a /\ map f y = b.
Proof. revert l. induction a as [|c a IH]; intros l E; [exists [], l; auto|]. destruct l as [|z l]; [discriminate|]. injection E as <- E. destruct (IH l E) as (x & y & -> & <- & <-). exists (z :: x), y. auto. Qed.
Lemma entry_row_elem d k : wf d -> has d k -> (entry_row d (eid k) <-> str_eqb (etag k) $"Entry" = true).
Proof. intros H Hk. unfold entry_row, is_tag. rewrite (look_self _ k (wf_unique d H) Hk). split; [intros (r & E & T); injection E as <-; now apply str_eqb_eq|intros T; apply str_eqb_eq in T; eauto]. Qed.
(** The index of [i]: its distance from the first entry. *)
Lemma first_entry_run d g a e l : wf d -> row_kids d g (a ++ e :: l) -> Forall (fun i => ~ entry_row d i) a -> entry_row d e -> first_entry g d = (Ok (List.length a), d).
Proof.
  intros H (q & Eq & Ek) Ha He. destruct (look_has d g q H Eq) as (t & Ht & <- & <-). cbn in Ek. apply map_split in Ek as (x & y & E1 & E2 & E3). destruct y as [|k y]; [discriminate|]. injection E3 as E3 E4.
  unfold first_entry. rewrite (mbind_ok _ _ _ _ _ (the_run d _ t H Ht eq_refl)). rewrite E1, first_pos_app.
  - rewrite <- E2, map_length. reflexivity.
  - apply Forall_forall. intros c Hc. assert (Hk : has d c) by (apply (has_kid d t); [exact Ht|rewrite E1; apply in_or_app; now left]). apply not_true_is_false. intros C. apply (entry_row_elem d c H Hk) in C. rewrite Forall_forall in Ha. apply (Ha (eid c)); [rewrite <- E2; now apply in_map|exact C].
  - subst e. apply (entry_row_elem d k H); [apply (has_kid d t); [exact Ht|rewrite E1; apply in_or_app; right; now left]|exact He].
Qed.
Lemma row_nodup d g q : wf d -> lk d g = Some q -> NoDup (r_kids q).
Proof. intros H E. destruct (look_has d g q H E) as (t & Ht & _ & <-). apply (kids_nodup (d_forest d)); [apply H|exact Ht]. Qed.
Lemma index_run R d g a x i y e l : wf d -> is_tag (lk d) $"Group" g -> row_kids d g (a ++ x ++ i :: y) -> x ++ i :: y = e :: l -> Forall (fun j => ~ entry_row d j) a -> entry_row d e ->
  index R i d = (Ok (Z.of_nat (List.length x)), d).
Proof.
  intros H Tg Kd Ex Ha He. unfold index. pose proof Kd as (q & Eq & Ek). rewrite (mbind_ok _ _ _ _ _ (kid_group R d g i H Tg ltac:(exists q; split; [exact Eq|rewrite Ek; apply in_or_app; right; apply in_or_app; right; now left]))).
  destruct (look_has d g q H Eq) as (t & Ht & Et & Eqt). rewrite (mbind_ok _ _ _ _ _ (the_run d _ t H Ht Et)). rewrite Ex in Kd. rewrite (mbind_ok _ _ _ _ _ (first_entry_run d g a e l H Kd Ha He)).
  pose proof (row_nodup d g q H Eq) as N. subst q. cbn in Ek. rewrite app_assoc in Ek. cbn in N. rewrite Ek in N. apply map_split in Ek as (u & v & E1 & E2 & E3). destruct v as [|k v]; [discriminate|]. injection E3 as E3 E4. rewrite E1, first_pos_app.
  - assert (L : List.length u = (List.length a + List.length x)%nat) by (rewrite <- (map_length eid u), E2, app_length; reflexivity). rewrite L. unfold ret. do 2 f_equal. lia.
  - apply Forall_forall. intros c Hc. apply Nat.eqb_neq. intros C. apply NoDup_remove_2 in N. apply N, in_or_app. left. rewrite <- C, <- E2. now apply in_map.
  - now apply Nat.eqb_eq.
Qed.
Lemma index_contiguous R d g a x i y b : wf d -> is_tag (lk d) $"Group" g -> contiguous d g a (x ++ i :: y) b -> index R i d = (Ok (Z.of_nat (List.length x)), d).
Proof.
  intros H Tg (Kd & He & Ha). apply Forall_app in Ha as [Ha _]. rewrite <- app_assoc in Kd. cbn [app] in Kd. destruct (x ++ i :: y) as [|e l] eqn:Ex; [destruct x; discriminate|]. 
  assert (Ee : entry_row d e) by now inversion He. apply (index_run R d g a x i (y ++ b) e (l ++ b) H Tg Kd); [|exact Ha|exact Ee]. change (i :: y ++ b) with ((i :: y) ++ b). now rewrite app_assoc, Ex.
Qed.
(** *** reindex *)
Lemma below_sets L M a j : (forall k r, L k = Some r -> exists r', M k = Some r' /\ incl (r_kids r) (r_kids r')) -> below L a j -> below M a j.
Proof.
  intros X. induction 1 as [r E|j k r B IH E Hk]; destruct (X _ _ E) as (r' & E' & I); [eapply below_self; exact E'|]. eapply below_kid; [exact IH|exact E'|]. now apply I.
Qed.
Lemma reordered_doc d d' g l : reordered d d' g l -> (forall r, lk d g = Some r -> forall k, In k l <-> In k (r_kids r)) -> forall j, in_doc d' j <-> in_doc d j.
Proof.
  intros (_ & _ & _ & R & _ & L) X j. unfold in_doc. rewrite R. split; intros (r & E & B); exists r; (split; [exact E|]); revert B; apply below_sets; intros k q Ek.
  - rewrite L in Ek. destruct (lk d k) as [q0|] eqn:E0; [|discriminate]. exists q0. split; [reflexivity|]. injection Ek as <-. destruct (Nat.eqb_spec k g) as [->|]; [|apply incl_refl]. cbn. intros z Hz. now apply (X q0 E0).
  - exists (if (k =? g)%nat then with_kids l q else q). split; [rewrite L, Ek; reflexivity|]. destruct (Nat.eqb_spec k g) as [->|]; [|apply incl_refl]. cbn. intros z Hz. now apply (X q Ek).
Qed.
Lemma without_mid i x y : ~ In i (x ++ y) -> without i (x ++ i :: y) = x ++ y.
Proof. intros N. unfold without. rewrite filter_app. cbn [filter]. rewrite Nat.eqb_refl. cbn [negb]. rewrite <- filter_app. apply (without_absent i (x ++ y) N). Qed.
Lemma insert_mid {A} n (c : A) a s b : (n <= List.length s)%nat -> insert_at (List.length a + n) c (a ++ s ++ b) = a ++ (firstn n s ++ c :: skipn n s) ++ b.
Proof.
  intros Hn. unfold insert_at. rewrite firstn_app, (firstn_all2 a) by lia. rewrite skipn_app, (skipn_all2 a) by lia. replace (List.length a + n - List.length a)%nat with n by lia. rewrite firstn_app, skipn_app. replace (n - List.length s)%nat with O by lia. cbn [firstn skipn app]. rewrite app_nil_r. rewrite <- !app_assoc. reflexivity.
Qed.
Lemma reindex_run R d g a x i y b n : wf d -> is_tag (lk d) $"Group" g -> contiguous d g a (x ++ i :: y) b -> (n <= List.length (x ++ y))%nat ->
  exists d', reindex R i (Z.of_nat n) d = (Ok tt, d') /\ wf d' /\ reordered d d' g (a ++ (firstn n (x ++ y) ++ i :: skipn n (x ++ y)) ++ b) /\
    contiguous d' g a (firstn n (x ++ y) ++ i :: skipn n (x ++ y)) b /\ is_tag (lk d') $"Group" g.
Proof.
  intros H Tg Hc Hn. pose proof Hc as (Kd & He & Ha). pose proof Kd as (q & Eq & Ek). pose proof (row_nodup d g q H Eq) as N. assert (Kg : is_kid d g i) by (exists q; split; [exact Eq|rewrite Ek; apply in_or_app; right; apply in_or_app; left; apply in_or_app; right; now left]).
  unfold reindex. rewrite (mbind_ok _ _ _ _ _ (kid_group R d g i H Tg Kg)). assert (Ff : first_entry g d = (Ok (List.length a), d)).
  { apply Forall_app in Ha as [Ha _]. destruct (x ++ i :: y) as [|e l] eqn:Ex; [destruct x; discriminate|]. assert (Ee : entry_row d e) by now inversion He. now apply (first_entry_run d g a e (l ++ b) H Kd). }
  rewrite (mbind_ok _ _ _ _ _ Ff). destruct (kid_rows d g i H Kg) as (tp & ti & Hp & <- & Ii & <- & Hi). rewrite (look_self _ tp (wf_unique d H) Hp) in Eq. injection Eq as <-. cbn in Ek, N.
  assert (Nx : ~ In (eid ti) ((a ++ x) ++ y ++ b)). { rewrite Ek in N. replace (a ++ (x ++ eid ti :: y) ++ b) with ((a ++ x) ++ eid ti :: (y ++ b)) in N by (rewrite <- !app_assoc; reflexivity). now apply NoDup_remove_2 in N. }
  assert (Ew : without (eid ti) (map eid (ekids tp)) = a ++ (x ++ y) ++ b). { rewrite Ek. replace (a ++ (x ++ eid ti :: y) ++ b) with ((a ++ x) ++ eid ti :: (y ++ b)) by (rewrite <- !app_assoc; reflexivity). rewrite without_mid by exact Nx. rewrite <- !app_assoc. reflexivity. }
  destruct (remove_run d tp (eid ti) H Hp ltac:(now apply in_map)) as (d1 & E1 & W1 & (M1 & M2 & M3) & N1 & R1 & L1 & O1). rewrite (mbind_ok _ _ _ _ _ E1). rewrite Ew in L1.
  destruct (look_has d1 _ _ W1 L1) as (p1 & Hp1 & Ep1 & Rp1). assert (Kp1 : map eid (ekids p1) = a ++ (x ++ y) ++ b) by (change (map eid (ekids p1)) with (r_kids (row_of p1)); rewrite Rp1; reflexivity).
  destruct (kid_below d _ _ H Kg) as [_ Nb]. assert (Ni : ~ In (eid tp) (ids ti)) by (intros X; apply Nb; now apply below_ids; [apply H| |]).
  assert (Hi1 : has d1 ti). { apply (same_tree (d_forest d)); auto using wf_unique. intros j Hj. apply O1. intros ->. contradiction. }
  assert (Hdoc : is_doc (d_forest d1) (eid ti) = false).
  { destruct (d_forest d) as [|r0 F0] eqn:EF; [destruct H; congruence|]. assert (X : hd_error (rts d1) = Some (eid r0)) by (rewrite R1; reflexivity). unfold is_doc. destruct (d_forest d1) as [|r1 F1]; [reflexivity|]. cbn in X. injection X as X. rewrite X. apply Nat.eqb_neq. intros C. rewrite <- EF in Hp. apply (root_not_child d r0 tp H); [rewrite EF; now left|exact Hp|rewrite C; now apply in_map]. }
  rewrite <- Ep1 in Ni. destruct (insert_run d1 p1 ti (Z.of_nat n + Z.of_nat (List.length a))%Z W1 Hp1 Hi1 Ni Hdoc) as (d2 & E2 & W2 & (P1 & P2 & P3) & N2 & R2 & L2). rewrite Ep1 in E2. exists d2. split; [exact E2|]. split; [exact W2|].
  assert (Lp : lx_pos (List.length (ekids p1)) (Z.of_nat n + Z.of_nat (List.length a)) = (List.length a + n)%nat). { unfold lx_pos. rewrite (proj2 (Z.leb_le _ _)) by lia. assert (List.length (ekids p1) = (List.length a + (List.length (x ++ y) + List.length b))%nat) by (rewrite <- (map_length eid), Kp1, !app_length; reflexivity). lia. }
  set (es := firstn n (x ++ y) ++ eid ti :: skipn n (x ++ y)).
  assert (Rows : forall j, lk d2 j = option_map (fun r => if (j =? eid tp)%nat then with_kids (a ++ es ++ b) r else r) (lk d j)).
  { intros j. rewrite L2. destruct (Nat.eqb_spec j (eid tp)) as [->|Nj].
    - rewrite L1, (look_self _ tp (wf_unique d H) Hp). cbn [option_map]. f_equal. unfold move_row. cbn [r_kids with_kids]. rewrite Ep1, Nat.eqb_refl. rewrite without_absent; [|intros X; apply Nx; rewrite <- !app_assoc in X |- *; exact X]. rewrite Lp, insert_mid by exact Hn. reflexivity.
    - rewrite O1 by exact Nj. destruct (lk d j) as [r|] eqn:Ej; [|reflexivity]. cbn [option_map]. f_equal. unfold move_row. rewrite Ep1. apply Nat.eqb_neq in Nj as Nj'. rewrite Nj'. rewrite without_less, (less_id d (eid tp) (eid ti) H Kg j r Ej Nj). apply with_kids_id. }
  assert (Tags : forall j, entry_row d2 j <-> entry_row d j). { intros j. unfold entry_row, is_tag. rewrite Rows. destruct (lk d j) as [r|]; [|reflexivity]. cbn [option_map]. split; intros (r' & E & T); injection E as <-; eexists; (split; [reflexivity|]); destruct (j =? eid tp)%nat; exact T. }
  assert (RK : row_kids d2 (eid tp) (a ++ es ++ b)). { exists (with_kids (a ++ es ++ b) (row_of tp)). split; [rewrite Rows, Nat.eqb_refl, (look_self _ tp (wf_unique d H) Hp); reflexivity|reflexivity]. }
  split; [|split].
  - split; [congruence|]. split; [congruence|]. split; [congruence|]. split; [|split; [exact RK|exact Rows]].
    rewrite R2, R1. destruct (rts d) as [|r0 l0] eqn:Er; [destruct H as [H _]; destruct (d_forest d); [congruence|discriminate Er]|]. unfold without. cbn [app filter]. destruct (Nat.eqb_spec r0 (eid ti)) as [->|]; [|reflexivity]. exfalso. destruct (d_forest d) as [|rr F] eqn:EF; [discriminate|]. injection Er as Er _. rewrite <- EF in Hp. apply (root_not_child d rr tp H); [rewrite EF; now left|exact Hp|rewrite Er; now apply in_map].
  - split; [exact RK|]. split; [|eapply Forall_impl; [|exact Ha]; cbv beta; intros j Hj; now rewrite Tags].
    apply Forall_forall. intros j Hj. apply Tags. rewrite Forall_forall in He. apply He. unfold es in Hj. apply in_app_or in Hj as [Hj|[<-|Hj]].
    + assert (I : In j (x ++ y)) by (rewrite <- (firstn_skipn n (x ++ y)); apply in_or_app; now left). apply in_app_or in I as [I|I]; apply in_or_app; [now left|right; now right].
    + apply in_or_app. right. now left.
    + assert (I : In j (x ++ y)) by (rewrite <- (firstn_skipn n (x ++ y)); apply in_or_app; now right). apply in_app_or in I as [I|I]; apply in_or_app; [now left|right; now right].
  - destruct Tg as (qg & Eg & Tg). exists (with_kids (a ++ es ++ b) qg). split; [rewrite Rows, Eg, Nat.eqb_refl; reflexivity|exact Tg].
Qed.
Lemma reindex_claim R d g a x i y b n : wf d -> is_tag (lk d) $"Group" g -> contiguous d g a (x ++ i :: y) b -> (n <= List.length (x ++ y))%nat ->
  exists d', reindex R i (Z.of_nat n) d = (Ok tt, d') /\ wf d' /\ reordered d d' g (a ++ (firstn n (x ++ y) ++ i :: skipn n (x ++ y)) ++ b) /\ index R i d' = (Ok (Z.of_nat n), d') /\ (forall j, in_doc d' j <-> in_doc d j).
Proof.
  intros H Tg Hc Hn. destruct (reindex_run R d g a x i y b n H Tg Hc Hn) as (d' & E & W & Ro & Cn & Tg'). exists d'. split; [exact E|]. split; [exact W|]. split; [exact Ro|]. split.
  - rewrite (index_contiguous R d' g a (firstn n (x ++ y)) i (skipn n (x ++ y)) b W Tg' Cn). now rewrite firstn_length_le.
  - apply (reordered_doc d d' g _ Ro). intros r Er k. destruct Hc as ((q & Eq & Ek) & _). rewrite Er in Eq. injection Eq as <-. rewrite Ek, !in_app_iff. cbn [In]. assert (X : In k (firstn n (x ++ y)) \/ In k (skipn n (x ++ y)) <-> In k x \/ In k y) by (rewrite <- !in_app_iff, firstn_skipn; reflexivity). tauto.
Qed.
