(** Emptying a group. *)
From Coq Require Import ZifyBool ZifyNat ZifyN.
From Verif Require Import Base PyStr Xml Tree XPath Time Db XPath_facts FindSpec Find_facts Find_path Find_more ApiSpec StructSpec Heap Uuid Api Prim Api_xpath Api_fields Api_custom Api_sub Api_claims Struct Struct_add Struct_find Struct_bin Struct_trash.

Lemma kid_rows d p k : wf d -> is_kid d p k -> exists tp tk, has d tp /\ eid tp = p /\ In tk (ekids tp) /\ eid tk = k /\ has d tk.
Proof.
  intros H (q & E & I). destruct (look_has d p q H E) as (tp & Hp & Ep & <-). cbn in I. apply in_map_iff in I as (tk & Ek & Ik). exists tp, tk. repeat (split; [assumption|]). now apply (has_kid d tp).
Qed.
Lemma filter_filter {A} (f g : A -> bool) l : filter f (filter g l) = filter (fun x => g x && f x) l.
Proof. induction l as [|a l IH]; [reflexivity|]. cbn [filter]. destruct (g a) eqn:E; cbn [filter andb]; [|exact IH]. now rewrite IH. Qed.
Lemma filter_same {A} (f g : A -> bool) l : (forall x, In x l -> f x = g x) -> filter f l = filter g l.
Proof. induction l as [|a l IH]; intros H; [reflexivity|]. cbn [filter]. now rewrite (H a (or_introl eq_refl)), (IH (fun x Hx => H x (or_intror Hx))). Qed.
Lemma filter_yes {A} (f : A -> bool) l : (forall x, f x = true) -> filter f l = l.
Proof. intros H. induction l as [|a l IH]; [reflexivity|]. cbn [filter]. now rewrite H, IH. Qed.
Lemma filter_length_le {A} (f : A -> bool) l : (List.length (filter f l) <= List.length l)%nat.
Proof. induction l as [|a l IH]; [reflexivity|]. cbn [filter]. destruct (f a); cbn [List.length]; lia. Qed.
(** Deleting one child [k] of [g]. *)
Lemma delete_one d g k : wf d -> in_doc d g -> is_kid d g k ->
  exists d', delete k d = (Ok tt, d') /\ wf d' /\ dropped d d' g (fun j => (j =? k)%nat) /\ (forall j, in_doc d' j <-> in_doc d j /\ ~ below (lk d) k j) /\ (forall j, lk d j = None -> lk d' j = None).
Proof.
  intros H Hg K. destruct (delete_claim d g k H Hg K) as (d' & E & W & (M1 & M2 & M3 & R & L) & D). exists d'. split; [exact E|]. split; [exact W|]. split; [|split; [exact D|]].
  - split; [exact M1|]. split; [exact M2|]. split; [exact M3|]. split; [exact R|]. intros j r Ej. rewrite (L j r Ej). destruct (Nat.eqb_spec j g) as [->|N]; [reflexivity|]. rewrite (less_id d g k H K j r Ej N). now rewrite with_kids_id.
  - intros j Ej. destruct (lk d' j) eqn:E'; [|reflexivity]. exfalso. apply (delete_same d g k d' H K E j); congruence.
Qed.
(** Subtrees below the remaining children are the same. *)
Lemma dropped_below d d' g D k j : wf d -> wf d' -> dropped d d' g D -> (forall i, lk d i = None -> lk d' i = None) -> is_kid d g k -> D k = false -> (below (lk d') k j <-> below (lk d) k j).
Proof.
  intros H W (_ & _ & _ & _ & L) _ K Dk. destruct (kid_rows d g k H K) as (tp & tk & Hp & <- & I & <- & Hk).
  assert (Hk' : has d' tk). { apply (same_tree (d_forest d)); auto using wf_unique. intros i Hi. assert (exists q, lk d i = Some q) as (q & Eq) by (apply (below_look (d_forest d) (eid tk)); [apply H|now apply below_ids; [apply H| |]]). rewrite (L i q Eq), Eq. destruct (Nat.eqb_spec i (eid tp)) as [->|]; [|reflexivity]. exfalso. apply (below_ids _ tk _ (wf_unique _ H) Hk) in Hi. destruct (kid_below d _ _ H K) as [_ X]. contradiction. }
  rewrite (below_ids _ tk j (wf_unique _ W) Hk'), (below_ids _ tk j (wf_unique _ H) Hk). reflexivity.
Qed.
Definition gone (d : db) (g : nat) (D : nat -> bool) (j : nat) : Prop := exists k, is_kid d g k /\ D k = true /\ below (lk d) k j.
Lemma dropped_trans d d1 d2 g D1 D2 D : dropped d d1 g D1 -> dropped d1 d2 g D2 -> (forall r k, lk d g = Some r -> In k (r_kids r) -> D k = D1 k || D2 k) -> dropped d d2 g D.
Proof.
  intros (A1 & A2 & A3 & A4 & A5) (B1 & B2 & B3 & B4 & B5) X. split; [congruence|]. split; [congruence|]. split; [congruence|]. split; [congruence|]. intros j r E. rewrite (B5 _ _ (A5 j r E)). f_equal. destruct (Nat.eqb_spec j g) as [->|]; [|reflexivity].
  cbn. unfold with_kids. cbn [r_tag r_attrs r_text r_kids]. f_equal. rewrite filter_filter. apply filter_same. intros k Hk. rewrite (X r k E Hk), negb_orb. reflexivity.
Qed.
Lemma empty_loop_run T g : forall n d, wf d -> in_doc d g -> (List.length (kids_tagged (lk d) T g) < n)%nat ->
  exists d', empty_loop n T g d = (Ok tt, d') /\ wf d' /\ dropped d d' g (tagb (lk d) T) /\ (forall j, in_doc d' j <-> in_doc d j /\ ~ gone d g (tagb (lk d) T) j) /\ (forall j, lk d j = None -> lk d' j = None).
Proof.
  induction n as [|n IH]; intros d H Hg Ln; [lia|]. cbn [empty_loop]. destruct (in_doc_has d g H Hg) as (t & Ht & <-). rewrite (mbind_ok _ _ _ _ _ (the_run d _ t H Ht eq_refl)).
  rewrite (kids_tagged_of d t T H Ht), map_length in Ln. destruct (kids_of T t) as [|k l] eqn:Ek.
  - exists d. split; [reflexivity|]. split; [exact H|]. assert (X : forall c, In c (map eid (ekids t)) -> tagb (lk d) T c = false).
    { intros c Hc. destruct (tagb (lk d) T c) eqn:Ec; [|reflexivity]. exfalso. assert (I : In c (kids_tagged (lk d) T (eid t))) by (unfold kids_tagged; rewrite (look_self _ t (wf_unique d H) Ht); apply filter_In; split; assumption). rewrite (kids_tagged_of d t T H Ht), Ek in I. destruct I. }
    split; [|split; [|auto]].
    + repeat (split; [reflexivity|]). intros j r Ej. rewrite Ej. destruct (Nat.eqb_spec j (eid t)) as [->|]; [|reflexivity]. rewrite (look_self _ t (wf_unique d H) Ht) in Ej. injection Ej as <-. f_equal. rewrite (filter_same _ (fun _ => true)) by (intros c Hc; rewrite (X c Hc); reflexivity). rewrite filter_yes by reflexivity. symmetry. apply with_kids_id.
    + intros j. split; [|tauto]. intros Hj. split; [exact Hj|]. intros (c & (q & Eq & Hc) & Dc & _). rewrite (look_self _ t (wf_unique d H) Ht) in Eq. injection Eq as <-. cbn in Hc. rewrite (X c Hc) in Dc. discriminate.
  - assert (Ik : In k (kids_of T t)) by (rewrite Ek; now left). apply kids_of_in in Ik as [Ik Tk]. assert (Kk : is_kid d (eid t) (eid k)) by (exists (row_of t); split; [now apply look_self; [apply H|]|cbn; now apply in_map]).
    destruct (delete_one d (eid t) (eid k) H Hg Kk) as (d1 & E1 & W1 & P1 & D1 & N1). rewrite (mbind_ok _ _ _ _ _ E1).
    assert (Hg1 : in_doc d1 (eid t)) by (apply D1; split; [exact Hg|apply (kid_below d _ _ H Kk)]).
    assert (Tg : forall c r, lk d c = Some r -> tagb (lk d1) T c = tagb (lk d) T c). { intros c r Ec. destruct P1 as (_ & _ & _ & _ & L). unfold tagb. rewrite (L c r Ec), Ec. destruct (c =? eid t)%nat; reflexivity. }
    assert (Kl : kids_tagged (lk d1) T (eid t) = filter (fun c => negb (c =? eid k)%nat) (kids_tagged (lk d) T (eid t))).
    { pose proof P1 as (_ & _ & _ & _ & L). unfold kids_tagged. pose proof (look_self _ t (wf_unique d H) Ht) as Et. rewrite (L _ _ Et), Nat.eqb_refl, Et. cbn [r_kids with_kids]. rewrite !filter_filter. apply filter_same. intros c Hc. rewrite andb_comm. f_equal. destruct (kid_look d (eid t) c H) as (r & Er); [exists (row_of t); auto|]. apply (Tg c r Er). }
    destruct (IH d1 W1 Hg1) as (d2 & E2 & W2 & P2 & D2 & N2).
    { rewrite Kl, (kids_tagged_of d t T H Ht), Ek. cbn [map filter]. rewrite Nat.eqb_refl. cbn [negb]. cbn [List.length] in Ln. pose proof (filter_length_le (fun c => negb (c =? eid k)%nat) (map eid l)). rewrite map_length in *. lia. }
    exists d2. split; [exact E2|]. split; [exact W2|].
    assert (Tkb : tagb (lk d) T (eid k) = true) by (unfold tagb; rewrite (look_self _ k (wf_unique d H) (has_kid d t k Ht Ik)); apply str_eqb_eq; exact Tk).
    split; [|split].
    + apply (dropped_trans d d1 d2 (eid t) _ _ _ P1 P2). intros r c Er Hc. destruct (Nat.eqb_spec c (eid k)) as [->|Nc]; [now rewrite Tkb|]. destruct (kid_look d (eid t) c H) as (rc & Erc); [exists r; auto|]. cbn [orb]. symmetry. apply (Tg c rc Erc).
    + intros j. rewrite D2, D1.
      assert (Kc : forall c, is_kid d1 (eid t) c <-> is_kid d (eid t) c /\ c <> eid k).
      { intros c. pose proof P1 as (_ & _ & _ & _ & L). pose proof (look_self _ t (wf_unique d H) Ht) as Et. specialize (L _ _ Et). rewrite Nat.eqb_refl in L. unfold is_kid. rewrite L, Et. split.
        - intros (r & Er & Hc). injection Er as <-. cbn in Hc. apply filter_In in Hc as [Hc1 Hc2]. apply negb_true_iff, Nat.eqb_neq in Hc2. split; [eexists; split; [reflexivity|exact Hc1]|exact Hc2].
        - intros [(r & Er & Hc) Nc]. injection Er as <-. eexists. split; [reflexivity|]. cbn. apply filter_In. split; [exact Hc|]. now apply negb_true_iff, Nat.eqb_neq. }
      split.
      * intros [[Dj Nk] Ng]. split; [exact Dj|]. intros (c & Kc0 & Tc & Bc). destruct (Nat.eq_dec c (eid k)) as [->|Nc]; [contradiction|]. apply Ng. exists c. split; [apply Kc; auto|]. destruct (kid_look d (eid t) c H Kc0) as (rc & Erc). split; [rewrite (Tg c rc Erc); exact Tc|]. apply (dropped_below d d1 (eid t) _ c j H W1 P1 N1 Kc0); [now apply Nat.eqb_neq|exact Bc].
      * intros [Dj Ng]. split; [split; [exact Dj|]|].
        -- intros B. apply Ng. exists (eid k). auto.
        -- intros (c & Kc0 & Tc & Bc). apply Kc in Kc0 as [Kc0 Nc]. apply Ng. exists c. split; [exact Kc0|]. destruct (kid_look d (eid t) c H Kc0) as (rc & Erc). split; [rewrite <- (Tg c rc Erc); exact Tc|]. apply (dropped_below d d1 (eid t) _ c j H W1 P1 N1 Kc0); [now apply Nat.eqb_neq|exact Bc].
    + intros j Ej. apply N2, N1, Ej.
Qed.
Definition itemb (L : nat -> option row) (k : nat) : bool := tagb L $"Group" k || tagb L $"Entry" k.
Lemma empty_group_claim d g : wf d -> in_doc d g ->
  exists d', empty_group g d = (Ok tt, d') /\ wf d' /\ dropped d d' g (itemb (lk d)) /\ (forall j, in_doc d' j <-> in_doc d j /\ ~ gone d g (itemb (lk d)) j).
Proof.
  intros H Hg. destruct (in_doc_has d g H Hg) as (t & Ht & <-). unfold empty_group. rewrite (mbind_ok _ _ _ _ _ (the_run d _ t H Ht eq_refl)).
  assert (Lk : forall T, (List.length (kids_tagged (lk d) T (eid t)) <= List.length (ekids t))%nat) by (intros T; rewrite (kids_tagged_of d t T H Ht), map_length; apply filter_length_le).
  destruct (empty_loop_run $"Group" (eid t) (S (List.length (ekids t))) d H Hg) as (d1 & E1 & W1 & P1 & D1 & N1); [specialize (Lk $"Group"); lia|]. rewrite (mbind_ok _ _ _ _ _ E1).
  assert (Tg : forall T c r, lk d c = Some r -> tagb (lk d1) T c = tagb (lk d) T c). { intros T c r Ec. destruct P1 as (_ & _ & _ & _ & L). unfold tagb. rewrite (L c r Ec), Ec. destruct (c =? eid t)%nat; reflexivity. }
  assert (Hg1 : in_doc d1 (eid t)). { apply D1. split; [exact Hg|]. intros (c & Kc & _ & B). destruct (kid_below d _ _ H Kc) as [_ X]. contradiction. }
  assert (L1 : (List.length (kids_tagged (lk d1) $"Entry" (eid t)) < S (List.length (ekids t)))%nat).
  { pose proof P1 as (_ & _ & _ & _ & L). pose proof (look_self _ t (wf_unique d H) Ht) as Et. unfold kids_tagged. rewrite (L _ _ Et), Nat.eqb_refl. cbn [r_kids with_kids row_of]. rewrite filter_filter. pose proof (filter_length_le (fun x => negb (tagb (lk d) $"Group" x) && tagb (lk d1) $"Entry" x) (map eid (ekids t))). rewrite map_length in *. lia. }
  destruct (empty_loop_run $"Entry" (eid t) (S (List.length (ekids t))) d1 W1 Hg1 L1) as (d2 & E2 & W2 & P2 & D2 & N2). exists d2. split; [exact E2|]. split; [exact W2|]. split.
  - apply (dropped_trans d d1 d2 (eid t) _ _ _ P1 P2). intros r c Er Hc. unfold itemb. destruct (kid_look d (eid t) c H) as (rc & Erc); [exists r; auto|]. now rewrite (Tg _ c rc Erc).
  - intros j. rewrite D2, D1.
    assert (Kc : forall c, is_kid d1 (eid t) c <-> is_kid d (eid t) c /\ tagb (lk d) $"Group" c = false).
    { intros c. pose proof P1 as (_ & _ & _ & _ & L). pose proof (look_self _ t (wf_unique d H) Ht) as Et. specialize (L _ _ Et). rewrite Nat.eqb_refl in L. unfold is_kid. rewrite L, Et. split.
      - intros (r & Er & Hc). injection Er as <-. cbn in Hc. apply filter_In in Hc as [Hc1 Hc2]. apply negb_true_iff in Hc2. split; [eexists; split; [reflexivity|exact Hc1]|exact Hc2].
      - intros [(r & Er & Hc) Nc]. injection Er as <-. eexists. split; [reflexivity|]. cbn. apply filter_In. split; [exact Hc|]. now apply negb_true_iff. }
    assert (Bl : forall c, is_kid d (eid t) c -> tagb (lk d) $"Group" c = false -> (below (lk d1) c j <-> below (lk d) c j)) by (intros c K0 Hc; apply (dropped_below d d1 (eid t) _ c j H W1 P1 N1 K0 Hc)).
    split.
    + intros [[Dj Nk] Ng]. split; [exact Dj|]. intros (c & Kc0 & Tc & Bc). unfold itemb in Tc. destruct (tagb (lk d) $"Group" c) eqn:Eg; [apply Nk; exists c; auto|]. cbn [orb] in Tc. apply Ng. exists c. destruct (kid_look d (eid t) c H Kc0) as (rc & Erc). split; [apply Kc; auto|]. split; [rewrite (Tg _ c rc Erc); exact Tc|]. now apply Bl.
    + intros [Dj Ng]. split; [split; [exact Dj|]|].
      * intros (c & Kc0 & Tc & Bc). apply Ng. exists c. split; [exact Kc0|]. split; [unfold itemb; now rewrite Tc|exact Bc].
      * intros (c & Kc0 & Tc & Bc). apply Kc in Kc0 as [Kc0 Nc]. apply Ng. exists c. split; [exact Kc0|]. destruct (kid_look d (eid t) c H Kc0) as (rc & Erc). split; [unfold itemb; rewrite <- (Tg $"Entry" c rc Erc), Tc; apply orb_true_r|]. now apply Bl.
Qed.
