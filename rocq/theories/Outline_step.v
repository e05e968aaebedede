(** Every call changes the outline of every group as [effect] says; histories of calls. *)
From Coq Require Import ZifyBool ZifyNat ZifyN.
From Verif Require Import Base PyStr Xml Tree XPath Uuid Time Db FindSpec XPath_facts XPath_eval Find_facts Find_path Api ApiSpec StructSpec CredSpec Heap Prim Api_xpath Struct Struct_add Struct_empty Struct_hist Struct_claims Struct_find Struct_index Struct_trash Struct_bin Bin_xpath IntegritySpec Integrity Integrity_ops Integrity_calls Integrity_step Integrity_hist LocalSpec Local Local_step LocalEx Relabel OutlineSpec Outline_tree Outline_calm.

Lemma pic_same_on d d' t : tags_le d d' -> (forall u, In u (onodes t) -> items d' (oid u) = items d (oid u)) -> pictures d t -> pictures d' t.
Proof.
  intros Le. induction t as [b i l IH] using outline_ind'. intros H P. apply pic_inv in P as (T & I & P). constructor; [now apply Le| |].
  - rewrite <- I. apply (H (Node b i l)). now left.
  - rewrite Forall_forall in *. intros k Hk. apply (IH k Hk); [|now apply P]. intros u Hu. apply H. right. apply in_flat_map. eauto.
Qed.
Lemma items_kid d i k : In k (items d i) -> is_kid d i k.
Proof. unfold items, is_kid. destruct (lk d i) as [r|]; [|intros []]. intros H. apply filter_In in H as [H _]. eauto. Qed.
Lemma pic_below d t : pictures d t -> forall u, In u (onodes t) -> below (lk d) (oid t) (oid u).
Proof.
  induction t as [b i l IH] using outline_ind'. intros P u Hu. apply pic_inv in P as (T & I & P). destruct T as (r & Er & _). destruct Hu as [<-|Hu]; [now apply below_self with r|]. apply in_flat_map in Hu as (k & Hk & Hu). rewrite Forall_forall in *. cbn [oid].
  apply below_trans with (oid k); [|now apply IH; auto]. assert (K : is_kid d i (oid k)) by (apply items_kid; rewrite I; now apply in_map). destruct K as (q & Eq & Iq). apply below_kid with i q; [now apply below_self with r|exact Eq|exact Iq].
Qed.
Lemma pic_no_self d t u : pictures d t -> In u (onodes t) -> ~ In (oid t) (items d (oid u)).
Proof.
  intros P Hu I. pose proof (pic_sub d t P u Hu) as Pu. destruct u as [c j m]. cbn [oid] in I. pose proof (pic_inv _ _ _ _ Pu) as (_ & Im & Pm). rewrite Im in I. apply in_map_iff in I as (k & Ek & Hk). rewrite Forall_forall in Pm.
  pose proof (pic_fun d k t (Pm k Hk) P Ek) as ->. pose proof (osize_sub t _ Hu). pose proof (osize_kid t m Hk). cbn [osize] in *. lia.
Qed.
Lemma less_none i l : ~ In i l -> less i l = l. Proof. exact (without_absent i l). Qed.
Lemma less_filter (f : nat -> bool) i l : less i (filter f l) = filter f (less i l).
Proof. unfold less. rewrite !filter_filter. apply filter_same. intros x _. apply andb_comm. Qed.

(** *** Moving *)
Lemma moved_items d d' p i : wf d -> tags_le d d' -> an_item d i -> moved d d' p i (fun k c => k ++ [c]) -> forall j, an_item d j -> items d' j = less i (items d j) ++ (if (j =? p)%nat then [i] else []).
Proof.
  intros W T It (_ & _ & _ & _ & L) j Ij. assert (E : exists r, lk d j = Some r) by (destruct Ij as [(r & E & _)|(r & E & _)]; eauto). destruct E as (r & E). specialize (L j). rewrite E in L. cbn [option_map] in L. unfold move_row in L. cbv zeta in L. change (without i (r_kids r)) with (less i (r_kids r)) in L.
  assert (X : lk d i <> None) by (destruct It as [(q & Eq & _)|(q & Eq & _)]; congruence). apply itemb_item in It.
  rewrite (items_at d d' j _ W T L).
  - cbn [r_kids with_kids]. unfold items. rewrite E, less_filter. destruct (j =? p)%nat; [|now rewrite app_nil_r]. rewrite filter_app. cbn [filter]. now rewrite It.
  - cbn [r_kids with_kids]. intros k Hk. assert (Y : In k (r_kids r) \/ k = i). { destruct (j =? p)%nat; [apply in_app_iff in Hk as [Hk|[<-|[]]]; [|auto]|]; left; now apply filter_In in Hk. } destruct Y as [Y| ->]; [now apply (kids_there d j r)|exact X].
Qed.
Lemma move_step d i p r d' : sane d -> an_item d i -> a_group d p -> move i p d = (r, d') ->
  sane d' /\ tags_le d d' /\ match r with Err _ => d' = d | Ok _ => exists s, pictures d s /\ oid s = i /\ forall t, pictures d t -> pictures d' (put p s (drop i t)) end.
Proof.
  intros O It G Hr. pose proof O as [W L]. destruct (op_move (fun y => y = i) False d W i p d (ev_refl _ _ d W L) eq_refl It G r d' Hr) as [E T]. split; [split; [apply (ev_wf _ _ _ _ E)|apply E]|]. split; [exact T|].
  destruct r as [u|x]; [|unfold move, lx_append in Hr; destruct (_ || _); [congruence|discriminate Hr]].
  assert (Hi : exists e, has d e /\ eid e = i) by (destruct It as [X|X]; destruct (tag_has d _ i W X) as (e & He & Ee & _); eauto). destruct Hi as (e & He & <-). destruct (tag_has d _ p W G) as (tp & Hp & <- & _).
  assert (Np : ~ below (lk d) (eid e) (eid tp)) by (intros B; rewrite (move_refused d (eid tp) e W He B) in Hr; discriminate Hr).
  assert (M : moved d d' (eid tp) (eid e) (fun k c => k ++ [c])).
  { unfold move in Hr. destruct (is_doc (d_forest d) (eid e)) eqn:Dc; [unfold lx_append in Hr; rewrite Dc, orb_true_r in Hr; discriminate Hr|]. destruct (append_run d tp e W Hp He) as (d1 & E1 & M); [|exact Dc|].
    - intros I. apply Np. apply (below_ids (d_forest d)); [apply W|exact He|exact I].
    - rewrite E1 in Hr. injection Hr as _ <-. exact M. }
  pose proof (moved_items d d' _ _ W T It M) as Im. destruct (picture d (eid e) W It) as (s & Ps & Es). exists s. split; [exact Ps|]. split; [exact Es|].
  assert (Ps' : pictures d' s).
  { apply (pic_same_on d d' s T); [|exact Ps]. intros w Hu. rewrite Im by (apply pic_item; now apply (pic_sub d s)). rewrite less_none by (rewrite <- Es; now apply pic_no_self). destruct (Nat.eqb_spec (oid w) (eid tp)) as [X|_]; [|apply app_nil_r].
    exfalso. apply Np. rewrite <- Es, <- X. now apply pic_below. }
  intros t Pt. now apply (pic_carry d d').
Qed.
Lemma append_step p l : forall d r d', sane d -> Forall (an_item d) l -> a_group d p -> group_append p l d = (r, d') ->
  sane d' /\ tags_le d d' /\ forall t, pictures d t -> exists t', pictures d' t' /\ match r with Ok _ => carried_all d l p t t' | Err _ => exists a b, l = a ++ b /\ carried_all d a p t t' end.
Proof.
  induction l as [|i l IH]; intros d r d' O Fl G Hr.
  - injection Hr as <- <-. split; [exact O|]. split; [apply le_refl|]. intros t P. exists t. split; [exact P|reflexivity].
  - cbn [group_append] in Hr. change (lx_append p i) with (move i p) in Hr. apply Forall_cons_iff in Fl as [Fi Fl]. apply mbind_inv in Hr as [(y & Hr & ->)|(u & d1 & Hm & Hr)].
    + destruct (move_step d i p _ d' O Fi G Hr) as (O1 & T1 & ->). split; [exact O|]. split; [apply le_refl|]. intros t P. exists t. split; [exact P|]. exists [], (i :: l). split; reflexivity.
    + destruct (move_step d i p _ d1 O Fi G Hm) as (O1 & T1 & s & Ps & Es & Pm). destruct (IH d1 r d' O1) as (O2 & T2 & P2); [|now apply T1|exact Hr|].
      { eapply Forall_impl; [|exact Fl]. intros k. now apply item_le. }
      split; [exact O2|]. split; [now apply (le_trans d d1)|]. intros t P. destruct (P2 _ (Pm t P)) as (t' & P' & C). exists t'. split; [exact P'|].
      assert (Hd : snd (move i p d) = d1) by now rewrite Hm. assert (Cr : carried d i p t (put p s (drop i t))) by (exists s; auto). destruct r as [v|x].
      * cbn [carried_all]. rewrite Hd. eauto.
      * destruct C as (a & b & -> & C). exists (i :: a), b. split; [reflexivity|]. cbn [carried_all]. rewrite Hd. eauto.
Qed.

(** *** Deleting and emptying *)
Lemma delete_step d i r d' : sane d -> an_item d i \/ an_attachment d i -> delete i d = (r, d') ->
  sane d' /\ tags_le d d' /\ match r with Err _ => d' = d | Ok _ => forall t, pictures d t -> pictures d' (drop i t) end.
Proof.
  intros O It Hr. pose proof O as [W L]. destruct (ev_delete (fun _ => True) True d W i d r d' (sane_ev d O) (or_intror (or_intror Logic.I)) Hr) as [E T]. split; [split; [apply (ev_wf _ _ _ _ E)|apply E]|]. split; [exact T|].
  destruct (parent_of (d_forest d) i) as [q|] eqn:Ep; [|unfold delete in Hr; rewrite Ep in Hr; injection Hr as <- <-; reflexivity]. apply parent_of_In in Ep as [Hq Hi]; [|apply W].
  destruct (delete_run d (eid q) i W) as (d1 & E1 & W1 & (_ & _ & _ & _ & Lc) & _); [exists (row_of q); split; [now apply look_self; [apply W|]|exact Hi]|]. rewrite E1 in Hr. injection Hr as <- <-.
  intros t P. apply (pic_drop d d1 T); [|exact P]. intros j Ij. assert (X : exists x, lk d j = Some x) by (destruct Ij as [(x & X & _)|(x & X & _)]; eauto). destruct X as (x & X). rewrite (items_at d d1 j _ W T (Lc j x X)).
  - cbn [r_kids with_kids]. unfold items. now rewrite X, less_filter.
  - cbn [r_kids with_kids]. intros k Hk. apply filter_In in Hk as [Hk _]. now apply (kids_there d j x).
Qed.
Lemma empty_loop_rows T g : forall n d, wf d -> lk d g <> None -> (List.length (kids_tagged (lk d) T g) < n)%nat ->
  exists d', empty_loop n T g d = (Ok tt, d') /\ wf d' /\ forall j r, lk d j = Some r -> lk d' j = Some (if (j =? g)%nat then with_kids (filter (fun k => negb (tagb (lk d) T k)) (r_kids r)) r else r).
Proof.
  induction n as [|n IH]; intros d H Hg Ln; [lia|]. cbn [empty_loop]. destruct (lk d g) as [rg|] eqn:Eg; [clear Hg|congruence]. destruct (look_has d g rg H Eg) as (t & Ht & <- & Er). rewrite (mbind_ok _ _ _ _ _ (the_run d _ t H Ht eq_refl)).
  rewrite (kids_tagged_of d t T H Ht), map_length in Ln. destruct (kids_of T t) as [|k l] eqn:Ek.
  - exists d. split; [reflexivity|]. split; [exact H|]. assert (X : forall c, In c (map eid (ekids t)) -> tagb (lk d) T c = false).
    { intros c Hc. destruct (tagb (lk d) T c) eqn:Ec; [|reflexivity]. exfalso. assert (I : In c (kids_tagged (lk d) T (eid t))) by (unfold kids_tagged; rewrite (look_self _ t (wf_unique d H) Ht); apply filter_In; split; assumption). rewrite (kids_tagged_of d t T H Ht), Ek in I. destruct I. }
    intros j r Ej. rewrite Ej. destruct (Nat.eqb_spec j (eid t)) as [->|]; [|reflexivity]. rewrite (look_self _ t (wf_unique d H) Ht) in Ej. injection Ej as <-. f_equal. rewrite (filter_same _ (fun _ => true)) by (intros c Hc; rewrite (X c Hc); reflexivity). rewrite filter_yes by reflexivity. symmetry. apply with_kids_id.
  - assert (Ik : In k (kids_of T t)) by (rewrite Ek; now left). apply kids_of_in in Ik as [Ik Tk]. assert (Kk : is_kid d (eid t) (eid k)) by (exists (row_of t); split; [now apply look_self; [apply H|]|cbn; now apply in_map]).
    destruct (delete_run d (eid t) (eid k) H Kk) as (d1 & E1 & W1 & (_ & _ & _ & _ & Lc) & _). rewrite (mbind_ok _ _ _ _ _ E1).
    assert (L1 : forall j r, lk d j = Some r -> lk d1 j = Some (if (j =? eid t)%nat then with_kids (less (eid k) (r_kids r)) r else r)).
    { intros j r Ej. rewrite (Lc j r Ej). destruct (Nat.eqb_spec j (eid t)) as [->|Nj]; [reflexivity|]. rewrite (less_id d (eid t) (eid k) H Kk j r Ej Nj). now rewrite with_kids_id. }
    assert (Tg : forall c, lk d c <> None -> tagb (lk d1) T c = tagb (lk d) T c). { intros c Hc. destruct (lk d c) as [r|] eqn:Ec; [|congruence]. unfold tagb. rewrite (L1 c r Ec), Ec. destruct (c =? eid t)%nat; reflexivity. }
    pose proof (look_self _ t (wf_unique d H) Ht) as Et.
    assert (Kl : kids_tagged (lk d1) T (eid t) = filter (fun c => negb (c =? eid k)%nat) (kids_tagged (lk d) T (eid t))).
    { unfold kids_tagged. rewrite (L1 _ _ Et), Nat.eqb_refl, Et. cbn [r_kids with_kids]. unfold less. rewrite !filter_filter. apply filter_same. intros c Hc. rewrite andb_comm. f_equal. apply Tg. now apply (kids_there d (eid t) (row_of t)). }
    destruct (IH d1 W1) as (d2 & E2 & W2 & L2).
    { rewrite (L1 _ _ Et). discriminate. }
    { rewrite Kl, (kids_tagged_of d t T H Ht), Ek. cbn [map filter]. rewrite Nat.eqb_refl. cbn [negb]. cbn [List.length] in Ln. pose proof (filter_length_le (fun c => negb (c =? eid k)%nat) (map eid l)). rewrite map_length in *. lia. }
    exists d2. split; [exact E2|]. split; [exact W2|]. intros j r Ej. rewrite (L2 _ _ (L1 j r Ej)). f_equal. destruct (Nat.eqb_spec j (eid t)) as [->|]; [|reflexivity]. unfold with_kids. cbn [r_tag r_attrs r_text r_kids]. f_equal. unfold less. rewrite filter_filter. apply filter_same. intros c Hc.
    rewrite (Tg c) by now apply (kids_there d (eid t) r). destruct (Nat.eqb_spec c (eid k)) as [->|_]; [|reflexivity]. cbn [negb andb]. unfold tagb. rewrite (look_self _ k (wf_unique d H) (has_kid d t k Ht Ik)). cbn [r_tag row_of]. rewrite Tk, str_eqb_refl. reflexivity.
Qed.
Lemma empty_step d g r d' : sane d -> a_group d g -> empty_group g d = (r, d') -> sane d' /\ tags_le d d' /\ r = Ok tt /\ forall t, pictures d t -> pictures d' (clear g t).
Proof.
  intros O G Hr. pose proof O as [W L]. pose proof (op_empty d g r d' W L Hr) as E. split; [split; [apply (ev_wf _ _ _ _ E)|apply E]|]. split; [exact (ev_tag _ _ _ _ E)|]. destruct (tag_has d _ g W G) as (t & Ht & <- & _). pose proof (look_self _ t (wf_unique d W) Ht) as Et.
  unfold empty_group in Hr. rewrite (mbind_ok _ _ _ _ _ (the_run d _ t W Ht eq_refl)) in Hr. cbv zeta in Hr.
  destruct (empty_loop_rows $"Group" (eid t) (S (List.length (ekids t))) d W) as (d1 & E1 & W1 & L1); [congruence|rewrite (kids_tagged_of d t _ W Ht), map_length; pose proof (filter_length_le (fun k => str_eqb (etag k) $"Group") (ekids t)); unfold kids_of; lia|]. rewrite (mbind_ok _ _ _ _ _ E1) in Hr.
  pose proof (L1 _ _ Et) as Et1. rewrite Nat.eqb_refl in Et1.
  destruct (empty_loop_rows $"Entry" (eid t) (S (List.length (ekids t))) d1 W1) as (d2 & E2 & W2 & L2); [congruence| |].
  { unfold kids_tagged. rewrite Et1. cbn [r_kids with_kids row_of]. rewrite filter_filter. pose proof (filter_length_le (fun x => negb (tagb (lk d) $"Group" x) && tagb (lk d1) $"Entry" x) (map eid (ekids t))). rewrite map_length in *. lia. }
  rewrite E2 in Hr. injection Hr as <- <-. split; [reflexivity|]. intros u Pu. apply (pic_clear d d2 (ev_tag _ _ _ _ E)); [|exact Pu]. intros j Ij. assert (X : exists x, lk d j = Some x) by (destruct Ij as [(x & X & _)|(x & X & _)]; eauto). destruct X as (x & X).
  pose proof (L2 _ _ (L1 j x X)) as Lj. destruct (Nat.eqb_spec j (eid t)) as [->|Nj]; [|now apply (items_kids d d2 j x x W (ev_tag _ _ _ _ E) X)].
  rewrite (items_at d d2 _ _ W (ev_tag _ _ _ _ E) Lj).
  - cbn [r_kids with_kids]. rewrite !filter_filter. rewrite (filter_same _ (fun _ => false)); [clear; induction (r_kids x); auto|]. intros c Hc. pose proof (kids_there d (eid t) x W X c Hc) as Nc. unfold itemb.
    assert (tagb (lk d1) $"Entry" c = tagb (lk d) $"Entry" c) as ->. { destruct (lk d c) as [q|] eqn:Eq; [|congruence]. unfold tagb. rewrite (L1 c q Eq), Eq. destruct (c =? eid t)%nat; reflexivity. }
    destruct (tagb (lk d) $"Group" c); [reflexivity|]. destruct (tagb (lk d) $"Entry" c); reflexivity.
  - cbn [r_kids with_kids]. intros c Hc. apply filter_In in Hc as [Hc _]. apply filter_In in Hc as [Hc _]. now apply (kids_there d (eid t) x).
Qed.

(** *** Putting in order *)
Lemma reindex_step R e z d r d' : sane d -> an_entry d e -> reindex R e z d = (r, d') -> sane d' /\ tags_le d d' /\
  match r with Err _ => d' = d | Ok _ => exists p a b, is_kid d p e /\ less e (items d p) = a ++ b /\ forall t, pictures d t -> pictures d' (arrange p (a ++ e :: b) t) end.
Proof.
  intros O Ie Hr. pose proof O as [W L]. pose proof (op_reindex R e z d r d' W L Hr) as E. split; [split; [apply (ev_wf _ _ _ _ E)|apply E]|]. pose proof (ev_tag _ _ _ _ E) as Tg. split; [exact Tg|].
  unfold reindex in Hr. apply mbind_inv in Hr as [(y & Hr & ->)|(g & d1 & Hg & Hr)]; [now rewrite (reads_run _ _ _ _ (reads_group R e) Hr)|]. pose proof (reads_run _ _ _ _ (reads_group R e) Hg) as ->.
  destruct g as [g|]; [|now injection Hr as <- <-].
  assert (Rf : reads (first_entry g)) by (unfold first_entry; apply reads_bind; [apply reads_the|]; intros t; destruct (first_pos _ _); [apply reads_ret|apply reads_raise]).
  apply mbind_inv in Hr as [(y & Hr & ->)|(f & d1 & Hf & Hr)]; [now rewrite (reads_run _ _ _ _ Rf Hr)|]. pose proof (reads_run _ _ _ _ Rf Hf) as ->.
  destruct (parent_of (d_forest d) e) as [t|] eqn:Ep.
  2: { assert (X : lx_remove g e d = (Err Ex_Value, d)) by (unfold lx_remove; now rewrite Ep). rewrite (mbind_err _ _ _ _ _ X) in Hr. now injection Hr as <- <-. }
  destruct (Nat.eqb_spec (eid t) g) as [<-|N].
  2: { assert (X : lx_remove g e d = (Err Ex_Value, d)) by (unfold lx_remove; rewrite Ep; apply Nat.eqb_neq in N; now rewrite N). rewrite (mbind_err _ _ _ _ _ X) in Hr. now injection Hr as <- <-. }
  pose proof (wf_unique d W) as U. apply parent_of_In in Ep as [Ht Hc]; [|exact U]. destruct (remove_run d t e W Ht Hc) as (d1 & E1 & W1 & _ & N1 & R1 & L1 & L2). rewrite (mbind_ok _ _ _ _ _ E1) in Hr.
  assert (K : is_kid d (eid t) e) by (exists (row_of t); split; [now apply look_self|exact Hc]). destruct (kid_rows d (eid t) e W K) as (t' & k & Ht' & Et' & Ik & Ek & Hk). assert (t' = t) as -> by (apply (unique_inj (d_forest d)); auto).
  assert (Lg : lk d1 (eid t) <> None) by congruence. destruct (lk d1 (eid t)) as [qg|] eqn:Eg; [clear Lg|congruence]. destruct (look_has d1 _ _ W1 Eg) as (tp & Htp & Etp & _).
  assert (Hk1 : has d1 k).
  { apply (same_tree (d_forest d) (d_forest d1) k U (wf_unique d1 W1) Hk). intros j Hj. apply L2. intros ->. now apply (kid_apart d t k W Ht Ik). }
  assert (Dc : is_doc (d_forest d1) (eid k) = false).
  { unfold is_doc. destruct (d_forest d1) as [|z1 F1] eqn:EF; [reflexivity|]. apply Nat.eqb_neq. intros X. destruct (top_forest d W) as (z0 & F0 & EF0). unfold roots in R1. rewrite EF0 in R1. cbn in R1. injection R1 as R1 _. apply (root_not_child d z0 t W); [rewrite EF0; now left|exact Ht|]. rewrite <- R1, X, Ek. exact Hc. }
  assert (Ap : ~ In (eid tp) (ids k)) by (rewrite Etp; now apply (kid_apart d t k)).
  destruct (insert_run d1 tp k (z + Z.of_nat f)%Z W1 Htp Hk1 Ap Dc) as (d2 & E2 & (W2 & _ & N2 & R2 & Lm)). rewrite <- Etp, <- Ek, E2 in Hr. injection Hr as <- <-. rewrite Etp, Ek in *.
  assert (Eg' : qg = with_kids (without e (map eid (ekids t))) (row_of t)) by congruence.
  pose proof (look_self _ t U Ht) as Et. set (n := lx_pos (List.length (ekids tp)) (z + Z.of_nat f)) in *. set (m := without e (map eid (ekids t))) in *.
  assert (Lt : lk d2 (eid t) = Some (with_kids (insert_at n e m) (row_of t))).
  { rewrite Lm, Eg. cbn [option_map]. unfold move_row. rewrite Nat.eqb_refl, Eg'. cbn [r_kids with_kids row_of]. f_equal. unfold with_kids. cbn [r_tag r_attrs r_text r_kids]. f_equal. f_equal. unfold m. apply without_absent. rewrite without_In. tauto. }
  assert (Ib : itemb (lk d) e = true) by (apply itemb_item; now left). set (h := filter (itemb (lk d))).
  exists (eid t), (h (firstn n m)), (h (skipn n m)). split; [exact K|].
  assert (Lh : less e (items d (eid t)) = h (firstn n m) ++ h (skipn n m)).
  { unfold items. rewrite Et. rewrite less_filter. unfold h. rewrite <- filter_app, firstn_skipn. reflexivity. }
  split; [exact Lh|]. intros u Pu. apply (pic_arrange d d2 Tg).
  - unfold items. rewrite Et. apply NoDup_filter. exact (row_nodup d (eid t) _ W Et).
  - intros x Hx. apply in_app_iff in Hx as [Hx|[<-|Hx]]; [|unfold items; rewrite Et; apply filter_In; split; [exact Hc|exact Ib]|]; (assert (X : In x (less e (items d (eid t)))) by (rewrite Lh; apply in_app_iff; auto)); now apply filter_In in X.
  - intros j Ij. destruct (Nat.eqb_spec j (eid t)) as [->|Nj].
    + rewrite (items_at d d2 _ _ W Tg Lt).
      * cbn [r_kids with_kids]. unfold insert_at. rewrite filter_app. cbn [filter]. rewrite Ib. reflexivity.
      * cbn [r_kids with_kids]. intros x Hx. apply (kids_there d (eid t) (row_of t) W Et). cbn [r_kids row_of]. unfold insert_at in Hx. apply in_app_iff in Hx as [Hx|[<-|Hx]]; [|exact Hc|]; (assert (Y : In x m) by (rewrite <- (firstn_skipn n m); apply in_app_iff; auto)); unfold m in Y; apply without_In in Y; tauto.
    + assert (X : exists x, lk d j = Some x) by (destruct Ij as [(x & X & _)|(x & X & _)]; eauto). destruct X as (x & X). apply (items_kids d d2 j x (with_kids (without e (r_kids x)) x) W Tg X).
      * rewrite Lm, L2 by exact Nj. rewrite X. cbn [option_map]. unfold move_row. apply Nat.eqb_neq in Nj. rewrite Nj. reflexivity.
      * cbn [r_kids with_kids]. apply without_absent. intros I. apply Nj. apply (one_parent d j (eid t) e W); [now exists x|exact K].
  - exact Pu.
Qed.

(** *** New entries and groups *)
Lemma fresh_next d : wf d -> fresh d (d_next d).
Proof. intros W. unfold fresh. destruct (lk d (d_next d)) as [q|] eqn:E; [|reflexivity]. pose proof (wf_look d _ q W E). lia. Qed.
Lemma joined (b : bool) l g d r d' : sane d -> Forall frameless l -> a_group d g ->
  (do c <- lx_new (e_node (if b then $"Group" else $"Entry") l); do _ <- lx_append g c; ret c) d = (r, d') ->
  sane d' /\ tags_le d d' /\ r = Ok (d_next d) /\ is_tag (lk d') (if b then $"Group" else $"Entry") (d_next d) /\ forall t, pictures d t -> pictures d' (put g (Node b (d_next d) []) t).
Proof.
  intros O Fl G Hr. pose proof O as [W L]. set (T := if b then $"Group" else $"Entry") in *. assert (TI : Local.itemb T = true) by (unfold T; destruct b; vm_compute; reflexivity).
  destruct (linked (e_node T l) g $"Group" d O) as (d1 & t & E1 & O1 & T1 & Ht & Et & Ex & Im); [now apply laid_node|exact G|unfold T; destruct b; [apply joins_gg|apply joins_ge]|reflexivity|]. rewrite E1 in Hr. injection Hr as <- <-.
  split; [exact O1|]. split; [exact T1|]. split; [reflexivity|]. pose proof O1 as [W1 L1]. assert (Tt : is_tag (lk d1) T (d_next d)) by (rewrite <- Et; replace T with (etag t); [now apply has_tag|]; destruct t; cbn in Ex |- *; now injection Ex as -> _ _ _).
  split; [exact Tt|]. intros u Pu. apply (pic_put d d1 T1); [|intros j Ij|exact Pu].
  - constructor; [exact Tt| |constructor]. unfold items. rewrite <- Et, (look_self _ t (wf_unique d1 W1) Ht). cbn [r_kids row_of map]. rewrite (filter_same _ (fun _ => false)); [induction (map eid (ekids t)); auto|]. intros c Hc. apply in_map_iff in Hc as (k & <- & Hk). apply (not_item d1 (etag k)); [apply has_tag; [exact W1|now apply (has_kid d1 t)]|].
    assert (Fk : frameless (erase k)). { rewrite Forall_forall in Fl. apply Fl. destruct t as [ti tg ta tx tk]. cbn in Ex, Hk. injection Ex as _ _ _ <-. now apply in_map. }
    assert (Nf : ~ frame (etag k)) by (apply Fk; destruct k; cbn; now left). destruct (Local.itemb (etag k)) eqn:X; [|reflexivity]. exfalso. apply Nf. apply frameb_iff. unfold frameb. cbn [existsb]. unfold Local.itemb in X. apply orb_prop in X as [X|X]; rewrite X; now rewrite !orb_true_r.
  - rewrite Im by (destruct Ij as [(q & Eq & _)|(q & Eq & _)]; congruence). cbn [oid]. unfold e_node. cbn [xtag]. rewrite TI, andb_true_r. reflexivity.
Qed.
Lemma add_entry_step R C g t u p url n x tags otp icon f d r d' : sane d -> a_group d g -> add_entry R C g t u p url n x tags otp icon f d = (r, d') ->
  sane d' /\ tags_le d d' /\ match r with Err _ => d' = d | Ok e => e = d_next d /\ is_tag (lk d') $"Entry" e /\ forall w, pictures d w -> pictures d' (put g (Node false e []) w) end.
Proof.
  intros O G Hr. unfold add_entry in Hr. apply mbind_inv in Hr as [(y & Hr & ->)|(dup & d1 & Hd & Hr)]; [unfold lift in Hr; injection Hr as _ <-; split; [exact O|]; split; [apply le_refl|reflexivity]|]. unfold lift in Hd. injection Hd as _ <-.
  assert (K : forall r d', (do e <- new_entry C t u p url n otp tags (Some (match x with Some _ => true | None => false end)) x icon None true None; do _ <- lx_append g e; ret e) d = (r, d') ->
    sane d' /\ tags_le d d' /\ match r with Err _ => d' = d | Ok e => e = d_next d /\ is_tag (lk d') $"Entry" e /\ forall w, pictures d w -> pictures d' (put g (Node false e []) w) end).
  { clear r d' Hr. intros r d' Hr. unfold new_entry in Hr. rewrite bind_bind in Hr. apply mbind_inv in Hr as [(y & Hr & ->)|(b & d1 & Hb & Hr)]; [rewrite (reads_run _ _ _ _ (reads_base C _ _ _) Hr); split; [exact O|]; split; [apply le_refl|reflexivity]|]. pose proof (reads_run _ _ _ _ (reads_base C _ _ _) Hb) as ->.
    rewrite bind_bind in Hr. apply mbind_inv in Hr as [(y & Hr & ->)|(k & d1 & Hk & Hr)]; [unfold of_res in Hr; injection Hr as _ <-; split; [exact O|]; split; [apply le_refl|reflexivity]|]. unfold of_res in Hk. injection Hk as Hk <-.
    destruct (joined false (b ++ k) g d r d' O) as (O1 & T1 & -> & Tn & P); [apply Forall_app; split; [eapply base_frameless; exact Hb|eapply entry_frameless; exact Hk]|exact G|exact Hr|]. auto. }
  destruct dup as [|z l]; [now apply K|]. destruct f; [now apply K|]. apply mbind_inv in Hr as [(y & Hr & ->)|(b & d1 & Hb & Hr)].
  - rewrite (reads_run _ _ _ _ (reads_path R g) Hr). split; [exact O|]. split; [apply le_refl|reflexivity].
  - pose proof (reads_run _ _ _ _ (reads_path R g) Hb) as ->. injection Hr as <- <-. split; [exact O|]. split; [apply le_refl|reflexivity].
Qed.
Lemma add_group_step C g n icon notes d r d' : sane d -> a_group d g -> add_group C (Some g) n icon notes d = (r, d') ->
  sane d' /\ tags_le d d' /\ match r with Err _ => d' = d | Ok e => e = d_next d /\ is_tag (lk d') $"Group" e /\ forall w, pictures d w -> pictures d' (put g (Node true e []) w) end.
Proof.
  intros O G Hr. unfold add_group, new_group in Hr. rewrite bind_bind in Hr. apply mbind_inv in Hr as [(y & Hr & ->)|(b & d1 & Hb & Hr)]; [rewrite (reads_run _ _ _ _ (reads_base C _ _ _) Hr); split; [exact O|]; split; [apply le_refl|reflexivity]|]. pose proof (reads_run _ _ _ _ (reads_base C _ _ _) Hb) as ->.
  rewrite bind_bind in Hr. apply mbind_inv in Hr as [(y & Hr & ->)|(k & d1 & Hk & Hr)]; [unfold of_res in Hr; injection Hr as _ <-; split; [exact O|]; split; [apply le_refl|reflexivity]|]. unfold of_res in Hk. injection Hk as Hk <-.
  assert (Rn : reads (if truthy notes then of_res (let* x := e_text $"Notes" [] notes in Ok [x]) else ret [])) by (destruct (truthy notes); [apply reads_of|apply reads_ret]).
  rewrite bind_bind in Hr. apply mbind_inv in Hr as [(y & Hr & ->)|(nt & d1 & Hn & Hr)]; [rewrite (reads_run _ _ _ _ Rn Hr); split; [exact O|]; split; [apply le_refl|reflexivity]|]. pose proof (reads_run _ _ _ _ Rn Hn) as ->.
  destruct (joined true (b ++ [k] ++ nt) g d r d' O) as (O1 & T1 & -> & Tn & P); [|exact G|exact Hr|auto].
  apply Forall_app. split; [eapply base_frameless; exact Hb|]. constructor; [eapply frameless_text; [|exact Hk]; reflexivity|].
  destruct (truthy notes); [|injection Hn as <-; constructor]. unfold of_res in Hn. injection Hn as Hn. apply bind_ok in Hn as (y & Hy & Hn). injection Hn as <-. constructor; [eapply frameless_text; [|exact Hy]; reflexivity|constructor].
Qed.
(** *** The bin *)
Lemma new_calm x d r d' : wf d -> tags_le d d' -> lx_new x d = (r, d') -> forall j, an_item d j -> items d' j = items d j.
Proof.
  intros W T Hr j Ij. destruct (new_run d x W) as (t & d1 & E1 & _ & _ & _ & _ & _ & _ & _ & _ & _ & Lo). rewrite E1 in Hr. injection Hr as _ <-. assert (X : exists q, lk d j = Some q) by (destruct Ij as [(q & X & _)|(q & X & _)]; eauto). destruct X as (q & X).
  apply (items_kids d d1 j q q W T X); [|reflexivity]. rewrite Lo; [exact X|]. exact (wf_look d j q W X).
Qed.
Lemma bin_step R C d r d' : sane d -> create_or_get_recyclebin_group R C d = (r, d') -> sane d' /\ tags_le d d' /\
  match r with
  | Ok b => recyclebin_group R d = (Ok (Some b), d) /\ d' = d \/ recyclebin_group R d = (Ok None, d) /\ exists g, root_group R d = (Ok (Some g), d) /\ fresh d b /\ forall t, pictures d t -> pictures d' (put g (Node true b []) t)
  | Err _ => (forall t, pictures d t -> pictures d' t) \/ exists b g, root_group R d = (Ok (Some g), d) /\ fresh d b /\ forall t, pictures d t -> pictures d' (put g (Node true b []) t)
  end.
Proof.
  intros O Hr. pose proof O as [W L]. destruct (op_bin (fun _ => True) True d W R C d Logic.I (sane_ev d O) r d' Hr) as [Ev T]. split; [split; [apply (ev_wf _ _ _ _ Ev)|apply Ev]|]. split; [exact T|].
  unfold create_or_get_recyclebin_group in Hr. apply mbind_inv in Hr as [(y & Hr & ->)|(o & d1 & Ho & Hr)]; [rewrite (reads_run _ _ _ _ (reads_bin R) Hr); now left|]. pose proof (reads_run _ _ _ _ (reads_bin R) Ho) as ->. destruct o as [b0|]; [injection Hr as <- <-; now left|].
  apply mbind_inv in Hr as [(y & Hr & ->)|(o & d1 & Hg & Hr)]; [unfold root_group, lift in Hr; injection Hr as _ <-; now left|]. assert (d1 = d) as -> by (unfold root_group, lift in Hg; injection Hg as _ <-; reflexivity).
  destruct o as [g|].
  2: { assert (X : exists y, r = Err y /\ ((d' = d) \/ exists x c, lx_new x d = (Ok c, d'))).
       { unfold add_group at 1 in Hr. apply mbind_inv in Hr as [(y & Hr & ->)|(c & d2 & Ha & _)]; [|apply mbind_inv in Ha as [(y & _ & X)|(q & d3 & _ & X)]; discriminate X]. exists y. split; [reflexivity|]. assert (Z : d' = d \/ exists x c, lx_new x d = (Ok c, d')); [|exact Z].
         apply mbind_inv in Hr as [(z & Hr & _)|(q & d3 & Hq & X)]; [|injection X as _ <-; rename Hq into Hr]; unfold new_group in Hr;
           (apply mbind_inv in Hr as [(z1 & Hr & Z)|(b & d1 & Hb & Hr)]; [left; exact (reads_run _ _ _ _ (reads_base C _ _ _) Hr)|]; pose proof (reads_run _ _ _ _ (reads_base C _ _ _) Hb) as ->;
            apply mbind_inv in Hr as [(z1 & Hr & Z)|(k & d1 & Hk & Hr)]; [left; unfold of_res in Hr; now injection Hr as _ <-|]; unfold of_res in Hk; injection Hk as Hk <-;
            apply mbind_inv in Hr as [(z1 & Hr & Z)|(nt & d1 & Hn & Hr)]; [left; injection Hr as _ <-; reflexivity|]; injection Hn as _ <-).
         - destruct (new_run d (e_node $"Group" (b ++ [k] ++ nt)) W) as (t & d5 & E5 & _). rewrite E5 in Hr. discriminate Hr.
         - right. eauto. }
       destruct X as (y & -> & [->|(x & c & X)]); left; [auto|]. intros t Pt. apply (pic_same d d' T t); [|exact Pt]. exact (new_calm x d _ d' W T X). }
  apply root_group_ok in Hg as Hg'; [|exact W]. destruct Hg' as (_ & G & _). apply mbind_inv in Hr as [(y & Hr & ->)|(b & d2 & Ha & Hr)].
  { destruct (add_group_step C g _ _ _ d _ d' O G Hr) as (_ & _ & ->). now left. }
  destruct (add_group_step C g _ _ _ d _ d2 O G Ha) as (O2 & T2 & Eb & Tb & P2). assert (Fb : fresh d b) by (rewrite Eb; now apply fresh_next).
  assert (Hm : forall e v r d', lx_set_text e v d2 = (r, d') -> forall t, pictures d t -> pictures d' (put g (Node true b []) t)).
  { intros e v r1 d3 Hs t Pt. destruct (hush_text e v d2 O2 _ _ Hs) as (O3 & T3 & C3). apply (pic_same d2 d3 T3); [now apply calm_items|now apply P2]. }
  apply mbind_inv in Hr as [(y & Hr & ->)|(e & d3 & He & Hr)]; [unfold meta_elem, xfirst, lift in Hr; injection Hr as _ <-; right; eauto 6|]. assert (d3 = d2) as -> by (unfold meta_elem, xfirst, lift in He; injection He as _ <-; reflexivity).
  assert (Rg : reads (get_uuid b)) by (unfold get_uuid; apply reads_bind; [apply reads_sub|intros ?; apply reads_of]).
  apply mbind_inv in Hr as [(y & Hr & ->)|(u & d3 & Hu & Hr)]; [rewrite (reads_run _ _ _ _ Rg Hr); right; eauto 6|]. pose proof (reads_run _ _ _ _ Rg Hu) as ->.
  destruct e as [e|]; [|injection Hr as <- <-; right; eauto 6]. apply mbind_inv in Hr as [(y & Hr & ->)|(v & d3 & Hs & Hr)]; [right; eauto 8|]. injection Hr as <- <-. right. eauto 8.
Qed.
Lemma trash_step R C i d r d' : sane d -> an_item d i -> trash R C i d = (r, d') -> sane d' /\ tags_le d d' /\ forall t, pictures d t -> exists t', effect R d (Op_trash i) r t t' /\ pictures d' t'.
Proof.
  intros O It Hr. pose proof O as [W L]. unfold trash in Hr. apply mbind_inv in Hr as [(y & Hr & ->)|(ok & d1 & Hc & Hr)].
  { rewrite (reads_run _ _ _ _ (reads_can R i) Hr). split; [exact O|]. split; [apply le_refl|]. intros t P. exists t. split; [left; reflexivity|exact P]. }
  pose proof (reads_run _ _ _ _ (reads_can R i) Hc) as ->. destruct ok; [|injection Hr as <- <-; split; [exact O|]; split; [apply le_refl|]; intros t P; exists t; split; [left; reflexivity|exact P]].
  apply mbind_inv in Hr as [(y & Hr & ->)|(b & d1 & Hb & Hr)].
  - destruct (bin_step R C d _ d' O Hr) as (O1 & T1 & X). split; [exact O1|]. split; [exact T1|]. intros t P. destruct X as [X|(b & g & Hg & Fb & X)].
    + exists t. split; [left; reflexivity|now apply X].
    + exists (put g (Node true b []) t). split; [|now apply X]. right. exists b, g. auto.
  - destruct (bin_made R C d b d1 W L Hb) as [G _]. destruct (bin_step R C d _ d1 O Hb) as (O1 & T1 & X). destruct (move_step d1 i b r d' O1) as (O2 & T2 & M); [now apply (item_le d)|exact G|exact Hr|]. split; [exact O2|]. split; [now apply (le_trans d d1)|]. intros t P.
    destruct X as [(Eb & ->)|(Eb & g & Hg & Fb & X)].
    + destruct r as [v|y]; [|subst d'; exists t; split; [left; reflexivity|exact P]]. destruct M as (s & Ps & Es & M). exists (put b s (drop i t)). split; [|now apply M]. left. exists b. split; [exact Eb|]. exists s. auto.
    + destruct r as [v|y].
      * destruct M as (s1 & Ps1 & Es1 & M). destruct (picture d i W It) as (s & Ps & Es). assert (s1 = put g (Node true b []) s) as ->. { apply (pic_fun d1); [exact Ps1|now apply X|]. rewrite oid_put. congruence. }
        exists (put b (put g (Node true b []) s) (drop i (put g (Node true b []) t))). split; [|apply M; now apply X]. right. split; [exact Eb|]. exists b, (put g (Node true b []) t), s, (put g (Node true b []) s). repeat apply conj; [exists g; auto|exact Ps|exact Es|exists g; auto|reflexivity].
      * subst d'. exists (put g (Node true b []) t). split; [|now apply X]. right. exists b, g. auto.
Qed.

(** *** Every call *)
Lemma quiet_inv {A} (m : M A) d r d' : IntegritySpec.quiet m d = (r, d') -> exists q, m d = (q, d') /\ r = match q with Ok _ => Ok tt | Err e => Err e end.
Proof. unfold IntegritySpec.quiet. intros H. apply mbind_inv in H as [(e & H & ->)|(a & d1 & H & H1)]; [exists (Err e)|injection H1 as <- <-; exists (Ok a)]; auto. Qed.
Lemma calm_step {A} (m : M A) d r d' t : sane d -> hush m d -> m d = (r, d') -> pictures d t -> pictures d' t.
Proof. intros O H Hr P. destruct (H r d' Hr) as (O1 & T1 & C1). apply (pic_same d d' T1); [now apply calm_items|exact P]. Qed.
Lemma entry_not_group d e : an_entry d e -> ~ a_group d e.
Proof. intros H G. pose proof (is_tag_fun (lk d) _ _ _ H G) as X. vm_compute in X. discriminate X. Qed.
Lemma attach_not_group d e : an_attachment d e -> ~ a_group d e.
Proof. intros H G. pose proof (is_tag_fun (lk d) _ _ _ H G) as X. vm_compute in X. discriminate X. Qed.
Theorem effect_step R Zl C o d r d' t : sane d -> typed d o -> run R Zl C o d = (r, d') -> pictures d t -> exists t', effect R d o r t t' /\ pictures d' t'.
Proof.
  intros O T Hr P. pose proof O as [W L].
  assert (Calm : hush (run R Zl C o) d -> (forall t', effect R d o r t t' <-> t' = t) -> exists t', effect R d o r t t' /\ pictures d' t').
  { intros H E. exists t. split; [now apply E|]. exact (calm_step _ d r d' t O H Hr P). }
  assert (En : forall e, an_entry d e -> (forall x, touches R d o x -> x = e) -> hush (run R Zl C o) d).
  { intros e He Hx. apply hush_local; [exact O|exact T|]. intros x Hx'. rewrite (Hx x Hx'). now apply entry_not_group. }
  assert (At : forall a, an_attachment d a -> (forall x, touches R d o x -> x = a) -> hush (run R Zl C o) d).
  { intros a He Hx. apply hush_local; [exact O|exact T|]. intros x Hx'. rewrite (Hx x Hx'). now apply attach_not_group. }
  assert (No : (forall x, ~ touches R d o x) -> hush (run R Zl C o) d).
  { intros Hx. apply hush_local; [exact O|exact T|]. intros x Hx'. now apply Hx in Hx'. }
  destruct o; cbn [typed] in T;
    try solve [apply Calm; [first
      [ now apply (En e) | now apply (En e (proj1 T)) | now apply (At a) | now apply No
      | match type of T with an_item _ ?i => destruct (item_tag d i T) as (U & TU); now apply (hush_sub _ i U) end
      | now apply (hush_sub _ g $"Group") | now apply hush_timeprop | now apply hush_expires | now apply hush_touch | now apply hush_delete_binary | now apply hush_meta ]
      | intros t'; cbn [effect]; reflexivity]].
  - (* delete_history *) apply Calm; [|reflexivity]. apply (En e); [destruct h; [apply T|exact T]|auto].
  - (* add_entry *) cbn [run] in Hr. apply quiet_inv in Hr as (q & Hr & Eq). destruct (add_entry_step _ _ _ _ _ _ _ _ _ _ _ _ _ _ _ _ O T Hr) as (_ & _ & X). destruct q as [e|y]; rewrite Eq; cbn [effect].
    + destruct X as (-> & _ & X). exists (put g (Node false (d_next d) []) t). split; [|exact (X t P)]. exists (d_next d). split; [now apply fresh_next|reflexivity].
    + subst d'. eauto.
  - cbn [run] in Hr. apply quiet_inv in Hr as (q & Hr & Eq). destruct (add_group_step _ _ _ _ _ _ _ _ O T Hr) as (_ & _ & X). destruct q as [e|y]; rewrite Eq; cbn [effect].
    + destruct X as (-> & _ & X). exists (put g (Node true (d_next d) []) t). split; [|exact (X t P)]. exists (d_next d). split; [now apply fresh_next|reflexivity].
    + subst d'. eauto.
  - cbn [run] in Hr. destruct T as [Ti Tg]. destruct (move_step d i g r d' O Ti Tg Hr) as (_ & _ & X). destruct r as [v|y]; cbn [effect].
    + destruct X as (s & Ps & Es & X). exists (put g s (drop i t)). split; [|exact (X t P)]. exists s. auto.
    + subst d'. eauto.
  - cbn [run] in Hr. destruct T as [Tg Tl]. destruct (append_step g l d r d' O Tl Tg Hr) as (_ & _ & X). destruct (X t P) as (t' & P' & E). exists t'. split; [|exact P']. destruct r; exact E.
  - cbn [run] in Hr. destruct (delete_step d i r d' O T Hr) as (_ & _ & X). destruct r as [v|y]; cbn [effect]; [eauto|subst d'; eauto].
  - cbn [run] in Hr. destruct (trash_step R C i d r d' O T Hr) as (_ & _ & X). exact (X t P).
  - cbn [run] in Hr. destruct (empty_step d g r d' O T Hr) as (_ & _ & -> & X). cbn [effect]. eauto.
  - cbn [run] in Hr. destruct (reindex_step R e z d r d' O T Hr) as (_ & _ & X). destruct r as [v|y]; cbn [effect].
    + destruct X as (p & a & b & K & E & X). exists (arrange p (a ++ e :: b) t). split; [eauto 8|auto].
    + subst d'. eauto.
Qed.
Theorem follows_all R Zl : forall l d t, wf d -> laid d -> all_typed R Zl l d -> pictures d t -> exists t', follows R Zl l d t t' /\ pictures (later R Zl l d) t'.
Proof.
  induction l as [|c l IH]; intros d t W L T P; [exists t; split; [reflexivity|exact P]|]. destruct T as [Tc T]. cbn [later follows]. destruct (run R Zl (fst c) (snd c) d) as [r d1] eqn:Er. assert (Ed : next R Zl c d = d1) by (unfold next; now rewrite Er).
  destruct (effect_step R Zl (fst c) (snd c) d r d1 t (conj W L) Tc Er P) as (t1 & E1 & P1). pose proof (step R Zl (fst c) (snd c) d W L Tc) as Ev. rewrite <- surjective_pairing, Ed in Ev. rewrite Ed in *.
  destruct (IH d1 t1) as (t' & F & P'); [apply (ev_wf _ _ _ _ Ev)|apply Ev|exact T|exact P1|]. exists t'. split; [|exact P']. exists t1. cbn [fst]. auto.
Qed.

(** *** Reading *)
Lemma outlined d i : wf d -> an_item d i -> exists t, (pictures d t /\ oid t = i) /\ forall u, pictures d u -> oid u = i -> u = t.
Proof. intros W I. destruct (picture d i W I) as (t & P & E). exists t. split; [auto|]. intros u Pu Eu. apply (pic_fun d); [exact Pu|exact P|congruence]. Qed.
Lemma picked_kids d T (f : outline -> bool) l : (forall k, In k l -> tagb (lk d) T (oid k) = f k) -> filter (tagb (lk d) T) (map oid l) = map oid (filter f l).
Proof. induction l as [|k l IH]; intros H; [reflexivity|]. cbn [map filter]. rewrite (H k) by now left. rewrite IH by (intros; apply H; now right). destruct (f k); reflexivity. Qed.
Lemma read_kids d b i l : wf d -> pictures d (Node b i l) ->
  group_entries i d = (Ok (map oid (filter (fun k => negb (ogroup k)) l)), d) /\ group_subgroups i d = (Ok (map oid (filter ogroup l)), d) /\ forall R k, b = true -> In k l -> group_of R (oid k) d = (Ok (Some i), d).
Proof.
  intros W P. apply pic_inv in P as (T & I & P). destruct (tag_has d _ i W T) as (t & Ht & <- & _). destruct (subgroups_run d t W Ht) as [-> ->]. rewrite <- !(kids_tagged_of d t _ W Ht). unfold kids_tagged. unfold items in I. rewrite (look_self _ t (wf_unique d W) Ht) in *. rewrite Forall_forall in P.
  assert (X : forall k, In k l -> tagb (lk d) $"Group" (oid k) = ogroup k /\ tagb (lk d) $"Entry" (oid k) = negb (ogroup k)).
  { intros k Hk. pose proof (P k Hk) as Pk. destruct k as [c j m]. apply pic_inv in Pk as (Tk & _ & _). destruct Tk as (q & Eq & Tq). cbn [oid ogroup]. unfold tagb. rewrite Eq, Tq. destruct c; split; vm_compute; reflexivity. }
  assert (F : forall T', T' = $"Group" \/ T' = $"Entry" -> filter (tagb (lk d) T') (r_kids (row_of t)) = filter (tagb (lk d) T') (map oid l)).
  { intros T' HT. rewrite <- I, filter_filter. apply filter_same. intros x _. unfold itemb. destruct HT as [->| ->]; destruct (tagb (lk d) $"Group" x), (tagb (lk d) $"Entry" x); reflexivity. }
  split; [|split].
  - rewrite (F $"Entry") by auto. rewrite (picked_kids d _ (fun k => negb (ogroup k))) by (intros; now apply X). reflexivity.
  - rewrite (F $"Group") by auto. rewrite (picked_kids d _ ogroup) by (intros; now apply X). reflexivity.
  - intros R k -> Hk. apply (kid_group R d (eid t) (oid k) W T). apply items_kid. unfold items. rewrite (look_self _ t (wf_unique d W) Ht), I. now apply in_map.
Qed.
