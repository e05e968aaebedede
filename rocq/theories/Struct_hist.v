(** Entry histories. *)
From Coq Require Import ZifyBool ZifyNat ZifyN.
From Verif Require Import Base PyStr Xml Tree XPath Time Db XPath_facts FindSpec Find_facts Find_path Find_more ApiSpec StructSpec Heap Uuid Api Prim Api_xpath Api_fields Api_custom Api_sub Api_claims Struct Struct_add Struct_find Struct_bin Struct_trash Struct_empty Struct_index.

(** [d2] is [d] with more, unattached, elements. *)
Definition grow (d d2 : db) : Prop :=
  wf d2 /\ d_major d2 = d_major d /\ d_minor d2 = d_minor d /\ d_bins d2 = d_bins d /\ (d_next d <= d_next d2)%nat /\ hd_error (rts d2) = hd_error (rts d) /\ forall j r, lk d j = Some r -> lk d2 j = Some r.
Lemma grow_refl d : wf d -> grow d d.
Proof. intros H. split; [exact H|]. split; [reflexivity|]. split; [reflexivity|]. split; [reflexivity|]. split; [lia|]. split; [reflexivity|]. auto. Qed.
Lemma grow_has d d2 t : wf d -> grow d d2 -> has d t -> has d2 t.
Proof.
  intros H (W & _ & _ & _ & _ & _ & L) Ht. apply (same_tree (d_forest d)); auto using wf_unique. intros j Hj. assert (exists q, lk d j = Some q) as (q & Eq) by (apply (below_look (d_forest d) (eid t)); [apply H|now apply below_ids; [apply H| |]]). rewrite Eq. now apply L.
Qed.
Lemma grow_doc d d2 j : wf d -> grow d d2 -> (in_doc d2 j <-> in_doc d j).
Proof.
  intros H (W & _ & _ & _ & _ & R & L). unfold in_doc. rewrite R. split; intros (r & E & B); exists r; (split; [exact E|]).
  - assert (Hr : exists q, lk d r = Some q). { destruct (d_forest d) as [|r0 F] eqn:EF; [discriminate|]. injection E as <-. rewrite <- EF. eexists. apply look_self; [apply H|]. rewrite EF. apply elements_root. now left. }
    assert (G : below (lk d) r j /\ exists q, lk d j = Some q); [|apply G]. induction B as [q Eq|j k q B IH Eq Hk].
    + destruct Hr as (q0 & Eq0). split; [eapply below_self; exact Eq0|eauto].
    + destruct IH as [IB (q0 & Eq0)]. rewrite (L _ _ Eq0) in Eq. injection Eq as <-. split; [eapply below_kid; eassumption|]. apply (kid_look d j k H). exists q0. auto.
  - revert B. apply below_sets. intros k q Eq. exists q. split; [now apply L|apply incl_refl].
Qed.
Lemma grow_new d x : wf d -> exists t d', lx_new x d = (Ok (d_next d), d') /\ eid t = d_next d /\ erase t = x /\ grow d d' /\ has d' t /\ (forall j, In j (ids t) -> (d_next d <= j < d_next d')%nat) /\ is_doc (d_forest d') (eid t) = false.
Proof.
  intros H. destruct (new_run d x H) as (t & d' & E & Et & Ex & EF & W & (M1 & M2 & M3) & N & T & R & I & L). exists t, d'. split; [exact E|]. split; [exact Et|]. split; [exact Ex|]. split; [|split; [exact T|split; [exact I|]]].
  - split; [exact W|]. split; [congruence|]. split; [congruence|]. split; [congruence|]. split; [lia|]. split; [rewrite R; destruct H as [H _]; destruct (d_forest d); [congruence|reflexivity]|]. intros j r Ej. rewrite L; [exact Ej|]. now apply (wf_look d j r H).
  - destruct (d_forest d) as [|r F] eqn:E0; [destruct H; congruence|]. rewrite EF. cbn [app is_doc]. apply Nat.eqb_neq. intros C. assert (Hr : has d r) by (rewrite E0; apply elements_root; now left). pose proof (wf_has d r H Hr). lia.
Qed.
Lemma grow_trans d d1 d2 : grow d d1 -> grow d1 d2 -> grow d d2.
Proof. intros (W1 & A1 & A2 & A3 & A4 & A5 & A6) (W2 & B1 & B2 & B3 & B4 & B5 & B6). split; [exact W2|]. split; [congruence|]. split; [congruence|]. split; [congruence|]. split; [lia|]. split; [congruence|]. auto. Qed.
Lemma grow_attach d dk s p : wf d -> grow d dk -> has dk s -> (forall j, In j (ids s) -> (d_next d <= j)%nat) -> in_doc d p ->
  exists d', move (eid s) p dk = (Ok tt, d') /\ wf d' /\ added d d' p (eid s) /\ has d' s /\ (forall j, in_doc d' j <-> in_doc d j \/ In j (ids s)).
Proof.
  intros H G Hs Hi Hp. pose proof G as (W & M1 & M2 & M3 & M4 & R & L). destruct (in_doc_has d p H Hp) as (q & Hq & Eq). assert (Is : (d_next d <= eid s)%nat) by (apply Hi; rewrite ids_everything; apply in_map; rewrite everything_eq; now left).
  destruct (move_claim dk p s W (proj2 (grow_doc d dk p H G) Hp) Hs) as (d' & E & W' & (P1 & P2 & P3 & P4 & P5) & T & N & D & _).
  - intros B. apply (below_ids _ s p (wf_unique _ W) Hs) in B. apply Hi in B. pose proof (wf_has d q H Hq). lia.
  - rewrite R. destruct (d_forest d) as [|r0 F] eqn:EF; [destruct H; congruence|]. cbn. intros C. injection C as C. assert (Hr : has d r0) by (rewrite EF; apply elements_root; now left). pose proof (wf_has d r0 H Hr). lia.
  - exists d'. split; [exact E|]. split; [exact W'|].
    assert (LL : forall j r', lk d j = Some r' -> lk d' j = Some (with_kids (if (j =? p)%nat then r_kids r' ++ [eid s] else r_kids r') r')).
    { intros j r' Ej. rewrite (P5 j r' (L j r' Ej)). rewrite (less_absent (eid s) (r_kids r')); [destruct (j =? p)%nat; reflexivity|]. intros I. apply (rows_small d j r' H Ej) in I. lia. }
    split; [|split; [exact T|]].
    + split; [|split].
      * destruct (lk d (eid s)) as [r'|] eqn:E0; [|reflexivity]. apply (wf_look d _ r' H) in E0. lia.
      * split; [congruence|]. split; [congruence|]. split; [congruence|]. split; [lia|]. split; [congruence|]. intros j r' Ej Hj. rewrite (LL j r' Ej). destruct (Nat.eqb_spec j p) as [->|]; [exfalso; apply Hj; now left|]. now rewrite with_kids_id.
      * intros r' Ej. rewrite (LL p r' Ej), Nat.eqb_refl. reflexivity.
    + intros j. rewrite D, (grow_doc d dk j H G), (below_ids _ s j (wf_unique _ W) Hs). reflexivity.
Qed.
(** *** Copies *)
Lemma erase_other T t ta : erase ta = erase t -> map erase (other_kids T ta) = map erase (other_kids T t).
Proof.
  intros E. assert (K : map erase (ekids ta) = map erase (ekids t)) by (rewrite <- !erase_kids, E; reflexivity). unfold other_kids.
  assert (G : forall l, map erase (filter (fun k => negb (str_eqb (etag k) T)) l) = filter (fun x => negb (str_eqb (xtag x) T)) (map erase l)). { intros l. rewrite filter_map_comm. f_equal. apply filter_same. intros k _. now rewrite erase_tag. } now rewrite !G, K.
Qed.
Lemma erase_kids_of T t ta : erase ta = erase t -> map erase (kids_of T ta) = map erase (kids_of T t).
Proof. intros E. rewrite <- !erase_sub, E. reflexivity. Qed.
Lemma erase_copy t ta l : erase ta = erase t -> map erase l = map erase (other_kids $"History" t) -> erase (El (eid ta) (etag ta) (eattrs ta) (etext ta) l) = archived t.
Proof. intros E El. unfold archived. cbn [erase]. rewrite El. rewrite <- (erase_tag ta), <- (erase_attrs ta), <- (erase_text ta), E, erase_tag, erase_attrs, erase_text. reflexivity. Qed.
Lemma no_other T t : kids_of T t = [] -> other_kids T t = ekids t.
Proof. unfold kids_of, other_kids. induction (ekids t) as [|k l IH]; [reflexivity|]. cbn [filter]. destruct (str_eqb (etag k) T); [discriminate|]. cbn [negb]. intros H. now rewrite IH. Qed.
Lemma other_one T t h : kids_of T t = [h] -> NoDup (map eid (ekids t)) -> map eid (other_kids T t) = without (eid h) (map eid (ekids t)).
Proof.
  intros E N. unfold other_kids, without. symmetry. apply filter_eid. intros k Hk. f_equal. destruct (str_eqb (etag k) T) eqn:Et.
  - assert (I : In k (kids_of T t)) by (apply filter_In; auto). rewrite E in I. destruct I as [<-|[]]. apply Nat.eqb_refl.
  - apply Nat.eqb_neq. intros C. assert (I : In h (kids_of T t)) by (rewrite E; now left). apply kids_of_in in I as [I1 I2]. assert (k = h). { clear -N Hk I1 C. induction (ekids t) as [|c l IH]; [destruct Hk|]. cbn [map] in N. inversion N as [|? ? N1 N2]; subst. destruct Hk as [->|Hk], I1 as [->|I1]; auto; exfalso; apply N1; [rewrite C|rewrite <- C]; now apply in_map. } subst k. apply str_eqb_eq in I2. congruence.
Qed.
(** *** With no history yet *)
Lemma save_first d t : wf d -> has d t -> in_doc d (eid t) -> kids_of $"History" t = [] ->
  exists s h d', save_history (eid t) d = (Ok tt, d') /\ wf d' /\ added d d' (eid t) (eid h) /\ has d' h /\ etag h = $"History" /\ ekids h = [s] /\ erase s = archived t /\ (forall j, in_doc d' j <-> in_doc d j \/ In j (ids h)) /\ (d_next d <= eid s)%nat /\ (forall j, In j (ids h) -> (d_next d <= j)%nat).
Proof.
  intros H Ht Hd Hk. destruct (grow_new d (erase t) H) as (ta & d1 & E1 & Ea & Ex & G1 & T1 & I1 & _). pose proof G1 as (W1 & _ & _ & _ & N1 & _).
  destruct (grow_new d1 (e_node $"History" []) W1) as (h & d2 & E2 & Eh & Exh & G2 & T2 & I2 & _). pose proof G2 as (W2 & _ & _ & _ & N2 & _ & L2).
  assert (Fk : find1 $"History" ta = None). { unfold find1. pose proof (erase_kids_of $"History" t ta Ex) as X. rewrite Hk in X. destruct (kids_of $"History" ta); [reflexivity|discriminate]. }
  pose proof (grow_has d1 d2 ta W1 G2 T1) as T1'.
  assert (Ia : In (eid ta) (ids ta)) by (rewrite ids_everything; apply in_map; rewrite everything_eq; now left). assert (Ih : In (eid h) (ids h)) by (rewrite ids_everything; apply in_map; rewrite everything_eq; now left).
  pose proof (I1 _ Ia) as B1. pose proof (I2 _ Ih) as B2.
  assert (Hn : ~ In (eid h) (ids ta)) by (intros X; apply I1 in X; lia).
  assert (Hdoc : forall i, (d_next d <= i)%nat -> is_doc (d_forest d2) i = false).
  { intros i Hi. pose proof (grow_trans d d1 d2 G1 G2) as (_ & _ & _ & _ & _ & R & _). destruct (d_forest d) as [|r0 F] eqn:EF; [destruct H; congruence|]. unfold is_doc. destruct (d_forest d2) as [|r1 F1]; [reflexivity|]. cbn in R. injection R as R. apply Nat.eqb_neq. assert (Hr : has d r0) by (rewrite EF; apply elements_root; now left). pose proof (wf_has d r0 H Hr). lia. }
  destruct (append_run d2 h ta W2 T2 T1' Hn (Hdoc _ (proj1 B1))) as (d3 & E3 & W3 & (P1 & P2 & P3) & P4 & P5 & P6).
  assert (Kh : ekids h = []). { pose proof (erase_kids h) as X. rewrite Exh in X. cbn in X. destruct (ekids h); [reflexivity|discriminate]. }
  assert (O3 : forall j r, lk d j = Some r -> lk d3 j = Some r).
  { intros j r Ej. pose proof (wf_look d j r H Ej) as Lj. rewrite P6. pose proof (grow_trans d d1 d2 G1 G2) as (_ & _ & _ & _ & _ & _ & L). rewrite (L j r Ej). cbn [option_map]. f_equal. unfold move_row. destruct (Nat.eqb_spec j (eid h)) as [->|]; [lia|]. rewrite without_absent; [apply with_kids_id|]. intros X. apply (rows_small d j r H Ej) in X. lia. }
  assert (G3 : grow d d3).
  { pose proof (grow_trans d d1 d2 G1 G2) as (_ & A1 & A2 & A3 & A4 & A5 & _). split; [exact W3|]. split; [congruence|]. split; [congruence|]. split; [congruence|]. split; [lia|]. split; [|exact O3].
    rewrite P5. rewrite <- A5. destruct (rts d2) as [|r2 l2] eqn:Er; [reflexivity|]. unfold without. cbn [filter]. destruct (Nat.eqb_spec r2 (eid ta)) as [->|]; [|reflexivity]. exfalso. cbn in A5. destruct (d_forest d) as [|r0 F] eqn:EF; [destruct H; congruence|]. cbn in A5. injection A5 as A5. assert (Hr : has d r0) by (rewrite EF; apply elements_root; now left). pose proof (wf_has d r0 H Hr). lia. }
  assert (Ta3 : has d3 ta). { apply (same_tree (d_forest d2)); auto using wf_unique. intros j Hj. rewrite P6. pose proof (I1 j Hj) as Bj. destruct (lk d2 j) as [r|] eqn:Ej; [|reflexivity]. cbn [option_map]. f_equal. unfold move_row. destruct (Nat.eqb_spec j (eid h)) as [->|]; [contradiction|].
    rewrite without_absent; [apply with_kids_id|]. intros X. assert (K : is_kid d2 j (eid ta)) by (exists r; auto). destruct (kid_below d2 j (eid ta) W2 K) as [_ C]. apply C. now apply below_ids; [apply W2| |]. }
  assert (Rh : lk d3 (eid h) = Some (with_kids [eid ta] (row_of h))). { rewrite P6, (look_self _ h (wf_unique _ W2) T2). cbn [option_map]. f_equal. unfold move_row. rewrite Nat.eqb_refl. cbn [row_of r_kids]. rewrite Kh. reflexivity. }
  pose proof (look_build (d_forest d3) (eid h) _ [ta] (wf_unique _ W3) Rh eq_refl ltac:(intros c [<-|[]]; exact Ta3)) as Th. cbn [with_kids r_tag r_attrs r_text row_of] in Th. set (h3 := El (eid h) (etag h) (eattrs h) (etext h) [ta]) in *.
  assert (Ids : forall j, In j (ids h3) -> (d_next d <= j)%nat). { intros j Hj. rewrite ids_everything, everything_eq in Hj. cbn [map flat_map ekids h3 eid] in Hj. rewrite app_nil_r in Hj. destruct Hj as [<-|Hj]; [lia|]. rewrite <- ids_everything in Hj. apply I1 in Hj. lia. }
  destruct (grow_attach d d3 h3 (eid t) H G3 Th Ids Hd) as (d' & E4 & W4 & A4 & T4 & D4). exists ta, h3, d'. split.
  - unfold save_history. rewrite (mbind_ok _ _ _ _ _ (the_run d _ t H Ht eq_refl)), (mbind_ok _ _ _ _ _ E1), (mbind_ok _ _ _ _ _ (the_run d1 _ ta W1 T1 Ea)), Fk, (mbind_ok _ _ _ _ _ E2). rewrite Ea, Eh in E3. rewrite (mbind_ok _ _ _ _ _ E3). unfold move in E4. cbn [h3 eid] in E4. rewrite <- Eh. exact E4.
  - split; [exact W4|]. split; [exact A4|]. split; [exact T4|]. split; [change (etag h = $"History"); rewrite <- (erase_tag h), Exh; reflexivity|]. split; [reflexivity|]. split; [|split; [exact D4|split; [lia|exact Ids]]].
    rewrite Ex. unfold archived. rewrite (no_other _ _ Hk). destruct t as [i tg at_ tx k]. reflexivity.
Qed.
(** *** With a history *)
Lemma save_again d t h : wf d -> has d t -> in_doc d (eid t) -> kids_of $"History" t = [h] ->
  exists s d', save_history (eid t) d = (Ok tt, d') /\ wf d' /\ added d d' (eid h) (eid s) /\ has d' s /\ erase s = archived t /\ (forall j, in_doc d' j <-> in_doc d j \/ In j (ids s)) /\ (forall j, In j (ids s) -> (d_next d <= j)%nat).
Proof.
  intros H Ht Hd Hk. assert (Ih0 : In h (kids_of $"History" t)) by (rewrite Hk; now left). apply kids_of_in in Ih0 as [Ih0 _]. pose proof (has_kid d t h Ht Ih0) as Hh.
  assert (Hdh : in_doc d (eid h)). { destruct Hd as (r & Er & B). exists r. split; [exact Er|]. eapply below_kid; [exact B|apply (look_self _ t (wf_unique _ H) Ht)|cbn; now apply in_map]. }
  destruct (grow_new d (erase t) H) as (ta & d1 & E1 & Ea & Ex & G1 & T1 & I1 & Nd). pose proof G1 as (W1 & A1 & A2 & A3 & A4 & A5 & A6).
  pose proof (erase_kids_of $"History" t ta Ex) as X. rewrite Hk in X. destruct (kids_of $"History" ta) as [|ha [|]] eqn:Ka; try discriminate. assert (Iha : In ha (kids_of $"History" ta)) by (rewrite Ka; now left). apply kids_of_in in Iha as [Iha _].
  destruct (remove_run d1 ta (eid ha) W1 T1 ltac:(now apply in_map)) as (d2 & E2 & W2 & (M1 & M2 & M3) & N2 & R2 & L2 & O2).
  assert (Ia : In (eid ta) (ids ta)) by (rewrite ids_everything; apply in_map; rewrite everything_eq; now left). pose proof (I1 _ Ia) as B1.
  assert (G2 : grow d d2).
  { split; [exact W2|]. split; [congruence|]. split; [congruence|]. split; [congruence|]. split; [lia|]. split; [rewrite R2, <- A5; destruct (rts d1) eqn:Er; [|reflexivity]; exfalso; destruct W1 as [W1 _]; destruct (d_forest d1); [congruence|discriminate]|].
    intros j r Ej. pose proof (wf_look d j r H Ej). rewrite O2 by lia. now apply A6. }
  set (s := El (eid ta) (etag ta) (eattrs ta) (etext ta) (other_kids $"History" ta)).
  assert (Ts : has d2 s).
  { refine (look_build (d_forest d2) (eid ta) _ (other_kids $"History" ta) (wf_unique _ W2) L2 _ _).
    - cbn [with_kids r_kids]. apply other_one; [exact Ka|]. apply (kids_nodup (d_forest d1)); [apply W1|exact T1].
    - intros c Hc. apply filter_In in Hc as [Hc _]. apply (same_tree (d_forest d1)); auto using wf_unique; [now apply (has_kid d1 ta)|]. intros j Hj. apply O2. intros ->. revert Hj. now apply (kid_apart d1 ta). }
  assert (Ids : forall j, In j (ids s) -> (d_next d <= j)%nat).
  { intros j Hj. enough (In j (ids ta)) as Y by (apply I1 in Y; lia). rewrite ids_everything, everything_eq in Hj |- *. cbn [map ekids s eid] in Hj. cbn [map]. destruct Hj as [Hj|Hj]; [now left|right]. apply in_map_iff in Hj as (y & Ey & Hy). apply in_flat_map in Hy as (c & Hc & Hy). apply filter_In in Hc as [Hc _]. apply in_map_iff. exists y. split; [exact Ey|]. apply in_flat_map. eauto. }
  destruct (grow_attach d d2 s (eid h) H G2 Ts Ids Hdh) as (d' & E4 & W4 & A & T4 & D4). exists s, d'. split; [|split; [exact W4|split; [exact A|split; [exact T4|split; [|split; [exact D4|exact Ids]]]]]].
  - unfold save_history. rewrite (mbind_ok _ _ _ _ _ (the_run d _ t H Ht eq_refl)), (mbind_ok _ _ _ _ _ E1), (mbind_ok _ _ _ _ _ (the_run d1 _ ta W1 T1 Ea)). unfold find1. rewrite Ka. cbn [hd_error]. rewrite Ea in E2. rewrite (mbind_ok _ _ _ _ _ E2), (mbind_ok _ _ _ _ _ (the_run d2 _ t W2 (grow_has d d2 t H G2 Ht) eq_refl)). rewrite Hk. cbn [hd_error]. unfold move in E4. cbn [s eid] in E4. rewrite <- Ea. exact E4.
  - apply erase_copy; [exact Ex|]. now apply erase_other.
Qed.
Lemma only_has is d d' s : wf d -> wf d' -> only is d d' -> has d s -> (forall j, In j (ids s) -> ~ In j is) -> has d' s.
Proof.
  intros H W (_ & _ & _ & _ & _ & L) Hs Hj. apply (same_tree (d_forest d)); auto using wf_unique. intros j I. assert (exists q, lk d j = Some q) as (q & Eq) by (apply (below_look (d_forest d) (eid s)); [apply H|now apply below_ids; [apply H| |]]). rewrite Eq. apply L; [exact Eq|]. now apply Hj.
Qed.
Lemma only_kid d d' t k : wf d -> wf d' -> has d t -> only [eid t] d d' -> In k (ekids t) -> has d' k.
Proof. intros H W Ht O Hk. apply (only_has [eid t] d d' k H W O); [now apply (has_kid d t)|]. intros j Hj [<-|[]]. revert Hj. now apply (kid_apart d t). Qed.
Definition with_last (p s : elem) : elem := El (eid p) (etag p) (eattrs p) (etext p) (ekids p ++ [s]).
Lemma added_tree d d' p s : wf d -> wf d' -> added d d' (eid p) (eid s) -> has d p -> has d' s -> has d' (with_last p s).
Proof.
  intros H W (_ & O & A) Hp Hs. refine (look_build (d_forest d') (eid p) _ (ekids p ++ [s]) (wf_unique _ W) (A _ (look_self _ p (wf_unique _ H) Hp)) _ _).
  - cbn. rewrite map_app. reflexivity.
  - intros c Hc. apply in_app_or in Hc as [Hc|[<-|[]]]; [|exact Hs]. now apply (only_kid d d' p).
Qed.
(** Replacing a child by a tree with the same identity. *)
Definition swap_kid (h : elem) (k : elem) : elem := if (eid k =? eid h)%nat then h else k.
Lemma filter_swap T h h' l : NoDup (map eid l) -> In h l -> eid h' = eid h -> etag h' = etag h -> etag h <> T -> filter (fun k => str_eqb (etag k) T) (map (swap_kid h') l) = filter (fun k => str_eqb (etag k) T) l.
Proof.
  intros N I Ei Et Nt. induction l as [|c l IH]; [reflexivity|]. cbn [map filter]. inversion N as [|? ? N1 N2]; subst. destruct (Nat.eq_dec (eid c) (eid h)) as [C|C].
  - assert (c = h) as ->. { destruct I as [->|I]; [reflexivity|]. exfalso. apply N1. rewrite C. now apply in_map. }
    assert (Sw : swap_kid h' h = h') by (unfold swap_kid; now rewrite Ei, Nat.eqb_refl). rewrite Sw. rewrite Et. assert (str_eqb (etag h) T = false) as -> by (apply not_true_is_false; intros X; apply str_eqb_eq in X; contradiction).
    f_equal. rewrite <- map_id. apply map_ext_in. intros k Hk. unfold swap_kid. destruct (Nat.eqb_spec (eid k) (eid h')) as [X|]; [|reflexivity]. exfalso. apply N1. rewrite <- Ei, <- X. now apply in_map.
  - destruct I as [->|I]; [congruence|]. assert (Sw : swap_kid h' c = c) by (unfold swap_kid; rewrite Ei; apply Nat.eqb_neq in C; now rewrite C). rewrite Sw. rewrite (IH N2 I); reflexivity.
Qed.
Lemma filter_swap_other T h h' l : NoDup (map eid l) -> In h l -> eid h' = eid h -> etag h' = etag h -> etag h = T -> filter (fun k => negb (str_eqb (etag k) T)) (map (swap_kid h') l) = filter (fun k => negb (str_eqb (etag k) T)) l.
Proof.
  intros N I Ei Et Nt. induction l as [|c l IH]; [reflexivity|]. cbn [map filter]. inversion N as [|? ? N1 N2]; subst. destruct (Nat.eq_dec (eid c) (eid h)) as [C|C].
  - assert (c = h) as ->. { destruct I as [->|I]; [reflexivity|]. exfalso. apply N1. rewrite C. now apply in_map. }
    assert (Sw : swap_kid h' h = h') by (unfold swap_kid; now rewrite Ei, Nat.eqb_refl). rewrite Sw. rewrite Et, str_eqb_refl. cbn [negb].
    f_equal. rewrite <- map_id. apply map_ext_in. intros k Hk. unfold swap_kid. destruct (Nat.eqb_spec (eid k) (eid h')) as [X|]; [|reflexivity]. exfalso. apply N1. rewrite <- Ei, <- X. now apply in_map.
  - destruct I as [->|I]; [congruence|]. assert (Sw : swap_kid h' c = c) by (unfold swap_kid; rewrite Ei; apply Nat.eqb_neq in C; now rewrite C). rewrite Sw. rewrite (IH N2 I); reflexivity.
Qed.
Lemma filter_swap_one T h h' l : NoDup (map eid l) -> In h l -> eid h' = eid h -> etag h' = etag h -> filter (fun k => str_eqb (etag k) T) l = [h] -> filter (fun k => str_eqb (etag k) T) (map (swap_kid h') l) = [h'].
Proof.
  intros N I Ei Et E. assert (Th : str_eqb (etag h) T = true) by (assert (X : In h (filter (fun k => str_eqb (etag k) T) l)) by (rewrite E; now left); now apply filter_In in X).
  revert E. induction l as [|c l IH]; [destruct I|]. cbn [map filter]. inversion N as [|? ? N1 N2]; subst. destruct (Nat.eq_dec (eid c) (eid h)) as [C|C].
  - assert (c = h) as ->. { destruct I as [->|I]; [reflexivity|]. exfalso. apply N1. rewrite C. now apply in_map. }
    assert (Sw : swap_kid h' h = h') by (unfold swap_kid; now rewrite Ei, Nat.eqb_refl). rewrite Sw, Et, Th. intros E. injection E as E. f_equal. rewrite <- E. f_equal. rewrite <- (map_id l) at 2. apply map_ext_in. intros k Hk. unfold swap_kid. destruct (Nat.eqb_spec (eid k) (eid h')) as [X|]; [|reflexivity]. exfalso. apply N1. rewrite <- Ei, <- X. now apply in_map.
  - destruct I as [->|I]; [congruence|]. assert (Sw : swap_kid h' c = c) by (unfold swap_kid; rewrite Ei; apply Nat.eqb_neq in C; now rewrite C). rewrite Sw. destruct (str_eqb (etag c) T) eqn:Ec; [|intros E; now apply IH]. intros E. injection E as -> E. congruence.
Qed.
Lemma everything_parent t u : In u (everything t) -> u = t \/ exists q, In q (everything t) /\ In u (ekids q).
Proof.
  induction t as [i g a x k IH] using elem_ind'. rewrite everything_eq. cbn [ekids]. intros [<-|H]; [now left|right]. apply in_flat_map in H as (c & Hc & Hu). rewrite Forall_forall in IH. destruct (IH c Hc Hu) as [->|(q & Hq & Iq)].
  - exists (El i g a x k). split; [now left|exact Hc].
  - exists q. split; [right; apply in_flat_map; eauto|exact Iq].
Qed.
Lemma only_kid_tree d d' t h h' : wf d -> wf d' -> has d t -> In h (ekids t) -> eid h' = eid h -> has d' h' -> only [eid h] d d' -> has d' (El (eid t) (etag t) (eattrs t) (etext t) (map (swap_kid h') (ekids t))).
Proof.
  intros H W Ht Ih Ei Hh' O. pose proof O as (_ & _ & _ & _ & _ & L). pose proof (has_kid d t h Ht Ih) as Hh. pose proof (kids_nodup (d_forest d) t (wf_unique _ H) Ht) as N.
  assert (Nt : eid t <> eid h) by (intros C; apply (kid_apart d t h H Ht Ih); rewrite C, ids_everything; apply in_map; rewrite everything_eq; now left).
  refine (look_build (d_forest d') (eid t) _ (map (swap_kid h') (ekids t)) (wf_unique _ W) (L _ _ (look_self _ t (wf_unique _ H) Ht) _) _ _).
  - intros [C|[]]; congruence.
  - rewrite map_map. cbn. apply map_ext. intros k. unfold swap_kid. destruct (Nat.eqb_spec (eid k) (eid h')); congruence.
  - intros c Hc. apply in_map_iff in Hc as (k & <- & Hk). unfold swap_kid. destruct (Nat.eqb_spec (eid k) (eid h')) as [C|C]; [exact Hh'|]. apply (only_has [eid h] d d' k H W O (has_kid d t k Ht Hk)). intros j Hj [<-|[]]. assert (X : k = h); [|congruence].
    assert (I : In h (everything k)). { rewrite ids_everything in Hj. apply in_map_iff in Hj as (y & Ey & Hy). assert (y = h) as <- by (apply (unique_inj (d_forest d)); [apply H|apply (everything_has d k); [now apply (has_kid d t)|exact Hy]|exact Hh|exact Ey]). exact Hy. }
    destruct (everything_parent k h I) as [->|(q & Hq & Iq)]; [reflexivity|]. exfalso. assert (q = t). { apply (unique_parent d (eid h) H); [apply (everything_has d k); [now apply (has_kid d t)|exact Hq]|exact Ht|now apply in_map|now apply in_map]. } subst q. apply (kid_apart d t k H Ht Hk). now apply ids_In.
Qed.
Lemma filter_no {A} (l : list A) : filter (fun _ => false) l = []. Proof. induction l as [|a l IH]; [reflexivity|exact IH]. Qed.
Lemma history_run d t : wf d -> has d t -> history (eid t) d = (Ok (map eid (snapshots t)), d).
Proof. intros H Ht. unfold history. rewrite (mbind_ok _ _ _ _ _ (the_run d _ t H Ht eq_refl)). unfold snapshots. destruct (find1 $"History" t); reflexivity. Qed.
Lemma archived_none t s : erase s = archived t -> kids_of $"History" s = [] /\ etag s = etag t.
Proof.
  intros E. split; [|now rewrite <- (erase_tag s), E]. assert (X : xsub $"History" (erase s) = []). { rewrite E. unfold archived, xsub, xkids. rewrite filter_map_comm. unfold other_kids. rewrite filter_filter. rewrite (filter_same _ (fun _ => false)) by (intros k _; rewrite erase_tag; destruct (str_eqb (etag k) $"History"); reflexivity). induction (ekids t) as [|c l IH]; [reflexivity|exact IH]. }
  rewrite erase_sub in X. destruct (kids_of $"History" s); [reflexivity|discriminate].
Qed.
Lemma kids_of_app T i g a x k l : kids_of T (El i g a x (k ++ l)) = kids_of T (El i g a x k) ++ kids_of T (El i g a x l).
Proof. unfold kids_of. cbn [ekids]. apply filter_app. Qed.
Lemma save_history_claim d t : wf d -> has d t -> in_doc d (eid t) -> etag t = $"Entry" -> at_most_one $"History" t ->
  exists s t' d', save_history (eid t) d = (Ok tt, d') /\ wf d' /\ has d' t' /\ same_head t t' /\ other_kids $"History" t' = other_kids $"History" t /\ at_most_one $"History" t' /\
    snapshots t' = snapshots t ++ [s] /\ erase s = archived t /\ kids_of $"History" s = [] /\ lk d (eid s) = None /\
    only (eid t :: map eid (kids_of $"History" t)) d d' /\ (forall j r, lk d j = Some r -> (in_doc d' j <-> in_doc d j)).
Proof.
  intros H Ht Hd Te Ho. destruct (kids_of $"History" t) as [|h [|]] eqn:Ek; [| |unfold at_most_one in Ho; rewrite Ek in Ho; cbn in Ho; lia].
  - destruct (save_first d t H Ht Hd Ek) as (s & h & d' & E & W & A & Th & Tg & Kh & Es & D & Ns & Nh). pose proof (archived_none t s Es) as [Ks Ts]. exists s, (with_last t h), d'. split; [exact E|]. split; [exact W|]. split; [now apply (added_tree d)|]. split; [repeat split|].
    assert (Eh : str_eqb (etag h) $"History" = true) by (rewrite Tg; reflexivity).
    split; [unfold other_kids, with_last; cbn [ekids]; rewrite filter_app; cbn [filter]; rewrite Eh; cbn [negb]; apply app_nil_r|].
    assert (Kt : kids_of $"History" (with_last t h) = [h]). { unfold with_last. rewrite kids_of_app. replace (kids_of $"History" (El (eid t) (etag t) (eattrs t) (etext t) (ekids t))) with (kids_of $"History" t) by (destruct t; reflexivity). rewrite Ek. unfold kids_of. cbn [ekids filter app]. now rewrite Eh. }
    split; [unfold at_most_one; rewrite Kt; cbn; lia|]. split.
    { unfold snapshots, find1. rewrite Kt, Ek. cbn [hd_error app]. unfold kids_of. rewrite Kh. cbn [filter]. rewrite Ts, Te. reflexivity. }
    split; [exact Es|]. split; [exact Ks|]. split; [destruct (lk d (eid s)) as [r|] eqn:Er; [apply (wf_look d _ r H) in Er; lia|reflexivity]|]. split; [apply A|]. intros j r Ej. rewrite D. split; [|auto]. intros [X|X]; [exact X|]. apply Nh in X. pose proof (wf_look d j r H Ej). lia.
  - destruct (save_again d t h H Ht Hd Ek) as (s & d' & E & W & A & Th & Es & D & Ns). pose proof (archived_none t s Es) as [Ks Ts]. assert (Ih : In h (kids_of $"History" t)) by (rewrite Ek; now left). apply kids_of_in in Ih as [Ih Tg]. pose proof (has_kid d t h Ht Ih) as Hh.
    set (h' := with_last h s). assert (Hh' : has d' h') by now apply (added_tree d). pose proof (kids_nodup (d_forest d) t (wf_unique _ H) Ht) as N.
    exists s, (El (eid t) (etag t) (eattrs t) (etext t) (map (swap_kid h') (ekids t))), d'. split; [exact E|]. split; [exact W|]. split; [apply (only_kid_tree d d' t h h' H W Ht Ih eq_refl Hh'); apply A|]. split; [repeat split|].
    split; [unfold other_kids; cbn [ekids]; now apply (filter_swap_other _ h)|].
    assert (Kt : kids_of $"History" (El (eid t) (etag t) (eattrs t) (etext t) (map (swap_kid h') (ekids t))) = [h']) by (unfold kids_of; cbn [ekids]; now apply (filter_swap_one _ h)).
    split; [unfold at_most_one; rewrite Kt; cbn; lia|]. split.
    { unfold snapshots, find1. rewrite Kt, Ek. cbn [hd_error]. unfold h', with_last. rewrite kids_of_app. f_equal. unfold kids_of. cbn [ekids filter]. rewrite Ts, Te. reflexivity. }
    assert (Is : In (eid s) (ids s)) by (rewrite ids_everything; apply in_map; rewrite everything_eq; now left).
    split; [exact Es|]. split; [exact Ks|]. split; [destruct (lk d (eid s)) as [r|] eqn:Er; [apply (wf_look d _ r H) in Er; apply Ns in Is; lia|reflexivity]|]. split.
    { destruct A as (_ & (O1 & O2 & O3 & O4 & O5 & O6) & _). split; [exact O1|]. split; [exact O2|]. split; [exact O3|]. split; [exact O4|]. split; [exact O5|]. intros j r Ej Nj. apply O6; [exact Ej|]. intros [<-|[]]. apply Nj. right. now left. }
    intros j r Ej. rewrite D. split; [|auto]. intros [X|X]; [exact X|]. apply Ns in X. pose proof (wf_look d j r H Ej). lia.
Qed.
(** Existing snapshots stay as they were. *)
Lemma save_keeps d d' t s : wf d -> wf d' -> has d t -> at_most_one $"History" t -> only (eid t :: map eid (kids_of $"History" t)) d d' -> In s (snapshots t) -> has d' s.
Proof.
  intros H W Ht Ho O Is. unfold snapshots, find1 in Is. destruct (kids_of $"History" t) as [|h [|]] eqn:Ek; [destruct Is| |unfold at_most_one in Ho; rewrite Ek in Ho; cbn in Ho; lia]. cbn [hd_error] in Is. apply kids_of_in in Is as [Is _].
  assert (Ih : In h (kids_of $"History" t)) by (rewrite Ek; now left). apply kids_of_in in Ih as [Ih _]. pose proof (has_kid d t h Ht Ih) as Hh. apply (only_has _ d d' s H W O (has_kid d h s Hh Is)). intros j Hj [<-|[<-|[]]].
  - apply (kid_apart d t h H Ht Ih). rewrite ids_everything, everything_eq. cbn [map]. right. rewrite ids_everything in Hj. apply in_map_iff in Hj as (y & Ey & Hy). rewrite <- Ey. apply in_map, in_flat_map. eauto.
  - revert Hj. now apply (kid_apart d h).
Qed.
(** *** Deleting *)
Lemma remove_delete d p c : wf d -> is_kid d p c -> lx_remove p c d = delete c d.
Proof.
  intros H K. destruct (kid_rows d p c H K) as (tp & tk & Hp & <- & I & <- & _). assert (E : parent_of (d_forest d) (eid tk) = Some tp) by (apply parent_of_In; [apply H|split; [exact Hp|now apply in_map]]). unfold delete. now rewrite E.
Qed.
Lemma delete_all_claim d t h : wf d -> has d t -> in_doc d (eid t) -> find1 $"History" t = Some h ->
  exists d', delete_history (eid t) None d = (Ok tt, d') /\ wf d' /\ dropped d d' (eid t) (fun j => (j =? eid h)%nat) /\ (forall j, in_doc d' j <-> in_doc d j /\ ~ below (lk d) (eid h) j) /\
    (at_most_one $"History" t -> exists t', has d' t' /\ same_head t t' /\ other_kids $"History" t' = other_kids $"History" t /\ snapshots t' = []).
Proof.
  intros H Ht Hd Ef. assert (Ih : In h (kids_of $"History" t)) by (unfold find1 in Ef; destruct (kids_of $"History" t); [discriminate|injection Ef as ->; now left]). pose proof Ih as Ih0. apply kids_of_in in Ih as [Ih _]. assert (K : is_kid d (eid t) (eid h)) by (exists (row_of t); split; [now apply look_self; [apply H|]|cbn; now apply in_map]).
  destruct (delete_one d (eid t) (eid h) H Hd K) as (d' & E & W & P & D & _). exists d'. split; [unfold delete_history; rewrite (mbind_ok _ _ _ _ _ (the_run d _ t H Ht eq_refl)), Ef, (remove_delete d _ _ H K); exact E|]. split; [exact W|]. split; [exact P|]. split; [exact D|].
  intros Ho. destruct (kids_of $"History" t) as [|h0 [|]] eqn:Ek; [destruct Ih0| |unfold at_most_one in Ho; rewrite Ek in Ho; cbn in Ho; lia]. destruct Ih0 as [->|[]]. pose proof P as (_ & _ & _ & _ & L). pose proof (L _ _ (look_self _ t (wf_unique _ H) Ht)) as Lt. rewrite Nat.eqb_refl in Lt.
  exists (El (eid t) (etag t) (eattrs t) (etext t) (other_kids $"History" t)). split; [|split; [repeat split|split]].
  - refine (look_build (d_forest d') (eid t) _ (other_kids $"History" t) (wf_unique _ W) Lt _ _).
    + cbn [with_kids r_kids row_of]. rewrite (other_one _ t h Ek (kids_nodup (d_forest d) t (wf_unique _ H) Ht)). reflexivity.
    + intros c Hc. apply filter_In in Hc as [Hc _]. apply (same_tree (d_forest d)); auto using wf_unique; [now apply (has_kid d t)|]. intros j Hj. assert (exists q, lk d j = Some q) as (q & Eq) by (apply (below_look (d_forest d) (eid c)); [apply H|apply below_ids; [apply H|now apply (has_kid d t)|exact Hj]]). rewrite (L _ _ Eq), Eq. destruct (Nat.eqb_spec j (eid t)) as [->|]; [|reflexivity]. exfalso. revert Hj. now apply (kid_apart d t).
  - unfold other_kids at 1. cbn [ekids]. unfold other_kids. rewrite filter_filter. apply filter_same. intros k _. destruct (str_eqb (etag k) $"History"); reflexivity.
  - unfold snapshots, find1, kids_of. cbn [ekids]. unfold other_kids. rewrite filter_filter. rewrite (filter_same _ (fun _ => false)) by (intros k _; destruct (str_eqb (etag k) $"History"); reflexivity). rewrite filter_no. reflexivity.
Qed.
Lemma delete_one_claim d t h s : wf d -> has d t -> in_doc d (eid t) -> find1 $"History" t = Some h -> In s (ekids h) ->
  exists d', delete_history (eid t) (Some (eid s)) d = (Ok tt, d') /\ wf d' /\ dropped d d' (eid h) (fun j => (j =? eid s)%nat) /\ (forall j, in_doc d' j <-> in_doc d j /\ ~ below (lk d) (eid s) j).
Proof.
  intros H Ht Hd Ef Is. assert (Ih : In h (kids_of $"History" t)) by (unfold find1 in Ef; destruct (kids_of $"History" t); [discriminate|injection Ef as ->; now left]). apply kids_of_in in Ih as [Ih _]. pose proof (has_kid d t h Ht Ih) as Hh.
  assert (K : is_kid d (eid h) (eid s)) by (exists (row_of h); split; [now apply look_self; [apply H|]|cbn; now apply in_map]).
  assert (Hdh : in_doc d (eid h)). { destruct Hd as (r & Er & B). exists r. split; [exact Er|]. eapply below_kid; [exact B|apply (look_self _ t (wf_unique _ H) Ht)|cbn; now apply in_map]. }
  destruct (delete_one d (eid h) (eid s) H Hdh K) as (d' & E & W & P & D & _). exists d'. split; [|auto]. unfold delete_history. rewrite (mbind_ok _ _ _ _ _ (the_run d _ t H Ht eq_refl)), Ef, (remove_delete d _ _ H K). exact E.
Qed.
Lemma delete_history_raises d t o x d' : wf d -> has d t -> delete_history (eid t) o d = (Err x, d') -> d' = d.
Proof.
  intros H Ht E. unfold delete_history in E. rewrite (mbind_ok _ _ _ _ _ (the_run d _ t H Ht eq_refl)) in E. destruct o as [s|], (find1 $"History" t) as [h|]; try (injection E; congruence);
  unfold lx_remove in E; destruct (parent_of _ _); [destruct (_ =? _)%nat| |destruct (_ =? _)%nat|]; congruence.
Qed.
