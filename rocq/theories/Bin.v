(** Deleting a binary: the attachments that refer to it, and the renumbering of the others. *)
From Coq Require Import ZifyBool ZifyNat ZifyN.
From Verif Require Import Base Base64 PyStr Xml Tree XPath Time Db XPath_parse XPath_facts XPath_eval FindSpec Find_facts Find_path Find_more ApiSpec StructSpec Heap Uuid Api Prim Api_xpath Api_fields Api_custom Api_sub Api_claims Struct Struct_add Struct_find Struct_bin Struct_trash Struct_empty BinSpec Bin_xpath.

(** *** Attributes *)
Lemma attr_In k v t : NoDup (map fst (eattrs t)) -> (attr_of k t = Some v <-> In (k, v) (eattrs t)).
Proof.
  intros H. unfold attr_of. split.
  - intros E. destruct (List.find _ (eattrs t)) as [[k' v']|] eqn:F; [|discriminate]. apply find_some in F as [F1 F2]. apply str_eqb_eq in F2. cbn in *. injection E as <-. now subst.
  - intros I. destruct (List.find (fun a : str * str => str_eqb (fst a) k) (eattrs t)) as [[k' v']|] eqn:F.
    + apply find_some in F as [F1 F2]. apply str_eqb_eq in F2. cbn in *. subst k'. f_equal. assert (E : (k, v') = (k, v)) by (apply (NoDup_map_inj fst (eattrs t)); auto). now injection E.
    + apply (find_none _ _ F) in I. cbn in I. now rewrite str_eqb_refl in I.
Qed.
Lemma attr_put_fst k v l w : In (k, w) l -> map fst (attr_put k v l) = map fst l.
Proof.
  induction l as [|[m u] l IH]; intros H; [destruct H|]. cbn [attr_put]. destruct (str_eqb m k) eqn:E; [reflexivity|]. cbn [map fst]. f_equal. apply IH. destruct H as [H|H]; [|exact H]. injection H as -> _. now rewrite str_eqb_refl in E.
Qed.
Lemma attr_put_In k v l : In (k, v) (attr_put k v l).
Proof. induction l as [|[m u] l IH]; [now left|]. cbn [attr_put]. destruct (str_eqb m k) eqn:E; [left; apply str_eqb_eq in E; now subst|right; exact IH]. Qed.
Lemma number_inj m n : number m = number n -> m = n.
Proof. intros H. apply str_of_Z_inj in H. lia. Qed.

(** *** An attachment with its reference, wherever it is *)
Definition refs (d : db) (a v n : nat) : Prop :=
  is_tag (lk d) $"Binary" a /\ kids_tagged (lk d) $"Value" a = [v] /\ exists q, lk d v = Some q /\ NoDup (map fst (r_attrs q)) /\ In ($"Ref", number n) (r_attrs q).
Lemma attached_refs d a v n : wf d -> regular d -> attached d a v n -> refs d a v n.
Proof.
  intros H G [A1 A2 A3 (q & Eq & Iq)]. split; [exact A2|]. split; [exact A3|]. exists q. split; [exact Eq|]. split; [|exact Iq]. destruct A2 as (r & Er & Tr).
  assert (I : In v (r_kids r)). { unfold kids_tagged in A3. rewrite Er in A3. assert (J : In v (filter (tagb (lk d) $"Value") (r_kids r))) by (rewrite A3; now left). apply filter_In in J. tauto. }
  destruct (rg_leaf d G a r v Er Tr I) as (q' & Eq' & _ & N & _). rewrite Eq in Eq'. injection Eq' as <-. exact N.
Qed.
Lemma refs_elems d a v n : wf d -> refs d a v n -> exists t V, has d t /\ eid t = a /\ etag t = $"Binary" /\ kids_of $"Value" t = [V] /\ has d V /\ eid V = v /\ NoDup (map fst (eattrs V)) /\ In ($"Ref", number n) (eattrs V) /\ attr_of $"Ref" V = Some (number n) /\ In V (ekids t).
Proof.
  intros H ((r & Er & Tr) & K & q & Eq & N & I). destruct (look_has d a r H Er) as (t & Ht & <- & <-). rewrite (kids_tagged_of d t _ H Ht) in K. apply map_one in K as (V & K & <-).
  assert (IV : In V (kids_of $"Value" t)) by (rewrite K; now left). apply kids_of_in in IV as [IV TV]. pose proof (has_kid d t V Ht IV) as HV. rewrite (look_self _ V (wf_unique d H) HV) in Eq. apply Some_inj in Eq. subst q. cbn in N, I.
  exists t, V. repeat (split; [first [assumption|reflexivity]|]). split; [now apply attr_In|exact IV].
Qed.
Lemma att_id_run d a v n : wf d -> refs d a v n -> att_id a d = (Ok (Z.of_nat n), d).
Proof.
  intros H R. destruct (refs_elems d a v n H R) as (t & V & Ht & Ea & _ & K & _ & _ & _ & _ & A & _). unfold att_id. rewrite (mbind_ok _ _ _ _ _ (the_run d a t H Ht Ea)). unfold find1. rewrite K. cbn [hd_error]. rewrite A. unfold of_res, number. now rewrite int_of_str_Z.
Qed.
Lemma set_att_id_run d a v n z : wf d -> refs d a v n -> set_att_id a z d = lx_set_attr v $"Ref" (str_of_Z z) d.
Proof.
  intros H R. destruct (refs_elems d a v n H R) as (t & V & Ht & Ea & _ & K & _ & EV & _). unfold set_att_id. rewrite (mbind_ok _ _ _ _ _ (the_run d a t H Ht Ea)). unfold find1. rewrite K. cbn [hd_error]. now rewrite EV.
Qed.
Lemma refs_value_inj d a v n : wf d -> refs d a v n -> forall a' n', refs d a' v n' -> a' = a /\ n' = n.
Proof.
  intros H R a' n' R'. destruct (refs_elems d a v n H R) as (t & V & Ht & Ea & _ & K & HV & EV & N & I & A & IV). destruct (refs_elems d a' v n' H R') as (t' & V' & Ht' & Ea' & _ & K' & HV' & EV' & N' & I' & A' & IV').
  assert (V' = V) as -> by (apply (unique_inj (d_forest d)); [apply H|assumption..|congruence]). assert (t' = t) as -> by (apply (unique_parent d (eid V) H); auto; now apply in_map). split; [congruence|]. rewrite A in A'. apply Some_inj in A'. now apply number_inj in A'.
Qed.

(** *** History *)
Lemma ids_strict d t h : wf d -> has d t -> has d h -> (In t (flat_map everything (ekids h)) <-> eid h <> eid t /\ below (lk d) (eid h) (eid t)).
Proof.
  intros H Ht Hh. rewrite (below_ids _ h (eid t) (wf_unique d H) Hh), ids_everything, everything_eq. split.
  - intros I. split; [|right; now apply in_map]. intros E. apply (unique_inj (d_forest d)) in E; [|apply H|assumption..]. subst h. apply in_flat_map in I as (c & Hc & I).
    apply (kid_apart d t c H Ht Hc). now apply ids_In.
  - intros (N & I). destruct I as [E|I]; [congruence|]. apply in_map_iff in I as (u & Eu & Iu). assert (u = t) as <-; [|exact Iu]. apply (unique_inj (d_forest d)); [apply H| |exact Ht|exact Eu].
    apply in_flat_map in Iu as (c & Hc & Iu). apply (elements_sub _ h Hh). rewrite everything_eq. right. apply in_flat_map. eauto.
Qed.
Lemma visible_live d t : wf d -> has d t -> (In t (visible (d_forest d)) <-> ~ in_history d (eid t)).
Proof.
  intros H Ht. rewrite (visible_below _ t (wf_unique d H) Ht). apply not_iff_compat. split.
  - intros (h & Hh & Th & I). apply (ids_strict d t h H Ht Hh) in I as [N B]. exists (eid h). split; [exists (row_of h); split; [now apply look_self; [apply H|]|exact Th]|auto].
  - intros (i & (r & Er & Tr) & N & B). destruct (look_has d i r H Er) as (h & Hh & <- & <-). exists h. split; [exact Hh|]. split; [exact Tr|]. apply (ids_strict d t h H Ht Hh). auto.
Qed.

(** *** The two searches *)
Lemma top_of d : wf d -> exists r F, d_forest d = r :: F.
Proof. intros (H & _). destruct (d_forest d) as [|r F]; [congruence|eauto]. Qed.
Lemma doc_everything d r F t : wf d -> d_forest d = r :: F -> has d t -> (In t (everything r) <-> in_doc d (eid t)).
Proof. intros H EF Ht. rewrite <- (doc_elems_doc d t H Ht). unfold doc_elems. now rewrite EF. Qed.
Lemma row_attached d t V n : wf d -> has d t -> in_doc d (eid t) -> etag t = $"Binary" -> kids_of $"Value" t = [V] -> In ($"Ref", number n) (eattrs V) -> attached d (eid t) (eid V) n.
Proof.
  intros H Ht D T K I. constructor; [exact D| | |].
  - exists (row_of t). split; [now apply look_self; [apply H|]|exact T].
  - rewrite (kids_tagged_of d t _ H Ht), K. reflexivity.
  - assert (IV : In V (kids_of $"Value" t)) by (rewrite K; now left). apply kids_of_in in IV as [IV TV]. exists (row_of V). split; [apply look_self; [apply H|now apply (has_kid d t)]|exact I].
Qed.
Lemma regular_value d t V : wf d -> regular d -> has d t -> etag t = $"Binary" -> In V (ekids t) -> etag V = $"Value" -> kids_of $"Value" t = [V] /\ exists n, In ($"Ref", number n) (eattrs V).
Proof.
  intros H G Ht T I TV. assert (IT : is_tag (lk d) $"Binary" (eid t)) by (exists (row_of t); split; [now apply look_self; [apply H|]|exact T]).
  destruct (rg_value d G (eid t) (eid V) IT) as (K & n & q & Eq & In_).
  - rewrite (kids_tagged_of d t _ H Ht). apply in_map. apply filter_In. split; [exact I|]. now apply str_eqb_eq.
  - rewrite (kids_tagged_of d t _ H Ht) in K. apply map_one in K as (V' & K & E). pose proof (has_kid d t V Ht I) as HV.
    assert (V' = V) as ->. { apply (unique_inj (d_forest d)); [apply H| |exact HV|exact E]. assert (J : In V' (kids_of $"Value" t)) by (rewrite K; now left). apply kids_of_in in J as [J _]. now apply (has_kid d t). }
    split; [exact K|]. exists n. rewrite (look_self _ V (wf_unique d H) HV) in Eq. apply Some_inj in Eq. now subst q.
Qed.
Lemma regular_leaf d t x : wf d -> regular d -> has d t -> etag t = $"Binary" -> In x (ekids t) -> ekids x = [] /\ NoDup (map fst (eattrs x)).
Proof.
  intros H G Ht T I. destruct (rg_leaf d G (eid t) (row_of t) (eid x)) as (q & Eq & K & N & _); [now apply look_self; [apply H|]|exact T|cbn; now apply in_map|]. rewrite (look_self _ x (wf_unique d H)) in Eq by now apply (has_kid d t). apply Some_inj in Eq. subst q. split; [|exact N]. cbn in K. now apply map_eq_nil in K.
Qed.
Lemma regular_entry d t V : wf d -> regular d -> has d t -> in_doc d (eid t) -> etag t = $"Binary" -> In V (ekids t) -> etag V = $"Value" -> exists e, has d e /\ etag e = $"Entry" /\ In t (ekids e).
Proof.
  intros H G Ht D T I TV. destruct (rg_entry d G (eid t) D) as (e & (re & Ee & Ie) & (re' & Ee' & Te)).
  - exists (row_of t). split; [now apply look_self; [apply H|]|exact T].
  - rewrite (kids_tagged_of d t _ H Ht). assert (J : In V (kids_of $"Value" t)) by (apply filter_In; split; [exact I|now apply str_eqb_eq]). destruct (kids_of $"Value" t); [destruct J|discriminate].
  - rewrite Ee in Ee'. apply Some_inj in Ee'. subst re'. destruct (look_has d e re H Ee) as (E & HE & <- & <-). exists E. split; [exact HE|]. split; [exact Te|]. cbn in Ie. apply in_map_iff in Ie as (t' & Et & It).
    assert (t' = t) as <-; [|exact It]. apply (unique_inj (d_forest d)); [apply H|now apply (has_kid d E)|exact Ht|exact Et].
Qed.
Lemma picks_NoDup {A} (P : A -> Prop) l m : picks P l m -> NoDup l -> NoDup m.
Proof. induction 1 as [|x l m Hx Hp IH|x l m Hx Hp IH]; intros N; [constructor|inversion N; subst; constructor; [intros C; apply (picks_In P l m x Hp) in C; tauto|auto]|inversion N; subst; auto]. Qed.
Lemma unique_everything d r F : wf d -> d_forest d = r :: F -> NoDup (everything r).
Proof. intros (_ & H & _) EF. unfold unique in H. rewrite EF in H. cbn [elements flat_map] in H. rewrite map_app in H. apply NoDup_app_l in H. exact (NoDup_map_inv _ _ H). Qed.
Lemma eid_NoDup d l : wf d -> NoDup l -> (forall t, In t l -> has d t) -> NoDup (map eid l).
Proof.
  intros H N. induction N as [|t l Nt N IH]; intros Hl; [constructor|]. cbn [map]. constructor; [|apply IH; intros; apply Hl; now right]. intros C. apply in_map_iff in C as (u & Eu & Iu). apply Nt. assert (u = t) as <-; [|exact Iu].
  apply (unique_inj (d_forest d)); [apply H|apply Hl; now right|apply Hl; now left|exact Eu].
Qed.
Definition id_query (z : Z) : query := MkQuery None None false false None [] [($"id", K_int z)].
Lemma find_refs R d k : wf d -> regular d ->
  exists l, find_attachments R d true (id_query (Z.of_nat k)) = Ok (map R_att l) /\ NoDup l /\ forall a, In a l <-> unwanted d k a.
Proof.
  intros H G. destruct (top_of d H) as (r & F & EF).
  assert (AN : forall t, has d t -> in_doc d (eid t) -> (answers $"Binary" attachment_key R (d_forest d) (id_query (Z.of_nat k)) t <-> unwanted d k (eid t))).
  { intros t Ht D. unfold answers. cbn [id_query q_history q_string q_kw q_regex q_flags]. split.
    - intros (T & [V|V] & _ & K); [discriminate|]. apply (visible_live d t H Ht) in V. split; [exact V|]. specialize (K _ (or_introl eq_refl)).
      change (kid_with $"Value" (fun v => exists r0, In ($"Ref", r0) (eattrs v) /\ matches R false (ignore_case None) (str_of_Z (Z.of_nat k)) (Some r0)) t) in K.
      destruct K as (x & Ix & Tx & r0 & I0 & M). cbn in M. injection M as ->. destruct (regular_value d t x H G Ht T Ix Tx) as (Kx & n & In_). exists (eid x). now apply row_attached.
    - intros (V & v & A). pose proof (attached_refs d _ v k H G A) as Rf. destruct (refs_elems d _ v k H Rf) as (t' & x & Ht' & Et & T & K & Hx & Ex & N & I & A' & Ix).
      assert (t' = t) as -> by (apply (unique_inj (d_forest d)); [apply H|assumption..]). split; [exact T|]. split; [right; now apply visible_live|]. split; [intros f v0 []|]. intros kv [<-|[]].
      change (kid_with $"Value" (fun v => exists r0, In ($"Ref", r0) (eattrs v) /\ matches R false (ignore_case None) (str_of_Z (Z.of_nat k)) (Some r0)) t).
      exists x. split; [exact Ix|]. split; [apply (kids_of_in $"Value" t x); rewrite K; now left|]. exists (number k). split; [exact I|reflexivity]. }
  assert (EV : forall t, In t (everything r) -> has d t) by (intros t It; apply doc_elems_has; unfold doc_elems; now rewrite EF).
  destruct (find_attachments_spec R d (id_query (Z.of_nat k)) true (everything r)) as (l & Hp & E).
  - apply H.
  - split; [reflexivity|]. split; [exact I|]. split; [intros f v []|]. intros k0 v [E|[]]. injection E as <- <-. split; [left; reflexivity|]. split; [discriminate|]. split; [discriminate|]. split; [apply number_plain; lia|]. intros C; discriminate C.
  - reflexivity.
  - apply (se_all _ r F EF).
  - intros t x Ht T Ix. destruct (regular_leaf d t x H G Ht T Ix) as [_ N]. split; [exact N|]. intros TV. destruct (regular_value d t x H G Ht T Ix TV) as (_ & n & I). apply attr_In in I; [congruence|exact N].
  - intros t It A. pose proof (EV t It) as Ht. assert (D : in_doc d (eid t)) by now apply (doc_everything d r F). pose proof A as (T & _). apply AN in A; [|assumption..]. destruct A as (_ & v & A).
    destruct (refs_elems d _ v k H (attached_refs d _ v k H G A)) as (t' & x & Ht' & Et & _ & K & _ & _ & _ & _ & _ & Ix). assert (t' = t) as -> by (apply (unique_inj (d_forest d)); [apply H|assumption..]).
    destruct (regular_entry d t x H G Ht D T Ix) as (e & He & Te & Ie); [apply (kids_of_in $"Value" t x); rewrite K; now left|]. eauto.
  - exists (map eid l). split; [rewrite E, map_map; reflexivity|]. split.
    + apply (eid_NoDup d l H); [eapply picks_NoDup; [exact Hp|now apply (unique_everything d r F)]|]. intros t It. apply EV. apply (picks_In _ _ _ _ Hp It).
    + intros a. rewrite in_map_iff. split.
      * intros (t & <- & It). apply (picks_In _ _ _ _ Hp) in It as [It A]. apply AN; [now apply EV|apply (doc_everything d r F t H EF); [now apply EV|exact It]|exact A].
      * intros (V & v & A). pose proof (at_doc d a v k A) as D. destruct (refs_elems d a v k H (attached_refs d a v k H G A)) as (t & x & Ht & <- & _). exists t. split; [reflexivity|].
        apply (picks_all _ _ _ _ Hp). split; [now apply (doc_everything d r F t H EF)|]. apply AN; [exact Ht|exact D|]. split; [exact V|eauto].
Qed.
Lemma gt_holds d t k : wf d -> regular d -> has d t -> in_doc d (eid t) ->
  (etag t = $"Binary" /\ crits_hold [gt_crit (number k)] t = true <-> exists v n, attached d (eid t) v n /\ (k < n)%nat).
Proof.
  intros H G Ht D. unfold crits_hold. cbn [forallb gt_crit crit_holds]. rewrite andb_true_r, existsb_exists. split.
  - intros (T & x & Ix & E). rewrite andb_true_r in E. apply andb_true_iff in E as [Tx E]. apply str_eqb_eq in Tx. destruct (regular_value d t x H G Ht T Ix Tx) as (K & n & I).
    exists (eid x), n. split; [now apply row_attached|]. unfold gt_test in E. apply existsb_exists in E as ([k0 r0] & I0 & E). cbn [fst snd] in E. apply andb_true_iff in E as [E0 E]. apply str_eqb_eq in E0. subst k0.
    destruct (regular_leaf d t x H G Ht T Ix) as [_ N]. assert (E1 : ($"Ref", r0) = ($"Ref", number n)) by (apply (NoDup_map_inj fst (eattrs x)); auto). injection E1 as ->.
    unfold number in E. rewrite !to_num_Z in E by apply Nat2Z.is_nonneg. cbn [num_cmp] in E. cbv zeta in E. rewrite !Z.mul_1_r in E. apply Z.ltb_lt in E. lia.
  - intros (v & n & A & L). destruct (refs_elems d _ v n H (attached_refs d _ v n H G A)) as (t' & x & Ht' & Et & T & K & Hx & Ex & N & I & A' & Ix).
    assert (t' = t) as -> by (apply (unique_inj (d_forest d)); [apply H|assumption..]). split; [exact T|]. exists x. split; [exact Ix|]. rewrite andb_true_r. apply andb_true_iff. split; [apply str_eqb_eq; apply (kids_of_in $"Value" t x); rewrite K; now left|].
    unfold gt_test. apply existsb_exists. exists ($"Ref", number n). split; [exact I|]. cbn [fst snd]. rewrite str_eqb_refl. unfold number. rewrite !to_num_Z by apply Nat2Z.is_nonneg. cbn [num_cmp andb]. cbv zeta. rewrite !Z.mul_1_r. apply Z.ltb_lt. lia.
Qed.
Lemma find_greater R d k : wf d -> regular d ->
  exists l, xpath_cast R d None ($"//Binary/Value[@Ref > """ ++ str_of_Z (Z.of_nat k) ++ $"""]/..") = Ok (map R_att l) /\ NoDup l /\ forall a, In a l <-> exists v n, attached d a v n /\ (k < n)%nat.
Proof.
  intros H G. destruct (top_of d H) as (r & F & EF). unfold xpath_cast. change ($"//Binary/Value[@Ref > """ ++ str_of_Z (Z.of_nat k) ++ $"""]/..") with (gt_query (number k)).
  rewrite (gt_search R d r F (number k) H EF (number_plain _ (Nat2Z.is_nonneg k))). cbn [bind]. set (l := filter _ (pre [] r)).
  assert (EV : map nd_el (pre [] r) = everything r) by (symmetry; apply everything_pre).
  assert (HV : forall n, In n (pre [] r) -> In n (fpre (d_forest d)) /\ has d (nd_el n) /\ in_doc d (nid n)).
  { intros n In_. assert (I1 : In n (fpre (d_forest d))) by (apply in_flat_map; exists r; rewrite EF; split; [now left|exact In_]). split; [exact I1|]. assert (I2 : has d (nd_el n)) by (rewrite elements_fpre; now apply in_map). split; [exact I2|].
    apply (doc_everything d r F _ H EF I2). rewrite <- EV. now apply in_map. }
  exists (map nid l). split.
  - assert (Em0 : map R_att (map nid l) = map (fun t => R_att (eid t)) (map nd_el l)) by (rewrite !map_map; reflexivity). rewrite Em0. apply mapM_cast. intros n In_. apply filter_In in In_ as [In_ E]. apply andb_true_iff in E as [E1 E2]. apply str_eqb_eq in E1. destruct (HV n In_) as (I1 & I2 & I3).
    destruct (proj1 (gt_holds d (nd_el n) k H G I2 I3) (conj E1 E2)) as (v & m & A & _). destruct (refs_elems d _ v m H (attached_refs d _ v m H G A)) as (t' & x & Ht' & Et & _ & K & _ & _ & _ & _ & _ & Ix).
    assert (t' = nd_el n) as -> by (apply (unique_inj (d_forest d)); [apply H|assumption..]). destruct (regular_entry d (nd_el n) x H G I2 I3 E1 Ix) as (e & He & Te & Ie); [apply (kids_of_in $"Value" (nd_el n) x); rewrite K; now left|].
    rewrite elements_fpre in He. apply in_map_iff in He as (m' & Em & Hm). subst e.
    assert (En : n = Nd (nd_el n) (nd_el m' :: nd_up m')) by (apply (NoDup_map_inj nid (fpre (d_forest d))); [apply unique_fpre, H|exact I1|apply fpre_kid; assumption|reflexivity]).
    unfold cast. rewrite E1. change (str_eqb $"Binary" $"Entry") with false. change (str_eqb $"Binary" $"Group") with false. change (str_eqb $"Binary" $"Binary") with true. cbv iota. rewrite En. cbn [nd_up]. rewrite Te. reflexivity.
  - split.
    + assert (N : NoDup (map nid (pre [] r))). { pose proof (proj1 (proj2 H)) as U. apply unique_fpre in U. unfold fpre in U. rewrite EF in U. cbn [flat_map] in U. rewrite map_app in U. now apply NoDup_app_l in U. }
      clear - N. unfold l. clear l. induction (pre [] r) as [|n m IH]; [constructor|]. cbn [map] in N. inversion N as [|? ? N1 N2]; subst. cbn [filter]. destruct (_ && _); [|auto]. cbn [map]. constructor; [|auto]. intros C. apply in_map_iff in C as (y & Ey & Iy). apply filter_In in Iy as [Iy _]. apply N1. apply in_map_iff. eauto.
    + intros a. rewrite in_map_iff. split.
      * intros (n & <- & In_). apply filter_In in In_ as [In_ E]. apply andb_true_iff in E as [E1 E2]. apply str_eqb_eq in E1. destruct (HV n In_) as (I1 & I2 & I3). apply (gt_holds d (nd_el n) k H G I2 I3). auto.
      * intros (v & n & A & L). pose proof (at_doc d a v n A) as D. destruct (refs_elems d a v n H (attached_refs d a v n H G A)) as (t & x & Ht & <- & _). pose proof D as D'. apply (doc_everything d r F t H EF Ht) in D'. rewrite <- EV in D'. apply in_map_iff in D' as (m & Em & Im).
        exists m. split; [unfold nid; now rewrite Em|]. apply filter_In. split; [exact Im|]. destruct (proj2 (gt_holds d t k H G Ht D)) as [T E]; [eauto|]. apply andb_true_iff. unfold tagged. rewrite Em. split; [now apply str_eqb_eq|exact E].
Qed.

(** *** The loops *)
Definition inb (l : list nat) (i : nat) : bool := existsb (Nat.eqb i) l.
Lemma inb_In l i : inb l i = true <-> In i l.
Proof. unfold inb. rewrite existsb_exists. split; [intros (x & I & E); apply Nat.eqb_eq in E; now subst|intros I; exists i; split; [exact I|apply Nat.eqb_refl]]. Qed.
Definition pruned (D : nat -> bool) (L : nat -> option row) : nat -> option row := fun j => option_map (fun r => with_kids (filter (fun i => negb (D i)) (r_kids r)) r) (L j).
Lemma each_delete l : forall d, wf d -> NoDup l -> (forall i, In i l -> exists p, is_kid d p i) ->
  exists d', each (fun r => delete (rid r)) (map R_att l) d = (Ok tt, d') /\ wf d' /\ same_meta d d' /\ hd_error (rts d') = hd_error (rts d) /\ forall j, lk d' j = pruned (inb l) (lk d) j.
Proof.
  induction l as [|i l IH]; intros d H N Hp.
  - exists d. split; [reflexivity|]. split; [exact H|]. split; [apply same_meta_refl|]. split; [reflexivity|]. intros j. unfold pruned. destruct (lk d j) as [r|]; [|reflexivity]. cbn [option_map]. f_equal. rewrite filter_yes by reflexivity. symmetry. apply with_kids_id.
  - inversion N as [|? ? N1 N2]; subst. destruct (Hp i (or_introl eq_refl)) as (p & Kp). destruct (delete_run d p i H Kp) as (d1 & E1 & W1 & (C1 & C2 & C3 & C4 & C5) & _). pose proof (delete_same d p i d1 H Kp E1) as S1.
    assert (L1 : forall j, lk d1 j = option_map (fun r => with_kids (less i (r_kids r)) r) (lk d j)).
    { intros j. destruct (lk d j) as [r|] eqn:Ej; [exact (C5 j r Ej)|]. destruct (lk d1 j) eqn:Ej'; [|reflexivity]. exfalso. apply (S1 j); [congruence|exact Ej]. }
    destruct (IH d1 W1 N2) as (d2 & E2 & W2 & M2 & R2 & L2).
    { intros i' I'. destruct (Hp i' (or_intror I')) as (p' & r' & Ep' & Ip'). exists p'. exists (with_kids (less i (r_kids r')) r'). split; [rewrite L1, Ep'; reflexivity|]. cbn [r_kids with_kids]. apply filter_In. split; [exact Ip'|]. destruct (Nat.eqb_spec i' i); [subst; contradiction|reflexivity]. }
    exists d2. split; [cbn [map each]; rewrite (mbind_ok _ _ _ _ _ E1); exact E2|]. split; [exact W2|]. split; [eapply same_meta_trans; [|exact M2]; repeat split; assumption|]. split; [congruence|].
    intros j. rewrite L2. unfold pruned. rewrite L1. destruct (lk d j) as [r|]; [|reflexivity]. cbn [option_map]. f_equal. cbn [r_kids with_kids]. unfold with_kids at 1. cbn [r_tag r_attrs r_text with_kids]. unfold with_kids. f_equal. unfold less. rewrite filter_filter. apply filter_same. intros x _. unfold inb. cbn [existsb]. rewrite negb_orb. reflexivity.
Qed.
Lemma each_shift l : forall d, wf d -> NoDup l -> (forall a, In a l -> exists v n, refs d a v (S n)) ->
  exists d', each (fun r => do n <- att_id (rid r); set_att_id (rid r) (n - 1)%Z) (map R_att l) d = (Ok tt, d') /\ wf d' /\ same_meta d d' /\ rts d' = rts d /\
    (forall j, (forall a n, In a l -> ~ refs d a j n) -> lk d' j = lk d j) /\
    (forall a v n, In a l -> refs d a v (S n) -> lk d' v = option_map (fun r => with_attrs (attr_put $"Ref" (number n) (r_attrs r)) r) (lk d v)).
Proof.
  induction l as [|a l IH]; intros d H N Hl.
  - exists d. split; [reflexivity|]. split; [exact H|]. split; [apply same_meta_refl|]. split; [reflexivity|]. split; [auto|intros a v n []].
  - inversion N as [|? ? N1 N2]; subst. destruct (Hl a (or_introl eq_refl)) as (v & n & Rf). pose proof Rf as Rf0. destruct (refs_elems d a v (S n) H Rf) as (t & V & Ht & Ea & T & K & HV & EV & NV & IV & AV & KV).
    destruct (set_attr_run d v V $"Ref" (number n) H HV EV) as (d1 & E1 & W1 & M1 & _ & R1 & L1 & L2). { apply number_plain. lia. }
    assert (X : forall a' v' n', refs d a' v' n' -> v' <> v -> refs d1 a' v' n').
    { intros a' v' n' ((r' & Er' & Tr') & K' & q' & Eq' & Nq' & Iq') Nv.
      assert (TG : forall T x, tagb (lk d1) T x = tagb (lk d) T x). { intros T0 x. unfold tagb. destruct (Nat.eq_dec x v) as [->|Nx]; [|now rewrite L2]. rewrite L1, <- EV, (look_self _ V (wf_unique d H) HV). reflexivity. }
      split; [|split].
      - destruct (Nat.eq_dec a' v) as [->|Na]; [|exists r'; now rewrite L2]. unfold is_tag. rewrite L1. eexists. split; [reflexivity|]. rewrite <- EV, (look_self _ V (wf_unique d H) HV) in Er'. apply Some_inj in Er'. subst r'. exact Tr'.
      - rewrite <- K'. unfold kids_tagged. destruct (Nat.eq_dec a' v) as [->|Na].
        + rewrite L1, <- EV, (look_self _ V (wf_unique d H) HV). cbn [r_kids with_attrs]. apply filter_same. intros x _. apply TG.
        + rewrite (L2 a' Na), Er'. apply filter_same. intros x _. apply TG.
      - exists q'. rewrite (L2 v' Nv). auto. }
    assert (NE : forall a' v' n', In a' l -> refs d a' v' n' -> v' <> v).
    { intros a' v' n' I' R' ->. destruct (refs_value_inj d a v (S n) H Rf a' n' R') as [-> _]. contradiction. }
    destruct (IH d1 W1 N2) as (d2 & E2 & W2 & M2 & R2 & L3 & L4).
    { intros a' I'. destruct (Hl a' (or_intror I')) as (v' & n' & R'). exists v', n'. apply X; [exact R'|]. now apply (NE a' v' (S n')). }
    exists d2. split.
    { cbn [map each rid]. assert (Es : (do n <- att_id a; set_att_id a (n - 1)%Z) d = (Ok tt, d1)).
      { rewrite (mbind_ok _ _ _ _ _ (att_id_run d a v (S n) H Rf)). rewrite (set_att_id_run d a v (S n) _ H Rf). replace (Z.of_nat (S n) - 1)%Z with (Z.of_nat n) by lia. exact E1. }
      rewrite (mbind_ok _ _ _ _ _ Es). exact E2. }
    split; [exact W2|]. split; [eapply same_meta_trans; eassumption|]. split; [congruence|].
    assert (XB : forall a' v' n', refs d1 a' v' n' -> v' <> v -> refs d a' v' n').
    { intros a' v' n' ((r' & Er' & Tr') & K' & q' & Eq' & Nq' & Iq') Nv.
      assert (TG : forall T x, tagb (lk d1) T x = tagb (lk d) T x). { intros T0 x. unfold tagb. destruct (Nat.eq_dec x v) as [->|Nx]; [|now rewrite L2]. rewrite L1, <- EV, (look_self _ V (wf_unique d H) HV). reflexivity. }
      split; [|split].
      - destruct (Nat.eq_dec a' v) as [->|Na]; [|exists r'; now rewrite <- L2]. rewrite L1 in Er'. apply Some_inj in Er'. subst r'. exists (row_of V). rewrite <- EV, (look_self _ V (wf_unique d H) HV). split; [reflexivity|exact Tr'].
      - rewrite <- K'. unfold kids_tagged. destruct (Nat.eq_dec a' v) as [->|Na].
        + rewrite L1, <- EV, (look_self _ V (wf_unique d H) HV). cbn [r_kids with_attrs]. apply filter_same. intros x _. symmetry. apply TG.
        + rewrite (L2 a' Na). destruct (lk d a'); [|reflexivity]. apply filter_same. intros x _. symmetry. apply TG.
      - exists q'. rewrite <- (L2 v' Nv). auto. }
    split.
    + intros j Hj. assert (Nj : j <> v) by (intros ->; apply (Hj a (S n)); [now left|exact Rf]). rewrite L3; [now apply L2|]. intros a' n' I' R'. apply (Hj a' n'); [now right|]. now apply XB.
    + intros a' v' n' [<-|I'] R'.
      * assert (v' = v) as -> by (destruct R' as (_ & K1 & _), Rf0 as (_ & K2 & _); rewrite K2 in K1; now injection K1). assert (n' = n) as -> by (destruct (refs_value_inj d a v (S n) H Rf a (S n') R') as [_ E]; lia).
        rewrite L3.
        -- rewrite L1, <- EV, (look_self _ V (wf_unique d H) HV). reflexivity.
        -- intros a' n'' I' R''. destruct (Hl a' (or_intror I')) as (w & m & Rw). pose proof (NE a' w (S m) I' Rw) as Nw. pose proof (X _ _ _ Rw Nw) as Rw1. destruct R'' as (_ & K1 & _), Rw1 as (_ & K2 & _). rewrite K1 in K2. injection K2 as K2. congruence.
      * pose proof (NE a' v' (S n') I' R') as Nv. rewrite (L4 a' v' n' I'); [now rewrite L2|]. now apply X.
Qed.

(** *** States that differ by removed children and changed references *)
Record shrunk (D : nat -> bool) (d d' : db) : Prop := Shrunk {
  sh_top : hd_error (rts d') = hd_error (rts d);
  sh_none : forall j, lk d j = None -> lk d' j = None;
  sh_row : forall j r, lk d j = Some r -> exists q, lk d' j = Some q /\ r_tag q = r_tag r /\ r_text q = r_text r /\ r_kids q = filter (fun i => negb (D i)) (r_kids r) /\
    (NoDup (map fst (r_attrs r)) -> NoDup (map fst (r_attrs q))) /\ (forall n, In ($"Ref", number n) (r_attrs r) -> exists m, In ($"Ref", number m) (r_attrs q)) }.
Section Shrunk.
  Context (D : nat -> bool) (d d' : db) (H : wf d) (S : shrunk D d d').
  Lemma shrunk_back j q : lk d' j = Some q -> exists r, lk d j = Some r /\ r_tag q = r_tag r /\ r_kids q = filter (fun i => negb (D i)) (r_kids r).
  Proof.
    intros E. destruct (lk d j) as [r|] eqn:Ej; [|rewrite (sh_none D d d' S j Ej) in E; discriminate]. destruct (sh_row D d d' S j r Ej) as (q' & E' & T & _ & K & _). rewrite E in E'. apply Some_inj in E'. subst q'. eauto.
  Qed.
  Lemma shrunk_below_sub a j : below (lk d') a j -> below (lk d) a j.
  Proof.
    induction 1 as [q E|j k q B IH E I].
    - destruct (shrunk_back a q E) as (r & Er & _). eapply below_self; exact Er.
    - destruct (shrunk_back j q E) as (r & Er & _ & K). eapply below_kid; [exact IH|exact Er|]. rewrite K in I. apply filter_In in I. tauto.
  Qed.
  Lemma shrunk_below_D a j : below (lk d') a j -> j = a \/ D j = false.
  Proof.
    destruct 1 as [q E|j k q B E I]; [now left|right]. destruct (shrunk_back j q E) as (r & Er & _ & K). rewrite K in I. apply filter_In in I as [_ I]. now apply negb_true_iff in I.
  Qed.
  Lemma shrunk_below_keep a j : below (lk d) a j -> (forall k, below (lk d) a k -> below (lk d) k j -> D k = false) -> below (lk d') a j.
  Proof.
    induction 1 as [r E|j k r B IH E I]; intros X.
    - destruct (sh_row D d d' S a r E) as (q & Eq & _). eapply below_self; exact Eq.
    - destruct (sh_row D d d' S j r E) as (q & Eq & _ & _ & K & _). eapply below_kid; [apply IH|exact Eq|].
      + intros k' B1 B2. apply X; [exact B1|]. eapply below_kid; [exact B2|exact E|exact I].
      + rewrite K. apply filter_In. split; [exact I|]. rewrite (X k); [reflexivity|eapply below_kid; eassumption|]. destruct (kid_look d j k H) as (rk & Ek); [exists r; auto|]. eapply below_self; exact Ek.
  Qed.
  Lemma shrunk_doc_sub j : in_doc d' j -> in_doc d j.
  Proof. intros (r & E & B). exists r. split; [rewrite <- E; symmetry; apply S|now apply shrunk_below_sub]. Qed.
  Lemma shrunk_doc_keep j : in_doc d j -> (forall k, in_doc d k -> below (lk d) k j -> D k = false) -> in_doc d' j.
  Proof. intros (r & E & B) X. exists r. split; [rewrite <- E; apply S|]. apply shrunk_below_keep; [exact B|]. intros k B1 B2. apply X; [exists r; auto|exact B2]. Qed.
  Lemma shrunk_tag T j : is_tag (lk d') T j <-> is_tag (lk d) T j.
  Proof.
    split; intros (r & E & <-).
    - destruct (shrunk_back j r E) as (q & Eq & -> & _). exists q. auto.
    - destruct (sh_row D d d' S j r E) as (q & Eq & Tq & _). exists q. auto.
  Qed.
  Lemma shrunk_tagb T j : tagb (lk d') T j = tagb (lk d) T j.
  Proof.
    unfold tagb. destruct (lk d j) as [r|] eqn:E; [|now rewrite (sh_none D d d' S j E)]. destruct (sh_row D d d' S j r E) as (q & -> & -> & _). reflexivity.
  Qed.
  Lemma shrunk_kids T j r : lk d j = Some r -> (forall x, In x (r_kids r) -> D x = false) -> kids_tagged (lk d') T j = kids_tagged (lk d) T j /\ exists q, lk d' j = Some q /\ r_kids q = r_kids r.
  Proof.
    intros E X. destruct (sh_row D d d' S j r E) as (q & Eq & _ & _ & K & _).
    assert (K' : r_kids q = r_kids r). { rewrite K. clear K. induction (r_kids r) as [|x l IH]; [reflexivity|]. cbn [filter]. rewrite (X x (or_introl eq_refl)). cbn [negb]. f_equal. apply IH. intros; apply X; now right. }
    split; [|eauto]. unfold kids_tagged. rewrite E, Eq, K'. apply filter_same. intros x _. apply shrunk_tagb.
  Qed.
  Context (Hl : forall a r x, lk d a = Some r -> r_tag r = $"Binary" -> In x (r_kids r) -> D x = false).
  Lemma shrunk_value a : is_tag (lk d) $"Binary" a -> kids_tagged (lk d') $"Value" a = kids_tagged (lk d) $"Value" a.
  Proof. intros (r & E & T). apply (shrunk_kids _ a r E). intros x I. exact (Hl a r x E T I). Qed.
  Lemma shrunk_regular : regular d -> regular d'.
  Proof.
    intros G. constructor.
    - intros a q x E T I. destruct (shrunk_back a q E) as (r & Er & Tr & K). rewrite K in I. apply filter_In in I as [I _]. rewrite Tr in T. destruct (rg_leaf d G a r x Er T I) as (u & Eu & Ku & Nu & Tu). destruct (sh_row D d d' S x u Eu) as (u' & Eu' & Tu' & _ & Ku' & Nu' & _).
      exists u'. split; [exact Eu'|]. split; [rewrite Ku', Ku; reflexivity|]. split; [auto|now rewrite Tu'].
    - intros a x T I. apply (proj1 (shrunk_tag _ _)) in T. rewrite (shrunk_value a T) in I |- *. destruct (rg_value d G a x T I) as (K & n & u & Eu & In_). split; [exact K|]. destruct (sh_row D d d' S x u Eu) as (u' & Eu' & _ & _ & _ & _ & R). destruct (R n In_) as (m & Im). exists m, u'. auto.
    - intros a Da T K. pose proof (shrunk_doc_sub a Da) as Da0. apply (proj1 (shrunk_tag _ _)) in T. rewrite (shrunk_value a T) in K. destruct (rg_entry d G a Da0 T K) as (e & (r & Er & Ir) & Te). exists e. split; [|now apply (proj2 (shrunk_tag _ _))].
      destruct (sh_row D d d' S e r Er) as (q & Eq & _ & _ & Kq & _). exists q. split; [exact Eq|]. rewrite Kq. apply filter_In. split; [exact Ir|]. destruct Da as (rt & Ert & B). destruct (shrunk_below_D _ _ B) as [->|E]; [|now rewrite E].
      exfalso. rewrite (sh_top D d d' S) in Ert. apply (root_no_kid d rt e H Ert). exists r. auto.
  Qed.
End Shrunk.

Definition unbind (R : regex) (id : Z) : M unit :=
  do refs <- lift (fun d => find_attachments R d true (MkQuery None None false false None [] [($"id", K_int id)]));
  do _ <- each (fun r => delete (rid r)) refs;
  do gt <- lift (fun d => xpath_cast R d None ($"//Binary/Value[@Ref > """ ++ str_of_Z id ++ $"""]/.."));
  each (fun r => do n <- att_id (rid r); set_att_id (rid r) (n - 1)%Z) gt.

Lemma filter_picks (D : nat -> bool) (P : nat -> Prop) l : (forall i, D i = true <-> P i) -> picks (fun i => ~ P i) l (filter (fun i => negb (D i)) l).
Proof.
  intros X. induction l as [|i l IH]; [constructor|]. cbn [filter]. destruct (D i) eqn:E; cbn [negb].
  - apply picks_no; [intros N; apply N, X, E|exact IH].
  - apply picks_yes; [intros C; apply X in C; congruence|exact IH].
Qed.
Lemma unbind_run R d k : wf d -> regular d -> exists d', unbind R (Z.of_nat k) d = (Ok tt, d') /\ wf d' /\ same_meta d d' /\ regular d' /\ unbound d d' k.
Proof.
  intros H G. destruct (find_refs R d k H G) as (l & E1 & N1 & Il). unfold id_query in E1.
  assert (HV : forall a, unwanted d k a -> exists p, is_kid d p a).
  { intros a (_ & v & A). destruct (rg_entry d G a (at_doc _ _ _ _ A) (at_tag _ _ _ _ A)) as (e & Ke & _); [rewrite (at_value _ _ _ _ A); discriminate|eauto]. }
  destruct (each_delete l d H N1) as (d1 & E2 & W1 & M1 & R1 & L1). { intros i I. apply HV, Il, I. }
  set (D := inb l). assert (HD : forall i, D i = true <-> unwanted d k i) by (intros i; unfold D; rewrite inb_In; apply Il).
  assert (Hl : forall a r x, lk d a = Some r -> r_tag r = $"Binary" -> In x (r_kids r) -> D x = false).
  { intros a r x E T I. destruct (D x) eqn:Ex; [|reflexivity]. apply HD in Ex as (_ & v & A). destruct (rg_leaf d G a r x E T I) as (q & Eq & K & _). pose proof (at_value _ _ _ _ A) as V. unfold kids_tagged in V. rewrite Eq, K in V. discriminate. }
  assert (S1 : shrunk D d d1).
  { constructor; [exact R1|intros j Ej; rewrite L1; unfold pruned; now rewrite Ej|]. intros j r Ej. exists (with_kids (filter (fun i => negb (D i)) (r_kids r)) r). split; [rewrite L1; unfold pruned; now rewrite Ej|]. cbn. repeat (split; [reflexivity|]). split; [auto|]. intros n I. eauto. }
  pose proof (shrunk_regular D d d1 H S1 Hl G) as G1.
  assert (A1 : forall a v n, attached d1 a v n <-> attached d a v n /\ ~ unwanted d k a).
  { intros a v n. split.
    - intros [B1 B2 B3 (q & Eq & Iq)]. apply (shrunk_tag D d d1 S1) in B2. rewrite (shrunk_value D d d1 S1 Hl a B2) in B3. split.
      + constructor; [exact (shrunk_doc_sub D d d1 S1 a B1)|exact B2|exact B3|]. rewrite L1 in Eq. unfold pruned in Eq. destruct (lk d v) as [r|] eqn:Ev; [|discriminate]. cbn in Eq. apply Some_inj in Eq. subst q. exists r. auto.
      + intros U. destruct B1 as (rt & Ert & B). destruct (shrunk_below_D D d d1 S1 _ _ B) as [->|Ea]; [|apply HD in U; congruence]. destruct (HV rt U) as (p & Kp). rewrite R1 in Ert. exact (root_no_kid d rt p H Ert Kp).
    - intros ([B1 B2 B3 (q & Eq & Iq)] & U). constructor.
      + apply (shrunk_doc_keep D d d1 H S1 a B1). intros b Db B. destruct (D b) eqn:Eb; [|reflexivity]. exfalso. apply HD in Eb. pose proof Eb as (_ & w & Ab). destruct (at_tag _ _ _ _ Ab) as (rb & Erb & Tb).
        inversion B as [r0 E0|j0 k0 r0 B0 E0 I0]; subst; [contradiction|]. destruct (Nat.eq_dec j0 b) as [->|Nj].
        * rewrite Erb in E0. apply Some_inj in E0. subst r0. destruct (rg_leaf d G b rb a Erb Tb I0) as (q0 & Eq0 & K0 & _). unfold kids_tagged in B3. rewrite Eq0, K0 in B3. discriminate.
        * inversion B0 as [r1 F1|j1 k1 r1 F0 F1 F2]; subst; [congruence|]. assert (X : forall y, below (lk d) b y -> y <> b -> exists q0, lk d y = Some q0 /\ r_kids q0 = []).
          { intros y By. induction By as [r2 F3|y z r2 By IH F3 F4]; [congruence|]. intros Nz. destruct (Nat.eq_dec y b) as [->|Ny].
            - rewrite Erb in F3. apply Some_inj in F3. subst r2. destruct (rg_leaf d G b rb z Erb Tb F4) as (q0 & Eq0 & K0 & _). eauto.
            - destruct (IH Ny) as (q0 & Eq0 & K0). rewrite F3 in Eq0. apply Some_inj in Eq0. subst q0. rewrite K0 in F4. destruct F4. }
          destruct (X j0 B0 Nj) as (q0 & Eq0 & K0). rewrite E0 in Eq0. apply Some_inj in Eq0. subst q0. rewrite K0 in I0. destruct I0.
      + now apply (shrunk_tag D d d1 S1).
      + now rewrite (shrunk_value D d d1 S1 Hl a B2).
      + exists (with_kids (filter (fun i => negb (D i)) (r_kids q)) q). split; [rewrite L1; unfold pruned; now rewrite Eq|exact Iq]. }
  destruct (find_greater R d1 k W1 G1) as (gl & E3 & N3 & Ig).
  destruct (each_shift gl d1 W1 N3) as (d2 & E4 & W2 & M2 & R2 & L2 & L3).
  { intros a I. apply Ig in I as (v & n & A & L). destruct n as [|n]; [lia|]. exists v, n. now apply attached_refs. }
  assert (L4 : forall j q, lk d1 j = Some q -> lk d2 j = Some q \/ exists a n, In a gl /\ attached d1 a j (S n) /\ (k <= n)%nat /\ lk d2 j = Some (with_attrs (attr_put $"Ref" (number n) (r_attrs q)) q)).
  { intros j q Ej. destruct (in_dec Nat.eq_dec j (flat_map (fun a => kids_tagged (lk d1) $"Value" a) gl)) as [I|N].
    - apply in_flat_map in I as (a & Ia & Iv). pose proof Ia as Ia'. apply Ig in Ia as (v & n & A & L). rewrite (at_value _ _ _ _ A) in Iv. destruct Iv as [<-|[]]. destruct n as [|n]; [lia|]. right. exists a, n. split; [exact Ia'|]. split; [exact A|]. split; [lia|].
      rewrite (L3 a v n Ia' (attached_refs d1 a v (S n) W1 G1 A)), Ej. reflexivity.
    - left. rewrite L2; [exact Ej|]. intros a n Ia (_ & K & _). apply N. apply in_flat_map. exists a. split; [exact Ia|]. rewrite K. now left. }
  assert (S2 : shrunk (fun _ => false) d1 d2).
  { constructor; [congruence| |].
    - intros j Ej. rewrite L2; [exact Ej|]. intros a n Ia (_ & _ & q & Eq & _). congruence.
    - intros j r Ej. destruct (L4 j r Ej) as [E|(a & n & Ia & A & L & E)]; eexists; (split; [exact E|]); cbn; repeat (split; [reflexivity|]); (split; [symmetry; apply filter_yes; reflexivity|]).
      + split; [auto|]. intros n I. eauto.
      + destruct (at_ref _ _ _ _ A) as (r' & Er' & Ir'). rewrite Ej in Er'. apply Some_inj in Er'. subst r'. split; [intros N; now rewrite (attr_put_fst _ _ _ _ Ir')|]. intros m _. exists n. apply attr_put_In. }
  assert (Hl2 : forall a r x, lk d1 a = Some r -> r_tag r = $"Binary" -> In x (r_kids r) -> (fun _ : nat => false) x = false) by reflexivity.
  exists d2. split.
  { unfold unbind. rewrite (mbind_ok _ _ d (map R_att l) d) by (unfold lift; now rewrite E1). rewrite (mbind_ok _ _ _ _ _ E2). rewrite (mbind_ok _ _ d1 (map R_att gl) d1) by (unfold lift; now rewrite E3). exact E4. }
  split; [exact W2|]. split; [eapply same_meta_trans; eassumption|]. split; [exact (shrunk_regular _ d1 d2 W1 S2 Hl2 G1)|].
  constructor.
  - congruence.
  - intros j r Ej. assert (Ej1 : lk d1 j = Some (with_kids (filter (fun i => negb (D i)) (r_kids r)) r)) by (rewrite L1; unfold pruned; now rewrite Ej).
    destruct (L4 j _ Ej1) as [E|(a & n & Ia & A & L & E)]; eexists; (split; [exact E|]); cbn; (split; [reflexivity|]); (split; [reflexivity|]); (split; [apply filter_picks, HD|]).
    + reflexivity.
    + intros X. apply A1 in A as [A _]. specialize (X a (S n) A). lia.
  - intros a U Da. apply (shrunk_doc_sub _ d1 d2 S2) in Da. destruct Da as (rt & Ert & B). destruct (shrunk_below_D D d d1 S1 _ _ B) as [->|Ea]; [|apply HD in U; congruence]. destruct (HV rt U) as (p & Kp). rewrite R1 in Ert. exact (root_no_kid d rt p H Ert Kp).
  - intros j Dj X. apply (shrunk_doc_keep _ d1 d2 W1 S2); [|reflexivity]. apply (shrunk_doc_keep D d d1 H S1 j Dj). intros b Db B. destruct (D b) eqn:Eb; [|reflexivity]. exfalso. apply X. exists b. split; [now apply HD|exact B].
  - intros j Dj. apply (shrunk_doc_sub D d d1 S1), (shrunk_doc_sub _ d1 d2 S2), Dj.
  - intros a v n A U. assert (A' : attached d1 a v n) by (apply A1; auto). pose proof A' as [B1 B2 B3 (q & Eq & Iq)]. constructor.
    + apply (shrunk_doc_keep _ d1 d2 W1 S2 a B1). reflexivity.
    + now apply (shrunk_tag _ d1 d2 S2).
    + now rewrite (shrunk_value _ d1 d2 S2 Hl2 a B2).
    + unfold renumber. destruct (Nat.ltb_spec k n) as [L|L].
      * destruct n as [|n]; [lia|]. cbn [pred]. exists (with_attrs (attr_put $"Ref" (number n) (r_attrs q)) q). split; [|apply attr_put_In]. rewrite (L3 a v n); [now rewrite Eq|apply Ig; eauto|now apply attached_refs].
      * exists q. split; [|exact Iq]. rewrite L2; [exact Eq|]. intros a' n' Ia Ra. apply Ig in Ia as (v' & m & Am & Lm). pose proof (attached_refs d1 a' v' m W1 G1 Am) as Rm. pose proof (attached_refs d1 a v n W1 G1 A') as Rn.
        destruct (refs_value_inj d1 a v n W1 Rn a' n' Ra) as [-> ->]. assert (v' = v) as -> by (destruct Rm as (_ & K1 & _); rewrite B3 in K1; now injection K1). destruct (refs_value_inj d1 a v n W1 Rn a m Rm) as [_ ->]. lia.
Qed.
