(** Parent groups, listings and paths. *)
From Coq Require Import ZifyBool ZifyNat ZifyN.
From Verif Require Import Base PyStr Xml Tree XPath Time Db XPath_parse XPath_facts XPath_eval FindSpec Find_facts Find_path Find_more ApiSpec StructSpec Heap Uuid Api Prim Api_xpath Api_fields Api_custom Api_sub Api_claims Struct Struct_add Struct_find Struct_bin Struct_trash Struct_empty Struct_index BinSpec Bin PathSpec.

Lemma has_tag d T t : wf d -> has d t -> (is_tag (lk d) T (eid t) <-> etag t = T).
Proof. intros H Ht. unfold is_tag. rewrite (look_self _ t (wf_unique d H) Ht). split; [intros (r & E & <-); apply Some_inj in E; subst r; reflexivity|intros <-; exists (row_of t); auto]. Qed.
Lemma kid_of_elem d t k : wf d -> has d t -> In k (ekids t) -> is_kid d (eid t) (eid k).
Proof. intros H Ht I. exists (row_of t). split; [apply (look_self _ t (wf_unique d H) Ht)|]. cbn. now apply in_map. Qed.
Lemma nearest_up d n : wf d -> In n (fpre (d_forest d)) -> nearest d (nid n) (option_map eid (List.find (fun p => str_eqb (etag p) $"Group") (nd_up n))).
Proof.
  intros H. remember (nd_up n) as up eqn:E. revert n E. induction up as [|q up IH]; intros n E Hn.
  - cbn. constructor. intros p K. apply fpre_In in Hn as (t & Ht & Hn). destruct (pre_parent t [] n Hn) as [->|(q & u & E1 & _)]; [|congruence].
    destruct K as (r & Er & Hi). destruct (look_has d p r H Er) as (tp & Hp & <- & <-). cbn in Hi. exact (root_no_parent _ t tp (wf_unique d H) Ht Hp Hi).
  - apply fpre_In in Hn as (t & Ht & Hn). destruct (pre_parent t [] n Hn) as [->|(q' & u & E1 & E2 & E3)]; [discriminate E|]. rewrite E1 in E. injection E as -> ->.
    assert (Hq : In (Nd q' u) (fpre (d_forest d))) by (apply fpre_In; eauto). assert (Hq' : has d q') by (unfold has, has_elem; rewrite elements_fpre; change q' with (nd_el (Nd q' u)); now apply in_map).
    pose proof (kid_of_elem d q' (nd_el n) H Hq' E3) as K. cbn [List.find]. destruct (str_eqb (etag q') $"Group") eqn:Eg.
    + apply (ne_here d (eid q')); [exact K|]. apply has_tag; auto. now apply str_eqb_eq.
    + apply (ne_up d (eid q')); [exact K| |]; [|exact (IH (Nd q' u) eq_refl Hq)]. rewrite has_tag by auto. intros C. apply str_eqb_eq in C. congruence.
Qed.
Lemma nearest_det d x o : wf d -> nearest d x o -> forall o', nearest d x o' -> o = o'.
Proof.
  intros H. induction 1 as [x N|p x K T|p x o K T B IH]; intros o' H'; inversion H' as [y N'|p' y K' T'|p' y o2 K' T' B']; subst; try reflexivity; try (exfalso; eapply N; eassumption); try (exfalso; eapply N'; eassumption).
  - f_equal. eapply one_parent; eauto.
  - assert (p' = p) by (eapply one_parent; eauto). subst. contradiction.
  - assert (p' = p) by (eapply one_parent; eauto). subst. contradiction.
  - assert (p' = p) by (eapply one_parent; eauto). subst. auto.
Qed.
Lemma row_node d x : wf d -> lk d x <> None -> exists n, In n (fpre (d_forest d)) /\ nid n = x.
Proof. intros H N. destruct (lk d x) as [r|] eqn:E; [|congruence]. destruct (look_has d x r H E) as (t & Ht & <- & _). unfold has, has_elem in Ht. rewrite elements_fpre in Ht. apply in_map_iff in Ht as (n & <- & Hn). exists n. auto. Qed.
Lemma parent_group R d x : wf d -> lk d x <> None -> exists o, nearest d x o /\ group_of R x d = (Ok o, d).
Proof. intros H N. destruct (row_node d x H N) as (n & Hn & <-). eexists. split; [exact (nearest_up d n H Hn)|exact (group_of_run R d n H Hn)]. Qed.
Lemma parent_iff R d x o : wf d -> lk d x <> None -> (group_of R x d = (Ok o, d) <-> nearest d x o).
Proof. intros H N. destruct (parent_group R d x H N) as (o' & B & E). rewrite E. split; [intros X; injection X as <-; exact B|intros B'; now rewrite (nearest_det d x o H B' o' B)]. Qed.
(** *** Listings *)
Lemma past_kid d g x : wf d -> is_kid d g x -> ~ is_tag (lk d) $"History" g -> ~ past d g -> ~ past d x.
Proof.
  intros H K T N (h & Th & Nh & B). pose proof (below_up d h g x H B ltac:(congruence) K) as B'. destruct (Nat.eq_dec h g) as [->|Ng]; [contradiction|]. apply N. exists h. auto.
Qed.
Lemma history_group L g : is_tag L $"Group" g -> ~ is_tag L $"History" g.
Proof. intros T T'. pose proof (tag_inj _ _ _ _ T T') as E. vm_compute in E. discriminate. Qed.
Lemma listed R d g T x : wf d -> neat d -> T = $"Entry" \/ T = $"Group" -> is_tag (lk d) $"Group" g -> ~ past d g ->
  (In x (kids_tagged (lk d) T g) <-> is_tag (lk d) T x /\ ~ past d x /\ group_of R x d = (Ok (Some g), d)).
Proof.
  intros H Hn HT Tg Ng. assert (KT : In x (kids_tagged (lk d) T g) <-> is_kid d g x /\ is_tag (lk d) T x).
  { unfold kids_tagged, is_kid, is_tag. destruct Tg as (r & Er & _). rewrite Er. rewrite filter_In. unfold tagb. split.
    - intros [I Tx]. split; [exists r; auto|]. destruct (lk d x) as [q|]; [|discriminate]. exists q. split; [reflexivity|now apply str_eqb_eq].
    - intros [(r' & E' & I) (q & Eq & Tq)]. injection E' as <-. split; [exact I|]. rewrite Eq. now apply str_eqb_eq. }
  rewrite KT. split.
  - intros [K Tx]. split; [exact Tx|]. split; [apply (past_kid d g); auto; now apply history_group|]. now apply kid_group.
  - intros (Tx & Nx & G). split; [|exact Tx]. assert (Ex : lk d x <> None) by (destruct Tx as (q & -> & _); discriminate). apply (parent_iff R d x _ H Ex) in G. assert (exists p, is_kid d p x) as (p & K) by (inversion G; eauto).
    destruct (Hn p x T HT K Tx Nx) as [Tp|N0].
    + pose proof (nearest_det d x _ H G _ (ne_here d p x K Tp)) as E. injection E as <-. exact K.
    + pose proof (nearest_det d x _ H G _ N0). discriminate.
Qed.
Lemma kids_tagged_nodup d T g : wf d -> NoDup (kids_tagged (lk d) T g).
Proof.
  intros H. unfold kids_tagged. destruct (lk d g) as [r|] eqn:E; [|constructor]. apply NoDup_filter. destruct (look_has d g r H E) as (t & Ht & <- & <-). cbn. pose proof (wf_unique d H) as U. unfold unique in U. revert U Ht. unfold has, has_elem, elements. generalize (d_forest d). clear.
  intros F U I. apply in_flat_map in I as (r & Ir & I). assert (NoDup (map eid (everything r))) as U1. { apply in_split in Ir as (a & b & ->). rewrite flat_map_app, map_app in U. apply NoDup_app_r in U. cbn [flat_map] in U. rewrite map_app in U. now apply NoDup_app_l in U. }
  clear U Ir F. revert U1 I. induction r as [i g a x k IH] using elem_ind'. intros U I. cbn [everything map] in U. apply NoDup_cons_iff in U as [_ U]. cbn [everything] in I. destruct I as [<-|I].
  - cbn [ekids]. clear IH. induction k as [|c k IHk]; [constructor|]. cbn [flat_map] in U. rewrite map_app in U. cbn [map]. constructor.
    + intros C. apply in_map_iff in C as (c' & E & C). assert (I1 : In (eid c) (map eid (everything c))) by (destruct c; now left). assert (I2 : In (eid c) (map eid (flat_map everything k))) by (rewrite <- E; apply in_map; apply in_flat_map; exists c'; split; [exact C|destruct c'; now left]).
      revert U I1 I2. generalize (map eid (everything c)), (map eid (flat_map everything k)). clear. intros l m U I1 I2. apply in_split in I1 as (l1 & l2 & ->). rewrite <- app_assoc in U. apply NoDup_app_r in U. cbn in U. apply NoDup_cons_iff in U as [U _]. apply U. apply in_or_app. now right.
    + apply IHk. now apply NoDup_app_r in U.
  - rewrite Forall_forall in IH. apply in_flat_map in I as (c & Ic & I). apply (IH c Ic); [|exact I]. apply in_split in Ic as (a1 & b1 & ->). rewrite flat_map_app, map_app in U. apply NoDup_app_r in U. cbn [flat_map] in U. rewrite map_app in U. now apply NoDup_app_l in U.
Qed.
Lemma past_visible d t : wf d -> has d t -> (~ past d (eid t) <-> In t (visible (d_forest d))).
Proof.
  intros H Ht. rewrite (visible_below _ t (wf_unique d H) Ht). split; intros N C; apply N; clear N.
  - destruct C as (h & Hh & Th & I). apply (ids_strict d t h H Ht Hh) in I as [I1 I2]. exists (eid h). split; [apply has_tag; auto|]. auto.
  - destruct C as (h & Th & Nh & B). destruct Th as (r & Er & Tr). destruct (look_has d h r H Er) as (th & Hh & <- & <-). exists th. split; [exact Hh|]. split; [exact Tr|]. apply (ids_strict d t th H Ht Hh). auto.
Qed.
Lemma list_found R d g T : wf d -> has d g -> etag g = $"Group" -> ~ past d (eid g) -> forall l, picks (answers T (if str_eqb T $"Entry" then entry_key else group_key) R (d_forest d) (kids_query (eid g))) (ekids g) l -> l = kids_of T g.
Proof.
  intros H Hg Tg Ng l P. unfold kids_of. assert (X : forall k, In k (ekids g) -> (answers T (if str_eqb T $"Entry" then entry_key else group_key) R (d_forest d) (kids_query (eid g)) k <-> str_eqb (etag k) T = true)).
  { intros k Ik. unfold answers, kids_query. cbn [q_history q_string q_kw]. rewrite str_eqb_eq. split; [tauto|]. intros Tk. split; [exact Tk|]. split; [|split; [intros ? ? []|intros ? []]]. right. apply past_visible; auto; [now apply (has_kid d g)|]. apply (past_kid d (eid g)); auto; [now apply kid_of_elem|]. apply history_group. now apply has_tag. }
  revert P X. generalize (ekids g). intros ks P. induction P as [|x ks m Px P IH|x ks m Px P IH]; intros X; [reflexivity| |]; cbn [filter].
  - rewrite (proj1 (X x (or_introl eq_refl)) Px). f_equal. apply IH. intros; apply X; now right.
  - destruct (str_eqb (etag x) T) eqn:E; [exfalso; apply Px, X; [now left|exact E]|]. apply IH. intros; apply X; now right.
Qed.
Lemma kids_usable keys R g : usable keys R (kids_query g).
Proof. split; [reflexivity|]. split; [exact I|]. split; [intros ? ? []|intros ? ? []]. Qed.
Definition kids_listed (R : regex) (d : db) (g : nat) (T : str) (l : list nat) : Prop :=
  NoDup l /\ forall x, In x l <-> is_tag (lk d) T x /\ ~ past d x /\ group_of R x d = (Ok (Some g), d).
Lemma entries_listed R d g : wf d -> neat d -> is_tag (lk d) $"Group" g -> ~ past d g -> exists l, group_entries g d = (Ok l, d) /\ kids_listed R d g $"Entry" l /\ find_entries R d false (kids_query g) = Ok (map R_entry l).
Proof.
  intros H Hn Tg Ng. pose proof Tg as (r & Er & Tr). destruct (look_has d g r H Er) as (t & Ht & <- & <-). change (etag t = $"Group") in Tr. exists (map eid (kids_of $"Entry" t)). split; [|split].
  - unfold group_entries. rewrite (mbind_ok _ _ _ _ _ (the_run d _ t H Ht eq_refl)). reflexivity.
  - rewrite <- (kids_tagged_of d t _ H Ht). split; [now apply kids_tagged_nodup|]. intros x. apply listed; auto.
  - destruct (find_entries_spec R d (kids_query (eid t)) false (ekids t) (wf_unique d H) (kids_usable _ _ _) (se_kids (d_forest d) t Ht)) as (m & P & E). rewrite E. rewrite (list_found R d t $"Entry" H Ht Tr Ng m P). rewrite map_map. reflexivity.
Qed.
Lemma groups_listed R d g : wf d -> neat d -> is_tag (lk d) $"Group" g -> ~ past d g -> exists l, group_subgroups g d = (Ok l, d) /\ kids_listed R d g $"Group" l /\ find_groups R d false (kids_query g) = Ok (map R_group l).
Proof.
  intros H Hn Tg Ng. pose proof Tg as (r & Er & Tr). destruct (look_has d g r H Er) as (t & Ht & <- & <-). change (etag t = $"Group") in Tr. exists (map eid (kids_of $"Group" t)). split; [|split].
  - unfold group_subgroups. rewrite (mbind_ok _ _ _ _ _ (the_run d _ t H Ht eq_refl)). reflexivity.
  - rewrite <- (kids_tagged_of d t _ H Ht). split; [now apply kids_tagged_nodup|]. intros x. apply listed; auto.
  - destruct (find_groups_spec R d (kids_query (eid t)) false (ekids t) (wf_unique d H) (kids_usable _ _ _) eq_refl (se_kids (d_forest d) t Ht)) as (m & P & E). rewrite E. rewrite (list_found R d t $"Group" H Ht Tr Ng m P). rewrite map_map. reflexivity.
Qed.
(** *** Paths *)
Lemma leads_snoc p n : forall t u, leads (p ++ [n]) t u <-> exists g, leads p t g /\ In u (ekids g) /\ named_group n u.
Proof.
  induction p as [|m p IH]; intros t u; cbn [app].
  - split; [intros X; inversion X as [|n0 p0 t0 g u0 I N L]; subst; inversion L; subst; exists t; split; [constructor|auto]|]. intros (g & L & I & N). inversion L; subst. apply (leads_down n [] _ u); [exact I|exact N|constructor].
  - split.
    + intros X. inversion X as [|n0 p0 t0 g u0 I N L]; subst. apply IH in L as (g' & L & I' & N'). exists g'. split; [now apply (leads_down m p t g)|auto].
    + intros (g & L & I & N). inversion L as [|n0 p0 t0 g0 u0 I0 N0 L0]; subst. apply (leads_down m _ t g0); [exact I0|exact N0|]. apply IH. eauto.
Qed.
Lemma depth t : forall u n, In n (pre u t) -> (List.length (nd_up n) < List.length u + List.length (ids t))%nat.
Proof.
  induction t as [i g a x k IH] using elem_ind'. intros u n Hn. rewrite pre_eq in Hn. cbn [ids List.length]. destruct Hn as [<-|Hn]; [cbn [nd_up]; lia|]. apply in_flat_map in Hn as (c & Ic & Hn). rewrite Forall_forall in IH. specialize (IH c Ic _ _ Hn). cbn [List.length] in IH.
  cbn [ekids] in Ic. assert (List.length (ids c) <= List.length (flat_map ids k))%nat; [|lia]. clear -Ic. induction k as [|y k IHk]; [destruct Ic|]. cbn [flat_map]. rewrite app_length. destruct Ic as [->|Ic]; [lia|]. specialize (IHk Ic). lia.
Qed.
Lemma fdepth F n : In n (fpre F) -> (List.length (nd_up n) < List.length (fids F))%nat.
Proof.
  intros Hn. apply fpre_In in Hn as (t & Ht & Hn). pose proof (depth t [] n Hn) as L. cbn [List.length] in L. assert (List.length (ids t) <= List.length (fids F))%nat; [|lia]. unfold fids. clear -Ht. induction F as [|y F IH]; [destruct Ht|]. cbn [flat_map]. rewrite app_length. destruct Ht as [->|Ht]; [lia|]. specialize (IH Ht). lia.
Qed.
Lemma root_run d p x : wf d -> In (Nd x p) (fpre (d_forest d)) -> forall q u, p = q :: u -> is_root_group (eid x) d = (Ok (str_eqb (etag q) $"Root"), d).
Proof.
  intros H Hn q u ->. unfold is_root_group, lift, parent_of. change (eid x) with (nid (Nd x (q :: u))). assert (node_of (d_forest d) (nid (Nd x (q :: u))) = Some (Nd x (q :: u))) as ->; [|reflexivity]. apply node_of_In; [apply H|auto].
Qed.
Lemma one_name_text d g n : one_name d -> has d g -> named_group n g -> first_text $"Name" g = Some n.
Proof.
  intros O Hg [T (k & Ik & Tk & Ek)]. specialize (O g Hg T). unfold at_most_one in O. unfold first_text, find1. assert (I : In k (kids_of $"Name" g)) by (unfold kids_of; apply filter_In; split; [exact Ik|rewrite Tk; apply str_eqb_refl]).
  destruct (kids_of $"Name" g) as [|y [|z r]]; [destruct I| |cbn in O; lia]. destruct I as [->|[]]. exact Ek.
Qed.
Lemma named_is n g : named_group n g -> etag g = $"Group". Proof. intros [T _]. exact T. Qed.
Lemma path_up R d doc F rg : wf d -> one_name d -> d_forest d = doc :: F -> FindSpec.root_group doc rg -> forall ns g, leads ns rg g ->
  etag g = $"Group" /\ exists up, In (Nd g up) (fpre (d_forest d)) /\ (List.length ns < List.length up)%nat /\ forall fuel acc, (List.length ns < fuel)%nat -> path_loop R fuel (Some (eid g)) acc d = (Ok (map Some ns ++ acc), d).
Proof.
  intros H O EF (Td & rt & Irt & Trt & Irg & Trg). induction ns as [|n ns IH] using rev_ind; intros g L.
  - inversion L; subst. split; [exact Trg|]. exists [rt; doc]. assert (Nd0 : In (Nd doc []) (fpre (d_forest d))) by (apply fpre_In; exists doc; split; [rewrite EF; now left|rewrite pre_eq; now left]).
    pose proof (fpre_kid _ _ rt Nd0 Irt) as N1. pose proof (fpre_kid _ _ g N1 Irg) as N2. cbn [nd_el nd_up] in N2. split; [exact N2|]. split; [cbn; lia|]. intros fuel acc Hf. destruct fuel as [|fuel]; [lia|]. cbn [path_loop]. rewrite (mbind_ok _ _ _ _ _ (root_run d _ _ H N2 rt [doc] eq_refl)). apply str_eqb_eq in Trt. rewrite Trt. reflexivity.
  - apply leads_snoc in L as (g' & L & I & N). destruct (IH g' L) as (T' & up & Hn & Lu & Hp). split; [exact (named_is _ _ N)|]. exists (g' :: up). pose proof (fpre_kid _ _ g Hn I) as N1. cbn [nd_el nd_up] in N1. split; [exact N1|]. rewrite app_length. cbn [List.length]. split; [lia|]. intros fuel acc Hf. destruct fuel as [|fuel]; [lia|]. cbn [path_loop].
    rewrite (mbind_ok _ _ _ _ _ (root_run d _ _ H N1 g' up eq_refl)). assert (str_eqb (etag g') $"Root" = false) as -> by (rewrite T'; reflexivity).
    assert (Hg : has d g) by (unfold has, has_elem; rewrite elements_fpre; change g with (nd_el (Nd g (g' :: up))); now apply in_map). rewrite (mbind_ok _ _ _ _ _ (get_sub_run d g $"Name" H Hg)). rewrite (one_name_text d g n O Hg N).
    change (eid g) with (nid (Nd g (g' :: up))). rewrite (mbind_ok _ _ _ _ _ (group_of_run R d _ H N1)). cbn [nd_up List.find]. apply str_eqb_eq in T'. rewrite T'. cbn [option_map]. rewrite Hp by lia. rewrite map_app, <- app_assoc. reflexivity.
Qed.
Lemma field_tidy v key t : tidy t -> has_field (fun o => o = Some v) key t -> field_text key t = Some v.
Proof.
  intros Y (s & Is & Ts & (k & Ik & Tk & Ek) & (x & Ix & Tx & Ex)). pose proof Y as (Y1 & Y2 & _). assert (Iss : In s (kids_of $"String" t)) by (unfold kids_of; apply filter_In; split; [exact Is|rewrite Ts; apply str_eqb_refl]). destruct (Y1 s Iss) as (k' & v' & K1 & V1).
  assert (k' = k) by (assert (In k (kids_of $"Key" s)) as I by (unfold kids_of; apply filter_In; split; [exact Ik|rewrite Tk; apply str_eqb_refl]); rewrite K1 in I; destruct I as [I|[]]; exact I). subst k'.
  assert (v' = x) by (assert (In x (kids_of $"Value" s)) as I by (unfold kids_of; apply filter_In; split; [exact Ix|rewrite Tx; apply str_eqb_refl]); rewrite V1 in I; destruct I as [I|[]]; exact I). subst v'.
  unfold field_text. assert (If : In (field_of s) (book t)) by (now apply in_map). rewrite (look_unique (book t) (field_of s) key Y2 If).
  - unfold field_of, first_text, find1. cbn [f_val]. rewrite V1. exact Ex.
  - unfold field_of, first_text, find1. cbn [f_key]. rewrite K1. exact Ek.
Qed.
Lemma doc_node d doc F : d_forest d = doc :: F -> In (Nd doc []) (fpre (d_forest d)).
Proof. intros EF. apply fpre_In. exists doc. split; [rewrite EF; now left|rewrite pre_eq; now left]. Qed.
Lemma entry_path_run R d doc F gs title t : wf d -> one_name d -> d_forest d = doc :: F -> entry_at doc gs title t -> tidy t -> entry_path R (eid t) d = (Ok (Some (map Some (gs ++ [title]))), d).
Proof.
  intros H O EF (rg & g & Rg & L & I & T & Ft) Y. destruct (path_up R d doc F rg H O EF Rg gs g L) as (Tg & up & Hn & Lu & Hp). pose proof (fpre_kid _ _ t Hn I) as N1. cbn [nd_el nd_up] in N1.
  assert (Ht : has d t) by (unfold has, has_elem; rewrite elements_fpre; change t with (nd_el (Nd t (g :: up))); now apply in_map). unfold entry_path. change (eid t) with (nid (Nd t (g :: up))) at 1. rewrite (mbind_ok _ _ _ _ _ (group_of_run R d _ H N1)). cbn [nd_up List.find]. apply str_eqb_eq in Tg. rewrite Tg. cbn [option_map].
  assert (Pt : plain $"Title") by (split; vm_compute; intuition discriminate). rewrite (mbind_ok _ _ _ _ _ (get_string_spec R d t $"Title" H Ht Y Pt)). rewrite (field_tidy title $"Title" t Y Ft). rewrite (mbind_ok (lift (fun d => Ok (path_fuel d))) _ d (path_fuel d) d eq_refl). pose proof (fdepth _ _ N1) as D. cbn [nd_up List.length] in D.
  rewrite (mbind_ok _ _ _ _ _ (Hp (path_fuel d) [Some title] ltac:(unfold path_fuel; lia))). unfold ret. rewrite map_app. reflexivity.
Qed.
Lemma group_path_run R d doc F ns g : wf d -> one_name d -> d_forest d = doc :: F -> group_at doc ns g -> group_path R (eid g) d = (Ok (map Some ns), d).
Proof.
  intros H O EF (rg & Rg & L). destruct ns as [|n ns _] using rev_ind.
  - inversion L; subst. destruct Rg as (Td & rt & Irt & Trt & Irg & Trg). pose proof (fpre_kid _ _ rt (doc_node d doc F EF) Irt) as N1. pose proof (fpre_kid _ _ g N1 Irg) as N2. cbn [nd_el nd_up] in N2. unfold group_path. rewrite (mbind_ok _ _ _ _ _ (root_run d _ _ H N2 rt [doc] eq_refl)). apply str_eqb_eq in Trt. rewrite Trt. reflexivity.
  - apply leads_snoc in L as (g' & L & I & N). destruct (path_up R d doc F rg H O EF Rg ns g' L) as (T' & up & Hn & Lu & Hp). pose proof (fpre_kid _ _ g Hn I) as N1. cbn [nd_el nd_up] in N1. unfold group_path. rewrite (mbind_ok _ _ _ _ _ (root_run d _ _ H N1 g' up eq_refl)). assert (str_eqb (etag g') $"Root" = false) as -> by (rewrite T'; reflexivity).
    assert (Hg : has d g) by (unfold has, has_elem; rewrite elements_fpre; change g with (nd_el (Nd g (g' :: up))); now apply in_map). change (eid g) with (nid (Nd g (g' :: up))) at 1. rewrite (mbind_ok _ _ _ _ _ (group_of_run R d _ H N1)). cbn [nd_up List.find]. apply str_eqb_eq in T'. rewrite T'. cbn [option_map]. rewrite (mbind_ok _ _ _ _ _ (get_sub_run d g $"Name" H Hg)). rewrite (one_name_text d g n O Hg N). rewrite (mbind_ok (lift (fun d => Ok (path_fuel d))) _ d (path_fuel d) d eq_refl). pose proof (fdepth _ _ N1) as D. cbn [nd_up List.length] in D. rewrite Hp by (unfold path_fuel; lia). rewrite map_app. reflexivity.
Qed.
Definition path_q (p : list (option str)) : query := MkQuery (Some p) None false false None [] [].
Lemma picks_first_only {A} (P : A -> Prop) l m x : picks P l m -> In x l -> P x -> (forall y, In y l -> P y -> y = x) -> exists r, m = x :: r.
Proof.
  intros H Ix Px U. destruct m as [|y r]; [exfalso; exact (picks_none P l [] H eq_refl x Ix Px)|]. destruct (picks_In _ _ _ y H (or_introl eq_refl)) as [Iy Py]. rewrite (U y Iy Py). eauto.
Qed.
Lemma entry_leads_back R d doc F gs title t rec : wf d -> one_name d -> d_forest d = doc :: F -> In t (everything doc) -> entry_at doc gs title t -> tidy t -> Forall plain (gs ++ [title]) ->
  exists p, entry_path R (eid t) d = (Ok (Some p), d) /\ exists l, find_entries R d rec (path_q p) = Ok (map (fun e => R_entry (eid e)) l) /\ picks (entry_at doc gs title) (everything doc) l /\ In t l /\
    give true (path_q p) (find_entries R d rec (path_q p)) = Ok (F_one (hd_error (map (fun e => R_entry (eid e)) l))) /\ ((forall x, In x (everything doc) -> entry_at doc gs title x -> x = t) -> give true (path_q p) (find_entries R d rec (path_q p)) = Ok (F_one (Some (R_entry (eid t))))).
Proof.
  intros H O EF It At Y Pl. eexists. split; [exact (entry_path_run R d doc F gs title t H O EF At Y)|]. destruct (entry_by_path R d (path_q (map Some (gs ++ [title]))) rec gs title doc F EF (wf_unique d H) eq_refl) as (l & P & E & G); [split; reflexivity|exact Pl|].
  exists l. split; [exact E|]. split; [exact P|]. split; [apply (Find_more.picks_all _ _ _ t P); auto|]. split; [rewrite E; reflexivity|]. intros U. rewrite G. destruct (picks_first_only _ _ _ t P It At U) as (r & ->). reflexivity.
Qed.
Lemma group_leads_back R d doc F ns g rec : wf d -> one_name d -> d_forest d = doc :: F -> In g (everything doc) -> group_at doc ns g -> Forall (fun n => plain n /\ n <> []) ns ->
  exists p, group_path R (eid g) d = (Ok p, d) /\ exists l, find_groups R d rec (path_q p) = Ok (map (fun e => R_group (eid e)) l) /\ picks (group_at doc ns) (everything doc) l /\ In g l /\
    give true (path_q p) (find_groups R d rec (path_q p)) = Ok (F_one (hd_error (map (fun e => R_group (eid e)) l))) /\ ((forall x, In x (everything doc) -> group_at doc ns x -> x = g) -> give true (path_q p) (find_groups R d rec (path_q p)) = Ok (F_one (Some (R_group (eid g))))).
Proof.
  intros H O EF Ig At Pl. eexists. split; [exact (group_path_run R d doc F ns g H O EF At)|]. destruct (group_by_path R d (path_q (map Some ns)) rec ns doc F EF (wf_unique d H) eq_refl) as (l & P & E & G); [split; reflexivity|exact Pl|].
  exists l. split; [exact E|]. split; [exact P|]. split; [apply (Find_more.picks_all _ _ _ g P); auto|]. split; [rewrite E; reflexivity|]. intros U. rewrite G. destruct (picks_first_only _ _ _ g P Ig At U) as (r & ->). reflexivity.
Qed.
(** The entries (groups) found by a path are those having that path. *)
Lemma map_inj_some (a b : list str) : map Some a = map Some b -> a = b.
Proof. revert b. induction a as [|x a IH]; intros [|y b] E; try discriminate; [reflexivity|]. injection E as <- E. f_equal. auto. Qed.
Lemma same_path R d doc F gs title t gs' title' : wf d -> one_name d -> d_forest d = doc :: F -> entry_at doc gs title t -> tidy t -> (entry_path R (eid t) d = (Ok (Some (map Some (gs' ++ [title']))), d) <-> entry_at doc gs' title' t).
Proof.
  intros H O EF At Y. split; [|intros At'; now apply (entry_path_run R d doc F)]. rewrite (entry_path_run R d doc F gs title t H O EF At Y). intros E. assert (E' : map Some (gs ++ [title]) = map Some (gs' ++ [title'])) by congruence. apply (map_inj_some) in E'. apply app_inj_tail in E' as [-> ->]. exact At.
Qed.
