(** Example databases for parents, listings and paths. *)
From Verif Require Import Base PyStr Xml Tree XPath Time Db XPath_parse XPath_facts XPath_eval FindSpec Find_facts FindEx Find_path Find_more ApiSpec StructSpec Heap Uuid Api ApiEx Prim Api_xpath Struct Struct_index StructEx BinSpec Bin RefEx PathSpec Path.

Definition tagged (T : str) (t : elem) : bool := str_eqb (etag t) T.
Definition neatb (d : db) : bool :=
  forallb (fun n => negb (tagged $"Entry" (nd_el n) || tagged $"Group" (nd_el n)) ||
    match nd_up n with [] => true | p :: _ => tagged $"Group" p || tagged $"History" p || forallb (fun p => negb (tagged $"Group" p)) (nd_up n) end) (fpre (d_forest d)).
Lemma neatb_ok d : wf d -> neatb d = true -> neat d.
Proof.
  intros H B p x T HT K Tx Nx. assert (Ex : lk d x <> None) by (destruct Tx as (q & -> & _); discriminate). destruct (row_node d x H Ex) as (n & Hn & <-). unfold neatb in B. rewrite forallb_forall in B. specialize (B n Hn).
  assert (Hh : has d (nd_el n)) by (unfold has, has_elem; rewrite elements_fpre; now apply in_map). apply (has_tag d T (nd_el n) H Hh) in Tx. assert (tagged $"Entry" (nd_el n) || tagged $"Group" (nd_el n) = true) as E by (unfold tagged; rewrite Tx; destruct HT as [->| ->]; reflexivity). rewrite E in B. cbn [negb orb] in B. clear E.
  pose proof (nearest_up d n H Hn) as Nr. apply fpre_In in Hn as (t & Ht & Hn). destruct (pre_parent t [] n Hn) as [->|(q & u & E1 & E2 & E3)].
  - right. exact Nr.
  - rewrite E1 in B, Nr. assert (Hq : has d q) by (unfold has, has_elem; rewrite elements_fpre; change q with (nd_el (Nd q u)); apply in_map; apply fpre_In; eauto). assert (eid q = p) by (apply (one_parent d (eid q) p (nid n) H); [now apply kid_of_elem|exact K]). subst p.
    apply orb_prop in B as [B|B]; [apply orb_prop in B as [B|B]|].
    + left. apply has_tag; auto. now apply str_eqb_eq.
    + exfalso. apply Nx. exists (eid q). split; [apply has_tag; auto; now apply str_eqb_eq|]. pose proof (kid_of_elem d q (nd_el n) H Hq E3) as K2. destruct (ids_strict d (nd_el n) q H Hh Hq) as [S _]. apply S. apply in_flat_map. exists (nd_el n). split; [exact E3|]. destruct (nd_el n); now left.
    + right. assert (List.find (fun p => str_eqb (etag p) $"Group") (q :: u) = None) as X; [|rewrite X in Nr; exact Nr]. revert B. generalize (q :: u). clear. induction l as [|y l IH]; intros B; [reflexivity|]. cbn [forallb List.find] in *. apply andb_prop in B as [B1 B2]. unfold tagged in B1. destruct (str_eqb (etag y) $"Group"); [discriminate|auto].
Qed.
Definition one_nameb (d : db) : bool := forallb (fun t => negb (tagged $"Group" t) || (List.length (kids_of $"Name" t) <=? 1)%nat) (elements (d_forest d)).
Lemma one_nameb_ok d : one_nameb d = true -> one_name d.
Proof. intros B g Hg Tg. unfold one_nameb in B. rewrite forallb_forall in B. specialize (B g Hg). unfold tagged in B. rewrite Tg in B. cbn [negb orb str_eqb] in B. apply Nat.leb_le in B. exact B. Qed.
Definition pastb (d : db) (x : nat) : bool := negb (existsb (fun t => Nat.eqb (eid t) x) (visible (d_forest d))).
Lemma pastb_ok d t : wf d -> has d t -> pastb d (eid t) = false -> ~ past d (eid t).
Proof. intros H Ht B. apply past_visible; auto. apply negb_false_iff in B. apply existsb_exists in B as (u & I & E). apply Nat.eqb_eq in E. assert (Hu : has d u) by (apply visible_elements; exact I). rewrite <- (unique_inj _ u t (wf_unique d H) Hu Ht E). exact I. Qed.
Lemma edb_neat : neat edb. Proof. apply neatb_ok; [exact edb_wf|vm_compute; reflexivity]. Qed.
Lemma edb_one_name : one_name edb. Proof. apply one_nameb_ok. vm_compute. reflexivity. Qed.
