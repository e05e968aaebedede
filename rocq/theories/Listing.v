(** Listings of entries, groups and attachments, attachment properties, histories and the lists given to Group.append
    (pykeepass.py:258-268, 765-768, entry.py:152-160, 271-277, 322-328, attachment.py:22-44, group.py:90-101). *)
From Verif Require Import Base PyStr Xml Tree XPath Db FindSpec Find_path Heap ApiSpec Api Prim StructSpec Struct Struct_bin Struct_trash PathSpec Integrity Path BinSpec Bin.

(** As KeePass writes attachments: file name and reference come together. *)
Definition labelled (d : db) : Prop := forall a, is_tag (look (d_forest d)) $"Binary" a ->
  (kids_tagged (look (d_forest d)) $"Key" a = [] <-> kids_tagged (look (d_forest d)) $"Value" a = []).
(** [t] is an attachment of an entry as it is now, not of a history snapshot. *)
Definition live_attachment (d : db) (t : elem) : Prop := ~ past d (eid t) /\ exists v n, attached d (eid t) v n.

Lemma picks_ext {A} (P Q : A -> Prop) l m : (forall x, In x l -> (P x <-> Q x)) -> picks P l m -> picks Q l m.
Proof.
  intros H X. induction X as [|x l m Px X IH|x l m Px X IH]; [constructor| |].
  - apply picks_yes; [apply H; [now left|exact Px]|apply IH; intros; apply H; now right].
  - apply picks_no; [rewrite <- H by (now left); exact Px|apply IH; intros; apply H; now right].
Qed.
Lemma plain_usable keys R : usable keys R plain_query.
Proof. split; [reflexivity|]. split; [exact I|]. split; [intros ? ? []|intros ? ? []]. Qed.

Lemma entries_all R d doc F : wf d -> d_forest d = doc :: F ->
  exists l, entries R d = (Ok (map eid l), d) /\ picks (fun t => etag t = $"Entry" /\ ~ past d (eid t)) (everything doc) l.
Proof.
  intros H EF. destruct (find_entries_spec R d plain_query true (everything doc) (wf_unique d H) (plain_usable _ _) (se_all _ doc F EF)) as (l & P & E).
  exists l. unfold entries, lift. rewrite E. cbn [bind]. rewrite map_map. split; [reflexivity|]. eapply picks_ext; [|exact P]. intros t It.
  assert (Ht : has d t) by (unfold has_elem, elements; apply in_flat_map; exists doc; rewrite EF; split; [now left|exact It]).
  unfold answers. cbn [plain_query q_history q_string q_kw]. rewrite (past_visible d t H Ht). split; [intros (A & [X|B] & _); [discriminate|auto]|]. intros [A B]. split; [exact A|]. split; [now right|]. split; [intros ? ? []|intros ? []].
Qed.
Lemma groups_all R d doc F : wf d -> d_forest d = doc :: F ->
  exists l, groups R d = (Ok (map eid l), d) /\ picks (fun t => etag t = $"Group" /\ ~ past d (eid t)) (everything doc) l.
Proof.
  intros H EF. destruct (find_groups_spec R d plain_query true (everything doc) (wf_unique d H) (plain_usable _ _) eq_refl (se_all _ doc F EF)) as (l & P & E).
  exists l. unfold groups, lift. rewrite E. cbn [bind]. rewrite map_map. split; [reflexivity|]. eapply picks_ext; [|exact P]. intros t It.
  assert (Ht : has d t) by (unfold has_elem, elements; apply in_flat_map; exists doc; rewrite EF; split; [now left|exact It]).
  unfold answers. cbn [plain_query q_history q_string q_kw]. rewrite (past_visible d t H Ht). split; [intros (A & [X|B] & _); [discriminate|auto]|]. intros [A B]. split; [exact A|]. split; [now right|]. split; [intros ? ? []|intros ? []].
Qed.

Lemma in_doc_kid d p k : in_doc d p -> is_kid d p k -> in_doc d k.
Proof. intros (r & E & B) (q & Eq & I). exists r. split; [exact E|]. now apply (below_kid _ _ p k q). Qed.
(** *** Attachments: the search for every file name *)
Definition any_name (tree : option nat) : query := MkQuery None tree false true None [] [($"filename", K_str $".*")].
Section Any.
  Variable R : regex.
  Hypothesis any : forall s, R $".*" false s = Ok true.
  Lemma any_usable tree : usable attachment_keys R (any_name tree).
  Proof.
    split; [reflexivity|]. split; [exact I|]. split; [intros ? ? []|]. intros k v [E|[]]. injection E as <- <-. split; [right; left; reflexivity|]. split; [discriminate|]. split; [discriminate|].
    split; [split; [vm_compute; intuition discriminate|reflexivity]|]. intros _ s. exists true. apply any.
  Qed.
  Lemma any_answers d tree t : wf d -> regular d -> labelled d -> has d t -> in_doc d (eid t) ->
    (answers $"Binary" attachment_key R (d_forest d) (any_name tree) t <-> live_attachment d t).
  Proof.
    intros H G L Ht D. unfold answers, live_attachment. cbn [any_name q_history q_string q_kw q_regex q_flags]. rewrite (past_visible d t H Ht). split.
    - intros (T & [V|V] & _ & K); [discriminate|]. split; [exact V|]. specialize (K _ (or_introl eq_refl)).
      change (kid_with $"Key" (text_meets (matches R true (ignore_case None) $".*")) t) in K. destruct K as (x & Ix & Tx & _).
      assert (TB : is_tag (lk d) $"Binary" (eid t)) by (rewrite <- T; now apply has_tag).
      assert (KV : kids_tagged (lk d) $"Value" (eid t) <> []).
      { rewrite <- (L (eid t) TB), (kids_tagged_of d t _ H Ht). intros C. apply map_eq_nil in C. assert (X : In x (kids_of $"Key" t)) by (apply filter_In; split; [exact Ix|now apply str_eqb_eq]). rewrite C in X. destruct X. }
      destruct (kids_tagged (lk d) $"Value" (eid t)) as [|v l] eqn:E; [congruence|]. clear KV. destruct (rg_value d G (eid t) v TB) as [E1 (n & A)]; [rewrite E; now left|]. rewrite E in E1. exists v, n. split; [exact D|exact TB|now rewrite E|exact A].
    - intros [V (v & n & A)]. destruct (at_tag d _ v n A) as (r & Er & Tr). rewrite (look_self _ t (wf_unique d H) Ht) in Er. injection Er as <-. change (etag t = $"Binary") in Tr. split; [exact Tr|]. split; [now right|]. split; [intros ? ? []|]. intros kv [<-|[]].
      change (kid_with $"Key" (text_meets (matches R true (ignore_case None) $".*")) t).
      destruct (kids_of $"Key" t) as [|x l] eqn:E.
      + exfalso. assert (X : kids_tagged (lk d) $"Value" (eid t) = []) by (apply (L (eid t) (at_tag d _ v n A)); rewrite (kids_tagged_of d t _ H Ht), E; reflexivity). rewrite (at_value d _ v n A) in X. discriminate.
      + assert (X : In x (kids_of $"Key" t)) by (rewrite E; now left). apply filter_In in X as [X Y]. apply str_eqb_eq in Y. exists x. split; [exact X|]. split; [exact Y|]. apply any.
  Qed.
  Lemma any_found d tree rec cand : wf d -> regular d -> labelled d -> searched (d_forest d) tree rec cand -> (forall t, In t cand -> in_doc d (eid t)) ->
    exists l, find_attachments R d rec (any_name tree) = Ok (map R_att (map eid l)) /\ picks (live_attachment d) cand l.
  Proof.
    intros H G L S Dc. assert (HC : forall t, In t cand -> has d t).
    { intros t It. destruct (in_doc_has d (eid t) H (Dc t It)) as (u & Hu & E). assert (X : In t (elements (d_forest d))); [|exact X]. inversion S; subst.
      - unfold elements. rewrite H0. apply in_flat_map. exists t0. split; [now left|exact It].
      - destruct It as [<-|[]]. rewrite H0. unfold elements. apply in_flat_map. exists t0. split; [now left|apply everything_self].
      - apply in_flat_map in It as (c & Ic & It). apply (elements_sub _ c); [now apply (elements_kid _ e)|exact It].
      - now apply (elements_kid _ e). }
    destruct (find_attachments_spec R d (any_name tree) rec cand (wf_unique d H) (any_usable tree) eq_refl S) as (l & P & E).
    - intros t x Ht T Ix. destruct (regular_leaf d t x H G Ht T Ix) as [_ N]. split; [exact N|]. intros TV. destruct (regular_value d t x H G Ht T Ix TV) as (_ & n & I). apply attr_In in I; [congruence|exact N].
    - intros t It A. apply any_answers in A; auto. destruct A as [_ (v & n & A)].
      destruct (rg_entry d G (eid t) (Dc t It) (at_tag d _ v n A)) as (e & (r & Er & Ir) & (q & Eq & Tq)); [rewrite (at_value d _ v n A); discriminate|]. rewrite Er in Eq. injection Eq as <-.
      destruct (look_has d e r H Er) as (te & He & Ee & <-). exists te. split; [exact He|]. split; [exact Tq|]. cbn in Ir. apply in_map_iff in Ir as (u & Eu & Iu). replace t with u; [exact Iu|]. apply (unique_inj (d_forest d)); [apply H|now apply (elements_kid _ te)|now apply HC|exact Eu].
    - exists l. split; [rewrite E, map_map; reflexivity|]. eapply picks_ext; [|exact P]. intros t It. apply any_answers; auto.
  Qed.
  Lemma attachments_all d doc F : wf d -> regular d -> labelled d -> d_forest d = doc :: F ->
    exists l, attachments R d = (Ok (map eid l), d) /\ picks (live_attachment d) (everything doc) l.
  Proof.
    intros H G L EF. destruct (any_found d None true (everything doc) H G L (se_all _ doc F EF)) as (l & E & P).
    - intros t It. apply (doc_everything d doc F t H EF); [|exact It]. unfold has_elem, elements. apply in_flat_map. exists doc. rewrite EF. split; [now left|exact It].
    - exists l. unfold attachments, lift. change (MkQuery None None false true None [] [($"filename", K_str $".*")]) with (any_name None). rewrite E. cbn [bind]. rewrite map_map, map_id. split; [reflexivity|exact P].
  Qed.
  (** The attachments of an entry, and the entry of an attachment. *)
  Lemma entry_attachments_all d t : wf d -> regular d -> labelled d -> has d t -> in_doc d (eid t) -> etag t = $"Entry" -> ~ past d (eid t) ->
    exists l, entry_attachments R (eid t) d = (Ok (map eid l), d) /\ picks (fun a => exists v n, attached d (eid a) v n) (ekids t) l /\
      forall a, In a l -> att_entry (eid a) d = (Ok (eid t), d).
  Proof.
    intros H G L Ht D T NP. destruct (any_found d (Some (eid t)) false (ekids t) H G L (se_kids _ t Ht)) as (l & E & P).
    - intros k Ik. apply (in_doc_kid d (eid t)); auto. exists (row_of t). split; [apply look_self; [apply H|exact Ht]|now apply in_map].
    - exists l. unfold entry_attachments, lift. change (MkQuery None (Some (eid t)) false true None [] [($"filename", K_str $".*")]) with (any_name (Some (eid t))). rewrite E. cbn [bind]. rewrite map_map, map_id. split; [reflexivity|]. split.
      + eapply picks_ext; [|exact P]. intros k Ik. unfold live_attachment. split; [tauto|]. intros A. split; [|exact A]. apply (past_kid d (eid t)); auto; [now apply kid_of_elem|]. intros (r & Er & Tr). rewrite (look_self _ t (wf_unique d H) Ht) in Er. injection Er as <-. change (etag t = $"History") in Tr. rewrite T in Tr. discriminate.
      + intros a Ia. apply (picks_In _ _ _ _ P) in Ia as [Ia _]. unfold att_entry, lift. assert (X : parent_of (d_forest d) (eid a) = Some t) by (apply parent_of_In; [apply H|]; split; [exact Ht|now apply in_map]). rewrite X, T. reflexivity.
  Qed.
  (** A snapshot shows none of its attachments. *)
  Lemma entry_attachments_past d t : wf d -> regular d -> labelled d -> has d t -> in_doc d (eid t) -> past d (eid t) -> entry_attachments R (eid t) d = (Ok [], d).
  Proof.
    intros H G L Ht D (h & Th & Nh & Bh). destruct (any_found d (Some (eid t)) false (ekids t) H G L (se_kids _ t Ht)) as (l & E & P).
    - intros k Ik. apply (in_doc_kid d (eid t)); auto. now apply kid_of_elem.
    - assert (l = []) as ->.
      { destruct l as [|a l]; [reflexivity|]. assert (Ia : In a (a :: l)) by now left. apply (picks_In _ _ _ _ P) in Ia as [Ia [NP _]]. exfalso. apply NP. exists h. split; [exact Th|]. pose proof (kid_of_elem d t a H Ht Ia) as K. destruct (kid_below d _ _ H K) as [B N]. split; [|apply (below_trans _ _ (eid t)); assumption]. intros ->. apply N. exact Bh. }
      unfold entry_attachments, lift. change (MkQuery None (Some (eid t)) false true None [] [($"filename", K_str $".*")]) with (any_name (Some (eid t))). now rewrite E.
  Qed.
End Any.
