(** xpath() as called by users (pykeepass.py:325-375): model, vocabulary and lemmas for C97. *)
From Verif Require Import Base PyStr Xml Tree XPath FindSpec Db Api ApiSpec StructSpec XPath_facts XPath_eval XPath_parse Find_facts Cbc_facts Heap Prim Struct_find.

(** A result: an element, the text of a text or attribute node, or with cast=True an Entry, Group or Attachment. *)
Inductive hit := H_elem (i : nat) | H_text (s : str) | H_obj (r : ref).
(** pykeepass.py:350-367, one round of the loop.  lxml leaves the document node out of the results; texts have no [tag]. *)
Definition hit_of (casting : bool) (x : xnode) : res (list hit) :=
  match x with
  | XDoc => Ok []
  | XEl n => if casting then let* r := cast n in Ok [H_obj r] else Ok [H_elem (nid n)]
  | XText _ s | XAttr _ _ s => if casting then Err Ex_Attribute else Ok [H_text s]
  end.
Inductive answer := A_list (l : list hit) | A_one (o : option hit).
(** pykeepass.py:325-375.  Simplification: an expression whose value is a string, number or truth value raises TypeError
    (lxml's strings could be iterated over); functions other than those of XPath.v are XPath errors. *)
Definition user_xpath (R : regex) (s : str) (tree : option nat) (first casting : bool) : M answer :=
  lift (fun d =>
    let* l := xpath_raw R (d_forest d) tree s in
    let* hs := mapM (hit_of casting) l in
    Ok (if first then A_one (hd_error (List.concat hs)) else A_list (List.concat hs))).

(** *** Vocabulary *)
Definition found_elems (l : list hit) : list nat := flat_map (fun h => match h with H_elem i => [i] | _ => [] end) l.
(** The tree searched: the document, or the one [tree] is in. *)
Definition searched_tree (d : db) (tree : option nat) (t : elem) : Prop :=
  In t (d_forest d) /\ match tree with None => hd_error (d_forest d) = Some t | Some i => In i (map eid (everything t)) end.
(** The object an element is turned into. *)
Definition kind (d : db) (h : hit) (r : ref) : Prop :=
  match h, r with
  | H_elem i, R_entry j => i = j /\ is_tag (look (d_forest d)) $"Entry" i
  | H_elem i, R_group j => i = j /\ is_tag (look (d_forest d)) $"Group" i
  | H_elem i, R_att j => i = j /\ is_tag (look (d_forest d)) $"Binary" i /\ exists p, is_kid d p i /\ is_tag (look (d_forest d)) $"Entry" p
  | _, _ => False
  end.

(** *** Results are a subsequence of all nodes in document order *)
Lemma filterM_subseq {A} (f : nat -> A -> res bool) : forall l i m, filterM f i l = Ok m -> subseq m l.
Proof.
  induction l as [|x l IH]; intros i m E; cbn [filterM] in E; [apply Ok_inj in E; subst; constructor|].
  apply bind_ok in E as (b & _ & E). apply bind_ok in E as (ys & Ey & E). apply Ok_inj in E. subst m. apply IH in Ey. destruct b; constructor; exact Ey.
Qed.
Section W.
  Context (R : regex) (w : world).
  Lemma in_order_subseq l : subseq (in_order w l) (w_list w).
  Proof. rewrite in_order_eq. apply subseq_filter. Qed.
  Lemma eval_subseq : forall e c l, In (cx_node c) (w_list w) -> eval R w e c = Ok (V_set l) -> subseq l (w_list w).
  Proof.
    fix IH 1. intros e c l Hc. destruct e as [abs steps|e ps|s|s|o a b|a b|a b|a b|f args]; cbn [eval]; intros E.
    - apply bind_ok in E as (m & Em & E). apply Ok_inj in E. injection E as <-.
      assert (S0 : subseq (if abs then if w_doc w then [XDoc] else [XEl (Nd (w_root w) [])] else [cx_node c]) (w_list w)).
      { destruct abs; [|now apply subseq_one]. unfold w_list. destruct (w_doc w); apply subseq_one; [left; reflexivity|]. apply in_or_app. right. apply in_flat_map. exists (Nd (w_root w) []). split; [|left; reflexivity]. unfold w_nodes. rewrite pre_eq. left. reflexivity. }
      revert Em S0. generalize (if abs then if w_doc w then [XDoc] else [XEl (Nd (w_root w) [])] else [cx_node c]). clear - IH. induction steps as [|[a t ps] ss IHs]; intros l0 Em S0.
      + apply Ok_inj in Em. subst. exact S0.
      + apply bind_ok in Em as (ll & _ & Em). apply (IHs _ Em). apply in_order_subseq.
    - apply bind_ok in E as (v & Ev & E). destruct ps as [|p ps]; [destruct v; apply Ok_inj in E; subst; try discriminate; injection E as <-; now apply (IH e c l0)|].
      destruct v as [l0| | |]; try discriminate. apply bind_ok in E as (l' & El & E). apply Ok_inj in E. injection E as <-. apply (IH e c l0 Hc) in Ev.
      apply bind_ok in El as (l1 & E1 & El). assert (S1 : subseq l1 (w_list w)) by (eapply subseq_trans; [eapply filterM_subseq; exact E1|exact Ev]). clear E1.
      revert l1 S1 El. induction ps as [|q ps IHp]; intros l1 S1 El; [apply Ok_inj in El; subst; exact S1|].
      apply bind_ok in El as (l2 & E2 & El). apply (IHp l2); [|exact El]. eapply subseq_trans; [eapply filterM_subseq; exact E2|exact S1].
    - apply Ok_inj in E. discriminate.
    - apply Ok_inj in E. discriminate.
    - apply bind_ok in E as (x & _ & E). apply bind_ok in E as (y & _ & E). apply Ok_inj in E. discriminate.
    - apply bind_ok in E as (x & _ & E). destruct (truth x); [apply bind_ok in E as (y & _ & E)|]; apply Ok_inj in E; discriminate.
    - apply bind_ok in E as (x & _ & E). destruct (truth x); [|apply bind_ok in E as (y & _ & E)]; apply Ok_inj in E; discriminate.
    - apply bind_ok in E as (x & _ & E). apply bind_ok in E as (y & _ & E). destruct x; try discriminate. destruct y; try discriminate. apply Ok_inj in E. injection E as <-. apply in_order_subseq.
    - apply bind_ok in E as (vs & _ & E). exfalso. revert E. clear. unfold call.
      repeat match goal with |- context [if ?b then _ else _] => destruct b end; intros E;
        repeat match type of E with context [match ?x with _ => _ end] => destruct x; try discriminate end;
        try (apply bind_ok in E as (? & _ & E)); try (apply Ok_inj in E); discriminate.
  Qed.
End W.
Lemma subseq_picks {A} (m l : list A) : subseq m l -> NoDup l -> picks (fun x => In x m) l m.
Proof.
  assert (G : forall m l : list A, subseq m l -> NoDup l -> forall k, (forall x, In x l -> (In x k <-> In x m)) -> picks (fun x => In x k) l m).
  { clear m l. induction 1 as [l|x m l S IH|x m l S IH]; intros Nd k Hk.
    - induction l as [|x l IH]; [apply picks_nil|apply picks_no; [intros C; apply Hk in C; [destruct C|now left]|]]. apply IH; [now inversion Nd|]. intros y Hy. apply Hk. now right.
    - apply NoDup_cons_iff in Nd as [N1 N2]. apply picks_yes; [apply Hk; now left|]. apply IH; [exact N2|]. intros y Hy. rewrite (Hk y (or_intror Hy)). cbn. split; [intros [E|Hy']; [subst; contradiction|exact Hy']|auto].
    - apply NoDup_cons_iff in Nd as [N1 N2]. apply picks_no; [intros C; apply Hk in C; [apply N1, (subseq_In _ _ _ S C)|now left]|]. apply IH; [exact N2|]. intros y Hy. apply Hk. now right. }
  intros S Nd. apply G; [exact S|exact Nd|tauto].
Qed.
Definition el_of (x : xnode) : list node := match x with XEl n => [n] | _ => [] end.
Lemma flat_subseq {A B} (f : A -> list B) l m : subseq l m -> subseq (flat_map f l) (flat_map f m).
Proof. exact (subseq_flat_l f l m). Qed.
Lemma els_items n : flat_map el_of (items n) = [n].
Proof.
  unfold items. cbn [flat_map el_of app]. f_equal. rewrite flat_map_app. destruct (etext (nd_el n)); cbn [flat_map el_of app]; rewrite ?app_nil_r; induction (eattrs (nd_el n)) as [|a l IH]; auto.
Qed.
Lemma els_list w : flat_map el_of (w_list w) = w_nodes w.
Proof.
  unfold w_list. rewrite flat_map_app. replace (flat_map el_of (if w_doc w then [XDoc] else [])) with (@nil node) by (destruct (w_doc w); reflexivity). cbn [app].
  induction (w_nodes w) as [|n l IH]; [reflexivity|]. cbn [flat_map]. rewrite flat_map_app, els_items, IH. reflexivity.
Qed.
Lemma raw_spec R d tree s l : wf d -> xpath_raw R (d_forest d) tree s = Ok l ->
  exists w, searched_tree d tree (w_root w) /\ subseq l (w_list w).
Proof.
  intros H E. unfold xpath_raw in E. destruct (forallb xml_char s); [|discriminate]. apply bind_ok in E as (e & _ & E). destruct (context (d_forest d) tree) as [[w m]|] eqn:Ec; [|discriminate].
  apply bind_ok in E as (v & Ev & E). destruct v as [l0| | |]; try discriminate. apply Ok_inj in E. subst l0. exists w.
  assert (C : searched_tree d tree (w_root w) /\ In m (w_nodes w)).
  { unfold context in Ec. destruct tree as [i|].
    - apply locate_In in Ec as (C1 & C2 & C3). split; [split; [exact C1|]|exact C2]. rewrite <- C3, (everything_pre _ []), map_map. apply (in_map nid). exact C2.
    - destruct (d_forest d) as [|t F] eqn:EF; [discriminate|]. injection Ec as <- <-. split; [unfold searched_tree; rewrite EF; split; [now left|reflexivity]|]. unfold w_nodes. cbn. rewrite pre_eq. now left. }
  destruct C as [C1 C2]. split; [exact C1|]. apply (eval_subseq R w e (Cx (XEl m) 1 1)); [|exact Ev]. cbn. unfold w_list. apply in_or_app. right. apply in_flat_map. exists m. split; [exact C2|now left].
Qed.
Lemma mapM_F2 {A B} (f : A -> res B) : forall l m, mapM f l = Ok m -> Forall2 (fun x y => f x = Ok y) l m.
Proof.
  induction l as [|x l IH]; intros m E; cbn [mapM] in E; [apply Ok_inj in E; subst; constructor|]. apply bind_ok in E as (y & Ey & E). apply bind_ok in E as (ys & Eys & E). apply Ok_inj in E. subst. constructor; auto.
Qed.
Lemma hits_elems : forall l hs, mapM (hit_of false) l = Ok hs -> found_elems (List.concat hs) = map nid (flat_map el_of l).
Proof.
  intros l hs E. apply mapM_F2 in E. induction E as [|x y l hs Ex _ IH]; [reflexivity|]. cbn [List.concat flat_map]. unfold found_elems in *. rewrite flat_map_app, map_app, IH. f_equal.
  destruct x; cbn in Ex; apply Ok_inj in Ex; subst; reflexivity.
Qed.
(** Results: elements of the tree searched, each once, in document order; the database is as before. *)
Theorem in_document_order R d s tree l d' : wf d -> user_xpath R s tree false false d = (Ok (A_list l), d') ->
  d' = d /\ exists t es, searched_tree d tree t /\ picks (fun e => In e es) (everything t) es /\ NoDup (map eid es) /\ found_elems l = map eid es.
Proof.
  intros H E. unfold user_xpath, lift in E. injection E as E <-. split; [reflexivity|]. apply bind_ok in E as (xs & Ex & E). apply bind_ok in E as (hs & Eh & E). apply Ok_inj in E. injection E as <-.
  destruct (raw_spec R d tree s xs H Ex) as (w & Hw & S). apply (flat_subseq el_of) in S. rewrite els_list in S. apply (subseq_map nd_el) in S. unfold w_nodes in S. rewrite <- everything_pre in S.
  exists (w_root w), (map nd_el (flat_map el_of xs)). split; [exact Hw|].
  assert (U : NoDup (map eid (everything (w_root w)))). { rewrite (everything_pre _ []), map_map. apply (wok_of (d_forest d) true (w_root w)); [apply unique_fpre, H|apply Hw]. }
  split; [apply subseq_picks; [exact S|exact (NoDup_map_inv _ _ U)]|]. split.
  - apply (subseq_map eid) in S. revert S U. generalize (map eid (everything (w_root w))). generalize (map eid (map nd_el (flat_map el_of xs))). clear. induction 1 as [l|x m l S IH|x m l S IH]; intros U; [constructor| |].
    + apply NoDup_cons_iff in U as [U1 U2]. constructor; [intros C; apply U1, (subseq_In _ _ _ S C)|auto].
    + apply NoDup_cons_iff in U as [U1 U2]. auto.
  - rewrite (hits_elems _ _ Eh), map_map. reflexivity.
Qed.
(** first=True: the first of the results, or None. *)
Theorem first_of_list R d s tree c : exists x, user_xpath R s tree false c d = (x, d) /\
  match x with
  | Ok (A_list l) => user_xpath R s tree true c d = (Ok (A_one (hd_error l)), d)
  | Ok (A_one _) => False
  | Err e => user_xpath R s tree true c d = (Err e, d)
  end.
Proof.
  unfold user_xpath, lift. destruct (xpath_raw R (d_forest d) tree s) as [l|e]; [|eexists; split; reflexivity]. cbn [bind]. destruct (mapM (hit_of c) l) as [hs|e]; eexists; split; reflexivity.
Qed.
Lemma cast_kind R d tree s l n : wf d -> xpath_raw R (d_forest d) tree s = Ok l -> In (XEl n) l ->
  (forall r, cast n = Ok r -> kind d (H_elem (nid n)) r) /\ (forall r, kind d (H_elem (nid n)) r -> cast n = Ok r).
Proof.
  intros H E Hn. destruct (raw_spec R d tree s l H E) as (w & [Hw _] & S).
  assert (Nn : In n (w_nodes w)). { rewrite <- els_list. apply in_flat_map. exists (XEl n). split; [exact (subseq_In _ _ _ S Hn)|now left]. }
  assert (EL : forall m, In m (w_nodes w) -> look (d_forest d) (nid m) = Some (row_of (nd_el m))).
  { intros m Hm. apply (look_self (d_forest d) (nd_el m)); [apply H|]. apply in_flat_map. exists (w_root w). split; [exact Hw|]. rewrite (everything_pre _ []). now apply in_map. }
  assert (TG : forall m T, In m (w_nodes w) -> (is_tag (look (d_forest d)) T (nid m) <-> etag (nd_el m) = T)).
  { intros m T Hm. unfold is_tag. rewrite (EL m Hm). split; [intros (r & Er & <-); injection Er as <-; reflexivity|intros <-; eauto]. }
  assert (PA : forall p up, nd_up n = p :: up -> is_kid d (eid p) (nid n) /\ In (Nd p up) (w_nodes w)).
  { intros p up Eu. destruct (pre_parent _ _ _ Nn) as [->|(p' & up' & E' & Hp & Hk)]; [discriminate|]. rewrite Eu in E'. injection E' as <- <-. split; [|exact Hp]. exists (row_of p). split; [exact (EL _ Hp)|]. cbn. now apply (in_map eid). }
  split.
  - intros r Er. unfold cast in Er. destruct (str_eqb (etag (nd_el n)) $"Entry") eqn:E1; [apply Ok_inj in Er; subst; cbn; split; [reflexivity|]; apply TG; [exact Nn|now apply str_eqb_eq]|].
    destruct (str_eqb (etag (nd_el n)) $"Group") eqn:E2; [apply Ok_inj in Er; subst; cbn; split; [reflexivity|]; apply TG; [exact Nn|now apply str_eqb_eq]|].
    destruct (str_eqb (etag (nd_el n)) $"Binary") eqn:E3; [|discriminate]. destruct (nd_up n) as [|p up] eqn:Eu; [discriminate|]. destruct (str_eqb (etag p) $"Entry") eqn:E4; [|discriminate]. apply Ok_inj in Er. subst. cbn.
    destruct (PA p up eq_refl) as [P1 P2]. split; [reflexivity|]. split; [apply TG; [exact Nn|now apply str_eqb_eq]|]. exists (eid p). split; [exact P1|]. apply (TG (Nd p up)); [exact P2|now apply str_eqb_eq].
  - intros r K. unfold cast. destruct r as [i|i|i]; cbn in K.
    + destruct K as [<- T]. apply TG in T; [|exact Nn]. rewrite T. reflexivity.
    + destruct K as [<- T]. apply TG in T; [|exact Nn]. rewrite T. reflexivity.
    + destruct K as (<- & T & q & Kq & Tq). apply TG in T; [|exact Nn]. rewrite T. cbn. destruct (nd_up n) as [|p up] eqn:Eu.
      * exfalso. destruct Kq as (rq & Eq & Iq). apply look_In in Eq; [|apply H]. apply in_map_iff in Eq as (tq & Ecq & Htq). injection Ecq as <- <-. cbn in Iq. apply in_map_iff in Iq as (k & Ek & Ik).
        destruct (pre_parent _ _ _ Nn) as [En|(p' & up' & E' & _)]; [|congruence]. subst n. cbn in Ek.
        pose proof (proj1 (unique_fpre _) (proj1 (proj2 H))) as U. apply elements_In in Htq as (nq & Hnq & <-). unfold fpre in Hnq. apply in_flat_map in Hnq as (t0 & Ht0 & Hnq). pose proof (pre_kid _ _ _ _ Hnq Ik) as Hk.
        assert (X : Nd k (nd_el nq :: nd_up nq) = Nd (w_root w) []); [|discriminate X]. apply (NoDup_map_inj nid (fpre (d_forest d))); [exact U|apply in_flat_map; eauto|apply in_flat_map; exists (w_root w); split; [exact Hw|rewrite pre_eq; now left]|exact Ek].
      * destruct (PA p up eq_refl) as [P1 P2]. assert (q = eid p) as -> by exact (Struct.one_parent d q (eid p) (nid n) H Kq P1). apply (TG (Nd p up)) in Tq; [|exact P2]. cbn in Tq. rewrite Tq. reflexivity.
Qed.
(** cast=True: the same elements as Entry, Group and Attachment objects; an exception if one of the results is something else. *)
Theorem cast_all R d s tree l : wf d -> user_xpath R s tree false false d = (Ok (A_list l), d) ->
  (forall rs, Forall2 (kind d) l rs -> user_xpath R s tree false true d = (Ok (A_list (map H_obj rs)), d)) /\
  (forall h, In h l -> (forall r, ~ kind d h r) -> exists x, user_xpath R s tree false true d = (Err x, d)).
Proof.
  intros H E. unfold user_xpath, lift in *. injection E as E. apply bind_ok in E as (xs & Ex & E). apply bind_ok in E as (hs & Eh & E). apply Ok_inj in E. injection E as <-. rewrite Ex. cbn [bind].
  assert (CK : forall n, In (XEl n) xs -> (forall r, cast n = Ok r -> kind d (H_elem (nid n)) r) /\ (forall r, kind d (H_elem (nid n)) r -> cast n = Ok r)) by (intros n Hn; exact (cast_kind R d tree s xs n H Ex Hn)).
  clear Ex. apply mapM_F2 in Eh. split.
  - intros rs K. assert (G : exists gs, mapM (hit_of true) xs = Ok gs /\ List.concat gs = map H_obj rs); [|destruct G as (gs & -> & <-); reflexivity].
    revert rs K. induction Eh as [|x y xs hs Exy _ IH]; intros rs K; [inversion K; subst; exists []; split; reflexivity|]. cbn [List.concat] in K. apply Forall2_app_inv_l in K as (r1 & r2 & K1 & K2 & ->).
    destruct (IH (fun n Hn => CK n (or_intror Hn)) r2 K2) as (gs & Eg & Ec). destruct x as [|n|n t|n k v]; cbn in Exy; apply Ok_inj in Exy; subst y.
    + inversion K1; subst. exists ([] :: gs). cbn. rewrite Eg. split; [reflexivity|exact Ec].
    + inversion K1 as [|a b ? ? Ka Kb]; subst. inversion Kb; subst. exists ([H_obj b] :: gs). cbn [mapM hit_of]. rewrite (proj2 (CK n (or_introl eq_refl)) b Ka). cbn. rewrite Eg. split; [reflexivity|]. cbn. now rewrite Ec.
    + inversion K1 as [|a b ? ? Ka Kb]; subst. destruct Ka.
    + inversion K1 as [|a b ? ? Ka Kb]; subst. destruct Ka.
  - intros h Hh N. assert (G : exists x, mapM (hit_of true) xs = Err x); [|destruct G as (x & ->); exists x; reflexivity].
    revert Hh. induction Eh as [|x y xs hs Exy _ IH]; intros Hh; [destruct Hh|]. cbn [List.concat] in Hh. cbn [mapM]. apply in_app_or in Hh as [Hh|Hh].
    + destruct x as [|n|n t|n k v]; cbn in Exy; apply Ok_inj in Exy; subst y; [destruct Hh| |eexists; reflexivity|eexists; reflexivity]. destruct Hh as [Hh|[]]; subst h.
      cbn [hit_of]. destruct (cast n) as [r|x] eqn:Er; [exfalso; apply (N r), CK; [now left|exact Er]|eexists; reflexivity].
    + destruct (IH (fun n Hn => CK n (or_intror Hn)) Hh) as (x' & E'). destruct (hit_of true x) as [z|z]; [|eexists; reflexivity]. cbn [bind]. rewrite E'. eexists. reflexivity.
Qed.
(** *** The two usual queries *)
Definition letter (c : N) : bool := ((65 <=? c) && (c <=? 90)) || ((97 <=? c) && (c <=? 122)).
(** A tag name of letters. *)
Definition word (T : str) : Prop := T <> [] /\ forallb letter T = true.
Lemma letter_ok c : letter c = true -> xname_start c = true /\ xname_char c = true /\ xml_char c = true /\ xml_space c = false /\ (c =? 34) = false /\ (c =? 39) = false /\ (c =? 47) = false /\ (c =? 46) = false.
Proof.
  unfold letter, xname_start, xname_char, name_char, name_start, xml_char, xml_space. intros H. 
  assert (B : (65 <= c /\ c <= 90) \/ (97 <= c /\ c <= 122)). { apply orb_true_iff in H as [H|H]; apply andb_true_iff in H as [A B]; apply N.leb_le in A; apply N.leb_le in B; auto. }
  repeat rewrite ?orb_true_iff, ?andb_true_iff, ?orb_false_iff, ?andb_false_iff, ?N.leb_le, ?N.eqb_neq, ?N.eqb_eq, ?N.leb_gt. lia.
Qed.
Lemma word_fold : forall T r out, forallb letter T = true -> fold_left lex_step T (L_name r, out) = (L_name (rev T ++ r), out).
Proof.
  induction T as [|c T IH]; intros r out H; [reflexivity|]. cbn [forallb] in H. apply andb_true_iff in H as [H1 H2]. cbn [fold_left lex_step]. destruct (letter_ok c H1) as (_ & -> & _). rewrite IH by exact H2. cbn [rev]. now rewrite <- app_assoc.
Qed.
Lemma word_lex pre pt T : fold_left lex_step pre (L0, []) = (L0, rev pt) -> word T -> lex (pre ++ T) = pt ++ [T_name T].
Proof.
  intros E [N H]. unfold lex. rewrite fold_left_app, E. destruct T as [|c T]; [contradiction|]. cbn [forallb] in H. apply andb_true_iff in H as [H1 H2]. cbn [fold_left lex_step]. unfold lex_start at 1.
  destruct (letter_ok c H1) as (-> & _ & _ & -> & -> & -> & _). rewrite word_fold by exact H2. unfold lex_finish. rewrite rev_app_distr. cbn [rev app]. rewrite rev_involutive. cbn [rev]. now rewrite rev_involutive.
Qed.
Lemma word_xml T : word T -> forallb xml_char T = true.
Proof. intros [_ H]. rewrite forallb_forall in *. intros c Hc. apply (letter_ok c (H c Hc)). Qed.
Lemma hits_els l : mapM (hit_of false) (map XEl l) = Ok (map (fun n => [H_elem (nid n)]) l).
Proof. induction l as [|n l IH]; [reflexivity|]. cbn [map mapM hit_of bind]. rewrite IH. reflexivity. Qed.
Lemma concat_one (l : list node) : List.concat (map (fun n => [H_elem (nid n)]) l) = map H_elem (map nid l).
Proof. induction l as [|n l IH]; [reflexivity|]. cbn. now rewrite IH. Qed.
Lemma tagged_els T l : map nid (filter (fun m => tagged T m && true && crits_hold [] (nd_el m)) l) = map eid (filter (fun e => str_eqb (etag e) T) (map nd_el l)).
Proof. induction l as [|n l IH]; [reflexivity|]. cbn [filter map]. change (crits_hold [] (nd_el n)) with true. rewrite !andb_true_r. unfold tagged at 1. destruct (str_eqb (etag (nd_el n)) T); cbn [map]; now rewrite IH. Qed.
Lemma flat_pre up l : map nd_el (flat_map (pre up) l) = flat_map everything l.
Proof. induction l as [|t l IH]; [reflexivity|]. cbn [flat_map]. rewrite map_app, <- everything_pre, IH. reflexivity. Qed.
(** [//T]: all elements of the document with that tag. *)
Theorem all_named R d T r F : wf d -> word T -> d_forest d = r :: F -> exists es, picks (fun e => etag e = T) (everything r) es /\
  user_xpath R ($"//" ++ T) None false false d = (Ok (A_list (map H_elem (map eid es))), d).
Proof.
  intros H W EF. exists (filter (fun e => str_eqb (etag e) T) (everything r)). split; [apply picks_filter; intros x _; apply str_eqb_eq|].
  unfold user_xpath, lift, xpath_raw. rewrite forallb_app, (word_xml T W). cbn [andb]. change (forallb xml_char $"//") with true. cbv iota.
  rewrite (parse_desc ($"//" ++ T) T true [] []); [|apply (word_lex $"//" [T_dslash] T eq_refl W)|apply block_nil]. cbn [bind]. unfold context. rewrite EF. pose proof (wok_of (d_forest d) true r) as Hw. rewrite EF in Hw. specialize (Hw (proj1 (unique_fpre _) (eq_ind _ unique (proj1 (proj2 H)) _ EF)) (or_introl eq_refl)).
  change (@nil step) with (flat_map crit_steps []) at 1. rewrite (search_all R (World true r) Hw T [] (fun _ => true) []); [|reflexivity|apply preds_nil|constructor]. cbn [bind andb]. rewrite hits_els. cbn [bind]. rewrite concat_one, tagged_els. unfold w_nodes. cbn [w_root]. rewrite <- everything_pre. reflexivity.
Qed.
(** [.//T] with tree=: all elements below that one with that tag. *)
Theorem all_below R d T t : wf d -> word T -> has_elem d t -> exists es, picks (fun e => etag e = T) (flat_map everything (ekids t)) es /\
  user_xpath R ($".//" ++ T) (Some (eid t)) false false d = (Ok (A_list (map H_elem (map eid es))), d).
Proof.
  intros H W Ht. exists (filter (fun e => str_eqb (etag e) T) (flat_map everything (ekids t))). split; [apply picks_filter; intros x _; apply str_eqb_eq|].
  unfold has_elem in Ht. rewrite elements_fpre in Ht. apply in_map_iff in Ht as (n & <- & Hn). pose proof (proj1 (unique_fpre _) (proj1 (proj2 H))) as Hu.
  destruct (locate_spec (d_forest d) true n Hu Hn) as (b & t & E & Ht & Hnt). pose proof (wok_of (d_forest d) b t Hu Ht) as Hw.
  unfold user_xpath, lift, xpath_raw. rewrite forallb_app, (word_xml T W). cbn [andb]. change (forallb xml_char $".//") with true. cbv iota.
  rewrite (parse_below ($".//" ++ T) T true [] []); [|apply (word_lex $".//" [T_dot; T_dslash] T eq_refl W)|apply block_nil]. cbn [bind]. unfold context. fold (nid n). rewrite E.
  change (@nil step) with (flat_map crit_steps []) at 1. rewrite (search_below R (World b t) Hw T [] (fun _ => true) []); [|exact Hnt|apply preds_nil|constructor]. cbn [bind andb]. rewrite hits_els. cbn [bind]. rewrite concat_one, tagged_els. unfold strict. rewrite flat_pre. reflexivity.
Qed.
