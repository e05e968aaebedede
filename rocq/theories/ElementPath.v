(** The location of an element as an XPath expression (baseelement.py:87-89): [getroottree().getpath(element)] is
    libxml2's xmlGetNodePath; and its use as a query (C109).
    Simplification: namespaces, comments and processing instructions are not in the documents modelled. *)
From Verif Require Import Base PyStr Xml Tree XPath FindSpec Db Api ApiSpec StructSpec XPath_facts XPath_eval XPath_parse Find_facts Cbc_facts Heap Prim Struct_find UserXPath XPath_owner.

(** xmlGetNodePath: the ordinal among the siblings with that name, if there are others. *)
Fixpoint ordinal (i : nat) (l : list elem) : nat :=
  match l with [] => O | x :: l' => if (eid x =? i)%nat then 1%nat else S (ordinal i l') end.
Definition named (T : str) (l : list elem) : list elem := filter (fun x => str_eqb (etag x) T) l.
Definition occurrence (e : elem) (siblings : list elem) : str :=
  let same := named (etag e) siblings in
  match same with
  | _ :: _ :: _ => $"[" ++ str_of_N (N.of_nat (ordinal (eid e) same)) ++ $"]"
  | _ => []
  end.
Fixpoint node_path (e : elem) (ups : list elem) : str :=
  match ups with
  | [] => $"/" ++ etag e
  | p :: ups' => node_path p ups' ++ $"/" ++ etag e ++ occurrence e (ekids p)
  end.
(** baseelement.py:87-89 *)
Definition element_path (i : nat) : M str :=
  lift (fun d => match node_of (d_forest d) i with Some n => Ok (node_path (nd_el n) (nd_up n)) | None => Err Ex_Attribute end).

(** *** As steps *)
Definition leg : Type := (str * option N)%type.
Definition leg_str (x : leg) : str := $"/" ++ fst x ++ match snd x with Some i => $"[" ++ str_of_N i ++ $"]" | None => [] end.
Definition leg_toks (x : leg) : list tok := [T_slash; T_name (fst x)] ++ match snd x with Some i => [T_lb; T_num (str_of_N i); T_rb] | None => [] end.
Definition leg_step (x : leg) : step := kid (fst x) match snd x with Some i => [E_num (str_of_N i)] | None => [] end.
Definition leg_of (e : elem) (siblings : list elem) : leg :=
  (etag e, match named (etag e) siblings with (_ :: _ :: _) as same => Some (N.of_nat (ordinal (eid e) same)) | _ => None end).
Fixpoint legs (e : elem) (ups : list elem) : list leg :=
  match ups with [] => [(etag e, None)] | p :: ups' => legs p ups' ++ [leg_of e (ekids p)] end.
Lemma path_legs ups : forall e, node_path e ups = flat_map leg_str (legs e ups).
Proof.
  induction ups as [|p ups IH]; intros e; cbn [node_path legs].
  - cbn [flat_map]. unfold leg_str. cbn [fst snd]. now rewrite !app_nil_r.
  - rewrite flat_map_app, <- IH. cbn [flat_map]. rewrite app_nil_r. f_equal. unfold leg_of, leg_str, occurrence. cbn [fst snd]. destruct (named _ _) as [|a [|b l]]; reflexivity.
Qed.
(** Lexing *)
Lemma digits_fold s : forall r out, forallb is_digit s = true -> fold_left lex_step s (L_num r, out) = (L_num (rev s ++ r), out).
Proof.
  induction s as [|c s IH]; intros r out H; [reflexivity|]. cbn [forallb] in H. apply andb_true_iff in H as [H1 H2]. cbn [fold_left lex_step]. rewrite H1. cbn [orb]. rewrite IH by exact H2. cbn [rev]. now rewrite <- app_assoc.
Qed.
Lemma digit_start c out : is_digit c = true -> lex_start c out = (L_num [c], out).
Proof.
  unfold is_digit. intros H. apply andb_true_iff in H as [A B]. apply N.leb_le in A. apply N.leb_le in B. unfold lex_start.
  assert (E : c = 48 \/ c = 49 \/ c = 50 \/ c = 51 \/ c = 52 \/ c = 53 \/ c = 54 \/ c = 55 \/ c = 56 \/ c = 57) by lia.
  repeat destruct E as [->|E]; try reflexivity. subst c. reflexivity.
Qed.
Lemma word_start T out : word T -> fold_left lex_step T (L_one 47, out) = (L_name (rev T), T_slash :: out).
Proof.
  intros [N H]. destruct T as [|c T]; [contradiction|]. cbn [forallb] in H. apply andb_true_iff in H as [H1 H2]. cbn [fold_left]. unfold lex_step at 2. destruct (letter_ok c H1) as (A1 & _ & _ & A4 & A5 & A6 & A7 & A8). rewrite A7. cbn [N.eqb Pos.eqb andb].
  change (single 47) with T_slash. unfold lex_start. rewrite A4, A5, A6, A1. rewrite word_fold by exact H2. reflexivity.
Qed.
Lemma leg_lex x rest out : word (fst x) -> no_name_head rest -> lex_finish (fold_left lex_step (leg_str x ++ rest) (L0, out)) = lex_finish (fold_left lex_step rest (L0, rev (leg_toks x) ++ out)).
Proof.
  intros W N. destruct x as [T o]. unfold leg_str, leg_toks. cbn [fst snd] in *. rewrite <- !app_assoc, fold_left_app. change (fold_left lex_step $"/" (L0, out)) with (L_one 47, out). rewrite fold_left_app, (word_start T out W). destruct o as [i|].
  - rewrite <- !app_assoc, fold_left_app. change (fold_left lex_step $"[" (L_name (rev T), T_slash :: out)) with (L0, T_lb :: T_name (rev (rev T)) :: T_slash :: out). rewrite rev_involutive.
    pose proof (str_of_N_digits i) as D. pose proof (str_of_N_nonempty i) as E. rewrite fold_left_app. destruct (str_of_N i) as [|c s] eqn:Es; [contradiction|]. cbn [forallb] in D. apply andb_true_iff in D as [D1 D2].
    cbn [fold_left]. unfold lex_step at 3. rewrite digit_start by exact D1. rewrite digits_fold by exact D2. cbn [app]. rewrite fold_left_app.
    change (fold_left lex_step $"]" (L_num (rev s ++ [c]), T_lb :: T_name T :: T_slash :: out)) with (L0, T_rb :: T_num (rev (rev s ++ [c])) :: T_lb :: T_name T :: T_slash :: out). rewrite rev_app_distr, rev_involutive. reflexivity.
  - cbn [app]. rewrite lex_after_name by exact N. rewrite rev_involutive. reflexivity.
Qed.
Lemma legs_lex l : Forall (fun x => word (fst x)) l -> forall out, lex_finish (fold_left lex_step (flat_map leg_str l) (L0, out)) = rev out ++ flat_map leg_toks l.
Proof.
  induction 1 as [|x l W F IH]; intros out; [cbn; now rewrite app_nil_r|]. cbn [flat_map]. rewrite leg_lex; [|exact W|destruct l; [exact I|reflexivity]]. rewrite IH, rev_app_distr, rev_involutive, <- app_assoc. reflexivity.
Qed.
Lemma leg_block x : block (leg_toks x) [leg_step x].
Proof. destruct x as [T [i|]]; unfold leg_toks, leg_step; cbn [fst snd app]; [|apply block_kid]. step_tac. Qed.
Lemma legs_parse T l : word T -> Forall (fun x => word (fst x)) l -> parse_xpath (flat_map leg_str ((T, None) :: l)) = Ok (E_path true (kid T [] :: map leg_step l)).
Proof.
  intros W F. rewrite (parse_child _ T true (flat_map leg_toks l) (map leg_step l)); [reflexivity| |].
  - unfold lex. rewrite legs_lex; [reflexivity|]. now constructor.
  - replace (map leg_step l) with (flat_map (fun x => [leg_step x]) l) by (clear; induction l as [|x l IH]; [reflexivity|cbn; now rewrite IH]). apply flat_block. intros x _. apply leg_block.
Qed.

(** *** Evaluation *)
Lemma num_digits_val s : forall acc n seen, forallb is_digit s = true -> (seen = true \/ s <> []) -> dec_val acc s = Some n -> num_digits (Z.of_N acc) 1 seen false s = Some (Z.of_N n, 1%Z).
Proof.
  induction s as [|c s IH]; intros acc n seen D S E.
  - destruct S as [->|[]]; [|reflexivity]. cbn in E |- *. now injection E as ->.
  - cbn [forallb] in D. apply andb_true_iff in D as [D1 D2]. cbn [num_digits dec_val] in *. rewrite D1 in *. replace (Z.of_N acc * 10 + Z.of_N (c - 48))%Z with (Z.of_N (acc * 10 + (c - 48))) by lia. apply IH; auto.
Qed.
Lemma num_ok i : to_num (str_of_N i) = Some (Z.of_N i, 1%Z).
Proof.
  pose proof (str_of_N_digits i) as D. pose proof (str_of_N_nonempty i) as E. unfold to_num. rewrite py_strip_id.
  - pose proof (num_digits_val (str_of_N i) 0 i false D (or_intror E) (str_of_N_val i)) as X. change (Z.of_N 0) with 0%Z in X. destruct (str_of_N i) as [|c s]; [contradiction|]. cbn [forallb] in D. apply andb_true_iff in D as [D _]. unfold is_digit in D. apply andb_true_iff in D as [A B]. apply N.leb_le in A.
    destruct (N.eq_dec c 45) as [->|Nc]; [lia|]. destruct c as [|p]; [exact X|]. repeat (destruct p as [p|p|]; try exact X; try (exfalso; apply Nc; reflexivity)).
  - rewrite forallb_forall in *. intros c Hc. specialize (D c Hc). unfold is_digit in D. apply andb_true_iff in D as [A B]. apply N.leb_le in A. apply N.leb_le in B. unfold xml_space. apply negb_true_iff. repeat rewrite ?orb_false_iff, ?N.eqb_neq. lia.
Qed.
Section W.
  Context (R : regex) (w : world) (Hw : wok w).
  Lemma pos_past j (g : nat -> xnode -> res bool) : (forall i x, g i x = Ok (Z.of_nat j * 1 =? Z.of_nat i * 1)%Z) -> forall l m, (j < m)%nat -> filterM g m (map XEl l) = Ok [].
  Proof.
    intros A. induction l as [|x l IH]; intros m L; [reflexivity|]. cbn [map filterM]. rewrite A, IH by lia. cbn [bind]. destruct (Z.eqb_spec (Z.of_nat j * 1) (Z.of_nat m * 1)); [lia|reflexivity].
  Qed.
  Lemma pos_at j (g : nat -> xnode -> res bool) : (forall i x, g i x = Ok (Z.of_nat j * 1 =? Z.of_nat i * 1)%Z) -> forall l m x, (m <= j)%nat -> nth_error l (j - m) = Some x -> filterM g m (map XEl l) = Ok [XEl x].
  Proof.
    intros A. induction l as [|y l IH]; intros m x L E; [now destruct (j - m)%nat|]. cbn [map filterM]. rewrite A. destruct (Nat.eq_dec m j) as [->|Nm].
    - rewrite Nat.sub_diag in E. injection E as ->. rewrite (pos_past j g A) by lia. cbn [bind]. now rewrite Z.eqb_refl.
    - replace (j - m)%nat with (S (j - S m)) in E by lia. cbn [nth_error] in E. rewrite (IH (S m) x) by (try exact E; lia). cbn [bind]. destruct (Z.eqb_spec (Z.of_nat j * 1) (Z.of_nat m * 1)); [lia|reflexivity].
  Qed.
  Lemma ordinal_nth k l : In k l -> (forall x, In x l -> eid x = eid k -> x = k) -> exists j, ordinal (eid k) l = S j /\ nth_error l j = Some k.
  Proof.
    induction l as [|x l IH]; intros I U; [destruct I|]. cbn [ordinal]. destruct (Nat.eqb_spec (eid x) (eid k)) as [E|E].
    - exists O. split; [reflexivity|]. cbn. f_equal. apply U; [now left|exact E].
    - destruct I as [->|I]; [contradiction|]. destruct IH as (j & -> & J); [exact I|intros y Hy; apply U; now right|]. exists (S j). auto.
  Qed.
  Lemma named_nodes T n : filter (test_ok A_child (NT_name T)) (axis_nodes w A_child (XEl n)) = map XEl (map (fun e => Nd e (nd_el n :: nd_up n)) (named T (ekids (nd_el n)))).
  Proof.
    cbn [axis_nodes]. rewrite filter_app. unfold text_nodes, kid_nodes, named. assert (E : filter (test_ok A_child (NT_name T)) (map XEl (map (fun k => Nd k (nd_el n :: nd_up n)) (ekids (nd_el n)))) = map XEl (map (fun e => Nd e (nd_el n :: nd_up n)) (filter (fun x => str_eqb (etag x) T) (ekids (nd_el n))))).
    { generalize (nd_el n :: nd_up n). intros u. induction (ekids (nd_el n)) as [|k l IH]; [reflexivity|]. cbn [map filter test_ok nd_el]. destruct (str_eqb (etag k) T); cbn [map]; now rewrite IH. }
    rewrite E. destruct (etext (nd_el n)); reflexivity.
  Qed.
  Lemma one_in_order n : In n (w_nodes w) -> in_order w [XEl n] = [XEl n].
  Proof. intros Hn. change [XEl n] with (map XEl [n]). rewrite in_order_els, (norder_one w Hw n Hn); [reflexivity|now intros m [->|[]]|discriminate]. Qed.
  Lemma leg_eval p k : In p (w_nodes w) -> In k (ekids (nd_el p)) -> eval_steps R w [leg_step (leg_of k (ekids (nd_el p)))] [XEl p] = Ok [XEl (Nd k (nd_el p :: nd_up p))].
  Proof.
    intros Hp Hk. assert (Kn : forall x, In x (ekids (nd_el p)) -> In (Nd x (nd_el p :: nd_up p)) (w_nodes w)) by (intros x Hx; unfold w_nodes; apply pre_kid; [exact Hp|exact Hx]).
    assert (U : forall x, In x (ekids (nd_el p)) -> eid x = eid k -> x = k). { intros x Hx E. assert (X : Nd x (nd_el p :: nd_up p) = Nd k (nd_el p :: nd_up p)) by (apply (NoDup_map_inj nid (w_nodes w)); auto). congruence. }
    assert (M : In k (named (etag k) (ekids (nd_el p)))) by (unfold named; apply filter_In; split; [exact Hk|apply str_eqb_refl]).
    unfold leg_step, leg_of, kid. cbn [fst snd]. pose proof (named_nodes (etag k) p) as F. destruct (named (etag k) (ekids (nd_el p))) as [|a [|b l]] eqn:E; [destruct M| |].
    - destruct M as [->|[]]. cbn [eval_steps mapM]. rewrite F. cbn [map eval_preds bind List.concat app]. rewrite one_in_order by auto. reflexivity.
    - set (same := a :: b :: l) in *. destruct (ordinal_nth k same M) as (j & Ej & Nj). { intros x Hx. apply U. rewrite <- E in Hx. unfold named in Hx. now apply filter_In in Hx. }
      cbn [eval_steps mapM]. rewrite F. cbn [eval_preds]. rewrite (pos_at (S j)) with (x := Nd k (nd_el p :: nd_up p)).
      + cbn [bind List.concat app]. rewrite one_in_order by auto. reflexivity.
      + intros i x. cbn [eval bind holds]. rewrite num_ok, Ej. cbn [num_cmp]. rewrite nat_N_Z. reflexivity.
      + lia.
      + replace (S j - 1)%nat with j by lia. rewrite nth_error_map, Nj. reflexivity.
  Qed.
  Lemma legs_first ups : forall e, exists T l, legs e ups = (T, None) :: l.
  Proof. induction ups as [|p ups IH]; intros e; cbn [legs]; [now exists (etag e), []|]. destruct (IH p) as (T & l & ->). now exists T, (l ++ [leg_of e (ekids p)]). Qed.
  Lemma legs_eval ups : w_doc w = true -> forall e, In (Nd e ups) (w_nodes w) -> eval_steps R w (map leg_step (legs e ups)) [XDoc] = Ok [XEl (Nd e ups)].
  Proof.
    intros D. induction ups as [|p ups IH]; intros e He; cbn [legs].
    - assert (e = w_root w) as ->. { unfold w_nodes in He. apply pre_parent in He as [X|(p & u & X & _)]; [congruence|discriminate X]. }
      cbn [map leg_step fst snd eval_steps mapM kid axis_nodes filter test_ok nd_el]. rewrite str_eqb_refl. cbn [eval_preds bind List.concat app]. rewrite one_in_order by exact He. reflexivity.
    - assert (P : In (Nd p ups) (w_nodes w) /\ In e (ekids p)). { unfold w_nodes in *. apply pre_parent in He as [X|(q & u & X & Y)]; [discriminate X|]. cbn in X. injection X as <- <-. exact Y. }
      rewrite map_app, eval_steps_app, (IH p) by apply P. cbn [bind map]. apply (leg_eval (Nd p ups) e); apply P.
  Qed.
End W.
(** The location found for an element of the document is that of no other. *)
Theorem leads_back R d r F e n : wf d -> d_forest d = r :: F -> In n (pre [] r) -> nd_el n = e -> Forall (fun x => word (etag x)) (e :: nd_up n) ->
  exists s, element_path (eid e) d = (Ok s, d) /\ user_xpath R s None false false d = (Ok (A_list [H_elem (eid e)]), d).
Proof.
  intros H EF Hn <- W. destruct n as [e ups]. cbn [nd_el nd_up] in *. pose proof (proj1 (unique_fpre _) (proj1 (proj2 H))) as Hu. pose proof (wok_of (d_forest d) true r Hu ltac:(rewrite EF; now left)) as Hw.
  exists (node_path e ups). split.
  - unfold element_path, lift. assert (E : node_of (d_forest d) (eid e) = Some (Nd e ups)) by (apply node_of_In; [apply H|]; split; [rewrite EF; unfold fpre; cbn [flat_map]; apply in_app_iff; now left|reflexivity]). now rewrite E.
  - rewrite path_legs. assert (Wl : forall u x, Forall (fun x => word (etag x)) (x :: u) -> Forall (fun x => word (fst x)) (legs x u)).
    { clear. induction u as [|p u IH]; intros x F; apply Forall_cons_iff in F as [F1 F2]; cbn [legs]; [constructor; [exact F1|constructor]|]. apply Forall_app. split; [now apply IH|]. constructor; [exact F1|constructor]. }
    specialize (Wl ups e W). pose proof (legs_eval R (World true r) Hw ups eq_refl e Hn) as Ev. destruct (legs_first ups e) as (T & l & El). rewrite El in *. apply Forall_cons_iff in Wl as [WT Wl]. cbn [fst] in WT.
    assert (X : forallb xml_char (flat_map leg_str ((T, None) :: l)) = true).
    { assert (X1 : forall x, word (fst x) -> forallb xml_char (leg_str x) = true).
      { intros [T' o] W'. unfold leg_str. cbn [fst snd] in *. rewrite !forallb_app, (word_xml T' W'). destruct o as [i|]; [|reflexivity]. rewrite !forallb_app. change (forallb xml_char $"/") with true. change (forallb xml_char $"[") with true. change (forallb xml_char $"]") with true. cbn [andb]. rewrite andb_true_r.
        apply forallb_forall. intros c Hc. pose proof (str_of_N_digits i) as D. rewrite forallb_forall in D. specialize (D c Hc). unfold is_digit in D. apply andb_true_iff in D as [A B]. apply N.leb_le in A. apply N.leb_le in B. unfold xml_char. repeat rewrite ?orb_true_iff, ?andb_true_iff, ?N.leb_le, ?N.eqb_eq. lia. }
      assert (X2 : forall l, Forall (fun x => word (fst x)) l -> forallb xml_char (flat_map leg_str l) = true) by (induction 1 as [|x m Wx Wm IHm]; [reflexivity|]; cbn [flat_map]; rewrite forallb_app, (X1 x Wx), IHm; reflexivity).
      apply X2. now constructor. }
    unfold user_xpath, lift, xpath_raw. rewrite X, (legs_parse T l WT Wl). cbn [bind]. unfold context. rewrite EF. rewrite eval_path. cbn [start_of w_doc]. cbn [map] in Ev. change (leg_step (T, None)) with (kid T []) in Ev. rewrite Ev. reflexivity.
Qed.
(** What it looks like. *)
Theorem path_shape e before after p ups : NoDup (map eid (before ++ e :: after)) -> ekids p = before ++ e :: after ->
  let k := List.length (filter (fun x => str_eqb (etag x) (etag e)) before) in
  node_path e (p :: ups) = node_path p ups ++ $"/" ++ etag e ++
    (if existsb (fun x => str_eqb (etag x) (etag e)) (before ++ after) then $"[" ++ str_of_N (N.of_nat (S k)) ++ $"]" else []).
Proof.
  intros D E. cbn [node_path]. do 3 f_equal. unfold occurrence, named. rewrite E. set (f := fun x => str_eqb (etag x) (etag e)). rewrite filter_app. cbn [filter]. assert (Fe : f e = true) by apply str_eqb_refl. rewrite Fe.
  assert (O : forall b, ~ In (eid e) (map eid b) -> ordinal (eid e) (b ++ e :: filter f after) = S (List.length b)).
  { induction b as [|x b IH]; intros Nb; cbn [app ordinal]; [now rewrite Nat.eqb_refl|]. destruct (Nat.eqb_spec (eid x) (eid e)) as [X|X]; [exfalso; apply Nb; left; exact X|]. rewrite IH; [reflexivity|]. intros Y. apply Nb. now right. }
  assert (Nb : ~ In (eid e) (map eid (filter f before))).
  { rewrite map_app in D. cbn [map] in D. apply NoDup_remove_2 in D. intros Y. apply D. apply in_app_iff. left. apply in_map_iff in Y as (x & Ex & Hx). apply filter_In in Hx as [Hx _]. rewrite <- Ex. now apply in_map. }
  rewrite existsb_app. assert (X : forall l, existsb f l = match filter f l with [] => false | _ => true end) by (induction l as [|x l IH]; [reflexivity|]; cbn [existsb filter]; rewrite IH; now destruct (f x)). rewrite !X.
  specialize (O (filter f before) Nb). destruct (filter f before) as [|x [|y b]]; cbn [app] in *; cbn [orb].
  - destruct (filter f after); [reflexivity|]. cbv zeta iota. rewrite O. reflexivity.
  - cbv zeta iota. rewrite O. reflexivity.
  - cbv zeta iota. rewrite O. reflexivity.
Qed.
