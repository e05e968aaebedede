(** Numbers in queries: which texts count as numbers, and comparisons by them (C97).  Proofs and vocabulary; models no code. *)
From Coq Require Import ZifyBool ZifyNat ZifyN.
From Verif Require Import Base PyStr Xml Tree XPath FindSpec Db Api ApiSpec StructSpec XPath_facts XPath_eval XPath_parse Find_facts Cbc_facts Heap Prim Struct_find Keyfile_facts UserXPath XPath_owner.

(** *** XPath 1.0, section 4.4: optional white space, an optional minus sign, digits with an optional fraction, white space. *)
Definition blank (s : str) : Prop := forall c, In c s -> c = 32 \/ c = 9 \/ c = 10 \/ c = 13.
Definition figures (s : str) : Prop := forall c, In c s -> 48 <= c <= 57.
(** The value of a row of digits. *)
Fixpoint worth (s : str) : Z := match s with [] => 0 | c :: s' => (Z.of_N c - 48) * 10 ^ Z.of_nat (List.length s') + worth s' end.
(** [s] says [n] / 10 ^ [k]. *)
Definition says (s : str) (n : Z) (k : nat) : Prop := exists l (minus : bool) a dot b r,
  s = l ++ (if minus then [45] else []) ++ a ++ dot ++ b ++ r /\ blank l /\ blank r /\ figures a /\ figures b /\ a ++ b <> [] /\ (dot = [46] \/ dot = [] /\ b = []) /\
  n = (if minus then - worth (a ++ b) else worth (a ++ b))%Z /\ k = List.length b.
Definition no_number (s : str) : Prop := forall n k, ~ says s n k.

Lemma figures_ok s : figures s <-> forallb is_digit s = true.
Proof. unfold figures, is_digit. rewrite forallb_forall. split; intros H c Hc; specialize (H c Hc); lia. Qed.
Lemma blank_ok s : blank s <-> forallb xml_space s = true.
Proof. unfold blank, xml_space. rewrite forallb_forall. split; intros H c Hc; specialize (H c Hc); lia. Qed.
Fixpoint dec (acc : Z) (s : str) : Z := match s with [] => acc | c :: s' => dec (acc * 10 + Z.of_N (c - 48)) s' end.
Lemma dec_worth s : forall acc, figures s -> dec acc s = (acc * 10 ^ Z.of_nat (List.length s) + worth s)%Z.
Proof.
  induction s as [|c s IH]; intros acc H; cbn [dec worth List.length]; [change (Z.of_nat 0) with 0%Z; rewrite Z.pow_0_r; lia|].
  rewrite IH by (intros x Hx; apply H; now right). assert (C : 48 <= c <= 57) by (apply H; now left). rewrite Nat2Z.inj_succ, Z.pow_succ_r by lia. replace (Z.of_N (c - 48)) with (Z.of_N c - 48)%Z by lia. ring.
Qed.
Lemma dec_app a : forall acc b, dec acc (a ++ b) = dec (dec acc a) b.
Proof. induction a as [|c a IH]; intros acc b; cbn [app dec]; [reflexivity|apply IH]. Qed.
Lemma frac_run s : forall acc den seen, num_digits acc den seen true s = if forallb is_digit s && (seen || negb (match s with [] => true | _ => false end)) then Some (dec acc s, den * 10 ^ Z.of_nat (List.length s))%Z else None.
Proof.
  induction s as [|c s IH]; intros acc den seen; cbn [num_digits forallb dec List.length].
  - change (Z.of_nat 0) with 0%Z. rewrite Z.pow_0_r, Z.mul_1_r. destruct seen; reflexivity.
  - rewrite IH. destruct (is_digit c) eqn:Ec; [|cbn [negb andb]; rewrite andb_false_r; reflexivity]. cbn [negb orb andb]. rewrite !andb_true_r, orb_true_r, andb_true_r. rewrite Nat2Z.inj_succ, Z.pow_succ_r by lia. replace (den * 10 * 10 ^ Z.of_nat (List.length s))%Z with (den * (10 * 10 ^ Z.of_nat (List.length s)))%Z by ring. reflexivity.
Qed.
Lemma num_run s : forall acc seen n d, num_digits acc 1 seen false s = Some (n, d) <->
  exists a dot b, s = a ++ dot ++ b /\ figures a /\ figures b /\ (seen = true \/ a ++ b <> []) /\ (dot = [46] \/ dot = [] /\ b = []) /\ n = dec acc (a ++ b) /\ d = (10 ^ Z.of_nat (List.length b))%Z.
Proof.
  induction s as [|c s IH]; intros acc seen n d; cbn [num_digits].
  - split.
    + destruct seen; [|discriminate]. intros [= <- <-]. exists [], [], []. repeat apply conj; try reflexivity; try (intros ? []); try now left. right. now split.
    + intros (a & dot & b & E & _ & _ & S0 & D & -> & ->). symmetry in E. apply app_eq_nil in E as [-> E]. apply app_eq_nil in E as [-> ->]. cbn [app] in *. destruct S0 as [->|S0]; [reflexivity|congruence].
  - destruct (is_digit c) eqn:Ec.
    + rewrite IH. split.
      * intros (a & dot & b & -> & Fa & Fb & _ & D & -> & ->). exists (c :: a), dot, b. repeat apply conj; try reflexivity; try assumption; [|right; discriminate]. apply figures_ok. cbn [forallb]. rewrite Ec. now apply figures_ok.
      * intros (a & dot & b & E & Fa & Fb & _ & D & -> & ->). destruct a as [|x a].
        -- cbn [app] in E. destruct D as [->|[-> ->]]; [|discriminate E]. cbn [app] in E. injection E as -> _. discriminate Ec.
        -- injection E as <- ->. exists a, dot, b. repeat apply conj; try reflexivity; try assumption; [|now left]. intros y Hy. apply Fa. now right.
    + destruct (c =? 46) eqn:Ep; cbn [andb negb].
      * apply N.eqb_eq in Ep as ->. rewrite frac_run. split.
        -- destruct (forallb is_digit s && _) eqn:E; [|discriminate]. apply andb_true_iff in E as [F S0]. rewrite Z.mul_1_l. intros [= <- <-]. exists [], [46], s. repeat apply conj; try reflexivity; try (intros ? []); [now apply figures_ok| |now left]. destruct seen; [now left|]. right. cbn [app]. intros ->. discriminate S0.
        -- intros (a & dot & b & E & Fa & Fb & S0 & D & -> & ->). destruct a as [|x a]; [|injection E as <- _; exfalso; specialize (Fa 46 (or_introl eq_refl)); lia]. destruct D as [->|[-> ->]]; [|discriminate E]. injection E as <-. apply figures_ok in Fb. rewrite Fb. cbn [app] in *. assert (T : (seen || negb match s with [] => true | _ => false end) = true) by (destruct S0 as [->|S0]; [reflexivity|destruct s; [congruence|destruct seen; reflexivity]]). rewrite T. cbn [andb]. now rewrite Z.mul_1_l.
      * split; [discriminate|]. intros (a & dot & b & E & Fa & Fb & S0 & D & _). exfalso. destruct a as [|x a].
        -- destruct D as [->|[-> ->]]; [|discriminate E]. injection E as -> _. discriminate Ep.
        -- injection E as <- _. apply figures_ok in Fa. cbn [forallb] in Fa. rewrite Ec in Fa. discriminate Fa.
Qed.
(** Stripping *)
Lemma lstrip_split p s : exists l, s = l ++ lstrip p s /\ forallb p l = true.
Proof. induction s as [|c s IH]; [exists []; now split|]. cbn [lstrip]. destruct (p c) eqn:E; [|exists []; now split]. destruct IH as (l & El & Hl). exists (c :: l). split; [cbn [app]; now rewrite <- El|cbn [forallb]; now rewrite E, Hl]. Qed.
Lemma strip_split p s : exists l r, s = l ++ py_strip p s ++ r /\ forallb p l = true /\ forallb p r = true.
Proof.
  destruct (lstrip_split p s) as (l & El & Hl). unfold py_strip. destruct (lstrip_split p (rev (lstrip p s))) as (r & Er & Hr). exists l, (rev r). repeat apply conj; [|exact Hl|].
  - rewrite El at 1. f_equal. rewrite <- (rev_involutive (lstrip p s)) at 1. rewrite Er at 1. apply rev_app_distr.
  - apply forallb_forall. intros x Hx. apply in_rev in Hx. rewrite forallb_forall in Hr. now apply Hr.
Qed.
Theorem number_says s n d : to_num s = Some (n, d) <-> exists k, says s n k /\ d = (10 ^ Z.of_nat k)%Z.
Proof.
  unfold to_num. split.
  - intros H. destruct (strip_split xml_space s) as (l & r & Es & Hl & Hr). apply blank_ok in Hl. apply blank_ok in Hr. set (t := py_strip xml_space s) in *. clearbody t.
    assert (G : exists (minus : bool) t', t = (if minus then [45] else []) ++ t' /\ exists n', num_digits 0 1 false false t' = Some (n', d) /\ n = (if minus then - n' else n')%Z).
    { destruct t as [|c t]; [discriminate H|]. destruct (N.eq_dec c 45) as [->|Nc].
      - exists true, t. split; [reflexivity|]. destruct (num_digits 0 1 false false t) as [[n' d']|]; [|discriminate H]. injection H as <- <-. eexists. split; reflexivity.
      - exists false, (c :: t). split; [reflexivity|]. exists n. split; [|reflexivity]. destruct c as [|p]; [exact H|]. do 6 (try destruct p as [p|p|]; try exact H; try congruence). }
    destruct G as (minus & t' & -> & n' & G & ->). apply num_run in G as (a & dot & b & -> & Fa & Fb & S0 & D & -> & ->). exists (List.length b). split; [|reflexivity].
    exists l, minus, a, dot, b, r. repeat apply conj; try assumption; try reflexivity; [rewrite Es, <- !app_assoc; reflexivity|destruct S0; [discriminate|assumption]|].
    rewrite dec_worth by (intros x Hx; apply in_app_or in Hx as [Hx|Hx]; auto). reflexivity.
  - intros (k & (l & minus & a & dot & b & r & -> & Hl & Hr & Fa & Fb & Ne & D & -> & ->) & ->).
    assert (E : num_digits 0 1 false false (a ++ dot ++ b) = Some (worth (a ++ b), (10 ^ Z.of_nat (List.length b))%Z)).
    { apply num_run. exists a, dot, b. repeat apply conj; try assumption; try reflexivity; [now right|]. rewrite dec_worth by (intros x Hx; apply in_app_or in Hx as [Hx|Hx]; auto). reflexivity. }
    replace (l ++ (if minus then [45] else []) ++ a ++ dot ++ b ++ r) with (l ++ ((if minus then [45] else []) ++ a ++ dot ++ b) ++ r) by (rewrite <- !app_assoc; reflexivity).
    assert (Nb : forall c, In c (a ++ dot ++ b) -> 46 <= c <= 57).
    { intros c Hc. rewrite !in_app_iff in Hc. destruct Hc as [Hc|[Hc|Hc]]; [specialize (Fa c Hc); lia| |specialize (Fb c Hc); lia]. destruct D as [->|[-> _]]; [|destruct Hc]. destruct Hc as [<-|[]]. lia. }
    rewrite py_strip_pad; [|now apply blank_ok|now apply blank_ok|].
    + destruct minus; cbn [app]; [now rewrite E|]. destruct (a ++ dot ++ b) as [|c t] eqn:Et; [|assert (C : 46 <= c <= 57) by (apply Nb; now left)].
      * exfalso. apply Ne. apply app_eq_nil in Et as [-> Et]. apply app_eq_nil in Et as [_ ->]. reflexivity.
      * rewrite <- E. destruct c as [|p]; [reflexivity|]. do 6 (try destruct p as [p|p|]; try reflexivity). lia.
    + apply forallb_forall. intros c Hc. apply in_app_or in Hc as [Hc|Hc]; [destruct minus; [destruct Hc as [<-|[]]; reflexivity|destruct Hc]|]. specialize (Nb c Hc). unfold xml_space. lia.
Qed.
Lemma no_number_iff s : no_number s <-> to_num s = None.
Proof.
  split.
  - intros H. destruct (to_num s) as [[n d]|] eqn:E; [|reflexivity]. apply number_says in E as (k & E & _). destruct (H n k E).
  - intros H n k E. assert (X : to_num s = Some (n, (10 ^ Z.of_nat k)%Z)) by (apply number_says; eauto). congruence.
Qed.
(** The four orderings, as written in queries and as meant. *)
Inductive ordering := O_less | O_at_most | O_more | O_at_least.
Definition sign_of (o : ordering) : str := match o with O_less => $"<" | O_at_most => $"<=" | O_more => $">" | O_at_least => $">=" end.
Definition meant (o : ordering) (x y : Z) : Prop := match o with O_less => x < y | O_at_most => x <= y | O_more => y < x | O_at_least => y <= x end%Z.
(** [s] and [t] are numbers, and stand so to each other. *)
Definition stands (o : ordering) (s t : str) : Prop := exists n k m j, says s n k /\ says t m j /\ meant o (n * 10 ^ Z.of_nat j) (m * 10 ^ Z.of_nat k).
Definition cmp_of (o : ordering) : cmp := match o with O_less => C_lt | O_at_most => C_le | O_more => C_gt | O_at_least => C_ge end.
Lemma stands_ok o s t : stands o s t <-> num_cmp (cmp_of o) (to_num s) (to_num t) = true.
Proof.
  split.
  - intros (n & k & m & j & A & B & L). assert (X : to_num s = Some (n, (10 ^ Z.of_nat k)%Z)) by (apply number_says; eauto). assert (Y : to_num t = Some (m, (10 ^ Z.of_nat j)%Z)) by (apply number_says; eauto). rewrite X, Y. cbn [num_cmp]. cbv zeta. destruct o; cbn [meant cmp_of] in *; lia.
  - intros H. destruct (to_num s) as [[n d]|] eqn:X; [|destruct o; discriminate H]. destruct (to_num t) as [[m e]|] eqn:Y; [|destruct o; discriminate H]. apply number_says in X as (k & X & ->). apply number_says in Y as (j & Y & ->). exists n, k, m, j. split; [exact X|]. split; [exact Y|]. cbn [num_cmp] in H. cbv zeta in H. destruct o; cbn [meant cmp_of] in *; lia.
Qed.
(** *** The queries [*[.>"v"]] and so on *)
Definition order_q (o : ordering) (v : str) : expr := E_cmp (cmp_of o) (E_path false [Step A_self NT_node []]) (E_lit v).
Lemma order_parse o v : quotefree v -> parse_xpath ($"*[." ++ sign_of o ++ [34] ++ v ++ [34] ++ $"]") = Ok (E_path false [Step A_child NT_any [order_q o v]]).
Proof.
  intros Q. pose (T := match o with O_less => T_lt | O_at_most => T_le | O_more => T_gt | O_at_least => T_ge end).
  unfold parse_xpath. rewrite (lexes_lex _ [T_star; T_lb; T_dot; T; T_lit v; T_rb]); [destruct o; vm_compute; reflexivity|].
  intros out. pose proof (lexes_quoted v Q (T :: T_dot :: T_lb :: T_star :: out)) as H. cbn [app fold_left] in H. change (lex_step (L0, T :: T_dot :: T_lb :: T_star :: out) 34) with (L_dq [], T :: T_dot :: T_lb :: T_star :: out) in H. rewrite fold_left_app in H. cbn [fold_left] in H.
  rewrite !fold_left_app. assert (E : fold_left lex_step [34] (fold_left lex_step (sign_of o) (fold_left lex_step $"*[." (L0, out))) = (L_dq [], T :: T_dot :: T_lb :: T_star :: out)) by (destruct o; reflexivity). rewrite E. cbn [fold_left]. rewrite H. reflexivity.
Qed.
Lemma order_eval o R w (Hw : wok w) n v i z : In n (w_nodes w) -> eval R w (order_q o v) (Cx (XEl n) i z) = Ok (V_bool (num_cmp (cmp_of o) (to_num (whole_text (nd_el n))) (to_num v))).
Proof.
  intros Hn. change (eval R w (order_q o v) (Cx (XEl n) i z)) with (let* x := eval R w (E_path false [Step A_self NT_node []]) (Cx (XEl n) i z) in let* y := Ok (V_str v) in Ok (V_bool (value_cmp w (cmp_of o) x y))).
  rewrite eval_path. cbn [start_of cx_node eval_steps mapM axis_nodes filter test_ok eval_preds bind List.concat app]. change [XEl n] with (map XEl [n]). rewrite in_order_els, (norder_one w Hw n Hn); [|now intros m [->|[]]|discriminate].
  rewrite <- whole_text_value. cbn [map bind value_cmp existsb xstr]. rewrite orb_false_r. destruct o; reflexivity.
Qed.
Theorem order_found o R d t v : wf d -> has_elem d t -> quotefree v -> forallb xml_char v = true -> exists es, picks (fun e => stands o (whole_text e) v) (ekids t) es /\
  user_xpath R ($"*[." ++ sign_of o ++ [34] ++ v ++ [34] ++ $"]") (Some (eid t)) false false d = (Ok (A_list (map H_elem (map eid es))), d).
Proof.
  intros H Ht Q Xv. pose (gt := fun e : elem => num_cmp (cmp_of o) (to_num (whole_text e)) (to_num v)). exists (filter gt (ekids t)). split; [apply picks_filter; intros x _; unfold gt; symmetry; apply stands_ok|].
  unfold has_elem in Ht. rewrite elements_fpre in Ht. apply in_map_iff in Ht as (n & <- & Hn). pose proof (proj1 (unique_fpre _) (proj1 (proj2 H))) as Hu.
  destruct (locate_spec (d_forest d) true n Hu Hn) as (b & r & E & Hr & Hnt). pose proof (wok_of (d_forest d) b r Hu Hr) as Hw.
  unfold user_xpath, lift, xpath_raw. rewrite !forallb_app, Xv. change (forallb xml_char $"*[.") with true. assert (Xo : forallb xml_char (sign_of o) = true) by (destruct o; reflexivity). rewrite Xo. change (forallb xml_char [34]) with true. change (forallb xml_char $"]") with true. cbn [andb].
  rewrite order_parse by exact Q. cbn [bind]. unfold context. fold (nid n). rewrite E. rewrite eval_path. cbn [start_of cx_node eval_steps mapM]. cbn [axis_nodes].
  assert (F : filter (test_ok A_child NT_any) (text_nodes n ++ map XEl (kid_nodes n)) = map XEl (kid_nodes n)).
  { rewrite filter_app. unfold text_nodes. assert (F1 : filter (test_ok A_child NT_any) (map XEl (kid_nodes n)) = map XEl (kid_nodes n)) by (induction (kid_nodes n) as [|k l IH]; [reflexivity|cbn; now rewrite IH]). rewrite F1. destruct (etext (nd_el n)); reflexivity. }
  rewrite F. cbn [eval_preds]. set (g := fun x => match x with XEl m => gt (nd_el m) | _ => false end).
  assert (I : incl (kid_nodes n) (w_nodes (World b r))).
  { intros m Hm. unfold kid_nodes in Hm. apply in_map_iff in Hm as (k & <- & Hk). unfold w_nodes. apply pre_kid; [exact Hnt|exact Hk]. }
  rewrite (filterM_ok _ g).
  - cbn [bind List.concat]. rewrite app_nil_r. assert (G : filter g (map XEl (kid_nodes n)) = map XEl (filter (fun m => gt (nd_el m)) (kid_nodes n))).
    { clear. induction (kid_nodes n) as [|k l IH]; [reflexivity|]. cbn [map filter g]. rewrite IH. now destruct (gt _). }
    rewrite G, in_order_els. rewrite norder_subseq; [|exact Hw|].
    + cbn [bind]. rewrite hits_els. cbn [bind]. rewrite concat_one. do 4 f_equal. unfold kid_nodes. clear. generalize (nd_el n :: nd_up n). intros u. induction (ekids (nd_el n)) as [|k l IH]; [reflexivity|]. cbn [map filter nd_el]. destruct (gt _); cbn [map]; [f_equal|]; exact IH.
    + eapply subseq_trans; [apply subseq_filter|]. eapply subseq_trans; [apply kid_nodes_subseq|]. unfold w_nodes. apply pre_sub_subseq. exact Hnt.
  - intros i x Hx. apply in_map_iff in Hx as (m & <- & Hm). rewrite (order_eval o R (World b r) Hw m v) by (apply I, Hm). reflexivity.
Qed.
