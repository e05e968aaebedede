(** Searches by path where the names are patterns (regex=True, pykeepass.py:386-400 with xpath.py:12-21), and without.  Models no code: facts about Db.find_entries, Db.find_groups. *)
From Verif Require Import Base Base64 PyStr Xml Tree XPath Db Uuid XPath_parse XPath_facts XPath_eval FindSpec Find_facts Find_path Find_more.

(** *** What such a search should return, on plain trees *)
Section Spec.
  (** [M v o]: a text [o] answers the part [v] of the path. *)
  Variable M : str -> option str -> Prop.
  Inductive leads_by : list str -> elem -> elem -> Prop :=
  | leads_by_here t : leads_by [] t t
  | leads_by_down n p t g u : In g (ekids t) -> etag g = $"Group" -> kid_with $"Name" (text_meets (M n)) g -> leads_by p g u -> leads_by (n :: p) t u.
  Definition entry_by (root : elem) (groups : list str) (title : str) (t : elem) : Prop :=
    exists rg g, root_group root rg /\ leads_by groups rg g /\ In t (ekids g) /\ etag t = $"Entry" /\ has_field (M title) $"Title" t.
  Definition group_by (root : elem) (names : list str) (t : elem) : Prop := exists rg, root_group root rg /\ leads_by names rg t.
End Spec.
Definition flags_plain (q : query) : Prop := match q_flags q with Some s => plain s | None => True end.
Definition answer (R : regex) (q : query) (v : str) (o : option str) : Prop := matches R (q_regex q) (ignore_case (q_flags q)) v o.

Lemma plain_flags q : flags_plain q -> plain (py_str_opt (q_flags q)).
Proof. unfold flags_plain. destruct (q_flags q); [auto|intros _; apply plain_none]. Qed.

Section Path.
  Variable R : regex.
  Variable rx : bool.
  Variable fl : str.
  Hypothesis Hfl : plain fl.
  Definition rg (n : str) : seg := ($"Group", [c_val R rx fl $"Name" n]).
  Definition re (v : str) : seg := ($"Entry", [c_field R rx fl $"Title" v]).
  Lemma rg_piece n : plain n -> piece (fmt (path_group_xp rx) [n] fl) (seg_steps (rg n)).
  Proof.
    intros Hn. assert (P : piece ($"/Group/Name[" ++ inner rx n fl $"/..") ([kid $"Group" []] ++ kid $"Name" [val_e rx n fl] :: [XPath_parse.up])).
    { apply (piece_val rx n fl $"Name" _ _ [T_slash; T_name $"Group"] _ [T_slash; T_ddot]); try assumption; [lex_done|apply block_kid|lex_done|apply block_up|reflexivity|reflexivity|discriminate]. }
    replace (fmt (path_group_xp rx) [n] fl) with ($"/Group/Name[" ++ inner rx n fl $"/.."); [exact P|]. destruct rx; reflexivity.
  Qed.
  Lemma re_piece v : plain v -> piece (fmt (path_entry_xp rx) [v] fl) (seg_steps (re v)).
  Proof.
    intros Hv. assert (P : piece ($"/Entry/String/Key[text()=""Title""]/../Value[" ++ inner rx v fl $"/../..") ([kid $"Entry" []; kid $"String" []; kid $"Key" [text_is $"Title"]; XPath_parse.up] ++ kid $"Value" [val_e rx v fl] :: [XPath_parse.up; XPath_parse.up])).
    { apply (piece_val rx v fl $"Value" _ _ (T_slash :: T_name $"Entry" :: T_slash :: T_name $"String" :: T_slash :: T_name $"Key" :: t_text_is $"Title" ++ [T_slash; T_ddot]) _ [T_slash; T_ddot; T_slash; T_ddot]); try assumption; [lex_done| |lex_done| |reflexivity|reflexivity|discriminate].
      - apply (block_cons [T_slash; T_name $"Entry"]); [apply block_kid|]. apply (block_cons [T_slash; T_name $"String"]); [apply block_kid|]. apply (block_cons (T_slash :: T_name $"Key" :: t_text_is $"Title")); [apply block_text|apply block_up].
      - apply (block_cons [T_slash; T_ddot]); [apply block_up|apply block_up]. }
    replace (fmt (path_entry_xp rx) [v] fl) with ($"/Entry/String/Key[text()=""Title""]/../Value[" ++ inner rx v fl $"/../.."); [exact P|]. destruct rx; reflexivity.
  Qed.
  Lemma rgs_piece names : Forall plain names -> piece (flat_map (fun g => fmt (path_group_xp rx) [g] fl) names) (flat_map seg_steps (map rg names)).
  Proof. intros H. rewrite flat_one. apply piece_flat. intros n Hn. rewrite Forall_forall in H. apply rg_piece, H, Hn. Qed.
  Let M (v : str) (o : option str) : Prop := matches R rx (substr_in [105] fl) v o.
  Lemma rg_test n k : seg_test (rg n) k = true <-> etag (nd_el k) = $"Group" /\ kid_with $"Name" (text_meets (M n)) (nd_el k).
  Proof. unfold seg_test, rg, tagged. cbn [fst snd]. rewrite andb_true_iff, str_eqb_eq, hold_one, holds_val. reflexivity. Qed.
  Lemma re_test v k : seg_test (re v) k = true <-> etag (nd_el k) = $"Entry" /\ has_field (M v) $"Title" (nd_el k).
  Proof. unfold seg_test, re, tagged. cbn [fst snd]. rewrite andb_true_iff, str_eqb_eq, hold_one, holds_field. reflexivity. Qed.
  Lemma down_by names : forall m n, down (map rg names) m n -> leads_by M names (nd_el m) (nd_el n).
  Proof.
    induction names as [|a names IH]; intros m n; cbn [map down].
    - intros ->. constructor.
    - intros (k & Hk & Ht & H). apply kid_nodes_In in Hk as [Hk _]. apply rg_test in Ht as [Ht1 Ht2]. econstructor; [exact Hk|exact Ht1|exact Ht2|apply IH, H].
  Qed.
  Lemma by_down names t u : leads_by M names t u -> forall m, nd_el m = t -> exists n, down (map rg names) m n /\ nd_el n = u.
  Proof.
    induction 1 as [t|a p t g u Hg Hn1 Hn2 Hl IH]; intros m Em.
    - exists m. split; [reflexivity|exact Em].
    - subst t. destruct (IH (Nd g (nd_el m :: nd_up m)) eq_refl) as (n & Hd & En). exists n. split; [|exact En]. cbn [map down]. exists (Nd g (nd_el m :: nd_up m)). split; [apply kid_nodes_In; auto|]. split; [apply rg_test; auto|exact Hd].
  Qed.
  (** The result of an absolute path query. *)
  Lemma path_eval_by d t F' s segs : d_forest d = t :: F' -> unique (d_forest d) -> piece s (flat_map seg_steps segs) ->
    Forall (fun x : seg => exists n, pat R rx fl n /\ (x = rg n \/ x = re n)) segs ->
    xpath_cast R d None ($"/KeePassFile/Root/Group" ++ s) = mapM cast (walk (tl head_segs ++ segs) (filter (seg_test ($"KeePassFile", [])) [Nd t []])).
  Proof.
    intros EF Hu Hp Hs. destruct (path_parse s segs Hp) as [Pp Px]. set (w := World true t). assert (Hw : wok w) by (apply (wok_of (d_forest d)); [apply unique_fpre, Hu|rewrite EF; left; reflexivity]).
    unfold xpath_cast, xpath, xpath_raw. rewrite Px, Pp. cbn [bind]. assert (Hc : context (d_forest d) None = Some (w, Nd t [])) by (unfold context; rewrite EF; reflexivity). rewrite Hc.
    assert (Hok : Forall (fun s => crits_ok R w (snd s)) (head_segs ++ segs)).
    { apply Forall_app. split; [repeat (constructor; [constructor|]); constructor|]. eapply Forall_impl; [|exact Hs]. intros x (n & Hn & [->| ->]); (constructor; [|constructor]); [now apply c_val_ok|now apply c_field_ok]. }
    assert (E : eval R w (E_path true (flat_map seg_steps (head_segs ++ segs))) (Cx (XEl (Nd t [])) 1 1) = Ok (V_set (map XEl (walk (tl head_segs ++ segs) (filter (seg_test ($"KeePassFile", [])) [Nd (w_root w) []]))))).
    { change (head_segs ++ segs) with (($"KeePassFile", []) :: (tl head_segs ++ segs)). apply search_path; [exact Hw|reflexivity|exact Hok]. }
    rewrite E. cbn [bind]. unfold w. cbn [w_root]. set (l := walk _ _). rewrite (mapM_ok as_node (fun x => match x with XEl n => n | _ => Nd t [] end)) by (intros x Hx; apply in_map_iff in Hx as (m & <- & _); reflexivity).
    rewrite map_map, map_id. reflexivity.
  Qed.
  Lemma groups_fmt names : flat_map (fun g => fmt (path_group_xp rx) [py_str_opt g] fl) (map Some names) = flat_map (fun g => fmt (path_group_xp rx) [g] fl) names.
  Proof. rewrite flat_one. reflexivity. Qed.
End Path.

Lemma leads_by_group M names : forall t u, leads_by M names t u -> etag t = $"Group" -> etag u = $"Group".
Proof. induction 1 as [t|a p t g u Hg Hn1 Hn2 Hl IH]; auto. Qed.
Lemma pat_of R q v : pattern_ok R q v -> pat R (q_regex q) (py_str_opt (q_flags q)) v.
Proof. intros H. unfold pat, pattern_ok in *. now rewrite flags_ic. Qed.

Lemma entries_by_path R d q rec groups title t F' : d_forest d = t :: F' -> unique (d_forest d) -> q_tree q = None -> flags_plain q ->
  q_path q = Some (map Some (groups ++ [title])) -> Forall (fun v => plain v /\ pattern_ok R q v) (groups ++ [title]) ->
  exists l, picks (entry_by (answer R q) t groups title) (everything t) l /\ find_entries R d rec q = Ok (map (fun e => R_entry (eid e)) l) /\
    forall first, give first q (find_entries R d rec q) = Ok (F_one (match l with [] => None | e :: _ => Some (R_entry (eid e)) end)).
Proof.
  intros EF Hu Hq Hfl Hp Hpl. apply plain_flags in Hfl. apply Forall_app in Hpl as [Hg Ht]. inversion Ht as [|? ? [Htt Htp] _]; subst.
  set (fl := py_str_opt (q_flags q)) in *. set (rx := q_regex q) in *. set (segs := map (rg R rx fl) groups ++ [re R rx fl title]). set (l := map nd_el (walk (tl head_segs ++ segs) (filter (seg_test ($"KeePassFile", [])) [Nd t []]))).
  assert (Hin : forall n, In n (walk (tl head_segs ++ segs) (filter (seg_test ($"KeePassFile", [])) [Nd t []])) -> entry_by (answer R q) t groups title (nd_el n)).
  { intros n Hn. apply head_In in Hn as (Et & r & g & Hr' & Tr & Hg' & Tg & Hd). unfold segs in Hd. apply down_app in Hd as (k & Hd & Hk). cbn [down] in Hk. destruct Hk as (k' & Hk & Tk & ->). apply kid_nodes_In in Hk as [Hk _]. apply re_test in Tk as [Tk Fk].
    apply down_by in Hd. unfold rx, fl in Hd, Fk. rewrite flags_ic in Hd, Fk. exists g, (nd_el k). split; [split; [exact Et|exists r; auto]|]. split; [exact Hd|]. auto. }
  assert (E : find_entries R d rec q = Ok (map (fun e => R_entry (eid e)) l)).
  { unfold find_entries, find, find_xp. rewrite Hp, map_app. cbn [map]. rewrite removelast_snoc, last_snoc. fold fl. fold rx. rewrite groups_fmt. cbn [py_str_opt].
    replace (substr_in $"Entry" _) with true by (destruct rec, (q_history q); reflexivity). cbn [bind]. rewrite <- app_assoc, Hq.
    rewrite (path_eval_by R rx fl d t F' _ segs EF Hu).
    - apply mapM_cast. intros n Hn. apply cast_entry. apply Hin in Hn as (rg & g & _ & _ & _ & H & _). exact H.
    - unfold segs. rewrite flat_map_app. apply piece_app; [apply rgs_piece; [exact Hfl|eapply Forall_impl; [|exact Hg]; intros x [Hx _]; exact Hx]|cbn [flat_map]; rewrite app_nil_r; apply re_piece; assumption].
    - unfold segs. apply Forall_app. split; [|constructor; [|constructor]].
      + rewrite Forall_forall in *. intros x Hx. apply in_map_iff in Hx as (n & <- & Hn). exists n. split; [apply pat_of, Hg, Hn|left; reflexivity].
      + exists title. split; [apply pat_of, Htp|right; reflexivity]. }
  exists l. split; [|split; [exact E|]].
  - apply (path_picks d t F'); [exact EF|exact Hu|exact Hin|]. intros e (r0 & g & (Et & r & Hr' & Tr & Hg' & Tg) & Hl & Hk & Te & Fe). unfold answer in Hl, Fe. rewrite <- flags_ic in Hl, Fe.
    destruct (by_down R rx fl groups r0 g Hl (Nd r0 [r; t]) eq_refl) as (m & Hd & Em). exists (Nd e (nd_el m :: nd_up m)). split; [|reflexivity]. apply head_In. split; [exact Et|]. exists r, r0. repeat (split; [assumption|]).
    unfold segs. apply down_app. exists m. split; [exact Hd|]. cbn [down]. exists (Nd e (nd_el m :: nd_up m)). split; [apply kid_nodes_In; cbn; rewrite Em; auto|]. split; [apply re_test; auto|reflexivity].
  - intros first. rewrite E. apply (give_path q _ (fun t => R_entry (eid t)) l first Hp).
Qed.
Lemma groups_by_path R d q rec names t F' : d_forest d = t :: F' -> unique (d_forest d) -> q_tree q = None -> flags_plain q ->
  q_path q = Some (map Some names) -> Forall (fun v => plain v /\ pattern_ok R q v) names -> last names [1] <> [] ->
  exists l, picks (group_by (answer R q) t names) (everything t) l /\ find_groups R d rec q = Ok (map (fun e => R_group (eid e)) l) /\
    forall first, give first q (find_groups R d rec q) = Ok (F_one (match l with [] => None | e :: _ => Some (R_group (eid e)) end)).
Proof.
  intros EF Hu Hq Hfl Hp Hpl Hlast. apply plain_flags in Hfl. set (fl := py_str_opt (q_flags q)) in *. set (rx := q_regex q) in *. set (segs := map (rg R rx fl) names). set (l := map nd_el (walk (tl head_segs ++ segs) (filter (seg_test ($"KeePassFile", [])) [Nd t []]))).
  assert (Hin : forall n, In n (walk (tl head_segs ++ segs) (filter (seg_test ($"KeePassFile", [])) [Nd t []])) -> group_by (answer R q) t names (nd_el n)).
  { intros n Hn. apply head_In in Hn as (Et & r & g & Hr' & Tr & Hg' & Tg & Hd). apply down_by in Hd. unfold rx, fl in Hd. rewrite flags_ic in Hd. exists g. split; [split; [exact Et|exists r; auto]|exact Hd]. }
  assert (E : find_groups R d rec q = Ok (map (fun e => R_group (eid e)) l)).
  { unfold find_groups, find, find_xp. rewrite Hp. fold fl. fold rx.
    replace (substr_in $"Entry" _) with false by (destruct rec, (q_history q); reflexivity).
    replace (substr_in $"Group" _) with true by (destruct rec, (q_history q); reflexivity). cbn [bind]. rewrite Hq.
    match goal with |- xpath_cast R d None ?x = _ => assert (Etxt : x = $"/KeePassFile/Root/Group" ++ flat_map (fun g => fmt (path_group_xp rx) [g] fl) names) end.
    { clear - Hlast. destruct names as [|a names] using rev_ind; [reflexivity|]. clear IHnames. rewrite last_last in Hlast.
      rewrite map_app. cbn [map]. rewrite removelast_snoc, last_snoc. destruct a as [|c a]; [now destruct Hlast|]. cbn [py_str_opt]. rewrite groups_fmt, <- app_assoc. f_equal. rewrite flat_map_app. cbn [flat_map]. rewrite app_nil_r. reflexivity. }
    rewrite Etxt, (path_eval_by R rx fl d t F' _ segs EF Hu).
    - apply mapM_cast. intros n Hn. apply cast_group. apply Hin in Hn as (r0 & (_ & r & _ & _ & _ & H) & Hl). exact (leads_by_group _ _ _ _ Hl H).
    - apply rgs_piece; [exact Hfl|]. eapply Forall_impl; [|exact Hpl]; intros x [Hx _]; exact Hx.
    - unfold segs. rewrite Forall_forall in *. intros x Hx. apply in_map_iff in Hx as (n & <- & Hn). exists n. split; [apply pat_of, Hpl, Hn|left; reflexivity]. }
  exists l. split; [|split; [exact E|]].
  - apply (path_picks d t F'); [exact EF|exact Hu|exact Hin|]. intros e (r0 & (Et & r & Hr' & Tr & Hg' & Tg) & Hl). unfold answer in Hl. rewrite <- flags_ic in Hl.
    destruct (by_down R rx fl names r0 e Hl (Nd r0 [r; t]) eq_refl) as (m & Hd & Em). exists m. split; [|exact Em]. apply head_In. split; [exact Et|]. exists r, r0. auto 10.
  - intros first. rewrite E. apply (give_path q _ (fun t => R_group (eid t)) l first Hp).
Qed.
