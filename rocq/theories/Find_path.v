(** Searches by path, and the searches of FindSpec.v for entries, groups and attachments. *)
From Verif Require Import Base Base64 PyStr Xml Tree XPath Db Uuid XPath_parse XPath_facts XPath_eval FindSpec Find_facts.

(** *** By criteria *)
Lemma mapM_cast mk l : (forall n, In n l -> cast n = Ok (mk (nid n))) -> mapM cast l = Ok (map (fun t => mk (eid t)) (map nd_el l)).
Proof. intros H. rewrite (mapM_ok cast (fun n => mk (nid n)) l H), map_map. reflexivity. Qed.
Lemma picks_In {A} (P : A -> Prop) l m x : picks P l m -> In x m -> In x l /\ P x.
Proof. induction 1; cbn; [tauto| |]; intuition (subst; auto). Qed.
Lemma cast_entry n : etag (nd_el n) = $"Entry" -> cast n = Ok (R_entry (nid n)).
Proof. intros H. unfold cast. rewrite H. reflexivity. Qed.
Lemma cast_group n : etag (nd_el n) = $"Group" -> cast n = Ok (R_group (nid n)).
Proof. intros H. unfold cast. rewrite H. reflexivity. Qed.
Lemma flags_plain q : match q_flags q with Some s => plain s | None => True end -> plain (py_str_opt (q_flags q)).
Proof. destruct (q_flags q); [auto|intros _; apply plain_none]. Qed.
Ltac tagok := repeat split; reflexivity.

Theorem find_entries_spec R d q rec cand : unique (d_forest d) -> usable entry_keys R q -> searched (d_forest d) (q_tree q) rec cand ->
  exists l, picks (answers $"Entry" entry_key R (d_forest d) q) cand l /\ find_entries R d rec q = Ok (map (fun t => R_entry (eid t)) l).
Proof.
  intros Hu Hq Hs. pose proof Hq as (_ & Hf & _ & _). apply flags_plain in Hf.
  destruct (find_generic R d q $"Entry" entry_keys entry_xp (entry_crit R (q_regex q) (py_str_opt (q_flags q))) entry_key) with (rec := rec) (cand := cand) as (cn & l & E & Hin & Hp & Ef); try assumption; try tagok.
  - split; [intros k v Hk Ht Hv; apply entry_piece; assumption|intros _; destruct (q_regex q); reflexivity].
  - right. intros f v H1 H2. apply string_piece; assumption.
  - intros w k v Hw Hpat. apply entry_crit_ok; assumption.
  - intros k v t Hk Ht _ _. apply entry_crit_holds; assumption.
  - exists (map nd_el l). split; [rewrite <- E; apply picks_map, Hp|]. unfold find_entries.
    transitivity (mapM cast l); [destruct rec; exact Ef|]. apply mapM_cast.
    intros n Hn. apply cast_entry. destruct (picks_In _ _ _ _ Hp Hn) as [_ H]. apply H.
Qed.
Theorem find_groups_spec R d q rec cand : unique (d_forest d) -> usable group_keys R q -> q_string q = [] -> searched (d_forest d) (q_tree q) rec cand ->
  exists l, picks (answers $"Group" group_key R (d_forest d) q) cand l /\ find_groups R d rec q = Ok (map (fun t => R_group (eid t)) l).
Proof.
  intros Hu Hq Hst Hs. pose proof Hq as (_ & Hf & _ & _). apply flags_plain in Hf.
  destruct (find_generic R d q $"Group" group_keys group_xp (group_crit R (q_regex q) (py_str_opt (q_flags q))) group_key) with (rec := rec) (cand := cand) as (cn & l & E & Hin & Hp & Ef); try assumption; try tagok.
  - split; [intros k v Hk Ht Hv; apply group_piece; assumption|intros H; cbn in H; intuition discriminate].
  - left. exact Hst.
  - intros w k v Hw Hpat. apply group_crit_ok; assumption.
  - intros k v t Hk Ht _ _. apply group_crit_holds; assumption.
  - exists (map nd_el l). split; [rewrite <- E; apply picks_map, Hp|]. unfold find_groups.
    transitivity (mapM cast l); [destruct rec; exact Ef|]. apply mapM_cast.
    intros n Hn. apply cast_group. destruct (picks_In _ _ _ _ Hp Hn) as [_ H]. apply H.
Qed.
(** Attachments: every Binary found must be the child of an entry (the others make [cast] raise). *)
Theorem find_attachments_spec R d q rec cand : unique (d_forest d) -> usable attachment_keys R q -> q_string q = [] -> searched (d_forest d) (q_tree q) rec cand ->
  (forall t x, In t (elements (d_forest d)) -> etag t = $"Binary" -> In x (ekids t) -> NoDup (map fst (eattrs x)) /\ (etag x = $"Value" -> attr_of $"Ref" x <> None)) ->
  (forall t, In t cand -> answers $"Binary" attachment_key R (d_forest d) q t -> exists e, In e (elements (d_forest d)) /\ etag e = $"Entry" /\ In t (ekids e)) ->
  exists l, picks (answers $"Binary" attachment_key R (d_forest d) q) cand l /\ find_attachments R d rec q = Ok (map (fun t => R_att (eid t)) l).
Proof.
  intros Hu Hq Hst Hs Href Hpar. pose proof Hq as (_ & Hf & _ & _). apply flags_plain in Hf.
  destruct (find_generic R d q $"Binary" attachment_keys attachment_xp (attachment_crit R (q_regex q) (py_str_opt (q_flags q))) attachment_key) with (rec := rec) (cand := cand) as (cn & l & E & Hin & Hp & Ef); try assumption; try tagok.
  - split; [intros k v Hk Ht Hv; apply attachment_piece; assumption|intros H; cbn in H; intuition discriminate].
  - left. exact Hst.
  - intros w k v Hw Hpat. apply attachment_crit_ok; assumption.
  - intros k v t Hk _ Ht HT. apply attachment_crit_holds; [exact Hk|intros x Hx; apply (Href t x Ht HT Hx)|intros _ x Hx Hv; apply (Href t x Ht HT Hx), Hv].
  - exists (map nd_el l). split; [rewrite <- E; apply picks_map, Hp|]. unfold find_attachments.
    transitivity (mapM cast l); [destruct rec; exact Ef|]. apply mapM_cast.
    intros n Hn. destruct (picks_In _ _ _ _ Hp Hn) as [Hc H]. pose proof H as (HT & _). unfold cast. rewrite HT. change (str_eqb $"Binary" $"Entry") with false. change (str_eqb $"Binary" $"Group") with false. change (str_eqb $"Binary" $"Binary") with true. cbv iota.
    destruct (Hpar (nd_el n)) as (e & He & HE & Hk); [rewrite <- E; apply in_map, Hc|exact H|].
    rewrite elements_fpre in He. apply in_map_iff in He as (m & Em & Hm). subst e.
    assert (n = Nd (nd_el n) (nd_el m :: nd_up m)).
    { apply (NoDup_map_inj nid (fpre (d_forest d))); [apply unique_fpre, Hu|apply Hin, Hc| |reflexivity].
      apply in_flat_map in Hm as (t & Ht & Hm). apply in_flat_map. exists t. split; [exact Ht|]. apply pre_kid; assumption. }
    rewrite H0. cbn [nd_up]. rewrite HE. reflexivity.
Qed.

(** *** By path *)
Section Path.
  Variable R : regex.
  Let fl := $"None".
  Lemma group_seg_piece n fl' : plain n -> plain fl' -> piece (fmt (path_group_xp false) [n] fl') (seg_steps ($"Group", [c_val R false fl' $"Name" n])).
  Proof.
    intros Hn Hf. assert (P : piece ($"/Group/Name[" ++ inner false n fl' $"/..") ([kid $"Group" []] ++ kid $"Name" [val_e false n fl'] :: [XPath_parse.up])).
    { apply (piece_val false n fl' $"Name" _ _ [T_slash; T_name $"Group"] _ [T_slash; T_ddot]); try assumption; [lex_done|apply block_kid|lex_done|apply block_up|reflexivity|reflexivity|discriminate]. }
    exact P.
  Qed.
  Lemma entry_seg_piece v fl' : plain v -> plain fl' -> piece (fmt (path_entry_xp false) [v] fl') (seg_steps ($"Entry", [c_field R false fl' $"Title" v])).
  Proof.
    intros Hv Hf. assert (P : piece ($"/Entry/String/Key[text()=""Title""]/../Value[" ++ inner false v fl' $"/../..") ([kid $"Entry" []; kid $"String" []; kid $"Key" [text_is $"Title"]; XPath_parse.up] ++ kid $"Value" [val_e false v fl'] :: [XPath_parse.up; XPath_parse.up])).
    { apply (piece_val false v fl' $"Value" _ _ (T_slash :: T_name $"Entry" :: T_slash :: T_name $"String" :: T_slash :: T_name $"Key" :: t_text_is $"Title" ++ [T_slash; T_ddot]) _ [T_slash; T_ddot; T_slash; T_ddot]); try assumption; [lex_done| |lex_done| |reflexivity|reflexivity|discriminate].
      - apply (block_cons [T_slash; T_name $"Entry"]); [apply block_kid|]. apply (block_cons [T_slash; T_name $"String"]); [apply block_kid|]. apply (block_cons (T_slash :: T_name $"Key" :: t_text_is $"Title")); [apply block_text|apply block_up].
      - apply (block_cons [T_slash; T_ddot]); [apply block_up|apply block_up]. }
    exact P.
  Qed.
  Definition head_segs : list seg := [($"KeePassFile", []); ($"Root", []); ($"Group", [])].
  Lemma path_parse s segs : piece s (flat_map seg_steps segs) -> parse_xpath ($"/KeePassFile/Root/Group" ++ s) = Ok (E_path true (flat_map seg_steps (head_segs ++ segs))) /\ forallb xml_char ($"/KeePassFile/Root/Group" ++ s) = true.
  Proof.
    intros (Hn & Hx & ts & Hl & Hb). split; [|now rewrite forallb_app, Hx].
    rewrite flat_map_app. change (flat_map seg_steps head_segs ++ flat_map seg_steps segs) with (kid $"KeePassFile" (hist_ps true) :: ([kid $"Root" []; kid $"Group" []] ++ flat_map seg_steps segs)).
    apply (parse_child _ $"KeePassFile" true ([T_slash; T_name $"Root"; T_slash; T_name $"Group"] ++ ts)).
    - unfold lex. rewrite fold_left_app. change (fold_left lex_step $"/KeePassFile/Root/Group" (L0, [])) with (L_name (rev $"Group"), [T_slash; T_name $"Root"; T_slash; T_name $"KeePassFile"; T_slash]).
      rewrite lex_after_name by exact Hn. rewrite Hl. cbn [lex_finish]. rewrite rev_app_distr, (rev_involutive ts). reflexivity.
    - apply block_app; [|exact Hb]. apply (block_cons [T_slash; T_name $"Root"]); apply block_kid.
  Qed.
  Lemma segs_ok w segs : wok w -> Forall (fun s : seg => exists n, snd s = [c_val R false fl $"Name" n] \/ snd s = [c_field R false fl $"Title" n]) segs -> Forall (fun s => crits_ok R w (snd s)) (head_segs ++ segs).
  Proof.
    intros Hw H. apply Forall_app. split; [repeat (constructor; [constructor|]); constructor|]. eapply Forall_impl; [|exact H]. intros [T cs] (n & [E|E]); cbn [snd] in *; subst cs; (constructor; [|constructor]).
    - apply c_val_ok; [exact Hw|intros; discriminate].
    - apply c_field_ok; [exact Hw|intros; discriminate].
  Qed.
End Path.

(** The positions reached. *)
Fixpoint down (ss : list seg) (m n : node) : Prop :=
  match ss with [] => n = m | s :: ss' => exists k, In k (kid_nodes m) /\ seg_test s k = true /\ down ss' k n end.
Lemma walk_In segs : forall l n, In n (walk segs l) <-> exists m, In m l /\ down segs m n.
Proof.
  induction segs as [|s segs IH]; intros l n; cbn [walk].
  - split; [intros H; exists n; split; [exact H|reflexivity]|intros (m & Hm & ->); exact Hm].
  - rewrite IH. split.
    + intros (k & Hk & H). apply filter_In in Hk as [Hk Ht]. apply in_flat_map in Hk as (m & Hm & Hk). exists m. split; [exact Hm|]. exists k. auto.
    + intros (m & Hm & k & Hk & Ht & H). exists k. split; [|exact H]. apply filter_In. split; [|exact Ht]. apply in_flat_map. exists m. auto.
Qed.
Lemma down_app a b : forall m n, down (a ++ b) m n <-> exists k, down a m k /\ down b k n.
Proof.
  induction a as [|s a IH]; intros m n; cbn [app down].
  - split; [intros H; exists m; split; [reflexivity|exact H]|intros (k & -> & H); exact H].
  - split.
    + intros (k & Hk & Ht & H). apply IH in H as (j & H1 & H2). exists j. split; [exists k; auto|exact H2].
    + intros (j & (k & Hk & Ht & H1) & H2). exists k. split; [exact Hk|]. split; [exact Ht|]. apply IH. exists j. auto.
Qed.
Lemma kid_nodes_In m k : In k (kid_nodes m) <-> In (nd_el k) (ekids (nd_el m)) /\ nd_up k = nd_el m :: nd_up m.
Proof.
  unfold kid_nodes. rewrite in_map_iff. split; [intros (e & <- & He); auto|]. intros [H1 H2]. exists (nd_el k). split; [rewrite <- H2; destruct k; reflexivity|exact H1].
Qed.
Definition gseg (R : regex) (n : str) : seg := ($"Group", [c_val R false $"None" $"Name" n]).
Definition eseg (R : regex) (v : str) : seg := ($"Entry", [c_field R false $"None" $"Title" v]).
Lemma gseg_test R n k : seg_test (gseg R n) k = true <-> named_group n (nd_el k).
Proof. unfold seg_test, gseg, tagged, named_group. cbn [fst snd]. rewrite andb_true_iff, str_eqb_eq, hold_one, holds_val. reflexivity. Qed.
Lemma eseg_test R v k : seg_test (eseg R v) k = true <-> etag (nd_el k) = $"Entry" /\ has_field (fun o => o = Some v) $"Title" (nd_el k).
Proof. unfold seg_test, eseg, tagged. cbn [fst snd]. rewrite andb_true_iff, str_eqb_eq, hold_one, holds_field. reflexivity. Qed.
Lemma bare_test T k : seg_test (T, []) k = true <-> etag (nd_el k) = T.
Proof. unfold seg_test, tagged. cbn [fst snd]. rewrite andb_true_iff, str_eqb_eq. cbn. tauto. Qed.
Lemma down_leads R names : forall m n, down (map (gseg R) names) m n -> leads names (nd_el m) (nd_el n).
Proof.
  induction names as [|a names IH]; intros m n; cbn [map down].
  - intros ->. constructor.
  - intros (k & Hk & Ht & H). apply kid_nodes_In in Hk as [Hk _]. apply gseg_test in Ht. econstructor; [exact Hk|exact Ht|apply IH, H].
Qed.
Lemma leads_down_ R names t u : leads names t u -> forall m, nd_el m = t -> exists n, down (map (gseg R) names) m n /\ nd_el n = u.
Proof.
  induction 1 as [t|a p t g u Hg Hn Hl IH]; intros m Em.
  - exists m. split; [reflexivity|exact Em].
  - subst t. destruct (IH (Nd g (nd_el m :: nd_up m)) eq_refl) as (n & Hd & En). exists n. split; [|exact En]. cbn [map down]. exists (Nd g (nd_el m :: nd_up m)). split; [apply kid_nodes_In; auto|]. split; [apply gseg_test, Hn|exact Hd].
Qed.
Lemma subseq_picks {A} (P : A -> Prop) l L : NoDup L -> subseq l L -> (forall x, In x L -> (In x l <-> P x)) -> picks P L l.
Proof.
  intros Hd Hs. induction Hs as [L|x l L Hs IH|x l L Hs IH]; intros H.
  - clear Hd. induction L as [|x L IH]; [constructor|]. apply picks_no; [intros HP; apply H in HP; [destruct HP|left; reflexivity]|apply IH; intros y Hy; apply H; right; exact Hy].
  - apply NoDup_cons_iff in Hd as [Hx Hd]. apply picks_yes; [apply H; left; reflexivity|]. apply IH; [exact Hd|]. intros y Hy. rewrite <- H by (right; exact Hy). cbn. split; [auto|]. intros [->|Hy']; [contradiction|exact Hy'].
  - apply NoDup_cons_iff in Hd as [Hx Hd]. apply picks_no; [|apply IH; [exact Hd|intros y Hy; apply H; right; exact Hy]]. intros HP. apply H in HP; [|left; reflexivity]. apply Hx. apply (subseq_In l); assumption.
Qed.
Lemma fmt_groups (names : list str) fl : flat_map (fun g => fmt (path_group_xp false) [py_str_opt g] fl) (map Some names) = flat_map (fun g => fmt (path_group_xp false) [g] fl) names.
Proof. rewrite flat_one. reflexivity. Qed.
Definition path_query (q : query) (path : list str) : Prop := q_path q = Some (map Some path) /\ q_regex q = false.
Lemma removelast_snoc {A} (l : list A) x : removelast (l ++ [x]) = l.
Proof. rewrite removelast_app by discriminate. apply app_nil_r. Qed.
Lemma last_snoc {A} (l : list A) x : last_opt (l ++ [x]) = Some x.
Proof. unfold last_opt. rewrite rev_app_distr. reflexivity. Qed.
Lemma c_val_flag R fl fl' T v : c_val R false fl T v = c_val R false fl' T v. Proof. reflexivity. Qed.
Lemma fmt_group_flag n fl : fmt (path_group_xp false) [n] fl = fmt (path_group_xp false) [n] $"None". Proof. vm_compute. reflexivity. Qed.
Lemma fmt_entry_flag n fl : fmt (path_entry_xp false) [n] fl = fmt (path_entry_xp false) [n] $"None". Proof. vm_compute. reflexivity. Qed.
Lemma groups_piece R names : Forall plain names -> piece (flat_map (fun g => fmt (path_group_xp false) [g] $"None") names) (flat_map seg_steps (map (gseg R) names)).
Proof. intros H. rewrite flat_one. apply piece_flat. intros n Hn. rewrite Forall_forall in H. apply group_seg_piece; [apply H, Hn|apply plain_none]. Qed.

(** The result of an absolute path query. *)
Lemma path_eval R d t F' s segs : d_forest d = t :: F' -> unique (d_forest d) -> piece s (flat_map seg_steps segs) ->
  Forall (fun s : seg => exists n, snd s = [c_val R false $"None" $"Name" n] \/ snd s = [c_field R false $"None" $"Title" n]) segs -> forall tree w n, context (d_forest d) tree = Some (w, n) -> w = World true t ->
  xpath_cast R d tree ($"/KeePassFile/Root/Group" ++ s) = mapM cast (walk (tl head_segs ++ segs) (filter (seg_test ($"KeePassFile", [])) [Nd t []])).
Proof.
  intros EF Hu Hp Hs tree w n Hc Ew. destruct (path_parse s segs Hp) as [Pp Px]. assert (Hw : wok w) by (rewrite Ew; apply (wok_of (d_forest d)); [apply unique_fpre, Hu|rewrite EF; left; reflexivity]).
  unfold xpath_cast, xpath, xpath_raw. rewrite Px, Pp. cbn [bind]. rewrite Hc. pose proof (segs_ok R w segs Hw Hs) as Hok.
  assert (E : eval R w (E_path true (flat_map seg_steps (head_segs ++ segs))) (Cx (XEl n) 1 1) = Ok (V_set (map XEl (walk (tl head_segs ++ segs) (filter (seg_test ($"KeePassFile", [])) [Nd (w_root w) []]))))).
  { change (head_segs ++ segs) with (($"KeePassFile", []) :: (tl head_segs ++ segs)). apply search_path; [exact Hw|rewrite Ew; reflexivity|exact Hok]. }
  rewrite E. cbn [bind]. rewrite Ew. cbn [w_root]. set (l := walk _ _). rewrite (mapM_ok as_node (fun x => match x with XEl n => n | _ => n end)) by (intros x Hx; apply in_map_iff in Hx as (m & <- & _); reflexivity).
  rewrite map_map, map_id. reflexivity.
Qed.
Lemma walk_level w segs : forall l, level w l -> level w (walk segs l).
Proof. induction segs as [|s segs IH]; intros l Hl; [exact Hl|]. cbn [walk]. apply IH, level_filter, level_kids, Hl. Qed.
Lemma path_picks d t F' segs (P : elem -> Prop) : d_forest d = t :: F' -> unique (d_forest d) ->
  (forall n, In n (walk segs (filter (seg_test ($"KeePassFile", [])) [Nd t []])) -> P (nd_el n)) ->
  (forall e, P e -> exists n, In n (walk segs (filter (seg_test ($"KeePassFile", [])) [Nd t []])) /\ nd_el n = e) ->
  picks P (everything t) (map nd_el (walk segs (filter (seg_test ($"KeePassFile", [])) [Nd t []]))).
Proof.
  intros EF Hu H1 H2. set (l := walk _ _) in *. assert (Hw : wok (World true t)) by (apply (wok_of (d_forest d)); [apply unique_fpre, Hu|rewrite EF; left; reflexivity]).
  assert (Hl : level (World true t) l).
  { unfold l. apply walk_level, level_filter. unfold level. cbn [flat_map]. rewrite app_nil_r. apply subseq_refl. }
  rewrite (everything_pre t []). apply picks_map. apply subseq_picks; [exact (NoDup_map_inv _ _ Hw)|exact (level_subseq _ _ Hl)|].
  intros n Hn. split; [apply H1|]. intros HP. destruct (H2 _ HP) as (m & Hm & Em). assert (m = n) as <-; [|exact Hm].
  apply (NoDup_map_inj nid (w_nodes (World true t))); [exact Hw|exact (subseq_incl _ _ (level_subseq _ _ Hl) m Hm)|exact Hn|unfold nid; now rewrite Em].
Qed.
Lemma head_In t segs n : In n (walk (tl head_segs ++ segs) (filter (seg_test ($"KeePassFile", [])) [Nd t []])) <->
  etag t = $"KeePassFile" /\ exists r g, In r (ekids t) /\ etag r = $"Root" /\ In g (ekids r) /\ etag g = $"Group" /\ down segs (Nd g [r; t]) n.
Proof.
  rewrite walk_In. split.
  - intros (m & Hm & Hd). apply filter_In in Hm as [[<-|[]] Hm]. apply bare_test in Hm. split; [exact Hm|]. cbn [tl head_segs app down] in Hd.
    destruct Hd as (r & Hr & Tr & g & Hg & Tg & Hd). apply bare_test in Tr, Tg. apply kid_nodes_In in Hr as [Hr Ur], Hg as [Hg Ug]. cbn [nd_el nd_up] in *. exists (nd_el r), (nd_el g). repeat (split; [assumption|]).
    rewrite Ur in Ug. rewrite <- Ug. destruct g. exact Hd.
  - intros (Ht & r & g & Hr & Tr & Hg & Tg & Hd). exists (Nd t []). split; [apply filter_In; split; [left; reflexivity|apply bare_test, Ht]|]. cbn [tl head_segs app down].
    exists (Nd r [t]). split; [apply kid_nodes_In; auto|]. split; [apply bare_test, Tr|]. exists (Nd g [r; t]). split; [apply kid_nodes_In; auto|]. split; [apply bare_test, Tg|exact Hd].
Qed.

Theorem find_entries_path R d q rec groups title t F' : d_forest d = t :: F' -> unique (d_forest d) -> q_tree q = None ->
  path_query q (groups ++ [title]) -> Forall plain (groups ++ [title]) ->
  exists l, picks (entry_at t groups title) (everything t) l /\ find_entries R d rec q = Ok (map (fun e => R_entry (eid e)) l).
Proof.
  intros EF Hu Hq [Hp Hr] Hpl. apply Forall_app in Hpl as [Hg Ht]. inversion Ht as [|? ? Htt _]; subst.
  set (segs := map (gseg R) groups ++ [eseg R title]). exists (map nd_el (walk (tl head_segs ++ segs) (filter (seg_test ($"KeePassFile", [])) [Nd t []]))).
  assert (Hin : forall n, In n (walk (tl head_segs ++ segs) (filter (seg_test ($"KeePassFile", [])) [Nd t []])) -> entry_at t groups title (nd_el n)).
  { intros n Hn. apply head_In in Hn as (Et & r & g & Hr' & Tr & Hg' & Tg & Hd). unfold segs in Hd. apply down_app in Hd as (k & Hd & Hk). cbn [down] in Hk. destruct Hk as (k' & Hk & Tk & ->). apply kid_nodes_In in Hk as [Hk _]. apply eseg_test in Tk as [Tk Fk].
    exists g, (nd_el k). split; [split; [exact Et|exists r; auto]|]. split; [apply (down_leads R _ _ _ Hd)|]. auto. }
  split.
  - apply (path_picks d t F'); [exact EF|exact Hu|exact Hin|]. intros e (rg & g & (Et & r & Hr' & Tr & Hg' & Tg) & Hl & Hk & Te & Fe).
    destruct (leads_down_ R groups rg g Hl (Nd rg [r; t]) eq_refl) as (m & Hd & Em). exists (Nd e (nd_el m :: nd_up m)). split; [|reflexivity]. apply head_In. split; [exact Et|]. exists r, rg. repeat (split; [assumption|]).
    unfold segs. apply down_app. exists m. split; [exact Hd|]. cbn [down]. exists (Nd e (nd_el m :: nd_up m)). split; [apply kid_nodes_In; cbn; rewrite Em; auto|]. split; [apply eseg_test; auto|reflexivity].
  - unfold find_entries, find, find_xp. rewrite Hp, Hr, map_app. cbn [map]. rewrite removelast_snoc, last_snoc, fmt_groups. cbn [py_str_opt].
    replace (substr_in $"Entry" _) with true by (destruct rec, (q_history q); reflexivity). cbn [bind]. rewrite fmt_entry_flag. rewrite <- app_assoc.
    replace (flat_map (fun g => fmt (path_group_xp false) [g] (py_str_opt (q_flags q))) groups) with (flat_map (fun g => fmt (path_group_xp false) [g] $"None") groups) by (apply flat_map_ext; intros g; symmetry; apply fmt_group_flag).
    rewrite (path_eval R d t F' _ segs EF Hu) with (w := World true t) (n := Nd t []); [|unfold segs; rewrite flat_map_app; apply piece_app; [apply groups_piece, Hg|cbn [flat_map]; rewrite app_nil_r; apply entry_seg_piece; [exact Htt|apply plain_none]]| |rewrite Hq; unfold context; rewrite EF; reflexivity|reflexivity].
    + apply mapM_cast. intros n Hn. apply cast_entry. apply Hin in Hn as (rg & g & _ & _ & _ & H & _). exact H.
    + unfold segs. apply Forall_app. split; [rewrite Forall_forall; intros x Hx; apply in_map_iff in Hx as (n & <- & _); exists n; left; reflexivity|constructor; [exists title; right; reflexivity|constructor]].
Qed.
Theorem find_groups_path R d q rec names t F' : d_forest d = t :: F' -> unique (d_forest d) -> q_tree q = None ->
  path_query q names -> Forall (fun n => plain n /\ n <> []) names ->
  exists l, picks (group_at t names) (everything t) l /\ find_groups R d rec q = Ok (map (fun e => R_group (eid e)) l).
Proof.
  intros EF Hu Hq [Hp Hr] Hpl. set (segs := map (gseg R) names). exists (map nd_el (walk (tl head_segs ++ segs) (filter (seg_test ($"KeePassFile", [])) [Nd t []]))).
  assert (Hin : forall n, In n (walk (tl head_segs ++ segs) (filter (seg_test ($"KeePassFile", [])) [Nd t []])) -> group_at t names (nd_el n)).
  { intros n Hn. apply head_In in Hn as (Et & r & g & Hr' & Tr & Hg' & Tg & Hd). exists g. split; [split; [exact Et|exists r; auto]|]. apply (down_leads R _ _ _ Hd). }
  split.
  - apply (path_picks d t F'); [exact EF|exact Hu|exact Hin|]. intros e (rg & (Et & r & Hr' & Tr & Hg' & Tg) & Hl).
    destruct (leads_down_ R names rg e Hl (Nd rg [r; t]) eq_refl) as (m & Hd & Em). exists m. split; [|exact Em]. apply head_In. split; [exact Et|]. exists r, rg. auto 10.
  - assert (Hcast : mapM cast (walk (tl head_segs ++ segs) (filter (seg_test ($"KeePassFile", [])) [Nd t []])) = Ok (map (fun e => R_group (eid e)) (map nd_el (walk (tl head_segs ++ segs) (filter (seg_test ($"KeePassFile", [])) [Nd t []]))))).
    { apply mapM_cast. intros n Hn. apply cast_group. apply Hin in Hn as (rg & (_ & r & _ & _ & _ & H) & Hl). clear - H Hl. induction Hl as [x|n0 p x g u _ Hn _ IH]; [exact H|apply IH, Hn]. }
    rewrite <- Hcast. unfold find_groups, find, find_xp. rewrite Hp, Hr.
    replace (substr_in $"Entry" _) with false by (destruct rec, (q_history q); reflexivity).
    replace (substr_in $"Group" _) with true by (destruct rec, (q_history q); reflexivity). cbn [bind].
    assert (Ex : forall x, xpath_cast R d (q_tree q) x = xpath_cast R d None x) by (intros x; rewrite Hq; reflexivity). rewrite Ex.
    match goal with |- xpath_cast R d None ?x = _ => assert (Etxt : x = $"/KeePassFile/Root/Group" ++ flat_map (fun g => fmt (path_group_xp false) [g] $"None") names) end.
    { destruct names as [|a names] using rev_ind; [reflexivity|]. clear IHnames. apply Forall_app in Hpl as [_ Ha]. inversion Ha as [|? ? [_ Hne] _]; subst.
      rewrite map_app. cbn [map]. rewrite removelast_snoc, last_snoc. destruct a as [|c a]; [now destruct Hne|]. cbn [py_str_opt]. rewrite fmt_groups, <- app_assoc. f_equal. rewrite flat_map_app. cbn [flat_map]. rewrite app_nil_r, (fmt_group_flag (c :: a)).
      replace (flat_map (fun g => fmt (path_group_xp false) [g] (py_str_opt (q_flags q))) names) with (flat_map (fun g => fmt (path_group_xp false) [g] $"None") names) by (apply flat_map_ext; intros g; symmetry; apply fmt_group_flag).
      reflexivity. }
    rewrite Etxt. apply (path_eval R d t F' _ segs EF Hu) with (w := World true t) (n := Nd t []); [apply groups_piece; eapply Forall_impl; [|exact Hpl]; intros x [Hx _]; exact Hx| |unfold context; rewrite EF; reflexivity|reflexivity].
    unfold segs. rewrite Forall_forall. intros x Hx. apply in_map_iff in Hx as (n & <- & _). exists n. left. reflexivity.
Qed.
