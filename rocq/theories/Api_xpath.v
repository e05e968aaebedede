(** The fixed queries of entry.py, baseelement.py and pykeepass.py, read as functions on trees. *)
From Verif Require Import Base PyStr Xml Tree XPath Db XPath_parse XPath_facts XPath_eval FindSpec Find_facts Find_path ApiSpec Heap Api Prim.

(** *** Paths of children *)
Fixpoint ewalk (ss : list seg) (l : list elem) : list elem :=
  match ss with [] => l | s :: ss' => ewalk ss' (filter (fun k => str_eqb (etag k) (fst s) && crits_hold (snd s) k) (flat_map ekids l)) end.
Lemma ewalk_walk ss : forall l, map nd_el (walk ss l) = ewalk ss (map nd_el l).
Proof.
  induction ss as [|s ss IH]; intros l; [reflexivity|]. cbn [walk ewalk]. rewrite IH. f_equal. clear.
  assert (E : map nd_el (flat_map kid_nodes l) = flat_map ekids (map nd_el l)).
  { induction l as [|n l IH]; [reflexivity|]. cbn [flat_map map]. rewrite map_app, IH. f_equal. unfold kid_nodes. rewrite map_map. cbn. apply map_id. }
  rewrite <- E. set (m := flat_map kid_nodes l). clearbody m. clear. induction m as [|n m IH]; [reflexivity|]. cbn [filter map]. unfold seg_test at 1, tagged. destruct (_ && _); cbn [map]; now rewrite IH.
Qed.
Lemma mapM_as l : mapM as_node (map XEl l) = Ok l.
Proof. induction l as [|n l IH]; [reflexivity|]. cbn. now rewrite IH. Qed.
Lemma rel_path R d e s segs : wf d -> has d e -> forallb xml_char s = true -> parse_xpath s = Ok (E_path false (flat_map seg_steps segs)) ->
  (forall w, wok w -> Forall (fun s => crits_ok R w (snd s)) segs) ->
  exists l, xpath R d (Some (eid e)) s = Ok l /\ map nd_el l = ewalk segs [e].
Proof.
  intros (_ & Hu & _) He Hx Hp Hc. rewrite elements_fpre in He. apply in_map_iff in He as (n & <- & Hn). apply unique_fpre in Hu.
  destruct (locate_spec (d_forest d) true n Hu Hn) as (b & t & E & Ht & Hnt). pose proof (wok_of (d_forest d) b t Hu Ht) as Hw.
  exists (walk segs [n]). split; [|apply (ewalk_walk segs [n])].
  unfold xpath, xpath_raw. rewrite Hx, Hp. cbn [bind]. unfold context. fold (nid n). rewrite E, eval_path. unfold start_of. cbn [cx_node].
  change [XEl n] with (map XEl [n]). rewrite walk_steps; [|exact Hw|apply Hc, Hw|].
  - cbn [bind]. apply mapM_as.
  - unfold level. cbn [flat_map]. rewrite app_nil_r. apply pre_subseq. exact Hnt.
Qed.
Lemma abs_path R d r F s g segs : d_forest d = r :: F -> unique (d_forest d) -> forallb xml_char s = true -> parse_xpath s = Ok (E_path true (flat_map seg_steps (g :: segs))) ->
  (forall w, wok w -> Forall (fun s => crits_ok R w (snd s)) (g :: segs)) ->
  exists l, xpath R d None s = Ok l /\ map nd_el l = ewalk segs (filter (fun k => str_eqb (etag k) (fst g) && crits_hold (snd g) k) [r]).
Proof.
  intros EF Hu Hx Hp Hc. apply unique_fpre in Hu. pose proof (wok_of (d_forest d) true r Hu) as Hw. rewrite EF in Hw. specialize (Hw (or_introl eq_refl)).
  exists (walk segs (filter (seg_test g) [Nd r []])). split.
  - unfold xpath, xpath_raw. rewrite Hx, Hp. cbn [bind]. unfold context. rewrite EF, search_path; [|exact Hw|reflexivity|apply Hc, Hw]. cbn [bind]. apply mapM_as.
  - rewrite ewalk_walk. f_equal. cbn [filter]. unfold seg_test, tagged. cbn [nd_el]. destruct (_ && _); reflexivity.
Qed.

(** *** String fields *)
Definition key_crit (key : str) : crit := CK $"Key" [text_is key] (text_eq key) [].
Definition string_segs (key : str) : list seg := [($"String", [key_crit key])].
Definition value_segs (key : str) : list seg := [($"String", [key_crit key]); ($"Value", [])].
Definition t_string (key : str) : list tok := T_slash :: T_name $"Key" :: t_text_is key ++ [T_slash; T_ddot].
Lemma block_string key : block (t_string key) [kid $"Key" [text_is key]; XPath_parse.up].
Proof. apply (block_cons (T_slash :: T_name $"Key" :: t_text_is key) [T_slash; T_ddot]); [apply block_text|apply block_up]. Qed.
Lemma string_xp_parse key : plain key -> forallb xml_char (string_xp key) = true /\ parse_xpath (string_xp key) = Ok (E_path false (flat_map seg_steps (string_segs key))).
Proof.
  intros [Hq Hx]. unfold text_ok in Hx. split; [unfold string_xp, quote_xp; now rewrite !forallb_app, Hx|].
  apply (parse_rel _ $"String" (t_string key) [kid $"Key" [text_is key]; XPath_parse.up]); [discriminate|discriminate| |apply block_string|discriminate].
  assert (L : lexes (string_xp key) (T_name $"String" :: t_string key)).
  { unfold string_xp, quote_xp. change $"String/Key[text()=""" with ($"String/Key[text()=" ++ [34]). change $"""]/.." with ([34] ++ $"]/.."). rewrite <- app_assoc.
    change (T_name $"String" :: t_string key) with ([T_name $"String"; T_slash; T_name $"Key"; T_lb; T_name $"text"; T_lp; T_rp; T_eq] ++ T_lit key :: [T_rb; T_slash; T_ddot]).
    apply lexes_cut; [lex_done|exact Hq|lex_done]. }
  now apply lexes_lex.
Qed.
Lemma value_xp_parse key : plain key -> forallb xml_char (value_xp key) = true /\ parse_xpath (value_xp key) = Ok (E_path false (flat_map seg_steps (value_segs key))).
Proof.
  intros [Hq Hx]. unfold text_ok in Hx. split; [unfold value_xp, quote_xp; now rewrite !forallb_app, Hx|].
  apply (parse_rel _ $"String" (t_string key ++ [T_slash; T_name $"Value"]) [kid $"Key" [text_is key]; XPath_parse.up; kid $"Value" []]); [discriminate|discriminate| | |discriminate].
  - assert (L : lexes ($"String/Key[text()=" ++ [34] ++ key ++ ([34] ++ $"]/..")) ([T_name $"String"; T_slash; T_name $"Key"; T_lb; T_name $"text"; T_lp; T_rp; T_eq] ++ T_lit key :: [T_rb; T_slash; T_ddot])) by (apply lexes_cut; [lex_done|exact Hq|lex_done]).
    unfold lex. replace (value_xp key) with (($"String/Key[text()=" ++ [34] ++ key ++ ([34] ++ $"]/..")) ++ $"/Value").
    + rewrite fold_left_app, L, app_nil_r. set (o := rev _). change (fold_left lex_step $"/Value" (L0, o)) with (L_name (rev $"Value"), T_slash :: o). cbn [lex_finish]. unfold o. cbn [rev]. rewrite !rev_involutive. cbn [rev app t_string t_text_is]. reflexivity.
    + unfold value_xp, quote_xp. change $"String/Key[text()=""" with ($"String/Key[text()=" ++ [34]). change $"""]/../Value" with ([34] ++ $"]/.." ++ $"/Value"). rewrite <- !app_assoc. reflexivity.
  - apply (block_app (t_string key) [T_slash; T_name $"Value"] [kid $"Key" [text_is key]; XPath_parse.up] [kid $"Value" []]); [apply block_string|apply block_kid].
Qed.

Lemma key_crit_ok R w key : wok w -> crit_ok R w (key_crit key).
Proof. intros Hw. apply crit_ok_eq. split; [apply preds_one, pred_text, Hw|constructor]. Qed.
(** The String children of [t] named [key]. *)
Definition is_key (key : str) (k : elem) : bool := str_eqb (etag k) $"Key" && text_eq key k.
Definition fields (key : str) (t : elem) : list elem := filter (fun s => str_eqb (etag s) $"String" && existsb (is_key key) (ekids s)) (ekids t).
Lemma key_holds key s : crits_hold [key_crit key] s = existsb (is_key key) (ekids s).
Proof. unfold crits_hold, key_crit. cbn [forallb crit_holds]. rewrite andb_true_r. induction (ekids s) as [|k l IH]; [reflexivity|]. cbn [existsb]. rewrite IH. unfold is_key. now rewrite andb_true_r. Qed.
Lemma ewalk_string key t : ewalk (string_segs key) [t] = fields key t.
Proof. unfold string_segs. cbn [ewalk fst snd flat_map]. rewrite app_nil_r. apply filter_ext_in'. intros s _. now rewrite key_holds. Qed.
Lemma ewalk_value key t : ewalk (value_segs key) [t] = flat_map (kids_of $"Value") (fields key t).
Proof.
  unfold value_segs. cbn [ewalk fst snd flat_map]. rewrite app_nil_r. rewrite (filter_ext_in' _ (fun s => str_eqb (etag s) $"String" && existsb (is_key key) (ekids s)) (ekids t)) by (intros s _; now rewrite key_holds).
  change (filter _ (ekids t)) with (fields key t) at 1. generalize (fields key t). intros l. rewrite filter_flat_map. apply flat_map_ext. intros s. unfold kids_of. apply filter_ext_in'. intros k _. apply andb_true_r.
Qed.
Lemma string_first R d t key : wf d -> has d t -> plain key -> xfirst R (Some (eid t)) (string_xp key) d = (Ok (hd_error (fields key t)), d).
Proof.
  intros H Ht Hk. destruct (string_xp_parse key Hk) as [Hx Hp]. destruct (rel_path R d t _ _ H Ht Hx Hp) as (l & E & El).
  - intros w Hw. constructor; [constructor; [now apply key_crit_ok|constructor]|constructor].
  - unfold xfirst, lift. rewrite E. cbn [bind]. rewrite ewalk_string in El. rewrite <- El. destruct l; reflexivity.
Qed.
Lemma value_first R d t key : wf d -> has d t -> plain key -> xfirst R (Some (eid t)) (value_xp key) d = (Ok (hd_error (flat_map (kids_of $"Value") (fields key t))), d).
Proof.
  intros H Ht Hk. destruct (value_xp_parse key Hk) as [Hx Hp]. destruct (rel_path R d t _ _ H Ht Hx Hp) as (l & E & El).
  - intros w Hw. constructor; [constructor; [now apply key_crit_ok|constructor]|]. constructor; [constructor|constructor].
  - unfold xfirst, lift. rewrite E. cbn [bind]. rewrite ewalk_value in El. rewrite <- El. destruct l; reflexivity.
Qed.
Lemma get_string_run R d t key : wf d -> has d t -> plain key ->
  get_string R key (eid t) d = (Ok (match hd_error (flat_map (kids_of $"Value") (fields key t)) with Some v => etext v | None => None end), d).
Proof. intros H Ht Hk. unfold get_string. rewrite (mbind_ok _ _ _ _ _ (value_first R d t key H Ht Hk)). reflexivity. Qed.

(** *** The enclosing group *)
Lemma up_rev_subseq t0 : forall u0 n, In n (pre u0 t0) -> exists v, nd_up n = v ++ u0 /\ subseq (rev (firstn (List.length v) (up_nodes (nd_up n)))) (pre u0 t0).
Proof.
  induction t0 as [i g a x kids IH] using elem_ind'. intros u0 n. rewrite !pre_eq. cbn [ekids]. intros [<-|H]; [exists []; split; [reflexivity|constructor]|].
  apply in_flat_map in H as (c & Hc & H). rewrite Forall_forall in IH. destruct (IH c Hc _ n H) as (v & E & Hv). exists (v ++ [El i g a x kids]). split; [rewrite E, <- app_assoc; reflexivity|].
  rewrite app_length. cbn [List.length]. rewrite E in *.
  assert (G : forall v w, up_nodes (v ++ w) = firstn (List.length v) (up_nodes (v ++ w)) ++ up_nodes w).
  { clear. induction v as [|y v IH]; intros w; [reflexivity|]. cbn [app up_nodes List.length firstn]. cbn [app]. now rewrite <- IH. }
  assert (L : forall v w, List.length (firstn (List.length v) (up_nodes (v ++ w))) = List.length v).
  { clear. intros v w. rewrite firstn_length. assert (forall u, List.length (up_nodes u) = List.length u) as -> by (induction u; cbn; auto). rewrite app_length. lia. }
  replace (List.length v + 1)%nat with (List.length (firstn (List.length v) (up_nodes (v ++ El i g a x kids :: u0))) + 1)%nat by (rewrite L; reflexivity).
  rewrite (G v (El i g a x kids :: u0)) at 2. rewrite firstn_app_2. cbn [up_nodes firstn]. rewrite rev_app_distr. cbn [rev app]. constructor.
  apply in_split in Hc as (l1 & l2 & ->). rewrite flat_map_app. cbn [flat_map]. apply subseq_skips. rewrite <- (app_nil_r (rev _)). apply subseq_app; [exact Hv|constructor].
Qed.
Lemma up_rev w n : In n (w_nodes w) -> subseq (rev (up_nodes (nd_up n))) (w_nodes w).
Proof.
  intros Hn. destruct (up_rev_subseq _ _ _ Hn) as (v & E & H). rewrite app_nil_r in E. subst v. rewrite firstn_all2 in H; [exact H|].
  assert (forall u, List.length (up_nodes u) = List.length u) as -> by (induction u; cbn; auto). apply le_n.
Qed.
Lemma last_filter R w l : l <> [] -> forall z, z = List.length l ->
  filterM (fun i x => let* v := eval R w (E_call $"last" []) (Cx x i z) in Ok (holds i v)) 1 (map XEl l) = Ok [XEl (List.last l (Nd (w_root w) []))].
Proof.
  intros Hne z ->.
  assert (G : forall (m : list node) i z, (i + List.length m = S z)%nat -> m <> [] ->
     filterM (fun i x => let* v := eval R w (E_call $"last" []) (Cx x i z) in Ok (holds i v)) i (map XEl m) = Ok [XEl (List.last m (Nd (w_root w) []))]).
  { induction m as [|x m IH]; intros i z Hi Hm; [congruence|]. cbn [List.length] in Hi. cbn [map filterM].
    assert (E : (let* v := eval R w (E_call $"last" []) (Cx (XEl x) i z) in Ok (holds i v)) = Ok (i =? z)%nat).
    { change (eval R w (E_call $"last" []) (Cx (XEl x) i z)) with (Ok (V_num (Some (Z.of_nat z, 1%Z)))). cbn [bind holds num_cmp]. f_equal. rewrite !Z.mul_1_r. destruct (Nat.eqb_spec i z); [subst; apply Z.eqb_refl|apply Z.eqb_neq; lia]. }
    rewrite E. cbn [bind]. destruct m as [|y m].
    - cbn [List.length] in Hi. destruct (Nat.eqb_spec i z); [reflexivity|lia].
    - rewrite (IH (S i) z) by (try discriminate; cbn [List.length] in *; lia). cbn [bind]. cbn [List.length] in Hi. destruct (Nat.eqb_spec i z); [lia|reflexivity]. }
  apply G; [lia|exact Hne].
Qed.
Lemma filter_rev' {A} (f : A -> bool) l : filter f (rev l) = rev (filter f l).
Proof. induction l as [|x l IH]; [reflexivity|]. cbn [rev filter]. rewrite filter_app, IH. cbn [filter]. destruct (f x); cbn [rev]; [reflexivity|apply app_nil_r]. Qed.
Lemma group_of_run R d n : wf d -> In n (fpre (d_forest d)) ->
  group_of R (nid n) d = (Ok (option_map eid (List.find (fun p => str_eqb (etag p) $"Group") (nd_up n))), d).
Proof.
  intros (_ & Hu & _) Hn. apply unique_fpre in Hu. destruct (locate_spec (d_forest d) true n Hu Hn) as (b & t & E & Ht & Hnt). pose proof (wok_of (d_forest d) b t Hu Ht) as Hw.
  unfold group_of, xcast1, mbind, lift, xpath_cast, xpath, xpath_raw. change (forallb xml_char $"(ancestor::Group)[last()]") with true. cbv iota.
  change (parse_xpath $"(ancestor::Group)[last()]") with (@Ok expr (E_filter (E_path false [Step A_anc (NT_name $"Group") []]) [E_call $"last" []])). cbn [bind]. unfold context. rewrite E.
  set (isg := fun m => str_eqb (etag (nd_el m)) $"Group").
  assert (E1 : eval R (World b t) (E_path false [Step A_anc (NT_name $"Group") []]) (Cx (XEl n) 1 1) = Ok (V_set (map XEl (rev (filter isg (up_nodes (nd_up n))))))).
  { rewrite (one_step R (World b t) A_anc (NT_name $"Group") [] (XEl n)) by reflexivity. cbn [axis_nodes]. rewrite filter_anc. cbn [eval_preds bind]. rewrite in_order_els. do 3 f_equal.
    rewrite <- (norder_subseq _ Hw (rev (filter isg (up_nodes (nd_up n))))).
    - apply norder_ext; [exact Hw|apply filter_incl, up_incl, Hnt| |intros m; apply in_rev].
      intros m Hm. apply in_rev in Hm. apply filter_In in Hm as [Hm _]. now apply (up_incl (World b t) n Hnt).
    - rewrite <- filter_rev'. eapply subseq_trans; [apply subseq_filter|apply up_rev, Hnt]. }
  change (eval R (World b t) (E_filter (E_path false [Step A_anc (NT_name $"Group") []]) [E_call $"last" []]) (Cx (XEl n) 1 1)) with
    (let* v := eval R (World b t) (E_path false [Step A_anc (NT_name $"Group") []]) (Cx (XEl n) 1 1) in
     match v with V_set l => let* l' := (let* l' := filterM (fun i x => let* v := eval R (World b t) (E_call $"last" []) (Cx x i (List.length l)) in Ok (holds i v)) 1 l in Ok l') in Ok (V_set l') | _ => Err Ex_XPath end).
  rewrite E1. cbn [bind].
  assert (EF : option_map eid (List.find (fun p => str_eqb (etag p) $"Group") (nd_up n)) = option_map nid (hd_error (filter isg (up_nodes (nd_up n))))).
  { generalize (nd_up n). induction l as [|p l IH]; [reflexivity|]. cbn [up_nodes List.find filter]. unfold isg at 1. cbn [nd_el]. destruct (str_eqb (etag p) $"Group"); [reflexivity|exact IH]. }
  rewrite EF. destruct (filter isg (up_nodes (nd_up n))) as [|g l] eqn:El; [reflexivity|].
  rewrite last_filter; [|cbn [rev]; intros C; apply app_eq_nil in C as [_ C]; discriminate C|now rewrite map_length]. cbn [bind]. cbn [rev]. rewrite last_last. cbn [mapM as_node bind].
  assert (Hg : isg g = true) by (assert (In g (filter isg (up_nodes (nd_up n)))) as Hi by (rewrite El; left; reflexivity); apply filter_In in Hi; tauto).
  rewrite cast_group by (apply str_eqb_eq; exact Hg). reflexivity.
Qed.

(** *** Elements of the Meta section *)
Definition meta_of (tag : str) (r : elem) : option elem :=
  if str_eqb (etag r) $"KeePassFile" then hd_error (flat_map (kids_of tag) (kids_of $"Meta" r)) else None.
Definition meta_tags : list str := [$"RecycleBinUUID"; $"MasterKeyChangeForce"; $"MasterKeyChangeRec"; $"MasterKeyChanged"; $"DatabaseName"; $"DatabaseDescription"; $"DefaultUserName"; $"Binaries"].
Definition meta_segs (tag : str) : list seg := [($"KeePassFile", []); ($"Meta", []); (tag, [])].
Lemma ewalk_bare T ss l : ewalk ((T, []) :: ss) l = ewalk ss (flat_map (kids_of T) l).
Proof. cbn [ewalk fst snd]. f_equal. rewrite filter_flat_map. apply flat_map_ext. intros t. apply filter_ext_in'. intros k _. apply andb_true_r. Qed.
Lemma meta_run R d r F tag : wf d -> d_forest d = r :: F -> In tag meta_tags -> meta_elem R tag d = (Ok (meta_of tag r), d).
Proof.
  intros (_ & Hu & _) EF Ht. unfold meta_elem, xfirst, lift.
  assert (Hp : parse_xpath ($"/KeePassFile/Meta/" ++ tag) = Ok (E_path true (flat_map seg_steps (meta_segs tag))) /\ forallb xml_char ($"/KeePassFile/Meta/" ++ tag) = true).
  { cbn in Ht. repeat (destruct Ht as [<-|Ht]; [split; vm_compute; reflexivity|]). destruct Ht. }
  destruct Hp as [Hp Hx]. destruct (abs_path R d r F _ ($"KeePassFile", []) [($"Meta", []); (tag, [])] EF Hu Hx Hp) as (l & E & El).
  - intros w _. repeat (constructor; [constructor|]). constructor.
  - rewrite E. cbn [bind]. f_equal. f_equal. assert (option_map nd_el (hd_error l) = hd_error (map nd_el l)) as -> by (destruct l; reflexivity). rewrite El, !ewalk_bare. unfold meta_of.
    cbn [ewalk fst snd filter]. change (crits_hold [] r) with true. rewrite andb_true_r. destruct (str_eqb (etag r) $"KeePassFile"); [|reflexivity]. cbn [flat_map]. now rewrite app_nil_r.
Qed.
