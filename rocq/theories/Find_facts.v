(** The queries built by pykeepass.py evaluate to what FindSpec.v asks for. *)
From Verif Require Import Base Base64 PyStr Xml Tree XPath Db Uuid XPath_parse XPath_facts XPath_eval FindSpec.

Lemma NoDup_app_l {A} (a b : list A) : NoDup (a ++ b) -> NoDup a.
Proof. induction a as [|x a IH]; [constructor|]. cbn. intros H. apply NoDup_cons_iff in H as [H1 H2]. constructor; [|auto]. intros H. apply H1, in_or_app. auto. Qed.
Lemma NoDup_app_r {A} (a b : list A) : NoDup (a ++ b) -> NoDup b.
Proof. induction a as [|x a IH]; [auto|]. cbn. intros H. apply NoDup_cons_iff in H as [_ H]. auto. Qed.
Lemma NoDup_app_disj {A} (a b : list A) x : NoDup (a ++ b) -> In x a -> In x b -> False.
Proof. induction a as [|y a IH]; [intros _ []|]. cbn. intros H Hx Hb. apply NoDup_cons_iff in H as [H1 H2]. destruct Hx as [->|Hx]; [apply H1, in_or_app; auto|auto]. Qed.

(** *** Positions and plain trees *)
Lemma everything_pre t : forall up, everything t = map nd_el (pre up t).
Proof.
  induction t as [i g a x k IH] using elem_ind'. intros up. rewrite pre_eq. cbn [everything ekids map]. f_equal. rewrite Forall_forall in IH.
  induction k as [|c k IHk]; [reflexivity|]. cbn [flat_map]. rewrite map_app. f_equal; [apply IH; left; reflexivity|]. 
  assert (E : forall u l, (forall c, In c l -> forall up, everything c = map nd_el (pre up c)) -> flat_map everything l = map nd_el (flat_map (pre u) l)).
  { intros u l Hl. induction l as [|e l IHl]; [reflexivity|]. cbn [flat_map]. rewrite map_app. f_equal; [apply Hl; left; reflexivity|apply IHl; intros e' He'; apply Hl; right; exact He']. }
  apply E. intros e He. apply IH. right. exact He.
Qed.
Lemma everything_kids n : flat_map everything (ekids (nd_el n)) = map nd_el (strict n).
Proof. unfold strict. induction (ekids (nd_el n)) as [|c k IH]; [reflexivity|]. cbn [flat_map]. rewrite map_app, <- (everything_pre c (nd_el n :: nd_up n)). now f_equal. Qed.
Lemma elements_fpre F : elements F = map nd_el (fpre F).
Proof. unfold elements, fpre. induction F as [|t F IH]; [reflexivity|]. cbn [flat_map]. rewrite map_app, <- everything_pre, IH. reflexivity. Qed.
Definition in_hist (up : list elem) : bool := existsb (fun p => str_eqb (etag p) $"History") up.
Lemma hist_none up t : in_hist up = true -> filter (hist_ok false) (pre up t) = [].
Proof.
  intros H. assert (G : forall n, In n (pre up t) -> hist_ok false n = false).
  { intros n Hn. destruct (pre_nodes_up _ _ _ Hn) as (v & E & _). unfold hist_ok. cbn [orb]. rewrite E. fold (in_hist (v ++ up)). unfold in_hist in *. rewrite existsb_app, H, orb_true_r. reflexivity. }
  induction (pre up t) as [|n l IH]; [reflexivity|]. cbn [filter]. rewrite G by (left; reflexivity). apply IH. intros m Hm. apply G. right. exact Hm.
Qed.
Lemma unarchived_pre t : forall up, in_hist up = false -> unarchived t = map nd_el (filter (hist_ok false) (pre up t)).
Proof.
  induction t as [i g a x k IH] using elem_ind'. intros up Hu. rewrite pre_eq. cbn [filter]. unfold hist_ok at 1. cbn [orb nd_up]. fold (in_hist up). rewrite Hu. cbn [negb map unarchived ekids]. f_equal.
  destruct (str_eqb g $"History") eqn:Eg.
  - assert (H : in_hist (El i g a x k :: up) = true) by (unfold in_hist; cbn [existsb etag]; now rewrite Eg). clear IH. revert H. generalize (El i g a x k). intros t H. induction k as [|c k IHk]; [reflexivity|]. cbn [flat_map]. rewrite filter_app, map_app, <- IHk. now rewrite hist_none.
  - assert (H : in_hist (El i g a x k :: up) = false) by (unfold in_hist; cbn [existsb etag]; now rewrite Eg). revert H. generalize (El i g a x k :: up). intros u H. clear -IH H. induction IH as [|c k Hc _ IHk]; [reflexivity|]. cbn [flat_map]. rewrite filter_app, map_app, <- IHk. f_equal. now apply Hc.
Qed.
Lemma visible_fpre F : visible F = map nd_el (filter (hist_ok false) (fpre F)).
Proof. unfold visible, fpre. induction F as [|t F IH]; [reflexivity|]. cbn [flat_map]. rewrite filter_app, map_app, <- IH, <- unarchived_pre by reflexivity. reflexivity. Qed.
Lemma unique_fpre F : unique F <-> NoDup (map nid (fpre F)).
Proof. unfold unique. rewrite elements_fpre, map_map. reflexivity. Qed.
Lemma visible_iff F n : unique F -> In n (fpre F) -> (In (nd_el n) (visible F) <-> hist_ok false n = true).
Proof.
  intros Hu Hn. rewrite visible_fpre, in_map_iff. apply unique_fpre in Hu. split.
  - intros (m & E & Hm). apply filter_In in Hm as [Hm Hh]. assert (m = n) as <-; [|exact Hh]. apply (NoDup_map_inj nid (fpre F)); auto. unfold nid. now rewrite E.
  - intros H. exists n. split; [reflexivity|]. apply filter_In. auto.
Qed.

(** *** Locating the start of a search *)
Lemma locate_spec F : forall doc n, NoDup (map nid (fpre F)) -> In n (fpre F) -> exists b t, locate doc F (nid n) = Some (World b t, n) /\ In t F /\ In n (pre [] t).
Proof.
  induction F as [|t F IH]; intros doc n Hd Hn; [destruct Hn|]. unfold fpre in *. cbn [flat_map] in *. cbn [locate]. rewrite map_app in Hd.
  assert (Hfind : forall l, NoDup (map nid l) -> In n l -> List.find (fun m => (nid m =? nid n)%nat) l = Some n).
  { clear. induction l as [|m l IH]; intros Hd Hn; [destruct Hn|]. cbn [map] in Hd. apply NoDup_cons_iff in Hd as [Hm Hd]. cbn [List.find]. destruct Hn as [->|Hn]; [now rewrite Nat.eqb_refl|].
    destruct (Nat.eqb_spec (nid m) (nid n)) as [E|_]; [exfalso; apply Hm; rewrite E; now apply in_map|auto]. }
  apply in_app_or in Hn as [Hn|Hn].
  - rewrite Hfind; [|exact (NoDup_app_l _ _ Hd)|exact Hn]. exists doc, t. split; [reflexivity|]. split; [left; reflexivity|exact Hn].
  - assert (Hnone : List.find (fun m => (nid m =? nid n)%nat) (pre [] t) = None).
    { destruct (List.find _ (pre [] t)) as [m|] eqn:E; [|reflexivity]. apply find_some in E as [Hm E]. apply Nat.eqb_eq in E. exfalso.
      apply (NoDup_app_disj _ _ (nid n) Hd); [rewrite <- E; now apply in_map|now apply in_map]. }
    rewrite Hnone. destruct (IH false n) as (b & t' & E & Ht & Hp); [exact (NoDup_app_r _ _ Hd)|exact Hn|]. exists b, t'. split; [exact E|]. split; [right; exact Ht|exact Hp].
Qed.
Lemma wok_of F b t : NoDup (map nid (fpre F)) -> In t F -> wok (World b t).
Proof.
  intros Hd Ht. unfold wok, w_nodes. cbn [w_root]. apply in_split in Ht as (l1 & l2 & ->). unfold fpre in Hd. rewrite flat_map_app in Hd. cbn [flat_map] in Hd. rewrite !map_app in Hd.
  apply NoDup_app_r in Hd. exact (NoDup_app_l _ _ Hd).
Qed.

(** *** Pieces of queries *)
Definition val_e (rx : bool) (v fl : str) : expr := if rx then text_re v fl else text_is v.
Definition val_t (rx : bool) (v fl : str) : list tok := if rx then t_re [T_name $"text"; T_lp; T_rp] v fl else t_text_is v.
Definition inner (rx : bool) (v fl b : str) : str :=
  if rx then $"re:test(text(), """ ++ v ++ ($""", """ ++ fl ++ ($""")]" ++ b)) else $"text()=""" ++ v ++ ($"""]" ++ b).
Lemma block_val rx T v fl : block (T_slash :: T_name T :: val_t rx v fl) [kid T [val_e rx v fl]].
Proof. destruct rx; [apply block_re|apply block_text]. Qed.
Lemma lexes_cut a v b ta tb : lexes a ta -> quotefree v -> lexes b tb -> lexes (a ++ [34] ++ v ++ ([34] ++ b)) (ta ++ T_lit v :: tb).
Proof.
  intros Ha Hv Hb. apply lexes_app; [exact Ha|]. replace ([34] ++ v ++ ([34] ++ b)) with (([34] ++ v ++ [34]) ++ b) by (rewrite <- !app_assoc; reflexivity).
  change (T_lit v :: tb) with ([T_lit v] ++ tb). apply lexes_app; [now apply lexes_quoted|exact Hb].
Qed.
Ltac lex_done := let out := fresh in intros out; reflexivity.
Lemma lexes_inner rx v fl a b ta tb : quotefree v -> quotefree fl -> lexes a (ta ++ [T_lb]) -> lexes b tb -> lexes (a ++ inner rx v fl b) (ta ++ val_t rx v fl ++ tb).
Proof.
  intros Hv Hf Ha Hb. unfold inner, val_t. destruct rx.
  - change $"re:test(text(), """ with ($"re:test(text(), " ++ [34]). change $""", """ with ([34] ++ $", " ++ [34]). change $""")]" with ([34] ++ $")]").
    replace (a ++ ($"re:test(text(), " ++ [34]) ++ v ++ ([34] ++ $", " ++ [34]) ++ fl ++ ([34] ++ $")]") ++ b)
      with ((a ++ $"re:test(text(), ") ++ [34] ++ v ++ ([34] ++ ($", " ++ [34] ++ fl ++ ([34] ++ ($")]" ++ b))))) by (rewrite <- !app_assoc; reflexivity).
    replace (ta ++ t_re [T_name $"text"; T_lp; T_rp] v fl ++ tb)
      with (((ta ++ [T_lb]) ++ [T_name $"re"; T_colon; T_name $"test"; T_lp; T_name $"text"; T_lp; T_rp; T_comma]) ++ T_lit v :: ([T_comma] ++ T_lit fl :: ([T_rp; T_rb] ++ tb))).
    2: { unfold t_re. rewrite <- !app_assoc. cbn [app]. reflexivity. }
    apply lexes_cut; [apply lexes_app; [exact Ha|lex_done]|exact Hv|]. apply lexes_cut; [lex_done|exact Hf|]. apply lexes_app; [lex_done|exact Hb].
  - change $"text()=""" with ($"text()=" ++ [34]). change $"""]" with ([34] ++ $"]").
    replace (a ++ ($"text()=" ++ [34]) ++ v ++ ([34] ++ $"]") ++ b) with ((a ++ $"text()=") ++ [34] ++ v ++ ([34] ++ ($"]" ++ b))) by (rewrite <- !app_assoc; reflexivity).
    replace (ta ++ t_text_is v ++ tb) with (((ta ++ [T_lb]) ++ [T_name $"text"; T_lp; T_rp; T_eq]) ++ T_lit v :: ([T_rb] ++ tb)).
    2: { unfold t_text_is. rewrite <- !app_assoc. cbn [app]. reflexivity. }
    apply lexes_cut; [apply lexes_app; [exact Ha|lex_done]|exact Hv|]. apply lexes_app; [lex_done|exact Hb].
Qed.
Lemma plain_q s : plain s -> quotefree s. Proof. intros H. apply H. Qed.
Lemma plain_x s : plain s -> forallb xml_char s = true. Proof. intros H. apply H. Qed.
Lemma inner_xml rx v fl b : plain v -> plain fl -> forallb xml_char b = true -> forallb xml_char (inner rx v fl b) = true.
Proof.
  intros Hv Hf Hb. apply plain_x in Hv, Hf. unfold inner. destruct rx; rewrite !forallb_app, ?Hv, ?Hf, Hb; reflexivity.
Qed.
Definition piece (s : str) (ss : list step) : Prop := no_name_head s /\ forallb xml_char s = true /\ exists ts, lexes s ts /\ block ts ss.
Lemma piece_nil : piece [] [].
Proof. split; [exact I|]. split; [reflexivity|]. exists []. split; [apply lexes_nil|apply block_nil]. Qed.
Lemma piece_app a b sa sb : piece a sa -> piece b sb -> piece (a ++ b) (sa ++ sb).
Proof.
  intros (Ha1 & Ha2 & ta & Ha3 & Ha4) (Hb1 & Hb2 & tb & Hb3 & Hb4). split; [destruct a; [exact Hb1|exact Ha1]|]. split; [now rewrite forallb_app, Ha2, Hb2|].
  exists (ta ++ tb). split; [apply lexes_app; assumption|apply block_app; assumption].
Qed.
Lemma piece_flat {A} (f : A -> str) (g : A -> list step) l : (forall x, In x l -> piece (f x) (g x)) -> piece (flat_map f l) (flat_map g l).
Proof. intros H. induction l as [|x l IH]; [apply piece_nil|]. cbn [flat_map]. apply piece_app; [apply H; left; reflexivity|apply IH; intros; apply H; right; assumption]. Qed.
Lemma piece_val rx v fl T a b ta sa tb sb : plain v -> plain fl -> lexes a (ta ++ [T_slash; T_name T; T_lb]) -> block ta sa -> lexes b tb -> block tb sb ->
  forallb xml_char a && forallb xml_char b = true -> no_name_head a -> a <> [] -> piece (a ++ inner rx v fl b) (sa ++ kid T [val_e rx v fl] :: sb).
Proof.
  intros Hv Hf Ha Hsa Hb Hsb Hx Hn Hne. apply andb_true_iff in Hx as [Hxa Hxb]. split; [destruct a; [now destruct Hne|exact Hn]|]. split; [now rewrite forallb_app, Hxa, inner_xml|].
  exists ((ta ++ [T_slash; T_name T]) ++ val_t rx v fl ++ tb). split.
  - apply lexes_inner; [apply plain_q, Hv|apply plain_q, Hf| |exact Hb]. rewrite <- app_assoc. exact Ha.
  - rewrite <- app_assoc. apply block_app; [exact Hsa|]. change ([T_slash; T_name T] ++ val_t rx v fl ++ tb) with ((T_slash :: T_name T :: val_t rx v fl) ++ tb). apply block_cons; [apply block_val|exact Hsb].
Qed.
Ltac blocks := repeat (first [apply block_nil | apply (block_cons [T_slash; T_ddot]); [apply block_up|] | apply (block_cons [T_slash; T_name _] ); [apply block_kid|] | apply (block_cons (T_slash :: T_name _ :: t_text_is _)); [apply block_text|]]).

Definition val_g (R : regex) (rx ic : bool) (v : str) (t : elem) : bool :=
  if rx then match R v ic (text_or t) with Ok b => b | Err _ => false end else text_eq v t.
Section Crits.
  Variable R : regex.
  Variables rx : bool.
  Variable fl : str.
  Let ic := substr_in [105] fl.
  Definition yes (t : elem) : bool := true.
  Definition c_val (T v : str) : crit := CK T [val_e rx v fl] (val_g R rx (substr_in [105] fl) v) [].
  Definition c_field (key v : str) : crit := CK $"String" [] yes [CK $"Key" [text_is key] (text_eq key) []; c_val $"Value" v].
  Definition c_tags (ts : list str) : crit :=
    match ts with [] => CK $"Tags" [] yes [] | v :: vs => CK $"Tags" [all_text v vs] (fun t => forallb (fun v => substr_in v (text_or t)) (v :: vs)) [] end.
  Definition entry_crit (k v : str) : list crit :=
    if str_eqb k $"title" then [c_field $"Title" v]
    else if str_eqb k $"username" then [c_field $"UserName" v]
    else if str_eqb k $"password" then [c_field $"Password" v]
    else if str_eqb k $"url" then [c_field $"URL" v]
    else if str_eqb k $"notes" then [c_field $"Notes" v]
    else if str_eqb k $"otp" then [c_field $"otp" v]
    else if str_eqb k $"uuid" then [c_val $"UUID" v]
    else if str_eqb k $"autotype_sequence" then [CK $"AutoType" [] yes [c_val $"DefaultSequence" v]]
    else if str_eqb k $"autotype_window" then [CK $"AutoType" [] yes [CK $"Association" [] yes [c_val $"Window" v]]]
    else if str_eqb k $"autotype_enabled" then [CK $"AutoType" [] yes [c_val $"Enabled" v]]
    else [].
  Definition group_crit (k v : str) : list crit :=
    if str_eqb k $"name" then [c_val $"Name" v] else if str_eqb k $"notes" then [c_val $"Notes" v] else if str_eqb k $"uuid" then [c_val $"UUID" v] else [].
  Definition ref_g (v : str) (t : elem) : bool :=
    if rx then match R v (substr_in [105] fl) (ref_or t) with Ok b => b | Err _ => false end else ref_eq v t.
  Definition attachment_crit (k v : str) : list crit :=
    if str_eqb k $"filename" then [c_val $"Key" v]
    else if str_eqb k $"id" then [CK $"Value" [if rx then ref_re v fl else ref_is v] (ref_g v) []] else [].
  Definition kw_crit (kc : str -> str -> list crit) (kv : str * kwval) : list crit :=
    match snd kv with K_none => [] | K_tags ts => [c_tags ts] | v => kc (fst kv) (shown v) end.

  (** Template by template. *)
  Lemma piece_field key a v : plain v -> plain fl -> a = $"/String/Key[text()=""" ++ key ++ $"""]/../Value[" -> quotefree key -> forallb xml_char key = true ->
    piece (a ++ inner rx v fl $"/../..") (crit_steps (c_field key v)).
  Proof.
    intros Hv Hf -> Hk Hx.
    change (crit_steps (c_field key v)) with ([kid $"String" []; kid $"Key" [text_is key]; up] ++ kid $"Value" [val_e rx v fl] :: [up; up]).
    apply (piece_val rx v fl $"Value" _ _ (T_slash :: T_name $"String" :: T_slash :: T_name $"Key" :: t_text_is key ++ [T_slash; T_ddot]) _ [T_slash; T_ddot; T_slash; T_ddot]); try assumption; [| |lex_done| |now rewrite !forallb_app, Hx|reflexivity|discriminate].
    - change $"/String/Key[text()=""" with ($"/String/Key[text()=" ++ [34]). change $"""]/../Value[" with ([34] ++ $"]/../Value["). rewrite <- app_assoc.
      change ((T_slash :: T_name $"String" :: T_slash :: T_name $"Key" :: t_text_is key ++ [T_slash; T_ddot]) ++ [T_slash; T_name $"Value"; T_lb])
        with ([T_slash; T_name $"String"; T_slash; T_name $"Key"; T_lb; T_name $"text"; T_lp; T_rp; T_eq] ++ T_lit key :: [T_rb; T_slash; T_ddot; T_slash; T_name $"Value"; T_lb]).
      apply lexes_cut; [lex_done|exact Hk|lex_done].
    - apply (block_cons [T_slash; T_name $"String"]); [apply block_kid|]. apply (block_cons (T_slash :: T_name $"Key" :: t_text_is key)); [apply block_text|]. apply (block_cons [T_slash; T_ddot] []); [apply block_up|apply block_nil].
    - apply (block_cons [T_slash; T_ddot]); [apply block_up|]. apply (block_cons [T_slash; T_ddot] []); [apply block_up|apply block_nil].
  Qed.
  Lemma piece_one T a v : plain v -> plain fl -> a = $"/" ++ T ++ $"[" -> lexes a [T_slash; T_name T; T_lb] -> forallb xml_char T = true ->
    piece (a ++ inner rx v fl $"/..") (crit_steps (c_val T v)).
  Proof.
    intros Hv Hf -> Hl Hx. change (crit_steps (c_val T v)) with ([] ++ kid T [val_e rx v fl] :: [up]).
    apply (piece_val rx v fl T _ _ [] _ [T_slash; T_ddot]); try assumption; [apply block_nil|lex_done| |now rewrite !forallb_app, Hx|reflexivity|discriminate].
    apply (block_cons [T_slash; T_ddot] []); [apply block_up|apply block_nil].
  Qed.
  Lemma piece_two S T a v : plain v -> plain fl -> a = $"/" ++ S ++ $"/" ++ T ++ $"[" -> lexes a [T_slash; T_name S; T_slash; T_name T; T_lb] -> forallb xml_char a = true ->
    piece (a ++ inner rx v fl $"/../..") (crit_steps (CK S [] yes [c_val T v])).
  Proof.
    intros Hv Hf Ea Hl Hx. change (crit_steps (CK S [] yes [c_val T v])) with ([kid S []] ++ kid T [val_e rx v fl] :: [up; up]).
    apply (piece_val rx v fl T _ _ [T_slash; T_name S] _ [T_slash; T_ddot; T_slash; T_ddot]); try assumption; [apply block_kid|lex_done| |now rewrite Hx|rewrite Ea; reflexivity|rewrite Ea; discriminate].
    apply (block_cons [T_slash; T_ddot]); [apply block_up|]. apply (block_cons [T_slash; T_ddot] []); [apply block_up|apply block_nil].
  Qed.
  Lemma piece_window v : plain v -> plain fl ->
    piece ($"/AutoType/Association/Window[" ++ inner rx v fl $"/../../..") (crit_steps (CK $"AutoType" [] yes [CK $"Association" [] yes [c_val $"Window" v]])).
  Proof.
    intros Hv Hf. change (crit_steps _) with ([kid $"AutoType" []; kid $"Association" []] ++ kid $"Window" [val_e rx v fl] :: [up; up; up]).
    apply (piece_val rx v fl $"Window" _ _ [T_slash; T_name $"AutoType"; T_slash; T_name $"Association"] _ [T_slash; T_ddot; T_slash; T_ddot; T_slash; T_ddot]); try assumption; [lex_done| |lex_done| |reflexivity|reflexivity|discriminate].
    - apply (block_cons [T_slash; T_name $"AutoType"]); [apply block_kid|]. apply block_kid.
    - apply (block_cons [T_slash; T_ddot]); [apply block_up|]. apply (block_cons [T_slash; T_ddot]); [apply block_up|]. apply block_up.
  Qed.
  Lemma piece_tags ts : ts <> [] -> (forall g, In g ts -> plain g) -> piece (fmt $"/Tags[{}]/.." [py_join $" and " (map tag_text ts)] fl) (crit_steps (c_tags ts)).
  Proof.
    intros Hne Hg. destruct ts as [|v vs]; [now destruct Hne|].
    change (fmt $"/Tags[{}]/.." [py_join $" and " (map tag_text (v :: vs))] fl) with ($"/Tags[" ++ py_join $" and " (map tag_text (v :: vs)) ++ $"]/.."). set (j := py_join _ _).
    assert (Hj : forallb xml_char j = true).
    { unfold j. clear - Hg. revert v Hg. induction vs as [|v' vs IH]; intros v Hg.
      - cbn [map py_join]. unfold tag_text. rewrite !forallb_app. rewrite (plain_x v) by (apply Hg; left; reflexivity). reflexivity.
      - change (py_join $" and " (map tag_text (v :: v' :: vs))) with (tag_text v ++ $" and " ++ py_join $" and " (map tag_text (v' :: vs))). rewrite forallb_app. unfold tag_text at 1. rewrite !forallb_app. rewrite (plain_x v) by (apply Hg; left; reflexivity).
        rewrite (IH v') by (intros g Hin; apply Hg; right; exact Hin). reflexivity. }
    split; [reflexivity|]. split; [now rewrite !forallb_app, Hj|].
    exists ([T_slash; T_name $"Tags"; T_lb] ++ t_all v vs ++ [T_rb; T_slash; T_ddot]). split.
    - apply lexes_app; [lex_done|]. apply lexes_app; [|lex_done]. unfold j. apply lexes_all; [apply plain_q, Hg; left; reflexivity|]. rewrite Forall_forall. intros x Hx. apply plain_q, Hg. right. exact Hx.
    - change (crit_steps (c_tags (v :: vs))) with [kid $"Tags" [all_text v vs]; up].
      replace ([T_slash; T_name $"Tags"; T_lb] ++ t_all v vs ++ [T_rb; T_slash; T_ddot]) with ((T_slash :: T_name $"Tags" :: T_lb :: t_all v vs ++ [T_rb]) ++ [T_slash; T_ddot]) by (cbn [app]; rewrite <- app_assoc; reflexivity).
      apply block_cons; [apply block_tags|apply block_up].
  Qed.
  Lemma quotefree_b key : quotefree key <-> forallb (fun c => negb (c =? 34)) key = true.
  Proof. unfold quotefree. rewrite forallb_forall. split; [intros H c Hc; destruct (N.eqb_spec c 34) as [->|]; [contradiction|reflexivity]|intros H Hin; apply H in Hin; discriminate]. Qed.
  Lemma entry_piece k v : In k entry_keys -> k <> $"tags" -> plain v -> plain fl ->
    exists t, entry_xp rx k = Some t /\ piece (fmt t [v] fl) (flat_map crit_steps (entry_crit k v)).
  Proof.
    intros Hk Ht Hv Hf. unfold entry_keys in Hk.
    assert (Fld : forall key, forallb (fun c => negb (c =? 34)) key = true -> forallb xml_char key = true -> piece (($"/String/Key[text()=""" ++ key ++ $"""]/../Value[") ++ inner rx v fl $"/../..") (crit_steps (c_field key v))).
    { intros key H1 H2. apply piece_field; [assumption..|reflexivity|apply quotefree_b, H1|exact H2]. }
    repeat (destruct Hk as [<-|Hk]; [try (exfalso; now apply Ht); clear Ht|]); [..|destruct Hk].
    1: specialize (Fld $"Title" eq_refl eq_refl). 2: specialize (Fld $"UserName" eq_refl eq_refl). 3: specialize (Fld $"Password" eq_refl eq_refl).
    4: specialize (Fld $"URL" eq_refl eq_refl). 5: specialize (Fld $"Notes" eq_refl eq_refl). 10: specialize (Fld $"otp" eq_refl eq_refl).
    6: clear Fld; assert (Fld : piece ($"/UUID[" ++ inner rx v fl $"/..") (crit_steps (c_val $"UUID" v))) by (apply piece_one; [assumption..|reflexivity|lex_done|reflexivity]).
    7: clear Fld; assert (Fld : piece ($"/AutoType/DefaultSequence[" ++ inner rx v fl $"/../..") (crit_steps (CK $"AutoType" [] yes [c_val $"DefaultSequence" v]))) by (apply piece_two; [assumption..|reflexivity|lex_done|reflexivity]).
    8: clear Fld; pose proof (piece_window v Hv Hf) as Fld.
    9: clear Fld; assert (Fld : piece ($"/AutoType/Enabled[" ++ inner rx v fl $"/../..") (crit_steps (CK $"AutoType" [] yes [c_val $"Enabled" v]))) by (apply piece_two; [assumption..|reflexivity|lex_done|reflexivity]).
    all: unfold inner in Fld; destruct rx; eexists; (split; [reflexivity|]); exact Fld.
  Qed.
  Lemma group_piece k v : In k group_keys -> plain v -> plain fl ->
    exists t, group_xp rx k = Some t /\ piece (fmt t [v] fl) (flat_map crit_steps (group_crit k v)).
  Proof.
    intros Hk Hv Hf. unfold group_keys in Hk. repeat (destruct Hk as [<-|Hk]); [..|destruct Hk].
    1: assert (Fld : piece ($"/Name[" ++ inner rx v fl $"/..") (crit_steps (c_val $"Name" v))) by (apply piece_one; [assumption..|reflexivity|lex_done|reflexivity]).
    2: assert (Fld : piece ($"/UUID[" ++ inner rx v fl $"/..") (crit_steps (c_val $"UUID" v))) by (apply piece_one; [assumption..|reflexivity|lex_done|reflexivity]).
    3: assert (Fld : piece ($"/Notes[" ++ inner rx v fl $"/..") (crit_steps (c_val $"Notes" v))) by (apply piece_one; [assumption..|reflexivity|lex_done|reflexivity]).
    all: unfold inner in Fld; destruct rx; eexists; (split; [reflexivity|]); exact Fld.
  Qed.
  Lemma piece_id v : plain v -> plain fl -> exists t, attachment_xp rx $"id" = Some t /\ piece (fmt t [v] fl) (flat_map crit_steps (attachment_crit $"id" v)).
  Proof.
    intros Hv Hf. destruct rx eqn:E; eexists; (split; [reflexivity|]).
    - change (fmt _ [v] fl) with (($"/Value[re:test(@Ref, " ++ [34]) ++ v ++ (([34] ++ $", " ++ [34]) ++ fl ++ ([34] ++ $")]/.."))).
      split; [reflexivity|]. split; [now rewrite !forallb_app, (plain_x v Hv), (plain_x fl Hf)|].
      exists ((T_slash :: T_name $"Value" :: t_re [T_at; T_name $"Ref"] v fl) ++ [T_slash; T_ddot]). split.
      + replace (($"/Value[re:test(@Ref, " ++ [34]) ++ v ++ (([34] ++ $", " ++ [34]) ++ fl ++ ([34] ++ $")]/..")))
          with ($"/Value[re:test(@Ref, " ++ [34] ++ v ++ ([34] ++ ($", " ++ [34] ++ fl ++ ([34] ++ $")]/..")))) by (rewrite <- !app_assoc; reflexivity).
        change ((T_slash :: T_name $"Value" :: t_re [T_at; T_name $"Ref"] v fl) ++ [T_slash; T_ddot])
          with ([T_slash; T_name $"Value"; T_lb; T_name $"re"; T_colon; T_name $"test"; T_lp; T_at; T_name $"Ref"; T_comma] ++ T_lit v :: ([T_comma] ++ T_lit fl :: [T_rp; T_rb; T_slash; T_ddot])).
        apply lexes_cut; [lex_done|apply plain_q, Hv|]. apply lexes_cut; [lex_done|apply plain_q, Hf|lex_done].
      + unfold attachment_crit. rewrite E. change (flat_map crit_steps _) with [kid $"Value" [ref_re v fl]; up]. apply (block_cons (T_slash :: T_name $"Value" :: t_re [T_at; T_name $"Ref"] v fl)); [apply block_ref_re|apply block_up].
    - change (fmt _ [v] fl) with (($"/Value[@Ref=" ++ [34]) ++ v ++ ([34] ++ $"]/..")).
      split; [reflexivity|]. split; [now rewrite !forallb_app, (plain_x v Hv)|].
      exists ((T_slash :: T_name $"Value" :: [T_lb; T_at; T_name $"Ref"; T_eq; T_lit v; T_rb]) ++ [T_slash; T_ddot]). split.
      + rewrite <- app_assoc. change ((T_slash :: T_name $"Value" :: [T_lb; T_at; T_name $"Ref"; T_eq; T_lit v; T_rb]) ++ [T_slash; T_ddot]) with ([T_slash; T_name $"Value"; T_lb; T_at; T_name $"Ref"; T_eq] ++ T_lit v :: [T_rb; T_slash; T_ddot]).
        apply lexes_cut; [lex_done|apply plain_q, Hv|lex_done].
      + unfold attachment_crit. rewrite E. change (flat_map crit_steps _) with [kid $"Value" [ref_is v]; up]. apply (block_cons (T_slash :: T_name $"Value" :: [T_lb; T_at; T_name $"Ref"; T_eq; T_lit v; T_rb])); [apply block_ref|apply block_up].
  Qed.
  Lemma attachment_piece k v : In k attachment_keys -> plain v -> plain fl ->
    exists t, attachment_xp rx k = Some t /\ piece (fmt t [v] fl) (flat_map crit_steps (attachment_crit k v)).
  Proof.
    intros Hk Hv Hf. destruct Hk as [<-|[<-|[]]]; [apply piece_id; assumption|].
    assert (Fld : piece ($"/Key[" ++ inner rx v fl $"/..") (crit_steps (c_val $"Key" v))) by (apply piece_one; [assumption..|reflexivity|lex_done|reflexivity]).
    unfold inner in Fld; destruct rx; eexists; (split; [reflexivity|]); exact Fld.
  Qed.
  Lemma string_piece f v : plain f -> plain v -> plain fl ->
    exists t, entry_xp rx $"string" = Some t /\ piece (fmt t [f; v] fl) (crit_steps (c_field f v)).
  Proof.
    intros Hk Hv Hf. pose proof (piece_field f _ v Hv Hf eq_refl (plain_q f Hk) (plain_x f Hk)) as P.
    rewrite <- !app_assoc in P. unfold inner in P. destruct rx; eexists; (split; [reflexivity|]); exact P.
  Qed.

  (** All keyword arguments. *)
  Definition kw_fine (keys : list str) (kv : str * kwval) : Prop :=
    let '(k, v) := kv in In k keys /\ (k = $"uuid" -> exists u, v = K_uuid u) /\ (k = $"tags" -> exists ts, v = K_tags ts /\ ts <> []) /\
    match v with K_tags ts => k = $"tags" /\ forall g, In g ts -> plain g | K_none => True | _ => plain (shown v) end.
  Lemma kw_conv_fine keys kw : (forall kv, In kv kw -> kw_fine keys kv) -> kw_conv kw = Ok kw.
  Proof.
    intros H. unfold kw_conv. rewrite (mapM_ok conv_uuid (fun x => x)).
    2: { intros [k v] Hin. apply H in Hin as (_ & Hu & _). unfold conv_uuid. cbn [fst snd]. destruct (str_eqb_spec k $"uuid") as [E|E]; [|reflexivity]. destruct (Hu E) as [u ->]. reflexivity. }
    cbn [bind]. rewrite map_id. rewrite (mapM_ok conv_tags (fun x => x)), map_id; [reflexivity|].
    intros [k v] Hin. apply H in Hin as (_ & _ & Ht & _). unfold conv_tags. cbn [fst snd]. destruct (str_eqb_spec k $"tags") as [E|E]; [|reflexivity]. destruct (Ht E) as (ts & -> & _). reflexivity.
  Qed.
  Definition xp_fine (keys : list str) (xp : str -> option str) (kc : str -> str -> list crit) : Prop :=
    (forall k v, In k keys -> k <> $"tags" -> plain v -> exists t, xp k = Some t /\ piece (fmt t [v] fl) (flat_map crit_steps (kc k v))) /\
    (In $"tags" keys -> xp $"tags" = Some $"/Tags[{}]/..").
  Lemma kw_steps_fine keys xp kc kw : xp_fine keys xp kc -> (forall kv, In kv kw -> kw_fine keys kv) ->
    exists s, kw_steps xp fl kw = Ok s /\ piece s (flat_map crit_steps (flat_map (kw_crit kc) kw)).
  Proof.
    intros [H1 H2] Hkw. induction kw as [|[k v] kw IH]; [exists []; split; [reflexivity|apply piece_nil]|].
    destruct IH as (s & Es & Ps); [intros kv Hin; apply Hkw; right; exact Hin|]. destruct (Hkw (k, v)) as (Hk & Hu & Ht & Hv); [left; reflexivity|]. cbn [kw_steps].
    assert (G : exists t s1, xp k = Some t /\ match kw_text v with Some s => fmt t [s] fl | None => [] end = s1 /\ piece s1 (flat_map crit_steps (kw_crit kc (k, v)))).
    { destruct (str_eqb_spec k $"tags") as [E|E].
      - subst k. destruct (Ht eq_refl) as (ts & -> & Hne). exists $"/Tags[{}]/..". eexists. split; [apply H2, Hk|]. split; [reflexivity|]. unfold kw_crit. cbn [snd flat_map]. rewrite app_nil_r. apply piece_tags; [exact Hne|apply Hv].
      - destruct v as [|s0|b|z|u|ts]; unfold kw_crit; cbn [snd fst].
        + destruct (H1 k [] Hk E) as (t & Et & _); [split; [intros []|reflexivity]|]. exists t, []. split; [exact Et|]. split; [reflexivity|apply piece_nil].
        + destruct (H1 k _ Hk E Hv) as (t & Et & Pt). exists t. eexists. split; [exact Et|]. split; [reflexivity|exact Pt].
        + destruct (H1 k _ Hk E Hv) as (t & Et & Pt). exists t. eexists. split; [exact Et|]. split; [reflexivity|exact Pt].
        + destruct (H1 k _ Hk E Hv) as (t & Et & Pt). exists t. eexists. split; [exact Et|]. split; [reflexivity|exact Pt].
        + destruct (H1 k _ Hk E Hv) as (t & Et & Pt). exists t. eexists. split; [exact Et|]. split; [reflexivity|exact Pt].
        + destruct Hv as [Hv _]. contradiction. }
    destruct G as (t & s1 & -> & E1 & P1). rewrite Es. cbn [bind]. exists (s1 ++ s). split; [|cbn [flat_map]; rewrite flat_map_app; apply piece_app; assumption].
    f_equal. rewrite <- E1. destruct (kw_text v); reflexivity.
  Qed.
End Crits.

(** *** Criteria as predicates *)
Lemma substr_one c s : substr_in [c] s = existsb (N.eqb c) s.
Proof. induction s as [|x s IH]; [reflexivity|]. cbn [substr_in starts_with existsb]. rewrite andb_true_r, IH. reflexivity. Qed.
Lemma flags_ic o : substr_in [105] (py_str_opt o) = ignore_case o.
Proof. destruct o as [s|]; [apply substr_one|reflexivity]. Qed.
Lemma plain_none : plain $"None". Proof. split; [|reflexivity]. cbn. intuition discriminate. Qed.
Section Means.
  Variable R : regex.
  Variable rx : bool.
  Variable fl : str.
  Let ic := substr_in [105] fl.
  Definition pat (v : str) : Prop := rx = true -> forall s, exists b, R v (substr_in [105] fl) s = Ok b.
  Lemma val_ok w v : wok w -> pat v -> pred_is R w (val_e rx v fl) (fun n => val_g R rx (substr_in [105] fl) v (nd_el n)).
  Proof.
    intros Hw Hp. unfold val_e, val_g, pat in *. destruct rx; [|apply pred_text, Hw]. apply (pred_re R w Hw v fl (fun s => match R v (substr_in [105] fl) s with Ok b => b | Err _ => false end)).
    intros s. destruct (Hp eq_refl s) as [b ->]. reflexivity.
  Qed.
  Lemma c_val_ok w T v : wok w -> pat v -> crit_ok R w (c_val R rx fl T v).
  Proof. intros Hw Hp. apply crit_ok_eq. split; [|constructor]. apply preds_one. apply val_ok; assumption. Qed.
  Lemma c_nest_ok w T cs : crits_ok R w cs -> crit_ok R w (CK T [] yes cs).
  Proof. intros H. apply crit_ok_eq. split; [apply preds_nil|exact H]. Qed.
  Lemma c_field_ok w key v : wok w -> pat v -> crit_ok R w (c_field R rx fl key v).
  Proof. intros Hw Hp. apply c_nest_ok. constructor; [|constructor; [apply c_val_ok; assumption|constructor]]. apply crit_ok_eq. split; [|constructor]. apply preds_one, pred_text, Hw. Qed.
  Lemma c_tags_ok w ts : wok w -> crit_ok R w (c_tags ts).
  Proof. intros Hw. destruct ts as [|v vs]; [apply c_nest_ok; constructor|]. apply crit_ok_eq. split; [|constructor]. apply preds_one. apply pred_all, Hw. Qed.
  Ltac each_if := repeat match goal with |- context [if str_eqb ?a ?b then _ else _] => destruct (str_eqb a b) end.
  Ltac crit_tac := repeat first [apply Forall_nil | apply Forall_cons | apply c_field_ok; assumption | apply c_val_ok; assumption | apply c_nest_ok].
  Lemma entry_crit_ok w k v : wok w -> pat v -> crits_ok R w (entry_crit R rx fl k v).
  Proof. intros Hw Hp. unfold entry_crit. each_if; crit_tac. Qed.
  Lemma group_crit_ok w k v : wok w -> pat v -> crits_ok R w (group_crit R rx fl k v).
  Proof. intros Hw Hp. unfold group_crit. each_if; crit_tac. Qed.
  Lemma attachment_crit_ok w k v : wok w -> pat v -> crits_ok R w (attachment_crit R rx fl k v).
  Proof.
    intros Hw Hp. unfold attachment_crit. each_if; crit_tac. apply crit_ok_eq. split; [|constructor]. apply preds_one. unfold ref_g, pat in *. destruct rx; [|apply pred_ref, Hw].
    apply (pred_ref_re R w Hw v fl (fun s => match R v (substr_in [105] fl) s with Ok b => b | Err _ => false end)). intros s. destruct (Hp eq_refl s) as [b ->]. reflexivity.
  Qed.

  (** Meaning *)
  Lemma holds_nest T ps g cs t (P Q : elem -> Prop) : (forall k, g k = true <-> P k) -> (forall k, crits_hold cs k = true <-> Q k) ->
    (crit_holds (CK T ps g cs) t = true <-> kid_with T (fun k => P k /\ Q k) t).
  Proof.
    intros HP HQ. cbn [crit_holds]. rewrite existsb_In. unfold kid_with. split.
    - intros (k & Hk & H). apply andb_true_iff in H as [H H3]. apply andb_true_iff in H as [H1 H2]. exists k. rewrite <- HP, <- HQ. apply str_eqb_eq in H1. auto.
    - intros (k & Hk & HT & H2 & H3). exists k. split; [exact Hk|]. apply HP in H2. apply HQ in H3. unfold crits_hold in H3. rewrite H2, H3, HT, str_eqb_refl. reflexivity.
  Qed.
  Lemma kid_with_ext T P Q t : (forall k, P k <-> Q k) -> (kid_with T P t <-> kid_with T Q t).
  Proof. intros H. unfold kid_with. split; intros (k & H1 & H2 & H3); exists k; rewrite ?H in *; rewrite <- ?H in *; auto. Qed.
  Lemma val_g_iff v t : val_g R rx (substr_in [105] fl) v t = true <-> text_meets (matches R rx (substr_in [105] fl) v) t.
  Proof.
    unfold val_g, text_meets, matches. destruct rx.
    - change (text_or_empty (etext t)) with (text_or t). destruct (R v (substr_in [105] fl) (text_or t)) as [b|]; split; intros H; try discriminate; [now rewrite H|now injection H].
    - unfold text_eq. destruct (etext t); [rewrite str_eqb_eq; split; [intros ->|intros H; injection H]; auto|split; discriminate].
  Qed.
  Lemma holds_val T v t : crit_holds (c_val R rx fl T v) t = true <-> kid_with T (text_meets (matches R rx (substr_in [105] fl) v)) t.
  Proof.
    unfold c_val. rewrite (holds_nest T _ _ [] t (text_meets (matches R rx (substr_in [105] fl) v)) (fun _ => True)); [apply kid_with_ext; tauto|intros k; apply val_g_iff|intros k; cbn; tauto].
  Qed.
  Lemma holds_wrap T cs t Q : (forall k, crits_hold cs k = true <-> Q k) -> (crit_holds (CK T [] yes cs) t = true <-> kid_with T Q t).
  Proof. intros H. rewrite (holds_nest T [] yes cs t (fun _ => True) Q); [apply kid_with_ext; tauto|unfold yes; tauto|exact H]. Qed.
  Lemma hold_one c t : crits_hold [c] t = crit_holds c t. Proof. apply andb_true_r. Qed.
  Lemma text_eq_iff v t : text_eq v t = true <-> etext t = Some v.
  Proof. unfold text_eq. destruct (etext t); [rewrite str_eqb_eq; split; [intros ->|intros H; injection H]; auto|split; discriminate]. Qed.
  Lemma holds_field key v t : crit_holds (c_field R rx fl key v) t = true <-> has_field (matches R rx (substr_in [105] fl) v) key t.
  Proof.
    unfold c_field, has_field. apply holds_wrap. intros k. unfold crits_hold. cbn [forallb]. rewrite andb_true_r, andb_true_iff, holds_val.
    rewrite (holds_nest $"Key" _ _ [] k (fun x => etext x = Some key) (fun _ => True)); [|intros x; apply text_eq_iff|intros x; cbn; tauto]. rewrite (kid_with_ext $"Key" (fun x => etext x = Some key /\ True) (fun x => etext x = Some key)); [tauto|tauto].
  Qed.
  Lemma holds_tags ts t : ts <> [] -> (crit_holds (c_tags ts) t = true <-> kid_with $"Tags" (fun x => forall g, In g ts -> substring g (text_or_empty (etext x))) t).
  Proof.
    intros Hne. destruct ts as [|v vs]; [now destruct Hne|]. unfold c_tags.
    rewrite (holds_nest $"Tags" _ _ [] t (fun x => forall g, In g (v :: vs) -> substring g (text_or_empty (etext x))) (fun _ => True)); [apply kid_with_ext; tauto| |intros k; cbn; tauto].
    intros k. rewrite forallb_forall. split; intros H g Hg; [apply substr_in_spec, H, Hg|apply substr_in_spec, H, Hg].
  Qed.
  Lemma entry_crit_holds k v t : In k entry_keys -> k <> $"tags" -> (crits_hold (entry_crit R rx fl k v) t = true <-> entry_key (matches R rx (substr_in [105] fl) v) k t).
  Proof.
    intros Hk Ht. unfold entry_keys in Hk. repeat (destruct Hk as [<-|Hk]; [try (exfalso; now apply Ht); clear Ht|]); [..|destruct Hk].
    - change (crits_hold _ t) with (crits_hold [c_field R rx fl $"Title" v] t); rewrite hold_one; apply holds_field.
    - change (crits_hold _ t) with (crits_hold [c_field R rx fl $"UserName" v] t); rewrite hold_one; apply holds_field.
    - change (crits_hold _ t) with (crits_hold [c_field R rx fl $"Password" v] t); rewrite hold_one; apply holds_field.
    - change (crits_hold _ t) with (crits_hold [c_field R rx fl $"URL" v] t); rewrite hold_one; apply holds_field.
    - change (crits_hold _ t) with (crits_hold [c_field R rx fl $"Notes" v] t); rewrite hold_one; apply holds_field.
    - change (crits_hold _ t) with (crits_hold [c_val R rx fl $"UUID" v] t). rewrite hold_one. apply holds_val.
    - change (crits_hold _ t) with (crits_hold [CK $"AutoType" [] yes [c_val R rx fl $"DefaultSequence" v]] t). rewrite hold_one. apply holds_wrap. intros x. rewrite hold_one. apply holds_val.
    - change (crits_hold _ t) with (crits_hold [CK $"AutoType" [] yes [CK $"Association" [] yes [c_val R rx fl $"Window" v]]] t). rewrite hold_one. apply holds_wrap. intros x. rewrite hold_one. apply holds_wrap. intros y. rewrite hold_one. apply holds_val.
    - change (crits_hold _ t) with (crits_hold [CK $"AutoType" [] yes [c_val R rx fl $"Enabled" v]] t). rewrite hold_one. apply holds_wrap. intros x. rewrite hold_one. apply holds_val.
    - change (crits_hold _ t) with (crits_hold [c_field R rx fl $"otp" v] t); rewrite hold_one; apply holds_field.
  Qed.
  Lemma group_crit_holds k v t : In k group_keys -> (crits_hold (group_crit R rx fl k v) t = true <-> group_key (matches R rx (substr_in [105] fl) v) k t).
  Proof.
    intros Hk. unfold group_keys in Hk. repeat (destruct Hk as [<-|Hk]); [..|destruct Hk].
    - change (crits_hold _ t) with (crits_hold [c_val R rx fl $"Name" v] t). rewrite hold_one. apply holds_val.
    - change (crits_hold _ t) with (crits_hold [c_val R rx fl $"UUID" v] t). rewrite hold_one. apply holds_val.
    - change (crits_hold _ t) with (crits_hold [c_val R rx fl $"Notes" v] t). rewrite hold_one. apply holds_val.
  Qed.
  (** Attachment references: the Ref attribute occurs at most once. *)
  Lemma attachment_crit_holds k v t : In k attachment_keys -> (forall x, In x (ekids t) -> NoDup (map fst (eattrs x))) -> (rx = true -> forall x, In x (ekids t) -> etag x = $"Value" -> attr_of $"Ref" x <> None) ->
    (crits_hold (attachment_crit R rx fl k v) t = true <-> attachment_key (matches R rx (substr_in [105] fl) v) k t).
  Proof.
    intros Hk Hnd Href. destruct Hk as [<-|[<-|[]]].
    - change (crits_hold _ t) with (crits_hold [CK $"Value" [if rx then ref_re v fl else ref_is v] (ref_g R rx fl v) []] t). rewrite hold_one. cbn [crit_holds forallb]. rewrite existsb_In.
      change (attachment_key (matches R rx (substr_in [105] fl) v) $"id" t) with (kid_with $"Value" (fun x => exists r, In ($"Ref", r) (eattrs x) /\ matches R rx (substr_in [105] fl) v (Some r)) t). unfold kid_with.
      assert (A : forall x, In x (ekids t) -> etag x = $"Value" -> (ref_g R rx fl v x = true <-> exists r, In ($"Ref", r) (eattrs x) /\ matches R rx (substr_in [105] fl) v (Some r))).
      { intros x Hx HV. specialize (Hnd x Hx). unfold ref_g, matches. destruct rx.
        - specialize (Href eq_refl x Hx HV). unfold ref_or. unfold attr_of in *. destruct (List.find (fun a : str * str => str_eqb (fst a) $"Ref") (eattrs x)) as [[k0 r0]|] eqn:E; [|now destruct Href]. cbn [option_map snd text_or_empty].
          apply find_some in E as [Hin E]. apply str_eqb_eq in E. cbn [fst] in E. subst k0. split.
          + intros H. exists r0. split; [exact Hin|]. destruct (R v (substr_in [105] fl) r0); [now subst|discriminate].
          + intros (r & Hr & H). assert (r = r0) as ->; [|now rewrite H]. assert (Ep : ($"Ref", r) = ($"Ref", r0)) by (apply (NoDup_map_inj fst (eattrs x)); auto). now injection Ep.
        - unfold ref_eq. rewrite existsb_In. split.
          + intros ([k0 r0] & Hin & E). cbn [fst snd] in E. apply andb_true_iff in E as [E1 E2]. apply str_eqb_eq in E1, E2. subst. exists v. auto.
          + intros (r & Hr & H). injection H as ->. exists ($"Ref", v). split; [exact Hr|]. cbn [fst snd]. now rewrite !str_eqb_refl. }
      split.
      + intros (x & Hx & H). rewrite andb_true_r in H. apply andb_true_iff in H as [H1 H2]. apply str_eqb_eq in H1. exists x. split; [exact Hx|]. split; [exact H1|]. apply (A x Hx H1), H2.
      + intros (x & Hx & HV & H). exists x. split; [exact Hx|]. apply (A x Hx HV) in H. rewrite H, HV, str_eqb_refl. reflexivity.
    - change (crits_hold _ t) with (crits_hold [c_val R rx fl $"Key" v] t). rewrite hold_one. apply holds_val.
  Qed.
End Means.

(** *** The whole search *)
Lemma picks_filter {A} (f : A -> bool) (P : A -> Prop) l : (forall x, In x l -> (f x = true <-> P x)) -> picks P l (filter f l).
Proof.
  induction l as [|x l IH]; intros H; [constructor|]. cbn [filter]. destruct (f x) eqn:E.
  - apply picks_yes; [apply H; [left; reflexivity|exact E]|apply IH; intros; apply H; right; assumption].
  - apply picks_no; [intros HP; apply H in HP; [congruence|left; reflexivity]|apply IH; intros; apply H; right; assumption].
Qed.
Lemma picks_map {A B} (f : A -> B) (P : B -> Prop) l m : picks (fun x => P (f x)) l m -> picks P (map f l) (map f m).
Proof. induction 1; cbn; constructor; auto. Qed.
Lemma lex_query p T h s ts pt : fold_left lex_step (p ++ T) (L0, []) = (L_name (rev T), rev pt) -> no_name_head s -> lexes s ts ->
  lex (p ++ T ++ (if h : bool then [] else $"[not(ancestor::History)]") ++ s) = pt ++ T_name T :: t_hist h ++ ts.
Proof.
  intros Hp Hn Hs. set (s' := (if h then [] else $"[not(ancestor::History)]") ++ s).
  assert (Hn' : no_name_head s') by (unfold s'; destruct h; [exact Hn|reflexivity]).
  assert (Hs' : lexes s' (t_hist h ++ ts)) by (unfold s'; apply lexes_app; [destruct h; intros out; reflexivity|exact Hs]).
  unfold lex. rewrite app_assoc, fold_left_app, Hp, lex_after_name by exact Hn'. rewrite Hs', rev_involutive. cbn [lex_finish]. rewrite rev_app_distr, rev_involutive. cbn [rev]. rewrite rev_involutive, <- app_assoc. reflexivity.
Qed.
Definition tag_ok (T : str) : Prop :=
  fold_left lex_step ($"//" ++ T) (L0, []) = (L_name (rev T), rev [T_dslash]) /\ fold_left lex_step ($"/" ++ T) (L0, []) = (L_name (rev T), rev [T_slash]) /\
  fold_left lex_step ($".//" ++ T) (L0, []) = (L_name (rev T), rev [T_dot; T_dslash]) /\ fold_left lex_step ($"./" ++ T) (L0, []) = (L_name (rev T), rev [T_dot; T_slash]) /\ forallb xml_char T = true.

Section Generic.
  Variable R : regex.
  Variable d : db.
  Variable q : query.
  Variable T : str.
  Variable keys : list str.
  Variable xps : bool -> str -> option str.
  Variable kc : str -> str -> list crit.
  Variable key : (option str -> Prop) -> str -> elem -> Prop.
  Let F := d_forest d.
  Let fl := py_str_opt (q_flags q).
  Let rx := q_regex q.
  Hypothesis HT : tag_ok T.
  Hypothesis Hxp : xp_fine fl keys (xps rx) kc.
  Hypothesis Hstr : q_string q = [] \/ forall f v, plain f -> plain v -> exists t, xps rx $"string" = Some t /\ piece (fmt t [f; v] fl) (crit_steps (c_field R rx fl f v)).
  Hypothesis Hok : forall w k v, wok w -> pat R rx fl v -> crits_ok R w (kc k v).
  Hypothesis Hmean : forall k v t, In k keys -> k <> $"tags" -> In t (elements F) -> etag t = T -> (crits_hold (kc k v) t = true <-> key (matches R rx (substr_in [105] fl) v) k t).
  Hypothesis Huse : usable keys R q.
  Hypothesis Huniq : unique F.

  Definition all_crits : list crit := map (fun fv => c_field R rx fl (fst fv) (snd fv)) (q_string q) ++ flat_map (kw_crit kc) (q_kw q).
  Lemma fine_all kv : In kv (q_kw q) -> kw_fine keys kv.
  Proof. destruct Huse as (_ & _ & _ & H). destruct kv as [k v]. intros Hin. specialize (H k v Hin) as (H1 & H2 & H3 & H4). split; [exact H1|]. split; [exact H2|]. split; [exact H3|]. destruct v; auto; apply H4. Qed.
  Lemma pat_of v : pattern_ok R q v -> pat R rx fl v.
  Proof. intros H E. unfold fl. rewrite flags_ic. exact (H E). Qed.
  Lemma all_ok w : wok w -> crits_ok R w all_crits.
  Proof.
    intros Hw. unfold all_crits, crits_ok. rewrite Forall_app. split; rewrite Forall_forall; intros c Hc.
    - apply in_map_iff in Hc as ([f v] & <- & Hin). apply c_field_ok; [exact Hw|]. apply pat_of. destruct Huse as (_ & _ & H & _). apply (H f v Hin).
    - apply in_flat_map in Hc as ([k v] & Hin & Hc). destruct Huse as (_ & _ & _ & H). specialize (H k v Hin) as (_ & _ & _ & H4).
      assert (G : forall s, pattern_ok R q s -> In c (kc k s) -> crit_ok R w c) by (intros s Hs Hin'; specialize (Hok w k s Hw (pat_of s Hs)); unfold crits_ok in Hok; rewrite Forall_forall in Hok; auto).
      unfold kw_crit in Hc. cbn [snd fst] in Hc. destruct v as [|s|b|z|u|ts]; [destruct Hc| | | | |destruct Hc as [<-|[]]; apply c_tags_ok, Hw]; (eapply G; [apply H4|exact Hc]).
  Qed.
  Lemma all_mean t : In t (elements F) -> etag t = T -> (crits_hold all_crits t = true <->
    (forall f v, In (f, v) (q_string q) -> has_field (matches R (q_regex q) (ignore_case (q_flags q)) v) f t) /\
    (forall kv, In kv (q_kw q) -> meets key R (q_regex q) (ignore_case (q_flags q)) kv t)).
  Proof.
    intros Ht HTt. unfold crits_hold, all_crits. rewrite forallb_app, andb_true_iff, !forallb_forall. rewrite <- flags_ic. fold fl. fold rx.
    assert (A : forall P Q P' Q' : Prop, (P <-> P') -> (Q <-> Q') -> (P /\ Q <-> P' /\ Q')) by tauto. apply A; clear A; split.
    - intros H f v Hin. apply holds_field. apply H. apply in_map_iff. exists (f, v). auto.
    - intros H c Hc. apply in_map_iff in Hc as ([f v] & <- & Hin). apply holds_field. apply H, Hin.
    - intros H [k v] Hin. pose proof (fine_all _ Hin) as (Hk & Hu & Hts & Hv). specialize (Hmean k).
      assert (G : forall c, In c (kw_crit kc (k, v)) -> crit_holds c t = true) by (intros c Hc; apply H; apply in_flat_map; exists (k, v); auto).
      unfold meets, kw_crit in *. cbn [snd fst] in *. destruct v as [|s|b|z|u|ts]; [exact I| | | | |].
      all: try (apply Hmean; [exact Hk|intros E; destruct (Hts E) as (? & ? & _); discriminate|exact Ht|exact HTt|]; unfold crits_hold; rewrite forallb_forall; exact G).
      destruct Hv as [-> Hg]. destruct (Hts eq_refl) as (ts' & E & Hne). injection E as <-. apply holds_tags; [exact Hne|]. apply G. left. reflexivity.
    - intros H c Hc. apply in_flat_map in Hc as ([k v] & Hin & Hc). pose proof (fine_all _ Hin) as (Hk & Hu & Hts & Hv). specialize (H _ Hin). unfold meets, kw_crit in *. cbn [snd fst] in *.
      destruct v as [|s|b|z|u|ts]; [destruct Hc| | | | |].
      all: try (apply Hmean in H; [|exact Hk|intros E; destruct (Hts E) as (? & ? & _); discriminate|exact Ht|exact HTt]; unfold crits_hold in H; rewrite forallb_forall in H; exact (H c Hc)).
      destruct Hc as [<-|[]]. destruct Hv as [-> Hg]. destruct (Hts eq_refl) as (ts' & E & Hne). injection E as <-. apply holds_tags; [exact Hne|exact H].
  Qed.
  (** The query text. *)
  Lemma flat_one {A B C} (f : A -> B) (g : B -> list C) l : flat_map g (map f l) = flat_map (fun x => g (f x)) l.
  Proof. induction l as [|x l IH]; [reflexivity|]. cbn. now rewrite IH. Qed.
  Lemma query_text rec : exists s, piece s (flat_map crit_steps all_crits) /\
    find_xp (if rec : bool then $"//" ++ T else $"/" ++ T) xps q = Ok ((match q_tree q with Some _ => $"." | None => [] end) ++ (if rec then $"//" else $"/") ++ T ++ (if q_history q then [] else $"[not(ancestor::History)]") ++ s).
  Proof.
    unfold find_xp. destruct Huse as (Hp & Hfl & Hs & Hk). rewrite Hp. fold fl. fold rx.
    destruct (kw_steps_fine fl keys (xps rx) kc (q_kw q) Hxp fine_all) as (s2 & E2 & P2). rewrite (kw_conv_fine keys (q_kw q) fine_all). cbn [bind]. rewrite E2. cbn [bind].
    assert (S1 : exists s1, (match q_string q with [] => Ok [] | l => match xps rx $"string" with Some t => Ok (flat_map (fun kv => fmt t [fst kv; snd kv] fl) l) | None => Err Ex_Key end end) = Ok s1 /\
                            piece s1 (flat_map crit_steps (map (fun fv => c_field R rx fl (fst fv) (snd fv)) (q_string q)))).
    { destruct (q_string q) as [|p l] eqn:El; [exists []; split; [reflexivity|apply piece_nil]|]. destruct Hstr as [H0|H0]; [congruence|].
      destruct (H0 [] []) as (t & Et & _); [split; [intros []|reflexivity]|split; [intros []|reflexivity]|]. rewrite Et. eexists. split; [reflexivity|]. rewrite flat_one. apply piece_flat.
      intros [f v] Hin. destruct (Hs f v Hin) as (Hf & Hv & _). destruct (H0 f v Hf Hv) as (t' & Et' & P). rewrite Et in Et'. injection Et' as <-. exact P. }
    destruct S1 as (s1 & E1 & P1). rewrite E1. cbn [bind]. exists (s1 ++ s2). split; [unfold all_crits; rewrite flat_map_app; apply piece_app; assumption|]. f_equal. f_equal.
    destruct rec, (q_history q); rewrite <- ?app_assoc; reflexivity.
  Qed.
  (** Candidates as positions. *)
  Lemma elements_In e : In e (elements F) -> exists n, In n (fpre F) /\ nd_el n = e.
  Proof. rewrite elements_fpre. intros H. apply in_map_iff in H as (n & E & Hn). exists n. auto. Qed.
  Lemma fpre_In b t n : In t F -> In n (w_nodes (World b t)) -> In n (fpre F).
  Proof. intros Ht Hn. apply in_flat_map. exists t. auto. Qed.
  Definition test (n : node) : bool := tagged T n && hist_ok (q_history q) n && crits_hold all_crits (nd_el n).
  Lemma test_iff n : In n (fpre F) -> (test n = true <-> answers T key R F q (nd_el n)).
  Proof.
    intros Hn. assert (He : In (nd_el n) (elements F)) by (rewrite elements_fpre; apply in_map, Hn). unfold test, answers, tagged. rewrite !andb_true_iff, str_eqb_eq.
    assert (Hh : hist_ok (q_history q) n = true <-> q_history q = true \/ In (nd_el n) (visible F)).
    { rewrite (visible_iff F n Huniq Hn). unfold hist_ok. destruct (q_history q); cbn; [tauto|]. split; [auto|]. intros [H|H]; [discriminate|exact H]. }
    rewrite Hh. split.
    - intros [[E H1] H2]. split; [exact E|]. split; [exact H1|]. apply all_mean; assumption.
    - intros (E & H1 & H2). split; [split; assumption|]. apply all_mean; assumption.
  Qed.
  Theorem find_generic rec cand : searched F (q_tree q) rec cand ->
    exists cn l, map nd_el cn = cand /\ (forall n, In n cn -> In n (fpre F)) /\ picks (fun n => answers T key R F q (nd_el n)) cn l /\
      find R d (if rec then $"//" ++ T else $"/" ++ T) xps q = mapM cast l.
  Proof.
    intros Hs. destruct (query_text rec) as (s & (Hn & Hx & ts & Hl & Hb) & Et). pose proof (proj1 (unique_fpre F) Huniq) as Hu. destruct HT as (L1 & L2 & L3 & L4 & LX).
    assert (Xok : forall p : str, forallb xml_char p = true -> forallb xml_char (p ++ T ++ (if q_history q then [] else $"[not(ancestor::History)]") ++ s) = true).
    { intros p Hp. rewrite !forallb_app, Hp, LX, Hx. destruct (q_history q); reflexivity. }
    assert (Q : forall w n e xs cn (p : str), wok w -> find_xp (if rec then $"//" ++ T else $"/" ++ T) xps q = Ok (p ++ T ++ (if q_history q then [] else $"[not(ancestor::History)]") ++ s) -> forallb xml_char p = true ->
      parse_xpath (p ++ T ++ (if q_history q then [] else $"[not(ancestor::History)]") ++ s) = Ok e -> context F (q_tree q) = Some (w, n) -> eval R w e (Cx (XEl n) 1 1) = Ok (V_set xs) -> xs = map XEl (filter test cn) ->
      find R d (if rec then $"//" ++ T else $"/" ++ T) xps q = mapM cast (filter test cn)).
    { intros w n e xs cn p Hw E1 Hp E2 E3 E4 E5. unfold find. rewrite E1. cbn [bind]. unfold xpath_cast, xpath, xpath_raw. fold F. rewrite Xok by exact Hp. rewrite E2. cbn [bind]. rewrite E3, E4. cbn [bind]. rewrite E5.
      rewrite (mapM_ok as_node (fun x => match x with XEl n => n | _ => n end)).
      2: { intros x Hx'. apply in_map_iff in Hx' as (m & <- & _). reflexivity. }
      rewrite map_map, map_id. reflexivity. }
    destruct Hs as [t F' EF|t F' EF|e He|e He].
    - assert (Hw : wok (World true t)) by (apply (wok_of F); [exact Hu|rewrite EF; left; reflexivity]).
      exists (pre [] t), (filter test (pre [] t)). split; [symmetry; apply everything_pre|]. split; [intros n Hn'; apply (fpre_In true t); [rewrite EF; left; reflexivity|exact Hn']|].
      split; [apply picks_filter; intros n Hn'; apply test_iff, (fpre_In true t); [rewrite EF; left; reflexivity|exact Hn']|].
      eapply (Q (World true t) (Nd t []) _ _ _ $"//" Hw); [exact Et|reflexivity|eapply parse_desc; [apply (lex_query $"//" T (q_history q) s ts [T_dslash]); eassumption|exact Hb]|unfold context; rewrite EF; reflexivity| |].
      + apply search_all; [exact Hw|reflexivity|apply preds_hist, Hw|apply all_ok, Hw].
      + reflexivity.
    - assert (Hw : wok (World true t)) by (apply (wok_of F); [exact Hu|rewrite EF; left; reflexivity]).
      exists [Nd t []], (filter test [Nd t []]). split; [reflexivity|]. assert (G : forall n, In n [Nd t []] -> In n (fpre F)) by (intros n [<-|[]]; apply (fpre_In true t); [rewrite EF; left; reflexivity|apply (root_In (World true t))]).
      split; [exact G|]. split; [apply picks_filter; intros n Hn'; apply test_iff, G, Hn'|].
      eapply (Q (World true t) (Nd t []) _ _ _ $"/" Hw); [exact Et|reflexivity|eapply parse_child; [apply (lex_query $"/" T (q_history q) s ts [T_slash]); eassumption|exact Hb]|unfold context; rewrite EF; reflexivity| |].
      + apply search_root; [exact Hw|reflexivity|apply preds_hist, Hw|apply all_ok, Hw].
      + reflexivity.
    - apply elements_In in He as (n & Hn' & <-). destruct (locate_spec F true n Hu Hn') as (b & t & El & Ht & Hnt).
      assert (Hw : wok (World b t)) by (apply (wok_of F); assumption).
      assert (G : forall m, In m (strict n) -> In m (fpre F)) by (intros m Hm; apply (fpre_In b t m Ht); apply (subseq_incl _ _ (strict_subseq (World b t) n Hnt)), Hm).
      exists (strict n), (filter test (strict n)). split; [symmetry; apply everything_kids|]. split; [exact G|]. split; [apply picks_filter; intros m Hm; apply test_iff, G, Hm|].
      eapply (Q (World b t) n _ _ _ $".//" Hw); [exact Et|reflexivity|eapply parse_below; [apply (lex_query $".//" T (q_history q) s ts [T_dot; T_dslash]); eassumption|exact Hb]|exact El| |].
      + apply search_below; [exact Hw|exact Hnt|apply preds_hist, Hw|apply all_ok, Hw].
      + reflexivity.
    - apply elements_In in He as (n & Hn' & <-). destruct (locate_spec F true n Hu Hn') as (b & t & El & Ht & Hnt).
      assert (Hw : wok (World b t)) by (apply (wok_of F); assumption).
      assert (G : forall m, In m (kid_nodes n) -> In m (fpre F)) by (intros m Hm; apply (fpre_In b t m Ht); apply (kid_incl (World b t) n Hnt), Hm).
      exists (kid_nodes n), (filter test (kid_nodes n)). split; [unfold kid_nodes; rewrite map_map, map_id; reflexivity|]. split; [exact G|]. split; [apply picks_filter; intros m Hm; apply test_iff, G, Hm|].
      eapply (Q (World b t) n _ _ _ $"./" Hw); [exact Et|reflexivity|eapply parse_kid; [apply (lex_query $"./" T (q_history q) s ts [T_dot; T_slash]); eassumption|exact Hb]|exact El| |].
      + apply search_kids; [exact Hw|exact Hnt|apply preds_hist, Hw|apply all_ok, Hw].
      + reflexivity.
  Qed.
End Generic.
