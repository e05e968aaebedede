(** The parents of texts and attributes, for xpath() with a query of the user (C97). *)
From Verif Require Import Base PyStr Xml Tree XPath FindSpec Db Api ApiSpec StructSpec XPath_facts XPath_eval XPath_parse Find_facts Cbc_facts Heap Prim Struct_find UserXPath.

Section W.
  Context (R : regex) (w : world) (Hw : wok w) (n : node) (Hn : In n (w_nodes w)).
  Definition owned (x : xnode) : Prop := match x with XText m _ | XAttr m _ _ => m = n | _ => False end.
  Lemma norder_one l : (forall m, In m l -> m = n) -> l <> [] -> norder w l = [n].
  Proof.
    intros H N. assert (I : incl l (w_nodes w)) by (intros m Hm; rewrite (H m Hm); exact Hn). assert (E : forall m, In m (norder w l) <-> m = n).
    { intros m. rewrite (norder_In w l m Hw I). split; [apply H|]. intros ->. destruct l as [|m l]; [contradiction|]. rewrite <- (H m (or_introl eq_refl)) at 1. now left. }
    pose proof (NoDup_norder w l Hw) as D. destruct (norder w l) as [|a [|b r]]; [destruct (proj2 (E n) eq_refl)|now rewrite (proj1 (E a) (or_introl eq_refl))|]. exfalso. apply NoDup_cons_iff in D as [D _]. apply D. rewrite (proj1 (E a) (or_introl eq_refl)). left. apply E. right. now left.
  Qed.
  Lemma parent_owned l : (forall x, In x l -> owned x) -> l <> [] -> eval_steps R w [Step A_parent NT_node []] l = Ok [XEl n].
  Proof.
    intros H N. cbn [eval_steps]. rewrite (mapM_ok _ (fun _ => [XEl n])).
    - cbn [bind]. f_equal. assert (E : List.concat (map (fun _ : xnode => [XEl n]) l) = map XEl (map (fun _ => n) l)) by (clear H N; induction l as [|x l IH]; [reflexivity|cbn; now rewrite IH]). rewrite E, in_order_els, norder_one; [reflexivity| |].
      + intros m Hm. apply in_map_iff in Hm as (x & <- & _). reflexivity.
      + intros X. apply map_eq_nil in X. contradiction.
    - intros x Hx. apply H in Hx. destruct x as [|m|m s|m k v]; cbn in Hx; try contradiction Hx; cbn [axis_nodes filter test_ok eval_preds]; congruence.
  Qed.
  Lemma xeq_refl x : xeq x x = true.
  Proof. destruct x; cbn; rewrite ?Nat.eqb_refl, ?str_eqb_refl; reflexivity. Qed.
  (** The texts and attributes of [n] in document order: there as before. *)
  Lemma in_order_owned l : (forall x, In x l -> owned x /\ In x (items n)) -> (forall x, In x (in_order w l) -> owned x) /\ (l <> [] -> in_order w l <> []).
  Proof.
    intros H. rewrite in_order_eq. split.
    - intros x Hx. apply filter_In in Hx as [Ix Ex]. apply existsb_exists in Ex as (y & Hy & E). apply H in Hy as [Oy _]. unfold w_list in Ix. apply in_app_iff in Ix as [Ix|Ix]; [destruct (w_doc w); [destruct Ix as [<-|[]]|destruct Ix]; destruct y; cbn in E; try discriminate E; destruct Oy|].
      apply in_flat_map in Ix as (m & Hm & Ix). assert (Nm : nid m = nid n -> m = n) by (intros X; exact (NoDup_map_inj nid (w_nodes w) m n Hw Hm Hn X)).
      unfold items in Ix. destruct Ix as [<-|Ix]; [destruct y; cbn in E; try discriminate E; destruct Oy|]. apply in_app_iff in Ix as [Ix|Ix].
      + apply in_map_iff in Ix as (a & <- & _). destruct y as [|y|y s|y k v]; cbn in E; try discriminate E. apply andb_prop in E as [E _]. apply Nat.eqb_eq in E. cbn in Oy. subst y. cbn. auto.
      + destruct (etext (nd_el m)) as [s|]; [|destruct Ix]. destruct Ix as [<-|[]]. destruct y as [|y|y s'|y k v]; cbn in E; try discriminate E. apply Nat.eqb_eq in E. cbn in Oy. subst y. cbn. auto.
    - intros N. destruct l as [|y l]; [contradiction|]. destruct (H y (or_introl eq_refl)) as [_ Iy]. assert (X : In y (filter (fun x => existsb (xeq x) (y :: l)) (w_list w))).
      { apply filter_In. split; [unfold w_list; apply in_app_iff; right; apply in_flat_map; eauto|]. cbn [existsb]. now rewrite xeq_refl. }
      intros E. rewrite E in X. destruct X.
  Qed.
  Lemma two_steps a t : (forall x, In x (filter (test_ok a t) (axis_nodes w a (XEl n))) -> owned x /\ In x (items n)) ->
    eval_steps R w [Step a t []; Step A_parent NT_node []] [XEl n] = Ok (match filter (test_ok a t) (axis_nodes w a (XEl n)) with [] => [] | _ => [XEl n] end).
  Proof.
    intros H. set (l := filter (test_ok a t) (axis_nodes w a (XEl n))) in *. change (eval_steps R w (Step a t [] :: [Step A_parent NT_node []]) [XEl n]) with (let* ll := mapM (fun x => eval_preds R w [] (filter (test_ok a t) (axis_nodes w a x))) [XEl n] in eval_steps R w [Step A_parent NT_node []] (in_order w (List.concat ll))).
    cbn [mapM eval_preds bind List.concat]. fold l. rewrite app_nil_r. destruct (in_order_owned l H) as [O N]. destruct l as [|y m] eqn:El.
    - assert (Z : in_order w [] = []) by (rewrite in_order_eq; induction (w_list w) as [|z zs IH]; [reflexivity|exact IH]). rewrite Z. cbn [eval_steps mapM bind List.concat]. now rewrite Z.
    - apply parent_owned; [exact O|apply N; discriminate].
  Qed.
End W.
Lemma owner_run R s e a t d x : wf d -> has_elem d x -> forallb xml_char s = true -> parse_xpath s = Ok e -> e = E_path false [Step a t []; Step A_parent NT_node []] ->
  (forall w n y, In y (filter (test_ok a t) (axis_nodes w a (XEl n))) -> owned n y /\ In y (items n)) ->
  exists w n, nd_el n = x /\ user_xpath R s (Some (eid x)) false false d = (Ok (A_list (match filter (test_ok a t) (axis_nodes w a (XEl n)) with [] => [] | _ => [H_elem (eid x)] end)), d).
Proof.
  intros H Hx Hs Pe -> Ow. unfold has_elem in Hx. rewrite elements_fpre in Hx. apply in_map_iff in Hx as (n & <- & Hn). pose proof (proj1 (unique_fpre _) (proj1 (proj2 H))) as Hu.
  destruct (locate_spec (d_forest d) true n Hu Hn) as (b & r & E & Hr & Hnt). pose proof (wok_of (d_forest d) b r Hu Hr) as Hw. exists (World b r), n. split; [reflexivity|].
  unfold user_xpath, lift, xpath_raw. rewrite Hs, Pe. cbn [bind]. unfold context. fold (nid n). rewrite E. rewrite eval_path. cbn [start_of cx_node].
  rewrite (two_steps R (World b r) Hw n Hnt a t) by (intros y; apply Ow). cbn [bind]. destruct (filter _ _); reflexivity.
Qed.
Theorem text_owner R d t : wf d -> has_elem d t -> user_xpath R $"text()/.." (Some (eid t)) false false d = (Ok (A_list (match etext t with Some _ => [H_elem (eid t)] | None => [] end)), d).
Proof.
  intros H Ht. destruct (owner_run R $"text()/.." (E_path false [Step A_child NT_text []; Step A_parent NT_node []]) A_child NT_text d t H Ht) as (w & n & <- & ->); [vm_compute; reflexivity|vm_compute; reflexivity|reflexivity| |].
  - intros w n y Hy. apply filter_In in Hy as [Hy Ty]. cbn [axis_nodes] in Hy. apply in_app_iff in Hy as [Hy|Hy].
    + unfold text_nodes in Hy. unfold items. destruct (etext (nd_el n)) as [s|]; [|destruct Hy]. destruct Hy as [<-|[]]. split; [reflexivity|]. right. apply in_app_iff. right. now left.
    + apply in_map_iff in Hy as (k & <- & _). discriminate Ty.
  - do 3 f_equal. cbn [axis_nodes]. unfold text_nodes. rewrite filter_app. assert (E : filter (test_ok A_child NT_text) (map XEl (kid_nodes n)) = []) by (induction (kid_nodes n) as [|k l IH]; [reflexivity|exact IH]). rewrite E. destruct (etext (nd_el n)); reflexivity.
Qed.
Theorem attr_owner R d t : wf d -> has_elem d t -> user_xpath R $"@*/.." (Some (eid t)) false false d = (Ok (A_list (match eattrs t with [] => [] | _ => [H_elem (eid t)] end)), d).
Proof.
  intros H Ht. destruct (owner_run R $"@*/.." (E_path false [Step A_attr NT_any []; Step A_parent NT_node []]) A_attr NT_any d t H Ht) as (w & n & <- & ->); [vm_compute; reflexivity|vm_compute; reflexivity|reflexivity| |].
  - intros w n y Hy. apply filter_In in Hy as [Hy _]. cbn [axis_nodes] in Hy. unfold items. split; [apply in_map_iff in Hy as (a & <- & _); reflexivity|]. right. apply in_app_iff. now left.
  - do 3 f_equal. cbn [axis_nodes]. destruct (eattrs (nd_el n)) as [|a l]; reflexivity.
Qed.

(** The text of an element: its own and those of what is in it, in document order. *)
Definition whole_text (t : elem) : str := flat_map (fun e => match etext e with Some s => s | None => [] end) (everything t).
Lemma whole_text_value t : str_value t = whole_text t.
Proof.
  revert t. fix IH 1. intros [i g a x k]. unfold whole_text. cbn [str_value everything flat_map etext]. f_equal. induction k as [|e k IHk]; [reflexivity|]. cbn [flat_map]. rewrite flat_map_app, <- IHk, IH. reflexivity.
Qed.
Definition reads_q (v : str) : expr := E_cmp C_eq (E_path false [Step A_self NT_node []]) (E_lit v).
Lemma reads_parse v : quotefree v -> parse_xpath ($"*[." ++ $"=" ++ [34] ++ v ++ [34] ++ $"]") = Ok (E_path false [Step A_child NT_any [reads_q v]]).
Proof.
  intros Q. unfold parse_xpath. rewrite (lexes_lex _ [T_star; T_lb; T_dot; T_eq; T_lit v; T_rb]); [vm_compute; reflexivity|].
  replace ($"*[." ++ $"=" ++ [34] ++ v ++ [34] ++ $"]") with (($"*[." ++ $"=") ++ ([34] ++ v ++ [34]) ++ $"]") by (rewrite <- !app_assoc; reflexivity).
  change [T_star; T_lb; T_dot; T_eq; T_lit v; T_rb] with ([T_star; T_lb; T_dot; T_eq] ++ [T_lit v] ++ [T_rb]). apply lexes_app; [intros out; reflexivity|]. apply lexes_app; [now apply lexes_quoted|]. intros out; reflexivity.
Qed.
Lemma reads_eval R w (Hw : wok w) n v i z : In n (w_nodes w) -> eval R w (reads_q v) (Cx (XEl n) i z) = Ok (V_bool (str_eqb (whole_text (nd_el n)) v)).
Proof.
  intros Hn. change (eval R w (reads_q v) (Cx (XEl n) i z)) with (let* x := eval R w (E_path false [Step A_self NT_node []]) (Cx (XEl n) i z) in let* y := Ok (V_str v) in Ok (V_bool (value_cmp w C_eq x y))).
  rewrite eval_path. cbn [start_of cx_node eval_steps mapM axis_nodes filter test_ok eval_preds bind List.concat app]. change [XEl n] with (map XEl [n]). rewrite in_order_els, (norder_one w Hw n Hn); [|now intros m [->|[]]|discriminate].
  cbn [map bind value_cmp existsb atom_cmp xstr]. rewrite whole_text_value. now rewrite orb_false_r.
Qed.
(** [*[.="v"]] with tree=: the children whose text is [v]. *)
Theorem reads_found R d t v : wf d -> has_elem d t -> quotefree v -> forallb xml_char v = true -> exists es, picks (fun e => whole_text e = v) (ekids t) es /\
  user_xpath R ($"*[." ++ $"=" ++ [34] ++ v ++ [34] ++ $"]") (Some (eid t)) false false d = (Ok (A_list (map H_elem (map eid es))), d).
Proof.
  intros H Ht Q Xv. exists (filter (fun e => str_eqb (whole_text e) v) (ekids t)). split; [apply picks_filter; intros x _; apply str_eqb_eq|].
  unfold has_elem in Ht. rewrite elements_fpre in Ht. apply in_map_iff in Ht as (n & <- & Hn). pose proof (proj1 (unique_fpre _) (proj1 (proj2 H))) as Hu.
  destruct (locate_spec (d_forest d) true n Hu Hn) as (b & r & E & Hr & Hnt). pose proof (wok_of (d_forest d) b r Hu Hr) as Hw.
  unfold user_xpath, lift, xpath_raw. rewrite !forallb_app, Xv. change (forallb xml_char $"*[.") with true. change (forallb xml_char $"=") with true. change (forallb xml_char [34]) with true. change (forallb xml_char $"]") with true. cbn [andb].
  rewrite reads_parse by exact Q. cbn [bind]. unfold context. fold (nid n). rewrite E. rewrite eval_path. cbn [start_of cx_node eval_steps mapM]. cbn [axis_nodes].
  assert (F : filter (test_ok A_child NT_any) (text_nodes n ++ map XEl (kid_nodes n)) = map XEl (kid_nodes n)).
  { rewrite filter_app. unfold text_nodes. assert (F1 : filter (test_ok A_child NT_any) (map XEl (kid_nodes n)) = map XEl (kid_nodes n)) by (induction (kid_nodes n) as [|k l IH]; [reflexivity|cbn; now rewrite IH]). rewrite F1. destruct (etext (nd_el n)); reflexivity. }
  rewrite F. cbn [eval_preds]. set (g := fun x => match x with XEl m => str_eqb (whole_text (nd_el m)) v | _ => false end).
  assert (I : incl (kid_nodes n) (w_nodes (World b r))).
  { intros m Hm. unfold kid_nodes in Hm. apply in_map_iff in Hm as (k & <- & Hk). unfold w_nodes. apply pre_kid; [exact Hnt|exact Hk]. }
  rewrite (filterM_ok _ g).
  - cbn [bind List.concat]. rewrite app_nil_r. assert (G : filter g (map XEl (kid_nodes n)) = map XEl (filter (fun m => str_eqb (whole_text (nd_el m)) v) (kid_nodes n))).
    { clear. induction (kid_nodes n) as [|k l IH]; [reflexivity|]. cbn [map filter g]. rewrite IH. now destruct (str_eqb _ v). }
    rewrite G, in_order_els. rewrite norder_subseq; [|exact Hw|].
    + cbn [bind]. rewrite hits_els. cbn [bind]. rewrite concat_one. do 4 f_equal. unfold kid_nodes. clear. generalize (nd_el n :: nd_up n). intros u. induction (ekids (nd_el n)) as [|k l IH]; [reflexivity|]. cbn [map filter nd_el]. destruct (str_eqb _ v); cbn [map]; [f_equal|]; exact IH.
    + eapply subseq_trans; [apply subseq_filter|]. eapply subseq_trans; [apply kid_nodes_subseq|]. unfold w_nodes. apply pre_sub_subseq. exact Hnt.
  - intros i x Hx. apply in_map_iff in Hx as (m & <- & Hm). rewrite (reads_eval R (World b r) Hw m v) by (apply I, Hm). reflexivity.
Qed.
