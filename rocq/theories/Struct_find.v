(** What searches can return at all, and the fixed queries for the root group and the recycle bin. *)
From Coq Require Import ZifyBool ZifyNat ZifyN.
From Verif Require Import Base PyStr Xml Tree XPath Time Db XPath_parse XPath_facts XPath_eval FindSpec Find_facts Find_path Find_more ApiSpec StructSpec Heap Uuid Api Prim Api_xpath Api_fields Api_custom Api_sub Api_claims Struct Struct_add.

(** *** Any XPath expression evaluates to nodes of the tree it started in *)
Definition inside (w : world) (x : xnode) : Prop := match x with XDoc => True | XEl n | XText n _ | XAttr n _ _ => In n (w_nodes w) end.
Lemma w_list_inside w x : In x (w_list w) -> inside w x.
Proof.
  unfold w_list. intros H. apply in_app_or in H as [H|H]; [destruct (w_doc w); [destruct H as [<-|[]]; exact I|destruct H]|].
  apply in_flat_map in H as (n & Hn & H). unfold items in H. destruct H as [<-|H]; [exact Hn|]. apply in_app_or in H as [H|H].
  - apply in_map_iff in H as (a & <- & _). exact Hn.
  - destruct (etext (nd_el n)); [destruct H as [<-|[]]; exact Hn|destruct H].
Qed.
Lemma in_order_inside w l x : In x (in_order w l) -> inside w x.
Proof. rewrite in_order_eq. intros H. apply filter_In in H as [H _]. now apply w_list_inside. Qed.
Lemma filterM_sub {A} (f : nat -> A -> res bool) l : forall i r x, filterM f i l = Ok r -> In x r -> In x l.
Proof.
  induction l as [|a l IH]; intros i r x E Hx; cbn [filterM] in E; [injection E as <-; destruct Hx|]. destruct (f i a) as [b|]; [|discriminate]. cbn [bind] in E. destruct (filterM f (S i) l) as [ys|] eqn:Ey; [|discriminate]. cbn [bind] in E. injection E as <-.
  destruct b; [destruct Hx as [->|Hx]; [now left|]|]; right; now apply (IH (S i) ys).
Qed.
Section Eval.
  Variable R : regex.
  Variable w : world.
  Lemma preds_sub ps : forall l r x, eval_preds R w ps l = Ok r -> In x r -> In x l.
  Proof.
    induction ps as [|p ps IH]; intros l r x E Hx; cbn [eval_preds] in E; [injection E as <-; exact Hx|]. destruct (filterM _ 1 l) as [l'|] eqn:El; [|discriminate]. cbn [bind] in E. apply (filterM_sub _ _ _ _ _ El). now apply (IH l' r).
  Qed.
  Lemma steps_inside ss : forall l r, (forall x, In x l -> inside w x) -> eval_steps R w ss l = Ok r -> forall x, In x r -> inside w x.
  Proof.
    induction ss as [|[a t ps] ss IH]; intros l r Hl E x Hx; cbn [eval_steps] in E; [injection E as <-; now apply Hl|]. destruct (mapM _ l) as [ll|]; [|discriminate]. cbn [bind] in E. apply (IH _ _ (fun y Hy => in_order_inside w _ y Hy) E x Hx).
  Qed.
  Lemma call_set c f vs l : call R w c f vs = Ok (V_set l) -> False.
  Proof.
    unfold call. repeat match goal with |- (if ?b then _ else _) = _ -> _ => destruct b end; try discriminate.
    all: destruct vs as [|v1 [|v2 [|v3 [|v4 vs]]]]; try discriminate.
    all: try (destruct v1; discriminate).
    all: match goal with |- context [bind ?r] => destruct r; discriminate end.
  Qed.
  Lemma eval_inside e : forall c l, inside w (cx_node c) -> eval R w e c = Ok (V_set l) -> forall x, In x l -> inside w x.
  Proof.
    induction e as [abs ss|e IH ps|s|s|o a IHa b IHb|a IHa b IHb|a IHa b IHb|a IHa b IHb|f args]; intros c l Hc E x Hx.
    - rewrite eval_path in E. destruct (eval_steps R w ss (start_of w abs c)) as [r|] eqn:Er; [|discriminate]. cbn [bind] in E. injection E as <-. apply (steps_inside ss _ _) with (2 := Er); [|exact Hx].
      intros y Hy. unfold start_of in Hy. destruct abs; [destruct (w_doc w)|]; destruct Hy as [<-|[]]; try exact I; try exact Hc. cbn. unfold w_nodes. rewrite pre_eq. now left.
    - change (eval R w (E_filter e ps) c) with (let* v := eval R w e c in match v, ps with | _, [] => Ok v | V_set l, _ => let* l' := eval_preds R w ps l in Ok (V_set l') | _, _ => Err Ex_XPath end) in E.
      destruct (eval R w e c) as [v|] eqn:Ev; [|discriminate]. cbn [bind] in E. destruct ps as [|p ps].
      + assert (E' : v = V_set l) by (destruct v; congruence). rewrite E' in Ev. exact (IH c l Hc Ev x Hx).
      + destruct v as [l0|s|q|b]; try discriminate. destruct (eval_preds R w (p :: ps) l0) as [l'|] eqn:El; [|discriminate]. cbn [bind] in E. injection E as <-. apply (IH c l0 Hc Ev). now apply (preds_sub _ _ _ _ El).
    - discriminate.
    - discriminate.
    - cbn [eval] in E. destruct (eval R w a c); [|discriminate]. destruct (eval R w b c); discriminate.
    - cbn [eval] in E. destruct (eval R w a c) as [v|]; [|discriminate]. cbn [bind] in E. destruct (truth v); [destruct (eval R w b c)|]; discriminate.
    - cbn [eval] in E. destruct (eval R w a c) as [v|]; [|discriminate]. cbn [bind] in E. destruct (truth v); [|destruct (eval R w b c)]; discriminate.
    - cbn [eval] in E. destruct (eval R w a c) as [v|]; [|discriminate]. cbn [bind] in E. destruct (eval R w b c) as [u|]; [|discriminate]. cbn [bind] in E. destruct v, u; try discriminate. injection E as <-. now apply in_order_inside in Hx.
    - cbn [eval] in E. match type of E with bind ?r _ = _ => destruct r as [vs|]; [|discriminate] end. cbn [bind] in E. now apply call_set in E.
  Qed.
End Eval.
Lemma mapM_out {A B} (f : A -> res B) l : forall r y, mapM f l = Ok r -> In y r -> exists x, In x l /\ f x = Ok y.
Proof.
  induction l as [|a l IH]; intros r y E Hy; cbn [mapM] in E; [injection E as <-; destruct Hy|]. destruct (f a) as [b|] eqn:Ea; [|discriminate]. cbn [bind] in E. destruct (mapM f l) as [ys|]; [|discriminate]. cbn [bind] in E. injection E as <-.
  destruct Hy as [<-|Hy]; [exists a; split; [now left|exact Ea]|]. destruct (IH ys y eq_refl Hy) as (x & Hx & Ex). exists x. split; [now right|exact Ex].
Qed.
Lemma cast_id n r : cast n = Ok r -> rid r = nid n.
Proof.
  unfold cast. destruct (str_eqb _ $"Entry"); [intros [= <-]; reflexivity|]. destruct (str_eqb _ $"Group"); [intros [= <-]; reflexivity|]. destruct (str_eqb _ $"Binary"); [|discriminate]. destruct (nd_up n) as [|p up]; [discriminate|]. destruct (str_eqb _ _); [intros [= <-]; reflexivity|discriminate].
Qed.
Lemma locate_In F : forall b i w n, locate b F i = Some (w, n) -> In (w_root w) F /\ In n (w_nodes w) /\ nid n = i.
Proof.
  induction F as [|t F IH]; intros b i w n E; cbn [locate] in E; [discriminate|]. destruct (List.find _ (pre [] t)) as [m|] eqn:Em.
  - injection E as <- <-. apply find_some in Em as [H1 H2]. cbn [w_root w_nodes]. split; [now left|]. split; [exact H1|now apply Nat.eqb_eq].
  - destruct (IH _ _ _ _ E) as (H1 & H2). split; [now right|exact H2].
Qed.
Lemma map_nid_pre t up : map nid (pre up t) = ids t.
Proof. rewrite ids_everything, (everything_pre t up), map_map. reflexivity. Qed.
(** A search of the document, or below an element of it, only finds elements of the document. *)
Lemma xpath_in_doc R d tree s l : wf d -> (forall i, tree = Some i -> in_doc d i) -> xpath R d tree s = Ok l -> forall n, In n l -> in_doc d (nid n).
Proof.
  intros H Ht E n Hn. unfold xpath, xpath_raw in E. destruct (forallb xml_char s); [|discriminate]. destruct (parse_xpath s) as [e|]; [|discriminate]. cbn [bind] in E.
  destruct (d_forest d) as [|r F] eqn:EF; [destruct H; congruence|]. destruct (context (r :: F) tree) as [[w m]|] eqn:Ec; [|discriminate].
  assert (C : w_root w = r /\ In m (w_nodes w)).
  { unfold context in Ec. destruct tree as [i|]; [|injection Ec as <- <-; split; [reflexivity|unfold w_nodes; cbn; rewrite pre_eq; now left]].
    apply locate_In in Ec as (C1 & C2 & C3). split; [|exact C2]. specialize (Ht i eq_refl). apply (in_doc_root d r F i H EF) in Ht.
    assert (Hi : In i (ids (w_root w))). { rewrite <- C3. rewrite <- (map_nid_pre (w_root w) []). now apply in_map. }
    destruct C1 as [C1|C1]; [now symmetry|]. exfalso. pose proof (wf_unique d H) as U. rewrite EF in U. unfold unique, elements in U. cbn [flat_map] in U. rewrite map_app in U. apply (NoDup_app_disj _ _ i U).
    - rewrite <- ids_everything. exact Ht.
    - rewrite in_map_iff. rewrite ids_everything in Hi. apply in_map_iff in Hi as (u & Eu & Hu). exists u. split; [exact Eu|]. apply in_flat_map. eauto. }
  destruct C as [Cr Cm]. destruct (eval R w e (Cx (XEl m) 1 1)) as [v|] eqn:Ev; [|discriminate]. cbn [bind] in E. destruct v as [l0| | |]; try discriminate. cbn [bind] in E.
  apply (mapM_out _ _ _ _ E) in Hn as (x & Hx & Ex). apply (eval_inside R w e (Cx (XEl m) 1 1) _ Cm Ev) in Hx. destruct x; try discriminate. injection Ex as ->. cbn in Hx.
  apply (in_doc_root d r F (nid n) H EF). rewrite <- Cr. rewrite <- (map_nid_pre (w_root w) []). now apply in_map.
Qed.
Lemma find_in_doc R d p xp q l : wf d -> (forall i, q_tree q = Some i -> in_doc d i) -> find R d p xp q = Ok l -> forall r, In r l -> in_doc d (rid r).
Proof.
  intros H Ht E r Hr. unfold find in E. destruct (find_xp p xp q) as [s|]; [|discriminate]. cbn [bind] in E. unfold xpath_cast in E. destruct (xpath R d (q_tree q) s) as [m|] eqn:Em; [|discriminate]. cbn [bind] in E.
  apply (mapM_out _ _ _ _ E) in Hr as (n & Hn & Er). rewrite (cast_id n r Er). exact (xpath_in_doc R d _ s m H Ht Em n Hn).
Qed.

(** *** The root group *)
Definition root_groups (r : elem) : list elem := if str_eqb (etag r) $"KeePassFile" then flat_map (kids_of $"Group") (kids_of $"Root" r) else [].
Lemma picks_hd {A} (P : A -> Prop) l m : picks P l m -> forall x, hd_error m = Some x -> In x l /\ P x.
Proof. intros H x E. apply (picks_In P l m); [exact H|]. destruct m; [discriminate|]. injection E as ->. now left. Qed.
Lemma picks_none {A} (P : A -> Prop) l m : picks P l m -> hd_error m = None -> forall x, In x l -> ~ P x.
Proof. induction 1 as [|x l m Hx H IH|x l m Hx H IH]; [intros _ y []|discriminate|]. intros E y [<-|Hy]; [exact Hx|now apply IH]. Qed.
(** With one Root and one top-level group the root group is that group. *)
Lemma root_group_run R d r F rt g : wf d -> d_forest d = r :: F -> etag r = $"KeePassFile" -> kids_of $"Root" r = [rt] -> kids_of $"Group" rt = [g] ->
  root_group R d = (Ok (Some (eid g)), d).
Proof.
  intros H EF Er Kr Kg. unfold root_group, lift. destruct (find_groups_path R d (MkQuery (Some []) None false false None [] []) true [] r F EF) as (l & Hp & ->); [apply H|reflexivity|split; reflexivity|constructor|]. cbn [bind].
  assert (G : forall x, group_at r [] x -> x = g).
  { intros x (rg & (_ & q & Hq & Tq & Hg & Tg) & Hl). inversion Hl; subst. assert (In q (kids_of $"Root" r)) as Hq' by (apply filter_In; split; [exact Hq|now apply str_eqb_eq]). rewrite Kr in Hq'. destruct Hq' as [<-|[]].
    assert (In x (kids_of $"Group" rt)) as Hx' by (apply filter_In; split; [exact Hg|now apply str_eqb_eq]). rewrite Kg in Hx'. destruct Hx' as [<-|[]]. reflexivity. }
  assert (Hrt : In rt (ekids r) /\ etag rt = $"Root") by (assert (In rt (kids_of $"Root" r)) as Q by (rewrite Kr; now left); apply filter_In in Q as [Q1 Q2]; apply str_eqb_eq in Q2; auto).
  assert (Hg : In g (ekids rt) /\ etag g = $"Group") by (assert (In g (kids_of $"Group" rt)) as Q by (rewrite Kg; now left); apply filter_In in Q as [Q1 Q2]; apply str_eqb_eq in Q2; auto).
  assert (Ig : In g (everything r)). { destruct Hrt as [Q1 _], Hg as [Q2 _]. apply (everything_sub r rt); [now apply everything_kid|]. now apply everything_kid. }
  destruct l as [|x l].
  - exfalso. apply (picks_none _ _ _ Hp eq_refl g Ig). exists g. split; [|constructor]. split; [exact Er|]. exists rt. tauto.
  - cbn [map hd_error option_map rid]. destruct (picks_hd _ _ _ Hp x eq_refl) as [_ Hx]. now rewrite (G x Hx).
Qed.
(** *** The recycle bin: the first group of the document whose UUID child is the recorded one *)
Definition bin_query (u : bytes) : query := MkQuery None None false false None [] [($"uuid", K_uuid u)].
Lemma uuid_plain u : uuid_ok u -> plain (uuid_text u).
Proof. intros H. split; [|now apply uuid_legal]. intros Hin. pose proof (uuid_text_noquote u H) as G. rewrite forallb_forall in G. apply G in Hin. discriminate. Qed.
Lemma bin_search R d r F u : wf d -> d_forest d = r :: F -> uuid_ok u ->
  exists l, picks (is_bin (d_forest d) u) (everything r) l /\ find_groups R d true (bin_query u) = Ok (map (fun t => R_group (eid t)) l).
Proof.
  intros H EF Hu. destruct (find_groups_spec R d (bin_query u) true (everything r)) as (l & Hp & E).
  - apply H.
  - split; [reflexivity|]. split; [exact I|]. split; [intros f v []|]. intros k v [Hk|[]]. injection Hk as <- <-. split; [right; left; reflexivity|]. split; [eauto|]. split; [discriminate|]. split; [now apply uuid_plain|]. intros C; discriminate C.
  - reflexivity.
  - apply (se_all _ r F EF).
  - exists l. split; [|exact E].
    assert (G : forall t, answers $"Group" group_key R (d_forest d) (bin_query u) t <-> is_bin (d_forest d) u t).
    { intros t. unfold answers, is_bin. cbn [bin_query q_history q_string q_kw q_regex q_flags]. split.
      - intros (T & [V|V] & _ & K); [discriminate|]. split; [exact T|]. split; [exact V|]. exact (K _ (or_introl eq_refl)).
      - intros (T & V & K). split; [exact T|]. split; [now right|]. split; [intros f v []|]. intros kv [<-|[]]. exact K. }
    clear - Hp G. induction Hp; constructor; try assumption; now rewrite <- G.
Qed.
Lemma recyclebin_run R d r F e u : wf d -> d_forest d = r :: F -> meta_of $"RecycleBinUUID" r = Some e -> uuid_of_text (etext e) = Ok u ->
  exists l, picks (is_bin (d_forest d) u) (everything r) l /\ recyclebin_group R d = (Ok (option_map eid (hd_error l)), d).
Proof.
  intros H EF Em Eu. destruct (bin_search R d r F u H EF (uuid_of_text_ok _ _ Eu)) as (l & Hp & E). exists l. split; [exact Hp|]. unfold recyclebin_group.
  rewrite (mbind_ok _ _ _ _ _ (meta_run R d r F $"RecycleBinUUID" H EF ltac:(now left))). rewrite Em. rewrite (mbind_ok _ _ d u d) by (unfold of_res; now rewrite Eu). unfold lift. change (MkQuery None None false false None [] [($"uuid", K_uuid u)]) with (bin_query u). rewrite E. cbn [bind]. destruct l; reflexivity.
Qed.
(** *** './UUID[text()="..."]/..' from the bin *)
Definition self_uuid (u : bytes) : str := $"./UUID[text()=""" ++ uuid_text u ++ $"""]/..".
Lemma self_parse u : uuid_ok u -> forallb xml_char (self_uuid u) = true /\ parse_xpath (self_uuid u) = Ok (E_path false (self :: crit_steps (CK $"UUID" [text_is (uuid_text u)] (text_eq (uuid_text u)) []))).
Proof.
  intros Hu. destruct (uuid_plain u Hu) as [Hq Hx]. unfold text_ok in Hx. split; [unfold self_uuid; now rewrite !forallb_app, Hx|].
  apply (parse_from ([T_dot; T_slash; T_name $"UUID"; T_lb; T_name $"text"; T_lp; T_rp; T_eq] ++ T_lit (uuid_text u) :: [T_rb; T_slash; T_ddot])); [reflexivity|].
  assert (L : lexes (self_uuid u) ([T_dot; T_slash; T_name $"UUID"; T_lb; T_name $"text"; T_lp; T_rp; T_eq] ++ T_lit (uuid_text u) :: [T_rb; T_slash; T_ddot])).
  { unfold self_uuid. change $"./UUID[text()=""" with ($"./UUID[text()=" ++ [34]). change $"""]/.." with ([34] ++ $"]/.."). rewrite <- app_assoc. apply lexes_cut; [lex_done|exact Hq|lex_done]. }
  now apply lexes_lex.
Qed.
Definition has_uuidb (u : bytes) (t : elem) : bool := existsb (fun k => str_eqb (etag k) $"UUID" && text_eq (uuid_text u) k) (ekids t).
Lemma self_uuid_run R d b u : wf d -> has d b -> uuid_ok u -> xfirst R (Some (eid b)) (self_uuid u) d = (Ok (if has_uuidb u b then Some b else None), d).
Proof.
  intros (_ & Hu & _) Hb HU. destruct (self_parse u HU) as [Hx Hp]. rewrite elements_fpre in Hb. apply in_map_iff in Hb as (n & <- & Hn). apply unique_fpre in Hu.
  destruct (locate_spec (d_forest d) true n Hu Hn) as (bb & t & E & Ht & Hnt). pose proof (wok_of (d_forest d) bb t Hu Ht) as Hw.
  assert (E1 : eval_steps R (World bb t) (self :: crit_steps (CK $"UUID" [text_is (uuid_text u)] (text_eq (uuid_text u)) [])) (map XEl [n]) = Ok (map XEl (if has_uuidb u (nd_el n) then [n] else []))).
  { unfold self. rewrite (step_els R (World bb t) A_self NT_node [] (fun _ => true) (fun m => [m]) [n]).
    - cbn [flat_map filter app]. rewrite <- (app_nil_r (crit_steps _)). rewrite (crit_sound R (World bb t) _ Hw).
      + cbn [eval_steps]. f_equal. f_equal. cbn [filter]. cbn [crit_holds forallb].
        assert (Eh : existsb (fun k => str_eqb (etag k) $"UUID" && text_eq (uuid_text u) k && true) (ekids (nd_el n)) = has_uuidb u (nd_el n)) by (unfold has_uuidb; induction (ekids (nd_el n)) as [|k l IH]; [reflexivity|]; cbn [existsb]; now rewrite IH, andb_true_r).
        rewrite Eh. destruct (has_uuidb u (nd_el n)).
        * apply (norder_subseq (World bb t) Hw). apply subseq_one. exact Hnt.
        * now apply (norder_nil_iff (World bb t) Hw).
      + apply crit_ok_eq. split; [apply preds_one, pred_text, Hw|constructor].
      + intros m [<-|[]]. exact Hnt.
    - intros m [<-|[]]. exact Hnt.
    - intros m _. reflexivity.
    - intros m [<-|[]] k [<-|[]]. exact Hnt.
    - apply preds_nil. }
  unfold xfirst, lift, xpath, xpath_raw. rewrite Hx, Hp. cbn [bind]. unfold context. fold (nid n). rewrite E, eval_path. unfold start_of. cbn [cx_node]. change [XEl n] with (map XEl [n]). rewrite E1. cbn [bind]. rewrite mapM_as. cbn [bind]. destruct (has_uuidb u (nd_el n)); reflexivity.
Qed.
Lemma has_uuidb_iff u t : has_uuidb u t = true <-> has_uuid u t.
Proof.
  unfold has_uuidb, has_uuid, kid_with. rewrite existsb_exists. split.
  - intros (k & Hk & E). apply andb_true_iff in E as [E1 E2]. apply str_eqb_eq in E1. exists k. split; [exact Hk|]. split; [exact E1|]. unfold text_eq in E2. destruct (etext k) as [s|]; [|discriminate]. apply str_eqb_eq in E2. now subst.
  - intros (k & Hk & E1 & E2). exists k. split; [exact Hk|]. apply andb_true_iff. split; [now apply str_eqb_eq|]. unfold text_eq. rewrite E2. now apply str_eqb_eq.
Qed.
