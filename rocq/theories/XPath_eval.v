(** Evaluation of the query shapes of xpath.py. *)
From Verif Require Import Base PyStr Xml Tree XPath Db XPath_parse XPath_facts.

(** *** Subsequences *)
Inductive subseq {A} : list A -> list A -> Prop :=
| sub_nil l : subseq [] l
| sub_keep x l m : subseq l m -> subseq (x :: l) (x :: m)
| sub_skip x l m : subseq l m -> subseq l (x :: m).
Lemma subseq_refl {A} (l : list A) : subseq l l.
Proof. induction l; constructor; auto. Qed.
Lemma subseq_In {A} (l m : list A) x : subseq l m -> In x l -> In x m.
Proof. induction 1; cbn; [tauto| |]; intuition. Qed.
Lemma subseq_incl {A} (l m : list A) : subseq l m -> incl l m.
Proof. intros H x. now apply subseq_In. Qed.
Lemma subseq_skips {A} (a l m : list A) : subseq l m -> subseq l (a ++ m).
Proof. intros H. induction a; cbn; [auto|constructor; auto]. Qed.
Lemma subseq_app {A} (a b c d : list A) : subseq a c -> subseq b d -> subseq (a ++ b) (c ++ d).
Proof. intros H1 H2. induction H1; cbn; [apply subseq_skips, H2|constructor; auto|constructor; auto]. Qed.
Lemma subseq_trans {A} (a b c : list A) : subseq a b -> subseq b c -> subseq a c.
Proof.
  intros H1 H2. revert a H1. induction H2 as [|x l m H2 IH|x l m H2 IH]; intros a H1.
  - inversion H1. constructor.
  - inversion H1; subst; constructor; auto.
  - constructor. auto.
Qed.
Lemma subseq_filter {A} (f : A -> bool) l : subseq (filter f l) l.
Proof. induction l as [|x l IH]; cbn; [constructor|]. destruct (f x); constructor; exact IH. Qed.
Lemma subseq_flat {A B} (f g : A -> list B) l : (forall x, In x l -> subseq (f x) (g x)) -> subseq (flat_map f l) (flat_map g l).
Proof. intros H. induction l as [|x l IH]; cbn; [constructor|]. apply subseq_app; [apply H; left; reflexivity|apply IH; intros; apply H; right; assumption]. Qed.
Lemma subseq_flat_l {A B} (f : A -> list B) l m : subseq l m -> subseq (flat_map f l) (flat_map f m).
Proof. induction 1; cbn; [constructor|apply subseq_app; auto using subseq_refl|apply subseq_skips; auto]. Qed.
Lemma subseq_map {A B} (f : A -> B) l m : subseq l m -> subseq (map f l) (map f m).
Proof. induction 1; cbn; constructor; auto. Qed.
Lemma subseq_one {A} (x : A) l : In x l -> subseq [x] l.
Proof. induction l; cbn; [tauto|]. intros [->|H]; [repeat constructor|constructor; auto]. Qed.
Lemma pre_kids_subseq up t : subseq (map (fun k => Nd k (t :: up)) (ekids t)) (flat_map (pre (t :: up)) (ekids t)).
Proof. induction (ekids t) as [|k l IH]; cbn [map flat_map]; [constructor|]. rewrite pre_eq. cbn [app]. constructor. apply subseq_skips. exact IH. Qed.
Lemma pre_sub_subseq t0 : forall u0 n, In n (pre u0 t0) -> subseq (pre (nd_up n) (nd_el n)) (pre u0 t0).
Proof.
  induction t0 as [i g a x kids IH] using elem_ind'. intros u0 n. rewrite (pre_eq u0). cbn [ekids]. intros [<-|H].
  - cbn [nd_up nd_el]. rewrite pre_eq. apply subseq_refl.
  - apply in_flat_map in H. destruct H as (c & Hc & H). rewrite Forall_forall in IH. constructor. apply in_split in Hc as (l1 & l2 & ->). rewrite flat_map_app. cbn [flat_map].
    apply subseq_skips. rewrite <- (app_nil_r (pre (nd_up n) (nd_el n))). apply subseq_app; [|constructor]. apply IH; [apply in_or_app; right; left; reflexivity|exact H].
Qed.
Lemma kid_nodes_subseq n : subseq (kid_nodes n) (pre (nd_up n) (nd_el n)).
Proof. unfold kid_nodes. rewrite pre_eq. constructor. apply pre_kids_subseq. Qed.

Lemma filter_subseq m : forall l, NoDup (map nid m) -> subseq l m -> filter (fun n => existsb (fun y => (nid n =? nid y)%nat) l) m = l.
Proof.
  intros l Hn H. induction H as [m|x l m H IH|x l m H IH].
  - induction m as [|x m IH]; [reflexivity|]. cbn. apply IH. now inversion Hn.
  - cbn [map] in Hn. apply NoDup_cons_iff in Hn as [Hx Hn]. cbn [filter existsb]. rewrite Nat.eqb_refl. cbn [orb]. f_equal. etransitivity; [|exact (IH Hn)]. apply filter_ext_in'.
    intros n Hin. cbn. destruct (Nat.eqb_spec (nid n) (nid x)) as [E|E]; [|reflexivity]. exfalso. apply Hx. rewrite <- E. now apply in_map.
  - cbn [map] in Hn. apply NoDup_cons_iff in Hn as [Hx Hn]. cbn [filter]. destruct (existsb _ l) eqn:E; [|apply IH, Hn]. apply existsb_In in E as (y & Hy & E). apply Nat.eqb_eq in E.
    exfalso. apply Hx. rewrite E. apply in_map. apply (subseq_In l m); assumption.
Qed.

Section W.
  Variable R : regex.
  Variable w : world.
  Hypothesis Hw : wok w.
  Lemma norder_subseq l : subseq l (w_nodes w) -> norder w l = l.
  Proof. intros H. unfold norder. apply filter_subseq; assumption. Qed.
  Lemma up_incl n : In n (w_nodes w) -> incl (up_nodes (nd_up n)) (w_nodes w).
  Proof.
    unfold w_nodes. destruct n as [t up]. cbn [nd_up]. revert t. induction up as [|p up IH]; intros t Hn; [intros y []|]. cbn [up_nodes].
    destruct (pre_parent _ _ _ Hn) as [E|(p' & up' & E & Hp & _)]; [discriminate|]. cbn in E. injection E as <- <-. intros y [<-|Hy]; [exact Hp|exact (IH p Hp y Hy)].
  Qed.
  Lemma norder_nil_iff l : incl l (w_nodes w) -> (norder w l = [] <-> l = []).
  Proof.
    intros Hl. split; [|intros ->; unfold norder; clear; induction (w_nodes w) as [|x m IH]; [reflexivity|exact IH]]. intros E. destruct l as [|n l]; [reflexivity|].
    assert (H : In n (norder w (n :: l))) by (apply norder_In; [assumption..|left; reflexivity]). rewrite E in H. destruct H.
  Qed.

  (** *** Predicates *)
  Definition hist_ok (history : bool) (n : node) : bool := history || negb (existsb (fun p => str_eqb (etag p) $"History") (nd_up n)).
  Lemma filter_anc T l (b : bool) : filter (test_ok A_anc (NT_name T)) (map XEl l ++ (if b then [XDoc] else [])) = map XEl (filter (fun n => str_eqb (etag (nd_el n)) T) l).
  Proof. rewrite filter_app, filter_map_XEl by discriminate. destruct b; cbn; apply app_nil_r. Qed.
  Lemma up_nodes_els up : map nd_el (up_nodes up) = up.
  Proof. induction up; cbn; congruence. Qed.
  Lemma eval_call1 f a c v : eval R w a c = Ok v -> eval R w (E_call f [a]) c = call R w c f [v].
  Proof. intros H. cbn [eval]. rewrite H. reflexivity. Qed.
  Lemma eval_call2 f a b c u v : eval R w a c = Ok u -> eval R w b c = Ok v -> eval R w (E_call f [a; b]) c = call R w c f [u; v].
  Proof. intros H1 H2. cbn [eval]. rewrite H1, H2. reflexivity. Qed.
  Lemma eval_call3 f a b e c u v x : eval R w a c = Ok u -> eval R w b c = Ok v -> eval R w e c = Ok x -> eval R w (E_call f [a; b; e]) c = call R w c f [u; v; x].
  Proof. intros H1 H2 H3. cbn [eval]. rewrite H1, H2, H3. reflexivity. Qed.
  Lemma eval_cmp o a b c u v : eval R w a c = Ok u -> eval R w b c = Ok v -> eval R w (E_cmp o a b) c = Ok (V_bool (value_cmp w o u v)).
  Proof. intros H1 H2. cbn [eval]. rewrite H1, H2. reflexivity. Qed.
  Lemma one_step a t ps x c : cx_node c = x -> eval R w (E_path false [Step a t ps]) c = let* l := eval_preds R w ps (filter (test_ok a t) (axis_nodes w a x)) in Ok (V_set (in_order w l)).
  Proof. intros Hx. rewrite eval_path. unfold start_of. rewrite Hx. cbn [eval_steps mapM]. destruct (eval_preds R w ps _); [|reflexivity]. cbn [bind List.concat]. now rewrite app_nil_r. Qed.
  Lemma pred_nohist : pred_is R w nohist (hist_ok false).
  Proof.
    intros n i z Hn. set (l := filter (fun n => str_eqb (etag (nd_el n)) $"History") (up_nodes (nd_up n))). exists (V_bool (negb (truth (V_set (map XEl (norder w l)))))). split.
    - unfold nohist. rewrite (eval_call1 _ _ _ (V_set (map XEl (norder w l)))); [reflexivity|]. rewrite (one_step _ _ _ (XEl n)) by reflexivity. cbn [axis_nodes eval_preds]. rewrite filter_anc. cbn [bind]. now rewrite in_order_els.
    - unfold hist_ok. cbn [orb holds truth].
      assert (E : norder w l = [] <-> l = []) by (apply norder_nil_iff; intros y Hy; apply filter_In in Hy as [Hy _]; exact (up_incl n Hn y Hy)).
      assert (E2 : existsb (fun p => str_eqb (etag p) $"History") (nd_up n) = negb match l with [] => true | _ => false end).
      { unfold l. rewrite <- (up_nodes_els (nd_up n)) at 1. clear. induction (up_nodes (nd_up n)) as [|y m IH]; [reflexivity|]. cbn [map existsb filter]. destruct (str_eqb (etag (nd_el y)) $"History"); [reflexivity|exact IH]. }
      rewrite E2, negb_involutive. destruct (norder w l) as [|y m]; destruct l as [|y' m']; cbn; try reflexivity; exfalso; [destruct E as [E _]; discriminate (E eq_refl)|destruct E as [_ E]; discriminate (E eq_refl)].
  Qed.
  Lemma preds_hist history : preds_are R w (hist_ps history) (hist_ok history).
  Proof. destruct history; [exact (preds_nil R w)|]. apply preds_one, pred_nohist. Qed.

  (** Text nodes and attributes of a node. *)
  Lemma flat_pick {B} (f : node -> list B) n L : NoDup (map nid L) -> In n L -> flat_map (fun m => if (nid m =? nid n)%nat then f m else []) L = f n.
  Proof.
    clear. induction L as [|m L IH]; intros Hd Hn; [destruct Hn|]. cbn [map] in Hd. apply NoDup_cons_iff in Hd as [Hm Hd]. cbn [flat_map]. destruct Hn as [->|Hn].
    - rewrite Nat.eqb_refl. transitivity (f n ++ []); [|apply app_nil_r]. f_equal. clear IH Hd. induction L as [|k L IH]; [reflexivity|]. cbn [flat_map]. destruct (Nat.eqb_spec (nid k) (nid n)) as [E|E]; [exfalso; apply Hm; left; exact E|]. apply IH. intros H. apply Hm. right. exact H.
    - destruct (Nat.eqb_spec (nid m) (nid n)) as [E|E]; [exfalso; apply Hm; rewrite E; now apply in_map|]. apply IH; assumption.
  Qed.
  Lemma in_order_flat l : in_order w l = (if w_doc w && existsb (xeq XDoc) l then [XDoc] else []) ++ flat_map (fun m => filter (fun x => existsb (xeq x) l) (items m)) (w_nodes w).
  Proof. rewrite in_order_eq. unfold w_list. rewrite filter_app, filter_flat_map. f_equal. destruct (w_doc w); [|reflexivity]. cbn. destruct (existsb _ l); reflexivity. Qed.
  Lemma in_order_text n : In n (w_nodes w) -> in_order w (text_nodes n) = text_nodes n.
  Proof.
    intros Hn. rewrite in_order_flat. destruct (etext (nd_el n)) as [s|] eqn:Es; unfold text_nodes at 1 2; rewrite !Es.
    2: { unfold text_nodes. rewrite Es. cbn [existsb]. rewrite andb_false_r. cbn [app]. clear. induction (w_nodes w) as [|m L IH]; [reflexivity|]. cbn [flat_map]. rewrite IH, app_nil_r. induction (items m); auto. }
    cbn [existsb xeq orb]. rewrite andb_false_r. cbn [app]. rewrite <- (flat_pick text_nodes n (w_nodes w) Hw Hn). apply flat_map_ext. intros m. unfold items. cbn [filter xeq orb]. rewrite filter_app.
    replace (filter _ (map _ (eattrs (nd_el m)))) with (@nil xnode) by (clear; induction (eattrs (nd_el m)); auto). cbn [app]. unfold text_nodes.
    destruct (etext (nd_el m)); [|destruct (_ =? _)%nat; reflexivity]. cbn [filter xeq]. rewrite orb_false_r. destruct (_ =? _)%nat; reflexivity.
  Qed.
  Lemma in_order_attrs n T : In n (w_nodes w) ->
    let l := filter (test_ok A_attr (NT_name T)) (axis_nodes w A_attr (XEl n)) in in_order w l = l.
  Proof.
    intros Hn l. rewrite in_order_flat. 
    assert (El : l = map (fun a => XAttr n (fst a) (snd a)) (filter (fun a : str * str => str_eqb (fst a) T) (eattrs (nd_el n)))).
    { unfold l. cbn [axis_nodes]. clear. induction (eattrs (nd_el n)) as [|a q IH]; [reflexivity|]. cbn [map filter test_ok]. rewrite IH. destruct (str_eqb (fst a) T); reflexivity. }
    replace (existsb (xeq XDoc) l) with false by (rewrite El; clear; induction (filter _ (eattrs (nd_el n))); auto). rewrite andb_false_r. cbn [app].
    set (f := fun m => map (fun a => XAttr m (fst a) (snd a)) (filter (fun a : str * str => str_eqb (fst a) T) (eattrs (nd_el m)))).
    etransitivity; [|etransitivity; [exact (flat_pick f n (w_nodes w) Hw Hn)|symmetry; exact El]].
    assert (Hm : forall m x, In m (w_nodes w) -> In x (items m) -> existsb (xeq x) l = (nid m =? nid n)%nat && match x with XAttr _ k _ => str_eqb k T | _ => false end).
    { intros m x Hm Hx. rewrite El. apply eq_true_iff_eq. rewrite existsb_In, andb_true_iff. split.
      - intros (y & Hy & E). apply in_map_iff in Hy as (a & <- & Ha). apply filter_In in Ha as [_ Ha]. destruct x as [|x|x s|x k v]; cbn in E; try discriminate. apply andb_true_iff in E as [E1 E2].
        unfold items in Hx. destruct Hx as [Hx|Hx]; [discriminate|]. apply in_app_or in Hx as [Hx|Hx]; [|destruct (etext (nd_el m)); [destruct Hx as [Hx|[]]; discriminate|destruct Hx]].
        apply in_map_iff in Hx as (b & Hb & _). injection Hb as <- <- <-. split; [exact E1|]. apply str_eqb_eq in E2, Ha. apply str_eqb_eq. congruence.
      - intros [E1 E2]. destruct x as [|x|x s|x k v]; try discriminate. unfold items in Hx. destruct Hx as [Hx|Hx]; [discriminate|]. apply in_app_or in Hx as [Hx|Hx]; [|destruct (etext (nd_el m)); [destruct Hx as [Hx|[]]; discriminate|destruct Hx]].
        apply in_map_iff in Hx as (b & Hb & Hb'). injection Hb as <- <- <-. apply Nat.eqb_eq in E1. assert (m = n) as -> by (apply (NoDup_map_inj nid (w_nodes w)); assumption).
        exists (XAttr n (fst b) (snd b)). split; [apply in_map_iff; exists b; split; [reflexivity|]; apply filter_In; auto|]. cbn. rewrite Nat.eqb_refl. apply str_eqb_eq. reflexivity. }
    assert (G : forall L, incl L (w_nodes w) -> flat_map (fun m => filter (fun x => existsb (xeq x) l) (items m)) L = flat_map (fun m => if (nid m =? nid n)%nat then f m else []) L).
    { induction L as [|m L IH]; intros Hi; [reflexivity|]. cbn [flat_map]. rewrite IH by (intros y Hy; apply Hi; right; exact Hy). f_equal. assert (Hmm : In m (w_nodes w)) by (apply Hi; left; reflexivity).
      rewrite (filter_ext_in' _ (fun x => (nid m =? nid n)%nat && match x with XAttr _ k _ => str_eqb k T | _ => false end) _ (fun x Hx => Hm m x Hmm Hx)).
      unfold items, f. cbn [filter]. rewrite andb_false_r, filter_app. destruct (nid m =? nid n)%nat; cbn [andb].
      - assert (Et : forall g, (forall s, g (XText m s) = false) -> filter g (match etext (nd_el m) with Some s => [XText m s] | None => [] end) = []) by (intros g Hg; destruct (etext (nd_el m)); [cbn; now rewrite Hg|reflexivity]).
        rewrite Et by reflexivity. rewrite app_nil_r. clear. induction (eattrs (nd_el m)) as [|[k v] q IH]; [reflexivity|]. cbn [map filter fst snd]. rewrite IH. destruct (str_eqb k T); reflexivity.
      - clear. generalize (map (fun a => XAttr m (fst a) (snd a)) (eattrs (nd_el m))). intros q. induction q as [|a q IH]; [destruct (etext (nd_el m)); reflexivity|exact IH]. }
    apply G, incl_refl.
  Qed.
  Lemma eval_text n i z : In n (w_nodes w) -> eval R w p_text (Cx (XEl n) i z) = Ok (V_set (text_nodes n)).
  Proof.
    intros Hn. unfold p_text. rewrite (one_step _ _ _ (XEl n)) by reflexivity. cbn [axis_nodes eval_preds]. rewrite filter_app.
    replace (filter (test_ok A_child NT_text) (map XEl (kid_nodes n))) with (@nil xnode) by (clear; induction (kid_nodes n); auto). rewrite app_nil_r.
    replace (filter (test_ok A_child NT_text) (text_nodes n)) with (text_nodes n) by (unfold text_nodes; destruct (etext (nd_el n)); reflexivity). cbn [bind]. now rewrite in_order_text.
  Qed.
  Definition text_eq (v : str) (t : elem) : bool := match etext t with Some s => str_eqb s v | None => false end.
  Definition text_or (t : elem) : str := match etext t with Some s => s | None => [] end.
  Lemma pred_text v : pred_is R w (text_is v) (fun n => text_eq v (nd_el n)).
  Proof.
    intros n i z Hn. eexists. split; [unfold text_is; apply eval_cmp; [apply eval_text, Hn|reflexivity]|]. cbn [holds truth]. unfold text_nodes, text_eq. destruct (etext (nd_el n)); [|reflexivity].
    cbn. apply orb_false_r.
  Qed.
  Lemma to_str_text n : to_str w (V_set (text_nodes n)) = text_or (nd_el n).
  Proof. unfold text_nodes, text_or. destruct (etext (nd_el n)); reflexivity. Qed.
  Lemma pred_re v fl g : (forall s, R v (substr_in [105] fl) s = Ok (g s)) -> pred_is R w (text_re v fl) (fun n => g (text_or (nd_el n))).
  Proof.
    intros HR n i z Hn. exists (V_bool (g (text_or (nd_el n)))). split; [|reflexivity]. unfold text_re. rewrite (eval_call3 _ _ _ _ _ (V_set (text_nodes n)) (V_str v) (V_str fl)); [|apply eval_text, Hn|reflexivity..].
    change (call R w (Cx (XEl n) i z) $"re:test" [V_set (text_nodes n); V_str v; V_str fl]) with (let* b := R v (substr_in [105] fl) (to_str w (V_set (text_nodes n))) in Ok (V_bool b)). rewrite HR, to_str_text. reflexivity.
  Qed.
  Lemma eval_has v n i z : In n (w_nodes w) -> eval R w (has_text v) (Cx (XEl n) i z) = Ok (V_bool (substr_in v (text_or (nd_el n)))).
  Proof.
    intros Hn. unfold has_text. rewrite (eval_call2 _ _ _ _ (V_set (text_nodes n)) (V_str v)); [|apply eval_text, Hn|reflexivity].
    change (call R w (Cx (XEl n) i z) $"contains" [V_set (text_nodes n); V_str v]) with (Ok (V_bool (substr_in v (to_str w (V_set (text_nodes n)))))). now rewrite to_str_text.
  Qed.
  Lemma eval_all n i z : In n (w_nodes w) -> forall vs v, eval R w (all_text v vs) (Cx (XEl n) i z) = Ok (V_bool (forallb (fun v => substr_in v (text_or (nd_el n))) (v :: vs))).
  Proof.
    intros Hn. induction vs as [|v' vs IH]; intros v; cbn [all_text].
    - rewrite eval_has by exact Hn. cbn [forallb]. now rewrite andb_true_r.
    - change (eval R w (E_and (has_text v) (all_text v' vs)) (Cx (XEl n) i z)) with
        (let* x := eval R w (has_text v) (Cx (XEl n) i z) in if truth x then let* y := eval R w (all_text v' vs) (Cx (XEl n) i z) in Ok (V_bool (truth y)) else Ok (V_bool false)).
      rewrite eval_has, IH by exact Hn. cbn [bind truth]. cbn [forallb]. destruct (substr_in v (text_or (nd_el n))); reflexivity.
  Qed.
  Lemma pred_all vs v : pred_is R w (all_text v vs) (fun n => forallb (fun v => substr_in v (text_or (nd_el n))) (v :: vs)).
  Proof. intros n i z Hn. eexists. split; [apply eval_all, Hn|reflexivity]. Qed.
  Definition ref_eq (v : str) (t : elem) : bool := existsb (fun a : str * str => str_eqb (fst a) $"Ref" && str_eqb (snd a) v) (eattrs t).
  Lemma eval_ref n i z : In n (w_nodes w) -> eval R w (E_path false [Step A_attr (NT_name $"Ref") []]) (Cx (XEl n) i z) = Ok (V_set (map (fun a => XAttr n (fst a) (snd a)) (filter (fun a : str * str => str_eqb (fst a) $"Ref") (eattrs (nd_el n))))).
  Proof.
    intros Hn. rewrite (one_step _ _ _ (XEl n)) by reflexivity. cbn [eval_preds bind]. rewrite in_order_attrs by exact Hn. f_equal. f_equal. cbn [axis_nodes]. clear. induction (eattrs (nd_el n)) as [|a q IH]; [reflexivity|]. cbn [map filter test_ok]. rewrite IH. destruct (str_eqb (fst a) _); reflexivity.
  Qed.
  Lemma pred_ref v : pred_is R w (ref_is v) (fun n => ref_eq v (nd_el n)).
  Proof.
    intros n i z Hn. eexists. split; [unfold ref_is; apply eval_cmp; [apply eval_ref, Hn|reflexivity]|]. cbn [holds truth]. unfold ref_eq. cbn [value_cmp]. clear. induction (eattrs (nd_el n)) as [|a q IH]; [reflexivity|].
    cbn [filter existsb]. rewrite <- IH. destruct (str_eqb (fst a) _); reflexivity.
  Qed.
  Definition ref_or (t : elem) : str := match attr_of $"Ref" t with Some s => s | None => [] end.
  Lemma pred_ref_re v fl g : (forall s, R v (substr_in [105] fl) s = Ok (g s)) -> pred_is R w (ref_re v fl) (fun n => g (ref_or (nd_el n))).
  Proof.
    intros HR n i z Hn. exists (V_bool (g (ref_or (nd_el n)))). split; [|reflexivity]. unfold ref_re. erewrite eval_call3; [|apply eval_ref, Hn|reflexivity..].
    match goal with |- call _ _ _ _ [?a; _; _] = _ => set (x := a) end.
    change (call R w (Cx (XEl n) i z) $"re:test" [x; V_str v; V_str fl]) with (let* b := R v (substr_in [105] fl) (to_str w x) in Ok (V_bool b)). rewrite HR. cbn [bind]. do 3 f_equal. unfold x, ref_or, attr_of, to_str.
    clear. induction (eattrs (nd_el n)) as [|a q IH]; [reflexivity|]. cbn [filter List.find]. destruct (str_eqb (fst a) _); [reflexivity|exact IH].
  Qed.

  (** *** Where a search starts *)
  Lemma NoDup_nodes : NoDup (w_nodes w). Proof. exact (NoDup_map_inv _ _ Hw). Qed.
  Lemma in_order_doc l : w_doc w = true -> in_order w (XDoc :: map XEl l) = XDoc :: map XEl (norder w l).
  Proof.
    intros Hd. rewrite in_order_flat, Hd. cbn [existsb xeq orb andb app]. f_equal. rewrite <- in_order_els, in_order_flat.
    replace (existsb (xeq XDoc) (map XEl l)) with false by (clear; induction l; auto). rewrite andb_false_r. cbn [app]. apply flat_map_ext. intros m.
    apply filter_ext_in'. intros x Hx. cbn [existsb]. replace (xeq x XDoc) with false; [reflexivity|]. destruct x; try reflexivity. exfalso. unfold items in Hx. destruct Hx as [Hx|Hx]; [discriminate|]. apply in_app_or in Hx as [Hx|Hx].
    - apply in_map_iff in Hx as (a & Ha & _). discriminate.
    - destruct (etext (nd_el m)); [destruct Hx as [Hx|[]]; discriminate|destruct Hx].
  Qed.
  Definition strict (n : node) : list node := flat_map (pre (nd_el n :: nd_up n)) (ekids (nd_el n)).
  Lemma strict_subseq n : In n (w_nodes w) -> subseq (strict n) (w_nodes w).
  Proof. intros Hn. eapply subseq_trans; [|apply (pre_sub_subseq _ _ n Hn)]. rewrite pre_eq. constructor. apply subseq_refl. Qed.
  Lemma pre_subseq n : In n (w_nodes w) -> subseq (pre (nd_up n) (nd_el n)) (w_nodes w).
  Proof. apply pre_sub_subseq. Qed.
  Lemma filter_incl {A} (f : A -> bool) l m : incl l m -> incl (filter f l) m.
  Proof. intros H x Hx. apply filter_In in Hx as [Hx _]. auto. Qed.
  Lemma hd_kids up t n : In n (pre up t) -> n = Nd t up \/ exists m, In m (pre up t) /\ In n (kid_nodes m).
  Proof.
    intros H. destruct (pre_parent _ _ _ H) as [->|(p & up' & E & Hp & Hk)]; [left; reflexivity|right]. exists (Nd p up'). split; [exact Hp|]. unfold kid_nodes. cbn. apply in_map_iff. exists (nd_el n). split; [|exact Hk]. destruct n. cbn in *. now subst.
  Qed.
  Definition tagged (T : str) (n : node) : bool := str_eqb (etag (nd_el n)) T.
  Lemma norder_strict T g n : In n (w_nodes w) -> norder w (flat_map (fun m => filter g (named_kids T m)) (pre (nd_up n) (nd_el n))) = filter (fun m => tagged T m && g m) (strict n).
  Proof.
    intros Hn. rewrite <- (norder_subseq (filter (fun m => tagged T m && g m) (strict n))) by (eapply subseq_trans; [apply subseq_filter|apply strict_subseq, Hn]).
    assert (Hsub : incl (pre (nd_up n) (nd_el n)) (w_nodes w)) by (apply pre_sub, Hn).
    apply norder_ext; [exact Hw| | |].
    - intros k Hk. apply in_flat_map in Hk as (m & Hm & Hk). apply filter_In in Hk as [Hk _]. unfold named_kids in Hk. apply filter_In in Hk as [Hk _]. apply (kid_incl w m); auto.
    - apply filter_incl. apply subseq_incl, strict_subseq, Hn.
    - intros k. rewrite in_flat_map, filter_In. unfold named_kids, tagged. split.
      + intros (m & Hm & Hk). apply filter_In in Hk as [Hk Hg]. apply filter_In in Hk as [Hk HT]. rewrite HT, Hg. split; [|reflexivity].
        unfold kid_nodes in Hk. apply in_map_iff in Hk as (e & <- & He). rewrite pre_eq in Hm. destruct Hm as [<-|Hm].
        * unfold strict. cbn [nd_el nd_up] in *. apply in_flat_map. exists e. split; [exact He|]. rewrite pre_eq. left. reflexivity.
        * unfold strict. apply in_flat_map in Hm as (c & Hc & Hm). apply in_flat_map. exists c. split; [exact Hc|]. apply pre_kid; assumption.
      + intros [Hk H]. apply andb_true_iff in H as [HT Hg]. unfold strict in Hk. apply in_flat_map in Hk as (c & Hc & Hk).
        destruct (hd_kids _ _ _ Hk) as [->|(m & Hm & Hkm)].
        * exists n. split; [rewrite pre_eq; left; destruct n; reflexivity|]. apply filter_In. split; [|exact Hg]. apply filter_In. split; [|exact HT]. unfold kid_nodes. apply in_map_iff. exists c. auto.
        * exists m. split; [rewrite pre_eq; right; apply in_flat_map; exists c; auto|]. apply filter_In. split; [|exact Hg]. apply filter_In. split; assumption.
  Qed.
  Lemma filter_true {A} (l : list A) (f : A -> bool) : (forall x, f x = true) -> filter f l = l.
  Proof. intros H. induction l as [|x l IH]; [reflexivity|]. cbn. now rewrite H, IH. Qed.
  Lemma filter_filter {A} (f g : A -> bool) l : filter f (filter g l) = filter (fun x => g x && f x) l.
  Proof. induction l as [|x l IH]; [reflexivity|]. cbn. destruct (g x); cbn; [destruct (f x); now rewrite IH|exact IH]. Qed.
  Lemma step_self n ss : In n (w_nodes w) -> eval_steps R w (self :: ss) [XEl n] = eval_steps R w ss [XEl n].
  Proof.
    intros Hn. unfold self. cbn [eval_steps mapM axis_nodes filter test_ok eval_preds bind List.concat app]. change [XEl n] with (map XEl [n]). rewrite in_order_els, norder_subseq by (apply subseq_one, Hn). reflexivity.
  Qed.
  Lemma step_dos n ss : In n (w_nodes w) -> eval_steps R w (dos :: ss) [XEl n] = eval_steps R w ss (map XEl (pre (nd_up n) (nd_el n))).
  Proof.
    intros Hn. unfold dos. cbn [eval_steps mapM axis_nodes eval_preds bind List.concat]. rewrite app_nil_r, filter_true by reflexivity. rewrite in_order_els, norder_subseq by (apply pre_subseq, Hn). reflexivity.
  Qed.
  Lemma search_below T ps g cs n : In n (w_nodes w) -> preds_are R w ps g -> crits_ok R w cs -> forall i z,
    eval R w (E_path false (self :: dos :: kid T ps :: flat_map crit_steps cs)) (Cx (XEl n) i z) = Ok (V_set (map XEl (filter (fun m => tagged T m && g m && crits_hold cs (nd_el m)) (strict n)))).
  Proof.
    intros Hn Hp Hc i z. rewrite eval_path. unfold start_of. cbn [cx_node]. rewrite step_self, step_dos by exact Hn. unfold kid. rewrite step_child with (g := g); [|apply pre_sub, Hn|exact Hp].
    rewrite norder_strict by exact Hn. set (l := filter (fun m => tagged T m && g m) (strict n)).
    assert (Hs : subseq l (w_nodes w)) by (eapply subseq_trans; [apply subseq_filter|apply strict_subseq, Hn]).
    rewrite <- (norder_subseq l Hs). rewrite <- (app_nil_r (flat_map crit_steps cs)). rewrite (crits_sound R w cs Hw Hc l []) by (apply subseq_incl, Hs). cbn [eval_steps bind].
    rewrite norder_subseq by (eapply subseq_trans; [apply subseq_filter|exact Hs]). unfold l. rewrite filter_filter. reflexivity.
  Qed.
  Lemma kids_subseq n : In n (w_nodes w) -> subseq (kid_nodes n) (w_nodes w).
  Proof. intros Hn. eapply subseq_trans; [apply kid_nodes_subseq|apply pre_subseq, Hn]. Qed.
  Lemma search_kids T ps g cs n : In n (w_nodes w) -> preds_are R w ps g -> crits_ok R w cs -> forall i z,
    eval R w (E_path false (self :: kid T ps :: flat_map crit_steps cs)) (Cx (XEl n) i z) = Ok (V_set (map XEl (filter (fun m => tagged T m && g m && crits_hold cs (nd_el m)) (kid_nodes n)))).
  Proof.
    intros Hn Hp Hc i z. rewrite eval_path. unfold start_of. cbn [cx_node]. rewrite step_self by exact Hn. unfold kid. change [XEl n] with (map XEl [n]). rewrite step_child with (g := g); [|intros y [<-|[]]; exact Hn|exact Hp].
    cbn [flat_map]. rewrite app_nil_r. unfold named_kids. rewrite filter_filter. fold (tagged T). set (l := filter _ (kid_nodes n)).
    assert (Hs : subseq l (w_nodes w)) by (eapply subseq_trans; [apply subseq_filter|apply kids_subseq, Hn]).
    rewrite <- (app_nil_r (flat_map crit_steps cs)). rewrite (crits_sound R w cs Hw Hc l []) by (apply subseq_incl, Hs). cbn [eval_steps bind].
    rewrite norder_subseq by (eapply subseq_trans; [apply subseq_filter|exact Hs]). unfold l. rewrite filter_filter. reflexivity.
  Qed.
  Lemma root_In : In (Nd (w_root w) []) (w_nodes w).
  Proof. unfold w_nodes. rewrite pre_eq. left. reflexivity. Qed.
  (** From the document node. *)
  Lemma search_root T ps g cs c : w_doc w = true -> preds_are R w ps g -> crits_ok R w cs ->
    eval R w (E_path true (kid T ps :: flat_map crit_steps cs)) c = Ok (V_set (map XEl (filter (fun m => tagged T m && g m && crits_hold cs (nd_el m)) [Nd (w_root w) []]))).
  Proof.
    intros Hd Hp Hc. rewrite eval_path. unfold start_of. rewrite Hd. unfold kid. cbn [eval_steps mapM axis_nodes]. change [XEl (Nd (w_root w) [])] with (map XEl [Nd (w_root w) []]). rewrite filter_map_XEl by discriminate.
    rewrite Hp by (apply filter_incl; intros y [<-|[]]; apply root_In). cbn [bind List.concat]. rewrite app_nil_r, in_order_els. rewrite filter_filter. fold (tagged T). set (l := filter _ [Nd (w_root w) []]).
    assert (Hs : subseq l (w_nodes w)) by (eapply subseq_trans; [apply subseq_filter|apply subseq_one, root_In]).
    rewrite <- (app_nil_r (flat_map crit_steps cs)). rewrite (crits_sound R w cs Hw Hc l []) by (apply subseq_incl, Hs). cbn [eval_steps bind].
    rewrite norder_subseq by (eapply subseq_trans; [apply subseq_filter|exact Hs]). unfold l. rewrite filter_filter. reflexivity.
  Qed.
  Lemma norder_all : norder w (w_nodes w) = w_nodes w.
  Proof. apply norder_subseq, subseq_refl. Qed.
  Lemma search_all T ps g cs c : w_doc w = true -> preds_are R w ps g -> crits_ok R w cs ->
    eval R w (E_path true (dos :: kid T ps :: flat_map crit_steps cs)) c = Ok (V_set (map XEl (filter (fun m => tagged T m && g m && crits_hold cs (nd_el m)) (w_nodes w)))).
  Proof.
    intros Hd Hp Hc. rewrite eval_path. unfold start_of. rewrite Hd. unfold dos. cbn [eval_steps mapM axis_nodes eval_preds bind List.concat]. rewrite app_nil_r, filter_true by reflexivity. rewrite in_order_doc, norder_all by exact Hd.
    unfold kid. cbn [eval_steps mapM]. set (rt := Nd (w_root w) []).
    assert (E0 : eval_preds R w ps (filter (test_ok A_child (NT_name T)) (axis_nodes w A_child XDoc)) = Ok (map XEl (filter (fun m => tagged T m && g m) [rt]))).
    { cbn [axis_nodes]. change [XEl (Nd (w_root w) [])] with (map XEl [rt]). rewrite filter_map_XEl by discriminate. rewrite Hp by (apply filter_incl; intros y [<-|[]]; apply root_In). rewrite filter_filter. reflexivity. }
    rewrite E0. cbn [bind].
    rewrite (mapM_ok _ (fun x => match x with XEl n => map XEl (filter g (named_kids T n)) | _ => [] end)).
    2: { intros x Hx. apply in_map_iff in Hx as (n & <- & Hn). rewrite child_name. fold (named_kids T n). rewrite Hp; [reflexivity|]. unfold named_kids. apply filter_incl, kid_incl, Hn. }
    cbn [bind List.concat]. rewrite map_map. rewrite <- (map_map (fun n => filter g (named_kids T n)) (map XEl)), concat_map_map, <- flat_map_concat_map, <- map_app, in_order_els.
    set (l0 := filter _ [rt] ++ _). set (l := filter (fun m => tagged T m && g m) (w_nodes w)).
    assert (El : norder w l0 = l).
    { apply norder_as_filter; [exact Hw| |].
      - unfold l0. apply incl_app; [apply filter_incl; intros y [<-|[]]; apply root_In|]. intros k Hk. apply in_flat_map in Hk as (m & Hm & Hk). apply filter_In in Hk as [Hk _]. unfold named_kids in Hk. apply filter_In in Hk as [Hk _]. apply (kid_incl w m); auto.
      - intros n Hn. unfold l0. rewrite in_app_iff, filter_In, in_flat_map. split.
        + intros [[_ H]|(m & Hm & Hk)]; [exact H|]. apply filter_In in Hk as [Hk Hg]. unfold named_kids in Hk. apply filter_In in Hk as [_ HT]. unfold tagged. now rewrite HT, Hg.
        + intros H. destruct (hd_kids _ _ _ Hn) as [E|(m & Hm & Hk)]; [left; split; [left; unfold rt; now rewrite E|exact H]|right]. apply andb_true_iff in H as [HT Hg]. exists m. split; [exact Hm|]. apply filter_In. split; [|exact Hg]. unfold named_kids. apply filter_In. auto. }
    rewrite El. assert (Hs : subseq l (w_nodes w)) by apply subseq_filter.
    rewrite <- (norder_subseq l Hs) at 1. rewrite <- (app_nil_r (flat_map crit_steps cs)). rewrite (crits_sound R w cs Hw Hc l []) by (apply subseq_incl, Hs). cbn [eval_steps bind].
    rewrite norder_subseq by (eapply subseq_trans; [apply subseq_filter|exact Hs]). unfold l. rewrite filter_filter. reflexivity.
  Qed.

  (** *** Walking down level by level *)
  Definition pren (n : node) : list node := pre (nd_up n) (nd_el n).
  Definition level (l : list node) : Prop := subseq (flat_map pren l) (w_nodes w).
  Lemma level_subseq l : level l -> subseq l (w_nodes w).
  Proof.
    intros H. eapply subseq_trans; [|exact H]. clear H. induction l as [|n l IH]; [constructor|]. cbn [flat_map]. unfold pren at 1. rewrite pre_eq. cbn [app]. destruct n as [t up0]. cbn [nd_up nd_el]. constructor. apply subseq_skips, IH.
  Qed.
  Lemma level_filter f l : level l -> level (filter f l).
  Proof. intros H. eapply subseq_trans; [apply subseq_flat_l, subseq_filter|exact H]. Qed.
  Lemma level_kids l : level l -> level (flat_map kid_nodes l).
  Proof.
    intros H. eapply subseq_trans; [|exact H]. clear H. induction l as [|n l IH]; [constructor|]. cbn [flat_map]. rewrite flat_map_app. apply subseq_app; [|exact IH]. unfold pren at 2. rewrite pre_eq. constructor.
    unfold kid_nodes. rewrite flat_map_concat_map, map_map, <- flat_map_concat_map. apply subseq_refl.
  Qed.
  Definition seg : Type := str * list crit.
  Definition seg_steps (s : seg) : list step := kid (fst s) [] :: flat_map crit_steps (snd s).
  Definition seg_test (s : seg) (n : node) : bool := tagged (fst s) n && crits_hold (snd s) (nd_el n).
  Fixpoint walk (ss : list seg) (l : list node) : list node :=
    match ss with [] => l | s :: ss' => walk ss' (filter (seg_test s) (flat_map kid_nodes l)) end.
  Lemma flat_filter {A B} (f : A -> list B) p l : flat_map (fun x => filter p (f x)) l = filter p (flat_map f l).
  Proof. symmetry. apply filter_flat_map. Qed.
  Lemma walk_steps ss : Forall (fun s => crits_ok R w (snd s)) ss -> forall l, level l -> eval_steps R w (flat_map seg_steps ss) (map XEl l) = Ok (map XEl (walk ss l)).
  Proof.
    induction ss as [|[T cs] ss IH]; intros Hc l Hl; [reflexivity|]. inversion Hc as [|? ? H1 H2]; subst. cbn [snd] in H1. cbn [flat_map]. unfold seg_steps at 1. cbn [fst snd app]. unfold kid. rewrite step_child with (g := fun _ => true); [|apply subseq_incl, level_subseq, Hl|apply preds_nil].
    set (l1 := flat_map _ l). assert (E1 : l1 = filter (tagged T) (flat_map kid_nodes l)).
    { unfold l1. rewrite filter_flat_map. apply flat_map_ext. intros n. rewrite filter_true by reflexivity. reflexivity. }
    assert (Hl1 : level l1) by (rewrite E1; apply level_filter, level_kids, Hl).
    rewrite (crits_sound R w cs Hw H1 l1) by (apply subseq_incl, level_subseq, Hl1).
    assert (Hl2 : level (filter (fun n => crits_hold cs (nd_el n)) l1)) by apply level_filter, Hl1. rewrite norder_subseq by (apply level_subseq, Hl2).
    rewrite IH by assumption. cbn [walk]. rewrite E1, filter_filter. reflexivity.
  Qed.
  Lemma search_path s ss c : w_doc w = true -> Forall (fun s => crits_ok R w (snd s)) (s :: ss) ->
    eval R w (E_path true (flat_map seg_steps (s :: ss))) c = Ok (V_set (map XEl (walk ss (filter (seg_test s) [Nd (w_root w) []])))).
  Proof.
    intros Hd Hc. inversion Hc as [|? ? H1 H2]; subst. destruct s as [T cs]. cbn [flat_map]. unfold seg_steps at 1. cbn [fst snd]. rewrite eval_path. cbn [app]. change (kid T [] :: flat_map crit_steps cs ++ flat_map seg_steps ss) with ((kid T [] :: flat_map crit_steps cs) ++ flat_map seg_steps ss).
    rewrite eval_steps_app. assert (E : eval_steps R w (kid T [] :: flat_map crit_steps cs) (start_of w true c) = Ok (map XEl (filter (seg_test (T, cs)) [Nd (w_root w) []]))).
    { pose proof (search_root T [] (fun _ => true) cs c Hd (preds_nil R w) H1) as H. rewrite eval_path in H. destruct (eval_steps R w _ _) as [l|e]; [|discriminate]. cbn [bind] in H. injection H as H. f_equal. rewrite H. rewrite andb_true_r. reflexivity. }
    rewrite E. cbn [bind]. rewrite walk_steps; [reflexivity|exact H2|]. apply level_filter. unfold level. cbn [flat_map]. rewrite app_nil_r. apply subseq_refl.
  Qed.
End W.
