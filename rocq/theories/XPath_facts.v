(** Lemmas about Tree.v (positions) and XPath.v (evaluation as sets in document order). *)
From Verif Require Import Base PyStr Xml Tree XPath.

(** *** Generic list facts *)
Lemma filter_ext_in' {A} (f g : A -> bool) l : (forall x, In x l -> f x = g x) -> filter f l = filter g l.
Proof. intros H. induction l as [|x l IH]; [reflexivity|]. cbn. rewrite H by (left; reflexivity). rewrite IH by (intros; apply H; right; assumption). reflexivity. Qed.
Lemma NoDup_map_inj {A B} (f : A -> B) l x y : NoDup (map f l) -> In x l -> In y l -> f x = f y -> x = y.
Proof.
  induction l as [|z l IH]; cbn; [tauto|]. intros H Hx Hy E. apply NoDup_cons_iff in H. destruct H as [H1 H2].
  destruct Hx as [->|Hx], Hy as [->|Hy]; auto; exfalso; apply H1; [rewrite E|rewrite <- E]; now apply in_map.
Qed.
Lemma existsb_In {A} (f : A -> bool) l : existsb f l = true <-> exists x, In x l /\ f x = true.
Proof. apply existsb_exists. Qed.
Lemma mapM_ok {A B} (f : A -> res B) (g : A -> B) l : (forall x, In x l -> f x = Ok (g x)) -> mapM f l = Ok (map g l).
Proof. intros H. induction l as [|x l IH]; [reflexivity|]. cbn. rewrite H by (left; reflexivity). cbn. rewrite IH by (intros; apply H; right; assumption). reflexivity. Qed.
Lemma filterM_ok {A} (f : nat -> A -> res bool) (g : A -> bool) l : forall i, (forall i x, In x l -> f i x = Ok (g x)) -> filterM f i l = Ok (filter g l).
Proof.
  induction l as [|x l IH]; intros i H; [reflexivity|]. cbn. rewrite H by (left; reflexivity). cbn. rewrite IH by (intros; apply H; right; assumption). reflexivity.
Qed.

(** *** Positions *)
Lemma pre_eq up t : pre up t = Nd t up :: flat_map (pre (t :: up)) (ekids t).
Proof. destruct t. reflexivity. Qed.
Lemma pre_kid t0 : forall u0 n k, In n (pre u0 t0) -> In k (ekids (nd_el n)) -> In (Nd k (nd_el n :: nd_up n)) (pre u0 t0).
Proof.
  induction t0 as [i g a x kids IH] using elem_ind'. intros u0 n k. rewrite !pre_eq. cbn [ekids]. intros [<-|H] Hk.
  - right. cbn [nd_el nd_up] in *. apply in_flat_map. exists k. split; [exact Hk|]. rewrite pre_eq. left. reflexivity.
  - right. apply in_flat_map in H. destruct H as (c & Hc & H). apply in_flat_map. exists c. split; [exact Hc|]. rewrite Forall_forall in IH. apply (IH c Hc _ n k H Hk).
Qed.
Lemma pre_parent t0 : forall u0 n, In n (pre u0 t0) -> n = Nd t0 u0 \/ exists p up, nd_up n = p :: up /\ In (Nd p up) (pre u0 t0) /\ In (nd_el n) (ekids p).
Proof.
  induction t0 as [i g a x kids IH] using elem_ind'. intros u0 n. rewrite !pre_eq. cbn [ekids]. intros [<-|H]; [left; reflexivity|]. right.
  apply in_flat_map in H. destruct H as (c & Hc & H). rewrite Forall_forall in IH. destruct (IH c Hc _ n H) as [->|(p & up & E & Hp & Hk)].
  - exists (El i g a x kids), u0. split; [reflexivity|]. split; [left; reflexivity|]. exact Hc.
  - exists p, up. split; [exact E|]. split; [|exact Hk]. right. apply in_flat_map. exists c. auto.
Qed.
Lemma pre_sub t0 : forall u0 n, In n (pre u0 t0) -> incl (pre (nd_up n) (nd_el n)) (pre u0 t0).
Proof.
  induction t0 as [i g a x kids IH] using elem_ind'. intros u0 n. rewrite (pre_eq u0). cbn [ekids]. intros [<-|H].
  - cbn [nd_up nd_el]. rewrite (pre_eq u0 (El i g a x kids)). apply incl_refl.
  - apply in_flat_map in H. destruct H as (c & Hc & H). rewrite Forall_forall in IH. intros y Hy. right. apply in_flat_map. exists c. split; [exact Hc|]. exact (IH c Hc _ n H y Hy).
Qed.
Lemma pre_nodes_up t0 : forall u0 n, In n (pre u0 t0) -> exists v, nd_up n = v ++ u0 /\ forall e, In e v -> In e (map nd_el (pre u0 t0)).
Proof.
  induction t0 as [i g a x kids IH] using elem_ind'. intros u0 n. rewrite !pre_eq. cbn [ekids]. intros [<-|H]; [exists []; split; [reflexivity|intros e []]|].
  apply in_flat_map in H. destruct H as (c & Hc & H). rewrite Forall_forall in IH. destruct (IH c Hc _ n H) as (v & E & Hv). exists (v ++ [El i g a x kids]).
  split; [rewrite E, <- app_assoc; reflexivity|]. intros e He. apply in_app_or in He. cbn [map]. destruct He as [He|[<-|[]]]; [|left; reflexivity]. right. apply Hv in He.
  apply in_map_iff in He. destruct He as (m & <- & Hm). apply in_map. apply in_flat_map. exists c. auto.
Qed.

(** *** Evaluation of steps and predicates *)
Section W.
  Variable R : regex.
  Variable w : world.
  Definition wok : Prop := NoDup (map nid (w_nodes w)).
  Fixpoint eval_preds (ps : list expr) (l : list xnode) : res (list xnode) :=
    match ps with
    | [] => Ok l
    | p :: ps' => let* l' := filterM (fun i x => let* v := eval R w p (Cx x i (List.length l)) in Ok (holds i v)) 1 l in eval_preds ps' l'
    end.
  Fixpoint eval_steps (ss : list step) (l : list xnode) : res (list xnode) :=
    match ss with
    | [] => Ok l
    | Step a t ps :: ss' => let* ll := mapM (fun x => eval_preds ps (filter (test_ok a t) (axis_nodes w a x))) l in eval_steps ss' (in_order w (List.concat ll))
    end.
  Definition start_of (abs : bool) (c : ctx) : list xnode := if abs then (if w_doc w then [XDoc] else [XEl (Nd (w_root w) [])]) else [cx_node c].
  Lemma eval_path abs ss c : eval R w (E_path abs ss) c = let* l := eval_steps ss (start_of abs c) in Ok (V_set l).
  Proof. reflexivity. Qed.
  Lemma eval_steps_app a b l : eval_steps (a ++ b) l = let* m := eval_steps a l in eval_steps b m.
  Proof. revert l. induction a as [|[ax t ps] a IH]; intros l; [reflexivity|]. cbn [app eval_steps]. destruct (mapM _ l); [|reflexivity]. cbn [bind]. apply IH. Qed.

  (** A set of elements in document order. *)
  Definition norder (l : list node) : list node := filter (fun n => existsb (fun m => (nid n =? nid m)%nat) l) (w_nodes w).
  Lemma filter_items n l : filter (fun x => existsb (xeq x) (map XEl l)) (items n) = if existsb (fun m => (nid n =? nid m)%nat) l then [XEl n] else [].
  Proof.
    assert (E : forall x, (forall m, x <> XEl m) -> existsb (xeq x) (map XEl l) = false).
    { intros x Hx. induction l as [|m l IH]; [reflexivity|]. cbn. rewrite IH. destruct x as [|n0|n0 s0|n0 k0 v0]; [reflexivity|destruct (Hx n0 eq_refl)|reflexivity|reflexivity]. }
    unfold items. cbn [filter]. replace (existsb (xeq (XEl n)) (map XEl l)) with (existsb (fun m => (nid n =? nid m)%nat) l) by (clear E; induction l as [|m l' IH]; [reflexivity|cbn; now rewrite IH]).
    rewrite filter_app. replace (filter _ (map _ (eattrs (nd_el n)))) with (@nil xnode).
    2: { symmetry. induction (eattrs (nd_el n)) as [|q q' IH]; [reflexivity|]. cbn [map filter]. rewrite E by discriminate. exact IH. }
    replace (filter _ (match etext (nd_el n) with _ => _ end)) with (@nil xnode); [destruct (existsb _ l); reflexivity|].
    destruct (etext (nd_el n)); [|reflexivity]. cbn [filter]. now rewrite E by discriminate.
  Qed.
  Lemma flat_if {A B} (p : A -> bool) (f : A -> B) l : flat_map (fun x => if p x then [f x] else []) l = map f (filter p l).
  Proof. induction l as [|x l IH]; [reflexivity|]. cbn. rewrite IH. destruct (p x); reflexivity. Qed.
  Lemma filter_flat_map {A B} (p : B -> bool) (f : A -> list B) l : filter p (flat_map f l) = flat_map (fun x => filter p (f x)) l.
  Proof. induction l as [|x l IH]; [reflexivity|]. cbn. now rewrite filter_app, IH. Qed.
  Lemma in_order_els l : in_order w (map XEl l) = map XEl (norder l).
  Proof.
    rewrite in_order_eq. unfold w_list, norder. rewrite filter_app. replace (filter _ (if w_doc w then [XDoc] else [])) with (@nil xnode).
    2: { destruct (w_doc w); [|reflexivity]. cbn. replace (existsb (xeq XDoc) (map XEl l)) with false; [reflexivity|]. symmetry. clear. induction l; [reflexivity|exact IHl]. }
    cbn [app]. rewrite filter_flat_map. rewrite <- flat_if. apply flat_map_ext. intros n. apply filter_items.
  Qed.
  Lemma norder_In l n : wok -> incl l (w_nodes w) -> (In n (norder l) <-> In n l).
  Proof.
    intros Hw Hl. unfold norder. rewrite filter_In, existsb_In. split.
    - intros (Hn & m & Hm & E). apply Nat.eqb_eq in E. rewrite (NoDup_map_inj nid (w_nodes w) n m); auto.
    - intros H. split; [auto|]. exists n. split; [exact H|apply Nat.eqb_refl].
  Qed.
  Lemma norder_incl l : incl (norder l) (w_nodes w).
  Proof. intros n H. unfold norder in H. apply filter_In in H. tauto. Qed.
  Lemma norder_ext l m : wok -> incl l (w_nodes w) -> incl m (w_nodes w) -> (forall n, In n l <-> In n m) -> norder l = norder m.
  Proof.
    intros Hw Hl Hm H. unfold norder. apply filter_ext_in'. intros n Hn. apply eq_true_iff_eq. rewrite !existsb_In.
    split; intros (y & Hy & E); exists y; (split; [apply H, Hy|exact E]).
  Qed.
  Lemma norder_filter P : wok -> norder (filter P (w_nodes w)) = filter P (w_nodes w).
  Proof.
    intros Hw. unfold norder. apply filter_ext_in'. intros n Hn. apply eq_true_iff_eq. rewrite existsb_In. split.
    - intros (y & Hy & E). apply filter_In in Hy. apply Nat.eqb_eq in E. rewrite (NoDup_map_inj nid (w_nodes w) n y); tauto.
    - intros H. exists n. rewrite filter_In, Nat.eqb_refl. auto.
  Qed.
  Lemma norder_idem l : wok -> incl l (w_nodes w) -> norder (norder l) = norder l.
  Proof. intros Hw Hl. apply norder_ext; auto using norder_incl. intros n. apply norder_In; auto. Qed.
  Lemma norder_as_filter l P : wok -> incl l (w_nodes w) -> (forall n, In n (w_nodes w) -> (In n l <-> P n = true)) -> norder l = filter P (w_nodes w).
  Proof.
    intros Hw Hl H. rewrite <- norder_filter by exact Hw. apply norder_ext; auto; [intros n Hn; apply filter_In in Hn; tauto|]. intros n. rewrite filter_In. split.
    - intros Hn. split; [auto|]. apply H; auto.
    - intros [Hn HP]. apply H; auto.
  Qed.
  Lemma NoDup_norder l : wok -> NoDup (norder l).
  Proof. intros Hw. apply NoDup_filter. apply NoDup_map_inv in Hw. exact Hw. Qed.

  (** Predicates that do not depend on the position. *)
  Definition preds_are (ps : list expr) (g : node -> bool) : Prop :=
    forall l, incl l (w_nodes w) -> eval_preds ps (map XEl l) = Ok (map XEl (filter g l)).
  Definition pred_is (p : expr) (g : node -> bool) : Prop :=
    forall n i z, In n (w_nodes w) -> exists v, eval R w p (Cx (XEl n) i z) = Ok v /\ holds i v = g n.
  Lemma preds_nil : preds_are [] (fun _ => true).
  Proof. intros l _. cbn. f_equal. f_equal. induction l as [|x l IH]; [reflexivity|cbn; congruence]. Qed.
  Lemma filterM_els p g l : pred_is p g -> incl l (w_nodes w) -> forall z i,
    filterM (fun i x => let* v := eval R w p (Cx x i z) in Ok (holds i v)) i (map XEl l) = Ok (map XEl (filter g l)).
  Proof.
    intros Hp. induction l as [|n l IH]; intros Hl z i; [reflexivity|]. cbn [map filterM]. destruct (Hp n i z) as (v & E & Hv); [apply Hl; left; reflexivity|].
    rewrite E. cbn [bind]. rewrite IH by (intros y Hy; apply Hl; right; exact Hy). cbn [bind filter]. rewrite Hv. destruct (g n); reflexivity.
  Qed.
  Lemma preds_cons p g ps h : pred_is p g -> preds_are ps h -> preds_are (p :: ps) (fun n => g n && h n).
  Proof.
    intros Hp Hps l Hl. cbn [eval_preds]. rewrite (filterM_els p g l Hp Hl). cbn [bind]. rewrite Hps by (intros y Hy; apply filter_In in Hy; apply Hl; tauto).
    f_equal. f_equal. clear. induction l as [|n l IH]; [reflexivity|]. cbn. destruct (g n) eqn:E; cbn; rewrite IH; reflexivity.
  Qed.
  Lemma preds_one p g : pred_is p g -> preds_are [p] g.
  Proof. intros H l Hl. rewrite (preds_cons p g [] (fun _ => true) H preds_nil l Hl). f_equal. f_equal. apply filter_ext. intros n. apply andb_true_r. Qed.
  Lemma preds_ext ps g h : preds_are ps g -> (forall n, In n (w_nodes w) -> g n = h n) -> preds_are ps h.
  Proof. intros H E l Hl. rewrite H by exact Hl. f_equal. f_equal. apply filter_ext_in'. intros n Hn. apply E, Hl, Hn. Qed.
  Lemma pred_ext p g h : pred_is p g -> (forall n, In n (w_nodes w) -> g n = h n) -> pred_is p h.
  Proof. intros H E n i z Hn. destruct (H n i z Hn) as (v & Ev & Hv). exists v. rewrite <- E by exact Hn. auto. Qed.

  (** *** Steps on sets of elements *)
  Lemma concat_map_map {A B} (f : A -> B) (l : list (list A)) : List.concat (map (map f) l) = map f (List.concat l).
  Proof. symmetry. apply concat_map. Qed.
  Lemma step_els a t ps g f l : incl l (w_nodes w) ->
    (forall n, In n l -> filter (test_ok a t) (axis_nodes w a (XEl n)) = map XEl (f n)) -> (forall n, In n l -> incl (f n) (w_nodes w)) -> preds_are ps g ->
    forall ss, eval_steps (Step a t ps :: ss) (map XEl l) = eval_steps ss (map XEl (norder (flat_map (fun n => filter g (f n)) l))).
  Proof.
    intros Hl Hf Hi Hp ss. cbn [eval_steps].
    assert (E : mapM (fun x => eval_preds ps (filter (test_ok a t) (axis_nodes w a x))) (map XEl l) = Ok (map (fun n => map XEl (filter g (f n))) l)).
    { clear Hl. induction l as [|n l IH]; [reflexivity|]. cbn [map mapM]. rewrite Hf by (left; reflexivity). rewrite Hp by (apply Hi; left; reflexivity). cbn [bind].
      rewrite IH; [reflexivity| |]; intros m Hm; [apply Hf|apply Hi]; right; exact Hm. }
    rewrite E. cbn [bind]. rewrite <- (map_map (fun n => filter g (f n)) (map XEl)), concat_map_map, in_order_els, <- flat_map_concat_map. reflexivity.
  Qed.
  Lemma filter_map_XEl a T l : a <> A_attr -> filter (test_ok a (NT_name T)) (map XEl l) = map XEl (filter (fun n => str_eqb (etag (nd_el n)) T) l).
  Proof. intros Ha. induction l as [|n l IH]; [reflexivity|]. cbn [map filter test_ok]. rewrite IH. destruct (str_eqb _ T); reflexivity. Qed.
  Lemma child_name T n : filter (test_ok A_child (NT_name T)) (axis_nodes w A_child (XEl n)) = map XEl (filter (fun k => str_eqb (etag (nd_el k)) T) (kid_nodes n)).
  Proof. cbn [axis_nodes]. rewrite filter_app, filter_map_XEl by discriminate. unfold text_nodes. destruct (etext (nd_el n)); reflexivity. Qed.
  Lemma kid_incl n : In n (w_nodes w) -> incl (kid_nodes n) (w_nodes w).
  Proof. intros Hn k Hk. unfold kid_nodes in Hk. apply in_map_iff in Hk. destruct Hk as (c & <- & Hc). apply pre_kid; assumption. Qed.
  Definition named_kids (T : str) (n : node) : list node := filter (fun k => str_eqb (etag (nd_el k)) T) (kid_nodes n).
  Lemma step_child T ps g l ss : incl l (w_nodes w) -> preds_are ps g ->
    eval_steps (Step A_child (NT_name T) ps :: ss) (map XEl l) = eval_steps ss (map XEl (norder (flat_map (fun n => filter g (named_kids T n)) l))).
  Proof.
    intros Hl Hp. apply step_els; auto; [intros n _; apply child_name|]. intros n Hn k Hk. apply filter_In in Hk. apply (kid_incl n); [auto|tauto].
  Qed.
  Definition par_nodes (n : node) : list node := match nd_up n with p :: up => [Nd p up] | [] => [] end.
  Lemma par_incl n : In n (w_nodes w) -> incl (par_nodes n) (w_nodes w).
  Proof.
    intros Hn m Hm. unfold par_nodes in Hm. destruct (pre_parent _ _ _ Hn) as [->|(p & up & E & Hp & _)]; [destruct Hm|]. rewrite E in Hm. destruct Hm as [<-|[]]. exact Hp.
  Qed.
  Lemma step_parent l ss : incl l (w_nodes w) -> (forall n, In n l -> nd_up n <> []) ->
    eval_steps (Step A_parent NT_node [] :: ss) (map XEl l) = eval_steps ss (map XEl (norder (flat_map par_nodes l))).
  Proof.
    intros Hl Hne. rewrite (step_els A_parent NT_node [] (fun _ => true) par_nodes l Hl).
    - f_equal. f_equal. f_equal. apply flat_map_ext. intros n. clear. induction (par_nodes n) as [|x m IH]; [reflexivity|cbn; congruence].
    - intros n Hn. cbn [axis_nodes]. unfold par_nodes. destruct (nd_up n) eqn:E; [now destruct (Hne n Hn)|reflexivity].
    - intros n Hn. apply par_incl, Hl, Hn.
    - apply preds_nil.
  Qed.

  (** Criteria: going down to a child with the given name that satisfies predicates and inner criteria, and back. *)
  Inductive crit := CK (tag : str) (ps : list expr) (g : elem -> bool) (inner : list crit).
  Fixpoint crit_steps (c : crit) : list step :=
    let 'CK T ps g inner := c in Step A_child (NT_name T) ps :: flat_map crit_steps inner ++ [Step A_parent NT_node []].
  Fixpoint crit_holds (c : crit) (t : elem) : bool :=
    let 'CK T ps g inner := c in existsb (fun k => str_eqb (etag k) T && g k && forallb (fun c => crit_holds c k) inner) (ekids t).
  Fixpoint crit_ok (c : crit) : Prop :=
    let 'CK T ps g inner := c in preds_are ps (fun n => g (nd_el n)) /\ (fix go (l : list crit) : Prop := match l with [] => True | c :: l' => crit_ok c /\ go l' end) inner.
  Definition crits_ok (l : list crit) : Prop := Forall crit_ok l.
  Lemma crit_ok_eq T ps g inner : crit_ok (CK T ps g inner) <-> preds_are ps (fun n => g (nd_el n)) /\ crits_ok inner.
  Proof.
    cbn [crit_ok]. unfold crits_ok. split; intros [H1 H2]; split; auto; clear H1.
    - induction inner as [|c l IH]; [constructor|]. destruct H2. constructor; auto.
    - induction H2; [exact I|]. split; auto.
  Qed.
  Section CInd.
    Variable P : crit -> Prop.
    Hypothesis HC : forall T ps g inner, Forall P inner -> P (CK T ps g inner).
    Fixpoint crit_ind' (c : crit) : P c :=
      let 'CK T ps g inner := c in
      HC T ps g inner ((fix go (l : list crit) : Forall P l := match l with [] => Forall_nil P | k :: l' => Forall_cons k (crit_ind' k) (go l') end) inner).
  End CInd.
  Definition crits_hold (cs : list crit) (t : elem) : bool := forallb (fun c => crit_holds c t) cs.
  Lemma crits_steps cs : Forall (fun c => crit_ok c -> forall l ss, incl l (w_nodes w) ->
      eval_steps (crit_steps c ++ ss) (map XEl (norder l)) = eval_steps ss (map XEl (norder (filter (fun n => crit_holds c (nd_el n)) l)))) cs ->
    crits_ok cs -> forall l ss, incl l (w_nodes w) ->
      eval_steps (flat_map crit_steps cs ++ ss) (map XEl (norder l)) = eval_steps ss (map XEl (norder (filter (fun n => crits_hold cs (nd_el n)) l))).
  Proof.
    intros H. induction H as [|c cs Hc _ IH]; intros Hok l ss Hl.
    - cbn [flat_map app]. f_equal. f_equal. f_equal. clear. unfold crits_hold. cbn [forallb]. induction l as [|x l IH]; [reflexivity|cbn; congruence].
    - inversion Hok as [|? ? H1 H2]; subst. cbn [flat_map]. rewrite <- app_assoc. rewrite Hc by assumption. rewrite IH by (try assumption; intros y Hy; apply filter_In in Hy; apply Hl; tauto).
      f_equal. f_equal. f_equal. clear. induction l as [|x l IH]; [reflexivity|]. cbn. unfold crits_hold. cbn [forallb]. destruct (crit_holds c (nd_el x)); cbn; [|exact IH]. unfold crits_hold in IH. rewrite IH. reflexivity.
  Qed.
  Lemma crit_sound c : wok -> crit_ok c -> forall l ss, incl l (w_nodes w) ->
    eval_steps (crit_steps c ++ ss) (map XEl (norder l)) = eval_steps ss (map XEl (norder (filter (fun n => crit_holds c (nd_el n)) l))).
  Proof.
    intros Hw. induction c as [T ps g inner IH] using crit_ind'. intros Hok l ss Hl. apply crit_ok_eq in Hok. destruct Hok as [Hp Hin]. cbn [crit_steps].
    set (sel := fun n => filter (fun k => g (nd_el k)) (named_kids T n)). cbn [app]. rewrite <- app_assoc. cbn [app].
    rewrite (step_child T ps (fun n => g (nd_el n)) (norder l)); [|apply norder_incl|exact Hp]. fold sel.
    assert (Hsel : forall n k, In k (sel n) <-> exists e, In e (ekids (nd_el n)) /\ k = Nd e (nd_el n :: nd_up n) /\ str_eqb (etag e) T = true /\ g e = true).
    { intros n k. unfold sel, named_kids, kid_nodes. rewrite !filter_In, in_map_iff. split.
      - intros (((e & <- & He) & HT) & Hg). exists e. auto.
      - intros (e & He & -> & HT & Hg). split; [split; [exists e; auto|exact HT]|exact Hg]. }
    assert (Hi : forall m, incl m (w_nodes w) -> incl (flat_map sel m) (w_nodes w)).
    { intros m Hm k Hk. apply in_flat_map in Hk. destruct Hk as (n & Hn & Hk). apply Hsel in Hk. destruct Hk as (e & He & -> & _). apply pre_kid; [apply Hm, Hn|exact He]. }
    rewrite crits_steps; [|eapply Forall_impl; [|exact IH]; cbv beta; auto|exact Hin|apply Hi, norder_incl].
    set (mid := filter (fun n => crits_hold inner (nd_el n)) (flat_map sel (norder l))).
    assert (Hmid : forall k, In k mid <-> exists n e, In n l /\ In e (ekids (nd_el n)) /\ k = Nd e (nd_el n :: nd_up n) /\ str_eqb (etag e) T = true /\ g e = true /\ crits_hold inner e = true).
    { intros k. unfold mid. rewrite filter_In, in_flat_map. split.
      - intros ((n & Hn & Hk) & Hc). apply (norder_In l n Hw Hl) in Hn. apply Hsel in Hk. destruct Hk as (e & He & -> & HT & Hg). exists n, e. auto 10.
      - intros (n & e & Hn & He & -> & HT & Hg & Hc). split; [|exact Hc]. exists n. split; [apply (norder_In l n Hw Hl), Hn|]. apply Hsel. exists e. auto. }
    assert (Hmi : incl mid (w_nodes w)) by (intros k Hk; unfold mid in Hk; apply filter_In in Hk; apply (Hi (norder l) (norder_incl l)); tauto).
    assert (Hnm : forall k, In k (norder mid) <-> In k mid) by (intros k; apply norder_In; assumption).
    rewrite step_parent; [|apply norder_incl|].
    2: { intros k Hk. apply Hnm, Hmid in Hk. destruct Hk as (n & e & _ & _ & -> & _). discriminate. }
    f_equal. f_equal. apply norder_ext; [exact Hw| | |].
    - intros k Hk. apply in_flat_map in Hk. destruct Hk as (m & Hm & Hk). apply (par_incl m); [apply norder_incl in Hm; exact Hm|exact Hk].
    - intros k Hk. apply filter_In in Hk. apply Hl. tauto.
    - intros k. rewrite in_flat_map, filter_In. cbn [crit_holds]. rewrite existsb_In. split.
      + intros (m & Hm & Hk). apply Hnm, Hmid in Hm. destruct Hm as (n & e & Hn & He & -> & HT & Hg & Hc). unfold par_nodes in Hk. cbn in Hk. destruct Hk as [<-|[]]. destruct n as [t up]. cbn in *.
        split; [exact Hn|]. exists e. split; [exact He|]. unfold crits_hold in Hc. rewrite HT, Hg, Hc. reflexivity.
      + intros (Hk & e & He & H). apply andb_true_iff in H. destruct H as [H Hc]. apply andb_true_iff in H. destruct H as [HT Hg]. exists (Nd e (nd_el k :: nd_up k)). split.
        * apply Hnm, Hmid. exists k, e. auto 10.
        * unfold par_nodes. cbn. left. destruct k. reflexivity.
  Qed.
  Lemma crits_sound cs : wok -> crits_ok cs -> forall l ss, incl l (w_nodes w) ->
    eval_steps (flat_map crit_steps cs ++ ss) (map XEl (norder l)) = eval_steps ss (map XEl (norder (filter (fun n => crits_hold cs (nd_el n)) l))).
  Proof. intros Hw Hok. apply crits_steps; [|exact Hok]. rewrite Forall_forall. intros c _ Hc. apply crit_sound; assumption. Qed.
End W.
