(** Reading before saving and after opening again (ReopenSpec.v): corresponding elements and what is read from them. *)
From Coq Require Import ZifyBool ZifyNat ZifyN.
From Verif Require Import Base Base64 PyStr Xml Tree XPath XPath_facts XPath_eval Uuid Time FindSpec Find_facts Find_path Find_more Db Heap Api ApiSpec Prim Api_sub Api_xpath StructSpec Struct_hist Struct_find PathSpec Integrity Path Relabel BinSpec Bin BinStore Ref Lib Kdbx KdbxSpec Kdbx_inner Kdbx_file Kdbx_v3 Kdbx_rt Kdbx_claims Clean Save Object ObjectSpec Object_facts Object_claims Streams ReopenSpec.

(** *** The two documents *)
Inductive sim : elem -> elem -> Prop := Sim i j g a o o2 k k2 : faded o o2 -> Forall2 sim k k2 -> sim (El i g a o k) (El j g a o2 k2).
Lemma faded_refl o : faded o o. Proof. now left. Qed.
Lemma faded_eq o o2 v : faded o o2 -> v <> [] -> (o = Some v <-> o2 = Some v).
Proof. intros [->|[-> ->]] N; [tauto|]. split; intros E; [injection E as <-; congruence|discriminate]. Qed.
Lemma faded_or o o2 : faded o o2 -> text_or_empty o2 = text_or_empty o. Proof. now intros [->|[-> ->]]. Qed.
Lemma view_text s t : exists f, view_for s t = X (xtag t) (xattrs t) (f t) (map (view_for s) (xkids t)) /\
  (f t = xtext t \/ (exists v, xtext t = Some v /\ f t = None /\ (v = [] \/ (v <> [] /\ forallb blank_char v = true /\ xkids t <> [])))).
Proof.
  destruct t as [g a x k]. cbn [xtag xattrs xtext xkids].
  assert (N : norm_text x k = x \/ (exists v, x = Some v /\ norm_text x k = None /\ (v = [] \/ (v <> [] /\ forallb blank_char v = true /\ k <> [])))).
  { destruct x as [v|]; [|now left]. unfold norm_text, keep_text. destruct v as [|c v]; [right; exists []; auto|]. destruct k as [|y k]; [now left|]. destruct (forallb blank_char (c :: v)) eqn:E; [|now left].
    right. exists (c :: v). split; [reflexivity|]. split; [reflexivity|]. right. split; [discriminate|]. split; [exact E|discriminate]. }
  assert (M : let y := if markedb g a then match x with Some [] => None | _ => x end else norm_text x k in
    y = x \/ (exists v, x = Some v /\ y = None /\ (v = [] \/ (v <> [] /\ forallb blank_char v = true /\ k <> [])))).
  { cbv zeta. destruct (markedb g a); [|exact N]. destruct x as [[|c v]|]; [right; exists []; auto|now left|now left]. }
  destruct s; cbn [view_for norm reload_view].
  - exists (fun _ => norm_text x k). split; [reflexivity|exact N].
  - eexists (fun _ => _). split; [reflexivity|exact M].
  - eexists (fun _ => _). split; [reflexivity|exact M].
  - eexists (fun _ => _). split; [reflexivity|exact M].
Qed.
Lemma sim_view s t : forall t2, erase t2 = view_for s (erase t) -> (forall x v, In x (everything t) -> etext x = Some v -> v <> [] -> forallb blank_char v = true -> ekids x = []) -> sim t t2.
Proof.
  induction t as [i g a o k IH] using elem_ind'. intros [j g2 a2 o2 k2] E U. destruct (view_text s (erase (El i g a o k))) as (f & Ef & Ht). rewrite Ef in E. cbn [erase xtag xattrs xtext xkids] in E, Ht. set (o' := f _) in *.
  injection E as -> -> -> Ek. constructor.
  - destruct Ht as [->|(v & -> & -> & [->|(N & B & K)])]; [now left|now right|]. exfalso. apply K. specialize (U (El i g a (Some v) k) v). cbn [etext ekids] in U. rewrite U; auto. now left.
  - assert (Uk : forall c x v, In c k -> In x (everything c) -> etext x = Some v -> v <> [] -> forallb blank_char v = true -> ekids x = []).
    { intros c x v Ic Ix. apply U. cbn [everything]. right. apply in_flat_map. eauto. }
    clear U Ht Ef. revert k2 Ek. induction k as [|c k IHk]; intros [|c2 k2] Ek; [constructor|discriminate|discriminate|]. cbn [map] in Ek. injection Ek as E1 E2. inversion IH as [|? ? H1 H2]; subst. constructor.
    + apply H1; [exact E1|]. intros x v. apply (Uk c). now left.
    + apply IHk; [exact H2| |exact E2]. intros c' x v I. apply Uk. now right.
Qed.
Lemma sim_tag x y : sim x y -> etag y = etag x /\ eattrs y = eattrs x /\ faded (etext x) (etext y) /\ Forall2 sim (ekids x) (ekids y).
Proof. intros [i j g a o o2 k k2 F K]. cbn. auto. Qed.
Lemma F2_nth {A B} (P : A -> B -> Prop) l m : Forall2 P l m -> forall n a, nth_error l n = Some a -> exists b, nth_error m n = Some b /\ P a b.
Proof. induction 1 as [|x y l m Hxy H IH]; intros [|n] a E; try discriminate; cbn [nth_error] in *; [injection E as <-; eauto|now apply IH]. Qed.
Lemma F2_nth' {A B} (P : A -> B -> Prop) l m : Forall2 P l m -> forall n b, nth_error m n = Some b -> exists a, nth_error l n = Some a /\ P a b.
Proof. induction 1 as [|x y l m Hxy H IH]; intros [|n] a E; try discriminate; cbn [nth_error] in *; [injection E as <-; eauto|now apply IH]. Qed.
Lemma F2_length {A B} (P : A -> B -> Prop) l m : Forall2 P l m -> List.length l = List.length m. Proof. induction 1; cbn; congruence. Qed.
Lemma follow_sim r : forall t t2 x y, sim t t2 -> follow r t = Some x -> follow r t2 = Some y -> sim x y.
Proof.
  induction r as [|n r IH]; intros t t2 x y S Ex Ey; cbn [follow] in *; [congruence|]. destruct (sim_tag _ _ S) as (_ & _ & _ & K).
  destruct (nth_error (ekids t) n) as [a|] eqn:Ea; [|discriminate]. destruct (nth_error (ekids t2) n) as [b|] eqn:Eb; [|discriminate]. destruct (F2_nth _ _ _ K n a Ea) as (b' & Eb' & Sab). rewrite Eb in Eb'. injection Eb' as <-. eauto.
Qed.
Lemma follow_app r q t : follow (r ++ q) t = match follow r t with Some x => follow q x | None => None end.
Proof. revert t. induction r as [|n r IH]; intros t; [reflexivity|]. cbn [app follow]. destruct (nth_error (ekids t) n); auto. Qed.
Lemma follow_In r : forall t x, follow r t = Some x -> In x (everything t).
Proof.
  induction r as [|n r IH]; intros t x E; cbn [follow] in E; rewrite everything_eq; [injection E as ->; now left|]. destruct (nth_error (ekids t) n) as [k|] eqn:Ek; [|discriminate]. right. apply in_flat_map. exists k. split; [exact (nth_error_In _ _ Ek)|auto].
Qed.
(** Two databases with corresponding documents. *)
Record again (d d2 : db) : Prop := MkAgain {
  ag_wf : wf d; ag_wf2 : wf d2; ag_v4 : v4 d2 = v4 d; ag_bins : v4 d = true -> d_bins d2 = d_bins d;
  ag_docs : exists doc F doc2 F2, d_forest d = doc :: F /\ d_forest d2 = doc2 :: F2 /\ sim doc doc2; ag_alone : exists doc2, d_forest d2 = [doc2] }.
Section Again.
Context (d d2 : db) (A : again d d2).
Notation tw := (twins d d2).
Lemma tw_docs : exists doc F doc2 F2, d_forest d = doc :: F /\ d_forest d2 = doc2 :: F2 /\ sim doc doc2 /\ tw doc doc2.
Proof. destruct (ag_docs _ _ A) as (doc & F & doc2 & F2 & E & E2 & S). exists doc, F, doc2, F2. do 3 (split; [assumption|]). exists doc, F, doc2, F2, []. auto. Qed.
Lemma tw_sim x y : tw x y -> sim x y.
Proof. destruct (ag_docs _ _ A) as (doc & F & doc2 & F2 & E & E2 & S). intros (a & G & b & G2 & r & E' & E2' & Fx & Fy). rewrite E in E'. rewrite E2 in E2'. injection E' as <- <-. injection E2' as <- <-. exact (follow_sim _ _ _ _ _ S Fx Fy). Qed.
Lemma tw_has x y : tw x y -> has d x /\ has d2 y.
Proof. intros (a & G & b & G2 & r & E & E2 & Fx & Fy). rewrite E, E2. cbn [elements flat_map]. split; apply in_app_iff; left; eauto using follow_In. Qed.
Lemma tw_parts x y : tw x y -> etag y = etag x /\ eattrs y = eattrs x /\ faded (etext x) (etext y).
Proof. intros T. destruct (sim_tag _ _ (tw_sim _ _ T)) as (H1 & H2 & H3 & _). auto. Qed.
Lemma tw_tag x y : tw x y -> etag y = etag x. Proof. apply tw_parts. Qed.
Lemma F2_from_nth {X Y} (P : X -> Y -> Prop) l : forall m, List.length l = List.length m -> (forall n a b, nth_error l n = Some a -> nth_error m n = Some b -> P a b) -> Forall2 P l m.
Proof. induction l as [|x l IH]; intros [|y m] L H; try discriminate; constructor; [exact (H O x y eq_refl eq_refl)|]. apply IH; [now injection L|]. intros n a b Ea Eb. exact (H (S n) a b Ea Eb). Qed.
Lemma tw_kids x y : tw x y -> Forall2 tw (ekids x) (ekids y).
Proof.
  intros T. destruct (sim_tag _ _ (tw_sim _ _ T)) as (_ & _ & _ & K). apply F2_from_nth; [exact (F2_length _ _ _ K)|]. intros n a b Ea Eb.
  destruct T as (doc & G & doc2 & G2 & r & E & E2 & Fx & Fy). exists doc, G, doc2, G2, (r ++ [n]). rewrite !follow_app, Fx, Fy. cbn [follow]. rewrite Ea, Eb. auto.
Qed.
Lemma F2_filter {X Y} (P : X -> Y -> Prop) f g l m : Forall2 P l m -> (forall a b, In a l -> P a b -> g b = f a) -> Forall2 P (filter f l) (filter g m).
Proof. induction 1 as [|x y l m H H' IH]; intros E; [constructor|]. cbn [filter]. rewrite (E x y (or_introl eq_refl) H). assert (IH' := IH (fun a b I => E a b (or_intror I))). destruct (f x); [constructor|]; auto. Qed.
Lemma F2_hd {X Y} (P : X -> Y -> Prop) l m : Forall2 P l m -> match hd_error l, hd_error m with Some a, Some b => P a b | None, None => True | _, _ => False end.
Proof. intros []; cbn; auto. Qed.
Lemma F2_flat {X Y} (P : X -> Y -> Prop) f g l m : Forall2 P l m -> (forall a b, P a b -> Forall2 P (f a) (g b)) -> Forall2 P (flat_map f l) (flat_map g m).
Proof. intros H E. induction H as [|x y l m H H' IH]; [constructor|]. cbn [flat_map]. apply Forall2_app; auto. Qed.
Lemma tw_kids_of T x y : tw x y -> Forall2 tw (kids_of T x) (kids_of T y).
Proof. intros H. apply F2_filter; [now apply tw_kids|]. intros a b _ E. now rewrite (tw_tag _ _ E). Qed.
Lemma tw_find1 T x y : tw x y -> opt_rel tw (find1 T x) (find1 T y). Proof. intros H. exact (F2_hd _ _ _ (tw_kids_of T _ _ H)). Qed.
Lemma tw_find2 T U x y : tw x y -> opt_rel tw (find_2 T U x) (find_2 T U y).
Proof. intros H. apply (F2_hd tw). apply F2_flat; [now apply tw_kids_of|]. intros; now apply tw_kids_of. Qed.
Lemma tw_find3 T U V x y : tw x y -> opt_rel tw (find_3 T U V x) (find_3 T U V y).
Proof. intros H. apply (F2_hd tw). apply F2_flat; [|intros; now apply tw_kids_of]. apply F2_flat; [now apply tw_kids_of|]. intros; now apply tw_kids_of. Qed.
Lemma tw_attr n x y : tw x y -> attr_of n y = attr_of n x. Proof. intros H. unfold attr_of. now rewrite (proj1 (proj2 (tw_parts _ _ H))). Qed.
Lemma tw_ids l m : Forall2 tw l m -> Forall2 (same_place d d2) (map eid l) (map eid m).
Proof. induction 1; constructor; [|assumption]. eexists _, _. eauto. Qed.
(** Ancestors. *)
Lemma tw_node x y : tw x y -> exists up up2, In (Nd x up) (fpre (d_forest d)) /\ In (Nd y up2) (fpre (d_forest d2)) /\ Forall2 tw up up2.
Proof.
  intros (doc & G & doc2 & G2 & r & E & E2 & Fx & Fy). revert x y Fx Fy. induction r as [|n r IH] using rev_ind; intros x y Fx Fy.
  - cbn [follow] in *. injection Fx as <-. injection Fy as <-. exists [], []. split; [eapply doc_node; eassumption|]. split; [eapply doc_node; eassumption|constructor].
  - rewrite follow_app in Fx, Fy. destruct (follow r doc) as [x'|] eqn:Ex; [|discriminate]. destruct (follow r doc2) as [y'|] eqn:Ey; [|discriminate]. cbn [follow] in *.
    destruct (nth_error (ekids x') n) as [a|] eqn:Ea; [|discriminate]. destruct (nth_error (ekids y') n) as [b|] eqn:Eb; [|discriminate]. injection Fx as <-. injection Fy as <-.
    destruct (IH x' y' eq_refl eq_refl) as (up & up2 & H1 & H2 & H3). exists (x' :: up), (y' :: up2). split; [exact (fpre_kid _ _ a H1 (nth_error_In _ _ Ea))|]. split; [exact (fpre_kid _ _ b H2 (nth_error_In _ _ Eb))|].
    constructor; [|exact H3]. exists doc, G, doc2, G2, r. auto.
Qed.
Lemma everything_ind (Q : elem -> elem -> Prop) : (forall a b, Q a b -> Forall2 Q (ekids a) (ekids b)) -> forall x y, Q x y -> Forall2 Q (everything x) (everything y).
Proof.
  intros K. induction x as [i g a o k IH] using elem_ind'. intros y H. rewrite (everything_eq y). cbn [everything]. constructor; [exact H|]. specialize (K _ _ H). cbn [ekids] in K. clear H.
  revert IH. induction K as [|c c2 l m Hc HK IHK]; intros IH; [constructor|]. cbn [flat_map]. inversion IH as [|? ? H1 H2]; subst. apply Forall2_app; [now apply H1|now apply IHK].
Qed.
Lemma tw_everything x y : tw x y -> Forall2 tw (everything x) (everything y). Proof. apply everything_ind, tw_kids. Qed.
Lemma F2_exists {X Y} (P : X -> Y -> Prop) f g l m : Forall2 P l m -> (forall a b, P a b -> g b = f a) -> existsb g m = existsb f l.
Proof. intros H E. induction H as [|x y l m H H' IH]; [reflexivity|]. cbn [existsb]. now rewrite (E _ _ H), IH. Qed.
Lemma tw_visible x y : tw x y -> (In x (visible (d_forest d)) <-> In y (visible (d_forest d2))).
Proof.
  intros T. destruct (tw_node _ _ T) as (up & up2 & H1 & H2 & H3). change x with (nd_el (Nd x up)). change y with (nd_el (Nd y up2)). rewrite (visible_iff _ _ (wf_unique _ (ag_wf _ _ A)) H1), (visible_iff _ _ (wf_unique _ (ag_wf2 _ _ A)) H2).
  unfold hist_ok. cbn [nd_up]. rewrite (F2_exists _ (fun p => str_eqb (etag p) $"History") (fun p => str_eqb (etag p) $"History") _ _ H3); [tauto|]. intros a b E. now rewrite (tw_tag _ _ E).
Qed.
(** *** Reading one element *)
Section One.
Context (x y : elem) (T : tw x y).
Let W := ag_wf _ _ A.
Let W2 := ag_wf2 _ _ A.
Let Hx : has d x := proj1 (tw_has _ _ T).
Let Hy : has d2 y := proj2 (tw_has _ _ T).
Lemma rel_text (a b : option elem) : opt_rel tw a b -> faded (match a with Some k => etext k | None => None end) (match b with Some k => etext k | None => None end).
Proof. destruct a, b; cbn; try contradiction; [apply tw_parts|intros _; apply faded_refl]. Qed.
Lemma tw_first_text tag : faded (first_text tag x) (first_text tag y). Proof. apply rel_text, tw_find1, T. Qed.
Lemma sub_twice tag : exists v v2, get_sub tag (eid x) d = (Ok v, d) /\ get_sub tag (eid y) d2 = (Ok v2, d2) /\ faded v v2.
Proof. exists (first_text tag x), (first_text tag y). rewrite (get_sub_run d x tag W Hx), (get_sub_run d2 y tag W2 Hy). auto using tw_first_text. Qed.
Lemma tags_twice : exists l, get_tags (eid x) d = (Ok l, d) /\ get_tags (eid y) d2 = (Ok l, d2).
Proof.
  destruct (sub_twice $"Tags") as (v & v2 & E & E2 & F). unfold get_tags. rewrite (mbind_ok _ _ _ _ _ E), (mbind_ok _ _ _ _ _ E2). eexists. split; [reflexivity|]. unfold ret. destruct F as [->|[-> ->]]; reflexivity.
Qed.
Lemma uuid_twice u d' : get_uuid (eid x) d = (Ok u, d') -> get_uuid (eid y) d2 = (Ok u, d2).
Proof.
  destruct (sub_twice $"UUID") as (v & v2 & E & E2 & F). unfold get_uuid. rewrite (mbind_ok _ _ _ _ _ E), (mbind_ok _ _ _ _ _ E2). unfold of_res. intros H. injection H as H <-. destruct F as [->|[-> ->]]; [now rewrite H|]. exfalso. vm_compute in H. discriminate.
Qed.
Lemma tw_fields key : key <> [] -> Forall2 tw (fields key x) (fields key y).
Proof.
  intros N. apply F2_filter; [now apply tw_kids|]. intros a b _ E. rewrite (tw_tag _ _ E). f_equal. apply (F2_exists tw _ _ _ _ (tw_kids _ _ E)). intros k k2 Ek. unfold is_key, text_eq. rewrite (tw_tag _ _ Ek). f_equal.
  destruct (tw_parts _ _ Ek) as (_ & _ & [->|[-> ->]]); [reflexivity|]. destruct key; [congruence|reflexivity].
Qed.
Lemma tw_value key : key <> [] -> opt_rel tw (hd_error (flat_map (kids_of $"Value") (fields key x))) (hd_error (flat_map (kids_of $"Value") (fields key y))).
Proof. intros N. apply (F2_hd tw). apply F2_flat; [now apply tw_fields|]. intros; now apply tw_kids_of. Qed.
Lemma string_twice R key : plain key -> key <> [] -> exists v v2, get_string R key (eid x) d = (Ok v, d) /\ get_string R key (eid y) d2 = (Ok v2, d2) /\ faded v v2.
Proof. intros P N. eexists _, _. rewrite (get_string_run R d x key W Hx P), (get_string_run R d2 y key W2 Hy P). split; [reflexivity|]. split; [reflexivity|]. apply rel_text, tw_value, N. Qed.
Lemma prop_twice R p : exists v v2, get_prop R p (eid x) d = (Ok v, d) /\ get_prop R p (eid y) d2 = (Ok v2, d2) /\ faded v v2.
Proof. destruct p; apply string_twice; try discriminate; (split; [vm_compute; intuition discriminate|reflexivity]). Qed.
Lemma custom_twice R key : plain key -> key <> [] ->
  match get_custom_property R (eid x) key d with (Ok v, _) => exists v2, get_custom_property R (eid y) key d2 = (Ok v2, d2) /\ faded v v2 | (Err e, _) => get_custom_property R (eid y) key d2 = (Err e, d2) end /\
  fst (is_custom_property_protected R (eid y) key d2) = fst (is_custom_property_protected R (eid x) key d).
Proof.
  intros P N. unfold get_custom_property, is_custom_property_protected. destruct (reserved (Some key)); [split; reflexivity|]. destruct (string_twice R key P N) as (v & v2 & E & E2 & F). rewrite E, E2. split; [eauto|].
  rewrite (mbind_ok _ _ _ _ _ (value_first R d x key W Hx P)), (mbind_ok _ _ _ _ _ (value_first R d2 y key W2 Hy P)). unfold ret. cbn [fst]. f_equal. pose proof (tw_value key N) as V.
  destruct (hd_error _) as [a|], (hd_error _) as [b|]; cbn [opt_rel] in V; try contradiction; [|reflexivity]. now rewrite (tw_attr _ _ _ V).
Qed.
Lemma tw_slot name : opt_rel tw (time_slot name x) (time_slot name y).
Proof. unfold time_slot. pose proof (tw_find1 $"Times" _ _ T) as H. destruct (find1 $"Times" x) as [a|], (find1 $"Times" y) as [b|]; cbn [opt_rel] in H; try contradiction; [now apply tw_find1|exact I]. Qed.
Lemma decode_empty b : exists e, decode_time b [] = Err e. Proof. destruct b; vm_compute; eauto. Qed.
Lemma time_twice name v d' : get_time name (eid x) d = (Ok v, d') -> get_time name (eid y) d2 = (Ok v, d2).
Proof.
  rewrite (get_time_run d x name W Hx), (get_time_run d2 y name W2 Hy), (ag_v4 _ _ A). pose proof (tw_slot name) as S. destruct (time_slot name x) as [p|], (time_slot name y) as [q|]; cbn [opt_rel] in S; try contradiction; [|now intros [= <- _]].
  destruct (tw_parts _ _ S) as (_ & _ & [->|[-> ->]]); [intros H; injection H as -> _; reflexivity|]. destruct (decode_empty (v4 d)) as (e & ->). discriminate.
Qed.
Lemma timeprop_twice p v d' : get_timeprop p (eid x) d = (Ok v, d') -> get_timeprop p (eid y) d2 = (Ok v, d2). Proof. destruct p; apply time_twice. Qed.
Lemma expires_elem_twice : match expires_elem (eid x) d with (Ok p, _) => exists q, expires_elem (eid y) d2 = (Ok q, d2) /\ tw p q | (Err e, _) => expires_elem (eid y) d2 = (Err e, d2) end.
Proof.
  unfold expires_elem. rewrite (mbind_ok _ _ _ _ _ (the_run d _ x W Hx eq_refl)), (mbind_ok _ _ _ _ _ (the_run d2 _ y W2 Hy eq_refl)). pose proof (tw_slot $"Expires") as S. unfold time_slot in S. pose proof (tw_find1 $"Times" _ _ T) as H.
  destruct (find1 $"Times" x) as [a|], (find1 $"Times" y) as [b|]; cbn [opt_rel] in H; try contradiction; [|reflexivity]. destruct (find1 $"Expires" a) as [p|], (find1 $"Expires" b) as [q|]; cbn [opt_rel] in S; try contradiction; [|reflexivity]. exists q. auto.
Qed.
(** [False] may have become [None] (an empty text). *)
Lemma dim p q : faded p q -> dimmed (option_map (fun s => str_eqb s $"True") p) (option_map (fun s => str_eqb s $"True") q).
Proof. intros [->|[-> ->]]; [now left|]. right. auto. Qed.
Lemma expires_twice v d' : get_expires (eid x) d = (Ok v, d') -> exists v2, get_expires (eid y) d2 = (Ok v2, d2) /\ dimmed v v2.
Proof.
  pose proof expires_elem_twice as H. unfold get_expires. unfold mbind at 1. destruct (expires_elem (eid x) d) as [[p|e] dd] eqn:E; [|discriminate]. destruct H as (q & Eq & Tq). intros V. injection V as <- _.
  rewrite (mbind_ok _ _ _ _ _ Eq). eexists. split; [reflexivity|]. apply dim, tw_parts, Tq.
Qed.
Lemma expired_twice C b d' : expired C (eid x) d = (Ok b, d') -> expired C (eid y) d2 = (Ok b, d2).
Proof.
  unfold expired. unfold mbind at 1. destruct (get_expires (eid x) d) as [[v|e] dd] eqn:E; [|discriminate]. destruct (expires_twice v dd E) as (v2 & E2 & D). rewrite (mbind_ok _ _ _ _ _ E2).
  assert (dd = d) as ->. { unfold get_expires, mbind in E. destruct (expires_elem (eid x) d) as [[p|e] d1] eqn:E1; [|discriminate]. injection E as _ <-. unfold expires_elem in E1. rewrite (mbind_ok _ _ _ _ _ (the_run d _ x W Hx eq_refl)) in E1.
    destruct (find1 $"Times" x) as [ts|]; [destruct (find1 $"Expires" ts)|]; now injection E1. }
  destruct D as [->|[-> ->]]; [|intros H; injection H as <- _; reflexivity]. destruct v as [[]|]; try (intros H; injection H as <- _; reflexivity).
  unfold mbind at 1. destruct (get_timeprop T_expiry (eid x) d) as [[t|e] d1] eqn:Et; [|discriminate]. rewrite (mbind_ok _ _ _ _ _ (timeprop_twice _ _ _ Et)). destruct t as [t|]; [|discriminate].
  destruct (instant (now C)) as [p|], (instant t) as [q|]; try discriminate. intros H. injection H as <- _. reflexivity.
Qed.
Lemma autotype_twice :
  match get_autotype_enabled (eid x) d with (Ok v, _) => exists v2, get_autotype_enabled (eid y) d2 = (Ok v2, d2) /\ dimmed v v2 | (Err e, _) => get_autotype_enabled (eid y) d2 = (Err e, d2) end /\
  fst (get_autotype_sequence (eid y) d2) = fst (get_autotype_sequence (eid x) d) /\ fst (get_autotype_window (eid y) d2) = fst (get_autotype_window (eid x) d).
Proof.
  destruct (at_reads_run d x W Hx) as (E1 & E2 & E3). destruct (at_reads_run d2 y W2 Hy) as (F1 & F2 & F3). rewrite E1, E2, E3, F1, F2, F3. cbn [fst at_slot].
  pose proof (tw_find2 $"AutoType" $"Enabled" _ _ T) as H1. pose proof (tw_find2 $"AutoType" $"DefaultSequence" _ _ T) as H2. pose proof (tw_find3 $"AutoType" $"Association" $"Window" _ _ T) as H3.
  assert (Q : forall a b, opt_rel tw a b -> match option_map etext b with Some s => blank_none s | None => None end = match option_map etext a with Some s => blank_none s | None => None end).
  { intros a b. destruct a, b; cbn; try contradiction; [|reflexivity]. intros H. destruct (tw_parts _ _ H) as (_ & _ & [->|[-> ->]]); reflexivity. }
  split; [|split; [now rewrite (Q _ _ H2)|now rewrite (Q _ _ H3)]]. destruct (find_2 $"AutoType" $"Enabled" x) as [a|], (find_2 $"AutoType" $"Enabled" y) as [b|]; cbn [opt_rel option_map] in *; try contradiction; [|reflexivity].
  eexists. split; [reflexivity|]. apply dim, tw_parts, H1.
Qed.
(** Where the element is. *)
Lemma F2_find {X} (P : X -> X -> Prop) f g l m : Forall2 P l m -> (forall a b, P a b -> g b = f a) -> opt_rel P (List.find f l) (List.find g m).
Proof. intros H E. induction H as [|a b l m H H' IH]; cbn [List.find]; [exact I|]. rewrite (E _ _ H). destruct (f a); [exact H|exact IH]. Qed.
Lemma group_twice R : exists g g2, group_of R (eid x) d = (Ok g, d) /\ group_of R (eid y) d2 = (Ok g2, d2) /\ opt_rel (same_place d d2) g g2.
Proof.
  destruct (tw_node _ _ T) as (up & up2 & H1 & H2 & H3). change (eid x) with (nid (Nd x up)). change (eid y) with (nid (Nd y up2)). rewrite (group_of_run R d _ W H1), (group_of_run R d2 _ W2 H2). eexists _, _. split; [reflexivity|]. split; [reflexivity|]. cbn [nd_up].
  assert (G : opt_rel tw (List.find (fun p => str_eqb (etag p) $"Group") up) (List.find (fun p => str_eqb (etag p) $"Group") up2)) by (apply F2_find; [exact H3|]; intros a b E; now rewrite (tw_tag _ _ E)).
  destruct (List.find _ up) as [a|], (List.find _ up2) as [b|]; cbn in *; try contradiction; [|exact I]. exists a, b. auto.
Qed.
Lemma parent_twice : opt_rel tw (parent_of (d_forest d) (eid x)) (parent_of (d_forest d2) (eid y)).
Proof.
  destruct (tw_node _ _ T) as (up & up2 & H1 & H2 & H3). unfold parent_of. rewrite (proj2 (node_of_In _ (eid x) (Nd x up) (wf_unique _ W)) (conj H1 eq_refl)), (proj2 (node_of_In _ (eid y) (Nd y up2) (wf_unique _ W2)) (conj H2 eq_refl)). cbn [nd_up]. exact (F2_hd _ _ _ H3).
Qed.
Lemma is_root_twice : fst (is_root_group (eid y) d2) = fst (is_root_group (eid x) d).
Proof. unfold is_root_group, lift. pose proof parent_twice as H. destruct (parent_of (d_forest d) (eid x)) as [a|], (parent_of (d_forest d2) (eid y)) as [b|]; cbn in *; try contradiction; [now rewrite (tw_tag _ _ H)|reflexivity]. Qed.
Lemma is_history_twice : fst (is_a_history_entry (eid y) d2) = fst (is_a_history_entry (eid x) d).
Proof. unfold is_a_history_entry, lift. pose proof parent_twice as H. destruct (parent_of (d_forest d) (eid x)) as [a|], (parent_of (d_forest d2) (eid y)) as [b|]; cbn in *; try contradiction; [now rewrite (tw_tag _ _ H)|reflexivity]. Qed.
Lemma kids_twice : exists l l2 m m2 h h2, group_subgroups (eid x) d = (Ok l, d) /\ group_subgroups (eid y) d2 = (Ok l2, d2) /\ Forall2 (same_place d d2) l l2 /\
  group_entries (eid x) d = (Ok m, d) /\ group_entries (eid y) d2 = (Ok m2, d2) /\ Forall2 (same_place d d2) m m2 /\ history (eid x) d = (Ok h, d) /\ history (eid y) d2 = (Ok h2, d2) /\ Forall2 (same_place d d2) h h2.
Proof.
  destruct (subgroups_run d x W Hx) as [-> ->]. destruct (subgroups_run d2 y W2 Hy) as [-> ->]. rewrite (history_run d x W Hx), (history_run d2 y W2 Hy). do 6 eexists. do 2 (split; [reflexivity|]). split; [apply tw_ids, tw_kids_of, T|].
  do 2 (split; [reflexivity|]). split; [apply tw_ids, tw_kids_of, T|]. do 2 (split; [reflexivity|]). unfold snapshots. pose proof (tw_find1 $"History" _ _ T) as H. destruct (find1 _ x) as [a|], (find1 _ y) as [b|]; cbn [opt_rel] in H; try contradiction; [|constructor]. apply tw_ids, tw_kids_of, H.
Qed.
(** Attachments. *)
Lemma att_twice : fst (att_id (eid y) d2) = fst (att_id (eid x) d) /\
  match att_filename (eid x) d with (Ok v, _) => exists v2, att_filename (eid y) d2 = (Ok v2, d2) /\ faded v v2 | (Err e, _) => att_filename (eid y) d2 = (Err e, d2) end.
Proof.
  unfold att_id, att_filename. rewrite !(mbind_ok _ _ _ _ _ (the_run d _ x W Hx eq_refl)), !(mbind_ok _ _ _ _ _ (the_run d2 _ y W2 Hy eq_refl)). pose proof (tw_find1 $"Value" _ _ T) as H1. pose proof (tw_find1 $"Key" _ _ T) as H2. split.
  - destruct (find1 $"Value" x) as [a|], (find1 $"Value" y) as [b|]; cbn [opt_rel] in H1; try contradiction; [|reflexivity]. rewrite (tw_attr _ _ _ H1). destruct (attr_of $"Ref" a); reflexivity.
  - destruct (find1 $"Key" x) as [a|], (find1 $"Key" y) as [b|]; cbn [opt_rel] in H2; try contradiction; [|reflexivity]. eexists. split; [reflexivity|]. apply tw_parts, H2.
Qed.
Lemma att_entry_twice : match att_entry (eid x) d with (Ok e, _) => exists e2, att_entry (eid y) d2 = (Ok e2, d2) /\ same_place d d2 e e2 | (Err e, _) => att_entry (eid y) d2 = (Err e, d2) end.
Proof.
  unfold att_entry, lift. pose proof parent_twice as H. destruct (parent_of (d_forest d) (eid x)) as [a|], (parent_of (d_forest d2) (eid y)) as [b|]; cbn [opt_rel] in *; try contradiction; [|reflexivity]. rewrite (tw_tag _ _ H). destruct (str_eqb (etag a) $"Entry"); [|reflexivity]. eexists. split; [reflexivity|]. exists a, b. auto.
Qed.
End One.
(** *** Paths *)
Inductive lin : elem -> elem -> list elem -> list elem -> Prop :=
| lin_top x y : tw x y -> In (Nd x []) (fpre (d_forest d)) -> In (Nd y []) (fpre (d_forest d2)) -> lin x y [] []
| lin_kid x y a b u u2 : tw x y -> In (Nd x (a :: u)) (fpre (d_forest d)) -> In (Nd y (b :: u2)) (fpre (d_forest d2)) -> lin a b u u2 -> lin x y (a :: u) (b :: u2).
Lemma lin_facts x y u u2 : lin x y u u2 -> tw x y /\ In (Nd x u) (fpre (d_forest d)) /\ In (Nd y u2) (fpre (d_forest d2)). Proof. intros []; auto. Qed.
Lemma tw_lin x y : tw x y -> exists u u2, lin x y u u2.
Proof.
  intros T. pose proof T as (doc & G & doc2 & G2 & r & E & E2 & Fx & Fy). revert x y T Fx Fy. induction r as [|n r IH] using rev_ind; intros x y T Fx Fy.
  - cbn [follow] in *. injection Fx as <-. injection Fy as <-. exists [], []. constructor; [exact T|eapply doc_node; eassumption|eapply doc_node; eassumption].
  - rewrite follow_app in Fx, Fy. destruct (follow r doc) as [x'|] eqn:Ex; [|discriminate]. destruct (follow r doc2) as [y'|] eqn:Ey; [|discriminate]. cbn [follow] in *.
    destruct (nth_error (ekids x') n) as [a|] eqn:Ea; [|discriminate]. destruct (nth_error (ekids y') n) as [b|] eqn:Eb; [|discriminate]. injection Fx as <-. injection Fy as <-.
    destruct (IH x' y') as (u & u2 & H); [exists doc, G, doc2, G2, r; auto|reflexivity|reflexivity|]. destruct (lin_facts _ _ _ _ H) as (_ & H1 & H2). exists (x' :: u), (y' :: u2).
    constructor; [exact T|exact (fpre_kid _ _ a H1 (nth_error_In _ _ Ea))|exact (fpre_kid _ _ b H2 (nth_error_In _ _ Eb))|exact H].
Qed.
Lemma lin_group x y u u2 : lin x y u u2 -> match List.find (fun p => str_eqb (etag p) $"Group") u, List.find (fun p => str_eqb (etag p) $"Group") u2 with
  | Some a, Some b => exists v v2, lin a b v v2 /\ (List.length v < List.length u)%nat | None, None => True | _, _ => False end.
Proof.
  induction 1 as [x y T H1 H2|x y a b u u2 T H1 H2 L IH]; [exact I|]. cbn [List.find List.length]. destruct (lin_facts _ _ _ _ L) as (Tab & _). rewrite (tw_tag _ _ Tab). destruct (str_eqb (etag a) $"Group"); [exists u, u2; split; [exact L|lia]|].
  destruct (List.find _ u) as [p|], (List.find _ u2) as [q|]; try contradiction; [|exact I]. destruct IH as (v & v2 & Lv & Le). exists v, v2. split; [exact Lv|lia].
Qed.
Lemma root_both x y : tw x y -> exists r, is_root_group (eid x) d = (r, d) /\ is_root_group (eid y) d2 = (r, d2).
Proof. intros T. exists (fst (is_root_group (eid x) d)). split; [reflexivity|]. rewrite <- (is_root_twice x y T). reflexivity. Qed.
Lemma mbind_no {X Y} (m : M X) (f : X -> M Y) s e s' : m s = (Err e, s') -> mbind m f s = (Err e, s'). Proof. intros E. unfold mbind. now rewrite E. Qed.
Notation agree := (agree d2).
Lemma named_app a b : named (a ++ b) = named a ++ named b. Proof. apply flat_map_app. Qed.
Lemma named_put n n2 acc acc2 : faded n n2 -> named acc = named acc2 -> named (match n with Some _ => n :: acc | None => acc end) = named (match n2 with Some _ => n2 :: acc2 | None => acc2 end).
Proof. intros [->|[-> ->]] E; [destruct n as [[|c s]|]; unfold named in *; cbn [flat_map app]; now rewrite E|exact E]. Qed.
Lemma loop_twice R m : forall x y u u2, lin x y u u2 -> (List.length u < m)%nat -> forall n n2 acc acc2, (List.length u < n)%nat -> (List.length u < n2)%nat -> named acc = named acc2 ->
  agree (fun l l2 => named l = named l2) (path_loop R n (Some (eid x)) acc d) (path_loop R n2 (Some (eid y)) acc2 d2).
Proof.
  induction m as [|m IH]; intros x y u u2 L Lm [|n] [|n2] acc acc2 Ln Ln2 E; try lia. destruct (lin_facts _ _ _ _ L) as (T & H1 & H2). cbn [path_loop].
  destruct (root_both x y T) as ([r|e] & R1 & R2); [|rewrite (mbind_no _ _ _ _ _ R1), (mbind_no _ _ _ _ _ R2); reflexivity]. rewrite (mbind_ok _ _ _ _ _ R1), (mbind_ok _ _ _ _ _ R2). destruct r; cbv iota; [eexists; split; [reflexivity|auto]|].
  destruct (sub_twice x y T $"Name") as (v & v2 & E1 & E2 & Fd). rewrite (mbind_ok _ _ _ _ _ E1), (mbind_ok _ _ _ _ _ E2).
  assert (E1' : group_of R (eid x) d = _) by exact (group_of_run R d (Nd x u) (ag_wf _ _ A) H1). assert (E2' : group_of R (eid y) d2 = _) by exact (group_of_run R d2 (Nd y u2) (ag_wf2 _ _ A) H2). rewrite (mbind_ok _ _ _ _ _ E1'), (mbind_ok _ _ _ _ _ E2'). cbn [nd_up].
  pose proof (named_put v v2 acc acc2 Fd E) as E'. pose proof (lin_group _ _ _ _ L) as G. destruct (List.find _ u) as [a|], (List.find _ u2) as [b|]; try contradiction; cbn [option_map].
  - destruct G as (w & w2 & Lw & Le). apply (IH a b w w2); auto; lia.
  - assert (0 < List.length u)%nat. { destruct u as [|c u]; [|cbn; lia]. unfold is_root_group, lift, parent_of in R1. rewrite (proj2 (node_of_In _ (eid x) (Nd x []) (wf_unique _ (ag_wf _ _ A))) (conj H1 eq_refl)) in R1. discriminate. }
    destruct n as [|n]; [lia|]. destruct n2 as [|n2]; [lia|]. eexists; split; [reflexivity|auto].
Qed.
Lemma lin_fuel x y u u2 : lin x y u u2 -> (List.length u < path_fuel d)%nat /\ (List.length u < path_fuel d2)%nat.
Proof.
  intros L. destruct (lin_facts _ _ _ _ L) as (_ & H1 & H2). pose proof (fdepth _ _ H1) as D1. pose proof (fdepth _ _ H2) as D2. cbn [nd_up] in *. assert (List.length u = List.length u2) by (clear -L; induction L; cbn; congruence). unfold path_fuel. lia.
Qed.
Lemma entry_path_twice R x y : tw x y -> agree (opt_rel (fun l l2 => named l = named l2)) (entry_path R (eid x) d) (entry_path R (eid y) d2).
Proof.
  intros T. destruct (tw_lin _ _ T) as (u & u2 & L). destruct (lin_facts _ _ _ _ L) as (_ & H1 & H2). unfold entry_path.
  assert (E1' : group_of R (eid x) d = _) by exact (group_of_run R d (Nd x u) (ag_wf _ _ A) H1). assert (E2' : group_of R (eid y) d2 = _) by exact (group_of_run R d2 (Nd y u2) (ag_wf2 _ _ A) H2). rewrite (mbind_ok _ _ _ _ _ E1'), (mbind_ok _ _ _ _ _ E2'). cbn [nd_up].
  pose proof (lin_group _ _ _ _ L) as G. destruct (List.find _ u) as [a|], (List.find _ u2) as [b|]; try contradiction; cbn [option_map]; [|exists None; split; [reflexivity|exact I]].
  destruct G as (v & v2 & Lv & _). destruct (prop_twice x y T R P_title) as (t & t2 & F1 & F2 & Fd). cbn [get_prop] in F1, F2. rewrite (mbind_ok _ _ _ _ _ F1), (mbind_ok _ _ _ _ _ F2).
  assert (E : named [t] = named [t2]) by (destruct Fd as [->|[-> ->]]; reflexivity).
  destruct (lin_fuel _ _ _ _ Lv) as [D1 D2]. rewrite (mbind_ok (lift (fun d => Ok (path_fuel d))) _ d (path_fuel d) d eq_refl), (mbind_ok (lift (fun d => Ok (path_fuel d))) _ d2 (path_fuel d2) d2 eq_refl).
  pose proof (loop_twice R _ _ _ _ _ Lv (Nat.lt_succ_diag_r _) _ _ [t] [t2] D1 D2 E) as P. unfold mbind. destruct (path_loop R (path_fuel d) (Some (eid a)) [t] d) as [[l|e] d1]; cbn [agree] in P |- *.
  - destruct P as (l2 & -> & En). exists (Some l2). auto.
  - now rewrite P.
Qed.
Lemma group_path_twice R x y : tw x y -> agree (fun l l2 => named l = named l2) (group_path R (eid x) d) (group_path R (eid y) d2).
Proof.
  intros T. destruct (tw_lin _ _ T) as (u & u2 & L). destruct (lin_facts _ _ _ _ L) as (_ & H1 & H2). unfold group_path.
  destruct (root_both x y T) as ([r|e] & R1 & R2); [|rewrite (mbind_no _ _ _ _ _ R1), (mbind_no _ _ _ _ _ R2); reflexivity]. rewrite (mbind_ok _ _ _ _ _ R1), (mbind_ok _ _ _ _ _ R2). destruct r; cbv iota; [eexists; split; [reflexivity|auto]|].
  assert (E1' : group_of R (eid x) d = _) by exact (group_of_run R d (Nd x u) (ag_wf _ _ A) H1). assert (E2' : group_of R (eid y) d2 = _) by exact (group_of_run R d2 (Nd y u2) (ag_wf2 _ _ A) H2). rewrite (mbind_ok _ _ _ _ _ E1'), (mbind_ok _ _ _ _ _ E2'). cbn [nd_up].
  pose proof (lin_group _ _ _ _ L) as G. destruct (List.find _ u) as [a|], (List.find _ u2) as [b|]; try contradiction; cbn [option_map]; [|eexists; split; reflexivity].
  destruct G as (v & v2 & Lv & _). destruct (sub_twice x y T $"Name") as (t & t2 & F1 & F2 & Fd). rewrite (mbind_ok _ _ _ _ _ F1), (mbind_ok _ _ _ _ _ F2).
  assert (E : named [t] = named [t2]) by (destruct Fd as [->|[-> ->]]; reflexivity).
  destruct (lin_fuel _ _ _ _ Lv) as [D1 D2]. rewrite (mbind_ok (lift (fun d => Ok (path_fuel d))) _ d (path_fuel d) d eq_refl), (mbind_ok (lift (fun d => Ok (path_fuel d))) _ d2 (path_fuel d2) d2 eq_refl).
  exact (loop_twice R _ _ _ _ _ Lv (Nat.lt_succ_diag_r _) _ _ [t] [t2] D1 D2 E).
Qed.
(** *** Searches *)
Lemma picks_twice {X} (Q : X -> X -> Prop) (P P2 : X -> Prop) l l2 m m2 : Forall2 Q l l2 -> (forall a b, In a l -> Q a b -> (P a <-> P2 b)) -> picks P l m -> picks P2 l2 m2 -> Forall2 Q m m2.
Proof.
  intros H. revert m m2. induction H as [|a b l l2 Hab H IH]; intros m m2 E H1 H2.
  - inversion H1; inversion H2; subst. constructor.
  - pose proof (E a b (or_introl eq_refl) Hab) as Eab. assert (E' : forall a b, In a l -> Q a b -> (P a <-> P2 b)) by (intros; apply E; [now right|assumption]). inversion H1; inversion H2; subst; try tauto; [constructor; auto|auto].
Qed.
Lemma kid_twice T (P P2 : elem -> Prop) x y : tw x y -> (forall a b, tw a b -> (P a <-> P2 b)) -> (kid_with T P x <-> kid_with T P2 y).
Proof.
  intros H E. pose proof (tw_kids _ _ H) as K. unfold kid_with. split.
  - intros (k & Ik & Tk & Pk). apply In_nth_error in Ik as (n & Ek). destruct (F2_nth _ _ _ K n k Ek) as (b & Eb & Tb). exists b. split; [exact (nth_error_In _ _ Eb)|]. split; [rewrite (tw_tag _ _ Tb); exact Tk|]. now apply (E k b).
  - intros (k & Ik & Tk & Pk). apply In_nth_error in Ik as (n & Ek). destruct (F2_nth' _ _ _ K n k Ek) as (b & Eb & Tb). exists b. split; [exact (nth_error_In _ _ Eb)|]. split; [rewrite <- (tw_tag _ _ Tb); exact Tk|]. now apply (E b k).
Qed.
Lemma matches_twice R (rx ic : bool) v o o2 : faded o o2 -> rx = true \/ v <> [] -> (matches R rx ic v o <-> matches R rx ic v o2).
Proof. intros F N. unfold matches. destruct rx; [now rewrite (faded_or _ _ F)|]. destruct N as [N|N]; [discriminate|]. now apply faded_eq. Qed.
Section Criteria.
Context (M : option str -> Prop) (HM : forall o o2, faded o o2 -> (M o <-> M o2)).
Lemma text_twice a b : tw a b -> (text_meets M a <-> text_meets M b). Proof. intros H. apply HM, tw_parts, H. Qed.
Lemma and_iff (a b c e : Prop) : (a <-> b) -> (c <-> e) -> (a /\ c <-> b /\ e). Proof. tauto. Qed.
Lemma field_twice key x y : key <> [] -> tw x y -> (has_field M key x <-> has_field M key y).
Proof.
  intros N H. unfold has_field. apply kid_twice; [exact H|]. intros a b Tab. apply and_iff; apply kid_twice; try exact Tab; [|exact text_twice]. intros k k2 Tk. apply faded_eq; [apply tw_parts, Tk|exact N].
Qed.
Ltac keyed := match goal with
  | |- (if ?b then _ else _) <-> (if ?b then _ else _) => destruct b
  | |- has_field _ _ _ <-> _ => apply field_twice; [discriminate|]
  | |- kid_with _ _ _ <-> _ => apply kid_twice
  | |- forall _ _, _ => intros
  | |- text_meets _ _ <-> _ => now apply text_twice
  | |- twins _ _ _ _ => eassumption
  | |- False <-> False => tauto
  end.
Lemma entry_key_twice k x y : tw x y -> (entry_key M k x <-> entry_key M k y). Proof. intros H. unfold entry_key. repeat keyed. Qed.
Lemma group_key_twice k x y : tw x y -> (group_key M k x <-> group_key M k y). Proof. intros H. unfold group_key. repeat keyed. Qed.
Lemma attachment_key_twice k x y : tw x y -> (attachment_key M k x <-> attachment_key M k y).
Proof.
  intros H. unfold attachment_key. destruct (str_eqb k $"filename"); [repeat keyed|]. destruct (str_eqb k $"id"); [|tauto]. apply kid_twice; [exact H|]. intros a b Tab. now rewrite (proj1 (proj2 (tw_parts _ _ Tab))).
Qed.
End Criteria.
Lemma answers_twice R T (key : (option str -> Prop) -> str -> elem -> Prop) q x y : telling q -> tw x y ->
  (forall M k, (forall o o2, faded o o2 -> (M o <-> M o2)) -> (key M k x <-> key M k y)) ->
  forall t t2, answers T key R (d_forest d) (aim t q) x <-> answers T key R (d_forest d2) (aim t2 q) y.
Proof.
  intros [Q1 Q2] H K t t2. unfold answers. cbn [aim q_history q_string q_kw q_regex q_flags]. rewrite (tw_tag _ _ H). apply and_iff; [tauto|]. apply and_iff; [pose proof (tw_visible _ _ H); tauto|]. apply and_iff.
  - assert (E : forall f v, In (f, v) (q_string q) -> (has_field (matches R (q_regex q) (ignore_case (q_flags q)) v) f x <-> has_field (matches R (q_regex q) (ignore_case (q_flags q)) v) f y)).
    { intros f v I. destruct (Q1 f v I) as [N1 N2]. apply field_twice; [|exact N1|exact H]. intros o o2 F. now apply matches_twice. }
    split; intros G f v I; apply (E f v I), G, I.
  - assert (E : forall kv, In kv (q_kw q) -> (meets key R (q_regex q) (ignore_case (q_flags q)) kv x <-> meets key R (q_regex q) (ignore_case (q_flags q)) kv y)).
    { intros [k v] I. specialize (Q2 k v I). unfold meets. cbn [fst snd].
      assert (E' : q_regex q = true \/ FindSpec.shown v <> [] -> (key (matches R (q_regex q) (ignore_case (q_flags q)) (FindSpec.shown v)) k x <-> key (matches R (q_regex q) (ignore_case (q_flags q)) (FindSpec.shown v)) k y)).
      { intros N. apply K. intros o o2 F. now apply matches_twice. }
      destruct v; try (exact (E' Q2)); [tauto|]. apply kid_twice; [exact H|]. intros a b Tab. rewrite (faded_or _ _ (proj2 (proj2 (tw_parts _ _ Tab)))). tauto. }
    split; intros G kv I; apply (E kv I), G, I.
Qed.
Lemma searched_twice t t2 rec : both_aim d d2 t t2 -> exists cand cand2, searched (d_forest d) t rec cand /\ searched (d_forest d2) t2 rec cand2 /\ Forall2 tw cand cand2.
Proof.
  intros [|x y H].
  - destruct tw_docs as (doc & F & doc2 & F2 & E & E2 & _ & H). destruct rec.
    + exists (everything doc), (everything doc2). split; [now apply (se_all _ doc F)|]. split; [now apply (se_all _ doc2 F2)|now apply tw_everything].
    + exists [doc], [doc2]. split; [now apply (se_root _ doc F)|]. split; [now apply (se_root _ doc2 F2)|auto].
  - destruct (tw_has _ _ H) as [H1 H2]. destruct rec.
    + exists (flat_map everything (ekids x)), (flat_map everything (ekids y)). split; [now apply se_below|]. split; [now apply se_below|]. apply F2_flat; [now apply tw_kids|exact tw_everything].
    + exists (ekids x), (ekids y). split; [now apply se_kids|]. split; [now apply se_kids|]. now apply tw_kids.
Qed.
Lemma find_twice R rec q t t2 : usable entry_keys R q -> telling q -> both_aim d d2 t t2 ->
  exists l l2, find_entries R d rec (aim t q) = Ok (map R_entry l) /\ find_entries R d2 rec (aim t2 q) = Ok (map R_entry l2) /\ Forall2 (same_place d d2) l l2.
Proof.
  intros U Q B. destruct (searched_twice t t2 rec B) as (cand & cand2 & S1 & S2 & H).
  destruct (find_entries_spec R d (aim t q) rec cand (wf_unique _ (ag_wf _ _ A)) U S1) as (l & P & E). destruct (find_entries_spec R d2 (aim t2 q) rec cand2 (wf_unique _ (ag_wf2 _ _ A)) U S2) as (l2 & P2 & E2).
  exists (map eid l), (map eid l2). rewrite !map_map. split; [exact E|]. split; [exact E2|]. apply tw_ids. refine (picks_twice tw _ _ _ _ _ _ H _ P P2). intros a b _ Tab. apply answers_twice; [exact Q|exact Tab|]. intros M k HM. now apply entry_key_twice.
Qed.
Lemma find_groups_twice R rec q t t2 : usable group_keys R q -> q_string q = [] -> telling q -> both_aim d d2 t t2 ->
  exists l l2, find_groups R d rec (aim t q) = Ok (map R_group l) /\ find_groups R d2 rec (aim t2 q) = Ok (map R_group l2) /\ Forall2 (same_place d d2) l l2.
Proof.
  intros U N Q B. destruct (searched_twice t t2 rec B) as (cand & cand2 & S1 & S2 & H).
  destruct (find_groups_spec R d (aim t q) rec cand (wf_unique _ (ag_wf _ _ A)) U N S1) as (l & P & E). destruct (find_groups_spec R d2 (aim t2 q) rec cand2 (wf_unique _ (ag_wf2 _ _ A)) U N S2) as (l2 & P2 & E2).
  exists (map eid l), (map eid l2). rewrite !map_map. split; [exact E|]. split; [exact E2|]. apply tw_ids. refine (picks_twice tw _ _ _ _ _ _ H _ P P2). intros a b _ Tab. apply answers_twice; [exact Q|exact Tab|]. intros M k HM. now apply group_key_twice.
Qed.
Lemma plain_telling : telling plain_query. Proof. split; [intros ? ? []|intros ? ? []]. Qed.
Lemma listings_twice R : exists l l2 m m2, entries R d = (Ok l, d) /\ entries R d2 = (Ok l2, d2) /\ Forall2 (same_place d d2) l l2 /\ groups R d = (Ok m, d) /\ groups R d2 = (Ok m2, d2) /\ Forall2 (same_place d d2) m m2.
Proof.
  assert (U : forall keys, usable keys R plain_query) by (intros keys; split; [reflexivity|]; split; [exact I|]; split; intros ? ? []).
  destruct (find_twice R true plain_query None None (U _) plain_telling (ba_all _ _)) as (l & l2 & E & E2 & H). destruct (find_groups_twice R true plain_query None None (U _) eq_refl plain_telling (ba_all _ _)) as (m & m2 & F & F2 & G).
  exists l, l2, m, m2. unfold entries, groups, lift. change (aim None plain_query) with plain_query in *. rewrite E, E2, F, F2. cbn [bind]. rewrite !map_map. cbn [rid]. rewrite !map_id. auto 8.
Qed.
(** By path. *)
Lemma named_twice n a b : n <> [] -> tw a b -> (named_group n a <-> named_group n b).
Proof. intros N H. unfold named_group. rewrite (tw_tag _ _ H). apply and_iff; [tauto|]. apply kid_twice; [exact H|]. intros p q Tpq. apply faded_eq; [apply tw_parts, Tpq|exact N]. Qed.
Lemma kids_both x y : tw x y -> (forall a, In a (ekids x) -> exists b, In b (ekids y) /\ tw a b) /\ (forall b, In b (ekids y) -> exists a, In a (ekids x) /\ tw a b).
Proof.
  intros H. pose proof (tw_kids _ _ H) as K. split; intros a I; apply In_nth_error in I as (n & E).
  - destruct (F2_nth _ _ _ K n a E) as (b & Eb & Tb). exists b. split; [exact (nth_error_In _ _ Eb)|exact Tb].
  - destruct (F2_nth' _ _ _ K n a E) as (b & Eb & Tb). exists b. split; [exact (nth_error_In _ _ Eb)|exact Tb].
Qed.
Lemma leads_twice p : Forall (fun n => n <> []) p -> forall x y, tw x y -> (forall a, leads p x a -> exists b, leads p y b /\ tw a b) /\ (forall b, leads p y b -> exists a, leads p x a /\ tw a b).
Proof.
  induction 1 as [|n p N F IH]; intros x y H.
  - split; intros a L; inversion L; subst; eexists; (split; [constructor|exact H]).
  - destruct (kids_both x y H) as [K1 K2]. split; intros a L; inversion L as [|n0 p0 t0 g u0 I Ng Lg]; subst.
    + destruct (K1 g I) as (g2 & I2 & Tg). destruct (proj1 (IH g g2 Tg) a Lg) as (b & Lb & Tb). exists b. split; [|exact Tb]. apply (leads_down n p y g2); [exact I2|now apply (named_twice n g g2)|exact Lb].
    + destruct (K2 g I) as (g1 & I1 & Tg). destruct (proj2 (IH g1 g Tg) a Lg) as (b & Lb & Tb). exists b. split; [|exact Tb]. apply (leads_down n p x g1); [exact I1|now apply (named_twice n g1 g)|exact Lb].
Qed.
Lemma nth_apart {X} (f : X -> list nat) l : NoDup (flat_map f l) -> forall n m a b i, nth_error l n = Some a -> nth_error l m = Some b -> In i (f a) -> In i (f b) -> n = m.
Proof.
  induction l as [|c l IH]; intros D [|n] [|m] a b i Ea Eb Ia Ib; try discriminate; cbn [nth_error flat_map] in *; [reflexivity| | |].
  - exfalso. injection Ea as ->. refine (NoDup_app_disj _ _ _ D Ia _). apply in_flat_map. exists b. split; [exact (nth_error_In _ _ Eb)|exact Ib].
  - exfalso. injection Eb as ->. refine (NoDup_app_disj _ _ _ D Ib _). apply in_flat_map. exists a. split; [exact (nth_error_In _ _ Ea)|exact Ia].
  - f_equal. apply NoDup_app_r in D. now apply (IH D n m a b i).
Qed.
Lemma follow_fun r : forall r' t x, NoDup (ids t) -> follow r t = Some x -> follow r' t = Some x -> r = r'.
Proof.
  assert (In_ids : forall r t x, follow r t = Some x -> In (eid x) (ids t)) by (intros q t x E; rewrite ids_everything; apply in_map; exact (follow_In q t x E)).
  induction r as [|n r IH]; intros [|m r'] [i g a o k] x D E E'; [reflexivity| | |]; cbn [follow ekids ids] in *; inversion D as [|? ? Di Dk]; subst.
  - exfalso. injection E as <-. destruct (nth_error k m) as [c|] eqn:Ec; [|discriminate]. apply Di. apply in_flat_map. exists c. split; [exact (nth_error_In _ _ Ec)|]. exact (In_ids _ _ _ E').
  - exfalso. injection E' as <-. destruct (nth_error k n) as [c|] eqn:Ec; [|discriminate]. apply Di. apply in_flat_map. exists c. split; [exact (nth_error_In _ _ Ec)|]. exact (In_ids _ _ _ E).
  - destruct (nth_error k n) as [c|] eqn:Ec; [|discriminate]. destruct (nth_error k m) as [c'|] eqn:Ec'; [|discriminate]. assert (n = m) as <- by exact (nth_apart ids k Dk n m c c' _ Ec Ec' (In_ids _ _ _ E) (In_ids _ _ _ E')).
    rewrite Ec in Ec'. injection Ec' as <-. f_equal. refine (IH r' c x _ E E'). apply nth_error_In in Ec. apply in_split in Ec as (l1 & l2 & ->). rewrite flat_map_app in Dk. cbn [flat_map] in Dk. apply NoDup_app_r in Dk. now apply NoDup_app_l in Dk.
Qed.
Lemma doc_nodup e doc F : wf e -> d_forest e = doc :: F -> NoDup (ids doc).
Proof. intros H E. pose proof (wf_unique _ H) as U. unfold unique in U. rewrite E in U. cbn [elements flat_map] in U. rewrite map_app in U. apply NoDup_app_l in U. now rewrite ids_everything. Qed.
Lemma tw_fun x y y' : tw x y -> tw x y' -> y = y'.
Proof.
  intros (doc & F & doc2 & F2 & r & E & E2 & Fx & Fy) (doc' & F' & doc2' & F2' & r' & E' & E2' & Fx' & Fy'). rewrite E in E'. rewrite E2 in E2'. injection E' as <- <-. injection E2' as <- <-.
  assert (r = r') as <- by exact (follow_fun r r' doc x (doc_nodup _ _ _ (ag_wf _ _ A) E) Fx Fx'). congruence.
Qed.
Lemma tw_inj x x' y : tw x y -> tw x' y -> x = x'.
Proof.
  intros (doc & F & doc2 & F2 & r & E & E2 & Fx & Fy) (doc' & F' & doc2' & F2' & r' & E' & E2' & Fx' & Fy'). rewrite E in E'. rewrite E2 in E2'. injection E' as <- <-. injection E2' as <- <-.
  assert (r = r') as <- by exact (follow_fun r r' doc2 y (doc_nodup _ _ _ (ag_wf2 _ _ A) E2) Fy Fy'). congruence.
Qed.
Lemma root_group_twice x y : tw x y -> (forall a, FindSpec.root_group x a -> exists b, FindSpec.root_group y b /\ tw a b) /\ (forall b, FindSpec.root_group y b -> exists a, FindSpec.root_group x a /\ tw a b).
Proof.
  intros H. destruct (kids_both x y H) as [K1 K2]. unfold FindSpec.root_group. rewrite (tw_tag _ _ H). split; intros a (Tx & r & Ir & Tr & Ia & Ta).
  - destruct (K1 r Ir) as (r2 & Ir2 & Trr). destruct (proj1 (kids_both _ _ Trr) a Ia) as (b & Ib & Tb). exists b. split; [|exact Tb]. split; [exact Tx|]. exists r2. rewrite (tw_tag _ _ Trr), (tw_tag _ _ Tb). auto.
  - destruct (K2 r Ir) as (r2 & Ir2 & Trr). destruct (proj2 (kids_both _ _ Trr) a Ia) as (b & Ib & Tb). exists b. split; [|exact Tb]. split; [exact Tx|]. exists r2. rewrite <- (tw_tag _ _ Trr), <- (tw_tag _ _ Tb). auto.
Qed.
Lemma group_at_twice p doc doc2 x y : Forall (fun n => n <> []) p -> tw doc doc2 -> tw x y -> (group_at doc p x <-> group_at doc2 p y).
Proof.
  intros N D H. destruct (root_group_twice _ _ D) as [R1 R2]. split; intros (rg & Hr & L).
  - destruct (R1 rg Hr) as (rg2 & Hr2 & Tr). destruct (proj1 (leads_twice p N _ _ Tr) x L) as (b & Lb & Tb). rewrite (tw_fun _ _ _ H Tb). exists rg2. auto.
  - destruct (R2 rg Hr) as (rg2 & Hr2 & Tr). destruct (proj2 (leads_twice p N _ _ Tr) y L) as (b & Lb & Tb). rewrite (tw_inj _ _ _ H Tb). exists rg2. auto.
Qed.
Lemma title_twice v x y : v <> [] -> tw x y -> (has_field (fun o => o = Some v) $"Title" x <-> has_field (fun o => o = Some v) $"Title" y).
Proof. intros N H. apply field_twice; [|discriminate|exact H]. intros o o2 F. now apply faded_eq. Qed.
Lemma entry_at_twice p v doc doc2 x y : Forall (fun n => n <> []) p -> v <> [] -> tw doc doc2 -> tw x y -> (entry_at doc p v x <-> entry_at doc2 p v y).
Proof.
  intros N Nv D H. destruct (root_group_twice _ _ D) as [R1 R2]. split; intros (rg & g & Hr & L & Ix & Tx & Fx).
  - destruct (R1 rg Hr) as (rg2 & Hr2 & Tr). destruct (proj1 (leads_twice p N _ _ Tr) g L) as (b & Lb & Tb). destruct (proj1 (kids_both _ _ Tb) x Ix) as (y' & Iy & Ty). rewrite <- (tw_fun _ _ _ H Ty) in Iy. exists rg2, b. rewrite (tw_tag _ _ H). do 4 (split; [assumption|]). now apply (title_twice v x y).
  - destruct (R2 rg Hr) as (rg2 & Hr2 & Tr). destruct (proj2 (leads_twice p N _ _ Tr) g L) as (b & Lb & Tb). destruct (proj2 (kids_both _ _ Tb) y Ix) as (y' & Iy & Ty). rewrite <- (tw_inj _ _ _ H Ty) in Iy. exists rg2, b. rewrite <- (tw_tag _ _ H). do 4 (split; [assumption|]). now apply (title_twice v x y).
Qed.
Lemma entry_path_search R rec q p v : q_tree q = None -> path_query q (p ++ [v]) -> Forall plain (p ++ [v]) -> Forall (fun n => n <> []) (p ++ [v]) ->
  exists l l2, find_entries R d rec q = Ok (map R_entry l) /\ find_entries R d2 rec q = Ok (map R_entry l2) /\ Forall2 (same_place d d2) l l2.
Proof.
  intros Q1 Q2 Q3 N. apply Forall_app in N as [N Nv]. inversion Nv as [|? ? Nv' _]; subst. destruct tw_docs as (doc & F & doc2 & F2 & E & E2 & _ & H).
  destruct (find_entries_path R d q rec p v doc F E (wf_unique _ (ag_wf _ _ A)) Q1 Q2 Q3) as (l & P & G). destruct (find_entries_path R d2 q rec p v doc2 F2 E2 (wf_unique _ (ag_wf2 _ _ A)) Q1 Q2 Q3) as (l2 & P2 & G2).
  exists (map eid l), (map eid l2). rewrite !map_map. split; [exact G|]. split; [exact G2|]. apply tw_ids. refine (picks_twice tw _ _ _ _ _ _ (tw_everything _ _ H) _ P P2). intros a b _ Tab. now apply entry_at_twice.
Qed.
Lemma group_path_search R rec q p : q_tree q = None -> path_query q p -> Forall (fun n => plain n /\ n <> []) p ->
  exists l l2, find_groups R d rec q = Ok (map R_group l) /\ find_groups R d2 rec q = Ok (map R_group l2) /\ Forall2 (same_place d d2) l l2.
Proof.
  intros Q1 Q2 Q3. assert (N : Forall (fun n => n <> []) p) by (eapply Forall_impl; [|exact Q3]; intros a [_ X]; exact X). destruct tw_docs as (doc & F & doc2 & F2 & E & E2 & _ & H).
  destruct (find_groups_path R d q rec p doc F E (wf_unique _ (ag_wf _ _ A)) Q1 Q2 Q3) as (l & P & G). destruct (find_groups_path R d2 q rec p doc2 F2 E2 (wf_unique _ (ag_wf2 _ _ A)) Q1 Q2 Q3) as (l2 & P2 & G2).
  exists (map eid l), (map eid l2). rewrite !map_map. split; [exact G|]. split; [exact G2|]. apply tw_ids. refine (picks_twice tw _ _ _ _ _ _ (tw_everything _ _ H) _ P P2). intros a b _ Tab. now apply group_at_twice.
Qed.
Lemma hd_places l l2 : Forall2 (same_place d d2) l l2 -> opt_rel (same_place d d2) (hd_error l) (hd_error l2). Proof. apply F2_hd. Qed.
Lemma root_search R : exists g g2, root_group R d = (Ok g, d) /\ root_group R d2 = (Ok g2, d2) /\ opt_rel (same_place d d2) g g2.
Proof.
  destruct (group_path_search R true (MkQuery (Some []) None false false None [] []) [] eq_refl (conj eq_refl eq_refl) (Forall_nil _)) as (l & l2 & E & E2 & H). exists (hd_error l), (hd_error l2). unfold root_group, lift. rewrite E, E2. cbn [bind]. split; [destruct l; reflexivity|]. split; [destruct l2; reflexivity|now apply hd_places].
Qed.
(** The database's own properties, the recycle bin. *)
Lemma meta_rel tag doc doc2 : tw doc doc2 -> opt_rel tw (meta_of tag doc) (meta_of tag doc2).
Proof. intros H. unfold meta_of. rewrite (tw_tag _ _ H). destruct (str_eqb (etag doc) $"KeePassFile"); [|exact I]. apply (F2_hd tw). apply F2_flat; [now apply tw_kids_of|]. intros; now apply tw_kids_of. Qed.
Lemma meta_twice R tag : In tag meta_tags -> agree faded (get_meta R tag d) (get_meta R tag d2).
Proof.
  intros I. destruct tw_docs as (doc & F & doc2 & F2 & E & E2 & _ & H). unfold get_meta. rewrite (mbind_ok _ _ _ _ _ (meta_run R d doc F tag (ag_wf _ _ A) E I)), (mbind_ok _ _ _ _ _ (meta_run R d2 doc2 F2 tag (ag_wf2 _ _ A) E2 I)).
  pose proof (meta_rel tag _ _ H) as G. destruct (meta_of tag doc) as [a|], (meta_of tag doc2) as [b|]; cbn [opt_rel] in G; try contradiction; [|reflexivity]. eexists. split; [reflexivity|]. apply tw_parts, G.
Qed.
Lemma recyclebin_twice R g d' : recyclebin_group R d = (Ok g, d') -> exists g2, recyclebin_group R d2 = (Ok g2, d2) /\ opt_rel (same_place d d2) g g2.
Proof.
  destruct tw_docs as (doc & F & doc2 & F2 & E & E2 & _ & H). unfold recyclebin_group. assert (I : In $"RecycleBinUUID" meta_tags) by now left.
  rewrite (mbind_ok _ _ _ _ _ (meta_run R d doc F _ (ag_wf _ _ A) E I)), (mbind_ok _ _ _ _ _ (meta_run R d2 doc2 F2 _ (ag_wf2 _ _ A) E2 I)).
  pose proof (meta_rel $"RecycleBinUUID" _ _ H) as G. destruct (meta_of _ doc) as [a|], (meta_of _ doc2) as [b|]; cbn [opt_rel] in G; try contradiction; [|discriminate]. destruct (tw_parts _ _ G) as (_ & _ & Fd).
  destruct (uuid_of_text (etext a)) as [u|e] eqn:Eu; [|rewrite (mbind_no (of_res (Err e)) _ d e d eq_refl); discriminate].
  assert (Eu2 : uuid_of_text (etext b) = Ok u). { destruct Fd as [->|[Ea _]]; [exact Eu|]. exfalso. rewrite Ea in Eu. vm_compute in Eu. discriminate. }
  rewrite (mbind_ok (of_res (Ok u)) _ d u d eq_refl). rewrite (mbind_ok (of_res (uuid_of_text (etext b))) _ d2 u d2) by (unfold of_res; now rewrite Eu2). pose proof (uuid_of_text_ok _ _ Eu) as Hu.
  destruct (find_groups_twice R true (bin_query u) None None) as (l & l2 & El & El2 & Hl); [|reflexivity| |constructor|].
  - split; [reflexivity|]. split; [exact Logic.I|]. split; [intros ? ? []|]. intros k v [Hk|[]]. injection Hk as <- <-. split; [right; left; reflexivity|]. split; [eauto|]. split; [discriminate|]. split; [now apply uuid_plain|]. intros C; discriminate C.
  - split; [intros ? ? []|]. intros k v [Hk|[]]. injection Hk as <- <-. right. cbn [FindSpec.shown]. destruct Hu as [_ Lu]. destruct u as [|c1 [|c2 [|c3 u]]]; try discriminate Lu. discriminate.
  - change (aim None (bin_query u)) with (bin_query u) in *. unfold bin_query in El, El2. unfold lift. rewrite El, El2. cbn [bind]. intros X. injection X as <- _. eexists. split; [reflexivity|]. apply hd_places in Hl. destruct l, l2; cbn in *; auto.
Qed.
(** Binaries. *)
Lemma bins3_twice Zl l m : (forall z, zinflate Zl [] = Ok z -> z = []) -> Forall2 tw l m -> forall acc r, bins3 Zl l acc = Ok r -> bins3 Zl m acc = Ok r.
Proof.
  intros Z H. induction H as [|a b l m Hab H IH]; intros acc r E; [exact E|]. cbn [bins3] in *. destruct (bin_data Zl a) as [x|e] eqn:Ea; [|discriminate]. cbn [bind] in E.
  assert (Eb : bin_data Zl b = Ok x).
  { unfold bin_data in *. rewrite (tw_attr _ _ _ Hab). destruct (tw_parts _ _ Hab) as (_ & _ & [->|[Et Et2]]); [exact Ea|]. rewrite Et in Ea. rewrite Et2. change (b64decode []) with (@Ok bytes []) in Ea. cbn [bind] in Ea.
    destruct (ostr_eqb (attr_of $"Compressed" a) (Some $"True")); [now rewrite (Z _ Ea)|exact Ea]. }
  rewrite Eb, (tw_attr _ _ _ Hab). cbn [bind]. destruct (attr_of $"ID" a) as [s|]; [|discriminate]. destruct (int_of_str s) as [n|]; [|discriminate]. cbn [bind] in *. now apply IH.
Qed.
Lemma binaries_twice R Zl l d' : (forall z, zinflate Zl [] = Ok z -> z = []) -> binaries R Zl d = (Ok l, d') -> binaries R Zl d2 = (Ok l, d2).
Proof.
  intros Z. unfold binaries, lift. rewrite (ag_v4 _ _ A). destruct (v4 d) eqn:V; [intros X; injection X as <- _; now rewrite (ag_bins _ _ A V)|]. destruct tw_docs as (doc & F & doc2 & F2 & E & E2 & _ & H).
  assert (G : forall e r G, wf e -> d_forest e = r :: G -> exists n, xpath R e None $"/KeePassFile/Meta/Binaries/Binary" = Ok n /\ map nd_el n = if str_eqb (etag r) $"KeePassFile" then flat_map (kids_of $"Binary") (flat_map (kids_of $"Binaries") (kids_of $"Meta" r)) else []).
  { intros e r G We Ee. destruct (abs_path R e r G $"/KeePassFile/Meta/Binaries/Binary" ($"KeePassFile", []) [($"Meta", []); ($"Binaries", []); ($"Binary", [])] Ee (wf_unique e We)) as (n & En & Em); [vm_compute; reflexivity|vm_compute; reflexivity| |].
    - intros w _. repeat (constructor; [constructor|]). constructor.
    - exists n. split; [exact En|]. rewrite Em, !ewalk_bare. cbn [ewalk filter fst snd]. unfold crits_hold. cbn [forallb]. rewrite andb_true_r. destruct (str_eqb (etag r) $"KeePassFile"); [|reflexivity]. cbn [flat_map]. now rewrite app_nil_r. }
  destruct (G d doc F (ag_wf _ _ A) E) as (n & En & Em). destruct (G d2 doc2 F2 (ag_wf2 _ _ A) E2) as (n2 & En2 & Em2). rewrite En, En2. cbn [bind]. rewrite Em, Em2, (tw_tag _ _ H). intros X. injection X as X _. f_equal. revert X. apply bins3_twice; [exact Z|].
  destruct (str_eqb (etag doc) $"KeePassFile"); [|constructor]. apply F2_flat; [|intros; now apply tw_kids_of]. apply F2_flat; [now apply tw_kids_of|]. intros; now apply tw_kids_of.
Qed.
Lemma att_binary_twice R Zl x y b d' : (forall z, zinflate Zl [] = Ok z -> z = []) -> tw x y -> att_binary R Zl (eid x) d = (Ok b, d') -> att_binary R Zl (eid y) d2 = (Ok b, d2).
Proof.
  intros Z T. unfold att_binary. unfold mbind. destruct (binaries R Zl d) as [[l|e] d1] eqn:Eb; [|destruct e; try discriminate; destruct (att_id (eid x) d1) as [[]]; discriminate]. rewrite (binaries_twice R Zl l d1 Z Eb).
  assert (d1 = d) as -> by (unfold binaries, lift in Eb; now injection Eb). pose proof (proj1 (att_twice x y T)) as Ea.
  destruct (att_id (eid x) d) as [[n|e] d3] eqn:Ex; cbn [fst] in Ea; [|destruct e; try discriminate; destruct (att_id (eid x) d3) as [[]]; discriminate].
  assert (Ey : att_id (eid y) d2 = (Ok n, d2)). { destruct (att_id (eid y) d2) as [r d4] eqn:Ey. cbn [fst] in Ea. subst r. f_equal. unfold att_id in Ey. rewrite (mbind_ok _ _ _ _ _ (the_run d2 _ y (ag_wf2 _ _ A) (proj2 (tw_has _ _ T)) eq_refl)) in Ey.
    destruct (find1 $"Value" y) as [v|]; [destruct (attr_of $"Ref" v)|]; now injection Ey. }
  rewrite Ey. unfold of_res. destruct (py_index l n) as [z|e] eqn:Ei; [intros X; now injection X as <- _|]. destruct e; try discriminate. destruct (att_id (eid x) d3) as [[]]; discriminate.
Qed.
(** Attachments. *)
Lemma tw_back y : has d2 y -> exists x, tw x y.
Proof.
  destruct (ag_alone _ _ A) as (z & Ez). destruct tw_docs as (doc & F & doc2 & F2 & E & E2 & _ & H). rewrite E2 in Ez |- *. injection Ez as -> ->. cbn [elements flat_map]. rewrite app_nil_r. intros I. apply In_nth_error in I as (n & En).
  destruct (F2_nth' _ _ _ (tw_everything _ _ H) n y En) as (x & _ & T). eauto.
Qed.
Lemma parent_elem x y p : tw x y -> has d p -> In x (ekids p) -> exists q, tw p q /\ In y (ekids q).
Proof.
  intros T Hp I. pose proof (parent_twice x y T) as P. assert (E : parent_of (d_forest d) (eid x) = Some p) by (apply parent_of_In; [apply wf_unique, A|split; [exact Hp|now apply in_map]]). rewrite E in P.
  destruct (parent_of (d_forest d2) (eid y)) as [q|] eqn:Eq; cbn [opt_rel] in P; [|contradiction]. exists q. split; [exact P|]. apply parent_of_In in Eq as [Hq Iq]; [|apply wf_unique, A].
  destruct (proj1 (kids_both _ _ P) x I) as (y' & Iy & Ty). now rewrite (tw_fun _ _ _ T Ty).
Qed.
Lemma shape_twice : att_shape d -> att_shape d2.
Proof.
  intros [S1 S2]. split.
  - intros t x Ht Tt Ix. destruct (tw_back t Ht) as (t1 & T1). destruct (proj2 (kids_both _ _ T1) x Ix) as (x1 & Ix1 & Tx). rewrite (tw_tag _ _ T1) in Tt. destruct (tw_parts _ _ Tx) as (G1 & G2 & _). rewrite G1, G2, (tw_attr _ _ _ Tx). exact (S1 t1 x1 (proj1 (tw_has _ _ T1)) Tt Ix1).
  - intros t Ht Tt (x & Ix & Tx). destruct (tw_back t Ht) as (t1 & T1). destruct (proj2 (kids_both _ _ T1) x Ix) as (x1 & Ix1 & Txx). rewrite (tw_tag _ _ T1) in Tt. rewrite (tw_tag _ _ Txx) in Tx.
    destruct (S2 t1 (proj1 (tw_has _ _ T1)) Tt) as (e & He & Te & Ie); [eauto|]. destruct (parent_elem t1 t e T1 He Ie) as (q & Tq & Iq). exists q. split; [apply (tw_has _ _ Tq)|]. split; [now rewrite (tw_tag _ _ Tq)|exact Iq].
Qed.
Lemma attachment_answer R F q t : usable attachment_keys R q -> (exists k v, In (k, v) (q_kw q) /\ v <> K_none) -> answers $"Binary" attachment_key R F q t -> exists x, In x (ekids t) /\ (etag x = $"Key" \/ etag x = $"Value").
Proof.
  intros (_ & _ & _ & U) (k & v & I & N) (_ & _ & _ & K). specialize (K _ I). destruct (U k v I) as (Hk & _ & _ & Hv). unfold meets in K. cbn [fst snd] in K.
  assert (G : forall M, attachment_key M k t -> exists x, In x (ekids t) /\ (etag x = $"Key" \/ etag x = $"Value")).
  { intros M. unfold attachment_key. destruct (str_eqb k $"filename"); [intros (x & Ix & Tx & _); eauto|]. destruct (str_eqb k $"id"); [intros (x & Ix & Tx & _); eauto|tauto]. }
  destruct v; try congruence; try exact (G _ K). destruct Hv as [-> _]. exfalso. cbn in Hk. destruct Hk as [Hk|[Hk|[]]]; discriminate.
Qed.
Lemma searched_has e t rec cand x : searched (d_forest e) t rec cand -> In x cand -> has e x.
Proof.
  intros S I. destruct S as [r G E|r G E|p Hp|p Hp].
  - rewrite E. cbn [elements flat_map]. apply in_or_app. now left.
  - destruct I as [<-|[]]. rewrite E. cbn [elements flat_map]. apply in_or_app. left. rewrite everything_eq. now left.
  - apply in_flat_map in I as (c & Ic & I). pose proof (has_kid e p c Hp Ic) as Hc. unfold elements in *. apply in_flat_map in Hc as (r & Ir & Hc). apply in_flat_map. exists r. split; [exact Ir|]. now apply (everything_sub r c).
  - now apply (has_kid e p).
Qed.
Lemma find_attachments_twice R rec q t t2 : att_shape d -> usable attachment_keys R q -> q_string q = [] -> telling q -> (exists k v, In (k, v) (q_kw q) /\ v <> K_none) -> both_aim d d2 t t2 ->
  exists l l2, find_attachments R d rec (aim t q) = Ok (map R_att l) /\ find_attachments R d2 rec (aim t2 q) = Ok (map R_att l2) /\ Forall2 (same_place d d2) l l2.
Proof.
  intros S U N Q V B. destruct (searched_twice t t2 rec B) as (cand & cand2 & S1 & S2 & H). pose proof (shape_twice S) as [Z1 Z2]. destruct S as [Y1 Y2].
  destruct (find_attachments_spec R d (aim t q) rec cand (wf_unique _ (ag_wf _ _ A)) U N S1 Y1) as (l & P & E).
  { intros x Ix Hx. apply Y2; [exact (searched_has _ _ _ _ _ S1 Ix)|apply Hx|]. exact (attachment_answer R _ (aim t q) x U V Hx). }
  destruct (find_attachments_spec R d2 (aim t2 q) rec cand2 (wf_unique _ (ag_wf2 _ _ A)) U N S2 Z1) as (l2 & P2 & E2).
  { intros x Ix Hx. apply Z2; [exact (searched_has _ _ _ _ _ S2 Ix)|apply Hx|]. exact (attachment_answer R _ (aim t2 q) x U V Hx). }
  exists (map eid l), (map eid l2). rewrite !map_map. split; [exact E|]. split; [exact E2|]. apply tw_ids. refine (picks_twice tw _ _ _ _ _ _ H _ P P2). intros a b _ Tab. apply answers_twice; [exact Q|exact Tab|]. intros M k HM. now apply attachment_key_twice.
Qed.
Definition any_file : query := MkQuery None None false true None [] [($"filename", K_str $".*")].
Lemma any_file_ok R : (forall s, exists b, R $".*" false s = Ok b) -> usable attachment_keys R any_file /\ telling any_file /\ exists k v, In (k, v) (q_kw any_file) /\ v <> K_none.
Proof.
  intros HR. split; [|split].
  - split; [reflexivity|]. split; [exact I|]. split; [intros ? ? []|]. intros k v [E|[]]. injection E as <- <-. split; [right; left; reflexivity|]. split; [discriminate|]. split; [discriminate|]. split; [split; [vm_compute; intuition discriminate|reflexivity]|]. intros _ s. apply HR.
  - split; [intros ? ? []|]. intros k v [E|[]]. injection E as <- <-. now left.
  - exists $"filename", (K_str $".*"). split; [now left|discriminate].
Qed.
Lemma attachments_twice R : att_shape d -> (forall s, exists b, R $".*" false s = Ok b) ->
  (exists l l2, attachments R d = (Ok l, d) /\ attachments R d2 = (Ok l2, d2) /\ Forall2 (same_place d d2) l l2) /\
  forall x y, tw x y -> exists l l2, entry_attachments R (eid x) d = (Ok l, d) /\ entry_attachments R (eid y) d2 = (Ok l2, d2) /\ Forall2 (same_place d d2) l l2.
Proof.
  intros S HR. destruct (any_file_ok R HR) as (U & Q & V). split.
  - destruct (find_attachments_twice R true any_file None None S U eq_refl Q V (ba_all _ _)) as (l & l2 & E & E2 & H). exists l, l2. unfold attachments, lift. unfold aim, any_file in E, E2. cbn [q_path q_history q_regex q_flags q_string q_kw] in E, E2. rewrite E, E2. cbn [bind]. rewrite !map_map. cbn [rid]. rewrite !map_id. auto.
  - intros x y T. destruct (find_attachments_twice R false any_file _ _ S U eq_refl Q V (ba_below _ _ x y T)) as (l & l2 & E & E2 & H). exists l, l2. unfold entry_attachments, lift. unfold aim, any_file in E, E2. cbn [q_path q_history q_regex q_flags q_string q_kw] in E, E2. rewrite E, E2. cbn [bind]. rewrite !map_map. cbn [rid]. rewrite !map_id. auto.
Qed.
(** All custom properties. *)
Lemma mapM_twice {X Y} (Q : X -> X -> Prop) (f g : X -> res Y) (P : Y -> Y -> Prop) l m : Forall2 Q l m -> (forall a b v, Q a b -> f a = Ok v -> exists v2, g b = Ok v2 /\ P v v2) -> forall r, mapM f l = Ok r -> exists r2, mapM g m = Ok r2 /\ Forall2 P r r2.
Proof.
  intros H E. induction H as [|a b l m Hab H IH]; intros r Er; cbn [mapM] in *; [injection Er as <-; exists []; split; [reflexivity|constructor]|].
  destruct (f a) as [v|] eqn:Ef; [|discriminate]. cbn [bind] in Er. destruct (mapM f l) as [vs|] eqn:Em; [|discriminate]. cbn [bind] in Er. injection Er as <-. destruct (E a b v Hab Ef) as (v2 & Eg & Pv). destruct (IH vs eq_refl) as (vs2 & Eg2 & Pvs). rewrite Eg, Eg2. cbn [bind]. eexists. split; [reflexivity|now constructor].
Qed.
Lemma put_twice k v v2 a b : faded v v2 -> Forall2 row_faded a b -> Forall2 row_faded (dict_put k v a) (dict_put k v2 b).
Proof.
  intros F H. induction H as [|[k1 v1] [k2 w2] a b [E1 E2] H IH]; cbn [dict_put fst snd] in *; [constructor; [split; [reflexivity|exact F]|constructor]|]. subst k2. destruct (ostr_eqb k1 k); constructor; try assumption; split; auto.
Qed.
Lemma dict_has k v k' (a : list (option str * option str)) : In k' (map fst a) \/ k' = k -> In k' (map fst (dict_put k v a)).
Proof.
  induction a as [|[k1 v1] a IH]; cbn [map fst dict_put].
  - intros [[]|?]; subst. now left.
  - destruct (ostr_eqb k1 k) eqn:E; cbn [map fst].
    + apply ostr_eqb_eq in E. subst k1. intros [[?|I]|?]; subst; [now left|now right|now left].
    + intros [[?|I]|?]; subst; [now left|right; apply IH; now left|right; apply IH; now right].
Qed.
Definition fill (R : regex) (i : nat) := fix go (ks : list (option str)) (acc : list (option str * option str)) : M (list (option str * option str)) :=
     match ks with
     | [] => ret acc
     | k :: ks' => do v <- get_string R (py_str_opt k) i; go ks' (dict_put k v acc)
     end.
Lemma fill_keys R i ks : forall acc d0 l d', fill R i ks acc d0 = (Ok l, d') -> forall k, In k (map fst acc) \/ In k ks -> In k (map fst l).
Proof.
  induction ks as [|k1 ks IH]; intros acc d0 l d'; cbn [fill].
  - intros [= <- _] k [I|[]]. exact I.
  - unfold mbind. destruct (get_string R (py_str_opt k1) i d0) as [[v|e] d1]; [|discriminate]. intros E k I. apply (IH _ _ _ _ E). destruct I as [I|[->|I]]; [left; apply dict_has; now left|left; apply dict_has; now right|now right].
Qed.
Lemma fill_twice R x y ks : tw x y -> Forall readable ks -> forall acc acc2 l d', Forall2 row_faded acc acc2 -> fill R (eid x) ks acc d = (Ok l, d') -> exists l2, fill R (eid y) ks acc2 d2 = (Ok l2, d2) /\ Forall2 row_faded l l2.
Proof.
  intros T. induction ks as [|k ks IH]; intros K acc acc2 l d' F; cbn [fill]; [intros [= <- _]; eexists; split; [reflexivity|exact F]|].
  inversion K as [|? ? (s & -> & Ps & Ns) K']; subst. cbn [py_str_opt]. destruct (string_twice x y T R s Ps Ns) as (v & v2 & E & E2 & Fv). rewrite (mbind_ok _ _ _ _ _ E), (mbind_ok _ _ _ _ _ E2). apply (IH K'). now apply put_twice.
Qed.
Lemma keys_twice ks ks2 : Forall2 faded ks ks2 -> Forall readable (filter (fun k => negb (reserved k)) ks) -> filter (fun k => negb (reserved k)) ks2 = filter (fun k => negb (reserved k)) ks.
Proof.
  intros H. induction H as [|a b ks ks2 F H IH]; [reflexivity|]. cbn [filter]. destruct F as [->|[-> ->]].
  - destruct (negb (reserved a)); [intros K; inversion K; subst; f_equal; auto|auto].
  - change (negb (reserved (Some []))) with true. cbv iota. intros K. inversion K as [|? ? (s & E & _ & N) _]. injection E as <-. congruence.
Qed.
Lemma custom_properties_twice R x y l d' : tw x y -> custom_properties R (eid x) d = (Ok l, d') -> Forall (fun a => readable (fst a)) l ->
  exists l2, custom_properties R (eid y) d2 = (Ok l2, d2) /\ Forall2 row_faded l l2.
Proof.
  intros T E K. pose proof (tw_has _ _ T) as [Hx Hy]. change (custom_properties R) with (fun i => do ks <- string_keys true i; fill R i ks []) in *. cbv beta in *. unfold string_keys in *. 
  assert (E1 : forall e z, wf e -> has e z -> (do t <- the (eid z); do l0 <- of_res (mapM (fun s => match find1 $"Key" s with Some k => Ok (etext k) | None => Err Ex_Attribute end) (kids_of $"String" t)); ret (filter (fun k => negb (reserved k)) l0)) e = (match mapM (fun s => match find1 $"Key" s with Some k => Ok (etext k) | None => Err Ex_Attribute end) (kids_of $"String" z) with Ok l0 => Ok (filter (fun k => negb (reserved k)) l0) | Err er => Err er end, e)).
  { intros e z We He. rewrite (mbind_ok _ _ _ _ _ (the_run e (eid z) z We He eq_refl)). unfold mbind, of_res, ret. now destruct (mapM _ _). }
  cbv iota in *. unfold mbind at 1 in E. rewrite (E1 d x (ag_wf _ _ A) Hx) in E. unfold mbind at 1. rewrite (E1 d2 y (ag_wf2 _ _ A) Hy). clear E1.
  destruct (mapM _ (kids_of $"String" x)) as [ks|] eqn:Em; [|discriminate].
  assert (Q : forall a b v, tw a b -> (fun s => match find1 $"Key" s with Some k => Ok (etext k) | None => Err Ex_Attribute end) a = Ok v -> exists v2, (fun s => match find1 $"Key" s with Some k => Ok (etext k) | None => Err Ex_Attribute end) b = Ok v2 /\ faded v v2).
  { intros a b v Tab. cbv beta. pose proof (tw_find1 $"Key" _ _ Tab) as H. destruct (find1 $"Key" a) as [p|], (find1 $"Key" b) as [q|]; cbn [opt_rel] in H; try contradiction; [|discriminate]. intros [= <-]. eexists. split; [reflexivity|apply (tw_parts _ _ H)]. }
  destruct (mapM_twice tw _ _ faded _ _ (tw_kids_of $"String" _ _ T) Q _ Em) as (ks2 & Em2 & F).
  rewrite Em2. cbv iota beta in *.
  assert (K' : Forall readable (filter (fun k => negb (reserved k)) ks)). { apply Forall_forall. intros k Ik. pose proof (fill_keys R _ _ _ _ _ _ E k (or_intror Ik)) as Il. apply in_map_iff in Il as (r & <- & Ir). exact (proj1 (Forall_forall _ _) K r Ir). }
  rewrite (keys_twice _ _ F K'). exact (fill_twice R x y _ T K' [] [] l d' (Forall2_nil _) E).
Qed.
End Again.

(** *** Objects saved and opened again *)
Lemma sim_refl t : forall t2, erase t2 = erase t -> sim t t2.
Proof.
  induction t as [i g a o k IH] using elem_ind'. intros [j g2 a2 o2 k2] E. cbn [erase] in E. injection E as -> -> -> Ek. constructor; [now left|].
  clear -IH Ek. revert k2 Ek. induction k as [|c k IHk]; intros [|c2 k2] E; cbn [map] in E; try discriminate; constructor; injection E as E1 E2; inversion IH; subst; auto.
Qed.
Lemma contents_again L k d o2 k2 d2 : lib_ok L -> sound_db L k d -> unpadded d -> same_contents k d o2 -> o_kdbx o2 = Some (k2, Some d2) -> load k2 = Some d2 -> again d d2.
Proof.
  intros HL ((v & cr & data & Hv & Op) & (W & C) & _ & Em & Ei) U (k' & d' & E & Eh & Ed & Eb) E2 El. rewrite E2 in E. injection E as <- <-. destruct (load_some _ _ El) as (t & Ht & Dt & _ & Fm & Fi & _).
  assert (W2 : wf d2 /\ exists e, d_forest d2 = [e]). { unfold load in El. rewrite Ht in El. destruct (label O t) as [e n] eqn:E. pose proof (label_spec t O) as (L1 & L2 & L3 & L4). rewrite E in *. cbn [fst snd] in *. injection El as <-. split; [|cbn; eauto].
    apply wf_fids. cbn [d_forest d_next fids flat_map]. rewrite app_nil_r, L4. split; [discriminate|]. split; [apply seq_NoDup|]. intros j Hj. apply in_seq in Hj. lia. }
  destruct W2 as [W2 (doc2 & F2)]. assert (Vm : d_major d2 = d_major d /\ d_minor d2 = d_minor d) by (rewrite Fm, Fi, Em, Ei, Eh; auto). constructor; auto.
  - unfold v4. now rewrite (proj1 Vm).
  - unfold v4. intros V. apply Eb. rewrite <- Em. destruct Hv as [-> | ->]; [|rewrite Em; apply Op]. exfalso. assert (h_major (k_hdr k) = 3) by apply Op. rewrite Em, H in V. discriminate.
  - unfold document in Ed. rewrite F2 in Ed. unfold unpadded in U. destruct (d_forest d) as [|doc F] eqn:EF; [discriminate|]. cbn [hd_error option_map] in Ed. injection Ed as Ed. exists doc, F, doc2, []. do 2 (split; [auto|]).
    unfold shown in Ed. destruct (stream_id_of k) as [s|]; [|now apply sim_refl]. apply (sim_view s); [exact Ed|]. intros x s' Ix. exact (U doc F x s' eq_refl Ix).
  - eauto.
Qed.
Lemma read_load L lost w o f pw kf tk dec o2 w3 k2 d2 : read L lost w o f pw kf tk dec = (Ok tt, o2, w3) -> o_kdbx o2 = Some (k2, Some d2) -> load k2 = Some d2.
Proof.
  unfold read. destruct (match f with F_none => o_filename o | _ => Some f end) as [g|]; [|discriminate]. destruct (source w g) as [data|]; [|discriminate]. cbv zeta. destruct (open_kdbx L _ data) as [[k r]|]; [|discriminate]. intros [= <- _]. cbn [o_kdbx]. intros [= <- ->]. reflexivity.
Qed.
Lemma open_load L lost w f pw kf tk dec o2 w3 k2 d2 : open_db L lost w f pw kf tk dec = (Ok o2, w3) -> o_kdbx o2 = Some (k2, Some d2) -> load k2 = Some d2.
Proof. unfold open_db. destruct (read L lost w fresh f pw kf tk dec) as [[[[]|e] o'] w'] eqn:E; [|discriminate]. intros [= <- _]. exact (read_load _ _ _ _ _ _ _ _ _ _ _ _ _ E). Qed.
Lemma back_again L R Zl lost d d2 : lib_ok L -> xml_sound L -> comes_back L R Zl lost d d2 -> unpadded d -> again d d2.
Proof.
  intros HL HX H U. destruct H as [e w o fn tk p tmp k w' key w2 pw2 kf2 tk2 o2 w3 k2 Hr Ec G Ap He Hk M Sv Hw Hk2 Op E2|e w o p tmp k w' key o2 w3 k2 Hr Ec G Ap St He Hk M Sv Op E2|e w o fn tk n k w' key w2 pw2 kf2 tk2 o2 w3 k2 Hr Ec G Nk Ps Hk M Sv P2 D2 Len N2 Hk2 Op E2];
    pose proof (reached_sound L R Zl lost o HL HX Hr) as So; unfold sound in So; rewrite Ec in So.
  - destruct (saved_opens' L R Zl lost e w o fn tk p tmp k d w' HL HX Hr Ec G Ap He) as (key' & Hk' & All); [intros key' H; rewrite Hk in H; now injection H as <-|exact Sv|]. rewrite Hk in Hk'. injection Hk' as <-.
    destruct (All w2 pw2 kf2 tk2 Hw Hk2) as (o3 & w4 & Op' & Sc & _). rewrite Op in Op'. injection Op' as <- _. eapply contents_again; eauto. exact (open_load _ _ _ _ _ _ _ _ _ _ _ _ Op E2).
  - destruct (saved_reloads L R Zl lost e w o p tmp k d w' HL HX Hr Ec G Ap St He) as (o3 & w4 & Op' & Sc & _); [intros key' H; rewrite Hk in H; now injection H as <-|exact Sv|].
    rewrite Op in Op'. injection Op' as <- _. eapply contents_again; eauto. unfold reload in Op. rewrite G in Op. exact (read_load _ _ _ _ _ _ _ _ _ _ _ _ _ Op E2).
  - destruct (stream_opens L R Zl lost e w o fn tk n k d w' HL HX Hr Ec G Nk Ps) as (key' & Hk' & All); [intros key' H; rewrite Hk in H; now injection H as <-|exact Sv|]. rewrite Hk in Hk'. injection Hk' as <-.
    destruct (All w2 pw2 kf2 tk2 P2 D2 Len N2 Hk2) as (o3 & w4 & Op' & Sc & _). rewrite Op in Op'. injection Op' as <- _. eapply contents_again; eauto. exact (open_load _ _ _ _ _ _ _ _ _ _ _ _ Op E2).
Qed.
Lemma ra L R Zl lost d d2 : reopened L R Zl lost d d2 -> again d d2.
Proof. intros (HL & HX & C & U). exact (back_again L R Zl lost d d2 HL HX C U). Qed.
Lemma same_elements d d2 : again d d2 -> exists doc F doc2, d_forest d = doc :: F /\ d_forest d2 = [doc2] /\ Forall2 (twins d d2) (everything doc) (everything doc2).
Proof.
  intros A. destruct (ag_alone _ _ A) as (z & Ez). destruct (tw_docs d d2 A) as (doc & F & doc2 & F2 & E & E2 & _ & H). exists doc, F, doc2. split; [exact E|]. split; [congruence|]. exact (tw_everything d d2 A _ _ H).
Qed.
Lemma twins_parts d d2 : again d d2 -> forall x y, twins d d2 x y -> etag y = etag x /\ eattrs y = eattrs x /\ faded (etext x) (etext y) /\ Forall2 (twins d d2) (ekids x) (ekids y) /\ (forall z, twins d d2 x z -> z = y) /\ forall z, twins d d2 z y -> z = x.
Proof.
  intros A x y T. destruct (tw_parts d d2 A x y T) as (H1 & H2 & H3). do 3 (split; [assumption|]). split; [exact (tw_kids d d2 A x y T)|]. split; intros z Tz; [exact (tw_fun d d2 A _ _ _ Tz T)|exact (tw_inj d d2 A _ _ _ Tz T)].
Qed.
Lemma path_searches d d2 : again d d2 -> forall R rec q p, q_tree q = None -> path_query q p -> Forall (fun n => plain n /\ n <> []) p ->
  (p <> [] -> exists l l2, find_entries R d rec q = Ok (map R_entry l) /\ find_entries R d2 rec q = Ok (map R_entry l2) /\ Forall2 (same_place d d2) l l2) /\
  exists l l2, find_groups R d rec q = Ok (map R_group l) /\ find_groups R d2 rec q = Ok (map R_group l2) /\ Forall2 (same_place d d2) l l2.
Proof.
  intros A R rec q p Q1 Q2 Q3. split; [|now apply (group_path_search d d2 A R rec q p)]. intros N. destruct (exists_last N) as (p' & v & ->).
  apply (entry_path_search d d2 A R rec q p' v); auto; apply Forall_forall; intros n In; apply (proj1 (Forall_forall _ _) Q3 n In).
Qed.
