(** Every primitive step keeps the layout of the document, and moves only what it is about. *)
From Verif Require Import Base PyStr Xml Tree XPath Uuid Time Db FindSpec XPath_facts Find_facts Find_path Api ApiSpec StructSpec CredSpec Heap Prim Api_xpath Struct Struct_add Struct_empty Struct_hist Struct_claims Struct_find IntegritySpec.

(** *** Tags *)
Lemma is_tag_fun L T T' i : is_tag L T i -> is_tag L T' i -> T = T'.
Proof. intros (r & E & <-) (r' & E' & <-). congruence. Qed.
Lemma has_tag d t : wf d -> has d t -> is_tag (lk d) (etag t) (eid t).
Proof. intros H Ht. exists (row_of t). split; [apply look_self; [apply H|exact Ht]|reflexivity]. Qed.
Lemma tag_has d T i : wf d -> is_tag (lk d) T i -> exists t, has d t /\ eid t = i /\ etag t = T.
Proof. intros H (r & E & <-). destruct (look_has d i r H E) as (t & Ht & Ei & <-). exists t. auto. Qed.
Lemma kid_tag d p x : wf d -> is_kid d p x -> exists P T, is_tag (lk d) P p /\ is_tag (lk d) T x.
Proof. intros H K. pose proof K as (r & E & _). destruct (kid_look d p x H K) as (rx & Ex). exists (r_tag r), (r_tag rx). split; eexists; eauto. Qed.
Lemma tag_small d T i : wf d -> is_tag (lk d) T i -> (i < d_next d)%nat.
Proof. intros H (r & E & _). exact (wf_look d i r H E). Qed.
Lemma kid_elem d t k : wf d -> has d t -> In k (ekids t) -> is_kid d (eid t) (eid k).
Proof. intros H Ht Hk. exists (row_of t). split; [apply look_self; [apply H|exact Ht]|]. cbn. now apply in_map. Qed.
Definition frameb (T : str) : bool := existsb (str_eqb T) [$"KeePassFile"; $"Root"; $"Group"; $"Entry"; $"History"].
Lemma frameb_iff T : frameb T = true <-> frame T.
Proof.
  unfold frameb, frame. rewrite existsb_exists. split; [intros (x & Hx & E); apply str_eqb_eq in E; now subst|]. intros H. exists T. split; [exact H|now apply str_eqb_eq].
Qed.
Lemma frame_dec T : {frame T} + {~ frame T}.
Proof. destruct (frameb T) eqn:E; [left; now apply frameb_iff|right; intros H; apply frameb_iff in H; congruence]. Qed.
Lemma unframed T : frameb T = false -> ~ frame T.
Proof. intros E H. apply frameb_iff in H. congruence. Qed.
Lemma fits_free P T : ~ frame T -> fits P T.
Proof. intros N. unfold frame in N. repeat split; intros ->; exfalso; apply N; cbn; tauto. Qed.
(** What the calls put under what. *)
Definition joins (P T : str) : Prop :=
  ~ frame T \/ T = $"Group" /\ P = $"Group" \/ T = $"Entry" /\ (P = $"Group" \/ P = $"History") \/ T = $"History" /\ P = $"Entry".
Lemma joins_fits P T : joins P T -> fits P T.
Proof.
  intros [N|[[-> ->]|[[-> H]|[-> ->]]]]; [now apply fits_free| | |].
  - split; [auto|]. repeat split; try (intros C; vm_compute in C; discriminate C).
  - split; [intros C; vm_compute in C; discriminate C|]. split; [auto|]. repeat split; try (intros C; vm_compute in C; discriminate C).
  - repeat split; try (intros C; vm_compute in C; discriminate C).
Qed.
Lemma joins_root P T : joins P T -> P = $"Root" -> T <> $"Group".
Proof. intros J -> ->. destruct J as [N|[[_ H]|[[H _]|[H _]]]]; [apply N; cbn; tauto|vm_compute in H; discriminate H..]. Qed.
Lemma joins_top P T : joins P T -> T <> $"Root" /\ T <> $"KeePassFile".
Proof. intros [N|[[-> _]|[[-> _]|[-> _]]]]; [split; intros ->; apply N; cbn; tauto|split; intros C; vm_compute in C; discriminate C..]. Qed.

(** *** The relation between the state before a call and any state during it *)
Record evolves (S : nat -> Prop) (Nw : Prop) (d d' : db) : Prop := Ev {
  ev_wf : wf d';
  ev_laid : laid d';
  ev_top : hd_error (rts d') = hd_error (rts d);
  ev_next : (d_next d <= d_next d')%nat;
  ev_tag : forall i T, is_tag (lk d) T i -> is_tag (lk d') T i;
  ev_made : forall i T, is_tag (lk d') T i -> is_tag (lk d) T i \/ ((d_next d <= i)%nat /\ (frame T -> Nw));
  ev_stay : forall p x T, is_kid d p x -> is_tag (lk d) T x -> frame T -> S x \/ is_kid d' p x;
  ev_came : forall p x T, is_kid d' p x -> is_tag (lk d') T x -> frame T -> is_kid d p x \/ S x \/ (d_next d <= x)%nat;
  ev_over : forall p x P T, is_kid d' p x -> is_tag (lk d') P p -> is_tag (lk d') T x -> T = $"Root" \/ (P = $"Root" /\ T = $"Group") -> (p < d_next d)%nat -> is_kid d p x }.

Section Steps.
  Variables (S : nat -> Prop) (Nw : Prop) (d0 : db) (H0 : wf d0) (L0 : laid d0).
  Notation ev := (evolves S Nw d0).
  Lemma ev_refl : ev d0.
  Proof. constructor; auto. Qed.
  Definition tags_le (d d' : db) : Prop := forall i T, is_tag (lk d) T i -> is_tag (lk d') T i.
  Lemma le_refl d : tags_le d d. Proof. intros i T X. exact X. Qed.
  Lemma le_trans a b c : tags_le a b -> tags_le b c -> tags_le a c. Proof. unfold tags_le. auto. Qed.
  (** [c] may leave its place: it is new, or no frame element, or the call is about it. *)
  Definition free (d : db) (c : nat) : Prop := (exists T, is_tag (lk d) T c /\ ~ frame T) \/ (d_next d0 <= c)%nat \/ S c.

  Lemma ev_link d d' c p (J : Prop) : ev d -> wf d' -> hd_error (rts d') = hd_error (rts d) -> d_next d' = d_next d ->
    (forall i T, is_tag (lk d') T i <-> is_tag (lk d) T i) ->
    (forall j x, is_kid d' j x -> is_kid d j x \/ (x = c /\ j = p /\ J)) ->
    (forall j x, is_kid d j x -> x <> c -> is_kid d' j x) ->
    free d c \/ (forall j, is_kid d j c -> is_kid d' j c) ->
    (J -> free d c /\ forall P T, is_tag (lk d) P p -> is_tag (lk d) T c -> joins P T) -> ev d'.
  Proof.
    intros E W Ht Hn Tg K1 K2 Fr Jn. destruct E as [E1 E2 E3 E4 E5 E6 E7 E8 E9]. constructor.
    - exact W.
    - intros q x P T K TP TT. apply Tg in TP, TT. destruct (K1 q x K) as [K'|(-> & -> & J')]; [exact (E2 q x P T K' TP TT)|]. apply joins_fits. destruct (Jn J') as [_ Jn']. now apply Jn'.
    - congruence.
    - lia.
    - intros i T X. apply Tg, E5, X.
    - intros i T X. apply Tg in X. now apply E6.
    - intros q x T K TT FT. destruct (E7 q x T K TT FT) as [X|X]; [now left|]. destruct (Nat.eq_dec x c) as [->|N]; [|right; now apply K2]. destruct Fr as [Fr|Fr]; [|right; now apply Fr].
      destruct Fr as [(T' & X1 & X2)|[X1|X1]]; [|pose proof (tag_small d0 T c H0 TT); lia|now left]. exfalso. apply X2. now rewrite (is_tag_fun _ _ _ _ X1 (E5 _ _ TT)).
    - intros q x T K TT FT. apply Tg in TT. destruct (K1 q x K) as [K'|(-> & -> & J')]; [now apply (E8 q x T)|]. right. destruct (Jn J') as [[(T' & X1 & X2)|[X1|X1]] _]; [|now right|now left]. exfalso. apply X2. now rewrite (is_tag_fun _ _ _ _ X1 TT).
    - intros q x P T K TP TT C B. apply Tg in TP, TT. destruct (K1 q x K) as [K'|(-> & -> & J')]; [now apply (E9 q x P T)|]. exfalso. destruct (Jn J') as [_ Jn']. specialize (Jn' P T TP TT). destruct C as [->|[-> ->]]; [destruct (joins_top P $"Root" Jn') as [X _]; now apply X|now apply (joins_root $"Root" $"Group" Jn')].
  Qed.

  (** *** Steps that change no shape *)
  Definition shape (o : option row) : option (str * list nat) := option_map (fun r => (r_tag r, r_kids r)) o.
  Lemma shape_tag d d' i T : shape (lk d' i) = shape (lk d i) -> (is_tag (lk d') T i <-> is_tag (lk d) T i).
  Proof. unfold shape, is_tag. intros E. destruct (lk d' i) as [r'|], (lk d i) as [r|]; try discriminate; [|split; intros (q & C & _); discriminate C]. injection E as E1 E2. split; intros (q & C & <-); injection C as <-; eexists; split; eauto. Qed.
  Lemma shape_kid d d' j x : shape (lk d' j) = shape (lk d j) -> (is_kid d' j x <-> is_kid d j x).
  Proof. unfold shape, is_kid. intros E. destruct (lk d' j) as [r'|], (lk d j) as [r|]; try discriminate; [|split; intros (q & C & _); discriminate C]. injection E as E1 E2. split; intros (q & C & X); injection C as <-; eexists; (split; [reflexivity|congruence]). Qed.
  Lemma ev_shape d d' : ev d -> wf d' -> rts d' = rts d -> d_next d' = d_next d -> (forall j, shape (lk d' j) = shape (lk d j)) -> ev d' /\ tags_le d d'.
  Proof.
    intros E W R N Sh. split; [|intros i T X; now apply (shape_tag d d')]. apply (ev_link d d' O O False); auto; [congruence| | | | |tauto].
    - intros i T. now apply shape_tag.
    - intros j x K. left. now apply (shape_kid d d').
    - intros j x K _. now apply (shape_kid d d').
    - right. intros j K. now apply (shape_kid d d').
  Qed.
  Lemma ev_on i f (g : row -> row) d r d' : (forall t, eid (f t) = eid t /\ ekids (f t) = ekids t /\ row_of (f t) = g (row_of t)) -> (forall q, r_tag (g q) = r_tag q /\ r_kids (g q) = r_kids q) ->
    ev d -> on i f d = (r, d') -> ev d' /\ tags_le d d'.
  Proof.
    intros Hf Hg E Hr. pose proof (ev_wf _ _ _ _ E) as W. destruct (in_dec Nat.eq_dec i (map eid (elements (d_forest d)))) as [I|I].
    - apply in_map_iff in I as (t & <- & Ht). destruct (Hf t) as (F1 & F2 & F3). destruct (on_run d (eid t) t f g W Ht eq_refl F1 F2 F3) as (d1 & E1 & W1 & _ & N1 & R1 & L1 & L2). rewrite E1 in Hr. injection Hr as <- <-.
      apply ev_shape; auto. intros j. destruct (Nat.eq_dec j (eid t)) as [->|N]; [|now rewrite L2]. rewrite L1, (look_self _ t (wf_unique d W) Ht). unfold shape. cbn [option_map]. destruct (Hg (row_of t)) as [-> ->]. reflexivity.
    - assert (d' = d) as ->; [|split; [exact E|apply le_refl]]. unfold on, modify in Hr. injection Hr as _ <-. destruct d as [a b c F n]. cbn in *. unfold set_forest. cbn. f_equal. apply fupd_absent. now rewrite cells_ids.
  Qed.
  Lemma ev_text i v d r d' : ev d -> lx_set_text i v d = (r, d') -> ev d' /\ tags_le d d'.
  Proof.
    intros E. assert (G : forall w, on i (set_text w) d = (r, d') -> ev d' /\ tags_le d d').
    { intros w. apply ev_on with (g := with_text w); [|intros q; split; reflexivity|exact E]. intros t. destruct t. repeat split. }
    unfold lx_set_text. destruct v as [s|]; [|apply G]. destruct (text_ok s); [apply G|]. intros Hr. injection Hr as _ <-. split; [exact E|apply le_refl].
  Qed.
  Lemma ev_attr i k v d r d' : ev d -> lx_set_attr i k v d = (r, d') -> ev d' /\ tags_le d d'.
  Proof.
    intros E. unfold lx_set_attr. destruct (text_ok v).
    - apply ev_on with (g := fun q => with_attrs (attr_put k v (r_attrs q)) q); [|intros q; split; reflexivity|exact E]. intros t. destruct t. repeat split.
    - intros Hr. injection Hr as _ <-. split; [exact E|apply le_refl].
  Qed.
  Lemma ev_bins l d r d' : ev d -> set_bins l d = (r, d') -> ev d' /\ tags_le d d'.
  Proof.
    intros E Hr. unfold set_bins, modify in Hr. injection Hr as _ <-. pose proof (ev_wf _ _ _ _ E) as W. apply ev_shape; auto.
  Qed.

  (** *** Removing *)
  Lemma kids_row_tag d d' p l i T : lk d' p = option_map (with_kids l) (lk d p) -> (forall j, j <> p -> lk d' j = lk d j) -> (is_tag (lk d') T i <-> is_tag (lk d) T i).
  Proof.
    intros E1 E2. unfold is_tag. destruct (Nat.eq_dec i p) as [->|N]; [|now rewrite E2]. rewrite E1. destruct (lk d p) as [q|]; [|reflexivity]. cbn. split; intros (r & C & <-); injection C as <-; eexists; split; reflexivity.
  Qed.
  Lemma ev_remove p c d r d' : ev d -> (is_kid d p c -> free d c) -> lx_remove p c d = (r, d') -> ev d' /\ tags_le d d'.
  Proof.
    intros E Fr Hr. pose proof (ev_wf _ _ _ _ E) as W. pose proof (wf_unique d W) as U.
    destruct (parent_of (d_forest d) c) as [t|] eqn:Ep.
    2: { unfold lx_remove in Hr. rewrite Ep in Hr. injection Hr as _ <-. split; [exact E|apply le_refl]. }
    destruct (Nat.eqb_spec (eid t) p) as [<-|N].
    2: { unfold lx_remove in Hr. rewrite Ep in Hr. apply Nat.eqb_neq in N. rewrite N in Hr. injection Hr as _ <-. split; [exact E|apply le_refl]. }
    apply parent_of_In in Ep as [Ht Hc]; [|exact U]. destruct (remove_run d t c W Ht Hc) as (d1 & E1 & W1 & _ & N1 & R1 & L1 & L2). rewrite E1 in Hr. injection Hr as <- <-.
    assert (K : is_kid d (eid t) c) by (exists (row_of t); split; [now apply look_self|exact Hc]). specialize (Fr K).
    assert (Tg : forall i T, is_tag (lk d1) T i <-> is_tag (lk d) T i) by (intros i T; eapply kids_row_tag; [|exact L2]; rewrite L1, (look_self _ t U Ht); reflexivity).
    split; [|intros i T X; now apply Tg]. apply (ev_link d d1 c O False); auto; [| | |tauto].
    - rewrite R1. destruct (d_forest d) as [|z F] eqn:EF; [destruct W; congruence|reflexivity].
    - intros j x (q & Eq & Ix). left. destruct (Nat.eq_dec j (eid t)) as [->|Nj]; [|rewrite L2 in Eq by exact Nj; now exists q]. rewrite L1 in Eq. injection Eq as <-. cbn in Ix. apply without_In in Ix as [Ix _]. exists (row_of t). split; [now apply look_self|exact Ix].
    - intros j x (q & Eq & Ix) Nx. destruct (Nat.eq_dec j (eid t)) as [->|Nj]; [|exists q; split; [now rewrite L2|exact Ix]]. rewrite (look_self _ t U Ht) in Eq. assert (q = row_of t) as -> by congruence. cbn in Ix. eexists. split; [exact L1|]. cbn. apply without_In. auto.
  Qed.
  Lemma ev_delete i d r d' : ev d -> free d i -> delete i d = (r, d') -> ev d' /\ tags_le d d'.
  Proof.
    intros E Fr Hr. unfold delete in Hr. destruct (parent_of (d_forest d) i) as [p|]; [now apply (ev_remove (eid p) i d r d' E)|]. injection Hr as _ <-. split; [exact E|apply le_refl].
  Qed.

  (** *** Linking *)
  Lemma moved_tag d d' p c at_ i T : moved d d' p c at_ -> (is_tag (lk d') T i <-> is_tag (lk d) T i).
  Proof.
    intros (_ & _ & _ & _ & L). unfold is_tag. rewrite L. destruct (lk d i) as [q|]; [|reflexivity]. cbn [option_map]. assert (r_tag (move_row p c at_ i q) = r_tag q) by (unfold move_row; destruct (i =? p)%nat; reflexivity).
    split; intros (r & C & <-); injection C as <-; eexists; (split; [reflexivity|congruence]).
  Qed.
  Lemma doc_hd d c : is_doc (d_forest d) c = false -> hd_error (without c (rts d)) = hd_error (rts d).
  Proof. unfold is_doc, roots. destruct (d_forest d) as [|t F]; [reflexivity|]. cbn. intros ->. reflexivity. Qed.
  Lemma ev_moved d d' p c at_ : ev d -> free d c -> is_doc (d_forest d) c = false -> (forall k x, In x (at_ k c) -> In x k \/ x = c) -> (forall k x, In x k -> In x (at_ k c)) ->
    (forall P T, is_tag (lk d) P p -> is_tag (lk d) T c -> joins P T) -> moved d d' p c at_ -> ev d' /\ tags_le d d'.
  Proof.
    intros E Fr Dc A1 A2 Jn M. pose proof (moved_tag d d' p c at_) as Tg. pose proof M as (W1 & _ & N1 & R1 & L). split; [|intros i T X; now apply Tg]. apply (ev_link d d' c p True); auto.
    - rewrite R1. now apply doc_hd.
    - intros j x (q & Eq & Ix). rewrite L in Eq. destruct (lk d j) as [q0|] eqn:E0; [|discriminate]. injection Eq as <-. unfold move_row in Ix. destruct (Nat.eqb_spec j p) as [->|Nj].
      + cbn in Ix. apply A1 in Ix as [Ix| ->]; [|right; auto]. apply without_In in Ix as [Ix _]. left. now exists q0.
      + cbn in Ix. apply without_In in Ix as [Ix _]. left. now exists q0.
    - intros j x (q & Eq & Ix) Nx. unfold is_kid. rewrite L, Eq. cbn [option_map]. eexists. split; [reflexivity|]. unfold move_row. destruct (Nat.eqb_spec j p) as [->|Nj]; cbn; [apply A2|]; now apply without_In.
  Qed.
  Lemma ev_append p c P T d r d' : ev d -> is_tag (lk d) P p -> is_tag (lk d) T c -> joins P T -> free d c -> lx_append p c d = (r, d') -> ev d' /\ tags_le d d' /\ (r = Ok tt -> is_kid d' p c).
  Proof.
    intros E TP TT J Fr Hr. pose proof (ev_wf _ _ _ _ E) as W. destruct (tag_has d P p W TP) as (tp & Hp & <- & Ep). destruct (tag_has d T c W TT) as (tc & Hc & <- & Ec).
    destruct (in_dec Nat.eq_dec (eid tp) (ids tc)) as [I|I].
    { rewrite (append_refused d tp tc W Hp Hc I) in Hr. injection Hr as <- <-. split; [exact E|]. split; [apply le_refl|discriminate]. }
    destruct (is_doc (d_forest d) (eid tc)) eqn:Dc.
    { unfold lx_append in Hr. rewrite Dc, orb_true_r in Hr. injection Hr as <- <-. split; [exact E|]. split; [apply le_refl|discriminate]. }
    destruct (append_run d tp tc W Hp Hc I Dc) as (d1 & E1 & M). rewrite E1 in Hr. injection Hr as <- <-. destruct (fun a1 a2 a3 => ev_moved d d1 (eid tp) (eid tc) _ E Fr Dc a1 a2 a3 M) as [X1 X2].
    - intros k x Ix. apply in_app_iff in Ix as [Ix|[<-|[]]]; auto.
    - intros k x Ix. apply in_app_iff. auto.
    - intros P' T' X Y. now rewrite (is_tag_fun _ _ _ _ X TP), (is_tag_fun _ _ _ _ Y TT).
    - split; [exact X1|]. split; [exact X2|]. intros _. destruct M as (_ & _ & _ & _ & L). unfold is_kid. rewrite L, (look_self _ tp (wf_unique d W) Hp). cbn [option_map]. eexists. split; [reflexivity|]. unfold move_row. rewrite Nat.eqb_refl. cbn. apply in_app_iff. right. now left.
  Qed.
  Lemma insert_at_In {A} n (c x : A) l : In x (insert_at n c l) <-> In x l \/ x = c.
  Proof.
    unfold insert_at. rewrite <- (firstn_skipn n l) at 3. rewrite !in_app_iff. cbn. intuition congruence.
  Qed.

  (** *** New trees *)
  Fixpoint xtags (x : xml) : list str := match x with X g _ _ k => g :: flat_map xtags k end.
  Fixpoint xpairs (x : xml) : list (str * str) := match x with X g _ _ k => flat_map (fun c => (g, xtag c) :: xpairs c) k end.
  Definition frameless (x : xml) : Prop := forall T, In T (xtags x) -> ~ frame T.
  Definition xlaid (x : xml) : Prop := forall P T, In (P, T) (xpairs x) -> fits P T.
  Lemma xpairs_tags x : forall P T, In (P, T) (xpairs x) -> exists c, In c (xkids x) /\ In T (xtags c).
  Proof.
    induction x as [g a s k IH] using xml_ind'. intros P T. cbn [xpairs xkids]. rewrite in_flat_map. intros (c & Hc & [Hi|Hi]).
    - injection Hi as <- <-. exists c. split; [exact Hc|]. destruct c. now left.
    - exists c. split; [exact Hc|]. rewrite Forall_forall in IH. destruct (IH c Hc P T Hi) as (e & He & Ht). destruct c as [g' a' s' k']. cbn [xtags]. right. apply in_flat_map. exists e. auto.
  Qed.
  Lemma simple_laid x : (forall c, In c (xkids x) -> frameless c) -> xlaid x.
  Proof. intros H P T I. destruct (xpairs_tags x P T I) as (c & Hc & Ht). apply fits_free. exact (H c Hc T Ht). Qed.
  Lemma frameless_kid x c : frameless x -> In c (xkids x) -> frameless c.
  Proof. destruct x as [g a s k]. intros F Hc T Ht. apply F. cbn. right. apply in_flat_map. exists c. auto. Qed.
  Lemma frameless_node T l : ~ frame T -> (forall c, In c l -> frameless c) -> frameless (e_node T l).
  Proof. intros N F U [<-|I]; [exact N|]. apply in_flat_map in I as (c & Hc & I). exact (F c Hc U I). Qed.
  Lemma frameless_leaf T a s : ~ frame T -> frameless (X T a s []).
  Proof. intros N U [<-|[]]. exact N. Qed.
  Lemma erase_tags t : xtags (erase t) = map etag (everything t).
  Proof.
    induction t as [i g a x k IH] using elem_ind'. cbn [erase xtags everything map etag]. f_equal. rewrite flat_map_concat_map, map_map, <- flat_map_concat_map. induction IH as [|c k Hc _ IHk]; [reflexivity|]. cbn. rewrite map_app. congruence.
  Qed.
  Lemma erase_tag t : xtag (erase t) = etag t. Proof. now destruct t. Qed.
  Lemma erase_pairs t : forall P T, In (P, T) (xpairs (erase t)) <-> exists p k, In p (everything t) /\ In k (ekids p) /\ P = etag p /\ T = etag k.
  Proof.
    induction t as [i g a x k IH] using elem_ind'. intros P T. cbn [erase xpairs]. rewrite in_flat_map. rewrite Forall_forall in IH. split.
    - intros (c & Hc & Hi). apply in_map_iff in Hc as (e & <- & He). destruct Hi as [Hi|Hi].
      + injection Hi as <- <-. exists (El i g a x k), e. rewrite erase_tag. split; [apply everything_self|]. split; [exact He|auto].
      + apply (IH e He) in Hi as (p & q & Hp & Hq & E). exists p, q. split; [cbn [everything]; right; apply in_flat_map; exists e; auto|auto].
    - intros (p & q & Hp & Hq & E). rewrite everything_eq in Hp. destruct Hp as [<-|Hp].
      + destruct E as [-> ->]. exists (erase q). split; [now apply in_map|]. left. now rewrite erase_tag.
      + cbn [ekids] in Hp. apply in_flat_map in Hp as (e & He & Hp). exists (erase e). split; [now apply in_map|]. right. apply (IH e He). exists p, q. auto.
  Qed.
  Lemma tree_laid d t : wf d -> laid d -> has d t -> xlaid (erase t).
  Proof.
    intros H L Ht P T I. apply erase_pairs in I as (p & k & Hp & Hk & -> & ->). pose proof (elements_sub _ t Ht p Hp) as Hp'. apply (L (eid p) (eid k)); [now apply kid_elem|now apply has_tag|apply has_tag; [exact H|now apply (has_kid d p)]].
  Qed.
  Lemma ev_new x d r d' : ev d -> xlaid x -> (frameless x \/ Nw) -> lx_new x d = (r, d') -> exists c, r = Ok c /\ (d_next d0 <= c)%nat /\ is_tag (lk d') (xtag x) c /\ ev d' /\ tags_le d d' /\ (exists t, has d' t /\ eid t = c /\ erase t = x /\ forall j, In j (ids t) -> (d_next d0 <= j)%nat).
  Proof.
    intros E XL XF Hr. pose proof E as [W E2 E3 E4 E5 E6 E7 E8 E9]. destruct (new_run d x W) as (t & d1 & E1 & Et & Ex & EF & W1 & _ & N1 & Ht & R1 & Is & L). rewrite E1 in Hr. injection Hr as <- <-.
    assert (Tg : tags_le d d1) by (intros i T X; pose proof (tag_small d T i W X) as B; destruct X as (q & Eq & <-); exists q; split; [now rewrite L|reflexivity]).
    assert (Tn : forall i T, is_tag (lk d1) T i -> is_tag (lk d) T i \/ exists u, In u (everything t) /\ eid u = i /\ etag u = T).
    { intros i T X. destruct (tag_has d1 T i W1 X) as (u & Hu & <- & <-). rewrite EF, elements_app in Hu. apply in_app_iff in Hu as [Hu|Hu]; [left; now apply has_tag|right]. unfold elements in Hu. cbn in Hu. rewrite app_nil_r in Hu. eauto. }
    assert (Kn : forall p y, is_kid d1 p y -> is_kid d p y \/ exists u k, In u (everything t) /\ In k (ekids u) /\ eid u = p /\ eid k = y).
    { intros p y K. destruct (kid_rows d1 p y W1 K) as (u & k & Hu & <- & Hk & <- & _). rewrite EF, elements_app in Hu. apply in_app_iff in Hu as [Hu|Hu]; [left; now apply kid_elem|right]. unfold elements in Hu. cbn in Hu. rewrite app_nil_r in Hu. eauto 6. }
    assert (Ie : forall u, In u (everything t) -> (d_next d <= eid u)%nat) by (intros u Hu; apply Is, ids_In, Hu).
    exists (d_next d). split; [reflexivity|]. split; [exact E4|]. split; [rewrite <- Ex, erase_tag, <- Et; now apply has_tag|]. split; [|split; [exact Tg|]].
    2: { exists t. split; [exact Ht|]. split; [exact Et|]. split; [exact Ex|]. intros j Hj. apply Is in Hj. lia. }
    constructor.
    - exact W1.
    - intros p y P T K TP TT. destruct (Kn p y K) as [K'|(u & k & Hu & Hk & <- & <-)].
      + destruct (kid_tag d p y W K') as (P' & T' & X & Y). rewrite (is_tag_fun _ _ _ _ TP (Tg _ _ X)), (is_tag_fun _ _ _ _ TT (Tg _ _ Y)). now apply (E2 p y).
      + assert (Hu1 : has d1 u) by now apply (elements_sub _ t). rewrite (is_tag_fun _ _ _ _ TP (has_tag d1 u W1 Hu1)), (is_tag_fun _ _ _ _ TT (has_tag d1 k W1 (has_kid d1 u k Hu1 Hk))). apply XL. rewrite <- Ex. apply erase_pairs. eauto 6.
    - rewrite R1. destruct (d_forest d) as [|z F] eqn:Ed; [destruct W; congruence|exact E3].
    - lia.
    - intros i T X. apply Tg, E5, X.
    - intros i T X. destruct (Tn i T X) as [X'|(u & Hu & <- & <-)]; [now apply E6|]. right. split; [specialize (Ie u Hu); lia|]. intros FT. destruct XF as [XF|XF]; [|exact XF]. exfalso. apply (XF (etag u)); [|exact FT]. rewrite <- Ex, erase_tags. now apply in_map.
    - intros p y T K TT FT. destruct (E7 p y T K TT FT) as [X|(q & Eq & I)]; [now left|]. right. exists q. split; [|exact I]. rewrite L; [exact Eq|]. exact (wf_look d p q W Eq).
    - intros p y T K TT FT. destruct (Kn p y K) as [K'|(u & k & Hu & Hk & <- & <-)].
      + apply (E8 p y T K'); [|exact FT]. destruct (kid_tag d p y W K') as (P' & T' & X & Y). now rewrite (is_tag_fun _ _ _ _ TT (Tg _ _ Y)).
      + right. right. assert (In k (everything t)) as Hk' by (apply (everything_sub t u Hu), everything_kid, Hk). specialize (Ie k Hk'). lia.
    - intros p y P T K TP TT C B. destruct (Kn p y K) as [K'|(u & k & Hu & Hk & <- & <-)]; [|specialize (Ie u Hu); lia].
      destruct (kid_tag d p y W K') as (P' & T' & X & Y). apply (E9 p y P' T' K' X Y); [|exact B]. now rewrite <- (is_tag_fun _ _ _ _ TP (Tg _ _ X)), <- (is_tag_fun _ _ _ _ TT (Tg _ _ Y)).
  Qed.
  Lemma ev_append_new p P x d r d' : ev d -> is_tag (lk d) P p -> frameless x -> lx_append_new p x d = (r, d') -> ev d' /\ tags_le d d'.
  Proof.
    intros E TP XF Hr. unfold lx_append_new in Hr. apply mbind_inv in Hr as [(e & Hr & _)|(c & d1 & Hr & K)].
    - destruct (fun a1 a2 => ev_new x d _ _ E a1 a2 Hr) as (c & C & _); [|now left|discriminate C]. apply simple_laid. intros c. now apply frameless_kid.
    - destruct (fun a1 a2 => ev_new x d _ _ E a1 a2 Hr) as (c' & C & N & T & E1 & Tg & _); [|now left|]; [apply simple_laid; intros k; now apply frameless_kid|]. injection C as <-.
      assert (NF : ~ frame (xtag x)) by (apply XF; destruct x; now left).
      apply mbind_inv in K as [(e & K & _)|(u & d2 & K & K2)].
      + destruct (fun a1 a2 => ev_append p c P (xtag x) d1 _ _ E1 (Tg _ _ TP) T a1 a2 K) as (X & Y & _); [now left|right; now left|]. split; [exact X|eapply le_trans; eauto].
      + destruct (fun a1 a2 => ev_append p c P (xtag x) d1 _ _ E1 (Tg _ _ TP) T a1 a2 K) as (X & Y & _); [now left|right; now left|]. injection K2 as _ <-. split; [exact X|eapply le_trans; eauto].
  Qed.
End Steps.
