(** Properties kept in elements of their own, through histories of calls. *)
From Coq Require Import ZifyBool ZifyNat ZifyN.
From Verif Require Import Base PyStr Xml Tree XPath Uuid Time Db FindSpec XPath_facts XPath_eval Find_facts Find_path Api ApiSpec StructSpec CredSpec Heap Prim Api_xpath Struct Struct_add Struct_empty Struct_hist Struct_claims Struct_find Struct_index Struct_trash Struct_bin Bin_xpath IntegritySpec Integrity Integrity_ops Integrity_calls Integrity_step Integrity_hist LocalSpec Local Local_step LocalEx RegisterSpec Register_mute Register_calls Level Api_fields Api_sub Api_claims.

(** *** What is found along a path of tags *)
Fixpoint fixed (d d' : db) (l : list str) (i : nat) : Prop :=
  match l with
  | [] => exists r r', lk d i = Some r /\ lk d' i = Some r' /\ r_text r' = r_text r /\ shield r' = shield r
  | T :: l => kids_tagged (lk d') T i = kids_tagged (lk d) T i /\ forall k, In k (kids_tagged (lk d) T i) -> fixed d d' l k
  end.
Definition alike (d d' : db) (l : list str) (t t' : elem) : Prop := has d t /\ has d' t' /\ eid t' = eid t /\ fixed d d' l (eid t).
Section Alike.
  Variables (d d' : db) (W : wf d) (W' : wf d').
  Notation alike := (alike d d').
  Lemma kids_alike T l t t' : alike (T :: l) t t' -> Forall2 (alike l) (kids_of T t) (kids_of T t').
  Proof.
    intros (Ht & Ht' & E & F1 & F2). rewrite <- E in F1 at 1. rewrite (kids_tagged_of d t T W Ht) in F1, F2. rewrite (kids_tagged_of d' t' T W' Ht') in F1.
    assert (H : forall k, In k (kids_of T t) -> has d k) by (intros k Hk; now destruct (kids_has T t k d Ht Hk)). assert (H' : forall k, In k (kids_of T t') -> has d' k) by (intros k Hk; now destruct (kids_has T t' k d' Ht' Hk)).
    revert F1 F2 H H'. generalize (kids_of T t) (kids_of T t'). intros a. induction a as [|x a IH]; intros [|y b] F1 F2 H H'; try discriminate F1; constructor.
    - cbn [map] in F1. injection F1 as E1 _. split; [apply H; now left|]. split; [apply H'; now left|]. split; [exact E1|]. apply F2. now left.
    - cbn [map] in F1. injection F1 as _ E2. apply IH; [exact E2| | |]; intros k Hk; [apply F2|apply H|apply H']; now right.
  Qed.
  Lemma flat_alike T l a b : Forall2 (alike (T :: l)) a b -> Forall2 (alike l) (flat_map (kids_of T) a) (flat_map (kids_of T) b).
  Proof. induction 1 as [|x y a b H _ IH]; [constructor|]. cbn [flat_map]. apply Forall2_app; [now apply kids_alike|exact IH]. Qed.
  Lemma text_alike t t' : alike [] t t' -> etext t' = etext t.
  Proof. intros (Ht & Ht' & E & r & r' & Er & Er' & X & _). rewrite <- E, (look_self _ t' (wf_unique d' W') Ht') in Er'. rewrite (look_self _ t (wf_unique d W) Ht) in Er. injection Er as <-. injection Er' as <-. exact X. Qed.
  Lemma hd_alike l a b : Forall2 (alike l) a b -> match hd_error a, hd_error b with Some x, Some y => alike l x y | None, None => True | _, _ => False end.
  Proof. intros [|x y a' b' H _]; cbn; auto. Qed.
  Lemma text_hd a b : Forall2 (alike []) a b -> option_map etext (hd_error b) = option_map etext (hd_error a).
  Proof. intros H. apply hd_alike in H. destruct (hd_error a) as [x|], (hd_error b) as [y|]; try contradiction; [|reflexivity]. cbn. f_equal. now apply text_alike. Qed.
End Alike.
Lemma fixed_trans a b c l : forall i, fixed a b l i -> fixed b c l i -> fixed a c l i.
Proof.
  induction l as [|T l IH]; intros i; cbn [fixed].
  - intros (r & r1 & E & E1 & X & X') (r1' & r2 & E1' & E2 & Y & Y'). exists r, r2. split; [exact E|]. split; [exact E2|]. split; congruence.
  - intros [F1 F2] [G1 G2]. split; [congruence|]. intros k Hk. apply (IH k); [now apply F2|]. apply G2. now rewrite F1.
Qed.
Lemma kids_tagged_tag d T i k : In k (kids_tagged (lk d) T i) -> is_tag (lk d) T k /\ is_kid d i k.
Proof.
  unfold kids_tagged. destruct (lk d i) as [r|] eqn:E; [|intros []]. intros H. apply filter_In in H as [H B]. split; [|now exists r]. unfold tagb in B. destruct (lk d k) as [q|] eqn:Eq; [|discriminate B]. exists q. split; [exact Eq|now apply str_eqb_eq].
Qed.
(** Tags that no call but an assignment may change something under. *)
Definition private (l : list str) (T : str) : bool := existsb (str_eqb T) l.
Lemma kept_kids S d d' T i r : wf d -> wf d' -> tags_le d d' -> kept S d d' -> S T = true -> lk d i = Some r -> r_tag r <> $"Binaries" -> kids_tagged (lk d') T i = kids_tagged (lk d) T i.
Proof.
  intros W W' Tl K ST Er NB. destruct (K i r Er) as (r' & Er' & _ & _ & F). specialize (F NB). unfold kids_tagged. rewrite Er, Er'.
  assert (X : forall e l, (forall k, In k l -> lk e k <> None) -> filter (tagb (lk e) T) (filter (mb S e) l) = filter (tagb (lk e) T) l).
  { intros e l Hl. rewrite filter_filter. apply filter_same. intros k Hk. specialize (Hl k Hk). unfold mb, tagb. destruct (lk e k) as [q|]; [|congruence]. destruct (str_eqb (r_tag q) T) eqn:Et; [|apply andb_false_r]. apply str_eqb_eq in Et. now rewrite Et, ST. }
  rewrite <- (X d') by now apply (kids_there d' i r'). rewrite <- (X d) by now apply (kids_there d i r). rewrite F. apply filter_same. intros k Hk. apply filter_In in Hk as [Hk _]. pose proof (kids_there d i r W Er k Hk) as Nk. unfold tagb. destruct (lk d k) as [q|] eqn:Eq; [|congruence]. destruct (Tl k (r_tag q)) as (q' & Eq' & Tq); [now exists q|]. now rewrite Eq', Tq.
Qed.
Lemma kept_fixed S d d' l : wf d -> wf d' -> tags_le d d' -> kept S d d' -> (forall T, In T l -> S T = true /\ T <> $"Binaries") -> forall i r, lk d i = Some r -> r_tag r <> $"Binaries" -> (l = [] -> S (r_tag r) = true) -> fixed d d' l i.
Proof.
  intros W W' Tl K. induction l as [|T l IH]; intros Hl i r Er NB HS; cbn [fixed].
  - destruct (K i r Er) as (r' & Er' & X' & X & _). exists r, r'. repeat (split; [auto|]). exact X'.
  - destruct (Hl T (or_introl eq_refl)) as [ST NT]. split; [now apply (kept_kids S d d' T i r)|]. intros k Hk. apply kids_tagged_tag in Hk as [(q & Eq & Tq) _]. apply (IH (fun U HU => Hl U (or_intror HU)) k q Eq); [congruence|]. intros _. now rewrite Tq.
Qed.
(** The elements of an entry or group that are not in an entry or group of their own. *)
Inductive near (d : db) (i : nat) : nat -> Prop :=
| near_self : near d i i
| near_kid p x : near d i p -> is_kid d p x -> ~ an_item d x -> near d i x.
Lemma near_part d i : an_item d i -> part d (near d i).
Proof. intros I x [|p y B K _]; [now left|right; eauto]. Qed.
Lemma near_item d i j : near d i j -> an_item d j -> j = i.
Proof. intros [|p y _ _ N] I; [reflexivity|contradiction]. Qed.
Lemma still_fixed d d' i l : wf d -> tags_le d d' -> still (near d i) d d' -> (forall T, In T l -> itemb T = false) -> forall x, near d i x -> lk d x <> None -> fixed d d' l x.
Proof.
  intros W Tl St. induction l as [|T l IH]; intros Hl x Hx Nx; cbn [fixed].
  - destruct (lk d x) as [r|] eqn:Er; [|congruence]. exists r, r. split; [reflexivity|]. split; [now rewrite (St x Hx)|split; reflexivity].
  - split.
    + unfold kids_tagged. rewrite (St x Hx). destruct (lk d x) as [r|] eqn:Er; [|reflexivity]. apply filter_same. intros k Hk. pose proof (kids_there d x r W Er k Hk) as Nk. unfold tagb. destruct (lk d k) as [q|] eqn:Eq; [|congruence]. destruct (Tl k (r_tag q)) as (q' & Eq' & Tq); [now exists q|]. now rewrite Eq', Tq.
    + intros k Hk. apply kids_tagged_tag in Hk as [Tk Kk]. apply IH; [intros U HU; apply Hl; now right| |destruct Tk as (q & Eq & _); congruence]. apply near_kid with x; [exact Hx|exact Kk|]. intros I. pose proof (Hl T (or_introl eq_refl)) as NT. assert (itemb T = true); [|congruence]. unfold itemb. destruct I as [I|I]; rewrite (is_tag_fun _ _ _ _ Tk I); vm_compute; reflexivity.
Qed.

(** *** The properties *)
Definition way (q : place) : list str :=
  match q with
  | P_uuid => [$"UUID"] | P_icon => [$"IconID"] | P_tags => [$"Tags"] | P_name => [$"Name"] | P_notes => [$"Notes"]
  | P_time p => [$"Times"; time_name p] | P_expires => [$"Times"; $"Expires"]
  | P_enabled => [$"AutoType"; $"Enabled"] | P_sequence => [$"AutoType"; $"DefaultSequence"] | P_window => [$"AutoType"; $"Association"; $"Window"]
  end.
Lemma fst_bind {A B} (m : M A) (f : A -> res B) d d' : fst (m d') = fst (m d) -> fst ((do x <- m; fun d => (f x, d)) d') = fst ((do x <- m; fun d => (f x, d)) d).
Proof. unfold mbind. destruct (m d) as [[a|e] d1], (m d') as [[a'|e'] d2]; cbn; intros E; try discriminate E; injection E as ->; reflexivity. Qed.
Section Read.
  Variables (d d' : db) (W : wf d) (W' : wf d') (Hm : d_major d' = d_major d) (i : nat) (t t' : elem).
  Variables (Ht : has d t) (Ht' : has d' t') (Et : eid t = i) (Et' : eid t' = i).
  Lemma al l : fixed d d' l i -> alike d d' l t t'. Proof. intros F. unfold alike. rewrite Et, Et'. auto. Qed.
  Lemma the_i : the i d = (Ok t, d). Proof. rewrite <- Et. now apply the_tree. Qed.
  Lemma the_i' : the i d' = (Ok t', d'). Proof. rewrite <- Et'. now apply the_tree. Qed.
  Lemma find1_alike T l u u' : alike d d' (T :: l) u u' -> match find1 T u, find1 T u' with Some x, Some y => alike d d' l x y | None, None => True | _, _ => False end.
  Proof. intros H. unfold find1. apply (hd_alike d d'). now apply kids_alike. Qed.
  Lemma sub_alike T : fixed d d' [T] i -> fst (get_sub T i d') = fst (get_sub T i d).
  Proof.
    intros F. unfold get_sub. rewrite (mbind_ok _ _ _ _ _ the_i), (mbind_ok _ _ _ _ _ the_i'). cbn. f_equal. pose proof (find1_alike T [] t t' (al _ F)) as H. destruct (find1 T t) as [x|], (find1 T t') as [y|]; try contradiction; [|reflexivity]. now apply (text_alike d d').
  Qed.
  Lemma v4_same : v4 d' = v4 d. Proof. unfold v4. now rewrite Hm. Qed.
  Lemma time_alike T : fixed d d' [$"Times"; T] i -> fst (get_time T i d') = fst (get_time T i d).
  Proof.
    intros F. unfold get_time. rewrite (mbind_ok _ _ _ _ _ the_i), (mbind_ok _ _ _ _ _ the_i'). pose proof (find1_alike _ _ t t' (al _ F)) as H. destruct (find1 _ t) as [ts|], (find1 _ t') as [ts'|]; try contradiction; [|reflexivity].
    pose proof (find1_alike _ _ ts ts' H) as H2. destruct (find1 T ts) as [p|], (find1 T ts') as [p'|]; try contradiction; [|reflexivity]. rewrite (text_alike d d' W W' p p' H2). destruct (etext p) as [s|]; [|reflexivity]. unfold mbind, decode_t, lift. rewrite v4_same. destruct (decode_time _ s); reflexivity.
  Qed.
  Lemma expires_alike : fixed d d' [$"Times"; $"Expires"] i -> fst (get_expires i d') = fst (get_expires i d).
  Proof.
    intros F. unfold get_expires, expires_elem. rewrite !bind_bind. rewrite (mbind_ok _ _ _ _ _ the_i), (mbind_ok _ _ _ _ _ the_i'). pose proof (find1_alike _ _ t t' (al _ F)) as H. destruct (find1 _ t) as [ts|], (find1 _ t') as [ts'|]; try contradiction; [|reflexivity].
    pose proof (find1_alike _ _ ts ts' H) as H2. destruct (find1 _ ts) as [p|], (find1 _ ts') as [p'|]; try contradiction; [|reflexivity]. cbn. now rewrite (text_alike d d' W W' p p' H2).
  Qed.
  Lemma two_alike a b : fixed d d' [a; b] i -> option_map etext (find_2 a b t') = option_map etext (find_2 a b t).
  Proof. intros F. unfold find_2. apply (text_hd d d' W W'). apply flat_alike; auto. apply kids_alike; auto. now apply al. Qed.
  Lemma three_alike a b c : fixed d d' [a; b; c] i -> option_map etext (find_3 a b c t') = option_map etext (find_3 a b c t).
  Proof. intros F. unfold find_3. apply (text_hd d d' W W'). do 2 (apply flat_alike; auto). apply kids_alike; auto. now apply al. Qed.
  Lemma nonempty_alike (x y : option elem) : option_map etext y = option_map etext x -> nonempty_text y = nonempty_text x.
  Proof. destruct x, y; cbn; intros E; try discriminate E; try reflexivity. injection E as E. unfold nonempty_text. now rewrite E. Qed.
  Lemma read_fixed q : fixed d d' (way q) i -> fst (reading q i d') = fst (reading q i d).
  Proof.
    destruct q; cbn [way reading kind]; intros F.
    - apply (fst_bind (get_sub $"UUID" i)). now apply sub_alike.
    - now apply sub_alike.
    - unfold get_tags. apply (fst_bind (get_sub $"Tags" i) (fun v => Ok _)). now apply sub_alike.
    - now apply sub_alike.
    - now apply sub_alike.
    - destruct p; now apply time_alike.
    - now apply expires_alike.
    - unfold get_autotype_enabled. rewrite (mbind_ok _ _ _ _ _ the_i), (mbind_ok _ _ _ _ _ the_i'). apply two_alike in F. destruct (find_2 _ _ t) as [x|], (find_2 _ _ t') as [y|]; cbn in F; try discriminate F; [|reflexivity]. injection F as F. cbn. now rewrite F.
    - unfold get_autotype_sequence. rewrite (mbind_ok _ _ _ _ _ the_i), (mbind_ok _ _ _ _ _ the_i'). cbn. f_equal. apply nonempty_alike. now apply two_alike.
    - unfold get_autotype_window. rewrite (mbind_ok _ _ _ _ _ the_i), (mbind_ok _ _ _ _ _ the_i'). cbn. f_equal. apply nonempty_alike. now apply three_alike.
  Qed.
End Read.

(** *** One call, histories *)
Definition target (o : op) : option nat :=
  match o with
  | Op_uuid i _ | Op_icon i _ | Op_tags i _ | Op_name i _ | Op_notes i _ | Op_time i _ _ | Op_expires i _ | Op_touch i _ | Op_autotype_enabled i _ | Op_autotype_sequence i _ | Op_autotype_window i _ => Some i
  | _ => None
  end.
Definition inb (l : list str) (T : str) : bool := existsb (str_eqb T) l.
Definition clash (o : op) (q : place) : bool := existsb (inb (way q)) (minds o).
Lemma clash_no o q : clash o q = false -> forall T, In T (minds o) -> inb (way q) T = false.
Proof. intros H T HT. destruct (inb (way q) T) eqn:E; [|reflexivity]. assert (clash o q = true); [|congruence]. unfold clash. apply existsb_exists. eauto. Qed.
Lemma inb_In l T : In T l -> inb l T = true.
Proof. intros H. unfold inb. apply existsb_exists. exists T. split; [exact H|apply str_eqb_refl]. Qed.
Lemma clash_target o q i d : settings o -> clash o q = true -> ~ assigns q i d o -> exists j, target o = Some j /\ j <> i.
Proof.
  intros St H N. destruct o; cbn [target assigns settings] in *; try (match goal with |- exists j, Some ?k = Some j /\ _ => exists k; split; [reflexivity|intros ->; apply N; split; [|reflexivity]] end); try (exfalso; destruct q as [| | | | |[]| | | |]; vm_compute in H; discriminate H).
  all: try (destruct q as [| | | | |[]| | | |]; vm_compute in H; first [discriminate H|reflexivity]).
  - destruct p; destruct q as [| | | | |[]| | | |]; vm_compute in H; first [discriminate H|reflexivity].
  - destruct modify; destruct q as [| | | | |[]| | | |]; vm_compute in H; try discriminate H; auto.
  - exfalso. destruct St as [<-|[<-|[<-|[]]]]; destruct q as [| | | | |[]| | | |]; vm_compute in H; discriminate H.
  - exfalso. destruct w; destruct q as [| | | | |[]| | | |]; vm_compute in H; discriminate H.
Qed.
Lemma target_item d o j : typed d o -> target o = Some j -> an_item d j /\ forall R x, touches R d o x -> x = j.
Proof. intros T E. destruct o; cbn [target] in E; try discriminate E; injection E as ->; cbn [typed touches] in *; (split; [try exact T; try (now left); now right|auto]). Qed.
Lemma way_ok q T : In T (way q) -> T <> $"Binaries" /\ itemb T = false.
Proof. destruct q as [| | | | |[]| | | |]; cbn [way In time_name]; intros H; repeat (destruct H as [<-|H]; [split; [discriminate|reflexivity]|]); destruct H. Qed.
Lemma way_some q : way q <> []. Proof. destruct q; discriminate. Qed.
Theorem step_fixed R Zl C o d q i : sane d -> typed d o -> settings o -> an_item d i -> ~ assigns q i d o -> let d' := next R Zl (C, o) d in sane d' /\ tags_le d d' /\ fixed d d' (way q) i.
Proof.
  intros O T St I N d'. pose proof O as [W L]. destruct (run R Zl C o d) as [r d1] eqn:Er. assert (d' = d1) as -> by (unfold d', next; cbn [fst snd]; now rewrite Er).
  assert (Ii : exists r0, lk d i = Some r0 /\ r_tag r0 <> $"Binaries") by (destruct I as [(r0 & E & Tr)|(r0 & E & Tr)]; exists r0; (split; [exact E|rewrite Tr; discriminate])). destruct Ii as (r0 & E0 & N0).
  destruct (clash o q) eqn:Cl.
  - destruct (clash_target o q i d St Cl N) as (j & Ej & Nj). destruct (target_item d o j T Ej) as [Ij Tj]. pose proof (near_part d i I) as P.
    destruct (step_local (near d i) R Zl C o d (conj W (conj L P)) (typed_kinds d o T)) with (r := r) (d' := d1) as ((W1 & L1 & _) & T1 & S1); [|exact Er|].
    { intros x Hx Nx. apply Tj in Hx as ->. apply Nj. now apply (near_item d i j Nx). }
    split; [split; assumption|]. split; [exact T1|]. apply (still_fixed d d1 i); auto; [intros U HU; now apply (way_ok q)|apply near_self|congruence].
  - destruct (step_mute (inb (way q)) R Zl C o d O T St (clash_no o q Cl) r d1 Er) as (O1 & T1 & K1). split; [exact O1|]. split; [exact T1|].
    apply (kept_fixed (inb (way q)) d d1 (way q) W (proj1 O1) T1 K1) with r0; auto; [|intros E; now apply way_some in E]. intros U HU. split; [now apply inb_In|now apply (way_ok q)].
Qed.
Lemma history_fixed R Zl q i l : forall d, sane d -> all_typed R Zl l d -> Forall (fun c => settings (snd c)) l -> an_item d i -> ~ ever R Zl (assigns q i) l d ->
  let d' := later R Zl l d in sane d' /\ tags_le d d' /\ d_major d' = d_major d /\ (l <> [] -> fixed d d' (way q) i).
Proof.
  induction l as [|c l IH]; intros d O T St I N; [cbn; split; [exact O|]; split; [apply le_refl|]; split; [reflexivity|congruence]|]. cbn [later all_typed ever] in *. destruct T as [T1 T2]. apply Forall_cons_iff in St as [S1 S2]. destruct c as [C o]. cbn [snd] in *.
  destruct (step_fixed R Zl C o d q i O T1 S1 I) as (O1 & L1 & F1); [tauto|]. destruct (IH _ O1 T2 S2 (item_le _ _ _ L1 I)) as (O2 & L2 & M2 & F2); [tauto|]. split; [exact O2|]. split; [eapply le_trans; eauto|]. split; [rewrite M2; apply level|]. intros _.
  destruct l as [|c2 l]; [exact F1|]. apply (fixed_trans _ (next R Zl (C, o) d)); [exact F1|]. apply F2. discriminate.
Qed.
Theorem register_kept R Zl q i l d : wf d -> laid d -> all_typed R Zl l d -> Forall (fun c => settings (snd c)) l -> an_item d i -> ~ ever R Zl (assigns q i) l d -> fst (reading q i (later R Zl l d)) = fst (reading q i d).
Proof.
  intros W L T St I N. destruct l as [|c l]; [reflexivity|]. destruct (history_fixed R Zl q i (c :: l) d (conj W L) T St I N) as ((W' & _) & Tl & M & F). specialize (F ltac:(discriminate)).
  assert (H : exists t, has d t /\ eid t = i) by (destruct I as [X|X]; destruct (tag_has d _ i W X) as (t & Ht & E & _); eauto). destruct H as (t & Ht & Et).
  assert (H' : exists t, has (later R Zl (c :: l) d) t /\ eid t = i) by (destruct I as [X|X]; apply Tl in X; destruct (tag_has _ _ i W' X) as (t' & Ht' & E & _); eauto). destruct H' as (t' & Ht' & Et').
  now apply (read_fixed d _ W W' M i t t').
Qed.

(** *** The value last assigned *)
Lemma assign_read R Zl C q d t v w : wf d -> has d t -> takes q d t v w -> fst (reading q (eid t) (next R Zl (C, assignment q (eid t) v) d)) = Ok w.
Proof.
  intros W Ht Tk. unfold next. cbn [fst snd]. destruct q; cbn [takes assignment run reading kind given] in *.
  - destruct Tk as (H1 & H2 & ->). destruct (uuid_back d t v W Ht H1 H2) as (d' & t' & E & _ & G). rewrite E. cbn [snd]. now rewrite G.
  - destruct Tk as (H1 & H2 & ->). destruct (icon_back d t v W Ht H1 H2) as (d' & t' & E & _ & G). rewrite E. cbn [snd]. now rewrite G.
  - destruct Tk as (H1 & H2 & H3 & ->). destruct (set_tags_claim d t v W Ht H1 H2 H3) as (d' & t' & E & _ & G). rewrite E. cbn [snd]. now rewrite G.
  - destruct Tk as (H1 & H2 & ->). destruct (name_back d t v W Ht H1 H2) as (d' & t' & E & _ & G). rewrite E. cbn [snd]. now rewrite G.
  - destruct Tk as (H1 & H2 & ->). destruct (notes_back d t v W Ht H1 H2) as (d' & t' & E & _ & G). rewrite E. cbn [snd]. now rewrite G.
  - destruct Tk as (H1 & s & x & H2 & H3 & ->). destruct (time_slot (time_name p) t) as [e|] eqn:Ee; [|congruence]. destruct (set_time_claim d t p e v s x W Ht Ee H2 H3) as (d' & E & _ & _ & G & _). rewrite E. cbn [snd]. now rewrite G.
  - destruct Tk as (H1 & ->). destruct (time_slot _ t) as [e|] eqn:Ee; [|congruence]. destruct (set_expires_claim d t e v W Ht Ee) as (d' & E & _ & _ & G & _). rewrite E. cbn [snd]. now rewrite G.
  - destruct Tk as (H1 & ->). destruct (find_2 _ _ t) as [e|] eqn:Ee; [|congruence]. destruct (enabled_back d t e v W Ht Ee) as (d' & E & _ & _ & G & _). rewrite E. cbn [snd]. now rewrite G.
  - destruct Tk as (H1 & H2 & ->). destruct (find_2 _ _ t) as [e|] eqn:Ee; [|congruence]. destruct (sequence_back d t e v W Ht Ee H2) as (d' & E & _ & _ & G & _). rewrite E. cbn [snd]. now rewrite G.
  - destruct Tk as (H1 & H2 & ->). destruct (find_3 _ _ _ t) as [e|] eqn:Ee; [|congruence]. destruct (window_back d t e v W Ht Ee H2) as (d' & E & _ & _ & G & _). rewrite E. cbn [snd]. now rewrite G.
Qed.
Theorem register_last R Zl C q d t v w l : wf d -> laid d -> has d t -> an_item d (eid t) -> takes q d t v w -> all_typed R Zl ((C, assignment q (eid t) v) :: l) d -> Forall (fun c => settings (snd c)) l ->
  ~ ever R Zl (assigns q (eid t)) l (next R Zl (C, assignment q (eid t) v) d) -> fst (reading q (eid t) (later R Zl ((C, assignment q (eid t) v) :: l) d)) = Ok w.
Proof.
  intros W L Ht I Tk T St N. cbn [later all_typed] in *. destruct T as [T1 T2]. cbn [snd] in T1. pose proof (step R Zl C (assignment q (eid t) v) d W L T1) as Ev. fold (next R Zl (C, assignment q (eid t) v) d) in Ev.
  rewrite (register_kept R Zl q (eid t) l _ (ev_wf _ _ _ _ Ev) (ev_laid _ _ _ _ Ev) T2 St); [now apply assign_read|apply (item_le d); [exact (ev_tag _ _ _ _ Ev)|exact I]|exact N].
Qed.
Theorem one_call R Zl C o d q i : wf d -> laid d -> typed d o -> settings o -> an_item d i -> ~ assigns q i d o -> fst (reading q i (next R Zl (C, o) d)) = fst (reading q i d).
Proof. intros W L T St I N. apply (register_kept R Zl q i [(C, o)] d W L); [cbn; auto|now constructor|exact I|cbn; tauto]. Qed.
