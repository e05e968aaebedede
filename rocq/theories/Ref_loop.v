(** deref for every text: what it returns has no references left; circular references; the recursion limit. *)
From Coq Require Import Permutation.
From Verif Require Import Base Base64 PyStr Xml Tree XPath Time Uuid Db FindSpec ApiSpec Api Prim StructSpec RefSpec Ref.

Lemma scan_total s : exists l, scanned s l.
Proof.
  remember (List.length s) as k eqn:K. assert (Hk : (List.length s <= k)%nat) by lia. clear K. revert s Hk. induction k as [|k IH]; intros s Hk.
  - destruct s; [exists []; constructor|cbn in Hk; lia].
  - destruct s as [|x s]; [exists []; constructor|]. destruct (match_ref (x :: s)) as [[f r]|] eqn:M.
    + apply match_inv in M as (c & L & E & _). destruct (IH r) as (l & Hl). { assert (X : List.length (x :: s) = List.length (written c ++ r)) by now rewrite E. rewrite app_length, written_cons in X. cbn [List.length] in X, Hk. lia. } exists (Ref c :: l). rewrite E. now constructor.
    + destruct (IH s) as (l & Hl); [cbn [List.length] in Hk; lia|]. exists (Ch x :: l). constructor; [|exact Hl]. intros c q L E. rewrite E, (match_hit c q L) in M. discriminate.
Qed.
Lemma scanned_free s l : scanned s l -> refs l = [] -> no_refs s.
Proof.
  induction 1 as [|c s l L H IH|x s l N H IH]; intros E p c' q L' X; [destruct p; discriminate X|discriminate E|]. destruct p as [|y p]; cbn [app] in X; [exact (N c' q L' X)|]. injection X as <- X. exact (IH E p c' q L' X).
Qed.
(** *** No call changes the database *)
Definition quiet {A} (m : M A) : Prop := forall d, snd (m d) = d.
Lemma q_ret {A} (a : A) : quiet (ret a). Proof. intros d. reflexivity. Qed.
Lemma q_raise {A} e : quiet (@raise A e). Proof. intros d. reflexivity. Qed.
Lemma q_lift {A} (f : db -> res A) : quiet (lift f). Proof. intros d. reflexivity. Qed.
Lemma q_of {A} (r : res A) : quiet (of_res r). Proof. intros d. reflexivity. Qed.
Lemma q_bind {A B} (m : M A) (k : A -> M B) : quiet m -> (forall a, quiet (k a)) -> quiet (mbind m k).
Proof. intros Hm Hk d. unfold mbind. pose proof (Hm d) as X. destruct (m d) as [[a|e] d']; cbn in X |- *; subst d'; [apply Hk|reflexivity]. Qed.
Lemma q_uuid i : quiet (get_uuid i).
Proof. unfold get_uuid, get_sub. repeat (apply q_bind || apply q_of || apply q_ret || apply q_lift || intro). all: try (match goal with |- quiet (match ?x with _ => _ end) => destruct x end). all: try apply q_ret; try apply q_of; try apply q_raise. Qed.
Lemma q_string R k i : quiet (get_string R k i).
Proof. unfold get_string. apply q_bind; [apply q_lift|]. intros [e|]; apply q_ret. Qed.
Lemma q_wanted R c i : quiet (wanted_text R c i).
Proof. unfold wanted_text. destruct (c =? 73); apply q_bind; try apply q_uuid; try apply q_string; intros; try apply q_raise. destruct a; [apply q_ret|apply q_raise]. Qed.
Lemma q_find R f : quiet (find_ref R f).
Proof. unfold find_ref. apply q_bind; [|intros; apply q_lift]. destruct (f_in f =? 73); [apply q_bind; [apply q_of|intros; apply q_ret]|apply q_ret]. Qed.
Lemma q_refs R l : forall v, quiet (replace_refs R l v).
Proof. induction l as [|f l IH]; intros v; cbn [replace_refs]; [apply q_ret|]. apply q_bind; [apply q_find|]. intros [e|]; [|apply q_ret]. apply q_bind; [apply q_wanted|]. intros. apply IH. Qed.
Lemma q_deref R o n : forall v, quiet (deref R o n v).
Proof.
  induction n as [|n IH]; intros v; cbn [deref]; [apply q_raise|]. destruct v as [[|c s]|]; try apply q_ret. destruct (o _) as [|f l]; [apply q_ret|]. apply q_bind; [apply q_refs|]. intros [w|]; [apply IH|apply q_ret].
Qed.
(** *** What is returned has no references *)
Lemma deref_clean R o : some_order o -> forall n v d s d', deref R o n v d = (Ok (Some s), d') -> no_refs s.
Proof.
  intros Ho. induction n as [|n IH]; intros v d s d' E; [discriminate E|]. cbn [deref] in E. destruct v as [[|c v]|]; [injection E as <- _; intros p c q L X; destruct p; discriminate X| |discriminate E].
  destruct (scan_total (c :: v)) as (l & Sc). destruct (o (fref_nodup (findall 0 (c :: v)))) as [|f m] eqn:O.
  - injection E as <- _. apply (scanned_free _ l Sc). rewrite (findall_scanned _ _ Sc) in O. destruct (ordered o (refs l) Ho (scanned_legal _ _ Sc)) as (C & EC & HC). rewrite O in EC. destruct C; [|discriminate EC]. destruct (refs l) as [|c0 l0]; [reflexivity|]. destruct (proj2 (HC c0)). now left.
  - unfold mbind in E. destruct (replace_refs R (f :: m) (c :: v) d) as [[[w|]|e] d1]; [exact (IH _ _ _ _ E)|discriminate E|discriminate E].
Qed.
(** *** The recursion limit *)
Lemma deref_more R o n : forall v d r d', deref R o n v d = (r, d') -> r <> Err Ex_Recursion -> forall m, (n <= m)%nat -> deref R o m v d = (r, d').
Proof.
  induction n as [|n IH]; intros v d r d' E Nr m Hm; [injection E as <- _; congruence|]. destruct m as [|m]; [lia|]. cbn [deref] in E |- *. destruct v as [[|c v]|]; try exact E. destruct (o _) as [|f l]; [exact E|]. unfold mbind in E |- *. destruct (replace_refs R (f :: l) (c :: v) d) as [[[w|]|e] d1]; try exact E. apply (IH _ _ _ _ E Nr). lia.
Qed.
(** *** Circular references *)
Lemma refs_app a b : refs (a ++ b) = refs a ++ refs b. Proof. apply flat_map_app. Qed.
Lemma clean_app a b : clean a -> clean b -> clean (a ++ b).
Proof. induction 1; intros Hb; cbn [app]; [exact Hb|constructor; auto|apply cl_brace; [now apply stray_app|auto]|constructor; auto]. Qed.
Lemma clean_subst c ps l : clean ps -> clean l -> clean (subst c ps l).
Proof.
  intros Hp. induction 1 as [|x l N H IH|l S H IH|c' l L B H IH]; [constructor|cbn [subst flat_map app]; constructor; auto|cbn [subst flat_map app]; apply cl_brace; [now apply stray_subst|exact IH]|].
  cbn [subst flat_map]. destruct (cite_eqb c c'); [now apply clean_app|cbn [app]; now constructor].
Qed.
Lemma subst_in c ps l x : In x (refs (subst c ps l)) -> In x (refs l) \/ In x (refs ps).
Proof.
  induction l as [|[y|c'] l IH]; [intros []|exact IH|]. cbn [subst flat_map]. rewrite refs_app, in_app_iff. destruct (cite_eqb c c'); [intros [I|I]; [auto|]|intros [[I|[]]|I]; [subst; left; now left|]]; destruct (IH I); auto; left; now right.
Qed.
Lemma subst_keeps c ps l x : In x (refs l) -> x <> c -> In x (refs (subst c ps l)).
Proof.
  induction l as [|[y|c'] l IH]; [intros []|exact IH|]. intros I N. cbn [subst flat_map]. rewrite refs_app, in_app_iff. destruct I as [->|I]; [|right; auto]. left. destruct (cite_eqb c x) eqn:E; [apply cite_eqb_eq in E; congruence|now left].
Qed.
Lemma subst_new c ps l x : In c (refs l) -> In x (refs ps) -> In x (refs (subst c ps l)).
Proof.
  induction l as [|[y|c'] l IH]; [intros []|exact IH|]. intros I J. cbn [subst flat_map]. rewrite refs_app, in_app_iff. destruct I as [->|I]; [|right; auto]. left. rewrite (proj2 (cite_eqb_eq c c) eq_refl). exact J.
Qed.
Section Loop.
Context (R : regex) (d : db) (A C : cite -> Prop) (H : wf d) (K : circular d A C).
Definition spins (l : list piece) : Prop := clean l /\ (forall c, In c (refs l) -> A c) /\ exists c, In c (refs l) /\ C c.
Lemma cite_dec (a b : cite) : a = b \/ a <> b.
Proof. destruct (cite_eqb a b) eqn:E; [left; now apply cite_eqb_eq|right; intros ->; rewrite (proj2 (cite_eqb_eq b b) eq_refl) in E; discriminate]. Qed.
Lemma clean_legal l : clean l -> forall c, In c (refs l) -> legal_cite c.
Proof. induction 1 as [|x l N H' IH|l S H' IH|c' l L B H' IH]; intros c I; [destruct I|auto|auto|]. destruct I as [<-|I]; auto. Qed.
Lemma spin_round m : (forall c, In c m -> A c /\ legal_cite c) -> forall l, spins l -> exists l', replace_refs R (map fref_of m) (flat l) d = (Ok (Some (flat l')), d) /\ spins l'.
Proof.
  induction m as [|c m IH]; intros Hm l Sl; [exists l; auto|]. destruct (Hm c (or_introl eq_refl)) as [Ac L]. destruct (K c Ac) as (w & ps & P & Sc & Cp & Ap & Xp). cbn [map]. rewrite (replace_step R d c _ _ w H L P).
  destruct Sl as (Cl & Al & c1 & I1 & C1). rewrite (replace_flat c w ps l L Cl (eq_sym (scanned_flat _ _ Sc))). apply IH; [intros; apply Hm; now right|]. split; [now apply clean_subst|]. split.
  - intros c' I. apply subst_in in I as [I|I]; auto.
  - destruct (cite_dec c1 c) as [->|N]; [|exists c1; split; [now apply subst_keeps|exact C1]]. destruct (Xp C1) as (c' & I' & C'). exists c'. split; [now apply subst_new|exact C'].
Qed.
Lemma deref_spins o : some_order o -> forall n l, spins l -> deref R o n (Some (flat l)) d = (Err Ex_Recursion, d).
Proof.
  intros Ho. induction n as [|n IH]; intros l Sl; [reflexivity|]. pose proof Sl as (Cl & Al & c1 & I1 & C1). destruct (deref_round R o d (flat l) l n Ho (clean_scanned l Cl)) as (m & Hm & ->); [intros E; rewrite E in I1; destruct I1|].
  destruct (spin_round m) with (l := l) as (l' & E & Sl'); [|exact Sl|rewrite (mbind_ok _ _ _ _ _ E); now apply IH]. intros c Ic. apply Hm in Ic. split; [auto|exact (clean_legal l Cl c Ic)].
Qed.
End Loop.
Lemma deref_circular R o d A C v l n : wf d -> some_order o -> circular d A C -> scanned v l -> clean l -> (forall c, In c (refs l) -> A c) -> (exists c, In c (refs l) /\ C c) -> deref R o n (Some v) d = (Err Ex_Recursion, d).
Proof. intros H Ho K Sc Cl Al Xl. rewrite (scanned_flat _ _ Sc). apply (deref_spins R d A C H K o Ho). split; auto. Qed.
(** *** Nothing else happens: in a finite collection of references, each of which stands for a text, a reference can be expanded or is circular *)
Section Finite.
Context (d : db) (L : list cite).
Context (ps : cite -> list piece).
Fixpoint grounded (n : nat) (c : cite) : bool := match n with O => false | S n => forallb (grounded n) (refs (ps c)) end.
Lemma grounded_more n : forall c, grounded n c = true -> grounded (S n) c = true.
Proof. induction n as [|n IH]; intros c G; [discriminate G|]. cbn [grounded] in G |- *. rewrite forallb_forall in G |- *. intros x I. exact (IH x (G x I)). Qed.
Definition count (n : nat) : nat := List.length (filter (grounded n) L).
Lemma filter_le {A} (f g : A -> bool) l : (forall x, f x = true -> g x = true) -> (List.length (filter f l) <= List.length (filter g l))%nat /\ (List.length (filter f l) = List.length (filter g l) -> forall x, In x l -> g x = true -> f x = true).
Proof.
  intros X. induction l as [|a l [IH1 IH2]]; [split; [reflexivity|intros _ x []]|]. cbn [filter]. destruct (f a) eqn:Fa.
  - rewrite (X a Fa). cbn [List.length]. split; [lia|]. intros E x [<-|I] G; [exact Fa|]. apply IH2; [lia|exact I|exact G].
  - destruct (g a) eqn:Ga; cbn [List.length]; (split; [lia|]); intros E x [<-|I] G; try congruence; try lia. now apply IH2.
Qed.
Context (closed : forall c, In c L -> forall c', In c' (refs (ps c)) -> In c' L).
Definition settled (n : nat) : Prop := forall c, In c L -> grounded (S n) c = true -> grounded n c = true.
Lemma settled_next n : settled n -> settled (S n).
Proof. intros Sn c I G. cbn [grounded] in G. rewrite forallb_forall in G. change (forallb (grounded n) (refs (ps c)) = true). apply forallb_forall. intros x Ix. apply (Sn x (closed c I x Ix)). exact (G x Ix). Qed.
Lemma count_or n : (n <= count n)%nat \/ exists j, (j < n)%nat /\ settled j.
Proof.
  induction n as [|n [IH|(j & Hj & Sj)]]; [left; lia| |right; exists j; split; [lia|exact Sj]]. destruct (filter_le (grounded n) (grounded (S n)) L (grounded_more n)) as [Le Eq]. fold (count n) (count (S n)) in Le, Eq.
  destruct (Nat.eq_dec (count n) (count (S n))) as [E|E]; [right; exists n; split; [lia|]; intros c I G; exact (Eq E c I G)|left; lia].
Qed.
Definition depth : nat := S (List.length L).
Lemma depth_settled : settled depth.
Proof.
  assert (X : exists j, (j < depth)%nat /\ settled j).
  { destruct (count_or depth) as [Hc|X]; [|exact X]. exfalso. unfold count in Hc. assert (Y : forall f, (List.length (filter f L) <= List.length L)%nat). { intros f. clear. induction L as [|a l IH]; [auto|]. cbn [filter]. destruct (f a); cbn [List.length]; lia. } specialize (Y (grounded depth)). unfold depth in *. lia. }
  destruct X as (j & Hj & Sj). assert (Z : forall k, settled (j + k)). { induction k as [|k IH]; [now rewrite Nat.add_0_r|]. replace (j + S k)%nat with (S (j + k)) by lia. now apply settled_next. } specialize (Z (depth - j)%nat). replace (j + (depth - j))%nat with depth in Z by lia. exact Z.
Qed.
Lemma stuck c : In c L -> grounded depth c = false -> exists c', In c' (refs (ps c)) /\ grounded depth c' = false.
Proof.
  intros I G. assert (G' : grounded (S depth) c = false). { destruct (grounded (S depth) c) eqn:E; [|reflexivity]. rewrite (depth_settled c I E) in G. discriminate G. }
  change (forallb (grounded depth) (refs (ps c)) = false) in G'. clear I G. induction (refs (ps c)) as [|x l IH]; [discriminate G'|]. cbn [forallb] in G'. destruct (grounded depth x) eqn:E; [|exists x; split; [now left|exact E]]. destruct (IH G') as (c' & I & F). exists c'. split; [now right|exact F].
Qed.
Context (good : forall c, In c L -> legal_cite c /\ ~ In 123 (c_value c) /\ exists w, points d c w /\ scanned w (ps c) /\ clean (ps c)).
Lemma ground_expands n : forall l, clean l -> (forall c, In c (refs l) -> In c L /\ grounded n c = true) -> exists s, expands d n l s.
Proof.
  induction n as [|n IH]; intros l Cl G.
  - induction Cl as [|x l N H' IH'|l S H' IH'|c l Lc B H' IH']; [exists []; constructor| | |destruct (G c (or_introl eq_refl)) as [_ X]; discriminate X].
    + destruct (IH' G) as (s & E). exists (x :: s). now constructor.
    + destruct (IH' G) as (s & E). exists (123 :: s). now apply ex_brace.
  - induction Cl as [|x l N H' IH'|l S H' IH'|c l Lc B H' IH']; [exists []; constructor| | |].
    + destruct (IH' G) as (s & E). exists (x :: s). now constructor.
    + destruct (IH' G) as (s & E). exists (123 :: s). now apply ex_brace.
    + destruct IH' as (s & E); [intros c' I; apply G; now right|]. destruct (G c (or_introl eq_refl)) as [Ic Gc]. destruct (good c Ic) as (_ & _ & w & P & Sc & Cp). cbn [grounded] in Gc. rewrite forallb_forall in Gc.
      destruct (IH (ps c) Cp) as (s0 & E0); [intros c' I'; split; [exact (closed c Ic c' I')|exact (Gc c' I')]|]. exists (s0 ++ s). eapply ex_ref; eauto.
Qed.
Lemma ground_or l : (forall c, In c (refs l) -> In c L) -> (forall c, In c (refs l) -> grounded depth c = true) \/ exists c, In c (refs l) /\ grounded depth c = false.
Proof.
  intros _. induction (refs l) as [|c m IH]; [left; intros c []|]. destruct (grounded depth c) eqn:E; [|right; exists c; split; [now left|exact E]]. destruct IH as [IH|(c' & I & F)]; [left|right; exists c'; split; [now right|exact F]]. intros c' [<-|I]; auto.
Qed.
Lemma ends_or_spins R o l : wf d -> some_order o -> clean l -> (forall c, In c (refs l) -> In c L) ->
  (exists s, expands d depth l s) \/ ((exists c, In c (refs l) /\ grounded depth c = false) /\ forall n, deref R o n (Some (flat l)) d = (Err Ex_Recursion, d)).
Proof.
  intros H Ho Cl Il. destruct (ground_or l Il) as [G|X]; [left; apply ground_expands; auto|right]. split; [exact X|]. intros n. apply (deref_circular R o d (fun c => In c L) (fun c => In c L /\ grounded depth c = false) (flat l) l n H Ho); [|now apply clean_scanned|exact Cl|exact Il|destruct X as (c & I & F); exists c; auto].
  intros c Ic. destruct (good c Ic) as (Lc & B & w & P & Sc & Cp). exists w, (ps c). split; [exact P|]. split; [exact Sc|]. split; [exact Cp|]. split; [exact (closed c Ic)|]. intros [_ F]. destruct (stuck c Ic F) as (c' & I' & F'). exists c'. split; [exact I'|]. split; [exact (closed c Ic c' I')|exact F'].
Qed.
End Finite.
Lemma choose (P : cite -> list piece -> Prop) L : (forall c, In c L -> exists ps, P c ps) -> exists f, forall c, In c L -> P c (f c).
Proof.
  induction L as [|c L IH]; intros H; [exists (fun _ => []); intros c []|]. destruct IH as (f & Hf); [intros; apply H; now right|]. destruct (H c (or_introl eq_refl)) as (ps & Hp). exists (fun x => if cite_eqb c x then ps else f x). intros x I. destruct (cite_eqb c x) eqn:E; [apply cite_eqb_eq in E; now subst|]. destruct I as [->|I]; [rewrite (proj2 (cite_eqb_eq x x) eq_refl) in E; discriminate E|auto].
Qed.
Lemma deref_dichotomy R o d L v l : wf d -> some_order o -> complete d L -> scanned v l -> clean l -> (forall c, In c (refs l) -> In c L) ->
  (exists s, expands d (S (List.length L)) l s /\ forall fuel, (S (List.length L) < fuel)%nat -> deref R o fuel (Some v) d = (Ok (Some s), d)) \/
  ((exists C, circular d (fun c => In c L) C /\ exists c, In c (refs l) /\ C c) /\ forall n, deref R o n (Some v) d = (Err Ex_Recursion, d)).
Proof.
  intros H Ho K Sc Cl Il. destruct (choose (fun c ps => exists w, points d c w /\ scanned w ps /\ clean ps /\ forall c', In c' (refs ps) -> In c' L) L) as (ps & Hps).
  { intros c I. destruct (K c I) as (_ & _ & w & q & X). exists q, w. exact X. }
  assert (closed : forall c, In c L -> forall c', In c' (refs (ps c)) -> In c' L) by (intros c I; now destruct (Hps c I) as (w & _ & _ & _ & X)).
  assert (good : forall c, In c L -> legal_cite c /\ ~ In 123 (c_value c) /\ exists w, points d c w /\ scanned w (ps c) /\ clean (ps c)). { intros c I. destruct (K c I) as (X1 & X2 & _). split; [exact X1|]. split; [exact X2|]. destruct (Hps c I) as (w & P & S & C & _). eauto. }
  destruct (ends_or_spins d L ps closed good R o l H Ho Cl Il) as [(s & E)|[(c & I & F) X]].
  - left. exists s. split; [exact E|]. intros fuel Hf. exact (deref_run R o d _ H Ho v l s Sc E fuel Hf).
  - right. split; [|intros n; rewrite (scanned_flat _ _ Sc); apply X]. exists (fun c => In c L /\ grounded ps (depth L) c = false). split; [|exists c; auto].
    intros x Ix. destruct (good x Ix) as (_ & _ & w & P & S' & Cp). exists w, (ps x). split; [exact P|]. split; [exact S'|]. split; [exact Cp|]. split; [exact (closed x Ix)|]. intros [_ Fx]. destruct (stuck L ps closed x Ix Fx) as (c' & I' & F'). exists c'. split; [exact I'|]. split; [exact (closed x Ix c' I')|exact F'].
Qed.
