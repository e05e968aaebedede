(** The string fields of an entry through histories of calls. *)
From Coq Require Import ZifyBool ZifyNat ZifyN.
From Verif Require Import Base PyStr Xml Tree XPath Uuid Time Db FindSpec XPath_facts XPath_eval Find_facts Find_path Api ApiSpec StructSpec CredSpec Heap Prim Api_xpath Struct Struct_add Struct_empty Struct_hist Struct_claims Struct_find Struct_index Struct_trash Struct_bin Bin_xpath IntegritySpec Integrity Integrity_ops Integrity_calls Integrity_step Integrity_hist LocalSpec Local Local_step LocalEx RegisterSpec Register_mute Register_calls Level Register Api_fields Api_sub Api_claims Ledger LineSpec.

(** An entry with its string fields. *)
Definition close (d : db) (i x : nat) : Prop :=
  x = i \/ exists s, In s (kids_tagged (lk d) $"String" i) /\ (x = s \/ In x (kids_tagged (lk d) $"Key" s) \/ In x (kids_tagged (lk d) $"Value" s)).
Lemma close_part d i : an_item d i -> part d (close d i).
Proof.
  intros I x [->|(s & Hs & Hx)]; [now left|right]. destruct Hx as [->|Hx].
  - exists i. split; [now left|]. now apply kids_tagged_tag in Hs.
  - exists s. split; [right; exists s; auto|]. destruct Hx as [Hx|Hx]; now apply kids_tagged_tag in Hx.
Qed.
Lemma close_tag d i x : close d i x -> x = i \/ is_tag (lk d) $"String" x \/ is_tag (lk d) $"Key" x \/ is_tag (lk d) $"Value" x.
Proof. intros [->|(s & Hs & [->|[Hx|Hx]])]; [now left| | |]; right; [left|right; left|right; right]; eapply kids_tagged_tag; eauto. Qed.
Lemma close_kids d d' i x T : wf d -> tags_le d d' -> still (close d i) d d' -> close d i x -> kids_tagged (lk d') T x = kids_tagged (lk d) T x.
Proof.
  intros W Tl St Hx. unfold kids_tagged. rewrite (St x Hx). destruct (lk d x) as [r|] eqn:Er; [|reflexivity]. apply filter_same. intros k Hk. pose proof (kids_there d x r W Er k Hk) as Nk. unfold tagb. destruct (lk d k) as [q|] eqn:Eq; [|congruence]. destruct (Tl k (r_tag q)) as (q' & Eq' & Tq); [now exists q|]. now rewrite Eq', Tq.
Qed.
Lemma close_fixed d d' i T : wf d -> tags_le d d' -> still (close d i) d d' -> T = $"Key" \/ T = $"Value" -> fixed d d' [$"String"; T] i.
Proof.
  intros W Tl St HT. cbn [fixed]. split; [apply (close_kids d d' i); auto; now left|]. intros s Hs. split; [apply (close_kids d d' i); auto; right; exists s; auto|].
  intros k Hk. assert (Ck : close d i k) by (right; exists s; split; [exact Hs|right]; destruct HT as [->|HT]; [now left|right; now rewrite <- HT]). apply kids_tagged_tag in Hk as [(r & Er & _) _]. exists r, r. split; [exact Er|]. split; [now rewrite (St k Ck)|split; reflexivity].
Qed.
Definition stringy : list str := [$"String"; $"Key"; $"Value"].
Lemma entry_tag d x : an_entry d x -> forall T, is_tag (lk d) T x -> T = $"Entry".
Proof. intros H T HT. exact (is_tag_fun _ _ _ _ HT H). Qed.
Lemma step_strings R Zl C o d me : sane d -> typed d o -> settings o -> an_entry d me -> on_strings me o = [] ->
  let d' := next R Zl (C, o) d in forall T, T = $"Key" \/ T = $"Value" -> fixed d d' [$"String"; T] me.
Proof.
  intros O T St I N d'. pose proof O as [W L]. destruct (run R Zl C o d) as [r d1] eqn:Er. assert (d' = d1) as -> by (unfold d', next; cbn [fst snd]; now rewrite Er). pose proof (close_part d me (or_introl I)) as P.
  assert (Loc : (forall x, touches R d o x -> ~ close d me x) -> forall T, T = $"Key" \/ T = $"Value" -> fixed d d1 [$"String"; T] me).
  { intros Far. destruct (step_local (close d me) R Zl C o d (conj W (conj L P)) (typed_kinds d o T) Far r d1 Er) as ((W1 & L1 & _) & T1 & S1). intros U HU. now apply close_fixed. }
  assert (Mut : (forall U, In U (minds o) -> inb stringy U = false) -> forall T, T = $"Key" \/ T = $"Value" -> fixed d d1 [$"String"; T] me).
  { intros Hm. destruct (step_mute (inb stringy) R Zl C o d O T St Hm r d1 Er) as (O1 & T1 & K1). intros U HU. destruct I as (r0 & E0 & N0).
    apply (kept_fixed (inb stringy) d d1 [$"String"; U] W (proj1 O1) T1 K1) with r0; auto; [|rewrite N0; discriminate|discriminate]. intros V [<-|[<-|[]]]; [split; [reflexivity|discriminate]|]. destruct HU as [->| ->]; split; [reflexivity|discriminate|reflexivity|discriminate]. }
  assert (Ent : forall j, an_entry d j -> (j =? me)%nat = false -> ~ close d me j).
  { intros j Hj Nj Hc. apply Nat.eqb_neq in Nj. apply close_tag in Hc as [Hc|[Hc|[Hc|Hc]]]; [contradiction| | |]; apply (entry_tag d j Hj) in Hc; discriminate Hc. }
  destruct o; cbn [on_strings typed touches settings minds] in *;
    try (match type of N with (if (?j =? _)%nat then _ else _) = [] => destruct (j =? me)%nat eqn:Ej; [discriminate N|] end; apply Loc; intros x ->; apply Ent; [tauto|exact Ej]);
    try (apply Mut; intros U HU; cbn [In] in HU; repeat (destruct HU as [<-|HU]; [reflexivity|]); now destruct HU).
  - apply Mut. destruct p; intros U [<-|[]]; reflexivity.
  - apply Mut. intros U [<-|HU]; [reflexivity|]. destruct modify; [destruct HU as [<-|[]]; reflexivity|destruct HU].
  - apply Loc. intros x -> Hc. apply close_tag in Hc as [->|[Hc|[Hc|Hc]]]; [apply (entry_tag d me I) in T|apply (is_tag_fun _ _ _ _ T) in Hc|apply (is_tag_fun _ _ _ _ T) in Hc|apply (is_tag_fun _ _ _ _ T) in Hc]; discriminate.
  - apply Mut. intros U [<-|[]]. destruct St as [<-|[<-|[<-|[]]]]; reflexivity.
  - apply Mut. destruct w; intros U [<-|[]]; reflexivity.
Qed.
Lemma step_sane R Zl C o d : sane d -> typed d o -> settings o -> sane (next R Zl (C, o) d) /\ tags_le d (next R Zl (C, o) d).
Proof.
  intros O T St. destruct (run R Zl C o d) as [r d1] eqn:Er. unfold next. cbn [fst snd]. rewrite Er. cbn [snd]. destruct (step_mute (fun _ => false) R Zl C o d O T St (fun _ _ => eq_refl) r d1 Er) as (O1 & T1 & _). now split.
Qed.

(** *** The same ledger *)
Section Same.
  Variables (d d' : db) (W : wf d) (W' : wf d').
  Lemma shield_alike t t' : alike d d' [] t t' -> attr_of $"Protected" t' = attr_of $"Protected" t.
  Proof. intros (Ht & Ht' & E & r & r' & Er & Er' & _ & X). rewrite <- E, (look_self _ t' (wf_unique d' W') Ht') in Er'. rewrite (look_self _ t (wf_unique d W) Ht) in Er. injection Er as <-. injection Er' as <-. exact X. Qed.
  Lemma one_alike T s s' : alike d d' [T] s s' -> match find1 T s, find1 T s' with Some x, Some y => alike d d' [] x y | None, None => True | _, _ => False end.
  Proof. intros H. unfold find1. apply (hd_alike d d'). now apply kids_alike. Qed.
  Lemma field_alike s s' : alike d d' [$"Key"] s s' -> alike d d' [$"Value"] s s' -> field_of s' = field_of s.
  Proof.
    intros A B. apply one_alike in A. apply one_alike in B. unfold field_of, first_text. destruct (find1 $"Key" s) as [k|], (find1 $"Key" s') as [k'|]; try contradiction; destruct (find1 $"Value" s) as [v|], (find1 $"Value" s') as [v'|]; try contradiction;
      rewrite ?(text_alike d d' W W' k k' A), ?(text_alike d d' W W' v v' B), ?(shield_alike v v' B); reflexivity.
  Qed.
  Lemma single_alike T s s' : alike d d' [T] s s' -> (exists k, kids_of T s = [k]) -> exists k, kids_of T s' = [k].
  Proof. intros A (k & Ek). apply kids_alike in A; [|exact W|exact W']. rewrite Ek in A. inversion A as [|x y a b _ N]; subst. inversion N; subst. eauto. Qed.
  Lemma book_alike t t' : has d t -> has d' t' -> eid t' = eid t -> fixed d d' [$"String"; $"Key"] (eid t) -> fixed d d' [$"String"; $"Value"] (eid t) ->
    book t' = book t /\ ((forall s, In s (kids_of $"String" t) -> exists k v, kids_of $"Key" s = [k] /\ kids_of $"Value" s = [v]) -> (forall s, In s (kids_of $"String" t') -> exists k v, kids_of $"Key" s = [k] /\ kids_of $"Value" s = [v])).
  Proof.
    intros Ht Ht' E FK FV. pose proof (kids_alike d d' W W' $"String" [$"Key"] t t' (conj Ht (conj Ht' (conj E FK)))) as AK. pose proof (kids_alike d d' W W' $"String" [$"Value"] t t' (conj Ht (conj Ht' (conj E FV)))) as AV.
    unfold book. revert AK AV. generalize (kids_of $"String" t) (kids_of $"String" t'). intros a. induction a as [|x a IH]; intros b AK AV; inversion AK as [|? y ? b' K1 K2]; subst; [split; [reflexivity|intros _ s []]|].
    inversion AV as [|? ? ? ? V1 V2]; subst. destruct (IH b' K2 V2) as [B1 B2]. split.
    - cbn [map]. f_equal; [now apply field_alike|exact B1].
    - intros H s [<-|Hs].
      + destruct (H x (or_introl eq_refl)) as (k & v & Ek & Ev). destruct (single_alike _ _ _ K1) as (k' & Ek'); [eauto|]. destruct (single_alike _ _ _ V1) as (v' & Ev'); [eauto|]. eauto.
      + apply B2; [|exact Hs]. intros z Hz. apply H. now right.
  Qed.
End Same.
Lemma still_tidy R Zl C o d t : sane d -> typed d o -> settings o -> has d t -> an_entry d (eid t) -> on_strings (eid t) o = [] -> tidy t -> plain_keys t ->
  exists t', has (next R Zl (C, o) d) t' /\ eid t' = eid t /\ book t' = book t /\ tidy t' /\ plain_keys t'.
Proof.
  intros O T St Ht I N (Y1 & Y2 & Y3) Pk. destruct (step_sane R Zl C o d O T St) as [O1 T1]. pose proof (step_strings R Zl C o d (eid t) O T St I N) as F. cbv zeta in F.
  destruct (tag_has _ _ (eid t) (proj1 O1) (T1 _ _ I)) as (t' & Ht' & E & _). exists t'. split; [exact Ht'|]. split; [exact E|].
  destruct (book_alike d _ (proj1 O) (proj1 O1) t t' Ht Ht' E (F _ (or_introl eq_refl)) (F _ (or_intror eq_refl))) as [B1 B2]. split; [exact B1|]. split; [|unfold plain_keys; rewrite B1; exact Pk]. split; [now apply B2|]. now rewrite B1.
Qed.
Lemma asked R Zl C o e c : on_strings e o = [c] -> exists m, (forall d, run R Zl C o d = m d) /\ forall d, do_call R e c d = (do _ <- m; ret A_done) d.
Proof.
  intros H. destruct o; cbn [on_strings] in H; try discriminate H; destruct (Nat.eqb_spec i e) as [->|_] || destruct (Nat.eqb_spec e0 e) as [->|_]; try discriminate H; injection H as <-; eexists; (split; [intros d1; reflexivity|intros d1; reflexivity]).
Qed.
Lemma on_few e o : on_strings e o = [] \/ exists c, on_strings e o = [c].
Proof. destruct o; cbn [on_strings]; auto; destruct (_ =? _)%nat; eauto. Qed.
Lemma typed_plain d e o c : typed d o -> on_strings e o = [c] -> key_plain c.
Proof. intros T H. destruct o; cbn [on_strings] in H; try discriminate H; destruct (_ =? _)%nat; try discriminate H; injection H as <-; cbn [typed key_plain] in *; tauto. Qed.

Theorem ledger_history R Zl l : forall d t, wf d -> laid d -> has d t -> an_entry d (eid t) -> tidy t -> plain_keys t -> all_typed R Zl l d -> Forall (fun c => settings (snd c)) l ->
  let '(a, lines) := line_steps (calls_on (eid t) l) (book t) in
  told R Zl (eid t) l d = map ending a /\
  exists t', has (later R Zl l d) t' /\ eid t' = eid t /\ tidy t' /\ plain_keys t' /\ book t' = lines.
Proof.
  induction l as [|[C o] l IH]; intros d t W L Ht I Y Pk T St; [cbn; split; [reflexivity|]; exists t; auto|]. cbn [all_typed later] in *. destruct T as [T1 T2]. apply Forall_cons_iff in St as [S1 S2]. cbn [snd] in *.
  destruct (step_sane R Zl C o d (conj W L) T1 S1) as [O1 Tl]. pose proof (Tl _ _ I) as I1. cbn [calls_on flat_map told snd fst]. fold (calls_on (eid t) l).
  destruct (on_few (eid t) o) as [N|(c & Ec)].
  - rewrite N. cbn [app]. destruct (still_tidy R Zl C o d t (conj W L) T1 S1 Ht I N Y Pk) as (t1 & Ht1 & E1 & B1 & Y1 & P1). rewrite <- E1 in I1. specialize (IH _ t1 (proj1 O1) (proj2 O1) Ht1 I1 Y1 P1 T2 S2). rewrite E1, B1 in IH. exact IH.
  - rewrite Ec. cbn [app line_steps]. pose proof (call_run R d t c W Ht Y Pk (typed_plain d _ o c T1 Ec)) as G. destruct (line_step c (book t)) as [a1 b1]. destruct G as (d1 & t1 & E & (W1 & Ht1 & (Ei & _) & _) & Y1 & P1 & B1).
    destruct (asked R Zl C o (eid t) c Ec) as (m & Em & Ed). rewrite Ed in E. unfold mbind in E. assert (En : next R Zl (C, o) d = d1 /\ fst (run R Zl C o d) = ending a1).
    { unfold next. cbn [fst snd]. rewrite Em. destruct (m d) as [[[]|x] d2]; cbn in E; injection E as <- <-; split; reflexivity. }
    destruct En as [En Ea]. rewrite En in *. rewrite <- Ei in I1. specialize (IH d1 t1 W1 (proj2 O1) Ht1 I1 Y1 P1 T2 S2). rewrite Ei, B1 in IH. destruct (line_steps (calls_on (eid t) l) b1) as [a2 b2]. destruct IH as [IH1 IH2]. split; [cbn [map]; now rewrite Ea, IH1|exact IH2].
Qed.
Theorem ledger_reads R Zl l d t c : wf d -> laid d -> has d t -> an_entry d (eid t) -> tidy t -> plain_keys t -> all_typed R Zl l d -> Forall (fun c => settings (snd c)) l -> asks c -> key_plain c ->
  fst (do_call R (eid t) c (later R Zl l d)) = fst (line_step c (snd (line_steps (calls_on (eid t) l) (book t)))).
Proof.
  intros W L Ht I Y Pk T St A K. pose proof (ledger_history R Zl l d t W L Ht I Y Pk T St) as H. destruct (line_steps (calls_on (eid t) l) (book t)) as [a b]. destruct H as (_ & t' & Ht' & E & Y' & P' & B'). cbn [snd].
  assert (W' : wf (later R Zl l d)).
  { clear - W L T St. revert d W L T. induction l as [|[C o] l IH]; intros d W L T; [exact W|]. cbn [later all_typed] in *. destruct T as [T1 T2]. apply Forall_cons_iff in St as [S1 S2]. destruct (step_sane R Zl C o d (conj W L) T1 S1) as [[W1 L1] _]. now apply IH. }
  pose proof (call_run R (later R Zl l d) t' c W' Ht' Y' P' K) as G. rewrite B', E in G. destruct (line_step c b) as [x y]. destruct G as (d2 & t2 & G & _). now rewrite G.
Qed.
