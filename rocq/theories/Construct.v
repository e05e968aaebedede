(** The construct combinators used by kdbx_parsing (construct 2.10): parsers consume a byte string and return
    the rest.  Streams are modelled by the bytes from the current position on. *)
From Coq Require Import ZifyBool ZifyNat ZifyN.
From Verif Require Import Base.

Definition parser (A : Type) := bytes -> res (A * bytes).
(** Bytes(n), Padding(n): StreamError when fewer bytes are left. *)
Definition p_bytes (n : N) : parser bytes := fun d =>
  match splitN n d with Some (a, r) => Ok (a, r) | None => Err Ex_Stream end.
(** Int8ul/16/32/64ul: k bytes, little endian *)
Definition p_int (k : nat) : parser N := fun d =>
  let* (b, r) := p_bytes (N.of_nat k) d in Ok (le_dec b, r).
(** Prefixed(IntXul, sub): [sub] sees exactly the announced bytes; what it leaves unread is dropped. *)
Definition p_prefixed {A} (k : nat) (sub : bytes -> res A) : parser A := fun d =>
  let* (n, r) := p_int k d in
  let* (b, r') := p_bytes n r in
  let* a := sub b in Ok (a, r').
(** RepeatUntil(stop, item); [item] receives the context's [_index]. *)
Fixpoint p_until {A} (item : N -> parser A) (stop : A -> bool) (fuel : nat) (i : N) (d : bytes) : res (list A * bytes) :=
  match fuel with
  | O => Err Ex_Recursion
  | S f =>
      let* (a, r) := item i d in
      if stop a then Ok ([a], r)
      else let* (l, r') := p_until item stop f (i + 1) r in Ok (a :: l, r')
  end.
(** The loop ends: every item consumes at least one byte (see [p_repeat_norec]). *)
Definition p_repeat {A} (item : N -> parser A) (stop : A -> bool) : parser (list A) := fun d =>
  p_until item stop (S (List.length d)) 0 d.

(** Ordered dictionaries (Container): a repeated key keeps its first position. *)
Section Dict.
  Context {K V : Type} (eqb : K -> K -> bool).
  Fixpoint d_put (k : K) (v : V) (l : list (K * V)) : list (K * V) :=
    match l with
    | [] => [(k, v)]
    | (k', v') :: l' => if eqb k' k then (k', v) :: l' else (k', v') :: d_put k v l'
    end.
  Fixpoint d_get (k : K) (l : list (K * V)) : option V :=
    match l with
    | [] => None
    | (k', v) :: l' => if eqb k' k then Some v else d_get k l'
    end.
  Definition d_of_list (l : list (K * V)) : list (K * V) := fold_left (fun d kv => d_put (fst kv) (snd kv) d) l [].
End Dict.

(** *** Locality: a successful parse depends only on the bytes it consumed *)
Definition local {A} (p : parser A) : Prop := forall d a r, p d = Ok (a, r) ->
  exists c, d = c ++ r /\ forall r', p (c ++ r') = Ok (a, r').
(** It also consumes something. *)
Definition eats {A} (p : parser A) : Prop := forall d a r, p d = Ok (a, r) -> (List.length r < List.length d)%nat.

Lemma local_bytes n : local (p_bytes n).
Proof.
  intros d a r. unfold p_bytes. destruct (splitN n d) as [[x y]|] eqn:E; [|discriminate].
  intros [= <- <-]. apply splitN_Some in E. destruct E as [-> E]. exists x. split; [reflexivity|].
  intros r'. rewrite splitN_app' by exact E. reflexivity.
Qed.
Lemma local_bind {A B} (p : parser A) (q : A -> parser B) : local p -> (forall a, local (q a)) ->
  local (fun d => let* (a, r) := p d in q a r).
Proof.
  intros Hp Hq d b r H. apply bind_ok in H. destruct H as ([a r1] & H1 & H2).
  destruct (Hp _ _ _ H1) as (c1 & -> & G1). destruct (Hq _ _ _ _ H2) as (c2 & -> & G2).
  exists (c1 ++ c2). split; [apply app_assoc|]. intros r'. rewrite <- app_assoc, G1. cbn [bind]. apply G2.
Qed.
Lemma local_ret {A} (a : A) : local (fun d => Ok (a, d)).
Proof. intros d x r [= <- <-]. exists []. auto. Qed.
Lemma local_pure {A} (v : res A) : local (fun d => let* a := v in Ok (a, d)).
Proof. destruct v as [a|e]; [apply local_ret|]. intros d x r H. discriminate. Qed.
Lemma local_bindv {A B} (v : res A) (q : A -> parser B) : (forall a, v = Ok a -> local (q a)) ->
  local (fun d => let* a := v in q a d).
Proof. intros H. destruct v as [a|e]; [apply (H a eq_refl)|]. intros d x r E. discriminate. Qed.
Lemma local_err {A} e : local (fun _ => Err e : res (A * bytes)).
Proof. intros d a r H. discriminate. Qed.
Lemma local_if {A} (b : bool) (p q : parser A) : local p -> local q -> local (fun d => if b then p d else q d).
Proof. destruct b; auto. Qed.
Lemma local_ext {A} (p q : parser A) : (forall d, p d = q d) -> local p -> local q.
Proof.
  intros E H d a r Hq. rewrite <- E in Hq. destruct (H _ _ _ Hq) as (c & -> & G). exists c. split; [reflexivity|].
  intros r'. rewrite <- E. apply G.
Qed.
Lemma local_int k : local (p_int k).
Proof. apply (local_bind (p_bytes (N.of_nat k)) (fun b d => Ok (le_dec b, d))); [apply local_bytes|]. intros b. apply local_ret. Qed.
Lemma local_prefixed {A} k (sub : bytes -> res A) : local (p_prefixed k sub).
Proof.
  apply (local_bind (p_int k) (fun n d => let* (b, r') := p_bytes n d in let* a := sub b in Ok (a, r'))); [apply local_int|].
  intros n. apply (local_bind (p_bytes n) (fun b d => let* a := sub b in Ok (a, d))); [apply local_bytes|].
  intros b. apply local_pure.
Qed.
Lemma eats_bytes n : 0 < n -> eats (p_bytes n).
Proof.
  intros Hn d a r. unfold p_bytes. destruct (splitN n d) as [[x y]|] eqn:E; [|discriminate].
  intros [= <- <-]. apply splitN_Some in E. destruct E as [-> E]. rewrite app_length. unfold lenN in E. lia.
Qed.
Definition weak {A} (p : parser A) : Prop := forall d a r, p d = Ok (a, r) -> (List.length r <= List.length d)%nat.
Lemma local_weak {A} (p : parser A) : local p -> weak p.
Proof. intros H d a r E. destruct (H _ _ _ E) as (c & -> & _). rewrite app_length. lia. Qed.
Lemma eats_bind {A B} (p : parser A) (q : A -> parser B) : eats p -> (forall a, weak (q a)) ->
  eats (fun d => let* (a, r) := p d in q a r).
Proof.
  intros Hp Hq d b r H. apply bind_ok in H. destruct H as ([a r1] & H1 & H2).
  apply Hp in H1. apply Hq in H2. lia.
Qed.
Lemma eats_int k : (0 < k)%nat -> eats (p_int k).
Proof.
  intros Hk. apply (eats_bind (p_bytes (N.of_nat k)) (fun b d => Ok (le_dec b, d))); [apply eats_bytes; lia|].
  intros b. apply local_weak, local_ret.
Qed.

Section Repeat.
  Context {A : Type} (item : N -> parser A) (stop : A -> bool).
  Hypothesis Hl : forall i, local (item i).
  Hypothesis He : forall i, eats (item i).
  Lemma until_local f : forall i d l r, p_until item stop f i d = Ok (l, r) ->
    exists c, d = c ++ r /\ forall f' r', (List.length c <= f')%nat -> p_until item stop f' i (c ++ r') = Ok (l, r').
  Proof.
    induction f as [|f IH]; intros i d l r H; [discriminate|]. cbn [p_until] in H.
    apply bind_ok in H. destruct H as ([a r1] & H1 & H).
    destruct (Hl i _ _ _ H1) as (c1 & -> & G1).
    assert (Hc1 : (0 < List.length c1)%nat).
    { specialize (He i _ _ _ H1). rewrite app_length in He. lia. }
    destruct (stop a) eqn:Es.
    - injection H as <- <-. exists c1. split; [reflexivity|]. intros f' r' Hf. destruct f'; [lia|].
      cbn [p_until]. rewrite G1. cbn [bind]. rewrite Es. reflexivity.
    - apply bind_ok in H. destruct H as ([l' r2] & H2 & H). injection H as <- <-.
      destruct (IH _ _ _ _ H2) as (c2 & -> & G2). exists (c1 ++ c2). split; [apply app_assoc|].
      intros f' r' Hf. rewrite app_length in Hf. destruct f'; [lia|]. cbn [p_until]. rewrite <- app_assoc, G1. cbn [bind].
      rewrite Es, G2 by lia. reflexivity.
  Qed.
  Lemma local_repeat : local (p_repeat item stop).
  Proof.
    intros d l r H. destruct (until_local _ _ _ _ _ H) as (c & -> & G). exists c. split; [reflexivity|].
    intros r'. unfold p_repeat. apply G. rewrite app_length. lia.
  Qed.
  Lemma until_shape f : forall i d l r, p_until item stop f i d = Ok (l, r) ->
    exists l' a, l = l' ++ [a] /\ stop a = true /\ forall b, In b l' -> stop b = false.
  Proof.
    clear Hl He. induction f as [|f IH]; intros i d l r H; [discriminate|]. cbn [p_until] in H.
    apply bind_ok in H. destruct H as ([a r1] & H1 & H). destruct (stop a) eqn:Es.
    - injection H as <- <-. exists [], a. cbn. tauto.
    - apply bind_ok in H. destruct H as ([l2 r2] & H2 & H). injection H as <- <-.
      destruct (IH _ _ _ _ H2) as (l' & b & -> & Hb & Hl'). exists (a :: l'), b. split; [reflexivity|]. split; [exact Hb|].
      intros x [<-|Hx]; auto.
  Qed.
  (** Fuel is never the reason for failure. *)
  Lemma p_repeat_norec : (forall i d, item i d <> Err Ex_Recursion) -> forall d, p_repeat item stop d <> Err Ex_Recursion.
  Proof.
    clear Hl. intros Hn. assert (G : forall f i d, (List.length d < f)%nat -> p_until item stop f i d <> Err Ex_Recursion).
    { induction f as [|f IH]; intros i d Hf; [lia|]. cbn [p_until].
      destruct (item i d) as [[a r]|e] eqn:E; cbn [bind]; [|intros X; injection X as ->; apply (Hn i d E)].
      destruct (stop a); [discriminate|]. specialize (IH (i + 1) r ltac:(apply He in E; lia)).
      destruct (p_until item stop f (i + 1) r) as [[l r2]|e2] eqn:E2; cbn [bind]; [discriminate|].
      intros X. injection X as ->. apply IH. reflexivity. }
    intros d. apply G. lia.
  Qed.
  (** Items written one after the other are read back. *)
  Lemma until_build (enc : N -> A -> bytes) : forall l i r f,
    (forall j a r, In a l -> i <= j -> j < i + lenN l -> item j (enc j a ++ r) = Ok (a, r)) ->
    (exists l' z, l = l' ++ [z] /\ stop z = true /\ forall b, In b l' -> stop b = false) ->
    (List.length l <= f)%nat ->
    p_until item stop f i ((fix go (j : N) (l : list A) := match l with [] => [] | a :: l' => enc j a ++ go (j + 1) l' end) i l ++ r) = Ok (l, r).
  Proof.
    clear Hl He. induction l as [|a l IH]; intros i r f Hi (l' & z & E & Hz & Hb) Hf.
    - destruct l'; discriminate.
    - destruct f as [|f]; [cbn in Hf; lia|]. cbn [p_until]. rewrite <- app_assoc.
      rewrite Hi by (try (left; reflexivity); rewrite ?lenN_cons; lia). cbn [bind].
      destruct l' as [|b l'].
      + injection E as -> ->. rewrite Hz. reflexivity.
      + injection E as -> ->. rewrite (Hb b) by (left; reflexivity).
        rewrite IH; [reflexivity| | |cbn [List.length] in Hf; lia].
        * intros j x r0 Hx H1 H2. apply Hi; [right; exact Hx|lia|rewrite lenN_cons; lia].
        * exists l', z. split; [reflexivity|]. split; [exact Hz|]. intros x Hx. apply Hb. right. exact Hx.
  Qed.
End Repeat.
