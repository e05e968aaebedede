(** The Python [str] methods used by the code: replace, split, join, strip,
    prefix test, substring test, decimal [str(int)] / [int(str)], hexadecimal. *)
From Coq Require Import ZifyBool ZifyNat ZifyN.
From Verif Require Import Base.
Ltac Zify.zify_post_hook ::= Z.div_mod_to_equations.

(** [s.startswith(p)] *)
Fixpoint starts_with (p s : str) : bool :=
  match p, s with
  | [], _ => true
  | a :: p', b :: s' => (a =? b) && starts_with p' s'
  | _ :: _, [] => false
  end.

(** [s.replace(old, new)] for non-empty [old]: non-overlapping, left to right. *)
Fixpoint replace_go (old new : str) (skip : nat) (s : str) : str :=
  match s with
  | [] => []
  | c :: s' =>
      match skip with
      | S k => replace_go old new k s'
      | O => if starts_with old s then new ++ replace_go old new (List.length old - 1) s'
             else c :: replace_go old new 0 s'
      end
  end.
Definition py_replace (old new s : str) : str := replace_go old new 0 s.

(** [s.split(sep)] with a one-character separator: never empty. *)
Fixpoint py_split (sep : N) (s : str) : list str :=
  match s with
  | [] => [[]]
  | c :: s' =>
      if c =? sep then [] :: py_split sep s'
      else match py_split sep s' with
           | [] => [[c]]
           | h :: t => (c :: h) :: t
           end
  end.

(** [sep.join(l)] *)
Fixpoint py_join (sep : str) (l : list str) : str :=
  match l with
  | [] => []
  | [a] => a
  | a :: l' => a ++ sep ++ py_join sep l'
  end.

(** [s.strip(chars)] *)
Fixpoint lstrip (p : N -> bool) (s : str) : str :=
  match s with
  | c :: s' => if p c then lstrip p s' else s
  | [] => []
  end.
Definition py_strip (p : N -> bool) (s : str) : str := rev (lstrip p (rev (lstrip p s))).

(** [sub in s] / XPath [contains] *)
Fixpoint substr_in (p s : str) : bool :=
  starts_with p s || match s with [] => false | _ :: s' => substr_in p s' end.

(** ** Decimal *)
(** [str(n)] for a non-negative int.  Fuel: the number of bits bounds the number of digits. *)
Fixpoint dec_digits (fuel : nat) (n : N) (acc : str) : str :=
  match fuel with
  | O => acc
  | S f => if n <? 10 then (48 + n) :: acc else dec_digits f (n / 10) ((48 + n mod 10) :: acc)
  end.
Definition str_of_N (n : N) : str := dec_digits (S (N.to_nat (N.log2 n))) n [].
Definition str_of_Z (z : Z) : str :=
  match z with
  | Zneg p => 45 :: str_of_N (Npos p)
  | _ => str_of_N (Z.to_N z)
  end.

Definition is_digit (c : N) : bool := (48 <=? c) && (c <=? 57).
Fixpoint dec_val (acc : N) (s : str) : option N :=
  match s with
  | [] => Some acc
  | c :: s' => if is_digit c then dec_val (acc * 10 + (c - 48)) s' else None
  end.
(** ASCII whitespace as skipped by CPython's [int] (Py_ISSPACE). *)
Definition py_space (c : N) : bool := (c =? 32) || ((9 <=? c) && (c <=? 13)).

(** Digits separated by single underscores (PEP 515), in base 10. *)
Fixpoint dec_under (prev_us : bool) (acc : N) (s : str) : option N :=
  match s with
  | [] => if prev_us then None else Some acc
  | c :: s' =>
      if c =? 95 then if prev_us then None else dec_under true acc s'
      else if is_digit c then dec_under false (acc * 10 + (c - 48)) s' else None
  end.
(** [int(s)], CPython PyLong_FromString with base 10, ASCII input (simplification: non-ASCII
    decimal digits and spaces, which CPython also accepts, are a ValueError here). *)
Definition int_of_str (s : str) : res Z :=
  let t := py_strip py_space s in
  let '(neg, u) := match t with
                   | 45 :: u => (true, u)
                   | 43 :: u => (false, u)
                   | _ => (false, t)
                   end in
  match u with
  | [] => Err Ex_Value
  | c :: _ => match (if c =? 95 then None else dec_under false 0 u) with
              | Some n => Ok (if neg then Z.opp (Z.of_N n) else Z.of_N n)
              | None => Err Ex_Value
              end
  end.

(** ** Hexadecimal *)
Definition hex_val (c : N) : option N :=
  if (48 <=? c) && (c <=? 57) then Some (c - 48)
  else if (97 <=? c) && (c <=? 102) then Some (c - 87)
  else if (65 <=? c) && (c <=? 70) then Some (c - 55)
  else None.
Definition hex_chr_lo (v : N) : N := if v <? 10 then 48 + v else 87 + v.
Definition hex_chr_up (v : N) : N := if v <? 10 then 48 + v else 55 + v.

(** [bytes.hex()] and [.upper()] of it. *)
Fixpoint hex_lo (l : bytes) : str :=
  match l with [] => [] | b :: l' => hex_chr_lo (b / 16) :: hex_chr_lo (b mod 16) :: hex_lo l' end.
Fixpoint hex_up (l : bytes) : str :=
  match l with [] => [] | b :: l' => hex_chr_up (b / 16) :: hex_chr_up (b mod 16) :: hex_up l' end.

(** [binascii.unhexlify]: even number of hexadecimal digits and nothing else. *)
Fixpoint unhex (s : str) : res bytes :=
  match s with
  | [] => Ok []
  | [_] => Err Ex_Binascii
  | a :: b :: s' =>
      match hex_val a, hex_val b with
      | Some x, Some y => let* r := unhex s' in Ok (16 * x + y :: r)
      | _, _ => Err Ex_Binascii
      end
  end.

(** Digits separated by single underscores, base 16. *)
Fixpoint hex_under (prev_us : bool) (acc : N) (s : str) : option N :=
  match s with
  | [] => if prev_us then None else Some acc
  | c :: s' =>
      if c =? 95 then if prev_us then None else hex_under true acc s'
      else match hex_val c with
           | Some v => hex_under false (acc * 16 + v) s'
           | None => None
           end
  end.
(** [int(s, 16)], CPython PyLong_FromString with base 16: optional blanks around, sign, optional
    0x prefix (after which one underscore is allowed), single underscores between digits. *)
Definition int16_of_str (s : str) : res Z :=
  let t := py_strip py_space s in
  let '(neg, u) := match t with
                   | 45 :: u => (true, u)
                   | 43 :: u => (false, u)
                   | _ => (false, t)
                   end in
  let v := match u with
           | 48 :: 120 :: 95 :: v => v
           | 48 :: 88 :: 95 :: v => v
           | 48 :: 120 :: v => v
           | 48 :: 88 :: v => v
           | _ => u
           end in
  match v with
  | [] => Err Ex_Value
  | c :: _ => match (if c =? 95 then None else hex_under false 0 v) with
              | Some n => Ok (if neg then Z.opp (Z.of_N n) else Z.of_N n)
              | None => Err Ex_Value
              end
  end.

(** Whether text is ASCII upper-case hexadecimal etc. is decided by [hex_val]. *)
Definition is_hex_digit (c : N) : bool := match hex_val c with Some _ => true | None => false end.

(** ** Lemmas *)
Lemma starts_with_spec p s : starts_with p s = true <-> exists t, s = p ++ t.
Proof.
  revert s; induction p as [|a p IH]; intros s; cbn [starts_with].
  - split; [intros _; exists s; reflexivity|reflexivity].
  - destruct s as [|b s].
    + split; [discriminate|intros [t H]; discriminate H].
    + rewrite andb_true_iff, IH, N.eqb_eq. cbn [app]. split.
      * intros [-> [t ->]]. eauto.
      * intros [t H]. inversion H; subst. eauto.
Qed.
Lemma starts_with_app p t : starts_with p (p ++ t) = true.
Proof. apply starts_with_spec. eauto. Qed.

Lemma substr_in_spec p s : substr_in p s = true <-> exists a b, s = a ++ p ++ b.
Proof.
  induction s as [|c s IH]; cbn [substr_in]; rewrite orb_true_iff, starts_with_spec.
  - split.
    + intros [[t H]|H]; [|discriminate]. exists [], t. exact H.
    + intros (a & b & H). left. destruct a; [|discriminate]. exists b. exact H.
  - rewrite IH. split.
    + intros [[t H]|(a & b & ->)]; [exists [], t; exact H|exists (c :: a), b; reflexivity].
    + intros (a & b & H). destruct a as [|x a].
      * left. exists b. exact H.
      * right. cbn [app] in H. inversion H; subst. eauto.
Qed.

Lemma replace_go_skip old new k a s : List.length a = k -> replace_go old new k (a ++ s) = replace_go old new 0 s.
Proof.
  revert k; induction a as [|c a IH]; intros k H; cbn [List.length] in H; subst k; [reflexivity|].
  cbn [app replace_go]. apply IH. reflexivity.
Qed.
Lemma py_replace_hit old new s : old <> [] -> py_replace old new (old ++ s) = new ++ py_replace old new s.
Proof.
  intros Hne. destruct old as [|c o] eqn:Ho; [congruence|]. unfold py_replace.
  cbn [app replace_go]. change (c :: o ++ s) with ((c :: o) ++ s). rewrite starts_with_app.
  f_equal. cbn [List.length]. rewrite Nat.sub_succ, Nat.sub_0_r. apply replace_go_skip. reflexivity.
Qed.
Lemma py_replace_miss old new c s : starts_with old (c :: s) = false ->
  py_replace old new (c :: s) = c :: py_replace old new s.
Proof. intros H. unfold py_replace. cbn [replace_go]. rewrite H. reflexivity. Qed.
Lemma py_replace_absent old new s : old <> [] -> substr_in old s = false -> py_replace old new s = s.
Proof.
  intros Hne. induction s as [|c s IH]; [reflexivity|].
  cbn [substr_in]. rewrite orb_false_iff. intros [H1 H2]. rewrite py_replace_miss by exact H1. now rewrite IH.
Qed.

Lemma py_split_join sep l : l <> [] -> Forall (fun t => forallb (fun c => negb (c =? sep)) t = true) l ->
  py_split sep (py_join [sep] l) = l.
Proof.
  intros Hne H. induction H as [|t l Ht Hl IH]; [congruence|]. clear Hne.
  assert (Hsingle : forall u, forallb (fun c => negb (c =? sep)) u = true -> py_split sep u = [u]).
  { intros u. induction u as [|c u IHu]; [reflexivity|]. cbn [forallb py_split].
    rewrite andb_true_iff, negb_true_iff. intros [-> Hu]. now rewrite (IHu Hu). }
  destruct l as [|t2 l].
  - cbn [py_join]. apply Hsingle, Ht.
  - change (py_join [sep] (t :: t2 :: l)) with (t ++ [sep] ++ py_join [sep] (t2 :: l)).
    assert (Happ : forall u r, forallb (fun c => negb (c =? sep)) u = true ->
              py_split sep (u ++ sep :: r) = u :: py_split sep r).
    { intros u r. induction u as [|c u IHu]; cbn [app py_split forallb].
      - rewrite N.eqb_refl. reflexivity.
      - rewrite andb_true_iff, negb_true_iff. intros [-> Hu]. now rewrite (IHu Hu). }
    cbn [app]. rewrite Happ by exact Ht. f_equal. apply IH. congruence.
Qed.

(** Decimal round trip. *)
Lemma dec_digits_val fuel : forall n acc z, n < 10 ^ N.of_nat fuel ->
  dec_val z (dec_digits fuel n acc) = dec_val (z * 10 ^ lenN (dec_digits fuel n []) + n) acc.
Proof.
  assert (Hacc : forall fuel n acc, dec_digits fuel n acc = dec_digits fuel n [] ++ acc).
  { clear. induction fuel as [|f IH]; intros n acc; cbn [dec_digits]; [reflexivity|].
    destruct (n <? 10); [reflexivity|]. rewrite (IH (n/10) (_ :: acc)), (IH (n/10) [_]). now rewrite <- app_assoc. }
  induction fuel as [|f IH]; intros n acc z H; cbn [dec_digits].
  - cbn in H. rewrite lenN_nil. change (10 ^ 0) with 1. f_equal. lia.
  - destruct (N.ltb_spec n 10) as [Hn|Hn].
    + cbn [dec_val]. unfold is_digit. replace ((48 <=? 48 + n) && (48 + n <=? 57)) with true by lia.
      f_equal. change (lenN [48 + n]) with 1. change (10 ^ 1) with 10. lia.
    + rewrite Nnat.Nat2N.inj_succ, N.pow_succ_r' in H.
      rewrite IH by (apply N.div_lt_upper_bound; lia).
      cbn [dec_val]. unfold is_digit.
      replace ((48 <=? 48 + n mod 10) && (48 + n mod 10 <=? 57)) with true by lia.
      f_equal. rewrite (Hacc f (n/10) [_]). rewrite lenN_app. change (lenN [48 + n mod 10]) with 1.
      rewrite N.add_1_r, N.pow_succ_r'. set (p := 10 ^ lenN _). clearbody p. nia.
Qed.
Lemma log2_pow10 n : n < 10 ^ N.of_nat (S (N.to_nat (N.log2 n))).
Proof.
  rewrite Nnat.Nat2N.inj_succ, Nnat.N2Nat.id.
  destruct (N.eq_dec n 0) as [->|Hn]; [cbn; lia|].
  destruct (N.log2_spec n) as [_ H]; [lia|].
  eapply N.lt_le_trans; [exact H|]. apply N.pow_le_mono_l. lia.
Qed.
Lemma str_of_N_val n : dec_val 0 (str_of_N n) = Some n.
Proof.
  unfold str_of_N. rewrite dec_digits_val by apply log2_pow10. cbn [dec_val]. f_equal.
Qed.
Lemma str_of_N_inj a b : str_of_N a = str_of_N b -> a = b.
Proof. intros H. pose proof (str_of_N_val a) as A. rewrite H, str_of_N_val in A. congruence. Qed.
Lemma dec_digits_digits fuel : forall n acc, n < 10 ^ N.of_nat fuel -> forallb is_digit acc = true ->
  forallb is_digit (dec_digits fuel n acc) = true.
Proof.
  induction fuel as [|f IH]; intros n acc Hn Ha; cbn [dec_digits]; [exact Ha|].
  destruct (N.ltb_spec n 10).
  - cbn [forallb]. rewrite Ha. unfold is_digit. lia.
  - rewrite Nnat.Nat2N.inj_succ, N.pow_succ_r' in Hn. apply IH; [apply N.div_lt_upper_bound; lia|].
    cbn [forallb]. rewrite Ha. unfold is_digit. lia.
Qed.
Lemma str_of_N_digits n : forallb is_digit (str_of_N n) = true.
Proof. apply dec_digits_digits; [apply log2_pow10|reflexivity]. Qed.
Lemma dec_digits_nonempty f n acc : (f <> 0)%nat -> dec_digits f n acc <> [].
Proof.
  assert (G : forall f n acc, acc <> [] -> dec_digits f n acc <> []).
  { clear. induction f as [|f IH]; intros; cbn [dec_digits]; [assumption|]. destruct (n <? 10); [discriminate|].
    apply IH. discriminate. }
  destruct f; [congruence|]. intros _. cbn [dec_digits]. destruct (n <? 10); [discriminate|]. apply G. discriminate.
Qed.
Lemma str_of_N_nonempty n : str_of_N n <> [].
Proof. apply dec_digits_nonempty. lia. Qed.

Lemma lstrip_id p s : forallb (fun c => negb (p c)) s = true -> lstrip p s = s.
Proof. destruct s as [|c s]; [reflexivity|]. cbn [forallb lstrip]. rewrite andb_true_iff, negb_true_iff. intros [-> _]. reflexivity. Qed.
Lemma forallb_rev {A} (p : A -> bool) l : forallb p (rev l) = forallb p l.
Proof.
  induction l as [|a l IH]; [reflexivity|]. cbn [rev forallb]. rewrite forallb_app. cbn [forallb]. rewrite IH.
  destruct (p a), (forallb p l); reflexivity.
Qed.
Lemma py_strip_id p s : forallb (fun c => negb (p c)) s = true -> py_strip p s = s.
Proof.
  intros H. unfold py_strip. rewrite (lstrip_id p s H). rewrite lstrip_id; [apply rev_involutive|].
  rewrite forallb_rev. exact H.
Qed.
Lemma forallb_impl {A} (p q : A -> bool) l : (forall a, p a = true -> q a = true) -> forallb p l = true -> forallb q l = true.
Proof. intros H. rewrite !forallb_forall. auto. Qed.

Lemma dec_under_digits s : forall acc, forallb is_digit s = true -> dec_under false acc s = dec_val acc s.
Proof.
  induction s as [|c s IH]; intros acc; cbn [dec_under dec_val forallb]; [reflexivity|].
  rewrite andb_true_iff. intros [Hc Hs]. rewrite Hc.
  replace (c =? 95) with false by (unfold is_digit in Hc; lia). apply IH, Hs.
Qed.
Lemma head_match_digits {T} (s : str) (a b : str -> T) (d : T) : forallb is_digit s = true ->
  match s with 45 :: u => a u | 43 :: u => b u | _ => d end = d.
Proof.
  destruct s as [|c s]; [reflexivity|]. cbn [forallb]. rewrite andb_true_iff. intros [Hc _].
  unfold is_digit in Hc.
  destruct c as [|p]; [reflexivity|].
  do 7 (try destruct p as [p|p|]; try reflexivity); cbn in Hc; discriminate.
Qed.
Lemma int_of_str_N n : int_of_str (str_of_N n) = Ok (Z.of_N n).
Proof.
  unfold int_of_str. pose proof (str_of_N_digits n) as Hd.
  rewrite py_strip_id by (eapply forallb_impl; [|exact Hd]; intros a; unfold is_digit, py_space; lia).
  cbv zeta. rewrite head_match_digits by exact Hd.
  pose proof (str_of_N_nonempty n) as Hn. destruct (str_of_N n) as [|c s] eqn:E; [congruence|].
  pose proof Hd as Hd'. cbn [forallb] in Hd'. apply andb_true_iff in Hd'. destruct Hd' as [Hc _].
  replace (c =? 95) with false by (unfold is_digit in Hc; lia).
  rewrite dec_under_digits by exact Hd. rewrite <- E, str_of_N_val. reflexivity.
Qed.
Lemma int_of_str_Z z : int_of_str (str_of_Z z) = Ok z.
Proof.
  destruct z as [|p|p].
  - exact (int_of_str_N 0).
  - unfold str_of_Z. rewrite int_of_str_N. f_equal.
  - unfold str_of_Z. set (n := N.pos p). unfold int_of_str.
    pose proof (str_of_N_digits n) as Hd.
    rewrite py_strip_id.
    2:{ cbn [forallb]. rewrite andb_true_iff. split; [reflexivity|].
        eapply forallb_impl; [|exact Hd]; intros a; unfold is_digit, py_space; lia. }
    cbv zeta beta iota.
    pose proof (str_of_N_nonempty n) as Hn. destruct (str_of_N n) as [|c s] eqn:E; [congruence|].
    pose proof Hd as Hd'. cbn [forallb] in Hd'. apply andb_true_iff in Hd'. destruct Hd' as [Hc _].
    replace (c =? 95) with false by (unfold is_digit in Hc; lia).
    rewrite dec_under_digits by exact Hd. rewrite <- E, str_of_N_val. reflexivity.
Qed.
Lemma str_of_Z_inj a b : str_of_Z a = str_of_Z b -> a = b.
Proof. intros H. pose proof (int_of_str_Z a) as A. rewrite H, int_of_str_Z in A. congruence. Qed.

(** Hexadecimal round trip. *)
Lemma hex_val_chr_lo v : v < 16 -> hex_val (hex_chr_lo v) = Some v.
Proof.
  intros H. unfold hex_chr_lo, hex_val. destruct (N.ltb_spec v 10).
  - replace ((48 <=? 48 + v) && (48 + v <=? 57)) with true by lia. f_equal. lia.
  - replace ((48 <=? 87 + v) && (87 + v <=? 57)) with false by lia.
    replace ((97 <=? 87 + v) && (87 + v <=? 102)) with true by lia. f_equal. lia.
Qed.
Lemma hex_val_chr_up v : v < 16 -> hex_val (hex_chr_up v) = Some v.
Proof.
  intros H. unfold hex_chr_up, hex_val. destruct (N.ltb_spec v 10).
  - replace ((48 <=? 48 + v) && (48 + v <=? 57)) with true by lia. f_equal. lia.
  - replace ((48 <=? 55 + v) && (55 + v <=? 57)) with false by lia.
    replace ((97 <=? 55 + v) && (55 + v <=? 102)) with false by lia.
    replace ((65 <=? 55 + v) && (55 + v <=? 70)) with true by lia. f_equal. lia.
Qed.
Lemma hex_val_bound c v : hex_val c = Some v -> v < 16.
Proof.
  unfold hex_val. destruct ((48 <=? c) && (c <=? 57)) eqn:E; [intros [= <-]; lia|].
  destruct ((97 <=? c) && (c <=? 102)) eqn:E2; [intros [= <-]; lia|].
  destruct ((65 <=? c) && (c <=? 70)) eqn:E3; [intros [= <-]; lia|discriminate].
Qed.
Lemma unhex_lo l : bytes_ok l -> unhex (hex_lo l) = Ok l.
Proof.
  induction 1 as [|b l Hb Hl IH]; [reflexivity|]. cbn [hex_lo unhex]. unfold is_byte in Hb.
  rewrite !hex_val_chr_lo by lia. rewrite IH. cbn [bind]. do 2 f_equal. lia.
Qed.
Lemma unhex_up l : bytes_ok l -> unhex (hex_up l) = Ok l.
Proof.
  induction 1 as [|b l Hb Hl IH]; [reflexivity|]. cbn [hex_up unhex]. unfold is_byte in Hb.
  rewrite !hex_val_chr_up by lia. rewrite IH. cbn [bind]. do 2 f_equal. lia.
Qed.
Lemma hex_up_inj a b : bytes_ok a -> bytes_ok b -> hex_up a = hex_up b -> a = b.
Proof. intros Ha Hb H. pose proof (unhex_up a Ha) as A. rewrite H, unhex_up in A by assumption. congruence. Qed.
Lemma hex_up_length l : List.length (hex_up l) = (2 * List.length l)%nat.
Proof. induction l as [|b l IH]; [reflexivity|]. cbn [hex_up List.length]. rewrite IH. lia. Qed.
Lemma hex_up_digits l : bytes_ok l -> forallb is_hex_digit (hex_up l) = true.
Proof.
  induction 1 as [|b l Hb Hl IH]; [reflexivity|]. cbn [hex_up forallb]. unfold is_byte in Hb.
  unfold is_hex_digit at 1 2. rewrite !hex_val_chr_up by lia. exact IH.
Qed.
Lemma unhex_bytes_ok : forall n s r, (List.length s <= n)%nat -> unhex s = Ok r -> bytes_ok r.
Proof.
  induction n as [|n IH]; intros s r Hn; (destruct s as [|a [|b s]]; [intros [= <-]; constructor|discriminate|]);
    cbn [List.length] in Hn; [lia|].
  cbn [unhex]. destruct (hex_val a) eqn:Ea; [|discriminate]. destruct (hex_val b) eqn:Eb; [|discriminate].
  intros E. apply bind_ok in E. destruct E as (t & E & [= <-]). constructor; [|apply (IH s t); [lia|exact E]].
  apply hex_val_bound in Ea, Eb. unfold is_byte. lia.
Qed.
Lemma unhex_length : forall n s r, (List.length s <= n)%nat -> unhex s = Ok r -> List.length s = (2 * List.length r)%nat.
Proof.
  induction n as [|n IH]; intros s r Hn; (destruct s as [|a [|b s]]; [intros [= <-]; reflexivity|discriminate|]);
    cbn [List.length] in Hn; [lia|].
  cbn [unhex]. destruct (hex_val a) eqn:Ea; [|discriminate]. destruct (hex_val b) eqn:Eb; [|discriminate].
  intros E. apply bind_ok in E. destruct E as (t & E & [= <-]). cbn [List.length]. rewrite (IH s t) by (lia || exact E). lia.
Qed.
