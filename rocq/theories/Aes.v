(** AES (FIPS 197) for keys of 16, 24 and 32 bytes: the block cipher behind Crypto.Cipher.AES in kdbx_parsing/common.py.  Decryption
    undoes encryption.  Used by Real.v; models no code of /repo. *)
From Coq Require Import ZifyBool ZifyNat ZifyN.
From Verif Require Import Base Lib.

(** *** The field GF(2^8) *)
Definition xtime (a : N) : N := let b := N.double a in if b <? 256 then b else N.lxor b 0x11b.
Fixpoint gmul_f (n : nat) (a b : N) : N :=
  match n with
  | O => 0
  | S n => N.lxor (if N.odd b then a else 0) (gmul_f n (xtime a) (N.div2 b))
  end.
Definition gmul (a b : N) : N := gmul_f 8 a b.
Definition all_b : list N := map N.of_nat (seq 0 256).
(** The inverse (0 of 0) by search, the affine map. *)
Definition ginv (a : N) : N := match List.find (fun b => gmul a b =? 1) all_b with Some b => b | None => 0 end.
Definition rotl8 (a n : N) : N := N.land (N.lor (N.shiftl a n) (N.shiftr a (8 - n))) 255.
Definition affine (a : N) : N := N.lxor a (N.lxor (rotl8 a 1) (N.lxor (rotl8 a 2) (N.lxor (rotl8 a 3) (N.lxor (rotl8 a 4) 0x63)))).
Definition sbox : list N := Eval vm_compute in map (fun a => affine (ginv a)) all_b.
Definition inv_sbox : list N := Eval vm_compute in
  map (fun a => match List.find (fun b => nth (N.to_nat b) sbox 0 =? a) all_b with Some b => b | None => 0 end) all_b.
(** Multiplication by the constants of MixColumns, as tables. *)
Definition table (c : N) : list N := map (gmul c) all_b.
Definition t2 : list N := Eval vm_compute in table 2.
Definition t3 : list N := Eval vm_compute in table 3.
Definition t9 : list N := Eval vm_compute in table 9.
Definition t11 : list N := Eval vm_compute in table 11.
Definition t13 : list N := Eval vm_compute in table 13.
Definition t14 : list N := Eval vm_compute in table 14.
Definition lk8 (t : list N) (x : N) : N := nth (N.to_nat x) t 0.

(** *** The cipher; the state is the list of its 16 bytes, column by column *)
Definition sub_bytes (s : bytes) : bytes := map (lk8 sbox) s.
Definition inv_sub_bytes (s : bytes) : bytes := map (lk8 inv_sbox) s.
Definition pick (s : bytes) (l : list nat) : bytes := map (fun i => nth i s 0) l.
Definition shift_rows (s : bytes) : bytes := pick s [0; 5; 10; 15; 4; 9; 14; 3; 8; 13; 2; 7; 12; 1; 6; 11]%nat.
Definition inv_shift_rows (s : bytes) : bytes := pick s [0; 13; 10; 7; 4; 1; 14; 11; 8; 5; 2; 15; 12; 9; 6; 3]%nat.
Definition x4 (a b c d : N) : N := N.lxor (N.lxor a b) (N.lxor c d).
Definition mix_col (a b c d : N) : bytes :=
  [x4 (lk8 t2 a) (lk8 t3 b) c d; x4 a (lk8 t2 b) (lk8 t3 c) d; x4 a b (lk8 t2 c) (lk8 t3 d); x4 (lk8 t3 a) b c (lk8 t2 d)].
Definition inv_mix_col (a b c d : N) : bytes :=
  [x4 (lk8 t14 a) (lk8 t11 b) (lk8 t13 c) (lk8 t9 d); x4 (lk8 t9 a) (lk8 t14 b) (lk8 t11 c) (lk8 t13 d);
   x4 (lk8 t13 a) (lk8 t9 b) (lk8 t14 c) (lk8 t11 d); x4 (lk8 t11 a) (lk8 t13 b) (lk8 t9 c) (lk8 t14 d)].
Fixpoint by_cols (f : N -> N -> N -> N -> bytes) (s : bytes) : bytes :=
  match s with a :: b :: c :: d :: r => f a b c d ++ by_cols f r | _ => [] end.
Definition mix_columns : bytes -> bytes := by_cols mix_col.
Definition inv_mix_columns : bytes -> bytes := by_cols inv_mix_col.
Fixpoint xors (a b : bytes) : bytes := match a, b with x :: a, y :: b => N.lxor x y :: xors a b | _, _ => [] end.

(** Key expansion: words (4 bytes), latest first; [nk] words of key. *)
Definition rot_word (w : bytes) : bytes := match w with a :: r => r ++ [a] | [] => [] end.
Fixpoint expand (n i nk : nat) (rcon : N) (ws : list bytes) : list bytes :=
  match n with
  | O => ws
  | S n =>
      let t := hd [] ws in
      let first := (i mod nk =? 0)%nat in
      let t := if first then xors (sub_bytes (rot_word t)) [rcon; 0; 0; 0] else if ((6 <? nk) && (i mod nk =? 4))%nat then sub_bytes t else t in
      expand n (S i) nk (if first then xtime rcon else rcon) (xors (nth (nk - 1) ws []) t :: ws)
  end.
Fixpoint words (n : nat) (k : bytes) : list bytes := match n with O => [] | S n => firstn 4 k :: words n (skipn 4 k) end.
(** Other sizes are no AES keys; cut or filled up to 32 bytes here (Lib.v raises for them). *)
Definition key_bytes (k : bytes) : bytes :=
  let n := List.length k in let k := map (fun b => N.land b 255) k in
  if ((n =? 16) || (n =? 24) || (n =? 32))%nat then k else firstn 32 (k ++ repeat 0 32).
Fixpoint groups4 (n : nat) (ws : list bytes) : list bytes := match n with O => [] | S n => List.concat (firstn 4 ws) :: groups4 n (skipn 4 ws) end.
(** The round keys, 16 bytes each. *)
Definition round_keys (k : bytes) : list bytes :=
  let k := key_bytes k in let nk := (List.length k / 4)%nat in
  groups4 (nk + 7) (rev (expand (4 * (nk + 7) - nk) nk nk 1 (rev (words nk k)))).

Definition enc_round (s rk : bytes) : bytes := xors (mix_columns (shift_rows (sub_bytes s))) rk.
Definition enc_last (s rk : bytes) : bytes := xors (shift_rows (sub_bytes s)) rk.
Definition dec_round (s rk : bytes) : bytes := inv_sub_bytes (inv_shift_rows (inv_mix_columns (xors s rk))).
Definition dec_last (s rk : bytes) : bytes := inv_sub_bytes (inv_shift_rows (xors s rk)).
Definition fit (rk : bytes) : bytes := firstn 16 (map (fun b => N.land b 255) rk ++ repeat 0 16).
Definition enc_with (rks : list bytes) (b : bytes) : bytes :=
  match rks with
  | k0 :: rks => let s := fold_left enc_round (removelast rks) (xors b k0) in enc_last s (last rks (repeat 0 16))
  | [] => b
  end.
Definition dec_with (rks : list bytes) (b : bytes) : bytes :=
  match rks with
  | k0 :: rks => xors (fold_left dec_round (rev (removelast rks)) (dec_last b (last rks (repeat 0 16)))) k0
  | [] => b
  end.
Definition aes_encrypt (k b : bytes) : bytes := enc_with (map fit (round_keys k)) b.
Definition aes_decrypt (k b : bytes) : bytes := dec_with (map fit (round_keys k)) b.

(** FIPS 197, C.1 and C.3 *)
Definition fips_block : bytes := map (fun i => 17 * i) (map N.of_nat (seq 0 16)).
Example aes128_fips : aes_encrypt (map N.of_nat (seq 0 16)) fips_block = [0x69; 0xc4; 0xe0; 0xd8; 0x6a; 0x7b; 0x04; 0x30; 0xd8; 0xcd; 0xb7; 0x80; 0x70; 0xb4; 0xc5; 0x5a].
Proof. vm_compute. reflexivity. Qed.
Example aes192_fips : aes_encrypt (map N.of_nat (seq 0 24)) fips_block = [0xdd; 0xa9; 0x7c; 0xa4; 0x86; 0x4c; 0xdf; 0xe0; 0x6e; 0xaf; 0x70; 0xa0; 0xec; 0x0d; 0x71; 0x91].
Proof. vm_compute. reflexivity. Qed.
Example aes256_fips : aes_encrypt (map N.of_nat (seq 0 32)) fips_block = [0x8e; 0xa2; 0xb7; 0xca; 0x51; 0x67; 0x45; 0xbf; 0xea; 0xfc; 0x49; 0x90; 0x4b; 0x49; 0x60; 0x89].
Proof. vm_compute. reflexivity. Qed.

(** *** Decryption undoes encryption *)
Lemma all_b_in x : is_byte x -> In x all_b.
Proof. intros H. unfold all_b. rewrite <- (N2Nat.id x). apply in_map, in_seq. unfold is_byte in H. lia. Qed.
Lemma byte_check (p : N -> bool) : forallb p all_b = true -> forall x, is_byte x -> p x = true.
Proof. intros H x Hx. rewrite forallb_forall in H. apply H, all_b_in, Hx. Qed.
Lemma byte_check2 (p : N -> N -> bool) : forallb (fun x => forallb (p x) all_b) all_b = true -> forall x y, is_byte x -> is_byte y -> p x y = true.
Proof. intros H x y Hx Hy. apply (byte_check (p x)); [|exact Hy]. exact (byte_check (fun x => forallb (p x) all_b) H x Hx). Qed.
Lemma xor_byte x y : is_byte x -> is_byte y -> is_byte (N.lxor x y).
Proof.
  intros Hx Hy. unfold is_byte in *. destruct (N.eq_dec (N.lxor x y) 0) as [->|Hn]; [lia|]. apply N.log2_lt_pow2 with (b := 8); [lia|].
  assert (A : forall z, z < 256 -> N.log2 z < 8) by (intros z Hz; destruct (N.eq_dec z 0) as [->|]; [reflexivity|apply N.log2_lt_pow2; lia]).
  pose proof (N.log2_lxor x y). pose proof (A x Hx). pose proof (A y Hy). lia.
Qed.
Lemma x4_byte a b c d : is_byte a -> is_byte b -> is_byte c -> is_byte d -> is_byte (x4 a b c d).
Proof. intros. unfold x4. auto using xor_byte. Qed.
Definition goodt (t : list N) : bool := forallb (fun x => lk8 t x <? 256) all_b.
Lemma lk8_byte t x : goodt t = true -> is_byte x -> is_byte (lk8 t x).
Proof. intros H Hx. apply N.ltb_lt. exact (byte_check (fun x => lk8 t x <? 256) H x Hx). Qed.
Lemma sbox_inv x : is_byte x -> lk8 inv_sbox (lk8 sbox x) = x.
Proof. intros H. apply N.eqb_eq. apply (byte_check (fun x => lk8 inv_sbox (lk8 sbox x) =? x)); [vm_compute; reflexivity|exact H]. Qed.
Definition linear (t : list N) : bool := forallb (fun x => forallb (fun y => lk8 t (N.lxor x y) =? N.lxor (lk8 t x) (lk8 t y)) all_b) all_b.
Lemma lin t x y : linear t = true -> is_byte x -> is_byte y -> lk8 t (N.lxor x y) = N.lxor (lk8 t x) (lk8 t y).
Proof. intros H Hx Hy. apply N.eqb_eq. exact (byte_check2 (fun x y => lk8 t (N.lxor x y) =? N.lxor (lk8 t x) (lk8 t y)) H x y Hx Hy). Qed.
Lemma lin9 : linear t9 = true. Proof. vm_compute. reflexivity. Qed.
Lemma lin11 : linear t11 = true. Proof. vm_compute. reflexivity. Qed.
Lemma lin13 : linear t13 = true. Proof. vm_compute. reflexivity. Qed.
Lemma lin14 : linear t14 = true. Proof. vm_compute. reflexivity. Qed.
Lemma good2 : goodt t2 = true. Proof. vm_compute. reflexivity. Qed.
Lemma good3 : goodt t3 = true. Proof. vm_compute. reflexivity. Qed.
Lemma good9 : goodt t9 = true. Proof. vm_compute. reflexivity. Qed.
Lemma good11 : goodt t11 = true. Proof. vm_compute. reflexivity. Qed.
Lemma good13 : goodt t13 = true. Proof. vm_compute. reflexivity. Qed.
Lemma good14 : goodt t14 = true. Proof. vm_compute. reflexivity. Qed.
Lemma good_s : goodt sbox = true. Proof. vm_compute. reflexivity. Qed.
Lemma good_i : goodt inv_sbox = true. Proof. vm_compute. reflexivity. Qed.
Lemma ix a b c d : N.lxor (N.lxor a b) (N.lxor c d) = N.lxor (N.lxor a c) (N.lxor b d).
Proof. rewrite !N.lxor_assoc. f_equal. rewrite <- !N.lxor_assoc. f_equal. apply N.lxor_comm. Qed.
(** Sums of the four products of one variable. *)
Definition prod4 (p q r s : N -> N) (x : N) : N := x4 (p x) (q x) (r x) (s x).
Lemma regroup f g h k a b c d (p1 q1 r1 s1 p2 q2 r2 s2 p3 q3 r3 s3 p4 q4 r4 s4 : N -> N) :
  (forall x y, is_byte x -> is_byte y -> f (N.lxor x y) = N.lxor (f x) (f y)) -> (forall x y, is_byte x -> is_byte y -> g (N.lxor x y) = N.lxor (g x) (g y)) ->
  (forall x y, is_byte x -> is_byte y -> h (N.lxor x y) = N.lxor (h x) (h y)) -> (forall x y, is_byte x -> is_byte y -> k (N.lxor x y) = N.lxor (k x) (k y)) ->
  Forall is_byte [p1 a; q1 b; r1 c; s1 d; p2 a; q2 b; r2 c; s2 d; p3 a; q3 b; r3 c; s3 d; p4 a; q4 b; r4 c; s4 d] ->
  x4 (f (x4 (p1 a) (q1 b) (r1 c) (s1 d))) (g (x4 (p2 a) (q2 b) (r2 c) (s2 d))) (h (x4 (p3 a) (q3 b) (r3 c) (s3 d))) (k (x4 (p4 a) (q4 b) (r4 c) (s4 d))) =
  x4 (prod4 (fun x => f (p1 x)) (fun x => g (p2 x)) (fun x => h (p3 x)) (fun x => k (p4 x)) a) (prod4 (fun x => f (q1 x)) (fun x => g (q2 x)) (fun x => h (q3 x)) (fun x => k (q4 x)) b)
     (prod4 (fun x => f (r1 x)) (fun x => g (r2 x)) (fun x => h (r3 x)) (fun x => k (r4 x)) c) (prod4 (fun x => f (s1 x)) (fun x => g (s2 x)) (fun x => h (s3 x)) (fun x => k (s4 x)) d).
Proof.
  intros Lf Lg Lh Lk B. repeat match goal with H : Forall _ (_ :: _) |- _ => let A := fresh "A" in pose proof (Forall_inv H) as A; apply Forall_inv_tail in H end.
  unfold x4 at 2 3 4 5. rewrite !Lf, !Lg, !Lh, !Lk by (repeat apply xor_byte; assumption). unfold prod4, x4.
  rewrite !(ix (N.lxor (f _) (f _)) (N.lxor (f _) (f _)) (N.lxor (g _) (g _)) (N.lxor (g _) (g _))), !(ix (f _) (f _) (g _) (g _)), !(ix (N.lxor (h _) (h _)) (N.lxor (h _) (h _)) (N.lxor (k _) (k _)) (N.lxor (k _) (k _))), !(ix (h _) (h _) (k _) (k _)).
  rewrite (ix (N.lxor (N.lxor (f _) (g _)) (N.lxor (f _) (g _)))). f_equal; apply ix.
Qed.

Ltac lkb := match goal with
  | |- is_byte (lk8 t2 _) => apply (lk8_byte t2 _ good2); assumption | |- is_byte (lk8 t3 _) => apply (lk8_byte t3 _ good3); assumption
  | |- is_byte (lk8 t9 _) => apply (lk8_byte t9 _ good9); assumption | |- is_byte (lk8 t11 _) => apply (lk8_byte t11 _ good11); assumption
  | |- is_byte (lk8 t13 _) => apply (lk8_byte t13 _ good13); assumption | |- is_byte (lk8 t14 _) => apply (lk8_byte t14 _ good14); assumption
  | |- _ => assumption end.
Ltac bytes8 := repeat apply Forall_cons; try apply Forall_nil; lkb.
Definition zerof (f : N -> N) : bool := forallb (fun x => f x =? 0) all_b.
Definition samef (f : N -> N) : bool := forallb (fun x => f x =? x) all_b.
Lemma zero_at f x : zerof f = true -> is_byte x -> f x = 0.
Proof. intros H Hx. apply N.eqb_eq. exact (byte_check (fun x => f x =? 0) H x Hx). Qed.
Lemma same_at f x : samef f = true -> is_byte x -> f x = x.
Proof. intros H Hx. apply N.eqb_eq. exact (byte_check (fun x => f x =? x) H x Hx). Qed.
Lemma only1 p1 q1 r1 s1 p2 q2 r2 s2 p3 q3 r3 s3 p4 q4 r4 s4 a b c d : samef (prod4 p1 q1 r1 s1) = true -> zerof (prod4 p2 q2 r2 s2) = true -> zerof (prod4 p3 q3 r3 s3) = true -> zerof (prod4 p4 q4 r4 s4) = true -> is_byte a -> is_byte b -> is_byte c -> is_byte d ->
  x4 (prod4 p1 q1 r1 s1 a) (prod4 p2 q2 r2 s2 b) (prod4 p3 q3 r3 s3 c) (prod4 p4 q4 r4 s4 d) = a.
Proof. intros H1 H2 H3 H4 ? ? ? ?. rewrite (same_at _ _ H1), (zero_at _ _ H2), (zero_at _ _ H3), (zero_at _ _ H4) by assumption. unfold x4. now rewrite ?N.lxor_0_r, ?N.lxor_0_l. Qed.
Lemma only2 p1 q1 r1 s1 p2 q2 r2 s2 p3 q3 r3 s3 p4 q4 r4 s4 a b c d : zerof (prod4 p1 q1 r1 s1) = true -> samef (prod4 p2 q2 r2 s2) = true -> zerof (prod4 p3 q3 r3 s3) = true -> zerof (prod4 p4 q4 r4 s4) = true -> is_byte a -> is_byte b -> is_byte c -> is_byte d ->
  x4 (prod4 p1 q1 r1 s1 a) (prod4 p2 q2 r2 s2 b) (prod4 p3 q3 r3 s3 c) (prod4 p4 q4 r4 s4 d) = b.
Proof. intros H1 H2 H3 H4 ? ? ? ?. rewrite (zero_at _ _ H1), (same_at _ _ H2), (zero_at _ _ H3), (zero_at _ _ H4) by assumption. unfold x4. now rewrite ?N.lxor_0_r, ?N.lxor_0_l. Qed.
Lemma only3 p1 q1 r1 s1 p2 q2 r2 s2 p3 q3 r3 s3 p4 q4 r4 s4 a b c d : zerof (prod4 p1 q1 r1 s1) = true -> zerof (prod4 p2 q2 r2 s2) = true -> samef (prod4 p3 q3 r3 s3) = true -> zerof (prod4 p4 q4 r4 s4) = true -> is_byte a -> is_byte b -> is_byte c -> is_byte d ->
  x4 (prod4 p1 q1 r1 s1 a) (prod4 p2 q2 r2 s2 b) (prod4 p3 q3 r3 s3 c) (prod4 p4 q4 r4 s4 d) = c.
Proof. intros H1 H2 H3 H4 ? ? ? ?. rewrite (zero_at _ _ H1), (zero_at _ _ H2), (same_at _ _ H3), (zero_at _ _ H4) by assumption. unfold x4. now rewrite ?N.lxor_0_r, ?N.lxor_0_l. Qed.
Lemma only4 p1 q1 r1 s1 p2 q2 r2 s2 p3 q3 r3 s3 p4 q4 r4 s4 a b c d : zerof (prod4 p1 q1 r1 s1) = true -> zerof (prod4 p2 q2 r2 s2) = true -> zerof (prod4 p3 q3 r3 s3) = true -> samef (prod4 p4 q4 r4 s4) = true -> is_byte a -> is_byte b -> is_byte c -> is_byte d ->
  x4 (prod4 p1 q1 r1 s1 a) (prod4 p2 q2 r2 s2 b) (prod4 p3 q3 r3 s3 c) (prod4 p4 q4 r4 s4 d) = d.
Proof. intros H1 H2 H3 H4 ? ? ? ?. rewrite (zero_at _ _ H1), (zero_at _ _ H2), (zero_at _ _ H3), (same_at _ _ H4) by assumption. unfold x4. now rewrite ?N.lxor_0_r, ?N.lxor_0_l. Qed.
Definition I0 (x : N) : N := x.
Lemma mix_inv a b c d : is_byte a -> is_byte b -> is_byte c -> is_byte d ->
  match mix_col a b c d with [a'; b'; c'; d'] => inv_mix_col a' b' c' d' | _ => [] end = [a; b; c; d].
Proof.
  intros Ha Hb Hc Hd. unfold mix_col, inv_mix_col.
  assert (L9 : forall x y, is_byte x -> is_byte y -> lk8 t9 (N.lxor x y) = N.lxor (lk8 t9 x) (lk8 t9 y)) by (intros; apply lin; [exact lin9|assumption|assumption]).
  assert (L11 : forall x y, is_byte x -> is_byte y -> lk8 t11 (N.lxor x y) = N.lxor (lk8 t11 x) (lk8 t11 y)) by (intros; apply lin; [exact lin11|assumption|assumption]).
  assert (L13 : forall x y, is_byte x -> is_byte y -> lk8 t13 (N.lxor x y) = N.lxor (lk8 t13 x) (lk8 t13 y)) by (intros; apply lin; [exact lin13|assumption|assumption]).
  assert (L14 : forall x y, is_byte x -> is_byte y -> lk8 t14 (N.lxor x y) = N.lxor (lk8 t14 x) (lk8 t14 y)) by (intros; apply lin; [exact lin14|assumption|assumption]).
  assert (R : forall t u v w, (forall x y, is_byte x -> is_byte y -> lk8 t (N.lxor x y) = N.lxor (lk8 t x) (lk8 t y)) -> (forall x y, is_byte x -> is_byte y -> lk8 u (N.lxor x y) = N.lxor (lk8 u x) (lk8 u y)) ->
    (forall x y, is_byte x -> is_byte y -> lk8 v (N.lxor x y) = N.lxor (lk8 v x) (lk8 v y)) -> (forall x y, is_byte x -> is_byte y -> lk8 w (N.lxor x y) = N.lxor (lk8 w x) (lk8 w y)) -> _)
    by (intros t u v w A B C D; exact (regroup (lk8 t) (lk8 u) (lk8 v) (lk8 w) a b c d (lk8 t2) (lk8 t3) I0 I0 I0 (lk8 t2) (lk8 t3) I0 I0 I0 (lk8 t2) (lk8 t3) (lk8 t3) I0 I0 (lk8 t2) A B C D ltac:(unfold I0; bytes8))).
  cbv beta iota in R. f_equal; [|f_equal; [|f_equal; [|f_equal]]].
  - etransitivity; [exact (R t14 t11 t13 t9 L14 L11 L13 L9)|]. apply only1; try assumption; vm_compute; reflexivity.
  - etransitivity; [exact (R t9 t14 t11 t13 L9 L14 L11 L13)|]. apply only2; try assumption; vm_compute; reflexivity.
  - etransitivity; [exact (R t13 t9 t14 t11 L13 L9 L14 L11)|]. apply only3; try assumption; vm_compute; reflexivity.
  - etransitivity; [exact (R t11 t13 t9 t14 L11 L13 L9 L14)|]. apply only4; try assumption; vm_compute; reflexivity.
Qed.
Lemma list16 (s : bytes) : digest 16 s -> exists a b c d e f g h i j k l m n o p, s = [a; b; c; d; e; f; g; h; i; j; k; l; m; n; o; p] /\ Forall is_byte s.
Proof.
  intros (H & B). do 16 (destruct s as [|? s]; [discriminate|]). destruct s; [|discriminate]. do 16 eexists. split; [reflexivity|exact B].
Qed.
Lemma sub16 s : digest 16 s -> digest 16 (sub_bytes s) /\ inv_sub_bytes (sub_bytes s) = s.
Proof.
  intros (H & B). split; [split; [unfold sub_bytes; now rewrite map_length|]|].
  - unfold sub_bytes, bytes_ok in *. rewrite Forall_map. eapply Forall_impl; [|exact B]. intros x Hx. apply lk8_byte; [exact good_s|exact Hx].
  - unfold inv_sub_bytes, sub_bytes. rewrite map_map. transitivity (map (fun x => x) s); [|apply map_id]. apply map_ext_in. intros x Hx. apply sbox_inv. unfold bytes_ok in B. rewrite Forall_forall in B. auto.
Qed.
Lemma inv_sub16 s : digest 16 s -> digest 16 (inv_sub_bytes s).
Proof.
  intros (H & B). split; [unfold inv_sub_bytes; now rewrite map_length|]. unfold inv_sub_bytes, bytes_ok in *. rewrite Forall_map. eapply Forall_impl; [|exact B]. intros x Hx. apply lk8_byte; [exact good_i|exact Hx].
Qed.
Ltac split16 H := let B := fresh "B" in destruct (list16 _ H) as (? & ? & ? & ? & ? & ? & ? & ? & ? & ? & ? & ? & ? & ? & ? & ? & -> & B);
  repeat match goal with H : Forall _ (_ :: _) |- _ => let A := fresh "A" in pose proof (Forall_inv H) as A; apply Forall_inv_tail in H end.
Ltac dig := split; [reflexivity|unfold bytes_ok; repeat apply Forall_cons; try apply Forall_nil; try assumption].
Lemma shift16 s : digest 16 s -> digest 16 (shift_rows s) /\ digest 16 (inv_shift_rows s) /\ inv_shift_rows (shift_rows s) = s.
Proof. intros H. split16 H. split; [dig|]. split; [dig|reflexivity]. Qed.
Lemma mix16 s : digest 16 s -> digest 16 (mix_columns s) /\ digest 16 (inv_mix_columns s) /\ inv_mix_columns (mix_columns s) = s.
Proof.
  intros H. split16 H. split; [|split].
  - dig; apply x4_byte; lkb.
  - dig; apply x4_byte; lkb.
  - unfold inv_mix_columns, mix_columns, mix_col. cbn [by_cols app].
    repeat match goal with |- context [inv_mix_col (x4 (lk8 t2 ?a) (lk8 t3 ?b) ?c ?d) ?y ?z ?w] => change (inv_mix_col (x4 (lk8 t2 a) (lk8 t3 b) c d) y z w) with (match mix_col a b c d with [a'; b'; c'; d'] => inv_mix_col a' b' c' d' | _ => [] end); rewrite (mix_inv a b c d) by assumption end.
    reflexivity.
Qed.
Lemma xors_twice s : forall k, List.length k = List.length s -> xors (xors s k) k = s.
Proof. induction s as [|x s IH]; intros [|y k] E; try discriminate; [reflexivity|]. cbn [xors]. rewrite IH by (now injection E). now rewrite N.lxor_assoc, N.lxor_nilpotent, N.lxor_0_r. Qed.
Lemma xors16 s k : digest 16 s -> digest 16 k -> digest 16 (xors s k) /\ xors (xors s k) k = s.
Proof.
  intros Hs Hk. split16 Hs. split16 Hk. split.
  - dig; apply xor_byte; assumption.
  - apply xors_twice. reflexivity.
Qed.
Lemma fit16 k : digest 16 (fit k).
Proof.
  unfold fit. split; [rewrite firstn_length, app_length, repeat_length; lia|]. assert (H : bytes_ok (map (fun b => N.land b 255) k ++ repeat 0 16)).
  { apply bytes_ok_app. split; unfold bytes_ok; [|repeat constructor]. rewrite Forall_map, Forall_forall. intros x _. unfold is_byte. change 255 with (N.ones 8). rewrite N.land_ones. apply N.mod_lt. discriminate. }
  rewrite <- (firstn_skipn 16 (_ ++ _)) in H. apply bytes_ok_app in H. apply H.
Qed.
Lemma round16 s k : digest 16 s -> digest 16 k -> digest 16 (enc_round s k) /\ dec_round (enc_round s k) k = s /\ digest 16 (dec_round s k).
Proof.
  intros Hs Hk. destruct (sub16 s Hs) as (S1 & S2). destruct (shift16 _ S1) as (T1 & _ & T3). destruct (mix16 _ T1) as (M1 & _ & M3). destruct (xors16 _ k M1 Hk) as (X1 & X2).
  split; [exact X1|]. split; [unfold dec_round, enc_round; rewrite X2, M3, T3; exact S2|]. destruct (xors16 s k Hs Hk) as (Y1 & _). destruct (mix16 _ Y1) as (_ & Y2 & _). destruct (shift16 _ Y2) as (_ & Y3 & _). apply inv_sub16, Y3.
Qed.
Lemma last16 s k : digest 16 s -> digest 16 k -> digest 16 (enc_last s k) /\ dec_last (enc_last s k) k = s /\ digest 16 (dec_last s k).
Proof.
  intros Hs Hk. destruct (sub16 s Hs) as (S1 & S2). destruct (shift16 _ S1) as (T1 & _ & T3). destruct (xors16 _ k T1 Hk) as (X1 & X2).
  split; [exact X1|]. split; [unfold dec_last, enc_last; rewrite X2, T3; exact S2|]. destruct (xors16 s k Hs Hk) as (Y1 & _). destruct (shift16 _ Y1) as (_ & Y3 & _). apply inv_sub16, Y3.
Qed.
Lemma rounds16 ks s : Forall (digest 16) ks -> digest 16 s -> digest 16 (fold_left enc_round ks s) /\ fold_left dec_round (rev ks) (fold_left enc_round ks s) = s.
Proof.
  revert s. induction ks as [|k ks IH]; intros s F H; [split; [exact H|reflexivity]|]. inversion F as [|? ? Hk Hks]; subst. destruct (round16 s k H Hk) as (R1 & R2 & _). destruct (IH _ Hks R1) as (I1 & I2).
  cbn [fold_left rev]. split; [exact I1|]. rewrite fold_left_app, I2. exact R2.
Qed.
Lemma drounds16 ks s : Forall (digest 16) ks -> digest 16 s -> digest 16 (fold_left dec_round ks s).
Proof. revert s. induction ks as [|k ks IH]; intros s F H; [exact H|]. inversion F as [|? ? Hk Hks]; subst. cbn [fold_left]. apply IH; [exact Hks|]. apply round16; assumption. Qed.
Lemma removelast_Forall {A} (P : A -> Prop) l : Forall P l -> Forall P (removelast l).
Proof. induction l as [|x l IH]; intros F; [constructor|]. inversion F as [|? ? Hx Hl]; subst. destruct l as [|y l]; [constructor|]. cbn [removelast]. constructor; auto. Qed.
Lemma last_Forall {A} (P : A -> Prop) l d : P d -> Forall P l -> P (last l d).
Proof. intros Hd. induction l as [|x l IH]; intros F; [exact Hd|]. inversion F as [|? ? Hx Hl]; subst. destruct l as [|y l]; [exact Hx|]. cbn [last]. apply IH, Hl. Qed.
Lemma zero16 : digest 16 (repeat 0 16). Proof. split; [reflexivity|repeat constructor]. Qed.
Lemma with16 ks b : Forall (digest 16) ks -> digest 16 b -> digest 16 (enc_with ks b) /\ dec_with ks (enc_with ks b) = b /\ digest 16 (dec_with ks b).
Proof.
  intros F H. destruct ks as [|k0 ks]; [split; [exact H|split; [reflexivity|exact H]]|]. inversion F as [|? ? H0 Hks]; subst. unfold enc_with, dec_with. cbv zeta. set (z := last ks (repeat 0 16)). set (m := removelast ks).
  assert (Hz : digest 16 z) by (apply last_Forall; [exact zero16|exact Hks]). assert (Hm : Forall (digest 16) m) by (apply removelast_Forall, Hks). destruct (xors16 b k0 H H0) as (X1 & X2). destruct (rounds16 m _ Hm X1) as (R1 & R2). destruct (last16 _ z R1 Hz) as (L1 & L2 & _).
  split; [exact L1|]. split; [rewrite L2, R2; exact X2|]. apply xors16; [|exact H0]. apply drounds16; [apply Forall_rev, Hm|]. apply last16; assumption.
Qed.
Lemma fits16 k : Forall (digest 16) (map fit (round_keys k)).
Proof. rewrite Forall_map, Forall_forall. intros x _. apply fit16. Qed.
Lemma aes_inverse k b : digest 16 b -> digest 16 (aes_encrypt k b) /\ aes_decrypt k (aes_encrypt k b) = b.
Proof. intros H. destruct (with16 (map fit (round_keys k)) b (fits16 k) H) as (A & B & _). auto. Qed.
Lemma aes_decrypt16 k b : digest 16 b -> digest 16 (aes_decrypt k b).
Proof. intros H. apply with16; [apply fits16|exact H]. Qed.
