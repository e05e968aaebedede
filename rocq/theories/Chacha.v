(** Key streams of ChaCha20 (RFC 8439, with nonces of 12 bytes; the original one with nonces of 8 bytes; XChaCha20 with nonces of 24
    bytes) and of Salsa20 (32-byte keys, 8-byte nonces), byte by byte: the ciphers behind Crypto.Cipher.ChaCha20 and Salsa20 in
    kdbx_parsing/common.py.  Used by Real.v; models no code of /repo. *)
From Coq Require Import ZifyBool ZifyNat ZifyN.
From Verif Require Import Base Lib.

Definition m32 : N := 0xffffffff.
Definition add32 (a b : N) : N := N.land (a + b) m32.
Definition rotl (x n : N) : N := N.lor (N.land (N.shiftl x n) m32) (N.shiftr x (32 - n)).
Fixpoint words32 (n : nat) (d : bytes) : list N := match n with O => [] | S n => le_dec (firstn 4 d) :: words32 n (skipn 4 d) end.
Fixpoint iter {A} (n : nat) (f : A -> A) (x : A) : A := match n with O => x | S n => iter n f (f x) end.
Fixpoint zip_add (a b : list N) : list N := match a, b with x :: a, y :: b => add32 x y :: zip_add a b | _, _ => [] end.

(** *** ChaCha *)
Definition qr (a b c d : N) : N * N * N * N :=
  let a := add32 a b in let d := rotl (N.lxor d a) 16 in
  let c := add32 c d in let b := rotl (N.lxor b c) 12 in
  let a := add32 a b in let d := rotl (N.lxor d a) 8 in
  let c := add32 c d in let b := rotl (N.lxor b c) 7 in (a, b, c, d).
Definition chacha_double (s : list N) : list N :=
  match s with
  | [x0; x1; x2; x3; x4; x5; x6; x7; x8; x9; x10; x11; x12; x13; x14; x15] =>
      let '(x0, x4, x8, x12) := qr x0 x4 x8 x12 in let '(x1, x5, x9, x13) := qr x1 x5 x9 x13 in
      let '(x2, x6, x10, x14) := qr x2 x6 x10 x14 in let '(x3, x7, x11, x15) := qr x3 x7 x11 x15 in
      let '(x0, x5, x10, x15) := qr x0 x5 x10 x15 in let '(x1, x6, x11, x12) := qr x1 x6 x11 x12 in
      let '(x2, x7, x8, x13) := qr x2 x7 x8 x13 in let '(x3, x4, x9, x14) := qr x3 x4 x9 x14 in
      [x0; x1; x2; x3; x4; x5; x6; x7; x8; x9; x10; x11; x12; x13; x14; x15]
  | _ => s
  end.
Definition sigma : list N := words32 4 ($"expand 32-byte k").
Definition chacha_block (s : list N) : bytes := List.concat (map (le_enc 4) (zip_add (iter 10 chacha_double s) s)).
(** HChaCha20: the key of XChaCha20. *)
Definition hchacha (k n : bytes) : bytes :=
  let s := iter 10 chacha_double (sigma ++ words32 8 k ++ words32 4 n) in List.concat (map (le_enc 4) (firstn 4 s ++ skipn 12 s)).
Definition chacha_state (k n : bytes) (i : N) : list N :=
  if (List.length n =? 8)%nat then sigma ++ words32 8 k ++ [N.land i m32; N.land (N.shiftr i 32) m32] ++ words32 2 n
  else if (List.length n =? 24)%nat then sigma ++ words32 8 (hchacha k (firstn 16 n)) ++ [N.land i m32; N.land (N.shiftr i 32) m32] ++ words32 2 (skipn 16 n)
  else sigma ++ words32 8 k ++ [N.land i m32] ++ words32 3 n.
Definition chacha_byte (k n : bytes) (p : N) : N := nth (N.to_nat (N.land p 63)) (chacha_block (chacha_state k n (N.shiftr p 6))) 0.

(** *** Salsa20 *)
Definition salsa_qr (a b c d : N) : N * N * N * N :=
  let b := N.lxor b (rotl (add32 a d) 7) in let c := N.lxor c (rotl (add32 b a) 9) in
  let d := N.lxor d (rotl (add32 c b) 13) in let a := N.lxor a (rotl (add32 d c) 18) in (a, b, c, d).
Definition salsa_double (s : list N) : list N :=
  match s with
  | [x0; x1; x2; x3; x4; x5; x6; x7; x8; x9; x10; x11; x12; x13; x14; x15] =>
      let '(x0, x4, x8, x12) := salsa_qr x0 x4 x8 x12 in let '(x5, x9, x13, x1) := salsa_qr x5 x9 x13 x1 in
      let '(x10, x14, x2, x6) := salsa_qr x10 x14 x2 x6 in let '(x15, x3, x7, x11) := salsa_qr x15 x3 x7 x11 in
      let '(x0, x1, x2, x3) := salsa_qr x0 x1 x2 x3 in let '(x5, x6, x7, x4) := salsa_qr x5 x6 x7 x4 in
      let '(x10, x11, x8, x9) := salsa_qr x10 x11 x8 x9 in let '(x15, x12, x13, x14) := salsa_qr x15 x12 x13 x14 in
      [x0; x1; x2; x3; x4; x5; x6; x7; x8; x9; x10; x11; x12; x13; x14; x15]
  | _ => s
  end.
Definition salsa_state (k n : bytes) (i : N) : list N :=
  let w := words32 8 k in let c := sigma in
  [nth 0 c 0] ++ firstn 4 w ++ [nth 1 c 0] ++ words32 2 n ++ [N.land i m32; N.land (N.shiftr i 32) m32] ++ [nth 2 c 0] ++ skipn 4 w ++ [nth 3 c 0].
Definition salsa_block (s : list N) : bytes := List.concat (map (le_enc 4) (zip_add (iter 10 salsa_double s) s)).
Definition salsa_byte (k n : bytes) (p : N) : N := nth (N.to_nat (N.land p 63)) (salsa_block (salsa_state k n (N.shiftr p 6))) 0.

Lemma nth_byte i (l : bytes) : bytes_ok l -> is_byte (nth i l 0).
Proof. intros H. destruct (nth_in_or_default i l 0) as [I| ->]; [|reflexivity]. unfold bytes_ok in H. rewrite Forall_forall in H. auto. Qed.
Lemma concat_le_ok l : bytes_ok (List.concat (map (le_enc 4) l)).
Proof. induction l as [|x l IH]; cbn [map List.concat]; [constructor|]. apply bytes_ok_app. split; [apply le_enc_ok|exact IH]. Qed.
Lemma chacha_is_byte k n p : is_byte (chacha_byte k n p). Proof. apply nth_byte, concat_le_ok. Qed.
Lemma salsa_is_byte k n p : is_byte (salsa_byte k n p). Proof. apply nth_byte, concat_le_ok. Qed.

(** RFC 8439, 2.3.2 (counter 1); ECRYPT test vector for Salsa20 (set 1, vector 0, first bytes); draft-irtf-cfrg-xchacha, 2.2.1. *)
Definition rfc_key : bytes := map N.of_nat (seq 0 32).
Example chacha_rfc : map (chacha_byte rfc_key [0; 0; 0; 9; 0; 0; 0; 0x4a; 0; 0; 0; 0]) [64; 65; 66; 67; 68; 127] = [0x10; 0xf1; 0xe7; 0xe4; 0xd1; 0x4e].
Proof. vm_compute. reflexivity. Qed.
Example salsa_ecrypt : map (salsa_byte (0x80 :: repeat 0 31) (repeat 0 8)) [0; 1; 2; 3; 4; 5; 6; 7; 8; 9] = [0xe3; 0xbe; 0x8f; 0xdd; 0x8b; 0xec; 0xa2; 0xe3; 0xea; 0x8e].
Proof. vm_compute. reflexivity. Qed.
Example hchacha_draft : firstn 8 (hchacha rfc_key [0; 0; 0; 9; 0; 0; 0; 0x4a; 0; 0; 0; 0; 0x31; 0x41; 0x59; 0x27]) = [0x82; 0x41; 0x3b; 0x42; 0x27; 0xb2; 0x7b; 0xfe].
Proof. vm_compute. reflexivity. Qed.
