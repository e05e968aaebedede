(** The Twofish block cipher, written from the published specification (B. Schneier et al.,
    "Twofish: A 128-Bit Block Cipher", 1998, sections 4.1-4.3), independently of pytwofish.py:
    no look-up tables beyond the 4-bit ones of the paper, field arithmetic by definition. *)
From Verif Require Import Base.

(** Multiplication in GF(2)[x]/p(x), p of degree 8, on bytes: sum of a_i x^i b. *)
Definition xtime (p b : N) : N := let d := 2 * b in if N.testbit d 8 then N.lxor d p else d.
Fixpoint gf_mul_bits (k : nat) (p a b : N) : N :=
  match k with
  | O => 0
  | S k' => N.lxor (if N.odd a then b else 0) (gf_mul_bits k' p (N.div2 a) (xtime p b))
  end.
Definition gf_mul (p a b : N) : N := gf_mul_bits 8 p a b.
Definition poly_v : N := 0x169. (* x^8+x^6+x^5+x^3+1, MDS *)
Definition poly_w : N := 0x14D. (* x^8+x^6+x^3+x^2+1, RS *)

(** 4.3.5: the permutations q0 and q1. *)
Definition nib (l : list N) (i : N) : N := nth (N.to_nat i) l 0.
Definition ror4_1 (x : N) : N := x / 2 + 8 * (x mod 2).
Definition qperm (t0 t1 t2 t3 : list N) (x : N) : N :=
  let a0 := x / 16 in let b0 := x mod 16 in
  let a1 := N.lxor a0 b0 in
  let b1 := N.lxor (N.lxor a0 (ror4_1 b0)) ((8 * a0) mod 16) in
  let a2 := nib t0 a1 in let b2 := nib t1 b1 in
  let a3 := N.lxor a2 b2 in
  let b3 := N.lxor (N.lxor a2 (ror4_1 b2)) ((8 * a2) mod 16) in
  let a4 := nib t2 a3 in let b4 := nib t3 b3 in
  16 * b4 + a4.
Definition q0 : N -> N := qperm
  [0x8;0x1;0x7;0xD;0x6;0xF;0x3;0x2;0x0;0xB;0x5;0x9;0xE;0xC;0xA;0x4]
  [0xE;0xC;0xB;0x8;0x1;0x2;0x3;0x5;0xF;0x4;0xA;0x6;0x7;0x0;0x9;0xD]
  [0xB;0xA;0x5;0xE;0x6;0xD;0x9;0x0;0xC;0x8;0xF;0x3;0x2;0x4;0x7;0x1]
  [0xD;0x7;0xF;0x4;0x1;0x2;0x6;0xE;0x9;0xB;0x3;0x0;0x8;0x5;0xC;0xA].
Definition q1 : N -> N := qperm
  [0x2;0x8;0xB;0xD;0xF;0x7;0x6;0xE;0x3;0x1;0x9;0x4;0x0;0xA;0xC;0x5]
  [0x1;0xE;0x2;0xB;0x4;0xC;0x3;0x7;0x6;0xD;0xA;0x5;0xF;0x9;0x0;0x8]
  [0x4;0xC;0x7;0x5;0x1;0x6;0x9;0xA;0x0;0xE;0xD;0x8;0x2;0xB;0x3;0xF]
  [0xB;0x9;0x5;0x1;0xC;0x3;0xD;0xE;0x6;0x4;0x7;0xF;0x2;0x0;0x8;0xA].

(** Bytes of a word, and a word from bytes, little endian. *)
Definition bt (x j : N) : N := (x / 256 ^ j) mod 256.
Definition word (b0 b1 b2 b3 : N) : N := b0 + 256 * b1 + 65536 * b2 + 16777216 * b3.

(** 4.2: the MDS matrix applied to a column of bytes. *)
Definition mds_row (m0 m1 m2 m3 y0 y1 y2 y3 : N) : N :=
  N.lxor (N.lxor (N.lxor (gf_mul poly_v m0 y0) (gf_mul poly_v m1 y1)) (gf_mul poly_v m2 y2)) (gf_mul poly_v m3 y3).
Definition mds (y0 y1 y2 y3 : N) : N :=
  word (mds_row 0x01 0xEF 0x5B 0x5B y0 y1 y2 y3)
       (mds_row 0x5B 0xEF 0xEF 0x01 y0 y1 y2 y3)
       (mds_row 0xEF 0x5B 0x01 0xEF y0 y1 y2 y3)
       (mds_row 0xEF 0x01 0xEF 0x5B y0 y1 y2 y3).

(** 4.3.2: the function h, for a list L = (L0, ..., L_{k-1}) of k words. *)
Definition h (X : N) (L : list N) : N :=
  let l i j := bt (nth i L 0) j in
  let k := List.length L in
  let '(y0, y1, y2, y3) := (bt X 0, bt X 1, bt X 2, bt X 3) in
  let '(y0, y1, y2, y3) :=
    if (k =? 4)%nat then (N.lxor (q1 y0) (l 3%nat 0), N.lxor (q0 y1) (l 3%nat 1), N.lxor (q0 y2) (l 3%nat 2), N.lxor (q1 y3) (l 3%nat 3))
    else (y0, y1, y2, y3) in
  let '(y0, y1, y2, y3) :=
    if (3 <=? k)%nat then (N.lxor (q1 y0) (l 2%nat 0), N.lxor (q1 y1) (l 2%nat 1), N.lxor (q0 y2) (l 2%nat 2), N.lxor (q0 y3) (l 2%nat 3))
    else (y0, y1, y2, y3) in
  mds (q1 (N.lxor (q0 (N.lxor (q0 y0) (l 1%nat 0))) (l 0%nat 0)))
      (q0 (N.lxor (q0 (N.lxor (q1 y1) (l 1%nat 1))) (l 0%nat 1)))
      (q1 (N.lxor (q1 (N.lxor (q0 y2) (l 1%nat 2))) (l 0%nat 2)))
      (q0 (N.lxor (q1 (N.lxor (q1 y3) (l 1%nat 3))) (l 0%nat 3))).

(** 4.3: key material of m = 8k bytes: even words, odd words, RS words in reverse order. *)
Definition mword (m : bytes) (i : nat) : N :=
  word (nth (4 * i) m 0) (nth (4 * i + 1) m 0) (nth (4 * i + 2) m 0) (nth (4 * i + 3) m 0).
Definition Me (k : nat) (m : bytes) : list N := map (fun i => mword m (2 * i)) (seq 0 k).
Definition Mo (k : nat) (m : bytes) : list N := map (fun i => mword m (2 * i + 1)) (seq 0 k).
Definition rs_row (r : list N) (m : list N) : N :=
  fold_left N.lxor (map (fun p => gf_mul poly_w (fst p) (snd p)) (combine r m)) 0.
Definition rs (m : list N) : N :=
  word (rs_row [0x01;0xA4;0x55;0x87;0x5A;0x58;0xDB;0x9E] m)
       (rs_row [0xA4;0x56;0x82;0xF3;0x1E;0xC6;0x68;0xE5] m)
       (rs_row [0x02;0xA1;0xFC;0xC1;0x47;0xAE;0x3D;0x19] m)
       (rs_row [0xA4;0x55;0x87;0x5A;0x58;0xDB;0x9E;0x03] m).
Definition Sk (k : nat) (m : bytes) : list N :=
  rev (map (fun i => rs [nth (8*i) m 0; nth (8*i+1) m 0; nth (8*i+2) m 0; nth (8*i+3) m 0;
                         nth (8*i+4) m 0; nth (8*i+5) m 0; nth (8*i+6) m 0; nth (8*i+7) m 0]) (seq 0 k)).

Definition rol (x n : N) : N := (x * 2 ^ n) mod 2 ^ 32 + x / 2 ^ (32 - n).
Definition ror (x n : N) : N := (x * 2 ^ (32 - n)) mod 2 ^ 32 + x / 2 ^ n.
Definition rho : N := 0x01010101.

(** 4.3.3: expanded key words K_{2i}, K_{2i+1}. *)
Definition A (k : nat) (m : bytes) (i : N) : N := h (2 * i * rho) (Me k m).
Definition B (k : nat) (m : bytes) (i : N) : N := rol (h ((2 * i + 1) * rho) (Mo k m)) 8.
Definition K (k : nat) (m : bytes) (n : N) : N :=
  let i := n / 2 in
  if N.even n then (A k m i + B k m i) mod 2 ^ 32
  else rol ((A k m i + 2 * B k m i) mod 2 ^ 32) 9.

(** 4.1: round function and cipher; a key of 8k bytes. *)
Definition round (k : nat) (m : bytes) (r : N) (s : N * N * N * N) : N * N * N * N :=
  let '(R0, R1, R2, R3) := s in
  let T0 := h R0 (Sk k m) in
  let T1 := h (rol R1 8) (Sk k m) in
  let F0 := (T0 + T1 + K k m (2 * r + 8)) mod 2 ^ 32 in
  let F1 := (T0 + 2 * T1 + K k m (2 * r + 9)) mod 2 ^ 32 in
  (ror (N.lxor R2 F0) 1, N.lxor (rol R3 1) F1, R0, R1).
Definition twofish_words (k : nat) (m : bytes) (P : N * N * N * N) : N * N * N * N :=
  let '(P0, P1, P2, P3) := P in
  let R := (N.lxor P0 (K k m 0), N.lxor P1 (K k m 1), N.lxor P2 (K k m 2), N.lxor P3 (K k m 3)) in
  let '(R0, R1, R2, R3) := fold_left (fun s r => round k m r s) [0;1;2;3;4;5;6;7;8;9;10;11;12;13;14;15] R in
  (N.lxor R2 (K k m 4), N.lxor R3 (K k m 5), N.lxor R0 (K k m 6), N.lxor R1 (K k m 7)).
(** On bytes: key of 16, 24 or 32 bytes, block of 16 bytes. *)
Definition twofish (key blk : bytes) : bytes :=
  let k := (List.length key / 8)%nat in
  let '(C0, C1, C2, C3) := twofish_words k key (mword blk 0, mword blk 1, mword blk 2, mword blk 3) in
  flat_map (fun C => [bt C 0; bt C 1; bt C 2; bt C 3]) [C0; C1; C2; C3].

(** Known answers published with the cipher (ecb_ival.txt, I=1 for the three key sizes). *)
Example twofish_kat128 : twofish (repeat 0 16) (repeat 0 16) =
  [0x9F;0x58;0x9F;0x5C;0xF6;0x12;0x2C;0x32;0xB6;0xBF;0xEC;0x2F;0x2A;0xE8;0xC3;0x5A].
Proof. vm_compute. reflexivity. Qed.
Example twofish_kat192 : twofish [0x01;0x23;0x45;0x67;0x89;0xAB;0xCD;0xEF;0xFE;0xDC;0xBA;0x98;0x76;0x54;0x32;0x10;0x00;0x11;0x22;0x33;0x44;0x55;0x66;0x77] (repeat 0 16) =
  [0xCF;0xD1;0xD2;0xE5;0xA9;0xBE;0x9C;0xDF;0x50;0x1F;0x13;0xB8;0x92;0xBD;0x22;0x48].
Proof. vm_compute. reflexivity. Qed.
Example twofish_kat256 : twofish [0x01;0x23;0x45;0x67;0x89;0xAB;0xCD;0xEF;0xFE;0xDC;0xBA;0x98;0x76;0x54;0x32;0x10;0x00;0x11;0x22;0x33;0x44;0x55;0x66;0x77;0x88;0x99;0xAA;0xBB;0xCC;0xDD;0xEE;0xFF] (repeat 0 16) =
  [0x37;0x52;0x7B;0xE0;0x05;0x23;0x34;0xB8;0x9F;0x0C;0xFC;0xCA;0xE8;0x7C;0xFA;0x20].
Proof. vm_compute. reflexivity. Qed.

(** Cipher block chaining of the Twofish function over a list of 16-byte blocks (NIST SP 800-38A, 6.2). *)
Definition xor_bytes (a b : bytes) : bytes := map (fun p => N.lxor (fst p) (snd p)) (combine a b).
Fixpoint twofish_cbc (key iv : bytes) (ps : list bytes) : list bytes :=
  match ps with
  | [] => []
  | p :: ps' => twofish key (xor_bytes p iv) :: twofish_cbc key (twofish key (xor_bytes p iv)) ps'
  end.
