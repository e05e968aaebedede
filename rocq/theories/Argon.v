(** BLAKE2b (RFC 7693) and Argon2d/Argon2id (RFC 9106, versions 0x10 and 0x13): the key derivation behind argon2.low_level.hash_secret_raw
    in kdbx_parsing/kdbx4.py:75-84, with hash_len=32 and without secret and associated data.  Used by Real.v; models no code of /repo. *)
From Coq Require Import ZifyBool ZifyNat ZifyN.
From Verif Require Import Base Lib Hash Chacha.

(** *** BLAKE2b *)
Definition add64 (a b : N) : N := N.land (a + b) mask64.
Definition ror (x n : N) : N := N.lor (N.shiftr x n) (N.land (N.shiftl x (64 - n)) mask64).
Definition b2_g (a b c d x y : N) : N * N * N * N :=
  let a := add64 (add64 a b) x in let d := ror (N.lxor d a) 32 in
  let c := add64 c d in let b := ror (N.lxor b c) 24 in
  let a := add64 (add64 a b) y in let d := ror (N.lxor d a) 16 in
  let c := add64 c d in let b := ror (N.lxor b c) 63 in (a, b, c, d).
Definition b2_sigma : list (list nat) :=
  [[0; 1; 2; 3; 4; 5; 6; 7; 8; 9; 10; 11; 12; 13; 14; 15]; [14; 10; 4; 8; 9; 15; 13; 6; 1; 12; 0; 2; 11; 7; 5; 3];
   [11; 8; 12; 0; 5; 2; 15; 13; 10; 14; 3; 6; 7; 1; 9; 4]; [7; 9; 3; 1; 13; 12; 11; 14; 2; 6; 5; 10; 4; 0; 15; 8];
   [9; 0; 5; 7; 2; 4; 10; 15; 14; 1; 11; 12; 6; 8; 3; 13]; [2; 12; 6; 10; 0; 11; 8; 3; 4; 13; 7; 5; 15; 14; 1; 9];
   [12; 5; 1; 15; 14; 13; 4; 10; 0; 7; 6; 3; 9; 2; 8; 11]; [13; 11; 7; 14; 12; 1; 3; 9; 5; 0; 15; 4; 8; 6; 2; 10];
   [6; 15; 14; 9; 11; 3; 0; 8; 12; 2; 13; 7; 1; 4; 10; 5]; [10; 2; 8; 4; 7; 6; 1; 5; 15; 11; 9; 14; 3; 12; 13; 0];
   [0; 1; 2; 3; 4; 5; 6; 7; 8; 9; 10; 11; 12; 13; 14; 15]; [14; 10; 4; 8; 9; 15; 13; 6; 1; 12; 0; 2; 11; 7; 5; 3]]%nat.
Definition b2_round (m : list N) (v : list N) (s : list nat) : list N :=
  let w i := nth (nth i s O) m 0 in
  match v with
  | [x0; x1; x2; x3; x4; x5; x6; x7; x8; x9; x10; x11; x12; x13; x14; x15] =>
      let '(x0, x4, x8, x12) := b2_g x0 x4 x8 x12 (w 0%nat) (w 1%nat) in let '(x1, x5, x9, x13) := b2_g x1 x5 x9 x13 (w 2%nat) (w 3%nat) in
      let '(x2, x6, x10, x14) := b2_g x2 x6 x10 x14 (w 4%nat) (w 5%nat) in let '(x3, x7, x11, x15) := b2_g x3 x7 x11 x15 (w 6%nat) (w 7%nat) in
      let '(x0, x5, x10, x15) := b2_g x0 x5 x10 x15 (w 8%nat) (w 9%nat) in let '(x1, x6, x11, x12) := b2_g x1 x6 x11 x12 (w 10%nat) (w 11%nat) in
      let '(x2, x7, x8, x13) := b2_g x2 x7 x8 x13 (w 12%nat) (w 13%nat) in let '(x3, x4, x9, x14) := b2_g x3 x4 x9 x14 (w 14%nat) (w 15%nat) in
      [x0; x1; x2; x3; x4; x5; x6; x7; x8; x9; x10; x11; x12; x13; x14; x15]
  | _ => v
  end.
Fixpoint words64 (n : nat) (d : bytes) : list N := match n with O => [] | S n => le_dec (firstn 8 d) :: words64 n (skipn 8 d) end.
Definition lxors (a b : list N) : list N := map (fun p => N.lxor (fst p) (snd p)) (combine a b).
Definition b2_compress (h : list N) (block : bytes) (t : N) (final : bool) : list N :=
  let v := h ++ firstn 4 h512 ++ lxors (skipn 4 h512) [N.land t mask64; N.shiftr t 64; (if final then mask64 else 0); 0] in
  let v := fold_left (b2_round (words64 16 block)) b2_sigma v in
  lxors h (lxors (firstn 8 v) (skipn 8 v)).
Fixpoint b2_blocks (fuel : nat) (h : list N) (t : N) (d : bytes) : list N :=
  match fuel with
  | O => h
  | S f => if (List.length d <=? 128)%nat then b2_compress h (d ++ repeat 0 (128 - List.length d)) (t + lenN d) true
           else b2_blocks f (b2_compress h (firstn 128 d) (t + 128) false) (t + 128) (skipn 128 d)
  end.
(** [n] bytes of hash, no key. *)
Definition blake2b (n : nat) (d : bytes) : bytes :=
  let h := lxors h512 [N.lxor 0x01010000 (N.of_nat n); 0; 0; 0; 0; 0; 0; 0] in
  firstn n (List.concat (map (le_enc 8) (b2_blocks (S (List.length d)) h 0 d))).
Example blake2b_abc : firstn 8 (blake2b 64 ($"abc")) = [0xba; 0x80; 0xa5; 0x3f; 0x98; 0x1c; 0x4d; 0x0d].
Proof. vm_compute. reflexivity. Qed.

(** *** Argon2; a block is a list of 128 words *)
Definition le32 (n : N) : bytes := le_enc 4 n.
Fixpoint h_more (n : nat) (v : bytes) (last : nat) : bytes :=
  match n with
  | O => blake2b last v
  | S n => firstn 32 v ++ h_more n (match n with O => v | _ => blake2b 64 v end) last
  end.
(** H' of RFC 9106, 3.3, for lengths that are multiples of 32. *)
Definition h_prime (len : nat) (a : bytes) : bytes :=
  let m := le32 (N.of_nat len) ++ a in
  if (len <=? 64)%nat then blake2b len m else h_more (len / 32 - 2) (blake2b 64 m) 64.
Definition fbm (a b : N) : N := N.land (a + b + N.double (N.land a m32 * N.land b m32)) mask64.
Definition ag (a b c d : N) : N * N * N * N :=
  let a := fbm a b in let d := ror (N.lxor d a) 32 in let c := fbm c d in let b := ror (N.lxor b c) 24 in
  let a := fbm a b in let d := ror (N.lxor d a) 16 in let c := fbm c d in let b := ror (N.lxor b c) 63 in (a, b, c, d).
Definition perm (v : list N) : list N :=
  match v with
  | [x0; x1; x2; x3; x4; x5; x6; x7; x8; x9; x10; x11; x12; x13; x14; x15] =>
      let '(x0, x4, x8, x12) := ag x0 x4 x8 x12 in let '(x1, x5, x9, x13) := ag x1 x5 x9 x13 in
      let '(x2, x6, x10, x14) := ag x2 x6 x10 x14 in let '(x3, x7, x11, x15) := ag x3 x7 x11 x15 in
      let '(x0, x5, x10, x15) := ag x0 x5 x10 x15 in let '(x1, x6, x11, x12) := ag x1 x6 x11 x12 in
      let '(x2, x7, x8, x13) := ag x2 x7 x8 x13 in let '(x3, x4, x9, x14) := ag x3 x4 x9 x14 in
      [x0; x1; x2; x3; x4; x5; x6; x7; x8; x9; x10; x11; x12; x13; x14; x15]
  | _ => v
  end.
Fixpoint cut (fuel n : nat) (l : list N) : list (list N) := match fuel with O => [] | S f => firstn n l :: cut f n (skipn n l) end.
(** Eight lists of 16 words: the pairs of words number [j] of each. *)
Definition columns (rows : list (list N)) : list (list N) := map (fun j => flat_map (fun r => firstn 2 (skipn (2 * j) r)) rows) (seq 0 8).
Definition comp (x y : list N) : list N :=
  let r := lxors x y in
  let z := columns (map perm (columns (map perm (cut 8 16 r)))) in
  lxors (List.concat z) r.
(** The memory: a tree over block numbers. *)
Inductive mem := M_leaf | M_node (l : mem) (v : list N) (r : mem).
Fixpoint m_get (m : mem) (p : positive) : list N :=
  match m, p with M_leaf, _ => [] | M_node _ v _, xH => v | M_node l _ _, xO p => m_get l p | M_node _ _ r, xI p => m_get r p end.
Fixpoint m_set (m : mem) (p : positive) (x : list N) : mem :=
  match m, p with
  | M_leaf, xH => M_node M_leaf x M_leaf | M_leaf, xO p => M_node (m_set M_leaf p x) [] M_leaf | M_leaf, xI p => M_node M_leaf [] (m_set M_leaf p x)
  | M_node l _ r, xH => M_node l x r | M_node l v r, xO p => M_node (m_set l p x) v r | M_node l v r, xI p => M_node l v (m_set r p x)
  end.
Definition bn (q lane col : N) : positive := N.succ_pos (lane * q + col).
Record params := MkPar { a_id : bool; a_lanes : N; a_passes : N; a_mem : N; a_version : N }.
Definition seg_len (P : params) : N := a_mem P / (4 * a_lanes P).
Definition lane_len (P : params) : N := 4 * seg_len P.
Definition zero_block : list N := repeat 0 128.
(** Data-independent addresses: number [i] of a segment. *)
Definition address (P : params) (pass lane slice i : N) : N :=
  let z := [pass; lane; slice; 4 * a_lanes P * seg_len P; a_passes P; 2; i / 128 + 1] ++ repeat 0 121 in
  nth (N.to_nat (i mod 128)) (comp zero_block (comp zero_block z)) 0.
Definition fill (P : params) (m : mem) (pass slice lane i : N) : mem :=
  let sl := seg_len P in let q := lane_len P in let col := slice * sl + i in
  let prev := m_get m (bn q lane (if col =? 0 then q - 1 else col - 1)) in
  let w := if a_id P && (pass =? 0) && (slice <? 2) then address P pass lane slice i else nth 0 prev 0 in
  let j1 := N.land w m32 in let j2 := N.shiftr w 32 in
  let rl := if (pass =? 0) && (slice =? 0) then lane else j2 mod a_lanes P in
  let done := if pass =? 0 then slice * sl else q - sl in
  let area := if rl =? lane then done + i - 1 else if i =? 0 then done - 1 else done in
  let x := N.shiftr (j1 * j1) 32 in
  let z := area - 1 - N.shiftr (area * x) 32 in
  let start := if pass =? 0 then 0 else if slice =? 3 then 0 else (slice + 1) * sl in
  let new := comp prev (m_get m (bn q rl ((start + z) mod q))) in
  let p := bn q lane col in
  m_set m p (if (pass =? 0) || (a_version P =? 16) then new else lxors new (m_get m p)).
Fixpoint loop (n : nat) (i : N) (f : mem -> N -> mem) (m : mem) : mem := match n with O => m | S n => loop n (i + 1) f (f m i) end.
Definition argon (P : params) (pw salt : bytes) : bytes :=
  let h0 := blake2b 64 (le32 (a_lanes P) ++ le32 32 ++ le32 (a_mem P) ++ le32 (a_passes P) ++ le32 (a_version P) ++ le32 (if a_id P then 2 else 0) ++ le32 (lenN pw) ++ pw ++ le32 (lenN salt) ++ salt ++ le32 0 ++ le32 0) in
  let q := lane_len P in let lanes := N.to_nat (a_lanes P) in let sl := N.to_nat (seg_len P) in
  let first lane i := words64 128 (h_prime 1024 (h0 ++ le32 i ++ le32 lane)) in
  let m := loop lanes 0 (fun m lane => m_set (m_set m (bn q lane 0) (first lane 0)) (bn q lane 1) (first lane 1)) M_leaf in
  let m := loop (N.to_nat (a_passes P)) 0 (fun m pass => loop 4 0 (fun m slice => loop lanes 0 (fun m lane =>
             let from := if (pass =? 0) && (slice =? 0) then 2 else 0 in loop (sl - N.to_nat from) from (fun m i => fill P m pass slice lane i) m) m) m) m in
  let last := fold_left (fun acc lane => lxors acc (m_get m (bn q (N.of_nat lane) (q - 1)))) (seq 0 lanes) zero_block in
  h_prime 32 (List.concat (map (le_enc 8) last)).
(** The parameters argon2 accepts (others: argon2.exceptions.HashingError). *)
Definition argon2_of (pw salt : bytes) (id : bool) (t m p v : Z) : res bytes :=
  if ((1 <=? t) && (t <? 2 ^ 32) && (8 * p <=? m) && (m <? 2 ^ 32) && (1 <=? p) && (p <? 2 ^ 24) && ((v =? 16) || (v =? 19)))%Z && (8 <=? List.length salt)%nat then
    Ok (argon (MkPar id (Z.to_N p) (Z.to_N t) (Z.to_N m) (Z.to_N v)) pw salt)
  else Err Ex_Generic.
