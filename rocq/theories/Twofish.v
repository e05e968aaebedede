(** Model of kdbx_parsing/pytwofish.py (the pure-Python Twofish block cipher).
    Words and table entries are [N]; Python's unbounded ints are masked exactly where the code masks. *)
From Verif Require Import Base.

(** pytwofish.py:142-146 *)
Definition rotr32 (x n : N) : N := N.lor (N.shiftr x n) (N.land (N.shiftl x (32 - n)) 0xFFFFFFFF).
Definition rotl32 (x n : N) : N := N.lor (N.land (N.shiftl x n) 0xFFFFFFFF) (N.shiftr x (32 - n)).
(** pytwofish.py:159-160 *)
Definition byte (x n : N) : N := N.land (N.shiftr x (8 * n)) 0xff.

(** List indexing [l[i]] *)
Definition get (l : list N) (i : N) : N := nth (N.to_nat i) l 0.
Definition get2 (l : list (list N)) (j i : N) : N := get (nth (N.to_nat j) l []) i.
Definition upto (k : nat) : list N := map N.of_nat (seq 0 k).

(** pytwofish.py:162-173 *)
Definition tab_5b : list N := [0; 90; 180; 238].
Definition tab_ef : list N := [0; 238; 180; 90].
Definition ror4 : list N := [0; 8; 1; 9; 2; 10; 3; 11; 4; 12; 5; 13; 6; 14; 7; 15].
Definition ashx : list N := [0; 9; 2; 11; 4; 13; 6; 15; 8; 1; 10; 3; 12; 5; 14; 7].
Definition qt0 : list (list N) := [[8; 1; 7; 13; 6; 15; 3; 2; 0; 11; 5; 9; 14; 12; 10; 4];
       [2; 8; 11; 13; 15; 7; 6; 14; 3; 1; 9; 4; 0; 10; 12; 5]].
Definition qt1 : list (list N) := [[14; 12; 11; 8; 1; 2; 3; 5; 15; 4; 10; 6; 7; 0; 9; 13];
       [1; 14; 2; 11; 4; 12; 3; 7; 6; 13; 10; 5; 15; 9; 0; 8]].
Definition qt2 : list (list N) := [[11; 10; 5; 14; 6; 13; 9; 0; 12; 8; 15; 3; 2; 4; 7; 1];
       [4; 12; 7; 5; 1; 6; 9; 10; 0; 14; 13; 8; 2; 11; 3; 15]].
Definition qt3 : list (list N) := [[13; 7; 15; 4; 1; 2; 6; 14; 9; 11; 3; 0; 8; 5; 12; 10];
       [11; 9; 5; 1; 12; 3; 13; 14; 6; 4; 7; 15; 2; 0; 8; 10]].

(** pytwofish.py:175-188 *)
Definition qp (n x : N) : N :=
  let n := n mod 0x100000000 in
  let x := x mod 0x100 in
  let a0 := N.shiftr x 4 in
  let b0 := N.land x 15 in
  let a1 := N.lxor a0 b0 in
  let b1 := N.lxor (get ror4 b0) (get ashx a0) in
  let a2 := get2 qt0 n a1 in
  let b2 := get2 qt1 n b1 in
  let a3 := N.lxor a2 b2 in
  let b3 := N.lxor (get ror4 b2) (get ashx a2) in
  let a4 := get2 qt2 n a3 in
  let b4 := get2 qt3 n b3 in
  N.lor (N.shiftl b4 4) a4.

(** pytwofish.py:190-193 *)
Definition q_tab : list (list N) := [map (qp 0) (upto 256); map (qp 1) (upto 256)].

(** pytwofish.py:195-208 *)
Definition f5b (f01 : N) : N := N.lxor (N.lxor f01 (N.shiftr f01 2)) (get tab_5b (N.land f01 3)).
Definition fef (f01 : N) : N :=
  N.lxor (N.lxor (N.lxor f01 (N.shiftr f01 1)) (N.shiftr f01 2)) (get tab_ef (N.land f01 3)).
Definition m_tab : list (list N) :=
  [ map (fun i => let f01 := get2 q_tab 1 i in
           f01 + N.shiftl (f5b f01) 8 + N.shiftl (fef f01) 16 + N.shiftl (fef f01) 24) (upto 256);
    map (fun i => let f01 := get2 q_tab 0 i in
           fef f01 + N.shiftl (fef f01) 8 + N.shiftl (f5b f01) 16 + N.shiftl f01 24) (upto 256);
    map (fun i => let f01 := get2 q_tab 1 i in
           f5b f01 + N.shiftl (fef f01) 8 + N.shiftl f01 16 + N.shiftl (fef f01) 24) (upto 256);
    map (fun i => let f01 := get2 q_tab 0 i in
           f5b f01 + N.shiftl f01 8 + N.shiftl (fef f01) 16 + N.shiftl (f5b f01) 24) (upto 256) ].

Definition qt (j i : N) : N := get2 q_tab j i.
Definition mt (j i : N) : N := get2 m_tab j i.

(** pytwofish.py:210-231 *)
Definition gen_mk_tab (k_len : N) (key : list N) : list (list N) :=
  let kb i n := byte (get key i) n in
  let row f := map (fun i => f (i mod 0x100)) (upto 256) in
  if k_len =? 2 then
    [ row (fun by_ => mt 0 (N.lxor (qt 0 (N.lxor (qt 0 by_) (kb 1 0))) (kb 0 0)));
      row (fun by_ => mt 1 (N.lxor (qt 0 (N.lxor (qt 1 by_) (kb 1 1))) (kb 0 1)));
      row (fun by_ => mt 2 (N.lxor (qt 1 (N.lxor (qt 0 by_) (kb 1 2))) (kb 0 2)));
      row (fun by_ => mt 3 (N.lxor (qt 1 (N.lxor (qt 1 by_) (kb 1 3))) (kb 0 3))) ]
  else if k_len =? 3 then
    [ row (fun by_ => mt 0 (N.lxor (qt 0 (N.lxor (qt 0 (N.lxor (qt 1 by_) (kb 2 0))) (kb 1 0))) (kb 0 0)));
      row (fun by_ => mt 1 (N.lxor (qt 0 (N.lxor (qt 1 (N.lxor (qt 1 by_) (kb 2 1))) (kb 1 1))) (kb 0 1)));
      row (fun by_ => mt 2 (N.lxor (qt 1 (N.lxor (qt 0 (N.lxor (qt 0 by_) (kb 2 2))) (kb 1 2))) (kb 0 2)));
      row (fun by_ => mt 3 (N.lxor (qt 1 (N.lxor (qt 1 (N.lxor (qt 0 by_) (kb 2 3))) (kb 1 3))) (kb 0 3))) ]
  else if k_len =? 4 then
    [ row (fun by_ => mt 0 (N.lxor (qt 0 (N.lxor (qt 0 (N.lxor (qt 1 (N.lxor (qt 1 by_) (kb 3 0))) (kb 2 0))) (kb 1 0))) (kb 0 0)));
      row (fun by_ => mt 1 (N.lxor (qt 0 (N.lxor (qt 1 (N.lxor (qt 1 (N.lxor (qt 0 by_) (kb 3 1))) (kb 2 1))) (kb 1 1))) (kb 0 1)));
      row (fun by_ => mt 2 (N.lxor (qt 1 (N.lxor (qt 0 (N.lxor (qt 0 (N.lxor (qt 0 by_) (kb 3 2))) (kb 2 2))) (kb 1 2))) (kb 0 2)));
      row (fun by_ => mt 3 (N.lxor (qt 1 (N.lxor (qt 1 (N.lxor (qt 0 (N.lxor (qt 1 by_) (kb 3 3))) (kb 2 3))) (kb 1 3))) (kb 0 3))) ]
  else [repeat 0 256; repeat 0 256; repeat 0 256; repeat 0 256].

(** pytwofish.py:233-253 *)
Definition h_fun (k_len x : N) (key : list N) : N :=
  let kb i n := byte (get key i) n in
  let '(b0, b1, b2, b3) := (byte x 0, byte x 1, byte x 2, byte x 3) in
  let '(b0, b1, b2, b3) :=
    if 4 <=? k_len then (N.lxor (qt 1 b0) (kb 3 0), N.lxor (qt 0 b1) (kb 3 1), N.lxor (qt 0 b2) (kb 3 2), N.lxor (qt 1 b3) (kb 3 3))
    else (b0, b1, b2, b3) in
  let '(b0, b1, b2, b3) :=
    if 3 <=? k_len then (N.lxor (qt 1 b0) (kb 2 0), N.lxor (qt 1 b1) (kb 2 1), N.lxor (qt 0 b2) (kb 2 2), N.lxor (qt 0 b3) (kb 2 3))
    else (b0, b1, b2, b3) in
  let '(b0, b1, b2, b3) :=
    if 2 <=? k_len then
      (N.lxor (qt 0 (N.lxor (qt 0 b0) (kb 1 0))) (kb 0 0),
       N.lxor (qt 0 (N.lxor (qt 1 b1) (kb 1 1))) (kb 0 1),
       N.lxor (qt 1 (N.lxor (qt 0 b2) (kb 1 2))) (kb 0 2),
       N.lxor (qt 1 (N.lxor (qt 1 b3) (kb 1 3))) (kb 0 3))
    else (b0, b1, b2, b3) in
  N.lxor (N.lxor (N.lxor (mt 0 b0) (mt 1 b1)) (mt 2 b2)) (mt 3 b3).

(** pytwofish.py:255-269: one iteration of the loop, then eight of them. *)
Definition mds_step (p : N * N) : N * N :=
  let '(p0, p1) := p in
  let t := N.shiftr p1 24 in
  let p1 := N.lor (N.land (N.shiftl p1 8) 0xffffffff) (N.shiftr p0 24) in
  let p0 := N.land (N.shiftl p0 8) 0xffffffff in
  let u := N.land (N.shiftl t 1) 0xffffffff in
  let u := if N.testbit t 7 then N.lxor u 0x14d else u in
  let p1 := N.lxor p1 (N.lxor t (N.land (N.shiftl u 16) 0xffffffff)) in
  let u := N.lxor u (N.shiftr t 1) in
  let u := if N.testbit t 0 then N.lxor u (N.shiftr 0x14d 1) else u in
  let p1 := N.lxor p1 (N.lor (N.land (N.shiftl u 24) 0xffffffff) (N.land (N.shiftl u 8) 0xffffffff)) in
  (p0, p1).
Definition mds_rem (p0 p1 : N) : N :=
  snd (mds_step (mds_step (mds_step (mds_step (mds_step (mds_step (mds_step (mds_step (p0, p1))))))))).

(** The part of class TWI (pytwofish.py:148-157) that encrypt/decrypt read. *)
Record twi := MkTwi { l_key : list N; mk_tab : list (list N) }.

(** pytwofish.py:284-290: me_key, mo_key and s_key; lists beyond k_len are 0 there and never read. *)
Definition me_key (k_len : nat) (in_key : list N) : list N := map (fun i => nth (i + i) in_key 0) (seq 0 k_len).
Definition mo_key (k_len : nat) (in_key : list N) : list N := map (fun i => nth (i + i + 1) in_key 0) (seq 0 k_len).
Definition s_key (k_len : nat) (in_key : list N) : list N :=
  rev (map (fun i => mds_rem (nth (i + i) in_key 0) (nth (i + i + 1) in_key 0)) (seq 0 k_len)).

(** pytwofish.py:292-298: one iteration, for even i. *)
Definition lkey_pair (k_len : nat) (in_key : list N) (i : N) : list N :=
  let a := (0x01010101 * i) mod 0x100000000 in
  let b := (a + 0x01010101) mod 0x100000000 in
  let a := h_fun (N.of_nat k_len) a (me_key k_len in_key) in
  let b := rotl32 (h_fun (N.of_nat k_len) b (mo_key k_len in_key)) 8 in
  [(a + b) mod 0x100000000; rotl32 ((a + 2 * b) mod 0x100000000) 9].

(** pytwofish.py:271-299; k_len = int((key_len*8)/64) *)
Definition set_key (in_key : list N) (key_len : nat) : twi :=
  let k_len := (key_len * 8 / 64)%nat in
  MkTwi (flat_map (fun i => lkey_pair k_len in_key (2 * i)) (upto 20))
        (gen_mk_tab (N.of_nat k_len) (s_key k_len in_key)).

Definition lk (c : twi) (i : N) : N := get (l_key c) i.
Definition mk (c : twi) (j i : N) : N := get2 (mk_tab c) j i.

(** The expressions for t0 and t1 in encrypt and decrypt. *)
Definition g0 (c : twi) (x : N) : N :=
  N.lxor (N.lxor (N.lxor (mk c 0 (byte x 0)) (mk c 1 (byte x 1))) (mk c 2 (byte x 2))) (mk c 3 (byte x 3)).
Definition g1 (c : twi) (x : N) : N :=
  N.lxor (N.lxor (N.lxor (mk c 0 (byte x 3)) (mk c 1 (byte x 0))) (mk c 2 (byte x 1))) (mk c 3 (byte x 2)).

Definition block := (N * N * N * N)%type.

(** pytwofish.py:309-320: body of the loop of [encrypt] *)
Definition enc_body (c : twi) (i : N) (b : block) : block :=
  let '(b0, b1, b2, b3) := b in
  let t1 := g1 c b1 in
  let t0 := g0 c b0 in
  let b2 := rotr32 (N.lxor b2 ((t0 + t1 + lk c (4 * i + 8)) mod 0x100000000)) 1 in
  let b3 := N.lxor (rotl32 b3 1) ((t0 + 2 * t1 + lk c (4 * i + 9)) mod 0x100000000) in
  let t1 := g1 c b3 in
  let t0 := g0 c b2 in
  let b0 := rotr32 (N.lxor b0 ((t0 + t1 + lk c (4 * i + 10)) mod 0x100000000)) 1 in
  let b1 := N.lxor (rotl32 b1 1) ((t0 + 2 * t1 + lk c (4 * i + 11)) mod 0x100000000) in
  (b0, b1, b2, b3).
(** pytwofish.py:301-327 *)
Definition tf_encrypt (c : twi) (b : block) : block :=
  let '(a0, a1, a2, a3) := b in
  let b := (N.lxor a0 (lk c 0), N.lxor a1 (lk c 1), N.lxor a2 (lk c 2), N.lxor a3 (lk c 3)) in
  let '(b0, b1, b2, b3) := fold_left (fun b i => enc_body c i b) [0;1;2;3;4;5;6;7] b in
  (N.lxor b2 (lk c 4), N.lxor b3 (lk c 5), N.lxor b0 (lk c 6), N.lxor b1 (lk c 7)).

(** pytwofish.py:337-348: body of the loop of [decrypt] *)
Definition dec_body (c : twi) (i : N) (b : block) : block :=
  let '(b0, b1, b2, b3) := b in
  let t1 := g1 c b1 in
  let t0 := g0 c b0 in
  let b2 := N.lxor (rotl32 b2 1) ((t0 + t1 + lk c (4 * i + 10)) mod 0x100000000) in
  let b3 := rotr32 (N.lxor b3 ((t0 + 2 * t1 + lk c (4 * i + 11)) mod 0x100000000)) 1 in
  let t1 := g1 c b3 in
  let t0 := g0 c b2 in
  let b0 := N.lxor (rotl32 b0 1) ((t0 + t1 + lk c (4 * i + 8)) mod 0x100000000) in
  let b1 := rotr32 (N.lxor b1 ((t0 + 2 * t1 + lk c (4 * i + 9)) mod 0x100000000)) 1 in
  (b0, b1, b2, b3).
(** pytwofish.py:329-355 *)
Definition tf_decrypt (c : twi) (b : block) : block :=
  let '(a0, a1, a2, a3) := b in
  let b := (N.lxor a0 (lk c 4), N.lxor a1 (lk c 5), N.lxor a2 (lk c 6), N.lxor a3 (lk c 7)) in
  let '(b0, b1, b2, b3) := fold_left (fun b i => dec_body c i b) [7;6;5;4;3;2;1;0] b in
  (N.lxor b2 (lk c 0), N.lxor b3 (lk c 1), N.lxor b0 (lk c 2), N.lxor b1 (lk c 3)).

(** [struct.unpack("<L", ...)] over the whole string, four bytes at a time. *)
Fixpoint words (l : bytes) : list N :=
  match l with
  | a :: b :: c :: d :: l' => le_dec [a; b; c; d] :: words l'
  | _ => []
  end.
(** pytwofish.py:55-79: KeyError for other lengths. *)
Definition tf_new (key : bytes) : res twi :=
  let n := List.length key in
  if ((n =? 16) || (n =? 24) || (n =? 32))%nat then Ok (set_key (words key) n) else Err Ex_Key.

(** pytwofish.py:81-115, on one 16-byte block (the chaining modes never pass more). *)
Definition block_of_bytes (l : bytes) : block :=
  let w := words l in (nth 0 w 0, nth 1 w 0, nth 2 w 0, nth 3 w 0).
Definition bytes_of_block (b : block) : bytes :=
  let '(b0, b1, b2, b3) := b in le_enc 4 b0 ++ le_enc 4 b1 ++ le_enc 4 b2 ++ le_enc 4 b3.
Definition tf_encrypt_block (c : twi) (l : bytes) : bytes := bytes_of_block (tf_encrypt c (block_of_bytes l)).
Definition tf_decrypt_block (c : twi) (l : bytes) : bytes := bytes_of_block (tf_decrypt c (block_of_bytes l)).

(** The self test of pytwofish.py:357-360, run on the model. *)
Definition selftest_key : bytes :=
  [0xD4;0x3B;0xB7;0x55;0x6E;0xA3;0x2E;0x46;0xF2;0xA2;0x82;0xB7;0xD4;0x5B;0x4E;0x0D;
   0x57;0xFF;0x73;0x9D;0x4D;0xC9;0x2C;0x1B;0xD7;0xFC;0x01;0x70;0x0C;0xC8;0x21;0x6F].
Definition selftest_dat : bytes :=
  [0x90;0xAF;0xE9;0x1B;0xB2;0x88;0x54;0x4F;0x2C;0x32;0xDC;0x23;0x9B;0x26;0x35;0xE6].
Definition selftest_ct : bytes :=
  [0x6c;0xb4;0x56;0x1c;0x40;0xbf;0x0a;0x97;0x05;0x93;0x1c;0xb6;0xd4;0x08;0xe7;0xfa].
