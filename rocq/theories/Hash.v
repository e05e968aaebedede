(** SHA-256, SHA-512 (FIPS 180-4) and HMAC-SHA-256 (RFC 2104): the algorithms behind hashlib.sha256, hashlib.sha512 and
    hmac.new(_, _, sha256) in kdbx_parsing/common.py, kdbx3.py and kdbx4.py.  Used by Real.v; models no code of /repo. *)
From Coq Require Import ZifyBool ZifyNat ZifyN.
From Verif Require Import Base Lib.

Definition h256 : list N :=
  [0x6a09e667; 0xbb67ae85; 0x3c6ef372; 0xa54ff53a; 0x510e527f; 0x9b05688c; 0x1f83d9ab; 0x5be0cd19].
Definition k256 : list N :=
  [0x428a2f98; 0x71374491; 0xb5c0fbcf; 0xe9b5dba5; 0x3956c25b; 0x59f111f1; 0x923f82a4; 0xab1c5ed5;
   0xd807aa98; 0x12835b01; 0x243185be; 0x550c7dc3; 0x72be5d74; 0x80deb1fe; 0x9bdc06a7; 0xc19bf174;
   0xe49b69c1; 0xefbe4786; 0x0fc19dc6; 0x240ca1cc; 0x2de92c6f; 0x4a7484aa; 0x5cb0a9dc; 0x76f988da;
   0x983e5152; 0xa831c66d; 0xb00327c8; 0xbf597fc7; 0xc6e00bf3; 0xd5a79147; 0x06ca6351; 0x14292967;
   0x27b70a85; 0x2e1b2138; 0x4d2c6dfc; 0x53380d13; 0x650a7354; 0x766a0abb; 0x81c2c92e; 0x92722c85;
   0xa2bfe8a1; 0xa81a664b; 0xc24b8b70; 0xc76c51a3; 0xd192e819; 0xd6990624; 0xf40e3585; 0x106aa070;
   0x19a4c116; 0x1e376c08; 0x2748774c; 0x34b0bcb5; 0x391c0cb3; 0x4ed8aa4a; 0x5b9cca4f; 0x682e6ff3;
   0x748f82ee; 0x78a5636f; 0x84c87814; 0x8cc70208; 0x90befffa; 0xa4506ceb; 0xbef9a3f7; 0xc67178f2].
Definition h512 : list N :=
  [0x6a09e667f3bcc908; 0xbb67ae8584caa73b; 0x3c6ef372fe94f82b; 0xa54ff53a5f1d36f1;
   0x510e527fade682d1; 0x9b05688c2b3e6c1f; 0x1f83d9abfb41bd6b; 0x5be0cd19137e2179].
Definition k512 : list N :=
  [0x428a2f98d728ae22; 0x7137449123ef65cd; 0xb5c0fbcfec4d3b2f; 0xe9b5dba58189dbbc;
   0x3956c25bf348b538; 0x59f111f1b605d019; 0x923f82a4af194f9b; 0xab1c5ed5da6d8118;
   0xd807aa98a3030242; 0x12835b0145706fbe; 0x243185be4ee4b28c; 0x550c7dc3d5ffb4e2;
   0x72be5d74f27b896f; 0x80deb1fe3b1696b1; 0x9bdc06a725c71235; 0xc19bf174cf692694;
   0xe49b69c19ef14ad2; 0xefbe4786384f25e3; 0x0fc19dc68b8cd5b5; 0x240ca1cc77ac9c65;
   0x2de92c6f592b0275; 0x4a7484aa6ea6e483; 0x5cb0a9dcbd41fbd4; 0x76f988da831153b5;
   0x983e5152ee66dfab; 0xa831c66d2db43210; 0xb00327c898fb213f; 0xbf597fc7beef0ee4;
   0xc6e00bf33da88fc2; 0xd5a79147930aa725; 0x06ca6351e003826f; 0x142929670a0e6e70;
   0x27b70a8546d22ffc; 0x2e1b21385c26c926; 0x4d2c6dfc5ac42aed; 0x53380d139d95b3df;
   0x650a73548baf63de; 0x766a0abb3c77b2a8; 0x81c2c92e47edaee6; 0x92722c851482353b;
   0xa2bfe8a14cf10364; 0xa81a664bbc423001; 0xc24b8b70d0f89791; 0xc76c51a30654be30;
   0xd192e819d6ef5218; 0xd69906245565a910; 0xf40e35855771202a; 0x106aa07032bbd1b8;
   0x19a4c116b8d2d0c8; 0x1e376c085141ab53; 0x2748774cdf8eeb99; 0x34b0bcb5e19b48a8;
   0x391c0cb3c5c95a63; 0x4ed8aa4ae3418acb; 0x5b9cca4f7763e373; 0x682e6ff3d6b2b8a3;
   0x748f82ee5defb2fc; 0x78a5636f43172f60; 0x84c87814a1f0ab72; 0x8cc702081a6439ec;
   0x90befffa23631e28; 0xa4506cebde82bde9; 0xbef9a3f7b2c67915; 0xc67178f2e372532b;
   0xca273eceea26619c; 0xd186b8c721c0c207; 0xeada7dd6cde0eb1e; 0xf57d4f7fee6ed178;
   0x06f067aa72176fba; 0x0a637dc5a2c898a6; 0x113f9804bef90dae; 0x1b710b35131c471b;
   0x28db77f523047d84; 0x32caab7b40c72493; 0x3c9ebe0a15c9bebc; 0x431d67c49c100d4c;
   0x4cc5d4becb3e42b6; 0x597f299cfc657e2a; 0x5fcb6fab3ad6faec; 0x6c44198c4a475817].

Definition mask32 : N := 0xffffffff.
Definition mask64 : N := 0xffffffffffffffff.
(** One of the two: word size, mask, bytes per word, constants, the six functions as rotation amounts, bytes of the length field. *)
Record sha := MkSha { s_w : N; s_mask : N; s_wb : nat; s_lb : nat; s_k : list N; s_big0 : N * N * N; s_big1 : N * N * N; s_small0 : N * N * N; s_small1 : N * N * N }.
Definition p256 : sha := MkSha 32 mask32 4 8 k256 (2, 13, 22) (6, 11, 25) (7, 18, 3) (17, 19, 10).
Definition p512 : sha := MkSha 64 mask64 8 16 k512 (28, 34, 39) (14, 18, 41) (1, 8, 7) (19, 61, 6).

Definition rotr (P : sha) (x n : N) : N := N.lor (N.shiftr x n) (N.land (N.shiftl x (s_w P - n)) (s_mask P)).
Definition big (P : sha) (r : N * N * N) (x : N) : N := let '(a, b, c) := r in N.lxor (rotr P x a) (N.lxor (rotr P x b) (rotr P x c)).
Definition small (P : sha) (r : N * N * N) (x : N) : N := let '(a, b, c) := r in N.lxor (rotr P x a) (N.lxor (rotr P x b) (N.shiftr x c)).
Definition wadd (P : sha) (a b : N) : N := N.land (a + b) (s_mask P).
Definition ch (x y z : N) : N := N.lxor z (N.land x (N.lxor y z)).
Definition maj (x y z : N) : N := N.lxor (N.land x y) (N.land z (N.lxor x y)).
Definition be_dec (l : bytes) : N := fold_left (fun a b => a * 256 + b) l 0.
Definition be_enc (k : nat) (n : N) : bytes := rev (le_enc k n).
Fixpoint pieces (fuel : nat) (n : nat) (d : bytes) : list bytes :=
  match fuel, d with
  | O, _ | _, [] => []
  | S f, _ => firstn n d :: pieces f n (skipn n d)
  end.
(** The message schedule, latest word first. *)
Fixpoint schedule (P : sha) (n : nat) (l : list N) : list N :=
  match n with
  | O => l
  | S n => schedule P n (wadd P (wadd P (small P (s_small1 P) (nth 1 l 0)) (nth 6 l 0)) (wadd P (small P (s_small0 P) (nth 14 l 0)) (nth 15 l 0)) :: l)
  end.
Definition state : Type := N * N * N * N * N * N * N * N.
Definition round (P : sha) (s : state) (kw : N * N) : state :=
  let '(a, b, c, d, e, f, g, h) := s in
  let t1 := wadd P (wadd P h (big P (s_big1 P) e)) (wadd P (ch e f g) (wadd P (fst kw) (snd kw))) in
  let t2 := wadd P (big P (s_big0 P) a) (maj a b c) in
  (wadd P t1 t2, a, b, c, wadd P d t1, e, f, g).
Definition add_state (P : sha) (s t : state) : state :=
  let '(a, b, c, d, e, f, g, h) := s in let '(a', b', c', d', e', f', g', h') := t in
  (wadd P a a', wadd P b b', wadd P c c', wadd P d d', wadd P e e', wadd P f f', wadd P g g', wadd P h h').
Definition compression (P : sha) (s : state) (block : bytes) : state :=
  let w := rev (schedule P (List.length (s_k P) - 16) (rev (map be_dec (pieces 16 (s_wb P) block)))) in
  add_state P s (fold_left (round P) (combine (s_k P) w) s).
Definition block_len (P : sha) : nat := (16 * s_wb P)%nat.
Definition padded (P : sha) (m : bytes) : bytes :=
  let b := N.of_nat (block_len P) in let l := lenN m in
  m ++ [128] ++ repeat 0 (N.to_nat ((b - (l + 1 + N.of_nat (s_lb P)) mod b) mod b)) ++ be_enc (s_lb P) (8 * l).
Definition start (l : list N) : state := (nth 0 l 0, nth 1 l 0, nth 2 l 0, nth 3 l 0, nth 4 l 0, nth 5 l 0, nth 6 l 0, nth 7 l 0).
Definition output (P : sha) (s : state) : bytes :=
  let '(a, b, c, d, e, f, g, h) := s in List.concat (map (be_enc (s_wb P)) [a; b; c; d; e; f; g; h]).
Definition hashed (P : sha) (h0 : list N) (m : bytes) : bytes :=
  let p := padded P m in output P (fold_left (compression P) (pieces (List.length p) (block_len P) p) (start h0)).
Definition sha256_of : bytes -> bytes := hashed p256 h256.
Definition sha512_of : bytes -> bytes := hashed p512 h512.
Definition hmac_of (k m : bytes) : bytes :=
  let k0 := if (64 <? List.length k)%nat then sha256_of k else k in
  let k1 := k0 ++ repeat 0 (64 - List.length k0) in
  sha256_of (map (N.lxor 0x5c) k1 ++ sha256_of (map (N.lxor 0x36) k1 ++ m)).

Lemma be_enc_digest k n : digest k (be_enc k n).
Proof. split; [unfold be_enc; rewrite rev_length; apply le_enc_length|]. unfold be_enc, bytes_ok. apply Forall_rev, le_enc_ok. Qed.
Lemma concat_digest k (l : list N) : digest (k * List.length l) (List.concat (map (be_enc k) l)).
Proof.
  induction l as [|x l IH]; cbn [map List.concat List.length]; [split; [rewrite Nat.mul_0_r; reflexivity|constructor]|]. destruct (be_enc_digest k x) as (A & B). destruct IH as (C & D). split.
  - rewrite app_length, A, C. lia.
  - apply bytes_ok_app. auto.
Qed.
Lemma hashed_digest P h m : digest (8 * s_wb P) (hashed P h m).
Proof. unfold hashed, output. cbv zeta. destruct (fold_left _ _ _) as [[[[[[[a b] c] d] e] f] g] h']. rewrite Nat.mul_comm. exact (concat_digest (s_wb P) [a; b; c; d; e; f; g; h']). Qed.
Lemma sha256_digest m : digest 32 (sha256_of m). Proof. exact (hashed_digest p256 h256 m). Qed.
Lemma sha512_digest m : digest 64 (sha512_of m). Proof. exact (hashed_digest p512 h512 m). Qed.
Lemma hmac_digest k m : digest 32 (hmac_of k m). Proof. apply sha256_digest. Qed.

(** Test vectors of FIPS 180-4 and RFC 4231 (test case 2). *)
Definition hexv (b : bytes) : N := be_dec b.
Example sha256_abc : hexv (sha256_of ($"abc")) = 0xba7816bf8f01cfea414140de5dae2223b00361a396177a9cb410ff61f20015ad.
Proof. vm_compute. reflexivity. Qed.
Example sha256_two_blocks : hexv (sha256_of ($"abcdbcdecdefdefgefghfghighijhijkijkljklmklmnlmnomnopnopq")) = 0x248d6a61d20638b8e5c026930c3e6039a33ce45964ff2167f6ecedd419db06c1.
Proof. vm_compute. reflexivity. Qed.
Example sha512_abc : hexv (sha512_of ($"abc")) = 0xddaf35a193617abacc417349ae20413112e6fa4e89a97ea20a9eeee64b55d39a2192992a274fc1a836ba3c23a3feebbd454d4423643ce80e2a9ac94fa54ca49f.
Proof. vm_compute. reflexivity. Qed.
Example hmac_rfc4231 : hexv (hmac_of ($"Jefe") ($"what do ya want for nothing?")) = 0x5bdcc146bf60754e6a042426089575c75a003f089d2739839dec58b964ec3843.
Proof. vm_compute. reflexivity. Qed.
