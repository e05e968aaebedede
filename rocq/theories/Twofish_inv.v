(** pytwofish: decryption inverts encryption. *)
From Coq Require Import ZifyBool ZifyNat ZifyN.
From Verif Require Import Base Twofish.
Ltac Zify.zify_post_hook ::= Z.div_mod_to_equations.

Definition w32 (x : N) : Prop := x < 2 ^ 32.

Lemma lt_pow2_bits x n : x < 2 ^ n <-> (forall i, n <= i -> N.testbit x i = false).
Proof.
  split.
  - intros H i Hi. destruct (N.eq_dec x 0) as [->|Hx]; [apply N.bits_0|].
    apply N.bits_above_log2. apply N.log2_lt_pow2 in H; lia.
  - intros H. destruct (N.eq_dec x 0) as [->|Hx].
    + apply N.neq_0_lt_0, N.pow_nonzero. discriminate.
    + destruct (N.ltb_spec (N.log2 x) n) as [Hl|Hl]; [apply N.log2_lt_pow2; lia|].
      pose proof (N.bit_log2 x Hx) as B. rewrite (H _ Hl) in B. discriminate.
Qed.
Lemma lxor_lt x y n : x < 2 ^ n -> y < 2 ^ n -> N.lxor x y < 2 ^ n.
Proof.
  rewrite !lt_pow2_bits. intros Hx Hy i Hi. rewrite N.lxor_spec, Hx, Hy by assumption. reflexivity.
Qed.
Lemma w32_lxor x y : w32 x -> w32 y -> w32 (N.lxor x y).
Proof. apply lxor_lt. Qed.
Lemma w32_mod x : w32 (x mod 0x100000000).
Proof. unfold w32. apply N.mod_lt. discriminate. Qed.

Lemma lor_disjoint a b : N.land a b = 0 -> N.lor a b = a + b.
Proof. intros H. rewrite N.add_nocarry_lxor by exact H. symmetry. now apply N.lxor_lor. Qed.

Lemma mask32 x : N.land x 0xFFFFFFFF = x mod 2 ^ 32.
Proof. change 0xFFFFFFFF with (N.ones 32). apply N.land_ones. Qed.

Lemma rot_disjoint x n : x < 2 ^ 32 -> n <= 32 ->
  N.land (N.land (N.shiftl x n) 0xFFFFFFFF) (N.shiftr x (32 - n)) = 0.
Proof.
  intros Hx Hn. apply N.bits_inj. intros i. rewrite N.bits_0, !N.land_spec.
  rewrite N.shiftr_spec by lia.
  destruct (N.ltb_spec i n).
  - rewrite N.shiftl_spec_low by assumption. reflexivity.
  - replace (N.testbit x (i + (32 - n))) with false; [now rewrite andb_false_r|].
    symmetry. apply (proj1 (lt_pow2_bits x 32) Hx). lia.
Qed.
Lemma rotl32_arith x n : w32 x -> n <= 32 -> rotl32 x n = (x * 2 ^ n) mod 2 ^ 32 + x / 2 ^ (32 - n).
Proof.
  intros Hx Hn. unfold rotl32. rewrite lor_disjoint by (apply rot_disjoint; assumption).
  rewrite mask32, N.shiftl_mul_pow2, N.shiftr_div_pow2. reflexivity.
Qed.
Lemma rotr32_arith x n : w32 x -> n <= 32 -> rotr32 x n = (x * 2 ^ (32 - n)) mod 2 ^ 32 + x / 2 ^ n.
Proof.
  intros Hx Hn. unfold rotr32. rewrite N.lor_comm.
  replace (N.shiftr x n) with (N.shiftr x (32 - (32 - n))) by (f_equal; lia).
  change (N.lor (N.land (N.shiftl x (32 - n)) 4294967295) (N.shiftr x (32 - (32 - n)))) with (rotl32 x (32 - n)).
  rewrite rotl32_arith by (assumption || lia). do 3 f_equal. lia.
Qed.
Lemma rotl1 x : w32 x -> rotl32 x 1 = (x mod 2147483648) * 2 + x / 2147483648.
Proof.
  intros H. rewrite rotl32_arith by (assumption || lia). unfold w32 in H.
  change (2 ^ 1) with 2. change (2 ^ 32) with 4294967296 in *. change (2 ^ (32 - 1)) with 2147483648. lia.
Qed.
Lemma rotr1 x : w32 x -> rotr32 x 1 = (x mod 2) * 2147483648 + x / 2.
Proof.
  intros H. rewrite rotr32_arith by (assumption || lia). unfold w32 in H.
  change (2 ^ 1) with 2. change (2 ^ 32) with 4294967296 in *. change (2 ^ (32 - 1)) with 2147483648. lia.
Qed.
Lemma w32_rotl1 x : w32 x -> w32 (rotl32 x 1).
Proof. intros H. rewrite rotl1 by exact H. unfold w32 in *. change (2 ^ 32) with 4294967296 in *. lia. Qed.
Lemma w32_rotr1 x : w32 x -> w32 (rotr32 x 1).
Proof. intros H. rewrite rotr1 by exact H. unfold w32 in *. change (2 ^ 32) with 4294967296 in *. lia. Qed.
Lemma rotr_rotl x : w32 x -> rotr32 (rotl32 x 1) 1 = x.
Proof.
  intros H. rewrite rotr1 by (apply w32_rotl1, H). rewrite rotl1 by exact H.
  unfold w32 in *. change (2 ^ 32) with 4294967296 in *. lia.
Qed.
Lemma rotl_rotr x : w32 x -> rotl32 (rotr32 x 1) 1 = x.
Proof.
  intros H. rewrite rotl1 by (apply w32_rotr1, H). rewrite rotr1 by exact H.
  unfold w32 in *. change (2 ^ 32) with 4294967296 in *. lia.
Qed.
Lemma rotl32_w32 x n : w32 x -> n <= 32 -> w32 (rotl32 x n).
Proof.
  intros Hx Hn. unfold w32. apply lt_pow2_bits. intros i Hi. unfold rotl32. rewrite N.lor_spec, N.land_spec, N.shiftr_spec by lia.
  rewrite (proj1 (lt_pow2_bits x 32) Hx) by lia.
  change 0xFFFFFFFF with (N.ones 32). rewrite N.ones_spec_high by lia. now rewrite andb_false_r.
Qed.

Lemma xor_cancel x y : N.lxor (N.lxor x y) y = x.
Proof. rewrite N.lxor_assoc, N.lxor_nilpotent. apply N.lxor_0_r. Qed.

Definition blk_ok (b : block) : Prop := let '(b0, b1, b2, b3) := b in w32 b0 /\ w32 b1 /\ w32 b2 /\ w32 b3.
Definition swap (b : block) : block := let '(b0, b1, b2, b3) := b in (b2, b3, b0, b1).
Lemma swap_swap b : swap (swap b) = b.
Proof. destruct b as [[[b0 b1] b2] b3]. reflexivity. Qed.
Lemma swap_ok b : blk_ok b -> blk_ok (swap b).
Proof. destruct b as [[[b0 b1] b2] b3]. cbn. tauto. Qed.

Lemma enc_body_ok c i b : blk_ok b -> blk_ok (enc_body c i b).
Proof.
  destruct b as [[[b0 b1] b2] b3]. intros (H0 & H1 & H2 & H3). unfold enc_body, blk_ok. cbv zeta.
  repeat split; auto using w32_lxor, w32_mod, w32_rotl1, w32_rotr1.
Qed.
Lemma dec_body_ok c i b : blk_ok b -> blk_ok (dec_body c i b).
Proof.
  destruct b as [[[b0 b1] b2] b3]. intros (H0 & H1 & H2 & H3). unfold dec_body, blk_ok. cbv zeta.
  repeat split; auto using w32_lxor, w32_mod, w32_rotl1, w32_rotr1.
Qed.
Lemma dec_enc_body c i b : blk_ok b -> dec_body c i (swap (enc_body c i b)) = swap b.
Proof.
  destruct b as [[[b0 b1] b2] b3]. intros (H0 & H1 & H2 & H3). unfold enc_body. cbv zeta. unfold swap at 1.
  set (n2 := rotr32 (N.lxor b2 _) 1). set (n3 := N.lxor (rotl32 b3 1) _).
  unfold dec_body. cbv zeta.
  rewrite !rotl_rotr by auto using w32_lxor, w32_mod.
  rewrite !xor_cancel. rewrite !(rotr_rotl b1) by assumption.
  unfold n2, n3. rewrite !rotl_rotr by auto using w32_lxor, w32_mod.
  rewrite !xor_cancel. rewrite !(rotr_rotl b3) by assumption. reflexivity.
Qed.
Lemma enc_dec_body c i b : blk_ok b -> enc_body c i (swap (dec_body c i b)) = swap b.
Proof.
  destruct b as [[[b0 b1] b2] b3]. intros (H0 & H1 & H2 & H3). unfold dec_body. cbv zeta. unfold swap at 1.
  set (n2 := N.lxor (rotl32 b2 1) _). set (n3 := rotr32 (N.lxor b3 _) 1).
  unfold enc_body. cbv zeta.
  rewrite !rotl_rotr by auto using w32_lxor, w32_mod.
  rewrite !xor_cancel. rewrite !(rotr_rotl b0) by assumption.
  unfold n2, n3. rewrite !rotl_rotr by auto using w32_lxor, w32_mod.
  rewrite !xor_cancel. rewrite !(rotr_rotl b2) by assumption. reflexivity.
Qed.

Lemma fold_ok (f : N -> block -> block) : (forall i b, blk_ok b -> blk_ok (f i b)) ->
  forall l b, blk_ok b -> blk_ok (fold_left (fun b i => f i b) l b).
Proof. intros Hf l. induction l as [|i l IH]; intros b Hb; cbn [fold_left]; auto. Qed.
Lemma fold_inverse (f g : N -> block -> block) :
  (forall i b, blk_ok b -> blk_ok (f i b)) -> (forall i b, blk_ok b -> g i (swap (f i b)) = swap b) ->
  forall l b, blk_ok b -> fold_left (fun b i => g i b) (rev l) (swap (fold_left (fun b i => f i b) l b)) = swap b.
Proof.
  intros Hok Hinv l. induction l as [|i l IH]; intros b Hb; [reflexivity|].
  cbn [fold_left rev]. rewrite fold_left_app. cbn [fold_left]. rewrite IH by auto. auto.
Qed.

Definition ctx_ok (c : twi) : Prop := forall i, w32 (lk c i).

Lemma tf_encrypt_ok c b : ctx_ok c -> blk_ok b -> blk_ok (tf_encrypt c b).
Proof.
  intros Hc. destruct b as [[[a0 a1] a2] a3]. intros (H0 & H1 & H2 & H3). unfold tf_encrypt.
  pose proof (fold_ok (enc_body c) (enc_body_ok c) [0;1;2;3;4;5;6;7]
    (N.lxor a0 (lk c 0), N.lxor a1 (lk c 1), N.lxor a2 (lk c 2), N.lxor a3 (lk c 3))) as F.
  destruct (fold_left _ _ _) as [[[b0 b1] b2] b3].
  destruct F as (F0 & F1 & F2 & F3); [repeat split; auto using w32_lxor|].
  repeat split; auto using w32_lxor.
Qed.
Lemma tf_decrypt_ok c b : ctx_ok c -> blk_ok b -> blk_ok (tf_decrypt c b).
Proof.
  intros Hc. destruct b as [[[a0 a1] a2] a3]. intros (H0 & H1 & H2 & H3). unfold tf_decrypt.
  pose proof (fold_ok (dec_body c) (dec_body_ok c) [7;6;5;4;3;2;1;0]
    (N.lxor a0 (lk c 4), N.lxor a1 (lk c 5), N.lxor a2 (lk c 6), N.lxor a3 (lk c 7))) as F.
  destruct (fold_left _ _ _) as [[[b0 b1] b2] b3].
  destruct F as (F0 & F1 & F2 & F3); [repeat split; auto using w32_lxor|].
  repeat split; auto using w32_lxor.
Qed.

Lemma tf_dec_enc c b : ctx_ok c -> blk_ok b -> tf_decrypt c (tf_encrypt c b) = b.
Proof.
  intros Hc. destruct b as [[[a0 a1] a2] a3]. intros (H0 & H1 & H2 & H3). unfold tf_encrypt.
  set (w := (N.lxor a0 (lk c 0), N.lxor a1 (lk c 1), N.lxor a2 (lk c 2), N.lxor a3 (lk c 3))).
  assert (Hw : blk_ok w) by (repeat split; auto using w32_lxor).
  pose proof (fold_inverse (enc_body c) (dec_body c) (enc_body_ok c) (dec_enc_body c) [0;1;2;3;4;5;6;7] w Hw) as F.
  destruct (fold_left (fun b i => enc_body c i b) [0;1;2;3;4;5;6;7] w) as [[[b0 b1] b2] b3].
  unfold tf_decrypt. rewrite !xor_cancel. cbn [swap rev app] in F. rewrite F. unfold w, swap.
  rewrite !xor_cancel. reflexivity.
Qed.
Lemma tf_enc_dec c b : ctx_ok c -> blk_ok b -> tf_encrypt c (tf_decrypt c b) = b.
Proof.
  intros Hc. destruct b as [[[a0 a1] a2] a3]. intros (H0 & H1 & H2 & H3). unfold tf_decrypt.
  set (w := (N.lxor a0 (lk c 4), N.lxor a1 (lk c 5), N.lxor a2 (lk c 6), N.lxor a3 (lk c 7))).
  assert (Hw : blk_ok w) by (repeat split; auto using w32_lxor).
  pose proof (fold_inverse (dec_body c) (enc_body c) (dec_body_ok c) (enc_dec_body c) [7;6;5;4;3;2;1;0] w Hw) as F.
  destruct (fold_left (fun b i => dec_body c i b) [7;6;5;4;3;2;1;0] w) as [[[b0 b1] b2] b3].
  unfold tf_encrypt. rewrite !xor_cancel. cbn [swap rev app] in F. rewrite F. unfold w, swap.
  rewrite !xor_cancel. reflexivity.
Qed.

(** Subkeys are 32-bit words. *)
Lemma set_key_ok in_key n : ctx_ok (set_key in_key n).
Proof.
  intros i. unfold lk, get, set_key. cbn [l_key].
  set (l := flat_map _ _). assert (Forall w32 l).
  { apply Forall_flat_map. apply Forall_forall. intros j _. unfold lkey_pair. cbv zeta.
    constructor; [apply w32_mod|]. constructor; [|constructor]. apply rotl32_w32; [apply w32_mod|discriminate]. }
  destruct (nth_in_or_default (N.to_nat i) l 0) as [Hin| ->]; [|reflexivity].
  rewrite Forall_forall in H. auto.
Qed.
Lemma tf_new_ok key c : tf_new key = Ok c -> ctx_ok c.
Proof. unfold tf_new. destruct (_ || _); [|discriminate]. intros [= <-]. apply set_key_ok. Qed.

(** Bytes. *)
Lemma le_dec4 a b c d : le_dec [a; b; c; d] = a + 256 * (b + 256 * (c + 256 * d)).
Proof. cbn [le_dec]. lia. Qed.
Lemma len16 (l : bytes) : List.length l = 16%nat -> exists a0 a1 a2 a3 b0 b1 b2 b3 c0 c1 c2 c3 d0 d1 d2 d3,
  l = [a0;a1;a2;a3;b0;b1;b2;b3;c0;c1;c2;c3;d0;d1;d2;d3].
Proof.
  intros H. do 16 (destruct l as [|? l]; [discriminate H|]). destruct l; [|discriminate H].
  repeat eexists.
Qed.
Lemma le_dec_w32 a b c d : is_byte a -> is_byte b -> is_byte c -> is_byte d -> w32 (le_dec [a;b;c;d]).
Proof.
  unfold is_byte, w32. intros. rewrite le_dec4. change (2 ^ 32) with 4294967296. lia.
Qed.
Lemma block_of_bytes_ok l : bytes_ok l -> List.length l = 16%nat -> blk_ok (block_of_bytes l).
Proof.
  intros Hb Hl. destruct (len16 l Hl) as (a0&a1&a2&a3&b0&b1&b2&b3&c0&c1&c2&c3&d0&d1&d2&d3&->).
  unfold bytes_ok in Hb. rewrite !Forall_cons_iff in Hb. unfold block_of_bytes. cbn [words nth]. repeat split; apply le_dec_w32; tauto.
Qed.
Lemma bytes_of_block_ok b : bytes_ok (bytes_of_block b) /\ List.length (bytes_of_block b) = 16%nat.
Proof.
  destruct b as [[[b0 b1] b2] b3]. unfold bytes_of_block. split.
  - rewrite !bytes_ok_app. repeat split; apply le_enc_ok.
  - rewrite !app_length, !le_enc_length. reflexivity.
Qed.
Lemma block_bytes b : blk_ok b -> block_of_bytes (bytes_of_block b) = b.
Proof.
  destruct b as [[[b0 b1] b2] b3]. intros (H0 & H1 & H2 & H3). unfold block_of_bytes, bytes_of_block.
  assert (E : forall w r, w32 w -> words (le_enc 4 w ++ r) = w :: words r).
  { intros w r Hw. cbn [le_enc app words]. f_equal.
    change [w mod 256; (w / 256) mod 256; (w / 256 / 256) mod 256; (w / 256 / 256 / 256) mod 256] with (le_enc 4 w).
    apply le_dec_enc. exact Hw. }
  rewrite !E by assumption. rewrite <- (app_nil_r (le_enc 4 b3)), E by assumption. reflexivity.
Qed.
Lemma bytes_block l : bytes_ok l -> List.length l = 16%nat -> bytes_of_block (block_of_bytes l) = l.
Proof.
  intros Hb Hl. destruct (len16 l Hl) as (a0&a1&a2&a3&b0&b1&b2&b3&c0&c1&c2&c3&d0&d1&d2&d3&->).
  unfold bytes_ok in Hb. rewrite !Forall_cons_iff in Hb.
  assert (E : forall a b c d, is_byte a -> is_byte b -> is_byte c -> is_byte d -> le_enc 4 (le_dec [a;b;c;d]) = [a;b;c;d]).
  { intros. apply (le_enc_dec [a;b;c;d]). unfold bytes_ok. rewrite !Forall_cons_iff. auto 6. }
  unfold bytes_of_block, block_of_bytes. cbn [words nth]. rewrite !E by tauto. reflexivity.
Qed.

Lemma tf_block_dec_enc c l : ctx_ok c -> bytes_ok l -> List.length l = 16%nat ->
  tf_decrypt_block c (tf_encrypt_block c l) = l.
Proof.
  intros Hc Hb Hl. pose proof (block_of_bytes_ok l Hb Hl) as Ho. unfold tf_decrypt_block, tf_encrypt_block.
  rewrite block_bytes by (apply tf_encrypt_ok; assumption). rewrite tf_dec_enc by assumption. apply bytes_block; assumption.
Qed.
Lemma tf_block_enc_dec c l : ctx_ok c -> bytes_ok l -> List.length l = 16%nat ->
  tf_encrypt_block c (tf_decrypt_block c l) = l.
Proof.
  intros Hc Hb Hl. pose proof (block_of_bytes_ok l Hb Hl) as Ho. unfold tf_decrypt_block, tf_encrypt_block.
  rewrite block_bytes by (apply tf_decrypt_ok; assumption). rewrite tf_enc_dec by assumption. apply bytes_block; assumption.
Qed.
