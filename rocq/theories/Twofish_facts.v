(** pytwofish computes the published Twofish cipher. *)
From Coq Require Import ZifyBool ZifyNat ZifyN.
From Verif Require Import Base Twofish Twofish_inv TwofishSpec.
Ltac Zify.zify_post_hook ::= Z.div_mod_to_equations.

Lemma sweep (p : N -> bool) : forallb p (upto 256) = true -> forall x, x < 256 -> p x = true.
Proof.
  intros H x Hx. rewrite forallb_forall in H. apply H. unfold upto. apply in_map_iff.
  exists (N.to_nat x). split; [apply N2Nat.id|]. apply in_seq. lia.
Qed.
Lemma get_map (f : N -> N) x : x < 256 -> get (map f (upto 256)) x = f x.
Proof.
  intros H. unfold get, upto. rewrite map_map.
  rewrite nth_indep with (d' := f (N.of_nat 0)) by (rewrite map_length, seq_length; lia).
  rewrite (map_nth (fun n => f (N.of_nat n))). rewrite seq_nth by lia. f_equal. lia.
Qed.

(** *** Words and bytes *)
Definition b8 (x : N) : Prop := x < 256.
Lemma b8_lxor x y : b8 x -> b8 y -> b8 (N.lxor x y).
Proof. apply (lxor_lt x y 8). Qed.
Lemma bt_b8 x j : b8 (bt x j).
Proof. unfold b8, bt. apply N.mod_lt. discriminate. Qed.
Lemma byte_bt x j : byte x j = bt x j.
Proof.
  unfold byte, bt. change 255 with (N.ones 8). rewrite N.land_ones, N.shiftr_div_pow2, N.pow_mul_r. reflexivity.
Qed.
Lemma word_w32 a b c d : b8 a -> b8 b -> b8 c -> b8 d -> w32 (word a b c d).
Proof. unfold b8, w32, word. change (2 ^ 32) with 4294967296. lia. Qed.
Lemma bt_word a b c d : b8 a -> b8 b -> b8 c -> b8 d ->
  bt (word a b c d) 0 = a /\ bt (word a b c d) 1 = b /\ bt (word a b c d) 2 = c /\ bt (word a b c d) 3 = d.
Proof.
  unfold b8, bt, word. change (256 ^ 0) with 1. change (256 ^ 1) with 256.
  change (256 ^ 2) with 65536. change (256 ^ 3) with 16777216. lia.
Qed.
Lemma word_bt x : w32 x -> word (bt x 0) (bt x 1) (bt x 2) (bt x 3) = x.
Proof.
  unfold w32, bt, word. change (256 ^ 0) with 1. change (256 ^ 1) with 256.
  change (256 ^ 2) with 65536. change (256 ^ 3) with 16777216. change (2 ^ 32) with 4294967296. lia.
Qed.
Lemma bt_lxor x y j : bt (N.lxor x y) j = N.lxor (bt x j) (bt y j).
Proof.
  rewrite <- !byte_bt. unfold byte. rewrite N.shiftr_lxor.
  apply N.bits_inj. intros i. rewrite !N.land_spec, !N.lxor_spec, !N.land_spec.
  destruct (N.testbit 255 i); rewrite ?andb_true_r, ?andb_false_r; reflexivity.
Qed.
Lemma word_lxor a b c d a' b' c' d' : b8 a -> b8 b -> b8 c -> b8 d -> b8 a' -> b8 b' -> b8 c' -> b8 d' ->
  N.lxor (word a b c d) (word a' b' c' d') = word (N.lxor a a') (N.lxor b b') (N.lxor c c') (N.lxor d d').
Proof.
  intros. rewrite <- (word_bt (N.lxor _ _)) by (apply w32_lxor; apply word_w32; assumption).
  rewrite !bt_lxor.
  destruct (bt_word a b c d) as (-> & -> & -> & ->); try assumption.
  destruct (bt_word a' b' c' d') as (-> & -> & -> & ->); try assumption. reflexivity.
Qed.

(** *** q-tables *)
Lemma qt_q0 x : b8 x -> qt 0 x = q0 x.
Proof.
  intros H. unfold qt, get2. change (nth (N.to_nat 0) q_tab []) with (map (qp 0) (upto 256)).
  rewrite get_map by exact H. apply N.eqb_eq. revert x H. apply sweep. vm_compute. reflexivity.
Qed.
Lemma qt_q1 x : b8 x -> qt 1 x = q1 x.
Proof.
  intros H. unfold qt, get2. change (nth (N.to_nat 1) q_tab []) with (map (qp 1) (upto 256)).
  rewrite get_map by exact H. apply N.eqb_eq. revert x H. apply sweep. vm_compute. reflexivity.
Qed.
Lemma q0_b8 x : b8 x -> b8 (q0 x).
Proof. intros H. apply N.ltb_lt. revert x H. apply (sweep (fun x => q0 x <? 256)). vm_compute. reflexivity. Qed.
Lemma q1_b8 x : b8 x -> b8 (q1 x).
Proof. intros H. apply N.ltb_lt. revert x H. apply (sweep (fun x => q1 x <? 256)). vm_compute. reflexivity. Qed.

Definition m5b y := gf_mul poly_v 0x5B y.
Definition mef y := gf_mul poly_v 0xEF y.
Lemma f5b_ok y : b8 y -> f5b y = m5b y.
Proof. intros H. apply N.eqb_eq. revert y H. apply sweep. vm_compute. reflexivity. Qed.
Lemma fef_ok y : b8 y -> fef y = mef y.
Proof. intros H. apply N.eqb_eq. revert y H. apply sweep. vm_compute. reflexivity. Qed.
Lemma m5b_b8 x : b8 x -> b8 (m5b x).
Proof. intros H. apply N.ltb_lt. revert x H. apply (sweep (fun x => m5b x <? 256)). vm_compute. reflexivity. Qed.
Lemma mef_b8 x : b8 x -> b8 (mef x).
Proof. intros H. apply N.ltb_lt. revert x H. apply (sweep (fun x => mef x <? 256)). vm_compute. reflexivity. Qed.
Lemma m01 y : b8 y -> gf_mul poly_v 0x01 y = y.
Proof. intros H. apply N.eqb_eq. revert y H. apply sweep. vm_compute. reflexivity. Qed.

Lemma word_shifts a b c d : a + N.shiftl b 8 + N.shiftl c 16 + N.shiftl d 24 = word a b c d.
Proof.
  unfold word. rewrite !N.shiftl_mul_pow2. change (2 ^ 8) with 256. change (2 ^ 16) with 65536.
  change (2 ^ 24) with 16777216. lia.
Qed.
Lemma mt_0 x : b8 x -> mt 0 x = let y := q1 x in word y (m5b y) (mef y) (mef y).
Proof.
  intros H. unfold mt, get2, m_tab. change (N.to_nat 0) with 0%nat. cbn [nth].
  rewrite get_map by exact H. cbv zeta. change (get2 q_tab 1 x) with (qt 1 x).
  rewrite qt_q1, f5b_ok, fef_ok, word_shifts by auto using q1_b8. reflexivity.
Qed.
Lemma mt_1 x : b8 x -> mt 1 x = let y := q0 x in word (mef y) (mef y) (m5b y) y.
Proof.
  intros H. unfold mt, get2, m_tab. change (N.to_nat 1) with 1%nat. cbn [nth].
  rewrite get_map by exact H. cbv zeta. change (get2 q_tab 0 x) with (qt 0 x).
  rewrite qt_q0, f5b_ok, fef_ok, word_shifts by auto using q0_b8. reflexivity.
Qed.
Lemma mt_2 x : b8 x -> mt 2 x = let y := q1 x in word (m5b y) (mef y) y (mef y).
Proof.
  intros H. unfold mt, get2, m_tab. change (N.to_nat 2) with 2%nat. cbn [nth].
  rewrite get_map by exact H. cbv zeta. change (get2 q_tab 1 x) with (qt 1 x).
  rewrite qt_q1, f5b_ok, fef_ok, word_shifts by auto using q1_b8. reflexivity.
Qed.
Lemma mt_3 x : b8 x -> mt 3 x = let y := q0 x in word (m5b y) y (mef y) (m5b y).
Proof.
  intros H. unfold mt, get2, m_tab. change (N.to_nat 3) with 3%nat. cbn [nth].
  rewrite get_map by exact H. cbv zeta. change (get2 q_tab 0 x) with (qt 0 x).
  rewrite qt_q0, f5b_ok, fef_ok, word_shifts by auto using q0_b8. reflexivity.
Qed.
Lemma mds_tables x0 x1 x2 x3 : b8 x0 -> b8 x1 -> b8 x2 -> b8 x3 ->
  N.lxor (N.lxor (N.lxor (mt 0 x0) (mt 1 x1)) (mt 2 x2)) (mt 3 x3) = mds (q1 x0) (q0 x1) (q1 x2) (q0 x3).
Proof.
  intros H0 H1 H2 H3. rewrite mt_0, mt_1, mt_2, mt_3 by assumption. cbv zeta.
  rewrite !word_lxor by auto 10 using b8_lxor, q0_b8, q1_b8, m5b_b8, mef_b8.
  unfold mds, mds_row. rewrite !m01 by auto using q0_b8, q1_b8. reflexivity.
Qed.

(** *** h *)
Lemma qt0_b8 x : b8 x -> b8 (qt 0 x).
Proof. intros H. rewrite qt_q0 by exact H. apply q0_b8, H. Qed.
Lemma qt1_b8 x : b8 x -> b8 (qt 1 x).
Proof. intros H. rewrite qt_q1 by exact H. apply q1_b8, H. Qed.
Ltac b8s := repeat first [assumption | apply bt_b8 | apply qt0_b8 | apply qt1_b8 | apply q0_b8 | apply q1_b8 | apply b8_lxor].
Definition kb (key : list N) (i : nat) (j : N) : N := bt (nth i key 0) j.
Lemma h_fun_ok k key x : (k = 2 \/ k = 3 \/ k = 4)%nat -> List.length key = k ->
  h_fun (N.of_nat k) x key = h x key.
Proof.
  intros Hk Hl. unfold h_fun, h. rewrite Hl. unfold get. rewrite !byte_bt.
  destruct Hk as [->|[->| ->]];
    repeat match goal with |- context [?a <=? N.of_nat ?b] =>
      let r := eval vm_compute in (a <=? N.of_nat b) in change (a <=? N.of_nat b) with r end;
    cbn [Nat.eqb Nat.leb];
    change (N.to_nat 0) with 0%nat; change (N.to_nat 1) with 1%nat;
    change (N.to_nat 2) with 2%nat; change (N.to_nat 3) with 3%nat;
    cbv beta iota zeta;
    rewrite ?byte_bt;
    repeat (first [rewrite qt_q0 by b8s | rewrite qt_q1 by b8s]);
    rewrite mds_tables by b8s; reflexivity.
Qed.

(** *** The RS code *)
Definition fx (t : N) : N := if N.testbit t 7 then N.lxor (2 * t) 0x14d else 2 * t.
Definition gx (t : N) : N := let v := N.lxor (fx t) (t / 2) in if N.testbit t 0 then N.lxor v 0xa6 else v.
Lemma fx_b8 x : b8 x -> b8 (fx x).
Proof. intros H. apply N.ltb_lt. revert x H. apply (sweep (fun x => fx x <? 256)). vm_compute. reflexivity. Qed.
Lemma gx_b8 x : b8 x -> b8 (gx x).
Proof. intros H. apply N.ltb_lt. revert x H. apply (sweep (fun x => gx x <? 256)). vm_compute. reflexivity. Qed.
Lemma xsel (b b' : bool) (x y c : N) :
  (if xorb b b' then N.lxor (N.lxor x y) c else N.lxor x y) =
  N.lxor (if b then N.lxor x c else x) (if b' then N.lxor y c else y).
Proof.
  destruct b, b'; cbn [xorb].
  - rewrite (N.lxor_comm y c), <- (N.lxor_assoc (N.lxor x c)), (N.lxor_assoc x c c), N.lxor_nilpotent, N.lxor_0_r. reflexivity.
  - rewrite !N.lxor_assoc, (N.lxor_comm y c). reflexivity.
  - rewrite N.lxor_assoc. reflexivity.
  - reflexivity.
Qed.
Lemma dbl_lxor x y : 2 * N.lxor x y = N.lxor (2 * x) (2 * y).
Proof.
  rewrite !(N.mul_comm 2). change 2 with (2 ^ 1). rewrite <- !N.shiftl_mul_pow2. apply N.shiftl_lxor.
Qed.
Lemma half_lxor x y : N.lxor x y / 2 = N.lxor (x / 2) (y / 2).
Proof. change 2 with (2 ^ 1). rewrite <- !N.shiftr_div_pow2. apply N.shiftr_lxor. Qed.
Lemma fx_lin x y : fx (N.lxor x y) = N.lxor (fx x) (fx y).
Proof. unfold fx. rewrite N.lxor_spec, dbl_lxor. apply xsel. Qed.
Lemma lxor_swap a b c d : N.lxor (N.lxor a b) (N.lxor c d) = N.lxor (N.lxor a c) (N.lxor b d).
Proof.
  rewrite !N.lxor_assoc. f_equal. rewrite <- !N.lxor_assoc. f_equal. apply N.lxor_comm.
Qed.
Lemma gx_lin x y : gx (N.lxor x y) = N.lxor (gx x) (gx y).
Proof. unfold gx. cbv zeta. rewrite N.lxor_spec, fx_lin, half_lxor, lxor_swap. apply xsel. Qed.

Definition st8 := (N * N * N * N * (N * N * N * N))%type.
Definition bstep (s : st8) : st8 :=
  let '(a0, a1, a2, a3, (b0, b1, b2, b3)) := s in
  (0, a0, a1, a2, (N.lxor a3 b3, N.lxor b0 (gx b3), N.lxor b1 (fx b3), N.lxor b2 (gx b3))).
Definition ok8 (s : st8) : Prop :=
  let '(a0, a1, a2, a3, (b0, b1, b2, b3)) := s in b8 a0 /\ b8 a1 /\ b8 a2 /\ b8 a3 /\ b8 b0 /\ b8 b1 /\ b8 b2 /\ b8 b3.
Definition pack8 (s : st8) : N * N :=
  let '(a0, a1, a2, a3, (b0, b1, b2, b3)) := s in (word a0 a1 a2 a3, word b0 b1 b2 b3).
Definition xor8 (s s' : st8) : st8 :=
  let '(a0, a1, a2, a3, (b0, b1, b2, b3)) := s in
  let '(c0, c1, c2, c3, (d0, d1, d2, d3)) := s' in
  (N.lxor a0 c0, N.lxor a1 c1, N.lxor a2 c2, N.lxor a3 c3, (N.lxor b0 d0, N.lxor b1 d1, N.lxor b2 d2, N.lxor b3 d3)).
Lemma bstep_ok s : ok8 s -> ok8 (bstep s).
Proof.
  destruct s as [[[[a0 a1] a2] a3] [[[b0 b1] b2] b3]]. unfold ok8, bstep.
  intros (H0&H1&H2&H3&H4&H5&H6&H7). repeat split; auto using b8_lxor, fx_b8, gx_b8; reflexivity.
Qed.
Lemma bstep_lin s s' : bstep (xor8 s s') = xor8 (bstep s) (bstep s').
Proof.
  destruct s as [[[[a0 a1] a2] a3] [[[b0 b1] b2] b3]], s' as [[[[c0 c1] c2] c3] [[[d0 d1] d2] d3]].
  unfold bstep, xor8. rewrite fx_lin, gx_lin.
  rewrite (lxor_swap a3 c3), (lxor_swap b0 d0), (lxor_swap b1 d1), (lxor_swap b2 d2). reflexivity.
Qed.

Lemma shl8_word a0 a1 a2 a3 : b8 a0 -> b8 a1 -> b8 a2 -> b8 a3 ->
  N.land (N.shiftl (word a0 a1 a2 a3) 8) 0xffffffff = word 0 a0 a1 a2.
Proof.
  intros. rewrite mask32, N.shiftl_mul_pow2. unfold word, b8 in *. change (2 ^ 8) with 256. change (2 ^ 32) with 4294967296. lia.
Qed.
Lemma shr24_word a0 a1 a2 a3 : b8 a0 -> b8 a1 -> b8 a2 -> b8 a3 -> N.shiftr (word a0 a1 a2 a3) 24 = a3.
Proof.
  intros. rewrite N.shiftr_div_pow2. unfold word, b8 in *. change (2 ^ 24) with 16777216. lia.
Qed.
Lemma mask_small x : x < 2 ^ 32 -> N.land x 0xffffffff = x.
Proof. intros. rewrite mask32. apply N.mod_small. assumption. Qed.
Lemma lor_word_low a b c d : b8 a -> b8 b -> b8 c -> b8 d -> N.lor (word 0 b c d) a = word a b c d.
Proof.
  intros. rewrite lor_disjoint; [unfold word; lia|].
  replace (word 0 b c d) with ((b + 256 * c + 65536 * d) * 2 ^ 8) by (unfold word; change (2^8) with 256; lia).
  rewrite <- N.shiftl_mul_pow2. apply N.bits_inj. intros i. rewrite N.bits_0, N.land_spec.
  destruct (N.ltb_spec i 8).
  - rewrite N.shiftl_spec_low by assumption. reflexivity.
  - rewrite (proj1 (lt_pow2_bits a 8)) by assumption. apply andb_false_r.
Qed.
Lemma shl_word u : b8 u -> N.land (N.shiftl u 16) 0xffffffff = word 0 0 u 0 /\
  N.land (N.shiftl u 24) 0xffffffff = word 0 0 0 u /\ N.land (N.shiftl u 8) 0xffffffff = word 0 u 0 0.
Proof.
  intros. rewrite !mask32, !N.shiftl_mul_pow2. unfold word, b8 in *. change (2 ^ 8) with 256.
  change (2 ^ 16) with 65536. change (2 ^ 24) with 16777216. change (2 ^ 32) with 4294967296. lia.
Qed.
Lemma word_low u : word u 0 0 0 = u. Proof. unfold word. lia. Qed.
Lemma lor_24_8 u : b8 u -> N.lor (word 0 0 0 u) (word 0 u 0 0) = word 0 u 0 u.
Proof.
  intros Hu. rewrite lor_disjoint; [unfold word; lia|].
  replace (word 0 0 0 u) with (u * 2 ^ 24) by (unfold word; change (2^24) with 16777216; lia).
  rewrite <- N.shiftl_mul_pow2. apply N.bits_inj. intros i. rewrite N.bits_0, N.land_spec.
  destruct (N.ltb_spec i 24).
  - rewrite N.shiftl_spec_low by assumption. reflexivity.
  - rewrite (proj1 (lt_pow2_bits (word 0 u 0 0) 24)); [apply andb_false_r| |assumption].
    unfold word, b8 in *. change (2 ^ 24) with 16777216. lia.
Qed.
Lemma b8_0 : b8 0. Proof. reflexivity. Qed.
Lemma mds_step_ok s : ok8 s -> mds_step (pack8 s) = pack8 (bstep s).
Proof.
  destruct s as [[[[a0 a1] a2] a3] [[[b0 b1] b2] b3]]. intros (H0&H1&H2&H3&H4&H5&H6&H7).
  cbn [pack8 bstep]. unfold mds_step. cbv zeta.
  rewrite !shr24_word, !shl8_word, lor_word_low by assumption.
  replace (N.land (N.shiftl b3 1) 4294967295) with (2 * b3)
    by (rewrite mask32, N.shiftl_mul_pow2; unfold b8 in H7; change (2 ^ 1) with 2; change (2 ^ 32) with 4294967296; lia).
  change (if N.testbit b3 7 then N.lxor (2 * b3) 333 else 2 * b3) with (fx b3).
  replace (N.shiftr b3 1) with (b3 / 2) by (rewrite N.shiftr_div_pow2; reflexivity).
  change (N.shiftr 333 1) with 166.
  change (if N.testbit b3 0 then N.lxor (N.lxor (fx b3) (b3 / 2)) 166 else N.lxor (fx b3) (b3 / 2)) with (gx b3).
  pose proof (fx_b8 _ H7) as Hf. pose proof (gx_b8 _ H7) as Hg.
  destruct (shl_word _ Hf) as (-> & _ & _). destruct (shl_word _ Hg) as (_ & -> & ->).
  rewrite lor_24_8 by assumption. pose proof b8_0.
  assert (X : N.lxor b3 (word 0 0 (fx b3) 0) = word b3 0 (fx b3) 0).
  { transitivity (N.lxor (word b3 0 0 0) (word 0 0 (fx b3) 0)); [rewrite word_low; reflexivity|].
    rewrite word_lxor by assumption. rewrite ?N.lxor_0_r, ?N.lxor_0_l. reflexivity. }
  rewrite X.
  rewrite !word_lxor by auto using b8_lxor. rewrite ?N.lxor_0_r, ?N.lxor_0_l. reflexivity.
Qed.

Definition step8 (s : st8) : st8 := bstep (bstep (bstep (bstep (bstep (bstep (bstep (bstep s))))))).
Lemma step8_lin s s' : step8 (xor8 s s') = xor8 (step8 s) (step8 s').
Proof. unfold step8. rewrite !bstep_lin. reflexivity. Qed.
Definition rs4 (m : list N) : N * N * N * N :=
  (rs_row [0x01;0xA4;0x55;0x87;0x5A;0x58;0xDB;0x9E] m, rs_row [0xA4;0x56;0x82;0xF3;0x1E;0xC6;0x68;0xE5] m,
   rs_row [0x02;0xA1;0xFC;0xC1;0x47;0xAE;0x3D;0x19] m, rs_row [0xA4;0x55;0x87;0x5A;0x58;0xDB;0x9E;0x03] m).
Definition col (i : nat) (x : N) : N * N * N * N :=
  let c r := gf_mul poly_w (nth i r 0) x in
  (c [0x01;0xA4;0x55;0x87;0x5A;0x58;0xDB;0x9E], c [0xA4;0x56;0x82;0xF3;0x1E;0xC6;0x68;0xE5],
   c [0x02;0xA1;0xFC;0xC1;0x47;0xAE;0x3D;0x19], c [0xA4;0x55;0x87;0x5A;0x58;0xDB;0x9E;0x03]).
Definition eq4 (a b : N * N * N * N) : bool :=
  let '(a0,a1,a2,a3) := a in let '(b0,b1,b2,b3) := b in (a0 =? b0) && (a1 =? b1) && (a2 =? b2) && (a3 =? b3).
Lemma eq4_eq a b : eq4 a b = true -> a = b.
Proof.
  destruct a as [[[a0 a1] a2] a3], b as [[[b0 b1] b2] b3]. unfold eq4. rewrite !andb_true_iff, !N.eqb_eq.
  intros [[[-> ->] ->] ->]. reflexivity.
Qed.
Definition inj8 (i : nat) (x : N) : st8 :=
  let p j := if Nat.eqb i j then x else 0 in (p 0, p 1, p 2, p 3, (p 4, p 5, p 6, p 7))%nat.
Lemma col_ok i x : (i < 8)%nat -> b8 x -> step8 (inj8 i x) = (0, 0, 0, 0, col i x).
Proof.
  intros Hi H.
  assert (E : forall i x, (i < 8)%nat -> fst (step8 (inj8 i x)) = (0,0,0,0)) by (intros; reflexivity).
  specialize (E i x Hi). destruct (step8 (inj8 i x)) as [u v] eqn:Es. cbn [fst] in E. subst u. f_equal.
  replace v with (snd (step8 (inj8 i x))) by (rewrite Es; reflexivity). clear Es.
  apply eq4_eq. revert x H.
  do 8 (destruct i as [|i]; [apply sweep; vm_compute; reflexivity|]). lia.
Qed.

Lemma step8_ok s : ok8 s -> ok8 (step8 s).
Proof. intros H. unfold step8. auto 10 using bstep_ok. Qed.
Definition xor4 (a b : N * N * N * N) : N * N * N * N :=
  let '(a0,a1,a2,a3) := a in let '(b0,b1,b2,b3) := b in (N.lxor a0 b0, N.lxor a1 b1, N.lxor a2 b2, N.lxor a3 b3).
Lemma decompose m0 m1 m2 m3 m4 m5 m6 m7 :
  (m0, m1, m2, m3, (m4, m5, m6, m7)) =
  xor8 (xor8 (xor8 (xor8 (xor8 (xor8 (xor8 (inj8 0 m0) (inj8 1 m1)) (inj8 2 m2)) (inj8 3 m3)) (inj8 4 m4)) (inj8 5 m5)) (inj8 6 m6)) (inj8 7 m7).
Proof. unfold inj8, xor8. cbn [Nat.eqb]. rewrite ?N.lxor_0_r, ?N.lxor_0_l. reflexivity. Qed.
Lemma xor8_high (a b : N * N * N * N) : xor8 (0,0,0,0,a) (0,0,0,0,b) = (0,0,0,0, xor4 a b).
Proof. destruct a as [[[a0 a1] a2] a3], b as [[[b0 b1] b2] b3]. reflexivity. Qed.

Lemma rs_cols m0 m1 m2 m3 m4 m5 m6 m7 :
  xor4 (xor4 (xor4 (xor4 (xor4 (xor4 (xor4 (col 0 m0) (col 1 m1)) (col 2 m2)) (col 3 m3)) (col 4 m4)) (col 5 m5)) (col 6 m6)) (col 7 m7)
  = rs4 [m0; m1; m2; m3; m4; m5; m6; m7].
Proof.
  unfold rs4, rs_row, col. cbn [combine map fold_left fst snd nth xor4]. cbv zeta. cbn [nth].
  rewrite !N.lxor_0_l. reflexivity.
Qed.
Lemma word_four a0 a1 a2 a3 : let '(b0,b1,b2,b3) := (a0,a1,a2,a3) in word b0 b1 b2 b3 = word a0 a1 a2 a3.
Proof. reflexivity. Qed.
Lemma mds_rem_ok m0 m1 m2 m3 m4 m5 m6 m7 : ok8 (m0, m1, m2, m3, (m4, m5, m6, m7)) ->
  mds_rem (word m0 m1 m2 m3) (word m4 m5 m6 m7) = rs [m0; m1; m2; m3; m4; m5; m6; m7].
Proof.
  intros H. unfold mds_rem.
  change (word m0 m1 m2 m3, word m4 m5 m6 m7) with (pack8 (m0, m1, m2, m3, (m4, m5, m6, m7))).
  rewrite !mds_step_ok by auto 10 using bstep_ok.
  match goal with |- context [pack8 ?x] => change x with (step8 (m0, m1, m2, m3, (m4, m5, m6, m7))) end.
  rewrite decompose, !step8_lin. destruct H as (H0&H1&H2&H3&H4&H5&H6&H7).
  rewrite !col_ok by (assumption || lia). rewrite !xor8_high, rs_cols. reflexivity.
Qed.

(** *** Key schedule *)
Lemma nth_flat_map2 (f : N -> list N) l j : (forall i, List.length (f i) = 2%nat) ->
  (j < List.length l)%nat ->
  nth (2 * j) (flat_map f l) 0 = nth 0 (f (nth j l 0)) 0 /\
  nth (2 * j + 1) (flat_map f l) 0 = nth 1 (f (nth j l 0)) 0.
Proof.
  intros Hf. revert j. induction l as [|x l IH]; intros j Hj; [cbn in Hj; lia|].
  cbn [flat_map]. destruct j as [|j].
  - cbn [Nat.mul Nat.add nth]. pose proof (Hf x) as Hx. destruct (f x) as [|a [|b [|]]]; try discriminate Hx. split; reflexivity.
  - rewrite !app_nth2 by (rewrite Hf; lia). rewrite Hf.
    replace (2 * S j - 2)%nat with (2 * j)%nat by lia. replace (2 * S j + 1 - 2)%nat with (2 * j + 1)%nat by lia.
    cbn [List.length] in Hj. cbn [nth]. apply IH. lia.
Qed.

(** Words of a key, as the specification reads them. *)
Lemma words_mword key i : (4 * i + 3 < List.length key)%nat -> nth i (words key) 0 = mword key i.
Proof.
  revert key. induction i as [|i IH]; intros key H.
  - destruct key as [|a [|b [|c [|d key]]]]; cbn [List.length] in H; try lia.
    cbn [words nth]. rewrite le_dec4. unfold mword, word. cbn [nth Nat.mul Nat.add]. lia.
  - destruct key as [|a [|b [|c [|d key]]]]; cbn [List.length] in H; try lia.
    cbn [words nth]. rewrite IH by lia. unfold mword.
    replace (4 * S i)%nat with (S (S (S (S (4 * i))))) by lia. reflexivity.
Qed.
Lemma map_seq_ext (f g : nat -> N) k : (forall i, (i < k)%nat -> f i = g i) -> map f (seq 0 k) = map g (seq 0 k).
Proof. intros H. apply map_ext_in. intros i Hi. apply in_seq in Hi. apply H. lia. Qed.
Lemma nth_b8 (l : bytes) i : bytes_ok l -> b8 (nth i l 0).
Proof.
  intros H. destruct (nth_in_or_default i l 0) as [Hin| ->]; [|reflexivity].
  unfold bytes_ok in H. rewrite Forall_forall in H. apply H, Hin.
Qed.

Section Key.
  Variables (key : bytes) (k : nat).
  Hypothesis Hb : bytes_ok key.
  Hypothesis Hlen : List.length key = (8 * k)%nat.
  Hypothesis Hk : (k = 2 \/ k = 3 \/ k = 4)%nat.

  Lemma me_ok : me_key k (words key) = Me k key.
  Proof. apply map_seq_ext. intros i Hi. rewrite words_mword by lia. f_equal. lia. Qed.
  Lemma mo_ok : mo_key k (words key) = Mo k key.
  Proof. apply map_seq_ext. intros i Hi. rewrite words_mword by lia. f_equal. lia. Qed.
  Lemma sk_ok : s_key k (words key) = Sk k key.
  Proof.
    unfold s_key, Sk. f_equal. apply map_seq_ext. intros i Hi. rewrite !words_mword by lia.
    unfold mword.
    replace (4 * (i + i))%nat with (8 * i)%nat by lia.
    replace (4 * (i + i + 1))%nat with (8 * i + 4)%nat by lia.
    rewrite mds_rem_ok by (unfold ok8; repeat split; apply nth_b8, Hb).
    rewrite <- !Nat.add_assoc. reflexivity.
  Qed.
  Lemma k_len : (List.length key * 8 / 64)%nat = k.
  Proof. rewrite Hlen. destruct Hk as [->|[->| ->]]; reflexivity. Qed.

  Let c := set_key (words key) (List.length key).
  Lemma lens : List.length (Me k key) = k /\ List.length (Mo k key) = k /\ List.length (Sk k key) = k.
  Proof. unfold Me, Mo, Sk. rewrite rev_length, !map_length, !seq_length. auto. Qed.

  Lemma mds_w32 y0 y1 y2 y3 : b8 y0 -> b8 y1 -> b8 y2 -> b8 y3 -> w32 (mds y0 y1 y2 y3).
  Proof.
    intros. unfold mds, mds_row. rewrite !m01 by assumption.
    change (gf_mul poly_v 0x5B) with m5b. change (gf_mul poly_v 0xEF) with mef.
    apply word_w32; repeat first [assumption | apply m5b_b8 | apply mef_b8 | apply b8_lxor].
  Qed.
  Lemma h_w32 X L : w32 (h X L).
  Proof.
    unfold h. destruct (_ =? 4)%nat; destruct (3 <=? _)%nat; cbv beta iota zeta; apply mds_w32; b8s.
  Qed.

  Lemma lk_ok n : n < 40 -> lk c n = K k key n.
  Proof.
    intros Hn. unfold lk, c, set_key. cbn [l_key]. rewrite k_len. unfold get.
    set (f := fun i => lkey_pair k (words key) (2 * i)).
    assert (Hj : (N.to_nat (n / 2) < List.length (upto 20))%nat).
    { unfold upto. rewrite map_length, seq_length. lia. }
    destruct (nth_flat_map2 f (upto 20) (N.to_nat (n / 2)) (fun _ => eq_refl) Hj) as [He Ho].
    assert (Hnth : nth (N.to_nat (n / 2)) (upto 20) 0 = n / 2).
    { transitivity (nth (N.to_nat (n / 2)) (upto 20) (N.of_nat 0)); [reflexivity|].
      unfold upto. rewrite map_nth, seq_nth; lia. }
    rewrite Hnth in He, Ho.
    assert (HA : h_fun (N.of_nat k) ((0x01010101 * (2 * (n / 2))) mod 0x100000000) (me_key k (words key)) = A k key (n / 2)).
    { rewrite me_ok, h_fun_ok by (assumption || apply lens). unfold A, rho. f_equal. lia. }
    assert (HB : rotl32 (h_fun (N.of_nat k) (((0x01010101 * (2 * (n / 2))) mod 0x100000000 + 0x01010101) mod 0x100000000) (mo_key k (words key))) 8 = B k key (n / 2)).
    { rewrite mo_ok, h_fun_ok by (assumption || apply lens). unfold B, rho.
      rewrite rotl32_arith by (apply h_w32 || discriminate).
      replace (((0x01010101 * (2 * (n / 2))) mod 0x100000000 + 0x01010101) mod 0x100000000)
        with ((2 * (n / 2) + 1) * 0x01010101) by lia. reflexivity. }
    unfold K. cbv zeta. unfold f, lkey_pair in He, Ho. cbv zeta in He, Ho. rewrite HA, HB in He, Ho. cbn [nth] in He, Ho.
    destruct (N.even n) eqn:Ev.
    - apply N.even_spec in Ev. destruct Ev as [j ->].
      replace (N.to_nat (2 * j)) with (2 * N.to_nat (2 * j / 2))%nat by lia. exact He.
    - assert (Od : N.odd n = true) by (rewrite <- N.negb_even, Ev; reflexivity).
      apply N.odd_spec in Od. destruct Od as [j ->].
      replace (N.to_nat (2 * j + 1)) with (2 * N.to_nat ((2 * j + 1) / 2) + 1)%nat by lia.
      etransitivity; [exact Ho|]. rewrite rotl32_arith by (apply w32_mod || discriminate). reflexivity.
  Qed.

  (** The key-dependent tables compute g. *)
  Lemma g0_ok x : g0 c x = h x (Sk k key).
  Proof.
    rewrite <- h_fun_ok with (k := k) by (assumption || apply lens). rewrite <- sk_ok.
    unfold g0, mk, c, set_key. cbn [mk_tab]. rewrite k_len. unfold h_fun, gen_mk_tab, get2.
    set (S := s_key k (words key)).
    pose proof (bt_b8 x 0) as B0. pose proof (bt_b8 x 1) as B1. pose proof (bt_b8 x 2) as B2. pose proof (bt_b8 x 3) as B3.
    rewrite !byte_bt. unfold b8 in *.
    destruct Hk as [->|[->| ->]];
    repeat match goal with |- context [N.of_nat ?b =? ?a] =>
      let r := eval vm_compute in (N.of_nat b =? a) in change (N.of_nat b =? a) with r end;
    repeat match goal with |- context [?a <=? N.of_nat ?b] =>
      let r := eval vm_compute in (a <=? N.of_nat b) in change (a <=? N.of_nat b) with r end;
    cbv beta iota zeta;
    change (N.to_nat 0) with 0%nat; change (N.to_nat 1) with 1%nat;
    change (N.to_nat 2) with 2%nat; change (N.to_nat 3) with 3%nat; cbn [nth];
    rewrite !get_map by assumption; rewrite !(N.mod_small _ 0x100) by assumption; reflexivity.
  Qed.
  Lemma bt_rol8 x : w32 x -> bt (rol x 8) 0 = bt x 3 /\ bt (rol x 8) 1 = bt x 0 /\ bt (rol x 8) 2 = bt x 1 /\ bt (rol x 8) 3 = bt x 2.
  Proof.
    intros H. pose proof (bt_b8 x 0) as B0. pose proof (bt_b8 x 1) as B1. pose proof (bt_b8 x 2) as B2. pose proof (bt_b8 x 3) as B3.
    assert (E : rol x 8 = word (bt x 3) (bt x 0) (bt x 1) (bt x 2)).
    { rewrite <- (word_bt x H) at 1. generalize dependent (bt x 3). generalize dependent (bt x 2).
      generalize dependent (bt x 1). generalize dependent (bt x 0). clear. intros a Ha b Hb c Hc d Hd.
      unfold b8, rol, word in *. change (2 ^ 32) with 4294967296.
      change (2 ^ 8) with 256. change (2 ^ (32 - 8)) with 16777216. lia. }
    rewrite E. apply bt_word; assumption.
  Qed.
  Lemma g1_ok x : w32 x -> g1 c x = h (rol x 8) (Sk k key).
  Proof.
    intros H. rewrite <- g0_ok. unfold g0, g1. rewrite !byte_bt.
    destruct (bt_rol8 x H) as (-> & -> & -> & ->). reflexivity.
  Qed.

  Lemma enc_body_rounds i b : i < 8 -> blk_ok b ->
    enc_body c i b = round k key (2 * i + 1) (round k key (2 * i) b).
  Proof.
    intros Hi. destruct b as [[[b0 b1] b2] b3]. intros (H0 & H1 & H2 & H3). unfold enc_body, round. cbv zeta.
    rewrite !lk_ok by lia.
    replace (2 * (2 * i + 1) + 8) with (4 * i + 10) by lia. replace (2 * (2 * i + 1) + 9) with (4 * i + 11) by lia.
    replace (2 * (2 * i) + 8) with (4 * i + 8) by lia. replace (2 * (2 * i) + 9) with (4 * i + 9) by lia.
    rewrite !g0_ok. rewrite (g1_ok b1) by assumption. change 0x100000000 with (2 ^ 32).
    assert (E : forall x, w32 x -> rotr32 x 1 = ror x 1) by (intros; apply rotr32_arith; [assumption|discriminate]).
    assert (E' : forall x, w32 x -> rotl32 x 1 = rol x 1) by (intros; apply rotl32_arith; [assumption|discriminate]).
    rewrite !g1_ok by (apply w32_lxor; [apply w32_rotl1; assumption|apply w32_mod]).
    rewrite !E by (apply w32_lxor; [assumption|apply w32_mod]). rewrite !E' by assumption. reflexivity.
  Qed.
  Lemma encrypt_words b : blk_ok b -> tf_encrypt c b = twofish_words k key b.
  Proof.
    intros Hok. destruct b as [[[a0 a1] a2] a3]. destruct Hok as (H0 & H1 & H2 & H3).
    assert (Hc : ctx_ok c) by apply set_key_ok.
    unfold tf_encrypt, twofish_words.
    rewrite <- !lk_ok by lia.
    set (w := (N.lxor a0 (lk c 0), N.lxor a1 (lk c 1), N.lxor a2 (lk c 2), N.lxor a3 (lk c 3))).
    assert (Hw : blk_ok w) by (repeat split; auto using w32_lxor).
    cbn [fold_left].
    rewrite !enc_body_rounds by (repeat apply enc_body_ok; first [assumption | reflexivity]).
    change (2 * 0) with 0. change (2 * 1) with 2. change (2 * 2) with 4. change (2 * 3) with 6.
    change (2 * 4) with 8. change (2 * 5) with 10. change (2 * 6) with 12. change (2 * 7) with 14.
    reflexivity.
  Qed.
End Key.

Lemma key_size (key : bytes) : (List.length key = 16 \/ List.length key = 24 \/ List.length key = 32)%nat ->
  exists k, List.length key = (8 * k)%nat /\ (k = 2 \/ k = 3 \/ k = 4)%nat /\ k = (List.length key / 8)%nat.
Proof. intros [->|[->| ->]]; [exists 2%nat|exists 3%nat|exists 4%nat]; repeat split; auto. Qed.

Lemma bytes_of_block_bt b : bytes_of_block b = let '(b0, b1, b2, b3) := b in
  flat_map (fun C => [bt C 0; bt C 1; bt C 2; bt C 3]) [b0; b1; b2; b3].
Proof.
  destruct b as [[[b0 b1] b2] b3]. unfold bytes_of_block. cbn [flat_map]. rewrite app_nil_r.
  assert (E : forall w, le_enc 4 w = [bt w 0; bt w 1; bt w 2; bt w 3]).
  { intros w. cbn [le_enc]. unfold bt. rewrite !N.div_div by lia.
    change (256 ^ 0) with 1. rewrite N.div_1_r. reflexivity. }
  rewrite !E. reflexivity.
Qed.
Lemma block_of_bytes_mword l : List.length l = 16%nat -> block_of_bytes l = (mword l 0, mword l 1, mword l 2, mword l 3).
Proof. intros H. unfold block_of_bytes. rewrite !words_mword by lia. reflexivity. Qed.

Theorem pytwofish_encrypt key blk : bytes_ok key -> bytes_ok blk -> List.length blk = 16%nat ->
  (List.length key = 16 \/ List.length key = 24 \/ List.length key = 32)%nat ->
  exists c, tf_new key = Ok c /\ tf_encrypt_block c blk = twofish key blk.
Proof.
  intros Hkb Hbb Hbl Hkl. exists (set_key (words key) (List.length key)). split.
  - unfold tf_new. destruct Hkl as [->|[->| ->]]; reflexivity.
  - destruct (key_size key Hkl) as (k & Hl & Hk & Ek). unfold tf_encrypt_block, twofish. rewrite <- Ek.
    rewrite encrypt_words with (k := k); [|assumption|assumption|assumption|apply block_of_bytes_ok; assumption].
    rewrite block_of_bytes_mword by assumption. apply bytes_of_block_bt.
Qed.
