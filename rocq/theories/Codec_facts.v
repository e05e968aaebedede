(** Lemmas behind Prop_Codec.v. *)
From Coq Require Import ZifyBool ZifyNat ZifyN.
From Verif Require Import Base Base64 PyStr Utf8 Uuid Time.
Ltac Zify.zify_post_hook ::= Z.div_mod_to_equations.

(** C03 *)
Lemma c03_whole t i : dt_valid t -> instant t = Some i -> (0 <= i < MAXSEC * 1000000)%Z -> (i mod 1000000 = 0)%Z ->
  exists s t', encode_time true t = Ok s /\ decode_time true s = Ok t' /\ instant t' = Some i /\ doff t' = Some 0%Z.
Proof.
  intros Hv Hi Hb Hm. destruct (encode_v4 t i Hi Hb) as (b & He & Hbo & Hl & Hd).
  assert (Hx : float_div_trunc i 1000000 = (i / 1000000)%Z).
  { replace i with (i / 1000000 * 1000000)%Z at 1 by lia. apply fdt_exact; lia. }
  rewrite Hx in Hd.
  destruct (decode_v4_b64 b Hbo Hl ltac:(lia)) as (t' & Ht & _ & Hit & Ho).
  exists (b64encode b), t'. rewrite Hit, Hd. split; [exact He|]. split; [exact Ht|]. split; [f_equal; lia|exact Ho].
Qed.
Lemma c03_micro t i : dt_valid t -> instant t = Some i -> (0 <= i < (MAXSEC - 1) * 1000000)%Z ->
  exists s t' j, encode_time true t = Ok s /\ decode_time true s = Ok t' /\ instant t' = Some j /\ (Z.abs (j - i) < 1000000)%Z.
Proof.
  intros Hv Hi Hb. destruct (encode_v4 t i Hi ltac:(lia)) as (b & He & Hbo & Hl & Hd).
  pose proof (fdt_bounds i ltac:(lia) ltac:(lia)) as B. cbv zeta in B. rewrite <- Hd in B.
  destruct (decode_v4_b64 b Hbo Hl ltac:(unfold MAXSEC in *; lia)) as (t' & Ht & _ & Hit & Ho).
  exists (b64encode b), t', (Z.of_N (le_dec b) * 1000000)%Z. split; [exact He|]. split; [exact Ht|]. split; [exact Hit|]. lia.
Qed.
(** C04 *)
Lemma c04_floor t i : dt_valid t -> instant t = Some i -> (0 <= i < MAXSEC * 1000000)%Z -> (dus t < 999969)%Z ->
  exists s t' j, encode_time true t = Ok s /\ decode_time true s = Ok t' /\ instant t' = Some j /\ (j <= i < j + 1000000)%Z.
Proof.
  intros Hv Hi Hb Hu. destruct (encode_v4 t i Hi Hb) as (b & He & Hbo & Hl & Hd).
  pose proof (fdt_bounds i ltac:(lia) ltac:(lia)) as B. cbv zeta in B. rewrite <- Hd in B.
  assert (Hm : (i mod 1000000 = dus t)%Z).
  { unfold instant in Hi. destruct (doff t) as [o|]; [|discriminate]. cbn [option_map] in Hi. inversion Hi; subst i.
    destruct Hv as (_&_&_&_&_&_&Hus&_). unfold instant_us, local_us. lia. }
  destruct B as [B|[_ B]]; [|lia].
  destruct (decode_v4_b64 b Hbo Hl ltac:(lia)) as (t' & Ht & _ & Hit & Ho).
  exists (b64encode b), t', (Z.of_N (le_dec b) * 1000000)%Z. split; [exact He|]. split; [exact Ht|]. split; [exact Hit|]. lia.
Qed.
Definition c04_t : dt := MkDt 2024 1 1 0 0 0 999999 (Some 0%Z).
Lemma c04_ref : exists t i s t' j, dt_valid t /\ instant t = Some i /\ encode_time true t = Ok s /\
  decode_time true s = Ok t' /\ instant t' = Some j /\ (i < j)%Z.
Proof.
  exists c04_t, 63839664000999999%Z. eexists. eexists. exists 63839664001000000%Z.
  split; [apply dt_validb_ok; reflexivity|]. split; [reflexivity|]. split; [vm_compute; reflexivity|].
  split; [vm_compute; reflexivity|]. split; [vm_compute; reflexivity|]. lia.
Qed.
(** C05 *)
Lemma c05_utc t : dt_valid t -> doff t = Some 0%Z ->
  exists s, encode_time false t = Ok s /\ decode_time false s = Ok t.
Proof.
  intros Hv Ho. exists (isoformat t). split; [reflexivity|]. unfold decode_time.
  rewrite decode_iso_isoformat by exact Hv. unfold as_utc. destruct t; cbn in *. rewrite Ho. reflexivity.
Qed.
Lemma c05_shift t o : dt_valid t -> doff t = Some o ->
  exists s t', encode_time false t = Ok s /\ decode_time false s = Ok t' /\
    exists i j, instant t = Some i /\ instant t' = Some j /\ (j = i + o * 60000000)%Z.
Proof.
  intros Hv Ho. exists (isoformat t), (as_utc t). split; [reflexivity|].
  split; [exact (decode_iso_isoformat t Hv)|]. unfold instant. rewrite Ho. cbn [option_map as_utc doff].
  eexists. eexists. split; [reflexivity|]. split; [reflexivity|].
  unfold instant_us, local_us, local_sec. cbn [as_utc dyear dmonth dday dhour dmin dsec dus]. lia.
Qed.
Lemma c05_ref : exists t s t' i j, dt_valid t /\ encode_time false t = Ok s /\ decode_time false s = Ok t' /\
  instant t = Some i /\ instant t' = Some j /\ i <> j.
Proof.
  set (t := MkDt 2020 6 1 12 0 0 0 (Some 120%Z)).
  assert (Hv : dt_valid t) by (apply dt_validb_ok; reflexivity).
  destruct (c05_shift t 120 Hv eq_refl) as (s & t' & H1 & H2 & i & j & H3 & H4 & H5).
  exists t, s, t', i, j. repeat (split; [assumption|]). lia.
Qed.
(** C68 *)
Lemma rotl31_inj x y : x < W64 -> y < W64 -> rotl31 x = rotl31 y -> x = y.
Proof.
  unfold rotl31, W64. intros Hx Hy.
  assert (E : forall z, z < 2 ^ 64 -> (z * 2 ^ 31) mod 2 ^ 64 = (z mod 2 ^ 33) * 2 ^ 31).
  { intros z Hz. change (2 ^ 64) with (2 ^ 33 * 2 ^ 31). rewrite N.mul_mod_distr_r by discriminate. reflexivity. }
  rewrite !E by assumption.
  pose proof (N.div_mod x (2 ^ 33) ltac:(discriminate)) as Dx. pose proof (N.div_mod y (2 ^ 33) ltac:(discriminate)) as Dy.
  assert (Bx : x / 2 ^ 33 < 2 ^ 31) by (apply N.div_lt_upper_bound; [discriminate|exact Hx]).
  assert (By : y / 2 ^ 33 < 2 ^ 31) by (apply N.div_lt_upper_bound; [discriminate|exact Hy]).
  set (a := x / 2 ^ 33) in *. set (b := x mod 2 ^ 33) in *. set (c := y / 2 ^ 33) in *. set (d := y mod 2 ^ 33) in *.
  clearbody a b c d. change (2 ^ 33) with 8589934592 in *. change (2 ^ 31) with 2147483648 in *. lia.
Qed.
Lemma mul_odd_inj m inv x y : (m * inv) mod W64 = 1 -> x < W64 -> y < W64 ->
  (x * m) mod W64 = (y * m) mod W64 -> x = y.
Proof.
  intros Hi Hx Hy H. apply (f_equal (fun z => (z * inv) mod W64)) in H.
  assert (E : forall z, z < W64 -> ((z * m) mod W64 * inv) mod W64 = z).
  { intros z Hz. rewrite N.mul_mod_idemp_l by discriminate. rewrite <- N.mul_assoc.
    rewrite <- N.mul_mod_idemp_r by discriminate. rewrite Hi, N.mul_1_r. apply N.mod_small, Hz. }
  rewrite !E in H by assumption. exact H.
Qed.
Lemma add_mod_inj a x y : x < W64 -> y < W64 -> (a + x) mod W64 = (a + y) mod W64 -> x = y.
Proof.
  intros Hx Hy H. unfold W64 in *. change (2 ^ 64) with 18446744073709551616 in *. lia.
Qed.
Lemma xx_step_inj acc x y : x < W64 -> y < W64 -> xx_step acc x = xx_step acc y -> x = y.
Proof.
  intros Hx Hy H. unfold xx_step in H.
  apply (mul_odd_inj xx1 614540362697595703) in H; [|vm_compute; reflexivity| |].
  2,3: unfold rotl31; set (z := (acc + _) mod W64); assert (z < W64) by (apply N.mod_lt; discriminate);
       assert (z / 2 ^ 33 < 2 ^ 31) by (apply N.div_lt_upper_bound; [discriminate|assumption]);
       clearbody z; unfold W64; change (2 ^ 64) with (2 ^ 33 * 2 ^ 31); rewrite N.mul_mod_distr_r by discriminate;
       assert (z mod 2 ^ 33 < 2 ^ 33) by (apply N.mod_lt; discriminate);
       change (2 ^ 33) with 8589934592 in *; change (2 ^ 31) with 2147483648 in *; lia.
  apply rotl31_inj in H; [|apply N.mod_lt; discriminate|apply N.mod_lt; discriminate].
  rewrite <- (N.add_mod_idemp_r _ (x * xx2)), <- (N.add_mod_idemp_r _ (y * xx2)) in H by discriminate.
  apply add_mod_inj in H; [|apply N.mod_lt; discriminate|apply N.mod_lt; discriminate].
  apply (mul_odd_inj xx2 839798700976720815) in H; [exact H|vm_compute; reflexivity|assumption|assumption].
Qed.
Lemma tuple_hash1_inj x y : x < W64 -> y < W64 -> tuple_hash [x] = tuple_hash [y] ->
  x = y \/ tuple_hash [x] = 1546275796.
Proof.
  intros Hx Hy. unfold tuple_hash. cbn [fold_left]. cbv zeta.
  change (lenN [x]) with 1. change (lenN [y]) with 1.
  set (c := N.lxor 1 (N.lxor xx5 3527539)).
  destruct (N.eqb_spec ((xx_step xx5 x + c) mod W64) (W64 - 1)) as [Ex|Ex]; [intros _; right; reflexivity|].
  destruct (N.eqb_spec ((xx_step xx5 y + c) mod W64) (W64 - 1)) as [Ey|Ey]; [intros ->; right; reflexivity|].
  intros H. left. rewrite (N.add_comm (xx_step xx5 x)), (N.add_comm (xx_step xx5 y)) in H.
  apply add_mod_inj in H; [|apply N.mod_lt; discriminate|apply N.mod_lt; discriminate].
  exact (xx_step_inj _ _ _ Hx Hy H).
Qed.
Lemma uuid_hash_bound u : uuid_hash u < W64.
Proof.
  unfold uuid_hash. assert (uuid_int u mod P61 < P61) by (apply N.mod_lt; discriminate).
  unfold P61, W64 in *. change (2 ^ 61) with 2305843009213693952 in *. change (2 ^ 64) with 18446744073709551616. lia.
Qed.
Lemma c68_eq_implies u v : el_eq (IdElement u) (IdElement v) = true ->
  uuid_int u mod (2 ^ 61 - 1) = uuid_int v mod (2 ^ 61 - 1) \/ el_hash (IdElement u) = 1546275796.
Proof.
  unfold el_eq. rewrite N.eqb_eq. cbn [el_hash]. intros H.
  exact (tuple_hash1_inj _ _ (uuid_hash_bound u) (uuid_hash_bound v) H).
Qed.
Lemma c68_refl u : el_eq (IdElement u) (IdElement u) = true.
Proof. apply N.eqb_refl. Qed.
Definition c68_u : bytes := rev (le_enc 16 5).
Definition c68_v : bytes := rev (le_enc 16 (5 + (2 ^ 61 - 1))).
Lemma c68_ref : exists u v, uuid_ok u /\ uuid_ok v /\ u <> v /\ el_eq (IdElement u) (IdElement v) = true.
Proof.
  exists c68_u, c68_v. split; [|split; [|split]].
  - split; [apply all_bytesb_ok; vm_compute; reflexivity|vm_compute; reflexivity].
  - split; [apply all_bytesb_ok; vm_compute; reflexivity|vm_compute; reflexivity].
  - vm_compute. discriminate.
  - vm_compute. reflexivity.
Qed.
(** History entries *)
Lemma tuple_hash2_inj a x y : x < W64 -> y < W64 -> tuple_hash [a; x] = tuple_hash [a; y] -> x = y \/ tuple_hash [a; x] = 1546275796.
Proof.
  intros Hx Hy. unfold tuple_hash. cbn [fold_left]. cbv zeta.
  change (lenN [a; x]) with 2. change (lenN [a; y]) with 2.
  set (c := N.lxor 2 (N.lxor xx5 3527539)). set (s := xx_step xx5 a).
  destruct (N.eqb_spec ((xx_step s x + c) mod W64) (W64 - 1)) as [Ex|Ex]; [intros _; right; reflexivity|].
  destruct (N.eqb_spec ((xx_step s y + c) mod W64) (W64 - 1)) as [Ey|Ey]; [intros ->; right; reflexivity|].
  intros H. left. rewrite (N.add_comm (xx_step s x)), (N.add_comm (xx_step s y)) in H.
  apply add_mod_inj in H; [|apply N.mod_lt; discriminate|apply N.mod_lt; discriminate].
  exact (xx_step_inj _ _ _ Hx Hy H).
Qed.
Lemma c68_hist u a b : a < 2 ^ 64 -> b < 2 ^ 64 -> el_eq (IdHistory u a) (IdHistory u b) = true -> a = b \/ el_hash (IdHistory u a) = 1546275796.
Proof. unfold el_eq. rewrite N.eqb_eq. cbn [el_hash]. intros Ha Hb H. exact (tuple_hash2_inj _ _ _ Ha Hb H). Qed.
Lemma c68_hist_refl u a : el_eq (IdHistory u a) (IdHistory u a) = true.
Proof. apply N.eqb_refl. Qed.
