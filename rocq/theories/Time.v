(** [PyKeePass._encode_time] / [_decode_time] (pykeepass.py:994-1030) over a model of
    [datetime.datetime] (CPython datetime.py): calendar fields, optional UTC offset.
    Simplification: UTC offsets are whole minutes; [datetime.fromisoformat] accepts here exactly the
    texts produced by [isoformat] (any separator character, optional 6-digit fraction, optional
    +HH:MM offset), other accepted spellings of newer Python versions are a ValueError. *)
From Coq Require Import ZifyBool ZifyNat ZifyN.
From Verif Require Import Base Base64 PyStr.
Local Open Scope Z_scope.
Ltac Zify.zify_post_hook ::= Z.div_mod_to_equations.

Record dt := MkDt { dyear : Z; dmonth : Z; dday : Z; dhour : Z; dmin : Z; dsec : Z; dus : Z; doff : option Z }.

(** ** Calendar (datetime.py _is_leap, _days_before_year, _ymd2ord, _ord2ymd) *)
Definition is_leap (y : Z) : bool := (y mod 4 =? 0) && (negb (y mod 100 =? 0) || (y mod 400 =? 0)).
Definition days_before_year (y : Z) : Z := let y := y - 1 in y * 365 + y / 4 - y / 100 + y / 400.
Definition dbm_table (m : Z) : Z :=
  match m with
  | 1 => 0 | 2 => 31 | 3 => 59 | 4 => 90 | 5 => 120 | 6 => 151
  | 7 => 181 | 8 => 212 | 9 => 243 | 10 => 273 | 11 => 304 | _ => 334
  end.
Definition days_in_month (y m : Z) : Z :=
  match m with
  | 2 => if is_leap y then 29 else 28
  | 4 | 6 | 9 | 11 => 30
  | _ => 31
  end.
Definition days_before_month (y m : Z) : Z :=
  dbm_table m + (if (2 <? m) && is_leap y then 1 else 0).
Definition ymd2ord (y m d : Z) : Z := days_before_year y + days_before_month y m + d.
Definition ord2ymd (n : Z) : Z * Z * Z :=
  let n := n - 1 in
  let n400 := n / 146097 in let n := n mod 146097 in
  let year := n400 * 400 + 1 in
  let n100 := n / 36524 in let n := n mod 36524 in
  let n4 := n / 1461 in let n := n mod 1461 in
  let n1 := n / 365 in let n := n mod 365 in
  let year := year + n100 * 100 + n4 * 4 + n1 in
  if (n1 =? 4) || (n100 =? 4) then (year - 1, 12, 31)
  else
    let leap := (n1 =? 3) && (negb (n4 =? 24) || (n100 =? 3)) in
    let month := (n + 50) / 32 in
    let preceding := dbm_table month + (if (2 <? month) && leap then 1 else 0) in
    if n <? preceding then
      let month' := month - 1 in
      let preceding := preceding - days_in_month (if leap then 4 else 1) month' in
      (year, month', n - preceding + 1)
    else (year, month, n - preceding + 1).

Definition dt_valid (t : dt) : Prop :=
  1 <= dyear t <= 9999 /\ 1 <= dmonth t <= 12 /\ 1 <= dday t <= days_in_month (dyear t) (dmonth t) /\
  0 <= dhour t < 24 /\ 0 <= dmin t < 60 /\ 0 <= dsec t < 60 /\ 0 <= dus t < 1000000 /\
  (forall o, doff t = Some o -> -1440 < o < 1440).
Definition dt_validb (t : dt) : bool :=
  (1 <=? dyear t) && (dyear t <=? 9999) && (1 <=? dmonth t) && (dmonth t <=? 12) &&
  (1 <=? dday t) && (dday t <=? days_in_month (dyear t) (dmonth t)) &&
  (0 <=? dhour t) && (dhour t <? 24) && (0 <=? dmin t) && (dmin t <? 60) &&
  (0 <=? dsec t) && (dsec t <? 60) && (0 <=? dus t) && (dus t <? 1000000) &&
  match doff t with None => true | Some o => (-1440 <? o) && (o <? 1440) end.

(** Microseconds of the wall clock since 0001-01-01T00:00:00, and of the instant denoted. *)
Definition local_sec (t : dt) : Z :=
  (ymd2ord (dyear t) (dmonth t) (dday t) - 1) * 86400 + dhour t * 3600 + dmin t * 60 + dsec t.
Definition local_us (t : dt) : Z := local_sec t * 1000000 + dus t.
Definition instant_us (t : dt) (off : Z) : Z := local_us t - off * 60 * 1000000.
(** The instant of an aware datetime. *)
Definition instant (t : dt) : option Z := option_map (instant_us t) (doff t).

(** Last representable second + 1: 10000-01-01. *)
Definition MAXSEC : Z := 3652059 * 86400.

(** ** [timedelta.total_seconds()] then [int()]: true division of integers is correctly rounded to
    53 significant bits, half to even; [int] truncates.  Below one second the quotient rounds to a
    float below 1 (at most 0.999999), so the integer part is 0. *)
Definition round_half_even (a b : Z) : Z :=
  let q := a / b in let r := a mod b in
  if 2 * r <? b then q else if b <? 2 * r then q + 1 else if Z.even q then q else q + 1.
Definition float_div_trunc (n d : Z) : Z :=
  if n <? d then 0
  else let e := 52 - Z.log2 (n / d) in
       round_half_even (n * 2 ^ e) d / 2 ^ e.
Definition total_seconds_int (us : Z) : Z :=
  if us <? 0 then - float_div_trunc (- us) 1000000 else float_div_trunc us 1000000.

(** [struct.pack('<Q', n)] / [struct.unpack('<Q', b)] *)
Definition pack_Q (n : Z) : res bytes :=
  if (0 <=? n) && (n <? 2 ^ 64) then Ok (le_enc 8 (Z.to_N n)) else Err Ex_Struct.
Definition unpack_Q (b : bytes) : res Z :=
  if (List.length b =? 8)%nat then Ok (Z.of_N (le_dec b)) else Err Ex_Struct.

(** A UTC datetime from seconds since year 1 (datetime + timedelta; OverflowError out of range). *)
Definition dt_of_sec (n : Z) : res dt :=
  if n <? MAXSEC then
    let '(y, m, d) := ord2ymd (n / 86400 + 1) in
    let r := n mod 86400 in
    Ok (MkDt y m d (r / 3600) (r mod 3600 / 60) (r mod 60) 0 (Some 0))
  else Err Ex_Overflow.

(** ** ISO text *)
Fixpoint digs (k : nat) (n : N) : str :=
  match k with O => [] | S k' => digs k' (n / 10)%N ++ [(48 + n mod 10)%N] end.
Definition zdigs (k : nat) (n : Z) : str := digs k (Z.to_N n).
Definition off_text (o : Z) : str :=
  (if o <? 0 then $"-" else $"+") ++ zdigs 2 (Z.abs o / 60) ++ $":" ++ zdigs 2 (Z.abs o mod 60).
Definition off_part (o : option Z) : str := match o with None => [] | Some o => off_text o end.
(** datetime.isoformat() *)
Definition isoformat (t : dt) : str :=
  zdigs 4 (dyear t) ++ $"-" ++ zdigs 2 (dmonth t) ++ $"-" ++ zdigs 2 (dday t) ++ $"T" ++
  zdigs 2 (dhour t) ++ $":" ++ zdigs 2 (dmin t) ++ $":" ++ zdigs 2 (dsec t) ++
  (if dus t =? 0 then [] else $"." ++ zdigs 6 (dus t)) ++
  off_part (doff t).

Fixpoint rd (k : nat) (acc : N) (s : str) : option (Z * str) :=
  match k with
  | O => Some (Z.of_N acc, s)
  | S k' => match s with
            | c :: s' => if is_digit c then rd k' (acc * 10 + (c - 48))%N s' else None
            | [] => None
            end
  end.
Definition expect (c : N) (s : str) : option str :=
  match s with x :: s' => if (x =? c)%N then Some s' else None | [] => None end.
Notation "'let?' x ':=' r 'in' k" := (match r with Some x => k | None => None end)
  (at level 200, x pattern, r at level 100, k at level 200, right associativity).
Definition parse_iso (s : str) : option dt :=
  let? (y, s) := rd 4 0 s in let? s := expect 45 s in
  let? (mo, s) := rd 2 0 s in let? s := expect 45 s in
  let? (d, s) := rd 2 0 s in
  match s with
  | [] => None
  | _ :: s =>
      let? (h, s) := rd 2 0 s in let? s := expect 58 s in
      let? (mi, s) := rd 2 0 s in let? s := expect 58 s in
      let? (sec, s) := rd 2 0 s in
      let? (us, s) := (match expect 46 s with Some s' => rd 6 0 s' | None => Some (0, s) end) in
      match s with
      | [] => Some (MkDt y mo d h mi sec us None)
      | c :: s =>
          let? sg := (if (c =? 43)%N then Some 1 else if (c =? 45)%N then Some (-1) else None) in
          let? (oh, s) := rd 2 0 s in let? s := expect 58 s in
          let? (om, s) := rd 2 0 s in
          match s with
          | [] => if om <? 60 then Some (MkDt y mo d h mi sec us (Some (sg * (oh * 60 + om)))) else None
          | _ => None
          end
      end
  end.
(** datetime.fromisoformat *)
Definition fromisoformat (s : str) : res dt :=
  match parse_iso s with
  | Some t => if dt_validb t then Ok t else Err Ex_Value
  | None => Err Ex_Value
  end.
(** pykeepass.py:1028,1030: replace 'Z', parse, overwrite the time zone with UTC. *)
Definition decode_iso (text : str) : res dt :=
  let* t := fromisoformat (py_replace $"Z" $"+00:00" text) in
  Ok (MkDt (dyear t) (dmonth t) (dday t) (dhour t) (dmin t) (dsec t) (dus t) (Some 0)).

(** pykeepass.py:994-1013; [v4] is [version >= (4, 0)].  Subtracting from a naive datetime is a TypeError. *)
Definition encode_time (v4 : bool) (t : dt) : res str :=
  if v4 then
    match instant t with
    | None => Err Ex_Type
    | Some i => let* b := pack_Q (total_seconds_int i) in Ok (b64encode b)
    end
  else Ok (isoformat t).

(** pykeepass.py:1015-1030: only binascii.Error triggers the fallback. *)
Definition decode_time (v4 : bool) (text : str) : res dt :=
  if v4 then
    match (let* b := b64decode text in let* n := unpack_Q b in dt_of_sec n) with
    | Err Ex_Binascii => decode_iso text
    | r => r
    end
  else decode_iso text.

(** ** Proofs: calendar *)
Fixpoint allr (p : Z -> bool) (k : nat) (base : Z) : bool :=
  match k with O => p base | S k' => allr p k' base && allr p k' (base + 2 ^ Z.of_nat k') end.
Lemma allr_spec p k : forall base, allr p k base = true -> forall x, base <= x < base + 2 ^ Z.of_nat k -> p x = true.
Proof.
  induction k as [|k IH]; intros base H x Hx; cbn [allr] in H.
  - change (2 ^ Z.of_nat 0) with 1 in Hx. replace x with base by lia. exact H.
  - apply andb_true_iff in H. destruct H as [H1 H2].
    rewrite Nat2Z.inj_succ, Z.pow_succ_r in Hx by lia.
    destruct (Z.ltb_spec x (base + 2 ^ Z.of_nat k)).
    + apply (IH base H1). lia.
    + apply (IH _ H2). lia.
Qed.
Definition doy_check (n : Z) : bool :=
  if 366 <=? n then true else
  forallb (fun leap : bool =>
   if (n =? 365) && negb leap then true else
   let month := (n + 50) / 32 in
   let preceding := dbm_table month + (if (2 <? month) && leap then 1 else 0) in
   let '(m, d) :=
    if n <? preceding then
      let month' := month - 1 in
      let preceding := preceding - days_in_month (if leap then 4 else 1) month' in
      (month', n - preceding + 1)
    else (month, n - preceding + 1) in
   (dbm_table m + (if (2 <? m) && leap then 1 else 0) + d =? n + 1) && (1 <=? m) && (m <=? 12) && (1 <=? d)
   && (d <=? days_in_month (if leap then 4 else 1) m)) [true; false].
Lemma doy_sweep : allr doy_check 9 0 = true.
Proof. vm_compute. reflexivity. Qed.

Lemma dim_leap y z m : is_leap y = is_leap z -> days_in_month y m = days_in_month z m.
Proof. intros H. unfold days_in_month. rewrite H. reflexivity. Qed.
Lemma year_parts q a b c : 0 <= a <= 3 -> 0 <= b <= 24 -> 0 <= c <= 3 ->
  let y := q * 400 + 1 + a * 100 + b * 4 + c in
  days_before_year y = 146097 * q + 36524 * a + 1461 * b + 365 * c /\
  is_leap y = (c =? 3) && (negb (b =? 24) || (a =? 3)).
Proof.
  intros Ha Hb Hc y. split; [unfold days_before_year, y; lia|].
  unfold is_leap.
  replace (y mod 4 =? 0) with (c =? 3) by (unfold y; lia).
  destruct (Z.eqb_spec c 3) as [->|]; [|reflexivity]. cbn [andb].
  replace (y mod 100 =? 0) with (b =? 24) by (unfold y; lia).
  destruct (Z.eqb_spec b 24) as [->|]; [|reflexivity]. cbn [negb orb].
  unfold y. lia.
Qed.
Lemma ord2ymd_spec n : 0 <= n -> let '(y, m, d) := ord2ymd (n + 1) in
  ymd2ord y m d = n + 1 /\ 1 + 400 * (n / 146097) <= y <= 400 + 400 * (n / 146097) /\ 1 <= m <= 12 /\ 1 <= d <= days_in_month y m.
Proof.
  intros Hn. unfold ord2ymd. cbv zeta. rewrite !Z.add_simpl_r.
  pose proof (Z.div_mod n 146097 ltac:(lia)) as D0. pose proof (Z.mod_pos_bound n 146097 ltac:(lia)) as M0.
  set (q := n / 146097) in *. set (r := n mod 146097) in *. clearbody q r.
  pose proof (Z.div_mod r 36524 ltac:(lia)) as D1. pose proof (Z.mod_pos_bound r 36524 ltac:(lia)) as M1.
  set (a := r / 36524) in *. set (r1 := r mod 36524) in *. clearbody a r1.
  pose proof (Z.div_mod r1 1461 ltac:(lia)) as D2. pose proof (Z.mod_pos_bound r1 1461 ltac:(lia)) as M2.
  set (b := r1 / 1461) in *. set (r2 := r1 mod 1461) in *. clearbody b r2.
  pose proof (Z.div_mod r2 365 ltac:(lia)) as D3. pose proof (Z.mod_pos_bound r2 365 ltac:(lia)) as M3.
  set (c := r2 / 365) in *. set (r3 := r2 mod 365) in *. clearbody c r3.
  assert (Ba : 0 <= a <= 4) by lia. assert (Bb : 0 <= b <= 24) by lia. assert (Bc : 0 <= c <= 4) by lia.
  destruct (Z.eqb_spec c 4) as [Hc4|Hc4]; cbn [orb].
  - (* day 366 of a leap year *)
    assert (r3 = 0) by lia. assert (a <= 3) by lia.
    destruct (year_parts q a b 3 ltac:(lia) ltac:(lia) ltac:(lia)) as [Y1 Y2]. cbv zeta in Y1, Y2.
    replace (q * 400 + 1 + a * 100 + b * 4 + c - 1) with (q * 400 + 1 + a * 100 + b * 4 + 3) by lia.
    assert (Hl : negb (b =? 24) || (a =? 3) = true) by lia.
    unfold ymd2ord, days_before_month. rewrite Y1, Y2, Hl. cbn [Z.eqb Pos.eqb andb dbm_table Z.ltb Z.compare Pos.compare Pos.compare_cont].
    cbn [days_in_month]. lia.
  - destruct (Z.eqb_spec a 4) as [Ha4|Ha4].
    + (* last day of a 400-year cycle *)
      assert (r1 = 0) by lia. assert (b = 0 /\ c = 0) as [-> ->] by lia. subst a.
      destruct (year_parts q 3 24 3 ltac:(lia) ltac:(lia) ltac:(lia)) as [Y1 Y2]. cbv zeta in Y1, Y2.
      replace (q * 400 + 1 + 4 * 100 + 0 * 4 + 0 - 1) with (q * 400 + 1 + 3 * 100 + 24 * 4 + 3) by lia.
      unfold ymd2ord, days_before_month. rewrite Y1, Y2. cbn [Z.eqb Pos.eqb andb orb negb dbm_table Z.ltb Z.compare Pos.compare Pos.compare_cont].
      cbn [days_in_month]. lia.
    + destruct (year_parts q a b c ltac:(lia) ltac:(lia) ltac:(lia)) as [Y1 Y2]. cbv zeta in Y1, Y2.
      set (y := q * 400 + 1 + a * 100 + b * 4 + c) in *.
      set (leap := (c =? 3) && (negb (b =? 24) || (a =? 3))) in *.
      pose proof (allr_spec _ _ _ doy_sweep r3 ltac:(change (2 ^ Z.of_nat 9) with 512; lia)) as S.
      unfold doy_check in S. replace (366 <=? r3) with false in S by lia. cbn iota in S.
      rewrite forallb_forall in S. specialize (S leap ltac:(destruct leap; cbn; auto)). cbv beta in S.
      replace ((r3 =? 365) && negb leap) with false in S by lia. cbn iota zeta in S.
      assert (Hdim : forall m, days_in_month y m = days_in_month (if leap then 4 else 1) m).
      { intros m. apply dim_leap. rewrite Y2. destruct leap; reflexivity. }
      destruct (r3 <? _).
      * rewrite !andb_true_iff, !Z.leb_le, Z.eqb_eq in S.
        unfold ymd2ord, days_before_month. rewrite Y1, Y2, Hdim. unfold y. lia.
      * rewrite !andb_true_iff, !Z.leb_le, Z.eqb_eq in S.
        unfold ymd2ord, days_before_month. rewrite Y1, Y2, Hdim. unfold y. lia.
Qed.

(** Dates of years 1..9999 have ordinals 1..3652059. *)
Lemma dim_le y m : days_in_month y m <= 31.
Proof. unfold days_in_month. repeat (match goal with |- context[match ?p with _ => _ end] => destruct p end); lia. Qed.
Lemma month_cases m : 1 <= m <= 12 ->
  m = 1 \/ m = 2 \/ m = 3 \/ m = 4 \/ m = 5 \/ m = 6 \/ m = 7 \/ m = 8 \/ m = 9 \/ m = 10 \/ m = 11 \/ m = 12.
Proof. lia. Qed.
Lemma ymd2ord_bounds y m d : 1 <= y -> 1 <= m <= 12 -> 1 <= d <= days_in_month y m ->
  days_before_year y < ymd2ord y m d <= days_before_year (y + 1).
Proof.
  intros Hy Hm Hd. unfold ymd2ord.
  assert (Hn : days_before_year (y + 1) = days_before_year y + 365 + (if is_leap y then 1 else 0)).
  { unfold days_before_year, is_leap. destruct (Z.eqb_spec (y mod 4) 0); destruct (Z.eqb_spec (y mod 100) 0); destruct (Z.eqb_spec (y mod 400) 0); cbn [andb orb negb]; lia. }
  rewrite Hn. unfold days_before_month.
  destruct (month_cases m Hm) as [->|[->|[->|[->|[->|[->|[->|[->|[->|[->|[->| ->]]]]]]]]]]];
    cbn [days_in_month dbm_table Z.ltb Z.compare Pos.compare Pos.compare_cont andb] in *; destruct (is_leap y); lia.
Qed.
Lemma dby_mono a b : 1 <= a -> a <= b -> days_before_year a <= days_before_year b.
Proof. intros H1 H2. unfold days_before_year. lia. Qed.
Lemma local_sec_bounds t : dt_valid t -> 0 <= local_sec t < MAXSEC.
Proof.
  intros (Hy & Hm & Hd & Hh & Hmi & Hs & _). unfold local_sec.
  pose proof (ymd2ord_bounds _ _ _ (proj1 Hy) Hm Hd) as B.
  pose proof (dby_mono 1 (dyear t) ltac:(lia) ltac:(lia)) as B1.
  pose proof (dby_mono (dyear t + 1) 10000 ltac:(lia) ltac:(lia)) as B2.
  change (days_before_year 1) with 0 in B1. change (days_before_year 10000) with 3652059 in B2.
  unfold MAXSEC. lia.
Qed.
Lemma local_us_bounds t : dt_valid t -> 0 <= local_us t < MAXSEC * 1000000.
Proof. intros H. pose proof (local_sec_bounds t H). destruct H as (_&_&_&_&_&_&Hu&_). unfold local_us. lia. Qed.

(** The datetime made from a second count denotes that second, is UTC and valid. *)
Lemma dt_of_sec_spec n : 0 <= n < MAXSEC ->
  exists t, dt_of_sec n = Ok t /\ dt_valid t /\ instant t = Some (n * 1000000) /\ doff t = Some 0.
Proof.
  intros Hn. unfold dt_of_sec. replace (n <? MAXSEC) with true by lia.
  pose proof (ord2ymd_spec (n / 86400) ltac:(lia)) as H.
  destruct (ord2ymd (n / 86400 + 1)) as [[y m] d]. destruct H as (H1 & H2 & H3 & H4).
  eexists. split; [reflexivity|]. cbn [dyear dmonth dday dhour dmin dsec dus doff].
  assert (Hday : n / 86400 < 3652059) by (unfold MAXSEC in Hn; lia).
  assert (Hy : y <= 9999).
  { destruct (Z.leb_spec y 9999); [assumption|exfalso].
    pose proof (ymd2ord_bounds y m d ltac:(lia) H3 H4) as B.
    pose proof (dby_mono 10000 y ltac:(lia) ltac:(lia)) as B2. change (days_before_year 10000) with 3652059 in B2. lia. }
  split; [|split; [|reflexivity]].
  - unfold dt_valid. cbn [dyear dmonth dday dhour dmin dsec dus doff].
    split; [lia|]. do 6 (split; [lia|]). intros o [= <-]. lia.
  - unfold instant, instant_us, local_us, local_sec. cbn [dyear dmonth dday dhour dmin dsec dus doff option_map].
    rewrite H1. f_equal. lia.
Qed.

(** ** Proofs: the float division *)
Lemma rhe_bounds a b : 0 < b -> b * round_half_even a b <= a + b / 2 /\ a <= b * round_half_even a b + b / 2.
Proof.
  intros Hb. unfold round_half_even. cbv zeta.
  pose proof (Z.div_mod a b ltac:(lia)) as D. pose proof (Z.mod_pos_bound a b Hb) as M.
  set (q := a / b) in *. set (r := a mod b) in *. clearbody q r.
  destruct (Z.ltb_spec (2 * r) b); [split; nia|]. destruct (Z.ltb_spec b (2 * r)); [split; nia|].
  destruct (Z.even q); split; nia.
Qed.
Lemma fdt_exact n : 0 <= n -> n < MAXSEC -> float_div_trunc (n * 1000000) 1000000 = n.
Proof.
  intros Hn Hm. unfold float_div_trunc. destruct (Z.ltb_spec (n * 1000000) 1000000); [lia|].
  cbv zeta. rewrite Z.div_mul by lia. set (e := 52 - Z.log2 n).
  assert (He : 0 <= e).
  { unfold e. assert (Z.log2 n <= 52); [|lia]. change 52 with (Z.log2 (2 ^ 52)). apply Z.log2_le_mono. unfold MAXSEC in Hm. lia. }
  assert (HP : 0 < 2 ^ e) by (apply Z.pow_pos_nonneg; lia).
  unfold round_half_even. cbv zeta.
  replace (n * 1000000 * 2 ^ e) with (n * 2 ^ e * 1000000) by lia.
  rewrite Z.div_mul, Z.mod_mul by lia. replace (2 * 0 <? 1000000) with true by reflexivity.
  apply Z.div_mul. lia.
Qed.
(** General bound: the truncated float differs from the exact floor by at most one upwards, and only
    if the fraction is within 2^-15 s (31 microseconds) of the next second. *)
Lemma fdt_bounds u : 0 <= u -> u < MAXSEC * 1000000 ->
  let r := float_div_trunc u 1000000 in
  (r = u / 1000000 \/ (r = u / 1000000 + 1 /\ 999969 <= u mod 1000000)).
Proof.
  intros Hu Hm. cbv zeta. unfold float_div_trunc. destruct (Z.ltb_spec u 1000000); [left; lia|].
  cbv zeta. set (q := u / 1000000). set (e := 52 - Z.log2 q).
  assert (Hq : 1 <= q) by (unfold q; lia).
  assert (Hl : Z.log2 q <= 38).
  { assert (Z.log2 q < 39); [|lia]. apply Z.log2_lt_pow2; [lia|]. unfold MAXSEC in Hm. unfold q. lia. }
  assert (He : 14 <= e) by (unfold e; lia).
  assert (HP : 2 ^ 14 <= 2 ^ e) by (apply Z.pow_le_mono_r; lia).
  change (2 ^ 14) with 16384 in HP. set (P := 2 ^ e) in *. clearbody P.
  destruct (rhe_bounds (u * P) 1000000 ltac:(lia)) as [B1 B2].
  change (1000000 / 2) with 500000 in B1, B2.
  set (m := round_half_even (u * P) 1000000) in *.
  pose proof (Z.div_mod u 1000000 ltac:(lia)) as D. pose proof (Z.mod_pos_bound u 1000000 ltac:(lia)) as M.
  fold q in D. set (f := u mod 1000000) in *.
  (* m >= q*P, from below: exact multiples stay *)
  assert (Hlow : q * P <= m).
  { assert (1000000 * (q * P) <= u * P) by nia.
    assert (Hx : 1000000 * (q * P) <= 1000000 * m + 500000) by nia. lia. }
  assert (Hhigh : m <= (q + 1) * P).
  { assert (u * P <= 1000000 * ((q + 1) * P) - P) by nia. nia. }
  destruct (Z.ltb_spec m ((q + 1) * P)) as [Hlt|Hge].
  - left. symmetry. apply (Z.div_unique m P q (m - q * P)); [left; nia|lia].
  - right. assert (Hme : m = (q + 1) * P) by lia. split; [rewrite Hme; apply Z.div_mul; lia|].
    assert (1000000 * ((q + 1) * P) <= u * P + 500000) by (rewrite <- Hme; lia).
    assert ((1000000 - f) * P <= 500000) by nia.
    nia.
Qed.

(** ** Proofs: v4 storage *)
Lemma pack_unpack n : 0 <= n < MAXSEC -> exists b, pack_Q n = Ok b /\ unpack_Q b = Ok n /\ bytes_ok b /\ List.length b = 8%nat.
Proof.
  intros Hn. unfold pack_Q. replace ((0 <=? n) && (n <? 2 ^ 64)) with true by (unfold MAXSEC in Hn; lia).
  exists (le_enc 8 (Z.to_N n)). split; [reflexivity|]. split; [|split; [apply le_enc_ok|apply le_enc_length]].
  unfold unpack_Q. rewrite le_enc_length. cbn [Nat.eqb]. rewrite le_dec_enc; [f_equal; lia|].
  change (256 ^ N.of_nat 8)%N with (Z.to_N (2 ^ 64)). unfold MAXSEC in Hn. lia.
Qed.
Lemma encode_v4 t i : instant t = Some i -> 0 <= i < MAXSEC * 1000000 ->
  exists b, encode_time true t = Ok (b64encode b) /\ bytes_ok b /\ List.length b = 8%nat /\
            Z.of_N (le_dec b) = float_div_trunc i 1000000.
Proof.
  intros Hi Hb. unfold encode_time. rewrite Hi. unfold total_seconds_int. replace (i <? 0) with false by lia.
  assert (Hr : 0 <= float_div_trunc i 1000000 <= MAXSEC).
  { pose proof (fdt_bounds i ltac:(lia) ltac:(lia)) as B. cbv zeta in B. unfold MAXSEC in *. lia. }
  unfold pack_Q. replace ((0 <=? float_div_trunc i 1000000) && (float_div_trunc i 1000000 <? 2 ^ 64)) with true by (unfold MAXSEC in *; lia).
  eexists. split; [reflexivity|]. split; [apply le_enc_ok|]. split; [apply le_enc_length|].
  rewrite le_dec_enc; [lia|]. change (256 ^ N.of_nat 8)%N with (Z.to_N (2 ^ 64)). unfold MAXSEC in *. lia.
Qed.
Lemma decode_v4_b64 b : bytes_ok b -> List.length b = 8%nat -> Z.of_N (le_dec b) < MAXSEC ->
  exists t, decode_time true (b64encode b) = Ok t /\ dt_valid t /\ instant t = Some (Z.of_N (le_dec b) * 1000000) /\ doff t = Some 0.
Proof.
  intros Hb Hl Hm. unfold decode_time. rewrite b64_roundtrip by exact Hb. cbn [bind]. unfold unpack_Q. rewrite Hl. cbn [Nat.eqb bind].
  destruct (dt_of_sec_spec (Z.of_N (le_dec b)) ltac:(lia)) as (t & -> & H). eauto.
Qed.

(** ** Proofs: ISO text *)
Lemma rd_digs k : forall n acc s, (n < 10 ^ N.of_nat k)%N -> rd k acc (digs k n ++ s) = Some (Z.of_N (acc * 10 ^ N.of_nat k + n), s).
Proof.
  (* read from the left: digs peels from the right, so generalise over a left digit *)
  assert (Hlen : forall k n, List.length (digs k n) = k).
  { clear. induction k as [|k IH]; intros n; cbn [digs]; [reflexivity|]. rewrite app_length, IH. cbn [List.length]. lia. }
  assert (Hrd : forall k acc a c s, (c < 10)%N -> List.length a = k -> rd (S k) acc (a ++ [48 + c]%N ++ s) =
     match rd k acc (a ++ [48 + c]%N ++ s) with Some (v, _) => Some (v * 10 + Z.of_N c, s) | None => None end).
  { clear. induction k as [|k IH]; intros acc a c s Hc Ha.
    - destruct a; [|discriminate]. cbn [app rd]. unfold is_digit. replace ((48 <=? 48 + c) && (48 + c <=? 57))%N with true by lia.
      do 2 f_equal. lia.
    - destruct a as [|x a]; [discriminate|]. cbn [List.length] in Ha.
      change ((x :: a) ++ [48 + c]%N ++ s) with (x :: (a ++ [48 + c]%N ++ s)).
      cbn [rd]. destruct (is_digit x); [|reflexivity].
      specialize (IH (acc * 10 + (x - 48))%N a c s Hc ltac:(lia)). cbn [rd] in IH. exact IH. }
  induction k as [|k IH]; intros n acc s Hn.
  - cbn [digs app rd]. change (10 ^ N.of_nat 0)%N with 1%N in *. do 2 f_equal. lia.
  - cbn [digs]. rewrite <- app_assoc. rewrite Nat2N.inj_succ, N.pow_succ_r' in Hn.
    rewrite Hrd by (try apply Hlen; lia). rewrite IH by (apply N.div_lt_upper_bound; lia).
    do 2 f_equal. rewrite Nat2N.inj_succ, N.pow_succ_r'. set (p := (10 ^ N.of_nat k)%N) in *. clearbody p. lia.
Qed.
Lemma rd_zdigs k n s : 0 <= n < 10 ^ Z.of_nat k -> rd k 0 (zdigs k n ++ s) = Some (n, s).
Proof.
  intros H. unfold zdigs. rewrite rd_digs.
  - do 2 f_equal. lia.
  - apply N2Z.inj_lt. rewrite N2Z.inj_pow, nat_N_Z, Z2N.id by lia. exact (proj2 H).
Qed.
Lemma digs_chars k : forall n, forallb is_digit (digs k n) = true.
Proof.
  induction k as [|k IH]; intros n; cbn [digs]; [reflexivity|]. rewrite forallb_app, IH. cbn [forallb andb].
  unfold is_digit. lia.
Qed.
Lemma dim_pos_le y m : days_in_month y m <= 31. Proof. apply dim_le. Qed.

Lemma dt_validb_ok t : dt_validb t = true <-> dt_valid t.
Proof.
  unfold dt_validb, dt_valid. rewrite !andb_true_iff, !Z.leb_le, !Z.ltb_lt.
  destruct (doff t) as [o|].
  - rewrite andb_true_iff, !Z.ltb_lt. split.
    + intros H. repeat (split; [lia|]). intros x [= <-]. lia.
    + intros (H1&H2&H3&H4&H5&H6&H7&H8). specialize (H8 o eq_refl). lia.
  - split; [intros H; repeat (split; [lia|]); intros x; discriminate|intros H; repeat split; lia].
Qed.

Ltac rdz := rewrite rd_zdigs by (cbn; lia); cbn [app expect N.eqb Pos.eqb].
Lemma parse_isoformat t : dt_valid t -> parse_iso (isoformat t) = Some t.
Proof.
  intros (Hy & Hm & Hd & Hh & Hmi & Hs & Hu & Ho). destruct t as [y mo d h mi s us off].
  cbn [dyear dmonth dday dhour dmin dsec dus doff] in *.
  pose proof (dim_le y mo) as Hdim.
  unfold parse_iso, isoformat. cbn [dyear dmonth dday dhour dmin dsec dus doff].
  change ($"-") with [45%N]. change ($"T") with [84%N]. change ($":") with [58%N]. change ($".") with [46%N].
  rewrite rd_zdigs by (change (10 ^ Z.of_nat 4) with 10000; lia). cbn [app expect N.eqb Pos.eqb].
  rewrite rd_zdigs by (change (10 ^ Z.of_nat 2) with 100; lia). cbn [app expect N.eqb Pos.eqb].
  rewrite rd_zdigs by (change (10 ^ Z.of_nat 2) with 100; lia). cbn [app expect N.eqb Pos.eqb].
  rewrite rd_zdigs by (change (10 ^ Z.of_nat 2) with 100; lia). cbn [app expect N.eqb Pos.eqb].
  rewrite rd_zdigs by (change (10 ^ Z.of_nat 2) with 100; lia). cbn [app expect N.eqb Pos.eqb].
  rewrite rd_zdigs by (change (10 ^ Z.of_nat 2) with 100; lia). cbn [app expect N.eqb Pos.eqb].
  assert (Hoff : forall u, match off_part off with
      | [] => Some (MkDt y mo d h mi s u None)
      | c :: s0 =>
          let? sg := (if (c =? 43)%N then Some 1 else if (c =? 45)%N then Some (-1) else None) in
          let? (oh, s0) := rd 2 0 s0 in let? s0 := expect 58 s0 in
          let? (om, s0) := rd 2 0 s0 in
          match s0 with
          | [] => if om <? 60 then Some (MkDt y mo d h mi s u (Some (sg * (oh * 60 + om)))) else None
          | _ => None
          end
      end = Some (MkDt y mo d h mi s u off)).
  { intros u. destruct off as [o|]; [|reflexivity]. specialize (Ho o eq_refl). unfold off_part, off_text.
    change ($":") with [58%N].
    destruct (Z.ltb_spec o 0).
    - change ($"-") with [45%N]. cbn [app N.eqb Pos.eqb].
      rewrite rd_zdigs by (change (10 ^ Z.of_nat 2) with 100; lia). cbn [app expect N.eqb Pos.eqb].
      rewrite <- (app_nil_r (zdigs 2 (Z.abs o mod 60))).
      rewrite rd_zdigs by (change (10 ^ Z.of_nat 2) with 100; lia).
      replace (Z.abs o mod 60 <? 60) with true by lia. do 3 f_equal. lia.
    - change ($"+") with [43%N]. cbn [app N.eqb Pos.eqb].
      rewrite rd_zdigs by (change (10 ^ Z.of_nat 2) with 100; lia). cbn [app expect N.eqb Pos.eqb].
      rewrite <- (app_nil_r (zdigs 2 (Z.abs o mod 60))).
      rewrite rd_zdigs by (change (10 ^ Z.of_nat 2) with 100; lia).
      replace (Z.abs o mod 60 <? 60) with true by lia. do 3 f_equal. lia. }
  destruct (Z.eqb_spec us 0) as [->|Hus].
  - cbn [app]. specialize (Hoff 0).
    destruct (off_part off) as [|c r] eqn:Eo.
    + cbn [expect]. exact Hoff.
    + assert (Hc : expect 46 (c :: r) = None).
      { destruct off as [o|]; [|discriminate]. unfold off_part, off_text in Eo. destruct (o <? 0); inversion Eo; reflexivity. }
      rewrite Hc. exact Hoff.
  - cbn [app expect N.eqb Pos.eqb].
    rewrite rd_zdigs by (change (10 ^ Z.of_nat 6) with 1000000; lia). exact (Hoff us).
Qed.
Lemma isoformat_noZ t : forallb (fun c => negb (c =? 90)%N) (isoformat t) = true.
Proof.
  assert (Hz : forall k n, forallb (fun c => negb (c =? 90)%N) (zdigs k n) = true).
  { intros k n. eapply forallb_impl; [|apply digs_chars]. intros a. unfold is_digit. lia. }
  unfold isoformat. rewrite !forallb_app, !Hz. cbn [andb].
  replace (forallb _ (if dus t =? 0 then [] else _)) with true.
  2:{ destruct (dus t =? 0); [reflexivity|]. rewrite forallb_app, Hz. reflexivity. }
  destruct (doff t) as [o|]; [|reflexivity]. unfold off_part, off_text. rewrite !forallb_app, !Hz. destruct (o <? 0); reflexivity.
Qed.
Lemma noZ_replace s : forallb (fun c => negb (c =? 90)%N) s = true -> py_replace $"Z" $"+00:00" s = s.
Proof.
  intros H. apply py_replace_absent; [discriminate|]. change ($"Z") with [90%N].
  destruct (substr_in [90%N] s) eqn:E; [|reflexivity]. apply substr_in_spec in E. destruct E as (a & b & ->).
  rewrite forallb_app in H. cbn [app forallb] in H. rewrite N.eqb_refl in H. rewrite andb_false_r in H. discriminate.
Qed.
Definition as_utc (t : dt) : dt := MkDt (dyear t) (dmonth t) (dday t) (dhour t) (dmin t) (dsec t) (dus t) (Some 0).
Lemma decode_iso_isoformat t : dt_valid t -> decode_iso (isoformat t) = Ok (as_utc t).
Proof.
  intros H. unfold decode_iso. rewrite noZ_replace by apply isoformat_noZ.
  unfold fromisoformat. rewrite parse_isoformat by exact H.
  rewrite (proj2 (dt_validb_ok t) H). reflexivity.
Qed.

(** ** Proofs: lenient base64 on text without '=' is decided by the number of alphabet characters *)
Fixpoint nval (s : str) : nat :=
  match s with [] => O | c :: s' => match b64val c with Some _ => S (nval s') | None => nval s' end end.
Lemma a2b_count s : forall quad left pads, (quad < 4)%N -> forallb (fun c => negb (c =? 61)%N) s = true ->
  if ((N.to_nat quad + nval s) mod 4 =? 0)%nat
  then exists r, a2b quad left pads s = Ok r /\
       (4 * (List.length r + (N.to_nat quad - 1)) = 3 * (N.to_nat quad + nval s))%nat
  else a2b quad left pads s = Err Ex_Binascii.
Proof.
  induction s as [|c s IH]; intros quad left pads Hq Hs.
  - cbn [nval a2b]. rewrite Nat.add_0_r.
    assert (quad = 0 \/ quad = 1 \/ quad = 2 \/ quad = 3)%N as [->|[->|[->| ->]]] by lia; first [reflexivity | exists []; split; reflexivity].
  - cbn [forallb] in Hs. apply andb_true_iff in Hs. destruct Hs as [Hc Hs]. rewrite negb_true_iff in Hc.
    cbn [nval a2b]. rewrite Hc. destruct (b64val c) as [v|]; [|apply IH; assumption].
    assert (quad = 0 \/ quad = 1 \/ quad = 2 \/ quad = 3)%N as [->|[->|[->| ->]]] by lia; cbn [N.eqb Pos.eqb].
    + specialize (IH 1%N v 0%N ltac:(lia) Hs).
      change (N.to_nat 1 + nval s)%nat with (S (nval s)) in IH. change (N.to_nat 0 + S (nval s))%nat with (S (nval s)).
      destruct (S (nval s) mod 4 =? 0)%nat; [|exact IH]. destruct IH as (r & Hr & Hl). exists r. split; [exact Hr|].
      change (N.to_nat 0) with 0%nat. change (N.to_nat 1) with 1%nat in Hl. lia.
    + specialize (IH 2%N (v mod 16)%N 0%N ltac:(lia) Hs).
      change (N.to_nat 2 + nval s)%nat with (S (S (nval s))) in IH. change (N.to_nat 1 + S (nval s))%nat with (S (S (nval s))).
      destruct (S (S (nval s)) mod 4 =? 0)%nat; [|now rewrite IH]. destruct IH as (r & -> & Hl). eexists. split; [reflexivity|].
      change (N.to_nat 1) with 1%nat. change (N.to_nat 2) with 2%nat in Hl. cbn [List.length]. lia.
    + specialize (IH 3%N (v mod 4)%N 0%N ltac:(lia) Hs).
      change (N.to_nat 3 + nval s)%nat with (S (S (S (nval s)))) in IH. change (N.to_nat 2 + S (nval s))%nat with (S (S (S (nval s)))).
      destruct (S (S (S (nval s))) mod 4 =? 0)%nat; [|now rewrite IH]. destruct IH as (r & -> & Hl). eexists. split; [reflexivity|].
      change (N.to_nat 2) with 2%nat. change (N.to_nat 3) with 3%nat in Hl. cbn [List.length]. lia.
    + specialize (IH 0%N 0%N 0%N ltac:(lia) Hs).
      change (N.to_nat 0 + nval s)%nat with (nval s) in IH. change (N.to_nat 3 + S (nval s))%nat with (S (S (S (S (nval s))))).
      replace (S (S (S (S (nval s)))) mod 4)%nat with (nval s mod 4)%nat.
      2:{ replace (S (S (S (S (nval s))))) with (nval s + 1 * 4)%nat by lia. rewrite Nat.mod_add by lia. reflexivity. }
      destruct (nval s mod 4 =? 0)%nat; [|now rewrite IH]. destruct IH as (r & -> & Hl). eexists. split; [reflexivity|].
      change (N.to_nat 3) with 3%nat. change (N.to_nat 0) with 0%nat in Hl. cbn [List.length]. lia.
Qed.
Lemma nval_app a b : nval (a ++ b) = (nval a + nval b)%nat.
Proof. induction a as [|c a IH]; cbn [app nval]; [reflexivity|]. destruct (b64val c); lia. Qed.
Lemma nval_digs k : forall n, nval (digs k n) = k.
Proof.
  induction k as [|k IH]; intros n; cbn [digs]; [reflexivity|]. rewrite nval_app, IH. cbn [nval].
  replace (b64val (48 + n mod 10)%N) with (Some ((48 + n mod 10) - 48 + 52)%N); [lia|].
  unfold b64val. replace ((65 <=? 48 + n mod 10) && (48 + n mod 10 <=? 90))%N with false by lia.
  replace ((97 <=? 48 + n mod 10) && (48 + n mod 10 <=? 122))%N with false by lia.
  replace ((48 <=? 48 + n mod 10) && (48 + n mod 10 <=? 57))%N with true by lia. reflexivity.
Qed.
Lemma digs_ascii k n : forallb (fun c => (c <? 128)%N) (digs k n) = true.
Proof. eapply forallb_impl; [|apply digs_chars]. intros a. unfold is_digit. lia. Qed.
Lemma digs_nopad k n : forallb (fun c => negb (c =? 61)%N) (digs k n) = true.
Proof. eapply forallb_impl; [|apply digs_chars]. intros a. unfold is_digit. lia. Qed.

(** The ISO text of the wall clock fields followed by a suffix. *)
Definition naive_text (t : dt) : str :=
  zdigs 4 (dyear t) ++ $"-" ++ zdigs 2 (dmonth t) ++ $"-" ++ zdigs 2 (dday t) ++ $"T" ++
  zdigs 2 (dhour t) ++ $":" ++ zdigs 2 (dmin t) ++ $":" ++ zdigs 2 (dsec t).
Lemma naive_text_nval t : nval (naive_text t) = 15%nat.
Proof. unfold naive_text, zdigs. rewrite !nval_app, !nval_digs. reflexivity. Qed.
Lemma naive_text_ascii t : forallb (fun c => (c <? 128)%N) (naive_text t) = true.
Proof. unfold naive_text, zdigs. rewrite !forallb_app, !digs_ascii. reflexivity. Qed.
Lemma naive_text_nopad t : forallb (fun c => negb (c =? 61)%N) (naive_text t) = true.
Proof. unfold naive_text, zdigs. rewrite !forallb_app, !digs_nopad. reflexivity. Qed.

(** KeePass's own spelling with a final Z: the lenient base64 decoder accepts it as 12 bytes. *)
Lemma decode_v4_isoZ t : decode_time true (naive_text t ++ $"Z") = Err Ex_Struct.
Proof.
  unfold decode_time, b64decode. rewrite forallb_app, naive_text_ascii.
  pose proof (a2b_count (naive_text t ++ $"Z") 0 0 0 ltac:(lia)) as H.
  rewrite forallb_app, naive_text_nopad in H. specialize (H eq_refl).
  rewrite nval_app, naive_text_nval in H. change (nval $"Z") with 1%nat in H.
  change ((N.to_nat 0 + (15 + 1)) mod 4 =? 0)%nat with true in H. cbn iota in H.
  change (N.to_nat 0 + (15 + 1))%nat with 16%nat in H. change (N.to_nat 0 - 1)%nat with 0%nat in H. destruct H as (r & Hr & Hl).
  change (andb true (forallb (fun c => (c <? 128)%N) $"Z")) with true. cbn iota. rewrite Hr. cbn [bind].
  unfold unpack_Q. destruct (Nat.eqb_spec (List.length r) 8); [lia|]. reflexivity.
Qed.
(** Without a designator the fallback is reached. *)
Lemma decode_v4_iso_naive t : dt_valid t -> doff t = None -> dus t = 0 -> decode_time true (isoformat t) = Ok (as_utc t).
Proof.
  intros Hv Ho Hu.
  assert (E : isoformat t = naive_text t).
  { unfold isoformat, naive_text. rewrite Ho, Hu. cbn [Z.eqb off_part]. rewrite !app_nil_r. reflexivity. }
  unfold decode_time. rewrite E at 1. unfold b64decode. rewrite naive_text_ascii.
  pose proof (a2b_count (naive_text t) 0 0 0 ltac:(lia) (naive_text_nopad t)) as H.
  rewrite naive_text_nval in H. change ((N.to_nat 0 + 15) mod 4 =? 0)%nat with false in H. cbn iota in H. rewrite H. cbn [bind]. apply decode_iso_isoformat, Hv.
Qed.
