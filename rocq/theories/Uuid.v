(** UUIDs: storage as base64 text (baseelement.py:17-19, 67-77), the text searched by
    [find_*(uuid=...)] (pykeepass.py:546, xpath.py), hexadecimal form (entry.py:412, pykeepass.py:906)
    and hashing/equality of elements (baseelement.py:171-177, entry.py:455-458). *)
From Coq Require Import ZifyBool ZifyNat ZifyN.
From Verif Require Import Base Base64 PyStr.
Ltac Zify.zify_post_hook ::= Z.div_mod_to_equations.

(** A [uuid.UUID] is given by its 16 bytes ([uuid.bytes], big endian). *)
Definition uuid_ok (u : bytes) : Prop := bytes_ok u /\ List.length u = 16%nat.
Definition uuid_okb (u : bytes) : bool := all_bytesb u && (List.length u =? 16)%nat.
(** [uuid.int] *)
Definition uuid_int (u : bytes) : N := le_dec (rev u).

(** [UUID(bytes=b)]: ValueError unless 16 bytes (uuid.py). *)
Definition uuid_of_bytes (b : bytes) : res bytes :=
  if (List.length b =? 16)%nat then Ok b else Err Ex_Value.

(** baseelement.py:76: text stored for a uuid; pykeepass.py:546: text searched for. *)
Definition uuid_text (u : bytes) : str := b64encode u.
(** baseelement.py:68-71: the text (None raises TypeError) decoded to a uuid. *)
Definition uuid_of_text (t : option str) : res bytes :=
  match t with
  | None => Err Ex_Type
  | Some s => let* b := b64decode s in uuid_of_bytes b
  end.

(** entry.py:412 [uuid.hex.upper()] *)
Definition uuid_hex_upper (u : bytes) : str := hex_up u.

(** [uuid.UUID(hex)] (uuid.py: strip decorations, 32 characters, int(hex, 16)); pykeepass.py:906. *)
Definition uuid_of_hex (s : str) : res bytes :=
  let s := py_replace $"uuid:" [] (py_replace $"urn:" [] s) in
  let s := py_strip (fun c => (c =? 123) || (c =? 125)) s in
  let s := py_replace [45] [] s in
  if (List.length s =? 32)%nat then
    let* z := int16_of_str s in
    if ((0 <=? z) && (z <? 2 ^ 128))%Z then Ok (rev (le_enc 16 (Z.to_N z))) else Err Ex_Value
  else Err Ex_Value.

Lemma uuid_text_roundtrip u : uuid_ok u -> uuid_of_text (Some (uuid_text u)) = Ok u.
Proof.
  intros [Hb Hl]. unfold uuid_of_text, uuid_text. rewrite b64_roundtrip by exact Hb. cbn [bind].
  unfold uuid_of_bytes. rewrite Hl. reflexivity.
Qed.
Lemma uuid_text_inj u v : uuid_ok u -> uuid_ok v -> uuid_text u = uuid_text v -> u = v.
Proof. intros [Hu _] [Hv _]. apply b64encode_inj; assumption. Qed.
Lemma uuid_text_noquote u : uuid_ok u -> forallb (fun c => negb (c =? 34)) (uuid_text u) = true.
Proof.
  intros [Hu _]. eapply forallb_impl; [|apply (b64encode_alpha u Hu)].
  intros a Ha. destruct (N.eqb_spec a 34) as [->|]; [discriminate Ha|reflexivity].
Qed.
Lemma uuid_of_text_ok t u : uuid_of_text t = Ok u -> uuid_ok u.
Proof.
  destruct t as [s|]; [|discriminate]. cbn [uuid_of_text]. intros E. apply bind_ok in E. destruct E as (b & E & F).
  unfold uuid_of_bytes in F. destruct (Nat.eqb_spec (List.length b) 16); [|discriminate]. inversion F; subst.
  split; [apply (b64decode_bytes_ok _ _ E)|assumption].
Qed.

(** Hexadecimal form. *)
Lemma hex_up_chars u : bytes_ok u -> forallb (fun c => is_digit c || ((65 <=? c) && (c <=? 70))) (hex_up u) = true.
Proof.
  induction 1 as [|b l Hb Hl IH]; [reflexivity|]. cbn [hex_up forallb]. rewrite IH. unfold is_byte in Hb.
  unfold hex_chr_up, is_digit. destruct (N.ltb_spec (b/16) 10); destruct (N.ltb_spec (b mod 16) 10); lia.
Qed.
Lemma absent_if_no_char c old s : In c old -> forallb (fun x => negb (x =? c)) s = true -> substr_in old s = false.
Proof.
  intros Hin Hs. destruct (substr_in old s) eqn:E; [|reflexivity].
  apply substr_in_spec in E. destruct E as (a & b & ->).
  rewrite !forallb_app, !andb_true_iff in Hs. destruct Hs as [_ [Hs _]].
  rewrite forallb_forall in Hs. specialize (Hs c Hin). rewrite N.eqb_refl in Hs. discriminate.
Qed.
Lemma hex_under_val : forall s acc, forallb is_hex_digit s = true ->
  exists n, hex_under false acc s = Some n /\
    forall l, unhex s = Ok l -> n = acc * 256 ^ lenN l + le_dec (rev l).
Proof.
  intros s. remember (List.length s) as n eqn:Hn.
  assert (Hle : (List.length s <= n)%nat) by lia. clear Hn. revert s Hle.
  induction n as [|n IH]; intros s Hle acc Hs.
  - destruct s; [|cbn in Hle; lia]. exists acc. split; [reflexivity|]. intros l [= <-]. rewrite lenN_nil. cbn. lia.
  - destruct s as [|a [|b s]].
    + exists acc. split; [reflexivity|]. intros l [= <-]. rewrite lenN_nil. cbn. lia.
    + cbn [forallb] in Hs. unfold is_hex_digit in Hs. destruct (hex_val a) as [v|] eqn:Ea; [|discriminate].
      exists (acc * 16 + v). cbn [hex_under]. rewrite Ea.
      split; [|discriminate]. destruct (N.eqb_spec a 95) as [->|]; [discriminate Ea|reflexivity].
    + cbn [forallb] in Hs. rewrite !andb_true_iff in Hs. destruct Hs as (Ha & Hb & Hs). unfold is_hex_digit in Ha, Hb.
      destruct (hex_val a) as [x|] eqn:Ea; [|discriminate]. destruct (hex_val b) as [y|] eqn:Eb; [|discriminate].
      cbn [List.length] in Hle.
      destruct (IH s ltac:(lia) ((acc * 16 + x) * 16 + y) Hs) as (m & Hm & Hv). exists m. split.
      * cbn [hex_under]. rewrite Ea. destruct (N.eqb_spec a 95) as [->|]; [discriminate Ea|].
        rewrite Eb. destruct (N.eqb_spec b 95) as [->|]; [discriminate Eb|]. exact Hm.
      * intros l. cbn [unhex]. rewrite Ea, Eb. intros E. apply bind_ok in E. destruct E as (r & E & [= <-]).
        specialize (Hv r E). rewrite Hv. rewrite lenN_cons. cbn [rev].
        assert (Hdec : forall p q, le_dec (p ++ [q]) = le_dec p + q * 256 ^ lenN p).
        { clear. induction p as [|c p IHp]; intros q; cbn [app le_dec].
          - change (256 ^ lenN (@nil N)) with 1. lia.
          - rewrite IHp, lenN_cons, N.add_1_l, N.pow_succ_r'. lia. }
        rewrite Hdec. unfold lenN at 3. rewrite rev_length. fold (lenN r).
        rewrite N.add_1_l, N.pow_succ_r'. set (P := 256 ^ lenN r). clearbody P. nia.
Qed.
Lemma sign_match_id {T} (s : str) (a b : str -> T) (d : T) :
  (forall c s', s = c :: s' -> c <> 45 /\ c <> 43) ->
  match s with 45 :: u => a u | 43 :: u => b u | _ => d end = d.
Proof.
  destruct s as [|c s]; [reflexivity|]. intros H. destruct (H c s eq_refl) as [H1 H2].
  destruct c as [|p]; [reflexivity|].
  do 7 (try destruct p as [p|p|]; try reflexivity); congruence.
Qed.
Lemma prefix0x_id (u : str) : (forall c, In c u -> c <> 120 /\ c <> 88) ->
  match u with
  | 48 :: 120 :: 95 :: v => v
  | 48 :: 88 :: 95 :: v => v
  | 48 :: 120 :: v => v
  | 48 :: 88 :: v => v
  | _ => u
  end = u.
Proof.
  intros H. destruct u as [|a [|b u]].
  - reflexivity.
  - destruct a as [|p]; [reflexivity|]. do 7 (try destruct p as [p|p|]; try reflexivity).
  - destruct (H b ltac:(right; left; reflexivity)) as [H1 H2].
    destruct a as [|p]; [reflexivity|]. do 6 (try destruct p as [p|p|]; try reflexivity).
    destruct b as [|q]; [reflexivity|]. do 7 (try destruct q as [q|q|]; try reflexivity); congruence.
Qed.
Lemma uuid_hex_roundtrip u : uuid_ok u -> uuid_of_hex (uuid_hex_upper u) = Ok u.
Proof.
  intros [Hb Hl]. unfold uuid_of_hex, uuid_hex_upper.
  pose proof (hex_up_chars u Hb) as Hc.
  assert (HN : forall k, (k <? 48) || ((57 <? k) && (k <? 65)) || (70 <? k) = true ->
            forallb (fun x => negb (x =? k)) (hex_up u) = true).
  { intros k Hk. eapply forallb_impl; [|exact Hc]. intros a. unfold is_digit. lia. }
  rewrite (py_replace_absent $"urn:"); [|discriminate|apply absent_if_no_char with (c:=58); [cbn; auto|apply HN; reflexivity]].
  rewrite (py_replace_absent $"uuid:"); [|discriminate|apply absent_if_no_char with (c:=58); [cbn; tauto|apply HN; reflexivity]].
  rewrite py_strip_id by (eapply forallb_impl; [|exact Hc]; intros a; unfold is_digit; lia).
  rewrite (py_replace_absent [45]); [|discriminate|apply absent_if_no_char with (c:=45); [cbn; tauto|apply HN; reflexivity]].
  rewrite hex_up_length, Hl. cbn [Nat.eqb Nat.mul Nat.add].
  unfold int16_of_str.
  rewrite py_strip_id by (eapply forallb_impl; [|exact Hc]; intros a; unfold is_digit, py_space; lia).
  cbv zeta.
  rewrite sign_match_id.
  2:{ intros c s' E. rewrite forallb_forall in Hc. specialize (Hc c). rewrite E in Hc.
      specialize (Hc ltac:(left; reflexivity)). unfold is_digit in Hc. lia. }
  rewrite prefix0x_id.
  2:{ intros c Hin. rewrite forallb_forall in Hc. specialize (Hc c Hin). unfold is_digit in Hc. lia. }
  destruct (hex_under_val (hex_up u) 0 (hex_up_digits u Hb)) as (n & Hn & Hv).
  specialize (Hv u (unhex_up u Hb)). rewrite N.mul_0_l, N.add_0_l in Hv.
  assert (Hbr : bytes_ok (rev u)) by (apply Forall_rev, Hb).
  assert (Hbound : n < 2 ^ 128).
  { rewrite Hv. pose proof (le_dec_bound (rev u) Hbr) as HB. unfold lenN in HB. rewrite rev_length, Hl in HB.
    change (256 ^ N.of_nat 16) with (2 ^ 128) in HB. exact HB. }
  destruct (hex_up u) as [|c s] eqn:E.
  { exfalso. pose proof (hex_up_length u) as HL. rewrite E, Hl in HL. discriminate HL. }
  replace (c =? 95) with false.
  2:{ cbn [forallb] in Hc. unfold is_digit in Hc. lia. }
  rewrite Hn. cbn [bind].
  replace ((0 <=? Z.of_N n)%Z && (Z.of_N n <? 2 ^ 128)%Z) with true.
  2:{ symmetry. apply andb_true_iff. split; [lia|]. apply Z.ltb_lt.
      change (2 ^ 128)%Z with (Z.of_N (2 ^ 128)). apply N2Z.inj_lt. exact Hbound. }
  rewrite N2Z.id, Hv. f_equal.
  replace 16%nat with (List.length (rev u)) by (rewrite rev_length; exact Hl).
  rewrite le_enc_dec by exact Hbr. apply rev_involutive.
Qed.

(** ** Hashing (CPython on 64-bit: long_hash, tuplehash of Objects/tupleobject.c) *)
Definition P61 : N := 2 ^ 61 - 1.
Definition W64 : N := 2 ^ 64.
Definition xx1 : N := 11400714785074694791.
Definition xx2 : N := 14029467366897019727.
Definition xx5 : N := 2870177450012600261.
Definition rotl31 (x : N) : N := (x * 2 ^ 31) mod W64 + x / 2 ^ 33.
Definition xx_step (acc lane : N) : N :=
  (rotl31 ((acc + lane * xx2) mod W64) * xx1) mod W64.
Definition tuple_hash (lanes : list N) : N :=
  let acc := fold_left xx_step lanes xx5 in
  let acc := (acc + N.lxor (lenN lanes) (N.lxor xx5 3527539)) mod W64 in
  if acc =? W64 - 1 then 1546275796 else acc.
(** [hash(uuid) = hash(uuid.int)]: residue modulo 2^61-1 (uuid.py __hash__, long_hash). *)
Definition uuid_hash (u : bytes) : N := uuid_int u mod P61.

(** Identity key of an element: entries and groups hash their uuid (baseelement.py:171-172); history
    entries also their mtime (entry.py:455-458), [mt] being [hash(mtime)] as an unsigned 64-bit word. *)
Inductive ident := IdElement (u : bytes) | IdHistory (u : bytes) (mt : N).
Definition el_hash (i : ident) : N :=
  match i with
  | IdElement u => tuple_hash [uuid_hash u]
  | IdHistory u mt => tuple_hash [uuid_hash u; mt]
  end.
(** baseelement.py:174-177 *)
Definition el_eq (a b : ident) : bool := el_hash a =? el_hash b.
