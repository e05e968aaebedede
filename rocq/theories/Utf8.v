(** Python's strict UTF-8 codec, as used by [str.encode('utf-8')] /
    [bytes.decode('utf-8')] at common.py:125 (password), common.py:221,243
    (protected values), kdbx4.py:122,133 (GreedyString). *)
From Coq Require Import ZifyBool ZifyNat ZifyN.
From Verif Require Import Base.
Ltac Zify.zify_post_hook ::= Z.div_mod_to_equations.

Definition is_scalar (c : N) : bool :=
  (c <? 0xD800) || ((0xE000 <=? c) && (c <? 0x110000)).

Definition utf8_char (c : N) : bytes :=
  if c <? 0x80 then [c]
  else if c <? 0x800 then [192 + c / 64; 128 + c mod 64]
  else if c <? 0x10000 then [224 + c / 4096; 128 + (c / 64) mod 64; 128 + c mod 64]
  else [240 + c / 262144; 128 + (c / 4096) mod 64; 128 + (c / 64) mod 64; 128 + c mod 64].

(** Surrogates (and nothing else in a Python str) are a UnicodeEncodeError. *)
Fixpoint utf8_encode (s : str) : res bytes :=
  match s with
  | [] => Ok []
  | c :: s' => if is_scalar c then let* r := utf8_encode s' in Ok (utf8_char c ++ r)
               else Err Ex_UnicodeEncode
  end.

Definition is_cont (b : N) : bool := (128 <=? b) && (b <? 192).

Fixpoint utf8_decode (l : bytes) : res str :=
  match l with
  | [] => Ok []
  | a :: l1 =>
      if a <? 128 then let* r := utf8_decode l1 in Ok (a :: r)
      else if a <? 0xC2 then Err Ex_UnicodeDecode
      else match l1 with
      | [] => Err Ex_UnicodeDecode
      | b :: l2 =>
          if negb (is_cont b) then Err Ex_UnicodeDecode
          else if a <? 0xE0 then
            let* r := utf8_decode l2 in Ok ((a - 192) * 64 + (b - 128) :: r)
          else match l2 with
          | [] => Err Ex_UnicodeDecode
          | c :: l3 =>
              if negb (is_cont c) then Err Ex_UnicodeDecode
              else if a <? 0xF0 then
                let cp := (a - 224) * 4096 + (b - 128) * 64 + (c - 128) in
                if (0x800 <=? cp) && is_scalar cp then
                  let* r := utf8_decode l3 in Ok (cp :: r)
                else Err Ex_UnicodeDecode
              else match l3 with
              | [] => Err Ex_UnicodeDecode
              | d :: l4 =>
                  if negb (is_cont d) then Err Ex_UnicodeDecode
                  else
                    let cp := (a - 240) * 262144 + (b - 128) * 4096 + (c - 128) * 64 + (d - 128) in
                    if (0x10000 <=? cp) && is_scalar cp then
                      let* r := utf8_decode l4 in Ok (cp :: r)
                    else Err Ex_UnicodeDecode
              end
          end
      end
  end.

Lemma is_cont_intro x : x < 64 -> is_cont (128 + x) = true.
Proof. unfold is_cont. lia. Qed.

Lemma utf8_decode_char c l :
  is_scalar c = true -> utf8_decode (utf8_char c ++ l) = (let* r := utf8_decode l in Ok (c :: r)).
Proof.
  intros Hs. assert (Hc : c < 0x110000) by (unfold is_scalar in Hs; lia).
  unfold utf8_char.
  destruct (N.ltb_spec c 0x80) as [H|H].
  { cbn [app utf8_decode]. replace (c <? 128) with true by lia. reflexivity. }
  destruct (N.ltb_spec c 0x800) as [H1|H1].
  { cbn [app utf8_decode].
    replace (192 + c / 64 <? 128) with false by lia.
    replace (192 + c / 64 <? 0xC2) with false by lia.
    rewrite is_cont_intro by lia. cbn [negb].
    replace (192 + c / 64 <? 0xE0) with true by lia.
    replace ((192 + c / 64 - 192) * 64 + (128 + c mod 64 - 128)) with c by lia. reflexivity. }
  destruct (N.ltb_spec c 0x10000) as [H2|H2].
  { cbn [app utf8_decode].
    replace (224 + c / 4096 <? 128) with false by lia.
    replace (224 + c / 4096 <? 0xC2) with false by lia.
    rewrite is_cont_intro by lia. cbn [negb].
    replace (224 + c / 4096 <? 0xE0) with false by lia.
    rewrite is_cont_intro by lia. cbn [negb].
    replace (224 + c / 4096 <? 0xF0) with true by lia.
    replace ((224 + c / 4096 - 224) * 4096 + (128 + (c / 64) mod 64 - 128) * 64 + (128 + c mod 64 - 128)) with c by lia.
    rewrite Hs. replace (0x800 <=? c) with true by lia. reflexivity. }
  cbn [app utf8_decode].
  replace (240 + c / 262144 <? 128) with false by lia.
  replace (240 + c / 262144 <? 0xC2) with false by lia.
  rewrite is_cont_intro by lia. cbn [negb].
  replace (240 + c / 262144 <? 0xE0) with false by lia.
  rewrite is_cont_intro by lia. cbn [negb].
  replace (240 + c / 262144 <? 0xF0) with false by lia.
  rewrite is_cont_intro by lia. cbn [negb].
  replace ((240 + c / 262144 - 240) * 262144 + (128 + (c / 4096) mod 64 - 128) * 4096
           + (128 + (c / 64) mod 64 - 128) * 64 + (128 + c mod 64 - 128)) with c by lia.
  rewrite Hs. replace (0x10000 <=? c) with true by lia. reflexivity.
Qed.

Lemma utf8_roundtrip s b : utf8_encode s = Ok b -> utf8_decode b = Ok s.
Proof.
  revert b; induction s as [|c s IH]; cbn [utf8_encode]; intros b.
  - intros [= <-]. reflexivity.
  - destruct (is_scalar c) eqn:Hc; [|discriminate].
    intros E. apply bind_ok in E. destruct E as (r & E & [= <-]).
    rewrite utf8_decode_char by exact Hc. rewrite (IH _ E). reflexivity.
Qed.

Lemma utf8_encode_total s : forallb is_scalar s = true -> exists b, utf8_encode s = Ok b.
Proof.
  induction s as [|c s IH]; cbn [utf8_encode forallb]; [eauto|].
  rewrite andb_true_iff. intros [-> H]. destruct (IH H) as (b & ->). cbn [bind]. eauto.
Qed.

Lemma utf8_char_ok c : is_scalar c = true -> bytes_ok (utf8_char c).
Proof.
  intros Hs. assert (Hc : c < 0x110000) by (unfold is_scalar in Hs; lia).
  unfold utf8_char.
  destruct (N.ltb_spec c 0x80); [repeat constructor; unfold is_byte; lia|].
  destruct (N.ltb_spec c 0x800); [repeat constructor; unfold is_byte; lia|].
  destruct (N.ltb_spec c 0x10000); repeat constructor; unfold is_byte; lia.
Qed.
Lemma utf8_encode_ok s b : utf8_encode s = Ok b -> bytes_ok b.
Proof.
  revert b; induction s as [|c s IH]; cbn [utf8_encode]; intros b.
  - intros [= <-]. constructor.
  - destruct (is_scalar c) eqn:Hc; [|discriminate].
    intros E. apply bind_ok in E. destruct E as (r & E & [= <-]).
    apply bytes_ok_app. split; [apply utf8_char_ok, Hc|apply IH, E].
Qed.
Lemma utf8_encode_inj s t b : utf8_encode s = Ok b -> utf8_encode t = Ok b -> s = t.
Proof. intros H1 H2. apply utf8_roundtrip in H1. apply utf8_roundtrip in H2. congruence. Qed.

(** Decoding produces scalar values only. *)
Lemma utf8_decode_scalar : forall n l s, (List.length l <= n)%nat -> utf8_decode l = Ok s -> forallb is_scalar s = true.
Proof.
  induction n as [|n IH]; intros l s Hn; (destruct l as [|a l1]; [intros [= <-]; reflexivity|]); [cbn in Hn; lia|].
  cbn [utf8_decode]. cbn [List.length] in Hn.
  destruct (N.ltb_spec a 128).
  { intros E. apply bind_ok in E. destruct E as (r & E & [= <-]). cbn [forallb]. rewrite (IH l1) by (eauto; lia).
    unfold is_scalar. lia. }
  destruct (N.ltb_spec a 0xC2); [discriminate|]. destruct l1 as [|b l2]; [discriminate|]. cbn [List.length] in Hn.
  destruct (is_cont b) eqn:Hb; cbn [negb]; [|discriminate]. unfold is_cont in Hb.
  destruct (N.ltb_spec a 0xE0).
  { intros E. apply bind_ok in E. destruct E as (r & E & [= <-]). cbn [forallb]. rewrite (IH l2) by (eauto; lia).
    unfold is_scalar. lia. }
  destruct l2 as [|c l3]; [discriminate|]. cbn [List.length] in Hn.
  destruct (is_cont c) eqn:Hc; cbn [negb]; [|discriminate].
  destruct (N.ltb_spec a 0xF0).
  { cbv zeta. match goal with |- context[if ?b then _ else _] => destruct b eqn:Hcp end; [|discriminate]. apply andb_true_iff in Hcp.
    intros E. apply bind_ok in E. destruct E as (r & E & [= <-]). cbn [forallb]. rewrite (IH l3) by (eauto; lia).
    rewrite (proj2 Hcp). reflexivity. }
  destruct l3 as [|d l4]; [discriminate|]. cbn [List.length] in Hn.
  destruct (is_cont d) eqn:Hd; cbn [negb]; [|discriminate].
  cbv zeta. match goal with |- context[if ?b then _ else _] => destruct b eqn:Hcp end; [|discriminate]. apply andb_true_iff in Hcp.
  intros E. apply bind_ok in E. destruct E as (r & E & [= <-]). cbn [forallb]. rewrite (IH l4) by (eauto; lia).
  rewrite (proj2 Hcp). reflexivity.
Qed.
