(** Model of Python's [base64.b64encode] / [base64.b64decode] (CPython 3.11,
    Modules/binascii.c: b2a_base64, a2b_base64 with strict_mode=False), as used at
    baseelement.py:18,71,76, pykeepass.py:255,417,447,546,783,787,827,1009,1024,
    kdbx_parsing/common.py:143,221,241.
    Bit operations on disjoint bit ranges are written with [+], [*], [/], [mod]. *)
From Coq Require Import ZifyBool ZifyNat ZifyN.
From Verif Require Import Base.
Ltac Zify.zify_post_hook ::= Z.div_mod_to_equations.

(** The alphabet A-Z a-z 0-9 + / *)
Definition b64chr (v : N) : N :=
  if v <? 26 then 65 + v
  else if v <? 52 then 97 + (v - 26)
  else if v <? 62 then 48 + (v - 52)
  else if v =? 62 then 43 else 47.

Definition b64val (c : N) : option N :=
  if (65 <=? c) && (c <=? 90) then Some (c - 65)
  else if (97 <=? c) && (c <=? 122) then Some (c - 97 + 26)
  else if (48 <=? c) && (c <=? 57) then Some (c - 48 + 52)
  else if c =? 43 then Some 62
  else if c =? 47 then Some 63
  else None.

(** [base64.b64encode(b).decode()] *)
Fixpoint b64encode (l : bytes) : str :=
  match l with
  | [] => []
  | [a] => [b64chr (a / 4); b64chr ((a mod 4) * 16); 61; 61]
  | [a; b] => [b64chr (a / 4); b64chr ((a mod 4) * 16 + b / 16); b64chr ((b mod 16) * 4); 61]
  | a :: b :: c :: l' =>
      b64chr (a / 4) :: b64chr ((a mod 4) * 16 + b / 16)
      :: b64chr ((b mod 16) * 4 + c / 64) :: b64chr (c mod 64) :: b64encode l'
  end.

(** The main loop of a2b_base64: [quad] is quad_pos, [left] leftchar, [pads] pads. *)
Fixpoint a2b (quad left pads : N) (l : str) : res bytes :=
  match l with
  | [] => if quad =? 0 then Ok [] else Err Ex_Binascii
  | c :: l' =>
      if c =? 61 then
        if (2 <=? quad) && (4 <=? quad + (pads + 1)) then Ok []
        else a2b quad left (if 2 <=? quad then pads + 1 else pads) l'
      else match b64val c with
      | None => a2b quad left pads l'
      | Some v =>
          if quad =? 0 then a2b 1 v 0 l'
          else if quad =? 1 then
            let* r := a2b 2 (v mod 16) 0 l' in Ok (left * 4 + v / 16 :: r)
          else if quad =? 2 then
            let* r := a2b 3 (v mod 4) 0 l' in Ok (left * 16 + v / 4 :: r)
          else
            let* r := a2b 0 0 0 l' in Ok (left * 64 + v :: r)
      end
  end.

(** [base64.b64decode(s)] for a [str] argument: non-ASCII text is a ValueError
    (base64.py: _bytes_from_decode_data), then the lenient decoder. *)
Definition b64decode (s : str) : res bytes :=
  if forallb (fun c => c <? 128) s then a2b 0 0 0 s else Err Ex_Value.

(** ** Round trip *)
Lemma b64val_chr v : v < 64 -> b64val (b64chr v) = Some v.
Proof.
  intros H. unfold b64val, b64chr.
  destruct (N.ltb_spec v 26).
  { replace (65 <=? 65 + v) with true by lia. replace (65 + v <=? 90) with true by lia. cbn [andb]. f_equal. lia. }
  destruct (N.ltb_spec v 52).
  { replace (97 + (v - 26) <=? 90) with false by lia. rewrite andb_false_r.
    replace (97 <=? 97 + (v - 26)) with true by lia. replace (97 + (v - 26) <=? 122) with true by lia. cbn [andb]. f_equal. lia. }
  destruct (N.ltb_spec v 62).
  { replace (65 <=? 48 + (v - 52)) with false by lia. replace (97 <=? 48 + (v - 52)) with false by lia. cbn [andb].
    replace (48 <=? 48 + (v - 52)) with true by lia. replace (48 + (v - 52) <=? 57) with true by lia. cbn [andb]. f_equal. lia. }
  destruct (N.eqb_spec v 62); [subst; reflexivity|]. assert (v = 63) by lia. subst. reflexivity.
Qed.

Lemma b64chr_range v : b64chr v <> 61 /\ (v < 64 -> b64chr v < 128).
Proof.
  unfold b64chr.
  destruct (N.ltb_spec v 26); [lia|]. destruct (N.ltb_spec v 52); [lia|].
  destruct (N.ltb_spec v 62); [lia|]. destruct (N.eqb_spec v 62); lia.
Qed.

Lemma b64chr_not_pad v : (b64chr v =? 61) = false.
Proof. apply N.eqb_neq. apply b64chr_range. Qed.

Ltac cmp4 :=
  cbn -[N.mul N.div N.modulo N.add];
  repeat match goal with |- context [4 <=? ?x] => let b := eval vm_compute in (4 <=? x) in change (4 <=? x) with b end;
  cbn [bind].
Ltac chr_step :=
  rewrite b64chr_not_pad; rewrite b64val_chr by lia.

Lemma list_ind3 {A} (P : list A -> Prop) :
  P [] -> (forall a, P [a]) -> (forall a b, P [a; b]) ->
  (forall a b c l, P l -> P (a :: b :: c :: l)) -> forall l, P l.
Proof.
  intros H0 H1 H2 H3.
  fix IH 1. intros [|a [|b [|c l]]]; [exact H0|apply H1|apply H2|apply H3, IH].
Qed.

Lemma a2b_encode l : bytes_ok l -> a2b 0 0 0 (b64encode l) = Ok l.
Proof.
  induction l as [|a|a b|a b c l IH] using list_ind3; intros H.
  - reflexivity.
  - inversion H as [|? ? Ha _]; subst. unfold is_byte in Ha.
    cbn [b64encode a2b]. chr_step. cbn [N.eqb Pos.eqb].
    chr_step. cmp4. do 2 f_equal. lia.
  - inversion H as [|? ? Ha H']; subst. inversion H' as [|? ? Hb _]; subst. unfold is_byte in *.
    cbn [b64encode a2b]. chr_step. cbn [N.eqb Pos.eqb].
    chr_step. chr_step. cmp4. do 2 f_equal; [lia|f_equal; lia].
  - inversion H as [|? ? Ha H']; subst. inversion H' as [|? ? Hb H'']; subst. inversion H'' as [|? ? Hc Hl]; subst. unfold is_byte in *.
    cbn [b64encode a2b]. do 4 (chr_step; cbn [N.eqb Pos.eqb]). rewrite (IH Hl).
    cbn [bind]. do 2 f_equal; [lia|]. f_equal; [lia|]. f_equal; lia.
Qed.

Lemma b64encode_ascii l : bytes_ok l -> forallb (fun c => c <? 128) (b64encode l) = true.
Proof.
  assert (R : forall v, v < 64 -> (b64chr v <? 128) = true) by (intros v Hv; apply N.ltb_lt, b64chr_range, Hv).
  induction l as [|a|a b|a b c l IH] using list_ind3; intros H.
  - reflexivity.
  - inversion H as [|? ? Ha _]; subst. unfold is_byte in Ha.
    cbn [b64encode forallb]. rewrite !R by lia. reflexivity.
  - inversion H as [|? ? Ha H']; subst. inversion H' as [|? ? Hb _]; subst. unfold is_byte in *.
    cbn [b64encode forallb]. rewrite !R by lia. reflexivity.
  - inversion H as [|? ? Ha H']; subst. inversion H' as [|? ? Hb H'']; subst. inversion H'' as [|? ? Hc Hl]; subst. unfold is_byte in *.
    cbn [b64encode forallb]. rewrite !R by lia. cbn [andb]. apply IH, Hl.
Qed.

Lemma b64_roundtrip l : bytes_ok l -> b64decode (b64encode l) = Ok l.
Proof. intros H. unfold b64decode. rewrite b64encode_ascii by exact H. apply a2b_encode, H. Qed.

Lemma b64encode_inj a b : bytes_ok a -> bytes_ok b -> b64encode a = b64encode b -> a = b.
Proof.
  intros Ha Hb E. apply b64_roundtrip in Ha. apply b64_roundtrip in Hb. rewrite E in Ha. congruence.
Qed.

(** The text never contains a quote, or any character outside the alphabet and '='. *)
Definition b64_alpha (c : N) : bool :=
  match b64val c with Some _ => true | None => c =? 61 end.
Lemma b64encode_alpha l : bytes_ok l -> forallb b64_alpha (b64encode l) = true.
Proof.
  assert (R : forall v, v < 64 -> b64_alpha (b64chr v) = true) by (intros v Hv; unfold b64_alpha; rewrite b64val_chr by exact Hv; reflexivity).
  induction l as [|a|a b|a b c l IH] using list_ind3; intros H.
  - reflexivity.
  - inversion H as [|? ? Ha _]; subst. unfold is_byte in Ha.
    cbn [b64encode forallb]. rewrite !R by lia. reflexivity.
  - inversion H as [|? ? Ha H']; subst. inversion H' as [|? ? Hb _]; subst. unfold is_byte in *.
    cbn [b64encode forallb]. rewrite !R by lia. reflexivity.
  - inversion H as [|? ? Ha H']; subst. inversion H' as [|? ? Hb H'']; subst. inversion H'' as [|? ? Hc Hl]; subst. unfold is_byte in *.
    cbn [b64encode forallb]. rewrite !R by lia. cbn [andb]. apply IH, Hl.
Qed.

(** The decoder only produces octets. *)
Lemma b64val_range c v : b64val c = Some v -> v < 64.
Proof.
  unfold b64val.
  destruct ((65 <=? c) && (c <=? 90)) eqn:?; [intros [= <-]; lia|].
  destruct ((97 <=? c) && (c <=? 122)) eqn:?; [intros [= <-]; lia|].
  destruct ((48 <=? c) && (c <=? 57)) eqn:?; [intros [= <-]; lia|].
  destruct (c =? 43); [intros [= <-]; lia|]. destruct (c =? 47); [intros [= <-]; lia|discriminate].
Qed.

Lemma a2b_bytes_ok s : forall quad left pads r,
  (quad = 1 -> left < 64) -> (quad = 2 -> left < 16) -> (quad <> 0 -> quad <> 1 -> quad <> 2 -> left < 4) ->
  a2b quad left pads s = Ok r -> bytes_ok r.
Proof.
  induction s as [|c s IH]; intros quad left pads r H1 H2 H3; cbn [a2b].
  - destruct (quad =? 0); [intros [= <-]; constructor|discriminate].
  - destruct (c =? 61).
    + destruct ((2 <=? quad) && _); [intros [= <-]; constructor|]. apply IH; assumption.
    + destruct (b64val c) as [v|] eqn:Ev; [|apply IH; assumption].
      apply b64val_range in Ev.
      destruct (N.eqb_spec quad 0). { subst. apply IH; lia. }
      destruct (N.eqb_spec quad 1).
      { subst. intros E. apply bind_ok in E. destruct E as (r' & E & [= <-]).
        constructor; [unfold is_byte; specialize (H1 eq_refl); lia|]. eapply IH in E; [exact E|lia|lia|lia]. }
      destruct (N.eqb_spec quad 2).
      { subst. intros E. apply bind_ok in E. destruct E as (r' & E & [= <-]).
        constructor; [unfold is_byte; specialize (H2 eq_refl); lia|]. eapply IH in E; [exact E|lia|lia|lia]. }
      intros E. apply bind_ok in E. destruct E as (r' & E & [= <-]).
      constructor; [unfold is_byte; specialize (H3 ltac:(assumption) ltac:(assumption) ltac:(assumption)); lia|].
      eapply IH in E; [exact E|lia|lia|lia].
Qed.
Lemma b64decode_bytes_ok s r : b64decode s = Ok r -> bytes_ok r.
Proof.
  unfold b64decode. destruct (forallb _ s); [|discriminate]. apply a2b_bytes_ok; lia.
Qed.
