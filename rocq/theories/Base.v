(** Common vocabulary of the model: Python values, exceptions, little-endian
    integers (Python [struct] and construct's IntXXul). *)
From Coq Require Export List Arith NArith ZArith Lia Bool String Ascii.
From Coq Require Import ZifyBool ZifyNat ZifyN.
Export ListNotations.
Open Scope list_scope.
Open Scope N_scope.
Global Arguments N.add : simpl never.
Global Arguments N.mul : simpl never.
Global Arguments N.sub : simpl never.
Global Arguments N.div : simpl never.
Global Arguments N.modulo : simpl never.
Global Arguments N.pow : simpl never.
Global Arguments N.eqb : simpl nomatch.
Global Arguments N.of_nat : simpl never.

(** Python [bytes]: a list of octets.  Python [str]: a list of code points. *)
Definition bytes := list N.
Definition str := list N.

Definition is_byte (b : N) : Prop := b < 256.
Definition is_byteb (b : N) : bool := b <? 256.
Definition bytes_ok (l : bytes) : Prop := Forall is_byte l.

(** ASCII literals as Python strings. *)
Definition lit (s : string) : str := map N_of_ascii (list_ascii_of_string s).
Notation "$ s" := (lit s%string) (at level 1, s at level 0, format "$ s").

(** Python exceptions, as values.  [Ex_Checksum]/[Ex_Check] carry construct's
    error path (names after "(parsing)"), which [PyKeePass.read] inspects. *)
Inductive exn :=
| Ex_Credentials | Ex_HeaderChecksum | Ex_PayloadChecksum
| Ex_Binary | Ex_UnableToSendToRecycleBin
| Ex_Checksum (path : list string)
| Ex_Check (path : list string)
| Ex_Stream | Ex_Mapping | Ex_Construct
| Ex_Value | Ex_Type | Ex_Attribute | Ex_Key | Ex_Index | Ex_Assertion
| Ex_IO | Ex_Struct | Ex_Binascii | Ex_UnicodeDecode | Ex_UnicodeEncode | Ex_Zlib
| Ex_XMLSyntax | Ex_XPath | Ex_NotImplemented | Ex_Recursion | Ex_StopIteration
| Ex_Overflow | Ex_Generic.

Inductive res (A : Type) :=
| Ok (a : A)
| Err (e : exn).
Arguments Ok {A} a.
Arguments Err {A} e.

Definition bind {A B} (r : res A) (f : A -> res B) : res B :=
  match r with Ok a => f a | Err e => Err e end.
Notation "'let*' x ':=' r 'in' k" := (bind r (fun x => k))
  (at level 200, x pattern, r at level 100, k at level 200, right associativity).

Lemma bind_ok {A B} (r : res A) (f : A -> res B) b :
  bind r f = Ok b -> exists a, r = Ok a /\ f a = Ok b.
Proof. destruct r; simpl; [eauto|discriminate]. Qed.

(** ** Equality of strings *)
Fixpoint list_eqb {A} (eqb : A -> A -> bool) (a b : list A) : bool :=
  match a, b with
  | [], [] => true
  | x :: a', y :: b' => eqb x y && list_eqb eqb a' b'
  | _, _ => false
  end.
Definition str_eqb (a b : list N) : bool := list_eqb N.eqb a b.

Lemma str_eqb_eq a b : str_eqb a b = true <-> a = b.
Proof.
  unfold str_eqb. revert b.
  induction a as [|x a IH]; destruct b as [|y b]; simpl; try (split; [discriminate|discriminate]); try tauto.
  rewrite andb_true_iff, IH, N.eqb_eq. split; [intros [-> ->]; reflexivity|intros H; inversion H; auto].
Qed.
Lemma str_eqb_refl a : str_eqb a a = true.
Proof. apply str_eqb_eq. reflexivity. Qed.
Lemma str_eqb_neq a b : str_eqb a b = false <-> a <> b.
Proof.
  rewrite <- str_eqb_eq. destruct (str_eqb a b); split; congruence.
Qed.
Lemma str_eqb_spec a b : reflect (a = b) (str_eqb a b).
Proof. apply iff_reflect. symmetry. apply str_eqb_eq. Qed.
Lemma str_eqb_sym a b : str_eqb a b = str_eqb b a.
Proof. destruct (str_eqb_spec a b); destruct (str_eqb_spec b a); congruence. Qed.
Definition str_eq_dec (a b : str) : {a = b} + {a <> b} := list_eq_dec N.eq_dec a b.

(** ** Lengths and prefixes counted in [N] (payloads may be large) *)
Definition lenN {A} (l : list A) : N := N.of_nat (List.length l).

(** [take n l]: Python's [stream.read(n)] succeeding, i.e. exactly [n] items;
    construct raises StreamError when fewer are available. *)
Definition splitN {A} (n : N) (l : list A) : option (list A * list A) :=
  if lenN l <? n then None else Some (firstn (N.to_nat n) l, skipn (N.to_nat n) l).

Lemma lenN_app {A} (a b : list A) : lenN (a ++ b) = lenN a + lenN b.
Proof. unfold lenN. rewrite app_length. lia. Qed.
Lemma lenN_nil {A} : lenN (@nil A) = 0. Proof. reflexivity. Qed.
Lemma lenN_cons {A} (x : A) l : lenN (x :: l) = 1 + lenN l.
Proof. unfold lenN. cbn [List.length]. lia. Qed.
Lemma lenN_map {A B} (f : A -> B) l : lenN (map f l) = lenN l.
Proof. unfold lenN. rewrite map_length. reflexivity. Qed.

Lemma splitN_app {A} (a b : list A) : splitN (lenN a) (a ++ b) = Some (a, b).
Proof.
  unfold splitN. rewrite lenN_app.
  destruct (N.ltb_spec (lenN a + lenN b) (lenN a)); [lia|].
  unfold lenN. rewrite Nnat.Nat2N.id.
  rewrite firstn_app, firstn_all, Nat.sub_diag, firstn_O, app_nil_r.
  rewrite skipn_app, skipn_all, Nat.sub_diag, skipn_O. reflexivity.
Qed.
Lemma splitN_app' {A} n (a b : list A) : lenN a = n -> splitN n (a ++ b) = Some (a, b).
Proof. intros <-. apply splitN_app. Qed.
Lemma splitN_Some {A} n (l a b : list A) : splitN n l = Some (a, b) -> l = a ++ b /\ lenN a = n.
Proof.
  unfold splitN. destruct (N.ltb_spec (lenN l) n) as [H|H]; [discriminate|].
  intros E; inversion E; subst; clear E. split; [symmetry; apply firstn_skipn|].
  unfold lenN in *. rewrite firstn_length. lia.
Qed.

(** ** Little-endian unsigned integers of [k] bytes *)
Fixpoint le_enc (k : nat) (n : N) : bytes :=
  match k with
  | O => []
  | S k' => n mod 256 :: le_enc k' (n / 256)
  end.
Fixpoint le_dec (l : bytes) : N :=
  match l with
  | [] => 0
  | b :: l' => b + 256 * le_dec l'
  end.

Lemma le_enc_length k n : List.length (le_enc k n) = k.
Proof. revert n; induction k; simpl; intros; [reflexivity|]. now rewrite IHk. Qed.
Lemma le_enc_lenN k n : lenN (le_enc k n) = N.of_nat k.
Proof. unfold lenN. now rewrite le_enc_length. Qed.
Lemma le_enc_ok k n : bytes_ok (le_enc k n).
Proof.
  revert n; induction k; simpl; intros; constructor.
  - unfold is_byte. apply N.mod_lt. lia.
  - apply IHk.
Qed.
Lemma le_dec_enc k n : n < 256 ^ N.of_nat k -> le_dec (le_enc k n) = n.
Proof.
  revert n; induction k; intros n H.
  - simpl in *. lia.
  - cbn [le_enc le_dec]. rewrite IHk.
    + rewrite (N.div_mod n 256) at 3 by lia. lia.
    + rewrite Nnat.Nat2N.inj_succ, N.pow_succ_r' in H.
      apply N.div_lt_upper_bound; lia.
Qed.
Lemma le_dec_bound l : bytes_ok l -> le_dec l < 256 ^ lenN l.
Proof.
  induction 1 as [|b l Hb Hl IH]; cbn [le_dec].
  - cbn. lia.
  - rewrite lenN_cons, N.add_1_l, N.pow_succ_r'. unfold is_byte in Hb. lia.
Qed.
Lemma le_enc_dec l : bytes_ok l -> le_enc (List.length l) (le_dec l) = l.
Proof.
  induction 1 as [|b l Hb Hl IH]; cbn [le_dec List.length le_enc]; [reflexivity|].
  unfold is_byte in Hb.
  replace ((b + 256 * le_dec l) mod 256) with b.
  - replace ((b + 256 * le_dec l) / 256) with (le_dec l); [now rewrite IH|].
    rewrite (N.mul_comm 256), N.div_add by lia. rewrite N.div_small by lia. lia.
  - rewrite (N.mul_comm 256), N.mod_add by lia. rewrite N.mod_small; lia.
Qed.

Lemma bytes_ok_app a b : bytes_ok (a ++ b) <-> bytes_ok a /\ bytes_ok b.
Proof. unfold bytes_ok. apply Forall_app. Qed.

Fixpoint all_bytesb (l : bytes) : bool :=
  match l with [] => true | b :: l' => is_byteb b && all_bytesb l' end.
Lemma all_bytesb_ok l : all_bytesb l = true <-> bytes_ok l.
Proof.
  induction l as [|b l IH]; simpl; [split; [constructor|reflexivity]|].
  rewrite andb_true_iff, IH. unfold is_byteb. rewrite N.ltb_lt. split.
  - intros [A B]. constructor; assumption.
  - intros H; inversion H; auto.
Qed.
