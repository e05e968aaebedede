(** What a reader of the saved file is expected to see; written without the model's file-format functions. *)
From Verif Require Import Base Xml.

(** A value the document marks as protected: a <Value Protected="True"> element. *)
Definition marked (t : xml) : Prop :=
  xtag t = $"Value" /\ exists l1 l2, xattrs t = l1 ++ ($"Protected", $"True") :: l2 /\ forall v, ~ In ($"Protected", v) l1.
Definition markedb (tag : str) (attrs : list (str * str)) : bool :=
  str_eqb tag ($"Value")
  && existsb (fun a => str_eqb (fst a) ($"Protected") && str_eqb (snd a) ($"True")) attrs.
(** A document after saving and opening: empty text is absent, white space in front of child elements is
    dropped (except inside protected values). *)
Fixpoint reload_view (t : xml) : xml :=
  let 'X tag attrs text kids := t in
  X tag attrs
    (if markedb tag attrs then match text with Some [] => None | _ => text end else norm_text text kids)
    (map reload_view kids).
(** Texts of the protected values in document order. *)
Fixpoint protected_texts (t : xml) : list str :=
  let 'X tag attrs text kids := t in
  (if markedb tag attrs then match text with Some s => [s] | None => [] end else []) ++ flat_map protected_texts kids.
(** All (tag, attributes, text) in document order, with the text of protected values blanked out. *)
Fixpoint public_part (t : xml) : list (str * list (str * str) * option str) :=
  let 'X tag attrs text kids := t in
  (tag, attrs, if markedb tag attrs then None else text) :: flat_map public_part kids.

(** A document that, once written with its protected values in base64, is within the parser's limits ([lxml_reads]). *)
Fixpoint modest_texts (t : xml) : bool :=
  let 'X tag attrs text kids := t in
  names_fit tag attrs && (utf8_size (opt_text text) <=? (if markedb tag attrs then 7500000 else 10000000)) && forallb modest_texts kids.
Definition modest (t : xml) : bool := (xml_depth t <=? 256) && modest_texts t.

(** *** KDBX4 authentication as published: keys of the header and of block [i], tags, block layout *)
From Verif Require Import Lib.
Definition le64 (n : N) : bytes := [n mod 256; n / 2^8 mod 256; n / 2^16 mod 256; n / 2^24 mod 256; n / 2^32 mod 256; n / 2^40 mod 256; n / 2^48 mod 256; n / 2^56 mod 256].
Definition le32 (n : N) : bytes := [n mod 256; n / 2^8 mod 256; n / 2^16 mod 256; n / 2^24 mod 256].
Definition auth_key (L : lib) (seed tk : bytes) (index : bytes) : bytes := sha512 L (index ++ sha512 L (seed ++ tk ++ [1])).
Definition head_tag (L : lib) (seed tk raw : bytes) : bytes := hmac256 L (auth_key L seed tk [255;255;255;255;255;255;255;255]) raw.
Definition block_tag (L : lib) (seed tk : bytes) (i : N) (b : bytes) : bytes :=
  hmac256 L (auth_key L seed tk (le64 i)) (le64 i ++ le32 (lenN b) ++ b).
(** Blocks with their tags, one after the other. *)
Definition frames (l : list (bytes * bytes)) : bytes := List.concat (map (fun tb => fst tb ++ le32 (lenN (snd tb)) ++ snd tb) l).
(** Block numbers starting at [i]. *)
Fixpoint tagged (L : lib) (seed tk : bytes) (i : N) (bs : list bytes) : list (bytes * bytes) :=
  match bs with [] => [] | b :: bs' => (block_tag L seed tk i b, b) :: tagged L seed tk (i + 1) bs' end.
(** Only the last block is empty. *)
Definition ends_empty (bs : list bytes) : Prop := exists l, bs = l ++ [[]] /\ Forall (fun b => b <> []) l.

(** *** Sealed values: base64 of the UTF-8 text xored with consecutive parts of one keystream *)
From Verif Require Import Base64 Utf8.
Fixpoint xor_at (ks : N -> N) (pos : nat) (b : bytes) : bytes :=
  match b with [] => [] | x :: b' => N.lxor (ks (N.of_nat pos)) x :: xor_at ks (S pos) b' end.
(** [sealed ks pos texts out]: the i-th output uses the keystream right behind the part used by the (i-1)-th. *)
Inductive sealed (ks : N -> N) : nat -> list str -> list str -> Prop :=
| sealed_nil pos : sealed ks pos [] []
| sealed_cons pos s b l out : utf8_encode s = Ok b -> sealed ks (pos + List.length b) l out ->
    sealed ks pos (s :: l) (b64encode (xor_at ks pos b) :: out).
