(** Hexadecimal spelling and key-file documents, as used in the statements of Prop_Keyfile.v. *)
From Verif Require Import Base Xml.
(** [c] is the hexadecimal digit of value [v]. *)
Definition hexdigit (c : N) (v : nat) : Prop :=
  nth_error ($"0123456789abcdef") v = Some c \/ nth_error ($"0123456789ABCDEF") v = Some c.
(** [spells s k]: [s] spells the bytes [k], two digits per byte. *)
Inductive spells : str -> bytes -> Prop :=
| spells_nil : spells [] []
| spells_cons c d x y s k : hexdigit c x -> hexdigit d y -> spells s k -> spells (c :: d :: s) (N.of_nat (16 * x + y) :: k).
(** A key file document: <_><Meta><Version>v</Version></Meta><Key><Data attrs>d</Data></Key></_>, where other elements may surround these. *)
Definition keydoc (t : xml) (version : str) (data : xml) : Prop :=
  exists root attrs text k1 k2 k3 m1 m2 mv mt ma va vt d1 d2 ka kt dt,
    t = X root attrs text (k1 ++ [X ($"Meta") ma mt (m1 ++ X ($"Version") va (Some version) vt :: m2)] ++ k2 ++ [X ($"Key") ka kt (d1 ++ data :: d2)] ++ k3) /\
    data = X ($"Data") mv dt [] /\
    (forall e, In e (k1 ++ k2) -> xtag e <> $"Meta" /\ xtag e <> $"Key") /\
    (forall e, In e m1 -> xtag e <> $"Version") /\ (forall e, In e d1 -> xtag e <> $"Data").
