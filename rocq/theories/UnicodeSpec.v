(** UTF-8 as RFC 3629 describes it, independently of the codec of Utf8.v: the bits of a code point are spread over
    one to four bytes, the shortest form only, surrogates excluded. *)
From Verif Require Import Base.
Inductive spells : N -> bytes -> Prop :=
| sp_one a : a < 0x80 -> spells a [a]
| sp_two a b : a < 0x20 -> b < 0x40 -> 0x80 <= a * 64 + b -> spells (a * 64 + b) [0xC0 + a; 0x80 + b]
| sp_three a b c : a < 0x10 -> b < 0x40 -> c < 0x40 -> 0x800 <= a * 4096 + b * 64 + c ->
    ~ (0xD800 <= a * 4096 + b * 64 + c /\ a * 4096 + b * 64 + c < 0xE000) ->
    spells (a * 4096 + b * 64 + c) [0xE0 + a; 0x80 + b; 0x80 + c]
| sp_four a b c d : a < 0x08 -> b < 0x40 -> c < 0x40 -> d < 0x40 -> 0x10000 <= a * 262144 + b * 4096 + c * 64 + d ->
    a * 262144 + b * 4096 + c * 64 + d < 0x110000 ->
    spells (a * 262144 + b * 4096 + c * 64 + d) [0xF0 + a; 0x80 + b; 0x80 + c; 0x80 + d].
(** A text is spelled by the bytes of its characters one after another. *)
Inductive spelled : str -> bytes -> Prop :=
| sl_nil : spelled [] []
| sl_cons c w s b : spells c w -> spelled s b -> spelled (c :: s) (w ++ b).
(** A Python [str] is any list of code points below 0x110000, lone surrogates included. *)
Definition python_str (s : str) : Prop := Forall (fun c => c < 0x110000) s.
Definition surrogate (c : N) : Prop := 0xD800 <= c /\ c < 0xE000.
