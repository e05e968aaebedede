(** Field references: their syntax, what they point at, and what a text with references stands for. *)
From Coq Require Import Permutation.
From Verif Require Import Base Base64 PyStr Xml Tree XPath Uuid Db FindSpec Api ApiSpec.

(** A reference {REF:<wanted field>@<searched field>:<value>}. *)
Record cite := Cite { c_want : N; c_in : N; c_value : str }.
Definition written (c : cite) : str := $"{REF:" ++ [c_want c] ++ $"@" ++ [c_in c] ++ $":" ++ c_value c ++ $"}".
Definition legal_cite (c : cite) : Prop := In (c_want c) $"TUPANI" /\ In (c_in c) $"TUPANI" /\ c_value c <> [] /\ ~ In 125 (c_value c).
Definition no_refs (s : str) : Prop := forall p c q, legal_cite c -> s <> p ++ written c ++ q.
(** A text split, from left to right, into references and other characters. *)
Inductive piece := Ch (x : N) | Ref (c : cite).
Inductive scanned : str -> list piece -> Prop :=
| sc_nil : scanned [] []
| sc_ref c s l : legal_cite c -> scanned s l -> scanned (written c ++ s) (Ref c :: l)
| sc_char x s l : (forall c q, legal_cite c -> x :: s <> written c ++ q) -> scanned s l -> scanned (x :: s) (Ch x :: l).

Definition letter_name (c : N) : str :=
  if c =? 84 then $"Title" else if c =? 85 then $"UserName" else if c =? 80 then $"Password" else if c =? 65 then $"URL" else $"Notes".
(** The entry [t] has the searched value. *)
Definition about (c : cite) (t : elem) : Prop :=
  if c_in c =? 73 then exists u, uuid_of_hex (c_value c) = Ok u /\ kid_with $"UUID" (fun x => etext x = Some (uuid_text u)) t
  else has_field (fun o => o = Some (c_value c)) (letter_name (c_in c)) t.
(** A value that can be searched for: a UUID, or text without double quotes. *)
Definition searchable (c : cite) : Prop := if c_in c =? 73 then exists u, uuid_of_hex (c_value c) = Ok u else plain (c_value c).
Definition candidate (d : db) (c : cite) (t : elem) : Prop := etag t = $"Entry" /\ In t (visible (d_forest d)) /\ about c t.
(** [l]: all entries of the document (no history entries) with the searched value, in document order. *)
Definition found (d : db) (c : cite) (l : list elem) : Prop := exists doc F', d_forest d = doc :: F' /\ picks (candidate d c) (everything doc) l.
(** The reference stands for the text [w]. *)
Definition points (d : db) (c : cite) (w : str) : Prop := searchable c /\ c_want c <> 73 /\ exists t l, found d c (t :: l) /\ tidy t /\ field_text (letter_name (c_want c)) t = Some w.
Definition dangling (d : db) (c : cite) : Prop := searchable c /\ found d c [].

(** [expands d n l s]: replacing every reference in [l], and those in the texts they stand for, at most [n] deep, gives [s].
    An opening brace outside the references is followed by characters that cannot become the beginning REF: of a reference (as in {USERNAME}). *)
Definition differs (ys : str) : Prop := exists a x y b b', ys = a ++ x :: b /\ $"REF:" = a ++ y :: b' /\ x <> y.
Definition stray (l : list piece) : Prop := exists ys l', l = map Ch ys ++ l' /\ differs ys.
Inductive expands (d : db) : nat -> list piece -> str -> Prop :=
| ex_nil n : expands d n [] []
| ex_char n x l s : x <> 123 -> expands d n l s -> expands d n (Ch x :: l) (x :: s)
| ex_brace n l s : stray l -> expands d n l s -> expands d n (Ch 123 :: l) (123 :: s)
| ex_ref n c l w ps s s' : legal_cite c -> ~ In 123 (c_value c) -> points d c w -> scanned w ps -> expands d n ps s -> expands d (S n) l s' -> expands d (S n) (Ref c :: l) (s ++ s').

(** The references of a split text. *)
Definition refs (l : list piece) : list cite := flat_map (fun p => match p with Ch _ => [] | Ref c => [c] end) l.
(** Pieces outside which nothing can become the beginning of a reference (as in [expands]). *)
Inductive clean : list piece -> Prop :=
| cl_nil : clean []
| cl_char x l : x <> 123 -> clean l -> clean (Ch x :: l)
| cl_brace l : stray l -> clean l -> clean (Ch 123 :: l)
| cl_ref c l : legal_cite c -> ~ In 123 (c_value c) -> clean l -> clean (Ref c :: l).
(** [C]: references that lead to references of [C] again and again; next to them there may be references of [A], all of
    which stand for a text. *)
Definition circular (d : db) (A C : cite -> Prop) : Prop :=
  forall c, A c -> exists w ps, points d c w /\ scanned w ps /\ clean ps /\ (forall c', In c' (refs ps) -> A c') /\ (C c -> exists c', In c' (refs ps) /\ C c').

(** All references that can occur: each stands for a text, and the references in that text are among them. *)
Definition complete (d : db) (L : list cite) : Prop :=
  forall c, In c L -> legal_cite c /\ ~ In 123 (c_value c) /\ exists w ps, points d c w /\ scanned w ps /\ clean ps /\ forall c', In c' (refs ps) -> In c' L.

(** Any iteration order of a set. *)
Definition some_order (o : list fref -> list fref) : Prop := forall l, Permutation (o l) l.
(** The text properties that can be referred to. *)
Definition ref_attr (p : strprop) : option (str * N) :=
  match p with P_title => Some ($"title", 84) | P_username => Some ($"username", 85) | P_password => Some ($"password", 80) | P_url => Some ($"url", 65) | P_notes => Some ($"notes", 78) | P_otp => None end.
(** [t] is the only entry of the document with its UUID [u]; history entries do not count. *)
Definition own_uuid (d : db) (t : elem) (u : bytes) : Prop :=
  uuid_ok u /\ first_text $"UUID" t = Some (uuid_text u) /\ etag t = $"Entry" /\ In t (visible (d_forest d)) /\
  exists doc F', d_forest d = doc :: F' /\ In t (everything doc) /\
    forall x, In x (everything doc) -> etag x = $"Entry" -> In x (visible (d_forest d)) -> kid_with $"UUID" (fun k => etext k = Some (uuid_text u)) x -> x = t.
