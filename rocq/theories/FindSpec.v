(** What a search should return, stated on plain trees (independently of XPath and of the query strings). *)
From Verif Require Import Base Base64 PyStr Xml Tree XPath Db.

(** [picks P l m]: [m] is exactly the members of [l] that satisfy [P], in the same order. *)
Inductive picks {A} (P : A -> Prop) : list A -> list A -> Prop :=
| picks_nil : picks P [] []
| picks_yes x l m : P x -> picks P l m -> picks P (x :: l) (x :: m)
| picks_no x l m : ~ P x -> picks P l m -> picks P (x :: l) m.

(** All elements of a tree in document order; those not inside a History element. *)
Fixpoint everything (t : elem) : list elem := let 'El _ _ _ _ k := t in t :: flat_map everything k.
Fixpoint unarchived (t : elem) : list elem :=
  let 'El _ g _ _ k := t in t :: (if str_eqb g $"History" then [] else flat_map unarchived k).
Definition elements (F : forest) : list elem := flat_map everything F.
Definition visible (F : forest) : list elem := flat_map unarchived F.
(** Every element is there once. *)
Definition unique (F : forest) : Prop := NoDup (map eid (elements F)).

(** The elements a search looks at: the document, everything below an element, or its children only. *)
Inductive searched (F : forest) : option nat -> bool -> list elem -> Prop :=
| se_all t F' : F = t :: F' -> searched F None true (everything t)
| se_root t F' : F = t :: F' -> searched F None false [t]
| se_below e : In e (elements F) -> searched F (Some (eid e)) true (flat_map everything (ekids e))
| se_kids e : In e (elements F) -> searched F (Some (eid e)) false (ekids e).

(** *** Criteria *)
Definition kid_with (T : str) (P : elem -> Prop) (t : elem) : Prop := exists k, In k (ekids t) /\ etag k = T /\ P k.
Definition substring (a b : str) : Prop := exists p q, b = p ++ a ++ q.
Definition text_or_empty (o : option str) : str := match o with Some s => s | None => [] end.
(** The text [o] of an element is the value searched for, or matches it as a regular expression. *)
Definition matches (R : regex) (rx ic : bool) (v : str) (o : option str) : Prop :=
  if rx then R v ic (text_or_empty o) = Ok true else o = Some v.
Section Meets.
  Variable M : option str -> Prop.
  Definition text_meets (t : elem) : Prop := M (etext t).
  (** A string field named [key] whose value meets the criterion. *)
  Definition has_field (key : str) (t : elem) : Prop :=
    kid_with $"String" (fun s => kid_with $"Key" (fun k => etext k = Some key) s /\ kid_with $"Value" text_meets s) t.
  Definition entry_key (k : str) (t : elem) : Prop :=
    if str_eqb k $"title" then has_field $"Title" t
    else if str_eqb k $"username" then has_field $"UserName" t
    else if str_eqb k $"password" then has_field $"Password" t
    else if str_eqb k $"url" then has_field $"URL" t
    else if str_eqb k $"notes" then has_field $"Notes" t
    else if str_eqb k $"otp" then has_field $"otp" t
    else if str_eqb k $"uuid" then kid_with $"UUID" text_meets t
    else if str_eqb k $"autotype_sequence" then kid_with $"AutoType" (kid_with $"DefaultSequence" text_meets) t
    else if str_eqb k $"autotype_window" then kid_with $"AutoType" (kid_with $"Association" (kid_with $"Window" text_meets)) t
    else if str_eqb k $"autotype_enabled" then kid_with $"AutoType" (kid_with $"Enabled" text_meets) t
    else False.
  Definition group_key (k : str) (t : elem) : Prop :=
    if str_eqb k $"name" then kid_with $"Name" text_meets t
    else if str_eqb k $"notes" then kid_with $"Notes" text_meets t
    else if str_eqb k $"uuid" then kid_with $"UUID" text_meets t
    else False.
  Definition attachment_key (k : str) (t : elem) : Prop :=
    if str_eqb k $"filename" then kid_with $"Key" text_meets t
    else if str_eqb k $"id" then kid_with $"Value" (fun v => exists r, In ($"Ref", r) (eattrs v) /\ M (Some r)) t
    else False.
End Meets.

(** The text a value of a criterion is compared with. *)
Definition shown (v : kwval) : str :=
  match v with
  | K_none => []
  | K_str s => s
  | K_bool b => if b then $"True" else $"False"
  | K_int z => str_of_Z z
  | K_uuid u => b64encode u
  | K_tags _ => []
  end.
Definition meets (key : (option str -> Prop) -> str -> elem -> Prop) (R : regex) (rx ic : bool) (kv : str * kwval) (t : elem) : Prop :=
  match snd kv with
  | K_none => True
  | K_tags ts => kid_with $"Tags" (fun x => forall g, In g ts -> substring g (text_or_empty (etext x))) t
  | v => key (matches R rx ic (shown v)) (fst kv) t
  end.
Definition ignore_case (fl : option str) : bool := match fl with Some s => existsb (N.eqb 105) s | None => false end.
(** An element with tag [T] satisfying every criterion of the query. *)
Definition answers (T : str) (key : (option str -> Prop) -> str -> elem -> Prop) (R : regex) (F : forest) (q : query) (t : elem) : Prop :=
  etag t = T /\ (q_history q = true \/ In t (visible F)) /\
  (forall f v, In (f, v) (q_string q) -> has_field (matches R (q_regex q) (ignore_case (q_flags q)) v) f t) /\
  (forall kv, In kv (q_kw q) -> meets key R (q_regex q) (ignore_case (q_flags q)) kv t).

(** *** Usable queries: keys that exist, values without double quotes and control characters, valid patterns. *)
Definition plain (s : str) : Prop := ~ In 34 s /\ text_ok s = true.
Definition pattern_ok (R : regex) (q : query) (v : str) : Prop :=
  q_regex q = true -> forall s, exists b, R v (ignore_case (q_flags q)) s = Ok b.
Definition usable (keys : list str) (R : regex) (q : query) : Prop :=
  q_path q = None /\
  match q_flags q with Some s => plain s | None => True end /\
  (forall f v, In (f, v) (q_string q) -> plain f /\ plain v /\ pattern_ok R q v) /\
  forall k v, In (k, v) (q_kw q) -> In k keys /\
    (k = $"uuid" -> exists u, v = K_uuid u) /\
    (k = $"tags" -> exists ts, v = K_tags ts /\ ts <> []) /\
    match v with
    | K_tags ts => k = $"tags" /\ forall g, In g ts -> plain g
    | K_none => True
    | _ => plain (shown v) /\ pattern_ok R q (shown v)
    end.
Definition entry_keys : list str := [$"title"; $"username"; $"password"; $"url"; $"notes"; $"uuid"; $"tags"; $"autotype_sequence"; $"autotype_window"; $"autotype_enabled"; $"otp"].
Definition group_keys : list str := [$"name"; $"uuid"; $"notes"].
Definition attachment_keys : list str := [$"id"; $"filename"].

(** *** Paths *)
Definition named_group (n : str) (t : elem) : Prop := etag t = $"Group" /\ kid_with $"Name" (fun x => etext x = Some n) t.
(** Going down from [t] through groups with the given names. *)
Inductive leads : list str -> elem -> elem -> Prop :=
| leads_here t : leads [] t t
| leads_down n p t g u : In g (ekids t) -> named_group n g -> leads p g u -> leads (n :: p) t u.
Definition root_group (t g : elem) : Prop :=
  etag t = $"KeePassFile" /\ exists r, In r (ekids t) /\ etag r = $"Root" /\ In g (ekids r) /\ etag g = $"Group".
Definition entry_at (root : elem) (groups : list str) (title : str) (t : elem) : Prop :=
  exists rg g, root_group root rg /\ leads groups rg g /\ In t (ekids g) /\ etag t = $"Entry" /\ has_field (fun o => o = Some title) $"Title" t.
Definition group_at (root : elem) (names : list str) (t : elem) : Prop := exists rg, root_group root rg /\ leads names rg t.

(** *** Tags: the parts of the text between separators (semicolon or comma). *)
Definition sep (c : N) : Prop := c = 59 \/ c = 44.
Definition tag_of (g s : str) : Prop :=
  exists p q, s = p ++ g ++ q /\ (forall c, In c g -> ~ sep c) /\ (p = [] \/ exists p' c, p = p' ++ [c] /\ sep c) /\ (q = [] \/ exists c q', q = c :: q' /\ sep c).
Definition with_history (h : bool) (q : query) : query := MkQuery (q_path q) (q_tree q) h (q_regex q) (q_flags q) (q_string q) (q_kw q).
