(** The in-memory document: lxml elements with identity, as the API of pykeepass.py, entry.py, group.py, baseelement.py
    and attachment.py manipulates them through [_element].
    An element carries a unique number (the identity of the lxml node; Python objects refer to elements by it).  A
    [forest] is the list of all trees in memory: the document first, then detached elements still referred to.
    Simplifications: elements, attributes and leading text only (no tails, comments, namespaces). *)
From Verif Require Import Base Xml.

Inductive elem := El (id : nat) (tag : str) (attrs : list (str * str)) (text : option str) (kids : list elem).
Definition eid (t : elem) := let 'El a _ _ _ _ := t in a.
Definition etag (t : elem) := let 'El _ a _ _ _ := t in a.
Definition eattrs (t : elem) := let 'El _ _ a _ _ := t in a.
Definition etext (t : elem) := let 'El _ _ _ a _ := t in a.
Definition ekids (t : elem) := let 'El _ _ _ _ a := t in a.
Definition forest := list elem.

Section Ind.
  Variable P : elem -> Prop.
  Hypothesis HX : forall id tag attrs text kids, Forall P kids -> P (El id tag attrs text kids).
  Fixpoint elem_ind' (t : elem) : P t :=
    match t with
    | El id tag attrs text kids =>
        HX id tag attrs text kids
          ((fix go (l : list elem) : Forall P l :=
              match l with [] => Forall_nil P | k :: l' => Forall_cons k (elem_ind' k) (go l') end) kids)
    end.
End Ind.

(** An element together with its ancestors, innermost first; all of them in document order. *)
Record node := Nd { nd_el : elem; nd_up : list elem }.
Fixpoint pre (up : list elem) (t : elem) : list node :=
  let 'El _ _ _ _ kids := t in Nd t up :: flat_map (pre (t :: up)) kids.
Definition nid (n : node) : nat := eid (nd_el n).
Definition fpre (F : forest) : list node := flat_map (pre []) F.
Definition node_of (F : forest) (i : nat) : option node := List.find (fun n => (nid n =? i)%nat) (fpre F).
Definition elem_of (F : forest) (i : nat) : option elem := option_map nd_el (node_of F i).
(** [getparent()] *)
Definition parent_of (F : forest) (i : nat) : option elem :=
  match node_of F i with Some n => hd_error (nd_up n) | None => None end.

(** [find(tag)], [findall(tag)], [find('a/b')], [find('a/b/c')]: direct children by tag. *)
Definition kids_of (tag : str) (t : elem) : list elem := filter (fun k => str_eqb (etag k) tag) (ekids t).
Definition find1 (a : str) (t : elem) : option elem := hd_error (kids_of a t).
Definition find_2 (a b : str) (t : elem) : option elem := hd_error (flat_map (kids_of b) (kids_of a t)).
Definition find_3 (a b c : str) (t : elem) : option elem := hd_error (flat_map (kids_of c) (flat_map (kids_of b) (kids_of a t))).
(** [attrib.get(name)] *)
Definition attr_of (n : str) (t : elem) : option str := option_map snd (List.find (fun a : str * str => str_eqb (fst a) n) (eattrs t)).

(** Replacing element [i] by [f] of it. *)
Fixpoint upd (i : nat) (f : elem -> elem) (t : elem) : elem :=
  let 'El j g a x k := t in if (j =? i)%nat then f t else El j g a x (map (upd i f) k).
Definition set_text (v : option str) (t : elem) : elem := let 'El j g a x k := t in El j g a v k.
Definition set_kids (k : list elem) (t : elem) : elem := let 'El j g a x _ := t in El j g a x k.
Fixpoint attr_put (n v : str) (l : list (str * str)) : list (str * str) :=
  match l with
  | [] => [(n, v)]
  | (m, w) :: l' => if str_eqb m n then (m, v) :: l' else (m, w) :: attr_put n v l'
  end.
(** [attrib[name] = v] *)
Definition set_attr (n v : str) (t : elem) : elem := let 'El j g a x k := t in El j g (attr_put n v a) x k.
Definition add_kid (c : elem) (t : elem) : elem := set_kids (ekids t ++ [c]) t.
Definition insert_at {A} (n : nat) (c : A) (l : list A) : list A := firstn n l ++ c :: skipn n l.
Definition insert_kid (n : nat) (c : elem) (t : elem) : elem := set_kids (insert_at n c (ekids t)) t.
(** The tree without the subtree [i] (below the root). *)
Fixpoint prune (i : nat) (t : elem) : elem :=
  let 'El j g a x k := t in El j g a x (flat_map (fun c => if (eid c =? i)%nat then [] else [prune i c]) k).

(** Unlinking an element from its parent: it becomes a tree of its own. *)
Definition is_root (F : forest) (i : nat) : bool := existsb (fun t => (eid t =? i)%nat) F.
Definition detach (F : forest) (i : nat) : forest :=
  if is_root F i then F
  else match elem_of F i with Some s => map (prune i) F ++ [s] | None => F end.
(** Taking a root tree out of the list. *)
Definition take_root (F : forest) (i : nat) : option (elem * forest) :=
  match List.find (fun t => (eid t =? i)%nat) F with
  | Some t => Some (t, filter (fun t => negb (eid t =? i)%nat) F)
  | None => None
  end.
Definition fupd (i : nat) (f : elem -> elem) (F : forest) : forest := map (upd i f) F.
(** Linking the tree [c] (anywhere in the forest) below [p] with [link]. *)
Definition relink (F : forest) (p c : nat) (link : elem -> elem -> elem) : forest :=
  match take_root (detach F c) c with
  | Some (t, F') => fupd p (link t) F'
  | None => F
  end.
(** Is [a] an ancestor of [i] or [i] itself (lxml's _isAncestorOrSame)? *)
Definition anc_or_self (F : forest) (a i : nat) : bool :=
  (a =? i)%nat || match node_of F i with Some n => existsb (fun t => (eid t =? a)%nat) (nd_up n) | None => false end.

(** Numbers for the elements of a file-level document, in document order; and back. *)
Fixpoint label (n : nat) (t : xml) : elem * nat :=
  let 'X g a x k := t in
  let '(k', n') := (fix go (n : nat) (l : list xml) : list elem * nat :=
                      match l with
                      | [] => ([], n)
                      | c :: l' => let '(c', n1) := label n c in let '(l'', n2) := go n1 l' in (c' :: l'', n2)
                      end) (S n) k in
  (El n g a x k', n').
Fixpoint erase (t : elem) : xml := let 'El _ g a x k := t in X g a x (map erase k).

(** All element numbers. *)
Fixpoint ids (t : elem) : list nat := let 'El i _ _ _ k := t in i :: flat_map ids k.
Definition fids (F : forest) : list nat := flat_map ids F.
