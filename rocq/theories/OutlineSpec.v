(** The outline of a group: the tree of the groups and entries in it, without their contents; what calls do to it. *)
From Verif Require Import Base PyStr Xml Tree XPath Uuid Time Db FindSpec Api ApiSpec StructSpec CredSpec IntegritySpec.

(** *** Outlines: a node is a group ([true]) or an entry, with its number and the groups and entries directly in it, in order. *)
Inductive outline := Node (group : bool) (i : nat) (kids : list outline).
Definition oid (t : outline) : nat := let '(Node _ i _) := t in i.
Definition okids (t : outline) : list outline := let '(Node _ _ l) := t in l.
Definition ogroup (t : outline) : bool := let '(Node b _ _) := t in b.
Fixpoint onodes (t : outline) : list outline := let '(Node _ _ l) := t in t :: flat_map onodes l.
Definition oids (t : outline) : list nat := map oid (onodes t).
(** [s] becomes the last in the group [p]. *)
Fixpoint put (p : nat) (s : outline) (t : outline) : outline := let '(Node b j l) := t in Node b j (map (put p s) l ++ (if (j =? p)%nat then [s] else [])).
(** What is called [i] goes, with everything in it. *)
Fixpoint drop (i : nat) (t : outline) : outline := let '(Node b j l) := t in Node b j (flat_map (fun k => if (oid k =? i)%nat then [] else [drop i k]) l).
(** The group [g] is emptied. *)
Fixpoint clear (g : nat) (t : outline) : outline := let '(Node b j l) := t in Node b j (if (j =? g)%nat then [] else map (clear g) l).
(** The members of the group [p] are put in the order [o]. *)
Definition arranged (o : list nat) (l : list outline) : list outline := flat_map (fun i => filter (fun k => (oid k =? i)%nat) l) o.
Fixpoint arrange (p : nat) (o : list nat) (t : outline) : outline := let '(Node b j l) := t in Node b j (let m := map (arrange p o) l in if (j =? p)%nat then arranged o m else m).

(** *** The outline in a database: [pictures d t] says that [t] is the outline of the group or entry [oid t]. *)
Definition itemb (L : nat -> option row) (k : nat) : bool := tagb L $"Group" k || tagb L $"Entry" k.
Definition items (d : db) (i : nat) : list nat := match look (d_forest d) i with Some r => filter (itemb (look (d_forest d))) (r_kids r) | None => [] end.
Inductive pictures (d : db) : outline -> Prop :=
| Pic b i l : is_tag (look (d_forest d)) (if b : bool then $"Group" else $"Entry") i -> items d i = map oid l -> Forall (pictures d) l -> pictures d (Node b i l).

(** *** What a call does to an outline [t], given how it ended *)
Definition carried (d : db) (i p : nat) (t t' : outline) : Prop := exists s, pictures d s /\ oid s = i /\ t' = put p s (drop i t).
Definition fresh (d : db) (i : nat) : Prop := look (d_forest d) i = None.
(** The members of [l], one after the other. *)
Fixpoint carried_all (d : db) (l : list nat) (p : nat) (t t' : outline) : Prop :=
  match l with [] => t' = t | i :: l => exists t1, carried d i p t t1 /\ carried_all (snd (move i p d)) l p t1 t' end.
(** A new bin: an empty group at the end of the root group. *)
Definition binned (R : regex) (d : db) (b : nat) (t t' : outline) : Prop := exists g, root_group R d = (Ok (Some g), d) /\ fresh d b /\ t' = put g (Node true b []) t.
Definition effect (R : regex) (d : db) (o : op) (r : res unit) (t t' : outline) : Prop :=
  match o, r with
  | Op_add_entry g _ _ _ _ _ _ _ _ _ _, Ok _ => exists e, fresh d e /\ t' = put g (Node false e []) t
  | Op_add_group g _ _ _, Ok _ => exists e, fresh d e /\ t' = put g (Node true e []) t
  | Op_move i p, Ok _ => carried d i p t t'
  | Op_append p l, Ok _ => carried_all d l p t t'
  | Op_append p l, Err _ => exists a b, l = a ++ b /\ carried_all d a p t t'
  | Op_delete i, Ok _ => t' = drop i t
  | Op_empty g, Ok _ => t' = clear g t
  | Op_reindex e _, Ok _ => exists p a b, is_kid d p e /\ less e (items d p) = a ++ b /\ t' = arrange p (a ++ e :: b) t
  | Op_trash i, Ok _ =>
      (exists b, recyclebin_group R d = (Ok (Some b), d) /\ carried d i b t t') \/
      (recyclebin_group R d = (Ok None, d) /\ exists b t1 s s1, binned R d b t t1 /\ pictures d s /\ oid s = i /\ binned R d b s s1 /\ t' = put b s1 (drop i t1))
  | Op_trash _, Err _ => t' = t \/ exists b, binned R d b t t'
  | _, _ => t' = t
  end.
(** A history of calls: the outlines one after the other. *)
Fixpoint follows (R : regex) (Zl : zlib) (l : list (clock * op)) (d : db) (t t' : outline) : Prop :=
  match l with
  | [] => t' = t
  | c :: l => exists t1, effect R d (snd c) (fst (run R Zl (fst c) (snd c) d)) t t1 /\ follows R Zl l (next R Zl c d) t1 t'
  end.
(** One group directly in the document's Root: the root group. *)
Definition rooted (d : db) (g : nat) : Prop := exists doc r, hd_error (roots (d_forest d)) = Some doc /\ is_tag (look (d_forest d)) $"KeePassFile" doc /\ kids_tagged (look (d_forest d)) $"Root" doc = [r] /\ kids_tagged (look (d_forest d)) $"Group" r = [g].
