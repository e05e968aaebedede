(** UUIDs in the tree of a group: whose UUIDs differ, and which calls may repeat one. *)
From Verif Require Import Base PyStr Xml Tree XPath Uuid Time Db FindSpec Api ApiSpec StructSpec CredSpec IntegritySpec OutlineSpec.

(** [x] is the group [g] or one of the groups and entries in it, at any depth; snapshots in histories are not. *)
Definition inside (d : db) (g x : nat) : Prop := exists t, pictures d t /\ oid t = g /\ In x (oids t).
(** Reading [x.uuid] gives [u]. *)
Definition bears_uuid (d : db) (x : nat) (u : bytes) : Prop := fst (get_uuid x d) = Ok u.
(** No two of them have one UUID. *)
Definition distinct (d : db) (g : nat) : Prop := forall x y u, inside d g x -> inside d g y -> bears_uuid d x u -> bears_uuid d y u -> x = y.
(** The UUID [u], drawn for something new, is none that is there. *)
Definition unheard (d : db) (g : nat) (u : bytes) : Prop := uuid_ok u /\ forall y, inside d g y -> ~ bears_uuid d y u.
(** What is asked of a call made at the time [C]: new entries, groups and bins draw a UUID that is not there; an assigned UUID is no other's; what is moved or thrown away is one of [g]'s own. *)
Definition minted (C : clock) (d : db) (g : nat) (o : op) : Prop :=
  match o with
  | Op_uuid i u => uuid_ok u /\ (List.length (kids_tagged (look (d_forest d)) $"UUID" i) <= 1)%nat /\ forall y, inside d g y -> y <> i -> ~ bears_uuid d y u
  | Op_add_entry _ _ _ _ _ _ _ _ _ _ _ | Op_add_group _ _ _ _ => unheard d g (uuid1 C)
  | Op_trash i => unheard d g (uuid1 C) /\ inside d g i
  | Op_move i _ => inside d g i
  | Op_append _ l => Forall (inside d g) l
  | _ => True
  end.
Fixpoint all_minted (R : regex) (Zl : zlib) (g : nat) (l : list (clock * op)) (d : db) : Prop :=
  match l with [] => True | c :: l => minted (fst c) d g (snd c) /\ all_minted R Zl g l (next R Zl c d) end.
(** The search for a UUID. *)
Definition for_uuid (u : bytes) : query := MkQuery None None false false None [] [($"uuid", K_uuid u)].
(** Nothing in [g] has two UUID elements. *)
Definition one_uuid_each (d : db) (g : nat) : Prop := forall x, inside d g x -> (List.length (kids_tagged (look (d_forest d)) $"UUID" x) <= 1)%nat.
