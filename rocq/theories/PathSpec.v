(** Parent groups and listings, on the rows of the store. *)
From Verif Require Import Base PyStr Xml Tree XPath Db FindSpec Api ApiSpec StructSpec.

(** The nearest group around an element. *)
Inductive nearest (d : db) : nat -> option nat -> Prop :=
| ne_top x : (forall p, ~ is_kid d p x) -> nearest d x None
| ne_here p x : is_kid d p x -> is_tag (look (d_forest d)) $"Group" p -> nearest d x (Some p)
| ne_up p x o : is_kid d p x -> ~ is_tag (look (d_forest d)) $"Group" p -> nearest d p o -> nearest d x o.
(** Inside a History element. *)
Definition past (d : db) (x : nat) : Prop := exists h, is_tag (look (d_forest d)) $"History" h /\ h <> x /\ below (look (d_forest d)) h x.
(** As KeePass writes documents: an entry (not of a history) or group with a group around it stands directly in that group. *)
Definition neat (d : db) : Prop := forall p x T, T = $"Entry" \/ T = $"Group" -> is_kid d p x -> is_tag (look (d_forest d)) T x -> ~ past d x -> is_tag (look (d_forest d)) $"Group" p \/ nearest d x None.
(** Group names are stored once. *)
Definition one_name (d : db) : Prop := forall g, has_elem d g -> etag g = $"Group" -> at_most_one $"Name" g.
Definition kids_query (g : nat) : query := MkQuery None (Some g) false false None [] [].
