(** C103: groups and entries form a tree, and each call changes it as the call says. *)
From Verif Require Import Base PyStr Xml Tree XPath Uuid Time Db FindSpec ApiSpec FindEx Api ApiEx StructSpec StructEx CredSpec IntegritySpec IntegrityEx OutlineSpec OutlineEx Outline_tree Outline_step Outline_list.

(** Every entry and every group has exactly one outline. *)
Theorem c103_outline : forall d i, wf d -> an_item d i -> exists t, (pictures d t /\ oid t = i) /\ forall u, pictures d u -> oid u = i -> u = t.
Proof. exact outlined. Qed.
Print Assumptions c103_outline.
(** Group.entries, Group.subgroups and .group (parentgroup) read it. *)
Theorem c103_readings : forall d b i l, wf d -> pictures d (Node b i l) ->
  group_entries i d = (Ok (map oid (filter (fun k => negb (ogroup k)) l)), d) /\ group_subgroups i d = (Ok (map oid (filter ogroup l)), d) /\ forall R k, b = true -> In k l -> group_of R (oid k) d = (Ok (Some i), d).
Proof. exact read_kids. Qed.
Print Assumptions c103_readings.
(** One call, returning or raising. *)
Theorem c103_call : forall R Zl C o d r d' t, wf d /\ laid d -> typed d o -> run R Zl C o d = (r, d') -> pictures d t -> exists t', effect R d o r t t' /\ pictures d' t'.
Proof. exact effect_step. Qed.
Print Assumptions c103_call.
(** A history of calls: the outline afterwards is the one that follows from the calls. *)
Theorem c103_history : forall R Zl l d t, wf d -> laid d -> all_typed R Zl l d -> pictures d t -> exists t', follows R Zl l d t t' /\ pictures (later R Zl l d) t'.
Proof. exact follows_all. Qed.
Print Assumptions c103_history.
(** kp.entries and kp.groups are the outline of the root group read from above: each group before what is in it, in order. *)
Theorem c103_lists : forall R d u, wf d -> laid d -> rooted d (oid u) -> pictures d u ->
  entries R d = (Ok (map oid (filter (fun k => negb (ogroup k)) (onodes u))), d) /\ groups R d = (Ok (map oid (filter ogroup (onodes u))), d).
Proof. exact lists. Qed.
Print Assumptions c103_lists.
Example c103_ex : wf edb /\ laid edb /\ all_typed lit no_z calls edb /\ an_item edb 9 /\ pictures edb before /\ rooted edb (oid before) /\ pictures (later lit no_z calls edb) after /\
  put 56 (Node false 20 []) (drop 20 before) = Node true 9 [Node true 56 [Node false 67 []; Node false 126 []; Node false 20 []]] /\ clear 56 before = Node true 9 [Node false 20 []; Node true 56 []] /\
  arrange 56 [126; 67]%nat before = Node true 9 [Node false 20 []; Node true 56 [Node false 126 []; Node false 67 []]].
Proof.
  split; [exact edb_wf|]. split; [apply laidb_ok; [exact edb_wf|vm_compute; reflexivity]|]. split; [apply all_typedb_ok; vm_compute; reflexivity|]. split; [right; apply tagb_is; vm_compute; reflexivity|].
  split; [apply pictureb_ok; vm_compute; reflexivity|]. split; [apply rootedb_ok; vm_compute; reflexivity|]. split; [apply pictureb_ok; vm_compute; reflexivity|]. repeat split.
Qed.
