(** Outlines computed, and a history of calls on the sample database. *)
From Verif Require Import Base PyStr Xml Tree XPath Uuid Time Db FindSpec ApiSpec FindEx Api ApiEx StructSpec StructEx CredSpec IntegritySpec IntegrityEx Integrity LocalSpec LocalEx OutlineSpec.

Fixpoint outline_of (n : nat) (d : db) (i : nat) : outline := Node (tagb (look (d_forest d)) $"Group" i) i (match n with O => [] | S n => map (outline_of n d) (items d i) end).
Fixpoint pictureb (d : db) (t : outline) : bool := let '(Node b i l) := t in tagb (look (d_forest d)) (if b then $"Group" else $"Entry") i && list_eqb Nat.eqb (items d i) (map oid l) && forallb (pictureb d) l.
Lemma nats_eqb a : forall b, list_eqb Nat.eqb a b = true -> a = b.
Proof. induction a as [|x a IH]; intros [|y b] H; try discriminate H; [reflexivity|]. cbn [list_eqb] in H. apply andb_prop in H as [E H]. apply Nat.eqb_eq in E as ->. f_equal. now apply IH. Qed.
Lemma pictureb_ok d : forall t, pictureb d t = true -> pictures d t.
Proof.
  fix F 1. intros [b i l] H. cbn [pictureb] in H. rewrite !andb_true_iff in H. destruct H as [[H1 H2] H3]. constructor; [now apply tagb_is|now apply nats_eqb|]. revert H3. clear H1 H2. induction l as [|k l IH]; intros H3; constructor; cbn [forallb] in H3; apply andb_prop in H3 as [A B]; [now apply F|now apply IH].
Qed.
(** The outline of the root group of the sample database, and after [calls]. *)
Definition before : outline := Node true 9 [Node false 20 []; Node true 56 [Node false 67 []; Node false 126 []]].
Definition after : outline := Node true 9 [Node true 56 [Node false 67 []]; Node true 195 []; Node true 206 [Node false 20 []]].
Definition rootedb (d : db) (g : nat) : bool :=
  match roots (d_forest d) with
  | doc :: _ => tagb (look (d_forest d)) $"KeePassFile" doc && match kids_tagged (look (d_forest d)) $"Root" doc with [r] => list_eqb Nat.eqb (kids_tagged (look (d_forest d)) $"Group" r) [g] | _ => false end
  | [] => false
  end.
Lemma rootedb_ok d g : rootedb d g = true -> rooted d g.
Proof.
  unfold rootedb, rooted. destruct (roots (d_forest d)) as [|doc l]; [discriminate|]. intros H. apply andb_prop in H as [H1 H2]. destruct (kids_tagged (look (d_forest d)) $"Root" doc) as [|r [|r2 m]] eqn:E; try discriminate H2. exists doc, r. split; [reflexivity|]. split; [now apply tagb_is|]. split; [exact E|now apply nats_eqb].
Qed.
