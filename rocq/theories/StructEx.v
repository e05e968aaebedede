(** Examples and checkers for Prop_Struct.v. *)
From Verif Require Import Base Base64 PyStr Xml Tree XPath Time Uuid Db FindSpec ApiSpec FindEx Api ApiEx StructSpec Find_facts Heap Prim Struct Struct_find.

Definition in_docb (d : db) (i : nat) : bool := match d_forest d with r :: _ => existsb (Nat.eqb i) (ids r) | [] => false end.
Lemma in_docb_ok d i : wf d -> in_docb d i = true -> in_doc d i.
Proof.
  unfold in_docb. destruct (d_forest d) as [|r F] eqn:E; [discriminate|]. intros H Hb. apply (in_doc_root d r F i H E). apply existsb_exists in Hb as (x & Hx & Ex). apply Nat.eqb_eq in Ex. now subst.
Qed.
Definition visibleb (d : db) (i : nat) : bool := existsb (fun t => (eid t =? i)%nat) (visible (d_forest d)).
Lemma visibleb_ok d t : wf d -> has_elem d t -> visibleb d (eid t) = true -> In t (visible (d_forest d)).
Proof.
  intros H Ht Hb. apply existsb_exists in Hb as (x & Hx & Ex). apply Nat.eqb_eq in Ex. assert (has_elem d x).
  { rewrite visible_fpre in Hx. apply in_map_iff in Hx as (n & <- & Hn). apply filter_In in Hn as [Hn _]. unfold has_elem. rewrite elements_fpre. now apply in_map. }
  assert (x = t) as -> by (apply (unique_inj (d_forest d)); auto; apply H). exact Hx.
Qed.
Definition skeletonb (d : db) (r rt g m e : nat) : bool :=
  match roots (d_forest d) with x :: _ => (x =? r)%nat | [] => false end &&
  tagb (look (d_forest d)) $"KeePassFile" r &&
  list_eqb Nat.eqb (kids_tagged (look (d_forest d)) $"Root" r) [rt] && list_eqb Nat.eqb (kids_tagged (look (d_forest d)) $"Group" rt) [g] &&
  list_eqb Nat.eqb (kids_tagged (look (d_forest d)) $"Meta" r) [m] && list_eqb Nat.eqb (kids_tagged (look (d_forest d)) $"RecycleBinUUID" m) [e].

Lemma nats_eqb_ok a : forall b, list_eqb Nat.eqb a b = true -> a = b.
Proof. induction a as [|x a IH]; intros [|y b]; cbn [list_eqb]; try discriminate; [reflexivity|]. rewrite andb_true_iff, Nat.eqb_eq. intros [-> E]. f_equal. auto. Qed.
Lemma skeletonb_ok d r rt g m e : skeletonb d r rt g m e = true -> skeleton d r rt g m e.
Proof.
  unfold skeletonb. rewrite !andb_true_iff. intros [[[[[H1 H2] H3] H4] H5] H6]. constructor; try (apply nats_eqb_ok; assumption).
  - destruct (roots (d_forest d)) as [|x l]; [discriminate|]. apply Nat.eqb_eq in H1. now subst.
  - unfold tagb in H2. destruct (look (d_forest d) r) as [q|] eqn:E; [|discriminate]. apply str_eqb_eq in H2. exists q. auto.
Qed.
(** [edb] with a recycle bin (group 152) containing one entry. *)
Definition bdb : db := db_of (xdoc 9
  [xentry 2 $"mail" $"ann" $"s3cret" [];
   xgroup 3 $"sub" [xentry 4 $"bank" $"bob" $"pw" []; xgroup 9 $"Recycle Bin" [xentry 6 $"old" $"x" $"y" []]];
   xgroup 8 $"more" []]).
Lemma bdb_wf : wf bdb. Proof. apply wfb_ok. vm_compute. reflexivity. Qed.
Lemma first_bin_ok d u n i : wf d -> hasb d i = true -> nth_error (map eid (doc_elems d)) n = Some i -> has_uuidb u (el d i) = true -> str_eqb (etag (el d i)) $"Group" = true -> visibleb d i = true ->
  forallb (fun y => negb (has_uuidb u y)) (firstn n (doc_elems d)) = true -> first_such (is_bin (d_forest d) u) (doc_elems d) (el d i).
Proof.
  intros H Hh Hn Hu Hg Hv Hf. apply hasb_ok in Hh as [Ht Ei]. rewrite nth_error_map in Hn. destruct (nth_error (doc_elems d) n) as [x|] eqn:En; [|discriminate]. injection Hn as Ex.
  assert (x = el d i) as ->. { apply (unique_inj (d_forest d)); [apply H| |exact Ht|congruence]. apply nth_error_In in En. unfold doc_elems in En. unfold elements. destruct (d_forest d) as [|r F]; [destruct En|]. cbn [flat_map]. apply in_app_iff. now left. }
  exists (firstn n (doc_elems d)), (skipn (S n) (doc_elems d)). split; [|split].
  - rewrite <- (firstn_skipn n (doc_elems d)) at 1. f_equal. revert En. generalize (doc_elems d). clear. induction n as [|n IH]; intros [|a l] E; try discriminate; [injection E as ->; reflexivity|]. exact (IH l E).
  - split; [now apply str_eqb_eq|]. split; [apply visibleb_ok; [exact H|exact Ht|rewrite Ei; exact Hv]|now apply has_uuidb_iff].
  - intros y Hy (_ & _ & Uy). rewrite forallb_forall in Hf. specialize (Hf y Hy). apply has_uuidb_iff in Uy. rewrite Uy in Hf. discriminate.
Qed.
