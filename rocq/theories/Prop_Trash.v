(** Theorems about several uses of the recycle bin: C55. *)
From Verif Require Import Base PyStr Xml Tree XPath Time Uuid Db FindSpec Find_facts FindEx ApiSpec StructSpec Api ApiEx StructEx BinSpec Struct Struct_find Struct_bin Struct_trash Bin Trash_seq.

(** ** C55, several calls. With a bin [b]: all the elements end up in the bin, in the order of the calls; everything else stays; [b] is still the bin. *)
Theorem c55_one_after_another_partial : forall R l d r rt g m e v w b, trashcan d r rt g m e v w b -> NoDup (map snd l) -> Forall (fun p => disposable d g b (snd p)) l ->
  exists d', trash_all R l d = (Ok tt, d') /\ gathered d d' b (map snd l) /\ trashcan d' r rt g m e v w b /\ (forall j, in_doc d' j <-> in_doc d j) /\ (forall j, look (d_forest d) j = None -> look (d_forest d') j = None).
Proof. exact trash_seq. Qed.
Print Assumptions c55_one_after_another_partial.
(** Without a bin: the first call makes it, the later ones use the same. *)
Theorem c55_one_bin_for_all_partial : forall R C x l d r rt g m e w v cur, wf d -> skeleton d r rt g m e -> text_at d e v -> uuid_of_text v = Ok w -> (forall x, In x (doc_elems d) -> ~ is_bin (d_forest d) w x) ->
  uuid_ok (uuid1 C) -> encode_time (v4 d) (now C) = Ok cur -> (forall x, has_elem d x -> ~ has_uuid (uuid1 C) x) -> NoDup (x :: map snd l) -> Forall (discardable d g (uuid1 C)) (x :: map snd l) ->
  exists b d1 d2 d', trash_all R ((C, x) :: l) d = (Ok tt, d') /\ added d d1 g (eid b) /\ only [e] d1 d2 /\ has_elem d2 b /\ first_text $"Name" b = Some $"Recycle Bin" /\ first_text $"UUID" b = Some (uuid_text (uuid1 C)) /\
    kids_of $"Entry" b = [] /\ kids_of $"Group" b = [] /\ (forall j, in_doc d' j <-> in_doc d j \/ In j (ids b)) /\ gathered d2 d' (eid b) (x :: map snd l) /\ trashcan d' r rt g m e (Some (uuid_text (uuid1 C))) (uuid1 C) (eid b).
Proof. exact trash_seq_first. Qed.
Print Assumptions c55_one_bin_for_all_partial.

Lemma named_is d i u : hasb d i = true -> (match uuid_of_text (first_text $"UUID" (el d i)) with Ok w => list_eqb N.eqb w u | Err _ => false end) = true -> named d u i.
Proof.
  intros Hh Hu. apply hasb_ok in Hh as [Ht Ei]. exists (el d i). split; [exact Ht|]. split; [exact Ei|]. unfold uuid_is. destruct (uuid_of_text (first_text $"UUID" (el d i))) as [w|]; [|discriminate]. f_equal.
  revert u Hu. induction w as [|a w IH]; intros [|c u] E; try reflexivity; try discriminate. cbn in E. apply andb_prop in E as [E1 E2]. apply N.eqb_eq in E1. subst. f_equal. now apply IH.
Qed.
Lemma bears_is d i u : wf d -> hasb d i = true -> (bears d u i <-> has_uuidb u (el d i) = true).
Proof.
  intros H Hh. apply hasb_ok in Hh as [Ht Ei]. rewrite has_uuidb_iff. split.
  - intros (t & H1 & E1 & U). assert (t = el d i) as <- by (apply (Heap.unique_inj (d_forest d)); [apply H|exact H1|exact Ht|congruence]). exact U.
  - intros U. exists (el d i). auto.
Qed.
Definition sparesb (d : db) (i b : nat) : bool := hasb d i && negb (existsb (Nat.eqb b) (ids (el d i))).
Lemma sparesb_ok d i b : wf d -> sparesb d i b = true -> ~ below (look (d_forest d)) i b.
Proof.
  intros H E B. apply andb_prop in E as [E1 E2]. apply hasb_ok in E1 as [Ht Ei]. rewrite <- Ei in B. apply (below_ids _ _ _ (Prim.wf_unique d H) Ht) in B. apply negb_true_iff, not_true_iff_false in E2. apply E2, existsb_exists. exists b. split; [exact B|apply Nat.eqb_refl].
Qed.
Definition oneb (d : db) (w : bytes) (b : nat) : bool := forallb (fun t => negb (str_eqb (etag t) $"Group" && has_uuidb w t) || (eid t =? b)%nat) (elements (d_forest d)).
Lemma bdb_can : trashcan bdb 0 8 9 1 6 (Some (uuid_text (repeat 9 16))) (repeat 9 16) 83.
Proof.
  assert (Hh : has_elem bdb (el bdb 83) /\ eid (el bdb 83) = 83%nat) by (apply hasb_ok; vm_compute; reflexivity). constructor.
  - exact bdb_wf.
  - apply skeletonb_ok. vm_compute. reflexivity.
  - eexists. split; vm_compute; reflexivity.
  - vm_compute. reflexivity.
  - eexists. split; vm_compute; reflexivity.
  - apply in_docb_ok; [exact bdb_wf|vm_compute; reflexivity].
  - destruct Hh as [Ht Ei]. rewrite <- Ei. apply visible_live; [exact bdb_wf|exact Ht|]. apply visibleb_ok; [exact bdb_wf|exact Ht|]. rewrite Ei. vm_compute. reflexivity.
  - apply bears_is; [exact bdb_wf|vm_compute; reflexivity|vm_compute; reflexivity].
  - assert (X : oneb bdb (repeat 9 16) 83 = true) by (vm_compute; reflexivity). intros i _ (q & Eq & Tq) (t & Ht & <- & U). unfold oneb in X. rewrite forallb_forall in X. specialize (X t Ht). rewrite (Heap.look_self _ t (Prim.wf_unique _ bdb_wf) Ht) in Eq. injection Eq as <-. cbn in Tq. apply has_uuidb_iff in U. rewrite Tq, U in X. apply Nat.eqb_eq in X. exact X.
Qed.
Lemma disp_ok d g b x u z : wf d -> in_docb d x = true -> (tagb (look (d_forest d)) $"Entry" x || tagb (look (d_forest d)) $"Group" x) = true -> sparesb d x b = true -> named d u x -> named d z g ->
  el_eq (IdElement u) (IdElement z) = false -> hasb d b = true -> has_uuidb u (el d b) = false -> disposable d g b x.
Proof.
  intros H Dx Tx Sx Nx Ng Ne Hb Hu. split; [now apply in_docb_ok|]. split.
  - unfold tagb in Tx. destruct (look (d_forest d) x) as [q|] eqn:E; [|discriminate]. apply orb_prop in Tx as [Tx|Tx]; apply str_eqb_eq in Tx; [left|right]; exists q; auto.
  - split; [now apply sparesb_ok|]. exists u, z. split; [exact Nx|]. split; [exact Ng|]. split; [exact Ne|]. rewrite (bears_is d b u H Hb), Hu. discriminate.
Qed.
(** An entry, an entry already in the bin, an empty group and the last child of a group, in this order. *)
Definition calls : list (clock * nat) := [(clk, 57); (clk, 94); (clk, 120); (clk, 20)]%nat.
Example c55_seq_ex : trashcan bdb 0 8 9 1 6 (Some (uuid_text (repeat 9 16))) (repeat 9 16) 83 /\ NoDup (map snd calls) /\ Forall (fun p => disposable bdb 9 83 (snd p)) calls /\
  option_map r_kids (look (d_forest (snd (trash_all lit calls bdb))) 83) = Some [84; 85; 93; 57; 94; 120; 20]%nat /\ option_map r_kids (look (d_forest (snd (trash_all lit calls bdb))) 9) = Some [10; 11; 19; 46]%nat.
Proof.
  split; [exact bdb_can|]. split; [repeat constructor; cbn; intuition discriminate|]. split; [|split; vm_compute; reflexivity].
  assert (G : named bdb (repeat 1 16) 9) by (apply named_is; vm_compute; reflexivity).
  unfold calls; cbn [map snd]; repeat (apply Forall_cons); try apply Forall_nil; cbn [snd].
  - apply (disp_ok bdb 9 83 57 (repeat 4 16) (repeat 1 16) bdb_wf); [vm_compute; reflexivity|vm_compute; reflexivity|vm_compute; reflexivity|apply named_is; vm_compute; reflexivity|exact G|vm_compute; reflexivity|vm_compute; reflexivity|vm_compute; reflexivity].
  - apply (disp_ok bdb 9 83 94 (repeat 6 16) (repeat 1 16) bdb_wf); [vm_compute; reflexivity|vm_compute; reflexivity|vm_compute; reflexivity|apply named_is; vm_compute; reflexivity|exact G|vm_compute; reflexivity|vm_compute; reflexivity|vm_compute; reflexivity].
  - apply (disp_ok bdb 9 83 120 (repeat 8 16) (repeat 1 16) bdb_wf); [vm_compute; reflexivity|vm_compute; reflexivity|vm_compute; reflexivity|apply named_is; vm_compute; reflexivity|exact G|vm_compute; reflexivity|vm_compute; reflexivity|vm_compute; reflexivity].
  - apply (disp_ok bdb 9 83 20 (repeat 2 16) (repeat 1 16) bdb_wf); [vm_compute; reflexivity|vm_compute; reflexivity|vm_compute; reflexivity|apply named_is; vm_compute; reflexivity|exact G|vm_compute; reflexivity|vm_compute; reflexivity|vm_compute; reflexivity].
Qed.
Lemma disc_ok d g n x u z : wf d -> in_docb d x = true -> (tagb (look (d_forest d)) $"Entry" x || tagb (look (d_forest d)) $"Group" x) = true -> named d u x -> named d z g ->
  el_eq (IdElement u) (IdElement z) = false -> u <> n -> discardable d g n x.
Proof.
  intros H Dx Tx Nx Ng Ne Hn. split; [now apply in_docb_ok|]. split; [|exists u, z; auto].
  unfold tagb in Tx. destruct (look (d_forest d) x) as [q|] eqn:E; [|discriminate]. apply orb_prop in Tx as [Tx|Tx]; apply str_eqb_eq in Tx; [left|right]; exists q; auto.
Qed.
Lemma no_uuid_ok d u : forallb (fun t => negb (has_uuidb u t)) (elements (d_forest d)) = true -> forall x, has_elem d x -> ~ has_uuid u x.
Proof. intros F x Hx U. rewrite forallb_forall in F. specialize (F x Hx). apply has_uuidb_iff in U. rewrite U in F. discriminate. Qed.
(** No bin yet: an entry out of a group, then that group, then another entry. *)
Definition firsts : list (clock * nat) := [(clk, 67); (clk, 56); (clk, 20)]%nat.
Example c55_first_ex : (forall x, In x (doc_elems edb) -> ~ is_bin (d_forest edb) (repeat 9 16) x) /\ uuid_ok (uuid1 clk) /\ (exists cur, encode_time (v4 edb) (now clk) = Ok cur) /\ (forall x, has_elem edb x -> ~ has_uuid (uuid1 clk) x) /\
  NoDup (map snd firsts) /\ Forall (discardable edb 9 (uuid1 clk)) (map snd firsts) /\
  option_map r_kids (look (d_forest (snd (trash_all lit firsts edb))) 9) = Some [10; 11; 19; 152]%nat /\ option_map r_kids (look (d_forest (snd (trash_all lit firsts edb))) 152) = Some [153; 154; 162; 67; 56; 20]%nat.
Proof.
  assert (G : named edb (repeat 1 16) 9) by (apply named_is; vm_compute; reflexivity).
  split. { intros x Hx (_ & _ & U). revert U. apply (no_uuid_ok edb); [vm_compute; reflexivity|now apply doc_elems_has]. }
  split; [split; [repeat constructor|reflexivity]|]. split; [eexists; vm_compute; reflexivity|]. split; [apply no_uuid_ok; vm_compute; reflexivity|]. split; [repeat constructor; cbn; intuition discriminate|]. split; [|split; vm_compute; reflexivity].
  unfold firsts; cbn [map snd]; repeat (apply Forall_cons); try apply Forall_nil; cbn [snd].
  - apply (disc_ok edb 9 _ 67 (repeat 4 16) (repeat 1 16) edb_wf); [vm_compute; reflexivity|vm_compute; reflexivity|apply named_is; vm_compute; reflexivity|exact G|vm_compute; reflexivity|vm_compute; discriminate].
  - apply (disc_ok edb 9 _ 56 (repeat 3 16) (repeat 1 16) edb_wf); [vm_compute; reflexivity|vm_compute; reflexivity|apply named_is; vm_compute; reflexivity|exact G|vm_compute; reflexivity|vm_compute; discriminate].
  - apply (disc_ok edb 9 _ 20 (repeat 2 16) (repeat 1 16) edb_wf); [vm_compute; reflexivity|vm_compute; reflexivity|apply named_is; vm_compute; reflexivity|exact G|vm_compute; reflexivity|vm_compute; discriminate].
Qed.
