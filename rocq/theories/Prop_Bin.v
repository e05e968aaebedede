(** Binaries and attachments (C61-C64). *)
From Verif Require Import Base Base64 PyStr Xml Tree XPath Time Uuid Db FindSpec ApiSpec FindEx Api ApiEx StructSpec StructEx Struct_hist Prop_Struct Prim Heap Struct BinSpec Bin BinStore BinEx PathSpec Listing ListingEx.

(** ** C61: add_binary returns the id under which the data is read; earlier ids keep their data. *)
Theorem c61_add_binary : forall R Zl d l data compressed protected, wf d -> regular d -> store Zl d l -> zlib_ok Zl -> bytes_ok data ->
  exists d', add_binary R Zl data compressed protected d = (Ok (Z.of_nat (List.length l)), d') /\ wf d' /\ regular d' /\ store Zl d' (l ++ [data]) /\ kept d d' /\ (in_order d -> in_order d').
Proof. exact add_run. Qed.
Print Assumptions c61_add_binary.
Theorem c61_binaries : forall R Zl d l, wf d -> store Zl d l -> binaries R Zl d = (Ok l, d).
Proof. exact binaries_run. Qed.
Print Assumptions c61_binaries.
(** Any sequence of add_binary, delete_binary (of ids 0, 1, 2, ...; also unused ones) and add_attachment, from any such database of either version. *)
Theorem c61_histories : forall R Zl os, zlib_ok Zl -> forall d l, wf d -> regular d -> store Zl d l -> bops_ok R Zl d os ->
  wf (after_bops R Zl os d) /\ regular (after_bops R Zl os d) /\ store Zl (after_bops R Zl os d) (shelved l os).
Proof. exact bops_run. Qed.
Print Assumptions c61_histories.
(** The data of an attachment is the binary its reference denotes. *)
Theorem c61_attachment_data : forall R Zl d l a v n, wf d -> regular d -> store Zl d l -> attached d a v n ->
  att_binary R Zl a d = (match nth_error l n with Some x => Ok x | None => Err Ex_Binary end, d).
Proof. exact att_binary_run. Qed.
Print Assumptions c61_attachment_data.
Theorem c61_attach : forall Zl d l e k f, wf d -> regular d -> store Zl d l -> in_doc d e -> is_tag (look (d_forest d)) $"Entry" e -> text_ok f = true ->
  exists a v d', add_attachment e (Z.of_nat k) (Some f) d = (Ok a, d') /\ wf d' /\ regular d' /\ store Zl d' l /\ kept d d' /\ look (d_forest d) a = None /\ is_kid d' e a /\ attached d' a v k /\ att_filename a d' = (Ok (Some f), d').
Proof. exact attach_run. Qed.
Print Assumptions c61_attach.
Definition bin_calls : list bop := [Badd [1; 2] true false; Bdel 1; Bdel 7; Battach 19 2 (Some $"n"); Badd [] false true; Badd [255] true true; Bdel 0].
Example c61_ex : wf doc3 /\ regular doc3 /\ store no_z doc3 [[65]; [66]; [67]] /\ zlib_ok no_z /\ bops_ok lit no_z doc3 bin_calls /\ shelved [[65]; [66]; [67]] bin_calls = [[67]; [1; 2]; []; [255]] /\
  fst (binaries lit no_z (after_bops lit no_z bin_calls doc3)) = Ok [[67]; [1; 2]; []; [255]] /\ fst (add_binary lit no_z [9] true true doc3) = Ok 3%Z /\
  wf edb /\ regular edb /\ store no_z edb [[65]; [66]].
Proof.
  split; [exact doc3_wf|]. split; [exact doc3_regular|]. split; [exact doc3_store|]. split; [exact no_z_ok|]. split.
  - cbn [bin_calls bops_ok]. split; [repeat constructor|]. split; [exact I|]. split; [exact I|]. split.
    + split; [apply in_docb_ok; [apply wfb_ok; vm_compute; reflexivity|vm_compute; reflexivity]|]. split; [eexists; split; [vm_compute; reflexivity|vm_compute; reflexivity]|]. exists $"n". split; reflexivity.
    + split; [constructor|]. split; [repeat constructor|]. split; exact I.
  - split; [vm_compute; reflexivity|]. split; [vm_compute; reflexivity|]. split; [vm_compute; reflexivity|]. split; [exact edb_wf|]. split; [exact edb_regular|exact edb_store].
Qed.

(** ** C62: after delete_binary the live attachments that referred to it are gone; every attachment of another binary, also in histories, keeps its data. *)
Theorem c62_delete_binary_partial : forall R Zl d l k, wf d -> regular d -> store Zl d l -> (k < List.length l)%nat ->
  exists d', delete_binary R (Z.of_nat k) d = (Ok tt, d') /\ wf d' /\ regular d' /\ store Zl d' (remove_nth k l) /\
    (forall a, unwanted d k a -> ~ in_doc d' a) /\
    (forall a v n x, attached d a v n -> n <> k -> att_binary R Zl a d = (Ok x, d) -> in_doc d' a /\ att_binary R Zl a d' = (Ok x, d')).
Proof. exact delete_data. Qed.
Print Assumptions c62_delete_binary_partial.
(** Exactly what it changes: first the list of binaries, then the attachments. *)
Theorem c62_delete_binary_exact : forall R Zl d l k, wf d -> regular d -> store Zl d l -> (k < List.length l)%nat ->
  exists d1 d', delete_binary R (Z.of_nat k) d = (Ok tt, d') /\ wf d' /\ regular d' /\ store Zl d' (remove_nth k l) /\ popped d d1 k /\ unbound d1 d' k /\
    (forall a v n, attached d1 a v n <-> attached d a v n) /\ (forall a v n, attached d a v n -> (in_history d1 a <-> in_history d a)).
Proof. exact bin_delete_run. Qed.
Print Assumptions c62_delete_binary_exact.
Theorem c62_no_such_binary : forall R Zl d l k, wf d -> store Zl d l -> (List.length l <= k)%nat -> delete_binary R (Z.of_nat k) d = (Err Ex_Binary, d).
Proof. exact bin_delete_none. Qed.
Print Assumptions c62_no_such_binary.
Example c62_ex : wf doc3 /\ regular doc3 /\ store no_z doc3 [[65]; [66]; [67]] /\ attached doc3 48 50 2 /\ attached doc3 78 80 2 /\ fst (att_binary lit no_z 78 doc3) = Ok [67] /\
  (let d' := snd (delete_binary lit 0 doc3) in in_docb d' 45 = false /\ fst (att_binary lit no_z 78 d') = Ok [67] /\ fst (att_id 78 d') = Ok 1%Z).
Proof.
  split; [exact doc3_wf|]. split; [exact doc3_regular|]. split; [exact doc3_store|]. split; [apply attachedb_ok; [exact doc3_wf|vm_compute; reflexivity]|]. split; [apply attachedb_ok; [exact doc3_wf|vm_compute; reflexivity]|]. repeat split; vm_compute; reflexivity.
Qed.
(** The full claim is false: an attachment of a history entry that referred to the deleted binary stays and yields the data of another one. *)
Theorem c62_history_refuted : exists d k a v d', wf d /\ regular d /\ store no_z d [[65]; [66]] /\ attached d a v k /\ delete_binary lit (Z.of_nat k) d = (Ok tt, d') /\ in_doc d' a /\
  fst (att_binary lit no_z a d) = Ok [65] /\ fst (att_binary lit no_z a d') = Ok [66].
Proof.
  exists edb, 0%nat, 123%nat, 125%nat, (snd (delete_binary lit 0 edb)). split; [exact edb_wf|]. split; [exact edb_regular|]. split; [exact edb_store|]. split; [apply attachedb_ok; [exact edb_wf|vm_compute; reflexivity]|]. split; [vm_compute; reflexivity|].
  split; [apply in_docb_ok; [apply wfb_ok; vm_compute; reflexivity|vm_compute; reflexivity]|]. split; vm_compute; reflexivity.
Qed.
Print Assumptions c62_history_refuted.
(** Nor does it hold for negative ids, which delete from the end: here the last binary. Its attachment stays, and reads another binary. *)
Theorem c62_negative_refuted : exists d a v d', wf d /\ regular d /\ store no_z d [[65]; [66]] /\ attached d a v 1 /\ ~ in_history d a /\ delete_binary lit (-1) d = (Ok tt, d') /\ fst (binaries lit no_z d') = Ok [[65]] /\ in_doc d' a /\
  fst (att_binary lit no_z a d') = Ok [65].
Proof.
  exists edb, 93%nat, 95%nat, (snd (delete_binary lit (-1) edb)). split; [exact edb_wf|]. split; [exact edb_regular|]. split; [exact edb_store|]. split; [apply attachedb_ok; [exact edb_wf|vm_compute; reflexivity]|].
  split; [|split; [vm_compute; reflexivity|split; [vm_compute; reflexivity|split; [apply in_docb_ok; [apply wfb_ok; vm_compute; reflexivity|vm_compute; reflexivity]|vm_compute; reflexivity]]]].
  assert (T : has_elem edb (el edb 93)) by (apply hasb_ok; vm_compute; reflexivity). apply (visible_live edb (el edb 93) edb_wf T). apply visibleb_ok; [exact edb_wf|exact T|vm_compute; reflexivity].
Qed.
Print Assumptions c62_negative_refuted.

(** ** C63: KDBX3 references are the ID of the binary they denote, as long as nothing is deleted. *)
Theorem c63_ids_without_deletes_partial : forall R Zl os, zlib_ok Zl -> forall d l, wf d -> regular d -> store Zl d l -> in_order d -> bops_ok R Zl d os -> forallb no_del os = true -> in_order (after_bops R Zl os d).
Proof. exact bops_order. Qed.
Print Assumptions c63_ids_without_deletes_partial.
Definition add_calls : list bop := [Badd [1; 2] true false; Battach 19 3 (Some $"n"); Badd [] false true].
Example c63_ex : in_order doc3 /\ bops_ok lit no_z doc3 add_calls /\ forallb no_del add_calls = true.
Proof.
  split; [|split; [|reflexivity]].
  - intros r m b q k c _ E1 E2 E3 E4 E5. vm_compute in E1. injection E1 as <-. vm_compute in E2. injection E2 as <-. vm_compute in E3. injection E3 as <-. vm_compute in E4. injection E4 as <-. cbn [r_kids] in E5.
    destruct k as [|[|[|k]]]; [| | |destruct k; discriminate]; cbn in E5; injection E5 as <-; eexists; (split; [vm_compute; reflexivity|vm_compute; now left]).
  - cbn [add_calls bops_ok]. split; [repeat constructor|]. split; [|split; [constructor|exact I]]. split; [apply in_docb_ok; [apply wfb_ok; vm_compute; reflexivity|vm_compute; reflexivity]|]. split; [eexists; split; [vm_compute; reflexivity|vm_compute; reflexivity]|]. exists $"n". split; reflexivity.
Qed.
(** After a deletion it is false: attachment 48 refers to "1", and its data is that of the element whose ID is "2". *)
Theorem c63_after_delete_refuted : exists d d' a v c, wf d /\ regular d /\ store no_z d [[65]; [66]; [67]] /\ in_order d /\ delete_binary lit 0 d = (Ok tt, d') /\ attached d' a v 1 /\
  fst (att_binary lit no_z a d') = Ok [67] /\ attr_at (look (d_forest d')) c $"ID" $"2" /\ bin_data no_z (el d' c) = Ok [67] /\ ~ in_order d'.
Proof.
  exists doc3, (snd (delete_binary lit 0 doc3)), 48%nat, 50%nat, 6%nat. split; [exact doc3_wf|]. split; [exact doc3_regular|]. split; [exact doc3_store|]. split; [exact (proj1 c63_ex)|]. split; [vm_compute; reflexivity|].
  split; [apply attachedb_ok; [apply wfb_ok; vm_compute; reflexivity|vm_compute; reflexivity]|]. split; [vm_compute; reflexivity|]. split; [eexists; split; [vm_compute; reflexivity|vm_compute; now left]|]. split; [vm_compute; reflexivity|].
  intros O. destruct (O 0%nat 1%nat 3%nat (Row $"Binaries" [] None [5; 6]%nat) 0%nat 5%nat) as (q & Eq & Iq); try (vm_compute; reflexivity). vm_compute in Eq. injection Eq as <-. vm_compute in Iq. intuition discriminate.
Qed.
Print Assumptions c63_after_delete_refuted.

(** ** C64: a snapshot contains a copy of each attachment, *)
Theorem c64_snapshot_attachments_partial : forall d t, wf d -> has_elem d t -> in_doc d (eid t) -> etag t = $"Entry" -> at_most_one $"History" t ->
  exists s t' d', save_history (eid t) d = (Ok tt, d') /\ has_elem d' t' /\ eid t' = eid t /\ snapshots t' = snapshots t ++ [s] /\ map erase (kids_of $"Binary" s) = map erase (kids_of $"Binary" t).
Proof.
  intros d t H1 H2 H3 H4 H5. destruct (save_history_claim d t H1 H2 H3 H4 H5) as (s & t' & d' & E & _ & T & S & _ & _ & N & A & _). exists s, t', d'. split; [exact E|]. split; [exact T|]. split; [apply S|]. split; [exact N|now apply archive_binaries].
Qed.
Print Assumptions c64_snapshot_attachments_partial.
(** but the API does not show them: HistoryEntry.attachments is always empty (dot-star matching every text). *)
Theorem c64_attachments_empty : forall R, (forall s, R $".*" false s = Ok true) -> forall d t, wf d -> regular d -> labelled d -> has_elem d t -> in_doc d (eid t) -> past d (eid t) -> entry_attachments R (eid t) d = (Ok [], d).
Proof. exact entry_attachments_past. Qed.
Print Assumptions c64_attachments_empty.
Theorem c64_attachments_refuted : forall R, (forall s, R $".*" false s = Ok true) -> exists d h a, wf d /\ has_elem d (el d h) /\ etag (el d h) = $"Entry" /\ is_kid d h a /\ (exists v n, attached d a v n) /\ fst (entry_attachments R h d) = Ok [].
Proof.
  intros R any. exists edb, 97%nat, 123%nat. split; [exact edb_wf|]. split; [apply hasb_ok; vm_compute; reflexivity|]. split; [vm_compute; reflexivity|]. split; [eexists; split; [vm_compute; reflexivity|vm_compute; tauto]|]. split; [exists 125%nat, 0%nat; apply attachedb_ok; [exact edb_wf|vm_compute; reflexivity]|].
  destruct (hasb_ok edb 97 ltac:(vm_compute; reflexivity)) as [Hb Eb]. pose proof (entry_attachments_past R any edb (el edb 97) edb_wf edb_regular) as X. rewrite Eb in X. rewrite X; [reflexivity| | | |].
  - apply labelledb_ok; [exact edb_wf|vm_compute; reflexivity].
  - exact Hb.
  - apply in_docb_ok; [exact edb_wf|vm_compute; reflexivity].
  - exists 96%nat. split; [eexists; split; [vm_compute; reflexivity|reflexivity]|]. split; [discriminate|]. destruct (hasb_ok edb 96 ltac:(vm_compute; reflexivity)) as [Hc Ec]. pose proof (below_ids (d_forest edb) (el edb 96) 97 (wf_unique edb edb_wf) Hc) as B. rewrite Ec in B. apply B. vm_compute. tauto.
Qed.
Print Assumptions c64_attachments_refuted.
Example c64_ex : sound edb (el edb 67) /\ map eid (kids_of $"Binary" (el edb 67)) = [93%nat].
Proof. split; [exact (proj1 c59_ex)|vm_compute; reflexivity]. Qed.
