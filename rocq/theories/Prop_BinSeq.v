(** Attachments through sequences of calls (C98). *)
From Verif Require Import Base Base64 PyStr Xml Tree XPath Time Uuid Db FindSpec ApiSpec FindEx Api ApiEx StructSpec StructEx Prim Heap Struct BinSpec Bin BinStore BinEx BinLedger.

(** After any calls each attachment yields its data, unless it or its binary was deleted; then it is not in the document any more, if it was not in a history. *)
Theorem c98_attachments_partial : forall R Zl os, zlib_ok Zl -> forall d l, wf d -> regular d -> store Zl d l -> aops_ok R Zl d os ->
  let d' := after_aops R Zl os d in
  wf d' /\ regular d' /\ store Zl d' (stock l os) /\
  forall a v n x, attached d a v n -> nth_error l n = Some x ->
    match fate a n os with
    | Some m => attached d' a v m /\ att_binary R Zl a d' = (Ok x, d')
    | None => ~ in_history d a -> ~ in_doc d' a
    end.
Proof. exact attachments_run. Qed.
Print Assumptions c98_attachments_partial.
(** The same for data added and attached: it is read from the attachment whatever follows, until one of them is deleted. *)
Theorem c98_attached_data : forall R Zl os, zlib_ok Zl -> forall d l e x c p f, wf d -> regular d -> store Zl d l -> bytes_ok x -> in_doc d e -> is_tag (look (d_forest d)) $"Entry" e -> text_ok f = true ->
  exists d1 d2 a v, add_binary R Zl x c p d = (Ok (Z.of_nat (List.length l)), d1) /\ add_attachment e (Z.of_nat (List.length l)) (Some f) d1 = (Ok a, d2) /\ attached d2 a v (List.length l) /\
    (aops_ok R Zl d2 os -> forall m, fate a (List.length l) os = Some m -> let d' := after_aops R Zl os d2 in in_doc d' a /\ att_binary R Zl a d' = (Ok x, d')).
Proof. exact attached_data. Qed.
Print Assumptions c98_attached_data.
(** Not for attachments in a history: their binary can be deleted, and they yield the data of another one. *)
Theorem c98_history_refuted : exists d a v, wf d /\ regular d /\ store no_z d [[65]; [66]] /\ attached d a v 0 /\ aops_ok lit no_z d [Bins (Bdel 0)] /\ fate a 0 [Bins (Bdel 0)] = None /\
  let d' := after_aops lit no_z [Bins (Bdel 0)] d in in_doc d' a /\ fst (att_binary lit no_z a d') = Ok [66].
Proof.
  exists edb, 123%nat, 125%nat. split; [exact edb_wf|]. split; [exact edb_regular|]. split; [exact edb_store|]. split; [apply attachedb_ok; [exact edb_wf|vm_compute; reflexivity]|]. split; [cbn; auto|]. split; [reflexivity|].
  cbv zeta. split; [apply in_docb_ok; [apply wfb_ok; vm_compute; reflexivity|vm_compute; reflexivity]|vm_compute; reflexivity].
Qed.
Print Assumptions c98_history_refuted.
Definition att_calls : list aop := [Bins (Badd [1; 2] true false); Bins (Bdel 0); Bins (Battach 19 1 (Some $"n")); Detach 78; Detach 78; Bins (Bdel 0); Bins (Bdel 9)].
Example c98_ex : wf doc3 /\ regular doc3 /\ store no_z doc3 [[65]; [66]; [67]] /\ zlib_ok no_z /\ aops_ok lit no_z doc3 att_calls /\
  attached doc3 45 47 0 /\ attached doc3 48 50 2 /\ fate 45 0 att_calls = None /\ fate 48 2 att_calls = Some 0%nat /\ fst (att_binary lit no_z 48 (after_aops lit no_z att_calls doc3)) = Ok [67] /\
  in_doc doc3 19 /\ is_tag (look (d_forest doc3)) $"Entry" 19.
Proof.
  split; [exact doc3_wf|]. split; [exact doc3_regular|]. split; [exact doc3_store|]. split; [exact no_z_ok|]. split.
  - unfold att_calls. cbn [aops_ok bops_ok]. split; [split; [repeat constructor|exact I]|]. split; [split; exact I|]. split.
    + split; [|exact I]. split; [apply in_docb_ok; [apply wfb_ok; vm_compute; reflexivity|vm_compute; reflexivity]|]. split; [eexists; split; [vm_compute; reflexivity|vm_compute; reflexivity]|]. exists $"n". split; reflexivity.
    + split; [left; exists 80%nat, 1%nat; apply attachedb_ok; [apply wfb_ok; vm_compute; reflexivity|vm_compute; reflexivity]|]. split; [|split; [split; exact I|split; [split; exact I|exact I]]].
      right. match goal with |- ~ (exists p, is_kid ?d p 78) => assert (W : wf d) by (apply wfb_ok; vm_compute; reflexivity); intros K; assert (C : exists p, parent_of (d_forest d) 78 = Some p) end.
      { destruct K as (p & r & Er & Ir). apply look_elem in Er; [|apply W]. destruct Er as (t & Ht & _ & <-). exists t. apply parent_of_In; [apply W|]. split; [exact Ht|exact Ir]. }
      destruct C as (p & C). vm_compute in C. discriminate.
  - split; [apply attachedb_ok; [exact doc3_wf|vm_compute; reflexivity]|]. split; [apply attachedb_ok; [exact doc3_wf|vm_compute; reflexivity]|]. split; [reflexivity|]. split; [vm_compute; reflexivity|]. split; [vm_compute; reflexivity|].
    split; [apply in_docb_ok; [exact doc3_wf|vm_compute; reflexivity]|]. eexists; split; [vm_compute; reflexivity|vm_compute; reflexivity].
Qed.
