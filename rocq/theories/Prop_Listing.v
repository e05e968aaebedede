(** Listings, attachment properties, new groups, Group.append, histories, printing (C83-C88). *)
From Verif Require Import Base Base64 PyStr Xml Tree XPath Time Uuid Db FindSpec ApiSpec FindEx Api ApiEx Prim Heap StructSpec StructEx Struct Struct_bin PathSpec Path PathEx BinSpec Bin BinEx Listing ListingEx Relabel Shown Prop_Path.

(** ** C83: entries, groups and attachments list everything in the document outside histories, in document order, and nothing else. *)
Theorem c83_entries : forall R d doc F, wf d -> d_forest d = doc :: F ->
  exists l, entries R d = (Ok (map eid l), d) /\ picks (fun t => etag t = $"Entry" /\ ~ past d (eid t)) (everything doc) l.
Proof. exact entries_all. Qed.
Print Assumptions c83_entries.
Theorem c83_groups : forall R d doc F, wf d -> d_forest d = doc :: F ->
  exists l, groups R d = (Ok (map eid l), d) /\ picks (fun t => etag t = $"Group" /\ ~ past d (eid t)) (everything doc) l.
Proof. exact groups_all. Qed.
Print Assumptions c83_groups.
(** The hypothesis on the regular expressions is that dot-star matches every text. *)
Theorem c83_attachments : forall R, (forall s, R $".*" false s = Ok true) -> forall d doc F, wf d -> regular d -> labelled d -> d_forest d = doc :: F ->
  exists l, attachments R d = (Ok (map eid l), d) /\ picks (live_attachment d) (everything doc) l.
Proof. exact attachments_all. Qed.
Print Assumptions c83_attachments.
(** Of one entry: its attachments, each of which has this entry as its entry. *)
Theorem c83_entry_attachments : forall R, (forall s, R $".*" false s = Ok true) -> forall d t, wf d -> regular d -> labelled d -> has_elem d t -> in_doc d (eid t) -> etag t = $"Entry" -> ~ past d (eid t) ->
  exists l, entry_attachments R (eid t) d = (Ok (map eid l), d) /\ picks (fun a => exists v n, attached d (eid a) v n) (ekids t) l /\ forall a, In a l -> att_entry (eid a) d = (Ok (eid t), d).
Proof. exact entry_attachments_all. Qed.
Print Assumptions c83_entry_attachments.
Example c83_ex : wf edb /\ d_forest edb = [el edb 0] /\ regular edb /\ labelled edb /\ (forall s, wild $".*" false s = Ok true) /\ fst (entries wild edb) = Ok [20; 67; 126]%nat /\ fst (groups wild edb) = Ok [9; 56]%nat /\
  fst (attachments wild edb) = Ok [53; 93]%nat /\ fst (entry_attachments wild 67 edb) = Ok [93]%nat /\ fst (att_entry 93 edb) = Ok 67%nat /\ etag (el edb 97) = $"Entry" /\ etag (el edb 123) = $"Binary".
Proof. split; [exact edb_wf|]. split; [vm_compute; reflexivity|]. split; [exact edb_regular|]. split; [apply labelledb_ok; [exact edb_wf|vm_compute; reflexivity]|]. split; [intros s; reflexivity|]. repeat split; vm_compute; reflexivity. Qed.

(** ** C84: the file name and the number of an attachment read back; nothing else changes. *)
Theorem c84_filename : forall R Zl d t k v x l n, wf d -> has_elem d t -> find1 $"Key" t = Some k -> match x with Some s => text_ok s = true | None => True end -> regular d -> attached d (eid t) v n -> store Zl d l ->
  exists d', set_att_filename (eid t) x d = (Ok tt, d') /\ wf d' /\ only_texts [k] d d' /\ att_filename (eid t) d' = (Ok x, d') /\
    attached d' (eid t) v n /\ (forall j, in_doc d' j <-> in_doc d j) /\ att_binary R Zl (eid t) d' = (fst (att_binary R Zl (eid t) d), d').
Proof. exact filename_back. Qed.
Print Assumptions c84_filename.
Theorem c84_filename_refused : forall d t k s, wf d -> has_elem d t -> find1 $"Key" t = Some k -> text_ok s = false -> set_att_filename (eid t) (Some s) d = (Err Ex_Value, d).
Proof. exact filename_illegal. Qed.
Print Assumptions c84_filename_refused.
(** Assigning the number makes the attachment show that binary (or raise if there is none); the data of every other attachment stays. *)
Theorem c84_number : forall R Zl d a v n z l, wf d -> regular d -> attached d a v n -> store Zl d l ->
  exists d', set_att_id a z d = (Ok tt, d') /\ wf d' /\ relabelled d d' v $"Ref" (str_of_Z z) /\ att_id a d' = (Ok z, d') /\ (forall j, in_doc d' j <-> in_doc d j) /\ store Zl d' l /\
    (forall m, z = Z.of_nat m -> attached d' a v m /\ att_binary R Zl a d' = (match nth_error l m with Some x => Ok x | None => Err Ex_Binary end, d')) /\
    (forall b w m, attached d b w m -> b <> a -> att_binary R Zl b d' = (fst (att_binary R Zl b d), d')).
Proof. exact number_back. Qed.
Print Assumptions c84_number.
Example c84_ex : wf doc3 /\ regular doc3 /\ store no_z doc3 [[65]; [66]; [67]] /\ attached doc3 48 50 2 /\ find1 $"Key" (el doc3 48) = Some (el doc3 49) /\ fst (att_binary lit no_z 48 doc3) = Ok [67] /\
  fst ((do _ <- set_att_filename 48 (Some $"z"); att_filename 48) doc3) = Ok (Some $"z") /\ fst ((do _ <- set_att_filename 48 (Some $"z"); att_binary lit no_z 48) doc3) = Ok [67] /\
  fst ((do _ <- set_att_id 48 0; att_binary lit no_z 48) doc3) = Ok [65] /\ fst ((do _ <- set_att_id 48 0; att_binary lit no_z 78) doc3) = Ok [67] /\ fst ((do _ <- set_att_id 48 3; att_binary lit no_z 48) doc3) = Err Ex_Binary.
Proof. split; [exact doc3_wf|]. split; [exact doc3_regular|]. split; [exact doc3_store|]. split; [apply attachedb_ok; [exact doc3_wf|vm_compute; reflexivity]|]. repeat split; vm_compute; reflexivity. Qed.

(** ** C85: add_group adds one group at the end of the destination, with the given name, icon and notes, or raises and changes nothing. *)
Theorem c85_add_group : forall C d g name icon notes cur x, wf d -> has_elem d g -> in_doc d (eid g) -> uuid_ok (uuid1 C) -> some_text name -> opt_text icon -> opt_text notes -> encode_time (v4 d) (now C) = Ok cur -> decode_time (v4 d) cur = Ok x ->
  exists e t d', add_group C (Some (eid g)) name icon notes d = (Ok e, d') /\ wf d' /\ added d d' (eid g) e /\ has_elem d' t /\ eid t = e /\ etag t = $"Group" /\ (forall j, in_doc d' j <-> in_doc d j \/ In j (ids t)) /\
    new_group_reads C d' e name icon notes x /\
    (forall l, fst (group_subgroups (eid g) d) = Ok l -> group_subgroups (eid g) d' = (Ok (l ++ [e]), d')) /\ group_entries (eid g) d' = (fst (group_entries (eid g) d), d').
Proof. exact add_group_reads. Qed.
Print Assumptions c85_add_group.
Theorem c85_raise_changes_nothing : forall C d p name icon notes x d', wf d -> in_doc d p -> add_group C (Some p) name icon notes d = (Err x, d') -> d' = d.
Proof. exact Struct_add.add_group_raises. Qed.
Print Assumptions c85_raise_changes_nothing.
Definition new_sub : M nat := add_group clk (Some 9%nat) (Some $"new") (Some $"48") (Some $"hello").
Example c85_ex : wf edb /\ has_elem edb (el edb 9) /\ in_doc edb 9 /\ uuid_ok (uuid1 clk) /\ fst (new_sub edb) = Ok 152%nat /\ fst ((do g <- new_sub; get_name g) edb) = Ok (Some $"new") /\ fst ((do g <- new_sub; get_group_notes g) edb) = Ok (Some $"hello") /\
  fst ((do g <- new_sub; get_icon g) edb) = Ok (Some $"48") /\ fst ((do g <- new_sub; group_subgroups 9) edb) = Ok [56; 152]%nat /\ fst (add_group clk (Some 9%nat) (Some [0]) None None edb) = Err Ex_Value /\ fst (add_group clk (Some 9%nat) None None None edb) = Err Ex_Type.
Proof. split; [exact edb_wf|]. split; [apply hasb_ok; vm_compute; reflexivity|]. split; [apply in_docb_ok; [exact edb_wf|vm_compute; reflexivity]|]. split; [split; [repeat constructor|reflexivity]|]. repeat split; vm_compute; reflexivity. Qed.

(** ** C86: "Add copy of an entry to this group" (group.py:91) is false of the code: Group.append moves the entries. *)
Theorem c86_append_copies_refuted : exists d g e, wf d /\ in_doc d g /\ in_doc d e /\ fst (group_entries 56 d) = Ok [e; 126%nat] /\
  let d' := snd (group_append g [e] d) in group_append g [e] d = (Ok tt, d') /\ fst (group_entries 56 d') = Ok [126%nat] /\ fst (group_entries g d') = Ok [20%nat; e].
Proof. exists edb, 9%nat, 67%nat. split; [exact edb_wf|]. split; [apply in_docb_ok; [exact edb_wf|vm_compute; reflexivity]|]. split; [apply in_docb_ok; [exact edb_wf|vm_compute; reflexivity]|]. repeat split; vm_compute; reflexivity. Qed.
Print Assumptions c86_append_copies_refuted.
(** What it does with a list: all are moved, in the order of the list, to the end; every other element keeps its place and content. *)
Theorem c86_append_moves_partial : forall g l d, wf d -> in_doc d g -> NoDup l -> (forall i, In i l -> in_doc d i /\ hd_error (roots (d_forest d)) <> Some i /\ ~ below (look (d_forest d)) i g) ->
  exists d', group_append g l d = (Ok tt, d') /\ wf d' /\ gathered d d' g l /\ forall j, in_doc d' j <-> in_doc d j.
Proof. exact append_gathers. Qed.
Print Assumptions c86_append_moves_partial.
Lemma belowb_no d t g : wf d -> has_elem d t -> existsb (Nat.eqb g) (ids t) = false -> ~ below (look (d_forest d)) (eid t) g.
Proof. intros W Ht E B. apply (below_ids (d_forest d) t g (wf_unique d W) Ht) in B. assert (X : existsb (Nat.eqb g) (ids t) = true) by (apply existsb_exists; exists g; split; [exact B|apply Nat.eqb_refl]). congruence. Qed.
Example c86_ex : wf edb /\ in_doc edb 9 /\ NoDup [126; 67]%nat /\ (forall i, In i [126; 67]%nat -> in_doc edb i /\ hd_error (roots (d_forest edb)) <> Some i /\ ~ below (look (d_forest edb)) i 9) /\ fst ((do _ <- group_append 9 [126; 67]%nat; group_entries 9) edb) = Ok [20; 126; 67]%nat.
Proof.
  split; [exact edb_wf|]. split; [apply in_docb_ok; [exact edb_wf|vm_compute; reflexivity]|]. split; [repeat constructor; cbn; intuition discriminate|]. split; [|vm_compute; reflexivity].
  intros i [<-|[<-|[]]]; (split; [apply in_docb_ok; [exact edb_wf|vm_compute; reflexivity]|]; split; [vm_compute; discriminate|]).
  - destruct (hasb_ok edb 126 ltac:(vm_compute; reflexivity)) as [Hb Eb]. rewrite <- Eb. apply belowb_no; [exact edb_wf|exact Hb|vm_compute; reflexivity].
  - destruct (hasb_ok edb 67 ltac:(vm_compute; reflexivity)) as [Hb Eb]. rewrite <- Eb. apply belowb_no; [exact edb_wf|exact Hb|vm_compute; reflexivity].
Qed.

(** ** C87: the history of an entry is what its History element contains, in order; these are the history entries; the listing of all entries has none of them. *)
Theorem c87_history : forall d t h, wf d -> has_elem d t -> kids_tagged (look (d_forest d)) $"History" (eid t) = [h] -> history (eid t) d = (Ok (kids_tagged (look (d_forest d)) $"Entry" h), d).
Proof. exact history_lists. Qed.
Print Assumptions c87_history.
Theorem c87_no_history : forall d t, wf d -> has_elem d t -> kids_tagged (look (d_forest d)) $"History" (eid t) = [] -> history (eid t) d = (Ok [], d).
Proof. exact history_empty. Qed.
Print Assumptions c87_no_history.
Theorem c87_marked : forall d t h, wf d -> has_elem d t -> kids_tagged (look (d_forest d)) $"History" (eid t) = [h] -> forall i, In i (kids_tagged (look (d_forest d)) $"Entry" h) -> is_a_history_entry i d = (Ok true, d).
Proof. exact snapshots_marked. Qed.
Print Assumptions c87_marked.
Theorem c87_history_entry : forall d i, wf d -> exists b, is_a_history_entry i d = (Ok b, d) /\ (b = true <-> exists h, is_kid d h i /\ is_tag (look (d_forest d)) $"History" h).
Proof. exact history_entry_run. Qed.
Print Assumptions c87_history_entry.
Theorem c87_never_listed : forall R d doc F, wf d -> d_forest d = doc :: F -> exists l, entries R d = (Ok l, d) /\ forall i, In i l -> is_a_history_entry i d = (Ok false, d).
Proof. exact listed_live. Qed.
Print Assumptions c87_never_listed.
Example c87_ex : wf edb /\ has_elem edb (el edb 67) /\ kids_tagged (look (d_forest edb)) $"History" 67 = [96%nat] /\ kids_tagged (look (d_forest edb)) $"Entry" 96 = [97%nat] /\ fst (history 67 edb) = Ok [97%nat] /\ fst (is_a_history_entry 97 edb) = Ok true /\ fst (is_a_history_entry 67 edb) = Ok false /\ fst (history 20 edb) = Ok [].
Proof. split; [exact edb_wf|]. split; [apply hasb_ok; vm_compute; reflexivity|]. repeat split; vm_compute; reflexivity. Qed.

(** ** C88: printing an entry or group shows its path and user name and nothing else, and changes nothing. *)
Theorem c88_entry_partial : forall R d doc F gs title t, wf d -> one_name d -> d_forest d = doc :: F -> In t (everything doc) -> entry_at doc gs title t -> tidy t ->
  exists s, entry_str R (eid t) d = (Ok ($"Entry: """ ++ s ++ $" (" ++ match field_text $"UserName" t with Some u => u | None => $"None" end ++ $")"""), d) /\ slashed (gs ++ [title]) s.
Proof. exact entry_shown. Qed.
Print Assumptions c88_entry_partial.
Theorem c88_alike : forall R d d2 doc F doc2 F2 gs title t t2, wf d -> wf d2 -> one_name d -> one_name d2 -> d_forest d = doc :: F -> d_forest d2 = doc2 :: F2 -> In t (everything doc) -> In t2 (everything doc2) ->
  entry_at doc gs title t -> entry_at doc2 gs title t2 -> tidy t -> tidy t2 -> field_text $"UserName" t2 = field_text $"UserName" t -> fst (entry_str R (eid t2) d2) = fst (entry_str R (eid t) d).
Proof. exact shown_alike. Qed.
Print Assumptions c88_alike.
Theorem c88_group_partial : forall R d doc F ns g, wf d -> one_name d -> d_forest d = doc :: F -> group_at doc ns g -> exists s, group_str R (eid g) d = (Ok ($"Group: """ ++ s ++ $""""), d) /\ slashed ns s.
Proof. exact group_shown. Qed.
Print Assumptions c88_group_partial.
Theorem c88_attachment : forall d t v n k, wf d -> regular d -> has_elem d t -> attached d (eid t) v n -> find1 $"Key" t = Some k ->
  att_repr (eid t) d = (Ok ($"Attachment: '" ++ match etext k with Some s => s | None => $"None" end ++ $"' -> " ++ number n), d).
Proof. exact att_shown. Qed.
Print Assumptions c88_attachment.
Theorem c88_changes_nothing : forall R i d, snd (entry_str R i d) = d /\ snd (history_entry_str R i d) = d /\ snd (group_str R i d) = d /\ snd (att_repr i d) = d.
Proof. exact show_reads. Qed.
Print Assumptions c88_changes_nothing.
(** That printing never raises is false of the code: an entry or group that has just been deleted cannot be printed. *)
Theorem c88_always_prints_refuted : exists d e g x y, wf d /\ in_doc d e /\ in_doc d g /\ fst (entry_str lit e (snd (delete e d))) = Err x /\ fst (group_str lit g (snd (delete g d))) = Err y.
Proof. exists edb, 67%nat, 56%nat, Ex_Type, Ex_Attribute. split; [exact edb_wf|]. split; [apply in_docb_ok; [exact edb_wf|vm_compute; reflexivity]|]. split; [apply in_docb_ok; [exact edb_wf|vm_compute; reflexivity]|]. split; vm_compute; reflexivity. Qed.
Print Assumptions c88_always_prints_refuted.
Example c88_ex : wf edb /\ one_name edb /\ In bank (everything (el edb 0)) /\ entry_at (el edb 0) [$"sub"] $"bank" bank /\ tidy bank /\ fst (entry_str lit 67 edb) = Ok $"Entry: ""sub/bank (bob)""" /\ fst (history_entry_str lit 97 edb) = Ok $"HistoryEntry: Entry: ""sub/bank (bob)""" /\
  fst (group_str lit 56 edb) = Ok $"Group: ""sub""" /\ fst (att_repr 48 doc3) = Ok $"Attachment: 'c.txt' -> 2".
Proof. destruct c41_path_ex as (A & B & _ & D & E & G & _). repeat (split; [assumption|]). repeat split; vm_compute; reflexivity. Qed.
