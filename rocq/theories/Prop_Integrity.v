(** Histories of calls (C71). *)
From Verif Require Import Base Base64 PyStr Xml Tree XPath Time Uuid Db FindSpec ApiSpec FindEx Api ApiEx StructSpec StructEx Struct_hist Prop_Struct BinSpec Bin BinEx CredSpec Integrity_hist IntegritySpec IntegrityEx.

(** ** C71: every history of calls keeps the document well formed, keeps the root group, and loses nothing but what was removed. *)
(** False of the code when a custom property's key contains a double quote: the key is pasted into an XPath, here one that selects the entry's whole history, which is removed. *)
Definition sly_key : str := $"Title""]/../../History/Entry[String/Key/text()=""Title".
Theorem c71_nothing_lost_refuted : exists d e k v h, wf d /\ laid d /\ an_entry d e /\ framed d h /\ in_doc d h /\ history e d = (Ok [h], d) /\
  exists d', set_custom_property lit e k (Some v) false d = (Ok tt, d') /\ history e d' = (Ok [], d') /\ in_docb d' h = false.
Proof.
  exists edb, 67%nat, sly_key, $"v", 97%nat. split; [exact edb_wf|]. split; [apply laidb_ok; [exact edb_wf|vm_compute; reflexivity]|]. split; [apply tagb_is; vm_compute; reflexivity|]. split; [exists $"Entry"; split; [right; right; right; left; reflexivity|apply tagb_is; vm_compute; reflexivity]|].
  split; [apply in_docb_ok; [exact edb_wf|vm_compute; reflexivity]|]. split; [vm_compute; reflexivity|]. exists (snd (set_custom_property lit 67 sly_key (Some $"v") false edb)). split; [vm_compute; reflexivity|]. split; vm_compute; reflexivity.
Qed.
Print Assumptions c71_nothing_lost_refuted.
(** With keys free of double quotes ([typed] also asks that each call is given elements of its kind): every element occurs once, numbers are below the counter, the layout of groups, entries and histories is kept, no element changes its tag. *)
Theorem c71_well_formed_partial : forall R Zl l d, wf d -> laid d -> all_typed R Zl l d ->
  wf (later R Zl l d) /\ laid (later R Zl l d) /\ hd_error (roots (d_forest (later R Zl l d))) = hd_error (roots (d_forest d)) /\ (d_next d <= d_next (later R Zl l d))%nat /\
  forall i T, is_tag (look (d_forest d)) T i -> is_tag (look (d_forest (later R Zl l d))) T i.
Proof. exact later_good. Qed.
Print Assumptions c71_well_formed_partial.
(** A group, entry or history in the document stays in it unless a call removed it or something it was in. *)
Theorem c71_nothing_lost_partial : forall R Zl l d x, wf d -> laid d -> all_typed R Zl l d -> framed d x -> in_doc d x -> in_doc (later R Zl l d) x \/ ever R Zl (removed x) l d.
Proof. exact later_doc. Qed.
Print Assumptions c71_nothing_lost_partial.
(** It stays where it is unless a call was about it. *)
Theorem c71_stays_partial : forall R Zl l d p x T, wf d -> laid d -> all_typed R Zl l d -> is_kid d p x -> is_tag (look (d_forest d)) T x -> frame T -> is_kid (later R Zl l d) p x \/ ever R Zl (fun d o => subject d o x) l d.
Proof. exact later_stay. Qed.
Print Assumptions c71_stays_partial.
(** Nothing removed comes back unless a call was about it or something it is in. *)
Theorem c71_nothing_returns_partial : forall R Zl l d x, wf d -> laid d -> all_typed R Zl l d -> framed d x -> in_doc (later R Zl l d) x -> in_doc d x \/ ever R Zl (disturbed x) l d.
Proof. exact later_back. Qed.
Print Assumptions c71_nothing_returns_partial.
(** Groups, entries and histories appear only by the calls that make them, as new elements. *)
Theorem c71_nothing_appears_partial : forall R Zl l d x, wf d -> laid d -> all_typed R Zl l d -> framed (later R Zl l d) x -> framed d x \/ ((d_next d <= x)%nat /\ exists c, In c l /\ creates (snd c)).
Proof. exact later_made. Qed.
Print Assumptions c71_nothing_appears_partial.
(** The root group is the one group in the one Root, also after moving and trashing it or its members, unless it was deleted (or moved into a deleted group). *)
Theorem c71_root_group_partial : forall R Zl l d r rt g, wf d -> laid d -> all_typed R Zl l d -> rooted d r rt g -> ~ ever R Zl (removed g) l d ->
  rooted (later R Zl l d) r rt g /\ root_group R (later R Zl l d) = (Ok (Some g), later R Zl l d).
Proof. exact root_stays. Qed.
Print Assumptions c71_root_group_partial.
Example c71_ex : wf edb /\ laid edb /\ all_typed lit no_z calls edb /\ rooted edb 0 8 9 /\ ~ ever lit no_z (removed 9) calls edb /\ ~ ever lit no_z (removed 97) calls edb /\ framed edb 97 /\ in_doc edb 97 /\
  in_docb (later lit no_z calls edb) 97 = true /\ in_docb (later lit no_z calls edb) 126 = false /\ in_docb (later lit no_z calls edb) 206 = true /\ fst (run lit no_z clk (Op_move 9 56) edb) = Err Ex_Value.
Proof.
  split; [exact edb_wf|]. split; [apply laidb_ok; [exact edb_wf|vm_compute; reflexivity]|]. split; [apply all_typedb_ok; vm_compute; reflexivity|].
  split. { split; [vm_compute; reflexivity|]. split; [apply tagb_is; vm_compute; reflexivity|]. split; vm_compute; reflexivity. }
  split; [apply neverb_ok; vm_compute; reflexivity|]. split; [apply neverb_ok; vm_compute; reflexivity|]. split; [exists $"Entry"; split; [right; right; right; left; reflexivity|apply tagb_is; vm_compute; reflexivity]|].
  split; [apply in_docb_ok; [exact edb_wf|vm_compute; reflexivity]|]. repeat split; vm_compute; reflexivity.
Qed.
