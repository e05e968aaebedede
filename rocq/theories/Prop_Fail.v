(** C111: calls that raise leave no trace. *)
From Verif Require Import Base Base64 PyStr Xml Tree XPath Time Uuid Db Save FindSpec ApiSpec FindEx Api ApiEx StructSpec StructEx CredSpec IntegritySpec Lib Kdbx Object ObjectSpec FailSpec Fail Struct Struct_add Struct_bin Struct_trash BinSpec BinEx FailBin.

(** If one of the calls of [careful] raises, the document, the binaries and the version are as before it. *)
Theorem c111_no_trace_partial : forall R Zl C o d x d', wf d -> careful R d o -> run R Zl C o d = (Err x, d') -> untouched d d'.
Proof. exact clean_run. Qed.
Print Assumptions c111_no_trace_partial.
(** So that any save afterwards has the outcome, and leaves the files and streams, it would have had without the call. *)
Theorem c111_saved_partial : forall L R Zl C c o x o' k d, o_kdbx o = Some (k, Some d) -> wf d -> careful R d c -> call (run R Zl C c) o = (Err x, o') ->
  forall e w fn tk, fst (fst (save L e w o' fn tk)) = fst (fst (save L e w o fn tk)) /\ snd (save L e w o' fn tk) = snd (save L e w o fn tk).
Proof. exact call_saved. Qed.
Print Assumptions c111_saved_partial.
(** Sending an entry or group to the recycle bin while there is none: if the bin cannot be made or the element not be moved, no bin is left behind. *)
Theorem c111_trash : forall R C d r rt g m e t x d', wf d -> skeleton d r rt g m e -> has_elem d t -> item t -> in_doc d (eid t) -> uuid_ok (uuid1 C) ->
  trash R C (eid t) d = (Err x, d') -> untouched d d'.
Proof. exact trash_no_bin. Qed.
Print Assumptions c111_trash.
(** Storing a binary in KDBX 3, in any document: nothing can raise once it is in. *)
Theorem c111_add_binary : forall R Zl d data compressed protected x d', wf d -> (d_major d < 4)%N -> zlib_ok Zl -> bytes_ok data ->
  add_binary R Zl data compressed protected d = (Err x, d') -> untouched d d'.
Proof. intros R Zl d data c p x d' W V. exact (add_binary3 R Zl d data c p x d' W (proj2 (N.leb_gt _ _) V)). Qed.
Print Assumptions c111_add_binary.
(** The root group; a clock without time zone; a document without Binaries; one with a Binary without ID. *)
Definition naive_clk : clock := MkClock (MkDt 2024 6 1 12 0 0 0 None) (repeat 7 16) (fun _ => 0%Z).
Definition edb3 : db := MkDb 3 1 [] (d_forest edb) (d_next edb).
Definition bare3 : db := snd (lx_remove 1 7 edb3).
Definition odd3 : db := snd (lx_append_new 1 (X $"Binaries" [] None [X $"Binary" [] (Some $"QQ==") []]) edb3).
Example c111_bin_ex : skeleton edb 0 8 9 1 6 /\ item (el edb 20) /\ in_docb edb 20 = true /\ fst (trash lit clk 9 edb) = Err Ex_UnableToSendToRecycleBin /\ (exists x, fst (trash lit naive_clk 20 edb) = Err x) /\
  wf bare3 /\ wf odd3 /\ zlib_ok no_z /\ fst (add_binary lit no_z [65] true false bare3) = Err Ex_Attribute /\ fst (add_binary lit no_z [65] true false odd3) = Err Ex_Key.
Proof.
  split; [apply skeletonb_ok; vm_compute; reflexivity|]. split; [left; vm_compute; reflexivity|]. split; [vm_compute; reflexivity|]. split; [vm_compute; reflexivity|]. split; [eexists; vm_compute; reflexivity|]. split; [apply wfb_ok; vm_compute; reflexivity|]. split; [apply wfb_ok; vm_compute; reflexivity|]. split; [exact no_z_ok|]. split; vm_compute; reflexivity.
Qed.
(** Not so for Group.append with a list: elements before the one that cannot be moved have been moved already. *)
Theorem c111_append_refuted : exists d g l x d', wf d /\ run lit no_z clk (Op_append g l) d = (Err x, d') /\ ~ untouched d d' /\ fst (group_entries 9 d) = Ok [20%nat] /\ fst (group_entries 9 d') = Ok [].
Proof.
  exists edb, 56%nat, [20; 9]%nat, Ex_Value, (snd (run lit no_z clk (Op_append 56 [20; 9]%nat) edb)). split; [exact edb_wf|]. split; [vm_compute; reflexivity|]. split; [|split; vm_compute; reflexivity].
  intros (H & _). apply (f_equal (fun o => match o with Some (X _ _ _ [_; X _ _ _ [X _ _ _ l]]) => List.length l | _ => O end)) in H. vm_compute in H. discriminate.
Qed.
Print Assumptions c111_append_refuted.

(** Nor for delete_binary: an attachment whose number is not a whole number raises when the binary is gone already. *)
Definition fractional : db := db_of (xdoc 9 [xentry 2 $"mail" $"ann" $"s3cret" [xbinary $"a.txt" $"1.5"]]).
Theorem c111_binary_refuted : exists d n x d', wf d /\ run lit no_z clk (Op_delete_binary n) d = (Err x, d') /\ d_bins d' <> d_bins d.
Proof.
  exists fractional, 0%Z, Ex_Value, (snd (run lit no_z clk (Op_delete_binary 0) fractional)). split; [apply wfb_ok; vm_compute; reflexivity|]. split; [vm_compute; reflexivity|]. vm_compute. discriminate.
Qed.
Print Assumptions c111_binary_refuted.

(** Calls of [careful] that raise: an illegal character in a title, a missing file name, a missing group name, the root group moved into its own sub-group, an element that is not there, an illegal window, a snapshot that is not
    there, a field that is not there, a snapshot to be given a place among the entries of a group. *)
Definition failing : list op :=
  [Op_add_entry 56 (Some [1]) (Some $"u") (Some $"p") None None None T_none None None false; Op_attach 20 0%Z None; Op_add_group 56 None None None; Op_move 9 56; Op_delete 4000; Op_autotype_window 20 (Some [0]);
   Op_delete_history 67 (Some 20%nat); Op_delete_custom 20 $"none"; Op_touch 4000 true; Op_reindex 97 0%Z; Op_save_history 4000].
Example c111_ex : wf edb /\ Forall (careful lit edb) failing /\ map (fun o => fst (run lit no_z clk o edb)) failing =
  [Err Ex_Value; Err Ex_Type; Err Ex_Type; Err Ex_Value; Err Ex_Attribute; Err Ex_Value; Err Ex_Value; Err Ex_Attribute; Err Ex_Attribute; Err Ex_Value; Err Ex_Attribute].
Proof. split; [exact edb_wf|]. split; [|vm_compute; reflexivity]. repeat (apply Forall_cons; [try exact I|]); [|constructor]. intros t Ht Et. exfalso. apply edb_wf in Ht. rewrite Et in Ht. apply Nat.ltb_lt in Ht. vm_compute in Ht. discriminate. Qed.
