(** Calls that raise: vocabulary of C111. *)
From Verif Require Import Base PyStr Xml Tree XPath Uuid Time Db FindSpec Api ApiSpec StructSpec CredSpec IntegritySpec Lib Kdbx Object ObjectSpec.

(** What is in the file when saved: the document, the binaries, the version. *)
Definition untouched (d d' : db) : Prop := document d' = document d /\ d_bins d' = d_bins d /\ d_major d' = d_major d /\ d_minor d' = d_minor d.

(** Calls that leave no trace when they raise.  Not among them: the assignments that take the old element away before they
    make the new one (C45), Group.append, delete_binary, empty_group and save_history outside the document; add_binary in KDBX 3 and
    the recycle bin calls while there is no bin have theorems of their own (c111_add_binary, c111_trash). *)
Definition careful (R : regex) (d : db) (o : op) : Prop :=
  match o with
  | Op_delete_custom _ _ | Op_time _ _ _ | Op_expires _ _ | Op_touch _ _ | Op_autotype_enabled _ _ | Op_autotype_sequence _ _ | Op_autotype_window _ _ | Op_delete_history _ _
  | Op_attach _ _ _ | Op_att_id _ _ | Op_att_filename _ _ | Op_meta _ _ | Op_days _ _ | Op_changed _ | Op_add_entry _ _ _ _ _ _ _ _ _ _ _ | Op_add_group _ _ _ _ | Op_move _ _ | Op_delete _ | Op_reindex _ _ => True
  | Op_add_binary _ _ _ => v4 d = true
  | Op_empty g => in_doc d g
  | Op_save_history i => forall t, has_elem d t -> eid t = i -> in_doc d i /\ etag t = $"Entry" /\ at_most_one $"History" t
  | Op_trash _ => fst (recyclebin_group R d) <> Ok None
  | _ => False
  end.
