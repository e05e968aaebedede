(** Scratch entries and groups: vocabulary of C112. *)
From Verif Require Import Base PyStr Xml Tree XPath Uuid Time Db FindSpec Api ApiSpec StructSpec CredSpec IntegritySpec LocalSpec.

(** [m] is a call that puts a new entry or group into the group [g]. *)
Definition puts (R : regex) (C : clock) (g : nat) (m : M nat) : Prop :=
  (exists title username password url notes expiry tags otp icon force, m = add_entry R C g title username password url notes expiry tags otp icon force) \/
  exists name icon notes, m = add_group C (Some g) name icon notes.
(** The new element is put there, the calls of [l] are made (whether they raise or not), and it is deleted. *)
Definition scratch (R : regex) (Zl : zlib) (m : M nat) (l : list (clock * op)) : M unit :=
  do e <- m; do _ <- (fun d => (Ok tt, later R Zl l d)); delete e.
(** Calls on entries, groups and attachments only: neither the binaries nor the settings of the database (the recycle bin is one of them) are written. *)
Definition on_items (o : op) : Prop :=
  match o with Op_add_binary _ _ _ | Op_delete_binary _ | Op_meta _ _ | Op_days _ _ | Op_changed _ | Op_trash _ => False | _ => True end.
(** A database whose document is a KeePassFile, in which groups, entries and histories are where they belong. *)
Definition keepass (d : db) : Prop := wf d /\ laid d /\ exists r, hd_error (roots (d_forest d)) = Some r /\ is_tag (look (d_forest d)) $"KeePassFile" r.
