(** Only the last assignment counts: vocabulary of C115. *)
From Verif Require Import Base PyStr Xml Tree XPath Uuid Time Db FindSpec Api ApiSpec StructSpec CredSpec IntegritySpec.

(** Assignments to the same property of the same entry or group. *)
Definition same_property (o o' : op) : Prop :=
  match o, o' with
  | Op_prop e p _, Op_prop e' p' _ => e = e' /\ p = p'
  | Op_custom e key _ _, Op_custom e' key' _ _ => e = e' /\ key = key'
  | Op_uuid i _, Op_uuid i' _ | Op_icon i _, Op_icon i' _ | Op_tags i _, Op_tags i' _ | Op_name i _, Op_name i' _ | Op_notes i _, Op_notes i' _ => i = i'
  | Op_time i p _, Op_time i' p' _ => i = i' /\ p = p'
  | Op_expires i _, Op_expires i' _ | Op_autotype_enabled i _, Op_autotype_enabled i' _ | Op_autotype_sequence i _, Op_autotype_sequence i' _ | Op_autotype_window i _, Op_autotype_window i' _ => i = i'
  | _, _ => False
  end.
(** Assignments to the setting [T] of the database. *)
Definition sets (T : str) (o : op) : Prop :=
  match o with Op_meta T' _ => T = T' /\ In T [$"DatabaseName"; $"DatabaseDescription"; $"DefaultUserName"] | Op_days w _ => T = due_tag w | Op_changed _ => T = $"MasterKeyChanged" | _ => False end.
(** Assignments to the file name ([false]) or the number ([true]) of the attachment [a]. *)
Definition relabels (number : bool) (a : nat) (o : op) : Prop :=
  match o, number with Op_att_id a' _, true | Op_att_filename a' _, false => a = a' | _, _ => False end.
