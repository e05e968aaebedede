(** Assigning the same value again: vocabulary of C114. *)
From Verif Require Import Base PyStr Xml Tree XPath Uuid Time Db FindSpec Api ApiSpec StructSpec IntegritySpec.

(** The new value of a password or TOTP property is empty although there was one, which was not marked as protected: left out. *)
Definition settled (p : strprop) (v : str) (t : elem) : Prop :=
  secret p = false \/ v <> [] \/ filled (field_text (prop_name p) t) = false \/ old_flag (prop_name p) t = Some $"True".
(** Assignments to properties of an entry or group whose elements are laid out as KeePass does. *)
Definition assigns (d : db) (o : op) : Prop :=
  let item i (P : elem -> Prop) := exists t, has_elem d t /\ eid t = i /\ P t in
  match o with
  | Op_prop e p v => item e (fun t => tidy t /\ forall s, v = Some s -> settled p s t)
  | Op_custom e key v _ => plain key /\ item e tidy
  | Op_uuid i _ => item i (at_most_one $"UUID")
  | Op_icon i _ => item i (at_most_one $"IconID")
  | Op_tags e _ => item e (at_most_one $"Tags")
  | Op_name g _ => item g (at_most_one $"Name")
  | Op_notes g _ => item g (at_most_one $"Notes")
  | Op_time i _ _ | Op_expires i _ | Op_autotype_enabled i _ | Op_autotype_sequence i _ | Op_autotype_window i _ => item i (fun _ => True)
  | _ => False
  end.
