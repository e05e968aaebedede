(** Assignments in either order: vocabulary of C116. *)
From Verif Require Import Base PyStr Xml Tree XPath Uuid Time Db FindSpec Api ApiSpec StructSpec CredSpec IntegritySpec.

(** The element an assignment writes in place: a time, the expiry flag, an auto-type setting, the file name or number of an
    attachment, a setting of the database (while there is one Meta element). *)
Definition spot (d : db) (o : op) : option nat :=
  let L := look (d_forest d) in
  let time i T := match hd_error (kids_tagged L $"Times" i) with Some j => hd_error (kids_tagged L T j) | None => None end in
  let auto i := kids_tagged L $"AutoType" i in
  let meta T := match hd_error (roots (d_forest d)) with
                | Some r => if tagb L $"KeePassFile" r then match kids_tagged L $"Meta" r with [m] => hd_error (kids_tagged L T m) | _ => None end else None
                | None => None end in
  match o with
  | Op_time i p _ => time i (time_name p)
  | Op_expires i _ => time i $"Expires"
  | Op_autotype_enabled i _ => hd_error (flat_map (kids_tagged L $"Enabled") (auto i))
  | Op_autotype_sequence i _ => hd_error (flat_map (kids_tagged L $"DefaultSequence") (auto i))
  | Op_autotype_window i _ => hd_error (flat_map (kids_tagged L $"Window") (flat_map (kids_tagged L $"Association") (auto i)))
  | Op_att_id a _ => hd_error (kids_tagged L $"Value" a)
  | Op_att_filename a _ => hd_error (kids_tagged L $"Key" a)
  | Op_meta T _ => if existsb (str_eqb T) [$"DatabaseName"; $"DatabaseDescription"; $"DefaultUserName"] then meta T else None
  | Op_days w _ => meta (due_tag w)
  | Op_changed _ => meta $"MasterKeyChanged"
  | _ => None
  end.
(** Assignments to properties of the entry, group or attachment [i], whose element [t] is laid out as KeePass does. *)
Definition formed (o : op) (i : nat) (t : elem) : Prop :=
  match o with
  | Op_prop e _ _ => e = i /\ tidy t
  | Op_custom e key _ _ => e = i /\ plain key /\ tidy t
  | Op_uuid e _ => e = i /\ at_most_one $"UUID" t
  | Op_icon e _ => e = i /\ at_most_one $"IconID" t
  | Op_tags e _ => e = i /\ at_most_one $"Tags" t
  | Op_name e _ => e = i /\ at_most_one $"Name" t
  | Op_notes e _ => e = i /\ at_most_one $"Notes" t
  | Op_time e _ _ | Op_expires e _ | Op_autotype_enabled e _ | Op_autotype_sequence e _ | Op_autotype_window e _ => e = i
  | Op_att_id a _ | Op_att_filename a _ => a = i
  | _ => False
  end.
(** Nothing is in both. *)
Definition apart (d : db) (i j : nat) : Prop := forall x, ~ (below (look (d_forest d)) i x /\ below (look (d_forest d)) j x).
(** Assignments to the setting [T] of the database; [m] is its Meta element, [k] the first element [T] in it. *)
Definition setting_in (d : db) (T : str) (m k : nat) : Prop := exists r,
  hd_error (roots (d_forest d)) = Some r /\ is_tag (look (d_forest d)) $"KeePassFile" r /\ kids_tagged (look (d_forest d)) $"Meta" r = [m] /\ hd_error (kids_tagged (look (d_forest d)) T m) = Some k.
(** Assignments that take an element out and put one at the end; the tag of it. *)
Definition stored_as (o : op) : option str :=
  match o with
  | Op_prop _ _ _ | Op_custom _ _ _ _ => Some $"String"
  | Op_uuid _ _ => Some $"UUID" | Op_icon _ _ => Some $"IconID" | Op_tags _ _ => Some $"Tags" | Op_name _ _ => Some $"Name" | Op_notes _ _ => Some $"Notes"
  | _ => None
  end.
(** [k] is neither [i] nor in a child [T] of it. *)
Definition aside (d : db) (T : str) (i k : nat) : Prop := k <> i /\ forall c, In c (kids_tagged (look (d_forest d)) T i) -> ~ below (look (d_forest d)) c k.
