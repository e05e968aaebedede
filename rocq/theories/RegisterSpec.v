(** The properties of entries and groups that are kept in elements of their own, as registers: what reads them and which
    calls assign to them. *)
From Verif Require Import Base PyStr Xml Tree XPath Uuid Time Db FindSpec Api ApiSpec StructSpec CredSpec IntegritySpec.

Inductive place := P_uuid | P_icon | P_tags | P_name | P_notes | P_time (p : timeprop) | P_expires | P_enabled | P_sequence | P_window.
(** What reading a property gives. *)
Definition kind (q : place) : Type :=
  match q with
  | P_uuid => bytes
  | P_tags => list str
  | P_time _ => option dt
  | P_expires | P_enabled => option bool
  | _ => option str
  end.
Definition reading (q : place) (i : nat) : M (kind q) :=
  match q with
  | P_uuid => get_uuid i | P_icon => get_icon i | P_tags => get_tags i | P_name => get_name i | P_notes => get_group_notes i
  | P_time p => get_timeprop p i | P_expires => get_expires i
  | P_enabled => get_autotype_enabled i | P_sequence => get_autotype_sequence i | P_window => get_autotype_window i
  end.
(** The calls that assign to the property [q] of [i]. *)
Definition assigns (q : place) (i : nat) (d : db) (o : op) : Prop :=
  match o with
  | Op_uuid j _ => q = P_uuid /\ j = i
  | Op_icon j _ => q = P_icon /\ j = i
  | Op_tags j _ => q = P_tags /\ j = i
  | Op_name j _ => q = P_name /\ j = i
  | Op_notes j _ => q = P_notes /\ j = i
  | Op_time j p _ => q = P_time p /\ j = i
  | Op_expires j _ => q = P_expires /\ j = i
  | Op_touch j m => (q = P_time T_atime \/ (q = P_time T_mtime /\ m = true)) /\ j = i
  | Op_autotype_enabled j _ => q = P_enabled /\ j = i
  | Op_autotype_sequence j _ => q = P_sequence /\ j = i
  | Op_autotype_window j _ => q = P_window /\ j = i
  | _ => False
  end.
(** The call of a setting of the database names one of the settings. *)
Definition settings (o : op) : Prop :=
  match o with Op_meta tag _ => In tag [$"DatabaseName"; $"DatabaseDescription"; $"DefaultUserName"] | _ => True end.
(** What the properties are assigned, and what is then read: [w] for [v], at the element [t] of the database [d]. *)
Definition given (q : place) : Type :=
  match q with
  | P_uuid => bytes
  | P_tags => list str
  | P_time _ => dt
  | P_expires => bool
  | P_enabled => option bool
  | P_icon | P_name | P_notes => str
  | P_sequence | P_window => option str
  end.
Definition assignment (q : place) (i : nat) : given q -> op :=
  match q with
  | P_uuid => fun v => Op_uuid i v | P_icon => fun v => Op_icon i (Some v) | P_tags => fun v => Op_tags i v | P_name => fun v => Op_name i (Some v) | P_notes => fun v => Op_notes i (Some v)
  | P_time p => fun v => Op_time i p v | P_expires => fun v => Op_expires i v
  | P_enabled => fun v => Op_autotype_enabled i v | P_sequence => fun v => Op_autotype_sequence i v | P_window => fun v => Op_autotype_window i v
  end.
Definition takes (q : place) (d : db) (t : elem) : given q -> kind q -> Prop :=
  match q with
  | P_uuid => fun v w => at_most_one $"UUID" t /\ uuid_ok v /\ w = v
  | P_icon => fun v w => at_most_one $"IconID" t /\ text_ok v = true /\ w = Some v
  | P_tags => fun v w => at_most_one $"Tags" t /\ v <> [[]] /\ Forall tag_ok v /\ w = v
  | P_name => fun v w => at_most_one $"Name" t /\ text_ok v = true /\ w = Some v
  | P_notes => fun v w => at_most_one $"Notes" t /\ text_ok v = true /\ w = Some v
  | P_time p => fun v w => time_slot (time_name p) t <> None /\ exists s x, encode_time (v4 d) v = Ok s /\ decode_time (v4 d) s = Ok x /\ w = Some x
  | P_expires => fun v w => time_slot $"Expires" t <> None /\ w = Some v
  | P_enabled => fun v w => find_2 $"AutoType" $"Enabled" t <> None /\ w = v
  | P_sequence => fun v w => find_2 $"AutoType" $"DefaultSequence" t <> None /\ match v with Some s => text_ok s = true | None => True end /\ w = blank_none v
  | P_window => fun v w => find_3 $"AutoType" $"Association" $"Window" t <> None /\ match v with Some s => text_ok s = true | None => True end /\ w = blank_none v
  end.
