(** What a call is about, and parts of the document it is not about; on the rows of the store (StructSpec.v). *)
From Verif Require Import Base PyStr Xml Tree XPath Uuid Time Db FindSpec Api ApiSpec StructSpec CredSpec IntegritySpec.

(** Arguments of the right kind (no condition on the keys of custom properties). *)
Definition kinds (d : db) (o : op) : Prop :=
  match o with
  | Op_custom e _ _ _ | Op_delete_custom e _ | Op_prop e _ _ | Op_tags e _ | Op_autotype_enabled e _ | Op_autotype_sequence e _ | Op_autotype_window e _ | Op_save_history e | Op_attach e _ _ | Op_reindex e _ | Op_delete_history e _ => an_entry d e
  | Op_uuid i _ | Op_icon i _ | Op_time i _ _ | Op_expires i _ | Op_touch i _ | Op_trash i => an_item d i
  | Op_delete i => an_item d i \/ an_attachment d i
  | Op_name g _ | Op_notes g _ | Op_add_group g _ _ _ | Op_empty g => a_group d g
  | Op_add_entry g _ _ _ _ _ _ _ _ _ _ => a_group d g
  | Op_att_id a _ | Op_att_filename a _ => an_attachment d a
  | Op_move i g => an_item d i /\ a_group d g
  | Op_append g l => a_group d g /\ Forall (an_item d) l
  | Op_add_binary _ _ _ | Op_delete_binary _ | Op_meta _ _ | Op_days _ _ | Op_changed _ => True
  end.
Fixpoint all_kinds (R : regex) (Zl : zlib) (l : list (clock * op)) (d : db) : Prop :=
  match l with [] => True | c :: l => kinds d (snd c) /\ all_kinds R Zl l (next R Zl c d) end.

(** A part made of entries and groups and whatever was taken with them: every member is an entry, a group, or a child of
    a member.  (Attachments, fields, times and histories are never in such a part without the entry they belong to.) *)
Definition part (d : db) (X : nat -> Prop) : Prop := forall x, X x -> an_item d x \/ exists p, X p /\ is_kid d p x.
(** The elements a call changes something in or directly under: the entry, group or attachment it is called on, the
    places things are taken from and put into. *)
Definition touches (R : regex) (d : db) (o : op) (x : nat) : Prop :=
  match o with
  | Op_prop i _ _ | Op_custom i _ _ _ | Op_delete_custom i _ | Op_uuid i _ | Op_icon i _ | Op_tags i _ | Op_name i _ | Op_notes i _
  | Op_time i _ _ | Op_expires i _ | Op_touch i _ | Op_autotype_enabled i _ | Op_autotype_sequence i _ | Op_autotype_window i _
  | Op_save_history i | Op_delete_history i _ | Op_attach i _ _ | Op_att_id i _ | Op_att_filename i _
  | Op_add_entry i _ _ _ _ _ _ _ _ _ _ | Op_add_group i _ _ _ | Op_empty i => x = i
  | Op_move i g => x = g \/ is_kid d x i
  | Op_append g l => x = g \/ exists i, In i l /\ is_kid d x i
  | Op_delete i | Op_reindex i _ => is_kid d x i
  | Op_trash i => is_kid d x i \/ root_group R d = (Ok (Some x), d) \/ recyclebin_group R d = (Ok (Some x), d)
  | Op_delete_binary _ => an_attachment d x \/ exists a, an_attachment d a /\ is_kid d x a
  | Op_meta tag _ => exists e, meta_elem R tag d = (Ok (Some e), d) /\ eid e = x
  | Op_add_binary _ _ _ | Op_days _ _ | Op_changed _ => False
  end.
(** Some call of the history was about a member of the part. *)
Definition meddled (R : regex) (X : nat -> Prop) (d : db) (o : op) : Prop := exists x, X x /\ touches R d o x.
(** One entry or group with everything in it; [h] is a snapshot of the entry [e]: an entry in its history. *)
Definition within (d : db) (i x : nat) : Prop := below (look (d_forest d)) i x.
Definition snapshot (d : db) (e h : nat) : Prop := an_entry d h /\ exists y, is_kid d y h /\ is_kid d e y /\ is_tag (look (d_forest d)) $"History" y.
(** The calls on an entry itself. *)
Definition about (e : nat) (o : op) : Prop :=
  match o with
  | Op_prop i _ _ | Op_custom i _ _ _ | Op_delete_custom i _ | Op_uuid i _ | Op_icon i _ | Op_tags i _ | Op_time i _ _ | Op_expires i _ | Op_touch i _
  | Op_autotype_enabled i _ | Op_autotype_sequence i _ | Op_autotype_window i _ | Op_save_history i | Op_attach i _ _ => i = e
  | _ => False
  end.
