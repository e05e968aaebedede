(** Histories of calls, and what they may do to the document, on the rows of the store (ApiSpec.v, StructSpec.v). *)
From Verif Require Import Base PyStr Xml Tree XPath Uuid Time Db FindSpec Api ApiSpec StructSpec CredSpec.

(** *** Calls that change a database, with their arguments; elements are named by their numbers. *)
Inductive op :=
| Op_prop (e : nat) (p : strprop) (v : option str) | Op_custom (e : nat) (key : str) (v : option str) (protect : bool) | Op_delete_custom (e : nat) (key : str)
| Op_uuid (i : nat) (u : bytes) | Op_icon (i : nat) (v : option str) | Op_tags (e : nat) (l : list str) | Op_name (g : nat) (v : option str) | Op_notes (g : nat) (v : option str)
| Op_time (i : nat) (p : timeprop) (v : dt) | Op_expires (i : nat) (b : bool) | Op_touch (i : nat) (modify : bool)
| Op_autotype_enabled (e : nat) (v : option bool) | Op_autotype_sequence (e : nat) (v : option str) | Op_autotype_window (e : nat) (v : option str)
| Op_save_history (e : nat) | Op_delete_history (e : nat) (h : option nat)
| Op_attach (e : nat) (id : Z) (filename : option str) | Op_att_id (a : nat) (id : Z) | Op_att_filename (a : nat) (v : option str)
| Op_add_binary (data : bytes) (compressed protected : bool) | Op_delete_binary (id : Z)
| Op_meta (tag : str) (v : option str) | Op_days (w : due) (n : Z) | Op_changed (t : dt)
| Op_add_entry (g : nat) (title username password url notes : option str) (expiry : option dt) (tags : tagsval) (otp icon : option str) (force : bool)
| Op_add_group (g : nat) (name icon notes : option str)
| Op_move (i g : nat) | Op_append (g : nat) (l : list nat) | Op_delete (i : nat) | Op_trash (i : nat) | Op_empty (g : nat) | Op_reindex (e : nat) (z : Z).
Definition quiet {A} (m : M A) : M unit := do _ <- m; ret tt.
Definition run (R : regex) (Zl : zlib) (C : clock) (o : op) : M unit :=
  match o with
  | Op_prop e p v => set_prop R p e v
  | Op_custom e k v b => set_custom_property R e k v b
  | Op_delete_custom e k => delete_custom_property R e k
  | Op_uuid i u => set_uuid i u
  | Op_icon i v => set_icon i v
  | Op_tags e l => set_tags e l
  | Op_name g v => set_name g v
  | Op_notes g v => set_group_notes g v
  | Op_time i p v => set_timeprop p i v
  | Op_expires i b => set_expires i b
  | Op_touch i m => touch C m i
  | Op_autotype_enabled e v => set_autotype_enabled e v
  | Op_autotype_sequence e v => set_autotype_sequence e v
  | Op_autotype_window e v => set_autotype_window e v
  | Op_save_history e => save_history e
  | Op_delete_history e h => delete_history e h
  | Op_attach e id f => quiet (add_attachment e id f)
  | Op_att_id a id => set_att_id a id
  | Op_att_filename a v => set_att_filename a v
  | Op_add_binary data c p => quiet (add_binary R Zl data c p)
  | Op_delete_binary id => delete_binary R id
  | Op_meta tag v => set_meta R tag v
  | Op_days w n => set_due_days R w n
  | Op_changed t => set_credchange_date R t
  | Op_add_entry g t u p url n x tags otp icon f => quiet (add_entry R C g t u p url n x tags otp icon f)
  | Op_add_group g n icon notes => quiet (add_group C (Some g) n icon notes)
  | Op_move i g => move i g
  | Op_append g l => group_append g l
  | Op_delete i => delete i
  | Op_trash i => trash R C i
  | Op_empty g => empty_group g
  | Op_reindex e z => reindex R e z
  end.
(** The state after a call, whether it returned or raised; after a history of calls, each with its own clock. *)
Definition next (R : regex) (Zl : zlib) (c : clock * op) (d : db) : db := snd (run R Zl (fst c) (snd c) d).
Fixpoint later (R : regex) (Zl : zlib) (l : list (clock * op)) (d : db) : db := match l with [] => d | c :: l => later R Zl l (next R Zl c d) end.

(** *** The layout KeePass gives to groups, entries and histories *)
Definition frame (T : str) : Prop := In T [$"KeePassFile"; $"Root"; $"Group"; $"Entry"; $"History"].
Definition fits (P T : str) : Prop :=
  (T = $"Group" -> P = $"Group" \/ P = $"Root") /\ (T = $"Entry" -> P = $"Group" \/ P = $"History") /\ (T = $"History" -> P = $"Entry") /\ (T = $"Root" -> P = $"KeePassFile") /\ T <> $"KeePassFile".
Definition laid (d : db) : Prop := forall p x P T, is_kid d p x -> is_tag (look (d_forest d)) P p -> is_tag (look (d_forest d)) T x -> fits P T.
Definition framed (d : db) (x : nat) : Prop := exists T, frame T /\ is_tag (look (d_forest d)) T x.

(** *** Arguments of the right kind: entries, groups, attachments, keys without quotes *)
Definition an_entry (d : db) (i : nat) : Prop := is_tag (look (d_forest d)) $"Entry" i.
Definition a_group (d : db) (i : nat) : Prop := is_tag (look (d_forest d)) $"Group" i.
Definition an_item (d : db) (i : nat) : Prop := an_entry d i \/ a_group d i.
Definition an_attachment (d : db) (i : nat) : Prop := is_tag (look (d_forest d)) $"Binary" i.
Definition typed (d : db) (o : op) : Prop :=
  match o with
  | Op_custom e k _ _ | Op_delete_custom e k => an_entry d e /\ plain k
  | Op_prop e _ _ | Op_tags e _ | Op_autotype_enabled e _ | Op_autotype_sequence e _ | Op_autotype_window e _ | Op_save_history e | Op_attach e _ _ | Op_reindex e _ => an_entry d e
  | Op_delete_history e None => an_entry d e
  | Op_delete_history e (Some h) => an_entry d e /\ an_entry d h
  | Op_uuid i _ | Op_icon i _ | Op_time i _ _ | Op_expires i _ | Op_touch i _ | Op_trash i => an_item d i
  | Op_delete i => an_item d i \/ an_attachment d i
  | Op_name g _ | Op_notes g _ | Op_add_group g _ _ _ | Op_empty g => a_group d g
  | Op_add_entry g _ _ _ _ _ _ _ _ _ _ => a_group d g
  | Op_att_id a _ | Op_att_filename a _ => an_attachment d a
  | Op_move i g => an_item d i /\ a_group d g
  | Op_append g l => a_group d g /\ Forall (an_item d) l
  | Op_add_binary _ _ _ | Op_delete_binary _ | Op_meta _ _ | Op_days _ _ | Op_changed _ => True
  end.
Fixpoint all_typed (R : regex) (Zl : zlib) (l : list (clock * op)) (d : db) : Prop :=
  match l with [] => True | c :: l => typed d (snd c) /\ all_typed R Zl l (next R Zl c d) end.

(** *** What a call is about *)
(** The elements it takes from their place ... *)
Definition subject (d : db) (o : op) (x : nat) : Prop :=
  match o with
  | Op_move i _ | Op_trash i | Op_delete i => x = i
  | Op_append _ l => In x l
  | Op_empty g => is_kid d g x /\ an_item d x
  | Op_delete_history e None => is_kid d e x /\ is_tag (look (d_forest d)) $"History" x
  | Op_delete_history e (Some h) => x = h
  | _ => False
  end.
(** ... and those it takes out of the document: deleted ones, and those moved into a group that is not in the document. *)
Definition removes (d : db) (o : op) (x : nat) : Prop :=
  match o with
  | Op_trash _ => False
  | Op_move i g => x = i /\ ~ in_doc d g
  | Op_append g l => In x l /\ ~ in_doc d g
  | _ => subject d o x
  end.
(** Somewhere in the history a call was about [x] / removed [x] or something it was in. *)
Fixpoint ever (R : regex) (Zl : zlib) (P : db -> op -> Prop) (l : list (clock * op)) (d : db) : Prop :=
  match l with [] => False | c :: l => P d (snd c) \/ ever R Zl P l (next R Zl c d) end.
Definition removed (x : nat) (d : db) (o : op) : Prop := exists y, removes d o y /\ below (look (d_forest d)) y x.
(** The calls that make new groups and entries. *)
Definition creates (o : op) : Prop :=
  match o with Op_add_entry _ _ _ _ _ _ _ _ _ _ _ | Op_add_group _ _ _ _ | Op_save_history _ | Op_trash _ => True | _ => False end.
(** The document element, the one [Root] in it, the one group in that: the root group. *)
Definition rooted (d : db) (r rt g : nat) : Prop :=
  hd_error (roots (d_forest d)) = Some r /\ is_tag (look (d_forest d)) $"KeePassFile" r /\ kids_tagged (look (d_forest d)) $"Root" r = [rt] /\ kids_tagged (look (d_forest d)) $"Group" rt = [g].
(** A call took [x] or something it is in from its place. *)
Definition disturbed (x : nat) (d : db) (o : op) : Prop := exists y, subject d o y /\ below (look (d_forest d)) y x.
