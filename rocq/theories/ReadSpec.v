(** The calls that only ask, and mixed sequences of calls: vocabulary of C110. *)
From Verif Require Import Base PyStr Xml Tree XPath Uuid Time Db FindSpec Api ApiSpec StructSpec CredSpec IntegritySpec Shown UserXPath ElementPath Deprecated Lib Object.

(** *** Properties and methods of the API that return something about the database, with their arguments *)
Inductive reading :=
(* elements: baseelement.py *)
| Ask_uuid (i : nat) | Ask_icon (i : nat) | Ask_time (p : timeprop) (i : nat) | Ask_expires (i : nat) | Ask_expired (i : nat) | Ask_group (i : nat) | Ask_same (i j : nat) | Ask_location (i : nat)
(* entries: entry.py *)
| Ask_prop (p : strprop) (e : nat) | Ask_tags (e : nat) | Ask_history (e : nat) | Ask_autotype_enabled (e : nat) | Ask_autotype_sequence (e : nat) | Ask_autotype_window (e : nat)
| Ask_is_history (e : nat) | Ask_entry_path (e : nat) | Ask_index (e : nat) | Ask_attachments_of (e : nat) | Ask_custom (e : nat) (key : str) | Ask_custom_protected (e : nat) (key : str) | Ask_customs (e : nat)
| Ask_ref (e : nat) (attribute : str) | Ask_entry_str (e : nat) | Ask_history_str (e : nat)
(* groups: group.py *)
| Ask_name (g : nat) | Ask_notes (g : nat) | Ask_entries_of (g : nat) | Ask_subgroups_of (g : nat) | Ask_is_root (g : nat) | Ask_group_path (g : nat) | Ask_group_str (g : nat)
(* attachments: attachment.py *)
| Ask_att_id (a : nat) | Ask_filename (a : nat) | Ask_att_entry (a : nat) | Ask_data (a : nat) | Ask_att_str (a : nat)
(* the database: pykeepass.py *)
| Ask_root | Ask_bin | Ask_groups | Ask_entries | Ask_attachments | Ask_binaries | Ask_meta (tag : str) | Ask_days (w : due) | Ask_changed | Ask_due (w : due)
| Ask_find_groups (recursive : bool) (q : query) | Ask_find_entries (recursive : bool) (q : query) | Ask_find_attachments (recursive : bool) (q : query)
| Ask_xpath (s : str) (tree : option nat) (first casting : bool) | Ask_deref (limit : nat) (value : option str).

(** Asking; the answer is given away.  [so]: the order of a Python set of references. *)
Definition ask (R : regex) (Zl : zlib) (so : list fref -> list fref) (C : clock) (r : reading) : M unit :=
  match r with
  | Ask_uuid i => quiet (get_uuid i)
  | Ask_icon i => quiet (get_icon i)
  | Ask_time p i => quiet (get_timeprop p i)
  | Ask_expires i => quiet (get_expires i)
  | Ask_expired i => quiet (expired C i)
  | Ask_group i => quiet (group_of R i)
  | Ask_same i j => quiet (same i j)
  | Ask_location i => quiet (element_path i)
  | Ask_prop p e => quiet (get_prop R p e)
  | Ask_tags e => quiet (get_tags e)
  | Ask_history e => quiet (history e)
  | Ask_autotype_enabled e => quiet (get_autotype_enabled e)
  | Ask_autotype_sequence e => quiet (get_autotype_sequence e)
  | Ask_autotype_window e => quiet (get_autotype_window e)
  | Ask_is_history e => quiet (is_a_history_entry e)
  | Ask_entry_path e => quiet (entry_path R e)
  | Ask_index e => quiet (index R e)
  | Ask_attachments_of e => quiet (entry_attachments R e)
  | Ask_custom e key => quiet (get_custom_property R e key)
  | Ask_custom_protected e key => quiet (is_custom_property_protected R e key)
  | Ask_customs e => quiet (custom_properties R e)
  | Ask_ref e a => quiet (make_ref e a)
  | Ask_entry_str e => quiet (entry_str R e)
  | Ask_history_str e => quiet (history_entry_str R e)
  | Ask_name g => quiet (get_name g)
  | Ask_notes g => quiet (get_group_notes g)
  | Ask_entries_of g => quiet (group_entries g)
  | Ask_subgroups_of g => quiet (group_subgroups g)
  | Ask_is_root g => quiet (is_root_group g)
  | Ask_group_path g => quiet (group_path R g)
  | Ask_group_str g => quiet (group_str R g)
  | Ask_att_id a => quiet (att_id a)
  | Ask_filename a => quiet (att_filename a)
  | Ask_att_entry a => quiet (att_entry a)
  | Ask_data a => quiet (att_binary R Zl a)
  | Ask_att_str a => quiet (att_repr a)
  | Ask_root => quiet (root_group R)
  | Ask_bin => quiet (recyclebin_group R)
  | Ask_groups => quiet (groups R)
  | Ask_entries => quiet (entries R)
  | Ask_attachments => quiet (attachments R)
  | Ask_binaries => quiet (binaries R Zl)
  | Ask_meta tag => quiet (get_meta R tag)
  | Ask_days w => quiet (due_days R w)
  | Ask_changed => quiet (credchange_date R)
  | Ask_due w => quiet (due_now R C w)
  | Ask_find_groups b q => quiet (lift (fun d => find_groups R d b q))
  | Ask_find_entries b q => quiet (lift (fun d => find_entries R d b q))
  | Ask_find_attachments b q => quiet (lift (fun d => find_attachments R d b q))
  | Ask_xpath s tree first casting => quiet (user_xpath R s tree first casting)
  | Ask_deref limit v => quiet (deref R so limit v)
  end.

(** *** A session: calls that change and calls that ask, in any order, each with its own clock; whether they return or raise,
    the next one follows.  What is observed: the outcome of each changing call, and the database at the end. *)
Inductive deed := Change (o : op) | Ask (r : reading).
Fixpoint session (R : regex) (Zl : zlib) (so : list fref -> list fref) (l : list (clock * deed)) (d : db) : list (res unit) * db :=
  match l with
  | [] => ([], d)
  | (C, Change o) :: l => let '(r, d1) := run R Zl C o d in let '(rs, d2) := session R Zl so l d1 in (r :: rs, d2)
  | (C, Ask q) :: l => session R Zl so l (snd (ask R Zl so C q d))
  end.
(** The session without the questions. *)
Definition changes (l : list (clock * deed)) : list (clock * deed) := filter (fun c => match snd c with Change _ => true | Ask _ => false end) l.
