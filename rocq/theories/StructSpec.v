(** Structural operations described on the rows of the store (ApiSpec.v). *)
From Verif Require Import Base PyStr Xml Tree XPath Uuid Time Db FindSpec Api ApiSpec.

(** [below F i j]: [j] is [i] or a descendant of it. *)
Inductive below (L : nat -> option row) (i : nat) : nat -> Prop :=
| below_self r : L i = Some r -> below L i i
| below_kid j k r : below L i j -> L j = Some r -> In k (r_kids r) -> below L i k.
(** The element belongs to the document (and was not taken out of it). *)
Definition in_doc (d : db) (i : nat) : Prop := exists r, hd_error (roots (d_forest d)) = Some r /\ below (look (d_forest d)) r i.
Definition is_kid (d : db) (p i : nat) : Prop := exists r, look (d_forest d) p = Some r /\ In i (r_kids r).
Definition less (c : nat) (l : list nat) : list nat := filter (fun j => negb (j =? c)%nat) l.

(** [i] leaves its parent; every other row, and the order of its siblings, stays. *)
Definition cut (d d' : db) (i : nat) : Prop :=
  d_major d' = d_major d /\ d_minor d' = d_minor d /\ d_bins d' = d_bins d /\
  hd_error (roots (d_forest d')) = hd_error (roots (d_forest d)) /\
  forall j r, look (d_forest d) j = Some r -> look (d_forest d') j = Some (with_kids (less i (r_kids r)) r).
(** [i] becomes the last child of [p]; every other row stays. *)
Definition relocated (d d' : db) (p i : nat) : Prop :=
  d_major d' = d_major d /\ d_minor d' = d_minor d /\ d_bins d' = d_bins d /\
  hd_error (roots (d_forest d')) = hd_error (roots (d_forest d)) /\
  forall j r, look (d_forest d) j = Some r ->
    look (d_forest d') j = Some (with_kids (if (j =? p)%nat then less i (r_kids r) ++ [i] else less i (r_kids r)) r).
(** A new child [i] at the end of [p]; every other row stays. *)
Definition added (d d' : db) (p i : nat) : Prop :=
  look (d_forest d) i = None /\ only [p] d d' /\
  forall r, look (d_forest d) p = Some r -> look (d_forest d') p = Some (with_kids (r_kids r ++ [i]) r).
(** *** New entries *)
Definition opt_field (key : str) (v : option str) (flag : option str) : list field := if filled v then [Fld (Some key) v flag] else [].
Definition new_fields (title username password url notes otp : option str) : list field :=
  [Fld (Some $"Title") title None; Fld (Some $"UserName") username None; Fld (Some $"Password") password (Some $"True")] ++
  opt_field $"URL" url None ++ opt_field $"Notes" notes None ++ opt_field $"otp" otp (Some $"True").
Definition tags_text (t : tagsval) : option str :=
  match t with T_none => None | T_list [] => None | T_list l => Some (py_join $";" l) | T_str [] => None | T_str s => Some s end.
Definition some_text (v : option str) : Prop := exists s, v = Some s /\ text_ok s = true.
Definition opt_text (v : option str) : Prop := match v with Some s => text_ok s = true | None => True end.
(** An entry directly in the group [g] that the duplicate test of add_entry refers to. *)
Definition duplicate (g : elem) (title username : option str) (k : elem) : Prop :=
  In k (ekids g) /\ etag k = $"Entry" /\
  (forall s, title = Some s -> has_field (fun o => o = Some s) $"Title" k) /\
  (forall s, username = Some s -> has_field (fun o => o = Some s) $"UserName" k).
(** What a new entry's properties are, from the arguments of add_entry: empty optional arguments count as not given. *)
Definition given (title username password url notes otp : option str) (p : strprop) : option str :=
  match p with P_title => title | P_username => username | P_password => password | P_url => blank_none url | P_notes => blank_none notes | P_otp => blank_none otp end.
Definition slot_text (name : str) (t : elem) : option str := match time_slot name t with Some p => etext p | None => None end.
(** The stored expiry time: the given one in UTC, or else the creation time. *)
Definition expiry_of (C : clock) (expiry : option dt) (u : dt) : Prop :=
  match expiry with Some v => astimezone_utc (zone C) v = Ok u | None => u = now C end.
(** *** The fixed parts of a document: the top element, Root with the root group, Meta with the recorded recycle bin. *)
Definition is_tag (L : nat -> option row) (T : str) (i : nat) : Prop := exists r, L i = Some r /\ r_tag r = T.
Definition tagb (L : nat -> option row) (T : str) (i : nat) : bool := match L i with Some r => str_eqb (r_tag r) T | None => false end.
Definition kids_tagged (L : nat -> option row) (T : str) (i : nat) : list nat := match L i with Some r => filter (tagb L T) (r_kids r) | None => [] end.
Record skeleton (d : db) (r rt g m e : nat) : Prop := Skel {
  sk_top : hd_error (roots (d_forest d)) = Some r;
  sk_tag : is_tag (look (d_forest d)) $"KeePassFile" r;
  sk_root : kids_tagged (look (d_forest d)) $"Root" r = [rt];
  sk_group : kids_tagged (look (d_forest d)) $"Group" rt = [g];
  sk_meta : kids_tagged (look (d_forest d)) $"Meta" r = [m];
  sk_bin : kids_tagged (look (d_forest d)) $"RecycleBinUUID" m = [e] }.
Definition text_at (d : db) (i : nat) (v : option str) : Prop := exists r, look (d_forest d) i = Some r /\ r_text r = v.
(** *** The recycle bin: the first group of the document, outside histories, with a given UUID *)
Definition has_uuid (u : bytes) (t : elem) : Prop := kid_with $"UUID" (fun x => etext x = Some (uuid_text u)) t.
Definition is_bin (F : forest) (u : bytes) (t : elem) : Prop := etag t = $"Group" /\ In t (visible F) /\ has_uuid u t.
Definition first_such {A} (P : A -> Prop) (l : list A) (x : A) : Prop := exists a b, l = a ++ x :: b /\ P x /\ forall y, In y a -> ~ P y.
Definition doc_elems (d : db) : list elem := match d_forest d with r :: _ => everything r | [] => [] end.
(** The UUID of an element. *)
Definition uuid_is (t : elem) (u : bytes) : Prop := uuid_of_text (first_text $"UUID" t) = Ok u.
(** *** Emptying: the children of [g] satisfying [D] leave, everything else stays. *)
Definition dropped (d d' : db) (g : nat) (D : nat -> bool) : Prop :=
  d_major d' = d_major d /\ d_minor d' = d_minor d /\ d_bins d' = d_bins d /\
  hd_error (roots (d_forest d')) = hd_error (roots (d_forest d)) /\
  forall j r, look (d_forest d) j = Some r -> look (d_forest d') j = Some (if (j =? g)%nat then with_kids (filter (fun k => negb (D k)) (r_kids r)) r else r).
(** *** Positions. [row_kids d g l]: the children of [g] are [l]. *)
Definition row_kids (d : db) (g : nat) (l : list nat) : Prop := exists r, look (d_forest d) g = Some r /\ r_kids r = l.
Definition entry_row (d : db) (i : nat) : Prop := is_tag (look (d_forest d)) $"Entry" i.
(** The children of [g] are [a], then the entries [es], then [b]; [a] and [b] have no entries. *)
Definition contiguous (d : db) (g : nat) (a es b : list nat) : Prop :=
  row_kids d g (a ++ es ++ b) /\ Forall (entry_row d) es /\ Forall (fun i => ~ entry_row d i) (a ++ b).
(** Only the order of the children of [g] differs. *)
Definition reordered (d d' : db) (g : nat) (l : list nat) : Prop :=
  d_major d' = d_major d /\ d_minor d' = d_minor d /\ d_bins d' = d_bins d /\
  hd_error (roots (d_forest d')) = hd_error (roots (d_forest d)) /\ row_kids d' g l /\
  forall j, look (d_forest d') j = option_map (fun r => if (j =? g)%nat then with_kids l r else r) (look (d_forest d) j).
(** *** History: what an archived copy contains *)
Definition archived (t : elem) : xml := X (etag t) (eattrs t) (etext t) (map erase (other_kids $"History" t)).
Definition snapshots (t : elem) : list elem := match find1 $"History" t with Some h => kids_of $"Entry" h | None => [] end.
(** *** Edits of an entry, for statements about sequences of them *)
Inductive edit := Ed_prop (p : strprop) (v : option str) | Ed_custom (key : str) (v : option str) (protect : bool) | Ed_icon (v : option str) | Ed_tags (l : list str) | Ed_time (p : timeprop) (v : dt) | Ed_save.
Definition run_edit (R : regex) (i : nat) (e : edit) : M unit :=
  match e with
  | Ed_prop p v => set_prop R p i v
  | Ed_custom k v b => set_custom_property R i k v b
  | Ed_icon v => set_icon i v
  | Ed_tags l => set_tags i l
  | Ed_time p v => set_timeprop p i v
  | Ed_save => save_history i
  end.
(** The state after the calls, whether they return or raise. *)
Fixpoint after (R : regex) (i : nat) (l : list edit) (d : db) : db := match l with [] => d | e :: l => after R i l (snd (run_edit R i e d)) end.
Definition edit_ok (e : edit) : Prop := match e with Ed_custom k _ _ => plain k | _ => True end.
Definition is_save (e : edit) : bool := match e with Ed_save => true | _ => false end.
(** What can be read from a new entry. *)
Definition new_entry_reads (R : regex) (C : clock) (d' : db) (e : nat) (title username password url notes : option str) (expiry : option dt) (tags : tagsval) (otp icon : option str) (x y : dt) : Prop :=
  (forall p, get_prop R p e d' = (Ok (given title username password url notes otp p), d')) /\
  (forall k, plain k -> ~ builtin (Some k) -> get_custom_property R e k d' = (Ok None, d')) /\
  get_uuid e d' = (Ok (uuid1 C), d') /\ get_icon e d' = (Ok (blank_none icon), d') /\
  (forall l, tags = T_list l -> l <> [[]] -> Forall tag_ok l -> get_tags e d' = (Ok l, d')) /\
  get_timeprop T_ctime e d' = (Ok (Some x), d') /\ get_timeprop T_mtime e d' = (Ok (Some x), d') /\ get_timeprop T_atime e d' = (Ok (Some x), d') /\
  get_timeprop T_expiry e d' = (Ok (Some y), d') /\ get_expires e d' = (Ok (Some (match expiry with Some _ => true | None => false end)), d') /\
  history e d' = (Ok [], d').
(** An entry of the document as KeePass writes them. *)
Definition sound (d : db) (t : elem) : Prop := wf d /\ has_elem d t /\ in_doc d (eid t) /\ etag t = $"Entry" /\ tidy t /\ at_most_one $"History" t.
