(** The document as a store of rows: what is observable of an element, without the tree operations of the model. *)
From Verif Require Import Base PyStr Xml Tree Db FindSpec Api.

(** Everything about one element: its tag, attributes, text and the identities of its children in order. *)
Record row := Row { r_tag : str; r_attrs : list (str * str); r_text : option str; r_kids : list nat }.
Definition row_of (t : elem) : row := Row (etag t) (eattrs t) (etext t) (map eid (ekids t)).
Definition cell (t : elem) : nat * row := (eid t, row_of t).
Definition cells (F : forest) : list (nat * row) := map cell (elements F).
Definition look (F : forest) (i : nat) : option row := option_map snd (List.find (fun c => (fst c =? i)%nat) (cells F)).
Definition roots (F : forest) : list nat := map eid F.
Definition with_text (v : option str) (r : row) : row := Row (r_tag r) (r_attrs r) v (r_kids r).
Definition with_attrs (a : list (str * str)) (r : row) : row := Row (r_tag r) a (r_text r) (r_kids r).
Definition with_kids (k : list nat) (r : row) : row := Row (r_tag r) (r_attrs r) (r_text r) k.

(** A sane state: a document exists, every element is there once, and new numbers are fresh. *)
Definition wf (d : db) : Prop :=
  d_forest d <> [] /\ unique (d_forest d) /\ forall t, In t (elements (d_forest d)) -> (eid t < d_next d)%nat.

(** From [d] to [d'] only the elements [is] changed (everything else keeps its row), [new] elements appeared. *)
Definition only (is : list nat) (d d' : db) : Prop :=
  d_major d' = d_major d /\ d_minor d' = d_minor d /\ d_bins d' = d_bins d /\ (d_next d <= d_next d')%nat /\
  hd_error (roots (d_forest d')) = hd_error (roots (d_forest d)) /\
  forall j r, look (d_forest d) j = Some r -> ~ In j is -> look (d_forest d') j = Some r.
Definition unchanged (d d' : db) : Prop := only [] d d'.

(** *** The string fields of an entry, as an ordered list of key, value and protection flag. *)
Record field := Fld { f_key : option str; f_val : option str; f_prot : option str }.
Definition first_text (T : str) (t : elem) : option str := match find1 T t with Some k => etext k | None => None end.
Definition field_of (s : elem) : field :=
  Fld (first_text $"Key" s) (first_text $"Value" s) (match find1 $"Value" s with Some v => attr_of $"Protected" v | None => None end).
Definition book (t : elem) : list field := map field_of (kids_of $"String" t).
(** As KeePass writes entries: every String has one Key and one Value, no key twice; flags are XML text. *)
Definition legal_flag (f : field) : Prop := match f_prot f with Some s => text_ok s = true | None => True end.
Definition tidy (t : elem) : Prop :=
  (forall s, In s (kids_of $"String" t) -> exists k v, kids_of $"Key" s = [k] /\ kids_of $"Value" s = [v]) /\
  NoDup (map f_key (book t)) /\ Forall legal_flag (book t).
Definition has_key (key : str) (f : field) : bool := match f_key f with Some k => str_eqb k key | None => false end.
(** Reading and replacing in such a list. *)
Definition look_field (key : str) (l : list field) : option field := List.find (has_key key) l.
Definition less_field (key : str) (l : list field) : list field := filter (fun f => negb (has_key key f)) l.
(** The children that are not string fields. *)
Definition rest_kids (t : elem) : list elem := filter (fun k => negb (str_eqb (etag k) $"String")) (ekids t).
(** [t'] is [t] with other children. *)
Definition same_head (t t' : elem) : Prop := eid t' = eid t /\ etag t' = etag t /\ eattrs t' = eattrs t /\ etext t' = etext t.
Definition has_elem (d : db) (t : elem) : Prop := In t (elements (d_forest d)).
Definition filled (o : option str) : bool := match o with Some (_ :: _) => true | _ => false end.
Definition field_text (key : str) (t : elem) : option str := match look_field key (book t) with Some f => f_val f | None => None end.
(** What an assignment leaves behind. *)
Definition assigned (d d' : db) (t t' : elem) : Prop := wf d' /\ has_elem d' t' /\ same_head t t' /\ rest_kids t' = rest_kids t /\ only [eid t] d d'.
Definition prop_name (p : strprop) : str :=
  match p with P_title => $"Title" | P_username => $"UserName" | P_password => $"Password" | P_url => $"URL" | P_notes => $"Notes" | P_otp => $"otp" end.
Definition secret (p : strprop) : bool := match p with P_password | P_otp => true | _ => false end.
Definition old_flag (key : str) (t : elem) : option str := match look_field key (book t) with Some f => f_prot f | None => None end.
(** The flag after an assignment: kept, except for a password or OTP that had no text. *)
Definition flag_rule (p : strprop) (t : elem) : option str :=
  if secret p && negb (filled (field_text (prop_name p) t)) then Some $"True" else old_flag (prop_name p) t.
Definition rejected (v : option str) : Prop := match v with None => True | Some s => text_ok s = false end.
(** The keys that are not custom properties, and the dictionary of the others. *)
Definition builtin (k : option str) : Prop :=
  k = Some $"Title" \/ k = Some $"UserName" \/ k = Some $"Password" \/ k = Some $"URL" \/ k = Some $"Notes" \/ k = Some $"otp" \/
  k = Some $"Tags" \/ k = Some $"IconID" \/ k = Some $"Times" \/ k = Some $"History".
(** [l] lists the custom properties of the field list in order. *)
Inductive customs : list field -> list (option str * option str) -> Prop :=
| cu_nil : customs [] []
| cu_skip f l m : builtin (f_key f) -> customs l m -> customs (f :: l) m
| cu_take f l m : ~ builtin (f_key f) -> customs l m -> customs (f :: l) ((f_key f, f_val f) :: m).
Definition plain_keys (t : elem) : Prop := forall f, In f (book t) -> exists k, f_key f = Some k /\ plain k.
(** *** Sub-elements *)
Definition other_kids (T : str) (t : elem) : list elem := filter (fun k => negb (str_eqb (etag k) T)) (ekids t).
Definition at_most_one (T : str) (t : elem) : Prop := (List.length (kids_of T t) <= 1)%nat.
(** *** Times: the element holding a named time of an entry or group *)
Definition time_slot (name : str) (t : elem) : option elem := match find1 $"Times" t with Some ts => find1 name ts | None => None end.
(** [d'] differs from [d] only in the texts of the elements [ps], which became [vs]. *)
Definition only_texts (ps : list elem) (d d' : db) : Prop :=
  only (map eid ps) d d' /\ roots (d_forest d') = roots (d_forest d) /\ d_next d' = d_next d /\
  forall p, In p ps -> exists v, look (d_forest d') (eid p) = Some (with_text v (row_of p)).
(** What setting the child [T] leaves behind. *)
Definition resub (d d' : db) (t t' : elem) (T : str) : Prop := wf d' /\ has_elem d' t' /\ same_head t t' /\ other_kids T t' = other_kids T t /\ only [eid t] d d'.
Definition time_name (p : timeprop) : str :=
  match p with T_expiry => $"ExpiryTime" | T_ctime => $"CreationTime" | T_atime => $"LastAccessTime" | T_mtime => $"LastModificationTime" end.
Definition tag_ok (g : str) : Prop := ~ In 44 g /\ ~ In 59 g /\ text_ok g = true.
Definition blank_none (v : option str) : option str := match v with Some [] => None | _ => v end.
