(** The PyKeePass object's document and its searches (pykeepass.py:325-439, xpath.py). *)
From Verif Require Import Base Base64 PyStr Xml Tree XPath Uuid.

(** The open database: version, binaries of the KDBX4 inner header (with flag byte), the XML document. *)
Record db := MkDb { d_major : N; d_minor : N; d_bins : list bytes; d_forest : forest; d_next : nat }.
(** [self.version >= (4, 0)] *)
Definition v4 (d : db) : bool := 4 <=? d_major d.

(** *** Effects: Python statements change the state even when they raise later. *)
Definition M (A : Type) : Type := db -> res A * db.
Definition ret {A} (a : A) : M A := fun d => (Ok a, d).
Definition raise {A} (e : exn) : M A := fun d => (Err e, d).
Definition mbind {A B} (m : M A) (k : A -> M B) : M B :=
  fun d => match m d with (Ok a, d') => k a d' | (Err e, d') => (Err e, d') end.
Notation "'do' x '<-' m ';' k" := (mbind m (fun x => k)) (at level 200, x pattern, m at level 100, k at level 200, right associativity).
Definition lift {A} (f : db -> res A) : M A := fun d => (f d, d).
Definition of_res {A} (r : res A) : M A := fun d => (r, d).
Definition modify (f : db -> db) : M unit := fun d => (Ok tt, f d).
Definition set_forest (d : db) (F : forest) : db := MkDb (d_major d) (d_minor d) (d_bins d) F (d_next d).

(** Python objects wrapping elements (pykeepass.py:358-367). *)
Inductive ref := R_entry (i : nat) | R_group (i : nat) | R_att (i : nat).
Definition rid (r : ref) : nat := match r with R_entry i | R_group i | R_att i => i end.

(** The tree of the forest that contains element [i]; only the first one is a document. *)
Fixpoint locate (doc : bool) (F : forest) (i : nat) : option (world * node) :=
  match F with
  | [] => None
  | t :: F' =>
      match List.find (fun n => (nid n =? i)%nat) (pre [] t) with
      | Some n => Some (World doc t, n)
      | None => locate false F' i
      end
  end.
Definition context (F : forest) (tree : option nat) : option (world * node) :=
  match tree with
  | Some i => locate true F i
  | None => match F with t :: _ => Some (World true t, Nd t []) | [] => None end
  end.
(** [tree.xpath(s)]: strings that are not XML text are refused by lxml with ValueError. *)
Definition xpath_raw (R : regex) (F : forest) (tree : option nat) (s : str) : res (list xnode) :=
  if forallb xml_char s then
    let* e := parse_xpath s in
    match context F tree with
    | Some (w, n) => let* v := eval R w e (Cx (XEl n) 1 1) in match v with V_set l => Ok l | _ => Err Ex_Type end
    | None => Err Ex_Attribute
    end
  else Err Ex_Value.
Definition as_node (x : xnode) : res node := match x with XEl n => Ok n | _ => Err Ex_Attribute end.
(** pykeepass.py:325-373, without cast *)
Definition xpath (R : regex) (d : db) (tree : option nat) (s : str) : res (list node) :=
  let* l := xpath_raw R (d_forest d) tree s in mapM as_node l.
(** pykeepass.py:358-367 *)
Definition cast (n : node) : res ref :=
  if str_eqb (etag (nd_el n)) $"Entry" then Ok (R_entry (nid n))
  else if str_eqb (etag (nd_el n)) $"Group" then Ok (R_group (nid n))
  else if str_eqb (etag (nd_el n)) $"Binary" then
    match nd_up n with
    | p :: _ => if str_eqb (etag p) $"Entry" then Ok (R_att (nid n)) else Err Ex_Generic
    | [] => Err Ex_Attribute
    end
  else Err Ex_Generic.
Definition xpath_cast (R : regex) (d : db) (tree : option nat) (s : str) : res (list ref) :=
  let* l := xpath R d tree s in mapM cast l.

(** *** Python's str.format on the templates of xpath.py: '{}' takes the next argument, '{flags}' the flags. *)
Fixpoint fmt_go (skip : nat) (t : str) (args : list str) (flags : str) : str :=
  match t with
  | [] => []
  | c :: t' =>
      match skip with
      | S k => fmt_go k t' args flags
      | O =>
          if starts_with $"{}" t then match args with a :: args' => a ++ fmt_go 1 t' args' flags | [] => [] end
          else if starts_with $"{flags}" t then flags ++ fmt_go 6 t' args flags
          else c :: fmt_go 0 t' args flags
      end
  end.
Definition fmt (t : str) (args : list str) (flags : str) : str := fmt_go 0 t args flags.

(** xpath.py:1-10 *)
Definition attachment_xp (regex : bool) (k : str) : option str :=
  if regex then
    if str_eqb k $"id" then Some $"/Value[re:test(@Ref, ""{}"", ""{flags}"")]/.."
    else if str_eqb k $"filename" then Some $"/Key[re:test(text(), ""{}"", ""{flags}"")]/.." else None
  else
    if str_eqb k $"id" then Some $"/Value[@Ref=""{}""]/.."
    else if str_eqb k $"filename" then Some $"/Key[text()=""{}""]/.." else None.
(** xpath.py:12-21 *)
Definition path_group_xp (regex : bool) : str :=
  if regex then $"/Group/Name[re:test(text(), ""{}"", ""{flags}"")]/.." else $"/Group/Name[text()=""{}""]/..".
Definition path_entry_xp (regex : bool) : str :=
  if regex then $"/Entry/String/Key[text()=""Title""]/../Value[re:test(text(), ""{}"", ""{flags}"")]/../.."
  else $"/Entry/String/Key[text()=""Title""]/../Value[text()=""{}""]/../..".
(** xpath.py:23-54 *)
Definition entry_xp (regex : bool) (k : str) : option str :=
  if regex then
    if str_eqb k $"title" then Some $"/String/Key[text()=""Title""]/../Value[re:test(text(), ""{}"", ""{flags}"")]/../.."
    else if str_eqb k $"username" then Some $"/String/Key[text()=""UserName""]/../Value[re:test(text(), ""{}"", ""{flags}"")]/../.."
    else if str_eqb k $"password" then Some $"/String/Key[text()=""Password""]/../Value[re:test(text(), ""{}"", ""{flags}"")]/../.."
    else if str_eqb k $"url" then Some $"/String/Key[text()=""URL""]/../Value[re:test(text(), ""{}"", ""{flags}"")]/../.."
    else if str_eqb k $"notes" then Some $"/String/Key[text()=""Notes""]/../Value[re:test(text(), ""{}"", ""{flags}"")]/../.."
    else if str_eqb k $"uuid" then Some $"/UUID[re:test(text(), ""{}"", ""{flags}"")]/.."
    else if str_eqb k $"tags" then Some $"/Tags[{}]/.."
    else if str_eqb k $"string" then Some $"/String/Key[text()=""{}""]/../Value[re:test(text(), ""{}"", ""{flags}"")]/../.."
    else if str_eqb k $"autotype_sequence" then Some $"/AutoType/DefaultSequence[re:test(text(), ""{}"", ""{flags}"")]/../.."
    else if str_eqb k $"autotype_window" then Some $"/AutoType/Association/Window[re:test(text(), ""{}"", ""{flags}"")]/../../.."
    else if str_eqb k $"autotype_enabled" then Some $"/AutoType/Enabled[re:test(text(), ""{}"", ""{flags}"")]/../.."
    else if str_eqb k $"otp" then Some $"/String/Key[text()=""otp""]/../Value[re:test(text(), ""{}"", ""{flags}"")]/../.." else None
  else
    if str_eqb k $"title" then Some $"/String/Key[text()=""Title""]/../Value[text()=""{}""]/../.."
    else if str_eqb k $"username" then Some $"/String/Key[text()=""UserName""]/../Value[text()=""{}""]/../.."
    else if str_eqb k $"password" then Some $"/String/Key[text()=""Password""]/../Value[text()=""{}""]/../.."
    else if str_eqb k $"url" then Some $"/String/Key[text()=""URL""]/../Value[text()=""{}""]/../.."
    else if str_eqb k $"notes" then Some $"/String/Key[text()=""Notes""]/../Value[text()=""{}""]/../.."
    else if str_eqb k $"uuid" then Some $"/UUID[text()=""{}""]/.."
    else if str_eqb k $"tags" then Some $"/Tags[{}]/.."
    else if str_eqb k $"string" then Some $"/String/Key[text()=""{}""]/../Value[text()=""{}""]/../.."
    else if str_eqb k $"autotype_sequence" then Some $"/AutoType/DefaultSequence[text()=""{}""]/../.."
    else if str_eqb k $"autotype_window" then Some $"/AutoType/Association/Window[text()=""{}""]/../../.."
    else if str_eqb k $"autotype_enabled" then Some $"/AutoType/Enabled[text()=""{}""]/../.."
    else if str_eqb k $"otp" then Some $"/String/Key[text()=""otp""]/../Value[text()=""{}""]/../.." else None.
(** xpath.py:56-67 *)
Definition group_xp (regex : bool) (k : str) : option str :=
  if regex then
    if str_eqb k $"name" then Some $"/Name[re:test(text(), ""{}"", ""{flags}"")]/.."
    else if str_eqb k $"uuid" then Some $"/UUID[re:test(text(), ""{}"", ""{flags}"")]/.."
    else if str_eqb k $"notes" then Some $"/Notes[re:test(text(), ""{}"", ""{flags}"")]/.." else None
  else
    if str_eqb k $"name" then Some $"/Name[text()=""{}""]/.."
    else if str_eqb k $"uuid" then Some $"/UUID[text()=""{}""]/.."
    else if str_eqb k $"notes" then Some $"/Notes[text()=""{}""]/.." else None.

(** Keyword arguments of the find functions, in the order given. *)
Inductive kwval :=
| K_none | K_str (s : str) | K_bool (b : bool) | K_int (z : Z) | K_uuid (u : bytes) | K_tags (l : list str).
Record query := MkQuery {
  q_path : option (list (option str));
  q_tree : option nat;
  q_history : bool;
  q_regex : bool;
  q_flags : option str;
  q_string : list (str * str);        (* string={...}; [] when absent *)
  q_kw : list (str * kwval)
}.
Definition py_str_opt (o : option str) : str := match o with Some s => s | None => $"None" end.
Definition py_str_bool (b : bool) : str := if b then $"True" else $"False".
(** pykeepass.py:417-424: uuid and tags are converted first; None raises there.  A string given as tags is iterated by
    character.  Simplification: UUIDs and lists given for other keys are not distinguished from their texts below. *)
Definition conv_uuid (kv : str * kwval) : res (str * kwval) :=
  if str_eqb (fst kv) $"uuid" then match snd kv with K_uuid u => Ok kv | _ => Err Ex_Attribute end else Ok kv.
Definition conv_tags (kv : str * kwval) : res (str * kwval) :=
  if str_eqb (fst kv) $"tags" then
    match snd kv with K_tags _ => Ok kv | K_str s => Ok (fst kv, K_tags (map (fun c => [c]) s)) | _ => Err Ex_Type end
  else Ok kv.
Definition kw_conv (kw : list (str * kwval)) : res (list (str * kwval)) := let* kw := mapM conv_uuid kw in mapM conv_tags kw.
(** pykeepass.py:417-434: the value as it is formatted into the template. *)
Definition kw_text (v : kwval) : option str :=
  match v with
  | K_none => None
  | K_str s => Some s
  | K_bool b => Some (py_str_bool b)
  | K_int z => Some (str_of_Z z)
  | K_uuid u => Some (uuid_text u)
  | K_tags l => Some (py_join $" and " (map (fun t => $"contains(text(),""" ++ t ++ $""")") l))
  end.
Fixpoint kw_steps (xp : str -> option str) (flags : str) (kw : list (str * kwval)) : res str :=
  match kw with
  | [] => Ok []
  | (k, v) :: kw' =>
      match xp k with
      | None => Err Ex_Type
      | Some t =>
          let* r := kw_steps xp flags kw' in
          Ok (match kw_text v with Some s => fmt t [s] flags ++ r | None => r end)
      end
  end.
Definition last_opt {A} (l : list A) : option A := match rev l with x :: _ => Some x | [] => None end.
(** pykeepass.py:377-434; [prefix] is '//Entry' etc. *)
Definition find_xp (prefix : str) (keys_xp : bool -> str -> option str) (q : query) : res str :=
  let flags := py_str_opt (q_flags q) in
  let prefix := if q_history q then prefix else prefix ++ $"[not(ancestor::History)]" in
  match q_path q with
  | Some path =>
      let groups := removelast path in
      let element := match last_opt path with Some e => e | None => Some [] end in
      let xp := $"/KeePassFile/Root/Group" ++ flat_map (fun g => fmt (path_group_xp (q_regex q)) [py_str_opt g] flags) groups in
      Ok (if substr_in $"Entry" prefix then xp ++ fmt (path_entry_xp (q_regex q)) [py_str_opt element] flags
          else if match element with Some (_ :: _) => substr_in $"Group" prefix | _ => false end
               then xp ++ fmt (path_group_xp (q_regex q)) [py_str_opt element] flags
          else xp)
  | None =>
      let* strings := match q_string q with
                      | [] => Ok []
                      | l => match keys_xp (q_regex q) $"string" with
                             | Some t => Ok (flat_map (fun kv => fmt t [fst kv; snd kv] flags) l)
                             | None => Err Ex_Key
                             end
                      end in
      let* kw := kw_conv (q_kw q) in
      let* r := kw_steps (keys_xp (q_regex q)) flags kw in
      Ok ((match q_tree q with Some _ => $"." | None => [] end) ++ prefix ++ strings ++ r)
  end.
(** pykeepass.py:431-439: all results; [first] takes the head. *)
Definition find (R : regex) (d : db) (prefix : str) (keys_xp : bool -> str -> option str) (q : query) : res (list ref) :=
  let* xp := find_xp prefix keys_xp q in xpath_cast R d (q_tree q) xp.
(** pykeepass.py:506-508, 644-647, 760-763 *)
Definition find_groups (R : regex) (d : db) (recursive : bool) (q : query) : res (list ref) :=
  find R d (if recursive then $"//Group" else $"/Group") group_xp q.
Definition find_entries (R : regex) (d : db) (recursive : bool) (q : query) : res (list ref) :=
  find R d (if recursive then $"//Entry" else $"/Entry") entry_xp q.
Definition find_attachments (R : regex) (d : db) (recursive : bool) (q : query) : res (list ref) :=
  find R d (if recursive then $"//Binary" else $"/Binary") attachment_xp q.
Definition plain_query : query := MkQuery None None false false None [] [].
(** pykeepass.py:370-372, 391: the list, or with [first=True] (implied by [path]) its first element or None. *)
Inductive found := F_list (l : list ref) | F_one (o : option ref).
Definition give (first : bool) (q : query) (r : res (list ref)) : res found :=
  let* l := r in Ok (if first || (match q_path q with Some _ => true | None => false end) then F_one (hd_error l) else F_list l).
