(** The element API: baseelement.py, entry.py, group.py, attachment.py and the document part of pykeepass.py, function by
    function, in the effect monad of Db.v (an exception keeps the changes made before it).  Python objects are the numbers
    of the elements they wrap. *)
From Verif Require Import Base Base64 PyStr Xml Tree XPath Uuid Time Db.

(** The surroundings of one call: the clock, the uuid generator, the time zone of naive datetimes (minutes). *)
Record clock := MkClock { now : dt; uuid1 : bytes; zone : dt -> Z }.
(** zlib: gzip compression, and decompression with automatic header detection (pykeepass.py:782-785, 820-826). *)
Record zlib := MkZlib { zgzip : bytes -> bytes; zinflate : bytes -> res bytes }.

(** *** lxml primitives *)
(** The element behind an object; elements are never freed, so it exists (the error is not reached on well-formed states). *)
Definition the (i : nat) : M elem :=
  lift (fun d => match elem_of (d_forest d) i with Some t => Ok t | None => Err Ex_Attribute end).
Definition on (i : nat) (f : elem -> elem) : M unit := modify (fun d => set_forest d (fupd i f (d_forest d))).
(** [elem.text = v]; ValueError for characters XML does not allow *)
Definition lx_set_text (i : nat) (v : option str) : M unit :=
  match v with
  | Some s => if text_ok s then on i (set_text v) else raise Ex_Value
  | None => on i (set_text None)
  end.
(** [elem.attrib[k] = v] *)
Definition lx_set_attr (i : nat) (k v : str) : M unit := if text_ok v then on i (set_attr k v) else raise Ex_Value.
(** [parent.remove(child)]: ValueError unless a child *)
Definition lx_remove (p c : nat) : M unit := fun d =>
  match parent_of (d_forest d) c with
  | Some t => if (eid t =? p)%nat then (Ok tt, set_forest d (detach (d_forest d) c)) else (Err Ex_Value, d)
  | None => (Err Ex_Value, d)
  end.
(** The first tree is the document. *)
Definition is_doc (F : forest) (i : nat) : bool := match F with t :: _ => (eid t =? i)%nat | [] => false end.
(** [parent.append(child)]: the child leaves its old place; ValueError when it contains the parent.  Simplification: moving
    the document's own root element is refused too. *)
Definition lx_append (p c : nat) : M unit := fun d =>
  if anc_or_self (d_forest d) c p || is_doc (d_forest d) c then (Err Ex_Value, d)
  else (Ok tt, set_forest d (relink (d_forest d) p c add_kid)).
(** [parent.insert(index, child)]: negative counts from the end, out of range appends *)
Definition lx_insert (p : nat) (index : Z) (c : nat) : M unit := fun d =>
  if anc_or_self (d_forest d) c p || is_doc (d_forest d) c then (Err Ex_Value, d)
  else match elem_of (d_forest d) p with
       | Some t =>
           let n := List.length (ekids t) in
           let k := if (0 <=? index)%Z then Z.to_nat (Z.min index (Z.of_nat n))
                    else let j := (Z.of_nat n + index)%Z in if (0 <=? j)%Z then Z.to_nat j else n in
           (Ok tt, set_forest d (relink (d_forest d) p c (insert_kid k)))
       | None => (Err Ex_Attribute, d)
       end.
(** A new element tree, not linked anywhere yet (Element(...), E...., deepcopy). *)
Definition lx_new (x : xml) : M nat := fun d =>
  let '(t, n) := label (d_next d) x in
  (Ok (eid t), MkDb (d_major d) (d_minor d) (d_bins d) (d_forest d ++ [t]) n).
(** [parent.append(<new tree>)] *)
Definition lx_append_new (p : nat) (x : xml) : M nat := do c <- lx_new x; do _ <- lx_append p c; ret c.
(** [E.tag(text, **attrs)]: None is a TypeError, illegal characters a ValueError *)
Definition e_text (tag : str) (attrs : list (str * str)) (v : option str) : res xml :=
  if forallb (fun a : str * str => text_ok (snd a)) attrs then
    match v with
    | None => Err Ex_Type
    | Some s => if text_ok s then Ok (X tag attrs (Some s) []) else Err Ex_Value
    end
  else Err Ex_Value.
Definition e_node (tag : str) (kids : list xml) : xml := X tag [] None kids.
(** [E.String(E.Key(key), E.Value(value, ...))] *)
Definition e_string (key : str) (v : option str) (attrs : list (str * str)) : res xml :=
  let* k := e_text $"Key" [] (Some key) in
  let* v := e_text $"Value" attrs v in
  Ok (e_node $"String" [k; v]).
Definition truthy (o : option str) : bool := match o with Some (_ :: _) => true | _ => false end.
(** str(x) for x a bool or None *)
Definition str_obool (b : option bool) : str := match b with Some b => py_str_bool b | None => $"None" end.

(** datetime.astimezone(timezone.utc): OverflowError outside the years 1..9999 *)
Definition astimezone_utc (zone : dt -> Z) (t : dt) : res dt :=
  let off := match doff t with Some o => o | None => zone t end in
  let s := (local_sec t - off * 60)%Z in
  if (s <? 0)%Z then Err Ex_Overflow
  else let* u := dt_of_sec s in
       Ok (MkDt (dyear u) (dmonth u) (dday u) (dhour u) (dmin u) (dsec u) (dus t) (Some 0%Z)).

Section Api.
Variable R : regex.
Variable C : clock.
Variable Zl : zlib.

(** xpath(..., first=True) with element results *)
Definition xfirst (tree : option nat) (s : str) : M (option elem) :=
  lift (fun d => let* l := xpath R d tree s in Ok (option_map nd_el (hd_error l))).
(** xpath(..., cast=True, first=True) *)
Definition xcast1 (tree : option nat) (s : str) : M (option ref) :=
  lift (fun d => let* l := xpath_cast R d tree s in Ok (hd_error l)).

(** *** baseelement.py *)
Definition encode_t (v : dt) : M str := lift (fun d => encode_time (v4 d) v).
Definition decode_t (v : option str) : M dt :=
  lift (fun d => match v with Some s => decode_time (v4 d) s | None => Err (if v4 d then Ex_Type else Ex_Attribute) end).
(** baseelement.py:16-38: the children every new element gets; [self._element] is created by the caller *)
Definition base_kids (icon : option str) (expires : option bool) (expiry : option dt) : M (list xml) :=
  do u <- of_res (e_text $"UUID" [] (Some (uuid_text (uuid1 C))));
  do ic <- (if truthy icon then of_res (let* x := e_text $"IconID" [] icon in Ok [x]) else ret []);
  do cur <- encode_t (now C);
  do exp <- (match expiry with Some t => do u <- of_res (astimezone_utc (zone C) t); encode_t u | None => ret cur end);
  ret ([u] ++ ic ++
       [e_node $"Times"
         [X $"CreationTime" [] (Some cur) []; X $"LastModificationTime" [] (Some cur) []; X $"LastAccessTime" [] (Some cur) [];
          X $"ExpiryTime" [] (Some exp) [];
          X $"Expires" [] (Some (py_str_bool (match expires with Some b => b | None => false end))) [];
          X $"UsageCount" [] (Some $"0") []; X $"LocationChanged" [] (Some cur) []]]).
(** baseelement.py:43-46 *)
Definition get_sub (tag : str) (i : nat) : M (option str) :=
  do t <- the i; ret (match find1 tag t with Some v => etext v | None => None end).
(** baseelement.py:48-52 *)
Definition set_sub (tag : str) (i : nat) (value : option str) : M unit :=
  do t <- the i;
  do _ <- (match find1 tag t with Some v => lx_remove i (eid v) | None => ret tt end);
  do x <- of_res (e_text tag [] value);
  do _ <- lx_append_new i x; ret tt.
(** baseelement.py:54-62 *)
Definition group_of (i : nat) : M (option nat) :=
  do r <- xcast1 (Some i) $"(ancestor::Group)[last()]"; ret (option_map rid r).
(** baseelement.py:67-77 *)
Definition get_uuid (i : nat) : M bytes := do s <- get_sub $"UUID" i; of_res (uuid_of_text s).
Definition set_uuid (i : nat) (u : bytes) : M unit := set_sub $"UUID" i (Some (uuid_text u)).
(** baseelement.py:79-85, entry.py:238-245 *)
Definition get_icon : nat -> M (option str) := get_sub $"IconID".
Definition set_icon : nat -> option str -> M unit := set_sub $"IconID".
(** baseelement.py:91-96 *)
Definition get_time (prop : str) (i : nat) : M (option dt) :=
  do t <- the i;
  match find1 $"Times" t with
  | Some ts => match find1 prop ts with
               | Some p => match etext p with Some s => do v <- decode_t (Some s); ret (Some v) | None => ret None end
               | None => ret None
               end
  | None => ret None
  end.
(** baseelement.py:98-103 *)
Definition set_time (prop : str) (i : nat) (v : dt) : M unit :=
  do t <- the i;
  match find1 $"Times" t with
  | Some ts => match find1 prop ts with
               | Some p => do s <- encode_t v; lx_set_text (eid p) (Some s)
               | None => ret tt
               end
  | None => ret tt
  end.
Definition expires_elem (i : nat) : M elem :=
  do t <- the i;
  match find1 $"Times" t with
  | Some ts => match find1 $"Expires" ts with Some p => ret p | None => raise Ex_Attribute end
  | None => raise Ex_Attribute
  end.
(** baseelement.py:105-110 *)
Definition get_expires (i : nat) : M (option bool) :=
  do p <- expires_elem i; ret (option_map (fun s => str_eqb s $"True") (etext p)).
(** baseelement.py:112-115 *)
Definition set_expires (i : nat) (b : bool) : M unit := do p <- expires_elem i; lx_set_text (eid p) (Some (py_str_bool b)).
(** baseelement.py:127-160: the time properties *)
Inductive timeprop := T_expiry | T_ctime | T_atime | T_mtime.
Definition get_timeprop (p : timeprop) (i : nat) : M (option dt) :=
  match p with
  | T_expiry => get_time $"ExpiryTime" i
  | T_ctime => get_time $"CreationTime" i
  | T_atime => get_time $"LastAccessTime" i
  | T_mtime => get_time $"LastModificationTime" i
  end.
Definition set_timeprop (p : timeprop) (i : nat) (v : dt) : M unit :=
  match p with
  | T_expiry => set_time $"ExpiryTime" i v
  | T_ctime => set_time $"CreationTime" i v
  | T_atime => set_time $"LastAccessTime" i v
  | T_mtime => set_time $"LastModificationTime" i v
  end.
(** baseelement.py:117-125; comparing with None is a TypeError *)
Definition expired (i : nat) : M bool :=
  do e <- get_expires i;
  match e with
  | Some true =>
      do t <- get_timeprop T_expiry i;
      match t with
      | Some t => match instant (now C), instant t with Some a, Some b => ret (b <? a)%Z | _, _ => raise Ex_Type end
      | None => raise Ex_Type
      end
  | _ => ret false
  end.
(** baseelement.py:162-163, attachment.py:56-58 *)
Definition delete (i : nat) : M unit := fun d =>
  match parent_of (d_forest d) i with
  | Some p => lx_remove (eid p) i d
  | None => (Err Ex_Attribute, d)
  end.
(** baseelement.py:171-177: the hash of an Entry or Group (not HistoryEntry), and equality with another element *)
Definition same (i j : nat) : M bool :=
  do u <- get_uuid i; do v <- get_uuid j; ret (el_eq (IdElement u) (IdElement v)).
(** baseelement.py:179-189 *)
Definition touch (modify : bool) (i : nat) : M unit :=
  do _ <- set_timeprop T_atime i (now C);
  if modify then set_timeprop T_mtime i (now C) else ret tt.

(** *** entry.py *)
Inductive tagsval := T_none | T_list (l : list str) | T_str (s : str).
Definition opt_string (key : str) (v : option str) (attrs : list (str * str)) : res (list xml) :=
  if truthy v then let* x := e_string key v attrs in Ok [x] else Ok [].
Definition protected_attr : list (str * str) := [($"Protected", $"True")].
Definition autotype_xml (sequence : option str) (enabled : bool) (window : option str) : res xml :=
  let* s := e_text $"DefaultSequence" [] (Some (match sequence with Some s => s | None => [] end)) in
  let* w := e_text $"Window" [] (Some (match window with Some s => s | None => [] end)) in
  Ok (e_node $"AutoType"
        [X $"Enabled" [] (Some (py_str_bool enabled)) []; X $"DataTransferObfuscation" [] (Some $"0") []; s;
         e_node $"Association" [w; X $"KeystrokeSequence" [] (Some []) []]]).
(** entry.py:42-69 *)
Definition entry_kids (title username password url notes otp : option str) (tags : tagsval)
    (sequence : option str) (enabled : bool) (window : option str) : res (list xml) :=
  let* t := e_string $"Title" title [] in
  let* u := e_string $"UserName" username [] in
  let* p := e_string $"Password" password protected_attr in
  let* url := opt_string $"URL" url [] in
  let* notes := opt_string $"Notes" notes [] in
  let* otp := opt_string $"otp" otp protected_attr in
  let* tags := match tags with
               | T_none => Ok []
               | T_list [] => Ok []
               | T_list l => let* x := e_text $"Tags" [] (Some (py_join $";" l)) in Ok [x]
               | T_str [] => Ok []
               | T_str s => let* x := e_text $"Tags" [] (Some s) in Ok [x]
               end in
  let* a := autotype_xml sequence enabled window in
  Ok ([t; u; p] ++ url ++ notes ++ otp ++ tags ++ [a]).
(** entry.py:27-70 (a failing constructor leaves no trace) *)
Definition new_entry (title username password url notes otp : option str) (tags : tagsval) (expires : option bool)
    (expiry : option dt) (icon : option str) (sequence : option str) (enabled : bool) (window : option str) : M nat :=
  do b <- base_kids icon expires expiry;
  do k <- of_res (entry_kids title username password url notes otp tags sequence enabled window);
  lx_new (e_node $"Entry" (b ++ k)).
Definition quote_xp (pre key post : str) : str := pre ++ key ++ post.
Definition value_xp (key : str) : str := quote_xp $"String/Key[text()=""" key $"""]/../Value".
Definition string_xp (key : str) : str := quote_xp $"String/Key[text()=""" key $"""]/..".
(** entry.py:81-93 *)
Definition get_string (key : str) (i : nat) : M (option str) :=
  do f <- xfirst (Some i) (value_xp key); ret (match f with Some v => etext v | None => None end).
(** entry.py:95-123 *)
Definition set_string (key : str) (i : nat) (value : option str) (protected : option bool) : M unit :=
  do field <- xfirst (Some i) (string_xp key);
  do prot <- (match protected with
              | None => do f <- xfirst (Some i) (value_xp key);
                        ret (match f with Some v => attr_of $"Protected" v | None => None end)
              | Some b => ret (Some (py_str_bool b))
              end);
  do _ <- (match field with Some f => lx_remove i (eid f) | None => ret tt end);
  do x <- of_res (e_string key value (match prot with Some p => [($"Protected", p)] | None => [] end));
  do _ <- lx_append_new i x; ret tt.
(** entry.py:12-23 *)
Definition reserved_keys : list str :=
  [$"Title"; $"UserName"; $"Password"; $"URL"; $"Tags"; $"IconID"; $"Times"; $"History"; $"Notes"; $"otp"].
Definition reserved (key : option str) : bool :=
  match key with Some k => existsb (str_eqb k) reserved_keys | None => false end.
(** entry.py:125-130; a key text may be None *)
Definition string_keys (exclude : bool) (i : nat) : M (list (option str)) :=
  do t <- the i;
  do l <- of_res (mapM (fun s => match find1 $"Key" s with Some k => Ok (etext k) | None => Err Ex_Attribute end)
                       (kids_of $"String" t));
  ret (if exclude then filter (fun k => negb (reserved k)) l else l).
(** group.py:37-41: StopIteration without entries *)
Fixpoint first_pos (P : elem -> bool) (l : list elem) : option nat :=
  match l with [] => None | k :: l' => if P k then Some O else option_map S (first_pos P l') end.
Definition first_entry (g : nat) : M nat :=
  do t <- the g;
  match first_pos (fun e => str_eqb (etag e) $"Entry") (ekids t) with Some n => ret n | None => raise Ex_StopIteration end.
(** entry.py:132-139; ValueError when not a child of the group *)
Definition index (i : nat) : M Z :=
  do g <- group_of i;
  match g with
  | None => raise Ex_Attribute
  | Some g =>
      do t <- the g;
      do f <- first_entry g;
      match first_pos (fun e => (eid e =? i)%nat) (ekids t) with
      | Some n => ret (Z.of_nat n - Z.of_nat f)%Z
      | None => raise Ex_Value
      end
  end.
(** entry.py:141-150 *)
Definition reindex (i : nat) (new_index : Z) : M unit :=
  do g <- group_of i;
  match g with
  | None => raise Ex_Attribute
  | Some g =>
      do f <- first_entry g;
      do _ <- lx_remove g i;
      lx_insert g (new_index + Z.of_nat f)%Z i
  end.
(** entry.py:152-160 *)
Definition entry_attachments (i : nat) : M (list nat) :=
  lift (fun d =>
    let* l := find_attachments R d false (MkQuery None (Some i) false true None [] [($"filename", K_str $".*")]) in
    Ok (map rid l)).
(** entry.py:162-180 *)
Definition add_attachment (i : nat) (id : Z) (filename : option str) : M nat :=
  do k <- of_res (e_text $"Key" [] filename);
  lx_append_new i (e_node $"Binary" [k; X $"Value" [($"Ref", str_of_Z id)] None []]).
(** entry.py:190-236, 259-269 *)
Definition set_password (i : nat) (v : option str) : M unit :=
  do p <- get_string $"Password" i; set_string $"Password" i v (if truthy p then None else Some true).
Definition set_otp (i : nat) (v : option str) : M unit :=
  do p <- get_string $"otp" i; set_string $"otp" i v (if truthy p then None else Some true).
Inductive strprop := P_title | P_username | P_password | P_url | P_notes | P_otp.
(** entry.py:190-236, 259-269: the getters *)
Definition get_prop (p : strprop) (i : nat) : M (option str) :=
  match p with
  | P_title => get_string $"Title" i
  | P_username => get_string $"UserName" i
  | P_password => get_string $"Password" i
  | P_url => get_string $"URL" i
  | P_notes => get_string $"Notes" i
  | P_otp => get_string $"otp" i
  end.
(** entry.py:190-236, 259-269: the setters *)
Definition set_prop (p : strprop) (i : nat) (v : option str) : M unit :=
  match p with
  | P_title => set_string $"Title" i v None
  | P_username => set_string $"UserName" i v None
  | P_password => set_password i v
  | P_url => set_string $"URL" i v None
  | P_notes => set_string $"Notes" i v None
  | P_otp => set_otp i v
  end.
(** entry.py:247-251 *)
Definition get_tags (i : nat) : M (list str) :=
  do v <- get_sub $"Tags" i;
  ret (match v with Some (c :: s) => py_split 59 (py_replace $"," $";" (c :: s)) | _ => [] end).
(** entry.py:253-257; a string is a list of one *)
Definition set_tags (i : nat) (l : list str) : M unit := set_sub $"Tags" i (Some (py_join $";" l)).
(** entry.py:271-277 *)
Definition history (i : nat) : M (list nat) :=
  do t <- the i; ret (match find1 $"History" t with Some h => map eid (kids_of $"Entry" h) | None => [] end).
(** entry.py:283-288 *)
Definition get_autotype_enabled (i : nat) : M (option bool) :=
  do t <- the i;
  match find_2 $"AutoType" $"Enabled" t with
  | Some e => ret (option_map (fun s => str_eqb s $"True") (etext e))
  | None => raise Ex_Attribute
  end.
(** entry.py:290-296 *)
Definition set_autotype_enabled (i : nat) (v : option bool) : M unit :=
  do t <- the i;
  match find_2 $"AutoType" $"Enabled" t with
  | Some e => lx_set_text (eid e) (option_map py_str_bool v)
  | None => raise Ex_Attribute
  end.
Definition nonempty_text (e : option elem) : option str :=
  match e with Some e => match etext e with Some [] => None | o => o end | None => None end.
(** entry.py:298-304 *)
Definition get_autotype_sequence (i : nat) : M (option str) :=
  do t <- the i; ret (nonempty_text (find_2 $"AutoType" $"DefaultSequence" t)).
(** entry.py:306-308 *)
Definition set_autotype_sequence (i : nat) (v : option str) : M unit :=
  do t <- the i;
  match find_2 $"AutoType" $"DefaultSequence" t with Some e => lx_set_text (eid e) v | None => raise Ex_Attribute end.
(** entry.py:310-316 *)
Definition get_autotype_window (i : nat) : M (option str) :=
  do t <- the i; ret (nonempty_text (find_3 $"AutoType" $"Association" $"Window" t)).
(** entry.py:318-320 *)
Definition set_autotype_window (i : nat) (v : option str) : M unit :=
  do t <- the i;
  match find_3 $"AutoType" $"Association" $"Window" t with Some e => lx_set_text (eid e) v | None => raise Ex_Attribute end.
(** entry.py:322-328 *)
Definition is_a_history_entry (i : nat) : M bool :=
  lift (fun d => Ok (match parent_of (d_forest d) i with Some p => str_eqb (etag p) $"History" | None => false end)).
(** group.py:71-74 *)
Definition is_root_group (i : nat) : M bool :=
  lift (fun d => match parent_of (d_forest d) i with Some p => Ok (str_eqb (etag p) $"Root") | None => Err Ex_Attribute end).
(** entry.py:340-343, group.py:84-87: the loop, [fuel] bounding the number of ancestors *)
Fixpoint path_loop (fuel : nat) (p : option nat) (path : list (option str)) : M (list (option str)) :=
  match fuel with
  | O => raise Ex_Recursion
  | S f =>
      match p with
      | None => ret path
      | Some p =>
          do r <- is_root_group p;
          if r then ret path
          else
            do n <- get_sub $"Name" p;
            do q <- group_of p;
            path_loop f q (match n with Some _ => n :: path | None => path end)
      end
  end.
Definition path_fuel (d : db) : nat := S (List.length (fids (d_forest d))).
(** entry.py:330-344 *)
Definition entry_path (i : nat) : M (option (list (option str))) :=
  do p <- group_of i;
  match p with
  | None => ret None
  | Some _ =>
      do title <- get_string $"Title" i;
      do n <- lift (fun d => Ok (path_fuel d));
      do l <- path_loop n p [title]; ret (Some l)
  end.
(** group.py:76-88 *)
Definition group_path (i : nat) : M (list (option str)) :=
  do r <- is_root_group i;
  if r then ret []
  else
    do p <- group_of i;
    match p with
    | None => ret []
    | Some _ =>
        do name <- get_sub $"Name" i;
        do n <- lift (fun d => Ok (path_fuel d));
        path_loop n p [name]
    end.
(** entry.py:346-352 *)
Definition set_custom_property (i : nat) (key : str) (v : option str) (protect : bool) : M unit :=
  if reserved (Some key) then raise Ex_Assertion else set_string key i v (Some protect).
Definition get_custom_property (i : nat) (key : str) : M (option str) :=
  if reserved (Some key) then raise Ex_Assertion else get_string key i.
Definition ostr_eqb (a b : option str) : bool :=
  match a, b with Some a, Some b => str_eqb a b | None, None => true | _, _ => false end.
(** entry.py:354-360 *)
Definition delete_custom_property (i : nat) (key : str) : M unit :=
  do ks <- string_keys true i;
  if existsb (ostr_eqb (Some key)) ks then
    do p <- xfirst (Some i) (string_xp key);
    match p with Some p => lx_remove i (eid p) | None => raise Ex_Attribute end
  else raise Ex_Attribute.
(** entry.py:362-383 *)
Definition is_custom_property_protected (i : nat) (key : str) : M bool :=
  if reserved (Some key) then raise Ex_Assertion
  else
    do f <- xfirst (Some i) (value_xp key);
    ret (match f with
         | Some v => str_eqb (match attr_of $"Protected" v with Some s => s | None => $"False" end) $"True"
         | None => false
         end).
(** [props[k] = v] on a dictionary in insertion order *)
Fixpoint dict_put {A} (k : option str) (v : A) (l : list (option str * A)) : list (option str * A) :=
  match l with
  | [] => [(k, v)]
  | (k', v') :: l' => if ostr_eqb k' k then (k', v) :: l' else (k', v') :: dict_put k v l'
  end.
(** entry.py:385-391; a key None is formatted as "None" *)
Definition custom_properties (i : nat) : M (list (option str * option str)) :=
  do ks <- string_keys true i;
  (fix go (ks : list (option str)) (acc : list (option str * option str)) : M (list (option str * option str)) :=
     match ks with
     | [] => ret acc
     | k :: ks' => do v <- get_string (py_str_opt k) i; go ks' (dict_put k v acc)
     end) ks [].
(** entry.py:393-412; KeyError for other attributes *)
Definition ref_letter (attribute : str) : res str :=
  if str_eqb attribute $"title" then Ok $"T" else if str_eqb attribute $"username" then Ok $"U"
  else if str_eqb attribute $"password" then Ok $"P" else if str_eqb attribute $"url" then Ok $"A"
  else if str_eqb attribute $"notes" then Ok $"N" else if str_eqb attribute $"uuid" then Ok $"I" else Err Ex_Key.
Definition make_ref (i : nat) (attribute : str) : M str :=
  do c <- of_res (ref_letter attribute);
  do u <- get_uuid i;
  ret ($"{REF:" ++ c ++ $"@I:" ++ uuid_hex_upper u ++ $"}").
(** entry.py:414-427 *)
Definition save_history (i : nat) : M unit :=
  do t <- the i;
  do a <- lx_new (erase t);
  do ta <- the a;
  match find1 $"History" ta with
  | Some h =>
      do _ <- lx_remove a (eid h);
      do t' <- the i;
      match find1 $"History" t' with Some h' => lx_append (eid h') a | None => raise Ex_Attribute end
  | None =>
      do h <- lx_new (e_node $"History" []);
      do _ <- lx_append h a;
      lx_append i h
  end.
(** entry.py:429-441; [None] stands for all=True.  A missing History: remove(None) is a TypeError, None.remove an
    AttributeError. *)
Definition delete_history (i : nat) (h : option nat) : M unit :=
  do t <- the i;
  match h with
  | None => match find1 $"History" t with Some e => lx_remove i (eid e) | None => raise Ex_Type end
  | Some h => match find1 $"History" t with Some e => lx_remove (eid e) h | None => raise Ex_Attribute end
  end.

(** *** group.py *)
(** group.py:11-26 *)
Definition new_group (name : option str) (icon notes : option str) (expires : option bool) (expiry : option dt) : M nat :=
  do b <- base_kids icon expires expiry;
  do n <- of_res (e_text $"Name" [] name);
  do nt <- (if truthy notes then of_res (let* x := e_text $"Notes" [] notes in Ok [x]) else ret []);
  lx_new (e_node $"Group" (b ++ [n] ++ nt)).
(** group.py:43-59 *)
Definition get_name : nat -> M (option str) := get_sub $"Name".
Definition set_name : nat -> option str -> M unit := set_sub $"Name".
Definition get_group_notes : nat -> M (option str) := get_sub $"Notes".
Definition set_group_notes : nat -> option str -> M unit := set_sub $"Notes".
(** group.py:61-69 *)
Definition group_entries (i : nat) : M (list nat) := do t <- the i; ret (map eid (kids_of $"Entry" t)).
Definition group_subgroups (i : nat) : M (list nat) := do t <- the i; ret (map eid (kids_of $"Group" t)).
(** group.py:90-101 *)
Fixpoint group_append (g : nat) (l : list nat) : M unit :=
  match l with [] => ret tt | e :: l' => do _ <- lx_append g e; group_append g l' end.

(** *** attachment.py *)
(** attachment.py:22-25 *)
Definition att_id (a : nat) : M Z :=
  do t <- the a;
  match find1 $"Value" t with
  | Some v => match attr_of $"Ref" v with Some s => of_res (int_of_str s) | None => raise Ex_Key end
  | None => raise Ex_Attribute
  end.
(** attachment.py:27-29 *)
Definition set_att_id (a : nat) (id : Z) : M unit :=
  do t <- the a;
  match find1 $"Value" t with Some v => lx_set_attr (eid v) $"Ref" (str_of_Z id) | None => raise Ex_Attribute end.
(** attachment.py:31-38 *)
Definition att_filename (a : nat) : M (option str) :=
  do t <- the a; match find1 $"Key" t with Some k => ret (etext k) | None => raise Ex_Attribute end.
Definition set_att_filename (a : nat) (v : option str) : M unit :=
  do t <- the a; match find1 $"Key" t with Some k => lx_set_text (eid k) v | None => raise Ex_Attribute end.
(** attachment.py:40-44; AssertionError unless the parent is an Entry; with no parent Entry(element=None) starts a new
    entry whose title None is a TypeError *)
Definition att_entry (a : nat) : M nat :=
  lift (fun d => match parent_of (d_forest d) a with
                 | Some p => if str_eqb (etag p) $"Entry" then Ok (eid p) else Err Ex_Assertion
                 | None => Err Ex_Type
                 end).

(** *** pykeepass.py *)
Definition py_index {A} (l : list A) (z : Z) : res A :=
  let k := if (z <? 0)%Z then (z + Z.of_nat (List.length l))%Z else z in
  if (k <? 0)%Z then Err Ex_Index else match nth_error l (Z.to_nat k) with Some x => Ok x | None => Err Ex_Index end.
(** list.pop(i) *)
Definition py_pop {A} (l : list A) (z : Z) : res (list A) :=
  let k := if (z <? 0)%Z then (z + Z.of_nat (List.length l))%Z else z in
  if (k <? 0)%Z || (Z.of_nat (List.length l) <=? k)%Z then Err Ex_Index
  else Ok (firstn (Z.to_nat k) l ++ skipn (S (Z.to_nat k)) l).
(** list.insert(i, x) *)
Definition py_insert {A} (l : list A) (z : Z) (x : A) : list A :=
  let n := Z.of_nat (List.length l) in
  let k := if (z <? 0)%Z then Z.max 0 (z + n) else Z.min z n in
  insert_at (Z.to_nat k) x l.
(** pykeepass.py:779-790: one Binary element *)
Definition bin_data (e : elem) : res bytes :=
  match etext e with
  | Some s =>
      let* b := b64decode s in
      if ostr_eqb (attr_of $"Compressed" e) (Some $"True") then zinflate Zl b else Ok b
  | None => Ok []
  end.
Fixpoint bins3 (l : list elem) (acc : list bytes) : res (list bytes) :=
  match l with
  | [] => Ok acc
  | e :: l' =>
      let* data := bin_data e in
      match attr_of $"ID" e with
      | Some s => let* n := int_of_str s in bins3 l' (py_insert acc n data)
      | None => Err Ex_Key
      end
  end.
(** pykeepass.py:770-792 *)
Definition binaries : M (list bytes) :=
  lift (fun d =>
    if v4 d then Ok (map (@tl N) (d_bins d))
    else let* l := xpath R d None $"/KeePassFile/Meta/Binaries/Binary" in bins3 (map nd_el l) []).
Definition set_bins (l : list bytes) : M unit :=
  modify (fun d => MkDb (d_major d) (d_minor d) l (d_forest d) (d_next d)).
Definition get_db : M db := fun d => (Ok d, d).
(** pykeepass.py:794-838 *)
Definition add_binary (data : bytes) (compressed protected : bool) : M Z :=
  do d <- get_db;
  do _ <- (if v4 d then set_bins (d_bins d ++ [(if protected then 1 else 0) :: data])
           else
             do b <- xfirst None $"/KeePassFile/Meta/Binaries";
             do n <- binaries;
             do x <- of_res (e_text $"Binary" [($"ID", str_of_Z (Z.of_nat (List.length n))); ($"Compressed", py_str_bool compressed)]
                              (Some (b64encode (if compressed then zgzip Zl data else data))));
             match b with Some b => do _ <- lx_append_new (eid b) x; ret tt | None => raise Ex_Attribute end);
  do l <- binaries;
  ret (Z.of_nat (List.length l) - 1)%Z.
Fixpoint each {A} (f : A -> M unit) (l : list A) : M unit :=
  match l with [] => ret tt | a :: l' => do _ <- f a; each f l' end.
(** pykeepass.py:840-873 *)
Definition delete_binary (id : Z) : M unit :=
  do d <- get_db;
  do _ <- (if v4 d then match py_pop (d_bins d) id with Ok l => set_bins l | Err _ => raise Ex_Binary end
           else
             do b <- xfirst None $"/KeePassFile/Meta/Binaries";
             match b with
             | None => raise Ex_Attribute
             | Some b => match py_index (ekids b) id with Ok c => lx_remove (eid b) (eid c) | Err _ => raise Ex_Binary end
             end);
  do refs <- lift (fun d => find_attachments R d true (MkQuery None None false false None [] [($"id", K_int id)]));
  do _ <- each (fun r => delete (rid r)) refs;
  do gt <- lift (fun d => xpath_cast R d None ($"//Binary/Value[@Ref > """ ++ str_of_Z id ++ $"""]/.."));
  each (fun r => do n <- att_id (rid r); set_att_id (rid r) (n - 1)%Z) gt.
(** attachment.py:46-54 *)
Definition att_binary (a : nat) : M bytes := fun d =>
  match (do l <- binaries; do n <- att_id a; of_res (py_index l n)) d with
  | (Err Ex_Index, d') => match att_id a d' with (Ok _, d'') => (Err Ex_Binary, d'') | (Err e, d'') => (Err e, d'') end
  | r => r
  end.

(** pykeepass.py:246-249; the path is a string '' *)
Definition root_group : M (option nat) :=
  lift (fun d => let* l := find_groups R d true (MkQuery (Some []) None false false None [] []) in
                 Ok (option_map rid (hd_error l))).
Definition meta_elem (tag : str) : M (option elem) := xfirst None ($"/KeePassFile/Meta/" ++ tag).
(** pykeepass.py:251-256 *)
Definition recyclebin_group : M (option nat) :=
  do e <- meta_elem $"RecycleBinUUID";
  match e with
  | None => raise Ex_Attribute
  | Some e =>
      do u <- of_res (uuid_of_text (etext e));
      lift (fun d => let* l := find_groups R d true (MkQuery None None false false None [] [($"uuid", K_uuid u)]) in
                     Ok (option_map rid (hd_error l)))
  end.
(** pykeepass.py:258-268 *)
Definition groups : M (list nat) := lift (fun d => let* l := find_groups R d true plain_query in Ok (map rid l)).
Definition entries : M (list nat) := lift (fun d => let* l := find_entries R d true plain_query in Ok (map rid l)).
(** pykeepass.py:270-301 *)
Definition get_meta (tag : str) : M (option str) :=
  do e <- meta_elem tag; match e with Some e => ret (etext e) | None => raise Ex_Attribute end.
Definition set_meta (tag : str) (v : option str) : M unit :=
  do e <- meta_elem tag;
  match e with Some e => lx_set_text (eid e) (Some (py_str_opt v)) | None => raise Ex_Attribute end.
(** pykeepass.py:441-449; comparing with None is False *)
Definition can_be_moved_to_recyclebin (i : nat) : M bool :=
  do r <- root_group;
  do eq <- (match r with Some r => same i r | None => ret false end);
  if eq then ret false
  else
    do b <- recyclebin_group;
    match b with
    | None => ret true
    | Some b =>
        do u <- get_uuid i;
        do e <- xfirst (Some b) ($"./UUID[text()=""" ++ uuid_text u ++ $"""]/..");
        ret (match e with None => true | Some _ => false end)
    end.
(** pykeepass.py:510-530; destination None has no [append] *)
Definition add_group (dest : option nat) (name icon notes : option str) : M nat :=
  do g <- new_group name icon notes None None;
  match dest with Some p => do _ <- lx_append p g; ret g | None => raise Ex_Attribute end.
(** pykeepass.py:539-547 *)
Definition create_or_get_recyclebin_group : M nat :=
  do b <- recyclebin_group;
  match b with
  | Some b => ret b
  | None =>
      do r <- root_group;
      do g <- add_group r (Some $"Recycle Bin") None None;
      do e <- meta_elem $"RecycleBinUUID";
      do u <- get_uuid g;
      match e with
      | Some e => do _ <- lx_set_text (eid e) (Some (uuid_text u)); ret g
      | None => raise Ex_Attribute
      end
  end.
(** pykeepass.py:535-537, 720-727 *)
Definition move (i dest : nat) : M unit := lx_append dest i.
(** pykeepass.py:549-560, 729-740 *)
Definition trash (i : nat) : M unit :=
  do ok <- can_be_moved_to_recyclebin i;
  if (ok : bool) then do b <- create_or_get_recyclebin_group; move i b
  else raise Ex_UnableToSendToRecycleBin.
(** pykeepass.py:570-573: [while len(l): delete(l[0])]; [fuel] bounds the number of children *)
Fixpoint empty_loop (fuel : nat) (tag : str) (g : nat) : M unit :=
  match fuel with
  | O => raise Ex_Recursion
  | S f =>
      do t <- the g;
      match kids_of tag t with
      | [] => ret tt
      | k :: _ => do _ <- delete (eid k); empty_loop f tag g
      end
  end.
(** pykeepass.py:562-573 *)
Definition empty_group (g : nat) : M unit :=
  do t <- the g;
  let n := S (List.length (ekids t)) in
  do _ <- empty_loop n $"Group" g; empty_loop n $"Entry" g.
(** pykeepass.py:650-710; the message of the exception formats the group's path *)
Definition add_entry (dest : nat) (title username password url notes : option str) (expiry : option dt) (tags : tagsval)
    (otp icon : option str) (force : bool) : M nat :=
  let kw (k : str) (v : option str) := (k, match v with Some s => K_str s | None => K_none end) in
  do dup <- lift (fun d => find_entries R d false
                    (MkQuery None (Some dest) false false None [] [kw $"title" title; kw $"username" username]));
  match dup, force with
  | _ :: _, false => do _ <- group_path dest; raise Ex_Generic
  | _, _ =>
      do e <- new_entry title username password url notes otp tags
                (Some (match expiry with Some _ => true | None => false end)) expiry icon None true None;
      do _ <- lx_append dest e; ret e
  end.
(** pykeepass.py:765-768 *)
Definition attachments : M (list nat) :=
  lift (fun d => let* l := find_attachments R d true (MkQuery None None false true None [] [($"filename", K_str $".*")]) in
                 Ok (map rid l)).

(** *** Field references (pykeepass.py:877-911) *)
Record fref := MkFref { f_text : str; f_want : N; f_in : N; f_value : str }.
Definition is_field (c : N) : bool := existsb (N.eqb c) $"TUPANI".
Fixpoint upto_brace (s : str) : option (str * str) :=
  match s with
  | [] => None
  | c :: s' => if c =? 125 then Some ([], s') else option_map (fun p : str * str => (c :: fst p, snd p)) (upto_brace s')
  end.
(** A match of the regular expression at the head of the text, and what follows it. *)
Definition match_ref (s : str) : option (fref * str) :=
  if starts_with $"{REF:" s then
    match skipn 5 s with
    | w :: 64 :: i :: 58 :: s' =>
        if is_field w && is_field i then
          match upto_brace s' with
          | Some (c :: v, rest) => Some (MkFref ($"{REF:" ++ [w; 64; i; 58] ++ (c :: v) ++ [125]) w i (c :: v), rest)
          | _ => None
          end
        else None
    | _ => None
    end
  else None.
(** re.findall; [skip] characters belong to the previous match *)
Fixpoint findall (skip : nat) (s : str) : list fref :=
  match s with
  | [] => []
  | c :: s' =>
      match skip with
      | S k => findall k s'
      | O => match match_ref s with
             | Some (f, _) => f :: findall (List.length (f_text f) - 1) s'
             | None => findall 0 s'
             end
      end
  end.
Definition fref_eqb (a b : fref) : bool := str_eqb (f_text a) (f_text b).
Fixpoint fref_nodup (l : list fref) : list fref :=
  match l with [] => [] | f :: l' => f :: filter (fun g => negb (fref_eqb f g)) (fref_nodup l') end.
(** pykeepass.py:894-901 *)
Definition field_attr (c : N) : str :=
  if c =? 84 then $"title" else if c =? 85 then $"username" else if c =? 80 then $"password"
  else if c =? 65 then $"url" else if c =? 78 then $"notes" else $"uuid".
(** [getattr(ref_entry, wanted)] as an argument of str.replace: None and UUID are TypeErrors *)
Definition wanted_text (c : N) (i : nat) : M str :=
  if c =? 73 then do _ <- get_uuid i; raise Ex_Type
  else
    do v <- get_string (if c =? 84 then $"Title" else if c =? 85 then $"UserName" else if c =? 80 then $"Password"
                        else if c =? 65 then $"URL" else $"Notes") i;
    match v with Some s => ret s | None => raise Ex_Type end.
Definition find_ref (f : fref) : M (option nat) :=
  do v <- (if f_in f =? 73 then do u <- of_res (uuid_of_hex (f_value f)); ret (K_uuid u) else ret (K_str (f_value f)));
  lift (fun d => let* l := find_entries R d true (MkQuery None None false false None [] [(field_attr (f_in f), v)]) in
                 Ok (option_map rid (hd_error l))).
(** The iteration order of a Python set of strings is arbitrary. *)
Variable set_order : list fref -> list fref.
Fixpoint replace_refs (l : list fref) (value : str) : M (option str) :=
  match l with
  | [] => ret (Some value)
  | f :: l' =>
      do e <- find_ref f;
      match e with
      | None => ret None
      | Some e => do w <- wanted_text (f_want f) e; replace_refs l' (py_replace (f_text f) w value)
      end
  end.
(** [fuel]: Python's recursion limit *)
Fixpoint deref (fuel : nat) (value : option str) : M (option str) :=
  match fuel with
  | O => raise Ex_Recursion
  | S n =>
      match value with
      | Some (c :: s) =>
          match set_order (fref_nodup (findall 0 (c :: s))) with
          | [] => ret value
          | l => do v <- replace_refs l (c :: s);
                 match v with None => ret None | Some v => deref n (Some v) end
          end
      | _ => ret value
      end
  end.

(** *** Credential change dates *)
(** pykeepass.py:936-948 *)
Definition credchange_days (tag : str) : M (option Z) :=
  do e <- meta_elem tag;
  match e with
  | Some e => match etext e with Some s => do n <- of_res (int_of_str s); ret (Some n) | None => raise Ex_Type end
  | None => ret None
  end.
(** pykeepass.py:950-960 *)
Definition set_credchange_days (tag : str) (n : Z) : M unit :=
  do e <- meta_elem tag;
  match e with Some e => lx_set_text (eid e) (Some (str_of_Z n)) | None => raise Ex_Attribute end.
(** pykeepass.py:962-967 *)
Definition credchange_date : M (option dt) :=
  do e <- meta_elem $"MasterKeyChanged";
  match e with Some e => do t <- decode_t (etext e); ret (Some t) | None => ret None end.
(** pykeepass.py:969-972: the time is encoded before the attribute is assigned *)
Definition set_credchange_date (t : dt) : M unit :=
  do e <- meta_elem $"MasterKeyChanged";
  do s <- encode_t t;
  match e with Some e => lx_set_text (eid e) (Some s) | None => raise Ex_Attribute end.
(** pykeepass.py:974-990; [timedelta.days] rounds down *)
Definition credchange_due (tag : str) : M bool :=
  do c <- credchange_date;
  match c with
  | None => ret false
  | Some c =>
      do n <- credchange_days tag;
      match n with
      | Some (-1)%Z => ret false
      | _ =>
          match instant (now C), instant c with
          | Some a, Some b =>
              match n with Some n => ret (n <? (a - b) / 86400000000)%Z | None => raise Ex_Type end
          | _, _ => raise Ex_Type
          end
      end
  end.
Definition credchange_required : M bool := credchange_due $"MasterKeyChangeForce".
Definition credchange_recommended : M bool := credchange_due $"MasterKeyChangeRec".
End Api.
