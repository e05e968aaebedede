(** Model of kdbx_parsing/common.py:106-177: key derivation inputs. *)
From Verif Require Import Base Base64 PyStr Utf8 Xml Lib.

(** A [keyfile] argument (common.py:128-136): nothing (None, or anything falsy such as an empty path), a path with the
    content found there ([None]: open() fails), or an object with a read method: whether it is seekable, its content
    and its position.  A path is assumed to name the same content at every call. *)
Inductive kfsrc := KF_none | KF_path (content : option bytes) | KF_stream (seekable : bool) (content : bytes) (pos : nat).
(** The bytes read by one call, and the argument afterwards (common.py:129-135). *)
Definition kf_read (k : kfsrc) : res (option bytes) :=
  match k with
  | KF_none => Ok None
  | KF_path (Some b) => Ok (Some b)
  | KF_path None => Err Ex_IO
  | KF_stream true b _ => Ok (Some b)
  | KF_stream false b pos => Ok (Some (skipn pos b))
  end.
Definition kf_next (k : kfsrc) : kfsrc := match k with KF_stream s b _ => KF_stream s b (List.length b) | _ => k end.

(** [bytes.fromhex(s)]: ASCII white space between the pairs is skipped. *)
Fixpoint py_fromhex (s : str) : res bytes :=
  match s with
  | [] => Ok []
  | a :: s1 =>
      if py_space a then py_fromhex s1
      else match s1 with
           | [] => Err Ex_Value
           | b :: s2 =>
               match hex_val a, hex_val b with
               | Some x, Some y => let* r := py_fromhex s2 in Ok (x * 16 + y :: r)
               | _, _ => Err Ex_Value
               end
           end
  end.

(** White space as stripped by [str.strip()]. *)
Definition py_uspace (c : N) : bool :=
  py_space c || ((28 <=? c) && (c <=? 31)) || (c =? 0x85) || (c =? 0xA0) || (c =? 0x1680)
  || ((0x2000 <=? c) && (c <=? 0x200A)) || (c =? 0x2028) || (c =? 0x2029) || (c =? 0x202F) || (c =? 0x205F) || (c =? 0x3000).

(** [tree.find('A/B')]: first B child of an A child, in document order. *)
Definition kids_named (n : str) (t : xml) : list xml := filter (fun k => str_eqb (xtag k) n) (xkids t).
Definition find2 (a b : str) (t : xml) : option xml := hd_error (flat_map (kids_named b) (kids_named a t)).
Definition attr_get (n : str) (t : xml) : option str :=
  match find (fun a => str_eqb (fst a) n) (xattrs t) with Some (_, v) => Some v | None => None end.

(** common.py:138-152: the try block.  [b64decode(None)] is a TypeError; [None.text], [None.startswith],
    [None.strip] are AttributeErrors. *)
Definition keyfile_xml (L : lib) (b : bytes) : res bytes :=
  let* tree := kf_parse L b in
  match find2 ($"Meta") ($"Version") tree with
  | None => Err Ex_Attribute
  | Some v =>
      match xtext v with
      | None => Err Ex_Attribute
      | Some version =>
          let data := find2 ($"Key") ($"Data") tree in
          if starts_with ($"1.0") version then
            match data with
            | None => Err Ex_Attribute
            | Some d => match xtext d with None => Err Ex_Type | Some s => b64decode s end
            end
          else if starts_with ($"2.0") version then
            match data with
            | None => Err Ex_Attribute
            | Some d =>
                match xtext d with
                | None => Err Ex_Attribute
                | Some s =>
                    let* k := py_fromhex (py_strip py_uspace s) in
                    match attr_get ($"Hash") d with
                    | None => Err Ex_Key
                    | Some h =>
                        let* hb := py_fromhex h in
                        if str_eqb hb (firstn 4 (sha256 L k)) then Ok k else Err Ex_Assertion
                    end
                end
            end
          else Err Ex_Attribute
      end
  end.
(** common.py:155-171: plain key files. *)
Definition keyfile_plain (L : lib) (b : bytes) : res bytes :=
  let is_hex := match int16_of_str b with Ok _ => true | Err _ => false end in
  if (List.length b =? 32)%nat then Ok b
  else if (List.length b =? 64)%nat && is_hex then
    match unhex b with Ok k => Ok k | Err _ => Err Ex_IO end
  else Ok (sha256 L b).
(** common.py:137-171 *)
Definition keyfile_composite (L : lib) (b : bytes) : res bytes :=
  match keyfile_xml L b with
  | Err Ex_XMLSyntax | Err Ex_UnicodeDecode | Err Ex_Attribute => keyfile_plain L b
  | r => r
  end.
(** common.py:119-177 *)
Definition key_composite (L : lib) (password : option str) (keyfile : kfsrc) : res bytes :=
  let* pc := match password with
             | Some p => let* b := utf8_encode p in Ok (sha256 L b)
             | None => Ok []
             end in
  let* kb := kf_read keyfile in
  let* kc := match kb with Some b => keyfile_composite L b | None => Ok [] end in
  Ok (sha256 L (pc ++ kc)).
(** common.py:106-116.  ValueError for a key of a wrong size. *)
Definition aes_kdf (L : lib) (key : bytes) (rounds : N) (composite : bytes) : res bytes :=
  if aes_key_ok key then Ok (sha256 L (N.iter rounds (aes_ecb L key) composite)) else Err Ex_Value.
