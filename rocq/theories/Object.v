(** The PyKeePass object and its surroundings: opening, reading, saving, credentials, new databases
    (pykeepass.py:38-242, 912-933, 1031-1060).
    Simplifications: streams are byte strings with a position; a key file read from a stream is read before the database
    is; bytes given as a file name do not name a file; text given as a file name is a [path] (Save.v). *)
From Verif Require Import Base PyStr Xml Tree XPath Db Time Api Lib Keyfile Construct Kdbx Kdbx_file Save.

(** An object with read, write and tell methods. *)
Record stream := MkStream { st_data : bytes; st_pos : nat; st_seek : bool }.
Record world := MkWorld { w_fs : fs; w_st : nat -> stream }.
Definition with_fs (w : world) (s : fs) : world := MkWorld s (w_st w).
Definition with_stream (w : world) (n : nat) (s : stream) : world := MkWorld (w_fs w) (fun m => if (m =? n)%nat then s else w_st w m).

(** A [filename] argument or attribute: falsy (None, the empty string), a path, a stream, a non-empty bytes object. *)
Inductive fname := F_none | F_path (p : path) | F_stream (n : nat) | F_bytes (b : bytes).
(** A [keyfile] argument or attribute: falsy, a path, a stream. *)
Inductive kfname := N_none | N_path (p : path) | N_stream (n : nat).
Definition kf_src (w : world) (k : kfname) : kfsrc :=
  match k with
  | N_none => KF_none
  | N_path p => KF_path (w_fs w p)
  | N_stream n => KF_stream (st_seek (w_st w n)) (st_data (w_st w n)) (st_pos (w_st w n))
  end.
(** Whether key derivation looks at the key file: kdbx4.py:63-75 always, kdbx3.py:55-65 without a transformed key. *)
Definition reads_kf (major : N) (tk : option bytes) : bool := (major =? 4) || ((major =? 3) && match tk with None => true | Some _ => false end).
(** The key file stream after a call: read to its end (common.py:128-136). *)
Definition kf_after (used : bool) (w : world) (k : kfname) : world :=
  match k with
  | N_stream n => if used then with_stream w n (MkStream (st_data (w_st w n)) (List.length (st_data (w_st w n))) (st_seek (w_st w n))) else w
  | _ => w
  end.

(** The attributes _password, _keyfile, filename, kdbx; [o_filename] and [o_kdbx] may not exist yet.  [kdbx] is what was
    parsed, with the live document and binaries (Db.v) if it was decrypted. *)
Record obj := MkObj { o_password : option str; o_keyfile : kfname; o_filename : option fname; o_kdbx : option (kdbx * option db) }.
(** The live part of a parsed database. *)
Definition load (k : kdbx) : option db :=
  match doc_of k with
  | Some t => let '(e, n) := label O t in Some (MkDb (h_major (k_hdr k)) (h_minor (k_hdr k)) (bins_of k) [e] n)
  | None => None
  end.
(** ... and back: what is built on saving. *)
Definition current (c : kdbx * option db) : kdbx :=
  match c with
  | (k, Some d) => match d_forest d with t :: _ => edited k (d_bins d) (erase t) | [] => k end
  | (k, None) => k
  end.

Section Object.
Variable L : lib.
Variable R : regex.
(** How far a failing parse reads a stream. *)
Variable lost : bytes -> nat.

(** What KDBX.parse_stream / parse_file read (pykeepass.py:98-114): TypeError for None, OSError without such a file. *)
Definition source (w : world) (f : fname) : res bytes :=
  match f with
  | F_none => Err Ex_Type
  | F_path p => match w_fs w p with Some b => Ok b | None => Err Ex_IO end
  | F_stream n => Ok (skipn (st_pos (w_st w n)) (st_data (w_st w n)))
  | F_bytes _ => Err Ex_IO
  end.
Definition skip (w : world) (f : fname) (k : nat) : world :=
  match f with
  | F_stream n => let s := w_st w n in with_stream w n (MkStream (st_data s) (st_pos s + k) (st_seek s))
  | _ => w
  end.
Definition parsed_major (d : bytes) : N := match p_header d with Ok (h, _) => h_major h | Err _ => 0 end.
(** pykeepass.py:81-137: the attributes are assigned before anything is parsed. *)
Definition read (w : world) (o : obj) (fn : fname) (pw : option str) (kf : kfname) (tk : option bytes) (dec : bool) : res unit * obj * world :=
  match (match fn with F_none => o_filename o | _ => Some fn end) with
  | None => (Err Ex_Attribute, MkObj pw kf None (o_kdbx o), w)
  | Some f =>
      match source w f with
      | Err e => (Err e, MkObj pw kf (Some f) (o_kdbx o), w)
      | Ok data =>
          let w' := kf_after (reads_kf (parsed_major data) tk) w kf in
          match open_kdbx L (MkCreds pw (kf_src w kf) tk dec) data with
          | Ok (k, rest) => (Ok tt, MkObj pw kf (Some f) (Some (k, load k)), skip w' f (List.length data - List.length rest))
          | Err e => (Err e, MkObj pw kf (Some f) (o_kdbx o), skip w' f (lost data))
          end
      end
  end.
(** pykeepass.py:63-72: no object results when reading fails. *)
Definition fresh : obj := MkObj None N_none None None.
Definition open_db (w : world) (fn : fname) (pw : option str) (kf : kfname) (tk : option bytes) (dec : bool) : res obj * world :=
  match read w fresh fn pw kf tk dec with
  | (Ok _, o, w) => (Ok o, w)
  | (Err e, _, w) => (Err e, w)
  end.
(** pykeepass.py:139-142 *)
Definition reload (w : world) (o : obj) : res unit * obj * world :=
  match o_filename o with
  | None => (Err Ex_Attribute, o, w)
  | Some f => read w o f (o_password o) (o_keyfile o) None true
  end.
(** Writing at the position of a stream (over what is there; a gap is filled with zeros). *)
Definition stream_write (s : stream) (b : bytes) : stream :=
  let d := st_data s ++ repeat 0 (st_pos s - List.length (st_data s)) in
  MkStream (firstn (st_pos s) d ++ b ++ skipn (st_pos s + List.length b) d) (st_pos s + List.length b) (st_seek s).
(** pykeepass.py:144-182.  Building changes nothing in memory (Object_facts.v:build_keeps).  The key file is read while the
    temporary file is open already. *)
Definition save (e : env) (w : world) (o : obj) (fn : fname) (tk : option bytes) : res unit * obj * world :=
  match (match fn with F_none => o_filename o | _ => Some fn end), o_kdbx o with
  | Some (F_path p), Some c =>
      match tmp_of p with
      | Err x => (Err x, o, w)
      | Ok tmp =>
          let w1 := with_fs w (fs_set (w_fs w) tmp (Some [])) in
          let b := fst (build_kdbx L (MkCreds (o_password o) (kf_src w1 (o_keyfile o)) tk true) (current c)) in
          let '(ops, r) := save_ops e (w_fs w) p (fst b) (snd b) in
          (r, o, kf_after (e_open e && reads_kf (h_major (k_hdr (fst c))) tk) (with_fs w (run (w_fs w) ops)) (o_keyfile o))
      end
  | Some (F_stream n), Some c =>
      let b := fst (build_kdbx L (MkCreds (o_password o) (kf_src w (o_keyfile o)) tk true) (current c)) in
      let w' := kf_after (reads_kf (h_major (k_hdr (fst c))) tk) w (o_keyfile o) in
      (snd b, o, with_stream w' n (stream_write (w_st w' n) (fst b)))
  | Some F_none, Some _ | Some (F_bytes _), Some _ => (Err Ex_Type, o, w)
  | _, _ => (Err Ex_Attribute, o, w)
  end.

(** pykeepass.py:231-242: the payload, and with it the document *)
Definition payload_of (o : obj) : res db :=
  match o_kdbx o with
  | Some (k, Some d) => Ok d
  | Some (k, None) => match k_body k with Some _ => Err Ex_Value | None => Err Ex_Attribute end
  | None => Err Ex_Attribute
  end.
(** A call of the element API (Api.v) on the database of an object. *)
Definition call {A} (m : M A) (o : obj) : res A * obj :=
  match o_kdbx o, payload_of o with
  | Some (k, _), Ok d => let '(r, d') := m d in (r, MkObj (o_password o) (o_keyfile o) (o_filename o) (Some (k, Some d')))
  | _, Err e => (Err e, o)
  | None, _ => (Err Ex_Attribute, o)
  end.
(** pykeepass.py:919-922, 929-932; [t] is the present time *)
Definition set_pw (t : dt) (pw : option str) (o : obj) : res unit * obj :=
  call (set_credchange_date R t) (MkObj pw (o_keyfile o) (o_filename o) (o_kdbx o)).
Definition set_kf (t : dt) (kf : kfname) (o : obj) : res unit * obj :=
  call (set_credchange_date R t) (MkObj (o_password o) kf (o_filename o) (o_kdbx o)).
(** [obj.filename = fn] *)
Definition set_filename (fn : fname) (o : obj) : obj := MkObj (o_password o) (o_keyfile o) (Some fn) (o_kdbx o).
(** pykeepass.py:1031-1060; [blank_at]: BLANK_DATABASE_LOCATION; [t1], [t2]: the times of the two assignments.  The transformed
    key is passed to save as its file name. *)
Definition tk_as_name (tk : option bytes) : fname := match tk with Some (c :: b) => F_bytes (c :: b) | _ => F_none end.
Definition create_database (e : env) (w : world) (blank_at : path) (t1 t2 : dt) (fn : fname) (pw : option str) (kf : kfname) (tk : option bytes) : res obj * world :=
  match open_db w (F_path blank_at) (Some $"password") N_none None true with
  | (Err x, w) => (Err x, w)
  | (Ok o, w) =>
      match set_pw t1 pw (set_filename fn o) with
      | (Err x, _) => (Err x, w)
      | (Ok _, o) =>
          match set_kf t2 kf o with
          | (Err x, _) => (Err x, w)
          | (Ok _, o) =>
              match save e w o (tk_as_name tk) None with
              | (Ok _, o, w) => (Ok o, w)
              | (Err x, _, w) => (Err x, w)
              end
          end
      end
  end.

(** pykeepass.py:184-229: properties of the header (the algorithm names are those of the enumerations) *)
Definition version (o : obj) : res (N * N) := match o_kdbx o with Some (k, _) => Ok (h_major (k_hdr k), h_minor (k_hdr k)) | None => Err Ex_Attribute end.
Definition encryption_algorithm (o : obj) : res cipher := match o_kdbx o with Some (k, _) => hcipher (k_hdr k) | None => Err Ex_Attribute end.
Definition transformed_key (o : obj) : res bytes :=
  match o_kdbx o with Some (k, _) => match k_body k with Some b => Ok (b_tkey b) | None => Err Ex_Attribute end | None => Err Ex_Attribute end.
Definition database_salt (o : obj) : res vval :=
  match o_kdbx o with
  | Some (k, _) =>
      if (h_major (k_hdr k) =? 3) && (h_minor (k_hdr k) =? 1) then let* s := hbytes Ex_Attribute (k_hdr k) H_tseed in Ok (VV_bytes s)
      else let* kdf := hkdf (k_hdr k) in vget ($"S") kdf
  | None => Err Ex_Attribute
  end.
Inductive kdfname := K_aes | K_argon2 | K_argon2id.
(** None for other versions and other identifiers *)
Definition kdf_algorithm (o : obj) : res (option kdfname) :=
  match o_kdbx o with
  | Some (k, _) =>
      let h := k_hdr k in
      if (h_major h =? 3) && (h_minor h =? 1) then Ok (Some K_aes)
      else if (h_major h =? 4) && (h_minor h =? 0) then
        let* kdf := hkdf h in
        let* u := vget ($"$UUID") kdf in
        Ok (if is_bytes u kdf_argon2 then Some K_argon2 else if is_bytes u kdf_argon2id then Some K_argon2id else if is_bytes u kdf_aes then Some K_aes else None)
      else Ok None
  | None => Err Ex_Attribute
  end.
End Object.
