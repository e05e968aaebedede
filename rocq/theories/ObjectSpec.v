(** Vocabulary for the statements about the database object (Prop_Object.v). *)
From Verif Require Import Base PyStr Xml Tree XPath Time Db Api IntegritySpec Lib Keyfile Kdbx Kdbx_inner Kdbx_file Kdbx_v3 Kdbx_rt KdbxSpec Save Object Clean.

(** The XML library only returns well-formed documents. *)
Definition xml_sound (L : lib) : Prop := forall b t, xml_parse L b = Ok t -> xml_ok t = true.
(** Files and streams hold bytes. *)
Definition bytes_world (w : world) : Prop := (forall p b, w_fs w p = Some b -> bytes_ok b) /\ forall n, bytes_ok (st_data (w_st w n)).
(** The document of a database in memory, and of an object. *)
Definition document (d : db) : option xml := option_map erase (hd_error (d_forest d)).
(** Objects that calls can produce: a successful open, then any calls, whether they return or raise, with any files and streams
    at each of them (and attachments that fit the format). *)
Inductive reached (L : lib) (R : regex) (Zl : zlib) (lost : bytes -> nat) : obj -> Prop :=
| R_open w fn pw kf tk dec o w' : bytes_world w -> open_db L lost w fn pw kf tk dec = (Ok o, w') -> reached L R Zl lost o
| R_read w o fn pw kf tk dec : reached L R Zl lost o -> bytes_world w -> reached L R Zl lost (snd (fst (read L lost w o fn pw kf tk dec)))
| R_reload w o : reached L R Zl lost o -> bytes_world w -> reached L R Zl lost (snd (fst (reload L lost w o)))
| R_save e w o fn tk : reached L R Zl lost o -> reached L R Zl lost (snd (fst (save L e w o fn tk)))
| R_call C c o : reached L R Zl lost o -> fits_call c -> reached L R Zl lost (snd (call (IntegritySpec.run R Zl C c) o))
| R_password t pw o : reached L R Zl lost o -> reached L R Zl lost (snd (set_pw R t pw o))
| R_keyfile t kf o : reached L R Zl lost o -> reached L R Zl lost (snd (set_kf R t kf o))
| R_filename fn o : reached L R Zl lost o -> reached L R Zl lost (set_filename fn o).
(** The key that a password, a key file and a transformed key give for a file with header [h]. *)
Definition key_for (L : lib) (w : world) (pw : option str) (kf : kfname) (tk : option bytes) (h : header) : res bytes :=
  let cr := MkCreds pw (kf_src w kf) tk true in if h_major h =? 3 then transformed3 L cr h else transformed4 L cr h.
(** A call of save with file name argument [fn] concerns the path [p]. *)
Definition goes_to (o : obj) (fn : fname) (p : path) : Prop := fn = F_path p \/ (fn = F_none /\ o_filename o = Some (F_path p)).
(** The target keeps apart from its temporary sibling [tmp], and the key file from [tmp]. *)
Definition apart (p tmp : path) (kf : kfname) : Prop := tmp_of p = Ok tmp /\ tmp <> p /\ kf <> N_path tmp.
(** The key file can be read again after a save to [p]: not the target itself, and a stream only if seekable. *)
Definition steady (w : world) (p : path) (kf : kfname) : Prop :=
  match kf with N_none => True | N_path q => q <> p | N_stream n => st_seek (w_st w n) = true end.
(** Below the limits of the block formats (2^51 bytes) ... *)
Definition sizes (L : lib) (k : kdbx) (key : bytes) : Prop := (h_major (k_hdr k) = 4 -> fits4 L k key) /\ (h_major (k_hdr k) = 3 -> fits3 L k).
(** ... and below those of the parser with which the file will be opened. *)
Definition moderate (L : lib) (k : kdbx) (key : bytes) : Prop := sizes L k key /\ forall t, doc_of k = Some t -> modest t = true.
(** What a written document looks like when read back: empty texts are absent, white space between elements is dropped. *)
Definition shown (k : kdbx) (t : xml) : xml := match stream_id_of k with Ok s => view_for s t | Err _ => t end.
(** [o2] has the contents of the database [k, d], as a file. *)
Definition same_contents (k : kdbx) (d : db) (o2 : obj) : Prop := exists k2 d2,
  o_kdbx o2 = Some (k2, Some d2) /\ k_hdr k2 = k_hdr k /\ document d2 = option_map (shown k) (document d) /\ (h_major (k_hdr k) = 4 -> d_bins d2 = d_bins d).
(** Everything but the position of a stream. *)
Definition same_fs (w w' : world) : Prop := forall p, w_fs w' p = w_fs w p.
