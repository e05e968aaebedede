(** C108: what a text is written as, and which master passwords there are. *)
From Verif Require Import Base Utf8 Lib Keyfile Kdbx KdbxSpec UnicodeSpec Unicode Toy Toy_facts.
Theorem c108_encoding : forall s b, utf8_encode s = Ok b <-> spelled s b.
Proof. exact encode_spelled. Qed.
Print Assumptions c108_encoding.
Theorem c108_decoding : forall s b, utf8_decode b = Ok s <-> spelled s b.
Proof. exact decode_spelled. Qed.
Print Assumptions c108_decoding.
(** Without a key file the key is made of the UTF-8 bytes of the password, and of nothing else. *)
Theorem c108_password : forall L p k, key_composite L (Some p) KF_none = Ok k <-> exists b, spelled p b /\ k = sha256 L (sha256 L b).
Proof. exact password_key. Qed.
Print Assumptions c108_password.
Theorem c108_passwords_apart : forall p q b, spelled p b -> spelled q b -> p = q.
Proof. exact spelled_inj. Qed.
Print Assumptions c108_passwords_apart.
(** Exactly the texts without surrogates have an encoding. *)
Theorem c108_texts : forall s, python_str s -> ((exists b, spelled s b) <-> ~ Exists surrogate s).
Proof.
  intros s P. destruct (encode_cases s P) as [[[b H] N1]|[H E]].
  - apply encode_spelled in H. split; [auto|intros _; now exists b].
  - split; [intros (b & Hb); apply encode_spelled in Hb; congruence|contradiction].
Qed.
Print Assumptions c108_texts.
(** A password with a lone surrogate opens nothing and saves nothing: UnicodeEncodeError, and the database in memory is as before. *)
Theorem c108_surrogate_opens_nothing : forall L cr p d h r, c_pw cr = Some p -> c_tk cr = None -> python_str p -> Exists surrogate p -> p_header d = Ok (h, r) -> h_major h = 3 \/ h_major h = 4 ->
  open_kdbx L cr d = Err Ex_UnicodeEncode.
Proof. exact surrogate_open. Qed.
Print Assumptions c108_surrogate_opens_nothing.
Theorem c108_surrogate_saves_nothing : forall L cr p k b, c_pw cr = Some p -> c_tk cr = None -> python_str p -> Exists surrogate p -> k_body k = Some b -> h_major (k_hdr k) = 3 \/ h_major (k_hdr k) = 4 ->
  build_kdbx L cr k = (h_raw (k_hdr k), Err Ex_UnicodeEncode, k).
Proof. exact surrogate_save. Qed.
Print Assumptions c108_surrogate_saves_nothing.
(** A euro sign and a face; a password with a lone surrogate, a file and a database. *)
Example c108_ex : spelled [0x20AC; 0x1F600] [0xE2; 0x82; 0xAC; 0xF0; 0x9F; 0x98; 0x80] /\ python_str [97; 0xD83D] /\ Exists surrogate [97; 0xD83D] /\ (exists h r, p_header file4 = Ok (h, r) /\ h_major h = 4) /\ exists b, k_body k4 = Some b /\ h_major (k_hdr k4) = 4.
Proof.
  split; [apply c108_encoding; reflexivity|]. split; [repeat constructor|]. split; [right; left; split; [discriminate|reflexivity]|].
  split; [do 2 eexists; split; vm_compute; reflexivity|]. eexists. split; vm_compute; reflexivity.
Qed.
