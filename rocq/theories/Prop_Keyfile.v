(** Property theorems C24-C27 (statements; proofs in Keyfile_facts.v).  [not_xml L b]: the XML parser rejects [b]. *)
From Verif Require Import Base Base64 PyStr Utf8 Xml Lib Keyfile KeyfileSpec Keyfile_facts Construct Kdbx Kdbx_keyfile Toy Toy_facts.

(** C24 *)
Theorem c24_raw_key : forall L b, not_xml L b -> List.length b = 32%nat -> keyfile_composite L b = Ok b.
Proof. exact plain_32. Qed.
Print Assumptions c24_raw_key.
Theorem c24_hex_key : forall L b k, not_xml L b -> spells b k -> List.length k = 32%nat -> keyfile_composite L b = Ok k.
Proof. exact plain_hex. Qed.
Print Assumptions c24_hex_key.
Theorem c24_hashed_file : forall L b, not_xml L b -> List.length b <> 32%nat -> List.length b <> 64%nat \/ (forall z, int16_of_str b <> Ok z) -> keyfile_composite L b = Ok (sha256 L b).
Proof. exact plain_other. Qed.
Print Assumptions c24_hashed_file.
Theorem c24_xml_version_1 : forall L b t rest da k, kf_parse L b = Ok t -> keydoc t ($"1.0" ++ rest) (X ($"Data") da (Some (b64encode k)) []) -> bytes_ok k -> keyfile_composite L b = Ok k.
Proof. exact xml_v1. Qed.
Print Assumptions c24_xml_version_1.
Theorem c24_xml_version_2 : forall L b t rest da a s z k h hb, kf_parse L b = Ok t -> keydoc t ($"2.0" ++ rest) (X ($"Data") da (Some (a ++ s ++ z)) []) ->
  forallb py_uspace a = true -> forallb py_uspace z = true -> spells s k -> attr_get ($"Hash") (X ($"Data") da (Some (a ++ s ++ z)) []) = Some h -> spells h hb ->
  keyfile_composite L b = if list_eq_dec N.eq_dec hb (firstn 4 (sha256 L k)) then Ok k else Err Ex_Assertion.
Proof. exact xml_v2. Qed.
Print Assumptions c24_xml_version_2.
Theorem c24_other_xml : forall L b t, kf_parse L b = Ok t -> (forall e, In e (xkids t) -> xtag e <> $"Meta") -> keyfile_composite L b = keyfile_plain L b.
Proof. exact xml_other. Qed.
Print Assumptions c24_other_xml.
Definition toy_key : bytes := map N.of_nat (seq 200 32).
Definition kf1 : bytes := $"<KeyFile><Meta><Version>1.00</Version></Meta><Key><Data>AAEC/w==</Data></Key></KeyFile>".
Definition kf2 : bytes := $"<KeyFile><Meta><Version>2.0</Version></Meta><Key><Data Hash='d702d702'> 00 01fF </Data></Key></KeyFile>".
Example c24_ex : not_xml toy toy_key /\ keyfile_composite toy toy_key = Ok toy_key /\
  not_xml toy (hex_up toy_key) /\ spells (hex_up toy_key) toy_key /\ keyfile_composite toy (hex_up toy_key) = Ok toy_key /\
  keyfile_composite toy ($"hello") = Ok (sha256 toy ($"hello")) /\ keyfile_composite toy kf1 = Ok [0; 1; 2; 255].
Proof.
  split; [right; vm_compute; reflexivity|]. split; [vm_compute; reflexivity|]. split; [left; vm_compute; reflexivity|].
  split; [apply (unhex_spells 64); vm_compute; [repeat constructor|reflexivity]|]. repeat split; vm_compute; reflexivity.
Qed.
Example c24_ex2 : keyfile_composite toy kf2 = Ok [0; 1; 255].
Proof. vm_compute. reflexivity. Qed.

(** C25: refuted; exactly which plain files are rejected. *)
Theorem c25_every_file_accepted_refuted : exists L b, lib_ok L /\ not_xml L b /\ bytes_ok b /\ keyfile_composite L b = Err Ex_IO.
Proof. exists toy, ($"0x" ++ repeat 49 62). split; [exact toy_ok|]. split; [left; vm_compute; reflexivity|]. split; [apply all_bytesb_ok; reflexivity|vm_compute; reflexivity]. Qed.
Print Assumptions c25_every_file_accepted_refuted.
(** Missing: files of 64 bytes that int(_, 16) accepts but that are not 64 hexadecimal digits (false, above). *)
Theorem c25_every_file_accepted_partial : forall L b e, not_xml L b -> keyfile_composite L b = Err e ->
  e = Ex_IO /\ List.length b = 64%nat /\ (exists z, int16_of_str b = Ok z) /\ forall k, ~ spells b k.
Proof. exact plain_rejected. Qed.
Print Assumptions c25_every_file_accepted_partial.

(** C26 *)
Theorem c26_none_is_not_empty : forall L kf a b, lib_ok L -> key_composite L None kf = Ok a -> key_composite L (Some []) kf = Ok b ->
  exists m1 m2, m1 <> m2 /\ a = sha256 L m1 /\ b = sha256 L m2.
Proof. exact none_vs_empty. Qed.
Print Assumptions c26_none_is_not_empty.
Theorem c26_distinct_passwords : forall L p q a, lib_ok L -> p <> q -> key_composite L (Some p) KF_none = Ok a -> key_composite L (Some q) KF_none = Ok a ->
  exists m1 m2, m1 <> m2 /\ sha256 L m1 = sha256 L m2.
Proof. exact passwords_collide. Qed.
Print Assumptions c26_distinct_passwords.
(** How password and key file enter the composite. *)
Theorem c26_composite : forall L kf kc, (let* kb := kf_read kf in match kb with Some b => keyfile_composite L b | None => Ok [] end) = Ok kc ->
  key_composite L None kf = Ok (sha256 L kc) /\ forall p pb, utf8_encode p = Ok pb -> key_composite L (Some p) kf = Ok (sha256 L (sha256 L pb ++ kc)).
Proof. exact composite_none. Qed.
Print Assumptions c26_composite.
Example c26_ex : exists a b, key_composite toy None (KF_path (Some toy_key)) = Ok a /\ key_composite toy (Some []) (KF_path (Some toy_key)) = Ok b /\ a <> b.
Proof. do 2 eexists. split; [vm_compute; reflexivity|]. split; [vm_compute; reflexivity|discriminate]. Qed.

(** C27: for a seekable stream at any position, at the first and every later use. *)
Theorem c27_keyfile_stream_refuted : exists L h b, lib_ok L /\ h_major h = 4 /\
  transformed4 L (MkCreds None (KF_stream false b 0) None true) h <> transformed4 L (MkCreds None (KF_path (Some b)) None true) h.
Proof. exists toy, (k_hdr k4), ($"secret"). split; [exact toy_ok|]. split; [reflexivity|]. vm_compute. discriminate. Qed.
Print Assumptions c27_keyfile_stream_refuted.
(** Missing: streams that cannot be rewound (false, above). *)
Theorem c27_keyfile_stream_partial : forall L h pw tk d b pos n, let kf := Nat.iter n kf_next (KF_stream true b pos) in
  transformed4 L (MkCreds pw kf tk d) h = transformed4 L (MkCreds pw (KF_path (Some b)) tk d) h /\
  transformed3 L (MkCreds pw kf tk d) h = transformed3 L (MkCreds pw (KF_path (Some b)) tk d) h.
Proof. exact seekable_stream. Qed.
Print Assumptions c27_keyfile_stream_partial.
Example c27_ex : exists k, transformed4 toy (MkCreds None (KF_stream true ($"secret") 3) None true) (k_hdr k4) = Ok k.
Proof. eexists. vm_compute. reflexivity. Qed.
