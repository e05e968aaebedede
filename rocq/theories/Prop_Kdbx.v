(** Property theorems about the file formats: C07-C20, C28-C30, C72, C75 (statements; proofs in Kdbx_claims.v and the
    files it imports).  Vocabulary: [opened v L cr data k], [saves L cr k out] (Kdbx_claims.v), [edited k bins t] = [k]
    with other XML content and binaries, [reload_view], [frames], [block_tag], ... (KdbxSpec.v).  [L] stands for the
    external libraries (crypto, gzip, XML), constrained only by [lib_ok] (Lib.v); toy (Toy.v) satisfies it. *)
From Verif Require Import Base Base64 PyStr Utf8 Xml Xml_facts Cbc Cbc_facts Lib Keyfile Construct Kdbx KdbxSpec Kdbx_facts Kdbx_rt Kdbx_inner Kdbx_file Kdbx_v3 Kdbx_auth Kdbx_claims Toy Toy_facts.

(** C07 *)
Theorem c07_blocks4_lossless : forall L seed tk d out following, lib_ok L -> build_blocks4 L seed tk d = Ok out ->
  blocks4 L seed tk (out ++ following) = Ok (d, following).
Proof. exact blocks4_build. Qed.
Print Assumptions c07_blocks4_lossless.
Theorem c07_blocks4_written : forall L seed tk d, lenN d <= 2 ^ 83 -> exists out, build_blocks4 L seed tk d = Ok out.
Proof. exact build4_fits. Qed.
Print Assumptions c07_blocks4_written.
(** The written bytes: 1 MiB blocks, each preceded by its HMAC (bound to number and length) and length, then an empty block. *)
Theorem c07_blocks4_layout : forall L seed tk d out, build_blocks4 L seed tk d = Ok out ->
  exists bs, mib_blocks d bs /\ out = frames (tagged L seed tk 0 bs).
Proof. exact layout4. Qed.
Print Assumptions c07_blocks4_layout.
Example c07_ex : exists out, build_blocks4 toy [1] [2] [5; 6; 7] = Ok out /\ List.length out = 75%nat.
Proof. eexists. split; vm_compute; reflexivity. Qed.

(** C08 *)
Theorem c08_blocks3_lossless : forall L d out following, lib_ok L -> build_blocks3 L d = Ok out ->
  blocks3 L (out ++ following) = Ok (d, following).
Proof. exact blocks3_build. Qed.
Print Assumptions c08_blocks3_lossless.
Theorem c08_blocks3_written : forall L d, lenN d <= 2 ^ 51 -> exists out, build_blocks3 L d = Ok out.
Proof. exact build3_fits. Qed.
Print Assumptions c08_blocks3_written.
Theorem c08_blocks3_layout : forall L d out, build_blocks3 L d = Ok out ->
  exists l, mib_blocks d (l ++ [[]]) /\ out = frames3 L 0 l ++ frame3 (lenN l) (repeat 0 32) [].
Proof. exact layout3. Qed.
Print Assumptions c08_blocks3_layout.
Example c08_ex : exists out, build_blocks3 toy [5; 6; 7] = Ok out /\ List.length out = 83%nat.
Proof. eexists. split; vm_compute; reflexivity. Qed.

(** C09: any change of the XML content and of the binaries, any new credentials [cr'] whose derived key is [tk]; the
    saved bytes open (even with bytes following) with every credentials deriving [tk]. *)
Theorem c09_save_open_kdbx4 : forall L cr data k cr' tk bins t,
  lib_ok L -> opened 4 L cr data k -> transformed4 L cr' (k_hdr k) = Ok tk ->
  xml_ok t = true -> modest t = true -> Forall small bins -> fits4 L (edited k bins t) tk ->
  exists out, saves L cr' (edited k bins t) out /\
    forall cr2 trail, c_dec cr2 = true -> transformed4 L cr2 (k_hdr k) = Ok tk ->
      exists k2 s, open_kdbx L cr2 (out ++ trail) = Ok (k2, trail) /\ k_hdr k2 = k_hdr k /\ bins_of k2 = bins /\
        stream_id_of k = Ok s /\ stream_id_of k2 = Ok s /\ doc_of k2 = Some (view_for s t).
Proof. exact claim_c09. Qed.
Print Assumptions c09_save_open_kdbx4.
(** What is read back ([reload_view]) is a fixed point: later saves change nothing any more. *)
Theorem c09_content_stable : forall t, reload_view (reload_view t) = reload_view t.
Proof. exact reload_view_idem. Qed.
Print Assumptions c09_content_stable.
Example c09_ex : lib_ok toy /\ opened 4 toy sample_cr file4 k4 /\ transformed4 toy sample_cr (k_hdr k4) = Ok tk4 /\
  xml_ok sample_doc2 = true /\ modest sample_doc2 = true /\ Forall small new_bins /\ fits4 toy (edited k4 new_bins sample_doc2) tk4.
Proof. exact (conj toy_ok (conj opened_k4 (conj tk4_ok (conj eq_refl (conj eq_refl (conj small_bins fits_k4)))))). Qed.

(** C10 *)
Theorem c10_save_open_kdbx3 : forall L cr data k cr' tk bins t,
  lib_ok L -> opened 3 L cr data k -> transformed3 L cr' (k_hdr k) = Ok tk -> xml_ok t = true -> modest t = true -> fits3 L (edited k bins t) ->
  exists out, saves L cr' (edited k bins t) out /\
    forall cr2, c_dec cr2 = true -> transformed3 L cr2 (k_hdr k) = Ok tk ->
      exists k2 s, open_kdbx L cr2 out = Ok (k2, []) /\ k_hdr k2 = k_hdr k /\
        stream_id_of k = Ok s /\ stream_id_of k2 = Ok s /\ doc_of k2 = Some (view_for s t).
Proof. exact claim_c10. Qed.
Print Assumptions c10_save_open_kdbx3.
Example c10_ex : lib_ok toy /\ opened 3 toy sample_cr file3 k3 /\ transformed3 toy sample_cr (k_hdr k3) = Ok tk3 /\
  xml_ok sample_doc2 = true /\ modest sample_doc2 = true /\ fits3 toy (edited k3 [] sample_doc2).
Proof. exact (conj toy_ok (conj opened_k3 (conj tk3_ok (conj eq_refl (conj eq_refl fits_k3))))). Qed.

(** C11 *)
Theorem c11_accepted_is_authentic : forall L cr data k, lib_ok L -> opened 4 L cr data k ->
  exists tk seed bs rest, transformed4 L cr (k_hdr k) = Ok tk /\ hbytes Ex_Attribute (k_hdr k) H_seed = Ok seed /\
    data = h_raw (k_hdr k) ++ sha256 L (h_raw (k_hdr k)) ++ head_tag L seed tk (h_raw (k_hdr k)) ++ frames (tagged L seed tk 0 bs) ++ rest /\
    ends_empty bs /\ Forall (fun b => lenN b < 2 ^ 32) bs.
Proof. exact claim_c11. Qed.
Print Assumptions c11_accepted_is_authentic.
Theorem c11_tags_bind_content : forall L cr d1 d2 k1 k2 raw hh tags1 tags2 r1 r2, lib_ok L -> opened 4 L cr d1 k1 -> opened 4 L cr d2 k2 ->
  h_raw (k_hdr k1) = raw -> h_raw (k_hdr k2) = raw ->
  List.length hh = 64%nat -> d1 = raw ++ hh ++ frames tags1 ++ r1 -> d2 = raw ++ hh ++ frames tags2 ++ r2 -> map fst tags1 = map fst tags2 ->
  Forall (fun tb => List.length (fst tb) = 32%nat /\ lenN (snd tb) < 2 ^ 32) tags1 -> Forall (fun tb => List.length (fst tb) = 32%nat /\ lenN (snd tb) < 2 ^ 32) tags2 ->
  ends_empty (map snd tags1) -> ends_empty (map snd tags2) ->
  k1 = k2 \/ exists key m m', m <> m' /\ hmac256 L key m = hmac256 L key m'.
Proof. exact claim_c11_binding. Qed.
Print Assumptions c11_tags_bind_content.
Example c11_ex : opened 4 toy sample_cr file4 k4. Proof. exact opened_k4. Qed.

(** C12 *)
Theorem c12_wrong_credentials : forall L cr cr2 data k tk2, lib_ok L -> opened 4 L cr data k -> c_dec cr2 = true -> transformed4 L cr2 (k_hdr k) = Ok tk2 ->
  open_kdbx L cr2 data = Err Ex_Credentials \/
  exists tk seed, transformed4 L cr (k_hdr k) = Ok tk /\ hbytes Ex_Attribute (k_hdr k) H_seed = Ok seed /\
    head_tag L seed tk2 (h_raw (k_hdr k)) = head_tag L seed tk (h_raw (k_hdr k)).
Proof. exact claim_c12. Qed.
Print Assumptions c12_wrong_credentials.
Example c12_ex : opened 4 toy sample_cr file4 k4 /\ (exists tk2, transformed4 toy wrong_cr (k_hdr k4) = Ok tk2) /\ open_kdbx toy wrong_cr file4 = Err Ex_Credentials.
Proof. split; [exact opened_k4|]. split; [eexists; vm_compute; reflexivity|vm_compute; reflexivity]. Qed.

(** C13: whatever credentials the truncated file is opened with. *)
Theorem c13_truncated_kdbx4 : forall L cr data k cr' tk bins t,
  lib_ok L -> opened 4 L cr data k -> transformed4 L cr' (k_hdr k) = Ok tk ->
  xml_ok t = true -> modest t = true -> Forall small bins -> fits4 L (edited k bins t) tk ->
  exists out, saves L cr' (edited k bins t) out /\
    forall cr2 pre suf, c_dec cr2 = true -> out = pre ++ suf -> suf <> [] -> exists e, open_kdbx L cr2 pre = Err e.
Proof. exact claim_c13. Qed.
Print Assumptions c13_truncated_kdbx4.
Example c13_ex : lib_ok toy /\ opened 4 toy sample_cr file4 k4 /\ fits4 toy (edited k4 new_bins sample_doc2) tk4 /\
  open_kdbx toy sample_cr (removelast file4) = Err Ex_Stream.
Proof. split; [exact toy_ok|]. split; [exact opened_k4|]. split; [exact fits_k4|]. vm_compute. reflexivity. Qed.

(** C14 *)
Theorem c14_truncated_kdbx3 : forall L cr data k cr' tk bins t,
  lib_ok L -> opened 3 L cr data k -> transformed3 L cr' (k_hdr k) = Ok tk -> xml_ok t = true -> modest t = true -> fits3 L (edited k bins t) ->
  exists out s, saves L cr' (edited k bins t) out /\ stream_id_of k = Ok s /\
    forall cr2 pre suf k2 r2, c_dec cr2 = true -> transformed3 L cr2 (k_hdr k) = Ok tk -> out = pre ++ suf ->
      open_kdbx L cr2 pre = Ok (k2, r2) -> k_hdr k2 = k_hdr k /\ doc_of k2 = Some (view_for s t).
Proof. exact claim_c14. Qed.
Print Assumptions c14_truncated_kdbx3.
(** A proper prefix that opens does exist: the last AES block may hold nothing but padding. *)
Example c14_ex : opened 3 toy sample_cr file3 k3 /\ fits3 toy (edited k3 [] sample_doc2) /\ open_kdbx toy sample_cr (firstn 500 file3) = Err Ex_Value /\
  let t := el ($"KeePassFile") [tx ($"Name") ($"Personal")] in
  exists out k2, saves toy sample_cr (edited k3 [] t) out /\ List.length out = 398%nat /\ open_kdbx toy sample_cr (firstn 382 out) = Ok (k2, []) /\ doc_of k2 = Some t.
Proof.
  split; [exact opened_k3|]. split; [exact fits_k3|]. split; [vm_compute; reflexivity|]. do 2 eexists.
  split; [eexists; vm_compute; reflexivity|]. split; [vm_compute; reflexivity|]. split; vm_compute; reflexivity.
Qed.

(** C15 *)
Theorem c15_trailing_bytes : forall L cr data k rest, open_kdbx L cr data = Ok (k, rest) -> h_major (k_hdr k) = 4 ->
  exists c, data = c ++ rest /\ forall more, open_kdbx L cr (c ++ more) = Ok (k, more).
Proof. exact claim_c15. Qed.
Print Assumptions c15_trailing_bytes.
Example c15_ex : open_kdbx toy sample_cr (file4 ++ [1; 2; 3]) = Ok (k4, [1; 2; 3]) /\ h_major (k_hdr k4) = 4.
Proof. split; vm_compute; reflexivity. Qed.

(** C16: with the block cipher AES the old bytes behind the new database are decrypted as well. *)
Theorem c16_kdbx3_over_longer_stream_refuted : exists L cr data k trail, lib_ok L /\ opened 3 L cr data k /\
  open_kdbx L cr (data ++ trail) = Err Ex_Value.
Proof. exists toy, sample_cr, file3, k3, [0]. split; [exact toy_ok|]. split; [exact opened_k3|]. vm_compute. reflexivity. Qed.
Print Assumptions c16_kdbx3_over_longer_stream_refuted.
Theorem c16_kdbx3_aes_unreadable : forall L cr data k cr' tk bins t,
  lib_ok L -> opened 3 L cr data k -> transformed3 L cr' (k_hdr k) = Ok tk -> xml_ok t = true -> fits3 L (edited k bins t) -> hcipher (k_hdr k) = Ok C_aes ->
  exists out, saves L cr' (edited k bins t) out /\
    forall cr2 trail, c_dec cr2 = true -> transformed3 L cr2 (k_hdr k) = Ok tk -> (List.length trail mod 16 <> 0)%nat ->
      open_kdbx L cr2 (out ++ trail) = Err Ex_Value.
Proof. exact claim_c16_aes. Qed.
Print Assumptions c16_kdbx3_aes_unreadable.
(** Missing: AES with old bytes not a multiple of 16 (false, above). *)
Theorem c16_kdbx3_over_longer_stream_partial : forall L cr data k cr' tk bins t,
  lib_ok L -> opened 3 L cr data k -> transformed3 L cr' (k_hdr k) = Ok tk -> xml_ok t = true -> modest t = true -> fits3 L (edited k bins t) ->
  exists out s, saves L cr' (edited k bins t) out /\ stream_id_of k = Ok s /\
    forall cr2 trail, c_dec cr2 = true -> transformed3 L cr2 (k_hdr k) = Ok tk ->
      (hcipher (k_hdr k) = Ok C_aes -> (List.length trail mod 16 = 0)%nat) ->
      exists k2, open_kdbx L cr2 (out ++ trail) = Ok (k2, []) /\ k_hdr k2 = k_hdr k /\ doc_of k2 = Some (view_for s t).
Proof. exact claim_c16. Qed.
Print Assumptions c16_kdbx3_over_longer_stream_partial.
Example c16_ex : opened 3 toy sample_cr file3c k3c /\ hcipher (k_hdr k3c) = Ok C_chacha /\ open_kdbx toy sample_cr (file3c ++ [1; 2; 3]) = Ok (k3c, []).
Proof. split; [exact opened_k3c|]. split; vm_compute; reflexivity. Qed.

(** C17.  [header4 h] / [header3 h]: [h] is a header the parser can produce. *)
Theorem c17_bad_signature : forall L cr s q, List.length s = 8%nat -> s <> [3; 217; 162; 154; 103; 251; 75; 181] -> open_kdbx L cr (s ++ q) = Err Ex_HeaderChecksum.
Proof. exact bad_signature. Qed.
Print Assumptions c17_bad_signature.
Theorem c17_bad_header_hash : forall L cr h tk seed s q, lib_ok L -> header4 h -> transformed4 L cr h = Ok tk -> hbytes Ex_Attribute h H_seed = Ok seed ->
  List.length s = 32%nat -> s <> sha256 L (h_raw h) -> open_kdbx L cr (h_raw h ++ s ++ q) = Err Ex_HeaderChecksum.
Proof. exact bad_header_hash. Qed.
Print Assumptions c17_bad_header_hash.
Theorem c17_bad_header_mac : forall L cr h tk seed m q, lib_ok L -> c_dec cr = true -> header4 h -> transformed4 L cr h = Ok tk -> hbytes Ex_Attribute h H_seed = Ok seed ->
  List.length m = 32%nat -> m <> head_tag L seed tk (h_raw h) -> open_kdbx L cr (h_raw h ++ sha256 L (h_raw h) ++ m ++ q) = Err Ex_Credentials.
Proof. exact bad_header_mac. Qed.
Print Assumptions c17_bad_header_mac.
Theorem c17_bad_block4 : forall L cr h tk seed comp c bs tag b q, lib_ok L -> c_dec cr = true -> header4 h -> transformed4 L cr h = Ok tk -> hbytes Ex_Attribute h H_seed = Ok seed ->
  hcomp h = Ok comp -> hcipher h = Ok c ->
  Forall (fun b => b <> [] /\ lenN b < 2 ^ 32) bs -> List.length tag = 32%nat -> lenN b < 2 ^ 32 -> tag <> block_tag L seed tk (lenN bs) b ->
  open_kdbx L cr (h_raw h ++ sha256 L (h_raw h) ++ head_tag L seed tk (h_raw h) ++ frames (tagged L seed tk 0 bs) ++ tag ++ le32 (lenN b) ++ b ++ q) = Err Ex_PayloadChecksum.
Proof. exact bad_block4. Qed.
Print Assumptions c17_bad_block4.
Theorem c17_bad_start3 : forall L cr h tk seed c iv q p ssb, c_dec cr = true -> header3 h -> transformed3 L cr h = Ok tk -> hbytes Ex_Attribute h H_seed = Ok seed ->
  hcipher h = Ok c -> hbytes Ex_Attribute h H_iv = Ok iv -> payload_decrypt L c (sha256 L (seed ++ tk)) iv q = Ok p ->
  hbytes Ex_Attribute h H_ssb = Ok ssb -> (32 <= List.length p)%nat -> firstn 32 p <> ssb -> open_kdbx L cr (h_raw h ++ q) = Err Ex_Credentials.
Proof. exact claim_c17_start3. Qed.
Print Assumptions c17_bad_start3.
Theorem c17_bad_block3 : forall L cr h tk seed c iv q ssb s comp bs hash b r, lib_ok L -> c_dec cr = true -> header3 h -> transformed3 L cr h = Ok tk -> hbytes Ex_Attribute h H_seed = Ok seed ->
  hcipher h = Ok c -> hbytes Ex_Attribute h H_iv = Ok iv -> payload_decrypt L c (sha256 L (seed ++ tk)) iv q = Ok (ssb ++ frames3 L 0 bs ++ frame3 (lenN bs) hash b ++ r) ->
  hbytes Ex_Attribute h H_ssb = Ok ssb -> List.length ssb = 32%nat -> hpsid h = Ok s -> hcomp h = Ok comp ->
  Forall (fun b => b <> [] /\ lenN b < 2 ^ 32) bs -> lenN bs < 2 ^ 32 -> List.length hash = 32%nat -> lenN b < 2 ^ 32 -> b <> [] -> hash <> sha256 L b ->
  open_kdbx L cr (h_raw h ++ q) = Err Ex_PayloadChecksum.
Proof. exact claim_c17_block3. Qed.
Print Assumptions c17_bad_block3.
Example c17_ex : header4 (k_hdr k4) /\ transformed4 toy sample_cr (k_hdr k4) = Ok tk4 /\ hbytes Ex_Attribute (k_hdr k4) H_seed = Ok (repeat 17 32) /\
  header3 (k_hdr k3) /\ hcipher (k_hdr k3) = Ok C_aes /\ open_kdbx toy sample_cr (0 :: tl file4) = Err Ex_HeaderChecksum /\
  open_kdbx toy wrong_cr file3 = Err Ex_Credentials.
Proof.
  split; [split; [reflexivity|exists file4; eexists; vm_compute; reflexivity]|]. split; [exact tk4_ok|]. split; [vm_compute; reflexivity|].
  split; [split; [reflexivity|exists file3; eexists; vm_compute; reflexivity]|]. repeat split; vm_compute; reflexivity.
Qed.

(** C18: whatever was edited, whatever the credentials, even when the save raises half-way. *)
Theorem c18_header_preserved : forall L cr data k r cr' bins t, open_kdbx L cr data = Ok (k, r) ->
  exists rest rest', data = h_raw (k_hdr k) ++ rest /\ fst (fst (build_kdbx L cr' (edited k bins t))) = h_raw (k_hdr k) ++ rest' /\
    p_header data = Ok (k_hdr k, rest) /\ p_header (fst (fst (build_kdbx L cr' (edited k bins t)))) = Ok (k_hdr k, rest').
Proof. exact claim_c18. Qed.
Print Assumptions c18_header_preserved.
Example c18_ex : opened 4 toy sample_cr file4 k4 /\ h_raw (k_hdr k4) = sample_head4 chacha_uuid 12.
Proof. split; [exact opened_k4|vm_compute; reflexivity]. Qed.

(** C19: refuted; a keystream cipher then encrypts two contents with the same keystream. *)
Theorem c19_fresh_randomness_refuted : exists L cr data k t1 t2 out1 out2 h1 h2 r1 r2, lib_ok L /\ opened 4 L cr data k /\
  saves L cr (edited k [] t1) out1 /\ saves L cr (edited k [] t2) out2 /\ out1 <> out2 /\
  p_header out1 = Ok (h1, r1) /\ p_header out2 = Ok (h2, r2) /\
  hbytes Ex_Attribute h1 H_seed = hbytes Ex_Attribute h2 H_seed /\ hbytes Ex_Attribute h1 H_iv = hbytes Ex_Attribute h2 H_iv.
Proof.
  exists toy, sample_cr, file4, k4, sample_doc, sample_doc2. do 6 eexists.
  split; [exact toy_ok|]. split; [exact opened_k4|]. split; [eexists; vm_compute; reflexivity|]. split; [eexists; vm_compute; reflexivity|].
  split; [vm_compute; discriminate|]. split; [vm_compute; reflexivity|]. split; [vm_compute; reflexivity|]. split; reflexivity.
Qed.
Print Assumptions c19_fresh_randomness_refuted.
Theorem c19_chacha20_two_time_pad : forall L mk iv d1 d2 c1 c2 i, payload_encrypt L C_chacha mk iv d1 = Ok c1 -> payload_encrypt L C_chacha mk iv d2 = Ok c2 ->
  (i < List.length d1)%nat -> (i < List.length d2)%nat -> N.lxor (nth i c1 0) (nth i c2 0) = N.lxor (nth i d1 0) (nth i d2 0).
Proof. exact two_time_pad. Qed.
Print Assumptions c19_chacha20_two_time_pad.

(** C20: the first bytes (header and its hash) decide, credentials and the rest of the file do not matter as long as
    the key derivation itself does not raise. *)
Theorem c20_nodecrypt_kdbx4 : forall L cr data k pw kf tk0 tk q, lib_ok L -> opened 4 L cr data k -> transformed4 L (MkCreds pw kf tk0 false) (k_hdr k) = Ok tk ->
  exists b, open_kdbx L (MkCreds pw kf tk0 false) (firstn (List.length (h_raw (k_hdr k)) + 32) data ++ q) = Ok (MkKdbx (k_hdr k) (Some b), q) /\ b_payload b = None.
Proof. exact claim_c20_4. Qed.
Print Assumptions c20_nodecrypt_kdbx4.
Theorem c20_nodecrypt_kdbx3 : forall L cr data k pw kf tk0 tk q, opened 3 L cr data k -> transformed3 L (MkCreds pw kf tk0 false) (k_hdr k) = Ok tk ->
  exists b, open_kdbx L (MkCreds pw kf tk0 false) (h_raw (k_hdr k) ++ q) = Ok (MkKdbx (k_hdr k) (Some b), q) /\ b_payload b = None.
Proof. exact claim_c20_3. Qed.
Print Assumptions c20_nodecrypt_kdbx3.
Example c20_ex : opened 4 toy sample_cr file4 k4 /\ exists tk, transformed4 toy (MkCreds (Some ($"wrong")) KF_none None false) (k_hdr k4) = Ok tk.
Proof. split; [exact opened_k4|]. eexists. vm_compute. reflexivity. Qed.

(** C28: [view_for s t] of C09/C10 is [reload_view t] for every stream cipher, and this keeps every protected text except empty ones. *)
Theorem c28_protected_values_survive : forall t, protected_texts (reload_view t) = filter (fun s => negb (str_eqb s [])) (protected_texts t).
Proof. exact reload_protected. Qed.
Print Assumptions c28_protected_values_survive.
Theorem c28_protect_unprotect : forall L s key t t', lib_ok L -> xml_ok t = true -> modest t = true -> s <> S_none -> snd (protect L s key t) = Ok t' ->
  (let* u := xml_parse L (xml_ser L t') in unprotect L s key u) = Ok (reload_view t).
Proof. exact protected_cycle. Qed.
Print Assumptions c28_protect_unprotect.
Example c28_ex : protected_texts sample_doc = [233 :: $"p<ass"; $"1234"] /\ xml_ok sample_doc = true /\ modest sample_doc = true /\ exists t', snd (protect toy S_chacha (Ok (repeat 6 64)) sample_doc) = Ok t'.
Proof. split; [reflexivity|]. split; [reflexivity|]. split; [reflexivity|]. eexists. vm_compute. reflexivity. Qed.

(** C29: in every case, also when the save raises. *)
Theorem c29_save_keeps_memory : forall L cr k, snd (build_kdbx L cr k) = k.
Proof. exact build_memory. Qed.
Print Assumptions c29_save_keeps_memory.
Example c29_ex : exists e, snd (fst (build_kdbx toy (MkCreds None (KF_path None) None true) k4)) = Err e.
Proof. eexists. vm_compute. reflexivity. Qed.

(** C30 *)
Theorem c30_sealed_in_file_kdbx4 : forall L cr k out t s, saves L cr k out -> h_major (k_hdr k) = 4 -> doc_of k = Some t -> stream_id_of k = Ok s -> xml_ok t = true -> s <> S_none ->
  exists t' hb comp c seed tk iv ct bl, sealed_doc L s t t' /\
    hcipher (k_hdr k) = Ok c /\ hcomp (k_hdr k) = Ok comp /\ hbytes Ex_Attribute (k_hdr k) H_iv = Ok iv /\ hbytes Ex_Attribute (k_hdr k) H_seed = Ok seed /\
    transformed4 L cr (k_hdr k) = Ok tk /\ payload_encrypt L c (sha256 L (seed ++ tk)) iv (compress L comp (hb ++ xml_ser L t')) = Ok ct /\
    build_blocks4 L seed tk ct = Ok bl /\ out = h_raw (k_hdr k) ++ sha256 L (h_raw (k_hdr k)) ++ head_tag L seed tk (h_raw (k_hdr k)) ++ bl.
Proof. exact claim_c30_4. Qed.
Print Assumptions c30_sealed_in_file_kdbx4.
Theorem c30_sealed_in_file_kdbx3 : forall L cr k out t s, saves L cr k out -> h_major (k_hdr k) = 3 -> doc_of k = Some t -> hpsid (k_hdr k) = Ok s -> xml_ok t = true -> s <> S_none ->
  exists t' comp c seed tk iv ssb bl ct, sealed_doc L s t t' /\
    hcipher (k_hdr k) = Ok c /\ hcomp (k_hdr k) = Ok comp /\ hbytes Ex_Attribute (k_hdr k) H_iv = Ok iv /\ hbytes Ex_Attribute (k_hdr k) H_seed = Ok seed /\
    transformed3 L cr (k_hdr k) = Ok tk /\ build_blocks3 L (compress L comp (xml_ser L t')) = Ok bl /\
    payload_encrypt L c (sha256 L (seed ++ tk)) iv (ssb ++ bl) = Ok ct /\ out = h_raw (k_hdr k) ++ ct.
Proof. exact claim_c30_3. Qed.
Print Assumptions c30_sealed_in_file_kdbx3.
Example c30_ex : (exists out, saves toy sample_cr k4 out) /\ h_major (k_hdr k4) = 4 /\ doc_of k4 = Some sample_doc /\ stream_id_of k4 = Ok S_chacha /\ xml_ok sample_doc = true.
Proof. split; [do 2 eexists; vm_compute; reflexivity|]. repeat split; vm_compute; reflexivity. Qed.

(** C72: the XML serialiser and parser of Xml.v; within the limits of lxml's parser its result is the same. *)
Theorem c72_xml_lossless : forall t, xml_ok t = true -> xml_parse_doc (xml_tostring t) = Ok (norm t) /\ (lxml_reads t = true -> lxml_parse (xml_tostring t) = Ok (norm t)).
Proof. exact (fun t H => conj (xml_codec t H) (proj2 (lxml_codec t H))). Qed.
Print Assumptions c72_xml_lossless.
Example c72_ex : xml_parse_doc (xml_tostring (X ($"a") [($"k", [34; 13; 38])] (Some [60; 13; 10; 233; 0x1F600]) [X ($"b") [] (Some []) []]))
  = Ok (X ($"a") [($"k", [34; 13; 38])] (Some [60; 13; 10; 233; 0x1F600]) [X ($"b") [] None []]).
Proof. vm_compute. reflexivity. Qed.

(** C75: refuted for every header with another major version: opening succeeds without a body, and saving the
    result writes the bare header. *)
Theorem c75_unsupported_version_rejected_refuted : exists L cr d h rest, lib_ok L /\ h_major h = 2 /\ rest <> [] /\
  open_kdbx L cr d = Ok (MkKdbx h None, rest) /\ build_kdbx L cr (MkKdbx h None) = (h_raw h, Ok tt, MkKdbx h None).
Proof.
  exists toy, sample_cr, (firstn 10 (sample_head4 chacha_uuid 12) ++ [2; 0] ++ skipn 12 (sample_head4 chacha_uuid 12) ++ [1; 2; 3]),
    (hdr_of (firstn 10 (sample_head4 chacha_uuid 12) ++ [2; 0])), (skipn 12 (sample_head4 chacha_uuid 12) ++ [1; 2; 3]).
  split; [exact toy_ok|]. split; [vm_compute; reflexivity|]. split; [discriminate|]. split; vm_compute; reflexivity.
Qed.
Print Assumptions c75_unsupported_version_rejected_refuted.
Theorem c75_unsupported_version_data_loss : forall L cr d h r, p_header d = Ok (h, r) -> h_major h <> 3 -> h_major h <> 4 ->
  open_kdbx L cr d = Ok (MkKdbx h None, r) /\ forall cr', build_kdbx L cr' (MkKdbx h None) = (h_raw h, Ok tt, MkKdbx h None).
Proof. exact unsupported_version. Qed.
Print Assumptions c75_unsupported_version_data_loss.
