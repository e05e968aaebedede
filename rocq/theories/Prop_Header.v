(** What an opened database says about its file (C95), and files with damaged protected values (C96).  What a conforming header and a
    sealed document are: FormatSpec.v; [cipher_named], [kdf_named], [kdf_salt]: Format_more.v. *)
From Verif Require Import Base Base64 Utf8 Xml Lib KdbxSpec Construct Keyfile Kdbx Kdbx_file Toy Kdbx_claims FormatSpec Format FormatEx Save Object ObjectEx Format_more HeaderEx.

(** ** C95: version, encryption_algorithm, kdf_algorithm and database_salt are what the header of the file says.  False of kdf_algorithm for KDBX 4.1, and of both it and database_salt for KDBX 3.0. *)
Theorem c95_header_properties_refuted :
  (exists L lost w fn pw kf tk dec ob w' o rest cid c comp seed iv k, open_db L lost w fn pw kf tk dec = (Ok ob, w') /\ source w fn = Ok (head_bytes 4 field4 o ++ rest) /\ head4 o cid comp seed iv k /\ cipher_named cid c /\
    version ob = Ok (4, 1) /\ kdf_algorithm ob = Ok None) /\
  exists L lost w fn pw kf tk dec ob w' o rest cid c comp seed iv k key start sid, open_db L lost w fn pw kf tk dec = (Ok ob, w') /\ source w fn = Ok (head_bytes 3 field3 o ++ rest) /\ head3 o cid comp seed iv k key start sid /\ cipher_named cid c /\ In sid [0; 2; 3] /\
    version ob = Ok (3, 0) /\ kdf_algorithm ob = Ok None /\ database_salt ob = Err Ex_Attribute.
Proof.
  split.
  - exists toy, no_loss, ver_w, (F_path P_41), (Some $"secret"), N_none, None, true, o41, ver_w, (outer4 1), (skipn (List.length (head_bytes 4 field4 (outer4 1))) file41), id_chacha20, C_chacha, false, (repeat 17 32), (repeat 9 12), ex_kdf.
    split; [exact opens_41|]. split; [vm_compute; reflexivity|]. split; [apply head4_minor; reflexivity|]. split; [right; right; left; reflexivity|]. vm_compute. auto.
  - exists toy, no_loss, ver_w, (F_path P_30), (Some $"secret"), N_none, None, true, o30, ver_w, (outer3 0), rest3, id_aes, C_aes, false, (repeat 17 32), (repeat 9 16), ex_kdf, (repeat 3 32), (repeat 4 32), 2.
    split; [exact opens_30|]. split; [vm_compute; reflexivity|]. split; [apply head3_minor; reflexivity|]. split; [left; reflexivity|]. split; [right; left; reflexivity|]. vm_compute. auto.
Qed.
Print Assumptions c95_header_properties_refuted.
(** For KDBX 4 all is as the header says, kdf_algorithm for 4.0 only, however the file was opened; missing: kdf_algorithm for 4.1. *)
Theorem c95_kdbx4_partial : forall L lost w fn pw kf tk dec ob w' o rest cid c comp seed iv k, open_db L lost w fn pw kf tk dec = (Ok ob, w') -> source w fn = Ok (head_bytes 4 field4 o ++ rest) ->
  head4 o cid comp seed iv k -> cipher_named cid c ->
  version ob = Ok (4, o_minor o) /\ encryption_algorithm ob = Ok c /\ database_salt ob = Ok (VV_bytes (kdf_salt k)) /\ (o_minor o = 0 -> kdf_algorithm ob = Ok (Some (kdf_named k))).
Proof. exact header_says4. Qed.
Print Assumptions c95_kdbx4_partial.
(** For KDBX 3.1 all is as the header says; missing: kdf_algorithm and database_salt for 3.0. *)
Theorem c95_kdbx3_partial : forall L lost w fn pw kf tk dec ob w' o rest cid c comp seed iv k key start sid, open_db L lost w fn pw kf tk dec = (Ok ob, w') -> source w fn = Ok (head_bytes 3 field3 o ++ rest) ->
  head3 o cid comp seed iv k key start sid -> cipher_named cid c -> In sid [0; 2; 3] ->
  version ob = Ok (3, o_minor o) /\ encryption_algorithm ob = Ok c /\ (o_minor o = 1 -> database_salt ob = Ok (VV_bytes (kdf_salt k)) /\ kdf_algorithm ob = Ok (Some (kdf_named k))).
Proof. exact header_says3. Qed.
Print Assumptions c95_kdbx3_partial.
Example c95_ex :
  (open_db toy no_loss ver_w (F_path P_40) (Some $"secret") N_none None true = (Ok o40, ver_w) /\ (exists rest, source ver_w (F_path P_40) = Ok (head_bytes 4 field4 (outer4 0) ++ rest)) /\
   head4 (outer4 0) id_chacha20 false (repeat 17 32) (repeat 9 12) ex_kdf /\ cipher_named id_chacha20 C_chacha /\ kdf_algorithm o40 = Ok (Some K_aes) /\ database_salt o40 = Ok (VV_bytes (repeat 8 32))) /\
  (open_db toy no_loss ver_w (F_path P_31) (Some $"secret") N_none None true = (Ok o31, ver_w) /\ (exists rest, source ver_w (F_path P_31) = Ok (head_bytes 3 field3 (outer3 1) ++ rest)) /\
   head3 (outer3 1) id_aes false (repeat 17 32) (repeat 9 16) ex_kdf (repeat 3 32) (repeat 4 32) 2 /\ cipher_named id_aes C_aes /\ database_salt o31 = Ok (VV_bytes (repeat 8 32))).
Proof.
  split.
  - split; [exact opens_40|]. split; [exists (skipn (List.length (head_bytes 4 field4 (outer4 0))) file40); vm_compute; reflexivity|]. split; [apply head4_minor; reflexivity|]. split; [right; right; left; reflexivity|]. split; vm_compute; reflexivity.
  - split; [exact opens_31|]. split; [exists rest3; vm_compute; reflexivity|]. split; [apply head3_minor; reflexivity|]. split; [left; reflexivity|]. vm_compute. reflexivity.
Qed.

(** ** C96: a damaged protected value is shown as it is stored, and all others as they were.  False when so much of a value is cut off that the rest is not base64: the values after it come out wrong, without an error. *)
Theorem c96_cut_off_refuted : exists L cr c o file bins doc k r, lib_ok L /\ c_dec cr = true /\ unlocks L cr c /\ kdbx4_with L cut_off c o file bins doc /\ open_kdbx L cr file = Ok (k, r) /\ doc_of k <> Some doc.
Proof.
  exists toy, sample_cr, ex_composite, (outer4 1), (file_of (outer4 1) cut_bytes), [[1; 104; 105]], cut_doc. eexists _, _. split; [exact toy_ok|]. split; [reflexivity|]. split; [exact ex_unlocks|].
  split; [apply file_of_ok; [reflexivity|unfold bytes_ok; vm_compute; repeat (constructor; [reflexivity|]); constructor|vm_compute; discriminate|vm_compute; reflexivity|exact cut_document]|]. split; [vm_compute; reflexivity|]. vm_compute. discriminate.
Qed.
Print Assumptions c96_cut_off_refuted.
(** True of values that still are base64 for the same number of bytes, and of texts that are not base64 and never were sealed; missing: values that were cut off. *)
Theorem c96_kdbx4_partial : forall L cr c o file bins doc trail, lib_ok L -> c_dec cr = true -> unlocks L cr c -> kdbx4_with L (either garbled clear_text) c o file bins doc ->
  exists k, open_kdbx L cr (file ++ trail) = Ok (k, trail) /\ bins_of k = bins /\ doc_of k = Some doc.
Proof. exact damaged4. Qed.
Print Assumptions c96_kdbx4_partial.
Theorem c96_kdbx3_partial : forall L cr c o file doc, lib_ok L -> c_dec cr = true -> unlocks L cr c -> kdbx3_with L (either garbled clear_text) c o file doc ->
  exists k, open_kdbx L cr file = Ok (k, []) /\ doc_of k = Some doc.
Proof. exact damaged3. Qed.
Print Assumptions c96_kdbx3_partial.
(** Of four values one is no text and one in the clear; the last is read correctly; so in a KDBX 3 file. *)
Example c96_ex : lib_ok toy /\ c_dec sample_cr = true /\ unlocks toy sample_cr ex_composite /\ kdbx4_with toy (either garbled clear_text) ex_composite (outer4 1) file41 [[1; 104; 105]] broken_doc /\
  broken_doc = holder [pv $"1234"; pv garbage; pv $"plain"; pv $"pass"] /\ kdbx3_with toy (either garbled clear_text) ex_composite (outer3 1) broken3 broken_doc3.
Proof.
  split; [exact toy_ok|]. split; [reflexivity|]. split; [exact ex_unlocks|]. split; [|split; [reflexivity|exact broken3_ok]].
  change file41 with (file_of (outer4 1) broken_bytes). apply file_of_ok; [reflexivity|unfold bytes_ok; vm_compute; repeat (constructor; [reflexivity|]); constructor|vm_compute; discriminate|vm_compute; reflexivity|exact broken_document].
Qed.
