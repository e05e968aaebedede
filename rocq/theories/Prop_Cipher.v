(** Property theorems C21-C23 (statements; proofs in Cbc_facts.v, Twofish_facts.v). *)
From Verif Require Import Base Twofish TwofishSpec Twofish_facts Cbc Cbc_facts.

(** C21: padding is lossless, the padded text is a non-empty multiple of 16 bytes, and unpadding
    accepts exactly the padded texts. *)
Theorem c21_pkcs7_lossless : forall d, pkcs7_unpad (pkcs7_pad d) = Ok d.
Proof. exact unpad_pad. Qed.
Print Assumptions c21_pkcs7_lossless.
Theorem c21_pkcs7_shape : forall d, exists k, (1 <= k <= 16)%nat /\ pkcs7_pad d = d ++ repeat (N.of_nat k) k /\
  ((List.length d + k) mod 16 = 0)%nat.
Proof. exact pad_length. Qed.
Print Assumptions c21_pkcs7_shape.
Theorem c21_pkcs7_validated : forall d p, pkcs7_unpad d = Ok p -> d = pkcs7_pad p.
Proof. exact unpad_inv. Qed.
Print Assumptions c21_pkcs7_validated.
Example c21_ex : pkcs7_unpad ([65; 66] ++ repeat 14 14) = Ok [65; 66] /\
  pkcs7_unpad (repeat 16 16) = Ok [] /\ pkcs7_unpad ([65; 66; 7] ++ repeat 14 13) = Err Ex_Value.
Proof. vm_compute. auto. Qed.

(** C22: Twofish-CBC. *)
Theorem c22_cbc_decrypt_inverts : forall key iv d, key_ok key -> blk16 iv -> bytes_ok d -> (List.length d mod 16 = 0)%nat ->
  exists s, tf_cbc_new key (Some iv) = Ok s /\
    List.length (fst (cbc_update Encrypt s d)) = List.length d /\
    fst (cbc_update Decrypt s (fst (cbc_update Encrypt s d))) = d.
Proof. exact cbc_inverse. Qed.
Print Assumptions c22_cbc_decrypt_inverts.
Theorem c22_cbc_chunking : forall key iv s ed chunks, tf_cbc_new key iv = Ok s ->
  cbc_feed ed s chunks = cbc_update ed s (List.concat chunks).
Proof. exact cbc_chunks. Qed.
Print Assumptions c22_cbc_chunking.
(** The ciphertext is the standard CBC of the standard cipher. *)
Theorem c22_cbc_is_standard : forall key iv ps, key_ok key -> blk16 iv -> Forall blk16 ps ->
  exists s, tf_cbc_new key (Some iv) = Ok s /\
    fst (cbc_update Encrypt s (List.concat ps)) = List.concat (twofish_cbc key iv ps).
Proof. exact cbc_is_twofish_cbc. Qed.
Print Assumptions c22_cbc_is_standard.
(** Other key or IV sizes are refused. *)
Theorem c22_cbc_bad_sizes : forall key iv, ~ (List.length key = 16 \/ List.length key = 24 \/ List.length key = 32)%nat \/
  List.length iv <> 16%nat -> exists e, tf_cbc_new key (Some iv) = Err e.
Proof. exact cbc_bad_params. Qed.
Print Assumptions c22_cbc_bad_sizes.
Example c22_ex : key_ok selftest_key /\ blk16 selftest_dat /\ (List.length selftest_key mod 16 = 0)%nat.
Proof.
  split; [split; [apply all_bytesb_ok; reflexivity|right; right; reflexivity]|].
  split; [split; [apply all_bytesb_ok; reflexivity|reflexivity]|reflexivity].
Qed.

(** C23: the block cipher is the published one, in both directions. *)
Theorem c23_twofish_encrypt : forall key blk, bytes_ok key -> bytes_ok blk -> List.length blk = 16%nat ->
  (List.length key = 16 \/ List.length key = 24 \/ List.length key = 32)%nat ->
  exists c, tf_new key = Ok c /\ tf_encrypt_block c blk = twofish key blk.
Proof. exact pytwofish_encrypt. Qed.
Print Assumptions c23_twofish_encrypt.
Theorem c23_twofish_decrypt : forall key blk, key_ok key -> blk16 blk ->
  exists c, tf_new key = Ok c /\ twofish key (tf_decrypt_block c blk) = blk /\
    forall p, blk16 p -> twofish key p = blk -> tf_decrypt_block c blk = p.
Proof. exact twofish_decrypts. Qed.
Print Assumptions c23_twofish_decrypt.
(** The self test of pytwofish.py:357-360 holds of the specification. *)
Example c23_ex : twofish selftest_key selftest_dat = selftest_ct.
Proof. vm_compute. reflexivity. Qed.
