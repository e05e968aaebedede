(** The external libraries as the published algorithms: SHA-2, HMAC, AES, ChaCha20, Salsa20, Argon2, DEFLATE and the XML
    codec of Xml.v.  Everything the theorems assume of the libraries ([lib_ok]) holds of them.  Models no code of /repo. *)
From Verif Require Import Base PyStr Utf8 Xml Xml_facts Cbc Lib Hash Aes Chacha Inflate Argon.

(** Simplified: gzip writes stored blocks (zlib.compressobj would compress; any DEFLATE stream is read), and key files are
    read by the parser of documents. *)
Definition real : lib := {|
  sha256 := sha256_of; sha512 := sha512_of; hmac256 := hmac_of;
  aes_enc := aes_encrypt; aes_dec := aes_decrypt; chacha_ks := chacha_byte; salsa_ks := salsa_byte;
  argon2 := argon2_of; gzip := gzip_of; gunzip := gunzip_of;
  xml_parse := lxml_parse; xml_ser := xml_tostring; kf_parse := xml_parse_doc |}.
Lemma real_ok : lib_ok real.
Proof.
  constructor; cbn [real sha256 sha512 hmac256 aes_enc aes_dec chacha_ks salsa_ks gzip gunzip xml_parse xml_ser].
  - exact sha256_digest.
  - exact sha512_digest.
  - exact hmac_digest.
  - exact aes_inverse.
  - exact aes_decrypt16.
  - exact chacha_is_byte.
  - exact salsa_is_byte.
  - exact gzip_inverse.
  - exact gunzip_bytes.
  - intros t H. split.
    + apply ser_ascii in H. unfold bytes_ok, xml_tostring. rewrite Forall_forall. rewrite forallb_forall in H. intros x Hx. apply H in Hx. unfold is_byte. lia.
    + exact (proj2 (lxml_codec t H)).
Qed.
