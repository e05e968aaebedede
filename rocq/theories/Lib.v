(** External libraries used by kdbx_parsing/*.py, as a record of functions.  Theorems quantify over all
    such records; what they assume of the functions is [lib_ok]. *)
From Verif Require Import Base PyStr Utf8 Xml Cbc.

(** Values of a KDBX4 variant dictionary item (kdbx4.py:120-138); an unknown type gives [None]. *)
Inductive vval := VV_int (z : Z) | VV_bool (b : bool) | VV_bytes (b : bytes) | VV_str (s : str) | VV_none.

Record lib := MkLib {
  sha256 : bytes -> bytes;                      (* hashlib.sha256(x).digest() *)
  sha512 : bytes -> bytes;                      (* hashlib.sha512(x).digest() *)
  hmac256 : bytes -> bytes -> bytes;            (* hmac.new(key, msg, sha256).digest() *)
  aes_enc : bytes -> bytes -> bytes;            (* AES block encryption: key, 16-byte block *)
  aes_dec : bytes -> bytes -> bytes;
  chacha_ks : bytes -> bytes -> N -> N;         (* ChaCha20: key, nonce, position -> keystream byte *)
  salsa_ks : bytes -> bytes -> N -> N;
  argon2 : bytes -> bytes -> bool -> Z -> Z -> Z -> Z -> res bytes;
     (* argon2.low_level.hash_secret_raw: secret, salt, type=ID?, time_cost, memory_cost, parallelism, version *)
  gzip : bytes -> bytes;                        (* common.py:375-385 *)
  gunzip : bytes -> res bytes;                  (* zlib.decompress(data, 16 + 15) *)
  xml_parse : bytes -> res xml;                 (* etree.parse(..., XMLParser(remove_blank_text=True)) *)
  xml_ser : xml -> bytes;                       (* etree.tostring(tree) *)
  kf_parse : bytes -> res xml                   (* etree.fromstring (key files) *)
}.

Definition digest (n : nat) (b : bytes) : Prop := List.length b = n /\ bytes_ok b.

(** What is assumed.  No cryptographic assumption: only sizes, and that decryption, decompression and XML
    parsing invert their counterparts. *)
Record lib_ok (L : lib) : Prop := {
  ok_sha256 : forall x, digest 32 (sha256 L x);
  ok_sha512 : forall x, digest 64 (sha512 L x);
  ok_hmac : forall k m, digest 32 (hmac256 L k m);
  ok_aes : forall k b, digest 16 b -> digest 16 (aes_enc L k b) /\ aes_dec L k (aes_enc L k b) = b;
  ok_aesd : forall k b, digest 16 b -> digest 16 (aes_dec L k b);
  ok_chacha : forall k n p, is_byte (chacha_ks L k n p);
  ok_salsa : forall k n p, is_byte (salsa_ks L k n p);
  ok_gzip : forall d, bytes_ok d -> bytes_ok (gzip L d) /\ gunzip L (gzip L d) = Ok d;
  ok_gunzip : forall d x, gunzip L d = Ok x -> bytes_ok x;
  ok_xml : forall t, xml_ok t = true -> bytes_ok (xml_ser L t) /\ (lxml_reads t = true -> xml_parse L (xml_ser L t) = Ok (norm t))
}.

(** *** Cryptodome ciphers on top of the block functions / keystreams *)
Fixpoint to_blocks (fuel : nat) (d : bytes) : list bytes :=
  match fuel with
  | O => []
  | S f => if (List.length d <? 16)%nat then [] else firstn 16 d :: to_blocks f (skipn 16 d)
  end.
Definition blocks_of (d : bytes) : list bytes := to_blocks (List.length d) d.
Definition aes_key_ok (k : bytes) : bool :=
  let n := List.length k in ((n =? 16) || (n =? 24) || (n =? 32))%nat.
(** AES.new(key, MODE_ECB).encrypt *)
Definition aes_ecb (L : lib) (key d : bytes) : bytes := List.concat (map (aes_enc L key) (blocks_of d)).
Fixpoint cbc_e (E : bytes -> bytes) (iv : bytes) (bs : list bytes) : list bytes :=
  match bs with
  | [] => []
  | b :: bs' => let c := E (strxor b iv) in c :: cbc_e E c bs'
  end.
Fixpoint cbc_d (D : bytes -> bytes) (iv : bytes) (bs : list bytes) : list bytes :=
  match bs with
  | [] => []
  | c :: bs' => strxor (D c) iv :: cbc_d D c bs'
  end.
(** AES.new(key, MODE_CBC, iv): ValueError for a wrong key or IV size; encrypt/decrypt: ValueError when the
    data is not a multiple of 16 bytes. *)
Definition aes_cbc_new (key iv : bytes) : res unit :=
  if aes_key_ok key && (List.length iv =? 16)%nat then Ok tt else Err Ex_Value.
Definition aes_cbc_encrypt (L : lib) (key iv d : bytes) : res bytes :=
  let* _ := aes_cbc_new key iv in
  if (List.length d mod 16 =? 0)%nat then Ok (List.concat (cbc_e (aes_enc L key) iv (blocks_of d))) else Err Ex_Value.
Definition aes_cbc_decrypt (L : lib) (key iv d : bytes) : res bytes :=
  let* _ := aes_cbc_new key iv in
  if (List.length d mod 16 =? 0)%nat then Ok (List.concat (cbc_d (aes_dec L key) iv (blocks_of d))) else Err Ex_Value.
(** Stream ciphers: xor with the keystream from position [pos]. *)
Fixpoint xor_ks (ks : N -> N) (pos : N) (d : bytes) : bytes :=
  match d with
  | [] => []
  | b :: d' => N.lxor b (ks pos) :: xor_ks ks (pos + 1) d'
  end.
(** ChaCha20.new(key=, nonce=): ValueError for other sizes (24: XChaCha20).  Not modelled: the ValueError after
    2^38 bytes of output. *)
Definition chacha_new (key nonce : bytes) : res unit :=
  let n := List.length nonce in
  if ((List.length key =? 32) && ((n =? 8) || (n =? 12) || (n =? 24)))%nat then Ok tt else Err Ex_Value.
