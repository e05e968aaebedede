(** KDBX files as published (keepass.info/help/kb/kdbx.html and KeePass' KdbxFile.cs), written without the model's
    reading and writing functions.  [L] supplies the cryptographic functions, gzip and the XML library. *)
From Verif Require Import Base Base64 Utf8 Xml Lib TwofishSpec KdbxSpec.

Definition le16 (n : N) : bytes := [n mod 256; n / 2^8 mod 256].
Definition magic : bytes := [0x03; 0xD9; 0xA2; 0x9A; 0x67; 0xFB; 0x4B; 0xB5].
Definition id_aes : bytes := [0x31; 0xC1; 0xF2; 0xE6; 0xBF; 0x71; 0x43; 0x50; 0xBE; 0x58; 0x05; 0x21; 0x6A; 0xFC; 0x5A; 0xFF].
Definition id_twofish : bytes := [0xAD; 0x68; 0xF2; 0x9F; 0x57; 0x6F; 0x4B; 0xB9; 0xA3; 0x6A; 0xD4; 0x7A; 0xF9; 0x65; 0x34; 0x6C].
Definition id_chacha20 : bytes := [0xD6; 0x03; 0x8A; 0x2B; 0x8B; 0x6F; 0x4C; 0xB5; 0xA5; 0x24; 0x33; 0x9A; 0x31; 0xDB; 0xB5; 0x9A].
Definition id_argon2d : bytes := [0xEF; 0x63; 0x6D; 0xDF; 0x8C; 0x29; 0x44; 0x4B; 0x91; 0xF7; 0xA9; 0xA4; 0x03; 0xE3; 0x0A; 0x0C].
Definition id_argon2id : bytes := [0x9E; 0x29; 0x8B; 0x19; 0x56; 0xDB; 0x47; 0x73; 0xB2; 0x3D; 0xFC; 0x3E; 0xC6; 0xF0; 0xA1; 0xE6].
Definition id_aeskdf : bytes := [0xC9; 0xD9; 0xF3; 0x9A; 0x62; 0x8A; 0x44; 0x60; 0xBF; 0x74; 0x0D; 0x08; 0xC1; 0x8A; 0x4F; 0xEA].
Definition short (b : bytes) : Prop := bytes_ok b /\ lenN b < 2 ^ 32.

(** *** Keys *)
(** From the password and the 32 bytes a key file stands for. *)
Inductive composite (L : lib) : option str -> option bytes -> bytes -> Prop :=
| co_both pw b kf : utf8_encode pw = Ok b -> composite L (Some pw) (Some kf) (sha256 L (sha256 L b ++ kf))
| co_password pw b : utf8_encode pw = Ok b -> composite L (Some pw) None (sha256 L (sha256 L b))
| co_keyfile kf : composite L None (Some kf) (sha256 L kf)
| co_none : composite L None None (sha256 L []).
(** Key derivation: Argon2 with memory in KiB, or AES on both halves [rounds] times. *)
Inductive kdf := Argon2 (id : bool) (salt : bytes) (iterations kib parallelism version : N) | AesKdf (seed : bytes) (rounds : N).
Definition halves (f : bytes -> bytes) (b : bytes) : bytes := f (firstn 16 b) ++ f (skipn 16 b).
Definition derives (L : lib) (k : kdf) (c tk : bytes) : Prop :=
  match k with
  | Argon2 id salt i kib p v => argon2 L c salt id (Z.of_N i) (Z.of_N kib) (Z.of_N p) (Z.of_N v) = Ok tk
  | AesKdf seed r => tk = sha256 L (Nat.iter (N.to_nat r) (halves (aes_enc L seed)) c)
  end.

(** *** Variant dictionaries: type, name, value *)
Definition vitem := (N * bytes * bytes)%type.
Definition v_bytes (it : vitem) : bytes := let '(ty, k, v) := it in [ty] ++ le32 (lenN k) ++ k ++ le32 (lenN v) ++ v.
Definition v_ok (it : vitem) : Prop :=
  let '(ty, k, v) := it in
  short k /\ short v /\ (exists s, utf8_encode s = Ok k) /\
  ((ty = 0x04 \/ ty = 0x0C) /\ List.length v = 4%nat \/ (ty = 0x05 \/ ty = 0x0D) /\ List.length v = 8%nat \/ ty = 0x08 /\ List.length v = 1%nat \/
   ty = 0x18 /\ (exists s, utf8_encode s = Ok v) \/ ty = 0x42).
(** The value that the bytes of an item of a type denote; signed numbers are in two's complement. *)
Inductive vd_means : N -> bytes -> vval -> Prop :=
| vm_u32 n : n < 2 ^ 32 -> vd_means 0x04 (le32 n) (VV_int (Z.of_N n))
| vm_u64 n : n < 2 ^ 64 -> vd_means 0x05 (le64 n) (VV_int (Z.of_N n))
| vm_bool b : vd_means 0x08 [if b : bool then 1 else 0] (VV_bool b)
| vm_i32 z : (- 2 ^ 31 <= z < 2 ^ 31)%Z -> vd_means 0x0C (le32 (Z.to_N (z mod 2 ^ 32))) (VV_int z)
| vm_i64 z : (- 2 ^ 63 <= z < 2 ^ 63)%Z -> vd_means 0x0D (le64 (Z.to_N (z mod 2 ^ 64))) (VV_int z)
| vm_text s b : utf8_encode s = Ok b -> vd_means 0x18 b (VV_str s)
| vm_bytes b : vd_means 0x42 b (VV_bytes b).
Definition dict_bytes (items : list vitem) : bytes := [0; 1] ++ List.concat (map v_bytes items) ++ [0].
Definition v_name (it : vitem) : bytes := snd (fst it).
Definition kdf_dict (k : kdf) (items : list vitem) : Prop :=
  Forall v_ok items /\ NoDup (map v_name items) /\
  match k with
  | Argon2 id salt i kib p v =>
      In (0x42, $"$UUID", if id then id_argon2id else id_argon2d) items /\ In (0x42, $"S", salt) items /\
      (In (0x05, $"I", le64 i) items /\ i < 2 ^ 64) /\ (In (0x05, $"M", le64 (1024 * kib)) items /\ 1024 * kib < 2 ^ 64) /\
      (In (0x04, $"P", le32 p) items /\ p < 2 ^ 32) /\ (In (0x04, $"V", le32 v) items /\ v < 2 ^ 32)
  | AesKdf seed r => In (0x42, $"$UUID", id_aeskdf) items /\ (In (0x42, $"S", seed) items /\ List.length seed = 32%nat) /\ (In (0x05, $"R", le64 r) items /\ r < 2 ^ 64)
  end.

(** *** Outer header: numbered fields, the field 0 being the last *)
Definition field4 (f : N * bytes) : bytes := [fst f] ++ le32 (lenN (snd f)) ++ snd f.
Definition field3 (f : N * bytes) : bytes := [fst f] ++ le16 (lenN (snd f)) ++ snd f.
Record outer := MkOuter { o_minor : N; o_fields : list (N * bytes); o_end : bytes }.
Definition head_bytes (version : N) (field : N * bytes -> bytes) (o : outer) : bytes :=
  magic ++ le16 (o_minor o) ++ le16 version ++ List.concat (map field (o_fields o)) ++ field (0, o_end o).
Definition flag (b : bool) : bytes := le32 (if b then 1 else 0).
Definition head4 (o : outer) (cid : bytes) (comp : bool) (seed iv : bytes) (k : kdf) : Prop :=
  o_minor o < 2 ^ 16 /\ short (o_end o) /\ Forall (fun f => short (snd f) /\ In (fst f) [1; 2; 3; 4; 7; 11; 12]) (o_fields o) /\ NoDup (map fst (o_fields o)) /\
  In (2, cid) (o_fields o) /\ In (3, flag comp) (o_fields o) /\ In (4, seed) (o_fields o) /\ In (7, iv) (o_fields o) /\
  exists items, In (11, dict_bytes items) (o_fields o) /\ kdf_dict k items.
Definition head3 (o : outer) (cid : bytes) (comp : bool) (seed iv : bytes) (k : kdf) (key start : bytes) (sid : N) : Prop :=
  o_minor o < 2 ^ 16 /\ bytes_ok (o_end o) /\ lenN (o_end o) < 2 ^ 16 /\ Forall (fun f => (bytes_ok (snd f) /\ lenN (snd f) < 2 ^ 16) /\ In (fst f) [1; 2; 3; 4; 5; 6; 7; 8; 9; 10]) (o_fields o) /\ NoDup (map fst (o_fields o)) /\
  In (2, cid) (o_fields o) /\ In (3, flag comp) (o_fields o) /\ In (4, seed) (o_fields o) /\ In (7, iv) (o_fields o) /\ In (8, key) (o_fields o) /\
  (In (9, start) (o_fields o) /\ List.length start = 32%nat) /\ In (10, le32 sid) (o_fields o) /\
  exists ts r, k = AesKdf ts r /\ In (5, ts) (o_fields o) /\ List.length ts = 32%nat /\ In (6, le64 r) (o_fields o) /\ r < 2 ^ 64.

(** *** Payload encryption *)
Fixpoint chained (E : bytes -> bytes) (iv : bytes) (ps : list bytes) : list bytes :=
  match ps with [] => [] | p :: ps' => E (xor_bytes p iv) :: chained E (E (xor_bytes p iv)) ps' end.
Definition padded (d : bytes) (ps : list bytes) : Prop :=
  Forall (fun p => List.length p = 16%nat) ps /\ exists k, (1 <= k <= 16)%nat /\ List.concat ps = d ++ repeat (N.of_nat k) k.
Inductive encrypted (L : lib) : bytes -> bytes -> bytes -> bytes -> bytes -> Prop :=
| en_aes mk iv d ps : List.length iv = 16%nat -> padded d ps -> encrypted L id_aes mk iv d (List.concat (chained (aes_enc L mk) iv ps))
| en_twofish mk iv d ps : List.length iv = 16%nat -> padded d ps -> encrypted L id_twofish mk iv d (List.concat (chained (twofish mk) iv ps))
| en_chacha20 mk iv d : List.length iv = 12%nat -> encrypted L id_chacha20 mk iv d (xor_at (chacha_ks L mk iv) 0 d).
(** Compressed by any program. *)
Definition packed (L : lib) (comp : bool) (content d : bytes) : Prop := if comp then gunzip L d = Ok content else d = content.

(** *** Protected values *)
(** The inner random stream: Salsa20 with a fixed nonce (2) or ChaCha20 (3); 0 for none. *)
Inductive stream (L : lib) (key : bytes) : N -> (N -> N) -> Prop :=
| st_salsa20 : stream L key 2 (salsa_ks L (sha256 L key) [0xE8; 0x30; 0x09; 0x4B; 0x97; 0x20; 0x5D; 0x2A])
| st_chacha20 k n r : sha512 L key = k ++ n ++ r -> List.length k = 32%nat -> List.length n = 12%nat -> stream L key 3 (chacha_ks L k n).
(** [seals ks bad pos t t' fin]: [t'] is [t] with the text of every protected value xored with the key stream from [pos] on and in base64;
    [bad] says which other texts marked as protected there are, and where the next value is sealed after them. *)
Definition badly := (N -> N) -> nat -> str -> nat -> Prop.
Definition no_bad : badly := fun _ _ _ _ => False.
Definition seals_text (ks : N -> N) (bad : badly) (marked : bool) (pos : nat) (s s' : option str) (fin : nat) : Prop :=
  match marked, s with
  | true, Some x => (text_ok x = true /\ exists b, utf8_encode x = Ok b /\ s' = Some (b64encode (xor_at ks pos b)) /\ fin = (pos + List.length b)%nat) \/ (bad ks pos x fin /\ s' = s)
  | _, _ => s' = s /\ fin = pos
  end.
Inductive seals (ks : N -> N) (bad : badly) : nat -> xml -> xml -> nat -> Prop :=
| seals_node pos mid fin tag attrs s s' kids kids' : nodup_keys attrs = true -> seals_text ks bad (markedb tag attrs) pos s s' mid -> seals_all ks bad mid kids kids' fin ->
    seals ks bad pos (X tag attrs s kids) (X tag attrs s' kids') fin
with seals_all (ks : N -> N) (bad : badly) : nat -> list xml -> list xml -> nat -> Prop :=
| seals_nil pos : seals_all ks bad pos [] [] pos
| seals_cons pos mid fin t t' l l' : seals ks bad pos t t' mid -> seals_all ks bad mid l l' fin -> seals_all ks bad pos (t :: l) (t' :: l') fin.
Definition document (L : lib) (bad : badly) (sid : N) (key xb : bytes) (doc : xml) : Prop :=
  exists t0, xml_parse L xb = Ok t0 /\ (sid = 0 /\ t0 = doc \/ exists ks fin, stream L key sid ks /\ seals ks bad 0 doc t0 fin).
(** Damaged values: bytes in base64 that are no text when decrypted, ... *)
Definition garbled : badly := fun ks pos x fin => exists b, x = b64encode b /\ bytes_ok b /\ (forall s, utf8_encode s <> Ok (xor_at ks pos b)) /\ fin = (pos + List.length b)%nat.
(** ... and text that is not base64: with characters outside ASCII, or a number of base64 digits that is no multiple of four, and no padding. *)
Definition digit64 (c : N) : bool := existsb (N.eqb c) $"ABCDEFGHIJKLMNOPQRSTUVWXYZabcdefghijklmnopqrstuvwxyz0123456789+/".
Definition no_base64 (x : str) : Prop := (exists c, In c x /\ 128 <= c) \/ (~ In 61 x /\ (List.length (filter digit64 x) mod 4 <> 0)%nat).
(** Stored in the clear: the key stream was not used for it. *)
Definition clear_text : badly := fun ks pos x fin => no_base64 x /\ fin = pos.
(** Cut off: was sealed, the next value is sealed where it always was. *)
Definition cut_off : badly := fun ks pos x fin => no_base64 x /\ exists b, bytes_ok b /\ fin = (pos + List.length b)%nat /\ exists rest, b64encode (xor_at ks pos b) = x ++ rest.
Definition either (a b : badly) : badly := fun ks pos x fin => a ks pos x fin \/ b ks pos x fin.

(** *** KDBX 4: inner header (1: stream, 2: its key, 3: an attachment with a flag byte) and document *)
Definition content4 (L : lib) (bad : badly) (content : bytes) (bins : list bytes) (doc : xml) : Prop :=
  exists items e sid key xb, Forall (fun f => short (snd f) /\ In (fst f) [1; 2; 3]) items /\ short e /\
    (forall v, In (1, v) items <-> v = le32 sid) /\ (forall v, In (2, v) items <-> v = key) /\ NoDup (filter (fun n => negb (n =? 3)) (map fst items)) /\
    map snd (filter (fun f => fst f =? 3) items) = bins /\
    content = List.concat (map field4 items) ++ field4 (0, e) ++ xb /\ document L bad sid key xb doc.
Definition kdbx4_with (L : lib) (bad : badly) (c : bytes) (o : outer) (file : bytes) (bins : list bytes) (doc : xml) : Prop :=
  exists cid comp seed iv k tk plain content bs, head4 o cid comp seed iv k /\ derives L k c tk /\
    content4 L bad content bins doc /\ packed L comp content plain /\ bytes_ok plain /\ encrypted L cid (sha256 L (seed ++ tk)) iv plain (List.concat bs) /\
    ends_empty bs /\ Forall (fun b => lenN b < 2 ^ 32) bs /\
    file = head_bytes 4 field4 o ++ sha256 L (head_bytes 4 field4 o) ++ head_tag L seed tk (head_bytes 4 field4 o) ++ frames (tagged L seed tk 0 bs).
Definition kdbx4_file (L : lib) := kdbx4_with L no_bad.

(** *** KDBX 3: start bytes, then blocks with number, hash and length, the last one empty with a zero hash *)
Definition framed (i : N) (hash b : bytes) : bytes := le32 i ++ hash ++ le32 (lenN b) ++ b.
Fixpoint framed_all (L : lib) (i : N) (bs : list bytes) : bytes :=
  match bs with [] => framed i (repeat 0 32) [] | b :: bs' => framed i (sha256 L b) b ++ framed_all L (i + 1) bs' end.
Definition kdbx3_with (L : lib) (bad : badly) (c : bytes) (o : outer) (file : bytes) (doc : xml) : Prop :=
  exists cid comp seed iv k key start sid tk xb bs ct, head3 o cid comp seed iv k key start sid /\ derives L k c tk /\
    document L bad sid key xb doc /\ packed L comp xb (List.concat bs) /\ bytes_ok (List.concat bs) /\ Forall (fun b => b <> [] /\ lenN b < 2 ^ 32) bs /\ lenN bs < 2 ^ 32 /\
    encrypted L cid (sha256 L (seed ++ tk)) iv (start ++ framed_all L 0 bs) ct /\ file = head_bytes 3 field3 o ++ ct.
Definition kdbx3_file (L : lib) := kdbx3_with L no_bad.
