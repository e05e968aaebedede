(** Model of kdbx_parsing/twofish.py (Twofish object in CBC mode, the only mode used by
    common.py:360-366) and of Cryptodome.Util.Padding.pad/unpad (style pkcs7) as called at common.py:345-348,363-366. *)
From Verif Require Import Base Twofish.

(** [Cryptodome.Util.strxor.strxor]: ValueError on different lengths; total here, the code
    only calls it on two 16-byte strings (twofish.py:271,281). *)
Fixpoint strxor (a b : bytes) : bytes :=
  match a, b with
  | x :: a', y :: b' => N.lxor x y :: strxor a' b'
  | _, _ => []
  end.

(** twofish.py:241-248: the CBC object; [codebook] is the pytwofish object. *)
Record cbc := MkCbc { codebook : twi; cbc_iv : bytes; cbc_cache : bytes }.

(** twofish.py:288-294, 54-79: Twofish.new(key, MODE_CBC, IV).  [None] as IV means zeros. *)
Definition tf_cbc_new (key : bytes) (iv : option bytes) : res cbc :=
  let n := List.length key in
  if ((n =? 16) || (n =? 24) || (n =? 32))%nat then
    let iv := match iv with None => repeat 0 16 | Some v => v end in
    let* c := tf_new key in
    if (List.length iv =? 16)%nat then Ok (MkCbc c iv []) else Err Ex_Generic
  else Err Ex_Value.

(** twofish.py:265-274: body and loop for encryption.  [fuel] bounds the number of blocks;
    the callers pass the length of the data.  Result: output, new IV, new cache. *)
Fixpoint cbc_enc_loop (fuel : nat) (c : twi) (iv cache : bytes) : bytes * bytes * bytes :=
  match fuel with
  | O => ([], iv, cache)
  | S f =>
      if (List.length cache <? 16)%nat then ([], iv, cache)
      else
        let iv' := tf_encrypt_block c (strxor (firstn 16 cache) iv) in
        let '(out, iv'', rest) := cbc_enc_loop f c iv' (skipn 16 cache) in
        (iv' ++ out, iv'', rest)
  end.
(** twofish.py:276-285: same for decryption. *)
Fixpoint cbc_dec_loop (fuel : nat) (c : twi) (iv cache : bytes) : bytes * bytes * bytes :=
  match fuel with
  | O => ([], iv, cache)
  | S f =>
      if (List.length cache <? 16)%nat then ([], iv, cache)
      else
        let blk := firstn 16 cache in
        let p := strxor iv (tf_decrypt_block c blk) in
        let '(out, iv'', rest) := cbc_dec_loop f c blk (skipn 16 cache) in
        (p ++ out, iv'', rest)
  end.

Inductive dir := Encrypt | Decrypt.
(** twofish.py:250-285 (and BlockCipher.encrypt / decrypt, 115-205): one call of update. *)
Definition cbc_update (ed : dir) (s : cbc) (data : bytes) : bytes * cbc :=
  let cache := cbc_cache s ++ data in
  let '(out, iv, rest) :=
    match ed with
    | Encrypt => cbc_enc_loop (List.length cache) (codebook s) (cbc_iv s) cache
    | Decrypt => cbc_dec_loop (List.length cache) (codebook s) (cbc_iv s) cache
    end in
  (out, MkCbc (codebook s) iv rest).
(** A client calling encrypt (decrypt) once per chunk and joining the results. *)
Fixpoint cbc_feed (ed : dir) (s : cbc) (chunks : list bytes) : bytes * cbc :=
  match chunks with
  | [] => ([], s)
  | d :: ds =>
      let '(o, s') := cbc_update ed s d in
      let '(o', s'') := cbc_feed ed s' ds in (o ++ o', s'')
  end.

(** common.py:345-346,363-364: CryptoPadding.pad(data, 16). *)
Definition pkcs7_pad (d : bytes) : bytes :=
  let k := (16 - List.length d mod 16)%nat in d ++ repeat (N.of_nat k) k.
(** common.py:347-348,365-366: CryptoPadding.unpad(data, 16); ValueError otherwise. *)
Definition pkcs7_unpad (d : bytes) : res bytes :=
  let n := List.length d in
  if (n =? 0)%nat then Err Ex_Value
  else if negb (n mod 16 =? 0)%nat then Err Ex_Value
  else
    let k := last d 0 in
    if (k <? 1) || (N.of_nat (Nat.min 16 n) <? k) then Err Ex_Value
    else
      let kn := N.to_nat k in
      if negb (str_eqb (skipn (n - kn) d) (repeat k kn)) then Err Ex_Value
      else Ok (firstn (n - kn) d).
