(** Model of the file formats: kdbx_parsing/kdbx.py, kdbx3.py, kdbx4.py, the adapters of common.py, and
    PyKeePass.read's error classification (pykeepass.py:97-136). *)
From Verif Require Import Base Base64 PyStr Utf8 Xml Cbc Lib Keyfile Construct.

(** *** Enumerations *)
Inductive cipher := C_aes | C_twofish | C_chacha.                      (* common.py:392-398 *)
Inductive streamid := S_none | S_arc4 | S_salsa | S_chacha.            (* common.py:402-409 *)
(** Header field names, both versions (kdbx3.py:78-92, kdbx4.py:157-169). *)
Inductive hid := H_end | H_comment | H_cipher | H_comp | H_seed | H_tseed | H_trounds | H_iv
  | H_pskey | H_ssb | H_psid | H_kdf | H_pcd.
Definition hid_num (h : hid) : N :=
  match h with H_end => 0 | H_comment => 1 | H_cipher => 2 | H_comp => 3 | H_seed => 4 | H_tseed => 5 | H_trounds => 6
  | H_iv => 7 | H_pskey => 8 | H_ssb => 9 | H_psid => 10 | H_kdf => 11 | H_pcd => 12 end.
Definition hid_eqb (a b : hid) : bool := hid_num a =? hid_num b.

(** common.py:392-398; an unknown value is a MappingError. *)
Definition aes_uuid : bytes := [49; 193; 242; 230; 191; 113; 67; 80; 190; 88; 5; 33; 106; 252; 90; 255].
Definition twofish_uuid : bytes := [173; 104; 242; 159; 87; 111; 75; 185; 163; 106; 212; 122; 249; 101; 52; 108].
Definition chacha_uuid : bytes := [214; 3; 138; 43; 139; 111; 76; 181; 165; 36; 51; 154; 49; 219; 181; 154].
Definition cipher_of (b : bytes) : res cipher :=
  if str_eqb b aes_uuid then Ok C_aes else if str_eqb b twofish_uuid then Ok C_twofish
  else if str_eqb b chacha_uuid then Ok C_chacha else Err Ex_Mapping.
(** common.py:402-409 *)
Definition stream_of (n : N) : res streamid :=
  if n =? 0 then Ok S_none else if n =? 1 then Ok S_arc4 else if n =? 2 then Ok S_salsa
  else if n =? 3 then Ok S_chacha else Err Ex_Mapping.
Definition stream_num (s : streamid) : N := match s with S_none => 0 | S_arc4 => 1 | S_salsa => 2 | S_chacha => 3 end.
(** kdbx4.py:55-60 (kdf_uuids) *)
Definition kdf_argon2 : bytes := [239; 99; 109; 223; 140; 41; 68; 75; 145; 247; 169; 164; 3; 227; 10; 12].
Definition kdf_argon2id : bytes := [158; 41; 139; 25; 86; 219; 71; 115; 178; 61; 252; 62; 198; 240; 161; 230].
Definition kdf_aes : bytes := [201; 217; 243; 154; 98; 138; 68; 96; 191; 116; 13; 8; 193; 138; 79; 234].

Inductive hval := HV_bytes (b : bytes) | HV_cipher (c : cipher) | HV_comp (b : bool) | HV_num (n : N)
  | HV_psid (s : streamid) | HV_dict (d : list (str * vval)).

(** *** Outer header *)
Definition sub_int (k : nat) (b : bytes) : res N := let* (n, _) := p_int k b in Ok n.
(** common.py:100-102: four bytes, least significant bit of the first one *)
Definition sub_comp (b : bytes) : res bool :=
  let* (x, _) := p_bytes 4 b in Ok (match x with c :: _ => N.odd c | [] => false end).
(** kdbx4.py:120-138.  A text that is not UTF-8 makes construct raise (StringError or UnicodeDecodeError). *)
Definition signed (bits : N) (n : N) : Z :=
  if n <? 2 ^ (bits - 1) then Z.of_N n else (Z.of_N n - Z.of_N (2 ^ bits))%Z.
Definition vd_value (ty : N) (b : bytes) : res vval :=
  if ty =? 4 then let* n := sub_int 4 b in Ok (VV_int (Z.of_N n))
  else if ty =? 5 then let* n := sub_int 8 b in Ok (VV_int (Z.of_N n))
  else if ty =? 8 then let* n := sub_int 1 b in Ok (VV_bool (negb (n =? 0)))
  else if ty =? 12 then let* n := sub_int 4 b in Ok (VV_int (signed 32 n))
  else if ty =? 13 then let* n := sub_int 8 b in Ok (VV_int (signed 64 n))
  else if ty =? 66 then Ok (VV_bytes b)
  else if ty =? 24 then let* s := utf8_decode b in Ok (VV_str s)
  else Ok VV_none.
Definition vd_item (_ : N) : parser (str * vval * option N) := fun d =>
  let* (ty, r) := p_int 1 d in
  let* (k, r) := p_prefixed 4 utf8_decode r in
  let* (v, r) := p_prefixed 4 (vd_value ty) r in
  Ok (k, v, hd_error r, r).
(** kdbx4.py:141-151 *)
Definition vdict (b : bytes) : res (list (str * vval)) :=
  let* (_, r) := p_bytes 2 b in
  let* (l, r) := p_repeat vd_item (fun it => match snd it with Some n => n =? 0 | None => false end) r in
  let* (_, _) := p_bytes 1 r in
  Ok (d_of_list str_eqb (map fst l)).

(** kdbx3.py:77-92 *)
Definition hid3 (n : N) : res hid :=
  if n =? 0 then Ok H_end else if n =? 1 then Ok H_comment else if n =? 2 then Ok H_cipher else if n =? 3 then Ok H_comp
  else if n =? 4 then Ok H_seed else if n =? 5 then Ok H_tseed else if n =? 6 then Ok H_trounds else if n =? 7 then Ok H_iv
  else if n =? 8 then Ok H_pskey else if n =? 9 then Ok H_ssb else if n =? 10 then Ok H_psid else Err Ex_Mapping.
(** kdbx3.py:93-104 *)
Definition hval3 (i : hid) (b : bytes) : res hval :=
  match i with
  | H_comp => let* c := sub_comp b in Ok (HV_comp c)
  | H_cipher => let* c := cipher_of b in Ok (HV_cipher c)
  | H_trounds => let* n := sub_int 8 b in Ok (HV_num n)
  | H_psid => let* n := sub_int 4 b in let* s := stream_of n in Ok (HV_psid s)
  | _ => Ok (HV_bytes b)
  end.
(** kdbx4.py:157-169 *)
Definition hid4 (n : N) : res hid :=
  if n =? 0 then Ok H_end else if n =? 1 then Ok H_comment else if n =? 2 then Ok H_cipher else if n =? 3 then Ok H_comp
  else if n =? 4 then Ok H_seed else if n =? 7 then Ok H_iv else if n =? 11 then Ok H_kdf else if n =? 12 then Ok H_pcd
  else Err Ex_Mapping.
(** kdbx4.py:170-180 *)
Definition hval4 (i : hid) (b : bytes) : res hval :=
  match i with
  | H_comp => let* c := sub_comp b in Ok (HV_comp c)
  | H_kdf => let* d := vdict b in Ok (HV_dict d)
  | H_cipher => let* c := cipher_of b in Ok (HV_cipher c)
  | _ => Ok (HV_bytes b)
  end.
Definition h_item (k : nat) (idf : N -> res hid) (valf : hid -> bytes -> res hval) (_ : N) : parser (hid * hval) := fun d =>
  let* (n, r) := p_int 1 d in
  let* i := idf n in
  let* (v, r) := p_prefixed k (valf i) r in
  Ok (i, v, r).
(** kdbx3.py:107-113, kdbx4.py:183-189, common.py:61-71 *)
Definition p_dyn (major : N) : parser (option (list (hid * hval))) := fun d =>
  if major =? 3 then
    let* (l, r) := p_repeat (h_item 2 hid3 hval3) (fun it => hid_eqb (fst it) H_end) d in Ok (Some (d_of_list hid_eqb l), r)
  else if major =? 4 then
    let* (l, r) := p_repeat (h_item 4 hid4 hval4) (fun it => hid_eqb (fst it) H_end) d in Ok (Some (d_of_list hid_eqb l), r)
  else Ok (None, d).
Record header := MkHdr { h_raw : bytes; h_minor : N; h_major : N; h_dyn : option (list (hid * hval)) }.
Definition sig1 : bytes := [3; 217; 162; 154].
Definition sig2 : bytes := [103; 251; 75; 181].
(** kdbx.py:14-28 without RawCopy *)
Definition p_header0 : parser (N * N * option (list (hid * hval))) := fun d =>
  let* (s1, r) := p_bytes 4 d in
  let* (s2, r) := p_bytes 4 r in
  if str_eqb s1 sig1 && str_eqb s2 sig2 then
    let* (mi, r) := p_int 2 r in
    let* (ma, r) := p_int 2 r in
    let* (dy, r) := p_dyn ma r in
    Ok (mi, ma, dy, r)
  else Err (Ex_Check ["header"%string; "sig_check"%string]).
(** kdbx.py:14: RawCopy keeps the bytes read *)
Definition p_header : parser header := fun d =>
  let* (x, r) := p_header0 d in
  let '(mi, ma, dy) := x in
  Ok (MkHdr (firstn (List.length d - List.length r) d) mi ma dy, r).

(** *** Header accessors.  [this.a.b] on a missing key is a KeyError, [context.a.b] an AttributeError. *)
Definition hget (e : exn) (h : header) (i : hid) : res hval :=
  match h_dyn h with
  | None => Err Ex_Attribute
  | Some d => match d_get hid_eqb i d with Some v => Ok v | None => Err e end
  end.
Definition hbytes (e : exn) (h : header) (i : hid) : res bytes :=
  let* v := hget e h i in match v with HV_bytes b => Ok b | _ => Err Ex_Type end.
Definition hcipher (h : header) : res cipher :=
  let* v := hget Ex_Key h H_cipher in match v with HV_cipher c => Ok c | _ => Err Ex_Type end.
Definition hcomp (h : header) : res bool :=
  let* v := hget Ex_Key h H_comp in match v with HV_comp c => Ok c | _ => Err Ex_Attribute end.
Definition hpsid (h : header) : res streamid :=
  let* v := hget Ex_Key h H_psid in match v with HV_psid c => Ok c | _ => Err Ex_Type end.
Definition hrounds (h : header) : res N :=
  let* v := hget Ex_Attribute h H_trounds in match v with HV_num c => Ok c | _ => Err Ex_Type end.
Definition hkdf (h : header) : res (list (str * vval)) :=
  let* v := hget Ex_Attribute h H_kdf in match v with HV_dict c => Ok c | _ => Err Ex_Attribute end.
Definition vget (k : str) (d : list (str * vval)) : res vval :=
  match d_get str_eqb k d with Some v => Ok v | None => Err Ex_Key end.
Definition as_int (v : vval) : res Z :=
  match v with VV_int z => Ok z | VV_bool b => Ok (if b then 1 else 0)%Z | _ => Err Ex_Type end.
Definition as_bytes (v : vval) : res bytes := match v with VV_bytes b => Ok b | _ => Err Ex_Type end.
Definition is_bytes (v : vval) (b : bytes) : bool := match v with VV_bytes x => str_eqb x b | _ => false end.

(** *** Credentials passed to KDBX.parse/build (pykeepass.py:99-113, 158-178) *)
Record creds := MkCreds { c_pw : option str; c_kf : kfsrc; c_tk : option bytes; c_dec : bool }.

(** kdbx3.py:55-71 *)
Definition transformed3 (L : lib) (cr : creds) (h : header) : res bytes :=
  match c_tk cr with
  | Some k => Ok k
  | None =>
      let* kc := key_composite L (c_pw cr) (c_kf cr) in
      let* seed := hbytes Ex_Attribute h H_tseed in
      let* rounds := hrounds h in
      aes_kdf L seed rounds kc
  end.
(** kdbx4.py:63-98.  The composite is computed in every case, and a second time for AES-KDF. *)
Definition transformed4 (L : lib) (cr : creds) (h : header) : res bytes :=
  let* kc := key_composite L (c_pw cr) (c_kf cr) in
  let* kdf := hkdf h in
  match c_tk cr with
  | Some k => Ok k
  | None =>
      let* u := vget ($"$UUID") kdf in
      if is_bytes u kdf_argon2 || is_bytes u kdf_argon2id then
        let* s := vget ($"S") kdf in
        let* i := vget ($"I") kdf in
        let* m := vget ($"M") kdf in
        let* m := as_int m in
        let* p := vget ($"P") kdf in
        let* v := vget ($"V") kdf in
        let* s := as_bytes s in
        let* i := as_int i in
        let* p := as_int p in
        let* v := as_int v in
        argon2 L kc s (is_bytes u kdf_argon2id) i (m / 1024)%Z p v
      else if is_bytes u kdf_aes then
        let* kc := key_composite L (c_pw cr) (kf_next (c_kf cr)) in
        let* s := vget ($"S") kdf in
        let* r := vget ($"R") kdf in
        let* s := as_bytes s in
        let* r := as_int r in
        aes_kdf L s (Z.to_N r) kc
      else Err Ex_Generic
  end.
(** common.py:180-188 *)
Definition master_key (L : lib) (h : header) (tk : bytes) : res bytes :=
  let* seed := hbytes Ex_Attribute h H_seed in Ok (sha256 L (seed ++ tk)).
(** kdbx4.py:101-116 *)
Definition hmac_base (L : lib) (seed tk : bytes) : bytes := sha512 L (seed ++ tk ++ [1]).
Definition header_hmac (L : lib) (h : header) (tk : bytes) : res bytes :=
  let* seed := hbytes Ex_Attribute h H_seed in
  Ok (hmac256 L (sha512 L (repeat 255 8 ++ hmac_base L seed tk)) (h_raw h)).
(** kdbx4.py:193-208 *)
Definition block_hmac (L : lib) (seed tk : bytes) (i : N) (data : bytes) : bytes :=
  hmac256 L (sha512 L (le_enc 8 i ++ hmac_base L seed tk)) (le_enc 8 i ++ le_enc 4 (lenN data) ++ data).

(** *** Payload blocks *)
(** kdbx4.py:213-233.  The error path is the one construct reports. *)
Definition block4 (L : lib) (seed tk : bytes) (i : N) : parser bytes := fun d =>
  let* (h, r) := p_bytes 32 d in
  let* (b, r) := p_prefixed 4 (fun b => Ok b) r in
  if str_eqb h (block_hmac L seed tk i b) then Ok (b, r)
  else Err (Ex_Checksum ["body"%string; "payload"%string; "hmac_hash"%string]).
(** kdbx3.py:118-151 *)
Definition block3_hash (L : lib) (b : bytes) : bytes := match b with [] => repeat 0 32 | _ => sha256 L b end.
Definition block3 (L : lib) (i : N) : parser bytes := fun d =>
  let* (n, r) := p_int 4 d in
  if n =? i then
    let* (h, r) := p_bytes 32 r in
    let* (b, r) := p_prefixed 4 (fun b => Ok b) r in
    if str_eqb h (block3_hash L b) then Ok (b, r)
    else Err (Ex_Checksum ["xml"%string; "block_hash"%string])
  else Err (Ex_Checksum ["xml"%string; "block_index"%string]).
Definition is_empty (b : bytes) : bool := match b with [] => true | _ => false end.
(** RepeatUntil and Concatenated._decode (common.py:294-295) *)
Definition blocks4 (L : lib) (seed tk : bytes) : parser bytes := fun d =>
  let* (l, r) := p_repeat (block4 L seed tk) is_empty d in Ok (List.concat l, r).
Definition blocks3 (L : lib) : parser bytes := fun d =>
  let* (l, r) := p_repeat (block3 L) is_empty d in Ok (List.concat l, r).
(** Concatenated._encode (common.py:297-306) *)
Definition block_size : N := 1048576.
Fixpoint takeN {A} (n : N) (l : list A) : list A :=
  match l with [] => [] | x :: l' => if n =? 0 then [] else x :: takeN (n - 1) l' end.
Fixpoint dropN {A} (n : N) (l : list A) : list A :=
  match l with [] => [] | x :: l' => if n =? 0 then l else dropN (n - 1) l' end.
Fixpoint chunks (fuel : nat) (d : bytes) : list bytes :=
  match fuel, d with
  | _, [] | O, _ => [[]]
  | S f, _ => takeN block_size d :: chunks f (dropN block_size d)
  end.
Definition to_chunks (d : bytes) : list bytes := chunks (List.length d) d.
(** kdbx4.py:213-228 building: the hash is written at the remembered offset *)
Definition enc_block4 (L : lib) (seed tk : bytes) (i : N) (b : bytes) : bytes :=
  block_hmac L seed tk i b ++ le_enc 4 (lenN b) ++ b.
Definition enc_block3 (L : lib) (i : N) (b : bytes) : bytes :=
  le_enc 4 i ++ block3_hash L b ++ le_enc 4 (lenN b) ++ b.
Definition enc_seq {A} (enc : N -> A -> bytes) : N -> list A -> bytes :=
  fix go (j : N) (l : list A) := match l with [] => [] | a :: l' => enc j a ++ go (j + 1) l' end.
(** struct.pack('<Q', index) fails from 2^64 on, Int32ul from 2^32 on. *)
Definition build_blocks4 (L : lib) (seed tk : bytes) (d : bytes) : res bytes :=
  let l := to_chunks d in
  if 2 ^ 64 <? lenN l then Err Ex_Struct else Ok (enc_seq (enc_block4 L seed tk) 0 l).
Definition build_blocks3 (L : lib) (d : bytes) : res bytes :=
  let l := to_chunks d in
  if 2 ^ 32 <? lenN l then Err Ex_Construct else Ok (enc_seq (enc_block3 L) 0 l).

(** *** Payload encryption (common.py:309-366) *)
Definition try_unpad (d : bytes) : bytes := match pkcs7_unpad d with Ok p => p | Err _ => d end.
Definition payload_decrypt (L : lib) (c : cipher) (mk iv d : bytes) : res bytes :=
  match c with
  | C_aes => let* p := aes_cbc_decrypt L mk iv d in Ok (try_unpad p)
  | C_chacha => let* _ := chacha_new mk iv in Ok (xor_ks (chacha_ks L mk iv) 0 d)
  | C_twofish => let* s := tf_cbc_new mk (Some iv) in Ok (try_unpad (fst (cbc_update Decrypt s d)))
  end.
Definition payload_encrypt (L : lib) (c : cipher) (mk iv d : bytes) : res bytes :=
  match c with
  | C_aes => aes_cbc_encrypt L mk iv (pkcs7_pad d)
  | C_chacha => let* _ := chacha_new mk iv in Ok (xor_ks (chacha_ks L mk iv) 0 d)
  | C_twofish => let* s := tf_cbc_new mk (Some iv) in Ok (fst (cbc_update Encrypt s (pkcs7_pad d)))
  end.
(** common.py:369-385 under IfThenElse *)
Definition decompress (L : lib) (comp : bool) (d : bytes) : res bytes := if comp then gunzip L d else Ok d.
Definition compress (L : lib) (comp : bool) (d : bytes) : bytes := if comp then gzip L d else d.

(** *** Protected values (common.py:205-286) *)
Definition salsa_nonce : bytes := [232; 48; 9; 75; 151; 32; 93; 42].
Definition stream_ks (L : lib) (s : streamid) (key : bytes) : res (N -> N) :=
  match s with
  | S_salsa => Ok (salsa_ks L (sha256 L key) salsa_nonce)
  | S_chacha => let k := sha512 L key in Ok (chacha_ks L (firstn 32 k) (firstn 12 (skipn 32 k)))
  | S_arc4 => Err Ex_Generic
  | S_none => Err Ex_Generic
  end.
(** //Value[@Protected='True'] *)
Definition is_protected (tag : str) (attrs : list (str * str)) : bool :=
  str_eqb tag ($"Value")
  && match find (fun a => str_eqb (fst a) ($"Protected")) attrs with Some (_, v) => str_eqb v ($"True") | None => false end.
(** The loop over matching elements in document order; [f] handles one text at a keystream position. *)
Fixpoint walk (f : N -> str -> res (str * N)) (pos : N) (t : xml) : res (xml * N) :=
  let 'X tag attrs text kids := t in
  let* (text', p1) :=
    match text with
    | Some s => if is_protected tag attrs then let* (s', p) := f pos s in Ok (Some s', p) else Ok (text, pos)
    | None => Ok (text, pos)
    end in
  let* (kids', p2) :=
    (fix go (pos : N) (l : list xml) : res (list xml * N) :=
       match l with
       | [] => Ok ([], pos)
       | k :: l' => let* (k', p) := walk f pos k in let* (l'', p') := go p l' in Ok (k' :: l'', p')
       end) p1 kids in
  Ok (X tag attrs text' kids', p2).
(** common.py:219-233 *)
Definition unprot_text (ks : N -> N) (pos : N) (s : str) : res (str * N) :=
  match b64decode s with
  | Err _ => Ok (s, pos)
  | Ok ct =>
      match utf8_decode (xor_ks ks pos ct) with
      | Ok p => Ok (filter xml_char p, pos + lenN ct)
      | Err _ => Ok (s, pos + lenN ct)
      end
  end.
(** common.py:240-245 *)
Definition prot_text (ks : N -> N) (pos : N) (s : str) : res (str * N) :=
  let* b := utf8_encode s in Ok (b64encode (xor_ks ks pos b), pos + lenN b).
(** common.py:216-234, 276-286 *)
Definition unprotect (L : lib) (s : streamid) (key : res bytes) (t : xml) : res xml :=
  match s with
  | S_none => Ok t
  | _ => let* k := key in let* ks := stream_ks L s k in let* (t', _) := walk (unprot_text ks) 0 t in Ok t'
  end.
(** common.py:236-246: [deepcopy] first, then the copy is changed.  The pair is (document left in memory,
    document to be written). *)
Definition protect (L : lib) (s : streamid) (key : res bytes) (t : xml) : xml * res xml :=
  match s with
  | S_none => (t, Ok t)
  | _ =>
      let copy := t in
      (t, let* k := key in let* ks := stream_ks L s k in let* (t', _) := walk (prot_text ks) 0 copy in Ok t')
  end.

(** *** KDBX4 inner header (kdbx4.py:244-270) *)
Inductive iid := I_end | I_psid | I_pskey | I_binary.
Definition iid_num (i : iid) : N := match i with I_end => 0 | I_psid => 1 | I_pskey => 2 | I_binary => 3 end.
Definition iid_eqb (a b : iid) : bool := iid_num a =? iid_num b.
Definition iid_of (n : N) : res iid :=
  if n =? 0 then Ok I_end else if n =? 1 then Ok I_psid else if n =? 2 then Ok I_pskey
  else if n =? 3 then Ok I_binary else Err Ex_Mapping.
Inductive ival := IV_bytes (b : bytes) | IV_stream (s : streamid).
Definition i_value (i : iid) (b : bytes) : res ival :=
  match i with
  | I_psid => let* n := sub_int 4 b in let* s := stream_of n in Ok (IV_stream s)
  | _ => Ok (IV_bytes b)
  end.
Definition i_item (_ : N) : parser (iid * ival) := fun d =>
  let* (n, r) := p_int 1 d in
  let* i := iid_of n in
  let* (v, r) := p_prefixed 4 (i_value i) r in
  Ok (i, v, r).
(** [ih_bins]: the lumped 'binary' items (flag byte and content each); [ih_items]: the others, in order. *)
Record inner := MkInner { ih_bins : list bytes; ih_items : list (iid * ival) }.
(** common.py:61-71 with lump=['binary'] *)
Definition i_collect (l : list (iid * ival)) : inner :=
  MkInner (flat_map (fun it => match it with (I_binary, IV_bytes b) => [b] | _ => [] end) l)
          (d_of_list iid_eqb (filter (fun it => negb (iid_eqb (fst it) I_binary)) l)).
Definition p_inner : parser inner := fun d =>
  let* (l, r) := p_repeat i_item (fun it => iid_eqb (fst it) I_end) d in Ok (i_collect l, r).
(** Building (common.py:74-82): binaries first, then the other items. *)
Definition enc_prefixed (b : bytes) : res bytes :=
  if lenN b <? 2 ^ 32 then Ok (le_enc 4 (lenN b) ++ b) else Err Ex_Construct.
Definition i_bytes (v : ival) : bytes := match v with IV_bytes b => b | IV_stream s => le_enc 4 (stream_num s) end.
Fixpoint build_items (l : list (iid * ival)) : res bytes :=
  match l with
  | [] => Err Ex_Construct (* RepeatError: no 'end' item *)
  | (i, v) :: l' =>
      let* b := enc_prefixed (i_bytes v) in
      if iid_eqb i I_end then Ok (iid_num i :: b)
      else let* r := build_items l' in Ok (iid_num i :: b ++ r)
  end.
Definition build_inner (ih : inner) : res bytes :=
  build_items (map (fun b => (I_binary, IV_bytes b)) (ih_bins ih) ++ ih_items ih).
Definition i_stream (ih : inner) : res streamid :=
  match d_get iid_eqb I_psid (ih_items ih) with
  | Some (IV_stream s) => Ok s | Some _ => Err Ex_Type | None => Err Ex_Key end.
Definition i_key (ih : inner) : res bytes :=
  match d_get iid_eqb I_pskey (ih_items ih) with
  | Some (IV_bytes s) => Ok s | Some _ => Err Ex_Type | None => Err Ex_Key end.

(** *** Unpacked payloads.  [p_inner_hdr] is None for KDBX3. *)
Record payload := MkPay { p_hdr : option inner; p_xml : xml }.
(** kdbx4.py:272-281 *)
Definition unpack4 (L : lib) (d : bytes) : res payload :=
  let* (ih, r) := p_inner d in
  let* s := i_stream ih in
  let* t := xml_parse L r in
  let* t := unprotect L s (i_key ih) t in
  Ok (MkPay (Some ih) t).
(** kdbx3.py:158-179 *)
Definition unpack3 (L : lib) (h : header) (d : bytes) : res payload :=
  let* (s0, r) := p_bytes 32 d in
  let* ssb := hbytes Ex_Attribute h H_ssb in
  if str_eqb s0 ssb then
    let* s := hpsid h in
    let* comp := hcomp h in
    let* (b, _) := blocks3 L r in
    let* x := decompress L comp b in
    let* t := xml_parse L x in
    let* t := unprotect L s (hbytes Ex_Key h H_pskey) t in
    Ok (MkPay None t)
  else Err (Ex_Checksum ["cred_check"%string]).
(** Building them.  First component: the payload left in memory. *)
Definition pack4 (L : lib) (p : option payload) : option payload * res bytes :=
  match p with
  | None => (p, Err Ex_Key)
  | Some pl =>
      match p_hdr pl with
      | None => (p, Err Ex_Key)
      | Some ih =>
          match build_inner ih, i_stream ih with
          | Ok hb, Ok s =>
              let '(mem, t) := protect L s (i_key ih) (p_xml pl) in
              (Some (MkPay (Some ih) mem), let* t := t in Ok (hb ++ xml_ser L t))
          | Err e, _ | _, Err e => (p, Err e)
          end
      end
  end.
Definition pack3 (L : lib) (h : header) (p : option payload) : option payload * res bytes :=
  match p with
  | None => (p, let* ssb := hbytes Ex_Attribute h H_ssb in
                if (List.length ssb =? 32)%nat then Err Ex_Key else Err Ex_Stream)
  | Some pl =>
      match hbytes Ex_Attribute h H_ssb, hpsid h with
      | Ok ssb, Ok s =>
          if (List.length ssb =? 32)%nat then
            let '(mem, t) := protect L s (hbytes Ex_Key h H_pskey) (p_xml pl) in
            (Some (MkPay (p_hdr pl) mem),
             let* t := t in
             let* comp := hcomp h in
             let* b := build_blocks3 L (compress L comp (xml_ser L t)) in
             Ok (ssb ++ b))
          else (p, Err Ex_Stream)
      | Err e, _ | _, Err e => (p, Err e)
      end
  end.

(** *** Bodies *)
Record body := MkBody { b_tkey : bytes; b_mkey : bytes; b_payload : option payload }.
Record kdbx := MkKdbx { k_hdr : header; k_body : option body }.

(** kdbx3.py:184-198 *)
Definition body3 (L : lib) (cr : creds) (h : header) : parser body := fun d =>
  let* tk := transformed3 L cr h in
  let* mk := master_key L h tk in
  if c_dec cr then
    let* c := hcipher h in
    let* iv := hbytes Ex_Attribute h H_iv in
    let* p := payload_decrypt L c mk iv d in
    let* pl := unpack3 L h p in
    Ok (MkBody tk mk (Some pl), [])
  else Ok (MkBody tk mk None, d).
(** kdbx4.py:286-312 *)
Definition body4 (L : lib) (cr : creds) (h : header) : parser body := fun d =>
  let* tk := transformed4 L cr h in
  let* mk := master_key L h tk in
  let* (s, r) := p_bytes 32 d in
  if str_eqb s (sha256 L (h_raw h)) then
    if c_dec cr then
      let* (m, r) := p_bytes 32 r in
      let* hm := header_hmac L h tk in
      if str_eqb m hm then
        let* comp := hcomp h in
        let* c := hcipher h in
        let* seed := hbytes Ex_Attribute h H_seed in
        let* (ct, r) := blocks4 L seed tk r in
        let* iv := hbytes Ex_Attribute h H_iv in
        let* p := payload_decrypt L c mk iv ct in
        let* x := decompress L comp p in
        let* pl := unpack4 L x in
        Ok (MkBody tk mk (Some pl), r)
      else Err (Ex_Checksum ["body"%string; "cred_check"%string])
    else Ok (MkBody tk mk None, r)
  else Err (Ex_Checksum ["body"%string; "sha256"%string]).
(** kdbx.py:13-35 (Switch without default: nothing is read for another major version) *)
Definition p_kdbx (L : lib) (cr : creds) : parser kdbx := fun d =>
  let* (h, r) := p_header d in
  if h_major h =? 3 then let* (b, r) := body3 L cr h r in Ok (MkKdbx h (Some b), r)
  else if h_major h =? 4 then let* (b, r) := body4 L cr h r in Ok (MkKdbx h (Some b), r)
  else Ok (MkKdbx h None, r).

(** pykeepass.py:115-136 *)
Definition path_eqb := list_eqb String.eqb.
Definition classify (e : exn) : exn :=
  match e with
  | Ex_Check p => if path_eqb p ["header"%string; "sig_check"%string] then Ex_HeaderChecksum else e
  | Ex_Checksum p =>
      if path_eqb p ["body"%string; "cred_check"%string] || path_eqb p ["cred_check"%string] then Ex_Credentials
      else if path_eqb p ["body"%string; "sha256"%string] then Ex_HeaderChecksum
      else if path_eqb p ["body"%string; "payload"%string; "hmac_hash"%string] || path_eqb p ["xml"%string; "block_hash"%string]
      then Ex_PayloadChecksum
      else e
  | _ => e
  end.
(** pykeepass.py:97-136: the parsing part of read, on the bytes from the stream's position on.
    Also returns what was left unread. *)
Definition open_kdbx (L : lib) (cr : creds) (d : bytes) : res (kdbx * bytes) :=
  match p_kdbx L cr d with Ok x => Ok x | Err e => Err (classify e) end.

(** *** Building (pykeepass.py:157-178, decrypt=True).  Result: bytes written so far, outcome, database left in memory. *)
Definition build3 (L : lib) (cr : creds) (h : header) (b : body) : bytes * res unit * body :=
  let raw := h_raw h in
  match (let* tk := transformed3 L cr h in let* mk := master_key L h tk in Ok mk) with
  | Err e => (raw, Err e, b)
  | Ok mk =>
      let '(mem, pt) := pack3 L h (b_payload b) in
      let b' := MkBody (b_tkey b) (b_mkey b) mem in
      match (let* p := pt in
             let* c := hcipher h in
             let* iv := hbytes Ex_Attribute h H_iv in
             payload_encrypt L c mk iv p) with
      | Err e => (raw, Err e, b')
      | Ok ct => (raw ++ ct, Ok tt, b')
      end
  end.
Definition build4 (L : lib) (cr : creds) (h : header) (b : body) : bytes * res unit * body :=
  let raw := h_raw h in
  match (let* tk := transformed4 L cr h in
         let* mk := master_key L h tk in
         let* seed := hbytes Ex_Attribute h H_seed in
         let* hm := header_hmac L h tk in Ok (tk, mk, seed, hm)) with
  | Err e => (raw, Err e, b)
  | Ok (tk, mk, seed, hm) =>
      let out := raw ++ sha256 L raw ++ hm in
      let '(mem, pt) := pack4 L (b_payload b) in
      let b' := MkBody (b_tkey b) (b_mkey b) mem in
      match (let* p := pt in
             let* comp := hcomp h in
             let* c := hcipher h in
             let* iv := hbytes Ex_Attribute h H_iv in
             let* ct := payload_encrypt L c mk iv (compress L comp p) in
             build_blocks4 L seed tk ct) with
      | Err e => (out, Err e, b')
      | Ok bl => (out ++ bl, Ok tt, b')
      end
  end.
Definition build_kdbx (L : lib) (cr : creds) (k : kdbx) : bytes * res unit * kdbx :=
  let h := k_hdr k in
  match k_body k with
  | Some b =>
      if h_major h =? 3 then let '(o, r, b') := build3 L cr h b in (o, r, MkKdbx h (Some b'))
      else if h_major h =? 4 then let '(o, r, b') := build4 L cr h b in (o, r, MkKdbx h (Some b'))
      else (h_raw h, Ok tt, k)
  | None =>
      (* Pass for another major version; for 3 and 4 a parsed database always has a body *)
      (h_raw h, Ok tt, k)
  end.
