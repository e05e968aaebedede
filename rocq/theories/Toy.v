(** A small concrete instance of the external libraries satisfying [lib_ok], and sample databases: used to show that
    the hypotheses of the theorems are met.  Models no code of /repo (the XML codec is the one of Xml.v). *)
From Coq Require Import ZifyBool ZifyNat ZifyN.
From Verif Require Import Base Base64 PyStr Utf8 Xml Xml_facts Cbc Cbc_facts Lib Keyfile Construct Kdbx Kdbx_facts.
Ltac Zify.zify_post_hook ::= Z.div_mod_to_equations.

(** A 16-bit checksum spread over [n] bytes. *)
Definition mix (h b : N) : N := N.land (5 * h + b + 7) 65535.
Definition toy_hash (n : nat) (salt : N) (d : bytes) : bytes :=
  let h := fold_left mix d (salt + 1) in
  let a := N.land h 255 in let b := N.land (N.shiftr h 8) 255 in
  map (fun i => if Nat.even i then a else b) (seq 0 n).
Definition toy_block (k b : bytes) : bytes := strxor b (repeat (N.land (hd 0 k) 255) 16).
Definition toy_ks (k n : bytes) (p : N) : N := N.land (hd 1 k + hd 2 n + 59 * p) 255.
Definition toy : lib := {|
  sha256 := toy_hash 32 1; sha512 := toy_hash 64 2; hmac256 := fun k m => toy_hash 32 3 (k ++ m);
  aes_enc := toy_block; aes_dec := toy_block; chacha_ks := toy_ks; salsa_ks := toy_ks;
  argon2 := fun k s id i m p v => Ok (toy_hash 32 4 (k ++ s));
  gzip := fun d => 31 :: d;
  gunzip := fun d => match d with 31 :: r => if all_bytesb r then Ok r else Err Ex_Zlib | _ => Err Ex_Zlib end;
  xml_parse := xml_parse_doc; xml_ser := xml_tostring; kf_parse := xml_parse_doc |}.
Lemma land255 x : N.land x 255 < 256.
Proof. change 255 with (N.ones 8). rewrite N.land_ones. apply N.mod_lt. discriminate. Qed.
Lemma toy_hash_ok n s d : digest n (toy_hash n s d).
Proof.
  split; [unfold toy_hash; rewrite map_length, seq_length; reflexivity|]. unfold toy_hash, bytes_ok. rewrite Forall_forall. intros x Hx.
  apply in_map_iff in Hx. destruct Hx as (i & <- & _). unfold is_byte. destruct (Nat.even i); apply land255.
Qed.
Lemma toy_block_ok k b : digest 16 b -> digest 16 (toy_block k b) /\ toy_block k (toy_block k b) = b.
Proof.
  intros [Hl Hb]. unfold toy_block. generalize (land255 (hd 0 k)). generalize (N.land (hd 0 k) 255). intros x0 Hx0. split.
  - split; [rewrite strxor_length; [exact Hl|rewrite Hl; reflexivity]|]. apply strxor_ok; [exact Hb|].
    unfold bytes_ok. rewrite Forall_forall. intros x Hx. apply repeat_spec in Hx. subst. exact Hx0.
  - assert (G : forall n b, List.length b = n -> strxor (strxor b (repeat x0 n)) (repeat x0 n) = b).
    { induction n as [|n IH]; intros [|x l] E; try discriminate; cbn [repeat strxor]; [reflexivity|]. injection E as E. rewrite IH by exact E.
      rewrite N.lxor_assoc, N.lxor_nilpotent, N.lxor_0_r. reflexivity. }
    apply G, Hl.
Qed.
Lemma toy_ok : lib_ok toy.
Proof.
  constructor; cbn [toy sha256 sha512 hmac256 aes_enc aes_dec chacha_ks salsa_ks gzip gunzip xml_parse xml_ser].
  - intros; apply toy_hash_ok.
  - intros; apply toy_hash_ok.
  - intros; apply toy_hash_ok.
  - intros k b H. apply toy_block_ok, H.
  - intros k b H. apply toy_block_ok, H.
  - intros k n p. apply land255.
  - intros k n p. apply land255.
  - intros d H. split; [constructor; [reflexivity|exact H]|]. cbv beta iota. apply all_bytesb_ok in H. rewrite H. reflexivity.
  - intros d x H.
    destruct d as [|a d]; [discriminate|]. 
    repeat match type of H with context [match ?y with _ => _ end] => is_var y; destruct y; try discriminate end.
    destruct (all_bytesb d) eqn:E; [|discriminate]. injection H as <-. apply all_bytesb_ok, E.
  - intros t H. split.
    + apply ser_ascii in H. unfold bytes_ok, xml_tostring. rewrite Forall_forall. rewrite forallb_forall in H. intros x Hx. apply H in Hx. unfold is_byte. lia.
    + intros _. apply xml_codec, H.
Qed.

(** *** Sample databases *)
Definition sample_kdf : bytes :=
  [0; 1] ++ [66] ++ le_enc 4 5 ++ $"$UUID" ++ le_enc 4 16 ++ kdf_aes
  ++ [5] ++ le_enc 4 1 ++ $"R" ++ le_enc 4 8 ++ le_enc 8 3
  ++ [66] ++ le_enc 4 1 ++ $"S" ++ le_enc 4 32 ++ repeat 8 32 ++ [0].
Definition item4 (i : N) (d : bytes) : bytes := [i] ++ le_enc 4 (lenN d) ++ d.
Definition item3 (i : N) (d : bytes) : bytes := [i] ++ le_enc 2 (lenN d) ++ d.
Definition sample_head4 (c : bytes) (iv : nat) : bytes :=
  sig1 ++ sig2 ++ [1; 0] ++ [4; 0] ++ item4 2 c ++ item4 3 [0; 0; 0; 0] ++ item4 4 (repeat 17 32)
  ++ item4 7 (repeat 9 iv) ++ item4 11 sample_kdf ++ item4 0 [13; 10; 13; 10].
Definition sample_head3 (c : bytes) (iv : nat) : bytes :=
  sig1 ++ sig2 ++ [1; 0] ++ [3; 0] ++ item3 2 c ++ item3 3 [0; 0; 0; 0] ++ item3 4 (repeat 17 32) ++ item3 5 (repeat 8 32)
  ++ item3 6 (le_enc 8 3) ++ item3 7 (repeat 9 iv) ++ item3 8 (repeat 3 32) ++ item3 9 (repeat 4 32) ++ item3 10 [2; 0; 0; 0] ++ item3 0 [13; 10; 13; 10].
Definition el (tag : str) (kids : list xml) : xml := X tag [] None kids.
Definition tx (tag : str) (text : str) : xml := X tag [] (Some text) [].
Definition sample_doc : xml :=
  el ($"KeePassFile") [el ($"Root") [el ($"Group") [tx ($"Name") ($"Root");
    el ($"Entry") [el ($"String") [tx ($"Key") ($"Password"); X ($"Value") [($"Protected", $"True")] (Some (233 :: $"p<ass")) []];
                   el ($"String") [tx ($"Key") ($"PIN"); X ($"Value") [($"Protected", $"True")] (Some ($"1234")) []]]]]].
Definition sample_doc2 : xml :=
  el ($"KeePassFile") [el ($"Root") [el ($"Group") [tx ($"Name") ($"Home");
    el ($"Entry") [el ($"String") [tx ($"Key") ($"Password"); X ($"Value") [($"Protected", $"True")] (Some ($"qwerty")) []]]]]].
Definition sample_cr : creds := MkCreds (Some ($"secret")) KF_none None true.
Definition wrong_cr : creds := MkCreds (Some ($"Secret")) KF_none None true.
Definition hdr_of (d : bytes) : header := match p_header d with Ok (h, _) => h | Err _ => MkHdr [] 0 0 None end.
Definition sample_inner : inner :=
  MkInner [[1; 104; 105]] [(I_psid, IV_stream S_chacha); (I_pskey, IV_bytes (repeat 6 64)); (I_end, IV_bytes [])].
Definition sample4 (c : bytes) (iv : nat) : kdbx := MkKdbx (hdr_of (sample_head4 c iv)) (Some (MkBody [] [] (Some (MkPay (Some sample_inner) sample_doc)))).
Definition sample3 (c : bytes) (iv : nat) : kdbx := MkKdbx (hdr_of (sample_head3 c iv)) (Some (MkBody [] [] (Some (MkPay None sample_doc)))).
Definition saved (k : kdbx) : bytes := fst (fst (build_kdbx toy sample_cr k)).
Definition file4 : bytes := saved (sample4 chacha_uuid 12).
Definition file4a : bytes := saved (sample4 aes_uuid 16).
Definition file3 : bytes := saved (sample3 aes_uuid 16).
Definition file3c : bytes := saved (sample3 chacha_uuid 12).
