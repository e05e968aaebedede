(** Files for the examples of Prop_Header.v: conforming headers of several versions, and documents with damaged protected values.  Models no code. *)
From Verif Require Import Base Base64 Utf8 Xml Lib TwofishSpec KdbxSpec Construct Keyfile Kdbx Kdbx_file Toy Kdbx_claims FormatSpec Format FormatEx Format_more Save Object ObjectEx.

Definition outer4 (minor : N) : outer := MkOuter minor (o_fields ex_outer4) (o_end ex_outer4).
Definition outer3 (minor : N) : outer := MkOuter minor (o_fields ex_outer3) (o_end ex_outer3).
Lemma head4_minor m : m < 2 ^ 16 -> head4 (outer4 m) id_chacha20 false (repeat 17 32) (repeat 9 12) ex_kdf.
Proof. intros H. destruct ex_head4 as [_ X]. split; [exact H|exact X]. Qed.
Lemma head3_minor m : m < 2 ^ 16 -> head3 (outer3 m) id_aes false (repeat 17 32) (repeat 9 16) ex_kdf (repeat 3 32) (repeat 4 32) 2.
Proof. intros H. destruct ex_head3 as [_ X]. split; [exact H|exact X]. Qed.

(** A KDBX 4 file around the bytes of a document. *)
Definition content_of (xb : bytes) : bytes := List.concat (map field4 ex_items) ++ field4 (0, []) ++ xb.
Definition sealed_content (xb : bytes) : bytes := xor_at (chacha_ks toy (sha256 toy (repeat 17 32 ++ tk_ex)) (repeat 9 12)) 0 (content_of xb).
Definition file_of (o : outer) (xb : bytes) : bytes :=
  head_bytes 4 field4 o ++ sha256 toy (head_bytes 4 field4 o) ++ head_tag toy (repeat 17 32) tk_ex (head_bytes 4 field4 o) ++ frames (tagged toy (repeat 17 32) tk_ex 0 [sealed_content xb; []]).
Lemma file_of_ok m bad xb doc : m < 2 ^ 16 -> bytes_ok xb -> sealed_content xb <> [] -> lenN (sealed_content xb) < 2 ^ 32 -> document toy bad 3 (repeat 6 64) xb doc ->
  kdbx4_with toy bad ex_composite (outer4 m) (file_of (outer4 m) xb) [[1; 104; 105]] doc.
Proof.
  intros Hm Hx Hc Hl D. exists id_chacha20, false, (repeat 17 32), (repeat 9 12), ex_kdf, tk_ex, (content_of xb), (content_of xb), [sealed_content xb; []]. split; [exact (head4_minor m Hm)|]. split; [exact ex_derives|].
  assert (B : bytes_ok (content_of xb)). { unfold content_of. apply bytes_ok_app. split; [unfold bytes_ok; vm_compute; repeat (constructor; [reflexivity|]); constructor|]. apply bytes_ok_app. split; [unfold bytes_ok; vm_compute; repeat (constructor; [reflexivity|]); constructor|exact Hx]. }
  split; [|split; [reflexivity|split; [exact B|split; [|split; [|split; [|reflexivity]]]]]].
  - exists ex_items, [], 3, (repeat 6 64), xb. split; [repeat (constructor; [split; [shorts|inl]|]); constructor|]. split; [shorts|]. split; [|split; [|split; [vm_compute; nodups|split; [reflexivity|split; [reflexivity|exact D]]]]].
    + intros v. split; [intros [E|[E|[E|[]]]]; try discriminate; injection E as <-; reflexivity|intros ->; inl].
    + intros v. split; [intros [E|[E|[E|[]]]]; try discriminate; injection E as <-; reflexivity|intros ->; inl].
  - cbn [List.concat]. rewrite app_nil_r. apply en_chacha20. reflexivity.
  - exists [sealed_content xb]. split; [reflexivity|]. constructor; [exact Hc|constructor].
  - constructor; [exact Hl|]. constructor; [reflexivity|constructor].
Qed.
Lemma stream6 : exists k n r, sha512 toy (repeat 6 64) = k ++ n ++ r /\ List.length k = 32%nat /\ List.length n = 12%nat.
Proof. exists (firstn 32 (sha512 toy (repeat 6 64))), (firstn 12 (skipn 32 (sha512 toy (repeat 6 64)))), (skipn 44 (sha512 toy (repeat 6 64))). vm_compute. auto. Qed.
Definition ks6 : N -> N := chacha_ks toy (firstn 32 (sha512 toy (repeat 6 64))) (firstn 12 (skipn 32 (sha512 toy (repeat 6 64)))).
Lemma stream_ks6 : FormatSpec.stream toy (repeat 6 64) 3 ks6.
Proof. apply (st_chacha20 toy (repeat 6 64) _ _ (skipn 44 (sha512 toy (repeat 6 64)))); vm_compute; reflexivity. Qed.

(** Four protected values: bytes that are no text, text in the clear, and two sealed ones. *)
Definition pv (s : str) : xml := X $"Value" [($"Protected", $"True")] (Some s) [].
Definition holder (l : list xml) : xml := X $"KeePassFile" [] None l.
Definition garbage : str := Eval vm_compute in b64encode (xor_at ks6 4 [255; 254; 65]).
Definition sealed_at (pos : nat) (s : str) : str := b64encode (xor_at ks6 pos s).
Definition broken_doc : xml := holder [pv $"1234"; pv garbage; pv $"plain"; pv $"pass"].
Definition broken_raw : xml := holder [pv (sealed_at 0 $"1234"); pv garbage; pv $"plain"; pv (sealed_at 7 $"pass")].
Definition broken_bytes : bytes := Eval vm_compute in xml_ser toy broken_raw.
Lemma broken_document : document toy (either garbled clear_text) 3 (repeat 6 64) broken_bytes broken_doc.
Proof.
  exists broken_raw. split; [vm_compute; reflexivity|]. right. exists ks6, 11%nat. split; [exact stream_ks6|]. apply seals_node with (mid := O); [reflexivity|split; reflexivity|].
  assert (V : forall p m s s', seals_text ks6 (either garbled clear_text) true p (Some s) (Some s') m -> seals ks6 (either garbled clear_text) p (pv s) (pv s') m) by (intros p m s s' H; apply seals_node with (mid := m); [reflexivity|exact H|constructor]).
  apply seals_cons with (mid := 4%nat). { apply V. left. split; [reflexivity|]. exists $"1234". repeat split; vm_compute; reflexivity. }
  apply seals_cons with (mid := 7%nat). { apply V. right. split; [|reflexivity]. left. exists (xor_at ks6 4 [255; 254; 65]). split; [vm_compute; reflexivity|]. split; [unfold bytes_ok; vm_compute; repeat (constructor; [reflexivity|]); constructor|]. split; [|reflexivity].
    intros s E. apply utf8_roundtrip in E. vm_compute in E. discriminate. }
  apply seals_cons with (mid := 7%nat). { apply V. right. split; [|reflexivity]. right. split; [|reflexivity]. right. split; [vm_compute; intuition discriminate|vm_compute; discriminate]. }
  apply seals_cons with (mid := 11%nat). { apply V. left. split; [reflexivity|]. exists $"pass". repeat split; vm_compute; reflexivity. }
  constructor.
Qed.
(** Two sealed values, of the first only the start is left. *)
Definition stub : str := Eval vm_compute in firstn 5 (sealed_at 0 $"secret!").
Definition cut_doc : xml := holder [pv stub; pv $"pass"].
Definition cut_bytes : bytes := Eval vm_compute in xml_ser toy (holder [pv stub; pv (sealed_at 7 $"pass")]).
Lemma cut_document : document toy cut_off 3 (repeat 6 64) cut_bytes cut_doc.
Proof.
  exists (holder [pv stub; pv (sealed_at 7 $"pass")]). split; [vm_compute; reflexivity|]. right. exists ks6, 11%nat. split; [exact stream_ks6|]. apply seals_node with (mid := O); [reflexivity|split; reflexivity|].
  assert (V : forall p m s s', seals_text ks6 cut_off true p (Some s) (Some s') m -> seals ks6 cut_off p (pv s) (pv s') m) by (intros p m s s' H; apply seals_node with (mid := m); [reflexivity|exact H|constructor]).
  apply seals_cons with (mid := 7%nat). { apply V. right. split; [|reflexivity]. split; [right; split; [vm_compute; intuition discriminate|vm_compute; discriminate]|]. exists $"secret!". split; [unfold bytes_ok; vm_compute; repeat (constructor; [reflexivity|]); constructor|]. split; [reflexivity|]. exists (skipn 5 (sealed_at 0 $"secret!")). vm_compute. reflexivity. }
  apply seals_cons with (mid := 11%nat). { apply V. left. split; [reflexivity|]. exists $"pass". repeat split; vm_compute; reflexivity. }
  constructor.
Qed.
(** Damaged values in a KDBX 3 file. *)
Definition ks3 : N -> N := salsa_ks toy (sha256 toy (repeat 3 32)) [0xE8; 0x30; 0x09; 0x4B; 0x97; 0x20; 0x5D; 0x2A].
Definition garbage3 : str := Eval vm_compute in b64encode (xor_at ks3 0 [255; 254; 65]).
Definition broken_doc3 : xml := holder [pv garbage3; pv $"plain"; pv $"pass"].
Definition broken_raw3 : xml := holder [pv garbage3; pv $"plain"; pv (b64encode (xor_at ks3 3 $"pass"))].
Definition broken_bytes3 : bytes := Eval vm_compute in xml_ser toy broken_raw3.
Lemma broken_document3 : document toy (either garbled clear_text) 2 (repeat 3 32) broken_bytes3 broken_doc3.
Proof.
  exists broken_raw3. split; [vm_compute; reflexivity|]. right. exists ks3, 7%nat. split; [exact (st_salsa20 toy (repeat 3 32))|]. apply seals_node with (mid := O); [reflexivity|split; reflexivity|].
  assert (V : forall p m s s', seals_text ks3 (either garbled clear_text) true p (Some s) (Some s') m -> seals ks3 (either garbled clear_text) p (pv s) (pv s') m) by (intros p m s s' H; apply seals_node with (mid := m); [reflexivity|exact H|constructor]).
  apply seals_cons with (mid := 3%nat). { apply V. right. split; [|reflexivity]. left. exists (xor_at ks3 0 [255; 254; 65]). split; [vm_compute; reflexivity|]. split; [unfold bytes_ok; vm_compute; repeat (constructor; [reflexivity|]); constructor|]. split; [|reflexivity].
    intros s E. apply utf8_roundtrip in E. vm_compute in E. discriminate. }
  apply seals_cons with (mid := 3%nat). { apply V. right. split; [|reflexivity]. right. split; [|reflexivity]. right. split; [vm_compute; intuition discriminate|vm_compute; discriminate]. }
  apply seals_cons with (mid := 7%nat). { apply V. left. split; [reflexivity|]. exists $"pass". repeat split; vm_compute; reflexivity. }
  constructor.
Qed.
Definition framed3 : bytes := repeat 4 32 ++ framed_all toy 0 [broken_bytes3].
Definition pad3 : nat := Eval vm_compute in (16 - Nat.modulo (List.length framed3) 16)%nat.
Definition blocks_3 : list bytes := chop (Nat.div (List.length framed3 + pad3) 16) (framed3 ++ repeat (N.of_nat pad3) pad3).
Definition broken3 : bytes := head_bytes 3 field3 (outer3 1) ++ List.concat (chained (aes_enc toy (sha256 toy (repeat 17 32 ++ tk_ex))) (repeat 9 16) blocks_3).
Lemma broken3_ok : kdbx3_with toy (either garbled clear_text) ex_composite (outer3 1) broken3 broken_doc3.
Proof.
  exists id_aes, false, (repeat 17 32), (repeat 9 16), ex_kdf, (repeat 3 32), (repeat 4 32), 2, tk_ex, broken_bytes3, [broken_bytes3], (List.concat (chained (aes_enc toy (sha256 toy (repeat 17 32 ++ tk_ex))) (repeat 9 16) blocks_3)).
  split; [apply head3_minor; reflexivity|]. split; [exact ex_derives|]. split; [exact broken_document3|].
  split; [cbn [packed List.concat]; apply app_nil_r|]. split; [cbn [List.concat]; rewrite app_nil_r; unfold bytes_ok; vm_compute; repeat (constructor; [reflexivity|]); constructor|]. split; [constructor; [split; [vm_compute; discriminate|vm_compute; reflexivity]|constructor]|]. split; [reflexivity|].
  split; [|reflexivity]. apply en_aes; [reflexivity|]. split; [vm_compute; repeat (constructor; [reflexivity|]); constructor|]. exists pad3. split; [vm_compute; split; repeat constructor|vm_compute; reflexivity].
Qed.
(** The same documents in files of versions 4.0, 4.1, 3.0 and 3.1. *)
Definition file40 : bytes := Eval vm_compute in file_of (outer4 0) broken_bytes.
Definition file41 : bytes := Eval vm_compute in file_of (outer4 1) broken_bytes.
Definition rest3 : bytes := Eval vm_compute in skipn (List.length (head_bytes 3 field3 ex_outer3)) file3.
Definition file30 : bytes := Eval vm_compute in head_bytes 3 field3 (outer3 0) ++ rest3.
Definition file31 : bytes := Eval vm_compute in head_bytes 3 field3 (outer3 1) ++ rest3.
Definition P_40 := MkPath $"/v" $"40.kdbx".
Definition P_41 := MkPath $"/v" $"41.kdbx".
Definition P_30 := MkPath $"/v" $"30.kdbx".
Definition P_31 := MkPath $"/v" $"31.kdbx".
Definition ver_w : world := MkWorld (fold_left (fun s f => fs_set s (fst f) (Some (snd f))) [(P_40, file40); (P_41, file41); (P_30, file30); (P_31, file31)] (fun _ => None)) (w_st ex_w).
Definition ver_obj (p : path) : obj := result (open_db toy no_loss ver_w (F_path p) (Some $"secret") N_none None true).
Definition o40 : obj := Eval vm_compute in ver_obj P_40.
Definition o41 : obj := Eval vm_compute in ver_obj P_41.
Definition o30 : obj := Eval vm_compute in ver_obj P_30.
Definition o31 : obj := Eval vm_compute in ver_obj P_31.
Lemma opens_40 : open_db toy no_loss ver_w (F_path P_40) (Some $"secret") N_none None true = (Ok o40, ver_w). Proof. vm_compute. reflexivity. Qed.
Lemma opens_41 : open_db toy no_loss ver_w (F_path P_41) (Some $"secret") N_none None true = (Ok o41, ver_w). Proof. vm_compute. reflexivity. Qed.
Lemma opens_30 : open_db toy no_loss ver_w (F_path P_30) (Some $"secret") N_none None true = (Ok o30, ver_w). Proof. vm_compute. reflexivity. Qed.
Lemma opens_31 : open_db toy no_loss ver_w (F_path P_31) (Some $"secret") N_none None true = (Ok o31, ver_w). Proof. vm_compute. reflexivity. Qed.
