(** Conforming files for the toy library: the sample databases of Toy.v.  Models no code of /repo. *)
From Verif Require Import Base Base64 Utf8 Xml Lib TwofishSpec KdbxSpec Construct Keyfile Kdbx Kdbx_file Toy Kdbx_claims FormatSpec Format.
Definition ex_dict : list vitem := [(0x42, $"$UUID", id_aeskdf); (0x05, $"R", le64 3); (0x42, $"S", repeat 8 32)].
Definition ex_kdf : kdf := AesKdf (repeat 8 32) 3.
Definition ex_outer4 : outer := MkOuter 1 [(2, id_chacha20); (3, flag false); (4, repeat 17 32); (7, repeat 9 12); (11, dict_bytes ex_dict)] [13; 10; 13; 10].
Definition ex_outer3 : outer := MkOuter 1 [(2, id_aes); (3, flag false); (4, repeat 17 32); (5, repeat 8 32); (6, le64 3); (7, repeat 9 16); (8, repeat 3 32); (9, repeat 4 32); (10, le32 2)] [13; 10; 13; 10].
Definition ex_composite : bytes := Eval vm_compute in sha256 toy (sha256 toy ($"secret")).
Lemma ex_unlocks : unlocks toy sample_cr ex_composite.
Proof. split; [reflexivity|]. exists None. split; [left; split; reflexivity|]. exact (co_password toy ($"secret") ($"secret") eq_refl). Qed.
Ltac shorts := match goal with |- short _ => split; [unfold bytes_ok; vm_compute; repeat (constructor; [reflexivity|]); constructor|vm_compute; reflexivity] end.
Ltac inl := vm_compute; repeat (first [left; reflexivity|right]).
Ltac nodups := repeat (constructor; [vm_compute; intuition discriminate|]); constructor.
Lemma ex_dict_ok : kdf_dict ex_kdf ex_dict.
Proof.
  split; [|split; [vm_compute; nodups|split; [inl|split; [split; [inl|reflexivity]|split; [inl|reflexivity]]]]].
  assert (U : forall ty k v, short k -> short v -> utf8_encode k = Ok k -> (ty = 0x05 /\ List.length v = 8%nat \/ ty = 0x42) -> v_ok (ty, k, v)) by (intros ty k v A B C D; split; [exact A|split; [exact B|split; [exists k; exact C|]]]; destruct D as [[-> D]|D]; [right; left; split; [left; reflexivity|exact D]|do 4 right; exact D]).
  constructor; [apply U; [shorts|shorts|reflexivity|right; reflexivity]|]. constructor; [apply U; [shorts|shorts|reflexivity|left; split; reflexivity]|]. constructor; [apply U; [shorts|shorts|reflexivity|right; reflexivity]|constructor].
Qed.
Lemma ex_head4 : head4 ex_outer4 id_chacha20 false (repeat 17 32) (repeat 9 12) ex_kdf.
Proof.
  split; [reflexivity|]. split; [shorts|]. split; [repeat (constructor; [split; [shorts|inl]|]); constructor|]. split; [vm_compute; nodups|]. split; [inl|]. split; [inl|]. split; [inl|]. split; [inl|]. exists ex_dict. split; [unfold ex_outer4; cbn [o_fields]; do 4 right; left; reflexivity|exact ex_dict_ok].
Qed.
Lemma ex_head3 : head3 ex_outer3 id_aes false (repeat 17 32) (repeat 9 16) ex_kdf (repeat 3 32) (repeat 4 32) 2.
Proof.
  split; [reflexivity|]. split; [unfold bytes_ok; repeat (constructor; [reflexivity|]); constructor|]. split; [reflexivity|].
  split; [repeat (constructor; [split; [split; [unfold bytes_ok; vm_compute; repeat (constructor; [reflexivity|]); constructor|vm_compute; reflexivity]|inl]|]); constructor|].
  split; [vm_compute; nodups|]. do 5 (split; [inl|]). split; [split; [inl|reflexivity]|]. split; [inl|]. exists (repeat 8 32), 3. split; [reflexivity|]. split; [inl|]. split; [reflexivity|]. split; [inl|reflexivity].
Qed.
Definition tk_ex : bytes := Eval vm_compute in sha256 toy (Nat.iter 3 (halves (aes_enc toy (repeat 8 32))) ex_composite).
Lemma ex_derives : derives toy ex_kdf ex_composite tk_ex.
Proof. vm_compute. reflexivity. Qed.
Definition sealed (s : streamid) (key : bytes) : xml := match snd (protect toy s (Ok key) sample_doc) with Ok t => t | Err _ => sample_doc end.
Definition xb4 : bytes := xml_ser toy (sealed S_chacha (repeat 6 64)).
Definition xb3 : bytes := xml_ser toy (sealed S_salsa (repeat 3 32)).
Definition ex_items : list (N * bytes) := [(3, [1; 104; 105]); (1, le32 3); (2, repeat 6 64)].
Definition ex_content : bytes := List.concat (map field4 ex_items) ++ field4 (0, []) ++ xb4.
Definition ex_ct : bytes := xor_at (chacha_ks toy (sha256 toy (repeat 17 32 ++ tk_ex)) (repeat 9 12)) 0 ex_content.
Lemma ex_doc_ok : xml_ok sample_doc = true.
Proof. vm_compute. reflexivity. Qed.
Lemma ex_document4 : bytes_ok xb4 /\ document toy no_bad 3 (repeat 6 64) xb4 sample_doc.
Proof. pose proof (document_written toy 3 S_chacha (repeat 6 64) sample_doc (sealed S_chacha (repeat 6 64)) toy_ok eq_refl ex_doc_ok eq_refl ltac:(vm_compute; reflexivity)) as D. exact D. Qed.
Lemma ex_document3 : bytes_ok xb3 /\ document toy no_bad 2 (repeat 3 32) xb3 sample_doc.
Proof. exact (document_written toy 2 S_salsa (repeat 3 32) sample_doc (sealed S_salsa (repeat 3 32)) toy_ok eq_refl ex_doc_ok eq_refl ltac:(vm_compute; reflexivity)). Qed.
Lemma ex_content_ok : content4 toy no_bad ex_content [[1; 104; 105]] sample_doc /\ bytes_ok ex_content.
Proof.
  split.
  - exists ex_items, [], 3, (repeat 6 64), xb4. split; [repeat (constructor; [split; [shorts|inl]|]); constructor|]. split; [shorts|].
    split; [|split; [|split; [vm_compute; nodups|split; [reflexivity|split; [reflexivity|exact (proj2 ex_document4)]]]]].
    + intros v. split; [intros [E|[E|[E|[]]]]; try discriminate; injection E as <-; reflexivity|intros ->; inl].
    + intros v. split; [intros [E|[E|[E|[]]]]; try discriminate; injection E as <-; reflexivity|intros ->; inl].
  - unfold ex_content. apply bytes_ok_app. split; [unfold bytes_ok; vm_compute; repeat (constructor; [reflexivity|]); constructor|]. apply bytes_ok_app. split; [unfold bytes_ok; vm_compute; repeat (constructor; [reflexivity|]); constructor|exact (proj1 ex_document4)].
Qed.
Lemma ex_file4 : kdbx4_file toy ex_composite ex_outer4 file4 [[1; 104; 105]] sample_doc.
Proof.
  exists id_chacha20, false, (repeat 17 32), (repeat 9 12), ex_kdf, tk_ex, ex_content, ex_content, [ex_ct; []]. split; [exact ex_head4|]. split; [exact ex_derives|]. split; [exact (proj1 ex_content_ok)|]. split; [reflexivity|]. split; [exact (proj2 ex_content_ok)|].
  split; [cbn [List.concat]; rewrite app_nil_r; apply en_chacha20; reflexivity|]. split; [exists [ex_ct]; split; [reflexivity|constructor; [vm_compute; discriminate|constructor]]|]. split; [repeat (constructor; [vm_compute; reflexivity|]); constructor|]. vm_compute. reflexivity.
Qed.
Definition ex_framed : bytes := repeat 4 32 ++ framed_all toy 0 [xb3].
Fixpoint chop (n : nat) (b : bytes) : list bytes := match n with O => [] | S n => firstn 16 b :: chop n (skipn 16 b) end.
Definition ex_pad : nat := Eval vm_compute in (16 - Nat.modulo (List.length ex_framed) 16)%nat.
Definition ex_blocks : list bytes := chop (Nat.div (List.length ex_framed + ex_pad) 16) (ex_framed ++ repeat (N.of_nat ex_pad) ex_pad).
Definition ex_ct3 : bytes := List.concat (chained (aes_enc toy (sha256 toy (repeat 17 32 ++ tk_ex))) (repeat 9 16) ex_blocks).
Lemma ex_file3 : kdbx3_file toy ex_composite ex_outer3 file3 sample_doc.
Proof.
  exists id_aes, false, (repeat 17 32), (repeat 9 16), ex_kdf, (repeat 3 32), (repeat 4 32), 2, tk_ex, xb3, [xb3], ex_ct3. split; [exact ex_head3|]. split; [exact ex_derives|]. split; [exact (proj2 ex_document3)|].
  split; [cbn [packed List.concat]; apply app_nil_r|]. split; [cbn [List.concat]; rewrite app_nil_r; exact (proj1 ex_document3)|]. split; [constructor; [split; [vm_compute; discriminate|vm_compute; reflexivity]|constructor]|]. split; [reflexivity|].
  split; [|vm_compute; reflexivity]. apply en_aes; [reflexivity|]. split; [vm_compute; repeat (constructor; [reflexivity|]); constructor|]. exists ex_pad. split; [vm_compute; split; repeat constructor|vm_compute; reflexivity].
Qed.
