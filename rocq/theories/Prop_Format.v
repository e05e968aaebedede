(** Conforming KDBX files are read as what they say, and only conforming files are written (C78, C79).  What a conforming
    file is: FormatSpec.v.  [unlocks L cr c]: the credentials [cr] (no transformed key given) make the composite key [c]. *)
From Verif Require Import Base Base64 Utf8 Xml Lib KdbxSpec Construct Keyfile Kdbx Kdbx_file Toy Kdbx_inner Kdbx_rt Kdbx_claims FormatSpec Format FormatEx.

(** ** C78: a KDBX 4 file by any program, followed by anything, opens to its document and attachments ... *)
Theorem c78_reads_kdbx4 : forall L cr c o file bins doc trail, lib_ok L -> c_dec cr = true -> unlocks L cr c -> kdbx4_file L c o file bins doc ->
  exists k, open_kdbx L cr (file ++ trail) = Ok (k, trail) /\ h_major (k_hdr k) = 4 /\ h_raw (k_hdr k) = head_bytes 4 field4 o /\ bins_of k = bins /\ doc_of k = Some doc.
Proof. exact claim_read4. Qed.
Print Assumptions c78_reads_kdbx4.
(** ... and so a KDBX 3 file. *)
Theorem c78_reads_kdbx3 : forall L cr c o file doc, lib_ok L -> c_dec cr = true -> unlocks L cr c -> kdbx3_file L c o file doc ->
  exists k, open_kdbx L cr file = Ok (k, []) /\ h_major (k_hdr k) = 3 /\ h_raw (k_hdr k) = head_bytes 3 field3 o /\ doc_of k = Some doc.
Proof. exact claim_read3. Qed.
Print Assumptions c78_reads_kdbx3.
(** The settings in a header (variant dictionaries) have the values the file says, of every type. *)
Theorem c78_header_values : forall items, Forall v_ok items -> items <> [] -> NoDup (map v_name items) ->
  exists d, vdict (dict_bytes items) = Ok d /\ forall ty s k v x, In (ty, k, v) items -> utf8_encode s = Ok k -> vd_means ty v x -> vget s d = Ok x.
Proof. exact dict_values. Qed.
Print Assumptions c78_header_values.
Definition ex_items : list vitem := [(0x0C, $"a", [0; 0; 0; 128]); (0x0D, $"b", le64 (2 ^ 64 - 1)); (0x18, $"c", $"text"); (0x08, $"d", [1]); (0x04, $"e", le32 (2 ^ 31))].
Example c78_values_ex : Forall v_ok ex_items /\ NoDup (map v_name ex_items) /\ vd_means 0x0C [0; 0; 0; 128] (VV_int (- 2 ^ 31)) /\ vd_means 0x0D (le64 (2 ^ 64 - 1)) (VV_int (-1)) /\
  (let* d := vdict (dict_bytes ex_items) in vget $"a" d) = Ok (VV_int (- 2 ^ 31)).
Proof.
  assert (U : forall x, forallb (fun c => c <? 256) x && (lenN x <? 100) = true -> short x).
  { intros x E. apply andb_true_iff in E as [B L]. apply N.ltb_lt in L. split; [|eapply N.lt_trans; [exact L|reflexivity]]. apply Forall_forall. intros c I. rewrite forallb_forall in B. apply N.ltb_lt, B, I. }
  assert (V : forall ty k v s, forallb (fun c => c <? 256) k && (lenN k <? 100) = true -> forallb (fun c => c <? 256) v && (lenN v <? 100) = true -> utf8_encode s = Ok k ->
    (((ty =? 4) || (ty =? 12)) && (List.length v =? 4)%nat || ((ty =? 5) || (ty =? 13)) && (List.length v =? 8)%nat || (ty =? 8) && (List.length v =? 1)%nat) = true \/ (ty = 24 /\ exists s, utf8_encode s = Ok v) -> v_ok (ty, k, v)).
  { intros ty k v s Hk Hv Es T. split; [now apply U|]. split; [now apply U|]. split; [now exists s|]. destruct T as [T|T]; [|tauto]. rewrite !orb_true_iff, !andb_true_iff, !orb_true_iff, !N.eqb_eq, !Nat.eqb_eq in T. tauto. }
  split; [|split; [|split; [|split]]].
  - unfold ex_items. constructor; [apply (V _ _ _ $"a"); [vm_compute; reflexivity..|left; vm_compute; reflexivity]|]. constructor; [apply (V _ _ _ $"b"); [vm_compute; reflexivity..|left; vm_compute; reflexivity]|].
    constructor; [apply (V _ _ _ $"c"); [vm_compute; reflexivity..|right; split; [reflexivity|exists $"text"; vm_compute; reflexivity]]|]. constructor; [apply (V _ _ _ $"d"); [vm_compute; reflexivity..|left; vm_compute; reflexivity]|]. constructor; [apply (V _ _ _ $"e"); [vm_compute; reflexivity..|left; vm_compute; reflexivity]|constructor].
  - cbv [ex_items map v_name fst snd]. repeat (constructor; [vm_compute; intuition discriminate|]). constructor.
  - apply (vm_i32 (- 2 ^ 31)). split; [apply Z.le_refl|reflexivity].
  - apply (vm_i64 (-1)). split; [discriminate|reflexivity].
  - vm_compute. reflexivity.
Qed.
Example c78_ex : lib_ok toy /\ c_dec sample_cr = true /\ unlocks toy sample_cr ex_composite /\ kdbx4_file toy ex_composite ex_outer4 file4 [[1; 104; 105]] sample_doc /\ kdbx3_file toy ex_composite ex_outer3 file3 sample_doc.
Proof. split; [exact toy_ok|]. split; [reflexivity|]. split; [exact ex_unlocks|]. split; [exact ex_file4|exact ex_file3]. Qed.

(** ** C79: a KDBX 4 file opened, changed and saved, under the same or other credentials, is again such a file, with the same outer header ... *)
Theorem c79_writes_kdbx4 : forall L cr c o file bins doc k r cr' c' bins' t out, lib_ok L -> c_dec cr = true -> unlocks L cr c -> kdbx4_file L c o file bins doc -> open_kdbx L cr file = Ok (k, r) ->
  unlocks L cr' c' -> xml_ok t = true -> modest t = true -> Forall small bins' -> saves L cr' (edited k bins' t) out ->
  exists s, stream_id_of k = Ok s /\ kdbx4_file L c' o out bins' (view_for s t).
Proof. exact write4. Qed.
Print Assumptions c79_writes_kdbx4.
(** ... and so a KDBX 3 file. *)
Theorem c79_writes_kdbx3 : forall L cr c o file doc k r cr' c' bins' t out, lib_ok L -> c_dec cr = true -> unlocks L cr c -> kdbx3_file L c o file doc -> open_kdbx L cr file = Ok (k, r) ->
  unlocks L cr' c' -> xml_ok t = true -> modest t = true -> saves L cr' (edited k bins' t) out ->
  exists s, stream_id_of k = Ok s /\ kdbx3_file L c' o out (view_for s t).
Proof. exact write3. Qed.
Print Assumptions c79_writes_kdbx3.
Definition opened_as (d : bytes) : kdbx := match open_kdbx toy sample_cr d with Ok (k, _) => k | Err _ => MkKdbx (hdr_of []) None end.
Example c79_ex : kdbx4_file toy ex_composite ex_outer4 file4 [[1; 104; 105]] sample_doc /\ open_kdbx toy sample_cr file4 = Ok (opened_as file4, []) /\ open_kdbx toy sample_cr file3 = Ok (opened_as file3, []) /\
  unlocks toy wrong_cr (sha256 toy (sha256 toy ($"Secret"))) /\ xml_ok sample_doc2 = true /\ modest sample_doc2 = true /\ Forall small [[0; 120]; [1]] /\
  (exists out, saves toy wrong_cr (edited (opened_as file4) [[0; 120]; [1]] sample_doc2) out) /\ exists out, saves toy wrong_cr (edited (opened_as file3) [] sample_doc2) out.
Proof.
  split; [exact ex_file4|]. split; [vm_compute; reflexivity|]. split; [vm_compute; reflexivity|]. split; [|split; [vm_compute; reflexivity|split; [vm_compute; reflexivity|split; [|split]]]].
  - split; [reflexivity|]. exists None. split; [left; split; reflexivity|]. exact (co_password toy ($"Secret") ($"Secret") eq_refl).
  - repeat (constructor; [split; [unfold bytes_ok; repeat (constructor; [reflexivity|]); constructor|reflexivity]|]); constructor.
  - eexists _, _. vm_compute. reflexivity.
  - eexists _, _. vm_compute. reflexivity.
Qed.
