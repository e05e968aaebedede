(** Property theorems C01-C06, C68 (statements only; proofs in Codec_facts.v and the model files). *)
From Verif Require Import Base Base64 PyStr Utf8 Uuid Time Codec_facts.

(** C01: base64 text is lossless. *)
Theorem c01_base64_lossless : forall b : bytes, bytes_ok b -> b64decode (b64encode b) = Ok b.
Proof. exact b64_roundtrip. Qed.
Print Assumptions c01_base64_lossless.
Example c01_ex : bytes_ok [0; 255; 16; 7] /\ b64encode [0; 255; 16; 7] = $"AP8QBw==".
Proof. split; [apply all_bytesb_ok; reflexivity|vm_compute; reflexivity]. Qed.

(** C02: a stored uuid is read back, and equal stored texts mean equal uuids. *)
Theorem c02_uuid_roundtrip : forall u, uuid_ok u -> uuid_of_text (Some (uuid_text u)) = Ok u.
Proof. exact uuid_text_roundtrip. Qed.
Print Assumptions c02_uuid_roundtrip.
Theorem c02_uuid_text_injective : forall u v, uuid_ok u -> uuid_ok v -> uuid_text u = uuid_text v -> u = v.
Proof. exact uuid_text_inj. Qed.
Print Assumptions c02_uuid_text_injective.
(** ... and the hexadecimal form used in references denotes the same uuid. *)
Theorem c02_uuid_hex_roundtrip : forall u, uuid_ok u -> uuid_of_hex (uuid_hex_upper u) = Ok u.
Proof. exact uuid_hex_roundtrip. Qed.
Print Assumptions c02_uuid_hex_roundtrip.
Example c02_ex : uuid_ok [1;2;3;4;5;6;7;8;9;10;11;12;13;14;15;250] /\
  uuid_text [1;2;3;4;5;6;7;8;9;10;11;12;13;14;15;250] = $"AQIDBAUGBwgJCgsMDQ4P+g==".
Proof. split; [split; [apply all_bytesb_ok; reflexivity|reflexivity]|vm_compute; reflexivity]. Qed.

(** C03: whole seconds come back as the same instant in UTC; otherwise less than one second off.
    [MAXSEC] is the second count of year 10000. *)
Theorem c03_kdbx4_time_exact : forall t i, dt_valid t -> instant t = Some i ->
  (0 <= i < MAXSEC * 1000000)%Z -> (i mod 1000000 = 0)%Z ->
  exists s t', encode_time true t = Ok s /\ decode_time true s = Ok t' /\ instant t' = Some i /\ doff t' = Some 0%Z.
Proof. exact c03_whole. Qed.
Print Assumptions c03_kdbx4_time_exact.
Theorem c03_kdbx4_time_subsecond : forall t i, dt_valid t -> instant t = Some i ->
  (0 <= i < (MAXSEC - 1) * 1000000)%Z ->
  exists s t' j, encode_time true t = Ok s /\ decode_time true s = Ok t' /\ instant t' = Some j /\ (Z.abs (j - i) < 1000000)%Z.
Proof. exact c03_micro. Qed.
Print Assumptions c03_kdbx4_time_subsecond.
Example c03_ex : exists i, dt_valid (MkDt 2024 2 29 23 59 58 0 (Some (-90)%Z)) /\
  instant (MkDt 2024 2 29 23 59 58 0 (Some (-90)%Z)) = Some i /\ (0 <= i < (MAXSEC - 1) * 1000000)%Z /\ (i mod 1000000 = 0)%Z.
Proof. eexists. split; [apply dt_validb_ok; reflexivity|]. split; [reflexivity|]. vm_compute. repeat split; congruence. Qed.

(** C04 is false of the code: the float division rounds 0.999999 s up. *)
Theorem c04_kdbx4_time_never_later_refuted : exists t i s t' j, dt_valid t /\ instant t = Some i /\
  encode_time true t = Ok s /\ decode_time true s = Ok t' /\ instant t' = Some j /\ (i < j)%Z.
Proof. exact c04_ref. Qed.
Print Assumptions c04_kdbx4_time_never_later_refuted.
(** What holds: below 999969 microseconds the fraction is dropped. *)
Theorem c04_kdbx4_time_never_later_partial : forall t i, dt_valid t -> instant t = Some i ->
  (0 <= i < MAXSEC * 1000000)%Z -> (dus t < 999969)%Z ->
  exists s t' j, encode_time true t = Ok s /\ decode_time true s = Ok t' /\ instant t' = Some j /\ (j <= i < j + 1000000)%Z.
Proof. exact c04_floor. Qed.
Print Assumptions c04_kdbx4_time_never_later_partial.
Example c04_ex : exists i, dt_valid (MkDt 2024 1 1 0 0 0 999968 (Some 0%Z)) /\
  instant (MkDt 2024 1 1 0 0 0 999968 (Some 0%Z)) = Some i /\ (0 <= i < MAXSEC * 1000000)%Z.
Proof. eexists. split; [apply dt_validb_ok; reflexivity|]. split; [reflexivity|]. vm_compute. split; congruence. Qed.

(** C05 is false of the code for datetimes that are not in UTC: the value read back is off by the offset. *)
Theorem c05_kdbx3_time_instant_refuted : exists t s t' i j, dt_valid t /\ encode_time false t = Ok s /\
  decode_time false s = Ok t' /\ instant t = Some i /\ instant t' = Some j /\ i <> j.
Proof. exact c05_ref. Qed.
Print Assumptions c05_kdbx3_time_instant_refuted.
Theorem c05_kdbx3_time_shift : forall t o, dt_valid t -> doff t = Some o ->
  exists s t', encode_time false t = Ok s /\ decode_time false s = Ok t' /\
    exists i j, instant t = Some i /\ instant t' = Some j /\ (j = i + o * 60000000)%Z.
Proof. exact c05_shift. Qed.
Print Assumptions c05_kdbx3_time_shift.
(** What holds: UTC datetimes come back identical, microseconds included. *)
Theorem c05_kdbx3_time_instant_partial : forall t, dt_valid t -> doff t = Some 0%Z ->
  exists s, encode_time false t = Ok s /\ decode_time false s = Ok t.
Proof. exact c05_utc. Qed.
Print Assumptions c05_kdbx3_time_instant_partial.
Example c05_ex : dt_valid (MkDt 1999 12 31 23 59 59 123456 (Some 0%Z)) /\
  encode_time false (MkDt 1999 12 31 23 59 59 123456 (Some 0%Z)) = Ok $"1999-12-31T23:59:59.123456+00:00".
Proof. split; [apply dt_validb_ok; reflexivity|vm_compute; reflexivity]. Qed.

(** C06 is false of the code: the documented spelling with 'Z' always raises struct.error. *)
Theorem c06_kdbx4_iso_Z_refuted : forall t, decode_time true (naive_text t ++ $"Z") = Err Ex_Struct.
Proof. exact decode_v4_isoZ. Qed.
Print Assumptions c06_kdbx4_iso_Z_refuted.
(** What holds: without a designator the text is read as UTC. *)
Theorem c06_kdbx4_iso_partial : forall t, dt_valid t -> doff t = None -> dus t = 0%Z ->
  decode_time true (isoformat t) = Ok (as_utc t).
Proof. exact decode_v4_iso_naive. Qed.
Print Assumptions c06_kdbx4_iso_partial.
Example c06_ex : naive_text (MkDt 2020 1 1 0 0 0 0 None) ++ $"Z" = $"2020-01-01T00:00:00Z" /\
  dt_valid (MkDt 2020 1 1 0 0 0 0 None).
Proof. split; [vm_compute; reflexivity|apply dt_validb_ok; reflexivity]. Qed.

(** C68 is false of the code: [==] compares hashes. *)
Theorem c68_equality_is_uuid_equality_refuted : exists u v, uuid_ok u /\ uuid_ok v /\ u <> v /\
  el_eq (IdElement u) (IdElement v) = true.
Proof. exact c68_ref. Qed.
Print Assumptions c68_equality_is_uuid_equality_refuted.
(** What holds: equal uuids compare equal, and elements that compare equal have uuids congruent modulo
    2^61-1 (or the tuple hash is CPython's replacement value for -1). *)
Theorem c68_equal_uuids_equal : forall u, el_eq (IdElement u) (IdElement u) = true.
Proof. exact c68_refl. Qed.
Print Assumptions c68_equal_uuids_equal.
Theorem c68_equality_is_uuid_equality_partial : forall u v, el_eq (IdElement u) (IdElement v) = true ->
  uuid_int u mod (2 ^ 61 - 1) = uuid_int v mod (2 ^ 61 - 1) \/ el_hash (IdElement u) = 1546275796.
Proof. exact c68_eq_implies. Qed.
Print Assumptions c68_equality_is_uuid_equality_partial.
Example c68_ex : tuple_hash [5] = 10633305690110184711. (* hash((5,)) of CPython, as unsigned *)
Proof. vm_compute. reflexivity. Qed.
(** History entries of one entry compare equal exactly if the hashes of their modification times do (up to the same replacement value). *)
Theorem c68_history_equality : forall u a b, a < 2 ^ 64 -> b < 2 ^ 64 -> el_eq (IdHistory u a) (IdHistory u b) = true -> a = b \/ el_hash (IdHistory u a) = 1546275796.
Proof. exact c68_hist. Qed.
Print Assumptions c68_history_equality.
Theorem c68_history_reflexive : forall u a, el_eq (IdHistory u a) (IdHistory u a) = true.
Proof. exact c68_hist_refl. Qed.
Print Assumptions c68_history_reflexive.
Example c68_history_ex : el_eq (IdHistory c68_u 1) (IdHistory c68_u 2) = false /\ el_eq (IdHistory c68_u 1) (IdElement c68_u) = false.
Proof. vm_compute. auto. Qed.
