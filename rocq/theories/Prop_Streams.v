(** Property theorems about databases in streams: C91 (proofs and vocabulary in Streams.v: [goes_into], [put_at], [stored],
    [fetched], [storable], [holds]). *)
From Verif Require Import Base PyStr Xml Tree XPath Time FindSpec FindEx Db Api ApiSpec ApiEx IntegritySpec Lib Keyfile Construct Kdbx KdbxSpec Kdbx_file Kdbx_claims Toy Toy_facts Save Save_facts Object ObjectSpec Object_facts Object_claims ObjectEx Streams.

(** Example streams: 1 and 2 hold a database (KDBX 4, KDBX 3) and something after it, 3 is positioned in the middle. *)
Definition w91 : world := MkWorld ex_fs (fun n => MkStream (match n with
    | 1%nat => written k4 $"secret" KF_none ex_doc ++ [1; 2; 3] | 2%nat => written k3 $"secret" KF_none ex_doc | 3%nat => [9; 8; 7; 6] | _ => repeat 7 3000 end)
  (match n with 3%nat => 2%nat | _ => O end) true).

(** ** Writing: at the position of the stream, over what is there; nothing before it, nothing behind what is written, no file and no other stream changes; also when the call raises. *)
Theorem c91_written : forall L e w o fn tk n r o' w', goes_into o fn n -> o_keyfile o <> N_stream n -> (st_pos (w_st w n) <= List.length (st_data (w_st w n)))%nat ->
  save L e w o fn tk = (r, o', w') ->
  o' = o /\ same_fs w w' /\ (forall m, m <> n -> st_data (w_st w' m) = st_data (w_st w m)) /\
  exists out, put_at (st_data (w_st w n)) (st_pos (w_st w n)) out (st_data (w_st w' n)) /\ st_pos (w_st w' n) = (st_pos (w_st w n) + List.length out)%nat.
Proof. exact stream_written. Qed.
Print Assumptions c91_written.

(** ** Reading back from where writing started, whatever follows if it is KDBX 4, and nothing following if it is KDBX 3: the contents, and the stream is where writing ended. *)
Theorem c91_reads_back_partial : forall L R Zl lost e w o fn tk n k d w', lib_ok L -> xml_sound L -> reached L R Zl lost o -> o_kdbx o = Some (k, Some d) -> goes_into o fn n -> o_keyfile o <> N_stream n ->
  (st_pos (w_st w n) <= List.length (st_data (w_st w n)))%nat -> (forall key, key_for L w (o_password o) (o_keyfile o) tk (k_hdr k) = Ok key -> moderate L (current (k, Some d)) key) ->
  save L e w o fn tk = (Ok tt, o, w') ->
  exists key, key_for L w (o_password o) (o_keyfile o) tk (k_hdr k) = Ok key /\
  forall w2 pw2 kf2 tk2, st_pos (w_st w2 n) = st_pos (w_st w n) -> firstn (st_pos (w_st w' n)) (st_data (w_st w2 n)) = firstn (st_pos (w_st w' n)) (st_data (w_st w' n)) ->
    h_major (k_hdr k) = 4 \/ (List.length (st_data (w_st w2 n)) <= st_pos (w_st w' n))%nat -> kf2 <> N_stream n -> key_for L w2 pw2 kf2 tk2 (k_hdr k) = Ok key ->
    exists o2 w3, open_db L lost w2 (F_stream n) pw2 kf2 tk2 true = (Ok o2, w3) /\ same_contents k d o2 /\ w_st w3 n = MkStream (st_data (w_st w2 n)) (st_pos (w_st w' n)) (st_seek (w_st w2 n)).
Proof. exact stream_opens. Qed.
Print Assumptions c91_reads_back_partial.
Definition s91 := save toy ok_env w91 o_db (F_stream 3) None.
Example c91_ex : goes_into o_db (F_stream 3) 3 /\ o_keyfile o_db <> N_stream 3 /\ fst (fst s91) = Ok tt /\
  (exists key, key_for toy w91 (o_password o_db) (o_keyfile o_db) None (k_hdr (kdbx_in o_db)) = Ok key /\ moderate toy (current (kdbx_in o_db, Some (db_in o_db))) key) /\
  firstn 2 (st_data (w_st (snd s91) 3)) = [9; 8] /\ st_pos (w_st (snd s91) 3) = List.length (st_data (w_st (snd s91) 3)) /\
  document (db_in (result (open_db toy no_loss (rewound (snd s91) 3 2) (F_stream 3) (Some $"secret") N_none None true))) = document (db_in o_db).
Proof.
  split; [left; reflexivity|]. split; [vm_compute; discriminate|]. split; [vm_compute; reflexivity|].
  split; [eexists; split; [vm_compute; reflexivity|apply moderateb_ok; vm_compute; reflexivity]|]. split; [vm_compute; reflexivity|]. split; vm_compute; reflexivity.
Qed.
(** A KDBX 3 database saved over longer contents of a stream cannot be opened again: reading goes on to the end of the stream. *)
Theorem c91_reads_back_refuted : exists L R Zl lost e w o n k d w', lib_ok L /\ xml_sound L /\ reached L R Zl lost o /\ o_kdbx o = Some (k, Some d) /\ h_major (k_hdr k) = 3 /\
  (st_pos (w_st w n) <= List.length (st_data (w_st w n)))%nat /\ (exists key, key_for L w (o_password o) (o_keyfile o) None (k_hdr k) = Ok key /\ moderate L (current (k, Some d)) key) /\
  save L e w o (F_stream n) None = (Ok tt, o, w') /\
  fst (open_db L lost (rewound w' n (st_pos (w_st w n))) (F_stream n) (o_password o) (o_keyfile o) None true) = Err Ex_Value.
Proof.
  exists toy, lit, no_z, no_loss, ok_env, w91, o_v3, 4%nat, (kdbx_in o_v3), (db_in o_v3), (snd (save toy ok_env w91 o_v3 (F_stream 4) None)).
  split; [exact toy_ok|]. split; [exact toy_sound|]. split; [exact o_v3_reached|]. split; [reflexivity|]. split; [reflexivity|]. split; [apply Nat.leb_le; vm_compute; reflexivity|].
  split; [eexists; split; [vm_compute; reflexivity|apply moderateb_ok; vm_compute; reflexivity]|]. split; [apply save_is; vm_compute; reflexivity|]. vm_compute. reflexivity.
Qed.
Print Assumptions c91_reads_back_refuted.

(** ** Any number of KDBX 4 databases saved one after another into a stream are read back, one after another. *)
Theorem c91_one_after_another : forall L R Zl lost n w os w', lib_ok L -> xml_sound L -> stored L n w os w' -> Forall (storable L R Zl lost w) os -> (st_pos (w_st w n) <= List.length (st_data (w_st w n)))%nat ->
  forall w2, same_fs w w2 -> st_pos (w_st w2 n) = st_pos (w_st w n) -> firstn (st_pos (w_st w' n)) (st_data (w_st w2 n)) = firstn (st_pos (w_st w' n)) (st_data (w_st w' n)) ->
  exists rs w3, fetched L lost n w2 os rs w3 /\ Forall2 holds os rs /\ w_st w3 n = MkStream (st_data (w_st w2 n)) (st_pos (w_st w' n)) (st_seek (w_st w2 n)).
Proof. exact shelf. Qed.
Print Assumptions c91_one_after_another.
Definition o_other : obj := Eval vm_compute in result (open_db toy no_loss ex_w (F_path P_other) (Some $"other") N_none None true).
Lemma o_other_open : open_db toy no_loss ex_w (F_path P_other) (Some $"other") N_none None true = (Ok o_other, ex_w). Proof. vm_compute. reflexivity. Qed.
Definition s91b := save toy ok_env (snd s91) o_other (F_stream 3) None.
Example c91_ex_two : stored toy 3 w91 [o_db; o_other] (snd s91b) /\ Forall (storable toy lit no_z no_loss w91) [o_db; o_other] /\
  (let x := open_db toy no_loss (rewound (snd s91b) 3 2) (F_stream 3) (Some $"secret") N_none None true in
   let y := open_db toy no_loss (snd x) (F_stream 3) (Some $"other") N_none None true in
   document (db_in (result x)) = document (db_in o_db) /\ document (db_in (result y)) = document (db_in o_other)) /\ document (db_in o_db) <> document (db_in o_other).
Proof.
  split; [|split; [|split; [split; vm_compute; reflexivity|vm_compute; discriminate]]].
  - econstructor; [apply (save_is toy ok_env w91); vm_compute; reflexivity|]. econstructor; [apply (save_is toy ok_env (snd s91)); vm_compute; reflexivity|]. constructor.
  - assert (X : forall o k d key, o_kdbx o = Some (k, Some d) -> reached toy lit no_z no_loss o -> from_file (o_keyfile o) -> h_major (k_hdr k) = 4 -> key_for toy w91 (o_password o) (o_keyfile o) None (k_hdr k) = Ok key -> moderateb toy (current (k, Some d)) key = true -> storable toy lit no_z no_loss w91 o).
    { intros o k d key E1 E2 E3 E4 E5 E6. split; [exact E2|]. split; [exact E3|]. exists k, d. split; [exact E1|]. split; [exact E4|]. intros key' E. rewrite E5 in E. injection E as <-. now apply moderateb_ok. }
    constructor; [|constructor; [|constructor]]; (eapply X; [reflexivity| |exact I|reflexivity|vm_compute; reflexivity|vm_compute; reflexivity]).
    + exact o_db_reached.
    + exact (R_open toy lit no_z no_loss ex_w _ _ _ _ _ _ _ ex_bytes o_other_open).
Qed.

(** ** Saving to the stream a KDBX 4 database was opened from does not replace it: opened again from there it is as it was ... *)
Theorem c91_replaces_partial : forall L lost n w pw kf tk o1 w1 e o fn tk2 r o' w2 minor, open_db L lost w (F_stream n) pw kf tk true = (Ok o1, w1) -> version o1 = Ok (4, minor) -> kf <> N_stream n ->
  goes_into o fn n -> o_keyfile o <> N_stream n -> save L e w1 o fn tk2 = (r, o', w2) ->
  forall w3, w_st w3 n = MkStream (st_data (w_st w2 n)) (st_pos (w_st w n)) (st_seek (w_st w2 n)) -> kf_src w3 kf = kf_src w kf ->
  exists w4, open_db L lost w3 (F_stream n) pw kf tk true = (Ok o1, w4).
Proof. exact old_remains. Qed.
Print Assumptions c91_replaces_partial.
(** ... and reload after save raises. *)
Theorem c91_replaces_refuted : exists L R Zl lost e w pw kf o w1 n w2, lib_ok L /\ xml_sound L /\ open_db L lost w (F_stream n) pw kf None true = (Ok o, w1) /\ reached L R Zl lost o /\
  save L e w1 o F_none None = (Ok tt, o, w2) /\ fst (fst (reload L lost w2 o)) = Err Ex_Stream.
Proof.
  exists toy, lit, no_z, no_loss, ok_env, w91, (Some $"secret"), N_none, (result (open_db toy no_loss w91 (F_stream 1) (Some $"secret") N_none None true)), (snd (open_db toy no_loss w91 (F_stream 1) (Some $"secret") N_none None true)), 1%nat,
    (snd (save toy ok_env (snd (open_db toy no_loss w91 (F_stream 1) (Some $"secret") N_none None true)) (result (open_db toy no_loss w91 (F_stream 1) (Some $"secret") N_none None true)) F_none None)).
  split; [exact toy_ok|]. split; [exact toy_sound|]. split; [apply open_is; vm_compute; reflexivity|]. split; [|split; [apply save_is; vm_compute; reflexivity|vm_compute; reflexivity]].
  refine (R_open toy lit no_z no_loss w91 (F_stream 1) (Some $"secret") N_none None true _ (snd (open_db toy no_loss w91 (F_stream 1) (Some $"secret") N_none None true)) _ (open_is _ _)); [|vm_compute; reflexivity].
  split; [exact (proj1 ex_bytes)|]. intros [|[|[|[|n]]]]; cbn [w91 w_st st_data]; apply all_bytesb_ok; vm_compute; reflexivity.
Qed.
Print Assumptions c91_replaces_refuted.
