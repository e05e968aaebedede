(** Databases in streams: vocabulary and lemmas for C91 (Prop_More.v) about the stream branch of PyKeePass.read and save
    (pykeepass.py:98-106, 157-165; modelled in Object.v). *)
From Coq Require Import ZifyBool ZifyNat ZifyN.
From Verif Require Import Base PyStr Xml Tree XPath Time Db Api ApiSpec IntegritySpec Lib Keyfile Construct Kdbx KdbxSpec Kdbx_facts Kdbx_rt Kdbx_inner Kdbx_file Kdbx_v3 Kdbx_auth Kdbx_claims Save Save_facts Object Prim Clean ObjectSpec Object_facts Object_claims.

(** *** Vocabulary *)
(** A call of save with file name argument [fn] concerns stream [n]. *)
Definition goes_into (o : obj) (fn : fname) (n : nat) : Prop := fn = F_stream n \/ (fn = F_none /\ o_filename o = Some (F_stream n)).
(** [new] is [old] with [out] put over it at offset [pos]. *)
Definition put_at (old : bytes) (pos : nat) (out new : bytes) : Prop :=
  firstn pos new = firstn pos old /\ firstn (List.length out) (skipn pos new) = out /\ skipn (pos + List.length out) new = skipn (pos + List.length out) old.
(** The world with stream [n] positioned at [pos]. *)
Definition rewound (w : world) (n pos : nat) : world := with_stream w n (MkStream (st_data (w_st w n)) pos (st_seek (w_st w n))).
Definition from_file (k : kfname) : Prop := match k with N_stream _ => False | _ => True end.
(** [os] are saved one after another into stream [n], with any weather, and all these calls return. *)
Inductive stored (L : lib) (n : nat) : world -> list obj -> world -> Prop :=
| stored_nil w : stored L n w [] w
| stored_cons e w o w' os w'' : save L e w o (F_stream n) None = (Ok tt, o, w') -> stored L n w' os w'' -> stored L n w (o :: os) w''.
(** Databases are opened one after another from stream [n] with the credentials of [os]: [rs] result. *)
Inductive fetched (L : lib) (lost : bytes -> nat) (n : nat) : world -> list obj -> list obj -> world -> Prop :=
| fetched_nil w : fetched L lost n w [] [] w
| fetched_cons w o w' os r rs w'' : open_db L lost w (F_stream n) (o_password o) (o_keyfile o) None true = (Ok r, w') -> fetched L lost n w' os rs w'' -> fetched L lost n w (o :: os) (r :: rs) w''.

(** *** Writing *)
Lemma skipn_skipn {A} (l : list A) a b : skipn a (skipn b l) = skipn (b + a) l.
Proof. revert l. induction b as [|b IH]; intros l; [reflexivity|]. destruct l as [|x l]; [now rewrite !skipn_nil|]. cbn [skipn plus]. apply IH. Qed.
Lemma write_put s b : (st_pos s <= List.length (st_data s))%nat -> put_at (st_data s) (st_pos s) b (st_data (stream_write s b)) /\ st_pos (stream_write s b) = (st_pos s + List.length b)%nat.
Proof.
  intros H. unfold stream_write. replace (st_pos s - List.length (st_data s))%nat with O by lia. cbn [repeat st_data st_pos]. rewrite app_nil_r. split; [|reflexivity].
  assert (E : List.length (firstn (st_pos s) (st_data s)) = st_pos s) by (rewrite firstn_length; lia). unfold put_at. split; [|split].
  - rewrite firstn_app, E, Nat.sub_diag, firstn_O, app_nil_r. rewrite firstn_firstn. now rewrite Nat.min_id.
  - rewrite skipn_app, E, Nat.sub_diag. cbn [skipn]. rewrite (skipn_all2 (firstn _ _)) by lia. cbn [app]. rewrite firstn_app, Nat.sub_diag, firstn_O, app_nil_r. apply firstn_all.
  - rewrite skipn_app, E. rewrite (skipn_all2 (firstn _ _)) by lia. cbn [app]. replace (st_pos s + List.length b - st_pos s)%nat with (List.length b) by lia. rewrite skipn_app, skipn_all, Nat.sub_diag. reflexivity.
Qed.
Lemma put_tail old pos out new : put_at old pos out new -> skipn pos new = out ++ skipn (pos + List.length out) old.
Proof. intros (_ & H2 & H3). rewrite <- (firstn_skipn (List.length out) (skipn pos new)), H2, skipn_skipn. now rewrite H3. Qed.
Lemma kf_after_stream used w k m : st_data (w_st (kf_after used w k) m) = st_data (w_st w m) /\ st_seek (w_st (kf_after used w k) m) = st_seek (w_st w m) /\ (k <> N_stream m -> w_st (kf_after used w k) m = w_st w m).
Proof.
  destruct k as [|p|n]; cbn [kf_after]; auto. destruct used; auto. cbn [with_stream w_st]. destruct (Nat.eqb_spec m n) as [->|Hn]; cbn; auto. repeat split. now intros [].
Qed.
Lemma save_stream L e w o fn tk n c : goes_into o fn n -> o_kdbx o = Some c -> save L e w o fn tk =
  (let b := fst (build_kdbx L (MkCreds (o_password o) (kf_src w (o_keyfile o)) tk true) (current c)) in
   let w' := kf_after (reads_kf (h_major (k_hdr (fst c))) tk) w (o_keyfile o) in
   (snd b, o, with_stream w' n (stream_write (w_st w' n) (fst b)))).
Proof. intros G Ec. assert (E : (match fn with F_none => o_filename o | _ => Some fn end) = Some (F_stream n)) by (destruct G as [->|[-> ->]]; reflexivity). unfold save. now rewrite E, Ec. Qed.
(** Whatever the outcome: the object and the files stay, the stream is changed only from its position on. *)
Lemma stream_written L e w o fn tk n r o' w' : goes_into o fn n -> o_keyfile o <> N_stream n -> (st_pos (w_st w n) <= List.length (st_data (w_st w n)))%nat ->
  save L e w o fn tk = (r, o', w') ->
  o' = o /\ same_fs w w' /\ (forall m, m <> n -> st_data (w_st w' m) = st_data (w_st w m)) /\
  exists out, put_at (st_data (w_st w n)) (st_pos (w_st w n)) out (st_data (w_st w' n)) /\ st_pos (w_st w' n) = (st_pos (w_st w n) + List.length out)%nat.
Proof.
  intros G Hk Hp Sv. destruct (o_kdbx o) as [c|] eqn:Ec.
  - rewrite (save_stream L e w o fn tk n c G Ec) in Sv. cbv zeta in Sv. injection Sv as _ <- <-. split; [reflexivity|]. split; [intros p; cbn [with_stream w_fs]; now rewrite kf_after_fs|]. split.
    + intros m Hm. cbn [with_stream w_st]. destruct (Nat.eqb_spec m n); [contradiction|]. apply kf_after_stream.
    + cbn [with_stream w_st]. rewrite Nat.eqb_refl. destruct (kf_after_stream (reads_kf (h_major (k_hdr (fst c))) tk) w (o_keyfile o) n) as (_ & _ & ->); [|exact Hk]. eexists. exact (write_put _ _ Hp).
  - unfold save in Sv. rewrite Ec in Sv. assert (E : (match fn with F_none => o_filename o | _ => Some fn end) = Some (F_stream n)) by (destruct G as [->|[-> ->]]; reflexivity). rewrite E in Sv. injection Sv as _ <- <-.
    split; [reflexivity|]. split; [intros p; reflexivity|]. split; [reflexivity|]. exists []. cbn [List.length]. rewrite Nat.add_0_r. repeat split.
Qed.

(** *** Reading back *)
Lemma build_opens_trail L k d cr key : lib_ok L -> sound_db L k d -> (if h_major (k_hdr k) =? 3 then transformed3 L cr (k_hdr k) else transformed4 L cr (k_hdr k)) = Ok key -> moderate L (current (k, Some d)) key ->
  exists out, fst (build_kdbx L cr (current (k, Some d))) = (out, Ok tt) /\
    forall cr2 trail, h_major (k_hdr k) = 4 \/ trail = [] -> c_dec cr2 = true -> (if h_major (k_hdr k) =? 3 then transformed3 L cr2 (k_hdr k) else transformed4 L cr2 (k_hdr k)) = Ok key ->
      exists k2, open_kdbx L cr2 (out ++ trail) = Ok (k2, trail) /\ k_hdr k2 = k_hdr k /\ doc_of k2 = option_map (shown k) (document d) /\ (h_major (k_hdr k) = 4 -> bins_of k2 = d_bins d).
Proof.
  intros HL ((v & cr0 & data & Hv & Op) & (W & C) & S & _ & _) Hk ((M4 & M3) & M0). unfold current, document in *. destruct (d_forest d) as [|t F] eqn:EF; [destruct W; congruence|]. cbn [hd_error option_map].
  assert (Hx : xml_ok (erase t) = true) by (now inversion C). pose proof (M0 _ (opened_edits _ _ _ _ _ (d_bins d) (erase t) Hv Op)) as Hmo. assert (Hm : h_major (k_hdr k) = v) by apply Op. destruct Hv as [-> | ->].
  - rewrite Hm in *. cbn [N.eqb Pos.eqb] in *. destruct (claim_c10 L cr0 data k cr key (d_bins d) (erase t) HL Op Hk Hx Hmo (M3 Hm)) as (out & (k' & Sv) & G). exists out. rewrite Sv. split; [reflexivity|].
    intros cr2 trail [Ht| ->] Hc Hk2; [discriminate|]. destruct (G cr2 Hc Hk2) as (k2 & s & P & H1 & H2 & _ & H3). exists k2. rewrite app_nil_r. split; [exact P|]. split; [exact H1|]. split; [|discriminate]. unfold shown. now rewrite H2.
  - rewrite Hm in *. cbn [N.eqb Pos.eqb] in *. destruct (claim_c09 L cr0 data k cr key (d_bins d) (erase t) HL Op Hk Hx Hmo S (M4 Hm)) as (out & (k' & Sv) & G). exists out. rewrite Sv. split; [reflexivity|].
    intros cr2 trail _ Hc Hk2. destruct (G cr2 trail Hc Hk2) as (k2 & s & P & H1 & Hb & H2 & _ & H3). exists k2. split; [exact P|]. split; [exact H1|]. split; [|auto]. unfold shown. now rewrite H2.
Qed.
Lemma skip_at w n used k m : w_st (skip (kf_after used w k) (F_stream n) m) n = MkStream (st_data (w_st w n)) (st_pos (w_st (kf_after used w k) n) + m) (st_seek (w_st w n)).
Proof. unfold skip. cbn [with_stream w_st]. rewrite Nat.eqb_refl. destruct (kf_after_stream used w k n) as (-> & -> & _). reflexivity. Qed.
(** Saved into a stream: the bytes there, and what opens from where they start. *)
Lemma stream_opens L R Zl lost e w o fn tk n k d w' : lib_ok L -> xml_sound L -> reached L R Zl lost o -> o_kdbx o = Some (k, Some d) -> goes_into o fn n -> o_keyfile o <> N_stream n ->
  (st_pos (w_st w n) <= List.length (st_data (w_st w n)))%nat -> (forall key, key_for L w (o_password o) (o_keyfile o) tk (k_hdr k) = Ok key -> moderate L (current (k, Some d)) key) ->
  save L e w o fn tk = (Ok tt, o, w') ->
  exists key, key_for L w (o_password o) (o_keyfile o) tk (k_hdr k) = Ok key /\
  forall w2 pw2 kf2 tk2, st_pos (w_st w2 n) = st_pos (w_st w n) -> firstn (st_pos (w_st w' n)) (st_data (w_st w2 n)) = firstn (st_pos (w_st w' n)) (st_data (w_st w' n)) ->
    h_major (k_hdr k) = 4 \/ (List.length (st_data (w_st w2 n)) <= st_pos (w_st w' n))%nat -> kf2 <> N_stream n -> key_for L w2 pw2 kf2 tk2 (k_hdr k) = Ok key ->
    exists o2 w3, open_db L lost w2 (F_stream n) pw2 kf2 tk2 true = (Ok o2, w3) /\ same_contents k d o2 /\ w_st w3 n = MkStream (st_data (w_st w2 n)) (st_pos (w_st w' n)) (st_seek (w_st w2 n)).
Proof.
  intros HL HX Hr Ec G Hkf Hp M Sv. pose proof (reached_sound L R Zl lost o HL HX Hr) as So. unfold sound in So. rewrite Ec in So.
  rewrite (save_stream L e w o fn tk n _ G Ec) in Sv. cbv zeta in Sv. cbn [fst] in Sv.
  destruct (key_for L w (o_password o) (o_keyfile o) tk (k_hdr k)) as [key|x] eqn:E.
  2:{ exfalso. pose proof (build_no_key L (MkCreds (o_password o) (kf_src w (o_keyfile o)) tk true) k d x So E) as B. injection Sv as Sr _. unfold current in *. rewrite B in Sr. discriminate. }
  exists key. split; [reflexivity|]. destruct (build_opens_trail L k d (MkCreds (o_password o) (kf_src w (o_keyfile o)) tk true) key HL So E (M key eq_refl)) as (out & Eb & Op). rewrite Eb in Sv. cbn [fst snd] in Sv. injection Sv as <-.
  cbn [with_stream w_st]. rewrite Nat.eqb_refl. destruct (kf_after_stream (reads_kf (h_major (k_hdr k)) tk) w (o_keyfile o) n) as (_ & _ & ->); [|exact Hkf].
  destruct (write_put (w_st w n) out Hp) as [P ->]. intros w2 pw2 kf2 tk2 Hw Hd Ht Hk2 Hk. set (pos := st_pos (w_st w n)) in *. set (D := st_data (w_st w2 n)) in *.
  assert (T : skipn pos D = out ++ skipn (pos + List.length out) D).
  { rewrite <- (firstn_skipn (pos + List.length out) D) at 1. rewrite Hd, skipn_app, firstn_length. destruct P as (P1 & P2 & P3).
    assert (X : skipn pos (firstn (pos + List.length out) (st_data (stream_write (w_st w n) out))) = out) by (rewrite skipn_firstn_comm; replace (pos + List.length out - pos)%nat with (List.length out) by lia; exact P2).
    rewrite X. f_equal. assert (Y : (pos + List.length out <= List.length (st_data (stream_write (w_st w n) out)))%nat).
    { pose proof (f_equal (@List.length _) P2) as Z. rewrite firstn_length, skipn_length in Z. pose proof (f_equal (@List.length _) P1) as Z1. rewrite !firstn_length in Z1. fold pos in Hp. lia. }
    replace (pos - _)%nat with O by lia. reflexivity. }
  destruct (Op (MkCreds pw2 (kf_src w2 kf2) tk2 true) (skipn (pos + List.length out) D)) as (k2 & O & H1 & H2 & H3); [|reflexivity|exact Hk|].
  { destruct Ht as [Ht|Ht]; [now left|right]. now apply skipn_all2. }
  unfold open_db, read. cbn [source]. rewrite Hw. fold D. rewrite T, O. destruct (document d) as [t|] eqn:Ed; [|exfalso; destruct So as (_ & ((W & _) & _) & _); unfold document in Ed; destruct (d_forest d); [congruence|discriminate]]. cbn [option_map] in *.
  destruct (load_doc _ _ H2) as (d2 & El). rewrite El. do 2 eexists. split; [reflexivity|]. split.
  - exists k2, d2. split; [reflexivity|]. destruct (load_some _ _ El) as (t2 & T1 & T2 & T3 & _). split; [exact H1|]. split; [rewrite Ed; cbn [option_map]; congruence|]. intros H. rewrite T3. auto.
  - rewrite skip_at. destruct (kf_after_stream (reads_kf (parsed_major (out ++ skipn (pos + List.length out) D)) tk2) w2 kf2 n) as (_ & _ & ->); [|exact Hk2]. rewrite Hw. f_equal. rewrite app_length. lia.
Qed.

(** *** Several databases in one stream *)
Lemma put_length old pos out new : (pos <= List.length old)%nat -> put_at old pos out new -> (pos + List.length out <= List.length new)%nat.
Proof.
  intros H (P1 & P2 & _). pose proof (f_equal (@List.length _) P2) as Z. rewrite firstn_length, skipn_length in Z. pose proof (f_equal (@List.length _) P1) as Z1. rewrite !firstn_length in Z1. lia.
Qed.
Lemma key_fs L w w2 pw kf tk h : from_file kf -> same_fs w w2 -> key_for L w pw kf tk h = key_for L w2 pw kf tk h.
Proof. intros F S. apply key_same. destruct kf as [|p|n]; [split; reflexivity| |destruct F]. cbn [kf_src]. rewrite (S p). split; reflexivity. Qed.
Lemma not_stream kf n : from_file kf -> kf <> N_stream n. Proof. intros F ->. exact F. Qed.
Lemma stored_keeps L n w os w' : stored L n w os w' -> Forall (fun o => from_file (o_keyfile o)) os -> (st_pos (w_st w n) <= List.length (st_data (w_st w n)))%nat ->
  same_fs w w' /\ (st_pos (w_st w n) <= st_pos (w_st w' n) <= List.length (st_data (w_st w' n)))%nat /\
  firstn (st_pos (w_st w n)) (st_data (w_st w' n)) = firstn (st_pos (w_st w n)) (st_data (w_st w n)).
Proof.
  induction 1 as [w|e w o w1 os w2 Sv St IH]; intros HF Hp; [split; [intros p; reflexivity|auto]|]. inversion HF as [|? ? F1 F2]; subst.
  destruct (stream_written L e w o (F_stream n) None n _ _ _ (or_introl eq_refl) (not_stream _ n F1) Hp Sv) as (_ & S1 & _ & out & P & Q). pose proof (put_length _ _ _ _ Hp P) as Ln. rewrite <- Q in Ln.
  destruct (IH F2 Ln) as (S2 & I2 & I3). split; [intros p; now rewrite (S2 p)|]. split; [lia|]. destruct P as (P1 & _). rewrite <- P1.
  replace (st_pos (w_st w n)) with (Nat.min (st_pos (w_st w n)) (st_pos (w_st w1 n))) by lia. rewrite <- !firstn_firstn. now rewrite I3.
Qed.
Lemma open_fs L lost w fn pw kf tk dec r w' : open_db L lost w fn pw kf tk dec = (r, w') -> same_fs w w'.
Proof.
  unfold open_db, read. destruct (match fn with F_none => o_filename fresh | _ => Some fn end) as [f|]; [|intros [= _ <-]; intros p; reflexivity]. destruct (source w f) as [data|e]; [|intros [= _ <-]; intros p; reflexivity]. cbv zeta.
  assert (S : forall w m, w_fs (skip w f m) = w_fs w) by (now destruct f). destruct (open_kdbx L _ data) as [[k r0]|x]; intros [= _ <-]; intros p; rewrite S; now rewrite kf_after_fs.
Qed.
(** The contents of [o], for a file. *)
Definition holds (o o2 : obj) : Prop := exists k d, o_kdbx o = Some (k, Some d) /\ same_contents k d o2.
Definition storable (L : lib) (R : regex) (Zl : zlib) (lost : bytes -> nat) (w : world) (o : obj) : Prop :=
  reached L R Zl lost o /\ from_file (o_keyfile o) /\
  exists k d, o_kdbx o = Some (k, Some d) /\ h_major (k_hdr k) = 4 /\ forall key, key_for L w (o_password o) (o_keyfile o) None (k_hdr k) = Ok key -> moderate L (current (k, Some d)) key.
Lemma storable_file L R Zl lost w os : Forall (storable L R Zl lost w) os -> Forall (fun o => from_file (o_keyfile o)) os.
Proof. intros H. eapply Forall_impl; [|exact H]. now intros o (_ & F & _). Qed.
Lemma shelf L R Zl lost n w os w' : lib_ok L -> xml_sound L -> stored L n w os w' -> Forall (storable L R Zl lost w) os -> (st_pos (w_st w n) <= List.length (st_data (w_st w n)))%nat ->
  forall w2, same_fs w w2 -> st_pos (w_st w2 n) = st_pos (w_st w n) -> firstn (st_pos (w_st w' n)) (st_data (w_st w2 n)) = firstn (st_pos (w_st w' n)) (st_data (w_st w' n)) ->
  exists rs w3, fetched L lost n w2 os rs w3 /\ Forall2 holds os rs /\ w_st w3 n = MkStream (st_data (w_st w2 n)) (st_pos (w_st w' n)) (st_seek (w_st w2 n)).
Proof.
  intros HL HX H. induction H as [w|e w o w1 os w2 Sv St IH]; intros HF Hp v Hs Ep Hd.
  - exists [], v. split; [constructor|]. split; [constructor|]. rewrite <- Ep. now destruct (w_st v n).
  - pose proof (storable_file _ _ _ _ _ _ HF) as Hff. inversion HF as [|? ? (Hr & F1 & k & d & Ec & H4 & M) F2]; subst. inversion Hff as [|? ? _ Ff2]; subst.
    destruct (stream_written L e w o (F_stream n) None n _ _ _ (or_introl eq_refl) (not_stream _ n F1) Hp Sv) as (_ & S1 & _ & out & P & Q). pose proof (put_length _ _ _ _ Hp P) as Ln. rewrite <- Q in Ln.
    destruct (stored_keeps L n w1 os w2 St Ff2 Ln) as (S2 & I2 & I3).
    destruct (stream_opens L R Zl lost e w o (F_stream n) None n k d w1 HL HX Hr Ec (or_introl eq_refl) (not_stream _ n F1) Hp M Sv) as (key & Hk & Op).
    assert (D1 : firstn (st_pos (w_st w1 n)) (st_data (w_st v n)) = firstn (st_pos (w_st w1 n)) (st_data (w_st w1 n))).
    { rewrite <- I3. replace (st_pos (w_st w1 n)) with (Nat.min (st_pos (w_st w1 n)) (st_pos (w_st w2 n))) by lia. rewrite <- !firstn_firstn. now rewrite Hd. }
    destruct (Op v (o_password o) (o_keyfile o) None Ep D1 (or_introl H4) (not_stream _ n F1)) as (o2 & v1 & O1 & C1 & W1); [rewrite <- Hk; symmetry; now apply key_fs|].
    assert (F2' : Forall (storable L R Zl lost w1) os).
    { eapply Forall_impl; [|exact F2]. intros o' (R1 & R2 & k' & d' & R3 & R4 & R5). split; [exact R1|]. split; [exact R2|]. exists k', d'. split; [exact R3|]. split; [exact R4|]. intros key' K. apply R5. rewrite <- K. now apply key_fs. }
    destruct (IH F2' Ln v1) as (rs & v2 & G1 & G2 & G3).
    { intros p. rewrite (open_fs _ _ _ _ _ _ _ _ _ _ O1 p), (Hs p). now rewrite (S1 p). }
    { now rewrite W1. }
    { rewrite W1. exact Hd. }
    exists (o2 :: rs), v2. split; [econstructor; [exact O1|exact G1]|]. split; [constructor; [exists k, d; auto|exact G2]|]. rewrite G3, W1. reflexivity.
Qed.
(** *** Saving to the stream a database came from *)
Lemma old_remains L lost n w pw kf tk o1 w1 e o fn tk2 r o' w2 minor : open_db L lost w (F_stream n) pw kf tk true = (Ok o1, w1) -> version o1 = Ok (4, minor) -> kf <> N_stream n ->
  goes_into o fn n -> o_keyfile o <> N_stream n -> save L e w1 o fn tk2 = (r, o', w2) ->
  forall w3, w_st w3 n = MkStream (st_data (w_st w2 n)) (st_pos (w_st w n)) (st_seek (w_st w2 n)) -> kf_src w3 kf = kf_src w kf ->
  exists w4, open_db L lost w3 (F_stream n) pw kf tk true = (Ok o1, w4).
Proof.
  intros H Hv Hk G Hk2 Sv w3 E3 Ek. unfold open_db, read in H. cbn [source] in H. set (D := skipn (st_pos (w_st w n)) (st_data (w_st w n))) in *. cbv zeta in H.
  destruct (open_kdbx L (MkCreds pw (kf_src w kf) tk true) D) as [[k rest]|] eqn:Eo; [|discriminate]. injection H as <- <-.
  assert (H4 : h_major (k_hdr k) = 4) by (unfold version in Hv; cbn [o_kdbx] in Hv; now injection Hv).
  pose proof Eo as Eo'. apply open_p in Eo'. destruct (p_kdbx_inv4 _ _ _ _ _ Eo' H4) as (r1 & b & Hh & Hb & Kb).
  destruct (local_header _ _ _ Hh) as (c1 & E1 & G1). destruct (local_body4 L _ _ _ _ _ Hb) as (c2 & E2 & G2).
  assert (All : forall z, open_kdbx L (MkCreds pw (kf_src w kf) tk true) ((c1 ++ c2) ++ z) = Ok (k, z)).
  { intros z. apply open_p. unfold p_kdbx. rewrite <- app_assoc, G1. cbn [bind]. rewrite H4. cbn [N.eqb Pos.eqb]. rewrite G2. cbn [bind]. destruct k as [h kb]. cbn [k_hdr k_body] in *. now rewrite Kb. }
  assert (ED : D = (c1 ++ c2) ++ rest) by (rewrite E1, E2; apply app_assoc).
  assert (Lc : (List.length D - List.length rest)%nat = List.length (c1 ++ c2)) by (rewrite ED, app_length; lia). rewrite Lc in Sv.
  set (q := with_stream _ _ _) in Sv. assert (Eq : w_st q n = MkStream (st_data (w_st w n)) (st_pos (w_st w n) + List.length (c1 ++ c2)) (st_seek (w_st w n))).
  { unfold q. cbn [with_stream w_st]. rewrite Nat.eqb_refl. destruct (kf_after_stream (reads_kf (parsed_major D) tk) w kf n) as (_ & _ & ->); [reflexivity|exact Hk]. }
  assert (Ld : (List.length (c1 ++ c2) = O \/ st_pos (w_st w n) + List.length (c1 ++ c2) <= List.length (st_data (w_st w n)))%nat).
  { pose proof (f_equal (@List.length _) ED) as X. unfold D in X. rewrite skipn_length, (app_length (c1 ++ c2)) in X. lia. }
  destruct Ld as [Ld|Ld]; [exfalso|].
  { destruct c1; [|discriminate]. specialize (G1 []). discriminate G1. }
  destruct (stream_written L e q o fn tk2 n r o' w2 G Hk2) as (_ & _ & _ & out & (P1 & _) & Q); [rewrite Eq; exact Ld|exact Sv|]. rewrite Eq in P1. cbn [st_data st_pos] in P1.
  assert (T : exists z, skipn (st_pos (w_st w n)) (st_data (w_st w2 n)) = (c1 ++ c2) ++ z).
  { exists (skipn (List.length (c1 ++ c2)) (skipn (st_pos (w_st w n)) (st_data (w_st w2 n)))). rewrite <- (firstn_skipn (List.length (c1 ++ c2)) (skipn (st_pos (w_st w n)) (st_data (w_st w2 n)))) at 1. f_equal.
    rewrite firstn_skipn_comm, P1, <- firstn_skipn_comm. fold D. rewrite ED, firstn_app, Nat.sub_diag, firstn_O, app_nil_r. apply firstn_all. }
  destruct T as (z & T). unfold open_db, read. cbn [source]. rewrite E3. cbn [st_data st_pos]. rewrite T, Ek, All. eexists. reflexivity.
Qed.
