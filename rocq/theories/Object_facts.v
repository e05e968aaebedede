(** Lemmas about Object.v: what calls can produce, saving and opening again. *)
From Coq Require Import ZifyBool ZifyNat ZifyN.
From Verif Require Import Base PyStr Xml Tree XPath Time Db Api ApiSpec IntegritySpec Lib Keyfile Construct Kdbx KdbxSpec Kdbx_facts Kdbx_rt Kdbx_inner Kdbx_file Kdbx_v3 Kdbx_auth Kdbx_claims Save Save_facts Object Prim Clean ObjectSpec.

(** *** Building leaves the database in memory alone *)
Lemma protect_mem L s key t : fst (protect L s key t) = t. Proof. destruct s; reflexivity. Qed.
Lemma pack4_mem L p : fst (pack4 L p) = p.
Proof.
  destruct p as [[[ih|] t]|]; cbn [pack4 p_hdr p_xml]; try reflexivity. destruct (build_inner ih) as [hb|], (i_stream ih) as [s|]; try reflexivity.
  pose proof (protect_mem L s (i_key ih) t) as H. destruct (protect L s (i_key ih) t) as [mem t']. cbn [fst] in *. now subst mem.
Qed.
Lemma pack3_mem L h p : fst (pack3 L h p) = p.
Proof.
  destruct p as [[ih t]|]; cbn [pack3 p_hdr p_xml]; try reflexivity. destruct (hbytes Ex_Attribute h H_ssb) as [ssb|], (hpsid h) as [s|]; try reflexivity. destruct (_ =? 32)%nat; [|reflexivity].
  pose proof (protect_mem L s (hbytes Ex_Key h H_pskey) t) as H. destruct (protect L s (hbytes Ex_Key h H_pskey) t) as [mem t']. cbn [fst] in *. now subst mem.
Qed.
Lemma build_keeps L cr k : snd (build_kdbx L cr k) = k.
Proof.
  destruct k as [h [[tk mk pl]|]]; unfold build_kdbx; cbn [k_hdr k_body]; [|reflexivity]. destruct (h_major h =? 3).
  - unfold build3. cbn [b_payload b_tkey b_mkey]. destruct (let* t := transformed3 L cr h in let* m := master_key L h t in Ok m) as [m|]; [|reflexivity].
    pose proof (pack3_mem L h pl) as P. destruct (pack3 L h pl) as [mem pt]. cbn [fst] in P. subst mem. destruct (bind pt _); reflexivity.
  - destruct (h_major h =? 4); [|reflexivity]. unfold build4. cbn [b_payload b_tkey b_mkey].
    destruct (let* t := transformed4 L cr h in let* m := master_key L h t in let* s := hbytes Ex_Attribute h H_seed in let* hm := header_hmac L h t in Ok (t, m, s, hm)) as [[[[t m] s] hm]|]; [|reflexivity].
    pose proof (pack4_mem L pl) as P. destruct (pack4 L pl) as [mem pt]. cbn [fst] in P. subst mem. destruct (bind pt _); reflexivity.
Qed.

(** *** A document that was read is well-formed *)
Lemma text_ok_filter p : text_ok (filter xml_char p) = true.
Proof. apply forallb_forall. intros x H. now apply filter_In in H. Qed.
Lemma unprot_ok ks pos s s' p : text_ok s = true -> unprot_text ks pos s = Ok (s', p) -> text_ok s' = true.
Proof.
  intros H E. unfold unprot_text in E. destruct (Base64.b64decode s) as [ct|]; [|now injection E as <- <-]. destruct (Utf8.utf8_decode _) as [q|]; injection E as <- <-; [apply text_ok_filter|exact H].
Qed.
Lemma walk_ok_xml ks t : xml_ok t = true -> forall pos t' p, walk (unprot_text ks) pos t = Ok (t', p) -> xml_ok t' = true.
Proof.
  induction t as [g a x k IH] using xml_ind'. intros H pos t' p E. cbn [xml_ok] in H. rewrite !andb_true_iff in H. destruct H as ((((H1 & H2) & H3) & H4) & H5). cbn [walk] in E.
  apply bind_ok in E as ([x' p1] & Ex & E). apply bind_ok in E as ([k' p2] & Ek & E). injection E as <- <-. cbn [xml_ok]. rewrite H1, H2, H3. cbn [andb]. apply andb_true_iff. split.
  - destruct x as [s|]; [|now injection Ex as <- <-]. destruct (is_protected g a); [|now injection Ex as <- <-]. apply bind_ok in Ex as ([s' q] & Eu & Ex). injection Ex as <- <-. exact (unprot_ok _ _ _ _ _ H4 Eu).
  - clear -IH H5 Ek. revert p1 k' p2 Ek H5. induction k as [|c k IHk]; intros p1 k' p2 Ek H5; [now injection Ek as <- <-|]. inversion IH as [|? ? I1 I2]; subst. cbn [forallb] in H5. apply andb_true_iff in H5 as [H5 H6].
    apply bind_ok in Ek as ([c' q] & Ec & Ek). apply bind_ok in Ek as ([l q'] & El & Ek). injection Ek as <- <-. cbn [forallb]. rewrite (I1 H5 _ _ _ Ec). exact (IHk I2 _ _ _ El H6).
Qed.
Lemma unprotect_ok L s key t t' : xml_ok t = true -> unprotect L s key t = Ok t' -> xml_ok t' = true.
Proof.
  intros H E. destruct s; cbn [unprotect] in E; [now injection E as <-| | |]; apply bind_ok in E as (k & _ & E); apply bind_ok in E as (ks & _ & E); apply bind_ok in E as ([t2 p] & W & E); injection E as <-; exact (walk_ok_xml ks t H _ _ _ W).
Qed.
(** What was parsed with a document: which version, credentials, and a good document with good binaries. *)
Lemma open_doc L cr data k r t : lib_ok L -> xml_sound L -> bytes_ok data -> open_kdbx L cr data = Ok (k, r) -> doc_of k = Some t ->
  (exists v, (v = 3 \/ v = 4) /\ opened v L cr data k) /\ xml_ok t = true /\ Forall small (bins_of k).
Proof.
  intros HL HX Hd Ho Ht. pose proof Ho as Ho'. apply open_p in Ho.
  assert (Hm : h_major (k_hdr k) = 3 \/ h_major (k_hdr k) = 4).
  { pose proof Ho as P. unfold p_kdbx in P. bokp P h r1 E1. destruct (N.eqb_spec (h_major h) 3); [bokp P b r2 E2; injection P as <- <-; cbn; auto|]. destruct (N.eqb_spec (h_major h) 4); [bokp P b r2 E2; injection P as <- <-; cbn; auto|]. injection P as <- <-. discriminate. }
  assert (Hc : c_dec cr = true).
  { destruct (c_dec cr) eqn:Hc; [reflexivity|]. exfalso. revert Ht. unfold doc_of. destruct Hm as [Hm|Hm].
    - destruct (p_kdbx_inv3 _ _ _ _ _ Ho Hm) as (r1 & b & _ & B & ->). unfold body3 in B. bok B tk E1. bok B mk E2. rewrite Hc in B. injection B as <- <-. discriminate.
    - destruct (p_kdbx_inv4 _ _ _ _ _ Ho Hm) as (r1 & b & _ & B & ->). unfold body4 in B. bok B tk E1. bok B mk E2. bokp B s r2 E3. destruct (str_eqb _ _); [|discriminate]. rewrite Hc in B. injection B as <- <-. discriminate. }
  split; [exists (h_major (k_hdr k)); split; [exact Hm|]; split; [exact Hd|]; split; [exact Hc|]; split; [reflexivity|eauto]|].
  destruct Hm as [Hm|Hm].
  - destruct (p_kdbx_inv3 _ _ _ _ _ Ho Hm) as (r1 & b & _ & B & Kb). destruct (body3_inv _ _ _ _ _ _ Hc B) as (tk & mk & c & iv & p & pl & _ & _ & _ & _ & _ & U & -> & _).
    unfold doc_of, bins_of in *. rewrite Kb in *. cbn [b_payload] in *. injection Ht as <-. unfold unpack3 in U. bokp U s0 q E1. bok U ssb E2. destruct (str_eqb s0 ssb); [|discriminate]. bok U s E3. bok U comp E4. bokp U bb rr E5. bok U x E6. bok U t0 E7. bok U t1 E8.
    injection U as <-. cbn [p_xml p_hdr]. split; [exact (unprotect_ok _ _ _ _ _ (HX _ _ E7) E8)|constructor].
  - destruct (p_kdbx_inv4 _ _ _ _ _ Ho Hm) as (r1 & b & Hh & Hbody & Kb). pose proof (local_ok _ _ _ _ local_header Hd Hh) as Hr1.
    destruct (body4_inv _ _ _ _ _ _ Hc Hbody) as (tk0 & mk0 & comp & c & seed & ct0 & iv & p0 & x0 & q & hm0 & pl & Q). destruct Q as [Q1 Q2 Q3 Qd Q4 Q5 Q6 Q7 Q8 Q9 Q10 Q11 ->].
    assert (Hiv : bytes_ok iv) by exact (hbytes_ok _ _ _ _ _ _ Hd Hh Q8).
    assert (Hq : bytes_ok q) by (rewrite Qd in Hr1; apply bytes_ok_app in Hr1; destruct Hr1 as [_ X]; apply bytes_ok_app in X; apply X).
    assert (Hct0 : bytes_ok ct0).
    { unfold blocks4 in Q7. bokp Q7 l r2 E. injection Q7 as <- <-. unfold p_repeat in E. apply concat_ok.
      eapply until_forall; [| |exact Hq|exact E]; [intros; apply local_block4|]. intros i d a r0 Hd0 Ha. unfold block4 in Ha.
      bokp Ha hh rr E1. pose proof (local_ok _ _ _ _ (local_bytes 32) Hd0 E1) as Hrr. bokp Ha bb rr2 E2. apply p_prefixed_inv in E2; [|exact Hrr].
      destruct E2 as (b & Eb & Hbb & _). injection Eb as ->. destruct (str_eqb _ _); [|discriminate]. injection Ha as <- <-. exact Hbb. }
    pose proof (payload_decrypt_ok _ _ _ _ _ _ HL Hiv Hct0 Q9) as Hp0. pose proof (decompress_ok _ _ _ _ HL Hp0 Q10) as Hx0.
    destruct (unpack4_inv _ _ _ Hx0 Q11) as (ih & rx & s & t0 & t1 & U1 & U2 & U3 & U4 & -> & Hih). unfold doc_of, bins_of in *. rewrite Kb in *. cbn [b_payload p_xml p_hdr] in *. injection Ht as <-.
    split; [exact (unprotect_ok _ _ _ _ _ (HX _ _ U3) U4)|apply Hih].
Qed.

(** *** Invariant *)
Definition sound_db (L : lib) (k : kdbx) (d : db) : Prop :=
  (exists v cr data, (v = 3 \/ v = 4) /\ opened v L cr data k) /\ clean d /\ slim d /\ d_major d = h_major (k_hdr k) /\ d_minor d = h_minor (k_hdr k).
Definition sound (L : lib) (o : obj) : Prop := match o_kdbx o with Some (k, Some d) => sound_db L k d | _ => True end.
Lemma load_some k d : load k = Some d -> exists t, doc_of k = Some t /\ document d = Some t /\ d_bins d = bins_of k /\ d_major d = h_major (k_hdr k) /\ d_minor d = h_minor (k_hdr k) /\ (xml_ok t = true -> clean d).
Proof.
  unfold load. destruct (doc_of k) as [t|]; [|discriminate]. destruct (label O t) as [e n] eqn:E. intros [= <-]. exists t. pose proof (label_spec t O) as (L1 & L2 & L3 & L4). rewrite E in *. cbn [fst snd] in *.
  split; [reflexivity|]. split; [unfold document; cbn; now rewrite L2|]. split; [reflexivity|]. split; [reflexivity|]. split; [reflexivity|]. intros H. split.
  - apply wf_fids. cbn [d_forest d_next fids flat_map]. rewrite app_nil_r, L4. split; [discriminate|]. split; [apply seq_NoDup|]. intros j Hj. apply in_seq in Hj. lia.
  - cbn [d_forest]. constructor; [|constructor]. unfold neat. now rewrite L2.
Qed.
Lemma load_doc k t : doc_of k = Some t -> exists d, load k = Some d.
Proof. intros H. unfold load. rewrite H. destruct (label O t). eauto. Qed.
Lemma opened_sound L cr data k r d : lib_ok L -> xml_sound L -> bytes_ok data -> open_kdbx L cr data = Ok (k, r) -> load k = Some d -> sound_db L k d.
Proof.
  intros HL HX Hd Ho El. destruct (load_some k d El) as (t & Ht & _ & Eb & Em & Ei & Hc). destruct (open_doc L cr data k r t HL HX Hd Ho Ht) as ((v & Hv & Op) & Hx & Hs).
  split; [exists v, cr, data; auto|]. split; [auto|]. split; [unfold slim; now rewrite Eb|auto].
Qed.
Lemma skipn_ok n b : bytes_ok b -> bytes_ok (skipn n b).
Proof. intros H. rewrite <- (firstn_skipn n b) in H. now apply bytes_ok_app in H. Qed.
Lemma source_ok w f data : bytes_world w -> source w f = Ok data -> bytes_ok data.
Proof.
  intros [W1 W2] H. destruct f as [|p|n|b]; cbn [source] in H; try discriminate.
  - destruct (w_fs w p) as [c|] eqn:E; [|discriminate]. injection H as <-. eauto.
  - injection H as <-. apply skipn_ok, W2.
Qed.
Lemma read_sound L lost w o fn pw kf tk dec : lib_ok L -> xml_sound L -> bytes_world w -> sound L o -> sound L (snd (fst (read L lost w o fn pw kf tk dec))).
Proof.
  intros HL HX Hw Ho. unfold read. destruct (match fn with F_none => o_filename o | _ => Some fn end) as [f|]; [|exact Ho]. destruct (source w f) as [data|x] eqn:Es; [|exact Ho]. cbv zeta.
  destruct (open_kdbx L (MkCreds pw (kf_src w kf) tk dec) data) as [[k r]|x] eqn:Ek; [|exact Ho]. cbn [fst snd]. unfold sound. cbn [o_kdbx]. destruct (load k) as [d|] eqn:El; [|exact I]. eapply opened_sound; eauto using source_ok.
Qed.
Lemma call_sound {A} L (m : M A) o : sound L o -> (forall d, clean d -> tidy_at m d) -> sound L (snd (call m o)).
Proof.
  intros H Hm. unfold call, payload_of, sound in *. destruct (o_kdbx o) as [[k [d|]]|] eqn:E; cbn [snd]; rewrite ?E; try exact H; [|destruct (k_body k); cbn [snd]; rewrite E; exact I].
  destruct H as (H1 & H2 & H3 & H4 & H5). specialize (Hm d H2). unfold tidy_at in Hm. destruct (m d) as [r d']. cbn [snd o_kdbx] in *. destruct Hm as (M1 & M2 & M3 & M4). split; [exact H1|]. split; [exact M1|]. split; [auto|]. split; congruence.
Qed.
Lemma save_obj L e w o fn tk : snd (fst (save L e w o fn tk)) = o.
Proof.
  unfold save. destruct (match fn with F_none => o_filename o | _ => Some fn end) as [[|p|n|b]|]; destruct (o_kdbx o) as [c|]; try reflexivity. destruct (tmp_of p); [|reflexivity]. cbv zeta. destruct (save_ops _ _ _ _ _); reflexivity.
Qed.
Lemma reached_sound L R Zl lost o : lib_ok L -> xml_sound L -> reached L R Zl lost o -> sound L o.
Proof.
  intros HL HX H. induction H as [w fn pw kf tk dec o w' Hw E|w o fn pw kf tk dec H IH Hw|w o H IH Hw|e w o fn tk H IH|C c o H IH F|t pw o H IH|t kf o H IH|fn o H IH].
  - unfold open_db in E. pose proof (read_sound L lost w fresh fn pw kf tk dec HL HX Hw I) as S. destruct (read L lost w fresh fn pw kf tk dec) as [[[u|x] o'] w2]; [|discriminate]. injection E as <- <-. exact S.
  - now apply read_sound.
  - unfold reload. destruct (o_filename o); [now apply read_sound|exact IH].
  - now rewrite save_obj.
  - apply call_sound; [exact IH|]. now apply t_run.
  - unfold set_pw. apply call_sound; [exact IH|]. exact (t_run R Zl (MkClock t [] (fun _ => 0%Z)) (Op_changed t) I).
  - unfold set_kf. apply call_sound; [exact IH|]. exact (t_run R Zl (MkClock t [] (fun _ => 0%Z)) (Op_changed t) I).
  - exact IH.
Qed.

(** *** Key derivation *)
(** Two key file arguments that give the same bytes when read once and twice. *)
Definition same_kf (a b : kfsrc) : Prop := kf_read a = kf_read b /\ kf_read (kf_next a) = kf_read (kf_next b).
Lemma composite_same L pw a b : kf_read a = kf_read b -> key_composite L pw a = key_composite L pw b.
Proof. intros H. unfold key_composite. now rewrite H. Qed.
Lemma transformed_same L pw a b tk h : same_kf a b -> transformed4 L (MkCreds pw a tk true) h = transformed4 L (MkCreds pw b tk true) h /\ transformed3 L (MkCreds pw a tk true) h = transformed3 L (MkCreds pw b tk true) h.
Proof. intros [H1 H2]. unfold transformed4, transformed3. cbn [c_pw c_kf c_tk]. now rewrite (composite_same L pw a b H1), (composite_same L pw (kf_next a) (kf_next b) H2). Qed.
Lemma key_same L w w' pw kf kf' tk h : same_kf (kf_src w kf) (kf_src w' kf') -> key_for L w pw kf tk h = key_for L w' pw kf' tk h.
Proof. intros H. unfold key_for. cbv zeta. destruct (transformed_same L pw _ _ tk h H) as [-> ->]. reflexivity. Qed.

(** *** Saving *)
Lemma save_path L e w o fn tk p c tmp : goes_to o fn p -> o_kdbx o = Some c -> apart p tmp (o_keyfile o) ->
  save L e w o fn tk =
    (let b := fst (build_kdbx L (MkCreds (o_password o) (kf_src w (o_keyfile o)) tk true) (current c)) in
     (snd (save_ops e (w_fs w) p (fst b) (snd b)), o,
      kf_after (e_open e && reads_kf (h_major (k_hdr (fst c))) tk) (with_fs w (Save.run (w_fs w) (fst (save_ops e (w_fs w) p (fst b) (snd b))))) (o_keyfile o))).
Proof.
  intros G Ec (Ht & Hne & Hk). assert (E : (match fn with F_none => o_filename o | _ => Some fn end) = Some (F_path p)) by (destruct G as [->|[-> ->]]; reflexivity).
  unfold save. rewrite E, Ec, Ht. assert (K : kf_src (with_fs w (fs_set (w_fs w) tmp (Some []))) (o_keyfile o) = kf_src w (o_keyfile o)).
  { destruct (o_keyfile o) as [|q|n]; cbn [kf_src with_fs w_fs w_st]; try reflexivity. rewrite fs_set_other; [reflexivity|]. intros ->. now apply Hk. }
  rewrite K. cbv zeta. destruct (save_ops e (w_fs w) p _ _) as [ops r]. reflexivity.
Qed.
Lemma kf_after_fs used w k : w_fs (kf_after used w k) = w_fs w.
Proof. destruct k; cbn [kf_after]; [reflexivity| |destruct used]; reflexivity. Qed.
Lemma opened_edits v L cr data k bins t : v = 3 \/ v = 4 -> opened v L cr data k -> doc_of (edited k bins t) = Some t.
Proof.
  intros Hv (_ & Hc & Hm & r & Op). apply open_p in Op. destruct Hv as [-> | ->].
  - destruct (p_kdbx_inv3 _ _ _ _ _ Op Hm) as (r1 & b & _ & Hb & Kb). destruct (body3_inv _ _ _ _ _ _ Hc Hb) as (tk & mk & c & iv & p & pl & _ & _ & _ & _ & _ & _ & -> & _). unfold doc_of, edited. cbn [k_body]. rewrite Kb. reflexivity.
  - destruct (p_kdbx_inv4 _ _ _ _ _ Op Hm) as (r1 & b & _ & Hb & Kb). destruct (body4_inv _ _ _ _ _ _ Hc Hb) as (tk & mk & comp & c & seed & ct & iv & p & x & q & hm & pl & Q). destruct Q. subst b. unfold doc_of, edited. cbn [k_body]. rewrite Kb. reflexivity.
Qed.
(** The bytes written for an object that calls can produce ... *)
Lemma build_ok L k d cr key : lib_ok L -> sound_db L k d -> (if h_major (k_hdr k) =? 3 then transformed3 L cr (k_hdr k) else transformed4 L cr (k_hdr k)) = Ok key -> sizes L (current (k, Some d)) key ->
  exists out, fst (build_kdbx L cr (current (k, Some d))) = (out, Ok tt).
Proof.
  intros HL ((v & cr0 & data & Hv & (Hdat & Hc0 & Hm & r0 & Op)) & (W & C) & S & _ & _) Hk (M4 & M3). apply open_p in Op. unfold current in *. destruct (d_forest d) as [|t F] eqn:EF; [destruct W; congruence|].
  assert (Hx : xml_ok (erase t) = true) by (now inversion C). destruct Hv as [-> | ->]; rewrite Hm in *; cbn [N.eqb Pos.eqb] in *.
  - destruct (save3 L cr0 data k r0 cr key (d_bins d) (erase t) HL Hdat Hc0 Op Hm Hk Hx (M3 Hm)) as (out & ct & Sv & _). exists out. now rewrite Sv.
  - destruct (save4 L cr0 data k r0 cr key (d_bins d) (erase t) HL Hdat Hc0 Op Hm Hk Hx S (M4 Hm)) as (out & Sv & _). exists out. now rewrite Sv.
Qed.
(** ... and what they open as. *)
Lemma build_opens L k d cr key : lib_ok L -> sound_db L k d -> (if h_major (k_hdr k) =? 3 then transformed3 L cr (k_hdr k) else transformed4 L cr (k_hdr k)) = Ok key -> moderate L (current (k, Some d)) key ->
  exists out, fst (build_kdbx L cr (current (k, Some d))) = (out, Ok tt) /\
    forall cr2, c_dec cr2 = true -> (if h_major (k_hdr k) =? 3 then transformed3 L cr2 (k_hdr k) else transformed4 L cr2 (k_hdr k)) = Ok key ->
      exists k2 r, open_kdbx L cr2 out = Ok (k2, r) /\ k_hdr k2 = k_hdr k /\ doc_of k2 = option_map (shown k) (document d) /\ (h_major (k_hdr k) = 4 -> bins_of k2 = d_bins d).
Proof.
  intros HL ((v & cr0 & data & Hv & Op) & (W & C) & S & _ & _) Hk ((M4 & M3) & M0). unfold current, document in *. destruct (d_forest d) as [|t F] eqn:EF; [destruct W; congruence|]. cbn [hd_error option_map].
  assert (Hx : xml_ok (erase t) = true) by (now inversion C). pose proof (M0 _ (opened_edits _ _ _ _ _ (d_bins d) (erase t) Hv Op)) as Hmo. assert (Hm : h_major (k_hdr k) = v) by apply Op. destruct Hv as [-> | ->].
  - rewrite Hm in *. cbn [N.eqb Pos.eqb] in *. destruct (claim_c10 L cr0 data k cr key (d_bins d) (erase t) HL Op Hk Hx Hmo (M3 Hm)) as (out & (k' & Sv) & G). exists out. rewrite Sv. split; [reflexivity|].
    intros cr2 Hc Hk2. destruct (G cr2 Hc Hk2) as (k2 & s & P & H1 & H2 & _ & H3). exists k2, []. split; [exact P|]. split; [exact H1|]. split; [|discriminate]. unfold shown. now rewrite H2.
  - rewrite Hm in *. cbn [N.eqb Pos.eqb] in *. destruct (claim_c09 L cr0 data k cr key (d_bins d) (erase t) HL Op Hk Hx Hmo S (M4 Hm)) as (out & (k' & Sv) & G). exists out. rewrite Sv. split; [reflexivity|].
    intros cr2 Hc Hk2. destruct (G cr2 [] Hc Hk2) as (k2 & s & P & H1 & Hb & H2 & _ & H3). rewrite app_nil_r in P. exists k2, []. split; [exact P|]. split; [exact H1|]. split; [|auto]. unfold shown. now rewrite H2.
Qed.
Lemma saved_opens L R Zl lost e w o fn tk p tmp k d key w' : lib_ok L -> xml_sound L -> reached L R Zl lost o -> o_kdbx o = Some (k, Some d) ->
  goes_to o fn p -> apart p tmp (o_keyfile o) -> env_ok e -> key_for L w (o_password o) (o_keyfile o) tk (k_hdr k) = Ok key -> moderate L (current (k, Some d)) key ->
  save L e w o fn tk = (Ok tt, o, w') ->
  forall w2 pw2 kf2 tk2, w_fs w2 p = w_fs w' p -> key_for L w2 pw2 kf2 tk2 (k_hdr k) = Ok key ->
    exists o2 w3, open_db L lost w2 (F_path p) pw2 kf2 tk2 true = (Ok o2, w3) /\ same_contents k d o2 /\ o_password o2 = pw2 /\ o_keyfile o2 = kf2 /\ o_filename o2 = Some (F_path p).
Proof.
  intros HL HX Hr Ec G A He Hk M Sv w2 pw2 kf2 tk2 Hw Hk2. pose proof (reached_sound L R Zl lost o HL HX Hr) as So. unfold sound in So. rewrite Ec in So.
  rewrite (save_path L e w o fn tk p _ tmp G Ec A) in Sv. cbv zeta in Sv. destruct (build_opens L k d _ key HL So Hk M) as (out & Eb & Op). rewrite Eb in Sv. cbn [fst snd] in Sv. destruct A as (Ht & Hne & _).
  injection Sv as Sr Sw. destruct (save_success e (w_fs w) p tmp out He Ht Hne (Ok tt) Sr) as (_ & F & _). subst w'. rewrite kf_after_fs in Hw. cbn [with_fs w_fs] in Hw. rewrite F in Hw.
  destruct (Op (MkCreds pw2 (kf_src w2 kf2) tk2 true) eq_refl Hk2) as (k2 & r & P & H1 & H2 & H3).
  unfold open_db, read. cbn [source]. rewrite Hw, P. destruct (document d) as [t|] eqn:Ed; [|exfalso; destruct So as (_ & ((W & _) & _) & _); unfold document in Ed; destruct (d_forest d); [congruence|discriminate]]. cbn [option_map] in *.
  destruct (load_doc _ _ H2) as (d2 & El). rewrite El. do 2 eexists. split; [reflexivity|]. split; [|auto]. exists k2, d2. split; [reflexivity|]. destruct (load_some _ _ El) as (t2 & T1 & T2 & T3 & _). split; [exact H1|]. split; [rewrite Ed; cbn [option_map]; congruence|]. intros H. rewrite T3. auto.
Qed.
(** Without obstacles saving returns. *)
Lemma save_returns L R Zl lost e w o fn tk p tmp k d key : lib_ok L -> xml_sound L -> reached L R Zl lost o -> o_kdbx o = Some (k, Some d) ->
  goes_to o fn p -> apart p tmp (o_keyfile o) -> e_open e = true -> e_room e = None -> key_for L w (o_password o) (o_keyfile o) tk (k_hdr k) = Ok key -> sizes L (current (k, Some d)) key ->
  exists w', save L e w o fn tk = (Ok tt, o, w').
Proof.
  intros HL HX Hr Ec G A He Hroom Hk M. pose proof (reached_sound L R Zl lost o HL HX Hr) as So. unfold sound in So. rewrite Ec in So. rewrite (save_path L e w o fn tk p _ tmp G Ec A). cbv zeta.
  destruct (build_ok L k d _ key HL So Hk M) as (out & Eb). rewrite Eb. cbn [fst snd]. destruct A as (Ht & _). eexists. f_equal. f_equal. unfold save_ops. rewrite Ht, He. unfold limited. rewrite Hroom. reflexivity.
Qed.
(** ... and without a key it raises. *)
Lemma build_no_key L cr k d x : sound_db L k d -> (if h_major (k_hdr k) =? 3 then transformed3 L cr (k_hdr k) else transformed4 L cr (k_hdr k)) = Err x -> snd (fst (build_kdbx L cr (current (k, Some d)))) = Err x.
Proof.
  intros ((v & cr0 & data & Hv & (_ & _ & Hm & r & Op)) & (W & _) & _) Hk. apply open_p in Op. unfold current. destruct (d_forest d) as [|t F] eqn:EF; [destruct W; congruence|].
  destruct Hv as [-> | ->]; [destruct (p_kdbx_inv3 _ _ _ _ _ Op Hm) as (r1 & b & _ & _ & Kb)|destruct (p_kdbx_inv4 _ _ _ _ _ Op Hm) as (r1 & b & _ & _ & Kb)]; unfold build_kdbx, edited; cbn [k_hdr k_body]; rewrite Kb, Hm in *; cbn [N.eqb Pos.eqb] in *.
  - unfold build3. rewrite Hk. reflexivity.
  - unfold build4. rewrite Hk. reflexivity.
Qed.
(** The key file after a save is read as before. *)
Lemma steady_kf L e w o fn tk p tmp k d w' r : goes_to o fn p -> o_kdbx o = Some (k, Some d) -> apart p tmp (o_keyfile o) -> steady w p (o_keyfile o) -> save L e w o fn tk = (r, o, w') ->
  same_kf (kf_src w' (o_keyfile o)) (kf_src w (o_keyfile o)).
Proof.
  intros G Ec A St Sv. rewrite (save_path L e w o fn tk p _ tmp G Ec A) in Sv. cbv zeta in Sv. injection Sv as _ <-. destruct A as (Ht & _ & Hk). destruct (o_keyfile o) as [|q|n]; cbn [kf_after kf_src with_fs w_fs steady] in *; [split; reflexivity| |].
  - set (l := fst (save_ops e _ _ _ _)). assert (F : Save.run (w_fs w) l q = w_fs w q); [|rewrite F; split; reflexivity].
    unfold l. rewrite <- (firstn_all (fst (save_ops e _ _ _ _))). apply save_frame; [exact St|]. intros tmp' E'. rewrite Ht in E'. injection E' as <-. intros ->. now apply Hk.
  - destruct (e_open e && _); cbn [with_stream w_st with_fs]; [rewrite Nat.eqb_refl; cbn [st_seek st_data st_pos]|]; rewrite St; split; reflexivity.
Qed.
