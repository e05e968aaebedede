(** KDBX3 files: saving and opening again, prefixes and trailing bytes. *)
From Coq Require Import ZifyBool ZifyNat ZifyN.
From Verif Require Import Base Base64 PyStr Utf8 Xml Xml_facts Cbc Cbc_facts Lib Keyfile Construct Kdbx KdbxSpec Kdbx_facts Kdbx_rt Kdbx_inner Kdbx_file.
Ltac Zify.zify_post_hook ::= Z.div_mod_to_equations.

(** *** Decrypting a prefix gives a prefix *)
Lemma raw_mono L c mk iv a b p q : raw_decrypt L c mk iv a = Ok p -> raw_decrypt L c mk iv (a ++ b) = Ok q -> exists s, q = p ++ s.
Proof.
  destruct c; cbn [raw_decrypt].
  - unfold aes_cbc_decrypt. destruct (aes_cbc_new mk iv); cbn [bind]; [|discriminate].
    destruct (Nat.eqb_spec (List.length a mod 16) 0) as [Ha|]; [|discriminate]. intros [= <-].
    destruct (List.length (a ++ b) mod 16 =? 0)%nat; [|discriminate]. intros [= <-].
    rewrite blocks_app by exact Ha. destruct (cbc_d_app (aes_dec L mk) (blocks_of a) iv (blocks_of b)) as (iv' & ->).
    rewrite concat_app. eauto.
  - destruct (tf_cbc_new mk (Some iv)) as [s|e]; cbn [bind]; [|discriminate]. intros H1 H2. apply Ok_inj in H1. apply Ok_inj in H2. subst p q.
    rewrite update_app. destruct (cbc_update Decrypt s a) as [o1 s1]. destruct (cbc_update Decrypt s1 b) as [o2 s2]. cbn [fst]. eauto.
  - destruct (chacha_new mk iv) as [u|e]; cbn [bind]; [|discriminate]. intros [= <-] [= <-]. rewrite xor_ks_app. eauto.
Qed.
Lemma unpad_for_prefix c p : exists e, p = unpad_for c p ++ e.
Proof.
  assert (G : exists e, p = try_unpad p ++ e).
  { unfold try_unpad. destruct (pkcs7_unpad p) as [q|x] eqn:E; [|exists []; rewrite app_nil_r; reflexivity].
    apply unpad_inv in E. subst p. unfold pkcs7_pad. eauto. }
  destruct c; cbn [unpad_for]; try exact G. exists []. rewrite app_nil_r. reflexivity.
Qed.
Lemma unpack3_more L h d z pl : unpack3 L h d = Ok pl -> unpack3 L h (d ++ z) = Ok pl.
Proof.
  unfold unpack3. intros H. bokp H s0 r E1. destruct (local_bytes 32 _ _ _ E1) as (c1 & -> & G1). rewrite <- app_assoc, G1. cbn [bind].
  bok H ssb E2. rewrite E2. cbn [bind]. destruct (str_eqb s0 ssb); [|discriminate].
  bok H s E3. rewrite E3. cbn [bind]. bok H comp E4. rewrite E4. cbn [bind]. bokp H b r2 E5.
  destruct (local_blocks3 L _ _ _ E5) as (c2 & -> & G2). rewrite <- app_assoc, G2. cbn [bind]. exact H.
Qed.
Lemma body3_inv L cr h d b r : c_dec cr = true -> body3 L cr h d = Ok (b, r) ->
  exists tk mk c iv p pl, transformed3 L cr h = Ok tk /\ master_key L h tk = Ok mk /\ hcipher h = Ok c /\
    hbytes Ex_Attribute h H_iv = Ok iv /\ raw_decrypt L c mk iv d = Ok p /\ unpack3 L h (unpad_for c p) = Ok pl /\
    b = MkBody tk mk (Some pl) /\ r = [].
Proof.
  intros Hc H. unfold body3 in H. bok H tk E1. bok H mk E2. rewrite Hc in H. bok H c E3. bok H iv E4. bok H p E5.
  rewrite payload_decrypt_raw in E5. bok E5 p' E6. injection E5 as <-. bok H pl E7. injection H as <- <-.
  exists tk, mk, c, iv, p', pl. tauto.
Qed.
Lemma prefix3 L cr a b k1 k2 r1 r2 : c_dec cr = true -> p_kdbx L cr a = Ok (k1, r1) -> h_major (k_hdr k1) = 3 ->
  p_kdbx L cr (a ++ b) = Ok (k2, r2) -> k2 = k1.
Proof.
  intros Hc H1 Hm H2. destruct (p_kdbx_inv3 _ _ _ _ _ H1 Hm) as (q1 & b1 & Hh1 & B1 & K1).
  destruct (header_local_raw _ _ _ Hh1) as [Ea G]. pose proof (G (q1 ++ b)) as Hh2. rewrite app_assoc, <- Ea in Hh2.
  assert (Hk : k_hdr k2 = k_hdr k1 /\ exists b2, body3 L cr (k_hdr k1) (q1 ++ b) = Ok (b2, r2) /\ k_body k2 = Some b2).
  { unfold p_kdbx in H2. rewrite Hh2 in H2. cbn [bind] in H2. rewrite Hm in H2. cbn [N.eqb] in H2. change (3 =? 3) with true in H2. cbv iota in H2.
    bokp H2 b2 r3 E. injection H2 as <- <-. cbn. eauto. }
  destruct Hk as (Hk & b2 & B2 & K2).
  destruct (body3_inv _ _ _ _ _ _ Hc B1) as (tk & mk & c & iv & p & pl & T & M & C & I & R & U & -> & _).
  destruct (body3_inv _ _ _ _ _ _ Hc B2) as (tk' & mk' & c' & iv' & p' & pl' & T' & M' & C' & I' & R' & U' & -> & _).
  assert (tk' = tk) by congruence. subst tk'. assert (mk' = mk) by congruence. subst mk'. assert (c' = c) by congruence. subst c'.
  assert (iv' = iv) by congruence. subst iv'.
  destruct (raw_mono _ _ _ _ _ _ _ _ R R') as (s & ->). destruct (unpad_for_prefix c p) as (e & Ep). destruct (unpad_for_prefix c (p ++ s)) as (e' & Ep').
  pose proof (unpack3_more _ _ _ (e ++ s) _ U) as V. rewrite app_assoc, <- Ep in V.
  pose proof (unpack3_more _ _ _ e' _ U') as V'. rewrite <- Ep' in V'.
  assert (pl' = pl) by congruence. subst pl'. destruct k1, k2; cbn in *. congruence.
Qed.

Definition fits3 (L : lib) (k : kdbx) : Prop := forall t comp, doc_of k = Some t -> forall s t', hpsid (k_hdr k) = Ok s ->
  snd (protect L s (hbytes Ex_Key (k_hdr k) H_pskey) t) = Ok t' -> hcomp (k_hdr k) = Ok comp ->
  lenN (compress L comp (xml_ser L t')) <= 2 ^ 51.

Lemma save3_full L cr data k r cr' tk bins t :
  lib_ok L -> bytes_ok data -> c_dec cr = true -> p_kdbx L cr data = Ok (k, r) -> h_major (k_hdr k) = 3 ->
  transformed3 L cr' (k_hdr k) = Ok tk -> xml_ok t = true -> fits3 L (edited k bins t) ->
  exists out ct, build_kdbx L cr' (edited k bins t) = (out, Ok tt, edited k bins t) /\ out = h_raw (k_hdr k) ++ ct /\
    (hcipher (k_hdr k) = Ok C_aes -> (List.length ct mod 16 = 0)%nat) /\
    (modest t = true -> forall cr2 trail, c_dec cr2 = true -> transformed3 L cr2 (k_hdr k) = Ok tk ->
      (hcipher (k_hdr k) = Ok C_aes -> (List.length trail mod 16 = 0)%nat) ->
      exists k2 s, p_kdbx L cr2 (out ++ trail) = Ok (k2, []) /\ k_hdr k2 = k_hdr k /\ bins_of k2 = [] /\
        stream_id_of k = Ok s /\ stream_id_of k2 = Ok s /\ doc_of k2 = Some (view_for s t) /\
        contents k2 = contents (edited k bins (view_for s t)) /\ k_body k2 <> None /\ k_body k <> None).
Proof.
  intros HL Hd Hc H Hm Htk Ht Hfit. apply p_kdbx_inv3 in H; [|exact Hm]. destruct H as (r1 & b & Hh & Hbody & Hk).
  set (h := k_hdr k) in *.
  destruct (body3_inv _ _ _ _ _ _ Hc Hbody) as (tk0 & mk0 & c & iv & p0 & pl & T0 & M0 & C0 & I0 & R0 & U0 & -> & ->).
  assert (Hiv : bytes_ok iv) by exact (hbytes_ok _ _ _ _ _ _ Hd Hh I0).
  unfold unpack3 in U0. bokp U0 s0 q0 V1. bok U0 ssb V2. destruct (str_eqb_spec s0 ssb) as [->|]; [|discriminate].
  bok U0 s V3. bok U0 comp V4. bokp U0 b0 q1 V5. bok U0 x V6. bok U0 t0 V7. bok U0 t1 V8. injection U0 as <-.
  apply p_bytes_inv in V1. destruct V1 as [_ Hssb].
  assert (Hssb' : bytes_ok ssb) by exact (hbytes_ok _ _ _ _ _ _ Hd Hh V2).
  assert (Hl : List.length ssb = 32%nat) by (unfold lenN in Hssb; lia).
  destruct (unprotect_protect_ok L s (hbytes Ex_Key h H_pskey) t0 t1 t HL Ht V8) as (t' & P).
  destruct (protect_unprotect _ _ _ _ _ HL Ht P) as [Ht' Un].
  destruct (ok_xml _ HL t' Ht') as [X1 X2].
  destruct (compress_ok L comp _ HL X1) as [Cok Cinv].
  assert (Hmk : exists mk, master_key L h tk = Ok mk).
  { unfold master_key in *. bok M0 sd Esd. rewrite Esd. cbn [bind]. eauto. }
  destruct Hmk as (mk & Hmk).
  pose proof (master_digest _ _ _ _ HL Hmk) as Dmk. pose proof (master_digest _ _ _ _ HL M0) as Dmk0.
  assert (Fiv : iv_fits c iv).
  { apply (decrypt_iv L c mk0 iv r1 (unpad_for c p0) (proj1 Dmk0)). rewrite payload_decrypt_raw, R0. reflexivity. }
  assert (Ed : edited k bins t = MkKdbx h (Some (MkBody tk0 mk0 (Some (MkPay None t))))) by (unfold edited; rewrite Hk; reflexivity).
  destruct (build3_fits L (compress L comp (xml_ser L t'))) as (bl & Ebl).
  { rewrite Ed in Hfit. eapply Hfit; [reflexivity|exact V3|exact P|exact V4]. }
  assert (Hbl : bytes_ok bl).
  { unfold build_blocks3 in Ebl. cbv zeta in Ebl. destruct (to_chunks_spec (compress L comp (xml_ser L t'))) as (l & E & C & F). rewrite E in Ebl.
    destruct (_ <? _); [discriminate|]. injection Ebl as <-. apply enc_seq_ok. intros j a Ha. unfold enc_block3.
    apply bytes_ok_app. split; [apply le_enc_ok|]. apply bytes_ok_app. split.
    - unfold block3_hash. destruct a; [|apply (ok_sha256 _ HL)]. unfold bytes_ok. rewrite Forall_forall. intros y Hy. apply repeat_spec in Hy. subst. reflexivity.
    - apply bytes_ok_app. split; [apply le_enc_ok|]. apply in_app_or in Ha. destruct Ha as [Ha|[<-|[]]]; [|constructor].
      rewrite <- C in Cok. clear - Cok Ha. induction l as [|y l IH]; [destruct Ha|]. cbn [List.concat] in Cok. apply bytes_ok_app in Cok.
      destruct Ha as [->|Ha]; tauto. }
  assert (Hpt : bytes_ok (ssb ++ bl)) by (apply bytes_ok_app; auto).
  destruct (encrypt_spec L c mk iv _ HL Dmk Hiv Fiv Hpt) as (ct & E1 & E2 & E3).
  assert (Mem : forall s k t, fst (protect L s k t) = t) by (intros [] ? ?; reflexivity).
  assert (Pack : pack3 L h (Some (MkPay None t)) = (Some (MkPay None t), Ok (ssb ++ bl))).
  { unfold pack3. cbn [p_hdr p_xml]. rewrite V2, V3, Hl. change (32 =? 32)%nat with true. cbv iota.
    specialize (Mem s (hbytes Ex_Key h H_pskey) t). destruct (protect L s (hbytes Ex_Key h H_pskey) t) as [m w]. cbn [fst snd] in *. subst m w.
    cbn [bind]. rewrite V4. cbn [bind]. rewrite Ebl. reflexivity. }
  assert (Hmod : hcipher h = Ok C_aes -> (List.length ct mod 16 = 0)%nat).
  { intros HA. assert (c = C_aes) by congruence. subst c. cbn [raw_decrypt] in E3. unfold aes_cbc_decrypt in E3. bok E3 u Eu.
    destruct (Nat.eqb_spec (List.length ct mod 16) 0) as [A|]; [exact A|discriminate]. }
  exists (h_raw h ++ ct), ct. split; [|split; [reflexivity|split; [exact Hmod|]]].
  - rewrite Ed. unfold build_kdbx. cbn [k_hdr k_body]. replace (h_major h =? 3) with true by (rewrite Hm; reflexivity).
    unfold build3. rewrite Htk. cbn [bind]. rewrite Hmk. cbn [bind]. cbn [b_payload b_tkey b_mkey]. rewrite Pack. cbn [bind].
    rewrite C0. cbn [bind]. rewrite I0. cbn [bind]. rewrite E1. reflexivity.
  - intros Hmo cr2 trail Hc2 Htk2 Htr. specialize (X2 (proj2 (protect_fits _ _ _ _ _ HL P) Hmo)).
    exists (MkKdbx h (Some (MkBody tk mk (Some (MkPay None (view_for s t)))))), s.
    split; [|split; [reflexivity|split; [reflexivity|split; [unfold stream_id_of; rewrite Hk; exact V3|split; [exact V3|split; [reflexivity|split; [unfold edited; rewrite Hk; reflexivity|split; [discriminate|rewrite Hk; discriminate]]]]]]]].
    unfold p_kdbx. rewrite <- app_assoc, (header_again _ _ _ _ Hh). cbn [bind].
    replace (h_major h =? 3) with true by (rewrite Hm; reflexivity). unfold body3. rewrite Htk2. cbn [bind]. rewrite Hmk. cbn [bind]. rewrite Hc2, C0. cbn [bind].
    rewrite I0. cbn [bind]. rewrite payload_decrypt_raw.
    assert (R : exists p, raw_decrypt L c mk iv (ct ++ trail) = Ok p).
    { destruct c; cbn [raw_decrypt] in *.
      - unfold aes_cbc_decrypt in *. bok E3 u Eu. rewrite Eu. cbn [bind]. destruct (Nat.eqb_spec (List.length ct mod 16) 0) as [A|]; [|discriminate].
        rewrite app_length. specialize (Htr C0). replace ((List.length ct + List.length trail) mod 16 =? 0)%nat with true; [eauto|].
        symmetry. apply Nat.eqb_eq. lia.
      - bok E3 u Eu. rewrite Eu. cbn [bind]. eauto.
      - bok E3 u Eu. rewrite Eu. cbn [bind]. eauto. }
    destruct R as (p & R). rewrite R. cbn [bind]. destruct (raw_mono _ _ _ _ _ _ _ _ E3 R) as (e & ->).
    assert (U : unpack3 L h (ssb ++ bl) = Ok (MkPay None (view_for s t))).
    { unfold unpack3. rewrite p_bytes_app by exact Hssb. cbn [bind]. rewrite V2. cbn [bind]. rewrite str_eqb_refl, V3. cbn [bind]. rewrite V4. cbn [bind].
      rewrite <- (app_nil_r bl), (blocks3_build _ _ _ _ HL Ebl). cbn [bind]. rewrite Cinv. cbn [bind]. rewrite X2. cbn [bind]. rewrite Un. reflexivity. }
    assert (U2 : exists w, unpad_for c (pad_for c (ssb ++ bl) ++ e) = (ssb ++ bl) ++ w).
    { assert (Len : (List.length (ssb ++ bl) <= List.length (unpad_for c (pad_for c (ssb ++ bl) ++ e)))%nat \/ e = []).
      { destruct c; cbn [unpad_for pad_for]; [| |left; rewrite (app_length (ssb ++ bl) e); lia].
        all: destruct e as [|e0 e]; [right; reflexivity|left].
        all: unfold try_unpad; destruct (pkcs7_unpad _) as [q|] eqn:Eq; [|destruct (pad_length (ssb ++ bl)) as (n & Hn & -> & _); rewrite !app_length; lia].
        all: apply unpad_inv in Eq; destruct (pad_length q) as (n & Hn & Eqq & Hqm); rewrite Eqq in Eq;
             destruct (pad_length (ssb ++ bl)) as (m & Hm' & Epp & Hpm); apply (f_equal (@List.length N)) in Eq; rewrite Epp in Eq;
             rewrite (app_length q), repeat_length in Eq; rewrite (app_length (_ ++ _) (e0 :: e)) in Eq;
             rewrite (app_length (ssb ++ bl) (repeat (N.of_nat m) m)), repeat_length in Eq;
             cbn [List.length] in Eq; revert Eq Hqm Hpm; generalize (List.length (ssb ++ bl)), (List.length q), (List.length e); clear - Hn Hm';
             intros a1 a2 a3 Eq Hqm Hpm; lia. }
      destruct Len as [Len| ->].
      - destruct (unpad_for_prefix c (pad_for c (ssb ++ bl) ++ e)) as (w & Ew).
        assert (Hpf : exists z, pad_for c (ssb ++ bl) = (ssb ++ bl) ++ z).
        { destruct c; cbn [pad_for]; [| |exists []; rewrite app_nil_r; reflexivity]; unfold pkcs7_pad; eauto. }
        destruct Hpf as (z & Ez). rewrite Ez in Ew at 1. rewrite <- app_assoc in Ew.
        set (u := unpad_for c (pad_for c (ssb ++ bl) ++ e)) in *.
        exists (skipn (List.length (ssb ++ bl)) u). apply (f_equal (firstn (List.length (ssb ++ bl)))) in Ew.
        rewrite firstn_app, firstn_all, Nat.sub_diag in Ew. cbn [firstn] in Ew. rewrite app_nil_r in Ew.
        rewrite firstn_app in Ew. replace (List.length (ssb ++ bl) - List.length u)%nat with 0%nat in Ew by lia. cbn [firstn] in Ew. rewrite app_nil_r in Ew.
        rewrite Ew at 1. symmetry. apply firstn_skipn.
      - rewrite app_nil_r, unpad_pad_for. exists []. rewrite app_nil_r. reflexivity. }
    destruct U2 as (w & ->). rewrite (unpack3_more _ _ _ w _ U). reflexivity.
Qed.
Lemma save3 L cr data k r cr' tk bins t :
  lib_ok L -> bytes_ok data -> c_dec cr = true -> p_kdbx L cr data = Ok (k, r) -> h_major (k_hdr k) = 3 ->
  transformed3 L cr' (k_hdr k) = Ok tk -> xml_ok t = true -> fits3 L (edited k bins t) ->
  exists out ct, build_kdbx L cr' (edited k bins t) = (out, Ok tt, edited k bins t) /\ out = h_raw (k_hdr k) ++ ct /\
    (hcipher (k_hdr k) = Ok C_aes -> (List.length ct mod 16 = 0)%nat) /\
    (modest t = true -> forall cr2 trail, c_dec cr2 = true -> transformed3 L cr2 (k_hdr k) = Ok tk ->
      (hcipher (k_hdr k) = Ok C_aes -> (List.length trail mod 16 = 0)%nat) ->
      exists k2 s, p_kdbx L cr2 (out ++ trail) = Ok (k2, []) /\ k_hdr k2 = k_hdr k /\ bins_of k2 = [] /\
        stream_id_of k = Ok s /\ stream_id_of k2 = Ok s /\ doc_of k2 = Some (view_for s t)).
Proof.
  intros HL Hd Hc H Hm Htk Ht Hfit. destruct (save3_full L cr data k r cr' tk bins t HL Hd Hc H Hm Htk Ht Hfit) as (out & ct & E & E2 & E3 & G). exists out, ct. split; [exact E|]. split; [exact E2|]. split; [exact E3|].
  intros Hmo cr2 trail Hc2 Htk2 Htr. destruct (G Hmo cr2 trail Hc2 Htk2 Htr) as (k2 & s & H1 & H2 & H3 & H4 & H5 & H6 & _). exists k2, s. auto 10.
Qed.
(** AES: a partial block behind the file makes opening fail. *)
Lemma trail3_aes L cr data h q trail tk : c_dec cr = true -> p_header data = Ok (h, q) -> h_major h = 3 ->
  hcipher h = Ok C_aes -> transformed3 L cr h = Ok tk -> (exists mk, master_key L h tk = Ok mk) -> (exists iv, hbytes Ex_Attribute h H_iv = Ok iv) ->
  ((List.length q + List.length trail) mod 16 <> 0)%nat -> p_kdbx L cr (data ++ trail) = Err Ex_Value.
Proof.
  intros Hc Hh Hm HA Htk (mk & Hmk) (iv & Hiv) Hl. destruct (header_local_raw _ _ _ Hh) as [-> G]. rewrite <- app_assoc.
  unfold p_kdbx. rewrite G. cbn [bind]. rewrite Hm. change (3 =? 3) with true. cbv iota. unfold body3. rewrite Htk. cbn [bind]. rewrite Hmk. cbn [bind].
  rewrite Hc, HA. cbn [bind]. rewrite Hiv. cbn [bind payload_decrypt]. unfold aes_cbc_decrypt. unfold aes_cbc_new. destruct (_ && _); cbn [bind]; [|reflexivity].
  rewrite app_length. replace ((List.length q + List.length trail) mod 16 =? 0)%nat with false; [reflexivity|]. symmetry. apply Nat.eqb_neq, Hl.
Qed.
