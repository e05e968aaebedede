(** The statements of Prop_Kdbx.v in the vocabulary "opened / saved", derived from the lemmas. *)
From Coq Require Import ZifyBool ZifyNat ZifyN.
From Verif Require Import Base Base64 PyStr Utf8 Xml Xml_facts Cbc Cbc_facts Lib Keyfile Construct Kdbx KdbxSpec Kdbx_facts Kdbx_rt Kdbx_inner Kdbx_file Kdbx_v3 Kdbx_auth.

(** [k] is what opening [data] (bytes) with credentials [cr] and decrypt=True gave. *)
Definition opened (v : N) (L : lib) (cr : creds) (data : bytes) (k : kdbx) : Prop :=
  bytes_ok data /\ c_dec cr = true /\ h_major (k_hdr k) = v /\ exists r, open_kdbx L cr data = Ok (k, r).
(** Saving [k] with credentials [cr] wrote [out] and did not raise. *)
Definition saves (L : lib) (cr : creds) (k : kdbx) (out : bytes) : Prop := exists k', build_kdbx L cr k = (out, Ok tt, k').

Lemma open_p L cr d x : open_kdbx L cr d = Ok x <-> p_kdbx L cr d = Ok x.
Proof. unfold open_kdbx. destruct (p_kdbx L cr d); split; congruence. Qed.

Lemma claim_c09 L cr data k cr' tk bins t :
  lib_ok L -> opened 4 L cr data k -> transformed4 L cr' (k_hdr k) = Ok tk ->
  xml_ok t = true -> modest t = true -> Forall small bins -> fits4 L (edited k bins t) tk ->
  exists out, saves L cr' (edited k bins t) out /\
    forall cr2 trail, c_dec cr2 = true -> transformed4 L cr2 (k_hdr k) = Ok tk ->
      exists k2 s, open_kdbx L cr2 (out ++ trail) = Ok (k2, trail) /\ k_hdr k2 = k_hdr k /\ bins_of k2 = bins /\
        stream_id_of k = Ok s /\ stream_id_of k2 = Ok s /\ doc_of k2 = Some (view_for s t).
Proof.
  intros HL (Hd & Hc & Hm & r & Ho) Ht Hx Hmo Hb Hf. apply open_p in Ho.
  destruct (save4 L cr data k r cr' tk bins t HL Hd Hc Ho Hm Ht Hx Hb Hf) as (out & E & G). exists out. split; [exists (edited k bins t); exact E|].
  intros cr2 trail Hc2 Ht2. destruct (G Hmo cr2 trail Hc2 Ht2) as (k2 & s & P & R). exists k2, s. split; [apply open_p, P|exact R].
Qed.
Lemma claim_c10 L cr data k cr' tk bins t :
  lib_ok L -> opened 3 L cr data k -> transformed3 L cr' (k_hdr k) = Ok tk -> xml_ok t = true -> modest t = true -> fits3 L (edited k bins t) ->
  exists out, saves L cr' (edited k bins t) out /\
    forall cr2, c_dec cr2 = true -> transformed3 L cr2 (k_hdr k) = Ok tk ->
      exists k2 s, open_kdbx L cr2 out = Ok (k2, []) /\ k_hdr k2 = k_hdr k /\
        stream_id_of k = Ok s /\ stream_id_of k2 = Ok s /\ doc_of k2 = Some (view_for s t).
Proof.
  intros HL (Hd & Hc & Hm & r & Ho) Ht Hx Hmo Hf. apply open_p in Ho.
  destruct (save3 L cr data k r cr' tk bins t HL Hd Hc Ho Hm Ht Hx Hf) as (out & ct & E & _ & _ & G). exists out. split; [exists (edited k bins t); exact E|].
  intros cr2 Hc2 Ht2. destruct (G Hmo cr2 [] Hc2 Ht2 ltac:(reflexivity)) as (k2 & s & P & R1 & R2 & R3). rewrite app_nil_r in P. exists k2, s. split; [apply open_p, P|auto].
Qed.
(** Saving what was read back changes nothing any more. *)
Lemma kids_nil {A B} (f : A -> B) l : map f l = [] <-> l = [].
Proof. destruct l; cbn; split; congruence. Qed.
Lemma norm_text_kids text (k1 k2 : list xml) : (k1 = [] <-> k2 = []) -> norm_text text k1 = norm_text text k2.
Proof.
  intros H. destruct text as [s|]; [|reflexivity]. cbn [norm_text]. unfold keep_text. destruct s; [reflexivity|].
  destruct k1, k2; try reflexivity; exfalso; [destruct H as [H _]; specialize (H eq_refl)|destruct H as [_ H]; specialize (H eq_refl)]; discriminate.
Qed.
Lemma norm_text_idem text k : norm_text (norm_text text k) k = norm_text text k.
Proof.
  destruct text as [s|]; [|reflexivity]. cbn [norm_text]. destruct (keep_text s (forallb blank_char s) k) as [u|] eqn:E; [|reflexivity].
  assert (u = s).
  { unfold keep_text in E. destruct s; [discriminate|]. destruct k; [congruence|]. destruct (forallb blank_char _); congruence. }
  subst u. cbn [norm_text]. exact E.
Qed.
Lemma reload_view_idem t : reload_view (reload_view t) = reload_view t.
Proof.
  induction t as [tag attrs text kids IH] using xml_ind'. cbn [reload_view]. f_equal.
  - destruct (markedb tag attrs); [destruct text as [[|]|]; reflexivity|].
    rewrite (norm_text_kids _ (map reload_view kids) kids) by apply kids_nil. apply norm_text_idem.
  - rewrite map_map. apply map_ext_in. rewrite Forall_forall in IH. auto.
Qed.

Lemma claim_c11 L cr data k : lib_ok L -> opened 4 L cr data k ->
  exists tk seed bs rest, transformed4 L cr (k_hdr k) = Ok tk /\ hbytes Ex_Attribute (k_hdr k) H_seed = Ok seed /\
    data = h_raw (k_hdr k) ++ sha256 L (h_raw (k_hdr k)) ++ head_tag L seed tk (h_raw (k_hdr k)) ++ frames (tagged L seed tk 0 bs) ++ rest /\
    ends_empty bs /\ Forall (fun b => lenN b < 2 ^ 32) bs.
Proof.
  intros HL (Hd & Hc & Hm & r & Ho). apply open_p in Ho. destruct (accepted4 _ _ _ _ _ HL Hd Hc Ho Hm) as (tk & seed & bs & A & B & C & D & E & _).
  exists tk, seed, bs, r. auto.
Qed.
Lemma frames_inj : forall l1 l2 r1 r2, Forall (fun tb => List.length (fst tb) = 32%nat /\ lenN (snd tb) < 2 ^ 32) l1 -> Forall (fun tb => List.length (fst tb) = 32%nat /\ lenN (snd tb) < 2 ^ 32) l2 ->
  ends_empty (map snd l1) -> ends_empty (map snd l2) -> frames l1 ++ r1 = frames l2 ++ r2 -> l1 = l2 /\ r1 = r2.
Proof.
  assert (Hc : forall (a b c d : bytes), List.length a = List.length b -> a ++ c = b ++ d -> a = b /\ c = d).
  { induction a as [|x a IH]; intros [|y b] c d Hl E; try discriminate; [auto|]. cbn in E. injection E as -> E. injection Hl as Hl. destruct (IH _ _ _ Hl E) as [-> ->]. auto. }
  induction l1 as [|[t1 b1] l1 IH]; intros l2 r1 r2 F1 F2 E1 E2 E.
  - destruct E1 as ([|? ?] & X1 & _); discriminate.
  - destruct l2 as [|[t2 b2] l2]; [destruct E2 as ([|? ?] & X1 & _); discriminate|].
    inversion F1 as [|? ? [T1 B1] F1']; inversion F2 as [|? ? [T2 B2] F2']; subst. cbn [fst snd] in *.
    unfold frames in E. cbn [map List.concat fst snd] in E. rewrite <- !app_assoc in E.
    apply Hc in E; [|congruence]. destruct E as [-> E]. apply Hc in E; [|reflexivity]. destruct E as [Hlen E].
    assert (Hl : lenN b1 = lenN b2).
    { rewrite <- !le32_enc in Hlen. apply (f_equal le_dec) in Hlen. rewrite !le_dec_enc in Hlen by assumption. exact Hlen. }
    apply Hc in E; [|unfold lenN in Hl; lia]. destruct E as [-> E].
    destruct E1 as (m1 & X1 & G1), E2 as (m2 & X2 & G2). cbn [map snd] in X1, X2.
    destruct m1 as [|y1 m1], m2 as [|y2 m2]; cbn [app] in X1, X2.
    + injection X1 as -> X1. injection X2 as X2. destruct l1; [|discriminate]. destruct l2; [|discriminate]. auto.
    + injection X1 as -> X1. injection X2 as X2 _. inversion G2; congruence.
    + injection X2 as -> X2. injection X1 as X1 _. inversion G1; congruence.
    + injection X1 as <- X1. injection X2 as <- X2. inversion G1; inversion G2; subst.
      destruct (IH l2 r1 r2 F1' F2') as [-> ->]; auto; [exists m1; auto|exists m2; auto].
Qed.
Lemma tagged_snd L seed tk bs : forall i, map snd (tagged L seed tk i bs) = bs.
Proof. induction bs; intros i; cbn [tagged map snd]; [reflexivity|]. now rewrite IHbs. Qed.
Lemma tagged_lens L seed tk bs : lib_ok L -> Forall (fun b => lenN b < 2 ^ 32) bs -> forall i, Forall (fun tb => List.length (fst tb) = 32%nat /\ lenN (snd tb) < 2 ^ 32) (tagged L seed tk i bs).
Proof. intros HL. induction 1; intros i; cbn [tagged]; constructor; [|apply IHForall]. cbn [fst snd]. split; [apply (ok_hmac _ HL)|assumption]. Qed.
(** Two accepted files with the same credentials, header and block tags: the same content, or a collision. *)
Lemma claim_c11_binding L cr d1 d2 k1 k2 raw hh tags1 tags2 r1 r2 : lib_ok L -> opened 4 L cr d1 k1 -> opened 4 L cr d2 k2 ->
  h_raw (k_hdr k1) = raw -> h_raw (k_hdr k2) = raw ->
  List.length hh = 64%nat -> d1 = raw ++ hh ++ frames tags1 ++ r1 -> d2 = raw ++ hh ++ frames tags2 ++ r2 -> map fst tags1 = map fst tags2 ->
  Forall (fun tb => List.length (fst tb) = 32%nat /\ lenN (snd tb) < 2 ^ 32) tags1 -> Forall (fun tb => List.length (fst tb) = 32%nat /\ lenN (snd tb) < 2 ^ 32) tags2 ->
  ends_empty (map snd tags1) -> ends_empty (map snd tags2) ->
  k1 = k2 \/ exists key m m', m <> m' /\ hmac256 L key m = hmac256 L key m'.
Proof.
  intros HL (Hd1 & Hc & Hm1 & q1 & O1) (Hd2 & _ & Hm2 & q2 & O2) Hr1 Hr2 Hh E1 E2 Et F1 F2 N1 N2. apply open_p in O1, O2.
  assert (Hhdr : k_hdr k1 = k_hdr k2).
  { destruct (p_kdbx_inv4 _ _ _ _ _ O1 Hm1) as (x1 & b1 & A1 & _). destruct (p_kdbx_inv4 _ _ _ _ _ O2 Hm2) as (x2 & b2 & A2 & _).
    apply (header_again _ _ _ []) in A1. apply (header_again _ _ _ []) in A2. rewrite Hr1 in A1. rewrite Hr2 in A2. congruence. }
  destruct (accepted4 _ _ _ _ _ HL Hd1 Hc O1 Hm1) as (tk & seed & bs1 & T1 & S1 & D1 & B1 & G1 & c1 & comp1 & iv1 & p1 & x1 & pl1 & C1).
  destruct (accepted4 _ _ _ _ _ HL Hd2 Hc O2 Hm2) as (tk2 & seed2 & bs2 & T2 & S2 & D2 & B2 & G2 & c2 & comp2 & iv2 & p2 & x2 & pl2 & C2).
  rewrite <- Hhdr in *. assert (tk2 = tk) by congruence. subst tk2. assert (seed2 = seed) by congruence. subst seed2.
  assert (Hlen : List.length (sha256 L raw ++ head_tag L seed tk raw) = 64%nat).
  { rewrite app_length. destruct (ok_sha256 _ HL raw) as [-> _]. unfold head_tag. destruct (ok_hmac _ HL (auth_key L seed tk [255; 255; 255; 255; 255; 255; 255; 255]) raw) as [-> _]. reflexivity. }
  assert (Hc64 : forall (a b c d : bytes), List.length a = List.length b -> a ++ c = b ++ d -> c = d).
  { induction a as [|x a IH]; intros [|y b] c d Hl E; try discriminate; [auto|]. cbn in E. injection E as -> E. injection Hl as Hl. eauto. }
  rewrite Hr1 in D1, D2. rewrite E1 in D1. rewrite E2 in D2. apply app_inv_head in D1, D2.
  rewrite (app_assoc (sha256 L raw)) in D1, D2. apply Hc64 in D1; [|congruence]. apply Hc64 in D2; [|congruence].
  apply frames_inj in D1; [|assumption|apply tagged_lens; assumption|assumption|rewrite tagged_snd; assumption].
  apply frames_inj in D2; [|assumption|apply tagged_lens; assumption|assumption|rewrite tagged_snd; assumption].
  destruct D1 as [-> _], D2 as [-> _].
  destruct (tagged_collision L seed tk bs1 bs2 0 B1 B2 G1 G2 Et) as [->|X]; [left|right; exact X].
  destruct C1 as (a1 & a2 & a3 & a4 & a5 & a6 & a7), C2 as (b1 & b2 & b3 & b4 & b5 & b6 & b7).
  assert (c2 = c1) by congruence. subst c2. assert (comp2 = comp1) by congruence. subst comp2. assert (iv2 = iv1) by congruence. subst iv2.
  assert (p2 = p1) by congruence. subst p2. assert (x2 = x1) by congruence. subst x2. assert (pl2 = pl1) by congruence. subst pl2.
  destruct k1, k2; cbn in *. congruence.
Qed.
Lemma claim_c12 L cr cr2 data k tk2 : lib_ok L -> opened 4 L cr data k -> c_dec cr2 = true -> transformed4 L cr2 (k_hdr k) = Ok tk2 ->
  open_kdbx L cr2 data = Err Ex_Credentials \/
  exists tk seed, transformed4 L cr (k_hdr k) = Ok tk /\ hbytes Ex_Attribute (k_hdr k) H_seed = Ok seed /\
    head_tag L seed tk2 (h_raw (k_hdr k)) = head_tag L seed tk (h_raw (k_hdr k)).
Proof. intros HL (Hd & Hc & Hm & r & Ho) Hc2 Ht. apply open_p in Ho. exact (wrong_creds4 L cr cr2 data k r tk2 HL Hd Hc Hc2 Ho Hm Ht). Qed.
Definition with_dec (cr : creds) : creds := MkCreds (c_pw cr) (c_kf cr) (c_tk cr) true.
Lemma transformed4_dec L cr h : transformed4 L (with_dec cr) h = transformed4 L cr h. Proof. reflexivity. Qed.
Lemma transformed3_dec L cr h : transformed3 L (with_dec cr) h = transformed3 L cr h. Proof. reflexivity. Qed.
Lemma claim_c13 L cr data k cr' tk bins t :
  lib_ok L -> opened 4 L cr data k -> transformed4 L cr' (k_hdr k) = Ok tk ->
  xml_ok t = true -> modest t = true -> Forall small bins -> fits4 L (edited k bins t) tk ->
  exists out, saves L cr' (edited k bins t) out /\
    forall cr2 pre suf, c_dec cr2 = true -> out = pre ++ suf -> suf <> [] -> exists e, open_kdbx L cr2 pre = Err e.
Proof.
  intros HL Ho Ht Hx Hmo Hb Hf. destruct (claim_c09 L cr data k cr' tk bins t HL Ho Ht Hx Hmo Hb Hf) as (out & S & G). exists out. split; [exact S|].
  intros cr2 pre suf Hc2 E Hs. destruct (G (with_dec cr') [] eq_refl Ht) as (k2 & s & P & Hk & _). rewrite app_nil_r, E in P. apply open_p in P.
  destruct Ho as (_ & _ & Hm & _). exact (truncated4 L (with_dec cr') cr2 pre suf k2 HL eq_refl Hc2 P ltac:(rewrite Hk; exact Hm) Hs).
Qed.
Lemma claim_c14 L cr data k cr' tk bins t :
  lib_ok L -> opened 3 L cr data k -> transformed3 L cr' (k_hdr k) = Ok tk -> xml_ok t = true -> modest t = true -> fits3 L (edited k bins t) ->
  exists out s, saves L cr' (edited k bins t) out /\ stream_id_of k = Ok s /\
    forall cr2 pre suf k2 r2, c_dec cr2 = true -> transformed3 L cr2 (k_hdr k) = Ok tk -> out = pre ++ suf ->
      open_kdbx L cr2 pre = Ok (k2, r2) -> k_hdr k2 = k_hdr k /\ doc_of k2 = Some (view_for s t).
Proof.
  intros HL Ho Ht Hx Hmo Hf. destruct (claim_c10 L cr data k cr' tk bins t HL Ho Ht Hx Hmo Hf) as (out & S & G).
  destruct (G (with_dec cr') eq_refl Ht) as (k1 & s & _ & _ & Hs & _). exists out, s. split; [exact S|]. split; [exact Hs|].
  intros cr2 pre suf k2 r2 Hc2 Ht2 E P. destruct (G cr2 Hc2 Ht2) as (k3 & s3 & P3 & Hk3 & Hs3 & _ & D3). assert (s3 = s) by congruence. subst s3.
  apply open_p in P, P3. rewrite E in P3.
  assert (Hm2 : h_major (k_hdr k2) = 3).
  { assert (X : exists q2, p_header pre = Ok (k_hdr k2, q2)).
    { unfold p_kdbx in P. bokp P h q F. exists q. rewrite F. do 2 f_equal. destruct (h_major h =? 3); [bokp P b0 q0 G0; injection P as <- _; reflexivity|].
      destruct (h_major h =? 4); [bokp P b0 q0 G0|]; injection P as <- _; reflexivity. }
    destruct X as (q2 & X). destruct (header_local_raw _ _ _ X) as [Ep Gp]. specialize (Gp (q2 ++ suf)). rewrite app_assoc, <- Ep in Gp.
    unfold p_kdbx in P3. rewrite Gp in P3. cbn [bind] in P3. destruct Ho as (_ & _ & Hm & _). rewrite <- Hk3 in Hm.
    destruct (h_major (k_hdr k2) =? 3) eqn:E3; [apply N.eqb_eq, E3|]. destruct (h_major (k_hdr k2) =? 4); [bokp P3 b0 q0 G0|]; injection P3 as <- _; exact Hm. }
  pose proof (prefix3 L cr2 pre suf k2 k3 r2 [] Hc2 P Hm2 P3) as ->. auto.
Qed.
Lemma claim_c15 L cr data k rest : open_kdbx L cr data = Ok (k, rest) -> h_major (k_hdr k) = 4 ->
  exists c, data = c ++ rest /\ forall more, open_kdbx L cr (c ++ more) = Ok (k, more).
Proof.
  intros H Hm. apply open_p in H. destruct (p_kdbx_local4 _ _ _ _ _ H Hm) as (c & E & G). exists c. split; [exact E|]. intros more. apply open_p, G.
Qed.
Lemma claim_c16 L cr data k cr' tk bins t :
  lib_ok L -> opened 3 L cr data k -> transformed3 L cr' (k_hdr k) = Ok tk -> xml_ok t = true -> modest t = true -> fits3 L (edited k bins t) ->
  exists out s, saves L cr' (edited k bins t) out /\ stream_id_of k = Ok s /\
    forall cr2 trail, c_dec cr2 = true -> transformed3 L cr2 (k_hdr k) = Ok tk ->
      (hcipher (k_hdr k) = Ok C_aes -> (List.length trail mod 16 = 0)%nat) ->
      exists k2, open_kdbx L cr2 (out ++ trail) = Ok (k2, []) /\ k_hdr k2 = k_hdr k /\ doc_of k2 = Some (view_for s t).
Proof.
  intros HL (Hd & Hc & Hm & r & Ho) Ht Hx Hmo Hf. apply open_p in Ho.
  destruct (save3 L cr data k r cr' tk bins t HL Hd Hc Ho Hm Ht Hx Hf) as (out & ct & E & _ & _ & G).
  destruct (G Hmo (with_dec cr') [] eq_refl Ht ltac:(reflexivity)) as (k1 & s & _ & _ & _ & Hs & _). exists out, s.
  split; [exists (edited k bins t); exact E|]. split; [exact Hs|].
  intros cr2 trail Hc2 Ht2 Ha. destruct (G Hmo cr2 trail Hc2 Ht2 Ha) as (k2 & s2 & P & R1 & R2 & R3 & R4 & R5). assert (s2 = s) by congruence. subst s2.
  exists k2. split; [apply open_p, P|auto].
Qed.
(** With AES any other number of trailing bytes makes the file unreadable. *)
Lemma claim_c16_aes L cr data k cr' tk bins t :
  lib_ok L -> opened 3 L cr data k -> transformed3 L cr' (k_hdr k) = Ok tk -> xml_ok t = true -> fits3 L (edited k bins t) -> hcipher (k_hdr k) = Ok C_aes ->
  exists out, saves L cr' (edited k bins t) out /\
    forall cr2 trail, c_dec cr2 = true -> transformed3 L cr2 (k_hdr k) = Ok tk -> (List.length trail mod 16 <> 0)%nat ->
      open_kdbx L cr2 (out ++ trail) = Err Ex_Value.
Proof.
  intros HL (Hd & Hc & Hm & r & Ho) Ht Hx Hf HA. apply open_p in Ho.
  destruct (save3 L cr data k r cr' tk bins t HL Hd Hc Ho Hm Ht Hx Hf) as (out & ct & E & Eo & Hmod & G). exists out. split; [exists (edited k bins t); exact E|].
  intros cr2 trail Hc2 Ht2 Hl. specialize (Hmod HA).
  destruct (p_kdbx_inv3 _ _ _ _ _ Ho Hm) as (q1 & b1 & Hh & B1 & _). destruct (body3_inv _ _ _ _ _ _ Hc B1) as (tk1 & mk1 & c1 & iv1 & p1 & pl1 & X1 & X2 & X3 & X4 & _).
  unfold open_kdbx. rewrite (trail3_aes L cr2 out (k_hdr k) ct trail tk); try assumption; [reflexivity| | | |].
  - rewrite Eo. exact (header_again _ _ _ _ Hh).
  - unfold master_key in *. bok X2 sd Esd. rewrite Esd. cbn [bind]. eauto.
  - eauto.
  - rewrite Nat.add_mod, Hmod by discriminate. rewrite Nat.add_0_l, Nat.mod_mod by discriminate. exact Hl.
Qed.
Lemma claim_c18 L cr data k r cr' bins t : open_kdbx L cr data = Ok (k, r) ->
  exists rest rest', data = h_raw (k_hdr k) ++ rest /\ fst (fst (build_kdbx L cr' (edited k bins t))) = h_raw (k_hdr k) ++ rest' /\
    p_header data = Ok (k_hdr k, rest) /\ p_header (fst (fst (build_kdbx L cr' (edited k bins t)))) = Ok (k_hdr k, rest').
Proof.
  intros H. apply open_p in H.
  assert (X : exists q2, p_header data = Ok (k_hdr k, q2)).
  { unfold p_kdbx in H. bokp H h q F. exists q. rewrite F. do 2 f_equal. destruct (h_major h =? 3); [bokp H b0 q0 G0; injection H as <- _; reflexivity|].
    destruct (h_major h =? 4); [bokp H b0 q0 G0|]; injection H as <- _; reflexivity. }
  destruct X as (q & X). destruct (header_local_raw _ _ _ X) as [E G]. destruct (build_raw L cr' (edited k bins t)) as (rest' & Er). change (k_hdr (edited k bins t)) with (k_hdr k) in Er.
  exists q, rest'. split; [exact E|]. split; [exact Er|]. split; [exact X|]. rewrite Er. apply G.
Qed.
(** What a save encrypts: the document with every protected text sealed, everything else as in memory. *)
Definition sealed_doc (L : lib) (s : streamid) (t t' : xml) : Prop :=
  public_part t' = public_part t /\ exists key ks, stream_ks L s key = Ok ks /\ sealed ks 0 (protected_texts t) (protected_texts t').
Lemma claim_c30_4 L cr k out t s : saves L cr k out -> h_major (k_hdr k) = 4 -> doc_of k = Some t -> stream_id_of k = Ok s -> xml_ok t = true -> s <> S_none ->
  exists t' hb comp c seed tk iv ct bl, sealed_doc L s t t' /\
    hcipher (k_hdr k) = Ok c /\ hcomp (k_hdr k) = Ok comp /\ hbytes Ex_Attribute (k_hdr k) H_iv = Ok iv /\ hbytes Ex_Attribute (k_hdr k) H_seed = Ok seed /\
    transformed4 L cr (k_hdr k) = Ok tk /\ payload_encrypt L c (sha256 L (seed ++ tk)) iv (compress L comp (hb ++ xml_ser L t')) = Ok ct /\
    build_blocks4 L seed tk ct = Ok bl /\ out = h_raw (k_hdr k) ++ sha256 L (h_raw (k_hdr k)) ++ head_tag L seed tk (h_raw (k_hdr k)) ++ bl.
Proof.
  intros (k' & H) Hv Hdoc Hs Hok Hn. unfold doc_of, stream_id_of in *. destruct (k_body k) as [b|] eqn:Eb; [|discriminate].
  destruct (build4_plain L cr k out k' b H Hv Eb) as (pl & ih & s' & hb & t' & comp & c & mk & iv & ct & bl & tk & seed & A1 & A2 & A3 & A4 & A5 & A6 & A7 & A8 & A9 & A10 & A11 & A12 & A13 & A14).
  rewrite A1, A2 in *. injection Hdoc as <-. assert (s' = s) by congruence. subst s' mk.
  destruct (protect_written _ _ _ _ _ Hok Hn A5) as (P & key & ks & _ & K & Sl).
  exists t', hb, comp, c, seed, tk, iv, ct, bl. split; [split; [exact P|eauto]|]. tauto.
Qed.
Lemma claim_c30_3 L cr k out t s : saves L cr k out -> h_major (k_hdr k) = 3 -> doc_of k = Some t -> hpsid (k_hdr k) = Ok s -> xml_ok t = true -> s <> S_none ->
  exists t' comp c seed tk iv ssb bl ct, sealed_doc L s t t' /\
    hcipher (k_hdr k) = Ok c /\ hcomp (k_hdr k) = Ok comp /\ hbytes Ex_Attribute (k_hdr k) H_iv = Ok iv /\ hbytes Ex_Attribute (k_hdr k) H_seed = Ok seed /\
    transformed3 L cr (k_hdr k) = Ok tk /\ build_blocks3 L (compress L comp (xml_ser L t')) = Ok bl /\
    payload_encrypt L c (sha256 L (seed ++ tk)) iv (ssb ++ bl) = Ok ct /\ out = h_raw (k_hdr k) ++ ct.
Proof.
  intros (k' & H) Hv Hdoc Hs Hok Hn. unfold doc_of in *. destruct (k_body k) as [b|] eqn:Eb; [|discriminate].
  destruct (build3_plain L cr k out k' b H Hv Eb) as (pl & s' & t' & comp & c & mk & iv & ct & bl & tk & seed & ssb & A1 & A2 & A3 & A4 & A5 & A6 & A7 & A8 & A9 & A10 & A11 & A12 & A13).
  rewrite A1 in *. injection Hdoc as <-. assert (s' = s) by congruence. subst s' mk.
  destruct (protect_written _ _ _ _ _ Hok Hn A3) as (P & key & ks & _ & K & Sl).
  exists t', comp, c, seed, tk, iv, ssb, bl, ct. split; [split; [exact P|eauto]|]. tauto.
Qed.

(** *** Layout of the written blocks *)
(** [d] cut into blocks of 1 MiB (the last one possibly shorter), then the empty block. *)
Definition mib_blocks (d : bytes) (bs : list bytes) : Prop :=
  exists l, bs = l ++ [[]] /\ List.concat l = d /\ Forall (fun b => b <> []) l /\
    (l = [] \/ exists l' z, l = l' ++ [z] /\ Forall (fun b => lenN b = 2 ^ 20) l' /\ lenN z <= 2 ^ 20).
Lemma takeN_full n : forall d : bytes, n < lenN d -> lenN (takeN n d) = n.
Proof.
  intros d. revert n. induction d as [|x d IH]; intros n H; cbn [takeN]; [rewrite lenN_nil in H; lia|].
  destruct (N.eqb_spec n 0) as [->|]; [reflexivity|]. rewrite lenN_cons in *. rewrite IH by lia. lia.
Qed.
Lemma dropN_nil n : forall d : bytes, lenN d <= n -> dropN n d = [].
Proof.
  intros d. revert n. induction d as [|x d IH]; intros n H; cbn [dropN]; [reflexivity|]. rewrite lenN_cons in H.
  destruct (N.eqb_spec n 0) as [->|]; [lia|]. apply IH. lia.
Qed.
Lemma dropN_lenN n : forall d : bytes, lenN (dropN n d) = lenN d - n.
Proof.
  intros d. revert n. induction d as [|x d IH]; intros n; cbn [dropN]; [reflexivity|].
  destruct (N.eqb_spec n 0) as [->|]; [lia|]. rewrite IH, lenN_cons. lia.
Qed.
Lemma takeN_le n (d : bytes) : lenN (takeN n d) <= n. Proof. revert n. induction d as [|x d IH]; intros n; cbn [takeN]; [rewrite lenN_nil; lia|]. destruct (N.eqb_spec n 0); [rewrite lenN_nil; lia|]. rewrite lenN_cons. specialize (IH (n - 1)). lia. Qed.
Lemma chunks_mib f : forall d, (List.length d <= f)%nat -> mib_blocks d (chunks f d).
Proof.
  induction f as [|f IH]; intros d H.
  - destruct d; [|cbn in H; lia]. exists []. cbn. auto.
  - destruct d as [|x d]; [exists []; cbn; auto|]. change (chunks (S f) (x :: d)) with (takeN block_size (x :: d) :: chunks f (dropN block_size (x :: d))).
    set (D := x :: d) in *. assert (HD : 0 < lenN D) by (unfold D; rewrite lenN_cons; lia).
    assert (Hlen : (List.length (dropN block_size D) <= f)%nat).
    { pose proof (dropN_lenN block_size D) as Y. assert (block_size = 1048576) by reflexivity. unfold lenN in *. set (q := List.length (dropN block_size D)) in *. set (w := List.length D) in *. clearbody q w. lia. }
    assert (Hne : takeN block_size D <> []) by (unfold D, block_size; cbn; discriminate).
    destruct (IH _ Hlen) as (l & E & C & F & S). exists (takeN block_size D :: l). split; [rewrite E; reflexivity|]. split; [cbn [List.concat]; rewrite C; apply takeN_dropN|]. split; [constructor; assumption|]. right.
    destruct (N.le_gt_cases (lenN D) block_size) as [Hs|Hs].
    + rewrite (dropN_nil _ _ Hs) in *. exists [], (takeN block_size D). split; [|split; [constructor|apply takeN_le]].
      destruct l as [|y l]; [reflexivity|]. exfalso. inversion F; subst. cbn [List.concat] in C. apply app_eq_nil in C. tauto.
    + destruct S as [->|(l' & z & -> & S1 & S2)].
      * exfalso. cbn [List.concat] in C. apply (f_equal lenN) in C. rewrite dropN_lenN in C. change (lenN (@nil N)) with 0 in C. clear - C Hs. lia.
      * exists (takeN block_size D :: l'), z. split; [reflexivity|]. split; [|exact S2]. constructor; [|exact S1]. change (2 ^ 20) with block_size. apply takeN_full, Hs.
Qed.
Lemma to_chunks_mib d : mib_blocks d (to_chunks d).
Proof. apply chunks_mib. constructor. Qed.
Lemma enc4_frames L seed tk l : forall i, enc_seq (enc_block4 L seed tk) i l = frames (tagged L seed tk i l).
Proof.
  induction l as [|b l IH]; intros i; [reflexivity|].
  change (enc_seq (enc_block4 L seed tk) i (b :: l)) with (enc_block4 L seed tk i b ++ enc_seq (enc_block4 L seed tk) (i + 1) l). rewrite IH.
  unfold enc_block4. rewrite block_tag_model, le32_enc. unfold frames. cbn [tagged map List.concat fst snd]. reflexivity.
Qed.
Lemma layout4 L seed tk d out : build_blocks4 L seed tk d = Ok out -> exists bs, mib_blocks d bs /\ out = frames (tagged L seed tk 0 bs).
Proof. unfold build_blocks4. cbv zeta. destruct (_ <? _); [discriminate|]. intros [= <-]. exists (to_chunks d). split; [apply to_chunks_mib|apply enc4_frames]. Qed.
(** KDBX3: numbered blocks with the SHA-256 of their data, then a block of size 0 with 32 zero bytes for a hash. *)
Lemma enc3_frames L l : Forall (fun b => b <> []) l -> forall i, enc_seq (enc_block3 L) i (l ++ [[]]) = frames3 L i l ++ frame3 (i + lenN l) (repeat 0 32) [].
Proof.
  induction 1 as [|b l Hb Hl IH]; intros i.
  - cbn [app frames3 enc_seq]. rewrite lenN_nil, N.add_0_r, app_nil_r. unfold enc_block3, frame3. rewrite !le32_enc. reflexivity.
  - cbn [app]. change (enc_seq (enc_block3 L) i (b :: l ++ [[]])) with (enc_block3 L i b ++ enc_seq (enc_block3 L) (i + 1) (l ++ [[]])). rewrite IH. cbn [frames3]. rewrite lenN_cons, <- app_assoc.
    replace (i + (1 + lenN l)) with (i + 1 + lenN l) by lia. f_equal. unfold enc_block3, frame3. rewrite !le32_enc. destruct b; [congruence|reflexivity].
Qed.
Lemma layout3 L d out : build_blocks3 L d = Ok out -> exists l, mib_blocks d (l ++ [[]]) /\ out = frames3 L 0 l ++ frame3 (lenN l) (repeat 0 32) [].
Proof.
  unfold build_blocks3. cbv zeta. destruct (_ <? _); [discriminate|]. intros [= <-]. destruct (to_chunks_mib d) as (l & E & R). exists l.
  split; [exists l; auto|]. rewrite E. destruct R as (_ & F & _). rewrite enc3_frames by exact F. rewrite N.add_0_l. reflexivity.
Qed.
(** *** Unsupported major versions *)
Lemma unsupported_version L cr d h r : p_header d = Ok (h, r) -> h_major h <> 3 -> h_major h <> 4 ->
  open_kdbx L cr d = Ok (MkKdbx h None, r) /\ forall cr', build_kdbx L cr' (MkKdbx h None) = (h_raw h, Ok tt, MkKdbx h None).
Proof.
  intros H H3 H4. split; [|reflexivity]. unfold open_kdbx, p_kdbx. rewrite H. cbn [bind].
  destruct (N.eqb_spec (h_major h) 3); [congruence|]. destruct (N.eqb_spec (h_major h) 4); [congruence|]. reflexivity.
Qed.
(** *** decrypt=False *)
Lemma claim_c20_4 L cr data k pw kf tk0 tk q : lib_ok L -> opened 4 L cr data k -> transformed4 L (MkCreds pw kf tk0 false) (k_hdr k) = Ok tk ->
  (* the header and its hash are those of the file, everything behind is arbitrary *)
  exists b, open_kdbx L (MkCreds pw kf tk0 false) (firstn (List.length (h_raw (k_hdr k)) + 32) data ++ q) = Ok (MkKdbx (k_hdr k) (Some b), q) /\ b_payload b = None.
Proof.
  intros HL Ho Ht. pose proof Ho as (Hd & Hc & Hm & r & Hop). destruct (claim_c11 _ _ _ _ HL Ho) as (tk1 & seed & bs & rest & _ & Hs & E & _).
  assert (E2 : firstn (List.length (h_raw (k_hdr k)) + 32) data = h_raw (k_hdr k) ++ sha256 L (h_raw (k_hdr k))).
  { rewrite E, firstn_app_2. f_equal. destruct (ok_sha256 _ HL (h_raw (k_hdr k))) as [Hl _]. rewrite firstn_app, Hl, Nat.sub_diag, firstn_O, app_nil_r. apply firstn_all2. now rewrite Hl. }
  rewrite E2, <- app_assoc. apply open_p in Hop. destruct (p_kdbx_inv4 _ _ _ _ _ Hop Hm) as (x & b & A & _).
  eexists. split; [apply (nodecrypt4 L (MkCreds pw kf tk0 false) (k_hdr k) tk seed q HL eq_refl); [split; eauto|exact Ht|exact Hs]|reflexivity].
Qed.
Lemma claim_c20_3 L cr data k pw kf tk0 tk q : opened 3 L cr data k -> transformed3 L (MkCreds pw kf tk0 false) (k_hdr k) = Ok tk ->
  exists b, open_kdbx L (MkCreds pw kf tk0 false) (h_raw (k_hdr k) ++ q) = Ok (MkKdbx (k_hdr k) (Some b), q) /\ b_payload b = None.
Proof.
  intros (Hd & Hc & Hm & r & Hop) Ht. apply open_p in Hop. destruct (p_kdbx_inv3 _ _ _ _ _ Hop Hm) as (q1 & b1 & Hh & B1 & _).
  destruct (body3_inv _ _ _ _ _ _ Hc B1) as (tk1 & mk1 & c1 & iv1 & p1 & pl1 & X1 & X2 & _). unfold master_key in X2. bok X2 sd Esd.
  eexists. split; [apply (nodecrypt3 L (MkCreds pw kf tk0 false) (k_hdr k) tk sd q eq_refl); [split; eauto|exact Ht|exact Esd]|reflexivity].
Qed.
(** *** KDBX3 error classes *)
Lemma claim_c17_start3 L cr h tk seed c iv q p ssb : c_dec cr = true -> header3 h -> transformed3 L cr h = Ok tk -> hbytes Ex_Attribute h H_seed = Ok seed ->
  hcipher h = Ok c -> hbytes Ex_Attribute h H_iv = Ok iv -> payload_decrypt L c (sha256 L (seed ++ tk)) iv q = Ok p ->
  hbytes Ex_Attribute h H_ssb = Ok ssb -> (32 <= List.length p)%nat -> firstn 32 p <> ssb -> open_kdbx L cr (h_raw h ++ q) = Err Ex_Credentials.
Proof.
  intros Hc Hh Ht Hs Hci Hi Hp Hb Hl Hne. assert (Hmk : master_key L h tk = Ok (sha256 L (seed ++ tk))) by (unfold master_key; rewrite Hs; reflexivity).
  rewrite (open3_payload L cr h tk _ c iv q p Hc Hh Ht Hmk Hci Hi Hp). pose proof (bad_start3 L h ssb p Hb Hl Hne) as B. destruct (unpack3 L h p); [destruct B|rewrite B; reflexivity].
Qed.
Lemma claim_c17_block3 L cr h tk seed c iv q ssb s comp bs hash b r : lib_ok L -> c_dec cr = true -> header3 h -> transformed3 L cr h = Ok tk -> hbytes Ex_Attribute h H_seed = Ok seed ->
  hcipher h = Ok c -> hbytes Ex_Attribute h H_iv = Ok iv -> payload_decrypt L c (sha256 L (seed ++ tk)) iv q = Ok (ssb ++ frames3 L 0 bs ++ frame3 (lenN bs) hash b ++ r) ->
  hbytes Ex_Attribute h H_ssb = Ok ssb -> List.length ssb = 32%nat -> hpsid h = Ok s -> hcomp h = Ok comp ->
  Forall (fun b => b <> [] /\ lenN b < 2 ^ 32) bs -> lenN bs < 2 ^ 32 -> List.length hash = 32%nat -> lenN b < 2 ^ 32 -> b <> [] -> hash <> sha256 L b ->
  open_kdbx L cr (h_raw h ++ q) = Err Ex_PayloadChecksum.
Proof.
  intros HL Hc Hh Ht Hs Hci Hi Hp H1 H2 H3 H4 H5 H6 H7 H8 H9 H10. assert (Hmk : master_key L h tk = Ok (sha256 L (seed ++ tk))) by (unfold master_key; rewrite Hs; reflexivity).
  rewrite (open3_payload L cr h tk _ c iv q _ Hc Hh Ht Hmk Hci Hi Hp).
  pose proof (bad_block3 L h ssb s comp bs hash b r HL H1 H2 H3 H4 H5 H6 H7 H8 H9 H10) as B. destruct (unpack3 L h _); [destruct B|rewrite B; reflexivity].
Qed.
Lemma protected_cycle L s key t t' : lib_ok L -> xml_ok t = true -> modest t = true -> s <> S_none -> snd (protect L s key t) = Ok t' ->
  (let* u := xml_parse L (xml_ser L t') in unprotect L s key u) = Ok (reload_view t).
Proof.
  intros HL Hx Hmo Hs H. destruct (protect_unprotect L s key t t' HL Hx H) as [Hok U]. destruct (ok_xml _ HL t' Hok) as [_ E]. rewrite (E (proj2 (protect_fits _ _ _ _ _ HL H) Hmo)). cbn [bind]. rewrite U.
  destruct s; [congruence|reflexivity..].
Qed.
