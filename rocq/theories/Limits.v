(** Documents that the XML parser refuses: a file saved with one does not open.  Facts about the model of Kdbx.v and Object.v; models no code of its own. *)
From Coq Require Import ZifyBool ZifyNat ZifyN.
From Verif Require Import Base Base64 PyStr Utf8 Uuid Xml Xml_facts Xml_sound Cbc Cbc_facts Tree XPath Time FindSpec Db Api ApiSpec StructSpec IntegritySpec Lib Keyfile Construct Kdbx KdbxSpec Kdbx_facts Kdbx_rt Kdbx_inner Kdbx_file Kdbx_v3 Kdbx_auth Kdbx_claims Save Save_facts Object Heap Prim Struct Struct_add Clean ObjectSpec Object_facts Object_meta.

(** The parser of [L] refuses, with the exception [e], every text written for a document nested deeper than [D]. *)
Definition refuses_deep (L : lib) (D : N) (e : exn) : Prop := forall t, xml_ok t = true -> D < xml_depth t -> xml_parse L (xml_ser L t) = Err e.

Lemma open4_refused L cr data k r cr' tk bins t D e out k' :
  lib_ok L -> bytes_ok data -> c_dec cr = true -> p_kdbx L cr data = Ok (k, r) -> h_major (k_hdr k) = 4 ->
  transformed4 L cr' (k_hdr k) = Ok tk -> xml_ok t = true -> Forall small bins -> build_kdbx L cr' (edited k bins t) = (out, Ok tt, k') ->
  refuses_deep L D e -> D < xml_depth t -> forall cr2 trail, c_dec cr2 = true -> transformed4 L cr2 (k_hdr k) = Ok tk -> p_kdbx L cr2 (out ++ trail) = Err e.
Proof.
  intros HL Hd Hc H Hm Htk Ht Hb Bu Rf Hdeep cr2 trail Hc2 Htk2. apply p_kdbx_inv4 in H; [|exact Hm]. destruct H as (r1 & b & Hh & Hbody & Hk).
  set (h := k_hdr k) in *. pose proof (local_ok _ _ _ _ local_header Hd Hh) as Hr1.
  destruct (body4_inv _ _ _ _ _ _ Hc Hbody) as (tk0 & mk0 & comp & c & seed & ct0 & iv & p0 & x0 & q & hm0 & pl & Q). destruct Q as [Q1 Q2 Q3 Qd Q4 Q5 Q6 Q7 Q8 Q9 Q10 Q11 ->].
  assert (Hiv : bytes_ok iv) by exact (hbytes_ok _ _ _ _ _ _ Hd Hh Q8).
  assert (Hq : bytes_ok q).
  { rewrite Qd in Hr1. apply bytes_ok_app in Hr1. destruct Hr1 as [_ X]. apply bytes_ok_app in X. apply X. }
  assert (Hct0 : bytes_ok ct0).
  { unfold blocks4 in Q7. bokp Q7 l r2 E. injection Q7 as <- <-. unfold p_repeat in E. apply concat_ok.
    eapply until_forall; [| |exact Hq|exact E]; [intros; apply local_block4|]. intros i d a r0 Hd0 Ha. unfold block4 in Ha.
    bokp Ha hh rr E1. pose proof (local_ok _ _ _ _ (local_bytes 32) Hd0 E1) as Hrr. bokp Ha bb rr2 E2. apply p_prefixed_inv in E2; [|exact Hrr].
    destruct E2 as (b & Eb & Hbb & _). injection Eb as ->. destruct (str_eqb _ _); [|discriminate]. injection Ha as <- <-. exact Hbb. }
  pose proof (payload_decrypt_ok _ _ _ _ _ _ HL Hiv Hct0 Q9) as Hp0. pose proof (decompress_ok _ _ _ _ HL Hp0 Q10) as Hx0.
  destruct (unpack4_inv _ _ _ Hx0 Q11) as (ih & rx & s & t0 & t1 & U1 & U2 & U3 & U4 & -> & Hih).
  set (ih' := MkInner bins (ih_items ih)).
  assert (Hih' : ih_ok ih') by (destruct Hih as (_ & I2); split; [exact Hb|exact I2]).
  destruct (inner_build ih' Hih') as (hb & B1 & B2 & B3).
  destruct (unprotect_protect_ok L s (i_key ih) t0 t1 t HL Ht U4) as (t' & P).
  destruct (protect_unprotect _ _ _ _ _ HL Ht P) as [Ht' Un].
  destruct (ok_xml _ HL t' Ht') as [X1 _].
  assert (X2 : xml_parse L (xml_ser L t') = Err e) by (apply Rf; [exact Ht'|]; now rewrite (proj1 (protect_fits _ _ _ _ _ HL P))).
  assert (Hpay : bytes_ok (hb ++ xml_ser L t')) by (apply bytes_ok_app; auto).
  destruct (compress_ok L comp _ HL Hpay) as [Cok Cinv].
  assert (Hmk : exists mk, master_key L h tk = Ok mk) by (unfold master_key; rewrite Q6; cbn [bind]; eauto). destruct Hmk as (mk & Hmk).
  assert (Hhm : exists hm, header_hmac L h tk = Ok hm) by (unfold header_hmac; rewrite Q6; cbn [bind]; eauto). destruct Hhm as (hm & Hhm).
  pose proof (master_digest _ _ _ _ HL Hmk) as Dmk. pose proof (master_digest _ _ _ _ HL Q2) as Dmk0.
  pose proof (decrypt_iv _ _ _ _ _ _ (proj1 Dmk0) Q9) as Fiv.
  destruct (encrypt_spec L c mk iv _ HL Dmk Hiv Fiv Cok) as (ct & E1 & E2 & E3).
  assert (Mem : forall s k t, fst (protect L s k t) = t) by (intros [] ? ?; reflexivity).
  assert (Pack : pack4 L (Some (MkPay (Some ih') t)) = (Some (MkPay (Some ih') t), Ok (hb ++ xml_ser L t'))).
  { unfold pack4. cbn [p_hdr p_xml]. rewrite B1. change (i_stream ih') with (i_stream ih). rewrite U2. change (i_key ih') with (i_key ih).
    specialize (Mem s (i_key ih) t). destruct (protect L s (i_key ih) t) as [m w]. cbn [fst snd] in *. subst m w. reflexivity. }
  assert (Ed : edited k bins t = MkKdbx h (Some (MkBody tk0 mk0 (Some (MkPay (Some ih') t))))) by (unfold edited; rewrite Hk; reflexivity).
  assert (Hbl : exists bl, build_blocks4 L seed tk ct = Ok bl /\ out = (h_raw h ++ sha256 L (h_raw h) ++ hm) ++ bl).
  { rewrite Ed in Bu. unfold build_kdbx in Bu. cbn [k_hdr k_body] in Bu. rewrite Hm in Bu. cbn [N.eqb Pos.eqb] in Bu.
    unfold build4 in Bu. rewrite Htk in Bu. cbn [bind] in Bu. rewrite Hmk in Bu. cbn [bind] in Bu. rewrite Q6 in Bu. cbn [bind] in Bu. rewrite Hhm in Bu. cbn [bind] in Bu.
    cbn [b_payload b_tkey b_mkey] in Bu. rewrite Pack in Bu. cbn [bind] in Bu. rewrite Q4 in Bu. cbn [bind] in Bu. rewrite Q5 in Bu. cbn [bind] in Bu. rewrite Q8 in Bu. cbn [bind] in Bu.
    rewrite E1 in Bu. cbn [bind] in Bu. destruct (build_blocks4 L seed tk ct) as [bl|x]; [|discriminate Bu]. exists bl. split; [reflexivity|]. now injection Bu as <- _. }
  destruct Hbl as (bl & Ebl & ->).
  assert (Lhm : lenN hm = 32) by (unfold header_hmac in Hhm; bok Hhm s2 Es2; injection Hhm as <-; apply (digest_len 32), (ok_hmac _ HL)).
  unfold p_kdbx. rewrite <- !app_assoc. rewrite (header_again _ _ _ _ Hh). cbn [bind]. rewrite Hm. cbn [N.eqb Pos.eqb].
  unfold body4. rewrite Htk2. cbn [bind]. rewrite Hmk. cbn [bind]. rewrite p_bytes_app by (apply (digest_len 32), (ok_sha256 _ HL)). cbn [bind]. rewrite str_eqb_refl, Hc2.
  rewrite p_bytes_app by exact Lhm. cbn [bind]. rewrite Hhm. cbn [bind]. rewrite str_eqb_refl, Q4. cbn [bind]. rewrite Q5. cbn [bind]. rewrite Q6. cbn [bind].
  rewrite (blocks4_build _ _ _ _ _ _ HL Ebl). cbn [bind]. rewrite Q8. cbn [bind]. rewrite (decrypt_encrypt _ _ _ _ _ _ HL Dmk Hiv Fiv Cok E1). cbn [bind]. rewrite Cinv. cbn [bind].
  unfold unpack4. rewrite B3. cbn [bind]. change (i_stream ih') with (i_stream ih). rewrite U2. cbn [bind]. rewrite X2. reflexivity.
Qed.
Lemma open3_refused L cr data k r cr' tk bins t D e out k' :
  lib_ok L -> bytes_ok data -> c_dec cr = true -> p_kdbx L cr data = Ok (k, r) -> h_major (k_hdr k) = 3 ->
  transformed3 L cr' (k_hdr k) = Ok tk -> xml_ok t = true -> build_kdbx L cr' (edited k bins t) = (out, Ok tt, k') ->
  refuses_deep L D e -> D < xml_depth t -> forall cr2, c_dec cr2 = true -> transformed3 L cr2 (k_hdr k) = Ok tk -> p_kdbx L cr2 out = Err e.
Proof.
  intros HL Hd Hc H Hm Htk Ht Bu Rf Hdeep cr2 Hc2 Htk2. apply p_kdbx_inv3 in H; [|exact Hm]. destruct H as (r1 & b & Hh & Hbody & Hk).
  set (h := k_hdr k) in *.
  destruct (body3_inv _ _ _ _ _ _ Hc Hbody) as (tk0 & mk0 & c & iv & p0 & pl & T0 & M0 & C0 & I0 & R0 & U0 & -> & ->).
  assert (Hiv : bytes_ok iv) by exact (hbytes_ok _ _ _ _ _ _ Hd Hh I0).
  unfold unpack3 in U0. bokp U0 s0 q0 V1. bok U0 ssb V2. destruct (str_eqb_spec s0 ssb) as [->|]; [|discriminate].
  bok U0 s V3. bok U0 comp V4. bokp U0 b0 q1 V5. bok U0 x V6. bok U0 t0 V7. bok U0 t1 V8. injection U0 as <-.
  apply p_bytes_inv in V1. destruct V1 as [_ Hssb].
  assert (Hssb' : bytes_ok ssb) by exact (hbytes_ok _ _ _ _ _ _ Hd Hh V2).
  assert (Hl : List.length ssb = 32%nat) by (unfold lenN in Hssb; lia).
  destruct (unprotect_protect_ok L s (hbytes Ex_Key h H_pskey) t0 t1 t HL Ht V8) as (t' & P).
  destruct (protect_unprotect _ _ _ _ _ HL Ht P) as [Ht' Un].
  destruct (ok_xml _ HL t' Ht') as [X1 _].
  assert (X2 : xml_parse L (xml_ser L t') = Err e) by (apply Rf; [exact Ht'|]; now rewrite (proj1 (protect_fits _ _ _ _ _ HL P))).
  destruct (compress_ok L comp _ HL X1) as [Cok Cinv].
  assert (Hmk : exists mk, master_key L h tk = Ok mk).
  { unfold master_key in *. bok M0 sd Esd. rewrite Esd. cbn [bind]. eauto. }
  destruct Hmk as (mk & Hmk).
  pose proof (master_digest _ _ _ _ HL Hmk) as Dmk. pose proof (master_digest _ _ _ _ HL M0) as Dmk0.
  assert (Fiv : iv_fits c iv).
  { apply (decrypt_iv L c mk0 iv r1 (unpad_for c p0) (proj1 Dmk0)). rewrite payload_decrypt_raw, R0. reflexivity. }
  assert (Ed : edited k bins t = MkKdbx h (Some (MkBody tk0 mk0 (Some (MkPay None t))))) by (unfold edited; rewrite Hk; reflexivity).
  assert (Mem : forall s k t, fst (protect L s k t) = t) by (intros [] ? ?; reflexivity).
  rewrite Ed in Bu. unfold build_kdbx in Bu. cbn [k_hdr k_body] in Bu. rewrite Hm in Bu. cbn [N.eqb Pos.eqb] in Bu.
  unfold build3 in Bu. rewrite Htk in Bu. cbn [bind] in Bu. rewrite Hmk in Bu. cbn [bind] in Bu. cbn [b_payload b_tkey b_mkey] in Bu.
  unfold pack3 in Bu. cbn [p_hdr p_xml] in Bu. rewrite V2, V3, Hl in Bu. change (32 =? 32)%nat with true in Bu. cbv iota in Bu.
  specialize (Mem s (hbytes Ex_Key h H_pskey) t). destruct (protect L s (hbytes Ex_Key h H_pskey) t) as [m w]. cbn [fst snd] in *. subst m w.
  cbn [bind] in Bu. rewrite V4 in Bu. cbn [bind] in Bu. destruct (build_blocks3 L (compress L comp (xml_ser L t'))) as [bl|x'] eqn:Ebl; [|cbn [bind] in Bu; discriminate Bu].
  cbn [bind] in Bu. rewrite C0 in Bu. cbn [bind] in Bu. rewrite I0 in Bu. cbn [bind] in Bu.
  assert (Hbl : bytes_ok bl).
  { unfold build_blocks3 in Ebl. cbv zeta in Ebl. destruct (to_chunks_spec (compress L comp (xml_ser L t'))) as (l & E & C & F). rewrite E in Ebl.
    destruct (_ <? _); [discriminate|]. injection Ebl as <-. apply enc_seq_ok. intros j a Ha. unfold enc_block3.
    apply bytes_ok_app. split; [apply le_enc_ok|]. apply bytes_ok_app. split.
    - unfold block3_hash. destruct a; [|apply (ok_sha256 _ HL)]. unfold bytes_ok. rewrite Forall_forall. intros y Hy. apply repeat_spec in Hy. subst. reflexivity.
    - apply bytes_ok_app. split; [apply le_enc_ok|]. apply in_app_or in Ha. destruct Ha as [Ha|[<-|[]]]; [|constructor].
      rewrite <- C in Cok. clear - Cok Ha. induction l as [|y l IH]; [destruct Ha|]. cbn [List.concat] in Cok. apply bytes_ok_app in Cok.
      destruct Ha as [->|Ha]; tauto. }
  assert (Hpt : bytes_ok (ssb ++ bl)) by (apply bytes_ok_app; auto).
  destruct (encrypt_spec L c mk iv _ HL Dmk Hiv Fiv Hpt) as (ct & E1 & E2 & E3). rewrite E1 in Bu. injection Bu as <- _.
  unfold p_kdbx. rewrite (header_again _ _ _ _ Hh). cbn [bind]. rewrite Hm. cbn [N.eqb Pos.eqb].
  unfold body3. rewrite Htk2. cbn [bind]. rewrite Hmk. cbn [bind]. rewrite Hc2, C0. cbn [bind]. rewrite I0. cbn [bind]. rewrite (decrypt_encrypt _ _ _ _ _ _ HL Dmk Hiv Fiv Hpt E1). cbn [bind].
  unfold unpack3. rewrite p_bytes_app by exact Hssb. cbn [bind]. rewrite V2. cbn [bind]. rewrite str_eqb_refl, V3. cbn [bind]. rewrite V4. cbn [bind].
  rewrite <- (app_nil_r bl), (blocks3_build _ _ _ _ HL Ebl). cbn [bind]. rewrite Cinv. cbn [bind]. rewrite X2. reflexivity.
Qed.
Lemma build_refused L k d cr key D e out : lib_ok L -> sound_db L k d -> (if h_major (k_hdr k) =? 3 then transformed3 L cr (k_hdr k) else transformed4 L cr (k_hdr k)) = Ok key ->
  refuses_deep L D e -> (forall t, document d = Some t -> D < xml_depth t) -> fst (build_kdbx L cr (current (k, Some d))) = (out, Ok tt) ->
  forall cr2, c_dec cr2 = true -> (if h_major (k_hdr k) =? 3 then transformed3 L cr2 (k_hdr k) else transformed4 L cr2 (k_hdr k)) = Ok key -> open_kdbx L cr2 out = Err (classify e).
Proof.
  intros HL ((v & cr0 & data & Hv & (Hdat & Hc0 & Hm & r0 & Op)) & (W & C) & S & _ & _) Hk Rf Hdeep Bu cr2 Hc2 Hk2. apply open_p in Op. unfold current, document in *. destruct (d_forest d) as [|t F] eqn:EF; [destruct W; congruence|].
  assert (Hx : xml_ok (erase t) = true) by (now inversion C). specialize (Hdeep _ eq_refl). destruct (build_kdbx L cr (edited k (d_bins d) (erase t))) as [[o rs] k'] eqn:Eb. cbn [fst] in Bu. injection Bu as -> ->.
  unfold open_kdbx. destruct Hv as [-> | ->]; rewrite Hm in *; cbn [N.eqb Pos.eqb] in *.
  - now rewrite (open3_refused L cr0 data k r0 cr key (d_bins d) (erase t) D e out k' HL Hdat Hc0 Op Hm Hk Hx Eb Rf Hdeep cr2 Hc2 Hk2).
  - rewrite <- (app_nil_r out). now rewrite (open4_refused L cr0 data k r0 cr key (d_bins d) (erase t) D e out k' HL Hdat Hc0 Op Hm Hk Hx S Eb Rf Hdeep cr2 [] Hc2 Hk2).
Qed.
(** Saved without an error, and then not opened with the credentials that belong to it. *)
Lemma saved_lost L R Zl lost e w o fn tk p tmp k d key w' D x : lib_ok L -> xml_sound L -> refuses_deep L D x -> reached L R Zl lost o -> o_kdbx o = Some (k, Some d) -> (forall t, document d = Some t -> D < xml_depth t) ->
  goes_to o fn p -> apart p tmp (o_keyfile o) -> env_ok e -> key_for L w (o_password o) (o_keyfile o) tk (k_hdr k) = Ok key ->
  save L e w o fn tk = (Ok tt, o, w') ->
  forall w2 pw2 kf2 tk2, w_fs w2 p = w_fs w' p -> key_for L w2 pw2 kf2 tk2 (k_hdr k) = Ok key -> exists w3, open_db L lost w2 (F_path p) pw2 kf2 tk2 true = (Err (classify x), w3).
Proof.
  intros HL HX Rf Hr Ec Hdeep G A He Hk Sv w2 pw2 kf2 tk2 Hw Hk2. pose proof (reached_sound L R Zl lost o HL HX Hr) as So. unfold sound in So. rewrite Ec in So.
  rewrite (save_path L e w o fn tk p _ tmp G Ec A) in Sv. cbv zeta in Sv. destruct (fst (build_kdbx L (MkCreds (o_password o) (kf_src w (o_keyfile o)) tk true) (current (k, Some d)))) as [out rs] eqn:Eb. cbn [fst snd] in Sv. injection Sv as Sr Sw. destruct A as (Ht & Hne & _).
  assert (rs = Ok tt) as ->. { unfold save_ops in Sr. rewrite Ht in Sr. destruct (e_open e); [|discriminate Sr]. unfold limited in Sr. destruct rs as [[]|y]; [reflexivity|]. exfalso. destruct (e_room e) as [rm|]; [destruct (_ <=? _)%nat|]; cbn in Sr; discriminate Sr. }
  destruct (save_success e (w_fs w) p tmp out He Ht Hne (Ok tt) Sr) as (_ & F & _). subst w'. rewrite kf_after_fs in Hw. cbn [with_fs w_fs] in Hw. rewrite F in Hw.
  pose proof (build_refused L k d _ key D x out HL So Hk Rf Hdeep Eb (MkCreds pw2 (kf_src w2 kf2) tk2 true) eq_refl Hk2) as P.
  unfold open_db, read. cbn [source]. rewrite Hw, P. eexists. reflexivity.
Qed.

(** *** Any nesting can be reached by adding groups *)
(** [j] is [n] levels below [i]. *)
Inductive chain (L : nat -> option row) : nat -> nat -> nat -> Prop :=
| chain_here i r : L i = Some r -> chain L i O i
| chain_down i r k n j : L i = Some r -> In k (r_kids r) -> chain L k n j -> chain L i (S n) j.
Lemma chain_snoc L i n j r k rk : chain L i n j -> L j = Some r -> In k (r_kids r) -> L k = Some rk -> chain L i (S n) k.
Proof. induction 1 as [i r0 E|i r0 c n j E Hc H IH]; intros Hj Hk Ek; [econstructor; [exact Hj|exact Hk|econstructor; exact Ek]|econstructor; [exact E|exact Hc|now apply IH]]. Qed.
Lemma below_chain L i j : (forall x r k, L x = Some r -> In k (r_kids r) -> exists rk, L k = Some rk) -> below L i j -> exists n, chain L i n j.
Proof. intros Hkid. induction 1 as [r E|j k r H IH E Hk]; [exists O; econstructor; exact E|]. destruct IH as (n & C). destruct (Hkid _ _ _ E Hk) as (rk & Ek). exists (S n). now apply (chain_snoc L i n j r k rk). Qed.
Lemma max_In l : forall x, In x l -> x <= fold_right N.max 0 l.
Proof. induction l as [|y l IH]; intros x Hx; [destruct Hx|]. cbn [fold_right]. destruct Hx as [->|Hx]; [lia|]. specialize (IH x Hx). lia. Qed.
Lemma chain_depth d n : wf d -> forall t j, In t (elements (d_forest d)) -> chain (look (d_forest d)) (eid t) n j -> N.of_nat n < xml_depth (erase t).
Proof.
  intros W. assert (U : unique (d_forest d)) by apply W. induction n as [|n IH]; intros t j Ht C; destruct t as [i g a x k]; cbn [erase xml_depth].
  - lia.
  - inversion C as [|? r c ? ? Er Hc Hn]; subst. rewrite (look_self _ _ U Ht) in Er. injection Er as <-. cbn [row_of r_kids ekids] in Hc. apply in_map_iff in Hc as (e & <- & He).
    specialize (IH e j (elements_kid _ _ _ Ht He) Hn). assert (X : xml_depth (erase e) <= fold_right N.max 0 (map xml_depth (map erase k))) by (apply max_In, in_map, in_map, He). lia.
Qed.
Lemma chain_added d d' p e t i n j : wf d' -> added d d' p e -> In t (elements (d_forest d')) -> eid t = e -> chain (look (d_forest d)) i n j -> chain (look (d_forest d')) i n j.
Proof.
  intros W (_ & O & P) Ht Et. destruct O as (_ & _ & _ & _ & _ & O). assert (Row : forall x r, look (d_forest d) x = Some r -> exists r', look (d_forest d') x = Some r' /\ incl (r_kids r) (r_kids r')).
  { intros x r E. destruct (Nat.eq_dec x p) as [->|N]; [exists (with_kids (r_kids r ++ [e]) r); split; [now apply P|cbn; apply incl_appl, incl_refl]|]. exists r. split; [apply O; [exact E|cbn; intuition congruence]|apply incl_refl]. }
  induction 1 as [i r E|i r c n j E Hc H IH]; destruct (Row _ _ E) as (r' & E' & I); econstructor; eauto.
Qed.
Lemma calls_app R Zl a : forall b o, calls R Zl (a ++ b) o = calls R Zl b (calls R Zl a o).
Proof. induction a as [|c a IH]; intros b o; cbn [app calls]; [reflexivity|apply IH]. Qed.
(** The database nested more and more: each call adds a group to the one added before. *)
Lemma nest_calls R Zl C cur k : uuid_ok (uuid1 C) -> forall n o d g, o_kdbx o = Some (k, Some d) -> wf d -> in_doc d g -> encode_time (v4 d) (now C) = Ok cur ->
  exists l d' r m j, Forall (fun c => exists p, c = (C, Op_add_group p (Some $"g") None None)) l /\ List.length l = n /\ o_kdbx (calls R Zl l o) = Some (k, Some d') /\ wf d' /\ in_doc d' j /\ v4 d' = v4 d /\
    hd_error (roots (d_forest d')) = Some r /\ chain (look (d_forest d')) r m j /\ (n <= m)%nat.
Proof.
  intros HU. induction n as [|n IH]; intros o d g Ek W Hg Ec.
  - destruct Hg as (r & Hr & B). destruct (below_chain (look (d_forest d)) r g) as (m & Cm); [|exact B|].
    { intros x rx c Ex Hc. destruct (look_has d x rx W Ex) as (t & Ht & <- & <-). cbn [row_of r_kids] in Hc. apply in_map_iff in Hc as (e & <- & He). exists (row_of e). apply look_self; [apply W|]. exact (elements_kid _ _ _ Ht He). }
    exists [], d, r, m, g. split; [constructor|]. split; [reflexivity|]. split; [exact Ek|]. split; [exact W|]. split; [now exists r|]. split; [reflexivity|]. split; [exact Hr|]. split; [exact Cm|lia].
  - destruct (IH o d g Ek W Hg Ec) as (l & d1 & r & m & p & F & Hl & E1 & W1 & D1 & V1 & R1 & C1 & Hm).
    destruct (add_group_claim C d1 p (Some $"g") None None cur W1 D1 HU) as (e & t & d2 & E2 & W2 & A2 & T2 & Et & D2 & _); [exists $"g"; split; reflexivity|exact I|exact I|now rewrite V1|].
    exists (l ++ [(C, Op_add_group p (Some $"g") None None)]), d2, r, (S m), e. split; [apply Forall_app; split; [exact F|constructor; [now exists p|constructor]]|]. split; [rewrite app_length, Hl; cbn; lia|].
    split; [rewrite calls_app; cbn [calls fst snd]; unfold call; rewrite E1; unfold payload_of; rewrite E1; cbn [IntegritySpec.run]; unfold quiet, mbind; rewrite E2; reflexivity|]. split; [exact W2|].
    split; [apply D2; right; rewrite <- Et; destruct t; cbn; auto|]. pose proof A2 as (_ & (M1 & M2 & _ & _ & R2 & _) & P2). split; [unfold v4 in *; now rewrite M1|]. split; [now rewrite R2|]. split; [|lia].
    pose proof (chain_added d1 d2 p e t r m p W2 A2 T2 Et C1) as C2. assert (Hp : exists rp, look (d_forest d1) p = Some rp). { clear - C1. induction C1 as [i rr E|]; [now exists rr|assumption]. }
    destruct Hp as (rp & Ep). apply (chain_snoc _ r m p (with_kids (r_kids rp ++ [e]) rp) e (row_of t)); [exact C2|now apply P2|cbn; apply in_or_app; right; left; reflexivity|]. rewrite <- Et. apply look_self; [apply W2|exact T2].
Qed.
Lemma any_depth L R Zl lost C cur o k d g : lib_ok L -> xml_sound L -> reached L R Zl lost o -> o_kdbx o = Some (k, Some d) -> in_doc d g -> uuid_ok (uuid1 C) -> encode_time (v4 d) (now C) = Ok cur ->
  forall n, exists l d', Forall (fun c => exists p, c = (C, Op_add_group p (Some $"g") None None)) l /\ reached L R Zl lost (calls R Zl l o) /\ o_kdbx (calls R Zl l o) = Some (k, Some d') /\
    o_password (calls R Zl l o) = o_password o /\ o_keyfile (calls R Zl l o) = o_keyfile o /\ o_filename (calls R Zl l o) = o_filename o /\ forall t, document d' = Some t -> n < xml_depth t.
Proof.
  intros HL HX Hr Ek Hg HU Ec n. pose proof (reached_sound L R Zl lost o HL HX Hr) as So. unfold sound in So. rewrite Ek in So. destruct So as (_ & (W & _) & _).
  destruct (nest_calls R Zl C cur k HU (N.to_nat n) o d g Ek W Hg Ec) as (l & d' & r & m & j & F & _ & E' & W' & D' & _ & R' & C' & Hm). exists l, d'. split; [exact F|].
  destruct (calls_keep L R Zl lost l o) as (K1 & K2 & K3 & K4 & _); [eapply Forall_impl; [|exact F]; intros c (p & ->); exact I|exact Hr|]. split; [exact K1|]. split; [exact E'|]. split; [exact K2|]. split; [exact K3|]. split; [exact K4|].
  intros t Et. unfold document in Et. unfold roots in R'. destruct (d_forest d') as [|t0 F'] eqn:EF; [discriminate Et|]. cbn [hd_error option_map map] in Et, R'. injection Et as <-. injection R' as <-.
  rewrite <- EF in C'. assert (X : N.of_nat m < xml_depth (erase t0)) by (apply (chain_depth d' m W' t0 j); [rewrite EF; destruct t0; left; reflexivity|exact C']). lia.
Qed.
