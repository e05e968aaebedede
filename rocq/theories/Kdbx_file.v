(** Whole files: saving and opening again. *)
From Coq Require Import ZifyBool ZifyNat ZifyN.
From Verif Require Import Base Base64 PyStr Utf8 Xml Xml_facts Cbc Cbc_facts Lib Keyfile Construct Kdbx KdbxSpec Kdbx_facts Kdbx_rt Kdbx_inner.
Ltac Zify.zify_post_hook ::= Z.div_mod_to_equations.


(** *** Values of a parsed header are byte strings *)
Definition hv_ok (it : hid * hval) : Prop := match snd it with HV_bytes b => bytes_ok b | _ => True end.
Lemma hval3_ok i b v : bytes_ok b -> hval3 i b = Ok v -> hv_ok (i, v).
Proof.
  intros Hb. destruct i; cbn [hval3]; try (intros [= <-]; exact Hb); intros H.
  - bok H c E. injection H as <-. exact I.
  - bok H c E. injection H as <-. exact I.
  - bok H c E. injection H as <-. exact I.
  - bok H c E. bok H d E'. injection H as <-. exact I.
Qed.
Lemma hval4_ok i b v : bytes_ok b -> hval4 i b = Ok v -> hv_ok (i, v).
Proof.
  intros Hb. destruct i; cbn [hval4]; try (intros [= <-]; exact Hb); intros H.
  - bok H c E. injection H as <-. exact I.
  - bok H c E. injection H as <-. exact I.
  - bok H c E. injection H as <-. exact I.
Qed.
Lemma h_item_ok k f g : (forall i b v, bytes_ok b -> g i b = Ok v -> hv_ok (i, v)) ->
  forall j d a r, bytes_ok d -> h_item k f g j d = Ok (a, r) -> hv_ok a.
Proof.
  intros Hg j d a r Hd H. unfold h_item in H. bokp H n r1 H1. pose proof (local_ok _ _ _ _ (local_int 1) Hd H1) as Hr1.
  bok H i Hi. bokp H v r2 H2. injection H as <- <-. apply p_prefixed_inv in H2; [|exact Hr1]. destruct H2 as (b & Hv & Hb & _). eauto.
Qed.
Lemma header_vals d h r : bytes_ok d -> p_header d = Ok (h, r) -> match h_dyn h with Some l => Forall hv_ok l | None => True end.
Proof.
  intros Hd H. unfold p_header in H. bokp H x r1 H1. destruct x as [[mi ma] dy]. injection H as <- <-. cbn [h_dyn].
  unfold p_header0 in H1. bokp H1 s1 q1 E1. pose proof (local_ok _ _ _ _ (local_bytes 4) Hd E1) as D1.
  bokp H1 s2 q2 E2. pose proof (local_ok _ _ _ _ (local_bytes 4) D1 E2) as D2.
  destruct (str_eqb s1 sig1 && str_eqb s2 sig2); [|discriminate].
  bokp H1 mi' q3 E3. pose proof (local_ok _ _ _ _ (local_int 2) D2 E3) as D3.
  bokp H1 ma' q4 E4. pose proof (local_ok _ _ _ _ (local_int 2) D3 E4) as D4.
  bokp H1 dy' q5 E5. injection H1 as _ <- <- _. unfold p_dyn in E5.
  destruct (ma' =? 3); [|destruct (ma' =? 4); [|injection E5 as <- _; exact I]]; bokp E5 l q6 E6; injection E5 as <- _;
    unfold p_repeat in E6; rewrite Forall_forall; intros x Hx; apply (d_of_list_in _ hid_eqb_eq) in Hx; revert x Hx; rewrite <- Forall_forall;
    (eapply until_forall; [| |exact D4|exact E6]); try (intros; apply local_h_item); apply h_item_ok; [exact hval3_ok|exact hval4_ok].
Qed.
Lemma hbytes_ok d h r e i b : bytes_ok d -> p_header d = Ok (h, r) -> hbytes e h i = Ok b -> bytes_ok b.
Proof.
  intros Hd Hh H. pose proof (header_vals _ _ _ Hd Hh) as V. unfold hbytes, hget in H. bok H v E.
  destruct (h_dyn h) as [l|]; [|discriminate]. destruct (d_get hid_eqb i l) as [w|] eqn:Eg; [|discriminate]. injection E as <-.
  destruct w as [x|c|c|c|c|c]; try discriminate. injection H as <-. apply (d_get_in _ hid_eqb_eq) in Eg. rewrite Forall_forall in V. apply (V _ Eg).
Qed.
Lemma header_again d h r r' : p_header d = Ok (h, r) -> p_header (h_raw h ++ r') = Ok (h, r').
Proof. intros H. apply (header_local_raw _ _ _ H). Qed.
Lemma master_digest L h tk mk : lib_ok L -> master_key L h tk = Ok mk -> digest 32 mk.
Proof. intros HL H. unfold master_key in H. bok H s E. injection H as <-. apply (ok_sha256 _ HL). Qed.

(** *** Number of blocks *)
Lemma takeN_dropN_len {A} (l : list A) : forall n, n <= lenN l -> lenN (dropN n l) = lenN l - n.
Proof.
  induction l as [|x l IH]; intros n H; cbn [dropN]; [rewrite lenN_nil in *; lia|].
  destruct (N.eqb_spec n 0); [subst; rewrite N.sub_0_r; reflexivity|]. rewrite lenN_cons in *. rewrite IH by lia. lia.
Qed.
Lemma dropN_all {A} (l : list A) : forall n, lenN l <= n -> dropN n l = [].
Proof.
  induction l as [|x l IH]; intros n H; cbn [dropN]; [reflexivity|]. rewrite lenN_cons in H.
  destruct (N.eqb_spec n 0); [lia|]. apply IH. lia.
Qed.
Lemma chunks_len f : forall d, lenN (chunks f d) <= lenN d / block_size + 2.
Proof.
  induction f as [|f IH]; intros d.
  - destruct d; cbn [chunks]; rewrite lenN_cons, lenN_nil; unfold block_size; lia.
  - destruct d as [|b d]; cbn [chunks]; [rewrite lenN_cons, lenN_nil; unfold block_size; lia|]. rewrite lenN_cons.
    destruct (N.le_gt_cases block_size (lenN (b :: d))) as [H|H].
    + specialize (IH (dropN block_size (b :: d))). rewrite takeN_dropN_len in IH by exact H. unfold block_size in *.
      replace (lenN (b :: d)) with (lenN (b :: d) - 1048576 + 1 * 1048576) by lia. rewrite N.div_add by lia. lia.
    + rewrite dropN_all by lia. replace (chunks f []) with ([[]] : list bytes) by (destruct f; reflexivity). rewrite lenN_cons, lenN_nil. unfold block_size. lia.
Qed.
Lemma build4_fits L seed tk d : lenN d <= 2 ^ 83 -> exists out, build_blocks4 L seed tk d = Ok out.
Proof.
  intros H. unfold build_blocks4. cbv zeta. pose proof (chunks_len (List.length d) d) as C. fold (to_chunks d) in C.
  destruct (N.ltb_spec (2 ^ 64) (lenN (to_chunks d))) as [X|X]; [|eauto]. exfalso.
  assert (lenN d / block_size <= 2 ^ 63).
  { change (2 ^ 63) with (2 ^ 83 / block_size). apply N.div_le_mono; [discriminate|exact H]. }
  change (2 ^ 64) with (2 * 2 ^ 63) in X. assert (2 < 2 ^ 63) by reflexivity. lia.
Qed.
Lemma build3_fits L d : lenN d <= 2 ^ 51 -> exists out, build_blocks3 L d = Ok out.
Proof.
  intros H. unfold build_blocks3. cbv zeta. pose proof (chunks_len (List.length d) d) as C. fold (to_chunks d) in C.
  destruct (N.ltb_spec (2 ^ 32) (lenN (to_chunks d))) as [X|X]; [|eauto]. exfalso.
  assert (lenN d / block_size <= 2 ^ 31).
  { change (2 ^ 31) with (2 ^ 51 / block_size). apply N.div_le_mono; [discriminate|exact H]. }
  change (2 ^ 32) with (2 * 2 ^ 31) in X. assert (2 < 2 ^ 31) by reflexivity. lia.
Qed.

(** *** What a successful KDBX4 parse went through *)
Record parsed4 (L : lib) (cr : creds) (h : header) (d : bytes) (b : body) (r : bytes)
    (tk mk : bytes) (comp : bool) (c : cipher) (seed ct iv p x : bytes) (q : bytes) (hm : bytes) (pl : payload) : Prop := {
  q_tk : transformed4 L cr h = Ok tk;
  q_mk : master_key L h tk = Ok mk;
  q_hm : header_hmac L h tk = Ok hm;
  q_d : d = sha256 L (h_raw h) ++ hm ++ q;
  q_comp : hcomp h = Ok comp;
  q_c : hcipher h = Ok c;
  q_seed : hbytes Ex_Attribute h H_seed = Ok seed;
  q_ct : blocks4 L seed tk q = Ok (ct, r);
  q_iv : hbytes Ex_Attribute h H_iv = Ok iv;
  q_p : payload_decrypt L c mk iv ct = Ok p;
  q_x : decompress L comp p = Ok x;
  q_pl : unpack4 L x = Ok pl;
  q_b : b = MkBody tk mk (Some pl) }.
Lemma body4_inv L cr h d b r : c_dec cr = true -> body4 L cr h d = Ok (b, r) ->
  exists tk mk comp c seed ct iv p x q hm pl, parsed4 L cr h d b r tk mk comp c seed ct iv p x q hm pl.
Proof.
  intros Hc H. unfold body4 in H. bok H tk E1. bok H mk E2. bokp H s r1 E3. apply p_bytes_inv in E3. destruct E3 as [-> _].
  destruct (str_eqb_spec s (sha256 L (h_raw h))) as [->|]; [|discriminate]. rewrite Hc in H.
  bokp H m r2 E4. apply p_bytes_inv in E4. destruct E4 as [-> _]. bok H hm E5.
  destruct (str_eqb_spec m hm) as [->|]; [|discriminate].
  bok H comp E6. bok H c E7. bok H seed E8. bokp H ct r3 E9. bok H iv E10. bok H p E11. bok H x E12. bok H pl E13. injection H as <- <-.
  exists tk, mk, comp, c, seed, ct, iv, p, x, r2, hm, pl. constructor; assumption || reflexivity.
Qed.
Lemma body4_intro L cr h d b r tk mk comp c seed ct iv p x q hm pl : lib_ok L -> c_dec cr = true ->
  parsed4 L cr h d b r tk mk comp c seed ct iv p x q hm pl -> body4 L cr h d = Ok (b, r).
Proof.
  intros HL Hc []. unfold body4. rewrite q_tk0. cbn [bind]. rewrite q_mk0. cbn [bind]. subst d.
  rewrite p_bytes_app by (apply (digest_len 32), (ok_sha256 _ HL)). cbn [bind]. rewrite str_eqb_refl, Hc.
  assert (Hhm : lenN hm = 32).
  { unfold header_hmac in q_hm0. bok q_hm0 s E. injection q_hm0 as <-. apply (digest_len 32), (ok_hmac _ HL). }
  rewrite p_bytes_app by exact Hhm. cbn [bind]. rewrite q_hm0. cbn [bind]. rewrite str_eqb_refl, q_comp0. cbn [bind]. rewrite q_c0. cbn [bind].
  rewrite q_seed0. cbn [bind]. rewrite q_ct0. cbn [bind]. rewrite q_iv0. cbn [bind]. rewrite q_p0. cbn [bind]. rewrite q_x0. cbn [bind].
  rewrite q_pl0. cbn [bind]. subst b. reflexivity.
Qed.
Lemma unpack4_inv L x pl : bytes_ok x -> unpack4 L x = Ok pl -> exists ih r s t t', p_inner x = Ok (ih, r) /\ i_stream ih = Ok s /\
  xml_parse L r = Ok t /\ unprotect L s (i_key ih) t = Ok t' /\ pl = MkPay (Some ih) t' /\ ih_ok ih.
Proof.
  intros Hx H. unfold unpack4 in H. bokp H ih r E1. bok H s E2. bok H t E3. bok H t' E4. injection H as <-.
  exists ih, r, s, t, t'. repeat split; try assumption; apply (p_inner_ok _ _ _ Hx E1).
Qed.
Lemma p_kdbx_inv4 L cr d k r : p_kdbx L cr d = Ok (k, r) -> h_major (k_hdr k) = 4 ->
  exists r1 b, p_header d = Ok (k_hdr k, r1) /\ body4 L cr (k_hdr k) r1 = Ok (b, r) /\ k_body k = Some b.
Proof.
  intros H Hm. unfold p_kdbx in H. bokp H h r1 E1. destruct (N.eqb_spec (h_major h) 3).
  - bokp H b r2 E2. injection H as <- <-. cbn [k_hdr] in Hm. lia.
  - destruct (h_major h =? 4) eqn:E4.
    + bokp H b r2 E2. injection H as <- <-. cbn [k_hdr k_body]. eauto 6.
    + injection H as <- <-. cbn [k_hdr] in Hm. lia.
Qed.
Lemma p_kdbx_inv3 L cr d k r : p_kdbx L cr d = Ok (k, r) -> h_major (k_hdr k) = 3 ->
  exists r1 b, p_header d = Ok (k_hdr k, r1) /\ body3 L cr (k_hdr k) r1 = Ok (b, r) /\ k_body k = Some b.
Proof.
  intros H Hm. unfold p_kdbx in H. bokp H h r1 E1. destruct (N.eqb_spec (h_major h) 3).
  - bokp H b r2 E2. injection H as <- <-. cbn [k_hdr k_body]. eauto 6.
  - destruct (h_major h =? 4) eqn:E4; [bokp H b r2 E2|]; injection H as <- <-; cbn [k_hdr] in Hm; lia.
Qed.

(** *** Editing a database in memory: header untouched, attachments and document arbitrary *)
Definition edited (k : kdbx) (bins : list bytes) (t : xml) : kdbx :=
  MkKdbx (k_hdr k)
    match k_body k with
    | Some b => Some (MkBody (b_tkey b) (b_mkey b)
        match b_payload b with
        | Some p => Some (MkPay match p_hdr p with Some ih => Some (MkInner bins (ih_items ih)) | None => None end t)
        | None => None
        end)
    | None => None
    end.
Definition doc_of (k : kdbx) : option xml := match k_body k with Some b => match b_payload b with Some p => Some (p_xml p) | None => None end | None => None end.
Definition bins_of (k : kdbx) : list bytes :=
  match k_body k with Some b => match b_payload b with Some p => match p_hdr p with Some ih => ih_bins ih | None => [] end | None => [] end | None => [] end.
(** Stream cipher of a database. *)
Definition stream_id_of (k : kdbx) : res streamid :=
  match k_body k with
  | Some b => match b_payload b with
              | Some p => match p_hdr p with Some ih => i_stream ih | None => hpsid (k_hdr k) end
              | None => Err Ex_Key end
  | None => Err Ex_Key
  end.
(** The plaintext and ciphertext of a save are not astronomically large. *)
Definition fits4 (L : lib) (k : kdbx) (tk : bytes) : Prop := forall b p comp c mk iv ct,
  k_body k = Some b -> snd (pack4 L (b_payload b)) = Ok p -> hcomp (k_hdr k) = Ok comp -> hcipher (k_hdr k) = Ok c ->
  master_key L (k_hdr k) tk = Ok mk -> hbytes Ex_Attribute (k_hdr k) H_iv = Ok iv ->
  payload_encrypt L c mk iv (compress L comp p) = Ok ct -> lenN ct <= 2 ^ 83.

(** What a file in memory says apart from its header and the keys it was opened with. *)
Definition contents (k : kdbx) : option payload := match k_body k with Some b => b_payload b | None => None end.
Lemma save4_full L cr data k r cr' tk bins t :
  lib_ok L -> bytes_ok data -> c_dec cr = true -> p_kdbx L cr data = Ok (k, r) -> h_major (k_hdr k) = 4 ->
  transformed4 L cr' (k_hdr k) = Ok tk -> xml_ok t = true -> Forall small bins -> fits4 L (edited k bins t) tk ->
  exists out, build_kdbx L cr' (edited k bins t) = (out, Ok tt, edited k bins t) /\
    (modest t = true -> forall cr2 trail, c_dec cr2 = true -> transformed4 L cr2 (k_hdr k) = Ok tk ->
      exists k2 s, p_kdbx L cr2 (out ++ trail) = Ok (k2, trail) /\ k_hdr k2 = k_hdr k /\ bins_of k2 = bins /\
        stream_id_of k = Ok s /\ stream_id_of k2 = Ok s /\ doc_of k2 = Some (view_for s t) /\
        contents k2 = contents (edited k bins (view_for s t)) /\ k_body k2 <> None /\ k_body k <> None).
Proof.
  intros HL Hd Hc H Hm Htk Ht Hb Hfit. apply p_kdbx_inv4 in H; [|exact Hm]. destruct H as (r1 & b & Hh & Hbody & Hk).
  set (h := k_hdr k) in *. pose proof (local_ok _ _ _ _ local_header Hd Hh) as Hr1.
  destruct (body4_inv _ _ _ _ _ _ Hc Hbody) as (tk0 & mk0 & comp & c & seed & ct0 & iv & p0 & x0 & q & hm0 & pl & Q). destruct Q as [Q1 Q2 Q3 Qd Q4 Q5 Q6 Q7 Q8 Q9 Q10 Q11 ->].
  assert (Hiv : bytes_ok iv) by exact (hbytes_ok _ _ _ _ _ _ Hd Hh Q8).
  assert (Hq : bytes_ok q).
  { rewrite Qd in Hr1. apply bytes_ok_app in Hr1. destruct Hr1 as [_ X]. apply bytes_ok_app in X. apply X. }
  assert (Hct0 : bytes_ok ct0).
  { unfold blocks4 in Q7. bokp Q7 l r2 E. injection Q7 as <- <-. unfold p_repeat in E. apply concat_ok.
    eapply until_forall; [| |exact Hq|exact E]; [intros; apply local_block4|]. intros i d a r0 Hd0 Ha. unfold block4 in Ha.
    bokp Ha hh rr E1. pose proof (local_ok _ _ _ _ (local_bytes 32) Hd0 E1) as Hrr. bokp Ha bb rr2 E2. apply p_prefixed_inv in E2; [|exact Hrr].
    destruct E2 as (b & Eb & Hbb & _). injection Eb as ->. destruct (str_eqb _ _); [|discriminate]. injection Ha as <- <-. exact Hbb. }
  pose proof (payload_decrypt_ok _ _ _ _ _ _ HL Hiv Hct0 Q9) as Hp0. pose proof (decompress_ok _ _ _ _ HL Hp0 Q10) as Hx0.
  destruct (unpack4_inv _ _ _ Hx0 Q11) as (ih & rx & s & t0 & t1 & U1 & U2 & U3 & U4 & -> & Hih).
  set (ih' := MkInner bins (ih_items ih)).
  assert (Hih' : ih_ok ih') by (destruct Hih as (_ & I2); split; [exact Hb|exact I2]).
  destruct (inner_build ih' Hih') as (hb & B1 & B2 & B3).
  destruct (unprotect_protect_ok L s (i_key ih) t0 t1 t HL Ht U4) as (t' & P).
  destruct (protect_unprotect _ _ _ _ _ HL Ht P) as [Ht' Un].
  destruct (ok_xml _ HL t' Ht') as [X1 X2].
  assert (Hpay : bytes_ok (hb ++ xml_ser L t')) by (apply bytes_ok_app; auto).
  destruct (compress_ok L comp _ HL Hpay) as [Cok Cinv].
  assert (Hmk : exists mk, master_key L h tk = Ok mk) by (unfold master_key; rewrite Q6; cbn [bind]; eauto). destruct Hmk as (mk & Hmk).
  assert (Hhm : exists hm, header_hmac L h tk = Ok hm) by (unfold header_hmac; rewrite Q6; cbn [bind]; eauto). destruct Hhm as (hm & Hhm).
  pose proof (master_digest _ _ _ _ HL Hmk) as Dmk. pose proof (master_digest _ _ _ _ HL Q2) as Dmk0.
  pose proof (decrypt_iv _ _ _ _ _ _ (proj1 Dmk0) Q9) as Fiv.
  destruct (encrypt_spec L c mk iv _ HL Dmk Hiv Fiv Cok) as (ct & E1 & E2 & E3).
  assert (Mem : forall s k t, fst (protect L s k t) = t) by (intros [] ? ?; reflexivity).
  assert (Pack : pack4 L (Some (MkPay (Some ih') t)) = (Some (MkPay (Some ih') t), Ok (hb ++ xml_ser L t'))).
  { unfold pack4. cbn [p_hdr p_xml]. rewrite B1. change (i_stream ih') with (i_stream ih). rewrite U2. change (i_key ih') with (i_key ih).
    specialize (Mem s (i_key ih) t). destruct (protect L s (i_key ih) t) as [m w]. cbn [fst snd] in *. subst m w. reflexivity. }
  assert (Ed : edited k bins t = MkKdbx h (Some (MkBody tk0 mk0 (Some (MkPay (Some ih') t))))) by (unfold edited; rewrite Hk; reflexivity).
  destruct (build4_fits L seed tk ct) as (bl & Ebl).
  { rewrite Ed in Hfit. eapply Hfit; cbn [k_body k_hdr b_payload]; [reflexivity|cbn [b_payload]; rewrite Pack; reflexivity|exact Q4|exact Q5|exact Hmk|exact Q8|exact E1]. }
  exists ((h_raw h ++ sha256 L (h_raw h) ++ hm) ++ bl). split.
  - rewrite Ed. unfold build_kdbx. cbn [k_hdr k_body]. replace (h_major h =? 3) with false by (rewrite Hm; reflexivity).
    replace (h_major h =? 4) with true by (rewrite Hm; reflexivity).
    unfold build4. rewrite Htk. cbn [bind]. rewrite Hmk. cbn [bind]. rewrite Q6. cbn [bind]. rewrite Hhm. cbn [bind].
    cbn [b_payload b_tkey b_mkey]. rewrite Pack. cbn [bind]. rewrite Q4. cbn [bind]. rewrite Q5. cbn [bind]. rewrite Q8. cbn [bind].
    rewrite E1. cbn [bind]. rewrite Ebl. reflexivity.
  - intros Hmo cr2 trail Hc2 Htk2. specialize (X2 (proj2 (protect_fits _ _ _ _ _ HL P) Hmo)).
    exists (MkKdbx h (Some (MkBody tk mk (Some (MkPay (Some ih') (view_for s t)))))), s.
    split; [|split; [reflexivity|split; [reflexivity|split; [unfold stream_id_of; rewrite Hk; exact U2|split; [exact U2|split; [reflexivity|split; [unfold edited; rewrite Hk; reflexivity|split; [discriminate|rewrite Hk; discriminate]]]]]]]].
    unfold p_kdbx. rewrite <- !app_assoc. rewrite (header_again _ _ _ _ Hh). cbn [bind].
    replace (h_major h =? 3) with false by (rewrite Hm; reflexivity). replace (h_major h =? 4) with true by (rewrite Hm; reflexivity).
    rewrite (body4_intro L cr2 h (sha256 L (h_raw h) ++ hm ++ bl ++ trail) (MkBody tk mk (Some (MkPay (Some ih') (view_for s t)))) trail tk mk comp c seed ct iv (compress L comp (hb ++ xml_ser L t')) (hb ++ xml_ser L t') (bl ++ trail) hm (MkPay (Some ih') (view_for s t)) HL Hc2); [reflexivity|].
    constructor; try assumption; try reflexivity.
    + apply blocks4_build; assumption.
    + exact (decrypt_encrypt _ _ _ _ _ _ HL Dmk Hiv Fiv Cok E1).
    + unfold unpack4. rewrite B3. cbn [bind]. change (i_stream ih') with (i_stream ih). rewrite U2. cbn [bind]. rewrite X2. cbn [bind].
      change (i_key ih') with (i_key ih). rewrite Un. reflexivity.
Qed.
Lemma save4 L cr data k r cr' tk bins t :
  lib_ok L -> bytes_ok data -> c_dec cr = true -> p_kdbx L cr data = Ok (k, r) -> h_major (k_hdr k) = 4 ->
  transformed4 L cr' (k_hdr k) = Ok tk -> xml_ok t = true -> Forall small bins -> fits4 L (edited k bins t) tk ->
  exists out, build_kdbx L cr' (edited k bins t) = (out, Ok tt, edited k bins t) /\
    (modest t = true -> forall cr2 trail, c_dec cr2 = true -> transformed4 L cr2 (k_hdr k) = Ok tk ->
      exists k2 s, p_kdbx L cr2 (out ++ trail) = Ok (k2, trail) /\ k_hdr k2 = k_hdr k /\ bins_of k2 = bins /\
        stream_id_of k = Ok s /\ stream_id_of k2 = Ok s /\ doc_of k2 = Some (view_for s t)).
Proof.
  intros HL Hd Hc H Hm Htk Ht Hb Hfit. destruct (save4_full L cr data k r cr' tk bins t HL Hd Hc H Hm Htk Ht Hb Hfit) as (out & E & G). exists out. split; [exact E|].
  intros Hmo cr2 trail Hc2 Htk2. destruct (G Hmo cr2 trail Hc2 Htk2) as (k2 & s & H1 & H2 & H3 & H4 & H5 & H6 & _). exists k2, s. auto 10.
Qed.
