(** Authentication, truncation, error classes, header preservation, protected values in the written file. *)
From Coq Require Import ZifyBool ZifyNat ZifyN.
From Verif Require Import Base Base64 PyStr Utf8 Xml Xml_facts Cbc Cbc_facts Lib Keyfile Construct Kdbx KdbxSpec Kdbx_facts Kdbx_rt Kdbx_inner Kdbx_file Kdbx_v3.
Ltac Zify.zify_post_hook ::= Z.div_mod_to_equations.

Lemma le32_enc n : le_enc 4 n = le32 n.
Proof. unfold le32. cbn [le_enc]. rewrite !N.div_div by discriminate. reflexivity. Qed.
Lemma le64_enc n : le_enc 8 n = le64 n.
Proof. unfold le64. cbn [le_enc]. rewrite !N.div_div by discriminate. reflexivity. Qed.
Lemma block_tag_model L seed tk i b : block_hmac L seed tk i b = block_tag L seed tk i b.
Proof. unfold block_hmac, block_tag, auth_key, hmac_base. rewrite le64_enc, le32_enc. reflexivity. Qed.
Lemma head_tag_model L h tk : header_hmac L h tk = let* seed := hbytes Ex_Attribute h H_seed in Ok (head_tag L seed tk (h_raw h)).
Proof. reflexivity. Qed.

(** *** Accepted block sequences *)
Lemma block4_inv L seed tk i d b r : bytes_ok d -> block4 L seed tk i d = Ok (b, r) ->
  d = (block_tag L seed tk i b ++ le32 (lenN b) ++ b) ++ r /\ lenN b < 2 ^ 32.
Proof.
  intros Hd H. unfold block4 in H. bokp H h r1 E1. pose proof (local_ok _ _ _ _ (local_bytes 32) Hd E1) as Hr1. apply p_bytes_inv in E1. destruct E1 as [-> _].
  bokp H b' r2 E2. apply p_prefixed_inv in E2; [|exact Hr1]. destruct E2 as (b2 & Eb & _ & Hl & ->). injection Eb as ->.
  destruct (str_eqb_spec h (block_hmac L seed tk i b')) as [->|]; [|discriminate]. injection H as <- <-.
  rewrite block_tag_model, le32_enc, <- !app_assoc. split; [reflexivity|exact Hl].
Qed.
Lemma until4_inv L seed tk f : forall i d l r, bytes_ok d -> p_until (block4 L seed tk) is_empty f i d = Ok (l, r) ->
  d = frames (tagged L seed tk i l) ++ r /\ ends_empty l /\ Forall (fun b => lenN b < 2 ^ 32) l.
Proof.
  induction f as [|f IH]; intros i d l r Hd H; [discriminate|]. cbn [p_until] in H. bokp H b r1 E1.
  pose proof (local_ok _ _ _ _ (local_block4 L seed tk i) Hd E1) as Hr1. apply block4_inv in E1; [|exact Hd]. destruct E1 as [-> Hb].
  destruct b as [|x b]; cbn [is_empty] in H.
  - injection H as <- <-. cbn. unfold frames. cbn. rewrite app_nil_r. split; [reflexivity|]. split; [exists []; auto|auto].
  - bokp H l' r2 E2. injection H as <- <-. destruct (IH _ _ _ _ Hr1 E2) as (-> & (l0 & -> & F) & G).
    split; [unfold frames; cbn [tagged map List.concat fst snd]; rewrite <- !app_assoc; reflexivity|]. split; [|auto].
    exists ((x :: b) :: l0). split; [reflexivity|]. constructor; [discriminate|exact F].
Qed.
Lemma blocks4_inv L seed tk d ct r : bytes_ok d -> blocks4 L seed tk d = Ok (ct, r) ->
  exists l, ct = List.concat l /\ d = frames (tagged L seed tk 0 l) ++ r /\ ends_empty l /\ Forall (fun b => lenN b < 2 ^ 32) l.
Proof.
  intros Hd H. unfold blocks4 in H. bokp H l r1 E. injection H as <- <-. unfold p_repeat in E. apply until4_inv in E; [|exact Hd]. eauto.
Qed.

(** *** An accepted file is authentic *)
Lemma accepted4 L cr data k r : lib_ok L -> bytes_ok data -> c_dec cr = true -> p_kdbx L cr data = Ok (k, r) -> h_major (k_hdr k) = 4 ->
  exists tk seed bs, transformed4 L cr (k_hdr k) = Ok tk /\ hbytes Ex_Attribute (k_hdr k) H_seed = Ok seed /\
    data = h_raw (k_hdr k) ++ sha256 L (h_raw (k_hdr k)) ++ head_tag L seed tk (h_raw (k_hdr k)) ++ frames (tagged L seed tk 0 bs) ++ r /\
    ends_empty bs /\ Forall (fun b => lenN b < 2 ^ 32) bs /\
    exists c comp iv p x pl, hcipher (k_hdr k) = Ok c /\ hcomp (k_hdr k) = Ok comp /\ hbytes Ex_Attribute (k_hdr k) H_iv = Ok iv /\
      payload_decrypt L c (sha256 L (seed ++ tk)) iv (List.concat bs) = Ok p /\ decompress L comp p = Ok x /\ unpack4 L x = Ok pl /\
      k_body k = Some (MkBody tk (sha256 L (seed ++ tk)) (Some pl)).
Proof.
  intros HL Hd Hc H Hm. apply p_kdbx_inv4 in H; [|exact Hm]. destruct H as (r1 & b & Hh & Hbody & Hk).
  pose proof (local_ok _ _ _ _ local_header Hd Hh) as Hr1. destruct (header_local_raw _ _ _ Hh) as [Edata _].
  destruct (body4_inv _ _ _ _ _ _ Hc Hbody) as (tk & mk & comp & c & seed & ct & iv & p & x & q & hm & pl & Q). destruct Q as [Q1 Q2 Q3 Qd Q4 Q5 Q6 Q7 Q8 Q9 Q10 Q11 ->].
  rewrite Qd in Hr1. apply bytes_ok_app in Hr1. destruct Hr1 as [_ X]. apply bytes_ok_app in X. destruct X as [_ Hq].
  rewrite head_tag_model, Q6 in Q3. cbn [bind] in Q3. injection Q3 as <-. unfold master_key in Q2. rewrite Q6 in Q2. cbn [bind] in Q2. injection Q2 as <-.
  destruct (blocks4_inv _ _ _ _ _ _ Hq Q7) as (l & -> & -> & El & Fl). exists tk, seed, l.
  split; [exact Q1|]. split; [exact Q6|]. split; [rewrite Edata at 1; rewrite Qd; reflexivity|]. split; [exact El|]. split; [exact Fl|].
  exists c, comp, iv, p, x, pl. tauto.
Qed.
(** Same credentials, same header, same tags: same payload, or a collision is exhibited. *)
Lemma tagged_collision L seed tk : forall bs bs' i, ends_empty bs -> ends_empty bs' ->
  Forall (fun b => lenN b < 2 ^ 32) bs -> Forall (fun b => lenN b < 2 ^ 32) bs' ->
  map fst (tagged L seed tk i bs) = map fst (tagged L seed tk i bs') -> bs = bs' \/
  exists key m m', m <> m' /\ hmac256 L key m = hmac256 L key m'.
Proof.
  induction bs as [|b bs IH]; intros bs' i H1 H2 F1 F2 E.
  - destruct H1 as ([|? ?] & X & _); discriminate.
  - destruct bs' as [|b' bs']; [discriminate|]. cbn [tagged map fst] in E. injection E as E1 E2.
    destruct (list_eq_dec N.eq_dec b b') as [->|Hne].
    2: { right. exists (auth_key L seed tk (le64 i)), (le64 i ++ le32 (lenN b) ++ b), (le64 i ++ le32 (lenN b') ++ b'). split; [|exact E1].
         intros X. apply app_inv_head in X. assert (Y : le32 (lenN b) = le32 (lenN b') /\ b = b'). { unfold le32 in *. cbn [app] in X. injection X as -> -> -> -> ->. auto. } tauto. }
    inversion F1; inversion F2; subst.
    destruct H1 as (l1 & X1 & G1), H2 as (l2 & X2 & G2).
    destruct l1 as [|y1 l1], l2 as [|y2 l2]; cbn [app] in X1, X2.
    + injection X1 as -> ->. injection X2 as ->. auto.
    + injection X1 as -> ->. injection X2 as <- ->. inversion G2; congruence.
    + injection X1 as -> ->. injection X2 as -> ->. inversion G1; congruence.
    + injection X1 as -> ->. injection X2 as _ ->. inversion G1; inversion G2; subst.
      destruct (IH (l2 ++ [[]]) (i + 1)) as [->|X]; auto; [exists l1; auto|exists l2; auto].
Qed.

(** *** Wrong credentials *)
Lemma hm_len L h tk hm : lib_ok L -> header_hmac L h tk = Ok hm -> lenN hm = 32.
Proof. intros HL H. unfold header_hmac in H. bok H s E. injection H as <-. apply (digest_len 32), (ok_hmac _ HL). Qed.
Lemma wrong_creds4 L cr cr2 data k r tk2 : lib_ok L -> bytes_ok data -> c_dec cr = true -> c_dec cr2 = true ->
  p_kdbx L cr data = Ok (k, r) -> h_major (k_hdr k) = 4 -> transformed4 L cr2 (k_hdr k) = Ok tk2 ->
  open_kdbx L cr2 data = Err Ex_Credentials \/
  exists tk seed, transformed4 L cr (k_hdr k) = Ok tk /\ hbytes Ex_Attribute (k_hdr k) H_seed = Ok seed /\
    head_tag L seed tk2 (h_raw (k_hdr k)) = head_tag L seed tk (h_raw (k_hdr k)).
Proof.
  intros HL Hd Hc Hc2 H Hm Htk2. destruct (accepted4 _ _ _ _ _ HL Hd Hc H Hm) as (tk & seed & bs & T & S & -> & _).
  apply p_kdbx_inv4 in H; [|exact Hm]. destruct H as (r1 & b & Hh & _ & _). apply (header_again _ _ _ r1) in Hh. set (h := k_hdr k) in *.
  destruct (str_eqb_spec (head_tag L seed tk (h_raw h)) (head_tag L seed tk2 (h_raw h))) as [E|E]; [right; eauto|left].
  unfold open_kdbx, p_kdbx. rewrite (header_again _ _ _ _ Hh). cbn [bind]. rewrite Hm. change (4 =? 3) with false. change (4 =? 4) with true. cbv iota.
  unfold body4. rewrite Htk2. cbn [bind]. unfold master_key. rewrite S. cbn [bind].
  rewrite p_bytes_app by (apply (digest_len 32), (ok_sha256 _ HL)). cbn [bind]. rewrite str_eqb_refl, Hc2.
  rewrite p_bytes_app by (apply (digest_len 32), (ok_hmac _ HL)). cbn [bind]. rewrite head_tag_model, S. cbn [bind].
  replace (str_eqb (head_tag L seed tk (h_raw h)) (head_tag L seed tk2 (h_raw h))) with false by (symmetry; apply str_eqb_neq, E). reflexivity.
Qed.

(** *** Truncation *)
Lemma blocks4_det L seed tk seed2 tk2 d ct r ct2 r2 : blocks4 L seed tk d = Ok (ct, r) -> blocks4 L seed2 tk2 d = Ok (ct2, r2) -> ct2 = ct /\ r2 = r.
Proof.
  intros H1 H2. unfold blocks4 in *. bokp H1 l q1 E1. bokp H2 l2 q2 E2. injection H1 as <- <-. injection H2 as <- <-. unfold p_repeat in *.
  assert (G : l2 = l /\ q2 = q1); [|destruct G as [-> ->]; auto].
  revert E1 E2. generalize (S (List.length d)) as f. generalize 0 as i. intros i f. revert i d l q1 l2 q2.
  induction f as [|f IH]; intros i d l q1 l2 q2 E1 E2; [discriminate|]. cbn [p_until] in *.
  bokp E1 b r1 B1. bokp E2 b2 r2 B2. unfold block4 in *. bokp B1 h w1 P1. rewrite P1 in B2. cbn [bind] in B2. bokp B1 b' w2 P2. rewrite P2 in B2. cbn [bind] in B2.
  destruct (str_eqb _ _) in B1; [|discriminate]. destruct (str_eqb _ _) in B2; [|discriminate]. injection B1 as <- <-. injection B2 as <- <-.
  destruct (is_empty b'); [injection E1 as <- <-; injection E2 as <- <-; auto|].
  bokp E1 m1 v1 C1. bokp E2 m2 v2 C2. injection E1 as <- <-. injection E2 as <- <-. destruct (IH _ _ _ _ _ _ C1 C2) as [-> ->]. auto.
Qed.
Lemma truncated4 L cr cr2 pre suf k : lib_ok L -> c_dec cr = true -> c_dec cr2 = true ->
  p_kdbx L cr (pre ++ suf) = Ok (k, []) -> h_major (k_hdr k) = 4 -> suf <> [] -> exists e, open_kdbx L cr2 pre = Err e.
Proof.
  intros HL Hc Hc2 H Hm Hs. unfold open_kdbx. destruct (p_kdbx L cr2 pre) as [[k2 r2]|e] eqn:E; [|eauto]. exfalso. apply Hs.
  assert (Hh2 : exists q2, p_header pre = Ok (k_hdr k2, q2)).
  { unfold p_kdbx in E. bokp E h q F. exists q. rewrite F. do 2 f_equal. destruct (h_major h =? 3); [bokp E b0 q0 G; injection E as <- _; reflexivity|].
    destruct (h_major h =? 4); [bokp E b0 q0 G|]; injection E as <- _; reflexivity. }
  destruct Hh2 as (q2 & Hh2). destruct (p_kdbx_inv4 _ _ _ _ _ H Hm) as (q & b & Hh & Hb & _).
  destruct (header_local_raw _ _ _ Hh2) as [Epre G2]. pose proof (G2 (q2 ++ suf)) as X. rewrite app_assoc, <- Epre, Hh in X. injection X as Xh ->.
  assert (Hm2 : h_major (k_hdr k2) = 4) by (rewrite <- Xh; exact Hm).
  destruct (p_kdbx_local4 _ _ _ _ _ E Hm2) as (c & Ec & G). pose proof (G (r2 ++ suf)) as Y. rewrite app_assoc, <- Ec in Y.
  destruct (p_kdbx_inv4 _ _ _ _ _ Y Hm2) as (q3 & b3 & Hh3 & Hb3 & _). rewrite Hh in Hh3. injection Hh3 as Eh <-.
  destruct (body4_inv _ _ _ _ _ _ Hc Hb) as (a1 & a2 & a3 & a4 & a5 & a6 & a7 & a8 & a9 & a10 & a11 & a12 & Q). destruct Q as [_ _ Q3 Qd _ _ _ Q7 _ _ _ _ _].
  destruct (body4_inv _ _ _ _ _ _ Hc2 Hb3) as (b1' & b2' & b3' & b4' & b5' & b6' & b7' & b8' & b9' & b10' & b11' & b12' & R). destruct R as [_ _ R3 Rd _ _ _ R7 _ _ _ _ _].
  rewrite Qd in Rd. rewrite <- Eh in Rd. apply app_inv_head in Rd.
  assert (El : List.length a11 = List.length b11').
  { apply (hm_len _ _ _ _ HL) in Q3. apply (hm_len _ _ _ _ HL) in R3. unfold lenN in *. lia. }
  assert (a10 = b10').
  { apply (f_equal (skipn (List.length a11))) in Rd. rewrite !skipn_app, !skipn_all, El, !skipn_all, !Nat.sub_diag in Rd. exact Rd. }
  subst b10'. destruct (blocks4_det _ _ _ _ _ _ _ _ _ _ Q7 R7) as [_ Z]. apply app_eq_nil in Z. apply Z.
Qed.

(** *** Error classes *)
Definition header4 (h : header) : Prop := h_major h = 4 /\ exists d r, p_header d = Ok (h, r).
Definition header3 (h : header) : Prop := h_major h = 3 /\ exists d r, p_header d = Ok (h, r).
Lemma open4 L cr h tk q : header4 h -> transformed4 L cr h = Ok tk -> open_kdbx L cr (h_raw h ++ q) =
  match body4 L cr h q with Ok (b, r) => Ok (MkKdbx h (Some b), r) | Err e => Err (classify e) end.
Proof.
  intros (Hm & d & r & Hh) Ht. unfold open_kdbx, p_kdbx. rewrite (header_again _ _ _ _ Hh). cbn [bind]. rewrite Hm.
  change (4 =? 3) with false. change (4 =? 4) with true. cbv iota. destruct (body4 L cr h q) as [[b r']|e]; reflexivity.
Qed.
Lemma open3 L cr h q : header3 h -> open_kdbx L cr (h_raw h ++ q) =
  match body3 L cr h q with Ok (b, r) => Ok (MkKdbx h (Some b), r) | Err e => Err (classify e) end.
Proof.
  intros (Hm & d & r & Hh). unfold open_kdbx, p_kdbx. rewrite (header_again _ _ _ _ Hh). cbn [bind]. rewrite Hm.
  change (3 =? 3) with true. cbv iota. destruct (body3 L cr h q) as [[b r']|e]; reflexivity.
Qed.
Lemma bad_signature L cr s q : List.length s = 8%nat -> s <> [3; 217; 162; 154; 103; 251; 75; 181] -> open_kdbx L cr (s ++ q) = Err Ex_HeaderChecksum.
Proof.
  intros Hl Hne. unfold open_kdbx, p_kdbx, p_header, p_header0.
  rewrite <- (firstn_skipn 4 s), <- app_assoc. rewrite p_bytes_app by (unfold lenN; rewrite firstn_length, Hl; reflexivity). cbn [bind].
  rewrite p_bytes_app by (unfold lenN; rewrite skipn_length, Hl; reflexivity). cbn [bind].
  destruct (str_eqb_spec (firstn 4 s) sig1) as [E1|]; [|reflexivity]. destruct (str_eqb_spec (skipn 4 s) sig2) as [E2|]; [|reflexivity].
  exfalso. apply Hne. rewrite <- (firstn_skipn 4 s), E1, E2. reflexivity.
Qed.
Lemma bad_header_hash L cr h tk seed s q : lib_ok L -> header4 h -> transformed4 L cr h = Ok tk -> hbytes Ex_Attribute h H_seed = Ok seed ->
  List.length s = 32%nat -> s <> sha256 L (h_raw h) -> open_kdbx L cr (h_raw h ++ s ++ q) = Err Ex_HeaderChecksum.
Proof.
  intros HL Hh Ht Hs Hl Hne. rewrite (open4 _ _ _ _ _ Hh Ht). unfold body4. rewrite Ht. cbn [bind]. unfold master_key. rewrite Hs. cbn [bind].
  rewrite p_bytes_app by (unfold lenN; rewrite Hl; reflexivity). cbn [bind]. apply str_eqb_neq in Hne. rewrite Hne. reflexivity.
Qed.
Lemma bad_header_mac L cr h tk seed m q : lib_ok L -> c_dec cr = true -> header4 h -> transformed4 L cr h = Ok tk -> hbytes Ex_Attribute h H_seed = Ok seed ->
  List.length m = 32%nat -> m <> head_tag L seed tk (h_raw h) -> open_kdbx L cr (h_raw h ++ sha256 L (h_raw h) ++ m ++ q) = Err Ex_Credentials.
Proof.
  intros HL Hc Hh Ht Hs Hl Hne. rewrite (open4 _ _ _ _ _ Hh Ht). unfold body4. rewrite Ht. cbn [bind]. unfold master_key. rewrite Hs. cbn [bind].
  rewrite p_bytes_app by (apply (digest_len 32), (ok_sha256 _ HL)). cbn [bind]. rewrite str_eqb_refl, Hc.
  rewrite p_bytes_app by (unfold lenN; rewrite Hl; reflexivity). cbn [bind]. rewrite head_tag_model, Hs. cbn [bind]. apply str_eqb_neq in Hne. rewrite Hne. reflexivity.
Qed.
Lemma block4_good L seed tk i b r : lib_ok L -> lenN b < 2 ^ 32 -> block4 L seed tk i ((block_tag L seed tk i b ++ le32 (lenN b) ++ b) ++ r) = Ok (b, r).
Proof.
  intros HL Hb. unfold block4. rewrite <- !app_assoc. rewrite p_bytes_app by (apply (digest_len 32), (ok_hmac _ HL)). cbn [bind].
  rewrite <- le32_enc, prefixed_enc by exact Hb. cbn [bind]. rewrite block_tag_model, str_eqb_refl. reflexivity.
Qed.
Lemma block4_bad L seed tk i tag b r : List.length tag = 32%nat -> lenN b < 2 ^ 32 -> tag <> block_tag L seed tk i b ->
  block4 L seed tk i (tag ++ le32 (lenN b) ++ b ++ r) = Err (Ex_Checksum ["body"%string; "payload"%string; "hmac_hash"%string]).
Proof.
  intros Hl Hb Hne. unfold block4. rewrite p_bytes_app by (unfold lenN; rewrite Hl; reflexivity). cbn [bind].
  rewrite <- le32_enc, prefixed_enc by exact Hb. cbn [bind]. rewrite block_tag_model. apply str_eqb_neq in Hne. rewrite Hne. reflexivity.
Qed.
Lemma until4_bad L seed tk tag b r : lib_ok L -> List.length tag = 32%nat -> lenN b < 2 ^ 32 -> forall bs i f,
  Forall (fun b => b <> [] /\ lenN b < 2 ^ 32) bs -> tag <> block_tag L seed tk (i + lenN bs) b -> (List.length bs < f)%nat ->
  p_until (block4 L seed tk) is_empty f i (frames (tagged L seed tk i bs) ++ tag ++ le32 (lenN b) ++ b ++ r) =
  Err (Ex_Checksum ["body"%string; "payload"%string; "hmac_hash"%string]).
Proof.
  intros HL Hl Hb. induction bs as [|x bs IH]; intros i f F Hne Hf; (destruct f as [|f]; [lia|]); cbn [p_until].
  - change (frames (tagged L seed tk i [])) with (@nil N). cbn [app]. rewrite lenN_nil, N.add_0_r in Hne. rewrite block4_bad by assumption. reflexivity.
  - inversion F as [|? ? [X1 X2] F']; subst. unfold frames. cbn [tagged map List.concat fst snd]. rewrite <- (app_assoc _ (List.concat _)).
    rewrite block4_good by assumption. cbn [bind]. destruct x as [|y x]; [congruence|]. cbn [is_empty].
    fold (frames (tagged L seed tk (i + 1) bs)). rewrite IH; [reflexivity|exact F'| |cbn [List.length] in Hf; lia].
    rewrite lenN_cons in Hne. replace (i + 1 + lenN bs) with (i + (1 + lenN bs)) by lia. exact Hne.
Qed.
Lemma frames_len l : (List.length l <= List.length (frames l))%nat.
Proof. unfold frames. induction l as [|[t b] l IH]; [cbn; lia|]. cbn [map List.concat List.length fst snd]. rewrite !app_length. cbn [le32 List.length]. lia. Qed.
Lemma tagged_len L seed tk bs : forall i, List.length (tagged L seed tk i bs) = List.length bs.
Proof. induction bs; intros i; cbn [tagged List.length]; [reflexivity|]. now rewrite IHbs. Qed.
Lemma bad_block4 L cr h tk seed comp c bs tag b q : lib_ok L -> c_dec cr = true -> header4 h -> transformed4 L cr h = Ok tk -> hbytes Ex_Attribute h H_seed = Ok seed ->
  hcomp h = Ok comp -> hcipher h = Ok c ->
  Forall (fun b => b <> [] /\ lenN b < 2 ^ 32) bs -> List.length tag = 32%nat -> lenN b < 2 ^ 32 -> tag <> block_tag L seed tk (lenN bs) b ->
  open_kdbx L cr (h_raw h ++ sha256 L (h_raw h) ++ head_tag L seed tk (h_raw h) ++ frames (tagged L seed tk 0 bs) ++ tag ++ le32 (lenN b) ++ b ++ q) = Err Ex_PayloadChecksum.
Proof.
  intros HL Hc Hh Ht Hs Hcomp Hci F Hl Hb Hne. rewrite (open4 _ _ _ _ _ Hh Ht). unfold body4. rewrite Ht. cbn [bind]. unfold master_key. rewrite Hs. cbn [bind].
  rewrite p_bytes_app by (apply (digest_len 32), (ok_sha256 _ HL)). cbn [bind]. rewrite str_eqb_refl, Hc.
  rewrite p_bytes_app by (apply (digest_len 32), (ok_hmac _ HL)). cbn [bind]. rewrite head_tag_model, Hs. cbn [bind].
  rewrite str_eqb_refl, Hcomp. cbn [bind]. rewrite Hci. cbn [bind]. unfold blocks4, p_repeat. rewrite until4_bad; try assumption; [reflexivity|]. 
  rewrite app_length. pose proof (frames_len (tagged L seed tk 0 bs)) as W. rewrite tagged_len in W.
  apply Nat.lt_succ_r. exact (Nat.le_trans _ _ _ W (Nat.le_add_r _ _)).
Qed.
(** KDBX3: the classes seen once the payload is decrypted to [p]. *)
Lemma open3_payload L cr h tk mk c iv q p : c_dec cr = true -> header3 h -> transformed3 L cr h = Ok tk -> master_key L h tk = Ok mk ->
  hcipher h = Ok c -> hbytes Ex_Attribute h H_iv = Ok iv -> payload_decrypt L c mk iv q = Ok p ->
  open_kdbx L cr (h_raw h ++ q) = match unpack3 L h p with Ok pl => Ok (MkKdbx h (Some (MkBody tk mk (Some pl))), []) | Err e => Err (classify e) end.
Proof.
  intros Hc Hh Ht Hm Hci Hi Hp. rewrite (open3 _ _ _ _ Hh). unfold body3. rewrite Ht. cbn [bind]. rewrite Hm. cbn [bind]. rewrite Hc, Hci. cbn [bind]. rewrite Hi. cbn [bind].
  rewrite Hp. cbn [bind]. destruct (unpack3 L h p); reflexivity.
Qed.
Lemma bad_start3 L h ssb p : hbytes Ex_Attribute h H_ssb = Ok ssb -> (32 <= List.length p)%nat -> firstn 32 p <> ssb ->
  match unpack3 L h p with Ok _ => False | Err e => classify e = Ex_Credentials end.
Proof.
  intros Hs Hl Hne. unfold unpack3.
  assert (E : p_bytes 32 p = Ok (firstn 32 p, skipn 32 p)).
  { rewrite <- (firstn_skipn 32 p) at 1. apply p_bytes_app. unfold lenN. rewrite firstn_length, Nat.min_l by exact Hl. reflexivity. }
  rewrite E. cbn [bind]. rewrite Hs. cbn [bind]. apply str_eqb_neq in Hne. rewrite Hne. reflexivity.
Qed.
(** KDBX3 block layout: number, hash, size, data. *)
Definition frame3 (i : N) (hash b : bytes) : bytes := le32 i ++ hash ++ le32 (lenN b) ++ b.
Fixpoint frames3 (L : lib) (i : N) (bs : list bytes) : bytes :=
  match bs with [] => [] | b :: bs' => frame3 i (sha256 L b) b ++ frames3 L (i + 1) bs' end.
Lemma block3_good L i b r : lib_ok L -> i < 2 ^ 32 -> lenN b < 2 ^ 32 -> b <> [] -> block3 L i (frame3 i (sha256 L b) b ++ r) = Ok (b, r).
Proof.
  intros HL Hi Hb Hne. unfold block3, frame3. rewrite <- !app_assoc. rewrite <- (le32_enc i), p_int_enc by exact Hi. cbn [bind]. rewrite N.eqb_refl.
  rewrite p_bytes_app by (apply (digest_len 32), (ok_sha256 _ HL)). cbn [bind]. rewrite <- le32_enc, prefixed_enc by exact Hb. cbn [bind].
  destruct b; [congruence|]. unfold block3_hash. rewrite str_eqb_refl. reflexivity.
Qed.
Lemma until3_bad L hash b r : lib_ok L -> List.length hash = 32%nat -> lenN b < 2 ^ 32 -> b <> [] -> hash <> sha256 L b -> forall bs i f,
  Forall (fun b => b <> [] /\ lenN b < 2 ^ 32) bs -> i + lenN bs < 2 ^ 32 -> (List.length bs < f)%nat ->
  p_until (block3 L) is_empty f i (frames3 L i bs ++ frame3 (i + lenN bs) hash b ++ r) = Err (Ex_Checksum ["xml"%string; "block_hash"%string]).
Proof.
  intros HL Hl Hb Hbe Hne. induction bs as [|x bs IH]; intros i f F Hi Hf; (destruct f as [|f]; [lia|]); cbn [p_until].
  - cbn [frames3 app]. rewrite lenN_nil, N.add_0_r in *. unfold block3, frame3. rewrite <- !app_assoc. rewrite <- (le32_enc i), p_int_enc by exact Hi. cbn [bind]. rewrite N.eqb_refl.
    rewrite p_bytes_app by (unfold lenN; rewrite Hl; reflexivity). cbn [bind]. rewrite <- le32_enc, prefixed_enc by exact Hb. cbn [bind].
    destruct b; [congruence|]. unfold block3_hash. apply str_eqb_neq in Hne. rewrite Hne. reflexivity.
  - inversion F as [|? ? [X1 X2] F']; subst. cbn [frames3]. rewrite lenN_cons in *. rewrite <- (app_assoc _ (frames3 _ _ _)).
    rewrite block3_good by (try assumption; lia). cbn [bind]. destruct x as [|y x]; [congruence|]. cbn [is_empty].
    replace (i + (1 + lenN bs)) with (i + 1 + lenN bs) by lia. rewrite IH; [reflexivity|exact F'|lia|cbn [List.length] in Hf; lia].
Qed.
Lemma frames3_len L bs : forall i, (List.length bs <= List.length (frames3 L i bs))%nat.
Proof. induction bs as [|b l IH]; intros i; [cbn; lia|]. cbn [frames3 List.length]. unfold frame3. rewrite !app_length. specialize (IH (i + 1)). cbn [le32 List.length]. lia. Qed.
Lemma bad_block3 L h ssb s comp bs hash b r : lib_ok L -> hbytes Ex_Attribute h H_ssb = Ok ssb -> List.length ssb = 32%nat -> hpsid h = Ok s -> hcomp h = Ok comp ->
  Forall (fun b => b <> [] /\ lenN b < 2 ^ 32) bs -> lenN bs < 2 ^ 32 -> List.length hash = 32%nat -> lenN b < 2 ^ 32 -> b <> [] -> hash <> sha256 L b ->
  match unpack3 L h (ssb ++ frames3 L 0 bs ++ frame3 (lenN bs) hash b ++ r) with Ok _ => False | Err e => classify e = Ex_PayloadChecksum end.
Proof.
  intros HL Hs Hl Hp Hc F Hn Hh Hb Hbe Hne. unfold unpack3. rewrite p_bytes_app by (unfold lenN; rewrite Hl; reflexivity). cbn [bind]. rewrite Hs. cbn [bind].
  rewrite str_eqb_refl, Hp. cbn [bind]. rewrite Hc. cbn [bind]. unfold blocks3, p_repeat.
  pose proof (until3_bad L hash b r HL Hh Hb Hbe Hne bs 0 (S (List.length (frames3 L 0 bs ++ frame3 (lenN bs) hash b ++ r))) F) as U. rewrite N.add_0_l in U.
  rewrite U; [reflexivity|exact Hn|]. rewrite app_length. pose proof (frames3_len L bs 0) as W.
  apply Nat.lt_succ_r. exact (Nat.le_trans _ _ _ W (Nat.le_add_r _ _)).
Qed.

(** *** Saving: header bytes, memory *)
Lemma build_raw L cr k : exists rest, fst (fst (build_kdbx L cr k)) = h_raw (k_hdr k) ++ rest.
Proof.
  unfold build_kdbx. destruct (k_body k) as [b|]; [|exists []; rewrite app_nil_r; reflexivity].
  destruct (h_major (k_hdr k) =? 3).
  - unfold build3. destruct (let* tk := _ in _) as [mk|e]; [|exists []; rewrite app_nil_r; reflexivity].
    destruct (pack3 L (k_hdr k) (b_payload b)) as [m p]. destruct (let* p := p in _) as [ct|e]; cbn [fst]; [eauto|exists []; rewrite app_nil_r; reflexivity].
  - destruct (h_major (k_hdr k) =? 4); [|exists []; rewrite app_nil_r; reflexivity].
    unfold build4. destruct (let* tk := _ in _) as [[[[tk mk] sd] hm]|e]; [|exists []; rewrite app_nil_r; reflexivity].
    destruct (pack4 L (b_payload b)) as [m p]. destruct (let* p := p in _) as [ct|e]; cbn [fst]; rewrite <- ?app_assoc; eauto.
Qed.
Lemma protect_memory L s k t : fst (protect L s k t) = t.
Proof. destruct s; reflexivity. Qed.
Lemma build_memory L cr k : snd (build_kdbx L cr k) = k.
Proof.
  destruct k as [h [b|]]; unfold build_kdbx; cbn [k_hdr k_body]; [|reflexivity]. destruct b as [tk0 mk0 p].
  assert (P3 : fst (pack3 L h p) = p).
  { unfold pack3. destruct p as [[ph px]|]; [|reflexivity]. cbn [p_hdr p_xml]. destruct (hbytes Ex_Attribute h H_ssb); [|reflexivity].
    destruct (hpsid h) as [s|]; [|reflexivity]. destruct (_ =? 32)%nat; [|reflexivity].
    pose proof (protect_memory L s (hbytes Ex_Key h H_pskey) px) as M. destruct (protect _ _ _ _) as [m w]. cbn [fst] in *. subst. reflexivity. }
  assert (P4 : fst (pack4 L p) = p).
  { unfold pack4. destruct p as [[[ih|] px]|]; [|reflexivity|reflexivity]. cbn [p_hdr p_xml]. destruct (build_inner ih); [|reflexivity].
    destruct (i_stream ih) as [s|]; [|reflexivity].
    pose proof (protect_memory L s (i_key ih) px) as M. destruct (protect _ _ _ _) as [m w]. cbn [fst] in *. subst. reflexivity. }
  destruct (h_major h =? 3).
  - unfold build3. cbn [b_payload b_tkey b_mkey]. destruct (let* tk := _ in _) as [mk|e]; [|reflexivity]. destruct (pack3 L h p) as [m w]. cbn [fst] in P3. subst m.
    destruct (let* p := w in _); reflexivity.
  - destruct (h_major h =? 4); [|reflexivity]. unfold build4. cbn [b_payload b_tkey b_mkey].
    destruct (let* tk := _ in _) as [[[[tk mk] sd] hm]|e]; [|reflexivity]. destruct (pack4 L p) as [m w]. cbn [fst] in P4. subst m.
    destruct (let* p := w in _); reflexivity.
Qed.

(** *** The written document *)
Lemma xor_at_model ks b : forall pos, xor_ks ks (N.of_nat pos) b = xor_at ks pos b.
Proof.
  induction b as [|x b IH]; intros pos; cbn [xor_ks xor_at]; [reflexivity|]. rewrite N.lxor_comm. f_equal.
  rewrite <- IH. f_equal. lia.
Qed.
Lemma sealed_app ks l1 o1 : forall pos, sealed ks pos l1 o1 -> forall l2 o2,
  sealed ks (pos + N.to_nat (wlen l1)) l2 o2 -> sealed ks pos (l1 ++ l2) (o1 ++ o2).
Proof.
  induction 1 as [pos|pos s b l out E H IH]; intros l2 o2 H2; cbn [app].
  - cbn in H2. rewrite Nat.add_0_r in H2. exact H2.
  - constructor; [exact E|]. apply IH. replace (pos + List.length b + N.to_nat (wlen l))%nat with (pos + N.to_nat (wlen (s :: l)))%nat; [exact H2|].
    unfold wlen. cbn [fold_right]. rewrite E. cbn [opt_text]. unfold lenN. lia.
Qed.
Section Written.
  Variable ks : N -> N.
  Definition wr (t : xml) : Prop := forall pos t' p', xml_ok t = true -> walk (prot_text ks) (N.of_nat pos) t = Ok (t', p') ->
    p' = N.of_nat pos + wlen (protected_texts t) /\ public_part t' = public_part t /\ sealed ks pos (protected_texts t) (protected_texts t').
  Lemma wr_list l : Forall wr l -> forall pos l' p', forallb xml_ok l = true -> walk_list (prot_text ks) (N.of_nat pos) l = Ok (l', p') ->
    p' = N.of_nat pos + wlen (flat_map protected_texts l) /\ flat_map public_part l' = flat_map public_part l /\
    sealed ks pos (flat_map protected_texts l) (flat_map protected_texts l').
  Proof.
    induction 1 as [|t l Ht Hl IH]; intros pos l' p' Hok H.
    - injection H as <- <-. cbn. split; [lia|]. split; [reflexivity|constructor].
    - cbn [forallb] in Hok. apply andb_prop in Hok. destruct Hok as [O1 O2].
      change (walk_list ?f (N.of_nat pos) (t :: l)) with (let* (k', p) := walk f (N.of_nat pos) t in let* (l'', p') := walk_list f p l in Ok (k' :: l'', p')) in H.
      bokp H t1 p1 E1. bokp H l1 p2 E2. injection H as <- <-. destruct (Ht _ _ _ O1 E1) as (-> & P1 & S1).
      replace (N.of_nat pos + wlen (protected_texts t)) with (N.of_nat (pos + N.to_nat (wlen (protected_texts t)))) in E2 by lia.
      destruct (IH _ _ _ O2 E2) as (-> & P2 & S2). cbn [flat_map]. rewrite P1, P2, wlen_app. split; [lia|]. split; [reflexivity|].
      apply sealed_app; assumption.
  Qed.
  Lemma wr_all t : wr t.
  Proof.
    induction t as [tag attrs text kids IH] using xml_ind'. intros pos t' p' Hok H.
    cbn [xml_ok] in Hok. apply andb_prop in Hok. destruct Hok as [Hok Hkids].
    apply andb_prop in Hok. destruct Hok as [Hok Htext]. apply andb_prop in Hok. destruct Hok as [Hok Hdup]. clear Hok.
    rewrite walk_X in H. pose proof (markedb_protected tag attrs Hdup) as M. rewrite M in H.
    bokp H x1 p1 E1. bokp H kids' p2 E2. injection H as <- <-. cbn [protected_texts public_part].
    destruct text as [s|]; [destruct (markedb tag attrs) eqn:Em|].
    - bokp E1 s' p3 E3. injection E1 as <- <-. unfold prot_text in E3. bok E3 b Eb. injection E3 as <- <-.
      replace (N.of_nat pos + lenN b) with (N.of_nat (pos + List.length b)) in E2 by (unfold lenN; lia).
      destruct (wr_list _ IH _ _ _ Hkids E2) as (-> & P & Sl). rewrite P, wlen_app. cbn [wlen fold_right app]. rewrite Eb. cbn [opt_text].
      split; [unfold lenN; lia|]. split; [reflexivity|]. rewrite xor_at_model. constructor; [exact Eb|exact Sl].
    - injection E1 as <- <-. destruct (wr_list _ IH _ _ _ Hkids E2) as (-> & P & Sl). rewrite P. cbn [app]. auto.
    - injection E1 as <- <-. destruct (wr_list _ IH _ _ _ Hkids E2) as (-> & P & Sl). rewrite P. destruct (markedb tag attrs); cbn [app]; auto.
  Qed.
End Written.
Lemma protect_written L s key t t' : xml_ok t = true -> s <> S_none -> snd (protect L s key t) = Ok t' ->
  public_part t' = public_part t /\ exists k ks, key = Ok k /\ stream_ks L s k = Ok ks /\ sealed ks 0 (protected_texts t) (protected_texts t').
Proof.
  intros Hok Hs H. unfold protect in H. destruct s; [congruence| | |]; cbn [snd] in H; bok H k Ek; bok H ks Eks; bokp H t1 p1 E; injection H as <-;
    destruct (wr_all ks t 0%nat _ _ Hok E) as (_ & P & Sl); split; try exact P; exists k, ks; auto.
Qed.
(** What is encrypted by a successful save. *)
Lemma build4_plain L cr k out k' b : build_kdbx L cr k = (out, Ok tt, k') -> h_major (k_hdr k) = 4 -> k_body k = Some b ->
  exists pl ih s hb t' comp c mk iv ct bl tk seed, b_payload b = Some pl /\ p_hdr pl = Some ih /\ i_stream ih = Ok s /\ build_inner ih = Ok hb /\
    snd (protect L s (i_key ih) (p_xml pl)) = Ok t' /\ hcomp (k_hdr k) = Ok comp /\ hcipher (k_hdr k) = Ok c /\ hbytes Ex_Attribute (k_hdr k) H_iv = Ok iv /\
    transformed4 L cr (k_hdr k) = Ok tk /\ hbytes Ex_Attribute (k_hdr k) H_seed = Ok seed /\ mk = sha256 L (seed ++ tk) /\
    payload_encrypt L c mk iv (compress L comp (hb ++ xml_ser L t')) = Ok ct /\ build_blocks4 L seed tk ct = Ok bl /\
    out = h_raw (k_hdr k) ++ sha256 L (h_raw (k_hdr k)) ++ head_tag L seed tk (h_raw (k_hdr k)) ++ bl.
Proof.
  intros H Hm Hb. unfold build_kdbx in H. rewrite Hb, Hm in H. change (4 =? 3) with false in H. change (4 =? 4) with true in H. cbv iota in H.
  destruct (build4 L cr (k_hdr k) b) as [[o r] b'] eqn:E. injection H as -> -> <-. unfold build4 in E.
  destruct (let* tk := _ in _) as [[[[tk mk] sd] hm]|e] eqn:E1; [|discriminate]. bok E1 tk' T1. bok E1 mk' T2. bok E1 sd' T3. bok E1 hm' T4. injection E1 as -> -> -> ->.
  destruct (pack4 L (b_payload b)) as [m p] eqn:Ep. destruct (let* p := p in _) as [bl|e] eqn:E2; [|discriminate]. injection E as <- _.
  bok E2 p' U1. bok E2 comp U2. bok E2 c U3. bok E2 iv U4. bok E2 ct U5. subst p. unfold pack4 in Ep.
  destruct (b_payload b) as [pl|]; [|discriminate]. destruct (p_hdr pl) as [ih|] eqn:Eih; [|discriminate].
  destruct (build_inner ih) as [hb|] eqn:Ehb; [|discriminate]. destruct (i_stream ih) as [s|] eqn:Es; [|discriminate].
  destruct (protect L s (i_key ih) (p_xml pl)) as [m' w] eqn:Epr. injection Ep as _ Ew. bok Ew t' Et. injection Ew as <-. subst w.
  rewrite head_tag_model, T3 in T4. cbn [bind] in T4. injection T4 as <-. unfold master_key in T2. rewrite T3 in T2. cbn [bind] in T2. injection T2 as <-.
  exists pl, ih, s, hb, t', comp, c, (sha256 L (sd ++ tk)), iv, ct, bl, tk, sd. rewrite Epr. cbn [snd]. rewrite <- !app_assoc. tauto.
Qed.
Lemma build3_plain L cr k out k' b : build_kdbx L cr k = (out, Ok tt, k') -> h_major (k_hdr k) = 3 -> k_body k = Some b ->
  exists pl s t' comp c mk iv ct bl tk seed ssb, b_payload b = Some pl /\ hpsid (k_hdr k) = Ok s /\
    snd (protect L s (hbytes Ex_Key (k_hdr k) H_pskey) (p_xml pl)) = Ok t' /\ hcomp (k_hdr k) = Ok comp /\ hcipher (k_hdr k) = Ok c /\ hbytes Ex_Attribute (k_hdr k) H_iv = Ok iv /\
    transformed3 L cr (k_hdr k) = Ok tk /\ hbytes Ex_Attribute (k_hdr k) H_seed = Ok seed /\ mk = sha256 L (seed ++ tk) /\
    hbytes Ex_Attribute (k_hdr k) H_ssb = Ok ssb /\ build_blocks3 L (compress L comp (xml_ser L t')) = Ok bl /\
    payload_encrypt L c mk iv (ssb ++ bl) = Ok ct /\ out = h_raw (k_hdr k) ++ ct.
Proof.
  intros H Hm Hb. unfold build_kdbx in H. rewrite Hb, Hm in H. change (3 =? 3) with true in H. cbv iota in H.
  destruct (build3 L cr (k_hdr k) b) as [[o r] b'] eqn:E. injection H as -> -> <-. unfold build3 in E.
  destruct (let* tk := _ in _) as [mk|e] eqn:E1; [|discriminate]. bok E1 tk T1. bok E1 mk' T2. injection E1 as ->.
  destruct (pack3 L (k_hdr k) (b_payload b)) as [m p] eqn:Ep. destruct (let* p := p in _) as [ct|e] eqn:E2; [|discriminate]. injection E as <- _.
  bok E2 p' U1. bok E2 c U3. bok E2 iv U4. subst p. unfold pack3 in Ep.
  destruct (b_payload b) as [pl|]; [|injection Ep as _ Ep; bok Ep x0 Ex0; destruct (_ =? _)%nat; discriminate].
  destruct (hbytes Ex_Attribute (k_hdr k) H_ssb) as [ssb|] eqn:Essb; [|discriminate]. destruct (hpsid (k_hdr k)) as [s|] eqn:Es; [|discriminate].
  destruct (_ =? 32)%nat; [|discriminate].
  destruct (protect L s _ (p_xml pl)) as [m' w] eqn:Epr. injection Ep as _ Ew. bok Ew t' Et. bok Ew comp Ec. bok Ew bl Eb. injection Ew as <-. subst w.
  unfold master_key in T2. bok T2 sd T3. injection T2 as <-.
  exists pl, s, t', comp, c, (sha256 L (sd ++ tk)), iv, ct, bl, tk, sd, ssb. rewrite Epr. cbn [snd]. tauto.
Qed.

(** *** decrypt=False *)
Lemma nodecrypt4 L cr h tk seed q : lib_ok L -> c_dec cr = false -> header4 h -> transformed4 L cr h = Ok tk -> hbytes Ex_Attribute h H_seed = Ok seed ->
  open_kdbx L cr (h_raw h ++ sha256 L (h_raw h) ++ q) = Ok (MkKdbx h (Some (MkBody tk (sha256 L (seed ++ tk)) None)), q).
Proof.
  intros HL Hc Hh Ht Hs. rewrite (open4 _ _ _ _ _ Hh Ht). unfold body4. rewrite Ht. cbn [bind]. unfold master_key. rewrite Hs. cbn [bind].
  rewrite p_bytes_app by (apply (digest_len 32), (ok_sha256 _ HL)). cbn [bind]. rewrite str_eqb_refl, Hc. reflexivity.
Qed.
Lemma nodecrypt3 L cr h tk seed q : c_dec cr = false -> header3 h -> transformed3 L cr h = Ok tk -> hbytes Ex_Attribute h H_seed = Ok seed ->
  open_kdbx L cr (h_raw h ++ q) = Ok (MkKdbx h (Some (MkBody tk (sha256 L (seed ++ tk)) None)), q).
Proof.
  intros Hc Hh Ht Hs. rewrite (open3 _ _ _ _ Hh). unfold body3. rewrite Ht. cbn [bind]. unfold master_key. rewrite Hs. cbn [bind]. rewrite Hc. reflexivity.
Qed.
(** Two-time pad. *)
Lemma xor_ks_nth ks d : forall pos i, (i < List.length d)%nat -> nth i (xor_ks ks pos d) 0 = N.lxor (nth i d 0) (ks (pos + N.of_nat i)).
Proof.
  induction d as [|x d IH]; intros pos i Hi; [cbn in Hi; lia|]. destruct i as [|i]; cbn [xor_ks nth].
  - rewrite N.add_0_r. reflexivity.
  - rewrite IH by (cbn in Hi; lia). do 2 f_equal. lia.
Qed.
Lemma two_time_pad L mk iv d1 d2 c1 c2 i : payload_encrypt L C_chacha mk iv d1 = Ok c1 -> payload_encrypt L C_chacha mk iv d2 = Ok c2 ->
  (i < List.length d1)%nat -> (i < List.length d2)%nat -> N.lxor (nth i c1 0) (nth i c2 0) = N.lxor (nth i d1 0) (nth i d2 0).
Proof.
  cbn [payload_encrypt]. intros H1 H2 I1 I2. bok H1 u U. injection H1 as <-. bok H2 u2 U2. injection H2 as <-.
  rewrite !xor_ks_nth by assumption. set (k := chacha_ks L mk iv (0 + N.of_nat i)). clearbody k. apply N.bits_inj. intros j. rewrite !N.lxor_spec.
  destruct (N.testbit (nth i d1 0) j), (N.testbit (nth i d2 0) j), (N.testbit k j); reflexivity.
Qed.
Lemma reload_protected t : protected_texts (reload_view t) = filter (fun s => negb (str_eqb s [])) (protected_texts t).
Proof.
  induction t as [tag attrs text kids IH] using xml_ind'. cbn [reload_view protected_texts].
  assert (K : flat_map protected_texts (map reload_view kids) = filter (fun s => negb (str_eqb s [])) (flat_map protected_texts kids)).
  { induction IH as [|k l Hk Hl IH]; [reflexivity|]. cbn [map flat_map]. rewrite Hk, IH, filter_app. reflexivity. }
  rewrite K. destruct (markedb tag attrs); [|reflexivity]. destruct text as [[|c s]|]; reflexivity.
Qed.
