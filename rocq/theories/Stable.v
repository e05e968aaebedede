(** Saving again what was saved and opened writes the same bytes.  Vocabulary and proofs; models no code. *)
From Coq Require Import ZifyBool ZifyNat ZifyN.
From Verif Require Import Base Base64 PyStr Xml Xml_facts Tree XPath Time FindSpec Db Api ApiSpec StructSpec IntegritySpec Cbc Cbc_facts Lib Keyfile Construct Kdbx KdbxSpec Kdbx_rt Kdbx_file Kdbx_v3 Kdbx_claims Save Save_facts Object Clean ObjectSpec Object_facts Object_claims.

(** A document without empty texts and without texts of only white space in front of child elements. *)
Fixpoint compact (t : xml) : Prop :=
  let 'X tag attrs text kids := t in
  match text with None => True | Some s => s <> [] /\ (kids = [] \/ exists c, In c s /\ ~ In c [32; 9; 10; 13]) end /\
  (fix go l := match l with [] => True | x :: l => compact x /\ go l end) kids.

Lemma compact_text text (kids : list xml) : match text with None => True | Some s => s <> [] /\ (kids = [] \/ exists c, In c s /\ ~ In c [32; 9; 10; 13]) end -> norm_text text kids = text.
Proof.
  destruct text as [s|]; [|reflexivity]. intros (Hne & H). unfold norm_text, keep_text. destruct s as [|a s]; [congruence|]. destruct kids as [|x kids]; [reflexivity|]. destruct H as [H|(c & Hc & Hn)]; [discriminate|].
  destruct (forallb blank_char (a :: s)) eqn:E; [|reflexivity]. exfalso. rewrite forallb_forall in E. specialize (E c Hc). apply Hn. unfold blank_char in E. cbn [In].
  repeat (apply orb_prop in E; destruct E as [E|E]); apply N.eqb_eq in E; subst; auto 10.
Qed.
Lemma compact_views t : compact t -> norm t = t /\ reload_view t = t.
Proof.
  induction t as [tag attrs text kids IH] using xml_ind'. cbn [compact norm reload_view]. intros (H1 & H2). pose proof (compact_text _ _ H1) as E.
  assert (K : map norm kids = kids /\ map reload_view kids = kids).
  { clear - IH H2. induction kids as [|x l IHl]; [split; reflexivity|]. inversion IH; subst. destruct H2 as (A & B). destruct (H1 A) as (E1 & E2). destruct (IHl H3 B) as (E3 & E4). cbn [map]. rewrite E1, E2, E3, E4. split; reflexivity. }
  destruct K as (K1 & K2). rewrite K1, K2, E. split; [reflexivity|]. destruct (markedb tag attrs); [|reflexivity]. destruct text as [[|a s]|]; [destruct H1 as (H1 & _); congruence|reflexivity|reflexivity].
Qed.
Lemma compact_shown k t : compact t -> shown k t = t.
Proof. intros H. destruct (compact_views t H) as (E1 & E2). unfold shown. destruct (stream_id_of k) as [s|]; [|reflexivity]. unfold view_for. destruct s; assumption. Qed.
Lemma view_idem s t : view_for s (view_for s t) = view_for s t.
Proof. unfold view_for. destruct s; first [apply norm_idem|apply reload_view_idem]. Qed.

(** What is written depends on header, contents and derived key. *)
Definition derives (L : lib) (cr : creds) (h : header) : res bytes := if h_major h =? 3 then transformed3 L cr h else transformed4 L cr h.
Lemma build_same L cr cr2 k k2 out : k_hdr k2 = k_hdr k -> contents k2 = contents k -> k_body k <> None -> k_body k2 <> None -> (h_major (k_hdr k) = 3 \/ h_major (k_hdr k) = 4) -> derives L cr2 (k_hdr k) = derives L cr (k_hdr k) ->
  fst (build_kdbx L cr k) = (out, Ok tt) -> fst (build_kdbx L cr2 k2) = (out, Ok tt).
Proof.
  unfold contents, derives, build_kdbx. destruct k as [h b], k2 as [h2 b2]. cbn [k_hdr k_body]. intros -> Ec Hb Hb2 Hv Hd H. destruct b as [b|]; [|congruence]. destruct b2 as [b2|]; [|congruence].
  destruct Hv as [Hv|Hv]; rewrite Hv in *; cbn [N.eqb Pos.eqb] in *.
  - unfold build3 in *. rewrite Hd, Ec in *. cbv zeta in *. destruct (let* t0 := transformed3 L cr h in let* mk := master_key L h t0 in Ok mk) as [mk|x]; [|exact H]. destruct (pack3 L h (b_payload b)) as [m p]. destruct (let* p0 := p in let* c := hcipher h in let* iv := hbytes Ex_Attribute h H_iv in payload_encrypt L c mk iv p0); exact H.
  - unfold build4 in *. rewrite Hd, Ec in *. cbv zeta in *. destruct (let* tk := transformed4 L cr h in let* mk := master_key L h tk in let* seed := hbytes Ex_Attribute h H_seed in let* hm := header_hmac L h tk in Ok (tk, mk, seed, hm)) as [[[[tk mk] sd] hm]|x]; [|exact H]. destruct (pack4 L (b_payload b)) as [m p].
    destruct (let* p0 := p in let* comp := hcomp h in let* c := hcipher h in let* iv := hbytes Ex_Attribute h H_iv in let* ct := payload_encrypt L c mk iv (compress L comp p0) in build_blocks4 L sd tk ct); exact H.
Qed.
Lemma edited_id k t : doc_of k = Some t -> edited k (bins_of k) t = k.
Proof.
  unfold doc_of, edited, bins_of. destruct k as [h [[a b [[[[bs it]|] x]|]]|]]; cbn; try discriminate; intros [= ->]; reflexivity.
Qed.
Lemma current_loaded k d : load k = Some d -> current (k, Some d) = k.
Proof.
  intros El. destruct (load_some k d El) as (t & Ht & Hd & Hb & _). unfold current, document in *. destruct (d_forest d) as [|e F]; [discriminate|]. cbn [hd_error option_map] in Hd. injection Hd as Hd.
  rewrite Hd, Hb. now apply edited_id.
Qed.

(** The bytes built for an object that calls can produce, what they open as, and what that builds. *)
Lemma build_again L k d cr key : lib_ok L -> sound_db L k d -> derives L cr (k_hdr k) = Ok key -> moderate L (current (k, Some d)) key ->
  exists out, fst (build_kdbx L cr (current (k, Some d))) = (out, Ok tt) /\
    forall cr2, c_dec cr2 = true -> derives L cr2 (k_hdr k) = Ok key ->
      exists k2 r, open_kdbx L cr2 out = Ok (k2, r) /\ k_hdr k2 = k_hdr k /\ stream_id_of k2 = stream_id_of k /\ doc_of k2 = option_map (shown k) (document d) /\ (h_major (k_hdr k) = 4 -> bins_of k2 = d_bins d) /\
      (option_map (shown k) (document d) = document d -> forall cr3, derives L cr3 (k_hdr k) = Ok key -> fst (build_kdbx L cr3 k2) = (out, Ok tt)).
Proof.
  intros HL ((v & cr0 & data & Hv & (Hdat & Hc0 & Hm & r0 & Op)) & (W & C) & S & _ & _) Hk ((M4 & M3) & M0). pose proof (fun b t => opened_edits v L cr0 data k b t Hv (conj Hdat (conj Hc0 (conj Hm (ex_intro _ r0 Op))))) as De. apply open_p in Op. unfold derives, current, document in *. destruct (d_forest d) as [|t F] eqn:EF; [destruct W; congruence|]. cbn [hd_error option_map].
  assert (Hx : xml_ok (erase t) = true) by (now inversion C). pose proof (M0 _ (De (d_bins d) (erase t))) as Hmo. destruct Hv as [-> | ->].
  - rewrite Hm in *. cbn [N.eqb Pos.eqb] in *. destruct (save3_full L cr0 data k r0 cr key (d_bins d) (erase t) HL Hdat Hc0 Op Hm Hk Hx (M3 Hm)) as (out & ct & Sv & _ & _ & G). exists out. rewrite Sv. split; [reflexivity|].
    intros cr2 Hc Hk2. destruct (G Hmo cr2 [] Hc Hk2 ltac:(reflexivity)) as (k2 & s & P & H1 & Hb & H2 & H3 & H4 & H5 & H6 & H7). rewrite app_nil_r in P. exists k2, []. split; [apply open_p, P|]. split; [exact H1|]. split; [congruence|]. unfold shown. rewrite H2. split; [exact H4|]. split; [discriminate|].
    intros Hs cr3 Hk3. injection Hs as Hs. rewrite Hs in H5. apply (build_same L cr cr3 (edited k (d_bins d) (erase t)) k2 out); try assumption.
    + unfold edited. cbn [k_body]. destruct (k_body k); congruence.
    + left. exact Hm.
    + unfold derives. cbn [edited k_hdr]. rewrite Hm. cbn [N.eqb Pos.eqb]. congruence.
    + rewrite Sv. reflexivity.
  - rewrite Hm in *. cbn [N.eqb Pos.eqb] in *. destruct (save4_full L cr0 data k r0 cr key (d_bins d) (erase t) HL Hdat Hc0 Op Hm Hk Hx S (M4 Hm)) as (out & Sv & G). exists out. rewrite Sv. split; [reflexivity|].
    intros cr2 Hc Hk2. destruct (G Hmo cr2 [] Hc Hk2) as (k2 & s & P & H1 & Hb & H2 & H3 & H4 & H5 & H6 & H7). rewrite app_nil_r in P. exists k2, []. split; [apply open_p, P|]. split; [exact H1|]. split; [congruence|]. unfold shown. rewrite H2. split; [exact H4|]. split; [auto|].
    intros Hs cr3 Hk3. injection Hs as Hs. rewrite Hs in H5. apply (build_same L cr cr3 (edited k (d_bins d) (erase t)) k2 out); try assumption.
    + unfold edited. cbn [k_body]. destruct (k_body k); congruence.
    + right. exact Hm.
    + unfold derives. cbn [edited k_hdr]. rewrite Hm. cbn [N.eqb Pos.eqb]. congruence.
    + rewrite Sv. reflexivity.
Qed.

(** What opening the saved file gives. *)
Lemma reopened L R Zl lost e w o fn tk p tmp k d key w' : lib_ok L -> xml_sound L -> reached L R Zl lost o -> o_kdbx o = Some (k, Some d) ->
  goes_to o fn p -> apart p tmp (o_keyfile o) -> env_ok e -> key_for L w (o_password o) (o_keyfile o) tk (k_hdr k) = Ok key -> moderate L (current (k, Some d)) key ->
  save L e w o fn tk = (Ok tt, o, w') ->
  forall w2 pw2 kf2 tk2 o2 w3, w_fs w2 p = w_fs w' p -> key_for L w2 pw2 kf2 tk2 (k_hdr k) = Ok key -> open_db L lost w2 (F_path p) pw2 kf2 tk2 true = (Ok o2, w3) ->
  exists k2 d2 out, o_kdbx o2 = Some (k2, Some d2) /\ o_password o2 = pw2 /\ o_keyfile o2 = kf2 /\ o_filename o2 = Some (F_path p) /\ current (k2, Some d2) = k2 /\
    k_hdr k2 = k_hdr k /\ stream_id_of k2 = stream_id_of k /\ document d2 = option_map (shown k) (document d) /\ w_fs w' p = Some out /\
    (option_map (shown k) (document d) = document d -> forall cr3, derives L cr3 (k_hdr k) = Ok key -> fst (build_kdbx L cr3 k2) = (out, Ok tt)).
Proof.
  intros HL HX Hr Ec G A He Hk M Sv w2 pw2 kf2 tk2 o2 w3 Hw Hk2 Hop. pose proof (reached_sound L R Zl lost o HL HX Hr) as So. unfold sound in So. rewrite Ec in So.
  rewrite (save_path L e w o fn tk p _ tmp G Ec A) in Sv. cbv zeta in Sv. destruct (build_again L k d _ key HL So Hk M) as (out & Eb & Op). rewrite Eb in Sv. cbn [fst snd] in Sv. destruct A as (Ht & Hne & _).
  injection Sv as Sr Sw. destruct (save_success e (w_fs w) p tmp out He Ht Hne (Ok tt) Sr) as (_ & F & _). assert (Fw : w_fs w' p = Some out) by (subst w'; rewrite kf_after_fs; exact F). rewrite Fw in Hw.
  destruct (Op (MkCreds pw2 (kf_src w2 kf2) tk2 true) eq_refl Hk2) as (k2 & r & P & H1 & H2 & H3 & _ & H4).
  unfold open_db, read in Hop. cbn [source] in Hop. rewrite Hw, P in Hop. destruct (document d) as [t|] eqn:Ed; [|exfalso; destruct So as (_ & ((W & _) & _) & _); unfold document in Ed; destruct (d_forest d); [congruence|discriminate]]. cbn [option_map] in *.
  destruct (load_doc _ _ H3) as (d2 & El). rewrite El in Hop. injection Hop as <- _. exists k2, d2, out. cbn [o_kdbx o_password o_keyfile o_filename]. destruct (load_some _ _ El) as (t2 & T1 & T2 & _).
  split; [reflexivity|]. split; [reflexivity|]. split; [reflexivity|]. split; [reflexivity|]. split; [exact (current_loaded _ _ El)|]. split; [exact H1|]. split; [exact H2|]. split; [congruence|]. split; [exact Fw|exact H4].
Qed.
(** Saving the reopened database. *)
Lemma same_bytes L R Zl lost e w o fn tk p tmp k d key w' : lib_ok L -> xml_sound L -> reached L R Zl lost o -> o_kdbx o = Some (k, Some d) ->
  goes_to o fn p -> apart p tmp (o_keyfile o) -> env_ok e -> key_for L w (o_password o) (o_keyfile o) tk (k_hdr k) = Ok key -> moderate L (current (k, Some d)) key ->
  save L e w o fn tk = (Ok tt, o, w') -> option_map (shown k) (document d) = document d ->
  forall w2 pw2 kf2 tk2 o2 w3, w_fs w2 p = w_fs w' p -> key_for L w2 pw2 kf2 tk2 (k_hdr k) = Ok key -> open_db L lost w2 (F_path p) pw2 kf2 tk2 true = (Ok o2, w3) ->
  forall e2 w4 fn2 tk4 q tmp2 w5, goes_to o2 fn2 q -> apart q tmp2 kf2 -> env_ok e2 -> key_for L w4 pw2 kf2 tk4 (k_hdr k) = Ok key -> save L e2 w4 o2 fn2 tk4 = (Ok tt, o2, w5) ->
  w_fs w5 q = w_fs w' p.
Proof.
  intros HL HX Hr Ec G A He Hk M Sv Hs w2 pw2 kf2 tk2 o2 w3 Hw Hk2 Hop e2 w4 fn2 tk4 q tmp2 w5 G2 A2 He2 Hk4 Sv2.
  destruct (reopened L R Zl lost e w o fn tk p tmp k d key w' HL HX Hr Ec G A He Hk M Sv w2 pw2 kf2 tk2 o2 w3 Hw Hk2 Hop) as (k2 & d2 & out & E1 & E2 & E3 & E4 & E5 & E6 & E7 & E8 & E9 & B).
  rewrite <- E3 in A2. rewrite (save_path L e2 w4 o2 fn2 tk4 q _ tmp2 G2 E1 A2) in Sv2. cbv zeta in Sv2. rewrite E5, E2, E3 in Sv2. rewrite (B Hs (MkCreds pw2 (kf_src w4 kf2) tk4 true)) in Sv2.
  2:{ exact Hk4. }
  cbn [fst snd] in Sv2. destruct A2 as (Ht & Hne & _). injection Sv2 as Sr Sw. destruct (save_success e2 (w_fs w4) q tmp2 out He2 Ht Hne (Ok tt) Sr) as (_ & F & _). rewrite E9. subst w5. rewrite kf_after_fs. exact F.
Qed.
(** The document of a reopened database is settled. *)
Lemma settles L R Zl lost e w o fn tk p tmp k d key w' : lib_ok L -> xml_sound L -> reached L R Zl lost o -> o_kdbx o = Some (k, Some d) ->
  goes_to o fn p -> apart p tmp (o_keyfile o) -> env_ok e -> key_for L w (o_password o) (o_keyfile o) tk (k_hdr k) = Ok key -> moderate L (current (k, Some d)) key ->
  save L e w o fn tk = (Ok tt, o, w') ->
  forall w2 pw2 kf2 tk2 o2 w3, w_fs w2 p = w_fs w' p -> key_for L w2 pw2 kf2 tk2 (k_hdr k) = Ok key -> open_db L lost w2 (F_path p) pw2 kf2 tk2 true = (Ok o2, w3) ->
  exists k2 d2, o_kdbx o2 = Some (k2, Some d2) /\ k_hdr k2 = k_hdr k /\ option_map (shown k2) (document d2) = document d2.
Proof.
  intros HL HX Hr Ec G A He Hk M Sv w2 pw2 kf2 tk2 o2 w3 Hw Hk2 Hop.
  destruct (reopened L R Zl lost e w o fn tk p tmp k d key w' HL HX Hr Ec G A He Hk M Sv w2 pw2 kf2 tk2 o2 w3 Hw Hk2 Hop) as (k2 & d2 & out & E1 & _ & _ & _ & _ & E6 & E7 & E8 & _).
  exists k2, d2. split; [exact E1|]. split; [exact E6|]. rewrite E8. destruct (document d) as [t|]; [|reflexivity]. cbn [option_map]. f_equal. unfold shown. rewrite E7. destruct (stream_id_of k) as [s|]; [apply view_idem|reflexivity].
Qed.
(** From the second save on the file stays the same. *)
Lemma round_trips L R Zl lost e w o fn tk p tmp k d key w' : lib_ok L -> xml_sound L -> reached L R Zl lost o -> o_kdbx o = Some (k, Some d) ->
  goes_to o fn p -> apart p tmp (o_keyfile o) -> env_ok e -> key_for L w (o_password o) (o_keyfile o) tk (k_hdr k) = Ok key -> moderate L (current (k, Some d)) key ->
  save L e w o fn tk = (Ok tt, o, w') ->
  forall w2 o2 w3, w_fs w2 p = w_fs w' p -> bytes_world w2 -> open_db L lost w2 (F_path p) None N_none (Some key) true = (Ok o2, w3) -> (forall k2 d2, o_kdbx o2 = Some (k2, Some d2) -> moderate L (current (k2, Some d2)) key) ->
  forall e2 w4 w5, env_ok e2 -> save L e2 w4 o2 F_none (Some key) = (Ok tt, o2, w5) ->
  forall w6 o3 w7, w_fs w6 p = w_fs w5 p -> open_db L lost w6 (F_path p) None N_none (Some key) true = (Ok o3, w7) ->
  forall e3 w8 w9, env_ok e3 -> save L e3 w8 o3 F_none (Some key) = (Ok tt, o3, w9) ->
  w_fs w9 p = w_fs w5 p.
Proof.
  intros HL HX Hr Ec G A He Hk M Sv w2 o2 w3 Hw Hbw Hop M2 e2 w4 w5 He2 Sv2 w6 o3 w7 Hw6 Hop3 e3 w8 w9 He3 Sv3.
  pose proof (reached_sound L R Zl lost o HL HX Hr) as So. unfold sound in So. rewrite Ec in So.
  assert (K : forall w0, key_for L w0 None N_none (Some key) (k_hdr k) = Ok key) by (intros w0; apply (key_of_tk L w0 None key k d So); discriminate).
  destruct (settles L R Zl lost e w o fn tk p tmp k d key w' HL HX Hr Ec G A He Hk M Sv w2 None N_none (Some key) o2 w3 Hw (K w2) Hop) as (k2 & d2 & E1 & E2 & E3).
  destruct (reopened L R Zl lost e w o fn tk p tmp k d key w' HL HX Hr Ec G A He Hk M Sv w2 None N_none (Some key) o2 w3 Hw (K w2) Hop) as (k2' & d2' & out & E1' & Ep & Ekf & Ef & _). rewrite E1 in E1'. injection E1' as <- <-.
  pose proof (R_open L R Zl lost w2 (F_path p) None N_none (Some key) true o2 w3 Hbw Hop) as Hr2. destruct A as (A1 & A2 & A3).
  assert (Ap : apart p tmp N_none) by (split; [exact A1|split; [exact A2|discriminate]]).
  apply (same_bytes L R Zl lost e2 w4 o2 F_none (Some key) p tmp k2 d2 key w5 HL HX Hr2 E1) with (w2 := w6) (pw2 := None) (kf2 := N_none) (tk2 := Some key) (o2 := o3) (w3 := w7) (e2 := e3) (w4 := w8) (fn2 := F_none) (tk4 := Some key) (tmp2 := tmp); try assumption; try (rewrite E2; apply K).
  - right. auto.
  - rewrite Ekf. exact Ap.
  - rewrite Ep, Ekf, E2. apply K.
  - now apply M2.
  - right. split; [reflexivity|]. unfold open_db, read in Hop3. destruct (source w6 (F_path p)); [|discriminate]. cbv zeta in Hop3. destruct (open_kdbx L _ _) as [[kk rr]|]; [|discriminate]. injection Hop3 as <- _. reflexivity.
Qed.
