(** The statements of Prop_Object.v, derived. *)
From Coq Require Import ZifyBool ZifyNat ZifyN.
From Verif Require Import Base Base64 PyStr Xml Tree XPath Time FindSpec Db Api ApiSpec StructSpec CredSpec IntegritySpec Lib Keyfile Construct Kdbx KdbxSpec Kdbx_facts Kdbx_rt Kdbx_inner Kdbx_file Kdbx_v3 Kdbx_auth Kdbx_claims Save Save_facts Object Heap Prim Struct_bin Cred Clean ObjectSpec Object_facts NoDecrypt.

Lemma save_key L R Zl lost e w o fn tk p tmp k d w' : lib_ok L -> xml_sound L -> reached L R Zl lost o -> o_kdbx o = Some (k, Some d) -> goes_to o fn p -> apart p tmp (o_keyfile o) -> env_ok e ->
  save L e w o fn tk = (Ok tt, o, w') -> exists key, key_for L w (o_password o) (o_keyfile o) tk (k_hdr k) = Ok key.
Proof.
  intros HL HX Hr Ec G A He Sv. destruct (key_for L w (o_password o) (o_keyfile o) tk (k_hdr k)) as [key|x] eqn:E; [eauto|]. exfalso.
  pose proof (reached_sound L R Zl lost o HL HX Hr) as So. unfold sound in So. rewrite Ec in So. pose proof (build_no_key L _ k d x So E) as B. rewrite (save_path L e w o fn tk p _ tmp G Ec A) in Sv. cbv zeta in Sv. injection Sv as Sr _.
  destruct A as (Ht & Hne & _). destruct (save_success e (w_fs w) p tmp _ He Ht Hne _ Sr) as (X & _). unfold current in B. rewrite B in X. discriminate.
Qed.
(** Which key was used, and what opens. *)
Lemma saved_opens' L R Zl lost e w o fn tk p tmp k d w' : lib_ok L -> xml_sound L -> reached L R Zl lost o -> o_kdbx o = Some (k, Some d) ->
  goes_to o fn p -> apart p tmp (o_keyfile o) -> env_ok e -> (forall key, key_for L w (o_password o) (o_keyfile o) tk (k_hdr k) = Ok key -> moderate L (current (k, Some d)) key) ->
  save L e w o fn tk = (Ok tt, o, w') ->
  exists key, key_for L w (o_password o) (o_keyfile o) tk (k_hdr k) = Ok key /\
  forall w2 pw2 kf2 tk2, w_fs w2 p = w_fs w' p -> key_for L w2 pw2 kf2 tk2 (k_hdr k) = Ok key ->
    exists o2 w3, open_db L lost w2 (F_path p) pw2 kf2 tk2 true = (Ok o2, w3) /\ same_contents k d o2 /\ o_password o2 = pw2 /\ o_keyfile o2 = kf2 /\ o_filename o2 = Some (F_path p).
Proof.
  intros HL HX Hr Ec G A He M Sv. destruct (save_key L R Zl lost e w o fn tk p tmp k d w' HL HX Hr Ec G A He Sv) as (key & Hk). exists key. split; [exact Hk|].
  exact (saved_opens L R Zl lost e w o fn tk p tmp k d key w' HL HX Hr Ec G A He Hk (M key Hk) Sv).
Qed.
(** The same credentials open the file. *)
Lemma saved_reopens L R Zl lost e w o fn tk p tmp k d w' : lib_ok L -> xml_sound L -> reached L R Zl lost o -> o_kdbx o = Some (k, Some d) ->
  goes_to o fn p -> apart p tmp (o_keyfile o) -> steady w p (o_keyfile o) -> env_ok e -> (forall key, key_for L w (o_password o) (o_keyfile o) tk (k_hdr k) = Ok key -> moderate L (current (k, Some d)) key) ->
  save L e w o fn tk = (Ok tt, o, w') ->
  exists o2 w3, open_db L lost w' (F_path p) (o_password o) (o_keyfile o) tk true = (Ok o2, w3) /\ same_contents k d o2 /\ o_password o2 = o_password o /\ o_keyfile o2 = o_keyfile o /\ o_filename o2 = Some (F_path p).
Proof.
  intros HL HX Hr Ec G A St He M Sv. destruct (saved_opens' L R Zl lost e w o fn tk p tmp k d w' HL HX Hr Ec G A He M Sv) as (key & Hk & Op).
  apply Op; [reflexivity|]. rewrite <- Hk. apply key_same. exact (steady_kf L e w o fn tk p tmp k d w' _ G Ec A St Sv).
Qed.
Lemma read_open L lost w o f pw kf tk dec : f <> F_none -> forall o2 w3, open_db L lost w f pw kf tk dec = (Ok o2, w3) -> read L lost w o f pw kf tk dec = (Ok tt, o2, w3).
Proof.
  intros Hf o2 w3 H. unfold open_db, read in *. assert (E : forall x, (match f with F_none => x | _ => Some f end) = Some f) by (now destruct f). rewrite !E in *. destruct (source w f); [|discriminate].
  cbv zeta in *. destruct (open_kdbx L _ _) as [[k r]|]; [|discriminate]. now injection H as <- <-.
Qed.
Lemma saved_reloads L R Zl lost e w o p tmp k d w' : lib_ok L -> xml_sound L -> reached L R Zl lost o -> o_kdbx o = Some (k, Some d) -> o_filename o = Some (F_path p) ->
  apart p tmp (o_keyfile o) -> steady w p (o_keyfile o) -> env_ok e -> (forall key, key_for L w (o_password o) (o_keyfile o) None (k_hdr k) = Ok key -> moderate L (current (k, Some d)) key) ->
  save L e w o F_none None = (Ok tt, o, w') ->
  exists o2 w3, reload L lost w' o = (Ok tt, o2, w3) /\ same_contents k d o2 /\ o_password o2 = o_password o /\ o_keyfile o2 = o_keyfile o /\ o_filename o2 = o_filename o.
Proof.
  intros HL HX Hr Ec Ef A St He M Sv. destruct (saved_reopens L R Zl lost e w o F_none None p tmp k d w' HL HX Hr Ec (or_intror (conj eq_refl Ef)) A St He M Sv) as (o2 & w3 & E & S & E1 & E2 & E3).
  exists o2, w3. unfold reload. rewrite Ef. split; [apply read_open; [discriminate|exact E]|]. repeat split; auto.
Qed.

(** *** Transformed keys *)
Lemma key_of_tk L w pw key k d : sound_db L k d -> (forall p, pw = Some p -> exists b, Utf8.utf8_encode p = Ok b) -> key_for L w pw N_none (Some key) (k_hdr k) = Ok key.
Proof.
  intros ((v & cr & data & Hv & (_ & Hc & Hm & r & Op)) & _) Hp. unfold key_for. cbv zeta. cbn [kf_src]. rewrite Hm. destruct Hv as [-> | ->]; [reflexivity|]. cbn [N.eqb Pos.eqb]. apply open_p in Op.
  destruct (p_kdbx_inv4 _ _ _ _ _ Op Hm) as (r1 & b & _ & B & _). unfold body4 in B. bok B tk E1. unfold transformed4 in E1. bok E1 kc E2. bok E1 kdf E3. unfold transformed4. cbn [c_pw c_kf c_tk]. rewrite E3.
  unfold key_composite. cbn [kf_read]. destruct pw as [p|]; [destruct (Hp p eq_refl) as (bb & ->)|]; reflexivity.
Qed.
(** A database saved with a key given to save opens with that key. *)
Lemma saved_with_key L R Zl lost e w o fn key p tmp k d w' : lib_ok L -> xml_sound L -> reached L R Zl lost o -> o_kdbx o = Some (k, Some d) ->
  goes_to o fn p -> apart p tmp (o_keyfile o) -> env_ok e -> moderate L (current (k, Some d)) key ->
  save L e w o fn (Some key) = (Ok tt, o, w') ->
  forall w2, w_fs w2 p = w_fs w' p -> exists o2 w3, open_db L lost w2 (F_path p) None N_none (Some key) true = (Ok o2, w3) /\ same_contents k d o2.
Proof.
  intros HL HX Hr Ec G A He M Sv w2 Hw. pose proof (reached_sound L R Zl lost o HL HX Hr) as So. unfold sound in So. rewrite Ec in So.
  assert (K : forall key', key_for L w (o_password o) (o_keyfile o) (Some key) (k_hdr k) = Ok key' -> key' = key).
  { intros key' H. unfold key_for in H. cbv zeta in H. destruct (h_major (k_hdr k) =? 3); [now injection H|]. unfold transformed4 in H. bok H kc E1. bok H kdf E2. cbn [c_tk] in H. now injection H. }
  destruct (saved_opens' L R Zl lost e w o fn (Some key) p tmp k d w' HL HX Hr Ec G A He) as (key' & Hk & Op); [intros key' H; now rewrite (K key' H)|exact Sv|].
  rewrite (K key' Hk) in *. destruct (Op w2 None N_none (Some key) Hw) as (o2 & w3 & E & S & _); [apply (key_of_tk L w2 None key k d So); discriminate|]. eauto.
Qed.
(** The transformed_key attribute of an opened database is the key of its file. *)
Lemma opened_key L cr data k r b : open_kdbx L cr data = Ok (k, r) -> k_body k = Some b -> (if h_major (k_hdr k) =? 3 then transformed3 L cr (k_hdr k) else transformed4 L cr (k_hdr k)) = Ok (b_tkey b).
Proof.
  intros H Hb. apply open_p in H. unfold p_kdbx in H. bokp H h r1 E1. destruct (h_major h =? 3) eqn:E3.
  - bokp H b' r2 E2. injection H as <- <-. cbn [k_hdr k_body] in *. injection Hb as ->. rewrite E3. unfold body3 in E2. bok E2 tk T. bok E2 mk T2. rewrite T. destruct (c_dec cr).
    + bok E2 c T3. bok E2 iv T4. bok E2 p T5. bok E2 pl T6. now injection E2 as <- <-.
    + now injection E2 as <- <-.
  - destruct (h_major h =? 4) eqn:E4; [|injection H as <- <-; discriminate]. bokp H b' r2 E2. injection H as <- <-. cbn [k_hdr k_body] in *. injection Hb as ->. rewrite E3. unfold body4 in E2. bok E2 tk T. bok E2 mk T2. rewrite T. bokp E2 s q T3. destruct (str_eqb _ _); [|discriminate]. destruct (c_dec cr).
    + bokp E2 m q2 T4. bok E2 hm T5. destruct (str_eqb _ _); [|discriminate]. bok E2 comp T6. bok E2 c T7. bok E2 seed T8. bokp E2 ct q3 T9. bok E2 iv T10. bok E2 p T11. bok E2 x T12. bok E2 pl T13. now injection E2 as <- <-.
    + now injection E2 as <- <-.
Qed.
(** The result of opening depends on the credentials through the derived key only. *)
Lemma open_by_key L cr1 cr2 data k r : c_dec cr1 = c_dec cr2 -> open_kdbx L cr1 data = Ok (k, r) ->
  (if h_major (k_hdr k) =? 3 then transformed3 L cr2 (k_hdr k) else transformed4 L cr2 (k_hdr k)) = (if h_major (k_hdr k) =? 3 then transformed3 L cr1 (k_hdr k) else transformed4 L cr1 (k_hdr k)) ->
  open_kdbx L cr2 data = Ok (k, r).
Proof.
  intros Hc H Ht. apply open_p in H. apply open_p. unfold p_kdbx in *. bokp H h r1 E1. rewrite E1. cbn [bind]. destruct (h_major h =? 3) eqn:E3.
  - bokp H b r2 E2. injection H as <- <-. cbn [k_hdr] in Ht. rewrite E3 in Ht. unfold body3 in *. rewrite Ht, <- Hc, E2. reflexivity.
  - destruct (h_major h =? 4) eqn:E4; [|exact H]. bokp H b r2 E2. injection H as <- <-. cbn [k_hdr] in Ht. rewrite E3 in Ht. unfold body4 in *. rewrite Ht, <- Hc, E2. reflexivity.
Qed.
Lemma tkey_opens L lost w p pw kf tk o w' key : lib_ok L -> xml_sound L -> bytes_world w -> open_db L lost w (F_path p) pw kf tk true = (Ok o, w') -> transformed_key o = Ok key ->
  forall w2, w_fs w2 p = w_fs w p -> exists o2 w3, open_db L lost w2 (F_path p) None N_none (Some key) true = (Ok o2, w3) /\ o_kdbx o2 = o_kdbx o.
Proof.
  intros HL HX Hw H Hk w2 E2. unfold open_db, read in H. cbn [source] in H. destruct (w_fs w p) as [data|] eqn:Ed; [|discriminate]. cbv zeta in H.
  destruct (open_kdbx L (MkCreds pw (kf_src w kf) tk true) data) as [[k r]|] eqn:Ek; [|discriminate]. injection H as <- <-. unfold transformed_key in Hk. cbn [o_kdbx] in *. destruct (k_body k) as [b|] eqn:Eb; [|discriminate]. injection Hk as <-.
  pose proof (opened_key L _ data k r b Ek Eb) as T. assert (K : open_kdbx L (MkCreds None KF_none (Some (b_tkey b)) true) data = Ok (k, r)).
  { apply (open_by_key L (MkCreds pw (kf_src w kf) tk true)); [reflexivity|exact Ek|]. rewrite T. destruct (h_major (k_hdr k) =? 3); [reflexivity|]. unfold transformed4 in *. bok T kc E1. bok T kdf E3. cbn [c_pw c_kf c_tk]. rewrite E3. reflexivity. }
  unfold open_db, read. cbn [source kf_src]. rewrite E2, K. eauto.
Qed.

(** *** Failing reads *)
Lemma read_fails L lost w o fn pw kf tk dec x o' w' : read L lost w o fn pw kf tk dec = (Err x, o', w') -> o_kdbx o' = o_kdbx o /\ w_fs w' = w_fs w.
Proof.
  unfold read. destruct (match fn with F_none => o_filename o | _ => Some fn end) as [f|]; [|intros [= _ <- <-]; auto]. destruct (source w f) as [data|e]; [|intros [= _ <- <-]; auto]. cbv zeta.
  destruct (open_kdbx L _ data) as [[k r]|e]; intros [= _ <- <-]. split; [reflexivity|]. assert (S : forall w n, w_fs (skip w f n) = w_fs w) by (now destruct f). now rewrite S, kf_after_fs.
Qed.
Lemma reload_fails L lost w o x o' w' : reload L lost w o = (Err x, o', w') -> o' = o /\ w_fs w' = w_fs w.
Proof.
  intros H. unfold reload in H. destruct (o_filename o) as [f|] eqn:Ef; [|injection H as _ <- <-; auto]. destruct (read_fails _ _ _ _ _ _ _ _ _ _ _ _ H) as [H1 H2]. split; [|exact H2].
  assert (E : (match f with F_none => o_filename o | _ => Some f end) = Some f) by (destruct f; auto). unfold read in H. rewrite E in H. destruct o as [pw kf fn c]. cbn [o_password o_keyfile o_filename o_kdbx] in *. subst fn.
  destruct (source w f) as [data|e]; [|now injection H as _ <- _]. cbv zeta in H. destruct (open_kdbx L _ data) as [[k r]|e]; [discriminate|]. now injection H as _ <- _.
Qed.

(** *** Opening without decrypting *)
Lemma nodec_body L cr data k r : c_dec cr = false -> open_kdbx L cr data = Ok (k, r) -> match k_body k with Some b => b_payload b = None | None => h_major (k_hdr k) <> 3 /\ h_major (k_hdr k) <> 4 end.
Proof.
  intros Hc H. apply open_p in H. unfold p_kdbx in H. bokp H h r1 E1. destruct (h_major h =? 3) eqn:E3.
  - bokp H b' r2 E2. injection H as <- <-. cbn [k_hdr k_body] in *. unfold body3 in E2. bok E2 tk T. bok E2 mk T2. rewrite Hc in E2. now injection E2 as <- <-.
  - destruct (h_major h =? 4) eqn:E4; [|injection H as <- <-; cbn [k_body k_hdr]; split; intros X; rewrite X in *; discriminate]. bokp H b' r2 E2. injection H as <- <-. cbn [k_hdr k_body] in *. unfold body4 in E2. bok E2 tk T. bok E2 mk T2. bokp E2 s q T3. destruct (str_eqb _ _); [|discriminate]. rewrite Hc in E2. now injection E2 as <- <-.
Qed.
Lemma open_obj L lost w fn pw kf tk dec o w' : open_db L lost w fn pw kf tk dec = (Ok o, w') -> exists data k r, source w fn = Ok data /\ open_kdbx L (MkCreds pw (kf_src w kf) tk dec) data = Ok (k, r) /\ o = MkObj pw kf (Some fn) (Some (k, load k)).
Proof.
  unfold open_db, read. cbn [o_filename fresh]. intros H. assert (E : (match fn with F_none => None | _ => Some fn end) = Some fn) by (destruct fn; [discriminate| | |]; reflexivity). rewrite E in H. destruct (source w fn) as [data|]; [|discriminate]. cbv zeta in H.
  destruct (open_kdbx L _ data) as [[k r]|] eqn:Eo; [|discriminate]. injection H as <- _. exists data, k, r. auto.
Qed.
Lemma nodec_object L lost w fn pw kf tk o w' n m : open_db L lost w fn pw kf tk false = (Ok o, w') -> version o = Ok (n, m) -> n = 3 \/ n = 4 ->
  payload_of o = Err Ex_Value /\ (forall A (f : M A), call f o = (Err Ex_Value, o)) /\
  forall e w2 f2 tk2 p tmp, goes_to o f2 p -> apart p tmp kf -> exists x w3, save L e w2 o f2 tk2 = (Err x, o, w3) /\ w_fs w3 p = w_fs w2 p.
Proof.
  intros H Hv Hn. destruct (open_obj _ _ _ _ _ _ _ _ _ _ H) as (data & k & r & Es & Eo & ->). unfold version in Hv. cbn [o_kdbx] in Hv. injection Hv as <- <-. pose proof (nodec_body L (MkCreds pw (kf_src w kf) tk false) data k r eq_refl Eo) as B. destruct (k_body k) as [b|] eqn:Eb; [|destruct B; destruct Hn; congruence].
  assert (El : load k = None) by (unfold load, doc_of; rewrite Eb, B; reflexivity). rewrite El.
  assert (Ep : forall q, payload_of (MkObj pw kf q (Some (k, None))) = Err Ex_Value) by (intros q; unfold payload_of; cbn [o_kdbx]; now rewrite Eb).
  split; [apply Ep|]. split; [intros A f; unfold call; rewrite Ep; reflexivity|]. intros e w2 f2 tk2 p tmp G A. rewrite (save_path L e w2 _ f2 tk2 p _ tmp G eq_refl A). cbv zeta. destruct A as (Ht & Hne & _).
  set (cr := MkCreds _ _ tk2 true). cbn [current]. assert (X : exists x, snd (fst (build_kdbx L cr k)) = Err x).
  { unfold build_kdbx. rewrite Eb. destruct Hn as [-> | ->]; cbn [N.eqb Pos.eqb].
    - unfold build3. destruct (let* tk := _ in _) as [mk|x]; [|cbn; eauto]. rewrite B. cbn [pack3]. destruct (hbytes Ex_Attribute (k_hdr k) H_ssb) as [ssb|x]; cbn [bind]; [destruct (List.length ssb =? 32)%nat|]; cbn; eauto.
    - unfold build4. destruct (let* tk := _ in _) as [[[[a b'] c] h]|x]; [|cbn; eauto]. rewrite B. cbn. eauto. }
  destruct X as (x & X). rewrite X.
  assert (Y : exists y, snd (save_ops e (w_fs w2) p (fst (fst (build_kdbx L cr k))) (Err x)) = Err y).
  { unfold save_ops. rewrite Ht. destruct (e_open e); [|eexists; reflexivity]. unfold limited. destruct (e_room e) as [q|]; [destruct (_ <=? q)%nat|]; cbn [fst snd]; eexists; reflexivity. }
  destruct Y as (y & Y). rewrite Y. eexists _, _. split; [reflexivity|]. rewrite kf_after_fs. cbn [with_fs w_fs]. exact (proj1 (save_failure e (w_fs w2) p tmp _ (Err x) y Ht Hne Y)).
Qed.
Lemma open_hdr L cr data k r : open_kdbx L cr data = Ok (k, r) -> exists r1, p_header data = Ok (k_hdr k, r1).
Proof.
  intros H. apply open_p in H. unfold p_kdbx in H. bokp H h r1 E1. exists r1. destruct (h_major h =? 3); [bokp H b r2 E2; now injection H as <- <-|]. destruct (h_major h =? 4); [bokp H b r2 E2; now injection H as <- <-|now injection H as <- <-].
Qed.
Lemma nodec_header L lost w fn pw1 kf1 tk1 dec1 o1 w1 pw2 kf2 tk2 dec2 o2 w2 : open_db L lost w fn pw1 kf1 tk1 dec1 = (Ok o1, w1) -> open_db L lost w fn pw2 kf2 tk2 dec2 = (Ok o2, w2) ->
  version o1 = version o2 /\ encryption_algorithm o1 = encryption_algorithm o2 /\ database_salt o1 = database_salt o2 /\ kdf_algorithm o1 = kdf_algorithm o2 /\ (pw1 = pw2 -> kf1 = kf2 -> tk1 = tk2 -> transformed_key o1 = transformed_key o2).
Proof.
  intros H1 H2. destruct (open_obj _ _ _ _ _ _ _ _ _ _ H1) as (data & k & r & Es & Eo & ->). destruct (open_obj _ _ _ _ _ _ _ _ _ _ H2) as (data2 & k2 & r2 & Es2 & Eo2 & ->). rewrite Es in Es2. injection Es2 as <-.
  destruct (open_hdr _ _ _ _ _ Eo) as (q1 & X1). destruct (open_hdr _ _ _ _ _ Eo2) as (q2 & X2). rewrite X1 in X2. injection X2 as Eh _. unfold version, encryption_algorithm, database_salt, kdf_algorithm, transformed_key. cbn [o_kdbx]. rewrite Eh. repeat (split; [reflexivity|]).
  intros <- <- <-. assert (B : forall cr k r, open_kdbx L cr data = Ok (k, r) -> k_body k = None <-> (h_major (k_hdr k) =? 3) = false /\ (h_major (k_hdr k) =? 4) = false).
  { clear. intros cr k r H. apply open_p in H. unfold p_kdbx in H. bokp H h r1 E1. destruct (h_major h =? 3) eqn:E3; [bokp H b r2 E2; injection H as <- <-|destruct (h_major h =? 4) eqn:E4; [bokp H b r2 E2; injection H as <- <-|injection H as <- <-]]; cbn [k_body k_hdr]; intuition congruence. }
  pose proof (B _ _ _ Eo) as B1. pose proof (B _ _ _ Eo2) as B2. rewrite Eh in B1. destruct (k_body k) as [b1|] eqn:Eb1, (k_body k2) as [b2|] eqn:Eb2; [|exfalso; intuition congruence|exfalso; intuition congruence|reflexivity].
  pose proof (opened_key _ _ _ _ _ _ Eo Eb1) as K1. pose proof (opened_key _ _ _ _ _ _ Eo2 Eb2) as K2. rewrite Eh in K1. destruct (h_major (k_hdr k2) =? 3).
  - assert (Ok (b_tkey b1) = Ok (b_tkey b2)); [|congruence]. rewrite <- K1, <- K2. reflexivity.
  - assert (Ok (b_tkey b1) = Ok (b_tkey b2)); [|congruence]. rewrite <- K1, <- K2. reflexivity.
Qed.

Lemma nodec_error L lost w fn pw kf tk x w' : libs_calm L -> open_db L lost w fn pw kf tk false = (Err x, w') -> x <> Ex_Credentials /\ x <> Ex_PayloadChecksum.
Proof.
  intros HC. unfold open_db, read. cbn [o_filename fresh]. destruct (match fn with F_none => None | _ => Some fn end) as [f|]; [|intros H; injection H as <- <-; split; discriminate].
  destruct (source w f) as [data|e] eqn:Es; cbv zeta.
  - destruct (open_kdbx L _ data) as [[k r]|e] eqn:Eo; [discriminate|]. intros H. injection H as <- <-. exact (nodecrypt_calm L (MkCreds pw (kf_src w kf) tk false) data e HC eq_refl Eo).
  - intros H. injection H as <- <-. destruct f as [|p|n|b]; cbn [source] in Es; [|destruct (w_fs w p)| |]; try discriminate; injection Es as <-; split; discriminate.
Qed.
