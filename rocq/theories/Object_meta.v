(** Settings of the Meta section across saving and opening; changes of credentials. *)
From Coq Require Import ZifyBool ZifyNat ZifyN.
From Verif Require Import Base Base64 PyStr Xml Tree XPath Time Codec_facts FindSpec Db Api ApiSpec StructSpec CredSpec IntegritySpec Lib Keyfile Construct Kdbx KdbxSpec Kdbx_facts Kdbx_rt Kdbx_inner Kdbx_file Kdbx_v3 Kdbx_auth Kdbx_claims Save Save_facts Object Heap Prim Struct_bin Struct_trash Cred Clean ObjectSpec Object_facts Object_claims.

(** *** Settings on the document *)
Definition xsub (T : str) (t : xml) : list xml := filter (fun k => str_eqb (xtag k) T) (xkids t).
Definition xset (t : xml) (T : str) (v : option str) : Prop := xtag t = $"KeePassFile" /\ exists m e, xsub $"Meta" t = [m] /\ xsub T m = [e] /\ xtext e = v.
Lemma xsub_erase T t : xsub T (erase t) = map erase (kids_of T t).
Proof.
  unfold xsub, kids_of. destruct t as [i g a x k]. cbn [erase xkids ekids]. induction k as [|c k IH]; [reflexivity|]. cbn [map filter]. rewrite IH. destruct c as [ci cg ca cx ck]. cbn [erase xtag etag]. destruct (str_eqb cg T); reflexivity.
Qed.
Lemma setting_xset d T i v t : wf d -> setting d T [i] -> text_at d i v -> document d = Some t -> xset t T v.
Proof.
  intros H (r & m & E1 & E2 & E3 & E4) (q & Eq & Xq) Ed. unfold document in Ed. destruct (d_forest d) as [|tr F] eqn:EF; [discriminate|]. injection Ed as <-. rewrite <- EF in *. assert (Hr : has d tr) by (rewrite EF; apply elements_root; now left). rewrite EF in E1. cbn in E1. apply Some_inj in E1. subst r.
  destruct E2 as (w & Ew & Tw). rewrite (look_self _ tr (wf_unique d H) Hr) in Ew. apply Some_inj in Ew. subst w. change (etag tr = $"KeePassFile") in Tw.
  rewrite (kids_tagged_of d tr _ H Hr) in E3. apply map_one in E3 as (tm & K3 & <-). assert (Im : In tm (kids_of $"Meta" tr)) by (rewrite K3; now left). apply kids_of_in in Im as [Im _]. pose proof (has_kid d tr tm Hr Im) as Hm.
  rewrite (kids_tagged_of d tm _ H Hm) in E4. apply map_one in E4 as (te & K4 & <-). assert (Ie : In te (kids_of T tm)) by (rewrite K4; now left). apply kids_of_in in Ie as [Ie _]. pose proof (has_kid d tm te Hm Ie) as He.
  rewrite (look_self _ te (wf_unique d H) He) in Eq. apply Some_inj in Eq. subst q. split; [now destruct tr|]. exists (erase tm), (erase te). rewrite !xsub_erase, K3, K4. split; [reflexivity|]. split; [reflexivity|]. now destruct te.
Qed.
Lemma xset_setting d T v t : wf d -> document d = Some t -> xset t T v -> exists i, setting d T [i] /\ text_at d i v.
Proof.
  intros H Ed (Tt & m & e & E1 & E2 & E3). unfold document in Ed. destruct (d_forest d) as [|tr F] eqn:EF; [discriminate|]. injection Ed as <-. assert (Hr : has d tr) by (rewrite EF; apply elements_root; now left).
  rewrite xsub_erase in E1. apply map_one in E1 as (tm & K3 & <-). rewrite xsub_erase in E2. apply map_one in E2 as (te & K4 & <-).
  assert (Im : In tm (kids_of $"Meta" tr)) by (rewrite K3; now left). apply kids_of_in in Im as [Im _]. pose proof (has_kid d tr tm Hr Im) as Hm.
  assert (Ie : In te (kids_of T tm)) by (rewrite K4; now left). apply kids_of_in in Ie as [Ie _]. pose proof (has_kid d tm te Hm Ie) as He.
  exists (eid te). split.
  - exists (eid tr), (eid tm). split; [rewrite EF; reflexivity|]. split; [exists (row_of tr); split; [now apply look_self; [apply H|]|now destruct tr]|]. split; [rewrite (kids_tagged_of d tr _ H Hr), K3; reflexivity|rewrite (kids_tagged_of d tm _ H Hm), K4; reflexivity].
  - exists (row_of te). split; [now apply look_self; [apply H|]|]. now destruct te.
Qed.
(** A text that is there stays there. *)
Lemma xsub_shown (V : xml -> xml) T t : (forall u, xtag (V u) = xtag u /\ xkids (V u) = map V (xkids u)) -> xsub T (V t) = map V (xsub T t).
Proof.
  intros HV. unfold xsub. destruct (HV t) as [_ ->]. induction (xkids t) as [|c k IH]; [reflexivity|]. cbn [map filter]. rewrite IH. destruct (HV c) as [-> _]. destruct (str_eqb (xtag c) T); reflexivity.
Qed.
Lemma kept s kids : forallb blank_char s = false -> norm_text (Some s) kids = Some s.
Proof. intros H. unfold norm_text, keep_text. rewrite H. destruct s; [discriminate|]. destruct kids; reflexivity. Qed.
Lemma shown_set k t T s : T <> $"Value" -> forallb blank_char s = false -> xset t T (Some s) -> xset (shown k t) T (Some s).
Proof.
  intros NT Hs X. assert (G : forall V : xml -> xml, (forall u, xtag (V u) = xtag u /\ xkids (V u) = map V (xkids u)) -> (forall u, xtag u <> $"Value" -> xtext u = Some s -> xtext (V u) = Some s) -> xset (V t) T (Some s)).
  { intros V HV HT. destruct X as (Tt & m & e & E1 & E2 & E3). split; [destruct (HV t) as [-> _]; exact Tt|]. exists (V m), (V e). rewrite !(xsub_shown V) by exact HV. rewrite E1, E2. split; [reflexivity|]. split; [reflexivity|]. apply HT; [|exact E3].
    assert (I : In e (xsub T m)) by (rewrite E2; now left). apply filter_In in I as [_ I]. apply str_eqb_eq in I. congruence. }
  assert (GN : xset (norm t) T (Some s)) by (apply G; [intros [g a x c]; split; reflexivity|intros [g a x c] _ E; cbn [xtext norm] in *; subst x; now apply kept]).
  assert (GR : xset (reload_view t) T (Some s)).
  { apply G; [intros [g a x c]; split; reflexivity|]. intros [g a x c] Nv E. cbn [xtag xtext reload_view] in *. subst x. unfold markedb. destruct (str_eqb_spec g $"Value") as [->|_]; [congruence|]. cbn [andb]. now apply kept. }
  unfold shown. destruct (stream_id_of k) as [[]|]; cbn [view_for]; assumption.
Qed.
Lemma encoded_kept v4 t s : encode_time v4 t = Ok s -> forallb blank_char s = false.
Proof.
  assert (X : forall a c b, blank_char c = false -> forallb blank_char (a ++ c :: b) = false) by (intros a c b Hc; rewrite forallb_app; cbn [forallb]; rewrite Hc; apply andb_false_r).
  unfold encode_time. destruct v4.
  - destruct (instant t) as [i|]; [|discriminate]. intros H. bok H b E. injection H as <-. unfold pack_Q in E. destruct (_ && _); [|discriminate]. injection E as <-. cbn [le_enc b64encode]. 
    match goal with |- forallb _ (?a :: ?b :: ?c :: ?d :: ?e :: ?f :: ?g :: ?h :: ?i :: ?j :: ?k :: _) = _ => exact (X [a;b;c;d;e;f;g;h;i;j;k] 61 [] eq_refl) end.
  - intros [= <-]. unfold isoformat. cbn [lit]. rewrite !app_assoc. apply (X (zdigs 4 (dyear t)) 45). reflexivity.
Qed.

(** *** A change of credentials *)
(** The time [t] is recorded as [x], to the second. *)
Definition recorded (t x : dt) : Prop := exists b j, instant t = Some b /\ instant x = Some j /\ (Z.abs (j - b) < 1000000)%Z.
(** The present time as the setters take it: in UTC, and before the year 9999's last second. *)
Definition present (t : dt) : Prop := dt_valid t /\ doff t = Some 0%Z /\ exists b, instant t = Some b /\ (0 <= b < (MAXSEC - 1) * 1000000)%Z.
Lemma encode_recorded v4 t : present t -> exists s x, encode_time v4 t = Ok s /\ decode_time v4 s = Ok x /\ recorded t x.
Proof.
  intros (Hv & Ho & b & Hb & Hr). destruct v4.
  - destruct (c03_micro t b Hv Hb Hr) as (s & x & j & E & D & I & A). exists s, x. repeat split; auto. exists b, j. auto.
  - destruct (c05_utc t Hv Ho) as (s & E & D). exists s, t. repeat split; auto. exists b, b. repeat split; auto. rewrite Z.sub_diag. reflexivity.
Qed.
Lemma open_bytes L lost w p pw kf tk dec o w' : open_db L lost w (F_path p) pw kf tk dec = (Ok o, w') -> exists data k r, w_fs w p = Some data /\ open_kdbx L (MkCreds pw (kf_src w kf) tk dec) data = Ok (k, r) /\ o_kdbx o = Some (k, load k).
Proof.
  unfold open_db, read. cbn [source]. destruct (w_fs w p) as [data|]; [|discriminate]. cbv zeta. destruct (open_kdbx L _ data) as [[k r]|x] eqn:E; [|discriminate]. intros [= <- _]. exists data, k, r. auto.
Qed.
Lemma changed_saved L R Zl lost e w o fn p tmp k d w' i s x : lib_ok L -> xml_sound L -> reached L R Zl lost o -> o_kdbx o = Some (k, Some d) ->
  setting d $"MasterKeyChanged" [i] -> text_at d i (Some s) -> decode_time (v4 d) s = Ok x -> forallb blank_char s = false ->
  goes_to o fn p -> apart p tmp (o_keyfile o) -> env_ok e -> (forall key, key_for L w (o_password o) (o_keyfile o) None (k_hdr k) = Ok key -> moderate L (current (k, Some d)) key) ->
  save L e w o fn None = (Ok tt, o, w') -> bytes_world w' ->
  exists key, key_for L w (o_password o) (o_keyfile o) None (k_hdr k) = Ok key /\
  (forall w2 pw2 kf2 tk2, w_fs w2 p = w_fs w' p -> key_for L w2 pw2 kf2 tk2 (k_hdr k) = Ok key ->
    exists o2 w3 d2, open_db L lost w2 (F_path p) pw2 kf2 tk2 true = (Ok o2, w3) /\ same_contents k d o2 /\ payload_of o2 = Ok d2 /\ credchange_date R d2 = (Ok (Some x), d2)) /\
  (h_major (k_hdr k) = 4 -> forall w2 pw2 kf2 tk2 key2, w_fs w2 p = w_fs w' p -> key_for L w2 pw2 kf2 tk2 (k_hdr k) = Ok key2 ->
    (exists w3, open_db L lost w2 (F_path p) pw2 kf2 tk2 true = (Err Ex_Credentials, w3)) \/
    exists seed, hbytes Ex_Attribute (k_hdr k) H_seed = Ok seed /\ head_tag L seed key2 (h_raw (k_hdr k)) = head_tag L seed key (h_raw (k_hdr k))).
Proof.
  intros HL HX Hr Ec St Tx D Bl G A He M Sv Bw. destruct (saved_opens' L R Zl lost e w o fn None p tmp k d w' HL HX Hr Ec G A He M Sv) as (key & Hk & Op). exists key. split; [exact Hk|]. 
  pose proof (reached_sound L R Zl lost o HL HX Hr) as So. unfold sound in So. rewrite Ec in So. destruct So as ((v & cr0 & data0 & Hv & Op0) & (W & _) & _ & Mj & _).
  assert (Bp : forall b, w_fs w' p = Some b -> bytes_ok b) by (intros b; apply Bw). split.
  - intros w2 pw2 kf2 tk2 E2 K2. destruct (Op w2 pw2 kf2 tk2 E2 K2) as (o2 & w3 & E & S & _). pose proof S as (k2 & d2 & Ek2 & Eh & Ed & _). exists o2, w3, d2. split; [exact E|]. split; [exact S|]. split; [unfold payload_of; now rewrite Ek2|].
    destruct (open_bytes _ _ _ _ _ _ _ _ _ _ E) as (data & k3 & r & Ef & Eo & E3). rewrite Ek2 in E3. injection E3 as <- El. symmetry in El. rewrite E2 in Ef. pose proof (opened_sound L _ data k2 r d2 HL HX (Bp data Ef) Eo El) as (_ & (W2 & _) & _ & Mj2 & _).
    destruct (document d) as [t|] eqn:Edd; cbn [option_map] in Ed.
    + destruct (xset_setting d2 _ _ _ W2 Ed (shown_set k t $"MasterKeyChanged" s ltac:(vm_compute; discriminate) Bl (setting_xset d _ i _ t W St Tx Edd))) as (j & Sj & Tj). apply (date_run R d2 j s x W2 Sj Tj). rewrite <- D. unfold v4. rewrite Mj2, Mj, Eh. reflexivity.
    + exfalso. unfold document in Edd. destruct (d_forest d) as [|a b] eqn:EF; [destruct W; congruence|discriminate].
  - intros M4 w2 pw2 kf2 tk2 key2 E2 K2. assert (KF : key_for L w (o_password o) (o_keyfile o) None (k_hdr k) = Ok key) by exact Hk.
    destruct (Op (MkWorld (fun q => if Save.path_eqb q p then w_fs w' p else w_fs w q) (w_st w)) None N_none (Some key)) as (o2 & w3 & E & S & _).
    { cbn [w_fs]. destruct (Save.path_eqb p p) eqn:Ep; [reflexivity|]. exfalso. pose proof (fs_set_same (w_fs w) p None) as X. pose proof (fs_set_same (w_fs w) p (Some [])) as Y. unfold fs_set in X, Y. rewrite Ep in X, Y. congruence. }
    { unfold key_for in *. cbv zeta in *. rewrite M4 in *. cbn [N.eqb Pos.eqb] in *. unfold transformed4 in *. bok KF kc E1. bok KF kdf E3. cbn [c_tk c_pw c_kf]. rewrite E3. reflexivity. }
    destruct (open_bytes _ _ _ _ _ _ _ _ _ _ E) as (data & k3 & r & Ef & Eo & E3). destruct S as (k2 & d2 & Ek2 & Eh & _). rewrite Ek2 in E3. injection E3 as <- _.
    assert (Ef' : w_fs w' p = Some data). { cbn [w_fs] in Ef. destruct (Save.path_eqb p p) eqn:Ep; [exact Ef|]. exfalso. pose proof (fs_set_same (w_fs w) p None) as X. pose proof (fs_set_same (w_fs w) p (Some [])) as Y. unfold fs_set in X, Y. rewrite Ep in X, Y. congruence. }
    assert (O4 : opened 4 L (MkCreds None (kf_src (MkWorld (fun q => if Save.path_eqb q p then w_fs w' p else w_fs w q) (w_st w)) N_none) (Some key) true) data k2) by (split; [exact (Bp data Ef')|]; split; [reflexivity|]; split; [now rewrite Eh|eauto]).
    unfold key_for in K2. cbv zeta in K2. rewrite M4 in K2. cbn [N.eqb Pos.eqb] in K2. destruct (claim_c12 L _ (MkCreds pw2 (kf_src w2 kf2) tk2 true) data k2 key2 HL O4 eq_refl) as [C|(tk & seed & T1 & T2 & T3)]; [now rewrite Eh| |].
    + left. unfold open_db, read. cbn [source]. rewrite E2, Ef'. cbv zeta. rewrite C. eauto.
    + right. exists seed. rewrite Eh in *. split; [exact T2|]. rewrite T3. unfold transformed4 in T1. cbn [c_pw c_kf c_tk kf_src] in T1. bok T1 kc X1. bok T1 kdf X2. injection T1 as <-. reflexivity.
Qed.
(** What holds of a file at [p] written under [w'], keyed by [key] and recording the time [t]. *)
Definition keyed (L : lib) (R : regex) (lost : bytes -> nat) (w' : world) (p : path) (k : kdbx) (d : db) (key : bytes) (t : dt) : Prop :=
  (forall w2 pw2 kf2 tk2, w_fs w2 p = w_fs w' p -> key_for L w2 pw2 kf2 tk2 (k_hdr k) = Ok key ->
    exists o2 w3 d2 x, open_db L lost w2 (F_path p) pw2 kf2 tk2 true = (Ok o2, w3) /\ same_contents k d o2 /\ payload_of o2 = Ok d2 /\ credchange_date R d2 = (Ok (Some x), d2) /\ recorded t x) /\
  (h_major (k_hdr k) = 4 -> forall w2 pw2 kf2 tk2 key2, w_fs w2 p = w_fs w' p -> key_for L w2 pw2 kf2 tk2 (k_hdr k) = Ok key2 ->
    (exists w3, open_db L lost w2 (F_path p) pw2 kf2 tk2 true = (Err Ex_Credentials, w3)) \/
    exists seed, hbytes Ex_Attribute (k_hdr k) H_seed = Ok seed /\ head_tag L seed key2 (h_raw (k_hdr k)) = head_tag L seed key (h_raw (k_hdr k))).
Lemma cred_change L R Zl lost t o k d i pw kf : lib_ok L -> xml_sound L -> (forall o1, o1 = snd (call (set_credchange_date R t) (MkObj pw kf (o_filename o) (o_kdbx o))) -> reached L R Zl lost o1) -> wf d -> o_kdbx o = Some (k, Some d) -> setting d $"MasterKeyChanged" [i] -> present t ->
  exists o1 d1, call (set_credchange_date R t) (MkObj pw kf (o_filename o) (o_kdbx o)) = (Ok tt, o1) /\ o_kdbx o1 = Some (k, Some d1) /\ ApiSpec.only [i] d d1 /\ o_password o1 = pw /\ o_keyfile o1 = kf /\ o_filename o1 = o_filename o /\
  forall e w fn p tmp w', goes_to o1 fn p -> apart p tmp kf -> env_ok e -> (forall key, key_for L w pw kf None (k_hdr k) = Ok key -> moderate L (current (k, Some d1)) key) ->
    save L e w o1 fn None = (Ok tt, o1, w') -> bytes_world w' -> exists key, key_for L w pw kf None (k_hdr k) = Ok key /\ keyed L R lost w' p k d1 key t.
Proof.
  intros HL HX Hr W Ec St Pt. destruct (encode_recorded (v4 d) t Pt) as (s & x & En & De & Rc). destruct (set_date_run R d i t s W St En) as (d1 & E1 & W1 & On & Tx & Ks & _).
  assert (Ecall : call (set_credchange_date R t) (MkObj pw kf (o_filename o) (o_kdbx o)) = (Ok tt, MkObj pw kf (o_filename o) (Some (k, Some d1)))) by (unfold call, payload_of; cbn [o_kdbx o_password o_keyfile o_filename]; rewrite Ec, E1; reflexivity).
  exists (MkObj pw kf (o_filename o) (Some (k, Some d1))), d1. split; [exact Ecall|]. split; [reflexivity|]. split; [exact On|]. split; [reflexivity|]. split; [reflexivity|]. split; [reflexivity|].
  intros e w fn p tmp w' G A He M Sv Bw. rewrite <- (only_v4 _ _ _ On) in De. destruct (changed_saved L R Zl lost e w (MkObj pw kf (o_filename o) (Some (k, Some d1))) fn p tmp k d1 w' i s x HL HX) as (key & Hk & C1 & C2); auto.
  { apply Hr. now rewrite Ecall. } { exact (encoded_kept _ _ _ En). }
  exists key. split; [exact Hk|]. split; [|exact C2]. intros w2 pw2 kf2 tk2 E2 K2. destruct (C1 w2 pw2 kf2 tk2 E2 K2) as (o2 & w3 & d2 & X1 & X2 & X3 & X4). exists o2, w3, d2, x. auto.
Qed.
Lemma reached_wf L R Zl lost o k d : lib_ok L -> xml_sound L -> reached L R Zl lost o -> o_kdbx o = Some (k, Some d) -> wf d.
Proof. intros HL HX Hr Ec. pose proof (reached_sound L R Zl lost o HL HX Hr) as So. unfold sound in So. rewrite Ec in So. apply So. Qed.
Lemma password_change L R Zl lost t o k d i pw : lib_ok L -> xml_sound L -> reached L R Zl lost o -> o_kdbx o = Some (k, Some d) -> setting d $"MasterKeyChanged" [i] -> present t ->
  exists o1 d1, set_pw R t pw o = (Ok tt, o1) /\ o_kdbx o1 = Some (k, Some d1) /\ ApiSpec.only [i] d d1 /\ o_password o1 = pw /\ o_keyfile o1 = o_keyfile o /\ o_filename o1 = o_filename o /\
  forall e w fn p tmp w', goes_to o1 fn p -> apart p tmp (o_keyfile o) -> env_ok e -> (forall key, key_for L w pw (o_keyfile o) None (k_hdr k) = Ok key -> moderate L (current (k, Some d1)) key) ->
    save L e w o1 fn None = (Ok tt, o1, w') -> bytes_world w' -> exists key, key_for L w pw (o_keyfile o) None (k_hdr k) = Ok key /\ keyed L R lost w' p k d1 key t.
Proof.
  intros HL HX Hr Ec St Pt. apply (cred_change L R Zl lost t o k d i pw (o_keyfile o) HL HX); auto; [|exact (reached_wf _ _ _ _ _ _ _ HL HX Hr Ec)]. intros o1 ->. exact (R_password L R Zl lost t pw o Hr).
Qed.
Lemma keyfile_change L R Zl lost t o k d i kf : lib_ok L -> xml_sound L -> reached L R Zl lost o -> o_kdbx o = Some (k, Some d) -> setting d $"MasterKeyChanged" [i] -> present t ->
  exists o1 d1, set_kf R t kf o = (Ok tt, o1) /\ o_kdbx o1 = Some (k, Some d1) /\ ApiSpec.only [i] d d1 /\ o_password o1 = o_password o /\ o_keyfile o1 = kf /\ o_filename o1 = o_filename o /\
  forall e w fn p tmp w', goes_to o1 fn p -> apart p tmp kf -> env_ok e -> (forall key, key_for L w (o_password o) kf None (k_hdr k) = Ok key -> moderate L (current (k, Some d1)) key) ->
    save L e w o1 fn None = (Ok tt, o1, w') -> bytes_world w' -> exists key, key_for L w (o_password o) kf None (k_hdr k) = Ok key /\ keyed L R lost w' p k d1 key t.
Proof.
  intros HL HX Hr Ec St Pt. apply (cred_change L R Zl lost t o k d i (o_password o) kf HL HX); auto; [|exact (reached_wf _ _ _ _ _ _ _ HL HX Hr Ec)]. intros o1 ->. exact (R_keyfile L R Zl lost t kf o Hr).
Qed.

(** *** New databases *)
(** Without a transformed key: the file opens with the credentials given. *)
Lemma create_opens L R (Zl : zlib) lost e w blank_at t1 t2 p tmp pw kf tk o w' : lib_ok L -> xml_sound L -> bytes_world w -> tk = None \/ tk = Some [] -> apart p tmp kf -> steady w p kf -> env_ok e ->
  (forall k d key, o_kdbx o = Some (k, Some d) -> key_for L w pw kf None (k_hdr k) = Ok key -> moderate L (current (k, Some d)) key) ->
  create_database L R lost e w blank_at t1 t2 (F_path p) pw kf tk = (Ok o, w') ->
  exists k d, o_kdbx o = Some (k, Some d) /\ exists o2 w3, open_db L lost w' (F_path p) pw kf None true = (Ok o2, w3) /\ same_contents k d o2 /\ o_password o2 = pw /\ o_keyfile o2 = kf /\ o_filename o2 = Some (F_path p).
Proof.
  intros HL HX Bw Ht A St He M Cr. unfold create_database in Cr. assert (En : tk_as_name tk = F_none) by (destruct Ht as [-> | ->]; reflexivity). rewrite En in Cr. clear En Ht.
  destruct (open_db L lost w (F_path blank_at) (Some $"password") N_none None true) as [[o1|x] w1] eqn:E1; [|discriminate]. assert (Ew : w1 = w).
  { unfold open_db, read in E1. cbn [source kf_after skip] in E1. destruct (w_fs w blank_at); [|discriminate]. cbv zeta in E1. destruct (open_kdbx L _ _) as [[k r]|]; [|discriminate]. now injection E1 as _ <-. }
  subst w1. pose proof (R_open L R Zl lost w _ _ _ _ _ _ _ Bw E1) as H1. apply (R_filename L R Zl lost (F_path p)) in H1. apply (R_password L R Zl lost t1 pw) in H1.
  assert (Ek1 : exists k d, o_kdbx o1 = Some (k, Some d)).
  { unfold set_pw, call, payload_of in Cr. cbn [set_filename o_kdbx] in Cr. destruct (o_kdbx o1) as [[k [d|]]|]; [eauto| |]; [destruct (k_body k)|]; discriminate. }
  destruct Ek1 as (k & d & Ek1). unfold set_pw at 1, call at 1, payload_of at 1 in Cr. unfold set_pw, call, payload_of in H1. cbn [set_filename o_kdbx o_password o_keyfile o_filename] in *. rewrite Ek1 in *. destruct (set_credchange_date R t1 d) as [[[]|x] d2]; [|discriminate]. cbn [snd] in H1.
  apply (R_keyfile L R Zl lost t2 kf) in H1. unfold set_kf, call, payload_of in Cr, H1. cbn [o_kdbx o_password o_keyfile o_filename] in *. destruct (set_credchange_date R t2 d2) as [[[]|x] d3]; [|discriminate]. cbn [snd] in H1. set (o3 := MkObj pw kf (Some (F_path p)) (Some (k, Some d3))) in *.
  pose proof (save_obj L e w o3 F_none None) as So. destruct (save L e w o3 F_none None) as [[[[]|x] o4] w4] eqn:Sv; [|discriminate]. cbn [fst snd] in So. subst o4. injection Cr as <- <-. exists k, d3. split; [reflexivity|].
  exact (saved_reopens L R Zl lost e w o3 F_none None p tmp k d3 w4 HL HX H1 eq_refl (or_intror (conj eq_refl eq_refl)) A St He (fun key Hk => M k d3 key eq_refl Hk) Sv).
Qed.
(** With one: TypeError at the latest, and no file changes. *)
Lemma create_tk L R lost e w blank_at t1 t2 fn pw kf c b r w' : create_database L R lost e w blank_at t1 t2 fn pw kf (Some (c :: b)) = (r, w') -> (exists x, r = Err x) /\ w_fs w' = w_fs w.
Proof.
  unfold create_database. cbn [tk_as_name]. destruct (open_db L lost w (F_path blank_at) (Some $"password") N_none None true) as [[o1|x] w1] eqn:E1.
  - assert (Ew : w1 = w). { unfold open_db, read in E1. cbn [source kf_after skip] in E1. destruct (w_fs w blank_at); [|discriminate]. cbv zeta in E1. destruct (open_kdbx L _ _) as [[k q]|]; [|discriminate]. now injection E1 as _ <-. }
    subst w1. destruct (set_pw R t1 pw (set_filename fn o1)) as [[u|x] o2]; [|intros [= <- <-]; eauto]. destruct (set_kf R t2 kf o2) as [[u2|x] o3]; [|intros [= <- <-]; eauto]. unfold save. destruct (o_kdbx o3); intros [= <- <-]; eauto.
  - intros [= <- <-]. split; [eauto|]. unfold open_db, read in E1. cbn [source kf_after skip] in E1. destruct (w_fs w blank_at); [|now injection E1 as _ <-]. cbv zeta in E1. destruct (open_kdbx L _ _) as [[k q]|]; [discriminate|]. now injection E1 as _ <-.
Qed.

(** *** The transformed_key attribute after a save *)
(** An object after calls on its contents. *)
Fixpoint calls (R : regex) (Zl : zlib) (l : list (clock * op)) (o : obj) : obj := match l with [] => o | c :: l => calls R Zl l (snd (call (IntegritySpec.run R Zl (fst c) (snd c)) o)) end.
Lemma calls_keep L R Zl lost l : forall o, Forall (fun c => fits_call (snd c)) l -> reached L R Zl lost o -> reached L R Zl lost (calls R Zl l o) /\ o_password (calls R Zl l o) = o_password o /\ o_keyfile (calls R Zl l o) = o_keyfile o /\ o_filename (calls R Zl l o) = o_filename o /\
  forall k d, o_kdbx o = Some (k, Some d) -> exists d', o_kdbx (calls R Zl l o) = Some (k, Some d').
Proof.
  induction l as [|[C c] l IH]; intros o F Hr; cbn [calls]; [repeat split; eauto|]. inversion F as [|? ? F1 F2]; subst. cbn [fst snd] in *. pose proof (R_call L R Zl lost C c o Hr F1) as H1. destruct (IH _ F2 H1) as (I1 & I2 & I3 & I4 & I5). split; [exact I1|]. rewrite I2, I3, I4.
  assert (K : o_password (snd (call (IntegritySpec.run R Zl C c) o)) = o_password o /\ o_keyfile (snd (call (IntegritySpec.run R Zl C c) o)) = o_keyfile o /\ o_filename (snd (call (IntegritySpec.run R Zl C c) o)) = o_filename o /\ forall k d, o_kdbx o = Some (k, Some d) -> exists d', o_kdbx (snd (call (IntegritySpec.run R Zl C c) o)) = Some (k, Some d')).
  { unfold call, payload_of. destruct (o_kdbx o) as [[k [d|]]|] eqn:E; [destruct (IntegritySpec.run R Zl C c d) as [r d'] eqn:Er| |]; [| |cbn [snd]; rewrite ?E; repeat split; auto; discriminate].
    - cbn [snd o_password o_keyfile o_filename o_kdbx]. repeat split; auto. intros k0 d0 E0. injection E0 as <- <-. eauto.
    - destruct (k_body k); cbn [snd]; rewrite ?E; repeat split; auto; discriminate. }
  destruct K as (K1 & K2 & K3 & K4). repeat split; auto. intros k d E. destruct (K4 k d E) as (d1 & E1). exact (I5 k d1 E1).
Qed.
Lemma tkey_after_save L R Zl lost w f pw kf o w0 key l e w1 fn p tmp w' k d : lib_ok L -> xml_sound L -> bytes_world w -> open_db L lost w f pw kf None true = (Ok o, w0) -> transformed_key o = Ok key ->
  Forall (fun c => fits_call (snd c)) l -> o_kdbx (calls R Zl l o) = Some (k, Some d) -> same_kf (kf_src w1 kf) (kf_src w kf) ->
  goes_to (calls R Zl l o) fn p -> apart p tmp kf -> env_ok e -> moderate L (current (k, Some d)) key -> save L e w1 (calls R Zl l o) fn None = (Ok tt, calls R Zl l o, w') ->
  transformed_key (calls R Zl l o) = Ok key /\ forall w2, w_fs w2 p = w_fs w' p -> exists o2 w3, open_db L lost w2 (F_path p) None N_none (Some key) true = (Ok o2, w3) /\ same_contents k d o2.
Proof.
  intros HL HX Bw Op Tk F Ec Sk G A He M Sv. pose proof (R_open L R Zl lost _ _ _ _ _ _ _ _ Bw Op) as Hr. destruct (calls_keep L R Zl lost l o F Hr) as (C1 & C2 & C3 & C4 & C5).
  destruct (open_obj _ _ _ _ _ _ _ _ _ _ Op) as (data & k0 & r & Es & Eo & ->). cbn [o_password o_keyfile o_kdbx] in *. unfold transformed_key in Tk. cbn [o_kdbx] in Tk. destruct (k_body k0) as [b|] eqn:Eb; [|discriminate]. injection Tk as <-.
  destruct (load k0) as [d0|] eqn:El.
  2: { exfalso. assert (X : o_kdbx (calls R Zl l (MkObj pw kf (Some f) (Some (k0, None)))) = Some (k0, None)); [|congruence]. clear - Eb. induction l as [|c l IH]; [reflexivity|]. cbn [calls]. unfold call at 1, payload_of. cbn [o_kdbx]. rewrite Eb. exact IH. }
  destruct (C5 k0 d0 eq_refl) as (d' & E'). rewrite Ec in E'. injection E' as -> ->. split; [unfold transformed_key; rewrite Ec, Eb; reflexivity|].
  pose proof (opened_key _ _ _ _ _ _ Eo Eb) as K. assert (K1 : key_for L w1 pw kf None (k_hdr k0) = Ok (b_tkey b)). { rewrite <- K. rewrite (key_same L w1 w pw kf kf None (k_hdr k0) Sk). reflexivity. }
  destruct (saved_opens' L R Zl lost e w1 _ fn None p tmp k0 d' w' HL HX C1 Ec G) as (key & Hk & Q); [now rewrite C3|exact He|rewrite C2, C3; intros key Hk; rewrite K1 in Hk; injection Hk as <-; exact M|exact Sv|].
  rewrite C2, C3, K1 in Hk. injection Hk as <-. intros w2 E2. pose proof (reached_sound L R Zl lost _ HL HX C1) as So. unfold sound in So. rewrite Ec in So.
  destruct (Q w2 None N_none (Some (b_tkey b)) E2) as (o2 & w3 & X1 & X2 & _); [apply (key_of_tk L w2 None (b_tkey b) k0 d' So); discriminate|eauto].
Qed.
