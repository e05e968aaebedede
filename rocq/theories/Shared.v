(** Several objects on one file: what save writes does not depend on the file it replaces; reload takes over what is there.
    Proofs; models no code. *)
From Coq Require Import ZifyBool ZifyNat ZifyN.
From Verif Require Import Base Base64 PyStr Xml Tree XPath Time FindSpec Db Api ApiSpec StructSpec IntegritySpec Lib Keyfile Construct Kdbx KdbxSpec Kdbx_file Kdbx_v3 Kdbx_claims Save Save_facts Object Clean ObjectSpec Object_facts Object_claims Stable.

(** What a successful save leaves at its target. *)
Lemma save_bytes L e w o fn tk p tmp k d w' : goes_to o fn p -> o_kdbx o = Some (k, Some d) -> apart p tmp (o_keyfile o) -> env_ok e -> save L e w o fn tk = (Ok tt, o, w') ->
  fst (build_kdbx L (MkCreds (o_password o) (kf_src w (o_keyfile o)) tk true) (current (k, Some d))) = (match w_fs w' p with Some b => b | None => [] end, Ok tt) /\ w_fs w' p <> None.
Proof.
  intros G Ec A He Sv. rewrite (save_path L e w o fn tk p _ tmp G Ec A) in Sv. cbv zeta in Sv. destruct (fst (build_kdbx L _ _)) as [out r]. cbn [fst snd] in Sv. destruct A as (Ht & Hne & _).
  injection Sv as Sr Sw. destruct (save_success e (w_fs w) p tmp out He Ht Hne r Sr) as (-> & F & _). assert (Fw : w_fs w' p = Some out) by (subst w'; rewrite kf_after_fs; exact F). rewrite Fw. split; [reflexivity|discriminate].
Qed.
Lemma build_derives L cr cr2 k d : sound_db L k d -> derives L cr2 (k_hdr k) = derives L cr (k_hdr k) -> fst (build_kdbx L cr2 (current (k, Some d))) = fst (build_kdbx L cr (current (k, Some d))).
Proof.
  intros ((v & cr0 & data & Hv & (_ & _ & Hm & r & Op)) & (W & _) & _) Hd. apply open_p in Op. unfold current. destruct (d_forest d) as [|t F] eqn:EF; [destruct W; congruence|]. unfold derives in Hd.
  destruct Hv as [-> | ->]; [destruct (p_kdbx_inv3 _ _ _ _ _ Op Hm) as (r1 & b & _ & _ & Kb)|destruct (p_kdbx_inv4 _ _ _ _ _ Op Hm) as (r1 & b & _ & _ & Kb)]; unfold build_kdbx, edited; cbn [k_hdr k_body]; rewrite Kb, Hm in *; cbn [N.eqb Pos.eqb] in *.
  - unfold build3. rewrite Hd. reflexivity.
  - unfold build4. rewrite Hd. reflexivity.
Qed.
(** Saving one object in two different worlds: the same bytes. *)
Lemma save_alone L R Zl lost e1 e2 w1 w2 o fn1 fn2 tk1 tk2 p1 p2 tmp1 tmp2 k d w1' w2' : lib_ok L -> xml_sound L -> reached L R Zl lost o -> o_kdbx o = Some (k, Some d) ->
  goes_to o fn1 p1 -> goes_to o fn2 p2 -> apart p1 tmp1 (o_keyfile o) -> apart p2 tmp2 (o_keyfile o) -> env_ok e1 -> env_ok e2 ->
  key_for L w2 (o_password o) (o_keyfile o) tk2 (k_hdr k) = key_for L w1 (o_password o) (o_keyfile o) tk1 (k_hdr k) ->
  save L e1 w1 o fn1 tk1 = (Ok tt, o, w1') -> save L e2 w2 o fn2 tk2 = (Ok tt, o, w2') -> w_fs w2' p2 = w_fs w1' p1.
Proof.
  intros HL HX Hr Ec G1 G2 A1 A2 He1 He2 Hk S1 S2. pose proof (reached_sound L R Zl lost o HL HX Hr) as So. unfold sound in So. rewrite Ec in So.
  destruct (save_bytes L e1 w1 o fn1 tk1 p1 tmp1 k d w1' G1 Ec A1 He1 S1) as (B1 & N1). destruct (save_bytes L e2 w2 o fn2 tk2 p2 tmp2 k d w2' G2 Ec A2 He2 S2) as (B2 & N2).
  rewrite (build_derives L (MkCreds (o_password o) (kf_src w1 (o_keyfile o)) tk1 true) (MkCreds (o_password o) (kf_src w2 (o_keyfile o)) tk2 true) k d So Hk), B1 in B2.
  destruct (w_fs w1' p1); [|congruence]. destruct (w_fs w2' p2); [|congruence]. congruence.
Qed.
(** reload of another object on the same path: the contents saved by the first, whatever was changed in the second. *)
Lemma other_reload L R Zl lost e w o1 fn tk p tmp k1 d1 w1 key o2 : lib_ok L -> xml_sound L -> reached L R Zl lost o1 -> o_kdbx o1 = Some (k1, Some d1) ->
  goes_to o1 fn p -> apart p tmp (o_keyfile o1) -> env_ok e -> key_for L w (o_password o1) (o_keyfile o1) tk (k_hdr k1) = Ok key -> moderate L (current (k1, Some d1)) key ->
  save L e w o1 fn tk = (Ok tt, o1, w1) -> o_filename o2 = Some (F_path p) ->
  forall w2, w_fs w2 p = w_fs w1 p -> key_for L w2 (o_password o2) (o_keyfile o2) None (k_hdr k1) = Ok key ->
  exists o3 w3, reload L lost w2 o2 = (Ok tt, o3, w3) /\ same_contents k1 d1 o3 /\ o_password o3 = o_password o2 /\ o_keyfile o3 = o_keyfile o2 /\ o_filename o3 = o_filename o2.
Proof.
  intros HL HX Hr Ec G A He Hk M Sv Ef w2 Hw Hk2. destruct (saved_opens L R Zl lost e w o1 fn tk p tmp k1 d1 key w1 HL HX Hr Ec G A He Hk M Sv w2 _ _ _ Hw Hk2) as (o3 & w3 & E & S & E1 & E2 & E3).
  exists o3, w3. unfold reload. rewrite Ef. split; [apply read_open; [discriminate|exact E]|]. auto.
Qed.
