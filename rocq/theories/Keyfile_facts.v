(** Lemmas about Keyfile.v. *)
From Coq Require Import ZifyBool ZifyNat ZifyN.
From Verif Require Import Base Base64 PyStr Utf8 Uuid Xml Lib Keyfile KeyfileSpec.
Ltac Zify.zify_post_hook ::= Z.div_mod_to_equations.

Lemma hexdigit_val c v : hexdigit c v -> hex_val c = Some (N.of_nat v) /\ (v < 16)%nat.
Proof.
  intros H. do 16 (destruct v as [|v]; [split; [destruct H as [[= <-]|[= <-]]; reflexivity|lia]|]).
  exfalso. destruct H as [H|H]; destruct v; discriminate.
Qed.
Lemma hex_val_digit c v : hex_val c = Some v -> hexdigit c (N.to_nat v).
Proof.
  intros H. assert (Hc : (c < 103)%N) by (unfold hex_val in H; lia || (destruct (_ && _) eqn:E in H; [lia|]; destruct (_ && _) eqn:E2 in H; [lia|]; destruct (_ && _) eqn:E3 in H; [lia|discriminate])).
  assert (G : forallb (fun n => match hex_val (N.of_nat n) with Some v => orb (match nth_error ($"0123456789abcdef") (N.to_nat v) with Some x => x =? N.of_nat n | None => false end)
       (match nth_error ($"0123456789ABCDEF") (N.to_nat v) with Some x => x =? N.of_nat n | None => false end) | None => true end) (seq 0 103) = true) by (vm_compute; reflexivity).
  rewrite forallb_forall in G. specialize (G (N.to_nat c) ltac:(apply in_seq; lia)). rewrite N2Nat.id, H in G. apply orb_prop in G. unfold hexdigit.
  destruct G as [G|G]; [left; destruct (nth_error ($"0123456789abcdef") (N.to_nat v)) eqn:E|right; destruct (nth_error ($"0123456789ABCDEF") (N.to_nat v)) eqn:E]; try discriminate;
    apply N.eqb_eq in G; subst; reflexivity.
Qed.
Lemma spells_unhex s k : spells s k -> unhex s = Ok k.
Proof.
  induction 1 as [|c d x y s k Hc Hd Hs IH]; [reflexivity|]. cbn [unhex]. apply hexdigit_val in Hc, Hd. destruct Hc as [-> Hx], Hd as [-> Hy]. rewrite IH. cbn [bind].
  do 2 f_equal. lia.
Qed.
Lemma unhex_spells n : forall s k, (List.length s <= n)%nat -> unhex s = Ok k -> spells s k.
Proof.
  induction n as [|n IH]; intros s k Hn H.
  - destruct s; [|cbn in Hn; lia]. injection H as <-. constructor.
  - destruct s as [|a [|b s]]; [injection H as <-; constructor|discriminate|]. cbn [unhex] in H.
    destruct (hex_val a) as [x|] eqn:Ea; [|discriminate]. destruct (hex_val b) as [y|] eqn:Eb; [|discriminate]. apply bind_ok in H. destruct H as (r & Hr & [= <-]).
    replace (16 * x + y) with (N.of_nat (16 * N.to_nat x + N.to_nat y)) by lia. constructor; [apply hex_val_digit, Ea|apply hex_val_digit, Eb|]. apply IH; [cbn in Hn; lia|exact Hr].
Qed.
Lemma spells_length s k : spells s k -> List.length s = (2 * List.length k)%nat.
Proof. induction 1; cbn [List.length]; lia. Qed.
Lemma spells_digits s k : spells s k -> forallb is_hex_digit s = true.
Proof.
  induction 1 as [|c d x y s k Hc Hd Hs IH]; [reflexivity|]. cbn [forallb]. apply hexdigit_val in Hc, Hd. unfold is_hex_digit. destruct Hc as [-> _], Hd as [-> _]. exact IH.
Qed.
Lemma digits_int16 s : s <> [] -> forallb is_hex_digit s = true -> exists z, int16_of_str s = Ok z.
Proof.
  intros Hne Hd. unfold int16_of_str.
  assert (Hk : forall c, is_hex_digit c = true -> c <> 45 /\ c <> 43 /\ c <> 120 /\ c <> 88 /\ c <> 95 /\ negb (py_space c) = true).
  { intros c. unfold is_hex_digit, hex_val, py_space. destruct (_ && _) eqn:E1; [lia|]. destruct ((97 <=? c) && _) eqn:E2; [lia|]. destruct ((65 <=? c) && _) eqn:E3; [lia|discriminate]. }
  rewrite py_strip_id by (eapply forallb_impl; [|exact Hd]; intros a Ha; apply Hk in Ha; tauto). cbv zeta.
  rewrite forallb_forall in Hd.
  rewrite sign_match_id.
  2:{ intros c s' E. specialize (Hd c). rewrite E in Hd. specialize (Hd ltac:(left; reflexivity)). apply Hk in Hd. tauto. }
  rewrite prefix0x_id by (intros c Hin; specialize (Hd c Hin); apply Hk in Hd; tauto).
  destruct (hex_under_val s 0) as (n & Hn & _); [apply forallb_forall; exact Hd|].
  destruct s as [|c s]; [congruence|]. specialize (Hd c ltac:(left; reflexivity)). apply Hk in Hd. destruct (N.eqb_spec c 95) as [->|]; [tauto|]. rewrite Hn. eauto.
Qed.
(** *** Plain key files *)
Definition not_xml (L : lib) (b : bytes) : Prop := kf_parse L b = Err Ex_XMLSyntax \/ kf_parse L b = Err Ex_UnicodeDecode.
Lemma plain_branch L b : not_xml L b -> keyfile_composite L b = keyfile_plain L b.
Proof. unfold not_xml, keyfile_composite, keyfile_xml. intros [H|H]; rewrite H; reflexivity. Qed.
Lemma plain_32 L b : not_xml L b -> List.length b = 32%nat -> keyfile_composite L b = Ok b.
Proof. intros H Hl. rewrite plain_branch by exact H. unfold keyfile_plain. rewrite Hl. reflexivity. Qed.
Lemma plain_hex L b k : not_xml L b -> spells b k -> List.length k = 32%nat -> keyfile_composite L b = Ok k.
Proof.
  intros H Hs Hl. rewrite plain_branch by exact H. unfold keyfile_plain. rewrite (spells_length _ _ Hs), Hl. cbn [Nat.mul Nat.add Nat.eqb andb].
  destruct (digits_int16 b) as (z & E); [intros ->; inversion Hs; subst; discriminate|eapply spells_digits; eauto|]. rewrite E, (spells_unhex _ _ Hs). reflexivity.
Qed.
Lemma plain_other L b : not_xml L b -> List.length b <> 32%nat -> List.length b <> 64%nat \/ (forall z, int16_of_str b <> Ok z) -> keyfile_composite L b = Ok (sha256 L b).
Proof.
  intros H H32 H64. rewrite plain_branch by exact H. unfold keyfile_plain. destruct (Nat.eqb_spec (List.length b) 32); [congruence|].
  destruct (Nat.eqb_spec (List.length b) 64) as [E|]; [|reflexivity]. destruct H64 as [H64|H64]; [congruence|].
  destruct (int16_of_str b) as [z|] eqn:Ez; [specialize (H64 z); congruence|]. reflexivity.
Qed.
(** The only rejected plain files. *)
Lemma plain_rejected L b e : not_xml L b -> keyfile_composite L b = Err e ->
  e = Ex_IO /\ List.length b = 64%nat /\ (exists z, int16_of_str b = Ok z) /\ forall k, ~ spells b k.
Proof.
  intros H E. rewrite plain_branch in E by exact H. unfold keyfile_plain in E. destruct (Nat.eqb_spec (List.length b) 32); [discriminate|].
  destruct (Nat.eqb_spec (List.length b) 64) as [E64|]; [|discriminate]. destruct (int16_of_str b) as [z|] eqn:Ez; [|discriminate]. cbn [andb] in E.
  destruct (unhex b) eqn:Eu; [discriminate|]. injection E as <-. split; [reflexivity|]. split; [exact E64|]. split; [eauto|]. intros k Hk. apply spells_unhex in Hk. congruence.
Qed.
(** *** XML key files *)
Lemma filter_skip {A} (p : A -> bool) a b : (forall x, In x a -> p x = false) -> filter p (a ++ b) = filter p b.
Proof. intros H. induction a as [|x a IH]; [reflexivity|]. cbn [app filter]. rewrite (H x ltac:(left; reflexivity)). apply IH. intros y Hy. apply H. right. exact Hy. Qed.
Lemma keydoc_find t v d : keydoc t v d -> (exists va vt, find2 ($"Meta") ($"Version") t = Some (X ($"Version") va (Some v) vt)) /\ find2 ($"Key") ($"Data") t = Some d.
Proof.
  intros (root & attrs & text & k1 & k2 & k3 & m1 & m2 & mv & mt & ma & va & vt & d1 & d2 & ka & kt & dt & -> & -> & Hk & Hm & Hd).
  unfold find2, kids_named. cbn [xkids].
  assert (N1 : forall n e, xtag e <> n -> str_eqb (xtag e) n = false) by (intros n e He; apply str_eqb_neq, He).
  split.
  - exists va, vt. rewrite filter_skip by (intros x Hx; apply N1, (Hk x), in_or_app; auto). cbn [app filter xtag]. rewrite str_eqb_refl. cbn [flat_map xkids].
    rewrite filter_skip by (intros x Hx; apply N1, Hm, Hx). cbn [filter xtag]. rewrite str_eqb_refl. reflexivity.
  - rewrite filter_skip by (intros x Hx; apply N1, (Hk x), in_or_app; auto). cbn [app filter xtag]. change (str_eqb ($"Meta") ($"Key")) with false. cbv iota.
    rewrite filter_skip by (intros x Hx; apply N1, (Hk x), in_or_app; auto). cbn [app filter xtag]. rewrite str_eqb_refl. cbn [flat_map xkids].
    rewrite filter_skip by (intros x Hx; apply N1, Hd, Hx). cbn [filter xtag]. rewrite str_eqb_refl. reflexivity.
Qed.
Lemma xml_v1 L b t rest da k : kf_parse L b = Ok t -> keydoc t ($"1.0" ++ rest) (X ($"Data") da (Some (b64encode k)) []) -> bytes_ok k -> keyfile_composite L b = Ok k.
Proof.
  intros Hp Hk Hb. destruct (keydoc_find _ _ _ Hk) as [(va & vt & E1) E2]. unfold keyfile_composite, keyfile_xml. rewrite Hp. cbn [bind]. rewrite E1, E2. cbn [xtext].
  change (starts_with ($"1.0") ($"1.0" ++ rest)) with true. cbv iota. rewrite b64_roundtrip by exact Hb. reflexivity.
Qed.
(** Hexadecimal text with white space around. *)
Lemma lstrip_blank p a s : forallb p a = true -> lstrip p (a ++ s) = lstrip p s.
Proof. induction a as [|x a IH]; intros H; [reflexivity|]. cbn [forallb] in H. apply andb_prop in H. destruct H as [H1 H2]. cbn [app lstrip]. rewrite H1. auto. Qed.
Lemma py_strip_pad p a s z : forallb p a = true -> forallb p z = true -> forallb (fun c => negb (p c)) s = true -> py_strip p (a ++ s ++ z) = s.
Proof.
  intros Ha Hz Hs. unfold py_strip. rewrite lstrip_blank by exact Ha.
  destruct s as [|c s].
  - cbn [app]. replace z with (z ++ []) by apply app_nil_r. rewrite lstrip_blank by exact Hz. reflexivity.
  - assert (E : lstrip p ((c :: s) ++ z) = (c :: s) ++ z). { cbn [forallb] in Hs. apply andb_prop in Hs. destruct Hs as [Hc _]. apply negb_true_iff in Hc. cbn [app lstrip]. rewrite Hc. reflexivity. }
    rewrite E, rev_app_distr, lstrip_blank by (rewrite forallb_rev; exact Hz). rewrite lstrip_id by (rewrite forallb_rev; exact Hs). apply rev_involutive.
Qed.
Lemma spells_fromhex s k : spells s k -> py_fromhex s = Ok k.
Proof.
  induction 1 as [|c d x y s k Hc Hd Hs IH]; [reflexivity|]. cbn [py_fromhex]. apply hexdigit_val in Hc, Hd. destruct Hc as [Hc Hx], Hd as [Hd Hy].
  assert (Hsp : py_space c = false). { unfold hex_val, py_space in *. destruct (_ && _) eqn:E1 in Hc; [lia|]. destruct (_ && _) eqn:E2 in Hc; [lia|]. destruct (_ && _) eqn:E3 in Hc; [lia|discriminate]. }
  rewrite Hsp, Hc, Hd, IH. cbn [bind]. do 2 f_equal. lia.
Qed.
Lemma hex_not_space s k : spells s k -> forallb (fun c => negb (py_uspace c)) s = true.
Proof.
  intros H. eapply forallb_impl; [|eapply spells_digits; eauto]. intros c. unfold is_hex_digit, hex_val, py_uspace, py_space. destruct (_ && _) eqn:E1; [lia|]. destruct ((97 <=? c) && _) eqn:E2; [lia|]. destruct ((65 <=? c) && _) eqn:E3; [lia|discriminate].
Qed.
Lemma xml_v2 L b t rest da a s z k h hb : kf_parse L b = Ok t -> keydoc t ($"2.0" ++ rest) (X ($"Data") da (Some (a ++ s ++ z)) []) ->
  forallb py_uspace a = true -> forallb py_uspace z = true -> spells s k -> attr_get ($"Hash") (X ($"Data") da (Some (a ++ s ++ z)) []) = Some h -> spells h hb ->
  keyfile_composite L b = if list_eq_dec N.eq_dec hb (firstn 4 (sha256 L k)) then Ok k else Err Ex_Assertion.
Proof.
  intros Hp Hk Ha Hz Hs Hh Hhb. destruct (keydoc_find _ _ _ Hk) as [(va & vt & E1) E2]. unfold keyfile_composite, keyfile_xml. rewrite Hp. cbn [bind]. rewrite E1, E2. cbn [xtext].
  change (starts_with ($"1.0") ($"2.0" ++ rest)) with false. change (starts_with ($"2.0") ($"2.0" ++ rest)) with true. cbv iota.
  rewrite py_strip_pad; [|exact Ha|exact Hz|eapply hex_not_space; eauto]. rewrite (spells_fromhex _ _ Hs). cbn [bind]. rewrite Hh, (spells_fromhex _ _ Hhb). cbn [bind].
  destruct (str_eqb_spec hb (firstn 4 (sha256 L k))), (list_eq_dec N.eq_dec hb (firstn 4 (sha256 L k))); try congruence; reflexivity.
Qed.
(** XML documents that are no key files are hashed like other files. *)
Lemma xml_other L b t : kf_parse L b = Ok t -> (forall e, In e (xkids t) -> xtag e <> $"Meta") -> keyfile_composite L b = keyfile_plain L b.
Proof.
  intros Hp Hn. assert (H : find2 ($"Meta") ($"Version") t = None).
  { unfold find2, kids_named. rewrite <- (app_nil_r (xkids t)), filter_skip by (intros x Hx; apply str_eqb_neq, Hn, Hx). reflexivity. }
  unfold keyfile_composite, keyfile_xml. rewrite Hp. cbn [bind]. rewrite H. reflexivity. Qed.

(** *** Composite keys *)
Lemma composite_none L kf kc : (let* kb := kf_read kf in match kb with Some b => keyfile_composite L b | None => Ok [] end) = Ok kc ->
  key_composite L None kf = Ok (sha256 L kc) /\ forall p pb, utf8_encode p = Ok pb -> key_composite L (Some p) kf = Ok (sha256 L (sha256 L pb ++ kc)).
Proof.
  intros H. split; [|intros p pb Hp]; unfold key_composite; cbn [bind]; [|rewrite Hp; cbn [bind]];
    destruct (kf_read kf) as [kb|]; cbn [bind] in *; try discriminate; rewrite H; reflexivity.
Qed.
Lemma none_vs_empty L kf a b : lib_ok L -> key_composite L None kf = Ok a -> key_composite L (Some []) kf = Ok b ->
  exists m1 m2, m1 <> m2 /\ a = sha256 L m1 /\ b = sha256 L m2.
Proof.
  intros HL Ha Hb. unfold key_composite in *. cbn [bind] in *. change (utf8_encode []) with (Ok (@nil N)) in Hb. cbn [bind] in Hb.
  destruct (kf_read kf) as [kb|]; cbn [bind] in *; [|discriminate].
  destruct (match kb with Some b0 => keyfile_composite L b0 | None => Ok [] end) as [kc|]; cbn [bind] in *; [|discriminate]. injection Ha as <-. injection Hb as <-.
  exists ([] ++ kc), (sha256 L [] ++ kc). split; [|auto]. intros E. apply (f_equal (@List.length N)) in E. rewrite !app_length in E. destruct (ok_sha256 _ HL []) as [Hl _]. rewrite Hl in E. cbn in E. lia.
Qed.
Lemma passwords_collide L p q a : lib_ok L -> p <> q -> key_composite L (Some p) KF_none = Ok a -> key_composite L (Some q) KF_none = Ok a ->
  exists m1 m2, m1 <> m2 /\ sha256 L m1 = sha256 L m2.
Proof.
  intros HL Hne Ha Hb. unfold key_composite in *. apply bind_ok in Ha. destruct Ha as (pc & Hp & Ha). apply bind_ok in Hb. destruct Hb as (qc & Hq & Hb).
  apply bind_ok in Hp. destruct Hp as (pb & Hp & [= <-]). apply bind_ok in Hq. destruct Hq as (qb & Hq & [= <-]). cbn [kf_read bind] in *. rewrite app_nil_r in *.
  assert (E : sha256 L (sha256 L pb) = sha256 L (sha256 L qb)) by congruence.
  destruct (list_eq_dec N.eq_dec (sha256 L pb) (sha256 L qb)) as [E2|E2].
  - exists pb, qb. split; [|exact E2]. intros ->. apply Hne. exact (utf8_encode_inj _ _ _ Hp Hq).
  - eauto.
Qed.
