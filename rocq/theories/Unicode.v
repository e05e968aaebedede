(** The codec of Utf8.v is that of UnicodeSpec.v; what a master password is hashed as. *)
From Coq Require Import ZifyBool ZifyNat ZifyN.
From Verif Require Import Base Utf8 Format_more Lib Keyfile Kdbx UnicodeSpec.
Ltac Zify.zify_post_hook ::= Z.div_mod_to_equations.
Lemma spells_char c w : spells c w -> is_scalar c = true /\ w = utf8_char c.
Proof.
  intros H. inversion H as [a Ha|a b Ha Hb Hv|a b e Ha Hb He Hv Hs|a b e d Ha Hb He Hd Hv Hm]; subst; unfold is_scalar, utf8_char.
  - split; [lia|]. destruct (N.ltb_spec c 0x80); [reflexivity|lia].
  - set (v := a * 64 + b). split; [subst v; lia|]. destruct (N.ltb_spec v 0x80); [subst v; lia|]. destruct (N.ltb_spec v 0x800); [|subst v; lia].
    f_equal; [|f_equal]; subst v; lia.
  - set (v := a * 4096 + b * 64 + e) in *. split; [subst v; lia|]. destruct (N.ltb_spec v 0x80); [subst v; lia|]. destruct (N.ltb_spec v 0x800); [subst v; lia|]. destruct (N.ltb_spec v 0x10000); [|subst v; lia].
    f_equal; [|f_equal; [|f_equal]]; subst v; lia.
  - set (v := a * 262144 + b * 4096 + e * 64 + d) in *. split; [subst v; lia|]. destruct (N.ltb_spec v 0x80); [subst v; lia|]. destruct (N.ltb_spec v 0x800); [subst v; lia|]. destruct (N.ltb_spec v 0x10000); [subst v; lia|].
    f_equal; [|f_equal; [|f_equal; [|f_equal]]]; subst v; lia.
Qed.
Lemma char_spells c : is_scalar c = true -> spells c (utf8_char c).
Proof.
  unfold is_scalar, utf8_char. intros S. destruct (N.ltb_spec c 0x80); [now constructor|]. destruct (N.ltb_spec c 0x800).
  { pose proof (sp_two (c / 64) (c mod 64)) as P. replace (c / 64 * 64 + c mod 64) with c in P by lia. apply P; lia. }
  destruct (N.ltb_spec c 0x10000).
  { pose proof (sp_three (c / 4096) ((c / 64) mod 64) (c mod 64)) as P. replace (c / 4096 * 4096 + c / 64 mod 64 * 64 + c mod 64) with c in P by lia. apply P; lia. }
  pose proof (sp_four (c / 262144) ((c / 4096) mod 64) ((c / 64) mod 64) (c mod 64)) as P. replace (c / 262144 * 262144 + c / 4096 mod 64 * 4096 + c / 64 mod 64 * 64 + c mod 64) with c in P by lia. apply P; lia.
Qed.
Lemma encode_spelled s : forall b, utf8_encode s = Ok b <-> spelled s b.
Proof.
  induction s as [|c s IH]; intros b; cbn [utf8_encode].
  - split; [intros [= <-]; constructor|]. intros H. now inversion H.
  - split.
    + destruct (is_scalar c) eqn:S; [|discriminate]. intros H. apply bind_ok in H as (r & H & [= <-]). constructor; [now apply char_spells|now apply IH].
    + intros H. inversion H as [|? w ? b' Hw Hb]; subst. apply spells_char in Hw as [-> ->]. apply IH in Hb. now rewrite Hb.
Qed.
Lemma decode_spelled s b : utf8_decode b = Ok s <-> spelled s b.
Proof. rewrite <- encode_spelled. split; [now apply (utf8_back (List.length b))|apply utf8_roundtrip]. Qed.
Lemma spelled_inj s s' b : spelled s b -> spelled s' b -> s = s'.
Proof. rewrite <- !decode_spelled. congruence. Qed.
Lemma spelled_det s b b' : spelled s b -> spelled s b' -> b = b'.
Proof. rewrite <- !encode_spelled. congruence. Qed.
Lemma encode_cases s : python_str s -> (exists b, utf8_encode s = Ok b) /\ ~ Exists surrogate s \/ utf8_encode s = Err Ex_UnicodeEncode /\ Exists surrogate s.
Proof.
  unfold surrogate. induction 1 as [|c s Hc Hs IH]; [left; split; [eexists; reflexivity|]; intros H; inversion H|]. cbn [utf8_encode]. destruct (is_scalar c) eqn:S; unfold is_scalar in S.
  - destruct IH as [[[b ->] IH]|[-> IH]]; [left|right]; (split; [try (eexists; reflexivity); reflexivity|]); [|now right].
    intros H. inversion H as [? ? H1|? ? H1]; subst; [lia|contradiction].
  - right. split; [reflexivity|]. left. lia.
Qed.
Section Password.
  Variable L : lib.
  Lemma password_key p k : key_composite L (Some p) (KF_none) = Ok k <-> exists b, spelled p b /\ k = sha256 L (sha256 L b).
  Proof.
    unfold key_composite. split.
    - intros H. apply bind_ok in H as (pc & H & H'). apply bind_ok in H as (b & H & [= <-]). exists b. split; [now apply encode_spelled|]. cbn in H'. rewrite app_nil_r in H'. congruence.
    - intros (b & H & ->). apply encode_spelled in H. rewrite H. cbn. now rewrite app_nil_r.
  Qed.
  Lemma surrogate_key p kf : python_str p -> Exists surrogate p -> key_composite L (Some p) kf = Err Ex_UnicodeEncode.
  Proof. intros P E. unfold key_composite. destruct (encode_cases p P) as [[_ N1]|[-> _]]; [contradiction|reflexivity]. Qed.
  Lemma surrogate_open cr p d h r : c_pw cr = Some p -> c_tk cr = None -> python_str p -> Exists surrogate p -> p_header d = Ok (h, r) -> h_major h = 3 \/ h_major h = 4 ->
    open_kdbx L cr d = Err Ex_UnicodeEncode.
  Proof.
    intros Hp Ht P E Hd Hm. pose proof (surrogate_key p (c_kf cr) P E) as K. unfold open_kdbx, p_kdbx. rewrite Hd. cbn [bind]. destruct Hm as [->| ->]; cbn [N.eqb Pos.eqb].
    - unfold body3, transformed3. rewrite Ht, Hp, K. reflexivity.
    - unfold body4, transformed4. rewrite Hp, K. reflexivity.
  Qed.
  Lemma surrogate_save cr p k b : c_pw cr = Some p -> c_tk cr = None -> python_str p -> Exists surrogate p -> k_body k = Some b -> h_major (k_hdr k) = 3 \/ h_major (k_hdr k) = 4 ->
    build_kdbx L cr k = (h_raw (k_hdr k), Err Ex_UnicodeEncode, k).
  Proof.
    intros Hp Ht P E Hd Hm. pose proof (surrogate_key p (c_kf cr) P E) as K. destruct k as [h o]. cbn [k_body k_hdr] in *. subst o. unfold build_kdbx. cbn [k_body k_hdr]. destruct Hm as [M|M]; rewrite M; cbn [N.eqb Pos.eqb].
    - unfold build3, transformed3. rewrite Ht, Hp, K. reflexivity.
    - unfold build4, transformed4. rewrite Hp, K. reflexivity.
  Qed.
End Password.
