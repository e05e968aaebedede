(** Opening with decrypt=False never blames the credentials or the payload (C20). *)
From Coq Require Import ZifyBool ZifyNat ZifyN.
From Verif Require Import Base Base64 PyStr Utf8 Xml Lib Keyfile Construct Kdbx.

(** Exceptions that are neither CredentialsError, PayloadChecksumError nor a checksum failure that becomes one of them. *)
Definition foreign (e : exn) : Prop := match e with Ex_Credentials | Ex_PayloadChecksum | Ex_Checksum _ => False | _ => True end.
Definition calm {A} (r : res A) : Prop := match r with Ok _ => True | Err e => foreign e end.
(** The Argon2 and XML libraries have their own exceptions. *)
Definition libs_calm (L : lib) : Prop := (forall k s b i m p v, calm (argon2 L k s b i m p v)) /\ forall b, calm (kf_parse L b).

Lemma calm_bind {A B} (r : res A) (f : A -> res B) : calm r -> (forall a, r = Ok a -> calm (f a)) -> calm (bind r f).
Proof. destruct r; cbn; auto. Qed.
Lemma calm_bindp {A B C} (r : res (A * B)) (f : A -> B -> res C) : calm r -> (forall a b, calm (f a b)) -> calm (bind r (fun '(a, b) => f a b)).
Proof. destruct r as [[a b]|]; cbn; auto. Qed.
Ltac calms := repeat first [exact I | assumption | match goal with |- calm (if ?b then _ else _) => destruct b | |- calm (match ?x with _ => _ end) => destruct x end | apply calm_bind; [|intros ? _] | apply calm_bindp; [|intros ? ?]].
Lemma calm_bytes n d : calm (p_bytes n d). Proof. unfold p_bytes. calms. Qed.
Lemma calm_int k d : calm (p_int k d). Proof. unfold p_int. apply calm_bindp; [apply calm_bytes|intros; exact I]. Qed.
Lemma calm_prefixed {A} k (f : bytes -> res A) d : (forall b, calm (f b)) -> calm (p_prefixed k f d).
Proof. intros H. unfold p_prefixed. apply calm_bindp; [apply calm_int|intros n r]. apply calm_bindp; [apply calm_bytes|intros b r']. apply calm_bind; [apply H|intros; exact I]. Qed.
Lemma calm_repeat {A} (item : N -> parser A) stop d : (forall i d, calm (item i d)) -> calm (p_repeat item stop d).
Proof.
  intros H. unfold p_repeat. generalize (S (List.length d)). intros f. generalize 0. revert d. induction f as [|f IH]; intros d i; cbn [p_until]; [exact I|].
  apply calm_bindp; [apply H|intros a r]. destruct (stop a); [exact I|]. apply calm_bindp; [apply IH|intros; exact I].
Qed.
Lemma calm_sub_int k b : calm (sub_int k b). Proof. unfold sub_int. apply calm_bindp; [apply calm_int|intros; exact I]. Qed.
Lemma calm_utf8 b : calm (utf8_decode b).
Proof.
  assert (H : forall n l, (List.length l <= n)%nat -> calm (utf8_decode l)).
  { clear b. induction n as [|n IH]; intros [|a l] Hl; cbn [List.length] in Hl; try lia; try exact I. cbn [utf8_decode]. destruct (a <? 128); [apply calm_bind; [apply IH; lia|intros; exact I]|]. destruct (a <? 194); [exact I|].
    destruct l as [|b l]; [exact I|]. cbn [List.length] in Hl. destruct (negb (is_cont b)); [exact I|]. destruct (a <? 224); [apply calm_bind; [apply IH; lia|intros; exact I]|].
    destruct l as [|c l]; [exact I|]. cbn [List.length] in Hl.
    repeat match goal with |- calm (if ?x then _ else _) => destruct x | |- calm (match ?l with [] => _ | _ :: _ => _ end) => destruct l; cbn [List.length] in Hl | |- calm (bind _ _) => apply calm_bind; [apply IH; lia|intros ? _] | |- calm (Err _) => exact I | |- calm (Ok _) => exact I end. }
  apply (H (List.length b)). lia.
Qed.
Lemma calm_vd_value ty b : calm (vd_value ty b).
Proof. unfold vd_value. repeat (match goal with |- calm (if ?x then _ else _) => destruct x end; [try exact I; (apply calm_bind; [apply calm_sub_int || apply calm_utf8|intros; exact I])|]). exact I. Qed.
Lemma calm_vdict b : calm (vdict b).
Proof.
  unfold vdict. apply calm_bindp; [apply calm_bytes|intros ? r]. apply calm_bindp; [|intros l r']; [|apply calm_bindp; [apply calm_bytes|intros; exact I]]. apply calm_repeat. intros i d. unfold vd_item.
  apply calm_bindp; [apply calm_int|intros]. apply calm_bindp; [apply calm_prefixed, calm_utf8|intros]. apply calm_bindp; [apply calm_prefixed; intros; apply calm_vd_value|intros; exact I].
Qed.
Lemma calm_cipher b : calm (cipher_of b). Proof. unfold cipher_of. calms. Qed.
Lemma calm_stream n : calm (stream_of n). Proof. unfold stream_of. calms. Qed.
Lemma calm_comp b : calm (sub_comp b). Proof. unfold sub_comp. apply calm_bindp; [apply calm_bytes|intros; exact I]. Qed.
Lemma calm_hval3 i b : calm (hval3 i b).
Proof. destruct i; cbn [hval3]; try exact I; repeat (apply calm_bind; [first [apply calm_cipher|apply calm_comp|apply calm_sub_int|apply calm_stream]|intros ? _]); exact I. Qed.
Lemma calm_hval4 i b : calm (hval4 i b).
Proof. destruct i; cbn [hval4]; try exact I; repeat (apply calm_bind; [first [apply calm_cipher|apply calm_comp|apply calm_vdict]|intros ? _]); exact I. Qed.
Lemma calm_h_item k f g i d : (forall n, calm (f n)) -> (forall i b, calm (g i b)) -> calm (h_item k f g i d).
Proof. intros Hf Hg. unfold h_item. apply calm_bindp; [apply calm_int|intros]. apply calm_bind; [apply Hf|intros h _]. apply calm_bindp; [apply calm_prefixed; intros; apply Hg|intros; exact I]. Qed.
Lemma calm_header d : calm (p_header d).
Proof.
  unfold p_header. apply calm_bindp; [|intros [[mi ma] dy] r; exact I]. unfold p_header0. apply calm_bindp; [apply calm_bytes|intros s1 r1]. apply calm_bindp; [apply calm_bytes|intros s2 r2].
  destruct (str_eqb s1 sig1 && str_eqb s2 sig2); [|exact I]. apply calm_bindp; [apply calm_int|intros mi r3]. apply calm_bindp; [apply calm_int|intros ma r4]. apply calm_bindp; [|intros; exact I]. unfold p_dyn.
  destruct (ma =? 3); [|destruct (ma =? 4); [|exact I]]; (apply calm_bindp; [|intros; exact I]); apply calm_repeat; intros i x; apply calm_h_item; try apply calm_hval3; try apply calm_hval4; intros n; unfold hid3, hid4; calms.
Qed.
Lemma calm_b64 s : calm (b64decode s).
Proof.
  assert (H : forall s q l p, calm (a2b q l p s)).
  { clear s. induction s as [|c s IH]; intros q l p; cbn [a2b]; [destruct (q =? 0); exact I|].
    repeat match goal with |- calm (if ?b then _ else _) => destruct b | |- calm (match b64val c with _ => _ end) => destruct (b64val c) | |- calm (a2b _ _ _ s) => apply IH | |- calm (bind _ _) => apply calm_bind; [apply IH|intros ? _] | |- _ => exact I end. }
  unfold b64decode. destruct (forallb _ s); [apply H|exact I].
Qed.
Lemma calm_hget e h i : foreign e -> calm (hget e h i). Proof. intros H. unfold hget. destruct (h_dyn h); [|exact I]. destruct (d_get _ _ _); [exact I|exact H]. Qed.
Lemma calm_hbytes e h i : foreign e -> calm (hbytes e h i). Proof. intros H. unfold hbytes. apply calm_bind; [now apply calm_hget|intros v _]. calms. Qed.
Lemma calm_fromhex s : calm (py_fromhex s).
Proof.
  assert (H : forall n l, (List.length l <= n)%nat -> calm (py_fromhex l)).
  { clear s. induction n as [|n IH]; intros [|a l] Hl; cbn [List.length] in Hl; try lia; try exact I. cbn [py_fromhex]. destruct (py_space a); [apply IH; lia|]. destruct l as [|b l]; [exact I|]. cbn [List.length] in Hl. destruct (hex_val a), (hex_val b); try exact I. apply calm_bind; [apply IH; lia|intros; exact I]. }
  apply (H (List.length s)). lia.
Qed.
Lemma calm_kf_xml L b : (forall b, calm (kf_parse L b)) -> calm (keyfile_xml L b).
Proof.
  intros HK. unfold keyfile_xml. apply calm_bind; [apply HK|intros tree _]. cbv zeta.
  repeat first [exact I | apply calm_b64 | apply calm_fromhex | match goal with |- calm (if ?b then _ else _) => destruct b | |- calm (match ?x with _ => _ end) => destruct x end | apply calm_bind; [|intros ? _]].
Qed.
Lemma calm_composite L pw kf : (forall b, calm (kf_parse L b)) -> calm (key_composite L pw kf).
Proof.
  intros HK. unfold key_composite. apply calm_bind; [|intros]. { destruct pw as [p|]; [|exact I]. apply calm_bind; [|intros; exact I]. induction p as [|c p IH]; cbn; [exact I|]. destruct (is_scalar c); [|exact I]. apply calm_bind; [exact IH|intros; exact I]. }
  apply calm_bind; [unfold kf_read; calms|intros]. apply calm_bind; [|intros; exact I]. destruct a0; [|exact I]. unfold keyfile_composite. pose proof (calm_kf_xml L b HK) as X. assert (P : calm (keyfile_plain L b)) by (unfold keyfile_plain; cbv zeta; calms). destruct (keyfile_xml L b) as [k|e]; [exact I|]. destruct e; try exact P; exact X.
Qed.
Lemma calm_aes L a b c : calm (aes_kdf L a b c). Proof. unfold aes_kdf. calms. Qed.
Lemma calm_vget k d : calm (vget k d). Proof. unfold vget. calms. Qed.
Lemma calm_as_int v : calm (as_int v). Proof. destruct v; exact I. Qed.
Lemma calm_as_bytes v : calm (as_bytes v). Proof. destruct v; exact I. Qed.
Lemma calm_transformed3 L cr h : libs_calm L -> calm (transformed3 L cr h).
Proof. intros [_ HK]. unfold transformed3. destruct (c_tk cr); [exact I|]. apply calm_bind; [now apply calm_composite|intros]. apply calm_bind; [now apply calm_hbytes|intros]. apply calm_bind; [unfold hrounds; apply calm_bind; [now apply calm_hget|intros; calms]|intros]. apply calm_aes. Qed.
Lemma calm_transformed4 L cr h : libs_calm L -> calm (transformed4 L cr h).
Proof.
  intros [HA HK]. unfold transformed4. apply calm_bind; [now apply calm_composite|intros]. apply calm_bind; [unfold hkdf; apply calm_bind; [now apply calm_hget|intros; calms]|intros]. destruct (c_tk cr); [exact I|].
  repeat first [apply HA | apply calm_aes | exact I | match goal with |- calm (if ?b then _ else _) => destruct b end | apply calm_bind; [first [apply calm_vget|apply calm_as_int|apply calm_as_bytes|now apply calm_composite]|intros ? _]].
Qed.
Lemma classify_foreign e : foreign e -> foreign (classify e).
Proof. destruct e; cbn [classify foreign]; try tauto. destruct (path_eqb _ _); exact (fun _ => I). Qed.
Lemma nodecrypt_calm L cr data e : libs_calm L -> c_dec cr = false -> open_kdbx L cr data = Err e -> e <> Ex_Credentials /\ e <> Ex_PayloadChecksum.
Proof.
  intros HA Hc H. unfold open_kdbx in H. destruct (p_kdbx L cr data) as [x|e0] eqn:E; [discriminate|]. injection H as <-.
  assert (K : foreign e0 \/ e0 = Ex_Checksum ["body"%string; "sha256"%string]); [|destruct K as [K| ->]; [apply classify_foreign in K; destruct (classify e0); cbn in K; now split|split; discriminate]].
  unfold p_kdbx in E. pose proof (calm_header data) as C. destruct (p_header data) as [[h r]|x]; [|injection E as <-; left; exact C]. cbn [bind] in E.
  assert (Mk : forall tk, calm (master_key L h tk)) by (intros tk; unfold master_key; apply calm_bind; [now apply calm_hbytes|intros; exact I]).
  destruct (h_major h =? 3).
  - left. unfold body3 in E. pose proof (calm_transformed3 L cr h HA) as T. destruct (transformed3 L cr h) as [tk|x]; [|injection E as <-; exact T]. cbn [bind] in E. specialize (Mk tk). destruct (master_key L h tk) as [mk|x]; [|injection E as <-; exact Mk]. cbn [bind] in E. rewrite Hc in E. discriminate.
  - destruct (h_major h =? 4); [|discriminate]. unfold body4 in E. pose proof (calm_transformed4 L cr h HA) as T. destruct (transformed4 L cr h) as [tk|x]; [|injection E as <-; left; exact T]. cbn [bind] in E. specialize (Mk tk). destruct (master_key L h tk) as [mk|x]; [|injection E as <-; left; exact Mk]. cbn [bind] in E.
    pose proof (calm_bytes 32 r) as B. destruct (p_bytes 32 r) as [[s q]|x]; [|injection E as <-; left; exact B]. cbn [bind] in E. destruct (str_eqb s _); [rewrite Hc in E; discriminate|]. injection E as <-. now right.
Qed.
