(** Files laid out as in FormatSpec.v are read, and written files are laid out so. *)
From Coq Require Import ZifyBool ZifyNat ZifyN.
From Verif Require Import Base Base64 PyStr Utf8 Xml Xml_facts Cbc Cbc_facts Lib Keyfile Construct TwofishSpec Kdbx KdbxSpec Kdbx_facts Kdbx_rt Kdbx_inner Kdbx_file Kdbx_v3 Kdbx_auth Kdbx_claims FormatSpec.

Lemma assoc_one {A B} (l : list (A * B)) k v v' : NoDup (map fst l) -> In (k, v) l -> In (k, v') l -> v = v'.
Proof.
  induction l as [|[a b] l IH]; [intros _ []|]. cbn [map fst]. intros H I1 I2. apply NoDup_cons_iff in H as [H1 H2]. destruct I1 as [E1|I1], I2 as [E2|I2].
  - congruence.
  - injection E1 as -> ->. exfalso. apply H1. apply (in_map fst) in I2. exact I2.
  - injection E2 as -> ->. exfalso. apply H1. apply (in_map fst) in I1. exact I1.
  - auto.
Qed.
Lemma get_one {K V} (eqb : K -> K -> bool) (Heq : forall a b, eqb a b = true <-> a = b) (l : list (K * V)) k v : NoDup (map fst l) -> In (k, v) l -> d_get eqb k (d_of_list eqb l) = Some v.
Proof.
  intros H I. rewrite (d_of_list_nodup _ Heq) by exact H. revert H I. induction l as [|[a b] l IH]; [intros _ []|]. cbn [map fst d_get]. intros H I. apply NoDup_cons_iff in H as [H1 H2]. destruct (eqb a k) eqn:E.
  - apply Heq in E. subst a. destruct I as [I|I]; [congruence|]. exfalso. apply H1. apply (in_map fst) in I. exact I.
  - destruct I as [I|I]; [injection I as -> ->; rewrite (proj2 (Heq k k) eq_refl) in E; discriminate|auto].
Qed.
(** Items one after the other. *)
Lemma until_items {A} (item : N -> parser A) stop (l : list (bytes * A)) bz z : (forall x, In x l -> (forall j r, item j (fst x ++ r) = Ok (snd x, r)) /\ stop (snd x) = false) ->
  (forall j r, item j (bz ++ r) = Ok (z, r)) -> stop z = true -> forall f i r, (List.length l < f)%nat -> p_until item stop f i (List.concat (map fst l) ++ bz ++ r) = Ok (map snd l ++ [z], r).
Proof.
  intros H Hz Sz. induction l as [|[b a] l IH]; intros f i r Hf; destruct f as [|f]; cbn [List.length] in Hf; try lia; cbn [p_until map List.concat app fst snd].
  - rewrite Hz. cbn [bind]. rewrite Sz. reflexivity.
  - destruct (H (b, a) (or_introl eq_refl)) as [H1 H2]. cbn [fst snd] in *. rewrite <- app_assoc, H1. cbn [bind]. rewrite H2. rewrite IH; [reflexivity|intros x Hx; apply H; now right|lia].
Qed.
Lemma le16_enc n : le_enc 2 n = le16 n.
Proof. unfold le16. cbn [le_enc]. f_equal. Qed.
Lemma le1_enc n : n < 256 -> le_enc 1 n = [n].
Proof. intros H. cbn [le_enc]. f_equal. apply N.mod_small, H. Qed.

(** *** Headers *)
Section Head.
  Variables (idf : N -> res hid) (valf : hid -> bytes -> res hval) (kk : nat) (field : N * bytes -> bytes).
  Hypothesis Hf : forall f, field f = [fst f] ++ le_enc kk (lenN (snd f)) ++ snd f.
  Hypothesis Hnum : forall n i, idf n = Ok i -> hid_num i = n.
  Definition reads (f : N * bytes) (it : hid * hval) : Prop := lenN (snd f) < 256 ^ N.of_nat kk /\ fst f < 256 /\ idf (fst f) = Ok (fst it) /\ valf (fst it) (snd f) = Ok (snd it).
  Lemma field_read f it j r : reads f it -> h_item kk idf valf j (field f ++ r) = Ok (it, r).
  Proof.
    intros (H1 & H2 & H3 & H4). unfold h_item. rewrite Hf, <- !app_assoc. rewrite <- (le1_enc (fst f) H2). rewrite p_int_enc by (change (256 ^ N.of_nat 1) with 256; lia). cbn [bind]. rewrite H3. cbn [bind]. rewrite prefixed_enc by exact H1. rewrite H4. cbn [bind]. destruct it. reflexivity.
  Qed.
  Lemma fields_read fields its e ev d : Forall2 reads fields its -> reads (0, e) (H_end, ev) -> ~ In 0 (map fst fields) -> d = List.concat (map field fields) ++ field (0, e) ->
    forall r, p_repeat (h_item kk idf valf) (fun it => hid_eqb (fst it) H_end) (d ++ r) = Ok (its ++ [(H_end, ev)], r).
  Proof.
    intros F He H0 -> r. unfold p_repeat. assert (E : List.concat (map field fields) = List.concat (map fst (combine (map field fields) its)) /\ its = map snd (combine (map field fields) its)).
    { clear -F. induction F as [|f it l m _ _ IH]; [auto|]. destruct IH as [E1 E2]. cbn [map combine List.concat fst snd]. rewrite <- E1, <- E2. auto. }
    destruct E as [E1 E2]. rewrite <- app_assoc, E1. rewrite E2 at 3. apply until_items.
    - intros [b it] I. cbn [fst snd]. assert (exists f, In f fields /\ b = field f /\ reads f it) as (f & If & -> & Hr).
      { clear -F I. induction F as [|f x l m Hx F IH]; [destruct I|]. cbn [map combine] in I. destruct I as [I|I]; [injection I as <- <-; exists f; split; [now left|auto]|]. destruct (IH I) as (g & Ig & Eg). exists g. split; [now right|exact Eg]. }
      split; [intros; now apply field_read|]. destruct (hid_eqb (fst it) H_end) eqn:X; [|reflexivity]. exfalso. apply hid_eqb_eq in X. destruct Hr as (_ & _ & Hr & _). apply Hnum in Hr. rewrite X in Hr. apply H0. cbn in Hr. rewrite Hr. now apply in_map.
    - intros; now apply field_read.
    - reflexivity.
    - assert (L : forall fl, (List.length fl <= List.length (List.concat (map field fl)))%nat). { induction fl as [|f fl IH]; cbn [map List.concat List.length]; [lia|]. rewrite app_length, Hf. cbn [app List.length]. lia. }
      specialize (L fields). rewrite <- E1, app_length. rewrite combine_length, map_length. lia.
  Qed.
  Lemma its_nodup fields its ev : Forall2 reads fields its -> NoDup (map fst fields) -> ~ In 0 (map fst fields) -> NoDup (map fst (its ++ [(H_end, ev)])).
  Proof.
    intros F H H0. assert (E : map hid_num (map fst its) = map fst fields). { clear -F Hnum. induction F as [|f it l m Hx F IH]; [reflexivity|]. cbn [map]. rewrite IH. f_equal. apply Hnum. apply Hx. }
    apply (NoDup_map_inv hid_num). rewrite !map_app. cbn [map fst hid_num]. rewrite E. apply (NoDup_rev) in H. rewrite <- (rev_involutive (_ ++ _)), rev_app_distr. apply NoDup_rev. cbn [rev app]. constructor; [rewrite <- in_rev; exact H0|exact H].
  Qed.
  Lemma its_get fields its ev n v i hv : Forall2 reads fields its -> NoDup (map fst fields) -> ~ In 0 (map fst fields) -> In (n, v) fields -> idf n = Ok i -> valf i v = Ok hv ->
    d_get hid_eqb i (d_of_list hid_eqb (its ++ [(H_end, ev)])) = Some hv.
  Proof.
    intros F H H0 I Ei Ev. apply (get_one _ hid_eqb_eq); [now apply (its_nodup fields)|]. apply in_or_app. left. clear -F I Ei Ev. induction F as [|f it l m Hx F IH]; [destruct I|]. destruct I as [->|I]; [|right; auto]. left. destruct Hx as (_ & _ & H1 & H2). cbn [fst snd] in *. destruct it as [a b]. cbn [fst snd] in *. congruence.
  Qed.
End Head.
Lemma header_read minor major dyn its field o : o_minor o = minor -> minor < 2 ^ 16 -> major < 2 ^ 16 -> head_bytes major field o = magic ++ le16 minor ++ le16 major ++ dyn -> (forall r, p_dyn major (dyn ++ r) = Ok (its, r)) ->
  forall r, p_header (head_bytes major field o ++ r) = Ok (MkHdr (head_bytes major field o) minor major its, r).
Proof.
  intros Em H1 H2 E Hd r. assert (P : p_header0 (head_bytes major field o ++ r) = Ok (minor, major, its, r)).
  { rewrite E. unfold p_header0. rewrite <- !app_assoc. change magic with (sig1 ++ sig2). rewrite <- !app_assoc. rewrite p_bytes_app by reflexivity. cbn [bind]. rewrite p_bytes_app by reflexivity. cbn [bind]. rewrite !str_eqb_refl. cbn [andb].
    rewrite <- !le16_enc. rewrite p_int_enc by exact H1. cbn [bind]. rewrite p_int_enc by exact H2. cbn [bind]. rewrite Hd. reflexivity. }
  unfold p_header. rewrite P. cbn [bind]. replace (firstn _ _) with (head_bytes major field o); [reflexivity|]. rewrite app_length. replace (_ + _ - _)%nat with (List.length (head_bytes major field o)) by lia. rewrite firstn_app, Nat.sub_diag, firstn_all, firstn_O, app_nil_r. reflexivity.
Qed.
(** *** Variant dictionaries *)
Definition v_value (it : vitem) : res vval := vd_value (fst (fst it)) (snd it).
Lemma v_item_read it j r : v_ok it -> exists s v, utf8_encode s = Ok (v_name it) /\ v_value it = Ok v /\ 0 < fst (fst it) < 256 /\ vd_item j (v_bytes it ++ r) = Ok (s, v, hd_error r, r).
Proof.
  destruct it as [[ty k] v]. intros (Hk & Hv & (s & Es) & T). unfold v_name, v_value. cbn [fst snd]. exists s.
  assert (exists x, vd_value ty v = Ok x) as (x & Ex).
  { assert (P : forall n, lenN v = N.of_nat n -> exists m, sub_int n v = Ok m). { intros n En. unfold sub_int, p_int. rewrite <- (app_nil_r v), p_bytes_app by exact En. cbn [bind]. eauto. }
    destruct T as [[T Lv]|[[T Lv]|[[T Lv]|[[T (s' & Es')]|T]]]].
    - destruct (P 4%nat ltac:(unfold lenN; lia)) as (m & Em). unfold vd_value. destruct T as [-> | ->]; cbn [N.eqb Pos.eqb]; rewrite Em; cbn [bind]; eauto.
    - destruct (P 8%nat ltac:(unfold lenN; lia)) as (m & Em). unfold vd_value. destruct T as [-> | ->]; cbn [N.eqb Pos.eqb]; rewrite Em; cbn [bind]; eauto.
    - destruct (P 1%nat ltac:(unfold lenN; lia)) as (m & Em). unfold vd_value. subst ty. cbn [N.eqb Pos.eqb]. rewrite Em. cbn [bind]. eauto.
    - unfold vd_value. subst ty. cbn [N.eqb Pos.eqb]. rewrite (utf8_roundtrip _ _ Es'). cbn [bind]. eauto.
    - unfold vd_value. subst ty. cbn [N.eqb Pos.eqb]. eauto. }
  exists x. split; [exact Es|]. split; [exact Ex|]. assert (Ht : 0 < ty < 256) by lia. split; [exact Ht|]. unfold vd_item, v_bytes. rewrite <- !app_assoc. rewrite <- (le1_enc ty) by lia. rewrite p_int_enc by (change (256 ^ N.of_nat 1) with 256; lia). cbn [bind].
  rewrite <- !le32_enc. rewrite prefixed_enc by (apply Hk). rewrite (utf8_roundtrip _ _ Es). cbn [bind]. rewrite prefixed_enc by (apply Hv). rewrite Ex. reflexivity.
Qed.
Lemma v_bytes_hd it : exists x, v_bytes it = fst (fst it) :: x.
Proof. destruct it as [[ty k] v]. cbn. eauto. Qed.
Lemma dict_until items : Forall v_ok items -> items <> [] -> forall f i, (List.length items <= f)%nat ->
  exists l, p_until vd_item (fun it => match snd it with Some n => n =? 0 | None => false end) f i (List.concat (map v_bytes items) ++ [0]) = Ok (l, [0]) /\
    Forall2 (fun it x => utf8_encode (fst (fst x)) = Ok (v_name it) /\ v_value it = Ok (snd (fst x))) items l.
Proof.
  induction 1 as [|it items Hi H IH]; intros N f i Hf; [congruence|]. destruct f as [|f]; cbn [List.length] in Hf; [lia|]. cbn [map List.concat p_until]. rewrite <- app_assoc. destruct (v_item_read it i (List.concat (map v_bytes items) ++ [0]) Hi) as (s & v & E1 & E2 & Ht & E3). rewrite E3. cbn [bind fst snd].
  destruct items as [|it2 items].
  - cbn [map List.concat app hd_error]. change (0 =? 0) with true. eexists. split; [reflexivity|]. repeat constructor; assumption.
  - cbn [map List.concat]. destruct (v_bytes_hd it2) as (x & Ex). rewrite Ex. cbn [app hd_error]. inversion H as [|? ? Hi2 _]; subst. destruct (v_item_read it2 i [] Hi2) as (_ & _ & _ & _ & Ht2 & _). replace (fst (fst it2) =? 0) with false by lia.
    destruct (IH ltac:(discriminate) f (i + 1) ltac:(cbn [List.length] in *; lia)) as (l & El & F). cbn [map List.concat] in El. rewrite Ex in El. cbn [app] in El. rewrite El. cbn [bind]. eexists. split; [reflexivity|]. constructor; [auto|exact F].
Qed.
Lemma dict_read items : Forall v_ok items -> items <> [] -> NoDup (map v_name items) ->
  exists d, vdict (dict_bytes items) = Ok d /\ forall ty s k v x, In (ty, k, v) items -> utf8_encode s = Ok k -> vd_value ty v = Ok x -> vget s d = Ok x.
Proof.
  intros H NE ND. unfold vdict, dict_bytes. rewrite p_bytes_app by reflexivity. cbn [bind]. unfold p_repeat.
  assert (L : (List.length items <= List.length (List.concat (map v_bytes items)))%nat). { clear. induction items as [|it l IH]; cbn [map List.concat List.length]; [lia|]. rewrite app_length. destruct (v_bytes_hd it) as (x & ->). cbn [List.length]. lia. }
  destruct (dict_until items H NE (S (List.length (List.concat (map v_bytes items) ++ [0]))) 0 ltac:(rewrite app_length; lia)) as (l & El & F). rewrite El. cbn [bind]. change (p_bytes 1 [0]) with (Ok ([0], @nil N)). cbn [bind]. eexists. split; [reflexivity|].
  intros ty s k v x I Es Ex. unfold vget. assert (Hd : NoDup (map fst (map fst l))).
  { clear -F ND. induction F as [|it x items l Hx F IH]; [constructor|]. cbn [map] in *. apply NoDup_cons_iff in ND as [N1 N2]. constructor; [|auto]. intros C. apply N1. destruct Hx as [Hx _]. clear -C F Hx. induction F as [|it2 y items l Hy F IH]; [destruct C|]. cbn [map] in *. destruct C as [C|C]; [left|right; auto]. destruct Hy as [Hy _]. congruence. }
  rewrite (get_one _ str_eqb_eq _ s x Hd); [reflexivity|]. clear -F I Es Ex. induction F as [|it y items l Hy F IH]; [destruct I|]. destruct I as [->|I]; [|right; auto]. left. destruct Hy as [H1 H2]. unfold v_name, v_value in *. cbn [fst snd] in *. destruct y as [[a b] c]. cbn [fst snd] in *. f_equal; [|congruence]. eapply utf8_encode_inj; [exact H1|exact Es].
Qed.
Lemma sub_enc k n : n < 256 ^ N.of_nat k -> sub_int k (le_enc k n) = Ok n.
Proof. intros H. unfold sub_int. rewrite <- (app_nil_r (le_enc k n)), p_int_enc by exact H. reflexivity. Qed.
(** *** Key derivation *)
Lemma aes_iter L seed : lib_ok L -> forall n c, digest 32 c -> N.iter n (aes_ecb L seed) c = Nat.iter (N.to_nat n) (halves (aes_enc L seed)) c.
Proof.
  intros HL n c Hc. assert (S : forall b, digest 32 b -> aes_ecb L seed b = halves (aes_enc L seed) b /\ digest 32 (halves (aes_enc L seed) b)).
  { intros b [B1 B2]. assert (D1 : digest 16 (firstn 16 b)) by (split; [rewrite firstn_length; lia|rewrite <- (firstn_skipn 16 b) in B2; apply bytes_ok_app in B2; apply B2]). assert (D2 : digest 16 (skipn 16 b)) by (split; [rewrite skipn_length; lia|rewrite <- (firstn_skipn 16 b) in B2; apply bytes_ok_app in B2; apply B2]). split.
    - unfold aes_ecb, halves. rewrite <- (firstn_skipn 16 b) at 1. change (firstn 16 b ++ skipn 16 b) with (firstn 16 b ++ skipn 16 b). replace (firstn 16 b ++ skipn 16 b) with (List.concat [firstn 16 b; skipn 16 b]) by (cbn [List.concat]; rewrite app_nil_r; reflexivity). rewrite blocks_of_concat by (repeat constructor; [apply D1|apply D2]). cbn [map List.concat]. rewrite app_nil_r. reflexivity.
    - destruct (ok_aes _ HL seed _ D1) as [E1 _]. destruct (ok_aes _ HL seed _ D2) as [E2 _]. unfold halves. split; [rewrite app_length, (proj1 E1), (proj1 E2); reflexivity|apply bytes_ok_app; split; [apply E1|apply E2]]. }
  rewrite <- (N2Nat.id n). rewrite Nat2N.id. set (m := N.to_nat n). clearbody m. clear n. assert (G : N.iter (N.of_nat m) (aes_ecb L seed) c = Nat.iter m (halves (aes_enc L seed)) c /\ digest 32 (Nat.iter m (halves (aes_enc L seed)) c)); [|apply G].
  induction m as [|m [IH1 IH2]]; [cbn; auto|]. rewrite Nat2N.inj_succ, N.iter_succ, IH1. destruct (S _ IH2) as [S1 S2]. cbn [Nat.iter]. rewrite S1. auto.
Qed.
Lemma composite_digest L pw kf c : lib_ok L -> composite L pw kf c -> digest 32 c.
Proof. intros HL []; apply (ok_sha256 _ HL). Qed.
(** A key file argument that can be read again and again, standing for the given bytes. *)
Definition stands_for (L : lib) (kf : kfsrc) (o : option bytes) : Prop :=
  (kf = KF_none /\ o = None) \/ exists b k, (kf = KF_path (Some b) \/ exists pos, kf = KF_stream true b pos) /\ keyfile_composite L b = Ok k /\ o = Some k.
Lemma composite_key L pw kf o c : stands_for L kf o -> composite L pw o c -> key_composite L pw kf = Ok c /\ key_composite L pw (kf_next kf) = Ok c.
Proof.
  intros S C. assert (R : exists kc, (let* kb := kf_read kf in match kb with Some b => keyfile_composite L b | None => Ok [] end) = Ok kc /\ (let* kb := kf_read (kf_next kf) in match kb with Some b => keyfile_composite L b | None => Ok [] end) = Ok kc /\ kc = match o with Some k => k | None => [] end).
  { destruct S as [[-> ->]|(b & k & [->|(pos & ->)] & Ek & ->)]; [exists []; auto|exists k; cbn; auto|exists k; cbn; auto]. }
  destruct R as (kc & R1 & R2 & ->). unfold key_composite. destruct C as [p b k E|p b E|k|]; cbn [bind]; rewrite ?E; cbn [bind];
    (apply bind_ok in R1 as (x1 & -> & R1); apply bind_ok in R2 as (x2 & -> & R2); cbn [bind]; rewrite R1, R2; cbn [bind]; rewrite ?app_nil_r, ?app_nil_l; auto).
Qed.
Lemma kdf_read L cr h k items d c tk o : lib_ok L -> c_tk cr = None -> stands_for L (c_kf cr) o -> composite L (c_pw cr) o c ->
  hkdf h = Ok d -> (forall ty s k v x, In (ty, k, v) items -> utf8_encode s = Ok k -> vd_value ty v = Ok x -> vget s d = Ok x) -> kdf_dict k items -> (transformed4 L cr h = Ok tk <-> derives L k c tk).
Proof.
  intros HL Ht St Co Hk G (Vo & ND & K). destruct (composite_key L (c_pw cr) (c_kf cr) o c St Co) as [K1 K2]. unfold transformed4. rewrite K1. cbn [bind]. rewrite Hk. cbn [bind]. rewrite Ht.
  assert (U : forall n x, vd_value 5 (le64 n) = Ok x -> n < 2 ^ 64 -> x = VV_int (Z.of_N n)) by (intros n x E Hn; unfold vd_value in E; cbn [N.eqb Pos.eqb] in E; rewrite <- le64_enc, sub_enc in E by exact Hn; cbn [bind] in E; congruence).
  assert (U64 : forall n, n < 2 ^ 64 -> vd_value 5 (le64 n) = Ok (VV_int (Z.of_N n))) by (intros n Hn; unfold vd_value; cbn [N.eqb Pos.eqb]; rewrite <- le64_enc, sub_enc by exact Hn; reflexivity).
  assert (U32 : forall n, n < 2 ^ 32 -> vd_value 4 (le32 n) = Ok (VV_int (Z.of_N n))) by (intros n Hn; unfold vd_value; cbn [N.eqb Pos.eqb]; rewrite <- le32_enc, sub_enc by exact Hn; reflexivity).
  destruct k as [id salt i kib p v|seed r]; cbn [derives].
  - destruct K as (I1 & I2 & [I3 L3] & [I4 L4] & [I5 L5] & [I6 L6]). rewrite (G _ ($"$UUID") _ _ _ I1 eq_refl eq_refl). cbn [bind]. rewrite (G _ ($"S") _ _ _ I2 eq_refl eq_refl). rewrite (G _ ($"I") _ _ _ I3 eq_refl (U64 _ L3)). rewrite (G _ ($"M") _ _ _ I4 eq_refl (U64 _ L4)). rewrite (G _ ($"P") _ _ _ I5 eq_refl (U32 _ L5)). rewrite (G _ ($"V") _ _ _ I6 eq_refl (U32 _ L6)).
    cbn [bind as_int as_bytes]. replace (Z.of_N (1024 * kib) / 1024)%Z with (Z.of_N kib) by (rewrite N2Z.inj_mul, Z.mul_comm, Z.div_mul by lia; reflexivity). destruct id.
    + change (is_bytes (VV_bytes id_argon2id) kdf_argon2 || is_bytes (VV_bytes id_argon2id) kdf_argon2id) with true. change (is_bytes (VV_bytes id_argon2id) kdf_argon2id) with true. reflexivity.
    + change (is_bytes (VV_bytes id_argon2d) kdf_argon2 || is_bytes (VV_bytes id_argon2d) kdf_argon2id) with true. change (is_bytes (VV_bytes id_argon2d) kdf_argon2id) with false. reflexivity.
  - destruct K as (I1 & [I2 L2] & [I3 L3]). rewrite (G _ ($"$UUID") _ _ _ I1 eq_refl eq_refl). cbn [bind]. change (is_bytes (VV_bytes id_aeskdf) kdf_argon2 || is_bytes (VV_bytes id_aeskdf) kdf_argon2id) with false. change (is_bytes (VV_bytes id_aeskdf) kdf_aes) with true. cbv iota. rewrite K2. cbn [bind]. rewrite (G _ ($"S") _ _ _ I2 eq_refl eq_refl). rewrite (G _ ($"R") _ _ _ I3 eq_refl (U64 _ L3)). cbn [bind as_bytes as_int].
    unfold aes_kdf, aes_key_ok. rewrite L2. cbn [Nat.eqb orb]. rewrite N2Z.id, aes_iter by (auto; eapply composite_digest; eauto). split; [intros X; apply Ok_inj in X; congruence|intros ->; reflexivity].
Qed.
(** *** Encryption *)
Lemma cipher_known L cid mk iv d ct : encrypted L cid mk iv d ct -> exists c, cipher_of cid = Ok c /\ (c = C_chacha -> List.length iv = 12%nat) /\ (c <> C_chacha -> List.length iv = 16%nat).
Proof.
  intros []; [exists C_aes|exists C_twofish|exists C_chacha]; (split; [vm_compute; reflexivity|]); split; intros; congruence || assumption.
Qed.
Lemma chained_aes L mk : forall ps iv, chained (aes_enc L mk) iv ps = cbc_e (aes_enc L mk) iv ps.
Proof. induction ps as [|p ps IH]; intros iv; [reflexivity|]. cbn [chained cbc_e]. rewrite strxor_spec, IH. reflexivity. Qed.
Lemma chained_twofish mk : forall ps iv, chained (twofish mk) iv ps = twofish_cbc mk iv ps.
Proof. induction ps as [|p ps IH]; intros iv; [reflexivity|]. cbn [chained twofish_cbc]. rewrite IH. reflexivity. Qed.
Lemma padded_pad d ps : padded d ps <-> Forall (fun p => List.length p = 16%nat) ps /\ List.concat ps = pkcs7_pad d.
Proof.
  assert (Len : forall ps : list bytes, Forall (fun p => List.length p = 16%nat) ps -> (List.length (List.concat ps) mod 16 = 0)%nat).
  { intros q H. assert (E : List.length (List.concat q) = (List.length q * 16)%nat) by (induction H as [|x l Hx H IH]; [reflexivity|]; cbn [List.concat List.length]; rewrite app_length; lia). rewrite E. apply Nat.mod_mul. lia. }
  unfold padded. destruct (pad_length d) as (k & Hk & Ek & _). split.
  - intros [F (k' & Hk' & E)]. split; [exact F|]. rewrite E, Ek. assert (k' = k); [|subst; reflexivity]. pose proof (Len ps F) as M1. pose proof (pad_mult d) as M2. rewrite E in M1. rewrite Ek in M2. rewrite app_length, repeat_length in M1, M2. clear -M1 M2 Hk Hk'.
    pose proof (Nat.div_mod (List.length d + k) 16 ltac:(lia)). pose proof (Nat.div_mod (List.length d + k') 16 ltac:(lia)). lia.
  - intros [F E]. split; [exact F|]. exists k. rewrite E. auto.
Qed.
Lemma blocks_blk (ps : list bytes) d : Forall (fun p => List.length p = 16%nat) ps -> List.concat ps = d -> bytes_ok d -> Forall blk16 ps.
Proof. intros F <-. induction F as [|p l Hp F IH]; intros H; [constructor|]. cbn [List.concat] in H. apply bytes_ok_app in H as [H1 H2]. constructor; [split; assumption|auto]. Qed.
Lemma encrypted_iff L cid c mk iv d ct : lib_ok L -> cipher_of cid = Ok c -> digest 32 mk -> bytes_ok iv -> (c = C_chacha -> List.length iv = 12%nat) -> (c <> C_chacha -> List.length iv = 16%nat) -> bytes_ok d ->
  (encrypted L cid mk iv d ct <-> payload_encrypt L c mk iv d = Ok ct).
Proof.
  intros HL Hc [Hm1 Hm2] Hiv Lc Ln Hd.
  assert (A : forall ps, Forall (fun p => List.length p = 16%nat) ps -> List.concat ps = pkcs7_pad d -> c = C_aes -> payload_encrypt L c mk iv d = Ok (List.concat (chained (aes_enc L mk) iv ps))).
  { intros ps F E ->. cbn [payload_encrypt]. unfold aes_cbc_encrypt, aes_cbc_new, aes_key_ok. rewrite Hm1, (Ln ltac:(discriminate)), pad_mult. cbn [Nat.eqb orb andb bind]. rewrite <- E, blocks_of_concat, chained_aes by exact F. reflexivity. }
  assert (B : forall ps, Forall (fun p => List.length p = 16%nat) ps -> List.concat ps = pkcs7_pad d -> c = C_twofish -> payload_encrypt L c mk iv d = Ok (List.concat (chained (twofish mk) iv ps))).
  { intros ps F E ->. cbn [payload_encrypt]. destruct (cbc_is_twofish_cbc mk iv ps) as (s & Es & Eo); [split; [exact Hm2|right; right; exact Hm1]|split; [exact Hiv|apply Ln; discriminate]|apply (blocks_blk ps (pkcs7_pad d) F E); now apply pad_ok|]. rewrite Es. cbn [bind]. rewrite <- E, Eo, chained_twofish. reflexivity. }
  assert (C : c = C_chacha -> payload_encrypt L c mk iv d = Ok (xor_at (chacha_ks L mk iv) 0 d)).
  { intros ->. cbn [payload_encrypt]. unfold chacha_new. rewrite Hm1, (Lc eq_refl). cbn [Nat.eqb orb andb bind]. rewrite <- xor_at_model. reflexivity. }
  split.
  - intros E. destruct E as [mk iv d ps Li P|mk iv d ps Li P|mk iv d Li]; (assert (Ec : Ok c = cipher_of _) by (symmetry; exact Hc)); vm_compute in Ec; apply Ok_inj in Ec; try (apply padded_pad in P as [F E]; auto); auto.
  - intros E. unfold cipher_of in Hc. destruct (str_eqb_spec cid aes_uuid) as [->|].
    + apply Ok_inj in Hc. subst c. destruct (blocks16 _ (pkcs7_pad d) (Nat.le_refl _) (pad_ok d Hd) (pad_mult d)) as (ps & Ep & F). assert (F' : Forall (fun p => List.length p = 16%nat) ps) by (eapply Forall_impl; [|exact F]; intros ? [? ?]; assumption). rewrite (A ps F' (eq_sym Ep) eq_refl) in E. apply Ok_inj in E. subst ct. change aes_uuid with id_aes. constructor; [apply Ln; discriminate|]. apply padded_pad. auto.
    + destruct (str_eqb_spec cid twofish_uuid) as [->|].
      * apply Ok_inj in Hc. subst c. destruct (blocks16 _ (pkcs7_pad d) (Nat.le_refl _) (pad_ok d Hd) (pad_mult d)) as (ps & Ep & F). assert (F' : Forall (fun p => List.length p = 16%nat) ps) by (eapply Forall_impl; [|exact F]; intros ? [? ?]; assumption). rewrite (B ps F' (eq_sym Ep) eq_refl) in E. apply Ok_inj in E. subst ct. change twofish_uuid with id_twofish. constructor; [apply Ln; discriminate|]. apply padded_pad. auto.
      * destruct (str_eqb_spec cid chacha_uuid) as [->|]; [|discriminate]. apply Ok_inj in Hc. subst c. rewrite (C eq_refl) in E. apply Ok_inj in E. subst ct. change chacha_uuid with id_chacha20. constructor. auto.
Qed.
(** *** Whole headers *)
Lemma forall2_ex {A B} (R : A -> B -> Prop) l : (forall x, In x l -> exists y, R x y) -> exists m, Forall2 R l m.
Proof.
  induction l as [|x l IH]; intros H; [exists []; constructor|]. destruct (H x (or_introl eq_refl)) as (y & Hy). destruct IH as (m & Hm); [intros z Hz; apply H; now right|]. exists (y :: m). now constructor.
Qed.
Lemma hid4_num n i : hid4 n = Ok i -> hid_num i = n.
Proof. unfold hid4. repeat match goal with |- context [?x =? ?y] => destruct (N.eqb_spec x y) end; intros [= <-]; subst; reflexivity. Qed.
Lemma hid3_num n i : hid3 n = Ok i -> hid_num i = n.
Proof. unfold hid3. repeat match goal with |- context [?x =? ?y] => destruct (N.eqb_spec x y) end; intros [= <-]; subst; reflexivity. Qed.
Lemma comp_flag b : sub_comp (flag b) = Ok b.
Proof. destruct b; vm_compute; reflexivity. Qed.
Lemma field4_le f : field4 f = [fst f] ++ le_enc 4 (lenN (snd f)) ++ snd f.
Proof. unfold field4. rewrite <- le32_enc. reflexivity. Qed.
Lemma field3_le f : field3 f = [fst f] ++ le_enc 2 (lenN (snd f)) ++ snd f.
Proof. unfold field3. rewrite <- le16_enc. reflexivity. Qed.
Record facts (h : header) (o : outer) (major : N) (field : N * bytes -> bytes) (c : cipher) (comp : bool) (seed iv : bytes) : Prop := {
  f_read : forall r, p_header (head_bytes major field o ++ r) = Ok (h, r);
  f_raw : h_raw h = head_bytes major field o;
  f_major : h_major h = major;
  f_minor : h_minor h = o_minor o;
  f_comp : hcomp h = Ok comp;
  f_cipher : hcipher h = Ok c;
  f_seed : forall e, hbytes e h H_seed = Ok seed;
  f_iv : forall e, hbytes e h H_iv = Ok iv }.
Lemma head4_read o cid comp seed iv k c : head4 o cid comp seed iv k -> cipher_of cid = Ok c ->
  exists h items d, facts h o 4 field4 c comp seed iv /\ kdf_dict k items /\ hkdf h = Ok d /\
    (forall ty s k v x, In (ty, k, v) items -> utf8_encode s = Ok k -> vd_value ty v = Ok x -> vget s d = Ok x).
Proof.
  intros (Hm & [_ He] & Hf & ND & I2 & I3 & I4 & I7 & items & I11 & K) Hc.
  assert (NE : items <> []) by (destruct K as (_ & _ & K); destruct k; destruct K as (K & _); intros ->; destruct K).
  destruct (dict_read items (proj1 K) NE (proj1 (proj2 K))) as (d & Ed & G).
  assert (H0 : ~ In 0 (map fst (o_fields o))). { intros X. apply in_map_iff in X as (f & E & X). rewrite Forall_forall in Hf. apply Hf in X as [_ X]. rewrite E in X. cbn in X. intuition discriminate. }
  destruct (forall2_ex (reads hid4 hval4 4) (o_fields o)) as (its & F).
  { intros [n v] I. pose proof (proj1 (Forall_forall _ _) Hf _ I) as [[_ Hl] Hn]. cbn [fst snd] in *.
    assert (W : forall i hv, n < 256 -> hid4 n = Ok i -> hval4 i v = Ok hv -> exists y, reads hid4 hval4 4 (n, v) y) by (intros i hv A B C; exists (i, hv); repeat split; assumption).
    cbn in Hn. destruct Hn as [<-|[<-|[<-|[<-|[<-|[<-|[<-|[]]]]]]]]; try (eapply W; [reflexivity|reflexivity|reflexivity]).
    - rewrite (assoc_one _ _ _ _ ND I I2) in *. eapply W; [reflexivity|reflexivity|]. cbn [hval4]. rewrite Hc. reflexivity.
    - rewrite (assoc_one _ _ _ _ ND I I3) in *. eapply W; [reflexivity|reflexivity|]. cbn [hval4]. rewrite comp_flag. reflexivity.
    - rewrite (assoc_one _ _ _ _ ND I I11) in *. eapply W; [reflexivity|reflexivity|]. cbn [hval4]. rewrite Ed. reflexivity. }
  assert (Re : reads hid4 hval4 4 (0, o_end o) (H_end, HV_bytes (o_end o))) by (repeat split; exact He).
  set (dy := d_of_list hid_eqb (its ++ [(H_end, HV_bytes (o_end o))])).
  assert (Gt : forall n v i hv, In (n, v) (o_fields o) -> hid4 n = Ok i -> hval4 i v = Ok hv -> d_get hid_eqb i dy = Some hv) by (intros; eapply (its_get hid4 hval4 4 hid4_num); eauto).
  exists (MkHdr (head_bytes 4 field4 o) (o_minor o) 4 (Some dy)), items, d. split; [|split; [exact K|split; [|exact G]]].
  - constructor; try reflexivity.
    + apply (header_read (o_minor o) 4 (List.concat (map field4 (o_fields o)) ++ field4 (0, o_end o))); [reflexivity|exact Hm|reflexivity|reflexivity|]. intros r. unfold p_dyn. change (4 =? 3) with false. change (4 =? 4) with true. cbv iota.
      rewrite (fields_read hid4 hval4 4 field4 field4_le hid4_num (o_fields o) its (o_end o) (HV_bytes (o_end o)) _ F Re H0 eq_refl r). reflexivity.
    + unfold hcomp, hget. cbn [h_dyn]. rewrite (Gt 3 _ H_comp (HV_comp comp) I3 eq_refl); [reflexivity|]. cbn [hval4]. rewrite comp_flag. reflexivity.
    + unfold hcipher, hget. cbn [h_dyn]. rewrite (Gt 2 _ H_cipher (HV_cipher c) I2 eq_refl); [reflexivity|]. cbn [hval4]. rewrite Hc. reflexivity.
    + intros e. unfold hbytes, hget. cbn [h_dyn]. rewrite (Gt 4 _ H_seed (HV_bytes seed) I4 eq_refl); reflexivity.
    + intros e. unfold hbytes, hget. cbn [h_dyn]. rewrite (Gt 7 _ H_iv (HV_bytes iv) I7 eq_refl); reflexivity.
  - unfold hkdf, hget. cbn [h_dyn]. rewrite (Gt 11 _ H_kdf (HV_dict d) I11 eq_refl); [reflexivity|]. cbn [hval4]. rewrite Ed. reflexivity.
Qed.
Lemma head3_read o cid comp seed iv k key start sid c s : head3 o cid comp seed iv k key start sid -> cipher_of cid = Ok c -> stream_of sid = Ok s -> 
  exists h ts r, facts h o 3 field3 c comp seed iv /\ k = AesKdf ts r /\ List.length ts = 32%nat /\ (forall e, hbytes e h H_tseed = Ok ts) /\ hrounds h = Ok r /\ (forall e, hbytes e h H_pskey = Ok key) /\ (forall e, hbytes e h H_ssb = Ok start) /\ hpsid h = Ok s.
Proof.
  intros (Hm & _ & He & Hf & ND & I2 & I3 & I4 & I7 & I8 & [I9 L9] & I10 & ts & r & -> & I5 & L5 & I6 & L6) Hc Hs.
  assert (H0 : ~ In 0 (map fst (o_fields o))). { intros X. apply in_map_iff in X as (f & E & X). rewrite Forall_forall in Hf. apply Hf in X as [_ X]. rewrite E in X. cbn in X. intuition discriminate. }
  assert (Sb : sid < 2 ^ 32). { revert Hs. unfold stream_of. repeat match goal with |- context [?x =? ?y] => destruct (N.eqb_spec x y) end; try discriminate; subst; intros _; reflexivity. }
  assert (E6 : sub_int 8 (le64 r) = Ok r) by (rewrite <- le64_enc; now apply sub_enc).
  assert (E10 : sub_int 4 (le32 sid) = Ok sid) by (rewrite <- le32_enc; now apply sub_enc).
  destruct (forall2_ex (reads hid3 hval3 2) (o_fields o)) as (its & F).
  { intros [n v] I. pose proof (proj1 (Forall_forall _ _) Hf _ I) as [[_ Hl] Hn]. cbn [fst snd] in *.
    assert (W : forall i hv, n < 256 -> hid3 n = Ok i -> hval3 i v = Ok hv -> exists y, reads hid3 hval3 2 (n, v) y) by (intros i hv A B C; exists (i, hv); repeat split; assumption).
    cbn in Hn. destruct Hn as [<-|[<-|[<-|[<-|[<-|[<-|[<-|[<-|[<-|[<-|[]]]]]]]]]]]; try (eapply W; [reflexivity|reflexivity|reflexivity]).
    - rewrite (assoc_one _ _ _ _ ND I I2) in *. eapply W; [reflexivity|reflexivity|]. cbn [hval3]. rewrite Hc. reflexivity.
    - rewrite (assoc_one _ _ _ _ ND I I3) in *. eapply W; [reflexivity|reflexivity|]. cbn [hval3]. rewrite comp_flag. reflexivity.
    - rewrite (assoc_one _ _ _ _ ND I I6) in *. eapply W; [reflexivity|reflexivity|]. cbn [hval3]. rewrite E6. reflexivity.
    - rewrite (assoc_one _ _ _ _ ND I I10) in *. eapply W; [reflexivity|reflexivity|]. cbn [hval3]. rewrite E10. cbn [bind]. rewrite Hs. reflexivity. }
  assert (Re : reads hid3 hval3 2 (0, o_end o) (H_end, HV_bytes (o_end o))) by (repeat split; exact He).
  set (dy := d_of_list hid_eqb (its ++ [(H_end, HV_bytes (o_end o))])).
  assert (Gt : forall n v i hv, In (n, v) (o_fields o) -> hid3 n = Ok i -> hval3 i v = Ok hv -> d_get hid_eqb i dy = Some hv) by (intros; eapply (its_get hid3 hval3 2 hid3_num); eauto).
  exists (MkHdr (head_bytes 3 field3 o) (o_minor o) 3 (Some dy)), ts, r. split; [|split; [reflexivity|split; [exact L5|split; [|split; [|split; [|split]]]]]].
  - constructor; try reflexivity.
    + apply (header_read (o_minor o) 3 (List.concat (map field3 (o_fields o)) ++ field3 (0, o_end o))); [reflexivity|exact Hm|reflexivity|reflexivity|]. intros r0. unfold p_dyn. change (3 =? 3) with true. cbv iota.
      rewrite (fields_read hid3 hval3 2 field3 field3_le hid3_num (o_fields o) its (o_end o) (HV_bytes (o_end o)) _ F Re H0 eq_refl r0). reflexivity.
    + unfold hcomp, hget. cbn [h_dyn]. rewrite (Gt 3 _ H_comp (HV_comp comp) I3 eq_refl); [reflexivity|]. cbn [hval3]. rewrite comp_flag. reflexivity.
    + unfold hcipher, hget. cbn [h_dyn]. rewrite (Gt 2 _ H_cipher (HV_cipher c) I2 eq_refl); [reflexivity|]. cbn [hval3]. rewrite Hc. reflexivity.
    + intros e. unfold hbytes, hget. cbn [h_dyn]. rewrite (Gt 4 _ H_seed (HV_bytes seed) I4 eq_refl); reflexivity.
    + intros e. unfold hbytes, hget. cbn [h_dyn]. rewrite (Gt 7 _ H_iv (HV_bytes iv) I7 eq_refl); reflexivity.
  - intros e. unfold hbytes, hget. cbn [h_dyn]. rewrite (Gt 5 _ H_tseed (HV_bytes ts) I5 eq_refl); reflexivity.
  - unfold hrounds, hget. cbn [h_dyn]. rewrite (Gt 6 _ H_trounds (HV_num r) I6 eq_refl); [reflexivity|]. cbn [hval3]. rewrite E6. reflexivity.
  - intros e. unfold hbytes, hget. cbn [h_dyn]. rewrite (Gt 8 _ H_pskey (HV_bytes key) I8 eq_refl); reflexivity.
  - intros e. unfold hbytes, hget. cbn [h_dyn]. rewrite (Gt 9 _ H_ssb (HV_bytes start) I9 eq_refl); reflexivity.
  - unfold hpsid, hget. cbn [h_dyn]. rewrite (Gt 10 _ H_psid (HV_psid s) I10 eq_refl); [reflexivity|]. cbn [hval3]. rewrite E10. cbn [bind]. rewrite Hs. reflexivity.
Qed.
Lemma kdf3_read L cr h ts r c tk o : lib_ok L -> c_tk cr = None -> stands_for L (c_kf cr) o -> composite L (c_pw cr) o c ->
  (forall e, hbytes e h H_tseed = Ok ts) -> hrounds h = Ok r -> List.length ts = 32%nat -> (transformed3 L cr h = Ok tk <-> derives L (AesKdf ts r) c tk).
Proof.
  intros HL Ht St Co H1 H2 H3. destruct (composite_key L (c_pw cr) (c_kf cr) o c St Co) as [K1 _]. unfold transformed3. rewrite Ht, K1. cbn [bind]. rewrite H1. cbn [bind]. rewrite H2. cbn [bind derives].
  unfold aes_kdf, aes_key_ok. rewrite H3. cbn [Nat.eqb orb]. rewrite aes_iter by (auto; eapply composite_digest; eauto). split; [intros X; apply Ok_inj in X; congruence|intros ->; reflexivity].
Qed.
(** *** Blocks *)
Lemma frames_read L seed tk : lib_ok L -> forall bs i f r, ends_empty bs -> Forall (fun b => lenN b < 2 ^ 32) bs -> (List.length bs <= f)%nat ->
  p_until (block4 L seed tk) is_empty f i (frames (tagged L seed tk i bs) ++ r) = Ok (bs, r).
Proof.
  intros HL. induction bs as [|b bs IH]; intros i f r (l & E & Fl) F Hf; [destruct l; discriminate|]. destruct f as [|f]; cbn [List.length] in Hf; [lia|]. inversion F as [|? ? Hb F']; subst. cbn [tagged p_until]. unfold frames. cbn [map List.concat fst snd]. rewrite <- (app_assoc (_ ++ _ ++ _)). rewrite block4_good by assumption. cbn [bind].
  destruct l as [|x l]; cbn [app] in E; injection E as -> ->; [reflexivity|]. inversion Fl as [|? ? Hx Fl']; subst. destruct x; [congruence|]. cbn [is_empty]. specialize (IH (i + 1) f r ltac:(exists l; auto) F' ltac:(lia)). unfold frames in IH. rewrite IH. reflexivity.
Qed.
Lemma blocks4_read L seed tk bs r : lib_ok L -> ends_empty bs -> Forall (fun b => lenN b < 2 ^ 32) bs -> blocks4 L seed tk (frames (tagged L seed tk 0 bs) ++ r) = Ok (List.concat bs, r).
Proof.
  intros HL E F. unfold blocks4, p_repeat. rewrite frames_read; [reflexivity|exact HL|exact E|exact F|]. pose proof (frames_len (tagged L seed tk 0 bs)). rewrite tagged_len in H. rewrite app_length. lia.
Qed.
Lemma framed_frames L bs : forall i, framed_all L i bs = frames3 L i bs ++ frame3 (i + lenN bs) (repeat 0 32) [].
Proof.
  induction bs as [|b bs IH]; intros i; cbn [framed_all frames3]; [change (lenN (@nil bytes)) with 0; replace (i + 0) with i by lia; reflexivity|]. rewrite IH, lenN_cons, <- app_assoc. replace (i + (1 + lenN bs)) with (i + 1 + lenN bs) by lia. reflexivity.
Qed.
Lemma framed_read L : lib_ok L -> forall bs i f r, Forall (fun b => b <> [] /\ lenN b < 2 ^ 32) bs -> i + lenN bs < 2 ^ 32 -> (List.length bs < f)%nat ->
  p_until (block3 L) is_empty f i (framed_all L i bs ++ r) = Ok (bs ++ [[]], r).
Proof.
  intros HL. induction bs as [|b bs IH]; intros i f r F Hi Hf; destruct f as [|f]; cbn [List.length] in Hf; try lia; cbn [framed_all p_until app].
  - rewrite lenN_nil in Hi. unfold framed, block3. rewrite <- !app_assoc. rewrite <- (le32_enc i), p_int_enc by (change (256 ^ N.of_nat 4) with (2 ^ 32); lia). cbn [bind]. rewrite N.eqb_refl. rewrite p_bytes_app by reflexivity. cbn [bind]. rewrite <- le32_enc, prefixed_enc by reflexivity. cbn [bind block3_hash]. rewrite str_eqb_refl. reflexivity.
  - rewrite lenN_cons in Hi. inversion F as [|? ? [Hb1 Hb2] F']; subst. rewrite <- app_assoc. change (framed i (sha256 L b) b) with (frame3 i (sha256 L b) b). rewrite block3_good by (assumption || lia). cbn [bind]. destruct b; [congruence|]. cbn [is_empty]. rewrite IH by (assumption || lia). reflexivity.
Qed.
Lemma blocks3_read L bs r : lib_ok L -> Forall (fun b => b <> [] /\ lenN b < 2 ^ 32) bs -> lenN bs < 2 ^ 32 -> blocks3 L (framed_all L 0 bs ++ r) = Ok (List.concat bs, r).
Proof.
  intros HL F Hl. unfold blocks3, p_repeat. rewrite framed_read; [|exact HL|exact F|lia|].
  - cbn [bind]. rewrite concat_app. cbn [List.concat]. rewrite !app_nil_r. reflexivity.
  - rewrite framed_frames, app_length, app_length. pose proof (frames3_len L bs 0) as W. set (a := List.length (frames3 L 0 bs)) in *. clearbody a. eapply Nat.le_lt_trans; [exact W|]. lia.
Qed.
(** *** Protected values *)
Scheme seals_mut := Induction for seals Sort Prop with seals_all_mut := Induction for seals_all Sort Prop.
(** Texts that are left as they are. *)
Definition left_alone (bad : badly) : Prop := forall ks pos x fin, (forall p, is_byte (ks p)) -> bad ks pos x fin -> unprot_text ks (N.of_nat pos) x = Ok (x, N.of_nat fin).
Lemma no_bad_left : left_alone no_bad. Proof. intros ks pos x fin _ []. Qed.
Lemma seals_read ks bad : left_alone bad -> (forall p, is_byte (ks p)) -> forall pos t t' fin, seals ks bad pos t t' fin -> walk (unprot_text ks) (N.of_nat pos) t' = Ok (t, N.of_nat fin).
Proof.
  intros HB Hks. apply (seals_mut ks bad (fun pos t t' fin _ => walk (unprot_text ks) (N.of_nat pos) t' = Ok (t, N.of_nat fin)) (fun pos l l' fin _ => walk_list (unprot_text ks) (N.of_nat pos) l' = Ok (l, N.of_nat fin))).
  - intros pos mid fin tag attrs s s' kids kids' ND St _ IH. rewrite walk_X, (markedb_protected _ _ ND). unfold seals_text in St. destruct (markedb tag attrs).
    + destruct s as [x|].
      * destruct St as [(Tx & b & Eb & -> & ->)|[B ->]]; [|rewrite (HB _ _ _ _ Hks B); cbn [bind]; rewrite IH; reflexivity]. pose proof (utf8_encode_ok _ _ Eb) as Hb. unfold unprot_text at 1. rewrite <- xor_at_model. rewrite b64_roundtrip by (now apply xor_ks_ok). rewrite xor_ks_inv, (utf8_roundtrip _ _ Eb), filter_text_ok by exact Tx. cbn [bind]. unfold lenN. rewrite xor_ks_len, <- Nat2N.inj_add, IH. reflexivity.
      * destruct St as [-> ->]. cbn [bind]. rewrite IH. reflexivity.
    + destruct St as [-> ->]. destruct s; cbn [bind]; rewrite IH; reflexivity.
  - reflexivity.
  - intros pos mid fin t t' l l' _ H1 _ H2. change (walk_list ?f ?p (?x :: ?y)) with (let* (k', p0) := walk f p x in let* (l'', p') := walk_list f p0 y in Ok (k' :: l'', p')). rewrite H1. cbn [bind]. rewrite H2. reflexivity.
Qed.
Lemma stream_read L key sid ks : lib_ok L -> stream L key sid ks -> exists s, stream_of sid = Ok s /\ s <> S_none /\ stream_ks L s key = Ok ks.
Proof.
  intros HL [|k n r E Lk Ln]; [exists S_salsa; repeat split; discriminate|]. exists S_chacha. split; [reflexivity|]. split; [discriminate|]. cbn [stream_ks]. cbv zeta. rewrite E. rewrite firstn_app, Lk, Nat.sub_diag, firstn_O, app_nil_r, firstn_all2 by lia. rewrite skipn_app, Lk, Nat.sub_diag, skipn_all2 by lia. cbn [app skipn]. rewrite firstn_app, Ln, Nat.sub_diag, firstn_O, app_nil_r, firstn_all2 by lia. reflexivity.
Qed.
Lemma stream_written L key sid s ks : lib_ok L -> stream_of sid = Ok s -> stream_ks L s key = Ok ks -> stream L key sid ks.
Proof.
  intros HL Hs Hk. unfold stream_of in Hs. destruct (N.eqb_spec sid 0); [injection Hs as <-; discriminate|]. destruct (N.eqb_spec sid 1); [injection Hs as <-; discriminate|]. destruct (N.eqb_spec sid 2); [injection Hs as <-; subst; cbn [stream_ks] in Hk; apply Ok_inj in Hk; subst; constructor|]. destruct (N.eqb_spec sid 3); [|discriminate]. injection Hs as <-. subst. cbn [stream_ks] in Hk. cbv zeta in Hk. apply Ok_inj in Hk. subst ks. destruct (ok_sha512 _ HL key) as [Hl _].
  apply (st_chacha20 L key _ _ (skipn 12 (skipn 32 (sha512 L key)))); [rewrite !firstn_skipn; reflexivity|rewrite firstn_length; lia|rewrite firstn_length, skipn_length; lia].
Qed.
Lemma document_read L bad sid key xb doc : left_alone bad -> lib_ok L -> document L bad sid key xb doc -> exists s t0, stream_of sid = Ok s /\ xml_parse L xb = Ok t0 /\ unprotect L s (Ok key) t0 = Ok doc.
Proof.
  intros HB HL (t0 & Ex & [[-> ->]|(ks & fin & St & Se)]); [exists S_none, doc; auto|]. destruct (stream_read L key sid ks HL St) as (s & Es & Ns & Ek). exists s, t0. split; [exact Es|]. split; [exact Ex|].
  pose proof (seals_read ks bad HB (stream_ks_bytes _ _ _ _ HL Ek) _ _ _ _ Se) as W. change (N.of_nat 0) with 0 in W. unfold unprotect. destruct s; [congruence| | |]; cbn [bind]; rewrite Ek; cbn [bind]; rewrite W; reflexivity.
Qed.
(** *** The inner header *)
Definition conv (s : streamid) (f : N * bytes) : iid * ival :=
  if fst f =? 1 then (I_psid, IV_stream s) else if fst f =? 2 then (I_pskey, IV_bytes (snd f)) else (I_binary, IV_bytes (snd f)).
Definition inner_items (s : streamid) (items : list (N * bytes)) (e : bytes) : list (iid * ival) := map (conv s) (filter (fun f => negb (fst f =? 3)) items) ++ [(I_end, IV_bytes e)].
Definition items_ok (items : list (N * bytes)) (sid : N) (key e : bytes) : Prop :=
  Forall (fun f => short (snd f) /\ In (fst f) [1; 2; 3]) items /\ short e /\
    (forall v, In (1, v) items <-> v = le32 sid) /\ (forall v, In (2, v) items <-> v = key) /\ NoDup (filter (fun n => negb (n =? 3)) (map fst items)).
Lemma stream_num_of n s : stream_of n = Ok s -> stream_num s = n.
Proof. unfold stream_of. repeat match goal with |- context [?x =? ?y] => destruct (N.eqb_spec x y) end; intros [= <-]; subst; reflexivity. Qed.
Lemma conv_item items sid key e s f : items_ok items sid key e -> stream_of sid = Ok s -> In f items -> iv_ok (conv s f) /\ enc_item 0 (conv s f) = field4 f /\ iid_eqb (fst (conv s f)) I_end = false.
Proof.
  intros (F & _ & H1 & _ & _) Hs I. rewrite Forall_forall in F. pose proof (F _ I) as [Sm Hn]. destruct f as [n v]. cbn [fst snd] in *. unfold conv. cbn [fst snd]. rewrite field4_le. cbn [fst snd].
  cbn in Hn. destruct Hn as [<-|[<-|[<-|[]]]]; cbn [N.eqb Pos.eqb]; (split; [|split; [|reflexivity]]); try exact I; try exact Sm; try reflexivity. 
  apply H1 in I. subst v. rewrite <- le32_enc. unfold enc_item. cbn [fst snd i_bytes iid_num]. rewrite (stream_num_of _ _ Hs). reflexivity.
Qed.
Lemma conv_key s f : In (fst f) [1; 2; 3] -> iid_num (fst (conv s f)) = fst f.
Proof. destruct f as [n v]. cbn [fst]. cbn. intros [<-|[<-|[<-|[]]]]; reflexivity. Qed.
Lemma filter_map_fst (items : list (N * bytes)) : filter (fun n => negb (n =? 3)) (map fst items) = map fst (filter (fun f => negb (fst f =? 3)) items).
Proof. induction items as [|[n v] l IH]; [reflexivity|]. cbn [map filter fst]. destruct (n =? 3); cbn [negb]; [exact IH|]. cbn [map fst]. rewrite IH. reflexivity. Qed.
Lemma conv_nodup items sid key e s : items_ok items sid key e -> NoDup (map fst (inner_items s items e)).
Proof.
  intros (F & _ & _ & _ & ND). apply (NoDup_map_inv iid_num). unfold inner_items. rewrite !map_app. cbn [map fst iid_num]. rewrite filter_map_fst in ND.
  assert (E : map iid_num (map fst (map (conv s) (filter (fun f => negb (fst f =? 3)) items))) = map fst (filter (fun f => negb (fst f =? 3)) items)).
  { rewrite !map_map. apply map_ext_in. intros f I. apply filter_In in I as [I _]. apply conv_key. rewrite Forall_forall in F. apply F, I. }
  rewrite E. apply NoDup_rev in ND. rewrite <- (rev_involutive (_ ++ _)), rev_app_distr. apply NoDup_rev. cbn [rev app]. constructor; [|exact ND]. rewrite <- in_rev. intros X. apply in_map_iff in X as (f & E0 & X). apply filter_In in X as [X _]. rewrite Forall_forall in F. apply F in X as [_ X]. rewrite E0 in X. cbn in X. intuition discriminate.
Qed.
Lemma inner_read items sid key e s r : items_ok items sid key e -> stream_of sid = Ok s ->
  p_inner (List.concat (map field4 items) ++ field4 (0, e) ++ r) = Ok (MkInner (map snd (filter (fun f => fst f =? 3) items)) (inner_items s items e), r).
Proof.
  intros H Hs. unfold p_inner, p_repeat. pose proof (fun f => conv_item items sid key e s f H Hs) as C.
  assert (He : iv_ok (I_end, IV_bytes e)) by exact (proj1 (proj2 H)).
  assert (E1 : List.concat (map field4 items) = List.concat (map fst (map (fun f => (field4 f, conv s f)) items))) by (rewrite map_map; cbn [fst]; reflexivity).
  assert (Ee : field4 (0, e) = enc_item 0 (I_end, IV_bytes e)) by (rewrite field4_le; reflexivity).
  rewrite E1, (until_items i_item (fun it => iid_eqb (fst it) I_end) _ (field4 (0, e)) (I_end, IV_bytes e)).
  - cbn [bind]. f_equal. f_equal. rewrite map_map. cbn [snd]. unfold i_collect. f_equal.
    + rewrite flat_map_app. cbn [flat_map]. rewrite app_nil_r. destruct H as (F & _). clear -F. induction F as [|[n v] l [_ Hn] F IH]; [reflexivity|]. cbn [map flat_map filter fst snd] in *. rewrite IH. cbn in Hn. destruct Hn as [<-|[<-|[<-|[]]]]; reflexivity.
    + assert (Ef : filter (fun it => negb (iid_eqb (fst it) I_binary)) (map (conv s) items ++ [(I_end, IV_bytes e)]) = inner_items s items e).
      { unfold inner_items. rewrite filter_app. f_equal. destruct H as (F & _). clear -F. induction F as [|[n v] l [_ Hn] F IH]; [reflexivity|]. cbn [map filter fst snd] in *. rewrite IH. cbn in Hn. destruct Hn as [<-|[<-|[<-|[]]]]; reflexivity. }
      etransitivity; [exact (f_equal (d_of_list iid_eqb) Ef)|]. apply (d_of_list_nodup _ iid_eqb_eq). eapply conv_nodup, H.
  - intros x I. apply in_map_iff in I as (f & <- & I). cbn [fst snd]. destruct (C f I) as (C1 & C2 & C3). split; [|exact C3]. intros j r0. rewrite <- C2. apply (i_item_enc j _ r0 C1).
  - intros j r0. rewrite Ee. apply (i_item_enc j _ r0 He).
  - reflexivity.
  - rewrite <- E1, map_length, app_length. assert (W : forall l, (List.length l <= List.length (List.concat (map field4 l)))%nat) by (intros l; induction l as [|f l IH]; [apply Nat.le_0_l|]; cbn [map List.concat]; rewrite app_length; unfold field4 at 1; cbn [app List.length Nat.add]; apply le_n_S; eapply Nat.le_trans; [exact IH|apply Nat.le_add_l]).
    specialize (W items). apply Nat.lt_succ_r. eapply Nat.le_trans; [exact W|apply Nat.le_add_r].
Qed.
Lemma inner_gets items sid key e s bins : items_ok items sid key e -> i_stream (MkInner bins (inner_items s items e)) = Ok s /\ i_key (MkInner bins (inner_items s items e)) = Ok key.
Proof.
  intros H. pose proof (conv_nodup items sid key e s H) as ND. pose proof H as (F & _ & H1 & H2 & _).
  assert (G : forall i v, In (i, v) (inner_items s items e) -> d_get iid_eqb i (inner_items s items e) = Some v). { intros i v I. rewrite <- (d_of_list_nodup _ iid_eqb_eq _ ND). apply (get_one _ iid_eqb_eq); assumption. }
  split.
  - unfold i_stream. cbn [ih_items]. rewrite (G I_psid (IV_stream s)); [reflexivity|]. unfold inner_items. apply in_or_app. left. change (I_psid, IV_stream s) with (conv s (1, le32 sid)). apply in_map. apply filter_In. split; [now apply H1|reflexivity].
  - unfold i_key. cbn [ih_items]. rewrite (G I_pskey (IV_bytes key)); [reflexivity|]. unfold inner_items. apply in_or_app. left. change (I_pskey, IV_bytes key) with (conv s (2, key)). apply in_map. apply filter_In. split; [now apply H2|reflexivity].
Qed.
Lemma content_read L bad content bins doc : left_alone bad -> lib_ok L -> content4 L bad content bins doc -> exists items sid key e s, items_ok items sid key e /\ stream_of sid = Ok s /\
  unpack4 L content = Ok (MkPay (Some (MkInner bins (inner_items s items e))) doc).
Proof.
  intros HB HL (items & e & sid & key & xb & F & Se & H1 & H2 & ND & Eb & -> & D). assert (H : items_ok items sid key e) by (unfold items_ok; auto). destruct (document_read L bad sid key xb doc HB HL D) as (s & t0 & Es & Ex & Eu).
  exists items, sid, key, e, s. split; [exact H|]. split; [exact Es|]. unfold unpack4. rewrite (inner_read items sid key e s xb H Es), Eb. cbn [bind]. destruct (inner_gets items sid key e s bins H) as [G1 G2]. rewrite G1. cbn [bind]. rewrite Ex. cbn [bind]. rewrite G2, Eu. reflexivity.
Qed.
(** Opening. *)
Lemma iv_fits_of c iv : (c = C_chacha -> List.length iv = 12%nat) -> (c <> C_chacha -> List.length iv = 16%nat) -> iv_fits c iv.
Proof. intros H1 H2. destruct c; cbn [iv_fits]; [apply H2; discriminate|apply H2; discriminate|right; left; auto]. Qed.
Lemma head_iv4 o cid comp seed iv k : head4 o cid comp seed iv k -> bytes_ok iv.
Proof. intros (_ & _ & F & _ & _ & _ & _ & I & _). rewrite Forall_forall in F. apply F in I as [[I _] _]. exact I. Qed.
Lemma head_iv3 o cid comp seed iv k key start sid : head3 o cid comp seed iv k key start sid -> bytes_ok iv /\ bytes_ok start.
Proof. intros (_ & _ & _ & F & _ & _ & _ & _ & I & _ & [I9 _] & _). rewrite Forall_forall in F. pose proof (F _ I) as [[J _] _]. pose proof (F _ I9) as [[J9 _] _]. auto. Qed.
(** [cr]: the password and key file whose composite key is [c]. *)
Definition unlocks (L : lib) (cr : creds) (c : bytes) : Prop := c_tk cr = None /\ exists kf, stands_for L (c_kf cr) kf /\ composite L (c_pw cr) kf c.
Lemma packed_read L comp content plain : packed L comp content plain -> decompress L comp plain = Ok content.
Proof. unfold packed, decompress. destruct comp; [auto|intros ->; reflexivity]. Qed.
Lemma read4 L bad cr c o file bins doc : left_alone bad -> lib_ok L -> c_dec cr = true -> unlocks L cr c -> kdbx4_with L bad c o file bins doc ->
  exists cid comp seed iv k cph h items sid key e s tk,
    head4 o cid comp seed iv k /\ cipher_of cid = Ok cph /\ (cph = C_chacha -> List.length iv = 12%nat) /\ (cph <> C_chacha -> List.length iv = 16%nat) /\ facts h o 4 field4 cph comp seed iv /\ items_ok items sid key e /\ stream_of sid = Ok s /\
    (forall cr' c' tk', unlocks L cr' c' -> (transformed4 L cr' h = Ok tk' <-> derives L k c' tk')) /\
    forall trail, open_kdbx L cr (file ++ trail) = Ok (MkKdbx h (Some (MkBody tk (sha256 L (seed ++ tk)) (Some (MkPay (Some (MkInner bins (inner_items s items e))) doc)))), trail).
Proof.
  intros HB HL Hc Hu (cid & comp & seed & iv & k & tk & plain & content & bs & H4 & D & Co & P & Bp & En & Ee & Fb & ->).
  destruct (cipher_known _ _ _ _ _ _ En) as (cph & Ec & Iv1 & Iv2). destruct (head4_read o cid comp seed iv k cph H4 Ec) as (h & vis & d & Fa & K & Ek & G). destruct (content_read L bad content bins doc HB HL Co) as (items & sid & key & e & s & It & Es & Up).
  assert (T : forall cr' c' tk', unlocks L cr' c' -> (transformed4 L cr' h = Ok tk' <-> derives L k c' tk')) by (intros cr' c' tk' (A & kf & B & C); eapply kdf_read; eauto).
  exists cid, comp, seed, iv, k, cph, h, items, sid, key, e, s, tk. repeat (split; [assumption|]). intros trail. apply open_p. unfold p_kdbx. rewrite <- !app_assoc. rewrite (f_read _ _ _ _ _ _ _ _ Fa). cbn [bind]. rewrite (f_major _ _ _ _ _ _ _ _ Fa). change (4 =? 3) with false. change (4 =? 4) with true. cbv iota.
  pose proof (ok_sha256 _ HL (seed ++ tk)) as Dm.
  erewrite (body4_intro L cr h _ _ trail tk (sha256 L (seed ++ tk)) comp cph seed (List.concat bs) iv plain content (frames (tagged L seed tk 0 bs) ++ trail) (head_tag L seed tk (head_bytes 4 field4 o))); [reflexivity|exact HL|exact Hc|].
  constructor.
  - now apply (T cr c tk Hu).
  - unfold master_key. rewrite (f_seed _ _ _ _ _ _ _ _ Fa). reflexivity.
  - rewrite head_tag_model, (f_seed _ _ _ _ _ _ _ _ Fa). cbn [bind]. rewrite (f_raw _ _ _ _ _ _ _ _ Fa). reflexivity.
  - rewrite (f_raw _ _ _ _ _ _ _ _ Fa). reflexivity.
  - apply (f_comp _ _ _ _ _ _ _ _ Fa).
  - apply (f_cipher _ _ _ _ _ _ _ _ Fa).
  - apply (f_seed _ _ _ _ _ _ _ _ Fa).
  - now apply blocks4_read.
  - apply (f_iv _ _ _ _ _ _ _ _ Fa).
  - pose proof (head_iv4 _ _ _ _ _ _ H4) as Hiv. apply (decrypt_encrypt L cph (sha256 L (seed ++ tk)) iv plain (List.concat bs) HL Dm Hiv (iv_fits_of _ _ Iv1 Iv2) Bp). apply (encrypted_iff L cid cph _ iv plain _ HL Ec Dm Hiv Iv1 Iv2 Bp). exact En.
  - now apply packed_read.
  - exact Up.
  - reflexivity.
Qed.
Lemma read3 L bad cr c o file doc : left_alone bad -> lib_ok L -> c_dec cr = true -> unlocks L cr c -> kdbx3_with L bad c o file doc ->
  exists cid comp seed iv k key start sid cph h s tk,
    head3 o cid comp seed iv k key start sid /\ cipher_of cid = Ok cph /\ (cph = C_chacha -> List.length iv = 12%nat) /\ (cph <> C_chacha -> List.length iv = 16%nat) /\ facts h o 3 field3 cph comp seed iv /\ stream_of sid = Ok s /\
    (forall e, hbytes e h H_pskey = Ok key) /\ (forall e, hbytes e h H_ssb = Ok start) /\ hpsid h = Ok s /\
    (forall cr' c' tk', unlocks L cr' c' -> (transformed3 L cr' h = Ok tk' <-> derives L k c' tk')) /\
    open_kdbx L cr file = Ok (MkKdbx h (Some (MkBody tk (sha256 L (seed ++ tk)) (Some (MkPay None doc)))), []).
Proof.
  intros HB HL Hc Hu (cid & comp & seed & iv & k & key & start & sid & tk & xb & bs & ct & H3 & D & Do & P & Bp & Fb & Lb & En & ->).
  destruct (cipher_known _ _ _ _ _ _ En) as (cph & Ec & Iv1 & Iv2). destruct (document_read L bad sid key xb doc HB HL Do) as (s & t0 & Es & Ex & Eu). destruct (head3_read o cid comp seed iv k key start sid cph s H3 Ec Es) as (h & ts & r & Fa & -> & Lt & A1 & A2 & A3 & A4 & A5).
  assert (T : forall cr' c' tk', unlocks L cr' c' -> (transformed3 L cr' h = Ok tk' <-> derives L (AesKdf ts r) c' tk')) by (intros cr' c' tk' (A & kf & B & C); eapply kdf3_read; eauto).
  exists cid, comp, seed, iv, (AesKdf ts r), key, start, sid, cph, h, s, tk. repeat (split; [assumption|]). apply open_p. unfold p_kdbx. rewrite (f_read _ _ _ _ _ _ _ _ Fa). cbn [bind]. rewrite (f_major _ _ _ _ _ _ _ _ Fa). change (3 =? 3) with true. cbv iota.
  pose proof (ok_sha256 _ HL (seed ++ tk)) as Dm. destruct (head_iv3 _ _ _ _ _ _ _ _ _ H3) as [Hiv Hst]. assert (Ls : List.length start = 32%nat) by apply H3.
  assert (Bf : bytes_ok (start ++ framed_all L 0 bs)).
  { apply bytes_ok_app. split; [exact Hst|]. clear -HL Bp. assert (Z : bytes_ok (repeat 0 32)) by (unfold bytes_ok; rewrite Forall_forall; intros y Hy; apply repeat_spec in Hy; subst; reflexivity). assert (W : forall i h b, bytes_ok h -> bytes_ok b -> bytes_ok (framed i h b)) by (intros i h b A B; unfold framed; rewrite <- !le32_enc; repeat (apply bytes_ok_app; split); auto; apply le_enc_ok).
    generalize 0 at 1 as i. induction bs as [|b bs IH]; intros i; cbn [framed_all]; [apply W; [exact Z|constructor]|]. cbn [List.concat] in Bp. apply bytes_ok_app in Bp as [B1 B2]. apply bytes_ok_app. split; [apply W; [apply (ok_sha256 _ HL)|exact B1]|auto]. }
  unfold body3. rewrite (proj2 (T cr c tk Hu) D). cbn [bind]. unfold master_key. rewrite (f_seed _ _ _ _ _ _ _ _ Fa). cbn [bind]. rewrite Hc, (f_cipher _ _ _ _ _ _ _ _ Fa). cbn [bind]. rewrite (f_iv _ _ _ _ _ _ _ _ Fa). cbn [bind].
  rewrite (decrypt_encrypt L cph (sha256 L (seed ++ tk)) iv (start ++ framed_all L 0 bs) ct HL Dm Hiv (iv_fits_of _ _ Iv1 Iv2) Bf) by (apply (encrypted_iff L cid cph _ iv _ _ HL Ec Dm Hiv Iv1 Iv2 Bf); exact En). cbn [bind].
  unfold unpack3. rewrite p_bytes_app by (unfold lenN; rewrite Ls; reflexivity). cbn [bind]. rewrite A4. cbn [bind]. rewrite str_eqb_refl, A5. cbn [bind]. rewrite (f_comp _ _ _ _ _ _ _ _ Fa). cbn [bind]. rewrite <- (app_nil_r (framed_all L 0 bs)), (blocks3_read L bs [] HL Fb Lb). cbn [bind]. rewrite (packed_read _ _ _ _ P). cbn [bind]. rewrite Ex. cbn [bind]. rewrite A3, Eu. reflexivity.
Qed.
(** *** Saving *)
Definition swgoal (ks : N -> N) (t : xml) : Prop := xml_ok t = true -> forall pos, exists t' fin, walk (prot_text ks) (N.of_nat pos) t = Ok (t', N.of_nat fin) /\ seals ks no_bad pos (reload_view t) (norm t') fin.
Lemma seals_write_list ks l : Forall (swgoal ks) l -> forallb xml_ok l = true -> forall pos, exists l' fin, walk_list (prot_text ks) (N.of_nat pos) l = Ok (l', N.of_nat fin) /\ seals_all ks no_bad pos (map reload_view l) (map norm l') fin /\ (l' = [] <-> l = []).
Proof.
  induction 1 as [|t l Ht Hl IH]; intros Hok pos; cbn [forallb] in *.
  - exists [], pos. cbn. split; [reflexivity|]. split; [constructor|tauto].
  - apply andb_prop in Hok as [H1 H2]. destruct (Ht H1 pos) as (t' & mid & W1 & S1). destruct (IH H2 mid) as (l' & fin & W2 & S2 & _). exists (t' :: l'), fin.
    change (walk_list ?f ?p (?x :: ?y)) with (let* (k', p0) := walk f p x in let* (l'', p') := walk_list f p0 y in Ok (k' :: l'', p')). rewrite W1. cbn [bind]. rewrite W2. cbn [bind map]. split; [reflexivity|]. split; [econstructor; eauto|split; discriminate].
Qed.
Lemma seals_write ks : (forall p, is_byte (ks p)) -> forall t, swgoal ks t.
Proof.
  intros Hks t. induction t as [tag attrs text kids IH] using xml_ind'. intros Hok pos. cbn [xml_ok] in Hok. apply andb_prop in Hok as [Hok Hkids]. apply andb_prop in Hok as [Hok Htext]. apply andb_prop in Hok as [Hok Hdup].
  pose proof (markedb_protected tag attrs Hdup) as M. cbn [reload_view]. rewrite walk_X, M. destruct (markedb tag attrs) eqn:Em; [destruct text as [s|]|].
  - cbn [opt_text] in Htext. destruct (utf8_encode_total s (text_ok_scalar s Htext)) as (b & Eb). pose proof (utf8_encode_ok _ _ Eb) as Hb. unfold prot_text at 1. rewrite Eb. cbn [bind]. unfold lenN. rewrite <- Nat2N.inj_add.
    destruct (seals_write_list ks kids IH Hkids (pos + List.length b)) as (kids' & fin & W & S & _). rewrite W. cbn [bind]. eexists _, fin. split; [reflexivity|]. cbn [norm].
    pose proof (xor_ks_ok ks b Hks Hb (N.of_nat pos)) as Hx. destruct (b64_text_ok _ Hx) as [T B]. eapply seals_node; [exact Hdup| |exact S]. rewrite Em. destruct s as [|c s].
    + injection Eb as <-. cbn. rewrite Nat.add_0_r. auto.
    + assert (Ne : b64encode (xor_ks ks (N.of_nat pos) b) <> []) by (intros X; apply b64encode_nil in X; destruct b; [apply utf8_encode_nil in Eb; discriminate|discriminate]). destruct B as [B|B]; [contradiction|]. cbn [norm_text seals_text]. rewrite B. left. split; [exact Htext|]. exists b. split; [exact Eb|]. split; [|reflexivity]. rewrite <- xor_at_model. unfold keep_text. destruct (b64encode _); [congruence|]. destruct kids'; reflexivity.
  - cbn [bind]. destruct (seals_write_list ks kids IH Hkids pos) as (kids' & fin & W & S & _). rewrite W. cbn [bind]. eexists _, fin. split; [reflexivity|]. cbn [norm]. eapply seals_node; [exact Hdup| |exact S]. rewrite Em. cbn. auto.
  - replace (match text with Some _ => Ok (text, N.of_nat pos) | None => Ok (text, N.of_nat pos) end) with (Ok (text, N.of_nat pos) : res (option str * N)) by (destruct text; reflexivity). cbn [bind]. destruct (seals_write_list ks kids IH Hkids pos) as (kids' & fin & W & S & Kn). rewrite W. cbn [bind]. eexists _, fin. split; [reflexivity|]. cbn [norm]. eapply seals_node; [exact Hdup| |exact S]. rewrite Em. rewrite (norm_text_kids text kids' kids Kn). cbn. auto.
Qed.
Lemma document_written L sid s key t t' : lib_ok L -> stream_of sid = Ok s -> xml_ok t = true -> modest t = true -> snd (protect L s (Ok key) t) = Ok t' -> bytes_ok (xml_ser L t') /\ document L no_bad sid key (xml_ser L t') (view_for s t).
Proof.
  intros HL Hs Ht Hmo P. destruct (protect_unprotect _ _ _ _ _ HL Ht P) as [Ht' _]. destruct (ok_xml _ HL t' Ht') as [X1 X2]. specialize (X2 (proj2 (protect_fits _ _ _ _ _ HL P) Hmo)). split; [exact X1|]. exists (norm t'). split; [exact X2|].
  assert (W : forall ks, s <> S_none -> stream_ks L s key = Ok ks -> (let* (t', _) := walk (prot_text ks) 0 t in Ok t') = Ok t' -> view_for s t = reload_view t -> sid = 0 /\ norm t' = view_for s t \/ exists ks fin, stream L key sid ks /\ seals ks no_bad 0 (view_for s t) (norm t') fin).
  { intros ks Ns Ek E Ev. right. destruct (seals_write ks (stream_ks_bytes _ _ _ _ HL Ek) t Ht O) as (t2 & fin & W & S). change (N.of_nat 0) with 0 in W. rewrite W in E. cbn [bind] in E. apply Ok_inj in E. subst t2. exists ks, fin. split; [now apply (stream_written L key sid s)|]. rewrite Ev. exact S. }
  destruct s; cbn [protect snd] in P.
  - left. apply Ok_inj in P. subst t'. split; [now rewrite <- (stream_num_of _ _ Hs)|reflexivity].
  - cbn [bind stream_ks] in P. discriminate.
  - cbn [bind] in P. bok P ks Ek. apply (W ks); [discriminate|exact Ek|exact P|reflexivity].
  - cbn [bind] in P. bok P ks Ek. apply (W ks); [discriminate|exact Ek|exact P|reflexivity].
Qed.
Lemma enc_seq_items s items : (forall f, In f items -> enc_item 0 (conv s f) = field4 f) -> forall j r, enc_seq enc_item j (map (conv s) items ++ r) = List.concat (map field4 items) ++ enc_seq enc_item 0 r.
Proof.
  assert (J : forall l j k, enc_seq enc_item j l = enc_seq enc_item k l) by (induction l as [|a l IH]; intros j k; [reflexivity|]; change (enc_item j a ++ enc_seq enc_item (j + 1) l = enc_item k a ++ enc_seq enc_item (k + 1) l); rewrite (IH (j + 1) (k + 1)); reflexivity).
  induction items as [|f items IH]; intros H j r; [apply J|]. cbn [map app List.concat]. change (enc_item j (conv s f) ++ enc_seq enc_item (j + 1) (map (conv s) items ++ r) = (field4 f ++ List.concat (map field4 items)) ++ enc_seq enc_item 0 r). rewrite IH by (intros g Hg; apply H; now right). rewrite <- (H f (or_introl eq_refl)), <- app_assoc. reflexivity.
Qed.
Definition new_items (bins : list bytes) (items : list (N * bytes)) : list (N * bytes) := map (fun b => (3, b)) bins ++ filter (fun f => negb (fst f =? 3)) items.
Lemma new_items_ok bins items sid key e : Forall small bins -> items_ok items sid key e -> items_ok (new_items bins items) sid key e.
Proof.
  intros Hb (F & He & H1 & H2 & ND). unfold items_ok, new_items. split; [|split; [exact He|split; [|split]]].
  - apply Forall_app. split; [|rewrite Forall_forall in *; intros f I; apply filter_In in I as [I _]; auto]. rewrite Forall_forall in *. intros f I. apply in_map_iff in I as (b & <- & I). cbn [fst snd]. split; [apply Hb, I|right; right; now left].
  - intros v. rewrite <- H1, in_app_iff, filter_In. split; [intros [I|[I _]]; [apply in_map_iff in I as (b & E & _); discriminate|exact I]|intros I; right; auto].
  - intros v. rewrite <- H2, in_app_iff, filter_In. split; [intros [I|[I _]]; [apply in_map_iff in I as (b & E & _); discriminate|exact I]|intros I; right; auto].
  - rewrite filter_map_fst, filter_app. replace (filter _ (map _ bins)) with (@nil (N * bytes)) by (clear; induction bins; [reflexivity|exact IHbins]). cbn [app]. rewrite filter_map_fst in ND. replace (filter _ (filter _ items)) with (filter (fun f => negb (fst f =? 3)) items); [exact ND|]. clear. induction items as [|f l IH]; [reflexivity|]. cbn [filter]. destruct (negb (fst f =? 3)) eqn:E; [cbn [filter]; rewrite E; f_equal; exact IH|exact IH].
Qed.
Lemma inner_written bins items sid key e s hb : Forall small bins -> items_ok items sid key e -> stream_of sid = Ok s ->
  build_inner (MkInner bins (inner_items s items e)) = Ok hb -> bytes_ok hb /\ hb = List.concat (map field4 (new_items bins items)) ++ field4 (0, e) /\ map snd (filter (fun f => fst f =? 3) (new_items bins items)) = bins.
Proof.
  intros Hb H Hs B. pose proof (new_items_ok bins items sid key e Hb H) as HN.
  assert (E : map (fun b => (I_binary, IV_bytes b)) bins ++ inner_items s items e = map (conv s) (new_items bins items) ++ [(I_end, IV_bytes e)]). { unfold inner_items, new_items. rewrite map_app, map_map, <- app_assoc. reflexivity. }
  assert (Iv : Forall iv_ok (map (conv s) (new_items bins items) ++ [(I_end, IV_bytes e)])). { apply Forall_app. split; [|constructor; [exact (proj1 (proj2 H))|constructor]]. rewrite Forall_forall. intros x I. apply in_map_iff in I as (f & <- & I). apply (conv_item _ _ _ _ _ _ HN Hs I). }
  assert (Ne : ~ In I_end (map fst (map (conv s) (new_items bins items)))). { intros X. rewrite map_map in X. apply in_map_iff in X as (f & E1 & I). destruct (conv_item _ _ _ _ _ _ HN Hs I) as (_ & _ & Z). rewrite E1 in Z. discriminate. }
  unfold build_inner in B. cbn [ih_bins ih_items] in B. rewrite E, (build_items_ok _ _ Iv Ne 0) in B. apply Ok_inj in B. subst hb. split; [|split].
  - apply enc_seq_ok. intros j [i w] Hin. rewrite Forall_forall in Iv. apply Iv in Hin. apply iv_small in Hin. unfold enc_item. constructor; [destruct i; reflexivity|]. apply bytes_ok_app. split; [apply le_enc_ok|apply Hin].
  - rewrite enc_seq_items by (intros f I; apply (conv_item _ _ _ _ _ _ HN Hs I)). f_equal. change (enc_seq enc_item 0 [(I_end, IV_bytes e)]) with (enc_item 0 (I_end, IV_bytes e) ++ []). rewrite app_nil_r, field4_le. reflexivity.
  - unfold new_items. rewrite filter_app, map_app. replace (filter (fun f => fst f =? 3) (filter _ items)) with (@nil (N * bytes)). 2: { clear. induction items as [|f l IH]; [reflexivity|]. cbn [filter]. destruct (fst f =? 3) eqn:E; cbn [negb filter]; [exact IH|rewrite E; exact IH]. }
    rewrite app_nil_r. clear. induction bins as [|b l IH]; [reflexivity|]. cbn [map filter fst snd]. change (3 =? 3) with true. cbv iota. cbn [map snd]. f_equal. exact IH.
Qed.
Lemma packed_written L comp content : lib_ok L -> bytes_ok content -> packed L comp content (compress L comp content) /\ bytes_ok (compress L comp content).
Proof. intros HL H. destruct comp; cbn [packed compress]; [split; apply (ok_gzip _ HL); exact H|auto]. Qed.
Lemma mib_small d bs : mib_blocks d bs -> ends_empty bs /\ Forall (fun b => lenN b < 2 ^ 32) bs /\ List.concat bs = d.
Proof.
  intros (l & -> & Ed & Ne & S). split; [exists l; auto|]. split; [|rewrite concat_app; cbn [List.concat]; rewrite !app_nil_r; exact Ed]. apply Forall_app. split; [|constructor; [reflexivity|constructor]]. destruct S as [->|(l' & z & -> & F & Z)]; [constructor|]. apply Forall_app. split; [|constructor; [|constructor]].
  - eapply Forall_impl; [|exact F]. intros a ->. reflexivity.
  - eapply N.le_lt_trans; [exact Z|reflexivity].
Qed.
Lemma write4 L cr c o file bins doc k r cr' c' bins' t out : lib_ok L -> c_dec cr = true -> unlocks L cr c -> kdbx4_file L c o file bins doc -> open_kdbx L cr file = Ok (k, r) ->
  unlocks L cr' c' -> xml_ok t = true -> modest t = true -> Forall small bins' -> saves L cr' (edited k bins' t) out ->
  exists s, stream_id_of k = Ok s /\ kdbx4_file L c' o out bins' (view_for s t).
Proof.
  intros HL Hc Hu Hf Ho Hu' Ht Hmo Hb (k' & Sv). destruct (read4 L no_bad cr c o file bins doc no_bad_left HL Hc Hu Hf) as (cid & comp & seed & iv & kd & cph & h & items & sid & key & e & s & tk & H4 & Ec & Iv1 & Iv2 & Fa & It & Es & T & Op). specialize (Op []). rewrite app_nil_r, Ho in Op. apply Ok_inj in Op. injection Op as -> ->.
  destruct (inner_gets items sid key e s bins It) as [G1 _]. destruct (inner_gets items sid key e s bins' It) as [G2 G3]. exists s. split; [exact G1|].
  unfold edited in Sv. cbn [k_hdr k_body b_payload b_tkey b_mkey p_hdr ih_items] in Sv.
  destruct (build4_plain _ _ _ _ _ _ Sv (f_major _ _ _ _ _ _ _ _ Fa) eq_refl) as (pl & ih & s2 & hb & t' & comp2 & c2 & mk & iv2 & ct & bl & tk2 & seed2 & P1 & P2 & P3 & P4 & P5 & P6 & P7 & P8 & P9 & P10 & -> & P11 & P12 & ->).
  cbn [k_hdr b_payload] in *. injection P1 as <-. cbn [p_hdr p_xml] in *. injection P2 as <-. rewrite G2 in P3. apply Ok_inj in P3. subst s2. rewrite G3 in P5. rewrite (f_comp _ _ _ _ _ _ _ _ Fa) in P6. apply Ok_inj in P6. subst comp2. rewrite (f_cipher _ _ _ _ _ _ _ _ Fa) in P7. apply Ok_inj in P7. subst c2. rewrite (f_iv _ _ _ _ _ _ _ _ Fa) in P8. apply Ok_inj in P8. subst iv2. rewrite (f_seed _ _ _ _ _ _ _ _ Fa) in P10. apply Ok_inj in P10. subst seed2.
  apply (T cr' c' tk2 Hu') in P9. destruct (inner_written bins' items sid key e s hb Hb It Es P4) as (B1 & B2 & B3). destruct (document_written L sid s key t t' HL Es Ht Hmo P5) as [X1 X2].
  assert (Bc : bytes_ok (hb ++ xml_ser L t')) by (apply bytes_ok_app; auto). destruct (packed_written L comp _ HL Bc) as [Pk Bk]. destruct (layout4 _ _ _ _ _ P12) as (bs & M & ->). destruct (mib_small _ _ M) as (E1 & E2 & E3).
  exists cid, comp, seed, iv, kd, tk2, (compress L comp (hb ++ xml_ser L t')), (hb ++ xml_ser L t'), bs. split; [exact H4|]. split; [exact P9|]. split.
  { exists (new_items bins' items), e, sid, key, (xml_ser L t'). destruct (new_items_ok bins' items sid key e Hb It) as (N1 & N2 & N3 & N4 & N5). repeat (split; [assumption|]). split; [rewrite B2, <- app_assoc; reflexivity|exact X2]. }
  split; [exact Pk|]. split; [exact Bk|]. split.
  { rewrite E3. apply (encrypted_iff L cid cph _ iv _ _ HL Ec (ok_sha256 _ HL _) (head_iv4 _ _ _ _ _ _ H4) Iv1 Iv2 Bk). exact P11. }
  split; [exact E1|]. split; [exact E2|]. rewrite (f_raw _ _ _ _ _ _ _ _ Fa). reflexivity.
Qed.
Lemma write3 L cr c o file doc k r cr' c' bins' t out : lib_ok L -> c_dec cr = true -> unlocks L cr c -> kdbx3_file L c o file doc -> open_kdbx L cr file = Ok (k, r) ->
  unlocks L cr' c' -> xml_ok t = true -> modest t = true -> saves L cr' (edited k bins' t) out ->
  exists s, stream_id_of k = Ok s /\ kdbx3_file L c' o out (view_for s t).
Proof.
  intros HL Hc Hu Hf Ho Hu' Ht Hmo (k' & Sv). destruct (read3 L no_bad cr c o file doc no_bad_left HL Hc Hu Hf) as (cid & comp & seed & iv & kd & key & start & sid & cph & h & s & tk & H3 & Ec & Iv1 & Iv2 & Fa & Es & A3 & A4 & A5 & T & Op). rewrite Ho in Op. apply Ok_inj in Op. injection Op as -> ->.
  exists s. split; [exact A5|]. unfold edited in Sv. cbn [k_hdr k_body b_payload b_tkey b_mkey p_hdr ih_items] in Sv.
  pose proof Sv as Sv2. destruct (build3_plain _ _ _ _ _ _ Sv (f_major _ _ _ _ _ _ _ _ Fa) eq_refl) as (pl & s2 & t' & comp2 & c2 & mk & iv2 & ct & bl & tk2 & seed2 & ssb & P1 & P2 & P3 & P6 & P7 & P8 & P9 & P10 & -> & P13 & P12 & P11 & ->).
  cbn [k_hdr b_payload] in *. injection P1 as <-. cbn [p_xml] in *. rewrite A5 in P2. apply Ok_inj in P2. subst s2. rewrite A3 in P3. rewrite A4 in P13. apply Ok_inj in P13. subst ssb. rewrite (f_comp _ _ _ _ _ _ _ _ Fa) in P6. apply Ok_inj in P6. subst comp2. rewrite (f_cipher _ _ _ _ _ _ _ _ Fa) in P7. apply Ok_inj in P7. subst c2. rewrite (f_iv _ _ _ _ _ _ _ _ Fa) in P8. apply Ok_inj in P8. subst iv2. rewrite (f_seed _ _ _ _ _ _ _ _ Fa) in P10. apply Ok_inj in P10. subst seed2.
  apply (T cr' c' tk2 Hu') in P9. destruct (document_written L sid s key t t' HL Es Ht Hmo P3) as [X1 X2]. destruct (packed_written L comp _ HL X1) as [Pk Bk]. 
  assert (Ln : lenN (to_chunks (compress L comp (xml_ser L t'))) <= 2 ^ 32) by (unfold build_blocks3 in P12; cbv zeta in P12; destruct (N.ltb_spec (2 ^ 32) (lenN (to_chunks (compress L comp (xml_ser L t'))))); [discriminate|assumption]).
  assert (exists l, to_chunks (compress L comp (xml_ser L t')) = l ++ [[]] /\ bl = framed_all L 0 l) as (l & El & ->).
  { unfold build_blocks3 in P12. cbv zeta in P12. destruct (_ <? _); [discriminate|]. apply Ok_inj in P12. destruct (to_chunks_mib (compress L comp (xml_ser L t'))) as (l & E & _ & F & _). exists l. split; [exact E|]. rewrite <- P12, E, enc3_frames, framed_frames by exact F. reflexivity. }
  pose proof (to_chunks_mib (compress L comp (xml_ser L t'))) as M. rewrite El in M. destruct (mib_small _ _ M) as ((l2 & E1 & Ne) & E2 & E3). apply app_inj_tail in E1 as [<- _]. rewrite concat_app in E3. cbn [List.concat] in E3. rewrite !app_nil_r in E3. apply Forall_app in E2 as [E2 _].
  destruct (head_iv3 _ _ _ _ _ _ _ _ _ H3) as [Hiv Hst].
  assert (Bf : bytes_ok (start ++ framed_all L 0 l)).
  { apply bytes_ok_app. split; [exact Hst|]. rewrite <- E3 in Bk. clear -HL Bk. assert (Z : bytes_ok (repeat 0 32)) by (unfold bytes_ok; rewrite Forall_forall; intros y Hy; apply repeat_spec in Hy; subst; reflexivity). assert (W : forall i h b, bytes_ok h -> bytes_ok b -> bytes_ok (framed i h b)) by (intros i h b A B; unfold framed; rewrite <- !le32_enc; repeat (apply bytes_ok_app; split); auto; apply le_enc_ok).
    generalize 0 at 1 as i. induction l as [|b bs IH]; intros i; cbn [framed_all]; [apply W; [exact Z|constructor]|]. cbn [List.concat] in Bk. apply bytes_ok_app in Bk as [B1 B2]. apply bytes_ok_app. split; [apply W; [apply (ok_sha256 _ HL)|exact B1]|auto]. }
  exists cid, comp, seed, iv, kd, key, start, sid, tk2, (xml_ser L t'), l, ct. split; [exact H3|]. split; [exact P9|]. split; [exact X2|]. rewrite E3. split; [exact Pk|]. split; [exact Bk|]. split; [|split; [|split]].
  - rewrite Forall_forall in *. auto.
  - rewrite El in Ln. unfold lenN in *. rewrite app_length in Ln. cbn [List.length] in Ln. lia.
  - apply (encrypted_iff L cid cph _ iv _ _ HL Ec (ok_sha256 _ HL _) Hiv Iv1 Iv2 Bf). exact P11.
  - rewrite (f_raw _ _ _ _ _ _ _ _ Fa). reflexivity.
Qed.
(** *** Statements *)
Lemma claim_with4 L bad cr c o file bins doc trail : left_alone bad -> lib_ok L -> c_dec cr = true -> unlocks L cr c -> kdbx4_with L bad c o file bins doc ->
  exists k, open_kdbx L cr (file ++ trail) = Ok (k, trail) /\ h_major (k_hdr k) = 4 /\ h_raw (k_hdr k) = head_bytes 4 field4 o /\ bins_of k = bins /\ doc_of k = Some doc.
Proof.
  intros HB HL Hc Hu Hf. destruct (read4 L bad cr c o file bins doc HB HL Hc Hu Hf) as (cid & comp & seed & iv & kd & cph & h & items & sid & key & e & s & tk & _ & _ & _ & _ & Fa & _ & _ & _ & Op). eexists. split; [apply Op|]. cbn [k_hdr]. split; [apply (f_major _ _ _ _ _ _ _ _ Fa)|]. split; [apply (f_raw _ _ _ _ _ _ _ _ Fa)|]. split; reflexivity.
Qed.
Lemma claim_with3 L bad cr c o file doc : left_alone bad -> lib_ok L -> c_dec cr = true -> unlocks L cr c -> kdbx3_with L bad c o file doc ->
  exists k, open_kdbx L cr file = Ok (k, []) /\ h_major (k_hdr k) = 3 /\ h_raw (k_hdr k) = head_bytes 3 field3 o /\ doc_of k = Some doc.
Proof.
  intros HB HL Hc Hu Hf. destruct (read3 L bad cr c o file doc HB HL Hc Hu Hf) as (cid & comp & seed & iv & kd & key & start & sid & cph & h & s & tk & _ & _ & _ & _ & Fa & _ & _ & _ & _ & _ & Op). eexists. split; [apply Op|]. cbn [k_hdr]. split; [apply (f_major _ _ _ _ _ _ _ _ Fa)|]. split; [apply (f_raw _ _ _ _ _ _ _ _ Fa)|]. reflexivity.
Qed.

Lemma claim_read4 L cr c o file bins doc trail : lib_ok L -> c_dec cr = true -> unlocks L cr c -> kdbx4_file L c o file bins doc ->
  exists k, open_kdbx L cr (file ++ trail) = Ok (k, trail) /\ h_major (k_hdr k) = 4 /\ h_raw (k_hdr k) = head_bytes 4 field4 o /\ bins_of k = bins /\ doc_of k = Some doc.
Proof. apply (claim_with4 L no_bad), no_bad_left. Qed.
Lemma claim_read3 L cr c o file doc : lib_ok L -> c_dec cr = true -> unlocks L cr c -> kdbx3_file L c o file doc ->
  exists k, open_kdbx L cr file = Ok (k, []) /\ h_major (k_hdr k) = 3 /\ h_raw (k_hdr k) = head_bytes 3 field3 o /\ doc_of k = Some doc.
Proof. apply (claim_with3 L no_bad), no_bad_left. Qed.

(** *** Values of variant dictionaries *)
Lemma signed_mod bits z : (0 < bits) -> (- 2 ^ Z.of_N (bits - 1) <= z < 2 ^ Z.of_N (bits - 1))%Z -> signed bits (Z.to_N (z mod 2 ^ Z.of_N bits)) = z.
Proof.
  intros Hb Hz. unfold signed. set (h := (2 ^ Z.of_N (bits - 1))%Z) in *. assert (E : (2 ^ Z.of_N bits = 2 * h)%Z). { unfold h. rewrite <- Z.pow_succ_r by lia. f_equal. lia. }
  assert (Eh : Z.of_N (2 ^ (bits - 1)) = h) by (unfold h; rewrite N2Z.inj_pow; reflexivity). assert (Ef : Z.of_N (2 ^ bits) = (2 * h)%Z) by (rewrite N2Z.inj_pow; exact E). rewrite Ef, E.
  destruct (Z.lt_ge_cases z 0) as [Neg|Pos].
  - assert (M : (z mod (2 * h) = z + 2 * h)%Z) by (symmetry; apply (Z.mod_unique z (2 * h) (-1) (z + 2 * h)); lia). rewrite M, Z2N.id by lia. destruct (N.ltb_spec (Z.to_N (z + 2 * h)) (2 ^ (bits - 1))) as [C|C]; [|lia]. apply N2Z.inj_lt in C. rewrite Eh, Z2N.id in C by lia. lia.
  - rewrite Z.mod_small by lia. rewrite Z2N.id by lia. destruct (N.ltb_spec (Z.to_N z) (2 ^ (bits - 1))) as [C|C]; [reflexivity|]. apply N2Z.inj_le in C. rewrite Eh, Z2N.id in C by lia. lia.
Qed.
Lemma vd_read ty v x : vd_means ty v x -> vd_value ty v = Ok (x : vval).
Proof.
  intros M. destruct M as [n Hn|n Hn|b|z Hz|z Hz|s b E|b]; unfold vd_value; cbn [N.eqb Pos.eqb].
  - rewrite <- le32_enc, sub_enc by exact Hn. reflexivity.
  - rewrite <- le64_enc, sub_enc by exact Hn. reflexivity.
  - destruct b; reflexivity.
  - rewrite <- le32_enc, sub_enc; [cbn [bind]; do 2 f_equal; apply (signed_mod 32); [reflexivity|exact Hz]|]. pose proof (Z.mod_pos_bound z (2 ^ 32) eq_refl). change (256 ^ N.of_nat 4) with (Z.to_N (2 ^ 32)). lia.
  - rewrite <- le64_enc, sub_enc; [cbn [bind]; do 2 f_equal; apply (signed_mod 64); [reflexivity|exact Hz]|]. pose proof (Z.mod_pos_bound z (2 ^ 64) eq_refl). change (256 ^ N.of_nat 8) with (Z.to_N (2 ^ 64)). lia.
  - rewrite (utf8_roundtrip _ _ E). reflexivity.
  - reflexivity.
Qed.
Lemma dict_values items : Forall v_ok items -> items <> [] -> NoDup (map v_name items) ->
  exists d, vdict (dict_bytes items) = Ok d /\ forall ty s k v x, In (ty, k, v) items -> utf8_encode s = Ok k -> vd_means ty v x -> vget s d = Ok x.
Proof. intros H1 H2 H3. destruct (dict_read items H1 H2 H3) as (d & E & X). exists d. split; [exact E|]. intros ty s k v x I Es M. exact (X ty s k v x I Es (vd_read ty v x M)). Qed.
