(** Locality, framing, cipher and round-trip lemmas for the Kdbx model. *)
From Coq Require Import ZifyBool ZifyNat ZifyN.
From Verif Require Import Base Base64 PyStr Utf8 Xml Xml_facts Cbc Cbc_facts Lib Keyfile Construct Kdbx.
Ltac Zify.zify_post_hook ::= Z.div_mod_to_equations.

(** ** Locality *)
Lemma eats_h_item k f g i : eats (h_item k f g i).
Proof.
  apply (eats_bind (p_int 1) (fun n d => let* i := f n in let* (v, r) := p_prefixed k (g i) d in Ok (i, v, r))).
  - apply eats_int. lia.
  - intros n. apply local_weak. apply (local_bindv (f n) (fun i d => let* (v, r) := p_prefixed k (g i) d in Ok (i, v, r))). intros j _.
    apply (local_bind (p_prefixed k (g j)) (fun v d => Ok (j, v, d))); [apply local_prefixed|intros v; apply local_ret].
Qed.
Lemma local_h_item k f g i : local (h_item k f g i).
Proof.
  apply (local_bind (p_int 1) (fun n d => let* i := f n in let* (v, r) := p_prefixed k (g i) d in Ok (i, v, r))).
  - apply local_int.
  - intros n. apply (local_bindv (f n) (fun i d => let* (v, r) := p_prefixed k (g i) d in Ok (i, v, r))). intros j _.
    apply (local_bind (p_prefixed k (g j)) (fun v d => Ok (j, v, d))); [apply local_prefixed|intros v; apply local_ret].
Qed.
Lemma local_dyn m : local (p_dyn m).
Proof.
  unfold p_dyn. apply local_if; [|apply local_if; [|apply local_ret]].
  - apply (local_bind (p_repeat (h_item 2 hid3 hval3) (fun it => hid_eqb (fst it) H_end)) (fun l d => Ok (Some (d_of_list hid_eqb l), d)));
      [|intros; apply local_ret]. apply local_repeat; intros; [apply local_h_item|apply eats_h_item].
  - apply (local_bind (p_repeat (h_item 4 hid4 hval4) (fun it => hid_eqb (fst it) H_end)) (fun l d => Ok (Some (d_of_list hid_eqb l), d)));
      [|intros; apply local_ret]. apply local_repeat; intros; [apply local_h_item|apply eats_h_item].
Qed.
Lemma local_header0 : local p_header0.
Proof.
  unfold p_header0.
  apply (local_bind (p_bytes 4) (fun s1 d => let* (s2, r) := p_bytes 4 d in
    if str_eqb s1 sig1 && str_eqb s2 sig2 then
    let* (mi, r) := p_int 2 r in
    let* (ma, r) := p_int 2 r in
    let* (dy, r) := p_dyn ma r in
    Ok (mi, ma, dy, r) else Err (Ex_Check ["header"%string; "sig_check"%string]))); [apply local_bytes|]. intros s1.
  apply (local_bind (p_bytes 4) (fun s2 r => if str_eqb s1 sig1 && str_eqb s2 sig2 then
    let* (mi, r) := p_int 2 r in
    let* (ma, r) := p_int 2 r in
    let* (dy, r) := p_dyn ma r in
    Ok (mi, ma, dy, r) else Err (Ex_Check ["header"%string; "sig_check"%string]))); [apply local_bytes|]. intros s2.
  apply local_if; [|apply local_err].
  apply (local_bind (p_int 2) (fun mi r => let* (ma, r) := p_int 2 r in let* (dy, r) := p_dyn ma r in Ok (mi, ma, dy, r))); [apply local_int|]. intros mi.
  apply (local_bind (p_int 2) (fun ma r => let* (dy, r) := p_dyn ma r in Ok (mi, ma, dy, r))); [apply local_int|]. intros ma.
  apply (local_bind (p_dyn ma) (fun dy r => Ok (mi, ma, dy, r))); [apply local_dyn|]. intros dy. apply local_ret.
Qed.
Lemma header_local_raw d h r : p_header d = Ok (h, r) -> d = h_raw h ++ r /\ forall r', p_header (h_raw h ++ r') = Ok (h, r').
Proof.
  unfold p_header. intros H. apply bind_ok in H. destruct H as ([[[mi ma] dy] r1] & H1 & H). injection H as <- <-. cbn [h_raw].
  destruct (local_header0 _ _ _ H1) as (c & -> & G).
  assert (R : forall x, firstn (List.length (c ++ x) - List.length x) (c ++ x) = c).
  { intros x. rewrite app_length. replace (List.length c + List.length x - List.length x)%nat with (List.length c + 0)%nat by lia.
    rewrite firstn_app_2. cbn. apply app_nil_r. }
  rewrite R. split; [reflexivity|]. intros r'. rewrite G. cbn [bind]. rewrite R. reflexivity.
Qed.
Lemma local_header : local p_header.
Proof. intros d h r H. exists (h_raw h). apply header_local_raw, H. Qed.

Lemma local_block4 L seed tk i : local (block4 L seed tk i).
Proof.
  unfold block4. apply (local_bind (p_bytes 32) (fun h r => let* (b, r) := p_prefixed 4 (fun b => Ok b) r in
    if str_eqb h (block_hmac L seed tk i b) then Ok (b, r) else Err (Ex_Checksum ["body"%string; "payload"%string; "hmac_hash"%string]))); [apply local_bytes|].
  intros h. apply (local_bind (p_prefixed 4 (fun b => Ok b)) (fun b r => if str_eqb h (block_hmac L seed tk i b) then Ok (b, r) else
    Err (Ex_Checksum ["body"%string; "payload"%string; "hmac_hash"%string]))); [apply local_prefixed|].
  intros b. apply local_if; [apply local_ret|apply local_err].
Qed.
Lemma eats_block4 L seed tk i : eats (block4 L seed tk i).
Proof.
  unfold block4. apply (eats_bind (p_bytes 32) (fun h r => let* (b, r) := p_prefixed 4 (fun b => Ok b) r in
    if str_eqb h (block_hmac L seed tk i b) then Ok (b, r) else Err (Ex_Checksum ["body"%string; "payload"%string; "hmac_hash"%string]))); [apply eats_bytes; lia|].
  intros h. apply local_weak. apply (local_bind (p_prefixed 4 (fun b => Ok b)) (fun b r => if str_eqb h (block_hmac L seed tk i b) then Ok (b, r) else
    Err (Ex_Checksum ["body"%string; "payload"%string; "hmac_hash"%string]))); [apply local_prefixed|].
  intros b. apply local_if; [apply local_ret|apply local_err].
Qed.
Lemma local_block3 L i : local (block3 L i).
Proof.
  unfold block3. apply (local_bind (p_int 4) (fun n r => if n =? i then
    let* (h, r) := p_bytes 32 r in
    let* (b, r) := p_prefixed 4 (fun b => Ok b) r in
    if str_eqb h (block3_hash L b) then Ok (b, r)
    else Err (Ex_Checksum ["xml"%string; "block_hash"%string])
  else Err (Ex_Checksum ["xml"%string; "block_index"%string]))); [apply local_int|]. intros n.
  apply local_if; [|apply local_err].
  apply (local_bind (p_bytes 32) (fun h r => let* (b, r) := p_prefixed 4 (fun b => Ok b) r in
    if str_eqb h (block3_hash L b) then Ok (b, r) else Err (Ex_Checksum ["xml"%string; "block_hash"%string]))); [apply local_bytes|]. intros h.
  apply (local_bind (p_prefixed 4 (fun b => Ok b)) (fun b r =>
    if str_eqb h (block3_hash L b) then Ok (b, r) else Err (Ex_Checksum ["xml"%string; "block_hash"%string]))); [apply local_prefixed|].
  intros b. apply local_if; [apply local_ret|apply local_err].
Qed.
Lemma eats_block3 L i : eats (block3 L i).
Proof.
  intros d b r. unfold block3. intros H. apply bind_ok in H. destruct H as ([n r1] & H1 & H).
  apply eats_int in H1; [|lia]. destruct (n =? i); [|discriminate].
  apply bind_ok in H. destruct H as ([h r2] & H2 & H). apply (local_weak _ (local_bytes 32)) in H2.
  apply bind_ok in H. destruct H as ([b' r3] & H3 & H). apply (local_weak _ (local_prefixed 4 _)) in H3.
  destruct (str_eqb _ _); [|discriminate]. injection H as <- <-. lia.
Qed.
Lemma local_blocks4 L seed tk : local (blocks4 L seed tk).
Proof.
  unfold blocks4. apply (local_bind (p_repeat (block4 L seed tk) is_empty) (fun l r => Ok (List.concat l, r))); [|intros; apply local_ret].
  apply local_repeat; intros; [apply local_block4|apply eats_block4].
Qed.
Lemma local_blocks3 L : local (blocks3 L).
Proof.
  unfold blocks3. apply (local_bind (p_repeat (block3 L) is_empty) (fun l r => Ok (List.concat l, r))); [|intros; apply local_ret].
  apply local_repeat; intros; [apply local_block3|apply eats_block3].
Qed.
Lemma local_body4 L cr h : local (body4 L cr h).
Proof.
  unfold body4.
  match goal with |- local (fun d => bind ?v (fun tk => @?q tk d)) => apply (local_bindv v q) end. intros tk _.
  match goal with |- local (fun d => bind ?v (fun tk => @?q tk d)) => apply (local_bindv v q) end. intros mk _.
  match goal with |- local (fun d => bind (p_bytes 32 d) ?k) => apply (local_bind (p_bytes 32) (fun a r => k (a, r))); [apply local_bytes|] end.
  intros s. cbn beta iota. apply local_if; [|apply local_err]. apply local_if; [|apply local_ret].
  match goal with |- local (fun d => bind (p_bytes 32 d) ?k) => apply (local_bind (p_bytes 32) (fun a r => k (a, r))); [apply local_bytes|] end.
  intros m. cbn beta iota.
  match goal with |- local (fun d => bind ?v (fun tk => @?q tk d)) => apply (local_bindv v q) end. intros hm _.
  apply local_if; [|apply local_err].
  do 3 (match goal with |- local (fun d => bind ?v (fun tk => @?q tk d)) => apply (local_bindv v q) end; intros ? _).
  match goal with |- local (fun d => bind (blocks4 L ?a ?b d) ?k) => apply (local_bind (blocks4 L a b) (fun a r => k (a, r))); [apply local_blocks4|] end.
  intros ct. cbn beta iota.
  do 4 (match goal with |- local (fun d => bind ?v (fun tk => @?q tk d)) => apply (local_bindv v q) end; intros ? _).
  apply local_ret.
Qed.
Lemma p_kdbx_local4 L cr d k r : p_kdbx L cr d = Ok (k, r) -> h_major (k_hdr k) = 4 ->
  exists c, d = c ++ r /\ forall r', p_kdbx L cr (c ++ r') = Ok (k, r').
Proof.
  unfold p_kdbx. intros H Hm. apply bind_ok in H. destruct H as ([h r1] & H1 & H).
  destruct (header_local_raw _ _ _ H1) as [-> G1].
  destruct (N.eqb_spec (h_major h) 3) as [E3|N3].
  { apply bind_ok in H. destruct H as ([b r2] & _ & H). injection H as <- <-. cbn in Hm. lia. }
  destruct (N.eqb_spec (h_major h) 4) as [E4|N4].
  - apply bind_ok in H. destruct H as ([b r2] & H2 & H). injection H as <- <-.
    destruct (local_body4 _ _ _ _ _ _ H2) as (c & -> & G2). exists (h_raw h ++ c). split; [apply app_assoc|].
    intros r'. rewrite <- app_assoc, G1. cbn [bind]. rewrite E4. cbn [N.eqb Pos.eqb]. rewrite G2. reflexivity.
  - injection H as <- <-. cbn in Hm. lia.
Qed.

(** ** Block framing *)
Lemma takeN_dropN {A} (l : list A) : forall n, takeN n l ++ dropN n l = l.
Proof.
  induction l as [|x l IH]; intros n; cbn [takeN dropN]; [reflexivity|]. destruct (n =? 0); [reflexivity|]. cbn [app]. now rewrite IH.
Qed.
Lemma takeN_len {A} (l : list A) : forall n, lenN (takeN n l) <= n.
Proof.
  induction l as [|x l IH]; intros n; cbn [takeN]; [rewrite lenN_nil; lia|]. destruct (N.eqb_spec n 0); [rewrite lenN_nil; lia|].
  rewrite lenN_cons. specialize (IH (n - 1)). lia.
Qed.
Lemma takeN_nonempty (l : bytes) n : l <> [] -> 0 < n -> is_empty (takeN n l) = false.
Proof. destruct l; [congruence|]. intros _ H. cbn [takeN]. destruct (N.eqb_spec n 0); [lia|reflexivity]. Qed.
Lemma dropN_length {A} (l : list A) : forall n, (List.length (dropN n l) <= List.length l)%nat.
Proof.
  induction l as [|x l IH]; intros n; cbn [dropN]; [lia|]. destruct (n =? 0); [lia|]. specialize (IH (n - 1)). cbn [List.length]. lia.
Qed.
Lemma dropN_length_lt {A} (l : list A) n : l <> [] -> 0 < n -> (List.length (dropN n l) < List.length l)%nat.
Proof.
  destruct l as [|x l]; [congruence|]. intros _ H. cbn [dropN]. destruct (N.eqb_spec n 0); [lia|].
  pose proof (dropN_length l (n - 1)). cbn [List.length]. lia.
Qed.
Lemma chunks_spec : forall f d, (List.length d <= f)%nat ->
  exists l, chunks f d = l ++ [[]] /\ List.concat l = d /\ Forall (fun b => is_empty b = false /\ lenN b <= block_size) l.
Proof.
  induction f as [|f IH]; intros d Hf.
  - destruct d; [|cbn in Hf; lia]. exists []. cbn. auto.
  - destruct d as [|x d]; [exists []; cbn; auto|]. cbn [chunks].
    destruct (IH (dropN block_size (x :: d))) as (l & E & C & F).
    { pose proof (dropN_length_lt (x :: d) block_size ltac:(discriminate) ltac:(unfold block_size; lia)). lia. }
    exists (takeN block_size (x :: d) :: l). rewrite E. split; [reflexivity|]. split.
    + cbn [List.concat]. rewrite C. apply takeN_dropN.
    + constructor; [|exact F]. split; [apply takeN_nonempty; [discriminate|unfold block_size; lia]|apply takeN_len].
Qed.
Lemma to_chunks_spec d : exists l, to_chunks d = l ++ [[]] /\ List.concat l = d /\
  Forall (fun b => is_empty b = false /\ lenN b <= block_size) l.
Proof. apply chunks_spec. lia. Qed.
Lemma prefixed_enc {A} k (sub : bytes -> res A) b r : lenN b < 256 ^ N.of_nat k ->
  p_prefixed k sub (le_enc k (lenN b) ++ b ++ r) = (let* a := sub b in Ok (a, r)).
Proof.
  intros H. unfold p_prefixed, p_int. unfold p_bytes at 1. rewrite splitN_app' by apply le_enc_lenN. cbn [bind].
  rewrite le_dec_enc by exact H. unfold p_bytes. rewrite splitN_app. reflexivity.
Qed.
Lemma p_bytes_app n a r : lenN a = n -> p_bytes n (a ++ r) = Ok (a, r).
Proof. intros H. unfold p_bytes. rewrite splitN_app' by exact H. reflexivity. Qed.
Lemma p_int_enc k n r : n < 256 ^ N.of_nat k -> p_int k (le_enc k n ++ r) = Ok (n, r).
Proof. intros H. unfold p_int. rewrite p_bytes_app by apply le_enc_lenN. cbn [bind]. rewrite le_dec_enc by exact H. reflexivity. Qed.
Lemma digest_len n b : digest n b -> lenN b = N.of_nat n.
Proof. intros [H _]. unfold lenN. now rewrite H. Qed.

Lemma last_shape {A} (p : A -> bool) l' z : p z = true -> Forall (fun b => p b = false) l' ->
  exists l z', l' ++ [z] = l ++ [z'] /\ p z' = true /\ forall b, In b l -> p b = false.
Proof. intros Hz F. exists l', z. rewrite Forall_forall in F. auto. Qed.
Lemma enc_seq_len {A} (enc : N -> A -> bytes) : (forall j a, 1 <= List.length (enc j a))%nat ->
  forall l j, (List.length l <= List.length (enc_seq enc j l))%nat.
Proof.
  intros H. induction l as [|a l IH]; intros j; [cbn; lia|].
  change (enc_seq enc j (a :: l)) with (enc j a ++ enc_seq enc (j + 1) l). rewrite app_length. cbn [List.length].
  specialize (H j a). specialize (IH (j + 1)). lia.
Qed.
Lemma blocks4_build L seed tk d out r : lib_ok L -> build_blocks4 L seed tk d = Ok out -> blocks4 L seed tk (out ++ r) = Ok (d, r).
Proof.
  intros HL. unfold build_blocks4. cbv zeta. destruct (to_chunks_spec d) as (l & E & C & F). rewrite E.
  match goal with |- context [if ?b then _ else _] => destruct b end; [discriminate|]. intros [= <-].
  unfold blocks4, p_repeat. unfold enc_seq. rewrite until_build.
  - cbn [bind]. rewrite concat_app, C. cbn. rewrite app_nil_r. reflexivity.
  - intros j a r0 Ha _ _. unfold block4, enc_block4. rewrite <- !app_assoc.
    rewrite p_bytes_app by (apply (digest_len 32), (ok_hmac _ HL)). cbn [bind].
    rewrite prefixed_enc; [cbn [bind]; rewrite str_eqb_refl; reflexivity|].
    apply in_app_iff in Ha. destruct Ha as [Ha|[<-|[]]]; [|reflexivity].
    rewrite Forall_forall in F. destruct (F _ Ha) as [_ X]. unfold block_size in X. change (256 ^ N.of_nat 4) with 4294967296. lia.
  - apply last_shape; [reflexivity|]. eapply Forall_impl; [|exact F]. intros a [X _]. exact X.
  - pose proof (enc_seq_len (enc_block4 L seed tk)) as W.
    specialize (W ltac:(intros j a; unfold enc_block4; rewrite app_length; unfold block_hmac;
      rewrite (proj1 (ok_hmac _ HL _ _)); lia) (l ++ [[]]) 0).
    refine (Nat.le_trans _ _ _ W _). apply le_S. rewrite (app_length _ r). apply Nat.le_add_r.
Qed.
Lemma blocks3_build L d out r : lib_ok L -> build_blocks3 L d = Ok out -> blocks3 L (out ++ r) = Ok (d, r).
Proof.
  intros HL. unfold build_blocks3. cbv zeta. destruct (to_chunks_spec d) as (l & E & C & F). rewrite E.
  match goal with |- context [?a <? ?b] => destruct (N.ltb_spec a b) as [|Hn] end; [discriminate|]. intros [= <-].
  unfold blocks3, p_repeat. unfold enc_seq. rewrite until_build.
  - cbn [bind]. rewrite concat_app, C. cbn. rewrite app_nil_r. reflexivity.
  - intros j a r0 Ha _ Hj. unfold block3, enc_block3. rewrite <- !app_assoc.
    rewrite p_int_enc by (change (256 ^ N.of_nat 4) with (2 ^ 32); lia). cbn [bind]. rewrite N.eqb_refl.
    rewrite p_bytes_app; [|destruct a; [reflexivity|apply (digest_len 32), (ok_sha256 _ HL)]]. cbn [bind].
    rewrite prefixed_enc; [cbn [bind]; rewrite str_eqb_refl; reflexivity|].
    apply in_app_iff in Ha. destruct Ha as [Ha|[<-|[]]]; [|reflexivity].
    rewrite Forall_forall in F. destruct (F _ Ha) as [_ X]. unfold block_size in X. change (256 ^ N.of_nat 4) with 4294967296. lia.
  - apply last_shape; [reflexivity|]. eapply Forall_impl; [|exact F]. intros a [X _]. exact X.
  - pose proof (enc_seq_len (enc_block3 L)) as W.
    specialize (W ltac:(intros j a; unfold enc_block3; rewrite app_length, le_enc_length; lia) (l ++ [[]]) 0).
    refine (Nat.le_trans _ _ _ W _). apply le_S. rewrite (app_length _ r). apply Nat.le_add_r.
Qed.

(** ** Ciphers *)
Lemma to_blocks_concat ps : Forall (fun p => List.length p = 16%nat) ps -> forall f, (List.length ps <= f)%nat ->
  to_blocks f (List.concat ps) = ps.
Proof.
  induction 1 as [|p ps Hp Hps IH]; intros f Hf.
  - destruct f; reflexivity.
  - destruct f as [|f]; [cbn in Hf; lia|]. cbn [to_blocks List.concat]. rewrite app_length, Hp.
    destruct (Nat.ltb_spec (16 + List.length (List.concat ps)) 16); [lia|].
    rewrite <- Hp. rewrite firstn_app, firstn_all, Nat.sub_diag, firstn_O, app_nil_r.
    rewrite skipn_app, skipn_all, Nat.sub_diag, skipn_O. cbn [app]. rewrite IH by (cbn in Hf; lia). reflexivity.
Qed.
Lemma blocks_of_concat ps : Forall (fun p => List.length p = 16%nat) ps -> blocks_of (List.concat ps) = ps.
Proof.
  intros F. apply to_blocks_concat; [exact F|]. induction F as [|p ps Hp Hps IH]; cbn [List.concat List.length]; [lia|].
  rewrite app_length. lia.
Qed.
Lemma blocks_app a b : (List.length a mod 16 = 0)%nat -> blocks_of (a ++ b) = blocks_of a ++ blocks_of b.
Proof.
  assert (G : forall n a f g, (List.length a <= n)%nat -> (List.length a mod 16 = 0)%nat -> (List.length (a ++ b) <= f)%nat ->
     (List.length a <= g)%nat -> to_blocks f (a ++ b) = to_blocks g a ++ blocks_of b).
  { clear a. assert (Fu : forall f1 f2 d, (List.length d <= f1)%nat -> (List.length d <= f2)%nat -> to_blocks f1 d = to_blocks f2 d).
    { induction f1 as [|f1 IH]; intros f2 d H1 H2.
      - destruct d; [|cbn in H1; lia]. destruct f2; reflexivity.
      - destruct f2 as [|f2]; [destruct d; [reflexivity|cbn in H2; lia]|]. cbn [to_blocks].
        destruct (Nat.ltb_spec (List.length d) 16); [reflexivity|]. f_equal. apply IH; rewrite skipn_length; lia. }
    induction n as [|n IH]; intros a f g Hn Hm Hf Hg.
    - destruct a; [|cbn in Hn; lia]. cbn [app]. replace (to_blocks g []) with (@nil bytes) by (destruct g; reflexivity).
      apply Fu; cbn [app] in *; lia.
    - destruct a as [|x a'] eqn:Ea.
      + cbn [app]. replace (to_blocks g []) with (@nil bytes) by (destruct g; reflexivity). apply Fu; cbn [app] in *; lia.
      + rewrite <- Ea in *. assert (L16 : (16 <= List.length a)%nat) by (rewrite Ea in *; cbn [List.length] in *; lia).
        rewrite app_length in Hf.
        destruct f as [|f]; [lia|]. destruct g as [|g]; [lia|]. cbn [to_blocks]. rewrite app_length.
        destruct (Nat.ltb_spec (List.length a + List.length b) 16); [lia|]. destruct (Nat.ltb_spec (List.length a) 16); [lia|].
        rewrite firstn_app, skipn_app. replace (16 - List.length a)%nat with 0%nat by lia. rewrite firstn_O, app_nil_r, skipn_O.
        cbn [app]. f_equal. apply IH; rewrite ?app_length, ?skipn_length; lia. }
  intros H. apply (G (List.length a)); auto.
Qed.
Lemma cbc_d_app D : forall x iv y, exists iv', cbc_d D iv (x ++ y) = cbc_d D iv x ++ cbc_d D iv' y.
Proof.
  induction x as [|c x IH]; intros iv y; cbn [app cbc_d]; [eauto|]. destruct (IH c y) as (iv' & ->). exists iv'. reflexivity.
Qed.
Lemma aes_cbc_inv L key iv ps : lib_ok L -> digest 16 iv -> Forall (digest 16) ps ->
  Forall (digest 16) (cbc_e (aes_enc L key) iv ps) /\ cbc_d (aes_dec L key) iv (cbc_e (aes_enc L key) iv ps) = ps.
Proof.
  intros HL. revert iv. induction ps as [|p ps IH]; intros iv Hiv F; cbn [cbc_e cbc_d]; [auto|].
  inversion F as [|? ? Hp Hps]; subst.
  assert (Hx : digest 16 (strxor p iv)).
  { destruct Hp as [P1 P2], Hiv as [I1 I2]. split; [rewrite strxor_length; congruence|apply strxor_ok; assumption]. }
  destruct (ok_aes _ HL key _ Hx) as [He Hd]. destruct (IH _ He Hps) as [F1 E1]. split; [constructor; assumption|].
  rewrite E1, Hd. f_equal. destruct Hp as [P1 P2], Hiv as [I1 I2].
  assert (Q : forall a b, List.length a = List.length b -> strxor (strxor a b) b = a).
  { clear. induction a as [|x a IH]; intros [|y b]; cbn; intros H; try discriminate; [reflexivity|]. f_equal; [|apply IH; lia].
    rewrite N.lxor_assoc, N.lxor_nilpotent. apply N.lxor_0_r. }
  apply Q. congruence.
Qed.
Lemma pad_mult d : (List.length (pkcs7_pad d) mod 16 = 0)%nat.
Proof. destruct (pad_length d) as (k & Hk & -> & Hm). rewrite app_length, repeat_length. exact Hm. Qed.
Lemma pad_ok d : bytes_ok d -> bytes_ok (pkcs7_pad d).
Proof.
  intros H. destruct (pad_length d) as (k & Hk & -> & Hm). apply bytes_ok_app. split; [exact H|].
  unfold bytes_ok. rewrite Forall_forall. intros x Hx. apply repeat_spec in Hx. subst. unfold is_byte. lia.
Qed.
Lemma blk16_digest p : blk16 p <-> digest 16 p.
Proof. unfold blk16, digest. tauto. Qed.
Lemma concat_digest ps : Forall (digest 16) ps -> bytes_ok (List.concat ps) /\ (List.length (List.concat ps) mod 16 = 0)%nat.
Proof.
  induction 1 as [|p ps Hp Hps [I1 I2]]; cbn [List.concat]; [split; [constructor|reflexivity]|]. destruct Hp as [P1 P2].
  split; [apply bytes_ok_app; auto|]. rewrite app_length. lia.
Qed.
Lemma digest_lens ps : Forall (digest 16) ps -> Forall (fun p => List.length p = 16%nat) ps.
Proof. apply Forall_impl. intros p [H _]. exact H. Qed.
Lemma xor_ks_app ks a b : forall pos, xor_ks ks pos (a ++ b) = xor_ks ks pos a ++ xor_ks ks (pos + lenN a) b.
Proof.
  induction a as [|x a IH]; intros pos; cbn [app xor_ks]; [rewrite lenN_nil, N.add_0_r; reflexivity|].
  rewrite IH, lenN_cons. do 3 f_equal. lia.
Qed.
Lemma xor_ks_inv ks d : forall pos, xor_ks ks pos (xor_ks ks pos d) = d.
Proof.
  induction d as [|x d IH]; intros pos; cbn [xor_ks]; [reflexivity|]. rewrite IH, N.lxor_assoc, N.lxor_nilpotent, N.lxor_0_r. reflexivity.
Qed.
Lemma xor_ks_len ks d : forall pos, List.length (xor_ks ks pos d) = List.length d.
Proof. induction d as [|x d IH]; intros pos; cbn [xor_ks List.length]; [reflexivity|]. now rewrite IH. Qed.
Lemma lxor_byte a b : a < 256 -> b < 256 -> N.lxor a b < 256.
Proof.
  intros Ha Hb. destruct (N.eq_dec (N.lxor a b) 0) as [->|Hz]; [lia|].
  change 256 with (2 ^ 8). apply N.log2_lt_pow2; [lia|]. eapply N.le_lt_trans; [apply N.log2_lxor|].
  apply N.max_lub_lt.
  - destruct (N.eq_dec a 0) as [->|]; [reflexivity|]. apply N.log2_lt_pow2; [lia|exact Ha].
  - destruct (N.eq_dec b 0) as [->|]; [reflexivity|]. apply N.log2_lt_pow2; [lia|exact Hb].
Qed.
Lemma xor_ks_ok ks d : (forall p, is_byte (ks p)) -> bytes_ok d -> forall pos, bytes_ok (xor_ks ks pos d).
Proof.
  intros Hk. induction 1 as [|x d Hx Hd IH]; intros pos; cbn [xor_ks]; constructor; [|apply IH].
  apply lxor_byte; [exact Hx|apply Hk].
Qed.

(** Decryption without the padding step. *)
Definition raw_decrypt (L : lib) (c : cipher) (mk iv d : bytes) : res bytes :=
  match c with
  | C_aes => aes_cbc_decrypt L mk iv d
  | C_chacha => let* _ := chacha_new mk iv in Ok (xor_ks (chacha_ks L mk iv) 0 d)
  | C_twofish => let* s := tf_cbc_new mk (Some iv) in Ok (fst (cbc_update Decrypt s d))
  end.
Definition unpad_for (c : cipher) (d : bytes) : bytes := match c with C_chacha => d | _ => try_unpad d end.
Definition pad_for (c : cipher) (d : bytes) : bytes := match c with C_chacha => d | _ => pkcs7_pad d end.
Lemma payload_decrypt_raw L c mk iv d : payload_decrypt L c mk iv d = let* p := raw_decrypt L c mk iv d in Ok (unpad_for c p).
Proof.
  destruct c; cbn [payload_decrypt raw_decrypt unpad_for].
  - reflexivity.
  - destruct (tf_cbc_new mk (Some iv)); reflexivity.
  - destruct (chacha_new mk iv); reflexivity.
Qed.
(** Which IV sizes a cipher accepts (for a 32-byte key). *)
Definition iv_fits (c : cipher) (iv : bytes) : Prop :=
  match c with C_chacha => (List.length iv = 8 \/ List.length iv = 12 \/ List.length iv = 24)%nat | _ => List.length iv = 16%nat end.
Lemma decrypt_iv L c mk iv d p : List.length mk = 32%nat -> payload_decrypt L c mk iv d = Ok p -> iv_fits c iv.
Proof.
  intros Hm. destruct c; cbn [payload_decrypt iv_fits].
  - intros H. apply bind_ok in H. destruct H as (x & H & _). unfold aes_cbc_decrypt in H. apply bind_ok in H. destruct H as (u & H & _).
    unfold aes_cbc_new in H. destruct (aes_key_ok mk && (List.length iv =? 16)%nat) eqn:E; [|discriminate]. lia.
  - intros H. apply bind_ok in H. destruct H as (s & H & _). apply cbc_new_inv in H. destruct H as (_ & H & _ & E). congruence.
  - intros H. apply bind_ok in H. destruct H as (u & H & _). unfold chacha_new in H.
    destruct (((List.length mk =? 32) && ((List.length iv =? 8) || (List.length iv =? 12) || (List.length iv =? 24)))%nat) eqn:E; [|discriminate]. lia.
Qed.
Lemma encrypt_spec L c mk iv d : lib_ok L -> digest 32 mk -> bytes_ok iv -> iv_fits c iv -> bytes_ok d ->
  exists ct, payload_encrypt L c mk iv d = Ok ct /\ bytes_ok ct /\ raw_decrypt L c mk iv ct = Ok (pad_for c d).
Proof.
  intros HL [Hm1 Hm2] Hiv Hf Hd. destruct c; cbn [payload_encrypt raw_decrypt pad_for iv_fits] in *.
  - unfold aes_cbc_encrypt, aes_cbc_decrypt, aes_cbc_new, aes_key_ok. rewrite Hm1, Hf, pad_mult. cbn [Nat.eqb orb andb bind].
    destruct (blocks16 _ (pkcs7_pad d) (Nat.le_refl _) (pad_ok d Hd) (pad_mult d)) as (ps & E & F). rewrite E.
    assert (F' : Forall (digest 16) ps) by (eapply Forall_impl; [|exact F]; intros; apply blk16_digest; assumption).
    rewrite blocks_of_concat by (apply digest_lens, F').
    destruct (aes_cbc_inv L mk iv ps HL (conj Hf Hiv) F') as [G1 G2].
    eexists. split; [reflexivity|]. destruct (concat_digest _ G1) as [C1 C2]. split; [exact C1|]. rewrite C2. cbn [Nat.eqb].
    rewrite blocks_of_concat by (apply digest_lens, G1). rewrite G2. reflexivity.
  - assert (Hk : key_ok mk) by (split; [exact Hm2|right; right; exact Hm1]).
    destruct (cbc_inverse mk iv (pkcs7_pad d) Hk (conj Hiv Hf) (pad_ok d Hd) (pad_mult d)) as (s & Es & El & Ed).
    rewrite Es. cbn [bind]. eexists. split; [reflexivity|]. split.
    + destruct (cbc_new_inv _ _ _ Es) as (Hc & _). apply (cbc_enc_length_gen s (pkcs7_pad d) Hc (pad_ok d Hd) (pad_mult d)).
    + rewrite Ed. reflexivity.
  - unfold chacha_new. rewrite Hm1. replace ((32 =? 32) && ((List.length iv =? 8) || (List.length iv =? 12) || (List.length iv =? 24)))%nat with true by lia.
    cbn [bind]. eexists. split; [reflexivity|]. split; [apply xor_ks_ok; [intros; apply (ok_chacha _ HL)|exact Hd]|].
    rewrite xor_ks_inv. reflexivity.
Qed.
Lemma unpad_pad_for c d : unpad_for c (pad_for c d) = d.
Proof. destruct c; cbn [unpad_for pad_for]; unfold try_unpad; rewrite ?unpad_pad; reflexivity. Qed.
Lemma decrypt_encrypt L c mk iv d ct : lib_ok L -> digest 32 mk -> bytes_ok iv -> iv_fits c iv -> bytes_ok d ->
  payload_encrypt L c mk iv d = Ok ct -> payload_decrypt L c mk iv ct = Ok d.
Proof.
  intros HL Hm Hi Hf Hd E. destruct (encrypt_spec L c mk iv d HL Hm Hi Hf Hd) as (ct' & E' & _ & R).
  assert (ct' = ct) by congruence. subst. rewrite payload_decrypt_raw, R. cbn [bind]. now rewrite unpad_pad_for.
Qed.
