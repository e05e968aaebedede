From Coq Require Import ZifyBool ZifyNat ZifyN.
From Verif Require Import Base Twofish Twofish_inv TwofishSpec Twofish_facts Cbc.
Ltac Zify.zify_post_hook ::= Z.div_mod_to_equations.

Definition blk16 (b : bytes) : Prop := bytes_ok b /\ List.length b = 16%nat.

Lemma strxor_length a b : List.length a = List.length b -> List.length (strxor a b) = List.length a.
Proof.
  revert b. induction a as [|x a IH]; intros [|y b]; cbn; intros H; try discriminate; auto.
Qed.
Lemma strxor_ok a b : bytes_ok a -> bytes_ok b -> bytes_ok (strxor a b).
Proof.
  intros Ha. revert b. induction Ha as [|x a Hx Ha IH]; intros b Hb; cbn; [constructor|].
  destruct Hb as [|y b Hy Hb]; constructor; [|apply IH, Hb]. apply (b8_lxor x y); assumption.
Qed.
Lemma strxor_cancel a b : List.length a = List.length b -> strxor b (strxor a b) = a.
Proof.
  revert b. induction a as [|x a IH]; intros [|y b]; cbn; intros H; try discriminate; [reflexivity|].
  f_equal; [|apply IH; lia]. rewrite (N.lxor_comm x y), <- N.lxor_assoc, N.lxor_nilpotent. apply N.lxor_0_l.
Qed.
Lemma strxor_blk a b : blk16 a -> blk16 b -> blk16 (strxor a b).
Proof. intros [A1 A2] [B1 B2]. split; [apply strxor_ok; assumption|rewrite strxor_length; congruence]. Qed.
Lemma enc_blk c l : blk16 (tf_encrypt_block c l).
Proof. apply bytes_of_block_ok. Qed.
Lemma dec_blk c l : blk16 (tf_decrypt_block c l).
Proof. apply bytes_of_block_ok. Qed.

(** Loops do not depend on the fuel once it is at least the length. *)
Lemma enc_loop_fuel f1 : forall f2 c iv d, (List.length d <= f1)%nat -> (List.length d <= f2)%nat ->
  cbc_enc_loop f1 c iv d = cbc_enc_loop f2 c iv d.
Proof.
  induction f1 as [|f1 IH]; intros f2 c iv d H1 H2.
  - destruct d; [|cbn in H1; lia]. destruct f2; reflexivity.
  - destruct f2; [destruct d; [reflexivity|cbn in H2; lia]|].
    cbn [cbc_enc_loop]. destruct (Nat.ltb_spec (List.length d) 16); [reflexivity|].
    rewrite (IH f2); [reflexivity| |]; rewrite skipn_length; lia.
Qed.
Lemma dec_loop_fuel f1 : forall f2 c iv d, (List.length d <= f1)%nat -> (List.length d <= f2)%nat ->
  cbc_dec_loop f1 c iv d = cbc_dec_loop f2 c iv d.
Proof.
  induction f1 as [|f1 IH]; intros f2 c iv d H1 H2.
  - destruct d; [|cbn in H1; lia]. destruct f2; reflexivity.
  - destruct f2; [destruct d; [reflexivity|cbn in H2; lia]|].
    cbn [cbc_dec_loop]. destruct (Nat.ltb_spec (List.length d) 16); [reflexivity|].
    rewrite (IH f2); [reflexivity| |]; rewrite skipn_length; lia.
Qed.
Definition enc_loop c iv d := cbc_enc_loop (List.length d) c iv d.
Definition dec_loop c iv d := cbc_dec_loop (List.length d) c iv d.
Lemma enc_loop_unfold c iv d : enc_loop c iv d =
  if (List.length d <? 16)%nat then ([], iv, d)
  else let iv' := tf_encrypt_block c (strxor (firstn 16 d) iv) in
       let '(out, iv'', rest) := enc_loop c iv' (skipn 16 d) in (iv' ++ out, iv'', rest).
Proof.
  unfold enc_loop. rewrite (enc_loop_fuel _ (S (List.length d))) by lia. cbn [cbc_enc_loop].
  destruct (Nat.ltb_spec (List.length d) 16); [reflexivity|].
  rewrite (enc_loop_fuel (List.length d) (List.length (skipn 16 d))) by (rewrite ?skipn_length; lia). reflexivity.
Qed.
Lemma dec_loop_unfold c iv d : dec_loop c iv d =
  if (List.length d <? 16)%nat then ([], iv, d)
  else let blk := firstn 16 d in
       let '(out, iv'', rest) := dec_loop c blk (skipn 16 d) in (strxor iv (tf_decrypt_block c blk) ++ out, iv'', rest).
Proof.
  unfold dec_loop. rewrite (dec_loop_fuel _ (S (List.length d))) by lia. cbn [cbc_dec_loop].
  destruct (Nat.ltb_spec (List.length d) 16); [reflexivity|].
  rewrite (dec_loop_fuel (List.length d) (List.length (skipn 16 d))) by (rewrite ?skipn_length; lia). reflexivity.
Qed.

Lemma enc_loop_app c y : forall n iv x, (List.length x <= n)%nat ->
  enc_loop c iv (x ++ y) =
  let '(o1, iv1, r1) := enc_loop c iv x in
  let '(o2, iv2, r2) := enc_loop c iv1 (r1 ++ y) in (o1 ++ o2, iv2, r2).
Proof.
  induction n as [|n IH]; intros iv x Hn.
  - destruct x; [|cbn in Hn; lia]. change (enc_loop c iv []) with ([]:bytes, iv, []:bytes). cbn [app]. destruct (enc_loop c iv y) as [[o2 iv2] r2]. reflexivity.
  - rewrite (enc_loop_unfold c iv x). destruct (Nat.ltb_spec (List.length x) 16).
    + destruct (enc_loop c iv (x ++ y)) as [[o2 iv2] r2]. reflexivity.
    + rewrite enc_loop_unfold, app_length. destruct (Nat.ltb_spec (List.length x + List.length y) 16); [lia|]. cbv zeta.
      rewrite firstn_app, skipn_app. replace (16 - List.length x)%nat with 0%nat by lia.
      rewrite firstn_O, skipn_O, app_nil_r.
      rewrite IH by (rewrite skipn_length; lia).
      destruct (enc_loop c _ (skipn 16 x)) as [[o1 iv1] r1].
      destruct (enc_loop c iv1 (r1 ++ y)) as [[o2 iv2] r2]. rewrite app_assoc. reflexivity.
Qed.
Lemma dec_loop_app c y : forall n iv x, (List.length x <= n)%nat ->
  dec_loop c iv (x ++ y) =
  let '(o1, iv1, r1) := dec_loop c iv x in
  let '(o2, iv2, r2) := dec_loop c iv1 (r1 ++ y) in (o1 ++ o2, iv2, r2).
Proof.
  induction n as [|n IH]; intros iv x Hn.
  - destruct x; [|cbn in Hn; lia]. change (dec_loop c iv []) with ([]:bytes, iv, []:bytes). cbn [app]. destruct (dec_loop c iv y) as [[o2 iv2] r2]. reflexivity.
  - rewrite (dec_loop_unfold c iv x). destruct (Nat.ltb_spec (List.length x) 16).
    + destruct (dec_loop c iv (x ++ y)) as [[o2 iv2] r2]. reflexivity.
    + rewrite dec_loop_unfold, app_length. destruct (Nat.ltb_spec (List.length x + List.length y) 16); [lia|]. cbv zeta.
      rewrite firstn_app, skipn_app. replace (16 - List.length x)%nat with 0%nat by lia.
      rewrite firstn_O, skipn_O, app_nil_r.
      rewrite IH by (rewrite skipn_length; lia).
      destruct (dec_loop c _ (skipn 16 x)) as [[o1 iv1] r1].
      destruct (dec_loop c iv1 (r1 ++ y)) as [[o2 iv2] r2]. rewrite app_assoc. reflexivity.
Qed.

Lemma update_app ed s a b :
  cbc_update ed s (a ++ b) =
  let '(o1, s1) := cbc_update ed s a in let '(o2, s2) := cbc_update ed s1 b in (o1 ++ o2, s2).
Proof.
  unfold cbc_update. rewrite app_assoc. destruct ed.
    fold (enc_loop (codebook s) (cbc_iv s) ((cbc_cache s ++ a) ++ b)).
    fold (enc_loop (codebook s) (cbc_iv s) (cbc_cache s ++ a)).
    rewrite (enc_loop_app _ _ (List.length (cbc_cache s ++ a))) by lia.
    destruct (enc_loop (codebook s) (cbc_iv s) (cbc_cache s ++ a)) as [[o1 iv1] r1]. cbn [codebook cbc_iv cbc_cache].
    fold (enc_loop (codebook s) iv1 (r1 ++ b)). destruct (enc_loop (codebook s) iv1 (r1 ++ b)) as [[o2 iv2] r2]. reflexivity.
  - fold (dec_loop (codebook s) (cbc_iv s) ((cbc_cache s ++ a) ++ b)).
    fold (dec_loop (codebook s) (cbc_iv s) (cbc_cache s ++ a)).
    rewrite (dec_loop_app _ _ (List.length (cbc_cache s ++ a))) by lia.
    destruct (dec_loop (codebook s) (cbc_iv s) (cbc_cache s ++ a)) as [[o1 iv1] r1]. cbn [codebook cbc_iv cbc_cache].
    fold (dec_loop (codebook s) iv1 (r1 ++ b)). destruct (dec_loop (codebook s) iv1 (r1 ++ b)) as [[o2 iv2] r2]. reflexivity.
Qed.

Lemma enc_loop_rest c : forall n iv x, (List.length x <= n)%nat ->
  (List.length (snd (enc_loop c iv x)) < 16)%nat.
Proof.
  induction n as [|n IH]; intros iv x Hn; rewrite enc_loop_unfold; destruct (Nat.ltb_spec (List.length x) 16); cbn [snd]; try lia.
  cbv zeta. specialize (IH (tf_encrypt_block c (strxor (firstn 16 x) iv)) (skipn 16 x) ltac:(rewrite skipn_length; lia)).
  destruct (enc_loop _ _ _) as [[? ?] ?]. exact IH.
Qed.
Lemma dec_loop_rest c : forall n iv x, (List.length x <= n)%nat ->
  (List.length (snd (dec_loop c iv x)) < 16)%nat.
Proof.
  induction n as [|n IH]; intros iv x Hn; rewrite dec_loop_unfold; destruct (Nat.ltb_spec (List.length x) 16); cbn [snd]; try lia.
  cbv zeta. specialize (IH (firstn 16 x) (skipn 16 x) ltac:(rewrite skipn_length; lia)).
  destruct (dec_loop _ _ _) as [[? ?] ?]. exact IH.
Qed.
Definition cache_ok (s : cbc) : Prop := (List.length (cbc_cache s) < 16)%nat.
Lemma update_cache ed s d : cache_ok (snd (cbc_update ed s d)).
Proof.
  unfold cbc_update, cache_ok. destruct ed.
  - pose proof (enc_loop_rest (codebook s) _ (cbc_iv s) (cbc_cache s ++ d) (Nat.le_refl _)) as R.
    fold (enc_loop (codebook s) (cbc_iv s) (cbc_cache s ++ d)). destruct (enc_loop _ _ _) as [[? ?] ?]. exact R.
  - pose proof (dec_loop_rest (codebook s) _ (cbc_iv s) (cbc_cache s ++ d) (Nat.le_refl _)) as R.
    fold (dec_loop (codebook s) (cbc_iv s) (cbc_cache s ++ d)). destruct (dec_loop _ _ _) as [[? ?] ?]. exact R.
Qed.
Lemma update_nil ed s : cache_ok s -> cbc_update ed s [] = ([], s).
Proof.
  intros H. unfold cbc_update. rewrite app_nil_r. destruct ed.
  - fold (enc_loop (codebook s) (cbc_iv s) (cbc_cache s)). rewrite enc_loop_unfold. unfold cache_ok in H.
    destruct (Nat.ltb_spec (List.length (cbc_cache s)) 16); [|lia]. destruct s; reflexivity.
  - fold (dec_loop (codebook s) (cbc_iv s) (cbc_cache s)). rewrite dec_loop_unfold. unfold cache_ok in H.
    destruct (Nat.ltb_spec (List.length (cbc_cache s)) 16); [|lia]. destruct s; reflexivity.
Qed.
Lemma feed_concat ed chunks : forall s, cache_ok s -> cbc_feed ed s chunks = cbc_update ed s (List.concat chunks).
Proof.
  induction chunks as [|d ds IH]; intros s Hs; cbn [cbc_feed List.concat].
  - symmetry. apply update_nil, Hs.
  - rewrite update_app. pose proof (update_cache ed s d) as Hc. destruct (cbc_update ed s d) as [o s']. cbn [snd] in Hc.
    rewrite (IH s' Hc). reflexivity.
Qed.

(** The textbook CBC on a list of blocks. *)
Fixpoint cbc_blocks (E : bytes -> bytes) (iv : bytes) (ps : list bytes) : list bytes :=
  match ps with [] => [] | p :: ps' => let ci := E (strxor p iv) in ci :: cbc_blocks E ci ps' end.

Lemma enc_loop_blocks c ps : forall iv, Forall (fun p => List.length p = 16%nat) ps ->
  exists iv', enc_loop c iv (List.concat ps) = (List.concat (cbc_blocks (tf_encrypt_block c) iv ps), iv', []).
Proof.
  induction ps as [|p ps IH]; intros iv H; [eexists; reflexivity|].
  inversion H as [|? ? Hp Hps]; subst. cbn [List.concat]. rewrite enc_loop_unfold, app_length.
  destruct (Nat.ltb_spec (List.length p + List.length (List.concat ps)) 16); [lia|]. cbv zeta.
  rewrite firstn_app, skipn_app, Hp. change (16 - 16)%nat with 0%nat. rewrite firstn_O, skipn_O, app_nil_r.
  rewrite (firstn_all2 p), (skipn_all2 p) by lia. cbn [app].
  destruct (IH (tf_encrypt_block c (strxor p iv)) Hps) as [iv' ->]. exists iv'.
  cbn [cbc_blocks List.concat]. cbv zeta. reflexivity.
Qed.
Lemma dec_loop_blocks c ps : forall iv, ctx_ok c -> blk16 iv -> Forall blk16 ps ->
  exists iv', dec_loop c iv (List.concat (cbc_blocks (tf_encrypt_block c) iv ps)) = (List.concat ps, iv', []).
Proof.
  induction ps as [|p ps IH]; intros iv Hc Hiv H; [eexists; reflexivity|].
  inversion H as [|? ? Hp Hps]; subst. cbn [cbc_blocks List.concat].
  set (ci := tf_encrypt_block c (strxor p iv)). pose proof (enc_blk c (strxor p iv)) as Hci. fold ci in Hci.
  destruct (IH ci Hc Hci Hps) as [iv' E].
  rewrite dec_loop_unfold, app_length. destruct Hci as [Hci1 Hci2].
  destruct (Nat.ltb_spec (List.length ci + List.length (List.concat (cbc_blocks (tf_encrypt_block c) ci ps))) 16); [lia|]. cbv zeta.
  rewrite firstn_app, skipn_app, Hci2. change (16 - 16)%nat with 0%nat. rewrite firstn_O, skipn_O, app_nil_r.
  rewrite (firstn_all2 ci), (skipn_all2 ci) by lia. cbn [app]. rewrite E. eexists.
  unfold ci. destruct Hp as [Hp1 Hp2], Hiv as [Hi1 Hi2].
  rewrite tf_block_dec_enc; [|exact Hc|apply strxor_ok; assumption|rewrite strxor_length; congruence].
  rewrite strxor_cancel by congruence. reflexivity.
Qed.

(** Cutting a byte string into 16-byte blocks. *)
Lemma blocks16 : forall n d, (List.length d <= n)%nat -> bytes_ok d -> (List.length d mod 16 = 0)%nat ->
  exists ps, d = List.concat ps /\ Forall blk16 ps.
Proof.
  induction n as [|n IH]; intros d Hn Hb Hm.
  - destruct d; [|cbn in Hn; lia]. exists []. split; [reflexivity|constructor].
  - destruct d as [|x d']; [exists []; split; [reflexivity|constructor]|]. set (d := x :: d') in *.
    assert (16 <= List.length d)%nat.
    { assert (List.length d <> 0)%nat by (cbn; lia). lia. }
    destruct (IH (skipn 16 d)) as (ps & E & F).
    + rewrite skipn_length. lia.
    + rewrite <- (firstn_skipn 16 d) in Hb. apply bytes_ok_app in Hb. tauto.
    + rewrite skipn_length. lia.
    + exists (firstn 16 d :: ps). split.
      * cbn [List.concat]. rewrite <- E. symmetry. apply firstn_skipn.
      * constructor; [|assumption]. split; [|rewrite firstn_length; lia].
        rewrite <- (firstn_skipn 16 d) in Hb. apply bytes_ok_app in Hb. tauto.
Qed.
Lemma cbc_new_inv key iv s : tf_cbc_new key iv = Ok s ->
  cbc_cache s = [] /\ List.length (cbc_iv s) = 16%nat /\ tf_new key = Ok (codebook s) /\
  cbc_iv s = match iv with Some v => v | None => repeat 0 16 end.
Proof.
  unfold tf_cbc_new. destruct (_ || _); [|discriminate]. cbv zeta. intros E. apply bind_ok in E. destruct E as (c & Ec & E).
  destruct iv as [v|].
  - destruct (Nat.eqb_spec (List.length v) 16) as [Hl|]; [|discriminate]. injection E as <-. cbn. auto.
  - cbn [repeat List.length Nat.eqb] in E. injection E as <-. cbn. auto.
Qed.

Lemma cbc_dec_enc s s' d : ctx_ok (codebook s) -> blk16 (cbc_iv s) -> cbc_cache s = [] -> s' = s ->
  bytes_ok d -> (List.length d mod 16 = 0)%nat ->
  fst (cbc_update Decrypt s' (fst (cbc_update Encrypt s d))) = d.
Proof.
  intros Hc Hiv Hs -> Hb Hm. destruct (blocks16 _ d (Nat.le_refl _) Hb Hm) as (ps & -> & F).
  unfold cbc_update. rewrite Hs. cbn [app].
  fold (enc_loop (codebook s) (cbc_iv s) (List.concat ps)).
  destruct (enc_loop_blocks (codebook s) ps (cbc_iv s)) as [iv0 ->]; [eapply Forall_impl; [|exact F]; intros a Ha; apply Ha|]. cbn [fst].
  destruct (dec_loop_blocks (codebook s) ps (cbc_iv s) Hc Hiv F) as [iv' E].
  unfold dec_loop in E. rewrite E. reflexivity.
Qed.
Lemma cbc_enc_length_gen s d : cbc_cache s = [] -> bytes_ok d -> (List.length d mod 16 = 0)%nat ->
  List.length (fst (cbc_update Encrypt s d)) = List.length d /\ bytes_ok (fst (cbc_update Encrypt s d)).
Proof.
  intros Hs Hb Hm. destruct (blocks16 _ d (Nat.le_refl _) Hb Hm) as (ps & -> & F).
  unfold cbc_update. rewrite Hs. cbn [app].
  fold (enc_loop (codebook s) (cbc_iv s) (List.concat ps)).
  destruct (enc_loop_blocks (codebook s) ps (cbc_iv s)) as [iv0 ->]; [eapply Forall_impl; [|exact F]; intros a Ha; apply Ha|]. cbn [fst].
  generalize (cbc_iv s). induction F as [|p ps Hp F IH]; intros iv; [split; [reflexivity|constructor]|].
  cbn [List.concat] in Hb, Hm. apply bytes_ok_app in Hb.
  cbn [cbc_blocks List.concat]. rewrite !app_length. destruct (enc_blk (codebook s) (strxor p iv)) as [B L].
  destruct Hp as [_ Hp]. rewrite app_length in Hm. destruct (IH ltac:(lia) (proj2 Hb) (tf_encrypt_block (codebook s) (strxor p iv))) as [I1 I2].
  split; [lia|apply bytes_ok_app; auto].
Qed.

(** Padding *)
Lemma last_app_repeat (l : bytes) k x : (0 < k)%nat -> last (l ++ repeat x k) 0 = x.
Proof.
  intros Hk. destruct k; [lia|]. replace (repeat x (S k)) with (repeat x k ++ [x]).
  - rewrite app_assoc. apply last_last.
  - replace (S k) with (k + 1)%nat by lia. rewrite repeat_app. reflexivity.
Qed.
Lemma pad_length d : exists k, (1 <= k <= 16)%nat /\ pkcs7_pad d = d ++ repeat (N.of_nat k) k /\
  ((List.length d + k) mod 16 = 0)%nat.
Proof.
  exists (16 - List.length d mod 16)%nat. split; [lia|]. split; [reflexivity|]. lia.
Qed.
Lemma unpad_pad d : pkcs7_unpad (pkcs7_pad d) = Ok d.
Proof.
  destruct (pad_length d) as (k & Hk & -> & Hm). unfold pkcs7_unpad.
  rewrite app_length, repeat_length, last_app_repeat by lia.
  destruct (Nat.eqb_spec (List.length d + k) 0); [lia|].
  destruct (Nat.eqb_spec ((List.length d + k) mod 16) 0); [|lia]. cbn [negb].
  destruct (N.ltb_spec (N.of_nat k) 1); [lia|].
  destruct (N.ltb_spec (N.of_nat (Nat.min 16 (List.length d + k))) (N.of_nat k)); [lia|]. cbn [orb].
  rewrite Nat2N.id. replace (List.length d + k - k)%nat with (List.length d) by lia.
  rewrite skipn_app, skipn_all, Nat.sub_diag, skipn_O. cbn [app]. rewrite str_eqb_refl. cbn [negb].
  rewrite firstn_app, firstn_all, Nat.sub_diag, firstn_O, app_nil_r. reflexivity.
Qed.
Lemma unpad_inv d p : pkcs7_unpad d = Ok p -> d = pkcs7_pad p.
Proof.
  unfold pkcs7_unpad. destruct (Nat.eqb_spec (List.length d) 0); [discriminate|].
  destruct (Nat.eqb_spec (List.length d mod 16) 0) as [Hm|]; [|discriminate]. cbn [negb].
  destruct (N.ltb_spec (last d 0) 1); [discriminate|].
  destruct (N.ltb_spec (N.of_nat (Nat.min 16 (List.length d))) (last d 0)); [discriminate|]. cbn [orb].
  destruct (str_eqb_spec (skipn (List.length d - N.to_nat (last d 0)) d) (repeat (last d 0) (N.to_nat (last d 0)))) as [E|]; [|discriminate].
  cbn [negb]. intros [= <-]. set (k := N.to_nat (last d 0)) in *.
  unfold pkcs7_pad. rewrite firstn_length.
  replace (16 - Nat.min (List.length d - k) (List.length d) mod 16)%nat with k by lia.
  replace (N.of_nat k) with (last d 0) by lia. rewrite <- E. symmetry. apply firstn_skipn.
Qed.

(** Against the specification. *)
Lemma strxor_spec a b : strxor a b = xor_bytes a b.
Proof. revert b. induction a as [|x a IH]; intros [|y b]; cbn; try reflexivity. f_equal. apply IH. Qed.
Definition key_ok (key : bytes) : Prop :=
  bytes_ok key /\ (List.length key = 16 \/ List.length key = 24 \/ List.length key = 32)%nat.
Lemma cbc_new_ok key iv : key_ok key -> blk16 iv ->
  exists s, tf_cbc_new key (Some iv) = Ok s /\ ctx_ok (codebook s) /\ cbc_iv s = iv /\ cbc_cache s = [] /\
    (forall blk, blk16 blk -> tf_encrypt_block (codebook s) blk = twofish key blk).
Proof.
  intros [Hb Hl] [Hi Hil].
  assert (E : exists c, tf_new key = Ok c) by (unfold tf_new; destruct Hl as [->|[->| ->]]; eexists; reflexivity).
  destruct E as [c Ec]. exists (MkCbc c iv []). split.
  - unfold tf_cbc_new. rewrite Ec, Hil. destruct Hl as [->|[->| ->]]; reflexivity.
  - split; [exact (tf_new_ok key c Ec)|]. split; [reflexivity|]. split; [reflexivity|].
    intros blk [B1 B2]. destruct (pytwofish_encrypt key blk Hb B1 B2 Hl) as (c' & Ec' & E).
    cbn [codebook]. replace c with c' by congruence. exact E.
Qed.
Lemma cbc_inverse key iv d : key_ok key -> blk16 iv -> bytes_ok d -> (List.length d mod 16 = 0)%nat ->
  exists s, tf_cbc_new key (Some iv) = Ok s /\
    List.length (fst (cbc_update Encrypt s d)) = List.length d /\
    fst (cbc_update Decrypt s (fst (cbc_update Encrypt s d))) = d.
Proof.
  intros Hk Hi Hd Hm. destruct (cbc_new_ok key iv Hk Hi) as (s & E & Hc & Hiv & Hs & _).
  exists s. split; [exact E|]. split; [apply cbc_enc_length_gen; assumption|].
  apply cbc_dec_enc; try assumption; [|reflexivity]. rewrite Hiv. exact Hi.
Qed.
Lemma cbc_is_twofish_cbc key iv ps : key_ok key -> blk16 iv -> Forall blk16 ps ->
  exists s, tf_cbc_new key (Some iv) = Ok s /\
    fst (cbc_update Encrypt s (List.concat ps)) = List.concat (twofish_cbc key iv ps).
Proof.
  intros Hk Hi F. destruct (cbc_new_ok key iv Hk Hi) as (s & E & Hc & Hiv & Hs & Hblk).
  exists s. split; [exact E|]. unfold cbc_update. rewrite Hs. cbn [app].
  fold (enc_loop (codebook s) (cbc_iv s) (List.concat ps)).
  destruct (enc_loop_blocks (codebook s) ps (cbc_iv s)) as [iv0 ->]; [eapply Forall_impl; [|exact F]; intros a Ha; apply Ha|].
  cbn [fst]. rewrite Hiv. clear Hiv Hs E. f_equal. revert iv Hi. induction F as [|p ps Hp F IH]; intros iv Hi; [reflexivity|].
  cbn [cbc_blocks twofish_cbc]. cbv zeta. rewrite <- (strxor_spec p iv).
  rewrite (Hblk (strxor p iv)) by (apply strxor_blk; assumption). f_equal. apply IH.
  rewrite <- Hblk by (apply strxor_blk; assumption). apply enc_blk.
Qed.
Lemma cbc_chunks key iv s ed chunks : tf_cbc_new key iv = Ok s ->
  cbc_feed ed s chunks = cbc_update ed s (List.concat chunks).
Proof.
  intros E. apply cbc_new_inv in E. apply feed_concat. unfold cache_ok. destruct E as [-> _]. cbn. lia.
Qed.
Lemma cbc_bad_params key iv : ~ (List.length key = 16 \/ List.length key = 24 \/ List.length key = 32)%nat \/
  List.length iv <> 16%nat -> exists e, tf_cbc_new key (Some iv) = Err e.
Proof.
  intros H. unfold tf_cbc_new.
  destruct ((_ =? 16)%nat || _ || _) eqn:K; [|eexists; reflexivity].
  destruct (tf_new key) as [c|e]; [|eexists; reflexivity]. cbn [bind].
  destruct (Nat.eqb_spec (List.length iv) 16); [|eexists; reflexivity].
  exfalso. lia.
Qed.
Lemma Ok_inj {A} (a b : A) : Ok a = Ok b -> a = b.
Proof. congruence. Qed.
Lemma twofish_decrypts key blk : key_ok key -> blk16 blk ->
  exists c, tf_new key = Ok c /\ twofish key (tf_decrypt_block c blk) = blk /\
    forall p, blk16 p -> twofish key p = blk -> tf_decrypt_block c blk = p.
Proof.
  intros [Hb Hl] [B1 B2].
  assert (E : exists c, tf_new key = Ok c) by (unfold tf_new; destruct Hl as [->|[->| ->]]; eexists; reflexivity).
  destruct E as [c Ec]. pose proof (tf_new_ok _ _ Ec) as Hc.
  assert (P : forall p, blk16 p -> tf_encrypt_block c p = twofish key p).
  { intros p [P1 P2]. destruct (pytwofish_encrypt key p Hb P1 P2 Hl) as (c' & Ec' & E').
    rewrite Ec in Ec'. apply Ok_inj in Ec'. rewrite Ec'. exact E'. }
  exists c. split; [exact Ec|]. split.
  - rewrite <- P by apply dec_blk. apply tf_block_enc_dec; assumption.
  - intros p Hp Ep. rewrite <- P in Ep by exact Hp. rewrite <- Ep. destruct Hp. apply tf_block_dec_enc; assumption.
Qed.
