(** Decrypted data is a byte string; the KDBX4 inner header survives building and parsing. *)
From Coq Require Import ZifyBool ZifyNat ZifyN.
From Verif Require Import Base Base64 PyStr Utf8 Xml Cbc Cbc_facts Lib Keyfile Construct Kdbx Kdbx_facts.
Ltac Zify.zify_post_hook ::= Z.div_mod_to_equations.

(** *** bytes_ok of what decryption gives *)
Lemma cbc_d_ok D : (forall b, digest 16 b -> digest 16 (D b)) -> forall bs iv, bytes_ok iv -> Forall (digest 16) bs ->
  Forall bytes_ok (cbc_d D iv bs).
Proof.
  intros HD. induction bs as [|c bs IH]; intros iv Hi F; cbn [cbc_d]; [constructor|].
  inversion F as [|? ? Hc Hbs]; subst. constructor; [apply strxor_ok; [apply HD, Hc|exact Hi]|]. apply IH; [apply Hc|exact Hbs].
Qed.
Lemma dec_loop_ok c : forall n iv d, (List.length d <= n)%nat -> bytes_ok iv -> bytes_ok d -> bytes_ok (fst (fst (dec_loop c iv d))).
Proof.
  induction n as [|n IH]; intros iv d Hn Hi Hd; rewrite dec_loop_unfold; destruct (Nat.ltb_spec (List.length d) 16); cbn [fst]; try (constructor; fail); [lia|].
  cbv zeta. specialize (IH (firstn 16 d) (skipn 16 d) ltac:(rewrite skipn_length; lia)).
  rewrite <- (firstn_skipn 16 d) in Hd. apply bytes_ok_app in Hd. destruct Hd as [H1 H2]. specialize (IH H1 H2).
  destruct (dec_loop c (firstn 16 d) (skipn 16 d)) as [[o iv''] rest]. cbn [fst] in *. apply bytes_ok_app. split; [|exact IH].
  apply strxor_ok; [exact Hi|]. apply dec_blk.
Qed.
Lemma concat_ok l : Forall bytes_ok l -> bytes_ok (List.concat l).
Proof. induction 1; cbn [List.concat]; [constructor|]. apply bytes_ok_app. auto. Qed.
Lemma raw_decrypt_ok L c mk iv d p : lib_ok L -> bytes_ok iv -> bytes_ok d -> raw_decrypt L c mk iv d = Ok p -> bytes_ok p.
Proof.
  intros HL Hi Hd. destruct c; cbn [raw_decrypt].
  - unfold aes_cbc_decrypt. intros H. apply bind_ok in H. destruct H as (u & Hn & H).
    destruct (Nat.eqb_spec (List.length d mod 16) 0) as [Hm|]; [|discriminate]. injection H as <-.
    destruct (blocks16 _ d (Nat.le_refl _) Hd Hm) as (ps & -> & F).
    assert (F' : Forall (digest 16) ps) by (eapply Forall_impl; [|exact F]; intros b; apply blk16_digest).
    rewrite blocks_of_concat by (apply digest_lens, F'). apply concat_ok, cbc_d_ok; [apply (ok_aesd _ HL)|exact Hi|exact F'].
  - intros H. apply bind_ok in H. destruct H as (s & Hs & H). apply cbc_new_inv in Hs. destruct Hs as (Hc & Hl & _ & Hiv).
    injection H as <-. unfold cbc_update. rewrite Hc. cbn [app]. fold (dec_loop (codebook s) (cbc_iv s) d).
    pose proof (dec_loop_ok (codebook s) _ (cbc_iv s) d (Nat.le_refl _)) as G. rewrite Hiv in *. specialize (G Hi Hd).
    destruct (dec_loop _ _ _) as [[o iv'] r]. exact G.
  - intros H. apply bind_ok in H. destruct H as (s & Hs & H). injection H as <-. apply xor_ks_ok; [apply (ok_chacha _ HL)|exact Hd].
Qed.
Lemma unpad_for_ok c p : bytes_ok p -> bytes_ok (unpad_for c p).
Proof.
  intros H. assert (G : bytes_ok (try_unpad p)).
  { unfold try_unpad. destruct (pkcs7_unpad p) as [q|e] eqn:E; [|exact H]. apply unpad_inv in E. subst p.
    unfold pkcs7_pad in H. apply bytes_ok_app in H. apply H. }
  destruct c; cbn [unpad_for]; assumption.
Qed.
Lemma payload_decrypt_ok L c mk iv d p : lib_ok L -> bytes_ok iv -> bytes_ok d -> payload_decrypt L c mk iv d = Ok p -> bytes_ok p.
Proof.
  intros HL Hi Hd. rewrite payload_decrypt_raw. intros H. apply bind_ok in H. destruct H as (q & H & E). injection E as <-.
  apply unpad_for_ok. exact (raw_decrypt_ok _ _ _ _ _ _ HL Hi Hd H).
Qed.
Lemma decompress_ok L comp d x : lib_ok L -> bytes_ok d -> decompress L comp d = Ok x -> bytes_ok x.
Proof. intros HL Hd. unfold decompress. destruct comp; [apply (ok_gunzip _ HL)|]. intros [= <-]. exact Hd. Qed.
Lemma compress_ok L comp d : lib_ok L -> bytes_ok d -> bytes_ok (compress L comp d) /\ decompress L comp (compress L comp d) = Ok d.
Proof. intros HL Hd. unfold compress, decompress. destruct comp; [apply (ok_gzip _ HL), Hd|auto]. Qed.

(** *** Repetition: an invariant of items *)
Lemma until_forall {A} (item : N -> parser A) stop (P : A -> Prop) : (forall i, local (item i)) ->
  (forall i d a r, bytes_ok d -> item i d = Ok (a, r) -> P a) ->
  forall f i d l r, bytes_ok d -> p_until item stop f i d = Ok (l, r) -> Forall P l.
Proof.
  intros Hl Hp. induction f as [|f IH]; intros i d l r Hd H; [discriminate|]. cbn [p_until] in H.
  apply bind_ok in H. destruct H as ([a r1] & H1 & H). pose proof (Hp _ _ _ _ Hd H1) as Pa.
  destruct (Hl i _ _ _ H1) as (c & -> & _). apply bytes_ok_app in Hd. destruct Hd as [_ Hd].
  destruct (stop a).
  - injection H as <- <-. constructor; [exact Pa|constructor].
  - apply bind_ok in H. destruct H as ([l' r2] & H2 & H). injection H as <- <-. constructor; [exact Pa|]. eapply IH; eassumption.
Qed.
Lemma local_ok {A} (p : parser A) d a r : local p -> bytes_ok d -> p d = Ok (a, r) -> bytes_ok r.
Proof. intros Hl Hd H. destruct (Hl _ _ _ H) as (c & -> & _). apply bytes_ok_app in Hd. apply Hd. Qed.
Lemma p_bytes_inv n d a r : p_bytes n d = Ok (a, r) -> d = a ++ r /\ lenN a = n.
Proof.
  unfold p_bytes. destruct (splitN n d) as [[x y]|] eqn:E; [|discriminate]. intros [= <- <-]. apply splitN_Some, E.
Qed.
Lemma p_int_inv k d n r : bytes_ok d -> p_int k d = Ok (n, r) -> d = le_enc k n ++ r /\ n < 256 ^ N.of_nat k.
Proof.
  intros Hd H. unfold p_int in H. apply bind_ok in H. destruct H as ([b r1] & H1 & H). injection H as <- <-.
  apply p_bytes_inv in H1. destruct H1 as [-> Hn]. apply bytes_ok_app in Hd. destruct Hd as [Hb _]. split.
  - f_equal. replace k with (List.length b) by (unfold lenN in Hn; lia). symmetry. apply le_enc_dec, Hb.
  - rewrite <- Hn. apply le_dec_bound, Hb.
Qed.
Lemma p_prefixed_inv {A} k (sub : bytes -> res A) d a r : bytes_ok d -> p_prefixed k sub d = Ok (a, r) ->
  exists b, sub b = Ok a /\ bytes_ok b /\ lenN b < 256 ^ N.of_nat k /\ d = le_enc k (lenN b) ++ b ++ r.
Proof.
  intros Hd H. unfold p_prefixed in H. apply bind_ok in H. destruct H as ([n r1] & H1 & H).
  apply p_int_inv in H1; [|exact Hd]. destruct H1 as [-> Hn]. apply bytes_ok_app in Hd. destruct Hd as [_ Hd].
  apply bind_ok in H. destruct H as ([b r2] & H2 & H). apply p_bytes_inv in H2. destruct H2 as [-> Hb].
  apply bind_ok in H. destruct H as (x & Hx & H). injection H as <- <-. exists b. apply bytes_ok_app in Hd. subst n. tauto.
Qed.

(** *** Ordered dictionaries *)
Section Dict.
  Context {K V : Type} (eqb : K -> K -> bool).
  Hypothesis Heq : forall a b, eqb a b = true <-> a = b.
  Lemma d_put_keys k (v : V) l : map fst (d_put eqb k v l) = map fst l /\ In k (map fst l) \/ map fst (d_put eqb k v l) = map fst l ++ [k] /\ ~ In k (map fst l).
  Proof.
    induction l as [|[k' v'] l IH]; cbn [d_put map fst app]; [right; auto|].
    destruct (eqb k' k) eqn:E.
    - apply Heq in E. subst. left. cbn. auto.
    - assert (k' <> k) by (intros ->; rewrite (proj2 (Heq k k) eq_refl) in E; discriminate).
      cbn [map fst]. destruct IH as [[IH1 IH2]|[IH1 IH2]]; [left|right]; rewrite IH1; split; try reflexivity; cbn; tauto.
  Qed.
  Lemma d_put_new k (v : V) l : ~ In k (map fst l) -> d_put eqb k v l = l ++ [(k, v)].
  Proof.
    induction l as [|[k' v'] l IH]; cbn [d_put map fst app]; [reflexivity|]. intros H.
    destruct (eqb k' k) eqn:E; [apply Heq in E; subst; exfalso; apply H; left; reflexivity|].
    rewrite IH; [reflexivity|]. intros Hi. apply H. right. exact Hi.
  Qed.
  Lemma d_put_in k (v : V) l x : In x (d_put eqb k v l) -> x = (k, v) \/ In x l.
  Proof.
    induction l as [|[k' v'] l IH]; cbn [d_put]; [intros [<-|[]]; auto|].
    destruct (eqb k' k) eqn:E; cbn [In]; intros [<-|H]; auto.
    - apply Heq in E. subst. auto.
    - apply IH in H. tauto.
  Qed.
  Lemma d_fold_nodup (l : list (K * V)) : forall d, NoDup (map fst d ++ map fst l) -> fold_left (fun d kv => d_put eqb (fst kv) (snd kv) d) l d = d ++ l.
  Proof.
    induction l as [|[k v] l IH]; intros d H; cbn [fold_left]; [rewrite app_nil_r; reflexivity|].
    cbn [map fst snd] in *. rewrite d_put_new.
    - rewrite IH; rewrite <- ?app_assoc; [reflexivity|]. rewrite map_app, <- app_assoc. exact H.
    - apply NoDup_remove_2 in H. intros Hi. apply H, in_or_app. auto.
  Qed.
  Lemma d_of_list_nodup (l : list (K * V)) : NoDup (map fst l) -> d_of_list eqb l = l.
  Proof. intros H. unfold d_of_list. rewrite d_fold_nodup; [reflexivity|exact H]. Qed.
  Lemma d_fold_in (l : list (K * V)) : forall d x, In x (fold_left (fun d kv => d_put eqb (fst kv) (snd kv) d) l d) -> In x d \/ In x l.
  Proof.
    induction l as [|[k v] l IH]; intros d x H; cbn [fold_left] in H; [auto|]. apply IH in H. cbn [fst snd In] in *.
    destruct H as [H|H]; [|auto]. apply d_put_in in H. destruct H as [->|H]; auto.
  Qed.
  Lemma d_of_list_in (l : list (K * V)) x : In x (d_of_list eqb l) -> In x l.
  Proof. intros H. apply d_fold_in in H. destruct H as [[]|H]; exact H. Qed.
  Lemma d_put_nodup k (v : V) l : NoDup (map fst l) -> NoDup (map fst (d_put eqb k v l)).
  Proof.
    intros H. destruct (d_put_keys k v l) as [[-> _]|[-> Hn]]; [exact H|].
    apply NoDup_rev in H. rewrite <- (rev_involutive (map fst l ++ [k])), rev_app_distr. apply NoDup_rev. cbn. constructor; [|exact H].
    rewrite <- in_rev. exact Hn.
  Qed.
  Lemma d_of_list_keys (l : list (K * V)) : NoDup (map fst (d_of_list eqb l)).
  Proof.
    unfold d_of_list. assert (G : forall d, NoDup (map fst d) -> NoDup (map fst (fold_left (fun d kv => d_put eqb (fst kv) (snd kv) d) l d))).
    { induction l as [|[k v] l IH]; intros d H; cbn [fold_left]; [exact H|]. apply IH, d_put_nodup, H. }
    apply G. constructor.
  Qed.
  Lemma d_of_list_snoc (l : list (K * V)) k v : ~ In k (map fst l) -> d_of_list eqb (l ++ [(k, v)]) = d_of_list eqb l ++ [(k, v)].
  Proof.
    intros H. unfold d_of_list. rewrite fold_left_app. cbn [fold_left fst snd]. apply d_put_new.
    intros Hi. apply in_map_iff in Hi. destruct Hi as ([k' v'] & E & Hi). cbn in E. subst k'. apply d_of_list_in in Hi.
    apply H, in_map_iff. exists (k, v'). auto.
  Qed.
  Lemma d_get_in k (l : list (K * V)) v : d_get eqb k l = Some v -> In (k, v) l.
  Proof.
    induction l as [|[k' v'] l IH]; cbn [d_get]; [discriminate|]. destruct (eqb k' k) eqn:E.
    - intros [= <-]. apply Heq in E. subst. left. reflexivity.
    - intros H. right. auto.
  Qed.
End Dict.
Lemma iid_eqb_eq a b : iid_eqb a b = true <-> a = b.
Proof. destruct a, b; unfold iid_eqb; cbn; split; congruence. Qed.
Lemma hid_eqb_eq a b : hid_eqb a b = true <-> a = b.
Proof. destruct a, b; unfold hid_eqb; cbn; split; congruence. Qed.

(** *** Inner header *)
Definition small (b : bytes) : Prop := bytes_ok b /\ lenN b < 2 ^ 32.
Definition iv_ok (it : iid * ival) : Prop :=
  match it with (I_psid, IV_stream _) => True | (I_psid, _) => False | (_, IV_bytes b) => small b | _ => False end.
Definition ih_ok (ih : inner) : Prop :=
  Forall small (ih_bins ih) /\ Forall iv_ok (ih_items ih) /\ NoDup (map fst (ih_items ih)) /\
  ~ In I_binary (map fst (ih_items ih)) /\ exists l v, ih_items ih = l ++ [(I_end, IV_bytes v)].
Lemma local_i_item i : local (i_item i).
Proof.
  apply (local_bind (p_int 1) (fun n d => let* i := iid_of n in let* (v, r) := p_prefixed 4 (i_value i) d in Ok (i, v, r))).
  - apply local_int.
  - intros n. destruct (iid_of n) as [h|e]; cbn [bind]; [|apply local_err].
    apply (local_bind (p_prefixed 4 (i_value h)) (fun v r => Ok (h, v, r))); [apply local_prefixed|]. intros; apply local_ret.
Qed.
Lemma eats_i_item i : eats (i_item i).
Proof.
  apply (eats_bind (p_int 1) (fun n d => let* i := iid_of n in let* (v, r) := p_prefixed 4 (i_value i) d in Ok (i, v, r))).
  - apply eats_int. lia.
  - intros n. apply local_weak. destruct (iid_of n) as [h|e]; cbn [bind]; [|apply local_err].
    apply (local_bind (p_prefixed 4 (i_value h)) (fun v r => Ok (h, v, r))); [apply local_prefixed|]. intros; apply local_ret.
Qed.
Lemma local_inner : local p_inner.
Proof.
  apply (local_bind (p_repeat i_item (fun it => iid_eqb (fst it) I_end)) (fun l d => Ok (i_collect l, d))).
  - apply local_repeat; intros; [apply local_i_item|apply eats_i_item].
  - intros; apply local_ret.
Qed.
Lemma i_item_ok i d a r : bytes_ok d -> i_item i d = Ok (a, r) -> iv_ok a.
Proof.
  intros Hd H. unfold i_item in H. apply bind_ok in H. destruct H as ([n r1] & H1 & H).
  pose proof (local_ok _ _ _ _ (local_int 1) Hd H1) as Hr1.
  apply bind_ok in H. destruct H as (t & Ht & H). apply bind_ok in H. destruct H as ([v r2] & H2 & H). injection H as <- <-.
  apply p_prefixed_inv in H2; [|exact Hr1]. destruct H2 as (b & Hv & Hb & Hlen & _). change (256 ^ N.of_nat 4) with (2 ^ 32) in Hlen.
  destruct t; cbn [i_value] in Hv; try (injection Hv as <-; cbn; split; assumption).
  apply bind_ok in Hv. destruct Hv as (m & _ & Hv). apply bind_ok in Hv. destruct Hv as (s & _ & Hv). injection Hv as <-. exact I.
Qed.
Lemma p_inner_ok d ih r : bytes_ok d -> p_inner d = Ok (ih, r) -> ih_ok ih.
Proof.
  intros Hd H. unfold p_inner in H. apply bind_ok in H. destruct H as ([l r1] & H1 & H). injection H as <- <-.
  unfold p_repeat in H1. pose proof (until_forall i_item _ iv_ok local_i_item i_item_ok _ _ _ _ _ Hd H1) as F.
  apply until_shape in H1. destruct H1 as (l' & [e v] & -> & He & Hl'). cbn [fst] in He. apply iid_eqb_eq in He. subst e.
  unfold i_collect, ih_ok. cbn [ih_bins ih_items].
  assert (Fin : forall x, In x (filter (fun it => negb (iid_eqb (fst it) I_binary)) (l' ++ [(I_end, v)])) -> iv_ok x /\ fst x <> I_binary).
  { intros x Hx. apply filter_In in Hx. destruct Hx as [Hx Hn]. rewrite Forall_forall in F. split; [apply F, Hx|].
    intros E. apply iid_eqb_eq in E. rewrite E in Hn. discriminate. }
  split; [|split; [|split; [|split]]].
  - rewrite Forall_forall. intros b Hb. apply in_flat_map in Hb. destruct Hb as ([i w] & Hin & Hb). rewrite Forall_forall in F. specialize (F _ Hin).
    destruct i; try destruct Hb. destruct w; [|destruct Hb]. destruct Hb as [<-|[]]. exact F.
  - rewrite Forall_forall. intros x Hx. apply (d_of_list_in _ iid_eqb_eq) in Hx. apply Fin, Hx.
  - apply (d_of_list_keys _ iid_eqb_eq).
  - intros Hi. apply in_map_iff in Hi. destruct Hi as (x & E & Hx). apply (d_of_list_in _ iid_eqb_eq) in Hx. apply Fin in Hx. tauto.
  - rewrite Forall_forall in F. specialize (F (I_end, v) ltac:(apply in_or_app; right; left; reflexivity)).
    destruct v as [v|]; [|destruct F]. rewrite filter_app. cbn [filter fst].
    change (negb (iid_eqb I_end I_binary)) with true. cbv iota. rewrite (d_of_list_snoc _ iid_eqb_eq); [eauto|].
    intros Hi. apply in_map_iff in Hi. destruct Hi as (x & E & Hx). apply filter_In in Hx. destruct Hx as [Hx _].
    specialize (Hl' _ Hx). cbn in Hl'. apply iid_eqb_eq in E. congruence.
Qed.
Definition enc_item (_ : N) (it : iid * ival) : bytes := iid_num (fst it) :: le_enc 4 (lenN (i_bytes (snd it))) ++ i_bytes (snd it).
Lemma iv_small it : iv_ok it -> small (i_bytes (snd it)).
Proof.
  destruct it as [i [b|s]]; cbn [snd i_bytes].
  - destruct i; cbn; tauto.
  - intros _. split; [apply le_enc_ok|]. rewrite le_enc_lenN. reflexivity.
Qed.
Lemma build_items_ok l v : Forall iv_ok (l ++ [(I_end, IV_bytes v)]) -> ~ In I_end (map fst l) ->
  forall j, build_items (l ++ [(I_end, IV_bytes v)]) = Ok (enc_seq enc_item j (l ++ [(I_end, IV_bytes v)])).
Proof.
  intros F Hn. induction l as [|[i w] l IH]; intros j.
  - cbn [app build_items]. inversion F as [|? ? Hi _]; subst. apply iv_small in Hi. destruct Hi as [_ Hi]. cbn [snd] in Hi.
    unfold enc_prefixed. replace (lenN (i_bytes (IV_bytes v)) <? 2 ^ 32) with true by (symmetry; apply N.ltb_lt; exact Hi).
    cbn [bind enc_seq]. rewrite app_nil_r. reflexivity.
  - cbn [app build_items]. cbn [app] in F. inversion F as [|? ? Hi Hl]; subst. apply iv_small in Hi. destruct Hi as [_ Hi]. cbn [snd] in Hi.
    unfold enc_prefixed at 1. replace (lenN (i_bytes w) <? 2 ^ 32) with true by (symmetry; apply N.ltb_lt; exact Hi).
    cbn [bind]. destruct (iid_eqb i I_end) eqn:E; [apply iid_eqb_eq in E; subst; exfalso; apply Hn; left; reflexivity|].
    rewrite (IH Hl ltac:(intros X; apply Hn; right; exact X) (j + 1)). cbn [bind enc_seq]. unfold enc_item at 2. cbn [fst snd app].
    rewrite <- app_assoc. reflexivity.
Qed.
Lemma i_item_enc j it r : iv_ok it -> i_item j (enc_item j it ++ r) = Ok (it, r).
Proof.
  intros H. pose proof (iv_small _ H) as [_ Hlen]. destruct it as [i w]. cbn [fst snd] in *. unfold i_item, enc_item. cbn [fst snd].
  replace ((iid_num i :: le_enc 4 (lenN (i_bytes w)) ++ i_bytes w) ++ r) with (le_enc 1 (iid_num i) ++ le_enc 4 (lenN (i_bytes w)) ++ i_bytes w ++ r).
  2: { change (le_enc 1 (iid_num i)) with [iid_num i mod 256]. cbn [app]. rewrite <- app_assoc. f_equal. destruct i; reflexivity. }
  rewrite p_int_enc by (destruct i; reflexivity). cbn [bind].
  replace (iid_of (iid_num i)) with (Ok i) by (destruct i; reflexivity). cbn [bind].
  rewrite prefixed_enc by exact Hlen.
  replace (i_value i (i_bytes w)) with (Ok w : res ival); [reflexivity|]. symmetry.
  destruct i, w as [b|s]; cbn [iv_ok] in H; try destruct H; cbn [i_value i_bytes]; try reflexivity.
  unfold sub_int. rewrite <- (app_nil_r (le_enc 4 (stream_num s))), p_int_enc by (destruct s; reflexivity). destruct s; reflexivity.
Qed.
Lemma collect_binaries bins items : ~ In I_binary (map fst items) -> NoDup (map fst items) ->
  i_collect (map (fun b => (I_binary, IV_bytes b)) bins ++ items) = MkInner bins items.
Proof.
  intros Hb Hn. unfold i_collect. f_equal.
  - rewrite flat_map_app. replace (flat_map _ items) with (@nil bytes).
    + rewrite app_nil_r. induction bins; cbn; [reflexivity|]. now f_equal.
    + symmetry. clear Hn. induction items as [|[i w] items IH]; [reflexivity|]. cbn [flat_map map fst In] in *.
      rewrite IH by tauto. destruct i; try reflexivity. exfalso. apply Hb. auto.
  - rewrite filter_app. replace (filter _ (map _ bins)) with (@nil (iid * ival)) by (symmetry; induction bins; cbn; auto).
    cbn [app]. replace (filter _ items) with items; [apply (d_of_list_nodup _ iid_eqb_eq), Hn|].
    clear Hn. induction items as [|[i w] items IH]; [reflexivity|]. cbn [filter map fst In] in *.
    destruct (iid_eqb i I_binary) eqn:E; [apply iid_eqb_eq in E; subst; exfalso; apply Hb; auto|]. cbn [negb]. f_equal. apply IH. tauto.
Qed.
Lemma enc_seq_ok {A} (enc : N -> A -> bytes) l : (forall j a, In a l -> bytes_ok (enc j a)) -> forall j, bytes_ok (enc_seq enc j l).
Proof.
  induction l as [|a l IH]; intros H j; [constructor|]. cbn [enc_seq]. apply bytes_ok_app. split; [apply H; left; reflexivity|].
  apply IH. intros k b Hb. apply H. right. exact Hb.
Qed.
Lemma inner_build ih : ih_ok ih -> exists out, build_inner ih = Ok out /\ bytes_ok out /\ forall r, p_inner (out ++ r) = Ok (ih, r).
Proof.
  destruct ih as [bins items]. intros (Hb & Hi & Hn & Hnb & l & v & El). cbn [ih_bins ih_items] in *. subst items.
  unfold build_inner. cbn [ih_bins ih_items]. set (bl := map (fun b => (I_binary, IV_bytes b)) bins).
  assert (F : Forall iv_ok ((bl ++ l) ++ [(I_end, IV_bytes v)])).
  { rewrite <- app_assoc. apply Forall_app. split; [|exact Hi]. unfold bl. rewrite Forall_forall in *. intros x Hx. apply in_map_iff in Hx.
    destruct Hx as (b & <- & Hx). apply Hb, Hx. }
  assert (Hend : ~ In I_end (map fst (bl ++ l))).
  { rewrite map_app. intros X. apply in_app_or in X. destruct X as [X|X].
    - unfold bl in X. rewrite map_map in X. apply in_map_iff in X. destruct X as (b & E & _). discriminate.
    - rewrite map_app in Hn. cbn [map fst] in Hn. apply NoDup_remove_2 in Hn. apply Hn. rewrite app_nil_r. exact X. }
  eexists. rewrite app_assoc. split; [apply (build_items_ok _ _ F Hend 0)|]. split.
  - apply enc_seq_ok. intros j [i w] Hin. rewrite Forall_forall in F. apply F in Hin. apply iv_small in Hin. unfold enc_item.
    constructor; [destruct i; reflexivity|]. apply bytes_ok_app. split; [apply le_enc_ok|apply Hin].
  - intros r. unfold p_inner, p_repeat.
    assert (R : forall f, (List.length ((bl ++ l) ++ [(I_end, IV_bytes v)]) <= f)%nat ->
      p_until i_item (fun it => iid_eqb (fst it) I_end) f 0 (enc_seq enc_item 0 ((bl ++ l) ++ [(I_end, IV_bytes v)]) ++ r) = Ok ((bl ++ l) ++ [(I_end, IV_bytes v)], r)).
    { intros f Hf. apply (until_build i_item _ enc_item); [|exists (bl ++ l), (I_end, IV_bytes v); split; [reflexivity|split; [reflexivity|]]|exact Hf].
      - intros j a r0 Ha _ _. apply i_item_enc. rewrite Forall_forall in F. apply F, Ha.
      - intros b Hb'. destruct (iid_eqb (fst b) I_end) eqn:E; [|reflexivity]. apply iid_eqb_eq in E. exfalso. apply Hend. rewrite <- E. apply in_map, Hb'. }
    rewrite R.
    + cbn [bind]. rewrite <- app_assoc. unfold bl. rewrite collect_binaries; [reflexivity|exact Hnb|exact Hn].
    + pose proof (enc_seq_len enc_item ltac:(intros; unfold enc_item; cbn [List.length]; lia) ((bl ++ l) ++ [(I_end, IV_bytes v)]) 0) as W.
      rewrite (app_length (enc_seq _ _ _) r). lia.
Qed.
