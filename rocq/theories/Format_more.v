(** Damaged protected values, and what the header properties of an opened database say (C95, C96).  Models no code of its own. *)
From Coq Require Import ZifyBool ZifyNat ZifyN.
From Verif Require Import Base Base64 PyStr Utf8 Xml Lib Keyfile Construct Kdbx KdbxSpec Kdbx_facts Kdbx_inner Kdbx_file Kdbx_auth Kdbx_claims Cbc_facts FormatSpec Format Db Api Save Object Object_claims.
Ltac Zify.zify_post_hook ::= Z.div_mod_to_equations.

(** *** UTF-8: what decodes is the encoding of what it decodes to *)
Lemma char_back1 a : a < 128 -> utf8_char a = [a] /\ is_scalar a = true.
Proof. intros H. unfold utf8_char, is_scalar. destruct (N.ltb_spec a 0x80); [split; [reflexivity|lia]|lia]. Qed.
Lemma char_back2 a b : 0xC2 <= a < 0xE0 -> is_cont b = true -> utf8_char ((a - 192) * 64 + (b - 128)) = [a; b] /\ is_scalar ((a - 192) * 64 + (b - 128)) = true.
Proof.
  unfold is_cont. intros Ha Hb. set (cp := (a - 192) * 64 + (b - 128)). assert (R : 0x80 <= cp < 0x800) by (unfold cp; lia). unfold utf8_char, is_scalar. destruct (N.ltb_spec cp 0x80); [lia|]. destruct (N.ltb_spec cp 0x800); [|lia].
  split; [|lia]. f_equal; [|f_equal]; unfold cp; lia.
Qed.
Lemma char_back3 a b c : 0xE0 <= a < 0xF0 -> is_cont b = true -> is_cont c = true -> 0x800 <= (a - 224) * 4096 + (b - 128) * 64 + (c - 128) -> utf8_char ((a - 224) * 4096 + (b - 128) * 64 + (c - 128)) = [a; b; c].
Proof.
  unfold is_cont. intros Ha Hb Hc. set (cp := (a - 224) * 4096 + (b - 128) * 64 + (c - 128)). intros G. assert (R : cp < 0x10000) by (unfold cp; lia). unfold utf8_char. destruct (N.ltb_spec cp 0x80); [lia|]. destruct (N.ltb_spec cp 0x800); [lia|]. destruct (N.ltb_spec cp 0x10000); [|lia].
  assert (B1 : b - 128 < 64) by lia. assert (C1 : c - 128 < 64) by lia. f_equal; [|f_equal; [|f_equal]]; unfold cp; lia.
Qed.
Lemma char_back4 a b c d : 0xF0 <= a -> is_cont b = true -> is_cont c = true -> is_cont d = true -> 0x10000 <= (a - 240) * 262144 + (b - 128) * 4096 + (c - 128) * 64 + (d - 128) ->
  utf8_char ((a - 240) * 262144 + (b - 128) * 4096 + (c - 128) * 64 + (d - 128)) = [a; b; c; d].
Proof.
  unfold is_cont. intros Ha Hb Hc Hd. set (cp := (a - 240) * 262144 + (b - 128) * 4096 + (c - 128) * 64 + (d - 128)). intros G. unfold utf8_char. destruct (N.ltb_spec cp 0x80); [lia|]. destruct (N.ltb_spec cp 0x800); [lia|]. destruct (N.ltb_spec cp 0x10000); [lia|].
  f_equal; [|f_equal; [|f_equal; [|f_equal]]]; unfold cp; lia.
Qed.
Lemma utf8_back : forall n l s, (List.length l <= n)%nat -> utf8_decode l = Ok s -> utf8_encode s = Ok l.
Proof.
  induction n as [|n IH]; intros l s Hn; (destruct l as [|a l1]; [intros [= <-]; reflexivity|]); [cbn in Hn; lia|].
  cbn [utf8_decode]. cbn [List.length] in Hn.
  destruct (N.ltb_spec a 128).
  { intros E. apply bind_ok in E. destruct E as (r & E & [= <-]). cbn [utf8_encode]. destruct (char_back1 a H) as [E1 E2]. rewrite E2, (IH l1 r) by (eauto; lia). cbn [bind]. rewrite E1. reflexivity. }
  destruct (N.ltb_spec a 0xC2); [discriminate|]. destruct l1 as [|b l2]; [discriminate|]. cbn [List.length] in Hn.
  destruct (is_cont b) eqn:Hb; cbn [negb]; [|discriminate].
  destruct (N.ltb_spec a 0xE0).
  { intros E. apply bind_ok in E. destruct E as (r & E & [= <-]). cbn [utf8_encode]. destruct (char_back2 a b (conj H0 H1) Hb) as [E1 E2]. rewrite E2, (IH l2 r) by (eauto; lia). cbn [bind]. rewrite E1. reflexivity. }
  destruct l2 as [|c l3]; [discriminate|]. cbn [List.length] in Hn.
  destruct (is_cont c) eqn:Hc; cbn [negb]; [|discriminate].
  destruct (N.ltb_spec a 0xF0).
  { cbv zeta. match goal with |- context[if ?b then _ else _] => destruct b eqn:Hcp end; [|discriminate]. apply andb_true_iff in Hcp as [Hcp Hsc]. apply N.leb_le in Hcp.
    intros E. apply bind_ok in E. destruct E as (r & E & [= <-]). cbn [utf8_encode]. rewrite Hsc, (IH l3 r) by (eauto; lia). cbn [bind]. rewrite (char_back3 a b c (conj H1 H2) Hb Hc Hcp). reflexivity. }
  destruct l3 as [|d l4]; [discriminate|]. cbn [List.length] in Hn.
  destruct (is_cont d) eqn:Hd; cbn [negb]; [|discriminate].
  cbv zeta. match goal with |- context[if ?b then _ else _] => destruct b eqn:Hcp end; [|discriminate]. apply andb_true_iff in Hcp as [Hcp Hsc]. apply N.leb_le in Hcp.
  intros E. apply bind_ok in E. destruct E as (r & E & [= <-]). cbn [utf8_encode]. rewrite Hsc, (IH l4 r) by (eauto; lia). cbn [bind]. rewrite (char_back4 a b c d H2 Hb Hc Hd Hcp). reflexivity.
Qed.

(** *** Damaged values *)
Lemma digits_val c : c < 128 -> digit64 c = match b64val c with Some _ => true | None => false end.
Proof.
  intros H. assert (A : forallb (fun n => Bool.eqb (digit64 (N.of_nat n)) (match b64val (N.of_nat n) with Some _ => true | None => false end)) (seq 0 128) = true) by (vm_compute; reflexivity).
  rewrite forallb_forall in A. specialize (A (N.to_nat c)). rewrite N2Nat.id in A. apply Bool.eqb_prop, A, in_seq. lia.
Qed.
Lemma a2b_count l : forall quad left pads r, quad < 4 -> Forall (fun c => c < 128) l -> ~ In 61 l -> a2b quad left pads l = Ok r -> ((N.to_nat quad + List.length (filter digit64 l)) mod 4 = 0)%nat.
Proof.
  induction l as [|c l IH]; intros quad left pads r Hq F Hn E.
  - cbn [a2b] in E. destruct (N.eqb_spec quad 0); [subst; reflexivity|discriminate].
  - inversion F as [|? ? Fc F']; subst. assert (Hc : c <> 61) by (intros ->; apply Hn; left; reflexivity). assert (Hn' : ~ In 61 l) by (intros I; apply Hn; right; exact I). cbn [a2b] in E. destruct (N.eqb_spec c 61); [contradiction|]. cbn [filter]. rewrite (digits_val c Fc). destruct (b64val c) as [v|]; [|eapply IH; eauto]. cbn [List.length].
    destruct (N.eqb_spec quad 0); [subst; apply IH in E; [exact E|reflexivity|assumption|assumption]|]. destruct (N.eqb_spec quad 1); [|destruct (N.eqb_spec quad 2)]; apply bind_ok in E; destruct E as (q & E & _); apply IH in E; try assumption; try reflexivity.
    + subst. exact E.
    + subst. exact E.
    + assert (quad = 3) by lia. subst. change (N.to_nat 3) with 3%nat. change (N.to_nat 0) with O in E. cbn [Nat.add] in *. clear -E. revert E. set (k := List.length _). clearbody k. intros. lia.
Qed.
Lemma no_base64_err x : no_base64 x -> exists e, b64decode x = Err e.
Proof.
  intros H. unfold b64decode. destruct (forallb (fun c => c <? 128) x) eqn:F; [|eauto]. rewrite forallb_forall in F. destruct H as [(c & I & Hc)|[H1 H2]]; [apply F, N.ltb_lt in I; lia|].
  destruct (a2b 0 0 0 x) as [r|e] eqn:E; [|eauto]. exfalso. apply H2. apply a2b_count in E; [exact E|reflexivity| |exact H1]. apply Forall_forall. intros c I. apply N.ltb_lt, F, I.
Qed.
Lemma clear_left : left_alone clear_text.
Proof. intros ks pos x fin _ [H ->]. unfold unprot_text. destruct (no_base64_err x H) as (e & ->). reflexivity. Qed.
Lemma garbled_left : left_alone garbled.
Proof.
  intros ks pos x fin Hks (b & -> & Hb & Ht & ->). unfold unprot_text. rewrite b64_roundtrip by exact Hb. unfold lenN. rewrite <- Nat2N.inj_add. destruct (utf8_decode (xor_ks ks (N.of_nat pos) b)) as [s|e] eqn:E; [|reflexivity].
  exfalso. apply (Ht s). rewrite <- xor_at_model. exact (utf8_back _ _ _ (le_n _) E).
Qed.
Lemma either_left a b : left_alone a -> left_alone b -> left_alone (either a b).
Proof. intros Ha Hb ks pos x fin Hk [H|H]; auto. Qed.
Lemma damaged4 L cr c o file bins doc trail : lib_ok L -> c_dec cr = true -> unlocks L cr c -> kdbx4_with L (either garbled clear_text) c o file bins doc ->
  exists k, open_kdbx L cr (file ++ trail) = Ok (k, trail) /\ bins_of k = bins /\ doc_of k = Some doc.
Proof. intros HL Hc Hu Hf. destruct (claim_with4 L _ cr c o file bins doc trail (either_left _ _ garbled_left clear_left) HL Hc Hu Hf) as (k & A & _ & _ & B & C). eauto. Qed.
Lemma damaged3 L cr c o file doc : lib_ok L -> c_dec cr = true -> unlocks L cr c -> kdbx3_with L (either garbled clear_text) c o file doc ->
  exists k, open_kdbx L cr file = Ok (k, []) /\ doc_of k = Some doc.
Proof. intros HL Hc Hu Hf. destruct (claim_with3 L _ cr c o file doc (either_left _ _ garbled_left clear_left) HL Hc Hu Hf) as (k & A & _ & _ & C). eauto. Qed.

(** *** Header properties *)
(** The names the documentation gives to the algorithms. *)
Definition cipher_named (cid : bytes) (c : cipher) : Prop := In (cid, c) [(id_aes, C_aes); (id_twofish, C_twofish); (id_chacha20, C_chacha)].
Definition kdf_named (k : kdf) : kdfname := match k with Argon2 true _ _ _ _ _ => K_argon2id | Argon2 false _ _ _ _ _ => K_argon2 | AesKdf _ _ => K_aes end.
Definition kdf_salt (k : kdf) : bytes := match k with Argon2 _ s _ _ _ _ => s | AesKdf s _ => s end.
Lemma named_of cid c : cipher_named cid c -> cipher_of cid = Ok c.
Proof. intros [E|[E|[E|[]]]]; injection E as <- <-; vm_compute; reflexivity. Qed.
Lemma opened_header L lost w fn pw kf tk dec ob w' major field o rest c comp seed iv h : open_db L lost w fn pw kf tk dec = (Ok ob, w') -> source w fn = Ok (head_bytes major field o ++ rest) -> facts h o major field c comp seed iv ->
  exists k d, o_kdbx ob = Some (k, d) /\ k_hdr k = h.
Proof.
  intros H Hs Fa. destruct (open_obj _ _ _ _ _ _ _ _ _ _ H) as (data & k & r & Es & Eo & ->). rewrite Hs in Es. apply Ok_inj in Es. subst data. destruct (open_hdr _ _ _ _ _ Eo) as (r1 & E). rewrite (f_read _ _ _ _ _ _ _ _ Fa) in E. apply Ok_inj in E. injection E as Eh _. cbn [o_kdbx]. exists k, (load k). auto.
Qed.
Lemma header_says4 L lost w fn pw kf tk dec ob w' o rest cid c comp seed iv k : open_db L lost w fn pw kf tk dec = (Ok ob, w') -> source w fn = Ok (head_bytes 4 field4 o ++ rest) ->
  head4 o cid comp seed iv k -> cipher_named cid c ->
  version ob = Ok (4, o_minor o) /\ encryption_algorithm ob = Ok c /\ database_salt ob = Ok (VV_bytes (kdf_salt k)) /\ (o_minor o = 0 -> kdf_algorithm ob = Ok (Some (kdf_named k))).
Proof.
  intros H Hs Hh Hc. apply named_of in Hc. destruct (head4_read o cid comp seed iv k c Hh Hc) as (h & items & d & Fa & K & Ek & G). destruct (opened_header _ _ _ _ _ _ _ _ _ _ _ _ _ _ _ _ _ _ _ H Hs Fa) as (kd & dd & E & Eh).
  unfold version, encryption_algorithm, database_salt, kdf_algorithm. rewrite E, Eh, (f_major _ _ _ _ _ _ _ _ Fa), (f_minor _ _ _ _ _ _ _ _ Fa), (f_cipher _ _ _ _ _ _ _ _ Fa). split; [reflexivity|]. split; [reflexivity|]. change (4 =? 3) with false. change (4 =? 4) with true. cbn [andb]. rewrite Ek. cbn [bind].
  assert (GU : forall u, In (0x42, $"$UUID", u) items -> vget ($"$UUID") d = Ok (VV_bytes u)) by (intros u I; eapply G; [exact I|reflexivity|reflexivity]).
  assert (GS : forall s, In (0x42, $"S", s) items -> vget ($"S") d = Ok (VV_bytes s)) by (intros s I; eapply G; [exact I|reflexivity|reflexivity]).
  destruct K as (_ & _ & K). destruct k as [i salt it kib par v|sd r]; cbn [kdf_salt kdf_named].
  - destruct K as (K1 & K2 & _). rewrite (GS _ K2), (GU _ K1). split; [reflexivity|]. intros ->. change (0 =? 0) with true. cbv iota. cbn [bind is_bytes]. destruct i; reflexivity.
  - destruct K as (K1 & [K2 _] & _). rewrite (GS _ K2), (GU _ K1). split; [reflexivity|]. intros ->. change (0 =? 0) with true. cbv iota. cbn [bind is_bytes]. reflexivity.
Qed.
Lemma header_says3 L lost w fn pw kf tk dec ob w' o rest cid c comp seed iv k key start sid : open_db L lost w fn pw kf tk dec = (Ok ob, w') -> source w fn = Ok (head_bytes 3 field3 o ++ rest) ->
  head3 o cid comp seed iv k key start sid -> cipher_named cid c -> In sid [0; 2; 3] ->
  version ob = Ok (3, o_minor o) /\ encryption_algorithm ob = Ok c /\ (o_minor o = 1 -> database_salt ob = Ok (VV_bytes (kdf_salt k)) /\ kdf_algorithm ob = Ok (Some (kdf_named k))).
Proof.
  intros H Hs Hh Hc Hi. apply named_of in Hc. assert (exists s, stream_of sid = Ok s) as (s & Es) by (destruct Hi as [<-|[<-|[<-|[]]]]; eexists; reflexivity).
  destruct (head3_read o cid comp seed iv k key start sid c s Hh Hc Es) as (h & ts & r & Fa & -> & _ & G & _). destruct (opened_header _ _ _ _ _ _ _ _ _ _ _ _ _ _ _ _ _ _ _ H Hs Fa) as (kd & dd & E & Eh).
  unfold version, encryption_algorithm, database_salt, kdf_algorithm. rewrite E, Eh, (f_major _ _ _ _ _ _ _ _ Fa), (f_minor _ _ _ _ _ _ _ _ Fa), (f_cipher _ _ _ _ _ _ _ _ Fa). split; [reflexivity|]. split; [reflexivity|]. intros ->. change (3 =? 3) with true. change (1 =? 1) with true. cbn [andb]. rewrite G. split; reflexivity.
Qed.
