(** Protected values, inner header, whole-file round trips. *)
From Coq Require Import ZifyBool ZifyNat ZifyN.
From Verif Require Import Base Base64 PyStr Utf8 Xml Xml_facts Cbc Cbc_facts Lib Keyfile Construct Kdbx KdbxSpec Kdbx_facts.
Ltac Zify.zify_post_hook ::= Z.div_mod_to_equations.

Lemma markedb_protected tag attrs : nodup_keys attrs = true -> is_protected tag attrs = markedb tag attrs.
Proof.
  intros H. unfold is_protected, markedb. destruct (str_eqb tag ($"Value")); [|reflexivity]. cbn [andb].
  induction attrs as [|[k v] l IH]; cbn [find existsb]; [reflexivity|]. cbn [fst snd].
  cbn [nodup_keys] in H. apply andb_prop in H. destruct H as [H1 H2].
  destruct (str_eqb k ($"Protected")) eqn:E; cbn [andb orb]; [|apply IH, H2].
  destruct (str_eqb v ($"True")); cbn [orb]; [reflexivity|].
  apply str_eqb_eq in E. subst k. symmetry. apply negb_true_iff in H1. clear - H1. induction l as [|[k v] l IH]; cbn [existsb] in *; [reflexivity|].
  apply orb_false_iff in H1. destruct H1 as [A B]. cbn [fst] in *. rewrite A. cbn [andb orb]. apply IH, B.
Qed.

Definition walk_list (f : N -> str -> res (str * N)) : N -> list xml -> res (list xml * N) :=
  fix go (pos : N) (l : list xml) : res (list xml * N) :=
       match l with
       | [] => Ok ([], pos)
       | k :: l' => let* (k', p) := walk f pos k in let* (l'', p') := go p l' in Ok (k' :: l'', p')
       end.
Lemma walk_X f pos tag attrs text kids : walk f pos (X tag attrs text kids) =
  let* (text', p1) :=
    match text with
    | Some s => if is_protected tag attrs then let* (s', p) := f pos s in Ok (Some s', p) else Ok (text, pos)
    | None => Ok (text, pos)
    end in
  let* (kids', p2) := walk_list f p1 kids in
  Ok (X tag attrs text' kids', p2).
Proof. reflexivity. Qed.

Lemma text_ok_scalar s : text_ok s = true -> forallb is_scalar s = true.
Proof. apply forallb_impl. intros c. unfold xml_char, is_scalar. lia. Qed.
Lemma b64_text_ok b : bytes_ok b -> text_ok (b64encode b) = true /\ (b64encode b = [] \/ forallb blank_char (b64encode b) = false).
Proof.
  intros H. pose proof (b64encode_alpha b H) as A. split.
  - eapply forallb_impl; [|exact A]. intros c. unfold b64_alpha, b64val, xml_char.
    repeat match goal with |- context [if ?x then _ else _] => match type of x with bool => destruct x eqn:? end end; cbv iota; lia.
  - destruct (b64encode b) as [|c l]; [left; reflexivity|right]. cbn [forallb] in *. apply andb_prop in A. destruct A as [A _].
    replace (blank_char c) with false; [reflexivity|]. revert A. unfold b64_alpha, b64val, blank_char.
    repeat match goal with |- context [if ?x then _ else _] => match type of x with bool => destruct x eqn:? end end; cbv iota; lia.
Qed.
Lemma b64encode_nil b : b64encode b = [] -> b = [].
Proof. destruct b as [|a [|c [|d l]]]; cbn; congruence. Qed.
Lemma utf8_encode_nil s : utf8_encode s = Ok [] -> s = [].
Proof.
  destruct s as [|c s]; [reflexivity|]. cbn [utf8_encode]. destruct (is_scalar c); [|discriminate]. intros H. apply bind_ok in H.
  destruct H as (r & _ & H). injection H as H. apply app_eq_nil in H. destruct H as [H _]. exfalso. revert H. unfold utf8_char.
  repeat match goal with |- context [if ?x then _ else _] => destruct x end; discriminate.
Qed.
Lemma filter_text_ok s : text_ok s = true -> filter xml_char s = s.
Proof.
  induction s as [|c s IH]; cbn [filter text_ok]; [reflexivity|]. unfold text_ok. cbn [forallb]. intros H.
  apply andb_prop in H. destruct H as [-> H]. now rewrite IH.
Qed.

Section Walk.
  Variable ks : N -> N.
  Hypothesis Hks : forall p, is_byte (ks p).
  Lemma prot_unprot s pos : text_ok s = true -> exists s', prot_text ks pos s = Ok (s', pos + lenN (opt_text (match utf8_encode s with Ok b => Some b | _ => None end))) /\
    text_ok s' = true /\ (s' = [] <-> s = []) /\ forallb blank_char s' = (match s with [] => true | _ => false end) /\
    unprot_text ks pos s' = Ok (s, pos + lenN (opt_text (match utf8_encode s with Ok b => Some b | _ => None end))).
  Proof.
    intros Hs. destruct (utf8_encode_total s (text_ok_scalar s Hs)) as (b & Eb). pose proof (utf8_encode_ok _ _ Eb) as Hb.
    unfold prot_text. rewrite Eb. cbn [bind opt_text].
    pose proof (xor_ks_ok ks b Hks Hb pos) as Hx. destruct (b64_text_ok _ Hx) as [T B].
    eexists. split; [reflexivity|]. split; [exact T|].
    assert (Nil : b64encode (xor_ks ks pos b) = [] <-> s = []).
    { split; intros E.
      - apply b64encode_nil in E. destruct b; [|discriminate]. apply utf8_encode_nil, Eb.
      - subst. injection Eb as <-. reflexivity. }
    split; [exact Nil|]. split.
    - destruct s as [|c s]; [rewrite (proj2 Nil eq_refl); reflexivity|]. destruct B as [B|B]; [apply Nil in B; discriminate|exact B].
    - unfold unprot_text. rewrite b64_roundtrip by exact Hx. rewrite xor_ks_inv. rewrite (utf8_roundtrip _ _ Eb).
      unfold lenN. rewrite xor_ks_len. rewrite filter_text_ok by exact Hs. reflexivity.
  Qed.
  Definition plen (t : xml) : N := fold_right (fun s a => lenN (opt_text (match utf8_encode s with Ok b => Some b | _ => None end)) + a) 0 (protected_texts t).
  Definition wlen (l : list str) : N := fold_right (fun s a => lenN (opt_text (match utf8_encode s with Ok b => Some b | _ => None end)) + a) 0 l.
  Lemma wlen_app a b : wlen (a ++ b) = wlen a + wlen b.
  Proof. unfold wlen. induction a as [|x a IH]; cbn [app fold_right]; [lia|]. rewrite IH. lia. Qed.

  Definition wgoal (t : xml) : Prop := xml_ok t = true -> forall pos, exists t',
    walk (prot_text ks) pos t = Ok (t', pos + wlen (protected_texts t)) /\ xml_ok t' = true /\
    walk (unprot_text ks) pos (norm t') = Ok (reload_view t, pos + wlen (protected_texts t)).
  Lemma walk_list_ok l : Forall wgoal l -> forallb xml_ok l = true -> forall pos, exists l',
    walk_list (prot_text ks) pos l = Ok (l', pos + wlen (flat_map protected_texts l)) /\ forallb xml_ok l' = true /\
    List.length l' = List.length l /\
    walk_list (unprot_text ks) pos (map norm l') = Ok (map reload_view l, pos + wlen (flat_map protected_texts l)).
  Proof.
    induction 1 as [|t l Ht Hl IH]; intros Hok pos; cbn [forallb flat_map] in *.
    - exists []. cbn. rewrite N.add_0_r. auto.
    - apply andb_prop in Hok. destruct Hok as [H1 H2]. destruct (Ht H1 pos) as (t' & E1 & K1 & U1).
      destruct (IH H2 (pos + wlen (protected_texts t))) as (l' & E2 & K2 & Len & U2).
      exists (t' :: l'). rewrite wlen_app. cbn [forallb List.length map]. rewrite K1, K2, Len.
      change (walk_list ?f pos (?x :: ?y)) with (let* (k', p) := walk f pos x in let* (l'', p') := walk_list f p y in Ok (k' :: l'', p')).
      rewrite E1. cbn [bind]. rewrite E2. cbn [bind].
      change (walk_list ?f pos (?x :: ?y)) with (let* (k', p) := walk f pos x in let* (l'', p') := walk_list f p y in Ok (k' :: l'', p')).
      rewrite U1. cbn [bind]. rewrite U2. cbn [bind]. rewrite !N.add_assoc. auto.
  Qed.
  Lemma walk_ok t : wgoal t.
  Proof.
    induction t as [tag attrs text kids IH] using xml_ind'. intros Hok pos.
    cbn [xml_ok] in Hok. apply andb_prop in Hok. destruct Hok as [Hok Hkids].
    apply andb_prop in Hok. destruct Hok as [Hok Htext]. apply andb_prop in Hok. destruct Hok as [Hok Hdup].
    apply andb_prop in Hok. destruct Hok as [Htag Hattrs].
    cbn [protected_texts reload_view]. rewrite wlen_app.
    pose proof (markedb_protected tag attrs Hdup) as M.
    set (w := wlen (if markedb tag attrs then match text with Some s => [s] | None => [] end else [])).
    destruct (walk_list_ok kids IH Hkids (pos + w)) as (kids' & E & K & Len & U).
    assert (Hk : kids' = [] <-> kids = []) by (destruct kids, kids'; try discriminate Len; split; congruence).
    destruct (markedb tag attrs) eqn:Em; [destruct text as [s|]|].
    - cbn [opt_text] in Htext. destruct (prot_unprot s pos Htext) as (s' & P & T & Nil & Bl & Un).
      exists (X tag attrs (Some s') kids'). cbn [norm].
      assert (W : w = lenN (opt_text (match utf8_encode s with Ok b => Some b | _ => None end))) by (unfold w; cbn; lia).
      rewrite !walk_X. rewrite M. rewrite P. cbn [bind]. rewrite <- W, E. cbn [bind]. rewrite N.add_assoc.
      split; [reflexivity|]. split.
      { cbn [xml_ok opt_text]. rewrite Htag, Hattrs, Hdup, T, K. reflexivity. }
      destruct s as [|c s].
      + rewrite (proj2 Nil eq_refl). cbn [norm_text keep_text bind]. 
        assert (W0 : w = 0) by (rewrite W; reflexivity). rewrite W0, N.add_0_r in *. rewrite U. reflexivity.
      + replace (norm_text (Some s') kids') with (Some s').
        2: { cbn [norm_text]. rewrite Bl. unfold keep_text. destruct s'; [destruct Nil as [N1 _]; discriminate (N1 eq_refl)|]. destruct kids'; reflexivity. }
        rewrite Un. cbn [bind]. rewrite <- W, U. reflexivity.
    - exists (X tag attrs None kids'). cbn [norm norm_text]. rewrite !walk_X.
      assert (W0 : w = 0) by reflexivity. rewrite W0, N.add_0_r in *. cbn [bind]. rewrite E. cbn [bind].
      split; [rewrite N.add_0_l; reflexivity|]. split; [cbn [xml_ok]; rewrite Htag, Hattrs, Hdup, K; reflexivity|].
      rewrite U. cbn [bind]. rewrite N.add_0_l. reflexivity.
    - exists (X tag attrs text kids'). cbn [norm]. rewrite !walk_X. rewrite M.
      assert (W0 : w = 0) by reflexivity. rewrite W0, N.add_0_r in *. rewrite N.add_0_l.
      replace (match text with Some _ => Ok (text, pos) | None => Ok (text, pos) end) with (Ok (text, pos) : res (option str * N)) by (destruct text; reflexivity).
      cbn [bind]. rewrite E. cbn [bind]. split; [reflexivity|]. split; [cbn [xml_ok]; rewrite Htag, Hattrs, Hdup, Htext, K; reflexivity|].
      replace (norm_text text kids') with (norm_text text kids).
      2: { destruct text as [s|]; [|reflexivity]. cbn [norm_text]. unfold keep_text. destruct s; [reflexivity|].
           destruct kids, kids'; try discriminate; reflexivity. }
      destruct (norm_text text kids); cbn [bind]; rewrite U; reflexivity.
  Qed.
End Walk.

Lemma stream_ks_bytes L s k ks : lib_ok L -> stream_ks L s k = Ok ks -> forall p, is_byte (ks p).
Proof.
  intros HL. destruct s; cbn [stream_ks]; try discriminate; intros [= <-] p; [apply (ok_salsa _ HL)|apply (ok_chacha _ HL)].
Qed.
(** What the reader sees, per stream cipher. *)
Definition view_for (s : streamid) (t : xml) : xml := match s with S_none => norm t | _ => reload_view t end.
Lemma protect_unprotect L s key t t' : lib_ok L -> xml_ok t = true -> snd (protect L s key t) = Ok t' ->
  xml_ok t' = true /\ unprotect L s key (norm t') = Ok (view_for s t).
Proof.
  intros HL Hok. unfold protect, unprotect, view_for. destruct s; cbn [snd].
  - intros [= <-]. auto.
  - intros H. apply bind_ok in H. destruct H as (k & -> & H). discriminate.
  - intros H. apply bind_ok in H. destruct H as (k & -> & H). apply bind_ok in H. destruct H as (ks & Ek & H).
    cbn [bind]. rewrite Ek. cbn [bind].
    destruct (walk_ok ks (stream_ks_bytes _ _ _ _ HL Ek) t Hok 0) as (t2 & W & K & U). rewrite W in H. injection H as <-.
    split; [exact K|]. rewrite U. reflexivity.
  - intros H. apply bind_ok in H. destruct H as (k & -> & H). apply bind_ok in H. destruct H as (ks & Ek & H).
    cbn [bind]. rewrite Ek. cbn [bind].
    destruct (walk_ok ks (stream_ks_bytes _ _ _ _ HL Ek) t Hok 0) as (t2 & W & K & U). rewrite W in H. injection H as <-.
    split; [exact K|]. rewrite U. reflexivity.
Qed.
Ltac bok H x E := let y := fresh in apply bind_ok in H; destruct H as (x & E & H).
Ltac bokp H x y E := apply bind_ok in H; destruct H as ([x y] & E & H).
(** Protecting keeps the nesting, and the sizes within the limits. *)
Lemma protected_marked tag attrs : is_protected tag attrs = true -> markedb tag attrs = true.
Proof.
  unfold is_protected, markedb. destruct (str_eqb tag _); [|discriminate]. cbn [andb]. induction attrs as [|[n v] l IH]; cbn [List.find existsb fst snd]; [discriminate|].
  destruct (str_eqb n _); [intros ->; reflexivity|exact IH].
Qed.
Lemma utf8_size_ascii s : forallb (fun c => c <? 128) s = true -> utf8_size s = lenN s.
Proof.
  induction s as [|c s IH]; [reflexivity|]. cbn [forallb]. intros H. apply andb_prop in H as [H1 H2]. rewrite lenN_cons, <- IH by exact H2. change (utf8_size (c :: s)) with (utf8_width c + utf8_size s). unfold utf8_width. change 0x80 with 128. rewrite H1. reflexivity.
Qed.
Lemma utf8_size_encode s : forall b, utf8_encode s = Ok b -> lenN b = utf8_size s.
Proof.
  induction s as [|c s IH]; intros b; cbn [utf8_encode]; [intros E; injection E as <-; reflexivity|]. destruct (is_scalar c); [|discriminate]. intros E. bok E r Er. injection E as <-. rewrite lenN_app, (IH _ Er).
  change (utf8_size (c :: s)) with (utf8_width c + utf8_size s). f_equal. unfold utf8_char, utf8_width. repeat match goal with |- context [if ?x then _ else _] => destruct x end; reflexivity.
Qed.
Lemma b64_size l : lenN (b64encode l) = 4 * ((lenN l + 2) / 3).
Proof.
  induction l as [|a|a b|a b c l IH] using list_ind3; try reflexivity. cbn [b64encode]. rewrite !lenN_cons, IH. replace (1 + (1 + (1 + lenN l)) + 2) with (lenN l + 2 + 1 * 3) by lia. rewrite N.div_add by discriminate. lia.
Qed.
Lemma walk_fits ks : (forall p, is_byte (ks p)) -> forall t pos t' p, walk (prot_text ks) pos t = Ok (t', p) -> xml_depth t' = xml_depth t /\ (modest_texts t = true -> texts_fit t' = true).
Proof.
  intros Hks t. induction t as [tag attrs text kids IH] using xml_ind'. intros pos t' p H. rewrite walk_X in H. bokp H text' p1 E. bokp H kids' p2 K. injection H as <- <-.
  assert (KK : map xml_depth kids' = map xml_depth kids /\ (forallb modest_texts kids = true -> forallb texts_fit kids' = true)).
  { clear E. revert p1 kids' p2 K. induction IH as [|k l Hk Hl IHl]; intros p1 kids' p2 K.
    - injection K as <- <-. split; reflexivity.
    - change (walk_list (prot_text ks) p1 (k :: l)) with (let* (k', p) := walk (prot_text ks) p1 k in let* (l'', p') := walk_list (prot_text ks) p l in Ok (k' :: l'', p')) in K.
      bokp K k' q Ek. bokp K l' q' El. injection K as <- <-. destruct (Hk _ _ _ Ek) as [D T]. destruct (IHl _ _ _ El) as [DD TT]. cbn [map forallb]. split; [now rewrite D, DD|]. intros M. apply andb_prop in M as [M1 M2]. now rewrite T, TT. }
  destruct KK as [KD KT]. cbn [xml_depth]. rewrite KD. split; [reflexivity|]. cbn [modest_texts texts_fit]. intros M. apply andb_prop in M as [M M3]. apply andb_prop in M as [M1 M2]. rewrite M1, (KT M3), !andb_true_r. cbn [andb].
  destruct text as [s|]; [|injection E as <- <-; apply N.leb_le; vm_compute; discriminate]. destruct (is_protected tag attrs) eqn:P.
  - rewrite (protected_marked _ _ P) in M2. bokp E s' q Es. injection E as <- <-. unfold prot_text in Es. bok Es b Eb. injection Es as <- <-. cbn [opt_text] in *.
    pose proof (xor_ks_ok ks b Hks (utf8_encode_ok _ _ Eb) pos) as Hx. rewrite (utf8_size_ascii _ (b64encode_ascii _ Hx)), b64_size. replace (lenN (xor_ks ks pos b)) with (lenN b) by (unfold lenN; now rewrite xor_ks_len). rewrite (utf8_size_encode _ _ Eb).
    apply N.leb_le in M2. apply N.leb_le. assert ((utf8_size s + 2) / 3 <= 2500000); [|lia]. transitivity ((7500000 + 2) / 3); [apply N.div_le_mono; lia|reflexivity || (vm_compute; discriminate)].
  - injection E as <- <-. cbn [opt_text] in *. apply N.leb_le in M2. apply N.leb_le. destruct (markedb tag attrs); lia.
Qed.
Lemma protect_fits L s key t t' : lib_ok L -> snd (protect L s key t) = Ok t' -> xml_depth t' = xml_depth t /\ (modest t = true -> lxml_reads t' = true).
Proof.
  intros HL H. assert (G : xml_depth t' = xml_depth t /\ (modest_texts t = true -> texts_fit t' = true)).
  { assert (W : forall k, (let* ks := stream_ks L s k in let* (t', _) := walk (prot_text ks) 0 t in Ok t') = Ok t' -> xml_depth t' = xml_depth t /\ (modest_texts t = true -> texts_fit t' = true)).
    { intros k W. bok W ks Ek. bokp W t2 p E. injection W as <-. exact (walk_fits ks (stream_ks_bytes _ _ _ _ HL Ek) _ _ _ _ E). }
    unfold protect in H. destruct s; cbn [snd] in H; try (bok H k Ekk; exact (W k H)). injection H as <-. split; [reflexivity|]. clear. induction t as [tag attrs text kids IH] using xml_ind'. cbn [modest_texts texts_fit]. intros M. apply andb_prop in M as [M M3]. apply andb_prop in M as [M1 M2]. rewrite M1. cbn [andb].
    apply andb_true_intro. split; [apply N.leb_le in M2; apply N.leb_le; destruct (markedb tag attrs); lia|]. rewrite forallb_forall in *. rewrite Forall_forall in IH. auto. }
  destruct G as [D T]. split; [exact D|]. unfold modest, lxml_reads. intros M. apply andb_prop in M as [M1 M2]. now rewrite D, M1, T.
Qed.
(** Whether protecting works depends only on the stream settings, which unprotecting has already used. *)
Lemma unprotect_protect_ok L s key t t1 u : lib_ok L -> xml_ok u = true -> unprotect L s key t = Ok t1 ->
  exists u', snd (protect L s key u) = Ok u'.
Proof.
  intros HL Hu. unfold protect, unprotect. destruct s; cbn [snd]; [eauto| | |];
    intros H; apply bind_ok in H; destruct H as (k & -> & H); apply bind_ok in H; destruct H as (ks & Ek & H); cbn [bind]; rewrite Ek; cbn [bind];
    destruct (walk_ok ks (stream_ks_bytes _ _ _ _ HL Ek) u Hu 0) as (t2 & W & K & U); rewrite W; cbn [bind]; eauto.
Qed.
