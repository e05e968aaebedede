(** [xml()] and [dump_xml] of the database object (pykeepass.py:303-323), and facts about them.
    Simplification: the file name argument of [dump_xml] is a path. *)
From Coq Require Import ZifyBool ZifyNat ZifyN.
From Verif Require Import Base PyStr Utf8 Xml Xml_facts Dump Tree XPath Time Db Api IntegritySpec Lib Keyfile Kdbx Kdbx_inner Kdbx_file Kdbx_v3 Kdbx_rt Save Save_facts Object Clean ObjectSpec Object_facts.

(** pykeepass.py:303-313 *)
Definition xml_of (o : obj) : res bytes :=
  let* d := payload_of o in
  match d_forest d with t :: _ => xml_text (erase t) | [] => Err Ex_Attribute end.
(** pykeepass.py:315-323: the file is opened for writing (created or emptied) before [xml()] is called. *)
Definition dump_xml (e : env) (w : world) (o : obj) (target : path) : res unit * world :=
  if e_open e then
    match xml_of o with
    | Ok b => let '(out, r) := limited (e_room e) b (Ok tt) in
              (r, with_fs w (Save.run (w_fs w) (Create target :: map (Write target) (e_split e out))))
    | Err x => (Err x, with_fs w (Save.run (w_fs w) [Create target]))
    end
  else (Err Ex_IO, w).

(** *** Vocabulary *)
(** The element [e] is [t] or below it. *)
Inductive inside (e : xml) : xml -> Prop :=
| I_self : inside e e
| I_kid g a x k t : In t k -> inside e t -> inside e (X g a x k).
(** [b] contains [s]. *)
Definition holds (b s : bytes) : Prop := exists u v, b = u ++ s ++ v.
(** A text without characters that XML writes differently. *)
Definition unmarked (s : str) : Prop := forall c, In c s -> c <> 38 /\ c <> 60 /\ c <> 62 /\ c <> 13.

(** *** Reading back *)
Lemma reached_doc L R Zl lost o k d : lib_ok L -> xml_sound L -> reached L R Zl lost o -> o_kdbx o = Some (k, Some d) ->
  exists t F, d_forest d = t :: F /\ document d = Some (erase t) /\ xml_ok (erase t) = true.
Proof.
  intros HL HX H Ho. pose proof (reached_sound L R Zl lost o HL HX H) as S. unfold sound in S. rewrite Ho in S.
  destruct S as (_ & (W & C) & _). unfold document. destruct (d_forest d) as [|t F] eqn:EF; [destruct W; congruence|].
  exists t, F. split; [reflexivity|]. split; [reflexivity|]. now inversion C.
Qed.
Theorem xml_reads L R Zl lost o k d : lib_ok L -> xml_sound L -> reached L R Zl lost o -> o_kdbx o = Some (k, Some d) ->
  exists b t, xml_of o = Ok b /\ document d = Some t /\ xml_parse_doc b = Ok (norm t).
Proof.
  intros HL HX H Ho. destruct (reached_doc L R Zl lost o k d HL HX H Ho) as (t & F & EF & ED & Hx).
  destruct (xml_text_reads (erase t) Hx) as (b & Eb & Pb). exists b, (erase t). split; [|auto].
  unfold xml_of, payload_of. rewrite Ho. cbn [bind]. rewrite EF. exact Eb.
Qed.

(** *** Values *)
Lemma plain_unmarked s : unmarked s -> plain_text s = s.
Proof.
  induction s as [|c s IH]; [reflexivity|]. intros H. unfold plain_text in *. cbn [flat_map]. rewrite IH by (intros a Ha; apply H; right; exact Ha).
  destruct (H c (or_introl eq_refl)) as (H1 & H2 & H3 & H4). unfold plain_text_c.
  rewrite (proj2 (N.eqb_neq c 38) H1), (proj2 (N.eqb_neq c 60) H2), (proj2 (N.eqb_neq c 62) H3), (proj2 (N.eqb_neq c 13) H4). reflexivity.
Qed.
Lemma in_flat_map_split {A} (g : A -> str) l a : In a l -> exists u v, flat_map g l = u ++ g a ++ v.
Proof.
  induction l as [|b l IH]; intros H; [destruct H|]. cbn [flat_map]. destruct H as [->|H]; [exists [], (flat_map g l); reflexivity|].
  destruct (IH H) as (u & v & ->). exists (g b ++ u), v. now rewrite <- app_assoc.
Qed.
Lemma holds_app a u b s : holds u s -> holds (a ++ u ++ b) s.
Proof. intros (p & q & ->). exists (a ++ p), (q ++ b). rewrite <- !app_assoc. reflexivity. Qed.
Lemma print_value e t s : inside e t -> xtext e = Some s -> forall p lvl, holds (print p lvl t) (plain_text s).
Proof.
  intros H Hs. induction H as [|g a x k t Hk H IH]; intros p lvl.
  - destruct e as [g a x k]. cbn [xtext] in Hs. subst x. cbn [print].
    exists (60 :: g ++ flat_map print_attr a ++ [62]). eexists. cbn [app]. rewrite <- !app_assoc. cbn [app]. reflexivity.
  - cbn [print].
    assert (N : forall r, holds r (plain_text s) -> holds (60 :: g ++ flat_map print_attr a ++ r) (plain_text s)).
    { intros r Hr. apply (holds_app (60 :: g ++ flat_map print_attr a) r []) in Hr. rewrite app_nil_r in Hr. cbn [app] in Hr. rewrite <- app_assoc in Hr. exact Hr. }
    assert (K : forall lvl', holds (flat_map (print false lvl') k) (plain_text s)).
    { intros lvl'. destruct (in_flat_map_split (print false lvl') k t Hk) as (u & v & ->). apply holds_app, IH. }
    apply N. destruct x as [x|]; [|destruct k as [|k0 k]; [destruct Hk|destruct p]].
    + change (62 :: plain_text x ++ ?r) with ((62 :: plain_text x) ++ r). apply holds_app, K.
    + destruct (in_flat_map_split (fun k => indent (S lvl) ++ print true (S lvl) k ++ [10]) (k0 :: k) t Hk) as (u & v & ->).
      apply (holds_app [62; 10] _ _). cbn beta. apply holds_app. apply holds_app. apply IH.
    + apply (holds_app [62]), K.
Qed.
Lemma encode_app a : forall b r, utf8_encode (a ++ b) = Ok r -> exists x y, utf8_encode a = Ok x /\ utf8_encode b = Ok y /\ r = x ++ y.
Proof.
  induction a as [|c a IH]; intros b r H; [exists [], r; auto|]. cbn [app utf8_encode] in *. destruct (is_scalar c); [|discriminate].
  apply bind_ok in H. destruct H as (r' & H & E). injection E as <-. destruct (IH b r' H) as (x & y & -> & -> & ->).
  exists (utf8_char c ++ x), y. cbn [bind]. rewrite app_assoc. auto.
Qed.
Lemma encode_holds a s b bs : utf8_encode a = Ok b -> utf8_encode s = Ok bs -> holds a s -> holds b bs.
Proof.
  intros Ha Hs (u & v & ->). destruct (encode_app _ _ _ Ha) as (x & y & _ & Hy & ->). destruct (encode_app _ _ _ Hy) as (x2 & y2 & H2 & _ & ->).
  exists x, y2. congruence.
Qed.
Theorem xml_shows o k d b t e s bs : o_kdbx o = Some (k, Some d) -> document d = Some t -> xml_of o = Ok b ->
  inside e t -> xtext e = Some s -> unmarked s -> utf8_encode s = Ok bs -> holds b bs.
Proof.
  intros Ho ED Ex Hi Hs Hu Eb. unfold xml_of, payload_of in Ex. rewrite Ho in Ex. cbn [bind] in Ex. unfold document in ED.
  destruct (d_forest d) as [|el F]; [discriminate|]. cbn [hd_error option_map] in ED. injection ED as <-.
  unfold xml_text in Ex. eapply encode_holds; [exact Ex|exact Eb|]. apply holds_app. rewrite <- (plain_unmarked s Hu). now apply (print_value e).
Qed.

(** *** Files *)
Lemma run_dump s p l : Save.run s (Create p :: map (Write p) l) p = Some (List.concat l) /\ forall q, q <> p -> Save.run s (Create p :: map (Write p) l) q = s q.
Proof.
  split.
  - unfold Save.run. cbn [fold_left run_op]. fold (Save.run (fs_set s p (Some [])) (map (Write p) l)).
    rewrite run_writes with (old := []) by apply fs_set_same. reflexivity.
  - intros q Hq. apply (run_other [p]); [apply only_writes|]. intros [->|[]]. now apply Hq.
Qed.
Theorem dump_file e w o p b w' : env_ok e -> xml_of o = Ok b -> dump_xml e w o p = (Ok tt, w') ->
  w_fs w' p = Some b /\ (forall q, q <> p -> w_fs w' q = w_fs w q) /\ w_st w' = w_st w.
Proof.
  intros He Ex H. unfold dump_xml in H. rewrite Ex in H. destruct (e_open e); [|discriminate].
  assert (El : limited (e_room e) b (Ok tt) = (b, Ok tt)).
  { revert H. unfold limited. destruct (e_room e) as [n|]; [|reflexivity]. destruct (List.length b <=? n)%nat; [reflexivity|discriminate]. }
  rewrite El in H. injection H as <-. cbn [with_fs w_fs w_st].
  destruct (run_dump (w_fs w) p (e_split e b)) as [H1 H2]. rewrite He in H1. auto.
Qed.
(** When it fails, other files are untouched; the target keeps its contents only if it could not be opened. *)
Theorem dump_fails e w o p x w' : env_ok e -> dump_xml e w o p = (Err x, w') ->
  (forall q, q <> p -> w_fs w' q = w_fs w q) /\ w_st w' = w_st w /\
  (w' = w \/ exists out rest, w_fs w' p = Some out /\ (xml_of o = Ok (out ++ rest) \/ (out = [] /\ xml_of o = Err x))).
Proof.
  intros He H. unfold dump_xml in H. destruct (e_open e); [|injection H as _ <-; auto].
  destruct (xml_of o) as [b|y] eqn:Ex.
  - destruct (limited (e_room e) b (Ok tt)) as [out r] eqn:El. injection H as -> <-. cbn [with_fs w_fs w_st].
    destruct (run_dump (w_fs w) p (e_split e out)) as [H1 H2]. rewrite He in H1. split; [exact H2|]. split; [reflexivity|]. right.
    exists out. unfold limited in El. destruct (e_room e) as [n|]; [|discriminate]. destruct (List.length b <=? n)%nat; [discriminate|].
    injection El as <- <-. exists (skipn n b). rewrite firstn_skipn. auto.
  - injection H as <- <-. cbn [with_fs w_fs w_st]. destruct (run_dump (w_fs w) p []) as [H1 H2].
    split; [exact H2|]. split; [reflexivity|]. right. exists [], []. auto.
Qed.
