(** The remaining premises on libraries hold of the published algorithms too: documents read can be written, exceptions are the libraries' own. *)
From Verif Require Import Base PyStr Utf8 Xml Xml_sound Lib Keyfile Construct Kdbx NoDecrypt Argon Save Object ObjectSpec Real.

Lemma real_sound : xml_sound real.
Proof. intros b t. cbn [real xml_parse]. unfold lxml_parse. intros H. apply bind_ok in H as (u & E & H). destruct (lxml_reads u); [|discriminate]. injection H as <-. exact (xml_parse_ok b u E). Qed.
Ltac quiet := repeat first [exact I | assumption | match goal with H : forall _, _ |- _ => apply H end | apply calm_bind; [|intros ? _]
  | match goal with |- calm (let '(_, _) := ?x in _) => destruct x | |- calm (if ?b then _ else _) => destruct b | |- calm (match ?x with _ => _ end) => destruct x end].
Lemma quiet_ref s : calm (parse_ref s).
Proof. unfold parse_ref. destruct (span _ s) as [b r]. destruct (ref_value b); quiet. Qed.
Lemma quiet_text f : forall s, calm (parse_text f s).
Proof. induction f as [|f IH]; intros s; cbn [parse_text]; [exact I|]. cbv zeta. pose proof quiet_ref. destruct s as [|c s]; [exact I|]. destruct (c =? 60); [exact I|]. destruct (c =? 38); [|destruct (c =? 13); [|destruct (xml_char c)]]; quiet. Qed.
Lemma quiet_attval f q : forall s, calm (parse_attval f q s).
Proof. induction f as [|f IH]; intros s; cbn [parse_attval]; [exact I|]. cbv zeta. pose proof quiet_ref. destruct s as [|c s]; [exact I|]. destruct (c =? q); [exact I|]. destruct (c =? 60); [exact I|]. destruct (c =? 38); [|destruct (c =? 13); [|destruct (xml_char c)]]; quiet. Qed.
Lemma quiet_name s : calm (parse_name s). Proof. unfold parse_name. quiet. Qed.
Lemma quiet_attrs f : forall acc s, calm (parse_attrs f acc s).
Proof. induction f as [|f IH]; intros acc s; cbn [parse_attrs]; [exact I|]. cbv zeta. pose proof quiet_name. pose proof quiet_attval. quiet. Qed.
Lemma quiet_elem f : (forall s, calm (pelem f s)) /\ forall s, calm (pkids f s).
Proof.
  induction f as [|f [IH1 IH2]]; [split; intros; exact I|]. pose proof quiet_name. pose proof quiet_attrs. pose proof quiet_text. split; intros s; cbn [pelem pkids]; quiet.
Qed.
Lemma quiet_doc b : calm (xml_parse_doc b).
Proof. unfold xml_parse_doc. apply calm_bind; [apply calm_utf8|intros s _]. cbv zeta. pose proof (fun f => proj1 (quiet_elem f)). quiet. Qed.
Lemma real_calm : libs_calm real.
Proof. split; [|exact quiet_doc]. intros. cbn [real argon2]. unfold argon2_of. destruct (_ && _); exact I. Qed.
