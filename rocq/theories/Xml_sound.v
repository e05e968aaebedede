(** Every document the parser (Xml.v) accepts can be serialised again. *)
From Coq Require Import ZifyBool ZifyNat ZifyN.
From Verif Require Import Base PyStr Utf8 Xml.

Lemma span_ok p s : forall a r, span p s = (a, r) -> forallb p a = true.
Proof.
  induction s as [|c s IH]; cbn [span]; intros a r H; [injection H as <- <-; reflexivity|].
  destruct (p c) eqn:E; [|injection H as <- <-; reflexivity]. destruct (span p s) as [b q]. injection H as <- <-. cbn [forallb]. rewrite E. now apply (IH b q).
Qed.
Lemma parse_name_ok s n r : parse_name s = Ok (n, r) -> name_ok n = true.
Proof.
  unfold parse_name. destruct (span name_char s) as [m q] eqn:E. apply span_ok in E. destruct m as [|c m]; [discriminate|]. destruct (name_start c) eqn:E2; [|discriminate].
  intros H. injection H as <- <-. unfold name_ok. now rewrite E2, E.
Qed.
Lemma parse_ref_ok s c r : parse_ref s = Ok (c, r) -> xml_char c = true.
Proof.
  unfold parse_ref. destruct (span _ s) as [b q]. destruct q as [|x q]; [discriminate|]. destruct (N.eqb_spec x 59) as [->|Hx].
  - destruct (ref_value b) as [v|]; [|discriminate]. destruct (xml_char v) eqn:E; [|discriminate]. intros H. now injection H as <- <-.
  - intros H. exfalso. revert H. destruct x as [|p]; [discriminate|]. repeat (destruct p as [p|p|]; try discriminate). now destruct Hx.
Qed.
Lemma parse_text_ok f : forall s t b r, parse_text f s = Ok (t, b, r) -> text_ok t = true.
Proof.
  induction f as [|f IH]; cbn [parse_text]; intros s t b r H; [discriminate|]. destruct s as [|c s]; [discriminate|].
  destruct (c =? 60); [injection H as <- <- <-; reflexivity|]. destruct (c =? 38).
  - apply bind_ok in H as ([v q] & E & H). apply bind_ok in H as ([[t' b'] q'] & E2 & H). injection H as <- <- <-. cbn [text_ok forallb]. rewrite (parse_ref_ok _ _ _ E). exact (IH _ _ _ _ E2).
  - destruct (c =? 13).
    + apply bind_ok in H as ([[t' b'] q'] & E2 & H). injection H as <- <- <-. exact (IH _ _ _ _ E2).
    + destruct (xml_char c) eqn:Ec; [|discriminate]. apply bind_ok in H as ([[t' b'] q'] & E2 & H). injection H as <- <- <-. cbn [text_ok forallb]. rewrite Ec. exact (IH _ _ _ _ E2).
Qed.
Lemma parse_attval_ok f q : forall s t r, parse_attval f q s = Ok (t, r) -> text_ok t = true.
Proof.
  induction f as [|f IH]; cbn [parse_attval]; intros s t r H; [discriminate|]. destruct s as [|c s]; [discriminate|].
  destruct (c =? q); [injection H as <- <-; reflexivity|]. destruct (c =? 60); [discriminate|]. destruct (c =? 38).
  - apply bind_ok in H as ([v p] & E & H). apply bind_ok in H as ([t' q'] & E2 & H). injection H as <- <-. cbn [text_ok forallb]. rewrite (parse_ref_ok _ _ _ E). exact (IH _ _ _ E2).
  - destruct (c =? 13).
    + apply bind_ok in H as ([t' q'] & E2 & H). injection H as <- <-. exact (IH _ _ _ E2).
    + destruct (xml_char c) eqn:Ec; [|discriminate]. apply bind_ok in H as ([t' q'] & E2 & H). injection H as <- <-. cbn [text_ok forallb]. specialize (IH _ _ _ E2). unfold text_ok in IH. rewrite IH. destruct (xml_space c); [reflexivity|]. now rewrite Ec.
Qed.
Definition attrs_ok (l : list (str * str)) : bool := forallb (fun a => name_ok (fst a) && text_ok (snd a)) l && nodup_keys l.
Lemma existsb_rev {A} (p : A -> bool) l : existsb p (rev l) = existsb p l.
Proof. induction l as [|x l IH]; [reflexivity|]. cbn [rev existsb]. rewrite existsb_app. cbn [existsb]. rewrite IH, orb_false_r. apply orb_comm. Qed.
Lemma nodup_snoc l n v : nodup_keys l = true -> existsb (fun a : str * str => str_eqb (fst a) n) l = false -> nodup_keys (l ++ [(n, v)]) = true.
Proof.
  induction l as [|[m w] l IH]; cbn [app nodup_keys existsb fst]; [reflexivity|]. intros H1 H2. apply andb_true_iff in H1 as [H1 H1']. apply orb_false_iff in H2 as [H2 H2'].
  rewrite IH by assumption. rewrite andb_true_r. apply negb_true_iff in H1. apply negb_true_iff. rewrite existsb_app. apply orb_false_iff. split; [exact H1|]. cbn [existsb fst]. rewrite orb_false_r.
  destruct (str_eqb n m) eqn:E; [|reflexivity]. apply str_eqb_eq in E as ->. now rewrite str_eqb_refl in H2.
Qed.
Lemma parse_attrs_ok f : forall acc s l b r, attrs_ok (rev acc) = true -> parse_attrs f acc s = Ok (l, b, r) -> attrs_ok l = true.
Proof.
  induction f as [|f IH]; intros acc s l b r Ha H; [discriminate|]. cbn [parse_attrs] in H. set (s1 := skip_space s) in *.
  assert (K : (let* (n, r) := parse_name s1 in
          match skip_space r with
          | 61 :: r1 =>
              match skip_space r1 with
              | q :: r2 =>
                  if (q =? 34) || (q =? 39) then
                    let* (v, r3) := parse_attval (S (List.length r2)) q r2 in
                    if existsb (fun a => str_eqb (fst a) n) acc then Err Ex_XMLSyntax
                    else parse_attrs f ((n, v) :: acc) r3
                  else Err Ex_XMLSyntax
              | [] => Err Ex_XMLSyntax
              end
          | _ => Err Ex_XMLSyntax
          end) = Ok (l, b, r) -> attrs_ok l = true).
  { clear H. intros H. apply bind_ok in H as ([n q] & E & H). apply parse_name_ok in E. destruct (skip_space q) as [|x r1]; [discriminate|].
    destruct (N.eqb_spec x 61) as [->|Hx]; [|exfalso; revert H; destruct x as [|p]; [discriminate|]; repeat (destruct p as [p|p|]; try discriminate); now destruct Hx].
    destruct (skip_space r1) as [|qq r2]; [discriminate|]. destruct ((qq =? 34) || (qq =? 39)); [|discriminate]. apply bind_ok in H as ([v r3] & E2 & H). apply parse_attval_ok in E2.
    match type of H with (if ?c then _ else _) = _ => destruct c eqn:E3; [discriminate|] end. apply (IH _ _ _ _ _) in H; [exact H|]. unfold attrs_ok in *. apply andb_true_iff in Ha as [H1 H2]. cbn [rev]. rewrite forallb_app, H1. cbn [forallb fst snd]. rewrite E, E2. cbn [andb].
    apply nodup_snoc; [exact H2|]. rewrite existsb_rev. exact E3. }
  destruct s1 as [|x s2]; [discriminate|]. destruct (N.eqb_spec x 62) as [->|Hx]; [injection H as <- <- <-; exact Ha|].
  destruct (N.eqb_spec x 47) as [->|Hx2].
  - destruct s2 as [|y s3]; [discriminate|]. destruct (N.eqb_spec y 62) as [->|Hy]; [injection H as <- <- <-; exact Ha|].
    apply K. revert H. destruct y as [|p]; [auto|]. repeat (destruct p as [p|p|]; try (intros H; exact H)). now destruct Hy.
  - apply K. revert H. destruct x as [|p]; [auto|]. repeat (destruct p as [p|p|]; try (intros H; exact H)); [now destruct Hx2|now destruct Hx].
Qed.
Lemma keep_text_ok t b k : text_ok t = true -> text_ok (opt_text (keep_text t b k)) = true.
Proof. intros H. unfold keep_text. destruct t; [reflexivity|]. destruct k; [exact H|]. destruct b; [reflexivity|exact H]. Qed.
Lemma pelem_ok f : (forall s t r, pelem f s = Ok (t, r) -> xml_ok t = true) /\ (forall s l r, pkids f s = Ok (l, r) -> forallb xml_ok l = true).
Proof.
  induction f as [|f [IH1 IH2]]; [split; discriminate|]. split.
  - intros s t r H. cbn [pelem] in H. apply bind_ok in H as ([tag q] & E & H). apply parse_name_ok in E. apply bind_ok in H as ([[attrs em] r1] & E1 & H). apply parse_attrs_ok in E1; [|reflexivity].
    unfold attrs_ok in E1. apply andb_true_iff in E1 as [A1 A2]. destruct em.
    + injection H as <- <-. cbn [xml_ok forallb opt_text text_ok]. now rewrite E, A1, A2.
    + apply bind_ok in H as ([[tx bl] r2] & E2 & H). apply parse_text_ok in E2. apply bind_ok in H as ([kids r3] & E3 & H). apply IH2 in E3. apply bind_ok in H as ([tag' r4] & _ & H).
      destruct (skip_space r4) as [|x r5]; [discriminate|]. destruct (N.eqb_spec x 62) as [->|Hx].
      * destruct (str_eqb tag tag'); [|discriminate]. injection H as <- <-. cbn [xml_ok]. now rewrite E, A1, A2, (keep_text_ok _ _ _ E2), E3.
      * exfalso. revert H. destruct x as [|p]; [discriminate|]. repeat (destruct p as [p|p|]; try discriminate). now destruct Hx.
  - intros s l r H. cbn [pkids] in H. destruct s as [|x s]; [discriminate|]. destruct (N.eqb_spec x 60) as [->|Hx].
    2: { exfalso. revert H. destruct x as [|p]; [discriminate|]. repeat (destruct p as [p|p|]; try discriminate). now destruct Hx. }
    assert (K : (let* (k, r1) := pelem f s in
          let* (_, blank, r2) := parse_text (S (List.length r1)) r1 in
          if (blank : bool) then let* (ks, r3) := pkids f r2 in Ok (k :: ks, r3)
          else Err Ex_XMLSyntax) = Ok (l, r) -> forallb xml_ok l = true).
    { clear H. intros H. apply bind_ok in H as ([k r1] & E & H). apply IH1 in E. apply bind_ok in H as ([[tx bl] r2] & _ & H). destruct bl; [|discriminate]. apply bind_ok in H as ([ks r3] & E3 & H). apply IH2 in E3.
      injection H as <- <-. cbn [forallb]. now rewrite E, E3. }
    destruct s as [|y s]; [exact (K H)|]. destruct (N.eqb_spec y 47) as [->|Hy]; [injection H as <- <-; reflexivity|].
    apply K. revert H. destruct y as [|p]; [auto|]. repeat (destruct p as [p|p|]; try (intros H; exact H)). now destruct Hy.
Qed.
Lemma xml_parse_ok b t : xml_parse_doc b = Ok t -> xml_ok t = true.
Proof.
  intros H. unfold xml_parse_doc in H. apply bind_ok in H as (s & _ & H). cbv zeta in H. set (s' := skip_space _) in H. destruct s' as [|x r]; [discriminate|].
  destruct (N.eqb_spec x 60) as [->|Hx].
  - apply bind_ok in H as ([t' r'] & E & H). apply pelem_ok in E. destruct (skip_space r'); [|discriminate]. now injection H as <-.
  - exfalso. revert H. destruct x as [|p]; [discriminate|]. repeat (destruct p as [p|p|]; try discriminate). now destruct Hx.
Qed.
