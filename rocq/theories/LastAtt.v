(** Attachments: only the last file name and the last number count, and assigning them again changes nothing. *)
From Verif Require Import Base PyStr Xml Tree XPath Uuid Time Db Save FindSpec XPath_facts XPath_eval Find_facts Api ApiSpec StructSpec CredSpec Heap Prim Api_xpath Api_fields Api_sub Api_claims Struct Struct_bin Struct_trash Bin_xpath Cred Relabel Integrity_ops IntegritySpec Lib Kdbx Object ObjectSpec FailSpec Scratch AgainSpec Again LastSpec Last.

Definition place (b : bool) : str := if b then $"Value" else $"Key".
Definition mark (o : op) (r : row) : row := match o with Op_att_id _ z => with_attrs (attr_put $"Ref" (str_of_Z z) (r_attrs r)) r | Op_att_filename _ v => with_text v r | _ => r end.
Definition lawful (o : op) : bool := match o with Op_att_filename _ (Some s) => text_ok s | _ => true end.
Definition rewritten (d d' : db) (k : nat) (r' : row) : Prop := wf d' /\ same_meta d d' /\ rts d' = rts d /\ lk d' k = Some r' /\ forall j, j <> k -> lk d' j = lk d j.
Lemma mark_same o r : r_tag (mark o r) = r_tag r /\ r_kids (mark o r) = r_kids r. Proof. destruct o; split; reflexivity. Qed.
Lemma put_put k v w l : attr_put k w (attr_put k v l) = attr_put k w l.
Proof.
  induction l as [|[m u] l IH]; cbn [attr_put]; [now rewrite str_eqb_refl|]. destruct (str_eqb m k) eqn:E; cbn [attr_put]; rewrite E; [reflexivity|now rewrite IH].
Qed.
Lemma mark_mark b a o o' r : relabels b a o -> relabels b a o' -> mark o' (mark o r) = mark o' r.
Proof.
  intros H H'. destruct o, b; cbn [relabels] in H; try contradiction; destruct o'; cbn [relabels] in H'; try contradiction; cbn [mark]; [|reflexivity]. unfold with_attrs. f_equal. apply put_put.
Qed.
(** What the call does, given the first element of the kind. *)
Lemma relabel_does R Zl C b a o d t k : wf d -> has d t -> eid t = a -> relabels b a o -> find1 (place b) t = Some k -> has d k ->
  if lawful o then exists d', IntegritySpec.run R Zl C o d = (Ok tt, d') /\ rewritten d d' (eid k) (mark o (row_of k)) else exists x, fst (IntegritySpec.run R Zl C o d) = Err x.
Proof.
  intros W Ht Ei H F Hk. destruct o, b; cbn [relabels] in H; try contradiction; subst; cbn [IntegritySpec.run lawful mark place] in *.
  - destruct (set_attr_run d (eid k) k $"Ref" (str_of_Z id) W Hk eq_refl (int_text id)) as (d' & E & W' & M & _ & Rr & L1 & L2). exists d'. split; [|repeat (split; [assumption|]); exact L2]. unfold set_att_id. rewrite (mbind_ok _ _ _ _ _ (the_run d (eid t) t W Ht eq_refl)), F. exact E.
  - assert (E0 : set_att_filename (eid t) v d = lx_set_text (eid k) v d) by (unfold set_att_filename; now rewrite (mbind_ok _ _ _ _ _ (the_run d (eid t) t W Ht eq_refl)), F). rewrite E0.
    destruct v as [s|].
    + destruct (text_ok s) eqn:Es; [|rewrite (set_text_illegal d _ s Es); now exists Ex_Value]. destruct (set_text_run d (eid k) k (Some s) W Hk eq_refl Es) as (d' & E & W' & M & _ & Rr & L1 & L2). exists d'. split; [exact E|]. repeat (split; [assumption|]). exact L2.
    + destruct (set_text_run d (eid k) k None W Hk eq_refl eq_refl) as (d' & E & W' & M & _ & Rr & L1 & L2). exists d'. split; [exact E|]. repeat (split; [assumption|]). exact L2.
Qed.
Lemma relabel_none R Zl C b a o d t : wf d -> has d t -> eid t = a -> relabels b a o -> find1 (place b) t = None -> exists x, fst (IntegritySpec.run R Zl C o d) = Err x.
Proof.
  intros W Ht Ei H F. exists Ex_Attribute. destruct o, b; cbn [relabels] in H; try contradiction; subst; cbn [IntegritySpec.run place] in *; [unfold set_att_id|unfold set_att_filename]; rewrite (mbind_ok _ _ _ _ _ (the_run d (eid t) t W Ht eq_refl)), F; reflexivity.
Qed.
Lemma find1_tagged d t T : wf d -> has d t -> option_map eid (find1 T t) = hd_error (kids_tagged (lk d) T (eid t)).
Proof. intros W Ht. rewrite (kids_tagged_of d t T W Ht). unfold find1. destruct (kids_of T t); reflexivity. Qed.
Lemma find1_has d t T k : has d t -> find1 T t = Some k -> has d k.
Proof. intros Ht F. unfold find1 in F. apply (has_kid d t k Ht). assert (I : In k (kids_of T t)) by (destruct (kids_of T t); [discriminate|injection F as ->; now left]). now apply kids_of_in in I as [I _]. Qed.
(** On the rows. *)
Lemma relabel_done R Zl C b a o d d1 t : wf d -> has d t -> eid t = a -> relabels b a o -> IntegritySpec.run R Zl C o d = (Ok tt, d1) ->
  exists k r, hd_error (kids_tagged (lk d) (place b) a) = Some k /\ lk d k = Some r /\ lawful o = true /\ rewritten d d1 k (mark o r).
Proof.
  intros W Ht Ei H E. destruct (find1 (place b) t) as [k|] eqn:F; [|destruct (relabel_none R Zl C b a o d t W Ht Ei H F) as (x & X); rewrite E in X; discriminate].
  pose proof (find1_has d t _ k Ht F) as Hk. pose proof (relabel_does R Zl C b a o d t k W Ht Ei H F Hk) as D. destruct (lawful o); [|destruct D as (x & X); rewrite E in X; discriminate]. destruct D as (d' & E' & D). rewrite E in E'. injection E' as <-.
  exists (eid k), (row_of k). split; [rewrite <- Ei, <- (find1_tagged d t _ W Ht), F; reflexivity|]. split; [now apply look_self; [apply W|]|]. split; [reflexivity|exact D].
Qed.
Lemma relabel_can R Zl C b a o d t k r : wf d -> has d t -> eid t = a -> relabels b a o -> lawful o = true -> hd_error (kids_tagged (lk d) (place b) a) = Some k -> lk d k = Some r ->
  exists d1, IntegritySpec.run R Zl C o d = (Ok tt, d1) /\ rewritten d d1 k (mark o r).
Proof.
  intros W Ht Ei H L K Er. rewrite <- Ei, <- (find1_tagged d t _ W Ht) in K. destruct (find1 (place b) t) as [e|] eqn:F; [|discriminate]. cbn [option_map] in K. injection K as <-. pose proof (find1_has d t _ e Ht F) as Hk.
  pose proof (relabel_does R Zl C b a o d t e W Ht Ei H F Hk) as D. rewrite L in D. rewrite (look_self _ e (wf_unique _ W) Hk) in Er. apply Some_inj in Er. subst r. exact D.
Qed.
Lemma rewritten_one d d1 k r o : lk d k = Some r -> rewritten d d1 k (mark o r) -> one_row d d1 k.
Proof. intros E (_ & M & Rr & L1 & L2). split; [exact M|]. split; [now rewrite Rr|]. split; [exact L2|]. exists r, (mark o r). destruct (mark_same o r). auto. Qed.
Lemma still d d1 t k r o : wf d -> has d t -> lk d k = Some r -> rewritten d d1 k (mark o r) -> exists t1, has d1 t1 /\ eid t1 = eid t.
Proof.
  intros W Ht Er (W1 & _ & _ & L1 & L2). destruct (Nat.eq_dec (eid t) k) as [E|N].
  - destruct (look_has d1 k _ W1 L1) as (u & Hu & Eu & _). exists u. split; [exact Hu|congruence].
  - assert (L : lk d1 (eid t) = Some (row_of t)) by (rewrite L2 by exact N; now apply look_self; [apply W|]). destruct (look_has d1 _ _ W1 L) as (u & Hu & Eu & _). now exists u.
Qed.
Lemma same_rows d d' : wf d -> wf d' -> same_meta d d' -> rts d' = rts d -> (forall j, lk d' j = lk d j) -> untouched d d'.
Proof. intros W W' (M1 & M2 & M3) Rr L. split; [|auto]. apply (rows_document d d' W W'); [now rewrite Rr|auto]. Qed.
Theorem label_last R Zl C C' C'' b a o o' d d1 d2 t : wf d -> has_elem d t -> eid t = a -> relabels b a o -> relabels b a o' -> IntegritySpec.run R Zl C o d = (Ok tt, d1) -> IntegritySpec.run R Zl C' o' d1 = (Ok tt, d2) ->
  exists d3, IntegritySpec.run R Zl C'' o' d = (Ok tt, d3) /\ untouched d3 d2.
Proof.
  intros W Ht Ei H H' E F. destruct (relabel_done R Zl C b a o d d1 t W Ht Ei H E) as (k & r & K & Er & _ & D). destruct (still d d1 t k r o W Ht Er D) as (t1 & Ht1 & Ei1). pose proof D as (W1 & M1 & R1 & L1 & O1). rewrite Ei in Ei1.
  destruct (relabel_done R Zl C' b a o' d1 d2 t1 W1 Ht1 Ei1 H' F) as (k' & r' & K' & Er' & Lw & D'). rewrite (one_row_tagged d d1 k _ a (rewritten_one _ _ _ _ _ Er D)), K in K'. injection K' as <-. rewrite L1 in Er'. apply Some_inj in Er'. subst r'. rewrite (mark_mark b a o o' r H H') in D'.
  destruct (relabel_can R Zl C'' b a o' d t k r W Ht Ei H' Lw K Er) as (d3 & E3 & D3). exists d3. split; [exact E3|]. destruct D' as (W2 & M2 & R2 & L2 & O2). destruct D3 as (W3 & M3 & R3 & L3 & O3).
  apply (same_rows d3 d2 W3 W2); [destruct M1 as (? & ? & ?), M2 as (? & ? & ?), M3 as (? & ? & ?); repeat split; congruence|congruence|]. intros j. destruct (Nat.eq_dec j k) as [->|N]; [congruence|rewrite O2, O1, O3; auto].
Qed.
Theorem label_again R Zl C C' b a o d d1 t : wf d -> has_elem d t -> eid t = a -> relabels b a o -> IntegritySpec.run R Zl C o d = (Ok tt, d1) -> exists d2, IntegritySpec.run R Zl C' o d1 = (Ok tt, d2) /\ untouched d1 d2.
Proof.
  intros W Ht Ei H E. destruct (relabel_done R Zl C b a o d d1 t W Ht Ei H E) as (k & r & K & Er & Lw & D). destruct (still d d1 t k r o W Ht Er D) as (t1 & Ht1 & Ei1). pose proof D as (W1 & M1 & R1 & L1 & O1). rewrite Ei in Ei1.
  destruct (relabel_can R Zl C' b a o d1 t1 k (mark o r) W1 Ht1 Ei1 H Lw) as (d2 & E2 & D2); [now rewrite (one_row_tagged d d1 k _ a (rewritten_one _ _ _ _ _ Er D))|exact L1|]. exists d2. split; [exact E2|]. rewrite (mark_mark b a o o r H H) in D2. destruct D2 as (W2 & M2 & R2 & L2 & O2).
  apply (same_rows d1 d2 W1 W2 M2 R2). intros j. destruct (Nat.eq_dec j k) as [->|N]; [congruence|now apply O2].
Qed.
