(** Attachments through sequences of add_binary, delete_binary, add_attachment and delete_attachment (C98). *)
From Coq Require Import ZifyBool ZifyNat ZifyN.
From Verif Require Import Base Base64 PyStr Xml Tree XPath Time Db XPath_parse XPath_facts XPath_eval FindSpec Find_facts Find_path Find_more ApiSpec StructSpec Heap Uuid Api Prim Api_xpath Api_fields Api_custom Api_sub Api_claims Struct Struct_add Struct_find Struct_bin Struct_trash Struct_empty Kdbx_rt BinSpec Bin_xpath Bin BinStore.

(** *** Vocabulary *)
(** The calls of C61, and deleting an attachment (attachment.py:56-58, entry.py:182-184). *)
Inductive aop := Bins (o : bop) | Detach (a : nat).
Definition run_aop (R : regex) (Zl : zlib) (o : aop) (d : db) : res Z * db :=
  match o with Bins o => run_bop R Zl o d | Detach a => (do _ <- delete a; ret 0%Z) d end.
Fixpoint after_aops (R : regex) (Zl : zlib) (os : list aop) (d : db) : db := match os with [] => d | o :: os => after_aops R Zl os (snd (run_aop R Zl o d)) end.
(** Sensible arguments; what is deleted is an attachment in the document, or one deleted before. *)
Fixpoint aops_ok (R : regex) (Zl : zlib) (d : db) (os : list aop) : Prop :=
  match os with
  | [] => True
  | o :: os' =>
      match o with
      | Bins o => bops_ok R Zl d [o]
      | Detach a => (exists v n, attached d a v n) \/ ~ (exists p, is_kid d p a)
      end /\ aops_ok R Zl (snd (run_aop R Zl o d)) os'
  end.
(** The binaries the calls lead to. *)
Fixpoint stock (l : list bytes) (os : list aop) : list bytes :=
  match os with [] => l | Bins o :: os => stock (shelved l [o]) os | Detach _ :: os => stock l os end.
(** What becomes of attachment [a] to binary [n]: its binary's number after the calls, or None if it or its binary is deleted. *)
Fixpoint fate (a n : nat) (os : list aop) : option nat :=
  match os with
  | [] => Some n
  | Bins (Bdel k) :: os => if (k =? n)%nat then None else fate a (renumber k n) os
  | Bins _ :: os => fate a n os
  | Detach b :: os => if (b =? a)%nat then None else fate a n os
  end.

(** *** Looking upwards *)
Lemma kid_in_doc d p j : wf d -> in_doc d j -> is_kid d p j -> in_doc d p.
Proof.
  intros H (r & E & B) K. destruct B as [q Eq|p' k q B Eq I].
  - exfalso. exact (root_no_kid d r p H E K).
  - assert (p' = p) as <- by (apply (one_parent d p' p k H); [exists q; auto|exact K]). exists r. auto.
Qed.
Lemma doc_parent d j : in_doc d j -> hd_error (rts d) = Some j \/ exists p, is_kid d p j /\ in_doc d p.
Proof. intros (r & E & B). destruct B as [q Eq|p k q B Eq I]; [now left|]. right. exists p. split; [exists q; auto|exists r; auto]. Qed.
Lemma below_back d d' h j : wf d -> (forall p k, in_doc d k -> is_kid d' p k -> is_kid d p k) -> below (lk d') h j -> in_doc d j -> below (lk d) h j /\ in_doc d h.
Proof.
  intros H X B. induction B as [q Eq|p k q B IH Eq I]; intros D.
  - split; [|exact D]. destruct (in_doc_has d h H D) as (t & Ht & <-). apply (below_self _ _ (row_of t)). apply look_self; [apply H|exact Ht].
  - assert (K : is_kid d p k) by (apply X; [exact D|exists q; auto]). destruct (IH (kid_in_doc d p k H D K)) as [IH1 IH2]. split; [|exact IH2]. destruct K as (r & Er & Ir). eapply below_kid; eauto.
Qed.
Lemma kept_up d d' : wf d -> wf d' -> kept d d' -> forall p k, in_doc d k -> is_kid d' p k -> is_kid d p k.
Proof.
  intros H W (T & _ & X & _) p k D K. destruct (doc_parent d k D) as [E|(q & Kq & _)].
  - exfalso. rewrite <- T in E. exact (root_no_kid d' k p W E K).
  - assert (Kq' : is_kid d' q k). { destruct Kq as (r & Er & Ir). destruct (X q r Er) as (s & Es & _ & _ & _ & new & Ks). exists s. split; [exact Es|]. rewrite Ks. apply in_or_app. now left. }
    now rewrite (one_parent d' p q k W K Kq').
Qed.
Lemma kept_live d d' a : wf d -> wf d' -> kept d d' -> in_doc d a -> in_history d' a -> in_history d a.
Proof.
  intros H W K D (h & (q & Eq & Tq) & N & B). destruct (below_back d d' h a H (kept_up d d' H W K) B D) as [B' Dh]. exists h. split; [|auto].
  destruct (in_doc_has d h H Dh) as (t & Ht & Et). exists (row_of t). rewrite <- Et. split; [now apply look_self; [apply H|]|]. destruct K as (_ & _ & X & _). destruct (X h (row_of t)) as (s & Es & Ts & _); [rewrite <- Et; now apply look_self; [apply H|]|]. congruence.
Qed.
(** *** Deleting an attachment *)
Lemma detach_run Zl d l b w m : wf d -> regular d -> store Zl d l -> attached d b w m ->
  exists d', delete b d = (Ok tt, d') /\ wf d' /\ regular d' /\ store Zl d' l /\ ~ in_doc d' b /\
    (forall j, in_doc d' j -> in_doc d j) /\ (forall j, lk d' j <> None -> lk d j <> None) /\ (forall j, lk d j <> None -> lk d' j <> None) /\
    (forall a v n, a <> b -> attached d a v n -> attached d' a v n /\ (in_history d' a -> in_history d a)).
Proof.
  intros H G S A. destruct (rg_entry d G b (at_doc _ _ _ _ A) (at_tag _ _ _ _ A)) as (e & K & Te); [rewrite (at_value _ _ _ _ A); discriminate|].
  destruct (delete_run d e b H K) as (d' & E & W & C & Nx & R). pose proof (delete_same d e b d' H K E) as Sm.
  assert (Sh : shrunk (Nat.eqb b) d d'). { apply (cut_shrunk d d' b e H K C). intros j Ej. destruct (lk d' j) eqn:Ej'; [|reflexivity]. exfalso. apply (Sm j); [now rewrite Ej'|exact Ej]. }
  pose proof (at_tag _ _ _ _ A) as (rb & Erb & Trb).
  assert (Hl : forall a u x, lk d a = Some u -> r_tag u = $"Binary" -> In x (r_kids u) -> Nat.eqb b x = false).
  { intros a u x Ea Ta Ix. apply Nat.eqb_neq. intros <-. assert (a = e) as -> by (apply (one_parent d a e b H); [exists u; auto|exact K]). destruct Te as (u' & Eu & Tu). rewrite Ea in Eu. apply Some_inj in Eu. subst u'. rewrite Tu in Ta. vm_compute in Ta. discriminate. }
  pose proof C as (M1 & M2 & M3 & M4 & C5).
  exists d'. split; [exact E|]. split; [exact W|]. split; [exact (shrunk_regular _ d d' H Sh Hl G)|]. split; [|split; [|split; [|split; [exact Sm|split]]]].
  - destruct S as [L F|r mm bb q L E1 E2 E3 E4 E5 S]; [apply store4; congruence|]. destruct (doc_path d r mm bb H E1 E3 E4) as (Db & Kmb & Tm & Tb).
    assert (Hk : forall T j, ~ is_tag (lk d) $"Entry" j -> lk d j <> None -> kids_tagged (lk d') T j = kids_tagged (lk d) T j /\ forall u, lk d j = Some u -> lk d' j = Some u).
    { intros T j Nj Ij. destruct (lk d j) as [u|] eqn:Ej; [|congruence]. assert (Nb : forall x, In x (r_kids u) -> Nat.eqb b x = false).
      { intros x Ix. apply Nat.eqb_neq. intros <-. apply Nj. now rewrite (one_parent d j e b H (ex_intro _ u (conj Ej Ix)) K). }
      split; [apply (shrunk_kids _ d d' Sh T j u Ej Nb)|]. intros u' Eu. apply Some_inj in Eu. subst u'. rewrite (C5 j u Ej). f_equal. unfold less. rewrite filter_all; [now destruct u|]. intros x Ix. rewrite Nat.eqb_sym, (Nb x Ix). reflexivity. }
    assert (Nt : forall T j, T <> $"Entry" -> is_tag (lk d) T j -> ~ is_tag (lk d) $"Entry" j /\ lk d j <> None) by (intros T j N (u & Eu & Tu); split; [intros (u' & Eu' & Tu'); congruence|congruence]).
    assert (T1 : $"KeePassFile" <> $"Entry") by (vm_compute; discriminate). assert (T2 : $"Meta" <> $"Entry") by (vm_compute; discriminate). assert (T3 : $"Binaries" <> $"Entry") by (vm_compute; discriminate). assert (T4 : $"Binary" <> $"Entry") by (vm_compute; discriminate).
    destruct (Nt _ _ T1 E2) as [n1 n1']. destruct (Nt _ _ T2 Tm) as [n2 n2']. destruct (Nt _ _ T3 Tb) as [n3 n3'].
    apply (store3 Zl d' l r mm bb q); [congruence|now rewrite M4|now apply (shrunk_tag _ d d' Sh)|now rewrite (proj1 (Hk _ r n1 n1'))|now rewrite (proj1 (Hk _ mm n2 n2'))|exact (proj2 (Hk $"Key" bb n3 n3') q E5)|].
    eapply shelf_mono; [|exact S]. intros i u Ei Ti. exists u. split; [|auto]. destruct (Nt $"Binary" i T4 (ex_intro _ u (conj Ei Ti))) as [n4 n4']. exact (proj2 (Hk $"Key" i n4 n4') u Ei).
  - intros (r & Er & B). destruct (shrunk_below_D _ d d' Sh _ _ B) as [->|C']; [|rewrite Nat.eqb_refl in C'; discriminate]. rewrite M4 in Er. exact (root_no_kid d _ e H Er K).
  - intros j. exact (shrunk_doc_sub _ d d' Sh j).
  - intros j Ij. destruct (lk d j) as [u|] eqn:Ej; [|congruence]. rewrite (C5 j u Ej). discriminate.
  - intros a v n Na Aa. pose proof Aa as [B1 B2 B3 (u & Eu & Iu)]. split.
    + constructor; [|now apply (shrunk_tag _ d d' Sh)|now rewrite (shrunk_value _ d d' Sh Hl a B2)|].
      * apply (shrunk_doc_keep _ d d' H Sh a B1). intros j Dj Bj. apply Nat.eqb_neq. intros <-.
        (* below an attachment there are only leaves *)
        assert (Bl : forall x, below (lk d) b x -> x = b \/ In x (r_kids rb)).
        { intros x Bx. induction Bx as [q Eq|p x q Bx IH Eq I]; [now left|]. right. destruct IH as [->|Ip]; [congruence|]. destruct (rg_leaf d G b rb p Erb Trb Ip) as (s & Es & Ks & _). rewrite Es in Eq. apply Some_inj in Eq. subst q. rewrite Ks in I. destruct I. }
        destruct (Bl a Bj) as [->|Ia]; [congruence|]. destruct (rg_leaf d G b rb a Erb Trb Ia) as (s & Es & Ks & _ & Ts). destruct B2 as (s' & Es' & Ts'). rewrite Es in Es'. apply Some_inj in Es'. subst s'. rewrite Ts' in Ts. destruct Ts as [Ts|Ts]; vm_compute in Ts; discriminate.
      * exists (with_kids (less b (r_kids u)) u). split; [now apply C5|exact Iu].
    + intros (h & Th & Nh & B). exists h. split; [now apply (shrunk_tag _ d d' Sh)|]. split; [exact Nh|]. exact (shrunk_below_sub _ d d' Sh h a B).
Qed.
Lemma delete_none d a : wf d -> ~ (exists p, is_kid d p a) -> delete a d = (Err Ex_Attribute, d).
Proof.
  intros H N. unfold delete. destruct (parent_of (d_forest d) a) as [t|] eqn:E; [|reflexivity]. exfalso. apply parent_of_In in E; [|apply H]. destruct E as [Ht Ia]. apply N. exists (eid t), (row_of t). split; [now apply look_self; [apply H|]|exact Ia].
Qed.

(** *** What has left the document does not come back *)
Lemma binaries_pure R Zl d : exists r, binaries R Zl d = (r, d).
Proof. eexists. reflexivity. Qed.
Lemma add_back R Zl d l x c p n d' : wf d -> store Zl d l -> add_binary R Zl x c p d = (Ok n, d') -> forall j, in_doc d' j -> in_doc d j \/ lk d j = None.
Proof.
  intros H S E j. unfold add_binary in E. rewrite (mbind_ok get_db _ d d d eq_refl) in E. apply mbind_inv in E as [(e & _ & E)|(u & d1 & E1 & E)]; [discriminate|].
  assert (D' : d' = d1).
  { apply mbind_inv in E as [(e & _ & E)|(lb & d2 & E2 & E)]; [discriminate|]. unfold ret in E. injection E as _ <-. destruct (binaries_pure R Zl d1) as (r & Er). rewrite Er in E2. congruence. }
  subst d1. clear E. destruct S as [L F|r m b q L X1 X2 X3 X4 X5 S].
  - rewrite (v4_true d L) in E1. unfold set_bins, modify in E1. injection E1 as _ <-. intros D. left. exact D.
  - rewrite (v4_false d L) in E1. destruct (store3_elems d r m b q H X1 X2 X3 X4 X5) as (tr & F & tm & tb & EF & Er & Tr & Km & Em & Kb & Eb & Hr & Hm & Hb & Eq). destruct (doc_path d r m b H X1 X3 X4) as (Db & Kmb & Tm & Tb).
    assert (Q1 : xfirst R None $"/KeePassFile/Meta/Binaries" d = (Ok (Some tb), d)).
    { change (meta_elem R $"Binaries" d = (Ok (Some tb), d)). rewrite (meta_run R d tr F $"Binaries" H EF); [|cbn; tauto]. unfold meta_of. rewrite Tr. change (str_eqb $"KeePassFile" $"KeePassFile") with true. cbv iota. rewrite Km. cbn [flat_map]. rewrite app_nil_r, Kb. reflexivity. }
    rewrite (mbind_ok _ _ _ _ _ Q1) in E1. apply mbind_inv in E1 as [(e & _ & E1)|(lb & d2 & E2 & E1)]; [discriminate|]. destruct (binaries_pure R Zl d) as (rr & Err). rewrite Err in E2. injection E2 as -> <-.
    apply mbind_inv in E1 as [(e & _ & E1)|(y & d2 & E2 & E1)]; [discriminate|]. unfold of_res in E2. injection E2 as _ <-. apply mbind_inv in E1 as [(e & _ & E1)|(z & d2 & E2 & E1)]; [discriminate|]. unfold ret in E1. injection E1 as _ <-.
    rewrite <- Eb in Db. destruct (append_new_grown d (eid tb) y H Db) as (t & d3 & EA & _ & _ & Gr). rewrite EA in E2. injection E2 as _ <-. intros D. apply (gr_doc _ _ _ _ Gr) in D as [D|D]; [now left|right; exact (gr_fresh _ _ _ _ Gr j D)].
Qed.
Lemma attach_back d e k f a d' : wf d -> in_doc d e -> add_attachment e k f d = (Ok a, d') -> forall j, in_doc d' j -> in_doc d j \/ lk d j = None.
Proof.
  intros H De E j D. unfold add_attachment in E. apply mbind_inv in E as [(x & _ & E)|(x & d1 & E1 & E)]; [discriminate|]. unfold of_res in E1. injection E1 as _ <-.
  destruct (append_new_grown d e (e_node $"Binary" [x; X $"Value" [($"Ref", str_of_Z k)] None []]) H De) as (t & d3 & EA & _ & _ & Gr). rewrite EA in E. injection E as _ <-. destruct (proj1 (gr_doc _ _ _ _ Gr j) D) as [D0|D0]; [now left|right; exact (gr_fresh _ _ _ _ Gr j D0)].
Qed.
Lemma cut_doc d d1 c : wf d -> cut d d1 c -> forall j, in_doc d1 j -> in_doc d j.
Proof.
  intros H (_ & _ & _ & T & X) j (r & Er & B). rewrite T in Er. assert (Dr : in_doc d r). { exists r. split; [exact Er|]. destruct (d_forest d) as [|t F] eqn:EF; [discriminate|]. injection Er as <-. apply (below_self _ _ (row_of t)). rewrite <- EF. apply look_self; [apply H|]. rewrite EF. apply in_flat_map. exists t. split; [now left|]. destruct t; now left. }
  induction B as [q Eq|p k q B IH Eq I]; [exact Dr|]. destruct IH as (r' & Er' & B'). destruct (in_doc_has d p H) as (t & Ht & Et); [exists r'; auto|]. assert (Ep : lk d p = Some (row_of t)) by (rewrite <- Et; apply look_self; [apply H|exact Ht]).
  rewrite (X p _ Ep) in Eq. apply Some_inj in Eq. subst q. cbn [with_kids r_kids] in I. unfold less in I. apply filter_In in I as [I _]. exists r'. split; [exact Er'|]. eapply below_kid; eauto.
Qed.
Lemma popped_doc d d1 k : wf d -> popped d d1 k -> (forall j, in_doc d1 j -> in_doc d j) /\ (forall j, lk d j <> None -> lk d1 j <> None).
Proof.
  intros H (_ & _ & _ & [(_ & _ & EF)|(_ & m & b & q & c & _ & _ & _ & _ & C)]).
  - unfold in_doc. rewrite EF. auto.
  - split; [exact (cut_doc d d1 c H C)|]. intros j Ij. destruct (lk d j) as [u|] eqn:Ej; [|congruence]. destruct C as (_ & _ & _ & _ & C). rewrite (C j u Ej). discriminate.
Qed.

Lemma popped_row d d1 k : popped d d1 k -> forall j r, lk d j = Some r -> exists q, lk d1 j = Some q /\ r_tag q = r_tag r /\ incl (r_kids q) (r_kids r).
Proof.
  intros (_ & _ & _ & [(_ & _ & EF)|(_ & m & b & q & c & _ & _ & _ & _ & (_ & _ & _ & _ & C))]) j r Ej.
  - exists r. rewrite EF. split; [exact Ej|]. split; [reflexivity|apply incl_refl].
  - exists (with_kids (less c (r_kids r)) r). split; [now apply C|]. split; [reflexivity|]. intros x Ix. cbn in Ix. unfold less in Ix. now apply filter_In in Ix.
Qed.
Lemma removal_live d d1 d' k a : wf d -> wf d' -> popped d d1 k -> unbound d1 d' k -> in_doc d' a -> in_history d' a -> in_history d a.
Proof.
  intros H W P U D (h & (q & Eq & Tq) & N & B).
  assert (Dd : forall j, in_doc d' j -> in_doc d j) by (intros j Dj; apply (popped_doc d d1 k H P), (ub_less _ _ _ U), Dj).
  assert (Rw : forall j, in_doc d' j -> exists r, lk d j = Some r) by (intros j Dj; destruct (in_doc_has d j H (Dd j Dj)) as (t & Ht & <-); exists (row_of t); apply look_self; [apply H|exact Ht]).
  assert (X : forall p j, in_doc d' j -> is_kid d' p j -> is_kid d p j).
  { intros p j Dj K. pose proof (kid_in_doc d' p j W Dj K) as Dp. assert (K1 : is_kid d1 p j).
    { destruct (doc_parent d1 j (ub_less _ _ _ U j Dj)) as [E|(s & Ks & _)].
      - exfalso. rewrite <- (ub_top _ _ _ U) in E. exact (root_no_kid d' j p W E K).
      - assert (Ks' : is_kid d' s j); [|now rewrite (one_parent d' p s j W K Ks')]. destruct Ks as (r & Er & Ir). destruct (ub_row _ _ _ U s r Er) as (r' & Er' & _ & _ & Pk & _). exists r'. split; [exact Er'|].
        assert (Nj : ~ unwanted d1 k j) by (intros C; exact (ub_gone _ _ _ U j C Dj)). clear - Pk Ir Nj. induction Pk as [|x l m Px Pk IH|x l m Px Pk IH]; [destruct Ir| |]; (destruct Ir as [<-|Ir]; [try (now left); contradiction|]); [right|]; auto. }
    destruct (Rw p Dp) as (r & Er). destruct (popped_row d d1 k P p r Er) as (r1 & Er1 & _ & I1). destruct K1 as (r2 & Er2 & Ij). exists r. split; [exact Er|]. apply I1. congruence. }
  assert (G : forall h j, below (lk d') h j -> in_doc d' j -> below (lk d) h j /\ in_doc d' h).
  { intros h0 j B0. induction B0 as [q0 Eq0|p j q0 B0 IH Eq0 I]; intros Dj.
    - split; [|exact Dj]. destruct (Rw h0 Dj) as (r & Er). exact (below_self _ _ r Er).
    - assert (K' : is_kid d' p j) by (exists q0; auto). destruct (IH (kid_in_doc d' p j W Dj K')) as [IH1 IH2]. split; [|exact IH2]. destruct (X p j Dj K') as (r & Er & Ir). eapply below_kid; eauto. }
  destruct (G h a B D) as [B' Dh]. exists h. split; [|auto]. destruct (Rw h Dh) as (r & Er). exists r. split; [exact Er|]. destruct (popped_row d d1 k P h r Er) as (r1 & Er1 & T1 & _). destruct (ub_row _ _ _ U h r1 Er1) as (s & Es & Ts & _). congruence.
Qed.

(** *** One call *)
Lemma step_kept R Zl d l o : zlib_ok Zl -> wf d -> regular d -> store Zl d l -> aops_ok R Zl d [o] ->
  let d' := snd (run_aop R Zl o d) in
  wf d' /\ regular d' /\ store Zl d' (stock l [o]) /\ (forall j, lk d j <> None -> lk d' j <> None) /\ (forall j, lk d j <> None -> in_doc d' j -> in_doc d j) /\
  forall a v n, attached d a v n -> (n < List.length l)%nat ->
    match fate a n [o] with
    | Some m => attached d' a v m /\ nth_error (stock l [o]) m = nth_error l n /\ (m < List.length (stock l [o]))%nat /\ (~ in_history d a -> ~ in_history d' a)
    | None => ~ in_history d a -> ~ in_doc d' a
    end.
Proof.
  intros Z H G S [Ho _]. destruct o as [[x c p|k|e k f]|b]; cbn [run_aop run_bop stock shelved fate] in *.
  - destruct Ho as [Ho _]. destruct (add_run R Zl d l x c p H G S Z Ho) as (d' & E & W & G' & S' & K & _). rewrite E. cbn [snd]. split; [exact W|]. split; [exact G'|]. split; [exact S'|]. split.
    { intros j Ij. destruct (lk d j) as [u|] eqn:Ej; [|congruence]. destruct K as (_ & _ & X & _). destruct (X j u Ej) as (q & Eq & _). congruence. }
    split. { intros j Ij Dj. destruct (add_back R Zl d l x c p _ d' H S E j Dj); [assumption|contradiction]. }
    intros a v n A Ln. split; [now apply K|]. split; [now rewrite nth_error_app1|]. split; [rewrite app_length; lia|]. intros N C. apply N. exact (kept_live d d' a H W K (at_doc _ _ _ _ A) C).
  - destruct (Nat.ltb_spec k (List.length l)) as [L|L].
    + destruct (bin_delete_run R Zl d l k H G S L) as (d1 & d' & E & W & G' & S' & P & U & A1 & A2). rewrite (mbind_ok _ _ _ _ _ E). cbn [snd ret]. destruct (popped_doc d d1 k H P) as [P1 P2].
      split; [exact W|]. split; [exact G'|]. split; [exact S'|]. split.
      { intros j Ij. specialize (P2 j Ij). destruct (lk d1 j) as [u|] eqn:Ej; [|congruence]. destruct (ub_row _ _ _ U j u Ej) as (q & Eq & _). congruence. }
      split. { intros j _ Dj. apply P1, (ub_less _ _ _ U), Dj. }
      intros a v n A Ln. destruct (Nat.eqb_spec k n) as [->|Nk].
      * intros Lv. apply (ub_gone _ _ _ U). split; [intros C; apply Lv; now apply (A2 a v n A)|]. exists v. now apply A1.
      * assert (A' : attached d' a v (renumber k n)).
        { apply (ub_ref _ _ _ U); [now apply A1|]. intros (_ & v' & A''). apply A1 in A''. apply Nk. pose proof (attached_refs d a v n H G A) as R1. pose proof (attached_refs d a v' k H G A'') as R2. assert (v' = v) as -> by (pose proof (at_value _ _ _ _ A); pose proof (at_value _ _ _ _ A''); congruence). destruct (refs_value_inj d a v n H R1 a k R2) as [_ ->]. reflexivity. }
        assert (En : nth_error (remove_nth k l) (renumber k n) = nth_error l n) by (apply remove_nth_renumber; [congruence|exact Ln]).
        split; [exact A'|]. split; [exact En|]. split; [apply nth_error_Some; rewrite En; now apply nth_error_Some|]. intros Lv C. apply Lv. exact (removal_live d d1 d' k a H W P U (at_doc _ _ _ _ A') C).
    + rewrite (mbind_err _ _ _ _ _ (bin_delete_none R Zl d l k H S L)). cbn [snd]. rewrite remove_nth_none by exact L. split; [exact H|]. split; [exact G|]. split; [exact S|]. split; [auto|]. split; [auto|]. intros a v n A Ln. destruct (Nat.eqb_spec k n) as [->|Nk]; [lia|].
      assert (renumber k n = n) as -> by (unfold renumber; destruct (Nat.ltb_spec k n); [lia|reflexivity]). auto.
  - destruct Ho as [(De & Te & s & -> & Ts) _]. destruct (attach_run Zl d l e k s H G S De Te Ts) as (a0 & v0 & d' & E & W & G' & S' & K & _). rewrite (mbind_ok _ _ _ _ _ E). cbn [snd ret]. split; [exact W|]. split; [exact G'|]. split; [exact S'|]. split.
    { intros j Ij. destruct (lk d j) as [u|] eqn:Ej; [|congruence]. destruct K as (_ & _ & X & _). destruct (X j u Ej) as (q & Eq & _). congruence. }
    split. { intros j Ij Dj. destruct (attach_back d e _ _ _ d' H De E j Dj); [assumption|contradiction]. }
    intros a v n A Ln. split; [now apply K|]. split; [reflexivity|]. split; [exact Ln|]. intros N C. apply N. exact (kept_live d d' a H W K (at_doc _ _ _ _ A) C).
  - destruct Ho as [(w & m & Ab)|Nb].
    + destruct (detach_run Zl d l b w m H G S Ab) as (d' & E & W & G' & S' & D1 & D2 & D3 & D4 & D5). rewrite (mbind_ok _ _ _ _ _ E). cbn [snd ret]. split; [exact W|]. split; [exact G'|]. split; [exact S'|]. split; [exact D4|]. split; [auto|].
      intros a v n A Ln. destruct (Nat.eqb_spec b a) as [->|Na]; [intros _; exact D1|]. destruct (D5 a v n (fun e => Na (eq_sym e)) A) as [A' Hh]. repeat (split; [assumption || reflexivity|]). tauto.
    + rewrite (mbind_err _ _ _ _ _ (delete_none d b H Nb)). cbn [snd]. split; [exact H|]. split; [exact G|]. split; [exact S|]. split; [auto|]. split; [auto|]. intros a v n A Ln. destruct (Nat.eqb_spec b a) as [->|Na]; [|auto].
      exfalso. apply Nb. destruct (rg_entry d G a (at_doc _ _ _ _ A) (at_tag _ _ _ _ A)) as (e & K & _); [rewrite (at_value _ _ _ _ A); discriminate|eauto].
Qed.

(** *** Sequences *)
Lemma stock_cons l o os : stock l (o :: os) = stock (stock l [o]) os.
Proof. destruct o; reflexivity. Qed.
Lemma fate_cons a n o os : fate a n (o :: os) = match fate a n [o] with Some m => fate a m os | None => None end.
Proof. destruct o as [[x c p|k|e k f]|b]; cbn [fate]; try reflexivity; [destruct (k =? n)%nat|destruct (b =? a)%nat]; reflexivity. Qed.
Lemma stays_gone R Zl os : zlib_ok Zl -> forall d l a, wf d -> regular d -> store Zl d l -> aops_ok R Zl d os -> lk d a <> None -> ~ in_doc d a -> ~ in_doc (after_aops R Zl os d) a.
Proof.
  intros Z. induction os as [|o os IH]; intros d l a H G S Hok La Na; [exact Na|]. destruct Hok as [Ho Hos]. destruct (step_kept R Zl d l o Z H G S (conj Ho I)) as (W & G' & S' & K1 & K2 & _). cbn [after_aops]. eapply IH; eauto.
Qed.
Theorem attachments_run R Zl os : zlib_ok Zl -> forall d l, wf d -> regular d -> store Zl d l -> aops_ok R Zl d os ->
  let d' := after_aops R Zl os d in
  wf d' /\ regular d' /\ store Zl d' (stock l os) /\
  forall a v n x, attached d a v n -> nth_error l n = Some x ->
    match fate a n os with
    | Some m => attached d' a v m /\ att_binary R Zl a d' = (Ok x, d')
    | None => ~ in_history d a -> ~ in_doc d' a
    end.
Proof.
  intros Z. induction os as [|o os IH]; intros d l H G S Hok.
  - cbn [after_aops stock fate]. split; [exact H|]. split; [exact G|]. split; [exact S|]. intros a v n x A Ex. split; [exact A|]. now rewrite (att_binary_run R Zl d l a v n H G S A), Ex.
  - destruct Hok as [Ho Hos]. destruct (step_kept R Zl d l o Z H G S (conj Ho I)) as (W & G' & S' & K1 & K2 & K3). cbn [after_aops]. rewrite stock_cons. destruct (IH _ _ W G' S' Hos) as (W2 & G2 & S2 & K4).
    split; [exact W2|]. split; [exact G2|]. split; [exact S2|]. intros a v n x A Ex. rewrite fate_cons. specialize (K3 a v n A). assert (Ln : (n < List.length l)%nat) by (apply nth_error_Some; congruence). specialize (K3 Ln). destruct (fate a n [o]) as [m|].
    + destruct K3 as (A' & En & Lm & Lv). rewrite Ex in En. specialize (K4 a v m x A' En). destruct (fate a m os); [exact K4|]. intros N. apply K4, Lv, N.
    + intros N. eapply stays_gone; eauto. destruct (at_tag _ _ _ _ A) as (r & Er & _). apply K1. congruence.
Qed.
Theorem attached_data R Zl os : zlib_ok Zl -> forall d l e x c p f, wf d -> regular d -> store Zl d l -> bytes_ok x -> in_doc d e -> is_tag (lk d) $"Entry" e -> text_ok f = true ->
  exists d1 d2 a v, add_binary R Zl x c p d = (Ok (Z.of_nat (List.length l)), d1) /\ add_attachment e (Z.of_nat (List.length l)) (Some f) d1 = (Ok a, d2) /\ attached d2 a v (List.length l) /\
    (aops_ok R Zl d2 os -> forall m, fate a (List.length l) os = Some m -> let d' := after_aops R Zl os d2 in in_doc d' a /\ att_binary R Zl a d' = (Ok x, d')).
Proof.
  intros Z d l e x c p f H G S B De (r & Er & Tr) Tf. destruct (add_run R Zl d l x c p H G S Z B) as (d1 & E & W & G1 & S1 & (_ & K1 & K2 & _) & _). destruct (K2 e r Er) as (q & Eq & Tq & _).
  destruct (attach_run Zl d1 _ e (List.length l) f W G1 S1 (K1 e De)) as (a & v & d2 & E2 & W2 & G2 & S2 & _ & _ & _ & A & _); [exists q; split; [exact Eq|congruence]|exact Tf|]. exists d1, d2, a, v. split; [exact E|]. split; [exact E2|]. split; [exact A|].
  intros Hok m Hm. destruct (attachments_run R Zl os Z d2 _ W2 G2 S2 Hok) as (_ & _ & _ & X). specialize (X a v (List.length l) x A). rewrite nth_error_app2, Nat.sub_diag in X by lia. specialize (X eq_refl). rewrite Hm in X. cbv zeta. split; [apply X|apply X].
Qed.
