(** Calls leave the children with certain tags, and the texts of the elements with these tags, as they are. *)
From Coq Require Import ZifyBool ZifyNat ZifyN.
From Verif Require Import Base PyStr Xml Tree XPath Uuid Time Db FindSpec XPath_facts XPath_eval Find_facts Find_path Api ApiSpec StructSpec CredSpec Heap Prim Api_xpath Struct Struct_add Struct_empty Struct_hist Struct_claims Struct_find Struct_index Struct_trash Struct_bin Bin_xpath IntegritySpec Integrity Integrity_ops Integrity_calls Integrity_step Integrity_hist LocalSpec Local Local_step.

Definition sane (d : db) : Prop := wf d /\ laid d.
Lemma sane_ev d : sane d -> evolves (fun _ => True) True d d. Proof. intros [W L]. now apply ev_refl. Qed.
Lemma kids_there d j r : wf d -> lk d j = Some r -> forall k, In k (r_kids r) -> lk d k <> None.
Proof. intros W E k Hk. destruct (kid_look d j k W) as (q & Eq); [now exists r|]. congruence. Qed.
(** The attribute with the protection flag. *)
Definition shield (r : row) : option str := option_map snd (List.find (fun a : str * str => str_eqb (fst a) $"Protected") (r_attrs r)).
Lemma put_other k v l : str_eqb k $"Protected" = false -> List.find (fun a : str * str => str_eqb (fst a) $"Protected") (attr_put k v l) = List.find (fun a : str * str => str_eqb (fst a) $"Protected") l.
Proof.
  intros N. induction l as [|[m w] l IH]; cbn [attr_put List.find fst]; [now rewrite N|]. destruct (str_eqb m k) eqn:E; cbn [List.find fst].
  - apply str_eqb_eq in E as ->. now rewrite N.
  - destruct (str_eqb m $"Protected"); [reflexivity|exact IH].
Qed.
Section Mute.
  Variables (S : str -> bool) (R : regex) (Zl : zlib).
  Definition mb (d : db) (k : nat) : bool := match lk d k with Some r => S (r_tag r) | None => false end.
  Definition kept_row (d d' : db) (r r' : row) : Prop := shield r' = shield r /\ (S (r_tag r) = true -> r_text r' = r_text r) /\ (r_tag r <> $"Binaries" -> filter (mb d') (r_kids r') = filter (mb d) (r_kids r)).
  Definition kept (d d' : db) : Prop := forall j r, lk d j = Some r -> exists r', lk d' j = Some r' /\ kept_row d d' r r'.
  Definition mute {A} (m : M A) (d : db) : Prop := forall r d', m d = (r, d') -> sane d' /\ tags_le d d' /\ kept d d'.

  Lemma mb_le d d' k : tags_le d d' -> lk d k <> None -> mb d' k = mb d k.
  Proof. intros T N. destruct (lk d k) as [r|] eqn:E; [|congruence]. destruct (T k (r_tag r)) as (r' & E' & Et); [now exists r|]. unfold mb. now rewrite E, E', Et. Qed.
  Lemma mb_tag d T k : is_tag (lk d) T k -> mb d k = S T.
  Proof. intros (r & E & <-). unfold mb. now rewrite E. Qed.
  Lemma row_same d d' j r : wf d -> tags_le d d' -> lk d j = Some r -> forall r', r_kids r' = r_kids r -> (S (r_tag r) = true -> r_text r' = r_text r) -> shield r' = shield r -> kept_row d d' r r'.
  Proof. intros W T E r' K X Sh. split; [exact Sh|]. split; [exact X|]. intros _. rewrite K. apply filter_same. intros k Hk. apply mb_le; [exact T|now apply (kids_there d j r)]. Qed.
  Lemma kept_refl d : kept d d. Proof. intros j r E. exists r. repeat split; auto. Qed.
  Lemma kept_trans a b c : tags_le a b -> kept a b -> kept b c -> kept a c.
  Proof.
    intros T H K j r E. destruct (H j r E) as (r1 & E1 & H1 & X1 & Y1). destruct (K j r1 E1) as (r2 & E2 & H2 & X2 & Y2). assert (Et : r_tag r1 = r_tag r) by (destruct (T j (r_tag r)) as (q & Eq & Tq); [now exists r|congruence]). rewrite Et in *. exists r2. split; [exact E2|]. split; [congruence|]. split; intros P; [rewrite X2, X1; auto|rewrite Y2, Y1; auto].
  Qed.
  Lemma mute_of {A} (m : M A) d : sane d -> good (fun _ => True) True d m d -> (forall r d', m d = (r, d') -> tags_le d d' -> kept d d') -> mute m d.
  Proof. intros [W L] G C r d' Hr. destruct (G r d' Hr) as [E T]. split; [split; [apply (ev_wf _ _ _ _ E)|apply E]|]. split; [exact T|now apply (C r)]. Qed.
  Lemma mute_read {A} (m : M A) d : sane d -> reads m -> mute m d.
  Proof. intros O Rd r d' Hr. apply reads_run in Hr as ->; [|exact Rd]. split; [exact O|]. split; [apply le_refl|apply kept_refl]. Qed.
  Lemma mute_bind {A B} (m : M A) (k : A -> M B) d : mute m d -> (forall a d1, m d = (Ok a, d1) -> sane d1 -> tags_le d d1 -> kept d d1 -> mute (k a) d1) -> mute (mbind m k) d.
  Proof.
    intros Km Kk r d' Hr. apply mbind_inv in Hr as [(e & Hr & _)|(a & d1 & Hr & K)]; [exact (Km _ _ Hr)|]. destruct (Km _ _ Hr) as (O1 & T1 & S1). destruct (Kk a d1 Hr O1 T1 S1 _ _ K) as (O2 & T2 & S2). split; [exact O2|]. split; [eapply le_trans; eauto|now apply (kept_trans d d1)].
  Qed.
  Lemma mute_bind_read {A B} (m : M A) (k : A -> M B) d : sane d -> reads m -> (forall a, m d = (Ok a, d) -> mute (k a) d) -> mute (mbind m k) d.
  Proof. intros O Rd Kk. apply mute_bind; [now apply mute_read|]. intros a d1 Ha. pose proof (reads_run m d _ _ Rd Ha) as ->. intros _ _ _. now apply Kk. Qed.
  Lemma mute_ret {A} (a : A) d : sane d -> mute (ret a) d. Proof. intros O. apply mute_read; [exact O|apply reads_ret]. Qed.
  Lemma mute_raise {A} x d : sane d -> mute (@raise A x) d. Proof. intros O. apply mute_read; [exact O|apply reads_raise]. Qed.
  Lemma mute_ext {A} (m m' : M A) d : (forall d, m d = m' d) -> mute m d -> mute m' d.
  Proof. intros E G r d' Hr. apply (G r d'). now rewrite E. Qed.
  Lemma mute_quiet {A} (m : M A) d : mute m d -> mute (quiet m) d.
  Proof. intros G. unfold quiet. apply mute_bind; [exact G|]. intros a d1 _ O1 _ _. now apply mute_ret. Qed.

  (** *** Primitive steps *)
  Lemma on_kept i f (g : row -> row) d r d' : wf d -> (forall t, eid (f t) = eid t /\ ekids (f t) = ekids t /\ row_of (f t) = g (row_of t)) -> (forall q, r_kids (g q) = r_kids q) -> (forall q, shield (g q) = shield q) -> (forall q, lk d i = Some q -> S (r_tag q) = true -> r_text (g q) = r_text q) -> on i f d = (r, d') -> tags_le d d' -> kept d d'.
  Proof.
    intros W Hf Hg Hs Hx Hr T j q Eq. destruct (in_dec Nat.eq_dec i (map eid (elements (d_forest d)))) as [I|I].
    - apply in_map_iff in I as (t & <- & Ht). destruct (Hf t) as (F1 & F2 & F3). destruct (on_run d (eid t) t f g W Ht eq_refl F1 F2 F3) as (d1 & E1 & _ & _ & _ & _ & L1 & L2). rewrite E1 in Hr. injection Hr as <- <-.
      destruct (Nat.eq_dec j (eid t)) as [->|N].
      + pose proof (look_self _ t (wf_unique d W) Ht) as Et. assert (q = row_of t) as -> by congruence. exists (g (row_of t)). split; [exact L1|]. apply (row_same d d1 (eid t)); auto.
      + exists q. split; [now rewrite L2|]. now apply (row_same d d1 j).
    - assert (d' = d) as ->; [|exists q; split; [exact Eq|now apply (row_same d d j)]]. unfold on, modify in Hr. injection Hr as _ <-. destruct d as [a b c F n]. cbn in *. unfold set_forest. cbn. f_equal. apply fupd_absent. now rewrite cells_ids.
  Qed.
  Lemma mute_text i v d : sane d -> mb d i = false -> mute (lx_set_text i v) d.
  Proof.
    intros O B. apply mute_of; [exact O|apply good_text; [apply O|now apply sane_ev]|]. intros r d'. assert (G : forall w, on i (set_text w) d = (r, d') -> tags_le d d' -> kept d d').
    { intros w. apply (on_kept i _ (with_text w)); [apply O| |reflexivity|reflexivity|]. intros t. destruct t. repeat split. intros q Eq X. unfold mb in B. rewrite Eq in B. congruence. }
    unfold lx_set_text. destruct v as [s|]; [|apply G]. destruct (text_ok s); [apply G|]. intros Hr _. injection Hr as _ <-. apply kept_refl.
  Qed.
  Lemma mute_attr i k v d : sane d -> str_eqb k $"Protected" = false -> mute (lx_set_attr i k v) d.
  Proof.
    intros O Nk. apply mute_of; [exact O|apply good_attr; [apply O|now apply sane_ev]|]. intros r d'. unfold lx_set_attr. destruct (text_ok v).
    - apply (on_kept i _ (fun q => with_attrs (attr_put k v (r_attrs q)) q)); [apply O| |reflexivity| |reflexivity]; [intros t; destruct t; repeat split|]. intros q. unfold shield. cbn [r_attrs with_attrs]. now rewrite put_other.
    - intros Hr _. injection Hr as _ <-. apply kept_refl.
  Qed.
  Lemma mute_bins l d : sane d -> mute (set_bins l) d.
  Proof. intros O. apply mute_of; [exact O|apply good_bins; [apply O|now apply sane_ev]|]. intros r d' Hr _. unfold set_bins, modify in Hr. injection Hr as _ <-. intros j q E. exists q. split; [exact E|]. repeat split; auto. Qed.
  Lemma filter_without d c l : mb d c = false -> filter (mb d) (without c l) = filter (mb d) l.
  Proof.
    intros Ic. unfold without. rewrite filter_filter. induction l as [|x l IH]; [reflexivity|]. cbn [filter]. rewrite IH. destruct (Nat.eqb_spec x c) as [->|_]; cbn [negb andb]; [now rewrite Ic|reflexivity].
  Qed.
  Lemma row_kids d d' j r l : wf d -> tags_le d d' -> lk d j = Some r -> (forall k, In k l -> lk d k <> None) -> filter (mb d) l = filter (mb d) (r_kids r) -> kept_row d d' r (with_kids l r).
  Proof. intros W T E H F. split; [reflexivity|]. split; [reflexivity|]. intros _. cbn [r_kids with_kids]. rewrite <- F. apply filter_same. intros k Hk. apply mb_le; auto. Qed.
  Lemma mute_remove p c d : sane d -> mb d c = false \/ is_tag (lk d) $"Binaries" p -> mute (lx_remove p c) d.
  Proof.
    intros O Ic. pose proof O as [W _]. apply mute_of; [exact O|apply good_remove; [exact W|now apply sane_ev|intros _; right; now right]|]. intros r d' Hr T.
    destruct (parent_of (d_forest d) c) as [t|] eqn:Ep.
    2: { unfold lx_remove in Hr. rewrite Ep in Hr. injection Hr as _ <-. apply kept_refl. }
    destruct (Nat.eqb_spec (eid t) p) as [<-|N].
    2: { unfold lx_remove in Hr. rewrite Ep in Hr. apply Nat.eqb_neq in N. rewrite N in Hr. injection Hr as _ <-. apply kept_refl. }
    pose proof (wf_unique d W) as U. apply parent_of_In in Ep as [Ht Hc]; [|exact U]. destruct (remove_run d t c W Ht Hc) as (d1 & E1 & _ & _ & _ & _ & L1 & L2). rewrite E1 in Hr. injection Hr as <- <-.
    intros j q Eq. destruct (Nat.eq_dec j (eid t)) as [->|N]; [|exists q; split; [now rewrite L2|now apply (row_same d d1 j)]].
    pose proof (look_self _ t U Ht) as Et. assert (q = row_of t) as -> by congruence. eexists. split; [exact L1|]. destruct Ic as [Ic|Ic].
    - apply (row_kids d d1 (eid t)); auto; [|now apply filter_without]. intros k Hk. apply without_In in Hk as [Hk _]. now apply (kids_there d (eid t) (row_of t) W Et).
    - split; [reflexivity|]. split; [reflexivity|]. intros X. destruct Ic as (q & Eq' & Tq). congruence.
  Qed.
  Lemma mute_delete i d : sane d -> mb d i = false -> mute (delete i) d.
  Proof.
    intros O Ic r d' Hr. unfold delete in Hr. destruct (parent_of (d_forest d) i) as [p|]; [now apply (mute_remove (eid p) i d O (or_introl Ic) r d')|]. injection Hr as _ <-. split; [exact O|]. split; [apply le_refl|apply kept_refl].
  Qed.
  Lemma moved_kept d d' p c at_ : wf d -> tags_le d d' -> mb d c = false -> lk d c <> None -> (forall l k, In k (at_ l c) -> k = c \/ In k l) -> (forall l, filter (mb d) (at_ l c) = filter (mb d) l) -> moved d d' p c at_ -> kept d d'.
  Proof.
    intros W T B Nc I F (_ & _ & _ & _ & L) j q Eq. rewrite L, Eq. cbn [option_map]. eexists. split; [reflexivity|]. unfold move_row. cbv zeta.
    destruct (j =? p)%nat; apply (row_kids d d' j); auto.
    - intros k Hk. apply I in Hk as [->|Hk]; [exact Nc|]. apply without_In in Hk as [Hk _]. now apply (kids_there d j q).
    - rewrite F. now apply filter_without.
    - intros k Hk. apply without_In in Hk as [Hk _]. now apply (kids_there d j q).
    - now apply filter_without.
  Qed.
  Lemma mute_append p c P T d : sane d -> is_tag (lk d) P p -> is_tag (lk d) T c -> joins P T -> S T = false -> mute (lx_append p c) d.
  Proof.
    intros O TP TT J NS. pose proof O as [W _]. apply mute_of; [exact O|apply (good_append _ _ d W p c P T); [now apply sane_ev|exact TP|exact TT|exact J|right; now right]|]. intros r d' Hr Tl.
    destruct (tag_has d P p W TP) as (tp & Hp & <- & Ep). destruct (tag_has d T c W TT) as (tc & Hc & <- & Ec).
    destruct (in_dec Nat.eq_dec (eid tp) (ids tc)) as [I|I].
    { rewrite (append_refused d tp tc W Hp Hc I) in Hr. injection Hr as <- <-. apply kept_refl. }
    destruct (is_doc (d_forest d) (eid tc)) eqn:Dc.
    { unfold lx_append in Hr. rewrite Dc, orb_true_r in Hr. injection Hr as <- <-. apply kept_refl. }
    destruct (append_run d tp tc W Hp Hc I Dc) as (d1 & E1 & M). rewrite E1 in Hr. injection Hr as <- <-. pose proof (mb_tag d T _ TT) as B. rewrite NS in B.
    eapply moved_kept; [exact W|exact Tl|exact B|destruct TT as (q & Eq & _); congruence| | |exact M].
    - intros l k Hk. cbv beta in Hk. apply in_app_iff in Hk as [Hk|[<-|[]]]; auto.
    - intros l. cbv beta. rewrite filter_app. cbn [filter]. rewrite B. apply app_nil_r.
  Qed.
  Lemma mute_insert g z e T d r d' : sane d -> tags_le d d' -> lk d g <> None -> is_tag (lk d) T e -> S T = false -> lx_insert g z e d = (r, d') -> kept d d'.
  Proof.
    intros O Tl Eg TT NS Hr. pose proof O as [W _]. destruct (lk d g) as [qg|] eqn:E1; [clear Eg|congruence]. pose proof TT as (qe & E2 & _). destruct (look_has d _ _ W E1) as (tg & Hg & <- & _). destruct (look_has d _ _ W E2) as (te & He & <- & _).
    destruct (anc_or_self (d_forest d) (eid te) (eid tg) || is_doc (d_forest d) (eid te)) eqn:Ea.
    - unfold lx_insert in Hr. rewrite Ea in Hr. injection Hr as _ <-. apply kept_refl.
    - apply orb_false_iff in Ea as [Ea Ed]. destruct (insert_run d tg te z W Hg He) as (d1 & E & M); [|exact Ed|].
      + intros I. assert (anc_or_self (d_forest d) (eid te) (eid tg) = true); [|congruence]. apply (anc_or_self_In (d_forest d) (eid te) (eid tg) te (wf_unique d W)); [apply elem_of_self; [apply W|exact He]|exists tg; apply elem_of_self; [apply W|exact Hg]|exact I].
      + rewrite E in Hr. injection Hr as _ <-. pose proof (mb_tag d T _ TT) as B. rewrite NS in B. eapply moved_kept; [exact W|exact Tl|exact B|congruence| | |exact M]; cbv beta.
        * intros l k Hk. unfold insert_at in Hk. apply in_app_iff in Hk as [Hk|[<-|Hk]]; [right|auto|right]; rewrite <- (firstn_skipn (lx_pos (List.length (ekids tg)) z) l); apply in_app_iff; auto.
        * intros l. unfold insert_at. rewrite filter_app. cbn [filter]. rewrite B. rewrite <- filter_app, firstn_skipn. reflexivity.
  Qed.
  Lemma mute_new x d : sane d -> xlaid x -> mute (lx_new x) d.
  Proof.
    intros O XL. pose proof O as [W _]. apply mute_of; [exact O|apply good_new; [now apply sane_ev|exact XL|now right]|]. intros r d' Hr T j q Eq. destruct (new_run d x W) as (t & d1 & E1 & Et & Ex & EF & W1 & _ & N1 & Ht & R1 & Is & Lo). rewrite E1 in Hr. injection Hr as <- <-.
    exists q. split; [rewrite Lo; [exact Eq|now apply (wf_look d j q)]|now apply (row_same d d1 j)].
  Qed.
  Lemma new_tag' x d c d' : sane d -> xlaid x -> lx_new x d = (Ok c, d') -> is_tag (lk d') (xtag x) c.
  Proof. intros O XL Hr. destruct (ev_new (fun _ => True) True d x d _ d' (sane_ev d O) XL (or_intror Logic.I) Hr) as (c' & Ec & _ & T & _). injection Ec as <-. exact T. Qed.
  Lemma mute_link x g P d : sane d -> xlaid x -> is_tag (lk d) P g -> joins P (xtag x) -> S (xtag x) = false -> mute (do e <- lx_new x; do _ <- lx_append g e; ret e) d.
  Proof.
    intros O XL TP J NS. apply mute_bind; [now apply mute_new|]. intros c d1 Hc O1 T1 _. pose proof (new_tag' x d c d1 O XL Hc) as Tc.
    apply mute_bind; [|intros; now apply mute_ret]. apply (mute_append g c P (xtag x)); auto.
  Qed.
  Lemma mute_append_new i P x d : sane d -> is_tag (lk d) P i -> frameless x -> S (xtag x) = false -> mute (lx_append_new i x) d.
  Proof.
    intros O T F NS. unfold lx_append_new. apply (mute_link x i P); auto; [apply simple_laid; intros c; now apply frameless_kid|]. left. apply F. destruct x. now left.
  Qed.
End Mute.
