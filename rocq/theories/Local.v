(** Calls change nothing in the parts they are not about. *)
From Verif Require Import Base PyStr Xml Tree XPath Uuid Time Db FindSpec XPath_facts XPath_eval Find_facts Find_path Api ApiSpec StructSpec CredSpec Heap Prim Api_xpath Struct Struct_add Struct_empty Struct_hist Struct_claims Struct_find Struct_index Struct_trash Struct_bin Bin_xpath IntegritySpec Integrity Integrity_ops Integrity_calls Integrity_step LocalSpec.

Definition itemb (T : str) : bool := str_eqb T $"Entry" || str_eqb T $"Group".
Section Local.
  Variables (X : nat -> Prop) (R : regex) (Zl : zlib).
  Definition ok (d : db) : Prop := wf d /\ laid d /\ part d X.
  Definition still (d d' : db) : Prop := forall x, X x -> lk d' x = lk d x.
  Definition keeps {A} (m : M A) (d : db) : Prop := forall r d', m d = (r, d') -> ok d' /\ tags_le d d' /\ still d d'.

  Lemma part_still d d' : part d X -> still d d' -> part d' X.
  Proof.
    intros P S x Hx. destruct (P x Hx) as [I|(p & Hp & (q & Eq & Iq))].
    - left. unfold an_item, an_entry, a_group, is_tag in *. now rewrite (S x Hx).
    - right. exists p. split; [exact Hp|]. exists q. split; [now rewrite (S p Hp)|exact Iq].
  Qed.
  Lemma part_look d x : wf d -> part d X -> X x -> lk d x <> None.
  Proof.
    intros W P Hx. destruct (P x Hx) as [[(r & E & _)|(r & E & _)]|(p & Hp & K)]; [congruence|congruence|]. destruct (kid_look d p x W K) as (r & E). congruence.
  Qed.
  (** Children of an outsider are outsiders, unless they are entries or groups. *)
  Lemma out_kid d p x T : ok d -> ~ X p -> is_kid d p x -> is_tag (lk d) T x -> itemb T = false -> ~ X x.
  Proof.
    intros (W & _ & P) Np K TT NT Hx. destruct (P x Hx) as [I|(q & Hq & K')].
    - assert (itemb T = true); [|congruence]. unfold itemb. destruct I as [I|I]; rewrite (is_tag_fun _ _ _ _ TT I); vm_compute; reflexivity.
    - apply Np. now rewrite (one_parent d p q x W K K').
  Qed.
  Lemma out_elem d t k : ok d -> ~ X (eid t) -> has d t -> In k (ekids t) -> itemb (etag k) = false -> ~ X (eid k).
  Proof. intros O Nt Ht Hk NT. pose proof O as (W & _). apply (out_kid d (eid t) (eid k) (etag k)); auto; [now apply kid_elem|apply has_tag; [exact W|now apply (has_kid d t)]]. Qed.

  Lemma keep_of {A} (m : M A) d : ok d -> good (fun _ => True) True d m d -> (forall r d', m d = (r, d') -> still d d') -> keeps m d.
  Proof.
    intros (W & L & P) G S r d' Hr. destruct (G r d' Hr) as [E T]. specialize (S r d' Hr). split; [|auto]. split; [apply (ev_wf _ _ _ _ E)|]. split; [apply E|now apply (part_still d)].
  Qed.
  Lemma ok_ev d : ok d -> evolves (fun _ => True) True d d.
  Proof. intros (W & L & _). now apply ev_refl. Qed.
  Lemma ok_wf d : ok d -> wf d. Proof. now intros (W & _). Qed.
  Lemma keep_read {A} (m : M A) d : ok d -> reads m -> keeps m d.
  Proof. intros O Rd r d' Hr. apply reads_run in Hr as ->; [|exact Rd]. split; [exact O|]. split; [apply le_refl|now intros x _]. Qed.
  Lemma keep_bind {A B} (m : M A) (k : A -> M B) d : keeps m d -> (forall a d1, m d = (Ok a, d1) -> ok d1 -> tags_le d d1 -> still d d1 -> keeps (k a) d1) -> keeps (mbind m k) d.
  Proof.
    intros Km Kk r d' Hr. apply mbind_inv in Hr as [(e & Hr & _)|(a & d1 & Hr & K)]; [exact (Km _ _ Hr)|]. destruct (Km _ _ Hr) as (O1 & T1 & S1). destruct (Kk a d1 Hr O1 T1 S1 _ _ K) as (O2 & T2 & S2). split; [exact O2|]. split; [eapply le_trans; eauto|]. intros x Hx. rewrite (S2 x Hx). now apply S1.
  Qed.
  Lemma keep_bind_read {A B} (m : M A) (k : A -> M B) d : ok d -> reads m -> (forall a, m d = (Ok a, d) -> keeps (k a) d) -> keeps (mbind m k) d.
  Proof. intros O Rd Kk. apply keep_bind; [now apply keep_read|]. intros a d1 Ha. pose proof (reads_run m d _ _ Rd Ha) as ->. intros _ _ _. now apply Kk. Qed.
  Lemma keep_ret {A} (a : A) d : ok d -> keeps (ret a) d. Proof. intros O. apply keep_read; [exact O|apply reads_ret]. Qed.
  Lemma keep_raise {A} x d : ok d -> keeps (@raise A x) d. Proof. intros O. apply keep_read; [exact O|apply reads_raise]. Qed.
  Lemma keep_ext {A} (m m' : M A) d : (forall d, m d = m' d) -> keeps m d -> keeps m' d.
  Proof. intros E G r d' Hr. apply (G r d'). now rewrite E. Qed.
  Lemma keep_quiet {A} (m : M A) d : keeps m d -> keeps (quiet m) d.
  Proof. intros G. unfold quiet. apply keep_bind; [exact G|]. intros a d1 _ O1 _ _. now apply keep_ret. Qed.

  (** *** Primitive steps *)
  Lemma on_still i f (g : row -> row) d r d' : wf d -> ~ X i -> (forall t, eid (f t) = eid t /\ ekids (f t) = ekids t /\ row_of (f t) = g (row_of t)) -> on i f d = (r, d') -> still d d'.
  Proof.
    intros W Ni Hf Hr. destruct (in_dec Nat.eq_dec i (map eid (elements (d_forest d)))) as [I|I].
    - apply in_map_iff in I as (t & <- & Ht). destruct (Hf t) as (F1 & F2 & F3). destruct (on_run d (eid t) t f g W Ht eq_refl F1 F2 F3) as (d1 & E1 & _ & _ & _ & _ & _ & L2). rewrite E1 in Hr. injection Hr as <- <-. intros x Hx. apply L2. intros ->. contradiction.
    - assert (d' = d) as ->; [|now intros x _]. unfold on, modify in Hr. injection Hr as _ <-. destruct d as [a b c F n]. cbn in *. unfold set_forest. cbn. f_equal. apply fupd_absent. now rewrite cells_ids.
  Qed.
  Lemma keep_text i v d : ok d -> ~ X i -> keeps (lx_set_text i v) d.
  Proof.
    intros O Ni. apply keep_of; [exact O|apply good_text; [now apply ok_wf|now apply ok_ev]|]. intros r d'. assert (G : forall w, on i (set_text w) d = (r, d') -> still d d').
    { intros w. apply (on_still i _ (with_text w)); [now apply ok_wf|exact Ni|]. intros t. destruct t. repeat split. }
    unfold lx_set_text. destruct v as [s|]; [|apply G]. destruct (text_ok s); [apply G|]. intros Hr. injection Hr as _ <-. now intros x _.
  Qed.
  Lemma keep_attr i k v d : ok d -> ~ X i -> keeps (lx_set_attr i k v) d.
  Proof.
    intros O Ni. apply keep_of; [exact O|apply good_attr; [now apply ok_wf|now apply ok_ev]|]. intros r d'. unfold lx_set_attr. destruct (text_ok v).
    - apply (on_still i _ (fun q => with_attrs (attr_put k v (r_attrs q)) q)); [now apply ok_wf|exact Ni|]. intros t. destruct t. repeat split.
    - intros Hr. injection Hr as _ <-. now intros x _.
  Qed.
  Lemma keep_bins l d : ok d -> keeps (set_bins l) d.
  Proof. intros O. apply keep_of; [exact O|apply good_bins; [now apply ok_wf|now apply ok_ev]|]. intros r d' Hr. unfold set_bins, modify in Hr. injection Hr as _ <-. now intros x _. Qed.
  Lemma keep_remove p c d : ok d -> (is_kid d p c -> ~ X p) -> keeps (lx_remove p c) d.
  Proof.
    intros O Np. pose proof (ok_wf d O) as W. apply keep_of; [exact O|apply good_remove; [exact W|now apply ok_ev|intros _; right; now right]|]. intros r d' Hr.
    destruct (parent_of (d_forest d) c) as [t|] eqn:Ep.
    2: { unfold lx_remove in Hr. rewrite Ep in Hr. injection Hr as _ <-. now intros x _. }
    destruct (Nat.eqb_spec (eid t) p) as [<-|N].
    2: { unfold lx_remove in Hr. rewrite Ep in Hr. apply Nat.eqb_neq in N. rewrite N in Hr. injection Hr as _ <-. now intros x _. }
    pose proof (wf_unique d W) as U. apply parent_of_In in Ep as [Ht Hc]; [|exact U]. destruct (remove_run d t c W Ht Hc) as (d1 & E1 & _ & _ & _ & _ & _ & L2). rewrite E1 in Hr. injection Hr as <- <-.
    intros x Hx. apply L2. intros ->. apply Np in Hx; [contradiction|]. exists (row_of t). split; [now apply look_self|exact Hc].
  Qed.
  Lemma keep_delete i d : ok d -> (forall p, is_kid d p i -> ~ X p) -> keeps (delete i) d.
  Proof.
    intros O Np r d' Hr. unfold delete in Hr. destruct (parent_of (d_forest d) i) as [p|]; [now apply (keep_remove (eid p) i d O (Np _) r d')|]. injection Hr as _ <-. apply (keep_raise (A := unit) Ex_Attribute d O (Err Ex_Attribute) d eq_refl).
  Qed.
  Lemma moved_still d d' p c at_ : ~ X p -> (forall q, is_kid d q c -> ~ X q) -> moved d d' p c at_ -> still d d'.
  Proof.
    intros Np Nq (_ & _ & _ & _ & L) x Hx. rewrite L. destruct (lk d x) as [q|] eqn:E; [|reflexivity]. cbn [option_map]. f_equal. unfold move_row. destruct (Nat.eqb_spec x p) as [->|_]; [contradiction|]. cbv zeta. rewrite without_absent; [apply with_kids_id|]. intros I. apply (Nq x); [now exists q|exact Hx].
  Qed.
  Lemma keep_append p c P T d : ok d -> is_tag (lk d) P p -> is_tag (lk d) T c -> joins P T -> ~ X p -> (forall q, is_kid d q c -> ~ X q) -> keeps (lx_append p c) d.
  Proof.
    intros O TP TT J Np Nq. pose proof (ok_wf d O) as W. apply keep_of; [exact O|apply (good_append _ _ d W p c P T); [now apply ok_ev|exact TP|exact TT|exact J|right; now right]|]. intros r d' Hr.
    destruct (tag_has d P p W TP) as (tp & Hp & <- & Ep). destruct (tag_has d T c W TT) as (tc & Hc & <- & Ec).
    destruct (in_dec Nat.eq_dec (eid tp) (ids tc)) as [I|I].
    { rewrite (append_refused d tp tc W Hp Hc I) in Hr. injection Hr as <- <-. now intros x _. }
    destruct (is_doc (d_forest d) (eid tc)) eqn:Dc.
    { unfold lx_append in Hr. rewrite Dc, orb_true_r in Hr. injection Hr as <- <-. now intros x _. }
    destruct (append_run d tp tc W Hp Hc I Dc) as (d1 & E1 & M). rewrite E1 in Hr. injection Hr as <- <-. eapply moved_still; eassumption.
  Qed.
  Lemma new_still x d r d' : ok d -> lx_new x d = (r, d') -> still d d' /\ exists c, r = Ok c /\ ~ X c /\ forall q, ~ is_kid d' q c.
  Proof.
    intros (W & L & P) Hr. destruct (new_run d x W) as (t & d1 & E1 & Et & Ex & EF & W1 & _ & N1 & Ht & R1 & Is & Lo). rewrite E1 in Hr. injection Hr as <- <-. split.
    - intros y Hy. destruct (lk d y) as [q|] eqn:E; [|exfalso; now apply (part_look d y W P Hy)]. rewrite Lo; [exact E|]. exact (wf_look d y q W E).
    - exists (d_next d). split; [reflexivity|]. split.
      + intros Hc. destruct (lk d (d_next d)) as [q|] eqn:E; [|now apply (part_look d _ W P Hc)]. pose proof (wf_look d _ q W E). lia.
      + intros q K. destruct (kid_rows d1 q (d_next d) W1 K) as (u & k & Hu & _ & Hk & Ek & _). apply (root_not_child d1 t u W1); [rewrite EF; apply in_app_iff; right; now left|exact Hu|]. rewrite Et, <- Ek. now apply in_map.
  Qed.
  Lemma keep_new x d : ok d -> xlaid x -> keeps (lx_new x) d.
  Proof. intros O XL. apply keep_of; [exact O|apply good_new; [now apply ok_ev|exact XL|now right]|]. intros r d' Hr. now apply (new_still x d r d' O). Qed.
  Lemma new_tag x d c d' : ok d -> xlaid x -> lx_new x d = (Ok c, d') -> is_tag (lk d') (xtag x) c.
  Proof. intros O XL Hr. destruct (ev_new (fun _ => True) True d x d _ d' (ok_ev d O) XL (or_intror Logic.I) Hr) as (c' & Ec & _ & T & _). injection Ec as <-. exact T. Qed.
  Lemma keep_link x g P d : ok d -> xlaid x -> is_tag (lk d) P g -> joins P (xtag x) -> ~ X g -> keeps (do e <- lx_new x; do _ <- lx_append g e; ret e) d.
  Proof.
    intros O XL TP J Ng. apply keep_bind; [now apply keep_new|]. intros c d1 Hc O1 T1 S1. pose proof (new_tag x d c d1 O XL Hc) as Tc. destruct (new_still x d _ d1 O Hc) as (_ & c' & Ec & Nc & Nk). injection Ec as <-.
    apply keep_bind; [|intros; now apply keep_ret]. apply (keep_append g c P (xtag x)); [exact O1|now apply T1|exact Tc|exact J|exact Ng|]. intros q K. now apply Nk in K.
  Qed.
  Lemma keep_append_new i P x d : ok d -> is_tag (lk d) P i -> frameless x -> ~ X i -> keeps (lx_append_new i x) d.
  Proof.
    intros O T F Ni. unfold lx_append_new. apply (keep_link x i P); auto; [apply simple_laid; intros c; now apply frameless_kid|]. left. apply F. destruct x. now left.
  Qed.

  (** *** Fields *)
  Lemma keep_sub T i P v d : frameb T = false -> ok d -> is_tag (lk d) P i -> ~ X i -> keeps (set_sub T i v) d.
  Proof.
    intros NF O TP Ni. apply unframed in NF. unfold set_sub. apply keep_bind_read; [exact O|apply reads_the|]. intros t Ht. apply keep_bind.
    - destruct (find1 T t) as [x|]; [|now apply keep_ret]. now apply keep_remove.
    - intros _ d1 _ O1 T1 _. apply keep_bind_read; [exact O1|apply reads_of|]. intros x Hx. unfold of_res in Hx. injection Hx as Hx. apply e_text_leaf in Hx as (s & ->).
      apply keep_bind; [|intros; now apply keep_ret]. apply (keep_append_new i P); [exact O1|now apply T1|now apply frameless_leaf|exact Ni].
  Qed.
  Lemma keep_string key i P v p d : ok d -> is_tag (lk d) P i -> ~ X i -> keeps (set_string R key i v p) d.
  Proof.
    intros O TP Ni. unfold set_string. apply keep_bind_read; [exact O|apply reads_lift|]. intros f _. apply keep_bind_read; [exact O| |].
    { destruct p; [apply reads_ret|]. apply reads_bind; [apply reads_lift|intros ?; apply reads_ret]. }
    intros prot _. apply keep_bind.
    - destruct f as [f|]; [|now apply keep_ret]. now apply keep_remove.
    - intros _ d1 _ O1 T1 _. apply keep_bind_read; [exact O1|apply reads_of|]. intros x Hx. unfold of_res in Hx. injection Hx as Hx. apply frameless_string in Hx. apply keep_bind; [|intros; now apply keep_ret]. apply (keep_append_new i P); auto.
  Qed.
  Lemma keep_prop p i P v d : ok d -> is_tag (lk d) P i -> ~ X i -> keeps (set_prop R p i v) d.
  Proof.
    intros O TP Ni. destruct p; cbn [set_prop]; try (now apply (keep_string _ i P)).
    all: unfold set_password, set_otp; (apply keep_bind_read; [exact O|apply reads_string|]); intros a _; now apply (keep_string _ i P).
  Qed.
  Lemma keep_custom i P key v b d : ok d -> is_tag (lk d) P i -> ~ X i -> keeps (set_custom_property R i key v b) d.
  Proof. intros O TP Ni. unfold set_custom_property. destruct (reserved _); [now apply keep_raise|now apply (keep_string key i P)]. Qed.
  Lemma keep_delete_custom i key d : ok d -> ~ X i -> keeps (delete_custom_property R i key) d.
  Proof.
    intros O Ni. unfold delete_custom_property. apply keep_bind_read; [exact O|apply reads_keys|]. intros ks _. destruct (existsb _ ks); [|now apply keep_raise]. apply keep_bind_read; [exact O|apply reads_lift|]. intros [f|] _; [|now apply keep_raise]. now apply keep_remove.
  Qed.
  (** *** Times and auto-type *)
  Lemma find1_out T t k d : ok d -> has d t -> ~ X (eid t) -> find1 T t = Some k -> itemb T = false -> has d k /\ ~ X (eid k).
  Proof. intros O Ht Nt Ef NT. apply find1_in in Ef as [Ik Tk]. split; [now apply (has_kid d t)|]. apply (out_elem d t k); auto. now rewrite Tk. Qed.
  Lemma kids_out T t k d : ok d -> has d t -> ~ X (eid t) -> In k (kids_of T t) -> itemb T = false -> has d k /\ ~ X (eid k).
  Proof. intros O Ht Nt Ik NT. apply kids_of_in in Ik as [Ik Tk]. split; [now apply (has_kid d t)|]. apply (out_elem d t k); auto. now rewrite Tk. Qed.
  Lemma the_out i t d : ok d -> ~ X i -> the i d = (Ok t, d) -> has d t /\ ~ X (eid t).
  Proof. intros O Ni Ht. apply the_ok in Ht as (_ & Ht & <-); [auto|now apply ok_wf]. Qed.
  Lemma keep_time prop i v d : itemb prop = false -> ok d -> ~ X i -> keeps (set_time prop i v) d.
  Proof.
    intros NP O Ni. unfold set_time. apply keep_bind_read; [exact O|apply reads_the|]. intros t Ht. destruct (the_out i t d O Ni Ht) as [Ht' Nt]. destruct (find1 _ t) as [ts|] eqn:E1; [|now apply keep_ret]. destruct (find1_out _ t ts d O Ht' Nt E1 eq_refl) as [Hs Ns].
    destruct (find1 prop ts) as [p|] eqn:E2; [|now apply keep_ret]. destruct (find1_out _ ts p d O Hs Ns E2 NP) as [Hp Np]. apply keep_bind_read; [exact O|apply reads_encode|]. intros s _. now apply keep_text.
  Qed.
  Lemma keep_timeprop p i v d : ok d -> ~ X i -> keeps (set_timeprop p i v) d. Proof. destruct p; apply keep_time; reflexivity. Qed.
  Lemma keep_touch C m i d : ok d -> ~ X i -> keeps (touch C m i) d.
  Proof. intros O Ni. unfold touch. apply keep_bind; [now apply keep_timeprop|]. intros _ d1 _ O1 _ _. destruct m; [now apply keep_timeprop|now apply keep_ret]. Qed.
  Lemma keep_expires i b d : ok d -> ~ X i -> keeps (set_expires i b) d.
  Proof.
    intros O Ni. unfold set_expires, expires_elem. eapply keep_ext; [intros d1; symmetry; apply bind_bind|]. apply keep_bind_read; [exact O|apply reads_the|]. intros t Ht. destruct (the_out i t d O Ni Ht) as [Ht' Nt].
    destruct (find1 $"Times" t) as [ts|] eqn:E1; [|apply keep_bind; [now apply keep_raise|intros ? ? C; discriminate C]]. destruct (find1_out _ t ts d O Ht' Nt E1 eq_refl) as [Hs Ns].
    destruct (find1 $"Expires" ts) as [p|] eqn:E2; [|apply keep_bind; [now apply keep_raise|intros ? ? C; discriminate C]]. destruct (find1_out _ ts p d O Hs Ns E2 eq_refl) as [Hp Np].
    apply keep_bind_read; [exact O|apply reads_ret|]. intros q Hq. injection Hq as <-. now apply keep_text.
  Qed.
  Lemma keep_auto (f : elem -> option elem) i v d : (forall t e, has d t -> ~ X (eid t) -> f t = Some e -> ~ X (eid e)) -> ok d -> ~ X i -> keeps (do t <- the i; match f t with Some e => lx_set_text (eid e) v | None => raise Ex_Attribute end) d.
  Proof. intros F O Ni. apply keep_bind_read; [exact O|apply reads_the|]. intros t Ht. destruct (the_out i t d O Ni Ht) as [Ht' Nt]. destruct (f t) as [e|] eqn:Ef; [|now apply keep_raise]. apply keep_text; [exact O|now apply (F t e)]. Qed.
  Lemma hd_In {A} (l : list A) x : hd_error l = Some x -> In x l. Proof. destruct l; [discriminate|]. intros E. injection E as ->. now left. Qed.
  Lemma find_2_out a b t e d : ok d -> itemb a = false -> itemb b = false -> has d t -> ~ X (eid t) -> find_2 a b t = Some e -> ~ X (eid e).
  Proof. intros O Na Nb Ht Nt E. apply hd_In, in_flat_map in E as (k & Hk & He). destruct (kids_out a t k d O Ht Nt Hk Na) as [Hk' Nk]. now destruct (kids_out b k e d O Hk' Nk He Nb). Qed.
  Lemma find_3_out a b c t e d : ok d -> itemb a = false -> itemb b = false -> itemb c = false -> has d t -> ~ X (eid t) -> find_3 a b c t = Some e -> ~ X (eid e).
  Proof.
    intros O Na Nb Nc Ht Nt E. apply hd_In, in_flat_map in E as (m & Hm & He). apply in_flat_map in Hm as (k & Hk & Hm). destruct (kids_out a t k d O Ht Nt Hk Na) as [Hk' Nk]. destruct (kids_out b k m d O Hk' Nk Hm Nb) as [Hm' Nm]. now destruct (kids_out c m e d O Hm' Nm He Nc).
  Qed.
  (** *** Attachments and binaries *)
  Lemma keep_attach i P id f d : ok d -> is_tag (lk d) P i -> ~ X i -> keeps (add_attachment i id f) d.
  Proof.
    intros O TP Ni. unfold add_attachment. apply keep_bind_read; [exact O|apply reads_of|]. intros k Hk. unfold of_res in Hk. injection Hk as Hk. apply (keep_append_new i P); [exact O|exact TP| |exact Ni]. apply frameless_node; [now apply unframed|]. intros c [<-|[<-|[]]]; [eapply frameless_text; [|exact Hk]; reflexivity|now apply frameless_leaf, unframed].
  Qed.
  Lemma keep_att_id a id d : ok d -> ~ X a -> keeps (set_att_id a id) d.
  Proof. intros O Na. unfold set_att_id. apply keep_bind_read; [exact O|apply reads_the|]. intros t Ht. destruct (the_out a t d O Na Ht) as [Ht' Nt]. destruct (find1 _ t) as [v|] eqn:Ev; [|now apply keep_raise]. apply keep_attr; [exact O|]. now destruct (find1_out _ t v d O Ht' Nt Ev eq_refl). Qed.
  Lemma keep_att_filename a v d : ok d -> ~ X a -> keeps (set_att_filename a v) d.
  Proof. intros O Na. apply (keep_auto (find1 $"Key") a v d); auto. intros t e Ht Nt Ef. now destruct (find1_out _ t e d O Ht Nt Ef eq_refl). Qed.
  (** *** The header part of the document *)
  Lemma top_out d r F : ok d -> d_forest d = r :: F -> itemb (etag r) = false -> has d r /\ ~ X (eid r).
  Proof.
    intros (W & L & P) EF NT. assert (Hr : has d r) by (rewrite EF; apply elements_root; now left). split; [exact Hr|]. intros Hx. destruct (P _ Hx) as [I|(q & _ & K)].
    - assert (itemb (etag r) = true); [|congruence]. pose proof (has_tag d r W Hr) as T. unfold itemb. destruct I as [I|I]; rewrite (is_tag_fun _ _ _ _ T I); vm_compute; reflexivity.
    - destruct (kid_rows d q (eid r) W K) as (u & k & Hu & _ & Hk & Ek & _). apply (root_not_child d r u W); [rewrite EF; now left|exact Hu|]. rewrite <- Ek. now apply in_map.
  Qed.
  Lemma meta_out tag d e d' : ok d -> itemb tag = false -> In tag meta_tags -> meta_elem R tag d = (Ok (Some e), d') -> has d e /\ ~ X (eid e) /\ etag e = tag.
  Proof.
    intros O NT Ht E. pose proof (ok_wf d O) as W. destruct (top_forest d W) as (r & F & EF). rewrite (meta_run R d r F tag W EF Ht) in E. injection E as E _. unfold meta_of in E. destruct (str_eqb (etag r) _) eqn:Er; [|discriminate E]. apply str_eqb_eq in Er.
    destruct (top_out d r F O EF) as [Hr Nr]; [rewrite Er; reflexivity|]. apply hd_In, in_flat_map in E as (m & Hm & He). destruct (kids_out _ r m d O Hr Nr Hm eq_refl) as [Hm' Nm]. destruct (kids_out _ m e d O Hm' Nm He NT) as [He' Ne]. split; [exact He'|]. split; [exact Ne|]. now apply kids_of_in in He.
  Qed.
  Lemma keep_add_binary data c p d : ok d -> keeps (add_binary R Zl data c p) d.
  Proof.
    intros O. unfold add_binary. apply keep_bind_read; [exact O|apply reads_db|]. intros dd _. apply keep_bind.
    - destruct (v4 dd); [now apply keep_bins|]. apply keep_bind_read; [exact O|apply reads_lift|]. intros b Hb. apply keep_bind_read; [exact O|apply reads_binaries|]. intros n _. apply keep_bind_read; [exact O|apply reads_of|]. intros x Hx. unfold of_res in Hx. injection Hx as Hx.
      destruct b as [b|]; [|now apply keep_raise]. change (xfirst R None $"/KeePassFile/Meta/Binaries" d) with (meta_elem R $"Binaries" d) in Hb. apply meta_out in Hb as (Hb & Nb & Tb); [|exact O|reflexivity|cbn; tauto]. apply keep_bind; [|intros; now apply keep_ret]. apply (keep_append_new (eid b) $"Binaries"); [exact O|rewrite <- Tb; apply has_tag; [now apply ok_wf|exact Hb]| |exact Nb]. eapply frameless_text; [|exact Hx]. reflexivity.
    - intros _ d1 _ O1 _ _. apply keep_read; [exact O1|]. apply reads_bind; [apply reads_binaries|intros ?; apply reads_ret].
  Qed.
  Lemma keep_each {A} (f : A -> M unit) (P : A -> db -> Prop) : (forall a d, ok d -> P a d -> keeps (f a) d) -> (forall a d d', ok d -> P a d -> tags_le d d' -> still d d' -> P a d') -> forall l d, ok d -> (forall a, In a l -> P a d) -> keeps (each f l) d.
  Proof.
    intros Hf Hm. induction l as [|a l IH]; intros d O Hl; [now apply keep_ret|]. cbn [each]. apply keep_bind; [apply Hf; [exact O|apply Hl; now left]|]. intros _ d1 _ O1 T1 S1. apply IH; [exact O1|]. intros b Hb. apply (Hm b d); auto. apply Hl. now right.
  Qed.
  (** No attachment in the part, and none directly under it. *)
  Definition bare (d : db) : Prop := forall x, X x -> ~ (an_attachment d x \/ exists a, an_attachment d a /\ is_kid d x a).
  Lemma bare_still d d' : ok d -> bare d -> tags_le d d' -> still d d' -> bare d'.
  Proof.
    intros (W & _ & P) B T S x Hx [A|(a & A & (q & Eq & Ia))].
    - apply (B x Hx). left. unfold an_attachment, is_tag in *. now rewrite <- (S x Hx).
    - rewrite (S x Hx) in Eq. assert (K : is_kid d x a) by now exists q. apply (B x Hx). right. exists a. split; [|exact K]. destruct (kid_tag d x a W K) as (_ & U & _ & TU). unfold an_attachment in *. now rewrite (is_tag_fun _ _ _ _ A (T _ _ TU)).
  Qed.
  Lemma gt_refs d z rs : wf d -> xpath_cast R d None (gt_query (str_of_Z z)) = Ok rs -> forall r, In r rs -> is_tag (lk d) $"Binary" (rid r).
  Proof.
    intros W E r I. destruct (top_forest d W) as (top & F & EF). unfold xpath_cast in E. rewrite (gt_search R d top F _ W EF (plain_Z z)) in E. cbn [bind] in E. destruct (mapM_refs _ rs E r I) as (n & Hn & ->). apply filter_In in Hn as [Hn B]. apply andb_true_iff in B as [B _].
    unfold tagged in B. apply str_eqb_eq in B. exists (row_of (nd_el n)). split; [|exact B]. unfold nid. apply look_self; [apply W|]. rewrite elements_fpre. apply in_map. rewrite EF. cbn [fpre flat_map]. apply in_app_iff. now left.
  Qed.
  Lemma keep_delete_binary id d : ok d -> bare d -> keeps (delete_binary R id) d.
  Proof.
    intros O B. unfold delete_binary. apply keep_bind_read; [exact O|apply reads_db|]. intros dd _. apply keep_bind.
    - destruct (v4 dd); [destruct (py_pop _ id); [now apply keep_bins|now apply keep_raise]|]. apply keep_bind_read; [exact O|apply reads_lift|]. intros [b|] Hb; [|now apply keep_raise]. change (xfirst R None $"/KeePassFile/Meta/Binaries" d) with (meta_elem R $"Binaries" d) in Hb. apply meta_out in Hb as (Hb & Nb & Tb); [|exact O|reflexivity|cbn; tauto].
      destruct (py_index (ekids b) id) as [c|]; [|now apply keep_raise]. now apply keep_remove.
    - intros _ d1 _ O1 T1 S1. pose proof (bare_still d d1 O B T1 S1) as B1. apply keep_bind_read; [exact O1|apply reads_lift|]. intros refs Hr. apply keep_bind.
      + apply (keep_each _ (fun r d => bare d /\ is_tag (lk d) $"Binary" (rid r))).
        * intros r d2 O2 (B2 & Tr). apply keep_delete; [exact O2|]. intros p K Hp. apply (B2 p Hp). right. exists (rid r). auto.
        * intros r d2 d3 O2 (B2 & Tr) T3 S3. split; [now apply (bare_still d2)|now apply T3].
        * exact O1.
        * intros r Ir. split; [exact B1|]. unfold lift in Hr. injection Hr as Hr. exact (id_refs R d1 id refs (ok_wf d1 O1) Hr r Ir).
      + intros _ d2 _ O2 T2 S2. pose proof (bare_still d1 d2 O1 B1 T2 S2) as B2. apply keep_bind_read; [exact O2|apply reads_lift|]. intros gt Hg. apply (keep_each _ (fun r d => bare d /\ is_tag (lk d) $"Binary" (rid r))).
        * intros r d3 O3 (B3 & Tr). apply keep_bind_read; [exact O3|apply reads_att|]. intros n _. apply keep_att_id; [exact O3|]. intros Hx. apply (B3 _ Hx). now left.
        * intros r d3 d4 O3 (B3 & Tr) T4 S4. split; [now apply (bare_still d3)|now apply T4].
        * exact O2.
        * intros r Ir. split; [exact B2|]. unfold lift in Hg. injection Hg as Hg. exact (gt_refs d2 id gt (ok_wf d2 O2) Hg r Ir).
  Qed.
  (** *** Settings *)
  Lemma keep_days tag n d : itemb tag = false -> In tag meta_tags -> ok d -> keeps (set_credchange_days R tag n) d.
  Proof. intros NT Ht O. unfold set_credchange_days. apply keep_bind_read; [exact O|apply reads_lift|]. intros [e|] He; [|now apply keep_raise]. apply meta_out in He as (_ & Ne & _); auto. now apply keep_text. Qed.
  Lemma keep_changed t d : ok d -> keeps (set_credchange_date R t) d.
  Proof. intros O. unfold set_credchange_date. apply keep_bind_read; [exact O|apply reads_lift|]. intros e He. apply keep_bind_read; [exact O|apply reads_encode|]. intros s _. destruct e as [e|]; [|now apply keep_raise]. apply meta_out in He as (_ & Ne & _); [|exact O|reflexivity|cbn; tauto]. now apply keep_text. Qed.
  Lemma keep_meta tag v d : ok d -> (forall e, meta_elem R tag d = (Ok (Some e), d) -> ~ X (eid e)) -> keeps (set_meta R tag v) d.
  Proof. intros O N. unfold set_meta. apply keep_bind_read; [exact O|apply reads_lift|]. intros [e|] He; [|now apply keep_raise]. apply keep_text; auto. Qed.
  (** *** New entries and groups *)
  Lemma keep_add_entry C g t u p url n x tags otp icon f d : ok d -> is_tag (lk d) $"Group" g -> ~ X g -> keeps (add_entry R C g t u p url n x tags otp icon f) d.
  Proof.
    intros O TG Ng. unfold add_entry. apply keep_bind_read; [exact O|apply reads_lift|]. intros dup _.
    assert (G : keeps (do e <- new_entry C t u p url n otp tags (Some (match x with Some _ => true | None => false end)) x icon None true None; do _ <- lx_append g e; ret e) d).
    { eapply keep_ext; [intros d1; symmetry; unfold new_entry; apply bind_bind|]. apply keep_bind_read; [exact O|apply reads_base|]. intros b Hb. eapply keep_ext; [intros d1; symmetry; apply bind_bind|]. apply keep_bind_read; [exact O|apply reads_of|]. intros k Hk. unfold of_res in Hk. injection Hk as Hk.
      apply (keep_link _ g $"Group"); [exact O| |exact TG|apply joins_ge|exact Ng]. apply laid_node. apply Forall_app. split; [eapply base_frameless; exact Hb|eapply entry_frameless; exact Hk]. }
    destruct dup as [|z l]; [exact G|]. destruct f; [exact G|]. apply keep_bind_read; [exact O|apply reads_path|]. intros y _. now apply keep_raise.
  Qed.
  Lemma keep_new_group C n icon notes d : ok d -> keeps (new_group C n icon notes None None) d.
  Proof.
    intros O. unfold new_group. apply keep_bind_read; [exact O|apply reads_base|]. intros b Hb. apply keep_bind_read; [exact O|apply reads_of|]. intros k Hk. unfold of_res in Hk. injection Hk as Hk.
    apply keep_bind_read; [exact O|destruct (truthy notes); [apply reads_of|apply reads_ret]|]. intros nt Hn. apply keep_new; [exact O|]. apply laid_node. apply Forall_app. split; [eapply base_frameless; exact Hb|]. constructor; [eapply frameless_text; [|exact Hk]; reflexivity|].
    destruct (truthy notes); [|injection Hn as <-; constructor]. unfold of_res in Hn. injection Hn as Hn. apply bind_ok in Hn as (y & Hy & Hn). injection Hn as <-. constructor; [eapply frameless_text; [|exact Hy]; reflexivity|constructor].
  Qed.
  Lemma keep_add_group C o n icon notes d : ok d -> (forall g, o = Some g -> is_tag (lk d) $"Group" g /\ ~ X g) -> keeps (add_group C o n icon notes) d.
  Proof.
    intros O Ho. destruct o as [g|]; [|unfold add_group; apply keep_bind; [now apply keep_new_group|intros; now apply keep_raise]]. destruct (Ho g eq_refl) as [TG Ng].
    unfold add_group, new_group. eapply keep_ext; [intros d1; symmetry; apply bind_bind|]. apply keep_bind_read; [exact O|apply reads_base|]. intros b Hb. eapply keep_ext; [intros d1; symmetry; apply bind_bind|]. apply keep_bind_read; [exact O|apply reads_of|]. intros k Hk. unfold of_res in Hk. injection Hk as Hk.
    eapply keep_ext; [intros d1; symmetry; apply bind_bind|]. apply keep_bind_read; [exact O|destruct (truthy notes); [apply reads_of|apply reads_ret]|]. intros nt Hn.
    apply (keep_link _ g $"Group"); [exact O| |exact TG|apply joins_gg|exact Ng]. apply laid_node. apply Forall_app. split; [eapply base_frameless; exact Hb|]. constructor; [eapply frameless_text; [|exact Hk]; reflexivity|].
    destruct (truthy notes); [|injection Hn as <-; constructor]. unfold of_res in Hn. injection Hn as Hn. apply bind_ok in Hn as (y & Hy & Hn). injection Hn as <-. constructor; [eapply frameless_text; [|exact Hy]; reflexivity|constructor].
  Qed.
  (** *** History *)
  Lemma new_ids x d c d' : ok d -> lx_new x d = (Ok c, d') -> exists t, has d' t /\ eid t = c /\ erase t = x /\ forall j, In j (ids t) -> ~ X j.
  Proof.
    intros (W & L & P) Hr. destruct (new_run d x W) as (t & d1 & E1 & Et & Ex & EF & W1 & _ & N1 & Ht & R1 & Is & Lo). rewrite E1 in Hr. injection Hr as <- <-. exists t. repeat (split; [assumption|]). intros j Hj Hx. apply Is in Hj. destruct (lk d j) as [q|] eqn:E; [|now apply (part_look d j W P Hx)]. pose proof (wf_look d j q W E). lia.
  Qed.
  Lemma keep_save_history i d : ok d -> is_tag (lk d) $"Entry" i -> ~ X i -> keeps (save_history i) d.
  Proof.
    intros O TE Ni. pose proof (ok_wf d O) as W. unfold save_history. apply keep_bind_read; [exact O|apply reads_the|]. intros t Ht. apply the_ok in Ht as (_ & Ht & Ei); [|exact W].
    assert (Et : etag t = $"Entry") by (apply (is_tag_fun (lk d) _ _ i); [rewrite <- Ei; now apply has_tag|exact TE]).
    assert (XL : xlaid (erase t)) by (apply (tree_laid d); [exact W|apply O|exact Ht]).
    apply keep_bind; [now apply keep_new|]. intros a d1 Ha O1 T1 S1. pose proof (new_tag _ d a d1 O XL Ha) as Ta. rewrite erase_tag, Et in Ta. destruct (new_ids _ d a d1 O Ha) as (ta & Hta & Eta & Era & Ida). destruct (new_still _ d _ d1 O Ha) as (_ & a' & Ea & _ & Nk). injection Ea as <-.
    apply keep_bind_read; [exact O1|apply reads_the|]. intros ta' Hta'. apply the_ok in Hta' as (_ & Hta' & Eta'); [|now apply ok_wf]. assert (ta' = ta) as -> by (apply (unique_inj (d_forest d1)); [apply (ok_wf d1 O1)|exact Hta'|exact Hta|congruence]).
    assert (Na : ~ X a) by (rewrite <- Eta; apply Ida, ids_In, everything_self).
    destruct (find1 $"History" ta) as [h|] eqn:Eh.
    - apply find1_in in Eh as [Ih Th]. apply keep_bind; [now apply keep_remove|]. intros _ d2 _ O2 T2 S2. apply keep_bind_read; [exact O2|apply reads_the|]. intros t' Ht'. destruct (the_out i t' d2 O2 Ni Ht') as [Ht2 Nt2]. destruct (find1 $"History" t') as [h'|] eqn:Eh'; [|now apply keep_raise]. pose proof (find1_out _ t' h' d2 O2 Ht2 Nt2 Eh' eq_refl) as [Hh' Nh']. apply find1_in in Eh' as [_ Th'].
      apply (keep_append (eid h') a $"History" $"Entry"); [exact O2|rewrite <- Th'; apply has_tag; [now apply ok_wf|exact Hh']|now apply T2|right; right; left; auto|exact Nh'|].
      intros q K Hq. destruct K as (r & Er & Ir). rewrite (S2 q Hq) in Er. apply (Nk q). now exists r.
    - assert (XH : xlaid (e_node $"History" [])) by (apply laid_node; constructor). apply keep_bind; [now apply keep_new|]. intros h d2 Hh O2 T2 S2. pose proof (new_tag _ d1 h d2 O1 XH Hh) as Tgh. change (xtag (e_node $"History" [])) with $"History" in Tgh. destruct (new_still _ d1 _ d2 O1 Hh) as (_ & h' & Eh' & Nh & Nkh). injection Eh' as <-.
      apply keep_bind; [apply (keep_append h a $"History" $"Entry"); [exact O2|exact Tgh|now apply T2|right; right; left; auto|exact Nh|]|].
      { intros q (r & Er & Ir) Hq. rewrite (S2 q Hq) in Er. apply (Nk q). now exists r. }
      intros _ d3 _ O3 T3 S3. apply (keep_append i h $"Entry" $"History"); [exact O3|now apply T3, T2, T1|now apply T3|right; right; right; auto|exact Ni|]. intros q (r & Er & Ir) Hq. rewrite (S3 q Hq) in Er. apply (Nkh q). now exists r.
  Qed.
  Lemma keep_delete_history i h d : ok d -> ~ X i -> keeps (delete_history i h) d.
  Proof.
    intros O Ni. unfold delete_history. apply keep_bind_read; [exact O|apply reads_the|]. intros t Ht. destruct (the_out i t d O Ni Ht) as [Ht' Nt]. destruct h as [h|].
    - destruct (find1 _ t) as [e|] eqn:Ef; [|now apply keep_raise]. destruct (find1_out _ t e d O Ht' Nt Ef eq_refl) as [_ Ne]. now apply keep_remove.
    - destruct (find1 _ t) as [e|] eqn:Ef; [|now apply keep_raise]. now apply keep_remove.
  Qed.
  (** *** Moving *)
  Lemma keep_move i g d : ok d -> an_item d i -> is_tag (lk d) $"Group" g -> ~ X g -> (forall q, is_kid d q i -> ~ X q) -> keeps (move i g) d.
  Proof.
    intros O It TG Ng Nq. unfold move. destruct It as [It|It]; [apply (keep_append g i $"Group" $"Entry"); auto; apply joins_ge|apply (keep_append g i $"Group" $"Group"); auto; apply joins_gg].
  Qed.
  Lemma keep_group_append g l : forall d, ok d -> (forall x, In x l -> an_item d x /\ forall q, is_kid d q x -> ~ X q) -> is_tag (lk d) $"Group" g -> ~ X g -> keeps (group_append g l) d.
  Proof.
    induction l as [|e l IH]; intros d O Hl TG Ng; [now apply keep_ret|]. cbn [group_append]. change (lx_append g e) with (move e g). destruct (Hl e (or_introl eq_refl)) as [Ie Ne]. apply keep_bind; [now apply keep_move|]. intros _ d1 _ O1 T1 S1. apply IH; [exact O1| |now apply T1|exact Ng].
    intros x Hx. destruct (Hl x (or_intror Hx)) as [A B]. split; [now apply (item_le d)|]. intros q (r & Er & Ir) Hq. rewrite (S1 q Hq) in Er. apply (B q); [now exists r|exact Hq].
  Qed.
  Lemma keep_bin C d : ok d -> (forall x, root_group R d = (Ok (Some x), d) -> ~ X x) -> keeps (create_or_get_recyclebin_group R C) d.
  Proof.
    intros O Nr. unfold create_or_get_recyclebin_group. apply keep_bind_read; [exact O|apply reads_bin|]. intros [b|] _; [now apply keep_ret|]. apply keep_bind_read; [exact O|apply reads_lift|]. intros r Hr. apply keep_bind.
    - apply keep_add_group; [exact O|]. intros g ->. split; [|now apply Nr]. now apply root_group_ok in Hr as (_ & TG & _); [|now apply ok_wf].
    - intros g d1 _ O1 _ _. apply keep_bind_read; [exact O1|apply reads_lift|]. intros e He. apply keep_bind_read; [exact O1|unfold get_uuid; apply reads_bind; [apply reads_sub|intros ?; apply reads_of]|]. intros u _. destruct e as [e|]; [|now apply keep_raise].
      apply meta_out in He as (_ & Ne & _); [|exact O1|reflexivity|cbn; tauto]. apply keep_bind; [now apply keep_text|]. intros; now apply keep_ret.
  Qed.
End Local.
