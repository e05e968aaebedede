(** Calls that leave the members of every group as they are. *)
From Coq Require Import ZifyBool ZifyNat ZifyN.
From Verif Require Import Base PyStr Xml Tree XPath Uuid Time Db FindSpec XPath_facts XPath_eval Find_facts Find_path Api ApiSpec StructSpec CredSpec Heap Prim Api_xpath Struct Struct_add Struct_empty Struct_hist Struct_claims Struct_find Struct_index Struct_trash Struct_bin Bin_xpath IntegritySpec Integrity Integrity_ops Integrity_calls Integrity_step Integrity_hist LocalSpec Local Local_step LocalEx OutlineSpec Outline_tree.

Definition sane (d : db) : Prop := wf d /\ laid d.
Definition calm (d d' : db) : Prop := forall j, a_group d j -> items d' j = items d j.
Definition hush {A} (m : M A) (d : db) : Prop := forall r d', m d = (r, d') -> sane d' /\ tags_le d d' /\ calm d d'.

Lemma itemb_le d d' k : tags_le d d' -> lk d k <> None -> itemb (lk d') k = itemb (lk d) k.
Proof.
  intros T N. destruct (lk d k) as [r|] eqn:E; [|congruence]. destruct (T k (r_tag r)) as (r' & E' & Et); [now exists r|]. unfold itemb, tagb. now rewrite E, E', Et.
Qed.
Lemma items_at d d' j r : wf d -> tags_le d d' -> lk d' j = Some r -> (forall k, In k (r_kids r) -> lk d k <> None) -> items d' j = filter (itemb (lk d)) (r_kids r).
Proof. intros W T E H. unfold items. rewrite E. apply filter_same. intros k Hk. apply itemb_le; auto. Qed.
Lemma kids_there d j r : wf d -> lk d j = Some r -> forall k, In k (r_kids r) -> lk d k <> None.
Proof. intros W E k Hk. destruct (kid_look d j k W) as (q & Eq); [now exists r|]. congruence. Qed.
Lemma items_kids d d' j r r' : wf d -> tags_le d d' -> lk d j = Some r -> lk d' j = Some r' -> r_kids r' = r_kids r -> items d' j = items d j.
Proof. intros W T E E' K. rewrite (items_at d d' j r' W T E'); [|rewrite K; now apply (kids_there d j)]. unfold items. now rewrite E, K. Qed.
Lemma entry_items d j : sane d -> an_entry d j -> items d j = [].
Proof.
  intros [W L] (r & E & T). unfold items. rewrite E. rewrite (filter_same _ (fun _ => false)); [clear; induction (r_kids r); auto|]. intros k Hk. destruct (itemb (lk d) k) eqn:Ek; [|reflexivity]. exfalso. apply itemb_item in Ek.
  assert (K : is_kid d j k) by now exists r. destruct Ek as [Ek|Ek]; destruct (L j k $"Entry" _ K (ex_intro _ r (conj E T)) Ek) as (F1 & F2 & _).
  - destruct (F2 eq_refl) as [X|X]; vm_compute in X; discriminate X.
  - destruct (F1 eq_refl) as [X|X]; vm_compute in X; discriminate X.
Qed.
Lemma calm_items d d' : sane d -> sane d' -> tags_le d d' -> calm d d' -> forall j, an_item d j -> items d' j = items d j.
Proof. intros S S' T C j [H|H]; [|now apply C]. rewrite (entry_items d j S H). apply entry_items; [exact S'|now apply T]. Qed.
Lemma calm_trans a b c : tags_le a b -> calm a b -> calm b c -> calm a c.
Proof. intros T H K j Hj. rewrite (K j) by now apply T. now apply H. Qed.

Lemma hush_of {A} (m : M A) d : sane d -> good (fun _ => True) True d m d -> (forall r d', m d = (r, d') -> tags_le d d' -> calm d d') -> hush m d.
Proof. intros [W L] G C r d' Hr. destruct (G r d' Hr) as [E T]. split; [split; [apply (ev_wf _ _ _ _ E)|apply E]|]. split; [exact T|now apply (C r)]. Qed.
Lemma sane_ev d : sane d -> evolves (fun _ => True) True d d. Proof. intros [W L]. now apply ev_refl. Qed.
Lemma hush_read {A} (m : M A) d : sane d -> reads m -> hush m d.
Proof. intros S Rd r d' Hr. apply reads_run in Hr as ->; [|exact Rd]. split; [exact S|]. split; [apply le_refl|now intros j _]. Qed.
Lemma hush_bind {A B} (m : M A) (k : A -> M B) d : hush m d -> (forall a d1, m d = (Ok a, d1) -> sane d1 -> tags_le d d1 -> hush (k a) d1) -> hush (mbind m k) d.
Proof.
  intros Km Kk r d' Hr. apply mbind_inv in Hr as [(e & Hr & _)|(a & d1 & Hr & K)]; [exact (Km _ _ Hr)|]. destruct (Km _ _ Hr) as (O1 & T1 & S1). destruct (Kk a d1 Hr O1 T1 _ _ K) as (O2 & T2 & S2). split; [exact O2|]. split; [eapply le_trans; eauto|now apply (calm_trans d d1)].
Qed.
Lemma hush_bind_read {A B} (m : M A) (k : A -> M B) d : sane d -> reads m -> (forall a, m d = (Ok a, d) -> hush (k a) d) -> hush (mbind m k) d.
Proof. intros O Rd Kk. apply hush_bind; [now apply hush_read|]. intros a d1 Ha. pose proof (reads_run m d _ _ Rd Ha) as ->. intros _ _. now apply Kk. Qed.
Lemma hush_ret {A} (a : A) d : sane d -> hush (ret a) d. Proof. intros O. apply hush_read; [exact O|apply reads_ret]. Qed.
Lemma hush_raise {A} x d : sane d -> hush (@raise A x) d. Proof. intros O. apply hush_read; [exact O|apply reads_raise]. Qed.
Lemma hush_ext {A} (m m' : M A) d : (forall d, m d = m' d) -> hush m d -> hush m' d.
Proof. intros E G r d' Hr. apply (G r d'). now rewrite E. Qed.
Lemma hush_quiet {A} (m : M A) d : hush m d -> hush (quiet m) d.
Proof. intros G. unfold quiet. apply hush_bind; [exact G|]. intros a d1 _ O1 _. now apply hush_ret. Qed.

(** *** Primitive steps *)
Lemma on_kids i f (g : row -> row) d r d' : wf d -> (forall t, eid (f t) = eid t /\ ekids (f t) = ekids t /\ row_of (f t) = g (row_of t)) -> (forall q, r_kids (g q) = r_kids q) -> on i f d = (r, d') -> tags_le d d' -> calm d d'.
Proof.
  intros W Hf Hg Hr T j (q & Eq & _). destruct (in_dec Nat.eq_dec i (map eid (elements (d_forest d)))) as [I|I].
  - apply in_map_iff in I as (t & <- & Ht). destruct (Hf t) as (F1 & F2 & F3). destruct (on_run d (eid t) t f g W Ht eq_refl F1 F2 F3) as (d1 & E1 & _ & _ & _ & _ & L1 & L2). rewrite E1 in Hr. injection Hr as <- <-.
    destruct (Nat.eq_dec j (eid t)) as [->|N]; [|apply (items_kids d d1 j q q W T Eq); [now rewrite L2|reflexivity]]. rewrite (look_self _ t (wf_unique d W) Ht) in Eq. injection Eq as <-. apply (items_kids d d1 (eid t) (row_of t) (g (row_of t)) W T); [now apply look_self; [apply W|]|exact L1|apply Hg].
  - assert (d' = d) as ->; [|reflexivity]. unfold on, modify in Hr. injection Hr as _ <-. destruct d as [a b c F n]. cbn in *. unfold set_forest. cbn. f_equal. apply fupd_absent. now rewrite cells_ids.
Qed.
Lemma hush_text i v d : sane d -> hush (lx_set_text i v) d.
Proof.
  intros O. apply hush_of; [exact O|apply good_text; [apply O|now apply sane_ev]|]. intros r d'. assert (G : forall w, on i (set_text w) d = (r, d') -> tags_le d d' -> calm d d').
  { intros w. apply (on_kids i _ (with_text w)); [apply O| |reflexivity]. intros t. destruct t. repeat split. }
  unfold lx_set_text. destruct v as [s|]; [|apply G]. destruct (text_ok s); [apply G|]. intros Hr _. injection Hr as _ <-. now intros x _.
Qed.
Lemma hush_attr i k v d : sane d -> hush (lx_set_attr i k v) d.
Proof.
  intros O. apply hush_of; [exact O|apply good_attr; [apply O|now apply sane_ev]|]. intros r d'. unfold lx_set_attr. destruct (text_ok v).
  - apply (on_kids i _ (fun q => with_attrs (attr_put k v (r_attrs q)) q)); [apply O| |reflexivity]. intros t. destruct t. repeat split.
  - intros Hr _. injection Hr as _ <-. now intros x _.
Qed.
Lemma hush_bins l d : sane d -> hush (set_bins l) d.
Proof. intros O. apply hush_of; [exact O|apply good_bins; [apply O|now apply sane_ev]|]. intros r d' Hr _. unfold set_bins, modify in Hr. injection Hr as _ <-. now intros x _. Qed.
Lemma filter_without d c l : itemb (lk d) c = false -> filter (itemb (lk d)) (without c l) = filter (itemb (lk d)) l.
Proof.
  intros Ic. unfold without. rewrite filter_filter. induction l as [|x l IH]; [reflexivity|]. cbn [filter]. rewrite IH. destruct (Nat.eqb_spec x c) as [->|_]; cbn [negb andb]; [now rewrite Ic|reflexivity].
Qed.
Lemma hush_remove p c d : sane d -> itemb (lk d) c = false -> hush (lx_remove p c) d.
Proof.
  intros O Ic. pose proof O as [W _]. apply hush_of; [exact O|apply good_remove; [exact W|now apply sane_ev|intros _; right; now right]|]. intros r d' Hr T.
  destruct (parent_of (d_forest d) c) as [t|] eqn:Ep.
  2: { unfold lx_remove in Hr. rewrite Ep in Hr. injection Hr as _ <-. now intros x _. }
  destruct (Nat.eqb_spec (eid t) p) as [<-|N].
  2: { unfold lx_remove in Hr. rewrite Ep in Hr. apply Nat.eqb_neq in N. rewrite N in Hr. injection Hr as _ <-. now intros x _. }
  pose proof (wf_unique d W) as U. apply parent_of_In in Ep as [Ht Hc]; [|exact U]. destruct (remove_run d t c W Ht Hc) as (d1 & E1 & _ & _ & _ & _ & L1 & L2). rewrite E1 in Hr. injection Hr as <- <-.
  intros j (q & Eq & _). destruct (Nat.eq_dec j (eid t)) as [->|N]; [|apply (items_kids d d1 j q q W T Eq); [now rewrite L2|reflexivity]].
  pose proof (look_self _ t U Ht) as Et. rewrite (items_at d d1 _ _ W T L1).
  - cbn [r_kids with_kids]. rewrite filter_without by exact Ic. unfold items. now rewrite Et.
  - cbn [r_kids with_kids]. intros k Hk. apply without_In in Hk as [Hk _]. now apply (kids_there d (eid t) (row_of t) W Et).
Qed.
Lemma hush_delete i d : sane d -> itemb (lk d) i = false -> hush (delete i) d.
Proof.
  intros O Ic r d' Hr. unfold delete in Hr. destruct (parent_of (d_forest d) i) as [p|]; [now apply (hush_remove (eid p) i d O Ic r d')|]. injection Hr as _ <-. split; [exact O|]. split; [apply le_refl|now intros j _].
Qed.
Lemma not_item d T i : is_tag (lk d) T i -> Local.itemb T = false -> itemb (lk d) i = false.
Proof.
  intros H N. destruct (itemb (lk d) i) eqn:E; [|reflexivity]. exfalso. assert (Local.itemb T = true); [|congruence]. apply itemb_item in E. unfold Local.itemb. destruct E as [E|E]; rewrite (is_tag_fun _ _ _ _ H E); vm_compute; reflexivity.
Qed.

(** *** Linking a new element *)
Lemma linked x g P d : sane d -> xlaid x -> is_tag (lk d) P g -> joins P (xtag x) -> (Local.itemb (xtag x) = true -> P = $"Group") ->
  exists d' t, (do c <- lx_new x; do _ <- lx_append g c; ret c) d = (Ok (d_next d), d') /\ sane d' /\ tags_le d d' /\ has d' t /\ eid t = d_next d /\ erase t = x /\
    forall j, lk d j <> None -> items d' j = items d j ++ (if ((j =? g)%nat && Local.itemb (xtag x))%bool then [d_next d] else []).
Proof.
  intros O XL TP J JI. pose proof O as [W L]. destruct (new_run d x W) as (t & d1 & E1 & Et & Ex & EF & W1 & _ & N1 & Ht & R1 & Is & Lo).
  destruct (ev_new (fun _ => True) True d x d _ d1 (sane_ev d O) XL (or_intror Logic.I) E1) as (c' & Ec & _ & Tc & Ev1 & T1 & _). injection Ec as <-.
  pose proof (T1 g P TP) as TP1. destruct (tag_has d1 P g W1 TP1) as (tp & Hp & Etp & _). assert (G1 : (g < d_next d)%nat) by exact (tag_small d P g W TP).
  assert (Nin : ~ In (eid tp) (ids t)) by (intros I; apply Is in I; lia).
  assert (Nd : is_doc (d_forest d1) (eid t) = false).
  { unfold is_doc. rewrite EF. destruct (top_forest d W) as (z & F & EFd). rewrite EFd. cbn [app]. apply Nat.eqb_neq. rewrite Et. intros X. assert (has d z) as Hz by (rewrite EFd; apply elements_root; now left). pose proof (look_self _ z (wf_unique d W) Hz) as Ez. apply wf_look in Ez; [|exact W]. lia. }
  destruct (append_run d1 tp t W1 Hp Ht Nin Nd) as (d2 & E2 & M). pose proof M as (W2 & _ & N2 & R2 & Lm). rewrite Etp, Et in *.
  destruct (ev_append (fun _ => True) True d W g (d_next d) P (xtag x) d1 _ d2 Ev1 TP1 Tc J (or_intror (or_intror Logic.I)) E2) as (Ev2 & T2 & _).
  exists d2, t. split. { rewrite (mbind_ok _ _ _ _ _ E1), (mbind_ok _ _ _ _ _ E2). reflexivity. }
  pose proof (le_trans _ _ _ T1 T2) as T02. split; [split; [exact W2|apply Ev2]|]. split; [exact T02|].
  assert (Old : forall j r, lk d j = Some r -> without (d_next d) (r_kids r) = r_kids r).
  { intros j r Ej. apply without_absent. intros I. pose proof (kids_there d j r W Ej _ I) as X. destruct (lk d (d_next d)) as [q|] eqn:Eq; [|now apply X]. apply wf_look in Eq; [lia|exact W]. }
  split.
  { apply (same_tree (d_forest d1) (d_forest d2) t (wf_unique _ W1) (wf_unique _ W2) Ht). intros j Hj. rewrite Lm. destruct (lk d1 j) as [q|] eqn:Eq; [|reflexivity]. cbn [option_map]. f_equal. unfold move_row. pose proof (Is j Hj) as B. assert (j =? g = false)%nat as -> by (apply Nat.eqb_neq; lia). cbv zeta. rewrite without_absent; [apply with_kids_id|].
    intros I. destruct (kid_rows d1 j (d_next d) W1) as (u & k & Hu & _ & Hk & Ek & _); [now exists q|]. apply (root_not_child d1 t u W1); [rewrite EF; apply in_app_iff; right; now left|exact Hu|]. rewrite Et, <- Ek. now apply in_map. }
  split; [exact Et|]. split; [exact Ex|]. intros j Nj. destruct (lk d j) as [r|] eqn:Ej; [clear Nj|congruence]. assert (Bj : (j < d_next d)%nat) by (apply wf_look in Ej; auto). pose proof (Lm j) as Lj. rewrite (Lo j Bj), Ej in Lj. cbn [option_map] in Lj. unfold move_row in Lj. cbv zeta in Lj. rewrite (Old j r Ej) in Lj.
  destruct (Nat.eqb_spec j g) as [->|Ng]; cbn [andb].
  - unfold items. rewrite Lj, Ej. cbn [r_kids with_kids]. rewrite filter_app. f_equal; [apply filter_same; intros k Hk; apply itemb_le; [exact T02|now apply (kids_there d g r)]|]. cbn [filter].
    assert (itemb (lk d2) (d_next d) = Local.itemb (xtag x)) as ->; [|reflexivity]. destruct (T2 _ _ Tc) as (q & Eq & Tq). unfold itemb, tagb, Local.itemb. rewrite Eq, Tq. apply orb_comm.
  - rewrite app_nil_r. now apply (items_kids d d2 j r _ W T02 Ej Lj).
Qed.
Lemma hush_append_new i P x d : sane d -> is_tag (lk d) P i -> frameless x -> hush (lx_append_new i x) d.
Proof.
  intros O T F r d' Hr. assert (XL : xlaid x) by (apply simple_laid; intros c; now apply frameless_kid). assert (NF : ~ frame (xtag x)) by (apply F; destruct x; now left). assert (NI : Local.itemb (xtag x) = false).
  { destruct (Local.itemb (xtag x)) eqn:E; [|reflexivity]. exfalso. apply NF. unfold Local.itemb in E. apply orb_true_iff in E as [E|E]; apply str_eqb_eq in E; rewrite E; cbn; tauto. }
  destruct (linked x i P d O XL T (or_introl NF)) as (d1 & t & E1 & O1 & T1 & _ & _ & _ & It); [congruence|]. unfold lx_append_new in Hr. rewrite E1 in Hr. injection Hr as _ <-. split; [exact O1|]. split; [exact T1|]. intros j (q & Eq & _). rewrite (It j) by congruence. rewrite NI, andb_false_r. apply app_nil_r.
Qed.

(** *** The calls *)
Lemma hush_sub T i P v d : frameb T = false -> sane d -> is_tag (lk d) P i -> hush (set_sub T i v) d.
Proof.
  intros NF O TP. pose proof O as [W _]. assert (NI : Local.itemb T = false). { destruct (Local.itemb T) eqn:E; [|reflexivity]. unfold Local.itemb in E. apply orb_true_iff in E as [E|E]; apply str_eqb_eq in E; rewrite E in NF; vm_compute in NF; discriminate NF. }
  apply unframed in NF. unfold set_sub. apply hush_bind_read; [exact O|apply reads_the|]. intros t Ht. apply the_ok in Ht as (_ & Ht & _); [|exact W]. apply hush_bind.
  - destruct (find1 T t) as [x|] eqn:Ef; [|now apply hush_ret]. apply find1_in in Ef as [Ix Tx]. apply hush_remove; [exact O|]. apply (not_item d T); [|exact NI]. rewrite <- Tx. apply has_tag; [exact W|now apply (has_kid d t)].
  - intros _ d1 _ O1 T1. apply hush_bind_read; [exact O1|apply reads_of|]. intros x Hx. unfold of_res in Hx. injection Hx as Hx. apply e_text_leaf in Hx as (s & ->).
    apply hush_bind; [|intros; now apply hush_ret]. apply (hush_append_new i P); [exact O1|now apply T1|now apply frameless_leaf].
Qed.
Lemma hush_time prop i v d : sane d -> hush (set_time prop i v) d.
Proof.
  intros O. unfold set_time. apply hush_bind_read; [exact O|apply reads_the|]. intros t _. destruct (find1 _ t) as [ts|]; [|now apply hush_ret]. destruct (find1 prop ts) as [p|]; [|now apply hush_ret]. apply hush_bind_read; [exact O|apply reads_encode|]. intros s _. now apply hush_text.
Qed.
Lemma hush_timeprop p i v d : sane d -> hush (set_timeprop p i v) d. Proof. destruct p; apply hush_time. Qed.
Lemma hush_touch C m i d : sane d -> hush (touch C m i) d.
Proof. intros O. unfold touch. apply hush_bind; [now apply hush_timeprop|]. intros _ d1 _ O1 _. destruct m; [now apply hush_timeprop|now apply hush_ret]. Qed.
Lemma hush_expires i b d : sane d -> hush (set_expires i b) d.
Proof.
  intros O. unfold set_expires. apply hush_bind_read; [exact O| |intros p _; now apply hush_text]. unfold expires_elem. apply reads_bind; [apply reads_the|]. intros t. destruct (find1 _ t) as [ts|]; [|apply reads_raise]. destruct (find1 _ ts); [apply reads_ret|apply reads_raise].
Qed.
Lemma hush_att_id a id d : sane d -> hush (set_att_id a id) d.
Proof. intros O. unfold set_att_id. apply hush_bind_read; [exact O|apply reads_the|]. intros t _. destruct (find1 _ t); [now apply hush_attr|now apply hush_raise]. Qed.
Lemma hush_each {A} (f : A -> M unit) (P : A -> db -> Prop) : (forall a d, sane d -> P a d -> hush (f a) d) -> (forall a d d', P a d -> tags_le d d' -> P a d') -> forall l d, sane d -> (forall a, In a l -> P a d) -> hush (each f l) d.
Proof.
  intros Hf Hm. induction l as [|a l IH]; intros d O Hl; [now apply hush_ret|]. cbn [each]. apply hush_bind; [apply Hf; [exact O|apply Hl; now left]|]. intros _ d1 _ O1 T1. apply IH; [exact O1|]. intros b Hb. apply (Hm b d); [apply Hl; now right|exact T1].
Qed.
Lemma hush_delete_binary R id d : sane d -> hush (delete_binary R id) d.
Proof.
  intros O. pose proof O as [W L]. unfold delete_binary. apply hush_bind_read; [exact O|apply reads_db|]. intros dd _. apply hush_bind.
  - destruct (v4 dd); [destruct (py_pop _ id); [now apply hush_bins|now apply hush_raise]|]. apply hush_bind_read; [exact O|apply reads_lift|]. intros [b|] Hb; [|now apply hush_raise]. apply binaries_elem in Hb as [Hb Tb]; [|exact W].
    destruct (py_index (ekids b) id) as [c|] eqn:Ei; [|now apply hush_raise]. apply py_index_In in Ei. apply hush_remove; [exact O|]. pose proof (binaries_kid d b c L W Hb Tb Ei) as NF.
    apply (not_item d (etag c)); [apply has_tag; [exact W|now apply (has_kid d b)]|]. destruct (Local.itemb (etag c)) eqn:E; [|reflexivity]. exfalso. apply NF. unfold Local.itemb in E. apply orb_true_iff in E as [E|E]; apply str_eqb_eq in E; rewrite E; cbn; tauto.
  - intros _ d1 _ O1 _. apply hush_bind_read; [exact O1|apply reads_lift|]. intros refs Hr. apply hush_bind.
    + apply (hush_each _ (fun r d => is_tag (lk d) $"Binary" (rid r))); [|intros a d2 d3 X Y; now apply Y|exact O1|].
      * intros r d2 O2 Tr. apply hush_delete; [exact O2|]. now apply (not_item d2 $"Binary").
      * intros r Ir. unfold lift in Hr. injection Hr as Hr. exact (id_refs R d1 id refs (proj1 O1) Hr r Ir).
    + intros _ d2 _ O2 _. apply hush_bind_read; [exact O2|apply reads_lift|]. intros gt _. apply (hush_each _ (fun _ _ => True)); [|auto|exact O2|auto]. intros r d3 O3 _. apply hush_bind_read; [exact O3|apply reads_att|]. intros n _. now apply hush_att_id.
Qed.
Lemma hush_meta R tag v d : sane d -> hush (set_meta R tag v) d.
Proof. intros O. unfold set_meta. apply hush_bind_read; [exact O|apply reads_lift|]. intros [e|] _; [now apply hush_text|now apply hush_raise]. Qed.
(** Calls that touch no group. *)
Lemma hush_local R Zl C o d : sane d -> typed d o -> (forall x, touches R d o x -> ~ a_group d x) -> hush (run R Zl C o) d.
Proof.
  intros O T N r d' Hr. pose proof O as [W L]. assert (K : kinds d o) by now apply typed_kinds. pose proof (step R Zl C o d W L T) as Ev. unfold next in Ev. cbn [fst snd] in Ev. rewrite Hr in Ev. cbn [snd] in Ev.
  split; [split; [apply (ev_wf _ _ _ _ Ev)|apply Ev]|]. split; [exact (ev_tag _ _ _ _ Ev)|]. intros j G.
  assert (Kp : keeps (fun x => x = j) (run R Zl C o) d). { apply step_local; [split; [exact W|]; split; [exact L|]; intros x ->; left; now right|exact K|]. intros x Tx ->. now apply (N j). }
  destruct (Kp r d' Hr) as (_ & T1 & S). pose proof G as (q & Eq & _). apply (items_kids d d' j q q W T1 Eq); [|reflexivity]. rewrite <- Eq. now apply S.
Qed.
