(** Every call keeps all elements serialisable: texts and attribute values are legal XML, names are names, attributes are
    distinct; and the document keeps its place, with every element in it once.  No assumption on the document's layout or on the arguments is needed. *)
From Verif Require Import Base Base64 PyStr Xml Tree XPath Uuid Time FindSpec Db Api ApiSpec StructSpec CredSpec IntegritySpec Api_sub Cred BinStore Kdbx_inner XPath_facts Heap Prim.

Definition neat (t : elem) : Prop := xml_ok (erase t) = true.
Definition clean (d : db) : Prop := wf d /\ Forall neat (d_forest d).
(** The binaries of a KDBX4 database fit the format. *)
Definition slim (d : db) : Prop := Forall small (d_bins d).
(** The call keeps the document clean, the version, and the binaries. *)
Definition tidy_at {A} (m : M A) (d : db) : Prop :=
  clean (snd (m d)) /\ d_major (snd (m d)) = d_major d /\ d_minor (snd (m d)) = d_minor d /\ (slim d -> slim (snd (m d))).
Definition tidy_call {A} (m : M A) : Prop := forall d, clean d -> tidy_at m d.

(** *** Trees *)
Lemma neat_El i g a x k : neat (El i g a x k) <-> neat (El i g a x []) /\ Forall neat k.
Proof.
  unfold neat. cbn [erase xml_ok map forallb]. rewrite !andb_true_iff, Forall_forall. split.
  - intros [H1 H2]. rewrite forallb_forall in H2. split; [tauto|]. intros t Ht. apply H2. now apply in_map.
  - intros [H1 H2]. split; [tauto|]. apply forallb_forall. intros t Ht. apply in_map_iff in Ht as (u & <- & Hu). now apply H2.
Qed.
Lemma neat_kids t : neat t -> Forall neat (ekids t).
Proof. destruct t as [i g a x k]. intros H. apply neat_El in H. apply H. Qed.
Lemma neat_with_kids t k : neat t -> Forall neat k -> neat (set_kids k t).
Proof. destruct t as [i g a x k0]. cbn [set_kids]. rewrite (neat_El i g a x k0), (neat_El i g a x k). tauto. Qed.
Lemma neat_text t v : neat t -> (match v with Some s => text_ok s = true | None => True end) -> neat (set_text v t).
Proof.
  destruct t as [i g a x k]. cbn [set_text]. rewrite (neat_El i g a x k), (neat_El i g a v k). intros [H1 H2] Hv. split; [|exact H2]. revert H1. unfold neat. cbn [erase xml_ok map forallb].
  rewrite !andb_true_iff. intros (((H & H0) & _) & _). repeat split; auto; try apply H. destruct v; [exact Hv|reflexivity].
Qed.
Lemma put_keys n v l : nodup_keys l = true -> nodup_keys (attr_put n v l) = true /\ forall m, existsb (fun a : str * str => str_eqb (fst a) m) (attr_put n v l) = existsb (fun a => str_eqb (fst a) m) l || str_eqb n m.
Proof.
  induction l as [|[m w] l IH]; cbn [nodup_keys attr_put]; intros H.
  - split; [reflexivity|]. intros m. cbn. now rewrite orb_false_r.
  - apply andb_true_iff in H as [H1 H2]. destruct (IH H2) as [I1 I2]. destruct (str_eqb m n) eqn:E.
    + apply str_eqb_eq in E as ->. split; [cbn [nodup_keys]; now rewrite H1, H2|]. intros m. cbn [existsb fst]. destruct (str_eqb n m); [now rewrite orb_true_r|now rewrite orb_false_r].
    + split.
      * cbn [nodup_keys]. rewrite I1, I2, andb_true_r. apply negb_true_iff in H1. rewrite H1. cbn [orb]. apply negb_true_iff.
        destruct (str_eqb n m) eqn:E2; [|reflexivity]. apply str_eqb_eq in E2 as ->. now rewrite str_eqb_refl in E.
      * intros m'. cbn [existsb fst]. rewrite I2. now rewrite orb_assoc.
Qed.
Lemma put_ok n v l : name_ok n = true -> text_ok v = true -> forallb (fun a : str * str => name_ok (fst a) && text_ok (snd a)) l = true ->
  forallb (fun a : str * str => name_ok (fst a) && text_ok (snd a)) (attr_put n v l) = true.
Proof.
  intros Hn Hv. induction l as [|[m w] l IH]; cbn [attr_put forallb fst snd]; [now rewrite Hn, Hv|]. intros H. apply andb_true_iff in H as [H1 H2].
  destruct (str_eqb m n); cbn [forallb fst snd]; [|now rewrite H1, IH]. rewrite H2, Hv. apply andb_true_iff in H1 as [-> _]. reflexivity.
Qed.
Lemma neat_attr t n v : neat t -> name_ok n = true -> text_ok v = true -> neat (set_attr n v t).
Proof.
  destruct t as [i g a x k]. cbn [set_attr]. rewrite (neat_El i g a x k), (neat_El i g _ x k). intros [H1 H2] Hn Hv. split; [|exact H2]. revert H1. unfold neat. cbn [erase xml_ok map forallb].
  rewrite !andb_true_iff. intros ((((H & H0) & H3) & H4) & _). repeat split; auto; [now apply put_ok|now apply put_keys].
Qed.
Lemma neat_upd i f t : neat t -> (forall u, neat u -> neat (f u)) -> neat (upd i f t).
Proof.
  intros H Hf. induction t as [j g a x k IH] using elem_ind'. cbn [upd]. destruct (j =? i)%nat; [now apply Hf|]. apply neat_El in H as [H1 H2]. apply neat_El. split; [exact H1|].
  rewrite Forall_forall in *. intros u Hu. apply in_map_iff in Hu as (v & <- & Hv). apply IH; auto.
Qed.
Lemma neat_prune i t : neat t -> neat (prune i t).
Proof.
  induction t as [j g a x k IH] using elem_ind'. intros H. cbn [prune]. apply neat_El in H as [H1 H2]. apply neat_El. split; [exact H1|].
  rewrite Forall_forall in *. intros u Hu. apply in_flat_map in Hu as (v & Hv & Hu). destruct (eid v =? i)%nat; [destruct Hu|]. destruct Hu as [<-|[]]. apply IH; auto.
Qed.
Lemma neat_pre t up n : neat t -> In n (pre up t) -> neat (nd_el n).
Proof.
  revert up. induction t as [j g a x k IH] using elem_ind'. intros up H Hn. cbn [pre] in Hn. destruct Hn as [<-|Hn]; [exact H|]. apply in_flat_map in Hn as (u & Hu & Hn).
  rewrite Forall_forall in IH. apply (IH u Hu _ (proj1 (Forall_forall _ _) (neat_kids _ H) u Hu) Hn).
Qed.
Lemma neat_elem F i t : Forall neat F -> elem_of F i = Some t -> neat t.
Proof.
  intros H. unfold elem_of, node_of. destruct (List.find _ (fpre F)) as [n|] eqn:E; [|discriminate]. intros [= <-]. apply find_some in E as [E _].
  unfold fpre in E. apply in_flat_map in E as (u & Hu & E). apply (neat_pre u [] n); auto. rewrite Forall_forall in H. now apply H.
Qed.
Lemma neat_label x : forall n, neat (fst (label n x)) <-> xml_ok x = true.
Proof. intros n. unfold neat. now rewrite (proj1 (proj2 (label_spec x n))). Qed.

(** *** Forests *)
Lemma prune_eid i t : eid (prune i t) = eid t. Proof. destruct t; reflexivity. Qed.
Lemma detach_neat F c : Forall neat F -> Forall neat (detach F c).
Proof.
  intros H. unfold detach. destruct (is_root F c); [exact H|]. destruct (elem_of F c) as [s|] eqn:E; [|exact H]. apply Forall_app. split; [|constructor; [eapply neat_elem; eauto|constructor]].
  rewrite Forall_forall in *. intros u Hu. apply in_map_iff in Hu as (v & <- & Hv). now apply neat_prune, H.
Qed.
Lemma detach_head F c : F <> [] -> is_doc F c = false -> exists u G, detach F c = u :: G /\ (eid u =? c)%nat = false.
Proof.
  destruct F as [|u F]; [congruence|]. intros _ H. cbn [is_doc] in H. unfold detach. destruct (is_root (u :: F) c); [eauto|].
  destruct (elem_of (u :: F) c) as [s|]; [|eauto]. cbn [map app]. exists (prune c u), (map (prune c) F ++ [s]). now rewrite prune_eid.
Qed.
Lemma detach_cons F c : F <> [] -> detach F c <> [].
Proof. intros H. unfold detach. destruct (is_root F c); [exact H|]. destruct (elem_of F c); [|exact H]. destruct F; [congruence|discriminate]. Qed.
Lemma relink_clean F p c link : F <> [] -> Forall neat F -> is_doc F c = false -> (forall u v, neat u -> neat v -> neat (link u v)) ->
  relink F p c link <> [] /\ Forall neat (relink F p c link).
Proof.
  intros HF H Hc Hl. unfold relink, take_root. destruct (List.find _ (detach F c)) as [t|] eqn:E; [|auto]. pose proof (detach_neat F c H) as D. destruct (detach_head F c HF Hc) as (u & G & E2 & E3).
  rewrite E2 in *. cbn [filter]. rewrite E3. cbn [negb]. unfold fupd. split; [discriminate|]. assert (Nt : neat t). { apply find_some in E as [E _]. rewrite Forall_forall in D. now apply D. }
  apply (Forall_forall neat). intros v Hv. apply in_map_iff in Hv as (w & <- & Hw). apply neat_upd; [|auto]. rewrite Forall_forall in D. apply D.
  destruct Hw as [->|Hw]; [now left|right]. now apply filter_In in Hw.
Qed.
Lemma fupd_clean F i f : F <> [] -> Forall neat F -> (forall u, neat u -> neat (f u)) -> fupd i f F <> [] /\ Forall neat (fupd i f F).
Proof.
  intros HF H Hf. split; [destruct F; [congruence|discriminate]|]. unfold fupd. rewrite Forall_forall in *. intros v Hv. apply in_map_iff in Hv as (w & <- & Hw). apply neat_upd; auto.
Qed.

(** *** Every element once *)
Lemma ids_upd i f t : (forall u, ids (f u) = ids u) -> ids (upd i f t) = ids t.
Proof.
  intros H. induction t as [j g a x k IH] using elem_ind'. cbn [upd]. destruct (j =? i)%nat; [apply H|]. cbn [ids]. f_equal.
  induction k as [|c k IHk]; [reflexivity|]. inversion IH; subst. cbn [map flat_map]. f_equal; auto.
Qed.
Lemma wf_fids d : wf d <-> d_forest d <> [] /\ NoDup (fids (d_forest d)) /\ forall j, In j (fids (d_forest d)) -> (j < d_next d)%nat.
Proof.
  unfold wf, unique. rewrite fids_elements. split; intros (H1 & H2 & H3); (split; [exact H1|split; [exact H2|]]).
  - intros j Hj. apply in_map_iff in Hj as (t & <- & Ht). now apply H3.
  - intros t Ht. apply H3. now apply in_map.
Qed.
Lemma wf_on d i f : wf d -> (forall u, ids (f u) = ids u) -> wf (set_forest d (fupd i f (d_forest d))).
Proof.
  intros W H. apply wf_fids in W as (W1 & W2 & W3). assert (E : fids (fupd i f (d_forest d)) = fids (d_forest d)).
  { unfold fids, fupd. clear -H. induction (d_forest d) as [|t F IH]; [reflexivity|]. cbn [map flat_map]. f_equal; [now apply ids_upd|exact IH]. }
  apply wf_fids. cbn [set_forest d_forest d_next]. rewrite E. split; [unfold fupd; destruct (d_forest d); [congruence|discriminate]|auto].
Qed.
Lemma wf_detach d c : wf d -> wf (set_forest d (detach (d_forest d) c)).
Proof.
  intros W. pose proof (wf_unique d W) as Hu. destruct (parent_of (d_forest d) c) as [p|] eqn:E.
  - destruct (edit_detach (d_forest d) c p Hu E) as (Ee & Er & _). eapply wf_edit; [exact W|exact Ee|]. rewrite Er. destruct (roots (d_forest d)); discriminate.
  - unfold detach. assert (E0 : set_forest d (d_forest d) = d) by (now destruct d). destruct (is_root (d_forest d) c) eqn:R; [now rewrite E0|]. destruct (elem_of (d_forest d) c) as [s|] eqn:S0; [|now rewrite E0].
    exfalso. unfold parent_of in E. unfold elem_of in S0. destruct (node_of (d_forest d) c) as [nd|] eqn:En; [|discriminate]. apply node_of_In in En as [Hnd Ei]; [|exact Hu]. apply fpre_In in Hnd as (r0 & Hr0 & Hnd).
    destruct (pre_parent _ _ _ Hnd) as [->|(p' & up & E1 & _)]; [|rewrite E1 in E; discriminate]. cbn in Ei. assert (is_root (d_forest d) c = true) by (apply is_root_In, roots_In; eauto). congruence.
Qed.
Lemma fids_filter f F : incl (fids (filter f F)) (fids F) /\ (NoDup (fids F) -> NoDup (fids (filter f F))).
Proof.
  induction F as [|t F [I1 I2]]; [split; [apply incl_refl|auto]|]. cbn [filter fids flat_map] in *. fold (fids F) in *. split.
  - intros j Hj. destruct (f t); [cbn [flat_map] in Hj|]; rewrite in_app_iff in *; [destruct Hj as [Hj|Hj]|]; auto.
  - intros Hn. destruct (f t); cbn [flat_map]; fold (fids (filter f F)).
    + revert I1 I2 Hn. generalize (fids F) (fids (filter f F)). induction (ids t) as [|a l IH]; intros A B H1 H2 Hn; [auto|]. cbn [app] in *. apply NoDup_cons_iff in Hn as [Hn1 Hn2]. constructor; [|eapply IH; eauto].
      intros H. apply Hn1. rewrite in_app_iff in *. destruct H; auto.
    + apply I2. clear -Hn. induction (ids t) as [|a l IH]; [exact Hn|]. cbn [app] in Hn. apply NoDup_cons_iff in Hn as [_ Hn]. auto.
Qed.
Lemma filter_doc F c : F <> [] -> is_doc F c = false -> filter (fun t => negb (eid t =? c)%nat) (detach F c) <> [].
Proof. intros HF Hc. destruct (detach_head F c HF Hc) as (u & G & -> & E). cbn [filter]. rewrite E. cbn [negb]. discriminate. Qed.
(** Linking below an element that does not exist loses the child; otherwise nothing is lost. *)
Lemma wf_relink d p c link : wf d -> is_doc (d_forest d) c = false -> anc_or_self (d_forest d) c p = false ->
  (forall t q, has d q -> eid q = p -> has d t -> eid t = c -> ~ In p (ids t) -> wf (set_forest d (relink (d_forest d) p c link))) ->
  wf (set_forest d (relink (d_forest d) p c link)).
Proof.
  intros W Hd Ha H. pose proof (wf_unique d W) as Hu. assert (E0 : set_forest d (d_forest d) = d) by (now destruct d).
  destruct (elem_of (d_forest d) p) as [q|] eqn:Eq.
  - apply elem_of_In in Eq as [Hq Eq]; [|exact Hu]. destruct (elem_of (d_forest d) c) as [t|] eqn:Et.
    + pose proof Et as Et'. apply elem_of_In in Et as [Ht Et]; [|exact Hu]. apply (H t q Hq Eq Ht Et). intros Hi. enough (anc_or_self (d_forest d) c p = true) by congruence.
      apply (anc_or_self_In (d_forest d) c p t Hu Et'); [|exact Hi]. exists q. subst p. now apply elem_of_self.
    + unfold relink, take_root, detach. rewrite Et. replace (if is_root (d_forest d) c then d_forest d else d_forest d) with (d_forest d) by (now destruct (is_root _ _)).
      destruct (List.find _ (d_forest d)) as [t|] eqn:E; [|now rewrite E0]. exfalso. apply find_some in E as [Hi E]. apply Nat.eqb_eq in E. rewrite <- E, (elem_of_self _ t Hu) in Et; [discriminate|now apply elements_root].
  - unfold relink, take_root. destruct (List.find _ (detach (d_forest d) c)) as [t|]; [|now rewrite E0].
    pose proof (wf_detach d c W) as W1. apply wf_fids in W1 as (V1 & V2 & V3). cbn [set_forest d_forest d_next] in *.
    set (G := filter (fun u => negb (eid u =? c)%nat) (detach (d_forest d) c)). destruct (fids_filter (fun u => negb (eid u =? c)%nat) (detach (d_forest d) c)) as [I1 I2]. fold G in I1, I2.
    assert (P : ~ In p (fids G)).
    { intros Hi. apply I1 in Hi. assert (K : In p (fids (d_forest d))).
      { clear -Hi W. rewrite fids_elements in *. unfold detach in Hi. destruct (is_root _ _); [exact Hi|]. destruct (elem_of (d_forest d) c) as [s|] eqn:S0; [|exact Hi]. apply elem_of_In in S0 as [S1 S2]; [|apply W].
        rewrite elements_app, map_app, in_app_iff in Hi. destruct Hi as [Hi|Hi].
        - rewrite <- fids_elements in *. unfold fids in *. apply in_flat_map in Hi as (u & Hu & Hi). apply in_map_iff in Hu as (v & <- & Hv). apply in_flat_map. exists v. split; [exact Hv|]. clear -Hi. induction v as [j g a x k IH] using elem_ind'. cbn [prune ids] in *. destruct Hi as [->|Hi]; [now left|right].
          apply in_flat_map in Hi as (u & Hu & Hi). apply in_flat_map in Hu as (v & Hv & Hu). destruct (eid v =? c)%nat; [destruct Hu|]. destruct Hu as [<-|[]]. apply in_flat_map. exists v. split; [exact Hv|]. rewrite Forall_forall in IH. now apply IH.
        - unfold elements in Hi. cbn in Hi. rewrite app_nil_r in Hi. apply in_map_iff in Hi as (u & <- & Hu). apply in_map. now apply (elements_sub _ s). }
      rewrite fids_elements in K. apply in_map_iff in K as (u & E & K). rewrite <- E, (elem_of_self _ u Hu K) in Eq. discriminate. }
    rewrite fupd_absent; [|intros K; apply P; rewrite fids_elements; clear -K; rewrite cells_ids in K; exact K]. apply wf_fids. cbn [set_forest d_forest d_next]. split; [apply filter_doc; [apply W|exact Hd]|]. split; [now apply I2|]. intros j Hj. apply V3, I1, Hj.
Qed.

(** *** Primitives *)
Lemma t_same {A} (m : M A) : (forall d, snd (m d) = d) -> tidy_call m.
Proof. intros H d C. unfold tidy_at. rewrite H. auto. Qed.
Lemma t_forest {A} (m : M A) : (forall d, exists F, snd (m d) = set_forest d F /\ (clean d -> wf (set_forest d F) /\ Forall neat F)) -> tidy_call m.
Proof. intros H d C. unfold tidy_at. destruct (H d) as (F & -> & HF). specialize (HF C). split; [exact HF|]. auto. Qed.
Lemma t_bind {A B} (m : M A) (f : A -> M B) : tidy_call m -> (forall a, tidy_call (f a)) -> tidy_call (mbind m f).
Proof.
  intros Hm Hf d C. unfold tidy_at, mbind. specialize (Hm d C). unfold tidy_at in Hm. destruct (m d) as [[a|e] d']; cbn [snd] in *; [|exact Hm]. destruct Hm as (C' & A1 & A2 & A3). destruct (Hf a d' C') as (B0 & B1 & B2 & B3).
  split; [exact B0|]. split; [congruence|]. split; [congruence|]. auto.
Qed.
(** Binding a value that was computed without effect, keeping what is known about it. *)
Lemma t_bind_res {A B} (r : res A) (f : A -> M B) : (forall a, r = Ok a -> tidy_call (f a)) -> tidy_call (mbind (of_res r) f).
Proof. intros H d C. destruct r as [a|e]; [exact (H a eq_refl d C)|]. unfold tidy_at, mbind, of_res. cbn [snd]. auto. Qed.
Lemma t_bind_lift {A B} (g : db -> res A) (f : A -> M B) : (forall d a, g d = Ok a -> clean d -> tidy_call (f a)) -> tidy_call (mbind (lift g) f).
Proof. intros H d C. unfold tidy_at, mbind, lift. destruct (g d) as [a|e] eqn:E; cbn [snd]; [exact (H d a E C d C)|auto]. Qed.
Lemma t_ret {A} (a : A) : tidy_call (ret a). Proof. now apply t_same. Qed.
Lemma t_raise {A} e : tidy_call (raise e : M A). Proof. now apply t_same. Qed.
Lemma t_of_res {A} (r : res A) : tidy_call (of_res r). Proof. apply t_same. now destruct r. Qed.
Lemma t_lift {A} (g : db -> res A) : tidy_call (lift g). Proof. now apply t_same. Qed.
Lemma t_the i : tidy_call (the i). Proof. apply t_lift. Qed.
Lemma t_xfirst R t s : tidy_call (xfirst R t s). Proof. apply t_lift. Qed.
Lemma t_xcast1 R t s : tidy_call (xcast1 R t s). Proof. apply t_lift. Qed.
Lemma t_on i f : (forall u, ids (f u) = ids u) -> (forall u, neat u -> neat (f u)) -> tidy_call (on i f).
Proof. intros Hi H. apply t_forest. intros d. eexists. split; [reflexivity|]. intros [C1 C2]. split; [now apply wf_on|]. apply fupd_clean; auto. apply C1. Qed.
Lemma t_set_text i v : tidy_call (lx_set_text i v).
Proof.
  unfold lx_set_text. destruct v as [s|]; [destruct (text_ok s) eqn:E; [|apply t_raise]|]; (apply t_on; [now intros [? ? ? ? ?]|]); intros u Hu; apply neat_text; auto.
Qed.
Lemma t_set_attr i k v : name_ok k = true -> tidy_call (lx_set_attr i k v).
Proof. intros Hk. unfold lx_set_attr. destruct (text_ok v) eqn:E; [|apply t_raise]. apply t_on; [now intros [? ? ? ? ?]|]. intros u Hu. now apply neat_attr. Qed.
Lemma t_remove p c : tidy_call (lx_remove p c).
Proof.
  apply t_forest. intros d. unfold lx_remove. assert (K : exists F, d = set_forest d F /\ (clean d -> wf (set_forest d F) /\ Forall neat F)) by (exists (d_forest d); destruct d; auto).
  destruct (parent_of (d_forest d) c) as [t|]; [destruct (eid t =? p)%nat|]; auto. eexists. split; [reflexivity|]. intros [C1 C2]. split; [now apply wf_detach|now apply detach_neat].
Qed.
Lemma t_append p c : tidy_call (lx_append p c).
Proof.
  apply t_forest. intros d. unfold lx_append. destruct (anc_or_self (d_forest d) c p) eqn:Ea; cbn [orb]; [exists (d_forest d); destruct d; now auto|].
  destruct (is_doc (d_forest d) c) eqn:E; [exists (d_forest d); destruct d; now auto|]. eexists. split; [reflexivity|]. intros [C1 C2].
  split.
  { apply wf_relink; auto. intros t q Hq <- Ht <- Hn. destruct (append_run d q t C1 Hq Ht Hn E) as (d' & R & W & _). unfold lx_append in R. rewrite Ea, E in R. cbn [orb] in R. now injection R as ->. }
  apply relink_clean; auto; [apply C1|]. intros u v Hu Hv. unfold add_kid. apply neat_with_kids; [exact Hv|]. apply Forall_app. split; [now apply neat_kids|now constructor].
Qed.
Lemma t_insert p z c : tidy_call (lx_insert p z c).
Proof.
  apply t_forest. intros d. unfold lx_insert. destruct (anc_or_self (d_forest d) c p) eqn:Ea; cbn [orb]; [exists (d_forest d); destruct d; now auto|].
  destruct (is_doc (d_forest d) c) eqn:E; [exists (d_forest d); destruct d; now auto|]. destruct (elem_of (d_forest d) p) as [t|] eqn:Ep; [|exists (d_forest d); destruct d; now auto].
  eexists. split; [reflexivity|]. intros [C1 C2]. split.
  { apply wf_relink; auto. intros s q Hq <- Hs <- Hn. destruct (insert_run d q s z C1 Hq Hs Hn E) as (d' & R & W & _). unfold lx_insert in R. rewrite Ea, E, Ep in R. cbn [orb] in R. now injection R as ->. }
  apply relink_clean; auto; [apply C1|]. intros u v Hu Hv. unfold insert_kid. apply neat_with_kids; [exact Hv|]. pose proof (neat_kids _ Hv) as K. rewrite <- (firstn_skipn (if (0 <=? z)%Z then Z.to_nat (Z.min z (Z.of_nat (List.length (ekids t)))) else let j := (Z.of_nat (List.length (ekids t)) + z)%Z in if (0 <=? j)%Z then Z.to_nat j else List.length (ekids t)) (ekids v)) in K. apply Forall_app in K as [K1 K2].
  unfold insert_at. apply Forall_app. split; [exact K1|now constructor].
Qed.
Lemma t_new x : xml_ok x = true -> tidy_call (lx_new x).
Proof.
  intros Hx d [C1 C2]. unfold tidy_at, lx_new. destruct (label (d_next d) x) as [t n] eqn:E. cbn [snd]. split; [|auto]. cbv beta. unfold clean. cbn [d_forest]. split.
  { destruct (new_run d x C1) as (t' & d' & R & _ & _ & _ & W & _). unfold lx_new in R. rewrite E in R. now injection R as _ ->. }
  apply Forall_app. split; [exact C2|]. constructor; [|constructor].
  apply (neat_label x (d_next d)) in Hx. now rewrite E in Hx.
Qed.
Lemma t_append_new p x : xml_ok x = true -> tidy_call (lx_append_new p x).
Proof. intros Hx. unfold lx_append_new. apply t_bind; [now apply t_new|]. intros c. apply t_bind; [apply t_append|]. intros _. apply t_ret. Qed.
Lemma t_bins {A} l (f : unit -> M A) d : tidy_call (f tt) -> clean d -> (slim d -> Forall small l) -> tidy_at (mbind (set_bins l) f) d.
Proof.
  intros H Cd Hl. set (d1 := MkDb (d_major d) (d_minor d) l (d_forest d) (d_next d)). change (tidy_at (fun _ => f tt d1) d). destruct (H d1 Cd) as (J1 & J2 & J3 & J4).
  split; [exact J1|]. split; [exact J2|]. split; [exact J3|]. intros S. apply J4, Hl, S.
Qed.
Lemma t_get_db {A} (f : db -> M A) : (forall d, clean d -> tidy_at (f d) d) -> tidy_call (mbind get_db f).
Proof. intros H d C. exact (H d C). Qed.

Lemma in_firstn {A} n (l : list A) x : In x (firstn n l) -> In x l.
Proof. intros H. rewrite <- (firstn_skipn n l). apply in_app_iff. now left. Qed.
Lemma in_skipn {A} n (l : list A) x : In x (skipn n l) -> In x l.
Proof. intros H. rewrite <- (firstn_skipn n l). apply in_app_iff. now right. Qed.

(** *** New elements *)
Lemma e_text_xml tag a v x : name_ok tag = true -> forallb (fun p : str * str => name_ok (fst p)) a = true -> nodup_keys a = true -> e_text tag a v = Ok x -> xml_ok x = true.
Proof.
  intros Ht Ha Hd. unfold e_text. destruct (forallb (fun p : str * str => text_ok (snd p)) a) eqn:E; [|discriminate]. destruct v as [s|]; [|discriminate]. destruct (text_ok s) eqn:E2; [|discriminate]. intros [= <-].
  cbn [xml_ok forallb Xml.opt_text]. rewrite Ht, Hd, E2, !andb_true_r. cbn [andb]. apply forallb_forall. intros p Hp. rewrite forallb_forall in E, Ha. now rewrite (E p Hp), (Ha p Hp).
Qed.
Lemma e_node_xml tag k : name_ok tag = true -> forallb xml_ok k = true -> xml_ok (e_node tag k) = true.
Proof. intros H1 H2. unfold e_node. cbn [xml_ok forallb nodup_keys Xml.opt_text text_ok]. now rewrite H1, H2. Qed.
Lemma leaf_xml tag s : name_ok tag = true -> text_ok s = true -> xml_ok (X tag [] (Some s) []) = true.
Proof. intros H1 H2. cbn [xml_ok forallb nodup_keys Xml.opt_text]. now rewrite H1, H2. Qed.
Lemma e_string_xml k v a x : forallb (fun p : str * str => name_ok (fst p)) a = true -> nodup_keys a = true -> e_string k v a = Ok x -> xml_ok x = true.
Proof.
  intros Ha Hd H. unfold e_string in H. apply bind_ok in H as (x1 & E1 & H). apply bind_ok in H as (x2 & E2 & H). injection H as <-. apply e_node_xml; [reflexivity|]. cbn [forallb].
  rewrite (e_text_xml $"Key" [] _ _ eq_refl eq_refl eq_refl E1), (e_text_xml $"Value" _ _ _ eq_refl Ha Hd E2). reflexivity.
Qed.
Lemma opt_string_xml k v a l : forallb (fun p : str * str => name_ok (fst p)) a = true -> nodup_keys a = true -> opt_string k v a = Ok l -> forallb xml_ok l = true.
Proof.
  intros Ha Hd H. unfold opt_string in H. destruct (truthy v); [|injection H as <-; reflexivity]. apply bind_ok in H as (x & E & H). injection H as <-. cbn [forallb]. now rewrite (e_string_xml _ _ _ _ Ha Hd E).
Qed.
Lemma bool_xml (b : bool) : text_ok (py_str_bool b) = true. Proof. destruct b; reflexivity. Qed.
Lemma entry_kids_xml t u p url notes otp tags s b w l : entry_kids t u p url notes otp tags s b w = Ok l -> forallb xml_ok l = true.
Proof.
  unfold entry_kids. intros H. apply bind_ok in H as (x1 & E1 & H). apply bind_ok in H as (x2 & E2 & H). apply bind_ok in H as (x3 & E3 & H).
  apply bind_ok in H as (l1 & F1 & H). apply bind_ok in H as (l2 & F2 & H). apply bind_ok in H as (l3 & F3 & H). apply bind_ok in H as (l4 & F4 & H). apply bind_ok in H as (x4 & E4 & H). injection H as <-.
  apply e_string_xml in E1; [|reflexivity..]. apply e_string_xml in E2; [|reflexivity..]. apply e_string_xml in E3; [|reflexivity..].
  apply opt_string_xml in F1; [|reflexivity..]. apply opt_string_xml in F2; [|reflexivity..]. apply opt_string_xml in F3; [|reflexivity..].
  assert (F : forallb xml_ok l4 = true).
  { destruct tags as [|[|g gs]|[|c tx]]; try (injection F4 as <-; reflexivity); apply bind_ok in F4 as (y & Ey & F4); injection F4 as <-; cbn [forallb]; now rewrite (e_text_xml $"Tags" [] _ _ eq_refl eq_refl eq_refl Ey). }
  assert (Ex4 : xml_ok x4 = true).
  { unfold autotype_xml in E4. apply bind_ok in E4 as (y1 & Ey1 & E4). apply bind_ok in E4 as (y2 & Ey2 & E4). injection E4 as <-.
    apply e_node_xml; [reflexivity|]. apply e_text_xml in Ey1; [|reflexivity..]. apply e_text_xml in Ey2; [|reflexivity..].
    cbn [forallb]. rewrite Ey1. rewrite (e_node_xml $"Association" [y2; X $"KeystrokeSequence" [] (Some []) []]) by (try reflexivity; cbn [forallb]; now rewrite Ey2).
    rewrite (leaf_xml $"Enabled" (py_str_bool b)) by (reflexivity || apply bool_xml). reflexivity. }
  cbn [forallb app]. rewrite E1, E2, E3. cbn [andb]. rewrite !forallb_app, F1, F2, F3, F. cbn [forallb]. now rewrite Ex4.
Qed.
Lemma t_base_kids {B} C icon ex expiry (f : list xml -> M B) : (forall l, forallb xml_ok l = true -> tidy_call (f l)) -> tidy_call (mbind (base_kids C icon ex expiry) f).
Proof.
  intros Hf. unfold base_kids.
  assert (A : forall {X Y Z} (m : M X) (g : X -> M Y) (h : Y -> M Z), tidy_call (mbind m (fun a => mbind (g a) h)) -> tidy_call (mbind (mbind m g) h)).
  { intros X Y Z m g h H d Cd. assert (E : mbind (mbind m g) h d = mbind m (fun a => mbind (g a) h) d) by (unfold mbind; destruct (m d) as [[a|e] d']; reflexivity).
    specialize (H d Cd). unfold tidy_at in H |- *. rewrite E. exact H. }
  apply A. apply t_bind_res. intros u Eu. apply A. apply e_text_xml in Eu; [|reflexivity..].
  assert (I : tidy_call (mbind (if truthy icon then of_res (let* x := e_text $"IconID" [] icon in Ok [x]) else ret []) (fun ic => mbind (mbind (encode_t (now C)) (fun cur => mbind (match expiry with Some t => mbind (of_res (astimezone_utc (zone C) t)) (fun u => encode_t u) | None => ret cur end)
     (fun exp => ret ([u] ++ ic ++ [e_node $"Times" [X $"CreationTime" [] (Some cur) []; X $"LastModificationTime" [] (Some cur) []; X $"LastAccessTime" [] (Some cur) [];
          X $"ExpiryTime" [] (Some exp) []; X $"Expires" [] (Some (py_str_bool (match ex with Some b => b | None => false end))) []; X $"UsageCount" [] (Some $"0") []; X $"LocationChanged" [] (Some cur) []]])))) f))).
  { assert (J : forall ic, forallb xml_ok ic = true -> tidy_call (mbind (mbind (encode_t (now C)) (fun cur => mbind (match expiry with Some t => mbind (of_res (astimezone_utc (zone C) t)) (fun u => encode_t u) | None => ret cur end)
     (fun exp => ret ([u] ++ ic ++ [e_node $"Times" [X $"CreationTime" [] (Some cur) []; X $"LastModificationTime" [] (Some cur) []; X $"LastAccessTime" [] (Some cur) [];
          X $"ExpiryTime" [] (Some exp) []; X $"Expires" [] (Some (py_str_bool (match ex with Some b => b | None => false end))) []; X $"UsageCount" [] (Some $"0") []; X $"LocationChanged" [] (Some cur) []]])))) f)).
    { intros ic Hic. apply A. unfold encode_t at 1. apply t_bind_lift. intros d cur Ecur _. apply encode_text_ok in Ecur.
      assert (K : forall exp, text_ok exp = true -> tidy_call (f ([u] ++ ic ++ [e_node $"Times" [X $"CreationTime" [] (Some cur) []; X $"LastModificationTime" [] (Some cur) []; X $"LastAccessTime" [] (Some cur) [];
          X $"ExpiryTime" [] (Some exp) []; X $"Expires" [] (Some (py_str_bool (match ex with Some b => b | None => false end))) []; X $"UsageCount" [] (Some $"0") []; X $"LocationChanged" [] (Some cur) []]]))).
      { intros exp He. apply Hf. rewrite !forallb_app. cbn [forallb]. rewrite Eu, Hic. cbn [andb]. rewrite e_node_xml; [reflexivity|reflexivity|]. cbn [forallb].
        rewrite !leaf_xml by (reflexivity || assumption || apply bool_xml). reflexivity. }
      apply A. destruct expiry as [t|].
      - apply A. apply t_bind_res. intros tu _. unfold encode_t. apply t_bind_lift. intros d' exp He _. apply encode_text_ok in He. intros d2 C2. unfold mbind, ret. now apply K.
      - intros d2 C2. unfold mbind, ret. now apply K. }
    destruct (truthy icon).
    - apply t_bind_res. intros ic Ei. apply bind_ok in Ei as (x & Ex & Ei). injection Ei as <-. apply J. cbn [forallb]. now rewrite (e_text_xml $"IconID" [] _ _ eq_refl eq_refl eq_refl Ex).
    - intros d Cd. unfold mbind at 1. cbn [ret]. now apply J. }
  exact I.
Qed.

(** *** Calls *)
Ltac td :=
  first [ apply t_ret | apply t_raise | apply t_lift | apply t_of_res | apply t_the | apply t_xfirst | apply t_xcast1 | apply t_set_text | apply t_remove | apply t_append | apply t_insert
        | apply t_bind; [|intros ?] | match goal with |- tidy_call (match ?x with _ => _ end) => destruct x end ].
Ltac tds := repeat td.
Lemma t_set_sub T i v : name_ok T = true -> tidy_call (set_sub T i v).
Proof.
  intros HT. unfold set_sub. apply t_bind; [td|intros t]. apply t_bind; [tds|intros _]. apply t_bind_res. intros x E. apply e_text_xml in E; [|exact HT|reflexivity..]. apply t_bind; [now apply t_append_new|intros _; td].
Qed.
Lemma t_get_sub T i : tidy_call (get_sub T i). Proof. unfold get_sub. tds. Qed.
Lemma t_get_string R k i : tidy_call (get_string R k i). Proof. unfold get_string. tds. Qed.
Lemma t_set_string R k i v p : tidy_call (set_string R k i v p).
Proof.
  unfold set_string. apply t_bind; [td|intros f]. apply t_bind; [tds|intros pr]. apply t_bind; [tds|intros _]. apply t_bind_res. intros x E. apply e_string_xml in E; [|destruct pr; reflexivity..]. apply t_bind; [now apply t_append_new|intros _; td].
Qed.
Lemma t_set_prop R p i v : tidy_call (set_prop R p i v).
Proof. destruct p; cbn [set_prop]; unfold set_password, set_otp; try apply t_set_string; (apply t_bind; [apply t_get_string|intros ?; apply t_set_string]). Qed.
Lemma t_get_uuid i : tidy_call (get_uuid i). Proof. unfold get_uuid. apply t_bind; [apply t_get_sub|intros ?; td]. Qed.
Lemma t_set_time T i v : tidy_call (set_time T i v).
Proof. unfold set_time, encode_t. tds. Qed.
Lemma t_set_timeprop p i v : tidy_call (set_timeprop p i v). Proof. destruct p; apply t_set_time. Qed.
Lemma t_group_of R i : tidy_call (group_of R i). Proof. unfold group_of. tds. Qed.
Lemma t_string_keys b i : tidy_call (string_keys b i). Proof. unfold string_keys. tds. Qed.
Lemma t_save_history i : tidy_call (save_history i).
Proof.
  unfold save_history, the. apply t_bind_lift. intros d t E [_ C]. assert (Ht : xml_ok (erase t) = true). { destruct (elem_of (d_forest d) i) as [u|] eqn:Eu; [|discriminate]. injection E as <-. exact (neat_elem _ _ _ C Eu). }
  apply t_bind; [now apply t_new|intros a]. apply t_bind; [td|intros ta]. destruct (find1 _ ta); [tds|]. apply t_bind; [now apply t_new|intros h]. tds.
Qed.
Lemma t_delete i : tidy_call (delete i).
Proof. intros d C. unfold tidy_at, delete. destruct (parent_of (d_forest d) i) as [p|]; [exact (t_remove (eid p) i d C)|cbn [snd]; auto]. Qed.
Lemma t_each {A} (f : A -> M unit) l : (forall a, tidy_call (f a)) -> tidy_call (each f l).
Proof. intros H. induction l; cbn [each]; [td|]. apply t_bind; [apply H|auto]. Qed.
Lemma t_new_entry C t u p url n o tags ex x icon s b w : tidy_call (new_entry C t u p url n o tags ex x icon s b w).
Proof.
  unfold new_entry. apply t_base_kids. intros l Hl. apply t_bind_res. intros k E. apply entry_kids_xml in E. apply t_new. apply e_node_xml; [reflexivity|]. now rewrite forallb_app, Hl, E.
Qed.
Lemma t_new_group C n icon notes ex x : tidy_call (new_group C n icon notes ex x).
Proof.
  unfold new_group. apply t_base_kids. intros l Hl. apply t_bind_res. intros k E. apply e_text_xml in E; [|reflexivity..].
  assert (J : forall nt, forallb xml_ok nt = true -> tidy_call (lx_new (e_node $"Group" (l ++ [k] ++ nt)))). { intros nt Hn. apply t_new, e_node_xml; [reflexivity|]. rewrite !forallb_app. cbn [forallb]. now rewrite Hl, E, Hn. }
  destruct (truthy notes).
  - apply t_bind_res. intros nt En. apply bind_ok in En as (y & Ey & En). injection En as <-. apply J. cbn [forallb]. now rewrite (e_text_xml $"Notes" [] _ _ eq_refl eq_refl eq_refl Ey).
  - intros d Cd. unfold mbind, ret. now apply J.
Qed.
Lemma t_add_group C p n icon notes : tidy_call (add_group C p n icon notes).
Proof. unfold add_group. apply t_bind; [apply t_new_group|intros g]. tds. Qed.
Lemma t_path_loop R f : forall p l, tidy_call (path_loop R f p l).
Proof.
  induction f as [|f IH]; intros p l; cbn [path_loop]; [td|]. destruct p as [p|]; [|td]. unfold is_root_group. apply t_bind; [td|intros b]. destruct b; [td|]. apply t_bind; [apply t_get_sub|intros n].
  apply t_bind; [apply t_group_of|intros q]. apply IH.
Qed.
Lemma t_group_path R i : tidy_call (group_path R i).
Proof.
  unfold group_path, is_root_group. apply t_bind; [td|intros b]. destruct b; [td|]. apply t_bind; [apply t_group_of|intros q]. destruct q; [|td]. apply t_bind; [apply t_get_sub|intros nm]. apply t_bind; [td|intros k]. apply t_path_loop.
Qed.
Lemma t_add_entry R C g t u p url n x tags otp icon f : tidy_call (add_entry R C g t u p url n x tags otp icon f).
Proof.
  unfold add_entry. cbv zeta. apply t_bind; [td|intros dup].
  assert (J : tidy_call (mbind (new_entry C t u p url n otp tags (Some (match x with Some _ => true | None => false end)) x icon None true None) (fun e => mbind (lx_append g e) (fun _ => ret e)))) by (apply t_bind; [apply t_new_entry|intros e; tds]).
  destruct dup; [exact J|]. destruct f; [exact J|]. apply t_bind; [apply t_group_path|intros _; td].
Qed.
Lemma t_meta_elem R T : tidy_call (meta_elem R T). Proof. unfold meta_elem. apply t_xfirst. Qed.
Lemma t_set_meta R T v : tidy_call (set_meta R T v). Proof. unfold set_meta. apply t_bind; [apply t_meta_elem|intros e]. tds. Qed.
Lemma t_recyclebin R : tidy_call (recyclebin_group R).
Proof. unfold recyclebin_group. apply t_bind; [apply t_meta_elem|intros e]. tds. Qed.
Lemma t_root R : tidy_call (root_group R). Proof. unfold root_group. apply t_lift. Qed.
Lemma t_same_el i j : tidy_call (same i j). Proof. unfold same. apply t_bind; [apply t_get_uuid|intros u]. apply t_bind; [apply t_get_uuid|intros v; td]. Qed.
Lemma t_can R i : tidy_call (can_be_moved_to_recyclebin R i).
Proof.
  unfold can_be_moved_to_recyclebin. apply t_bind; [apply t_root|intros r]. apply t_bind; [destruct r; [apply t_same_el|td]|intros b]. destruct b; [td|]. apply t_bind; [apply t_recyclebin|intros q].
  destruct q; [|td]. apply t_bind; [apply t_get_uuid|intros u]. tds.
Qed.
Lemma t_make_bin R C : tidy_call (create_or_get_recyclebin_group R C).
Proof.
  unfold create_or_get_recyclebin_group. apply t_bind; [apply t_recyclebin|intros b]. destruct b; [td|]. apply t_bind; [apply t_root|intros r]. apply t_bind; [apply t_add_group|intros g]. apply t_bind; [apply t_meta_elem|intros e].
  apply t_bind; [apply t_get_uuid|intros u]. tds.
Qed.
Lemma t_trash R C i : tidy_call (trash R C i).
Proof. unfold trash, move. apply t_bind; [apply t_can|intros b]. destruct b; [|td]. apply t_bind; [apply t_make_bin|intros g; td]. Qed.
Lemma t_empty_loop f T g : tidy_call (empty_loop f T g).
Proof. induction f; cbn [empty_loop]; [td|]. apply t_bind; [td|intros t]. destruct (kids_of T t); [td|]. apply t_bind; [apply t_delete|auto]. Qed.
Lemma t_att_id a : tidy_call (att_id a). Proof. unfold att_id. tds. Qed.
Lemma t_set_att_id a z : tidy_call (set_att_id a z). Proof. unfold set_att_id. apply t_bind; [td|intros t]. destruct (find1 _ t); [now apply t_set_attr|td]. Qed.
Lemma t_binaries R Zl : tidy_call (binaries R Zl). Proof. unfold binaries. apply t_lift. Qed.
Lemma t_add_binary R Zl data c (p : bool) : small ((if p then 1 else 0) :: data) -> tidy_call (add_binary R Zl data c p).
Proof.
  intros Hs. unfold add_binary. apply t_get_db. intros d Cd.
  assert (J : tidy_call (mbind (binaries R Zl) (fun l => ret (Z.of_nat (List.length l) - 1)%Z))) by (apply t_bind; [apply t_binaries|intros l; td]).
  destruct (v4 d) eqn:E.
  - apply t_bins; [exact J|exact Cd|]. intros S. apply Forall_app. split; [exact S|]. now constructor.
  - refine (t_bind _ _ _ _ d Cd); [|intros _; exact J].
    apply t_bind; [td|intros b]. apply t_bind; [apply t_binaries|intros n]. apply t_bind_res. intros x Ex. apply e_text_xml in Ex; [|reflexivity..]. destruct b; [|td]. apply t_bind; [now apply t_append_new|intros _; td].
Qed.
Lemma t_delete_binary R z : tidy_call (delete_binary R z).
Proof.
  unfold delete_binary. apply t_get_db. intros d Cd.
  assert (J : tidy_call (mbind (lift (fun d => find_attachments R d true (MkQuery None None false false None [] [($"id", K_int z)]))) (fun refs => mbind (each (fun r => delete (rid r)) refs)
     (fun _ => mbind (lift (fun d => xpath_cast R d None ($"//Binary/Value[@Ref > """ ++ str_of_Z z ++ $"""]/.."))) (fun gt => each (fun r => mbind (att_id (rid r)) (fun n => set_att_id (rid r) (n - 1)%Z)) gt))))).
  { apply t_bind; [td|intros refs]. apply t_bind; [apply t_each; intros; apply t_delete|intros _]. apply t_bind; [td|intros gt]. apply t_each. intros r. apply t_bind; [apply t_att_id|intros n; apply t_set_att_id]. }
  destruct (v4 d) eqn:E.
  - destruct (py_pop (d_bins d) z) as [l|e] eqn:Ep; [|refine (t_bind _ _ _ _ d Cd); [td|intros _; exact J]]. apply t_bins; [exact J|exact Cd|]. intros Sl. unfold py_pop in Ep. cbv zeta in Ep.
    match type of Ep with (if ?c then _ else _) = _ => destruct c; [discriminate|] end. injection Ep as <-.
    apply Forall_app. split; apply (Forall_forall small); intros b Hb; apply (proj1 (Forall_forall small (d_bins d)) Sl); [eapply in_firstn; eauto|exact (in_skipn (S (Z.to_nat _)) _ _ Hb)].
  - refine (t_bind _ _ _ _ d Cd); [tds|intros _; exact J].
Qed.
Lemma t_quiet {A} (m : M A) : tidy_call m -> tidy_call (quiet m). Proof. intros H. unfold quiet. apply t_bind; [exact H|intros _; td]. Qed.
Lemma t_append_all g l : tidy_call (group_append g l). Proof. induction l; cbn [group_append]; [td|]. apply t_bind; [td|auto]. Qed.
Lemma t_first_entry g : tidy_call (first_entry g). Proof. unfold first_entry. tds. Qed.
Lemma t_expires i b : tidy_call (set_expires i b). Proof. unfold set_expires, expires_elem. tds. Qed.

(** A call may be saved: what it adds to the binaries of a KDBX4 database fits the format. *)
Definition fits_call (o : op) : Prop := match o with Op_add_binary data _ p => small ((if p then 1 else 0) :: data) | _ => True end.
Lemma t_run R Zl C o : fits_call o -> tidy_call (IntegritySpec.run R Zl C o).
Proof.
  intros F. destruct o; cbn [IntegritySpec.run].
  - apply t_set_prop.
  - unfold set_custom_property. destruct (reserved _); [td|apply t_set_string].
  - unfold delete_custom_property. apply t_bind; [apply t_string_keys|intros ks]. tds.
  - now apply t_set_sub.
  - now apply t_set_sub.
  - now apply t_set_sub.
  - now apply t_set_sub.
  - now apply t_set_sub.
  - apply t_set_timeprop.
  - apply t_expires.
  - unfold touch. apply t_bind; [apply t_set_timeprop|intros _]. destruct modify; [apply t_set_timeprop|td].
  - unfold set_autotype_enabled. tds.
  - unfold set_autotype_sequence. tds.
  - unfold set_autotype_window. tds.
  - apply t_save_history.
  - unfold delete_history. tds.
  - apply t_quiet. unfold add_attachment. apply t_bind_res. intros k E. apply e_text_xml in E; [|reflexivity..]. apply t_append_new, e_node_xml; [reflexivity|]. cbn [forallb]. rewrite E. cbn [xml_ok forallb fst snd nodup_keys existsb Xml.opt_text text_ok map]. now rewrite int_text.
  - apply t_set_att_id.
  - unfold set_att_filename. tds.
  - apply t_quiet, t_add_binary, F.
  - apply t_delete_binary.
  - apply t_set_meta.
  - destruct w; cbn [set_due_days]; unfold set_credchange_days; (apply t_bind; [apply t_meta_elem|intros e; tds]).
  - unfold set_credchange_date. apply t_bind; [apply t_meta_elem|intros e]. unfold encode_t. tds.
  - apply t_quiet, t_add_entry.
  - apply t_quiet, t_add_group.
  - td.
  - apply t_append_all.
  - apply t_delete.
  - apply t_trash.
  - unfold empty_group. apply t_bind; [td|intros t]. cbv zeta. apply t_bind; [apply t_empty_loop|intros _; apply t_empty_loop].
  - unfold reindex. apply t_bind; [apply t_group_of|intros g]. destruct g; [|td]. apply t_bind; [apply t_first_entry|intros f]. tds.
Qed.
Lemma later_clean R Zl l : forall d, Forall (fun c => fits_call (snd c)) l -> clean d ->
  clean (later R Zl l d) /\ d_major (later R Zl l d) = d_major d /\ d_minor (later R Zl l d) = d_minor d /\ (slim d -> slim (later R Zl l d)).
Proof.
  induction l as [|c l IH]; intros d F Cd; cbn [later]; [auto|]. inversion F as [|? ? F1 F2]; subst. destruct (t_run R Zl (fst c) (snd c) F1 d Cd) as (A & B & B' & B2). fold (next R Zl c d) in *.
  destruct (IH _ F2 A) as (D & D1 & D2 & D3). split; [exact D|]. split; [congruence|]. split; [congruence|auto].
Qed.
