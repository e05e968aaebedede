(** The lists of all entries and of all groups are the outline of the root group, read from above. *)
From Verif Require Import Base PyStr Xml Tree XPath Uuid Time Db FindSpec XPath_facts XPath_eval Find_facts Find_path Api ApiSpec StructSpec CredSpec Heap Prim Api_xpath Struct Struct_add Struct_bin Struct_index Struct_empty PathSpec Path Listing Ref IntegritySpec Integrity OutlineSpec Outline_tree Outline_calm Outline_step.

Lemma picks_app {A} (P : A -> Prop) l m l' m' : picks P l m -> picks P l' m' -> picks P (l ++ l') (m ++ m').
Proof. intros H H'. induction H; cbn [app]; [exact H'|now apply picks_yes|now apply picks_no]. Qed.
Lemma picks_nobody {A} (P : A -> Prop) l : (forall x, In x l -> ~ P x) -> picks P l [].
Proof. induction l as [|x l IH]; intros H; [constructor|]. apply picks_no; [apply H; now left|]. apply IH. intros y Hy. apply H. now right. Qed.
Lemma picks_fun {A} (P : A -> Prop) l m m' : picks P l m -> picks P l m' -> m = m'.
Proof. intros H H'. apply (picks_det P P l m H); [reflexivity|exact H']. Qed.

Section List.
  Variable d : db.
  Hypothesis W : wf d.
  Hypothesis L : laid d.
  Variable b : bool.
  Let T := if b then $"Group" else $"Entry".
  Let P (t : elem) := etag t = T /\ ~ past d (eid t).
  Let q (u : outline) := Bool.eqb (ogroup u) b.
  Definition lowb (g : str) : bool := negb (str_eqb g $"Group" || str_eqb g $"Root" || str_eqb g $"KeePassFile").
  Lemma kid_fits t k : has d t -> In k (ekids t) -> fits (etag t) (etag k).
  Proof. intros Ht Hk. apply (L (eid t) (eid k)); [exists (row_of t); split; [now apply look_self; [apply W|]|cbn; now apply in_map]|now apply has_tag|apply has_tag; [exact W|now apply (has_kid d t)]]. Qed.
  Lemma fits_low g h : lowb g = true -> fits g h -> lowb h = true /\ (h = $"Entry" -> g = $"History").
  Proof.
    unfold lowb. intros Hg (F1 & F2 & F3 & F4 & F5). rewrite negb_true_iff, !orb_false_iff, !str_eqb_neq in *. destruct Hg as [[N1 N2] N3]. split; [repeat split|].
    - intros E. destruct (F1 E); contradiction.
    - intros E. now apply F4 in E.
    - exact F5.
    - intros E. destruct (F2 E); [contradiction|assumption].
  Qed.
  (** Inside an entry, or anything that is not part of the frame, there are only snapshots. *)
  Lemma low_below t : has d t -> lowb (etag t) = true -> forall x, In x (everything t) -> lowb (etag x) = true /\ (x = t \/ (etag x = $"Entry" -> past d (eid x))).
  Proof.
    induction t as [i g a s k IH] using elem_ind'. intros Ht Lt x Hx. set (t := El i g a s k) in *. assert (X : x = t \/ exists c, In c k /\ In x (everything c)). { cbn in Hx. destruct Hx as [<-|Hx]; [now left|right]. apply in_flat_map in Hx as (c & Hc & Hx). eauto. }
    destruct X as [->|(c & Hc & Hx')]; [auto|]. assert (Hkc : has d c) by (apply (has_kid d t); auto). destruct (fits_low g (etag c) Lt (kid_fits t c Ht Hc)) as [Lc Ec]. rewrite Forall_forall in IH. destruct (IH c Hc Hkc Lc x Hx') as [Lx E]. split; [exact Lx|right]. destruct E as [->|E]; [|exact E].
    intros Te. exists (eid t). assert (K : In (eid c) (map eid (ekids t))) by (cbn; now apply in_map). split; [rewrite <- (Ec Te); exact (has_tag d t W Ht)|]. split.
    - intros Y. apply (kid_apart d t c W Ht Hc). rewrite Y. apply ids_In, everything_self.
    - apply below_kid with (eid t) (row_of t); [apply below_self with (row_of t)| |exact K]; exact (look_self _ t (wf_unique d W) Ht).
  Qed.
  Lemma low_picks t : has d t -> lowb (etag t) = true -> etag t <> $"Entry" -> picks P (everything t) [].
  Proof.
    intros Ht Lt Nt. apply picks_nobody. intros x Hx [Tx Px]. destruct (low_below t Ht Lt x Hx) as [Lx [->|E]].
    - unfold T in Tx. destruct b; [rewrite Tx in Lx; discriminate Lx|contradiction].
    - unfold T in Tx. destruct b; [rewrite Tx in Lx; discriminate Lx|]. now apply Px, E.
  Qed.
  Lemma entry_picks t : has d t -> etag t = $"Entry" -> ~ past d (eid t) -> exists m, picks P (everything t) m /\ map eid m = if b then [] else [eid t].
  Proof.
    intros Ht Et Np. assert (Lt : lowb (etag t) = true) by (rewrite Et; vm_compute; reflexivity). exists (if b then [] else [t]). split; [|destruct b; reflexivity].
    assert (U : forall x, In x (flat_map everything (ekids t)) -> ~ P x).
    { intros x Hx [Tx Px]. assert (Hx' : In x (everything t)) by (destruct t; cbn; now right). destruct (low_below t Ht Lt x Hx') as [Lx [->|E]].
      - apply in_flat_map in Hx as (c & Hc & Hx). apply (kid_apart d t c W Ht Hc). now apply ids_In.
      - unfold T in Tx. destruct b; [rewrite Tx in Lx; discriminate Lx|]. now apply Px, E. }
    assert (E : everything t = t :: flat_map everything (ekids t)) by (destruct t; reflexivity). rewrite E. destruct b eqn:Eb.
    - apply picks_no; [intros [Tx _]; unfold T in Tx; rewrite Et in Tx; vm_compute in Tx; discriminate Tx|now apply picks_nobody].
    - apply picks_yes; [split; [exact Et|exact Np]|now apply picks_nobody].
  Qed.
  Lemma walk u : pictures d u -> forall t, has d t -> eid t = oid u -> ~ past d (eid t) -> exists m, picks P (everything t) m /\ map eid m = map oid (filter q (onodes u)).
  Proof.
    induction u as [c i l IH] using outline_ind'. intros Pu t Ht Et Np. pose proof (pic_inv _ _ _ _ Pu) as (Ti & I & Pl). cbn [oid] in Et. assert (Tt : etag t = if c then $"Group" else $"Entry") by (apply (is_tag_fun (lk d) _ _ i); [rewrite <- Et; now apply has_tag|exact Ti]).
    destruct c.
    - assert (Kp : forall k, In k (ekids t) -> ~ past d (eid k)). { intros k Hk. apply (past_kid d (eid t)); [exact W|exists (row_of t); split; [now apply look_self; [apply W|]|cbn; now apply in_map]| |exact Np]. apply history_group. rewrite Et. exact Ti. }
      assert (Kf : forall k, In k (ekids t) -> fits $"Group" (etag k)) by (intros k Hk; rewrite <- Tt; now apply kid_fits). assert (Kh : forall k, In k (ekids t) -> has d k) by (intros k Hk; now apply (has_kid d t)).
      assert (G : exists m, picks P (flat_map everything (ekids t)) m /\ map eid m = map oid (filter q (flat_map onodes l))).
      { unfold items in I. rewrite <- Et, (look_self _ t (wf_unique d W) Ht) in I. cbn [r_kids row_of] in I. clear Pu Ti Np Ht Et Tt. revert l IH Pl I. induction (ekids t) as [|k ks IHk]; intros l IH Pl I.
        - destruct l; [|discriminate I]. exists []. split; [constructor|reflexivity].
        - cbn [map filter flat_map] in *. assert (Hk : has d k) by (apply Kh; now left). assert (Nk : ~ past d (eid k)) by (apply Kp; now left). assert (Fk : fits $"Group" (etag k)) by (apply Kf; now left). destruct (itemb (lk d) (eid k)) eqn:Ik.
          + destruct l as [|u l]; [discriminate I|]. cbn [map flat_map] in *. injection I as Ek I. apply Forall_cons_iff in IH as [IHu IH]. apply Forall_cons_iff in Pl as [Pu Pl]. destruct (IHu Pu k Hk Ek Nk) as (m & Pm & Em).
            destruct (IHk (fun k Hk => Kp k (or_intror Hk)) (fun k Hk => Kf k (or_intror Hk)) (fun k Hk => Kh k (or_intror Hk)) l IH Pl I) as (m' & Pm' & Em'). exists (m ++ m'). split; [now apply picks_app|]. rewrite map_app, filter_app, map_app. congruence.
          + destruct (IHk (fun k Hk => Kp k (or_intror Hk)) (fun k Hk => Kf k (or_intror Hk)) (fun k Hk => Kh k (or_intror Hk)) l IH Pl I) as (m' & Pm' & Em'). exists m'. split; [|exact Em']. apply (picks_app P _ [] _ m'); [|exact Pm'].
            assert (Nt : etag k <> $"Group" /\ etag k <> $"Entry"). { pose proof (has_tag d k W Hk) as (r & Er & Tr). unfold itemb, tagb in Ik. rewrite Er, Tr, orb_false_iff, !str_eqb_neq in Ik. exact Ik. }
            destruct Fk as (_ & _ & _ & F4 & F5). apply low_picks; [exact Hk| |apply Nt]. unfold lowb. rewrite negb_true_iff, !orb_false_iff, !str_eqb_neq. split; [split; [apply Nt|]|exact F5]. intros Y. specialize (F4 Y). vm_compute in F4. discriminate F4. }
      destruct G as (m & Pm & Em). assert (E : everything t = t :: flat_map everything (ekids t)) by (destruct t; reflexivity). rewrite E. cbn [onodes filter]. unfold q at 1. cbn [ogroup]. destruct b eqn:Eb; cbn [Bool.eqb].
      + exists (t :: m). split; [apply picks_yes; [split; [exact Tt|exact Np]|exact Pm]|]. cbn [map oid]. congruence.
      + exists m. split; [apply picks_no; [intros [X _]; unfold T in X; rewrite Tt in X; vm_compute in X; discriminate X|exact Pm]|exact Em].
    - rewrite (entry_items d i (conj W L) Ti) in I. destruct l; [|discriminate I]. destruct (entry_picks t Ht Tt Np) as (m & Pm & Em). exists m. split; [exact Pm|]. rewrite Em. cbn [onodes flat_map filter]. unfold q. cbn [ogroup]. destruct b; cbn [Bool.eqb map oid]; congruence.
  Qed.
  (** Of several trees only [k] counts. *)
  Lemma only_one k m : forall ks, In k ks -> NoDup ks -> picks P (everything k) m -> (forall x, In x ks -> x <> k -> picks P (everything x) []) -> picks P (flat_map everything ks) m.
  Proof.
    induction ks as [|x ks IH]; intros Hk N Pm O; [destruct Hk|]. cbn [flat_map]. apply NoDup_cons_iff in N as [Nx N]. destruct Hk as [->|Hk].
    - replace m with (m ++ []) by apply app_nil_r. apply picks_app; [exact Pm|]. assert (Z : forall y, In y ks -> picks P (everything y) []) by (intros y Hy; apply O; [now right|intros ->; contradiction]). clear -Z. induction ks as [|y ks IH]; [constructor|]. cbn [flat_map]. apply (picks_app P _ [] _ []); [apply Z; now left|apply IH; intros; apply Z; now right].
    - apply (picks_app P _ [] _ m); [apply O; [now left|intros ->; contradiction]|]. apply IH; auto. intros y Hy. apply O. now right.
  Qed.
  Lemma one_kid t (T' : str) i : has d t -> kids_tagged (lk d) T' (eid t) = [i] -> exists k, In k (ekids t) /\ eid k = i /\ etag k = T' /\ forall x, In x (ekids t) -> etag x = T' -> x = k.
  Proof.
    intros Ht E. rewrite (kids_tagged_of d t T' W Ht) in E. destruct (kids_of T' t) as [|k [|k2 l]] eqn:Ek; try discriminate E. injection E as <-. assert (Ik : In k (kids_of T' t)) by (rewrite Ek; now left). apply kids_of_in in Ik as [Ik Tk]. exists k. repeat (split; [auto|]).
    intros x Hx Tx. assert (X : In x (kids_of T' t)) by (apply filter_In; split; [exact Hx|now apply str_eqb_eq]). rewrite Ek in X. now destruct X as [<-|[]].
  Qed.
  Lemma kids_apart t : has d t -> NoDup (ekids t).
  Proof. intros Ht. apply (NoDup_map_inv eid). pose proof (row_nodup d (eid t) (row_of t) W (look_self _ t (wf_unique d W) Ht)) as N. exact N. Qed.
  Lemma whole_list u doc F m : d_forest d = doc :: F -> rooted d (oid u) -> pictures d u -> picks P (everything doc) m -> map eid m = map oid (filter q (onodes u)).
  Proof.
    intros EF (top & r & E0 & Tp & Er & Eg) Pu Pm. assert (Hd : has d doc) by (unfold has_elem, elements; rewrite EF; cbn [flat_map]; apply in_or_app; left; apply everything_self). rewrite EF in E0. cbn in E0. injection E0 as <-.
    assert (Td : etag doc = $"KeePassFile") by (apply (is_tag_fun (lk d) _ _ (eid doc)); [now apply has_tag|exact Tp]). destruct (one_kid doc _ r Hd Er) as (tr & Ir & <- & Tr & Or). assert (Hr : has d tr) by now apply (has_kid d doc). destruct (one_kid tr _ _ Hr Eg) as (tg & Ig & Ei & Tg & Og). assert (Hg : has d tg) by now apply (has_kid d tr).
    assert (Nd : ~ past d (eid doc)). { intros (h & _ & Nh & B). remember (eid doc) as dd eqn:Ed in B, Nh. destruct B as [|j k x B Ej Ik]; [congruence|]. destruct (look_has d j x W Ej) as (e & He & _ & Ee). rewrite <- Ee, Ed in Ik. apply (root_not_child d doc e W); [rewrite EF; now left|exact He|exact Ik]. }
    assert (Nh : forall x g, etag x = g -> str_eqb g $"History" = false -> has d x -> ~ is_tag (lk d) $"History" (eid x)). { intros x g Ex Eh Hx Th. pose proof (is_tag_fun (lk d) _ _ _ (has_tag d x W Hx) Th) as Y. rewrite Ex in Y. rewrite Y in Eh. vm_compute in Eh. discriminate Eh. }
    assert (Kd : forall t k, has d t -> In k (ekids t) -> is_kid d (eid t) (eid k)) by (intros t k Ht Hk; exists (row_of t); split; [now apply look_self; [apply W|]|cbn; now apply in_map]).
    assert (Nr : ~ past d (eid tr)) by (apply (past_kid d (eid doc)); [exact W|now apply Kd|apply (Nh doc _ Td); [reflexivity|exact Hd]|exact Nd]). assert (Ng : ~ past d (eid tg)) by (apply (past_kid d (eid tr)); [exact W|now apply Kd|apply (Nh tr _ Tr); [reflexivity|exact Hr]|exact Nr]).
    destruct (walk u Pu tg Hg Ei Ng) as (m' & Pm' & Em'). rewrite <- Em'. f_equal. apply (picks_fun P (everything doc)); [exact Pm|].
    assert (Ev : forall t, everything t = t :: flat_map everything (ekids t)) by (intros []; reflexivity).
    assert (Wr : forall t k, has d t -> In k (ekids t) -> picks P (everything k) m' -> ~ P t -> (forall x, In x (ekids t) -> x <> k -> lowb (etag x) = true /\ etag x <> $"Entry") -> picks P (everything t) m').
    { intros t k Ht Ik Pk Nt O. rewrite Ev. apply picks_no; [exact Nt|]. apply (only_one k); [exact Ik|now apply kids_apart|exact Pk|]. intros x Hx Nx. destruct (O x Hx Nx) as [A B]. apply low_picks; [now apply (has_kid d t)|exact A|exact B]. }
    apply (Wr doc tr Hd Ir).
    - apply (Wr tr tg Hr Ig Pm').
      + intros [X _]. unfold T in X. rewrite Tr in X. destruct b; vm_compute in X; discriminate X.
      + intros x Hx Nx. pose proof (kid_fits tr x Hr Hx) as (F1 & F2 & F3 & F4 & F5). rewrite Tr in *. unfold lowb. rewrite negb_true_iff, !orb_false_iff, !str_eqb_neq. repeat split.
        * intros Y. apply Nx. now apply Og.
        * intros Y. specialize (F4 Y). vm_compute in F4. discriminate F4.
        * exact F5.
        * intros Y. destruct (F2 Y) as [Z|Z]; vm_compute in Z; discriminate Z.
    - intros [X _]. unfold T in X. rewrite Td in X. destruct b; vm_compute in X; discriminate X.
    - intros x Hx Nx. pose proof (kid_fits doc x Hd Hx) as (F1 & F2 & F3 & F4 & F5). rewrite Td in *. unfold lowb. rewrite negb_true_iff, !orb_false_iff, !str_eqb_neq. repeat split.
      + intros Y. destruct (F1 Y) as [Z|Z]; vm_compute in Z; discriminate Z.
      + intros Y. apply Nx. now apply Or.
      + exact F5.
      + intros Y. destruct (F2 Y) as [Z|Z]; vm_compute in Z; discriminate Z.
  Qed.
End List.
Theorem lists R d u : wf d -> laid d -> rooted d (oid u) -> pictures d u ->
  entries R d = (Ok (map oid (filter (fun k => negb (ogroup k)) (onodes u))), d) /\ groups R d = (Ok (map oid (filter ogroup (onodes u))), d).
Proof.
  intros W L Rt Pu. destruct (d_forest d) as [|doc F] eqn:EF; [destruct Rt as (? & ? & E & _); rewrite EF in E; discriminate E|]. destruct (entries_all R d doc F W EF) as (l & -> & Pl). destruct (groups_all R d doc F W EF) as (m & -> & Pm).
  rewrite (whole_list d W L false u doc F l EF Rt Pu Pl), (whole_list d W L true u doc F m EF Rt Pu Pm). cbn beta.
  split; do 3 f_equal; apply filter_same; intros x _; destruct (ogroup x); reflexivity.
Qed.
