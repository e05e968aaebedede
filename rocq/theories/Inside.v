(** An assignment that puts an element at the end, and one that writes in place elsewhere (be it inside the same entry or group), may be made in either order. *)
From Verif Require Import Base PyStr Xml Tree XPath Uuid Time Db Save FindSpec XPath_facts XPath_eval Find_facts Api ApiSpec StructSpec CredSpec Heap Prim Api_xpath Api_fields Api_sub Api_claims Struct Struct_bin Struct_trash Bin_xpath Cred Relabel Integrity_ops IntegritySpec Lib Kdbx Object ObjectSpec FailSpec Scratch AgainSpec Again LastSpec Last LastSet LastAtt SwapSpec Swap Apart.

(** *** The same call on an element with the same children of that tag *)
Lemma tidy_kids t t' : kids_of $"String" t' = kids_of $"String" t -> tidy t -> tidy t'.
Proof. unfold tidy, book. now intros ->. Qed.
Definition renewal (d d1 : db) (t : elem) (P : elem -> bool) (n : elem) : Prop := rekids d d1 t (rest P t ++ [n]) /\ (forall j, In j (ids n) -> (d_next d <= j)%nat).
Definition renews (m : M unit) (T : str) (d d1 : db) (t : elem) : Prop := exists P n, renewal d d1 t P n /\ (forall c, P c = true -> etag c = T) /\ (forall c c', etag c' = etag c -> (etag c = T -> c' = c) -> P c' = P c) /\ etag n = T /\
  forall e t', wf e -> has e t' -> eid t' = eid t -> kids_of T t' = kids_of T t -> exists e1 n', m e = (Ok tt, e1) /\ renewal e e1 t' P n' /\ erase n' = erase n.
Lemma sub_renews d t T v d1 : wf d -> has d t -> at_most_one T t -> set_sub T (eid t) v d = (Ok tt, d1) -> renews (set_sub T (eid t) v) T d d1 t.
Proof.
  intros W Ht Ho E. destruct (accepted_or v) as [(s & -> & Hs)|X]; [|exfalso; destruct (set_sub_rejected d t T v W Ht X) as (x & d' & t' & Y & _); rewrite E in Y; discriminate].
  destruct (set_sub_exact_fresh d t T s W Ht Hs Ho) as (d1' & n & E1 & K1 & X1 & F1). rewrite E in E1. injection E1 as <-. exists (tagged T), n. split; [now split|]. split; [intros c Hc; now apply str_eqb_eq|]. split; [intros c c' Ec _; unfold tagged; now rewrite Ec|]. split; [now apply erase_kids in X1 as (-> & _)|].
  intros e t' V Ht' Ei Ek. rewrite <- Ei. assert (Ho' : at_most_one T t') by (unfold at_most_one; now rewrite Ek). destruct (set_sub_exact_fresh e t' T s V Ht' Hs Ho') as (e1 & m & E2 & K2 & X2 & F2). exists e1, m. split; [exact E2|]. split; [now split|congruence].
Qed.
Lemma string_renews R d t key v (p : elem -> option bool) d1 m : wf d -> has d t -> tidy t -> plain key -> (forall e t', wf e -> has e t' -> eid t' = eid t -> tidy t' -> m e = set_string R key (eid t') v (p t') e) ->
  (forall t', kids_of $"String" t' = kids_of $"String" t -> p t' = p t) -> m d = (Ok tt, d1) -> renews m $"String" d d1 t.
Proof.
  intros W Ht Hy Hk Hm Hp E. pose proof E as E0. rewrite (Hm d t W Ht eq_refl Hy) in E. destruct (accepted_or v) as [(s & -> & Hs)|X]; [|exfalso; destruct (set_string_rejected R d t key v (p t) W Ht Hy Hk X) as (x & d' & t' & Y & _); rewrite E in Y; discriminate].
  destruct (set_string_exact_fresh R d t key s (p t) W Ht Hy Hk Hs) as (d1' & n & E1 & K1 & X1 & F1). rewrite E in E1. injection E1 as <-. exists (keyed key), n. split; [now split|]. split; [intros c Hc; apply andb_prop in Hc as [Hc _]; now apply str_eqb_eq|].
  split. { intros c c' Ec H. destruct (str_eqb (etag c) $"String") eqn:Es; [apply str_eqb_eq in Es; now rewrite (H Es)|]. unfold keyed. now rewrite Ec, Es. }
  split; [now apply erase_kids in X1 as (-> & _)|].
  intros e t' V Ht' Ei Ek. pose proof (tidy_kids t t' Ek Hy) as Hy'. rewrite (Hm e t' V Ht' Ei Hy'). destruct (set_string_exact_fresh R e t' key s (p t') V Ht' Hy' Hk Hs) as (e1 & n' & E2 & K2 & X2 & F2). exists e1, n'. split; [exact E2|]. split; [now split|]. rewrite X1, X2, (Hp t' Ek). unfold prot_after, book. now rewrite Ek.
Qed.
Lemma op_renews R Zl C o d t T d1 : wf d -> has d t -> formed o (eid t) t -> stored_as o = Some T -> IntegritySpec.run R Zl C o d = (Ok tt, d1) -> renews (IntegritySpec.run R Zl C o) T d d1 t.
Proof.
  intros W Ht Fo So E. destruct o; cbn [stored_as] in So; try discriminate; apply Some_inj in So; subst T; cbn [formed] in Fo; cbn [IntegritySpec.run] in *.
  - destruct Fo as [-> Hy]. destruct (accepted_or v) as [(s & -> & Hs)|X]; [|exfalso; destruct (prop_rejected R d t p v W Ht Hy X) as (x & d' & t' & Y & _); rewrite E in Y; discriminate].
    apply (string_renews R d t (prop_name p) (Some s) (fun t => if secret p then if filled (field_text (prop_name p) t) then None else Some true else None) d1); auto using Api_fields.prop_plain; [|intros t' Ek; unfold field_text, book; now rewrite Ek].
    intros e t' V Ht' Ei Hy'. rewrite <- Ei. now apply set_prop_string.
  - destruct Fo as (-> & Hk & Hy). unfold set_custom_property in *. destruct (reserved (Some key)); [discriminate|]. match type of E with set_string _ _ _ _ ?q _ = _ => apply (string_renews R d t key v (fun _ => q) d1); auto end. intros e t' V Ht' Ei Hy'. now rewrite Ei.
  - destruct Fo as [-> Ho]. exact (sub_renews d t _ _ d1 W Ht Ho E).
  - destruct Fo as [-> Ho]. exact (sub_renews d t _ _ d1 W Ht Ho E).
  - destruct Fo as [-> Ho]. exact (sub_renews d t _ _ d1 W Ht Ho E).
  - destruct Fo as [-> Ho]. exact (sub_renews d t _ _ d1 W Ht Ho E).
  - destruct Fo as [-> Ho]. exact (sub_renews d t _ _ d1 W Ht Ho E).
Qed.
(** *** The element after one row has changed *)
Lemma kids_after d d3 k t : wf d -> wf d3 -> one_row d d3 k -> has d t -> eid t <> k -> exists t3, has d3 t3 /\ eid t3 = eid t /\ row_of t3 = row_of t /\ Forall2 (fun c c3 => eid c3 = eid c /\ etag c3 = etag c /\ (~ In k (ids c) -> c3 = c)) (ekids t) (ekids t3).
Proof.
  intros W W3 O Ht N. pose proof O as (_ & _ & L & _). pose proof (look_self _ t (wf_unique _ W) Ht) as E. rewrite <- L in E by exact N. destruct (look_has d3 _ _ W3 E) as (t3 & Ht3 & Ei & Er). exists t3. do 3 (split; [assumption|]).
  assert (K : map eid (ekids t3) = map eid (ekids t)) by (exact (f_equal r_kids Er)).
  assert (A : forall c, In c (ekids t) -> has d c) by (intros c Hc; now apply (has_kid d t)). assert (A3 : forall c, In c (ekids t3) -> has d3 c) by (intros c Hc; now apply (has_kid d3 t3)).
  revert K A A3. generalize (ekids t) (ekids t3). clear -W W3 O L. induction l as [|c l IH]; intros [|c3 l3] K A A3; try discriminate; constructor.
  - cbn [map] in K. injection K as Ec _. split; [exact Ec|]. assert (Hc : has d c) by (apply A; now left). assert (Hc3 : has d3 c3) by (apply A3; now left). split.
    + pose proof (look_self _ c (wf_unique _ W) Hc) as X. pose proof (look_self _ c3 (wf_unique _ W3) Hc3) as Y. pose proof (one_row_tagb d d3 k (etag c) (eid c) O) as Z. unfold tagb in Z. rewrite X in Z. rewrite <- Ec, Y in Z. cbn [row_of r_tag] in Z. rewrite str_eqb_refl in Z. now apply str_eqb_eq.
    + intros Nk. apply (unique_inj (d_forest d3)); [apply W3|exact Hc3| |exact Ec]. apply (same_tree (d_forest d)); auto using wf_unique. intros j Hj. apply L. intros ->. auto.
  - apply IH; [cbn [map] in K; now injection K|intros x Hx; apply A; now right|intros x Hx; apply A3; now right].
Qed.
Lemma kids_of_after T k l l3 : Forall2 (fun c c3 => eid c3 = eid c /\ etag c3 = etag c /\ (~ In k (ids c) -> c3 = c)) l l3 -> (forall c, In c l -> etag c = T -> ~ In k (ids c)) ->
  filter (fun c => str_eqb (etag c) T) l3 = filter (fun c => str_eqb (etag c) T) l.
Proof.
  intros F. induction F as [|c c3 l l3 (Ei & Et & Ec) F IH]; intros H; [reflexivity|]. cbn [filter]. rewrite Et, IH by (intros x Hx; apply H; now right). destruct (str_eqb (etag c) T) eqn:Es; [|reflexivity]. apply str_eqb_eq in Es. now rewrite (Ec (H c (or_introl eq_refl) Es)).
Qed.
Lemma rest_after T k P l l3 : Forall2 (fun c c3 => eid c3 = eid c /\ etag c3 = etag c /\ (~ In k (ids c) -> c3 = c)) l l3 -> (forall c, In c l -> etag c = T -> ~ In k (ids c)) -> (forall c c', etag c' = etag c -> (etag c = T -> c' = c) -> P c' = P c) ->
  map eid (filter (fun c => negb (P c)) l3) = map eid (filter (fun c => negb (P c)) l).
Proof.
  intros F. induction F as [|c c3 l l3 (Ei & Et & Ec) F IH]; intros H HP; [reflexivity|]. cbn [filter]. rewrite (HP c c3 Et) by (intros Es; apply Ec, (H c (or_introl eq_refl) Es)). specialize (IH (fun x Hx => H x (or_intror Hx)) HP). destruct (negb (P c)); cbn [map]; congruence.
Qed.
(** *** What is written in place is still found *)
Lemma tagged_after d d1 t P n T U j r : wf d -> has d t -> renewal d d1 t P n -> (forall c, P c = true -> etag c = T) -> etag n = T -> U <> T -> lk d j = Some r -> kids_tagged (lk d1) U j = kids_tagged (lk d) U j.
Proof.
  intros W Ht ((W1 & _ & _ & _ & H1 & L1) & Fn) HP Tn NU Ej. pose proof (look_self _ _ (wf_unique _ W1) H1) as Ei1. rewrite set_kids_eid in Ei1.
  assert (G : forall c, has d c -> tagb (lk d1) U (eid c) = str_eqb (etag c) U).
  { intros c Hc. pose proof (look_self _ c (wf_unique _ W) Hc) as X. unfold tagb. destruct (Nat.eq_dec (eid c) (eid t)) as [E|E].
    - assert (c = t) as -> by (apply (unique_inj (d_forest d)); [apply W|exact Hc|exact Ht|exact E]). rewrite Ei1. now destruct t.
    - rewrite L1; [now rewrite X|exact (wf_look d _ _ W X)|exact E]. }
  destruct (look_has d j r W Ej) as (u & Hu & <- & <-). rewrite (kids_tagged_of d u U W Hu). destruct (Nat.eq_dec (eid u) (eid t)) as [E|E].
  - assert (u = t) as -> by (apply (unique_inj (d_forest d)); [apply W|exact Hu|exact Ht|exact E]). pose proof (kids_tagged_of d1 _ U W1 H1) as K. rewrite set_kids_eid in K. rewrite K. f_equal. unfold kids_of. rewrite set_kids_ekids, filter_app. cbn [filter].
    assert (str_eqb (etag n) U = false) as -> by (destruct (str_eqb (etag n) U) eqn:X; [apply str_eqb_eq in X; congruence|reflexivity]). rewrite app_nil_r. unfold rest. clear -HP NU. induction (ekids t) as [|c l IH]; [reflexivity|]. cbn [filter]. destruct (P c) eqn:Pc; cbn [negb filter].
    + rewrite IH. assert (str_eqb (etag c) U = false) as -> by (destruct (str_eqb (etag c) U) eqn:X; [apply str_eqb_eq in X; rewrite (HP c Pc) in X; congruence|reflexivity]). reflexivity.
    + now rewrite IH.
  - unfold kids_tagged. rewrite L1; [|exact (wf_look d _ _ W Ej)|exact E]. rewrite Ej. cbn [row_of r_kids]. apply filter_eid. intros c Hc. apply G. now apply (has_kid d u).
Qed.
Definition ways : list str := [$"Times"; $"ExpiryTime"; $"CreationTime"; $"LastAccessTime"; $"LastModificationTime"; $"Expires"; $"AutoType"; $"Enabled"; $"DefaultSequence"; $"Association"; $"Window"; $"Value"; $"Key"; $"Meta"; $"DatabaseName"; $"DatabaseDescription"; $"DefaultUserName"; $"MasterKeyChangeRec"; $"MasterKeyChangeForce"; $"MasterKeyChanged"].
Lemma ways_apart o T U : stored_as o = Some T -> In U ways -> U <> T.
Proof.
  intros E I ->. assert (X : existsb (str_eqb T) ways = true) by (apply existsb_exists; exists T; split; [exact I|apply str_eqb_refl]). destruct o; try discriminate E; apply Some_inj in E; subst T; vm_compute in X; discriminate X.
Qed.
Lemma spot_kept d d' o k : wf d -> hd_error (rts d') = hd_error (rts d) -> (forall r, hd_error (rts d) = Some r -> tagb (lk d') $"KeePassFile" r = tagb (lk d) $"KeePassFile" r) ->
  (forall U j r, In U ways -> lk d j = Some r -> kids_tagged (lk d') U j = kids_tagged (lk d) U j) -> spot d o = Some k -> spot d' o = Some k.
Proof.
  intros W Hr Ht H. assert (Kd : forall U j c, In c (kids_tagged (lk d) U j) -> (exists r, lk d j = Some r) /\ exists r, lk d c = Some r).
  { intros U j c Hc. destruct (tagged_elem d U j c W Hc) as (u & Hu & <-). split; [exists (row_of u); now apply look_self; [apply W|]|]. rewrite (kids_tagged_of d u U W Hu) in Hc. apply in_map_iff in Hc as (w & <- & Hw). apply kids_of_in in Hw as [Hw _]. exists (row_of w). apply look_self; [apply W|]. now apply (has_kid d u). }
  assert (H' : forall U j l, In U ways -> l <> [] -> kids_tagged (lk d) U j = l -> kids_tagged (lk d') U j = l).
  { intros U j l IU Nl E. destruct l as [|c l]; [congruence|]. destruct (Kd U j c) as ((r & Er) & _); [rewrite E; now left|]. now rewrite (H U j r IU Er). }
  assert (Hh : forall U j c, In U ways -> hd_error (kids_tagged (lk d) U j) = Some c -> hd_error (kids_tagged (lk d') U j) = Some c).
  { intros U j c IU E. rewrite (H' U j (kids_tagged (lk d) U j) IU); [exact E|intros X; rewrite X in E; discriminate|reflexivity]. }
  assert (Fl : forall U l, In U ways -> (forall j, In j l -> exists r, lk d j = Some r) -> flat_map (kids_tagged (lk d') U) l = flat_map (kids_tagged (lk d) U) l).
  { intros U l IU. induction l as [|j l IH]; intros Hl; [reflexivity|]. cbn [flat_map]. destruct (Hl j (or_introl eq_refl)) as (r & Er). rewrite (H U j r IU Er), IH; [reflexivity|intros x Hx; apply Hl; now right]. }
  assert (Ms : forall T, In T ways -> meta_spot d T = Some k -> meta_spot d' T = Some k).
  { intros T IT. unfold meta_spot. rewrite Hr. destruct (hd_error (rts d)) as [r|]; [|discriminate]. rewrite (Ht r eq_refl). destruct (tagb (lk d) _ r); [|discriminate]. destruct (kids_tagged (lk d) $"Meta" r) as [|m [|]] eqn:Em; try discriminate. intros E. rewrite (H' $"Meta" r [m]); [now apply Hh|cbn; tauto|discriminate|exact Em]. }
  assert (Tm : forall i T, In T ways -> match hd_error (kids_tagged (lk d) $"Times" i) with Some j => hd_error (kids_tagged (lk d) T j) | None => None end = Some k -> match hd_error (kids_tagged (lk d') $"Times" i) with Some j => hd_error (kids_tagged (lk d') T j) | None => None end = Some k).
  { intros i T IT E. destruct (hd_error (kids_tagged (lk d) $"Times" i)) as [j|] eqn:Ej; [|discriminate]. rewrite (Hh $"Times" i j); [now apply Hh|cbn; tauto|exact Ej]. }
  assert (Au : forall i, (exists c, In c (kids_tagged (lk d) $"AutoType" i)) -> kids_tagged (lk d') $"AutoType" i = kids_tagged (lk d) $"AutoType" i).
  { intros i (c & Hc). apply H'; [cbn; tauto|intros X; rewrite X in Hc; destruct Hc|reflexivity]. }
  destruct o; cbn [spot]; try discriminate.
  - apply Tm. destruct p; cbn; tauto.
  - apply Tm. cbn; tauto.
  - intros E. rewrite Au by (pose proof (hd_in _ _ E) as I; apply in_flat_map in I as (c & Ic & _); eauto). rewrite Fl; [exact E|cbn; tauto|intros j Hj; apply (Kd _ _ _ Hj)].
  - intros E. rewrite Au by (pose proof (hd_in _ _ E) as I; apply in_flat_map in I as (c & Ic & _); eauto). rewrite Fl; [exact E|cbn; tauto|intros j Hj; apply (Kd _ _ _ Hj)].
  - intros E. rewrite Au by (pose proof (hd_in _ _ E) as I; apply in_flat_map in I as (c & Ic & _); apply in_flat_map in Ic as (c' & Ic & _); eauto). rewrite (Fl $"Association"); [|cbn; tauto|intros j Hj; apply (Kd _ _ _ Hj)]. rewrite Fl; [exact E|cbn; tauto|intros j Hj; apply in_flat_map in Hj as (j' & _ & Hj); apply (Kd _ _ _ Hj)].
  - apply Hh. cbn; tauto.
  - apply Hh. cbn; tauto.
  - destruct (existsb (str_eqb tag) _) eqn:E; [|discriminate]. apply existsb_exists in E as (T & IT & E). apply str_eqb_eq in E. subst T. apply (Ms tag). cbn in IT |- *. tauto.
  - apply (Ms (due_tag w)). destruct w; cbn; tauto.
  - apply (Ms $"MasterKeyChanged"). cbn; tauto.
Qed.
(** *** Two databases with the same rows but for the new element *)
Lemma same_lists a b l l1 l2 : wf a -> wf b -> (forall c, In c l -> exists ca cb, has a ca /\ has b cb /\ eid ca = eid c /\ eid cb = eid c /\ erase ca = erase cb) -> map eid l1 = map eid l -> map eid l2 = map eid l -> (forall c, In c l1 -> has a c) -> (forall c, In c l2 -> has b c) -> map erase l1 = map erase l2.
Proof.
  intros Wa Wb. revert l1 l2. induction l as [|c l IHk]; intros [|c1 l1] [|c2 l2] G E1 E2 H1 H2; try discriminate; [reflexivity|]. cbn [map] in *. injection E1 as F1 E1. injection E2 as F2 E2. f_equal.
  - destruct (G c) as (wa & wb & Ha & Hb & Ea & Eb & Er); [now left|].
    assert (c1 = wa) as -> by (apply (unique_inj (d_forest a)); [apply Wa|apply H1; now left|exact Ha|congruence]).
    assert (c2 = wb) as -> by (apply (unique_inj (d_forest b)); [apply Wb|apply H2; now left|exact Hb|congruence]). exact Er.
  - apply IHk; [intros x Hx; apply G; now right|exact E1|exact E2|intros x Hx; apply H1; now right|intros x Hx; apply H2; now right].
Qed.
Lemma last_kid d l l' n : wf d -> (forall c, In c l -> has d c) -> has d n -> map eid l = l' ++ [eid n] -> exists l0, l = l0 ++ [n] /\ map eid l0 = l'.
Proof.
  intros W H Hn E. apply map_eq_app in E as (l0 & l1 & -> & E0 & E1). destruct l1 as [|c [|]]; try discriminate. cbn [map] in E1. injection E1 as E1. assert (c = n) as -> by (apply (unique_inj (d_forest d)); [apply W|apply H, in_or_app; right; now left|exact Hn|exact E1]). now exists l0.
Qed.
Lemma new_looking d a b t K n m g x y : wf d -> wf a -> wf b -> has d t -> incl K (ekids t) -> has a n -> has b m -> erase n = erase m ->
  lk a (eid t) = Some (row_of (El (eid t) g x y (K ++ [n]))) -> (exists K', map eid K' = map eid K /\ lk b (eid t) = Some (row_of (El (eid t) g x y (K' ++ [m])))) ->
  (forall j r, lk d j = Some r -> j <> eid t -> exists r', lk a j = Some r' /\ lk b j = Some r' /\ r_kids r' = r_kids r) ->
  forall s u, (List.length (ids u) <= s)%nat -> has d u -> exists ua ub, has a ua /\ has b ub /\ eid ua = eid u /\ eid ub = eid u /\ erase ua = erase ub.
Proof.
  intros W Wa Wb Ht IK Hn Hm Ee La (K' & EK & Lb) O. induction s as [|s IH]; intros u Hs Hu; [destruct u; cbn in Hs; lia|].
  assert (G : forall c, In c (ekids u) -> exists ca cb, has a ca /\ has b cb /\ eid ca = eid c /\ eid cb = eid c /\ erase ca = erase cb).
  { intros c Hc. apply IH; [|now apply (has_kid d u c Hu)]. destruct u as [i0 g0 a0 x0 l]. cbn [ids List.length ekids] in *. clear -Hc Hs. assert (List.length (ids c) <= List.length (flat_map ids l))%nat; [|lia]. clear Hs. induction l as [|c' l IH]; [destruct Hc|]. cbn [flat_map]. rewrite app_length. destruct Hc as [->|Hc]; [lia|]. specialize (IH Hc). lia. }
  destruct (Nat.eq_dec (eid u) (eid t)) as [E|E].
  - assert (u = t) as -> by (apply (unique_inj (d_forest d)); [apply W|exact Hu|exact Ht|exact E]). destruct (look_has a _ _ Wa La) as (ua & Hua & Eua & Era). destruct (look_has b _ _ Wb Lb) as (ub & Hub & Eub & Erb). exists ua, ub. do 4 (split; [assumption|]).
    assert (H1 : forall c, In c (ekids ua) -> has a c) by (intros c Hc; now apply (has_kid a ua)). assert (H2 : forall c, In c (ekids ub) -> has b c) by (intros c Hc; now apply (has_kid b ub)).
    pose proof (f_equal r_kids Era) as Ka. pose proof (f_equal r_kids Erb) as Kb. cbn [row_of r_kids ekids] in Ka, Kb. rewrite map_app in Ka, Kb. cbn [map] in Ka, Kb. destruct (last_kid a _ _ n Wa H1 Hn Ka) as (l1 & X1 & Y1). destruct (last_kid b _ _ m Wb H2 Hm Kb) as (l2 & X2 & Y2).
    assert (S : map erase l1 = map erase l2). { apply (same_lists a b K l1 l2 Wa Wb); [intros c Hc; apply G, IK, Hc|exact Y1|congruence|intros c Hc; apply H1; rewrite X1; apply in_or_app; now left|intros c Hc; apply H2; rewrite X2; apply in_or_app; now left]. }
    pose proof (f_equal r_tag Era) as T1. pose proof (f_equal r_attrs Era) as T2. pose proof (f_equal r_text Era) as T3. pose proof (f_equal r_tag Erb) as U1. pose proof (f_equal r_attrs Erb) as U2. pose proof (f_equal r_text Erb) as U3.
    destruct ua as [i1 g1 a1 x1 k1], ub as [i2 g2 a2 x2 k2]. cbn [row_of etag eattrs etext ekids r_tag r_attrs r_text] in *. subst. cbn [erase]. rewrite !map_app. cbn [map]. now rewrite S, Ee.
  - destruct (O (eid u) (row_of u)) as (r' & Ra & Rb & Rk); [now apply look_self; [apply W|]|exact E|]. destruct (look_has a _ _ Wa Ra) as (ua & Hua & Eua & Era). destruct (look_has b _ _ Wb Rb) as (ub & Hub & Eub & Erb). exists ua, ub. do 4 (split; [assumption|]).
    assert (H1 : forall c, In c (ekids ua) -> has a c) by (intros c Hc; now apply (has_kid a ua)). assert (H2 : forall c, In c (ekids ub) -> has b c) by (intros c Hc; now apply (has_kid b ub)).
    assert (S : map erase (ekids ua) = map erase (ekids ub)). { apply (same_lists a b (ekids u) _ _ Wa Wb G); [|  |exact H1|exact H2]; [subst r'; exact Rk|rewrite <- Erb in Rk; exact Rk]. }
    rewrite <- Erb in Era. pose proof (f_equal r_tag Era) as T1. pose proof (f_equal r_attrs Era) as T2. pose proof (f_equal r_text Era) as T3. destruct ua as [i1 g1 a1 x1 k1], ub as [i2 g2 a2 x2 k2]. cbn [row_of etag eattrs etext ekids r_tag r_attrs r_text] in *. subst. cbn [erase]. now rewrite S.
Qed.
Lemma looking_untouched d a b : wf d -> wf a -> wf b -> same_meta d a -> same_meta d b -> hd_error (rts a) = hd_error (rts d) -> hd_error (rts b) = hd_error (rts d) -> (forall u, has d u -> exists ua ub, has a ua /\ has b ub /\ eid ua = eid u /\ eid ub = eid u /\ erase ua = erase ub) -> untouched a b.
Proof.
  intros W Wa Wb (A1 & A2 & A3) (B1 & B2 & B3) Ra Rb S. split; [|repeat split; congruence].
  destruct (top_forest d W) as (r & G & EF). destruct (top_forest a Wa) as (ra & Ga & EFa). destruct (top_forest b Wb) as (rb & Gb & EFb).
  assert (Era : eid ra = eid r) by (rewrite EF, EFa in Ra; now injection Ra). assert (Erb : eid rb = eid r) by (rewrite EF, EFb in Rb; now injection Rb).
  destruct (S r) as (wa & wb & Hwa & Hwb & Ea & Eb & Ew); [rewrite EF; apply elements_root; now left|].
  assert (ra = wa) as -> by (apply (unique_inj (d_forest a)); [apply Wa|rewrite EFa; apply elements_root; now left|exact Hwa|congruence]).
  assert (rb = wb) as -> by (apply (unique_inj (d_forest b)); [apply Wb|rewrite EFb; apply elements_root; now left|exact Hwb|congruence]).
  unfold document. rewrite EFa, EFb. cbn [hd_error option_map]. now rewrite Ew.
Qed.
Lemma square d d1 d2 d3 d4 t t3 P n m k r q : wf d -> has d t -> k <> eid t -> lk d k = Some r -> r_kids q = r_kids r -> renewal d d1 t P n -> rewritten d1 d2 k q -> rewritten d d3 k q -> has d3 t3 -> eid t3 = eid t -> row_of t3 = row_of t -> renewal d3 d4 t3 P m -> map eid (rest P t3) = map eid (rest P t) -> erase m = erase n -> untouched d2 d4.
Proof.
  intros W Ht Nk Lk Kq ((W1 & M1 & _ & R1 & H1 & L1) & F1) (W2 & M2 & R2 & Q2 & L2) (W3 & M3 & R3 & Q3 & L3) Ht3 Ei Er ((W4 & M4 & _ & R4 & H4 & L4) & _) EK Ee.
  assert (Hn : has d2 n). { assert (X : has d1 n) by (apply (has_kid d1 _ n H1); rewrite set_kids_ekids; apply in_or_app; right; now left). apply (same_tree (d_forest d1)); auto using wf_unique. intros j Hj. apply L2. intros ->. apply F1 in Hj. pose proof (wf_look d k r W Lk). lia. }
  assert (Hm : has d4 m) by (apply (has_kid d4 _ m H4); rewrite set_kids_ekids; apply in_or_app; right; now left).
  assert (La : lk d2 (eid t) = Some (row_of (El (eid t) (etag t) (eattrs t) (etext t) (rest P t ++ [n])))). { rewrite L2 by congruence. pose proof (look_self _ _ (wf_unique _ W1) H1) as X. rewrite set_kids_eid in X. rewrite X. now destruct t. }
  assert (Lb : lk d4 (eid t) = Some (row_of (El (eid t) (etag t) (eattrs t) (etext t) (rest P t3 ++ [m])))). { pose proof (look_self _ _ (wf_unique _ W4) H4) as X. rewrite set_kids_eid, Ei in X. rewrite X. pose proof (f_equal r_tag Er) as T1. pose proof (f_equal r_attrs Er) as T2. pose proof (f_equal r_text Er) as T3. cbn [row_of r_tag r_attrs r_text] in T1, T2, T3. rewrite <- T1, <- T2, <- T3. now destruct t3. }
  apply (looking_untouched d d2 d4 W W2 W4).
  - destruct M1 as (? & ? & ?), M2 as (? & ? & ?). repeat split; congruence.
  - destruct M3 as (? & ? & ?), M4 as (? & ? & ?). repeat split; congruence.
  - rewrite R2. exact R1.
  - rewrite R4. now rewrite R3.
  - intros u Hu. refine (new_looking d d2 d4 t (rest P t) n m (etag t) (eattrs t) (etext t) W W2 W4 Ht (rest_incl P t) Hn Hm (eq_sym Ee) La (ex_intro _ (rest P t3) (conj EK Lb)) _ _ u (le_n _) Hu).
    intros j r0 Ej Nj. destruct (Nat.eq_dec j k) as [->|N].
    + exists q. split; [exact Q2|]. rewrite L4; [|exact (wf_look d3 _ _ W3 Q3)|congruence]. split; [exact Q3|]. rewrite Kq. congruence.
    + assert (E3 : lk d3 j = Some r0) by (rewrite L3 by exact N; exact Ej). exists r0. split; [rewrite L2 by exact N; rewrite L1; [exact Ej|exact (wf_look d _ _ W Ej)|exact Nj]|]. split; [|reflexivity]. rewrite L4; [exact E3|exact (wf_look d3 _ _ W3 E3)|congruence].
Qed.
Lemma formed_after o t t3 T : stored_as o = Some T -> eid t3 = eid t -> kids_of T t3 = kids_of T t -> formed o (eid t) t -> formed o (eid t3) t3.
Proof.
  intros S E K F. destruct o; cbn [stored_as] in S; try discriminate; apply Some_inj in S; subst T; cbn [formed] in *; rewrite E; unfold at_most_one in *; rewrite ?K; try assumption; [destruct F as [F1 F2]; split; [exact F1|now apply (tidy_kids t)]|destruct F as (F1 & F2 & F3); split; [exact F1|]; split; [exact F2|now apply (tidy_kids t)]].
Qed.
Lemma spot_after o o' d d1 t P n T k : wf d -> has d t -> stored_as o = Some T -> renewal d d1 t P n -> (forall c, P c = true -> etag c = T) -> etag n = T -> spot d o' = Some k -> spot d1 o' = Some k.
Proof.
  intros W Ht So Re HP Tn S. pose proof Re as ((W1 & _ & _ & R1 & H1 & L1) & _). apply (spot_kept d d1 o' k W R1); [| |exact S].
  - intros r Er. assert (X : exists u, has d u /\ eid u = r). { destruct (top_forest d W) as (u & F & EF). exists u. rewrite EF in Er. cbn in Er. split; [rewrite EF; apply elements_root; now left|congruence]. } destruct X as (u & Hu & <-). pose proof (look_self _ u (wf_unique _ W) Hu) as Lu. unfold tagb.
    destruct (Nat.eq_dec (eid u) (eid t)) as [E|E]; [|now rewrite L1; [|exact (wf_look d _ _ W Lu)|exact E]]. pose proof (look_self _ _ (wf_unique _ W1) H1) as X. rewrite set_kids_eid in X. rewrite E, X, (look_self _ t (wf_unique _ W) Ht). now destruct t.
  - intros U j r IU Ej. exact (tagged_after d d1 t P n T U j r W Ht Re HP Tn (ways_apart o T U So IU) Ej).
Qed.
Lemma aside_kids d T t k : wf d -> has d t -> aside d T (eid t) k -> forall c, In c (ekids t) -> etag c = T -> ~ In k (ids c).
Proof.
  intros W Ht (_ & A) c Hc Tc I. apply (A (eid c)).
  - rewrite (kids_tagged_of d t T W Ht). apply in_map. unfold kids_of. apply filter_In. split; [exact Hc|]. rewrite Tc. apply str_eqb_refl.
  - apply (below_ids (d_forest d)); [apply W|now apply (has_kid d t)|exact I].
Qed.
Theorem inside_orders R Zl C C' o o' d t T k : wf d -> has_elem d t -> formed o (eid t) t -> stored_as o = Some T -> spot d o' = Some k -> aside d T (eid t) k ->
  (forall d1 d2, IntegritySpec.run R Zl C o d = (Ok tt, d1) -> IntegritySpec.run R Zl C' o' d1 = (Ok tt, d2) -> exists d3 d4, IntegritySpec.run R Zl C' o' d = (Ok tt, d3) /\ IntegritySpec.run R Zl C o d3 = (Ok tt, d4) /\ untouched d2 d4) /\
  (forall d1 d2, IntegritySpec.run R Zl C' o' d = (Ok tt, d1) -> IntegritySpec.run R Zl C o d1 = (Ok tt, d2) -> exists d3 d4, IntegritySpec.run R Zl C o d = (Ok tt, d3) /\ IntegritySpec.run R Zl C' o' d3 = (Ok tt, d4) /\ untouched d4 d2).
Proof.
  intros W Ht Fo So S A. pose proof (aside_kids d T t k W Ht A) as Ak. destruct A as (Nk & _).
  assert (Lk : exists r, lk d k = Some r) by (destruct (spot_run R Zl C' d o' k W S) as (u & Hu & <- & _); exists (row_of u); now apply look_self; [apply W|]). destruct Lk as (r & Lk).
  split; intros da db Ea Eb.
  - destruct (op_renews R Zl C o d t T da W Ht Fo So Ea) as (P & n & Re & HP & HP' & Tn & Again). pose proof Re as ((W1 & M1 & _ & _ & _ & L1) & _).
    pose proof (spot_after o o' d da t P n T k W Ht So Re HP Tn S) as S1. destruct (spot_did R Zl C' da o' k db W1 S1 Eb) as (g & r' & G & Lr & D2 & _). rewrite (meta_v4 _ _ M1) in G. rewrite L1 in Lr by (exact (wf_look d _ _ W Lk) || exact Nk). assert (r' = r) as -> by congruence.
    destruct (spot_can R Zl C' d o' k g r W S G Lk) as (d3 & E3 & D3). destruct (spot_did R Zl C' d o' k d3 W S E3) as (_ & _ & _ & _ & _ & O3). pose proof D3 as (W3 & _).
    destruct (kids_after d d3 k t W W3 O3 Ht (not_eq_sym Nk)) as (t3 & Ht3 & Ei & Er & F2). destruct (Again d3 t3 W3 Ht3 Ei (kids_of_after T k _ _ F2 Ak)) as (d4 & m & E4 & Re4 & Ee). exists d3, d4. split; [exact E3|]. split; [exact E4|].
    destruct (ink_same _ _ g r G) as (_ & Kq). exact (square d da db d3 d4 t t3 P n m k r (g r) W Ht Nk Lk Kq Re D2 D3 Ht3 Ei Er Re4 (rest_after T k P _ _ F2 Ak HP') Ee).
  - destruct (spot_did R Zl C' d o' k da W S Ea) as (g & r' & G & Lr & D3 & O3). assert (r' = r) as -> by congruence. pose proof D3 as (W3 & _).
    destruct (kids_after d da k t W W3 O3 Ht (not_eq_sym Nk)) as (t3 & Ht3 & Ei & Er & F2). pose proof (kids_of_after T k _ _ F2 Ak) as Ek. change (kids_of T t3 = kids_of T t) in Ek.
    destruct (op_renews R Zl C o da t3 T db W3 Ht3 (formed_after o t t3 T So Ei Ek Fo) So Eb) as (P & m & Re4 & HP & HP' & Tm & Again). destruct (Again d t W Ht (eq_sym Ei) (eq_sym Ek)) as (d1 & n & E1 & Re & Ee).
    assert (Tn : etag n = T). { rewrite <- Tm. destruct n, m. cbn [erase] in Ee. injection Ee as -> _ _ _. reflexivity. } pose proof Re as ((W1 & M1 & _ & _ & _ & L1) & _).
    pose proof (spot_after o o' d d1 t P n T k W Ht So Re HP Tn S) as S1. destruct (spot_can R Zl C' d1 o' k g r W1 S1) as (d2 & E2 & D2); [now rewrite (meta_v4 _ _ M1)|rewrite L1; [exact Lk|exact (wf_look d _ _ W Lk)|exact Nk]|]. exists d1, d2. split; [exact E1|]. split; [exact E2|].
    destruct (ink_same _ _ g r G) as (_ & Kq). exact (square d d1 d2 da db t t3 P n m k r (g r) W Ht Nk Lk Kq Re D2 D3 Ht3 Ei Er Re4 (rest_after T k P _ _ F2 Ak HP') (eq_sym Ee)).
Qed.
