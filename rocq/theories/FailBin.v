(** Sending to the recycle bin while there is none, and storing a binary in KDBX 3: raising leaves no trace. *)
From Verif Require Import Base Base64 PyStr Xml Tree XPath Uuid Time Db Save FindSpec XPath_facts XPath_eval Find_facts Api ApiSpec StructSpec CredSpec Heap Prim Api_xpath Struct Struct_add Struct_bin Struct_trash IntegritySpec Integrity Integrity_ops Integrity_calls Kdbx_rt Bin_xpath BinSpec Bin BinStore Lib Kdbx Object ObjectSpec FailSpec Fail.

Lemma get_uuid_inv d t u d' : wf d -> has d t -> get_uuid (eid t) d = (Ok u, d') -> d' = d /\ uuid_is t u.
Proof.
  intros W Ht E. unfold get_uuid, get_sub in E. unfold mbind at 1 in E. rewrite (mbind_ok _ _ _ _ _ (the_run d (eid t) t W Ht eq_refl)) in E. unfold ret, of_res in E. unfold uuid_is, first_text. unfold find1 in E.
  assert (X : match hd_error (kids_of $"UUID" t) with Some v => etext v | None => None end = match find1 $"UUID" t with Some v => etext v | None => None end) by reflexivity. injection E as E <-. split; [reflexivity|]. exact E.
Qed.
Lemma trash_no_bin R C d r rt g m e t x d' : wf d -> skeleton d r rt g m e -> has d t -> item t -> in_doc d (eid t) -> uuid_ok (uuid1 C) ->
  trash R C (eid t) d = (Err x, d') -> untouched d d'.
Proof.
  intros W S Ht It Dt HU E. destruct (recyclebin_group R d) as [o d0] eqn:Eb. pose proof (reads_run _ _ _ _ (reads_bin R) Eb). subst d0.
  destruct o as [[b|]|y]; [apply (clean_trash R C (eid t) d x d'); [rewrite Eb; discriminate|exact E]| |apply (clean_trash R C (eid t) d x d'); [rewrite Eb; discriminate|exact E]].
  pose proof E as E0. unfold trash in E. apply mbind_inv in E as [(y & E & _)|(ok & d1 & E & E2)]; [apply (strict_reads _ (reads_can R (eid t))) in E; subst; apply untouched_refl|]. pose proof (reads_run _ _ _ _ (reads_can R (eid t)) E). subst d1.
  destruct ok; [|injection E2 as _ <-; apply untouched_refl].
  (* the UUIDs that were compared *)
  assert (U : exists u, uuid_is t u /\ not_root d g u).
  { unfold can_be_moved_to_recyclebin in E. rewrite (mbind_ok _ _ _ _ _ (skel_root R d _ _ _ _ _ W S)) in E. unfold same in E. apply mbind_inv in E as [(y & _ & X)|(q & d1 & E & E3)]; [discriminate|].
    apply mbind_inv in E as [(y & _ & X)|(u & d2 & E & E4)]; [discriminate|]. apply (get_uuid_inv d t u d2 W Ht) in E as [-> Hu]. exists u. split; [exact Hu|].
    destruct (skeleton_facts d _ _ _ _ _ W S) as (_ & (qg & Lg & _) & _). apply look_has in Lg as (tg & Hg & <- & _); [|exact W].
    apply mbind_inv in E4 as [(y & _ & X)|(v & d2 & E & E4)]; [discriminate|]. apply (get_uuid_inv d tg v d2 W Hg) in E as [-> Hv]. unfold ret in E4. injection E4 as <- <-.
    exists tg, v. repeat split; try assumption. destruct (el_eq (IdElement u) (IdElement v)); [discriminate E3|reflexivity]. }
  destruct U as (u & Hu & Hr).
  (* the setting *)
  assert (V : exists v w, text_at d e v /\ uuid_of_text v = Ok w).
  { destruct (skel_meta R d _ _ _ _ _ W S) as (E1 & EE & <- & HE). unfold recyclebin_group in Eb. rewrite (mbind_ok _ _ _ _ _ EE) in Eb. unfold mbind, of_res in Eb. destruct (uuid_of_text (etext E1)) as [w|y] eqn:Ew; [|discriminate]. exists (etext E1), w. split; [|exact Ew]. exists (row_of E1). split; [apply look_self; [apply W|exact HE]|reflexivity]. }
  destruct V as (v & w & Tv & Ew). destruct (skel_bin R d _ _ _ _ _ w v W S Tv Ew) as (o & Eo & Ho). rewrite Eb in Eo. destruct o as [b|]; [discriminate|].
  destruct (encode_time (v4 d) (now C)) as [cur|y] eqn:Ec; [destruct (trash_creates R C d r rt g m e t u w v cur W S Ht It Dt Hu Hr Tv Ew Ho HU Ec) as (? & ? & ? & ? & X & _); rewrite E0 in X; discriminate|].
  (* the current time cannot be written: the group is not made *)

  assert (N : forall r0 d1, create_or_get_recyclebin_group R C d = (r0, d1) -> exists z, r0 = Err z /\ untouched d d1).
  { intros r0 d1 Er. unfold create_or_get_recyclebin_group in Er. rewrite (mbind_ok _ _ _ _ _ Eb), (mbind_ok _ _ _ _ _ (skel_root R d _ _ _ _ _ W S)) in Er.
    destruct (add_group C (Some g) (Some $"Recycle Bin") None None d) as [[a|z] d2] eqn:Ea.
    - exfalso. unfold add_group, new_group, base_kids in Ea. cbn [truthy] in Ea. unfold mbind, of_res, ret, encode_t, lift in Ea. rewrite Ec in Ea. destruct (e_text $"UUID" [] (Some (uuid_text (uuid1 C)))); discriminate Ea.
    - unfold mbind in Er. rewrite Ea in Er. injection Er as <- <-. exists z. split; [reflexivity|]. exact (clean_add_group C (Some g) (Some $"Recycle Bin") None None d z d2 W Ea). }
  destruct (create_or_get_recyclebin_group R C d) as [r0 d1] eqn:Er. destruct (N r0 d1 eq_refl) as (z & -> & Hz). unfold mbind in E2. rewrite Er in E2. injection E2 as _ <-. exact Hz.
Qed.

(** *** The binaries of KDBX 3 *)
Definition shelf_of (tr : elem) : list elem := if str_eqb (etag tr) $"KeePassFile" then flat_map (kids_of $"Binary") (flat_map (kids_of $"Binaries") (kids_of $"Meta" tr)) else [].
Lemma binaries3 R Zl d tr F : wf d -> d_forest d = tr :: F -> v4 d = false -> binaries R Zl d = (bins3 Zl (shelf_of tr) [], d).
Proof.
  intros W EF V. unfold binaries, lift. rewrite V.
  destruct (abs_path R d tr F $"/KeePassFile/Meta/Binaries/Binary" ($"KeePassFile", []) [($"Meta", []); ($"Binaries", []); ($"Binary", [])] EF (wf_unique d W)) as (n & E & En); [vm_compute; reflexivity|vm_compute; reflexivity|intros w _; repeat (constructor; [constructor|]); constructor|].
  rewrite E. cbn [bind]. rewrite En, !ewalk_bare. cbn [ewalk filter fst snd]. unfold shelf_of. change (crits_hold [] tr) with true. rewrite andb_true_r. destruct (str_eqb (etag tr) $"KeePassFile"); cbn [flat_map]; [rewrite app_nil_r|]; reflexivity.
Qed.
Definition legible (Zl : zlib) (e : elem) : Prop := exists data s n, bin_data Zl e = Ok data /\ attr_of $"ID" e = Some s /\ int_of_str s = Ok n.
Lemma bins3_legible Zl l : forall acc, (exists xs, bins3 Zl l acc = Ok xs) <-> Forall (legible Zl) l.
Proof.
  induction l as [|e l IH]; intros acc; [split; [constructor|intros _; now exists acc]|]. cbn [bins3]. split.
  - intros (xs & E). destruct (bin_data Zl e) as [x|y] eqn:Ex; [|discriminate]. cbn [bind] in E. destruct (attr_of $"ID" e) as [s|] eqn:Es; [|discriminate]. destruct (int_of_str s) as [n|y] eqn:En; [|discriminate]. cbn [bind] in E. constructor; [now exists x, s, n|]. apply (IH (py_insert acc n x)). now exists xs.
  - intros H. apply Forall_cons_iff in H as [(x & s & n & Ex & Es & En) H]. rewrite Ex. cbn [bind]. rewrite Es, En. cbn [bind]. now apply IH.
Qed.
Lemma legible_row Zl u v : row_of u = row_of v -> legible Zl v -> legible Zl u.
Proof. intros E (x & s & n & Ex & Es & En). assert (A : eattrs u = eattrs v) by exact (f_equal r_attrs E). assert (T : etext u = etext v) by exact (f_equal r_text E). exists x, s, n. unfold bin_data, attr_of in *. rewrite T, A. auto. Qed.
Lemma rekids_row d d' b k u v : wf d -> rekids d d' b k -> has d v -> has d' u -> eid u = eid v -> eid v <> eid b -> row_of u = row_of v.
Proof.
  intros W (W' & _ & _ & _ & _ & L) Hv Hu E N. pose proof (L (eid v) (wf_has d v W Hv) N) as X. rewrite (look_self _ v (wf_unique _ W) Hv), <- E, (look_self _ u (wf_unique _ W') Hu) in X. exact (Some_inj _ _ X).
Qed.
Lemma kid_of_row d u v c : has d v -> row_of u = row_of v -> In c (ekids u) -> exists c0, In c0 (ekids v) /\ has d c0 /\ eid c = eid c0.
Proof. intros Hv E I. assert (K : map eid (ekids u) = map eid (ekids v)) by exact (f_equal r_kids E). apply (in_map eid) in I. rewrite K in I. apply in_map_iff in I as (c0 & E0 & I). exists c0. split; [exact I|]. split; [now apply (has_kid d v)|congruence]. Qed.
(** After a new element was put into a Binaries element, the list has the elements it had, and the new one. *)
Lemma shelf_grows Zl d d' b n tr tr' : wf d -> has d tr -> has d' tr' -> eid tr' = eid tr -> eid tr <> eid b -> has d b -> etag b = $"Binaries" -> rekids d d' b (ekids b ++ [n]) -> legible Zl n ->
  Forall (legible Zl) (shelf_of tr) -> Forall (legible Zl) (shelf_of tr').
Proof.
  intros W Hr Hr' Er Nr Hb Tb K Ln F. pose proof (rekids_row d d' b _ tr' tr W K Hr Hr' Er Nr) as Rr. rewrite Forall_forall in *. intros u Hu. unfold shelf_of in Hu, F.
  assert (Tr : etag tr' = etag tr) by exact (f_equal r_tag Rr). rewrite Tr in Hu. destruct (str_eqb (etag tr) $"KeePassFile"); [|destruct Hu].
  apply in_flat_map in Hu as (u2 & H2 & Hu). apply in_flat_map in H2 as (u1 & H1 & H2). apply kids_of_in in H1 as [I1 T1]. apply kids_of_in in H2 as [I2 T2]. apply kids_of_in in Hu as [Iu Tu].
  pose proof (has_kid d' tr' u1 Hr' I1) as G1. pose proof (has_kid d' u1 u2 G1 I2) as G2. pose proof (has_kid d' u2 u G2 Iu) as Gu.
  pose proof K as (W' & _ & _ & _ & Hb' & _).
  assert (SAME : forall w, has d' w -> eid w = eid b -> w = set_kids (ekids b ++ [n]) b) by (intros w Hw Ew; apply (unique_inj (d_forest d')); [apply W'|exact Hw|exact Hb'|now rewrite set_kids_eid]).
  assert (NB : forall w, has d' w -> etag w <> $"Binaries" -> eid w <> eid b) by (intros w Hw Tw Ew; apply Tw; rewrite (SAME w Hw Ew), set_kids_etag; exact Tb).
  destruct (kid_of_row d tr' tr u1 Hr Rr I1) as (v1 & J1 & Hv1 & E1). assert (N1 : eid v1 <> eid b) by (rewrite <- E1; apply NB; [exact G1|rewrite T1; vm_compute; discriminate]). pose proof (rekids_row d d' b _ u1 v1 W K Hv1 G1 E1 N1) as R1.
  destruct (kid_of_row d u1 v1 u2 Hv1 R1 I2) as (v2 & J2 & Hv2 & E2). assert (K1 : In v1 (kids_of $"Meta" tr)) by (apply filter_In; split; [exact J1|]; apply str_eqb_eq; rewrite <- T1; exact (f_equal r_tag (eq_sym R1))).
  destruct (Nat.eq_dec (eid v2) (eid b)) as [Eb|Nb].
  - assert (v2 = b) as -> by (apply (unique_inj (d_forest d)); auto; apply W). rewrite (SAME u2 G2 ltac:(congruence)), set_kids_ekids in Iu. apply in_app_iff in Iu as [Iu|[<-|[]]]; [|exact Ln].
    apply F. apply in_flat_map. exists b. split; [apply in_flat_map; exists v1; split; [exact K1|apply filter_In; split; [exact J2|now apply str_eqb_eq]]|apply filter_In; split; [exact Iu|now apply str_eqb_eq]].
  - pose proof (rekids_row d d' b _ u2 v2 W K Hv2 G2 E2 Nb) as R2. destruct (kid_of_row d u2 v2 u Hv2 R2 Iu) as (v & J & Hv & Ev). assert (Nv : eid v <> eid b) by (rewrite <- Ev; apply NB; [exact Gu|rewrite Tu; vm_compute; discriminate]).
    pose proof (rekids_row d d' b _ u v W K Hv Gu Ev Nv) as Rv. apply (legible_row Zl u v Rv). apply F. apply in_flat_map. exists v2.
    split; [apply in_flat_map; exists v1; split; [exact K1|apply filter_In; split; [exact J2|apply str_eqb_eq; rewrite <- T2; exact (f_equal r_tag (eq_sym R2))]]|apply filter_In; split; [exact J|apply str_eqb_eq; rewrite <- Tu; exact (f_equal r_tag (eq_sym Rv))]].
Qed.
Lemma add_binary3 R Zl d data (c p : bool) x d' : wf d -> v4 d = false -> zlib_ok Zl -> bytes_ok data -> add_binary R Zl data c p d = (Err x, d') -> untouched d d'.
Proof.
  intros W V Z B E. unfold add_binary in E. rewrite (mbind_ok get_db _ d d d eq_refl), V in E. destruct (top_forest d W) as (tr & F & EF). assert (Hr : has d tr) by (rewrite EF; apply elements_root; now left).
  apply mbind_inv in E as [(y & E & _)|([] & d1 & E & E2)].
  - apply mbind_inv in E as [(z & E & _)|(b & d2 & E & E2)]; [unfold xfirst, lift in E; injection E as _ <-; apply untouched_refl|]. assert (d2 = d) as -> by (unfold xfirst, lift in E; now injection E).
    apply mbind_inv in E2 as [(z & E2 & _)|(n & d2 & E2 & E3)]; [rewrite (binaries3 R Zl d tr F W EF V) in E2; injection E2 as _ <-; apply untouched_refl|]. rewrite (binaries3 R Zl d tr F W EF V) in E2. injection E2 as _ <-.
    apply mbind_inv in E3 as [(z & E3 & _)|(e & d2 & E3 & E4)]; [unfold of_res in E3; injection E3 as _ <-; apply untouched_refl|]. unfold of_res in E3. injection E3 as _ <-.
    destruct b as [b|]; [|unfold raise in E4; injection E4 as _ <-; apply untouched_refl]. apply (clean_append_new (eid b) e d y d' W). apply mbind_inv in E4 as [(z & E4 & Ez)|(? & ? & _ & X)]; [|discriminate]. congruence.
  - exfalso. apply mbind_inv in E as [(z & _ & X)|(b & d2 & E & E3)]; [discriminate|]. assert (d2 = d) as -> by (unfold xfirst, lift in E; now injection E).
    apply mbind_inv in E3 as [(z & _ & X)|(n & d2 & E3 & E4)]; [discriminate|]. rewrite (binaries3 R Zl d tr F W EF V) in E3. injection E3 as E3 <-.
    apply mbind_inv in E4 as [(z & _ & X)|(e & d2 & E4 & E5)]; [discriminate|]. unfold of_res in E4. injection E4 as E4 <-. destruct b as [b|]; [|discriminate]. destruct (binaries_elem R d b d W E) as [Hb Tb].
    set (payload := if c then zgzip Zl data else data) in *. assert (Bp : bytes_ok payload) by (unfold payload; destruct c; [apply Z|]; exact B).
    assert (Ee : e = X $"Binary" [($"ID", number (List.length n)); ($"Compressed", py_str_bool c)] (Some (b64encode payload)) []).
    { unfold e_text in E4. change (str_of_Z (Z.of_nat (List.length n))) with (number (List.length n)) in E4. cbn [forallb snd] in E4. rewrite number_text in E4. replace (text_ok (py_str_bool c)) with true in E4 by (destruct c; reflexivity). cbn [andb] in E4. rewrite (proj1 (Kdbx_rt.b64_text_ok payload Bp)) in E4. now injection E4. }
    destruct (append_new_rekids d b e W Hb) as (t & d3 & EA & _ & Ext & K & _ & _). unfold mbind in E5. rewrite EA in E5. injection E5 as <-. rewrite Ee in Ext. apply Api_fields.erase_kids in Ext as (T1 & T2 & T3 & _).
    assert (Lt : legible Zl t).
    { exists data, (number (List.length n)), (Z.of_nat (List.length n)). unfold bin_data, attr_of. rewrite T3, T2, (b64_roundtrip payload Bp). cbn [bind]. split; [|split; [reflexivity|apply int_of_str_Z]]. unfold payload. destruct c; [|reflexivity]. now apply Z. }
    pose proof K as (W3 & (M1 & M2 & M3) & _ & Rt & _). destruct (top_forest d3 W3) as (tr3 & F3 & EF3). assert (Hr3 : has d3 tr3) by (rewrite EF3; apply elements_root; now left).
    assert (Er : eid tr3 = eid tr) by (rewrite EF, EF3 in Rt; now injection Rt).
    assert (Nr : eid tr <> eid b).
    { intros C. assert (tr = b) by (apply (unique_inj (d_forest d)); auto; apply W). subst b. unfold xfirst, lift in E. change (meta_elem R $"Binaries" d = (Ok (Some tr), d)) in E. rewrite (meta_run R d tr F $"Binaries" W EF) in E; [|cbn; tauto]. unfold meta_of in E. rewrite Tb in E. discriminate. }
    assert (G : exists xs, bins3 Zl (shelf_of tr3) [] = Ok xs). { apply bins3_legible. apply (shelf_grows Zl d d3 b t tr tr3); auto. apply (bins3_legible Zl (shelf_of tr) []). now exists n. }
    destruct G as (xs & Ex). assert (V3 : v4 d3 = false) by (unfold v4 in *; congruence). rewrite (mbind_ok _ _ d3 xs d3) in E2 by (rewrite (binaries3 R Zl d3 tr3 F3 W3 EF3 V3), Ex; reflexivity). discriminate.
Qed.
