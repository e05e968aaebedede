(** Database settings: credential change dates and names. *)
From Coq Require Import ZifyBool ZifyNat ZifyN.
From Verif Require Import Base Base64 PyStr Xml Tree XPath Time Codec_facts Db XPath_parse XPath_facts XPath_eval FindSpec Find_facts Find_path Find_more ApiSpec StructSpec Heap Uuid Api Prim Api_xpath Api_fields Api_custom Api_sub Api_claims Struct Struct_add Struct_find Struct_bin Struct_trash Bin_xpath CredSpec.

Lemma setting_run R d T l : wf d -> setting d T l -> In T meta_tags -> match l with [] => meta_elem R T d = (Ok None, d) | i :: _ => exists t, has d t /\ eid t = i /\ meta_elem R T d = (Ok (Some t), d) end.
Proof.
  intros H (r & m & E1 & E2 & E3 & E4) IT. destruct (d_forest d) as [|tr F] eqn:EF; [discriminate|]. rewrite <- EF in *. assert (Hr : has d tr) by (rewrite EF; apply elements_root; now left). rewrite EF in E1. cbn in E1. apply Some_inj in E1. subst r.
  destruct E2 as (w & Ew & Tw). rewrite (look_self _ tr (wf_unique d H) Hr) in Ew. apply Some_inj in Ew. subst w. change (etag tr = $"KeePassFile") in Tw.
  rewrite (kids_tagged_of d tr _ H Hr) in E3. apply map_one in E3 as (tm & K3 & <-). assert (Im : In tm (kids_of $"Meta" tr)) by (rewrite K3; now left). apply kids_of_in in Im as [Im _]. pose proof (has_kid d tr tm Hr Im) as Hm.
  rewrite (kids_tagged_of d tm _ H Hm) in E4. rewrite (meta_run R d tr F T H EF IT). unfold meta_of. rewrite Tw. change (str_eqb $"KeePassFile" $"KeePassFile") with true. cbv iota. rewrite K3. cbn [flat_map]. rewrite app_nil_r.
  destruct (kids_of T tm) as [|t k] eqn:K; cbn [map] in E4; subst l; [reflexivity|]. exists t. split; [|split; reflexivity]. assert (It : In t (kids_of T tm)) by (rewrite K; now left). apply kids_of_in in It as [It _]. now apply (has_kid d tm).
Qed.
Lemma setting_text R d T i v : wf d -> setting d T [i] -> text_at d i v -> In T meta_tags -> exists t, has d t /\ eid t = i /\ etext t = v /\ meta_elem R T d = (Ok (Some t), d).
Proof.
  intros H S (r & Er & Xr) IT. destruct (setting_run R d T [i] H S IT) as (t & Ht & <- & E). exists t. split; [exact Ht|]. split; [reflexivity|]. split; [|exact E]. rewrite (look_self _ t (wf_unique d H) Ht) in Er. apply Some_inj in Er. subst r. exact Xr.
Qed.
Lemma date_run R d i s x : wf d -> setting d $"MasterKeyChanged" [i] -> text_at d i (Some s) -> decode_time (v4 d) s = Ok x -> credchange_date R d = (Ok (Some x), d).
Proof.
  intros H S T D. destruct (setting_text R d _ i _ H S T) as (t & Ht & Ei & Et & E); [cbn; tauto|]. unfold credchange_date. rewrite (mbind_ok _ _ _ _ _ E), Et. unfold decode_t, lift, mbind. rewrite D. reflexivity.
Qed.
Lemma days_run R d w i s n : wf d -> setting d (due_tag w) [i] -> text_at d i (Some s) -> int_of_str s = Ok n -> due_days R w d = (Ok (Some n), d).
Proof.
  intros H S T D. assert (IT : In (due_tag w) meta_tags) by (destruct w; cbn; tauto). destruct (setting_text R d _ i _ H S T IT) as (t & Ht & Ei & Et & E).
  destruct w; unfold due_days, credchange_days; cbn [due_tag] in E; rewrite (mbind_ok _ _ _ _ _ E), Et; unfold of_res, mbind; rewrite D; reflexivity.
Qed.
Lemma due_def R C w : due_now R C w = credchange_due R C (due_tag w). Proof. destruct w; reflexivity. Qed.
Lemma days_def R w : due_days R w = credchange_days R (due_tag w). Proof. destruct w; reflexivity. Qed.
Lemma due_no_date R C d w : wf d -> setting d $"MasterKeyChanged" [] -> due_now R C w d = (Ok false, d).
Proof.
  intros H S. rewrite due_def. unfold credchange_due. pose proof (setting_run R d _ [] H S) as E. cbn in E. assert (E' := E ltac:(tauto)). unfold credchange_date. rewrite (mbind_ok _ _ d None d); [reflexivity|]. rewrite (mbind_ok _ _ _ _ _ E'). reflexivity.
Qed.
Lemma days_floor a b n : (n < (a - b) / 86400000000)%Z <-> overdue a b n.
Proof.
  unfold overdue, DAY. split.
  - intros L. exists ((a - b) / 86400000000)%Z. split; [exact L|]. pose proof (Z.mul_div_le (a - b) 86400000000 ltac:(lia)). lia.
  - intros (k & L & X). assert (k <= (a - b) / 86400000000)%Z; [|lia]. apply Z.div_le_lower_bound; lia.
Qed.
Lemma due_run R C d w i s x j t n a b : wf d -> setting d $"MasterKeyChanged" [i] -> text_at d i (Some s) -> decode_time (v4 d) s = Ok x -> instant x = Some b ->
  setting d (due_tag w) [j] -> text_at d j (Some t) -> int_of_str t = Ok n -> instant (now C) = Some a ->
  exists r, due_now R C w d = (Ok r, d) /\ (r = true <-> n <> (-1)%Z /\ overdue a b n).
Proof.
  intros H S1 T1 D Ib S2 T2 N Ia. rewrite due_def. unfold credchange_due. rewrite (mbind_ok _ _ _ _ _ (date_run R d i s x H S1 T1 D)). pose proof (days_run R d w j t n H S2 T2 N) as E. rewrite days_def in E. rewrite (mbind_ok _ _ _ _ _ E).
  assert (X : forall r : M bool, (n <> (-1)%Z -> r = ret (n <? (a - b) / 86400000000)%Z) -> (n = (-1)%Z -> r = ret false) -> exists q, r d = (Ok q, d) /\ (q = true <-> n <> (-1)%Z /\ overdue a b n)).
  { intros r X1 X2. destruct (Z.eq_dec n (-1)) as [->|N1].
    - rewrite (X2 eq_refl). exists false. split; [reflexivity|]. split; [discriminate|]. intros [C1 _]. congruence.
    - rewrite (X1 N1). eexists. split; [reflexivity|]. rewrite Z.ltb_lt, days_floor. tauto. }
  apply X.
  - intros N1. rewrite Ia, Ib. destruct n as [|p|p]; [reflexivity|reflexivity|destruct p; [reflexivity|reflexivity|congruence]].
  - intros ->. reflexivity.
Qed.
(** Setting *)
Lemma setting_retext d d' i t v T l : wf d -> has d t -> eid t = i -> rts d' = rts d -> lk d' i = Some (with_text v (row_of t)) -> (forall j, j <> i -> lk d' j = lk d j) -> setting d T l -> setting d' T l.
Proof.
  intros H Ht <- R L1 L2 (r & m & E1 & E2 & E3 & E4).
  assert (K : forall j q, lk d j = Some q -> exists q', lk d' j = Some q' /\ r_tag q' = r_tag q /\ r_kids q' = r_kids q).
  { intros j q E. destruct (Nat.eq_dec j (eid t)) as [->|N]; [|exists q; rewrite (L2 j N); auto]. rewrite (look_self _ t (wf_unique d H) Ht) in E. apply Some_inj in E. subst q. eexists. split; [exact L1|]. split; reflexivity. }
  assert (TB : forall U j, lk d j <> None -> tagb (lk d') U j = tagb (lk d) U j). { intros U j N. unfold tagb. destruct (lk d j) as [q|] eqn:E; [|congruence]. destruct (K j q E) as (q' & -> & -> & _). reflexivity. }
  assert (KT : forall U j, lk d j <> None -> kids_tagged (lk d') U j = kids_tagged (lk d) U j).
  { intros U j N. unfold kids_tagged. destruct (lk d j) as [q|] eqn:E; [|congruence]. destruct (K j q E) as (q' & -> & _ & ->). induction (r_kids q) as [|x kk IH] eqn:EK in E |- *; [reflexivity|].
    assert (forall y, In y (x :: kk) -> tagb (lk d') U y = tagb (lk d) U y) as TY. { intros y Iy. apply TB. destruct (kid_look d j y H) as (z & ->); [exists q; split; [exact E|rewrite EK; exact Iy]|discriminate]. }
    clear - TY. induction (x :: kk) as [|y l IH]; [reflexivity|]. cbn [filter]. rewrite (TY y (or_introl eq_refl)), IH; [reflexivity|]. intros; apply TY; now right. }
  assert (Nr : lk d r <> None) by (destruct E2 as (q & -> & _); discriminate).
  assert (Nm : lk d m <> None). { unfold kids_tagged in E3. destruct (lk d r) as [q|] eqn:Er; [|discriminate]. assert (I : In m (filter (tagb (lk d) $"Meta") (r_kids q))) by (rewrite E3; now left). apply filter_In in I as [I _]. destruct (kid_look d r m H) as (z & ->); [exists q; auto|discriminate]. }
  exists r, m. split; [congruence|]. split; [destruct E2 as (q & Eq & Tq); destruct (K r q Eq) as (q' & Eq' & Tq' & _); exists q'; split; [exact Eq'|congruence]|]. rewrite !KT by assumption. auto.
Qed.
Lemma set_setting R d T i u (m : M unit) : wf d -> setting d T [i] -> In T meta_tags -> text_ok u = true ->
  (forall t, meta_elem R T d = (Ok (Some t), d) -> m d = lx_set_text (eid t) (Some u) d) ->
  exists d', m d = (Ok tt, d') /\ wf d' /\ only [i] d d' /\ text_at d' i (Some u) /\ (forall U l, setting d U l -> setting d' U l) /\ (forall j v, j <> i -> text_at d j v -> text_at d' j v).
Proof.
  intros H S IT Tu Hm. destruct (setting_run R d T [i] H S IT) as (t & Ht & Ei & E). rewrite (Hm t E). destruct (set_text_run d (eid t) t (Some u) H Ht eq_refl Tu) as (d' & E' & W & (M1 & M2 & M3) & N & Rt & L1 & L2). rewrite Ei in *. exists d'. split; [exact E'|]. split; [exact W|]. split; [|split; [|split]].
  - split; [exact M1|]. split; [exact M2|]. split; [exact M3|]. split; [lia|]. split; [now rewrite Rt|]. intros j r Ej Nj. rewrite L2; [exact Ej|]. intros ->. apply Nj. now left.
  - eexists. split; [exact L1|reflexivity].
  - intros U l. apply (setting_retext d d' i t (Some u)); auto.
  - intros j v Nj (r & Er & Xr). exists r. rewrite L2 by exact Nj. auto.
Qed.
Lemma set_date_run R d i v s : wf d -> setting d $"MasterKeyChanged" [i] -> encode_time (v4 d) v = Ok s ->
  exists d', set_credchange_date R v d = (Ok tt, d') /\ wf d' /\ only [i] d d' /\ text_at d' i (Some s) /\ (forall U l, setting d U l -> setting d' U l) /\ (forall j v, j <> i -> text_at d j v -> text_at d' j v).
Proof.
  intros H S E. apply (set_setting R d $"MasterKeyChanged"); auto; [cbn; tauto|exact (encode_text_ok _ _ _ E)|]. intros t Et. unfold set_credchange_date. rewrite (mbind_ok _ _ _ _ _ Et). rewrite (mbind_ok (encode_t v) _ d s d) by (unfold encode_t, lift; now rewrite E). reflexivity.
Qed.
Lemma int_text z : text_ok (str_of_Z z) = true.
Proof. unfold str_of_Z. destruct z; [apply digits_plain, str_of_N_digits|apply digits_plain, str_of_N_digits|]. cbn [text_ok forallb]. unfold text_ok. cbn [forallb]. apply andb_true_iff. split; [reflexivity|]. apply digits_plain, str_of_N_digits. Qed.
Lemma set_days_run R d w i n : wf d -> setting d (due_tag w) [i] ->
  exists d', set_due_days R w n d = (Ok tt, d') /\ wf d' /\ only [i] d d' /\ text_at d' i (Some (str_of_Z n)) /\ (forall U l, setting d U l -> setting d' U l) /\ (forall j v, j <> i -> text_at d j v -> text_at d' j v).
Proof.
  intros H S. apply (set_setting R d (due_tag w)); auto; [destruct w; cbn; tauto|apply int_text|]. intros t Et. destruct w; cbn [set_due_days due_tag] in *; unfold set_credchange_days; rewrite (mbind_ok _ _ _ _ _ Et); reflexivity.
Qed.
Lemma set_days_back R d w i n : wf d -> setting d (due_tag w) [i] -> exists d', set_due_days R w n d = (Ok tt, d') /\ wf d' /\ only [i] d d' /\ due_days R w d' = (Ok (Some n), d').
Proof.
  intros H S. destruct (set_days_run R d w i n H S) as (d' & E & W & O & T & X & _). exists d'. split; [exact E|]. split; [exact W|]. split; [exact O|]. exact (days_run R d' w i (str_of_Z n) n W (X _ _ S) T (int_of_str_Z n)).
Qed.
Lemma only_v4 l d d' : only l d d' -> v4 d' = v4 d. Proof. intros (M & _). unfold v4. now rewrite M. Qed.
Lemma set_date_back R d i v b : wf d -> setting d $"MasterKeyChanged" [i] -> 4 <= d_major d -> dt_valid v -> instant v = Some b -> (0 <= b < MAXSEC * 1000000)%Z -> (b mod 1000000 = 0)%Z ->
  exists d' x, set_credchange_date R v d = (Ok tt, d') /\ wf d' /\ only [i] d d' /\ credchange_date R d' = (Ok (Some x), d') /\ instant x = Some b.
Proof.
  intros H S V Hv Hb Hr Hm. destruct (c03_whole v b Hv Hb Hr Hm) as (s & x & E & D & I & O). rewrite <- (v4_true d V) in E, D. destruct (set_date_run R d i v s H S E) as (d' & E' & W & On & T & X & _). exists d', x. split; [exact E'|]. split; [exact W|]. split; [exact On|]. split; [|exact I]. apply (date_run R d' i s x W (X _ _ S) T). now rewrite (only_v4 _ _ _ On).
Qed.
Lemma set_date_back3 R d i v : wf d -> setting d $"MasterKeyChanged" [i] -> d_major d < 4 -> dt_valid v -> doff v = Some 0%Z ->
  exists d', set_credchange_date R v d = (Ok tt, d') /\ wf d' /\ only [i] d d' /\ credchange_date R d' = (Ok (Some v), d').
Proof.
  intros H S V Hv Ho. destruct (c05_utc v Hv Ho) as (s & E & D). rewrite <- (v4_false d V) in E, D. destruct (set_date_run R d i v s H S E) as (d' & E' & W & On & T & X & _). exists d'. split; [exact E'|]. split; [exact W|]. split; [exact On|]. apply (date_run R d' i s v W (X _ _ S) T). now rewrite (only_v4 _ _ _ On).
Qed.
Lemma setting_tag d T i : setting d T [i] -> is_tag (lk d) T i.
Proof.
  intros (r & m & _ & _ & _ & E). unfold kids_tagged in E. destruct (lk d m) as [q|]; [|discriminate]. assert (I : In i (filter (tagb (lk d) T) (r_kids q))) by (rewrite E; now left). apply filter_In in I as [_ I]. unfold tagb in I. destruct (lk d i) as [u|] eqn:Eu; [|discriminate]. exists u. split; [exact Eu|now apply str_eqb_eq].
Qed.
Lemma due_set R C d w i j v b n a : wf d -> setting d $"MasterKeyChanged" [i] -> setting d (due_tag w) [j] -> 4 <= d_major d -> dt_valid v -> instant v = Some b -> (0 <= b < MAXSEC * 1000000)%Z -> (b mod 1000000 = 0)%Z -> instant (now C) = Some a ->
  exists d' r, (do _ <- set_credchange_date R v; set_due_days R w n) d = (Ok tt, d') /\ due_now R C w d' = (Ok r, d') /\ (r = true <-> n <> (-1)%Z /\ overdue a b n).
Proof.
  intros H S1 S2 V Hv Hb Hr Hm Ha. destruct (c03_whole v b Hv Hb Hr Hm) as (s & x & E & D & I & O). rewrite <- (v4_true d V) in E, D. destruct (set_date_run R d i v s H S1 E) as (d1 & E1 & W1 & On1 & T1 & X1 & _).
  destruct (set_days_run R d1 w j n W1 (X1 _ _ S2)) as (d2 & E2 & W2 & On2 & T2 & X2 & K2).
  assert (Nij : i <> j). { intros ->. apply setting_tag in S1. apply setting_tag in S2. pose proof (tag_inj _ _ _ _ S1 S2) as C'. destruct w; vm_compute in C'; discriminate. }
  destruct (due_run R C d2 w i s x j (str_of_Z n) n a b W2 (X2 _ _ (X1 _ _ S1)) (K2 _ _ Nij T1)) as (r & Er & Hr'); auto.
  - now rewrite (only_v4 _ _ _ On2), (only_v4 _ _ _ On1).
  - apply int_of_str_Z.
  - exists d2, r. split; [rewrite (mbind_ok _ _ _ _ _ E1); exact E2|]. auto.
Qed.
(** Names *)
Lemma set_meta_text R d p i v : wf d -> setting d (text_tag p) [i] -> text_ok (py_str_opt v) = true ->
  exists d', set_meta R (text_tag p) v d = (Ok tt, d') /\ wf d' /\ only [i] d d' /\ get_meta R (text_tag p) d' = (Ok (Some (py_str_opt v)), d').
Proof.
  intros H S Tv. assert (IT : In (text_tag p) meta_tags) by (destruct p; cbn; tauto). destruct (set_setting R d (text_tag p) i (py_str_opt v) (set_meta R (text_tag p) v) H S IT Tv) as (d' & E & W & On & T & X & _).
  - intros t Et. unfold set_meta. rewrite (mbind_ok _ _ _ _ _ Et). reflexivity.
  - exists d'. split; [exact E|]. split; [exact W|]. split; [exact On|]. destruct (setting_text R d' _ i _ W (X _ _ S) T IT) as (t & Ht & Ei & Et & Em). unfold get_meta. rewrite (mbind_ok _ _ _ _ _ Em), Et. reflexivity.
Qed.
Lemma set_meta_back R d p i v : wf d -> setting d (text_tag p) [i] -> text_ok v = true ->
  exists d', set_meta R (text_tag p) (Some v) d = (Ok tt, d') /\ wf d' /\ only [i] d d' /\ get_meta R (text_tag p) d' = (Ok (Some v), d').
Proof. exact (set_meta_text R d p i (Some v)). Qed.
Lemma set_meta_none R d p i : wf d -> setting d (text_tag p) [i] ->
  exists d', set_meta R (text_tag p) None d = (Ok tt, d') /\ wf d' /\ only [i] d d' /\ get_meta R (text_tag p) d' = (Ok (Some $"None"), d').
Proof. intros H S. exact (set_meta_text R d p i None H S eq_refl). Qed.
Lemma due_no_days R C d w i s x : wf d -> setting d $"MasterKeyChanged" [i] -> text_at d i (Some s) -> decode_time (v4 d) s = Ok x -> setting d (due_tag w) [] -> due_now R C w d = (Err Ex_Type, d).
Proof.
  intros H S T D S2. rewrite due_def. unfold credchange_due. rewrite (mbind_ok _ _ _ _ _ (date_run R d i s x H S T D)). assert (IT : In (due_tag w) meta_tags) by (destruct w; cbn; tauto). pose proof (setting_run R d _ [] H S2 IT) as E. cbn in E.
  rewrite (mbind_ok (credchange_days R (due_tag w)) _ d None d); [|unfold credchange_days; rewrite (mbind_ok _ _ _ _ _ E); reflexivity]. destruct (instant (now C)); destruct (instant x); reflexivity.
Qed.
