(** Assignments that write in place may be made in either order. *)
From Verif Require Import Base PyStr Xml Tree XPath Uuid Time Db Save FindSpec XPath_facts XPath_eval Find_facts Api ApiSpec StructSpec CredSpec Heap Prim Api_xpath Api_fields Api_sub Api_claims Struct Struct_bin Struct_trash Bin_xpath Cred Relabel Integrity_ops IntegritySpec Lib Kdbx Object ObjectSpec FailSpec Scratch AgainSpec Again LastSpec Last LastSet LastAtt SwapSpec.

Definition wr (v : option str) : option (row -> row) := if legal v then Some (with_text v) else None.
Definition ink (b : bool) (o : op) : option (row -> row) :=
  match o with
  | Op_time _ _ v => match encode_time b v with Ok s => Some (with_text (Some s)) | Err _ => None end
  | Op_expires _ c => Some (with_text (Some (py_str_bool c)))
  | Op_autotype_enabled _ v => Some (with_text (option_map py_str_bool v))
  | Op_autotype_sequence _ v | Op_autotype_window _ v | Op_att_filename _ v => wr v
  | Op_att_id _ z => Some (fun r => with_attrs (attr_put $"Ref" (str_of_Z z) (r_attrs r)) r)
  | Op_meta _ v => wr (Some (py_str_opt v))
  | Op_days _ n => wr (Some (str_of_Z n))
  | Op_changed t => match encode_time b t with Ok s => wr (Some s) | Err _ => None end
  | _ => None
  end.
Lemma ink_same b o g r : ink b o = Some g -> r_tag (g r) = r_tag r /\ r_kids (g r) = r_kids r.
Proof.
  unfold ink, wr. intros E. destruct o; try discriminate; repeat match type of E with context [match ?x with _ => _ end] => destruct x; try discriminate end; injection E as <-; split; reflexivity.
Qed.
Lemma put_text d t v : wf d -> has d t -> match wr v with Some g => exists d', lx_set_text (eid t) v d = (Ok tt, d') /\ rewritten d d' (eid t) (g (row_of t)) | None => exists x, fst (lx_set_text (eid t) v d) = Err x end.
Proof.
  intros W Ht. unfold wr. destruct (legal v) eqn:L.
  - destruct (set_text_run d (eid t) t v W Ht eq_refl L) as (d' & E & W' & M & _ & Rr & L1 & L2). exists d'. split; [exact E|]. repeat (split; [assumption|]). exact L2.
  - destruct v as [s|]; [|discriminate]. exists Ex_Value. now rewrite (set_text_illegal d _ s L).
Qed.
(** *** Finding the element *)
Lemma tagged_elem d T i k : wf d -> In k (kids_tagged (lk d) T i) -> exists t, has d t /\ eid t = i.
Proof. intros W H. unfold kids_tagged in H. destruct (lk d i) as [r|] eqn:E; [|destruct H]. destruct (look_has d i r W E) as (t & Ht & Ei & _). now exists t. Qed.
Lemma hd_in {A} (l : list A) x : hd_error l = Some x -> In x l. Proof. destruct l; [discriminate|]. intros [= ->]. now left. Qed.
Lemma trail_of d T l : wf d -> (forall t, In t l -> has d t) -> flat_map (kids_tagged (lk d) T) (map eid l) = map eid (flat_map (kids_of T) l).
Proof.
  intros W. induction l as [|t l IH]; intros H; [reflexivity|]. cbn [map flat_map]. rewrite map_app, (kids_tagged_of d t T W) by (apply H; now left). f_equal. apply IH. intros u Hu. apply H. now right.
Qed.
Lemma trail_has d T l : (forall t, In t l -> has d t) -> forall u, In u (flat_map (kids_of T) l) -> has d u.
Proof. intros H u Hu. apply in_flat_map in Hu as (t & It & Iu). apply kids_of_in in Iu as [Iu _]. exact (has_kid d t u (H t It) Iu). Qed.
Lemma hd_map_eid l k : hd_error (map eid l) = Some k -> exists p, hd_error l = Some p /\ eid p = k.
Proof. destruct l as [|p l]; [discriminate|]. intros [= <-]. now exists p. Qed.
Lemma time_spot d i T j k : wf d -> hd_error (kids_tagged (lk d) $"Times" i) = Some j -> hd_error (kids_tagged (lk d) T j) = Some k -> exists t p, has d t /\ eid t = i /\ has d p /\ eid p = k /\ time_slot T t = Some p.
Proof.
  intros W E F. destruct (tagged_elem d _ i j W (hd_in _ _ E)) as (t & Ht & <-). rewrite (kids_tagged_of d t _ W Ht) in E. apply hd_map_eid in E as (ts & E & <-). pose proof (find1_has d t _ ts Ht E) as Hs. rewrite (kids_tagged_of d ts _ W Hs) in F. apply hd_map_eid in F as (p & F & <-).
  exists t, p. pose proof (find1_has d ts _ p Hs F) as Hp. unfold time_slot. change (find1 $"Times" t) with (hd_error (kids_of $"Times" t)). rewrite E. auto 6.
Qed.
Lemma auto_spot d i T k : wf d -> hd_error (flat_map (kids_tagged (lk d) T) (kids_tagged (lk d) $"AutoType" i)) = Some k -> exists t p, has d t /\ eid t = i /\ has d p /\ eid p = k /\ find_2 $"AutoType" T t = Some p.
Proof.
  intros W E. pose proof (hd_in _ _ E) as I. apply in_flat_map in I as (j & Ij & _). destruct (tagged_elem d _ i j W Ij) as (t & Ht & <-). rewrite (kids_tagged_of d t _ W Ht) in E. assert (H : forall u, In u (kids_of $"AutoType" t) -> has d u) by (intros u Hu; apply kids_of_in in Hu as [Hu _]; exact (has_kid d t u Ht Hu)).
  rewrite (trail_of d T _ W H) in E. apply hd_map_eid in E as (p & E & <-). exists t, p. pose proof (trail_has d T _ H p (hd_in _ _ E)). auto 6.
Qed.
Lemma window_spot d i k : wf d -> hd_error (flat_map (kids_tagged (lk d) $"Window") (flat_map (kids_tagged (lk d) $"Association") (kids_tagged (lk d) $"AutoType" i))) = Some k -> exists t p, has d t /\ eid t = i /\ has d p /\ eid p = k /\ find_3 $"AutoType" $"Association" $"Window" t = Some p.
Proof.
  intros W E. pose proof (hd_in _ _ E) as I. apply in_flat_map in I as (j' & I & _). apply in_flat_map in I as (j & Ij & _). destruct (tagged_elem d _ i j W Ij) as (t & Ht & <-). rewrite (kids_tagged_of d t _ W Ht) in E. assert (H : forall u, In u (kids_of $"AutoType" t) -> has d u) by (intros u Hu; apply kids_of_in in Hu as [Hu _]; exact (has_kid d t u Ht Hu)).
  rewrite (trail_of d _ _ W H), (trail_of d _ _ W (trail_has d _ _ H)) in E. apply hd_map_eid in E as (p & E & <-). exists t, p. pose proof (trail_has d _ _ (trail_has d _ _ H) p (hd_in _ _ E)). auto 6.
Qed.
Definition meta_spot (d : db) (T : str) : option nat := match hd_error (rts d) with
  | Some r => if tagb (lk d) $"KeePassFile" r then match kids_tagged (lk d) $"Meta" r with [m] => hd_error (kids_tagged (lk d) T m) | _ => None end else None | None => None end.
Lemma meta_setting d T k : meta_spot d T = Some k -> exists l, setting d T (k :: l).
Proof.
  unfold meta_spot. intros E. destruct (hd_error (rts d)) as [r|] eqn:Er; [|discriminate]. destruct (tagb (lk d) _ r) eqn:Et; [|discriminate]. destruct (kids_tagged (lk d) $"Meta" r) as [|m [|m' l]] eqn:Em; try discriminate. destruct (kids_tagged (lk d) T m) as [|k' l] eqn:Ek; [discriminate|]. injection E as ->.
  exists l, r, m. split; [exact Er|]. split; [|split; [exact Em|exact Ek]]. unfold tagb in Et. destruct (lk d r) as [q|] eqn:Eq; [|discriminate]. exists q. split; [exact Eq|now apply str_eqb_eq].
Qed.
Lemma meta_done R Zl C d T k o g : wf d -> meta_spot d T = Some k -> sets T o -> ink (v4 d) o = g -> (match told (v4 d) o with Ok s => g = wr (Some s) | Err _ => g = None end) ->
  exists t, has d t /\ eid t = k /\ match g with Some g => exists d', IntegritySpec.run R Zl C o d = (Ok tt, d') /\ rewritten d d' k (g (row_of t)) | None => exists x, fst (IntegritySpec.run R Zl C o d) = Err x end.
Proof.
  intros W S A _ Hg. destruct (meta_setting d T k S) as (l & St). destruct (setting_run R d T (k :: l) W St (sets_known T o A)) as (t & Ht & <- & M). exists t. split; [exact Ht|]. split; [reflexivity|]. rewrite (sets_run R Zl C T o d t A M). destruct (told (v4 d) o) as [s|x]; subst g; [now apply put_text|now exists x].
Qed.
(** *** What the call does there *)
Lemma spot_run R Zl C d o k : wf d -> spot d o = Some k ->
  exists t, has d t /\ eid t = k /\ match ink (v4 d) o with Some g => exists d', IntegritySpec.run R Zl C o d = (Ok tt, d') /\ rewritten d d' k (g (row_of t)) | None => exists x, fst (IntegritySpec.run R Zl C o d) = Err x end.
Proof.
  intros W S. destruct o; unfold spot in S; try discriminate.
  - destruct (hd_error (kids_tagged (lk d) $"Times" i)) as [j|] eqn:E; [|discriminate]. destruct (time_spot d i _ j k W E S) as (t & q & Ht & <- & Hq & <- & F). exists q. split; [exact Hq|]. split; [reflexivity|]. cbn [ink IntegritySpec.run]. rewrite set_timeprop_name. destruct (slot_facts d t _ q W Ht F) as (ts & F1 & F2 & _).
    unfold set_time. rewrite (mbind_ok _ _ _ _ _ (the_run d (eid t) t W Ht eq_refl)), F1, F2. unfold encode_t, lift, mbind. destruct (encode_time (v4 d) v) as [s|x] eqn:Es; [|now exists x].
    pose proof (put_text d q (Some s) W Hq) as P. unfold wr in P. cbn [legal] in P. rewrite (encode_text_ok _ _ _ Es) in P. exact P.
  - destruct (hd_error (kids_tagged (lk d) $"Times" i)) as [j|] eqn:E; [|discriminate]. destruct (time_spot d i _ j k W E S) as (t & q & Ht & <- & Hq & <- & F). exists q. split; [exact Hq|]. split; [reflexivity|]. cbn [ink IntegritySpec.run].
    unfold set_expires. rewrite (mbind_ok _ _ _ _ _ (expires_run d t q W Ht F)). pose proof (put_text d q (Some (py_str_bool b)) W Hq) as P. unfold wr in P. destruct b; exact P.
  - destruct (auto_spot d e _ k W S) as (t & q & Ht & <- & Hq & <- & F). exists q. split; [exact Hq|]. split; [reflexivity|]. cbn [ink IntegritySpec.run]. rewrite (set_at_enabled d t q v W Ht F). pose proof (put_text d q (option_map py_str_bool v) W Hq) as P. unfold wr in P. destruct v as [[|]|]; exact P.
  - destruct (auto_spot d e _ k W S) as (t & q & Ht & <- & Hq & <- & F). exists q. split; [exact Hq|]. split; [reflexivity|]. cbn [ink IntegritySpec.run]. rewrite (set_at_sequence d t q v W Ht F). now apply put_text.
  - destruct (window_spot d e k W S) as (t & q & Ht & <- & Hq & <- & F). exists q. split; [exact Hq|]. split; [reflexivity|]. cbn [ink IntegritySpec.run]. rewrite (set_at_window d t q v W Ht F). now apply put_text.
  - destruct (tagged_elem d _ a k W (hd_in _ _ S)) as (t & Ht & <-). rewrite (kids_tagged_of d t _ W Ht) in S. apply hd_map_eid in S as (q & F & <-). pose proof (find1_has d t _ q Ht F) as Hq. exists q. split; [exact Hq|]. split; [reflexivity|]. cbn [ink].
    exact (relabel_does R Zl C true (eid t) (Op_att_id (eid t) id) d t q W Ht eq_refl eq_refl F Hq).
  - destruct (tagged_elem d _ a k W (hd_in _ _ S)) as (t & Ht & <-). rewrite (kids_tagged_of d t _ W Ht) in S. apply hd_map_eid in S as (q & F & <-). pose proof (find1_has d t _ q Ht F) as Hq. exists q. split; [exact Hq|]. split; [reflexivity|]. cbn [ink].
    pose proof (relabel_does R Zl C false (eid t) (Op_att_filename (eid t) v) d t q W Ht eq_refl eq_refl F Hq) as P. unfold wr. destruct v as [s|]; [|exact P]. cbn [legal]. cbn [lawful] in P. destruct (text_ok s); exact P.
  - destruct (existsb (str_eqb tag) _) eqn:E; [|discriminate]. apply existsb_exists in E as (T & IT & E). apply str_eqb_eq in E. subst T. apply (meta_done R Zl C d tag k _ _ W S); [split; [reflexivity|exact IT]|reflexivity|reflexivity].
  - apply (meta_done R Zl C d (due_tag w) k _ _ W S); reflexivity.
  - apply (meta_done R Zl C d $"MasterKeyChanged" k _ _ W S); [reflexivity|reflexivity|]. cbn [told ink]. destruct (encode_time (v4 d) t); reflexivity.
Qed.
(** *** It is found again *)
Lemma trail_one d d' k T l : one_row d d' k -> flat_map (kids_tagged (lk d') T) l = flat_map (kids_tagged (lk d) T) l.
Proof. intros H. induction l as [|i l IH]; [reflexivity|]. cbn [flat_map]. now rewrite IH, (one_row_tagged d d' k T i H). Qed.
Lemma spot_one d d' k o : one_row d d' k -> spot d' o = spot d o.
Proof.
  intros H. pose proof H as (_ & Hr & _). assert (MS : forall T, meta_spot d' T = meta_spot d T).
  { intros T. unfold meta_spot. rewrite Hr. destruct (hd_error (rts d)) as [r|]; [|reflexivity]. rewrite (one_row_tagb d d' k _ r H), (one_row_tagged d d' k _ r H). destruct (tagb (lk d) _ r); [|reflexivity]. destruct (kids_tagged (lk d) $"Meta" r) as [|m [|]]; try reflexivity. now rewrite (one_row_tagged d d' k T m H). }
  destruct o; cbn [spot]; try reflexivity; try exact (MS _).
  - rewrite (one_row_tagged d d' k _ i H). destruct (hd_error (kids_tagged (lk d) $"Times" i)); [|reflexivity]. now rewrite (one_row_tagged d d' k _ _ H).
  - rewrite (one_row_tagged d d' k _ i H). destruct (hd_error (kids_tagged (lk d) $"Times" i)); [|reflexivity]. now rewrite (one_row_tagged d d' k _ _ H).
  - now rewrite (one_row_tagged d d' k _ e H), (trail_one d d' k _ _ H).
  - now rewrite (one_row_tagged d d' k _ e H), (trail_one d d' k _ _ H).
  - now rewrite (one_row_tagged d d' k _ e H), !(trail_one d d' k _ _ H).
  - now rewrite (one_row_tagged d d' k _ a H).
  - now rewrite (one_row_tagged d d' k _ a H).
  - destruct (existsb _ _); [exact (MS tag)|reflexivity].
Qed.
Lemma meta_v4 d d' : same_meta d d' -> v4 d' = v4 d. Proof. intros (M & _). unfold v4. now rewrite M. Qed.
Lemma spot_did R Zl C d o k d1 : wf d -> spot d o = Some k -> IntegritySpec.run R Zl C o d = (Ok tt, d1) ->
  exists g r, ink (v4 d) o = Some g /\ lk d k = Some r /\ rewritten d d1 k (g r) /\ one_row d d1 k.
Proof.
  intros W S E. destruct (spot_run R Zl C d o k W S) as (t & Ht & <- & D). destruct (ink (v4 d) o) as [g|] eqn:G; [|destruct D as (x & X); rewrite E in X; discriminate]. destruct D as (d' & E' & D). rewrite E in E'. injection E' as <-.
  assert (Er : lk d (eid t) = Some (row_of t)) by (now apply look_self; [apply W|]). exists g, (row_of t). split; [reflexivity|]. split; [exact Er|]. split; [exact D|]. destruct D as (_ & M & Rr & L1 & L2). split; [exact M|]. split; [now rewrite Rr|]. split; [exact L2|]. exists (row_of t), (g (row_of t)). destruct (ink_same _ _ g (row_of t) G). auto.
Qed.
Lemma spot_can R Zl C d o k g r : wf d -> spot d o = Some k -> ink (v4 d) o = Some g -> lk d k = Some r -> exists d1, IntegritySpec.run R Zl C o d = (Ok tt, d1) /\ rewritten d d1 k (g r).
Proof.
  intros W S G Er. destruct (spot_run R Zl C d o k W S) as (t & Ht & <- & D). rewrite G in D. rewrite (look_self _ t (wf_unique _ W) Ht) in Er. apply Some_inj in Er. subst r. exact D.
Qed.
Theorem either_order R Zl C C' o o' k k' d d1 d2 : wf d -> spot d o = Some k -> spot d o' = Some k' -> k <> k' -> IntegritySpec.run R Zl C o d = (Ok tt, d1) -> IntegritySpec.run R Zl C' o' d1 = (Ok tt, d2) ->
  exists d3 d4, IntegritySpec.run R Zl C' o' d = (Ok tt, d3) /\ IntegritySpec.run R Zl C o d3 = (Ok tt, d4) /\ untouched d2 d4.
Proof.
  intros W S S' N E F. destruct (spot_did R Zl C d o k d1 W S E) as (g & r & G & Er & D & O). pose proof D as (W1 & M1 & R1 & L1 & X1).
  assert (S1 : spot d1 o' = Some k') by (rewrite (spot_one d d1 k o' O); exact S'). destruct (spot_did R Zl C' d1 o' k' d2 W1 S1 F) as (g' & r' & G' & Er' & D2 & _). rewrite (meta_v4 _ _ M1) in G'. rewrite X1 in Er' by congruence. pose proof D2 as (W2 & M2 & R2 & L2 & X2).
  destruct (spot_can R Zl C' d o' k' g' r' W S' G' Er') as (d3 & E3 & D3). exists d3. destruct (spot_did R Zl C' d o' k' d3 W S' E3) as (_ & _ & _ & _ & _ & O3). pose proof D3 as (W3 & M3 & R3 & L3 & X3).
  destruct (spot_can R Zl C d3 o k g r W3) as (d4 & E4 & D4); [now rewrite (spot_one d d3 k' o O3)|now rewrite (meta_v4 _ _ M3)|now rewrite X3|]. exists d4. split; [exact E3|]. split; [exact E4|]. pose proof D4 as (W4 & M4 & R4 & L4 & X4).
  apply (same_rows d2 d4 W2 W4); [destruct M1 as (? & ? & ?), M2 as (? & ? & ?), M3 as (? & ? & ?), M4 as (? & ? & ?); repeat split; congruence|congruence|].
  intros j. destruct (Nat.eq_dec j k) as [->|Nk]; [rewrite L4, X2 by exact N; congruence|]. rewrite X4 by exact Nk. destruct (Nat.eq_dec j k') as [->|Nk']; [congruence|]. rewrite X3, X2, X1; auto.
Qed.
