(** Statements of Prop_Struct.v put together from the lemmas of the Struct files. *)
From Coq Require Import ZifyBool ZifyNat ZifyN.
From Verif Require Import Base PyStr Xml Tree XPath Time Db XPath_facts FindSpec Find_facts Find_path Find_more ApiSpec StructSpec Heap Uuid Api Prim Api_xpath Api_fields Api_custom Api_sub Api_claims Struct Struct_add Struct_find Struct_bin Struct_trash Struct_empty Struct_index Struct_hist.

(** *** add_entry, whatever the arguments *)
Lemma add_entry_ok R C d g title username password url notes expiry tags otp icon force e d' : wf d -> in_doc d g ->
  add_entry R C g title username password url notes expiry tags otp icon force d = (Ok e, d') ->
  exists t, wf d' /\ added d d' g e /\ has d' t /\ eid t = e /\ etag t = $"Entry" /\ (forall j, in_doc d' j <-> in_doc d j \/ In j (ids t)).
Proof.
  intros H Hg. unfold add_entry. cbv zeta. unfold mbind at 1, lift at 1. set (q := find_entries R d false _). clearbody q. destruct q as [dup|y]; [|intros E; discriminate].
  assert (G : forall m, (m = (do e <- new_entry C title username password url notes otp tags (Some (match expiry with Some _ => true | None => false end)) expiry icon None true None; do _ <- lx_append g e; ret e)) -> m d = (Ok e, d') ->
    exists t, wf d' /\ added d d' g e /\ has d' t /\ eid t = e /\ etag t = $"Entry" /\ (forall j, in_doc d' j <-> in_doc d j \/ In j (ids t))).
  { intros m ->. unfold new_entry. rewrite (bind_assoc_new _ (fun _ => entry_kids title username password url notes otp tags None true None)). unfold mbind at 1. pose proof (reads_base C icon (Some (match expiry with Some _ => true | None => false end)) expiry d) as Hb.
    destruct (base_kids _ _ _ _ d) as [[b|y] d1]; cbn in Hb; subst d1; [|intros E; discriminate]. unfold of_res at 1, mbind at 1. destruct (entry_kids _ _ _ _ _ _ _ _ _ _) as [k|y]; [|intros E; discriminate].
    destruct (append_new_claim d g (e_node $"Entry" (b ++ k)) H Hg) as (t & d2 & E2 & Et & Ex & W & A & T & D). intros E. unfold lx_append_new in E2. change ((do c <- lx_new (e_node $"Entry" (b ++ k)); do _ <- lx_append g c; ret c) d = (Ok e, d')) in E. rewrite E2 in E. injection E as <- <-.
    exists t. split; [exact W|]. split; [exact A|]. split; [exact T|]. split; [exact Et|]. split; [|exact D]. apply Api_fields.erase_kids in Ex as (Tg & _). exact Tg. }
  destruct dup as [|f dup]; [apply G; reflexivity|]. destruct force; [apply G; reflexivity|]. unfold mbind. destruct (group_path R g d) as [[p|x] d1]; discriminate.
Qed.
Lemma slot_some name t s : slot_text name t = Some s -> exists p, time_slot name t = Some p /\ etext p = Some s.
Proof. unfold slot_text. destruct (time_slot name t) as [p|]; [|discriminate]. intros E. now exists p. Qed.
Lemma slot_read d t name s x : wf d -> has d t -> slot_text name t = Some s -> decode_time (v4 d) s = Ok x -> get_time name (eid t) d = (Ok (Some x), d).
Proof. intros H Ht Es Ed. apply slot_some in Es as (p & Ep & Ex). rewrite (get_time_run d t name H Ht), Ep, Ex, Ed. reflexivity. Qed.
Lemma look_fields_app k l m : look_field k (l ++ m) = match look_field k l with Some f => Some f | None => look_field k m end.
Proof. apply Api_claims.look_app. Qed.
Lemma look_opt k key v fl : look_field k (opt_field key v fl) = if filled v && str_eqb key k then Some (Fld (Some key) v fl) else None.
Proof. unfold opt_field. destruct (filled v); [|reflexivity]. cbn [look_field List.find has_key f_key andb]. unfold look_field. cbn [List.find]. unfold has_key. cbn [f_key]. destruct (str_eqb key k); reflexivity. Qed.
Lemma new_fields_read title username password url notes otp t p : book t = new_fields title username password url notes otp -> field_text (prop_name p) t = given title username password url notes otp p.
Proof.
  intros B. unfold field_text. rewrite B. unfold new_fields. rewrite !look_fields_app, !look_opt.
  destruct p; cbn [prop_name given]; unfold look_field; cbn [List.find has_key f_key]; unfold has_key; cbn [f_key]; repeat match goal with |- context [str_eqb ?a ?b] => let v := eval vm_compute in (str_eqb a b) in change (str_eqb a b) with v end; cbv iota; rewrite ?andb_true_r, ?andb_false_r; try reflexivity.
  - destruct url as [[|]|]; reflexivity.
  - destruct notes as [[|]|]; destruct (filled url); reflexivity.
  - destruct otp as [[|]|]; destruct (filled url), (filled notes); reflexivity.
Qed.
Lemma new_fields_other title username password url notes otp t k : book t = new_fields title username password url notes otp -> ~ builtin (Some k) -> field_text k t = None.
Proof.
  intros B N. unfold field_text. rewrite B. unfold new_fields. rewrite !look_fields_app, !look_opt.
  assert (Z : forall q, str_eqb (prop_name q) k = false) by (intros q; destruct (str_eqb (prop_name q) k) eqn:E; [apply str_eqb_eq in E; exfalso; exact (plain_not_prop k q N (eq_sym E))|reflexivity]).
  pose proof (Z P_title) as Z1. pose proof (Z P_username) as Z2. pose proof (Z P_password) as Z3. pose proof (Z P_url) as Z4. pose proof (Z P_notes) as Z5. pose proof (Z P_otp) as Z6. cbn [prop_name] in *.
  unfold look_field. cbn [List.find]. unfold has_key. cbn [f_key]. rewrite Z1, Z2, Z3, Z4, Z5, Z6, !andb_false_r. reflexivity.
Qed.
Lemma tags_text_back l : l <> [[]] -> Forall tag_ok l -> (match tags_text (T_list l) with Some (c :: s) => py_split 59 (py_replace $"," $";" (c :: s)) | _ => [] end) = l.
Proof. intros N Hl. destruct l as [|a l]; [reflexivity|]. cbn [tags_text]. rewrite <- (tags_back (a :: l) N Hl) at 2. destruct (py_join $";" (a :: l)); reflexivity. Qed.
Lemma added_v4 d d' p i : added d d' p i -> v4 d' = v4 d.
Proof. intros (_ & (M & _) & _). unfold v4. now rewrite M. Qed.
Lemma add_entry_reads R C d g title username password url notes expiry tags otp icon force u cur exp x y : wf d -> has d g -> in_doc d (eid g) -> etag g <> $"History" -> In g (visible (d_forest d)) ->
  uuid_ok (uuid1 C) -> (forall s, title = Some s -> plain s) -> (forall s, username = Some s -> plain s) ->
  some_text title -> some_text username -> some_text password -> opt_text url -> opt_text notes -> opt_text otp -> opt_text icon -> opt_text (tags_text tags) ->
  encode_time (v4 d) (now C) = Ok cur -> decode_time (v4 d) cur = Ok x -> expiry_of C expiry u -> encode_time (v4 d) u = Ok exp -> decode_time (v4 d) exp = Ok y ->
  force = true \/ (forall k, ~ duplicate g title username k) ->
  exists e t d', add_entry R C (eid g) title username password url notes expiry tags otp icon force d = (Ok e, d') /\
    wf d' /\ added d d' (eid g) e /\ has d' t /\ eid t = e /\ (forall j, in_doc d' j <-> in_doc d j \/ In j (ids t)) /\
    etag t = $"Entry" /\ book t = new_fields title username password url notes otp /\
    new_entry_reads R C d' e title username password url notes expiry tags otp icon x y.
Proof.
  intros H Hg Hd Hn Hv HU P1 P2 St Su Sp Ou On Oo Oi Og Ec Dc Ex Ee De Hf.
  destruct (add_entry_claim R C d g title username password url notes expiry tags otp icon force u cur exp H Hg Hd Hn Hv HU P1 P2 St Su Sp Ou On Oo Oi Og Ec Ex Ee Hf)
    as (e & t & d' & E & W & A & T & Et & D & Tg & Ty & B & U & I & G & S1 & S2 & S3 & S4 & S5 & KH & KB).
  exists e, t, d'. split; [exact E|]. split; [exact W|]. split; [exact A|]. split; [exact T|]. split; [exact Et|]. split; [exact D|]. split; [exact Tg|]. split; [exact B|].
  pose proof (added_v4 _ _ _ _ A) as Ev. rewrite <- Ev in Dc, De. subst e. unfold new_entry_reads.
  split; [intros p; rewrite (get_prop_field R d' t p W T Ty); f_equal; f_equal; now apply new_fields_read|].
  split; [intros k Pk Nk; rewrite custom_run by exact Nk; rewrite (get_string_spec R d' t k W T Ty Pk); f_equal; f_equal; eapply new_fields_other; eassumption|].
  split; [apply (get_uuid_run d' t); auto; unfold uuid_is; rewrite U; now apply uuid_text_roundtrip|].
  split; [unfold get_icon; rewrite (get_sub_run d' t $"IconID" W T), I; reflexivity|].
  split; [intros l -> Nl Hl; unfold get_tags; rewrite (mbind_ok _ _ _ _ _ (get_sub_run d' t $"Tags" W T)), G; unfold ret; rewrite (tags_text_back l Nl Hl); reflexivity|].
  split; [exact (slot_read d' t _ cur x W T S1 Dc)|]. split; [exact (slot_read d' t _ cur x W T S2 Dc)|]. split; [exact (slot_read d' t _ cur x W T S3 Dc)|]. split; [exact (slot_read d' t _ exp y W T S4 De)|].
  split; [apply slot_some in S5 as (p & Ep & Ex'); rewrite (get_expires_run d' t p W T Ep), Ex'; cbn [option_map]; destruct expiry; reflexivity|].
  rewrite (history_run d' t W T). unfold snapshots, find1. rewrite KH. reflexivity.
Qed.

(** *** Deleted elements are found by no search *)
Lemma delete_unfound R d p t : wf d -> in_doc d p -> is_kid d p (eid t) -> has d t ->
  exists d', delete (eid t) d = (Ok tt, d') /\ wf d' /\ cut d d' (eid t) /\ (forall j, in_doc d' j <-> in_doc d j /\ ~ In j (ids t)) /\
    forall pf xp q l, (forall i, q_tree q = Some i -> in_doc d' i) -> find R d' pf xp q = Ok l -> forall r, In r l -> ~ In (rid r) (ids t).
Proof.
  intros H Hp K Ht. destruct (delete_claim d p (eid t) H Hp K) as (d' & E & W & Cu & D). exists d'. split; [exact E|]. split; [exact W|]. split; [exact Cu|].
  assert (D' : forall j, in_doc d' j <-> in_doc d j /\ ~ In j (ids t)) by (intros j; rewrite D, (below_ids (d_forest d) t j (wf_unique _ H) Ht); reflexivity).
  split; [exact D'|]. intros pf xp q l Hq Ef r Hr. pose proof (find_in_doc R d' pf xp q l W Hq Ef r Hr) as G. apply D' in G. tauto.
Qed.

(** *** Elements have parents *)
Lemma has_parent d i : in_doc d i -> hd_error (roots (d_forest d)) <> Some i -> exists p, in_doc d p /\ is_kid d p i.
Proof. intros (r & Er & B) N. inversion B as [q Eq|j k q B' Eq Hk]; [congruence|]. subst. exists j. split; [exists r; auto|exists q; auto]. Qed.
Lemma delete_doc R d t : wf d -> has d t -> in_doc d (eid t) -> hd_error (roots (d_forest d)) <> Some (eid t) ->
  exists d', delete (eid t) d = (Ok tt, d') /\ wf d' /\ cut d d' (eid t) /\ (forall j, in_doc d' j <-> in_doc d j /\ ~ In j (ids t)) /\
    forall pf xp q l, (forall i, q_tree q = Some i -> in_doc d' i) -> find R d' pf xp q = Ok l -> forall r, In r l -> ~ In (rid r) (ids t).
Proof. intros H Ht Hd Hr. destruct (has_parent d _ Hd Hr) as (p & Hp & K). now apply (delete_unfound R d p). Qed.
Lemma move_doc d p t : wf d -> has d t -> in_doc d (eid t) -> in_doc d p -> hd_error (roots (d_forest d)) <> Some (eid t) -> ~ In p (ids t) ->
  exists d', move (eid t) p d = (Ok tt, d') /\ wf d' /\ relocated d d' p (eid t) /\ has d' t /\ (forall j, in_doc d' j <-> in_doc d j).
Proof.
  intros H Ht Hd Hp Hr Hn. rewrite <- (below_ids (d_forest d) t p (wf_unique _ H) Ht) in Hn. destruct (move_claim d p t H Hp Ht Hn Hr) as (d' & E & W & Re & T & _ & D & _). exists d'. repeat (split; [assumption|]). intros j. rewrite D. split; [|now left]. intros [?|B]; [assumption|]. destruct Hd as (r & Er & B0). exists r. split; [exact Er|]. exact (below_trans _ _ _ _ B0 B).
Qed.
Lemma move_inside d p t : wf d -> has d t -> In p (ids t) -> move (eid t) p d = (Err Ex_Value, d).
Proof. intros H Ht Hp. apply move_refused; auto. now apply below_ids; [apply H| |]. Qed.

(** *** Edits and snapshots *)
Lemma only_in_doc d d' t : wf d -> wf d' -> only [eid t] d d' -> has d' t -> in_doc d (eid t) -> in_doc d' (eid t).
Proof.
  intros H W (_ & _ & _ & _ & R & L) Ht (r & Er & B). exists r. split; [congruence|].
  assert (G : forall j, below (lk d) r j -> below (lk d) j (eid t) -> below (lk d') r j).
  { clear B. intros j B. induction B as [q Eq|j k q B IH Eq Hk]; intros Bi.
    - destruct (Nat.eq_dec r (eid t)) as [->|N]; [apply (below_self _ _ (row_of t)); apply look_self; [apply W|exact Ht]|]. apply (below_self _ _ q). apply L; [exact Eq|intros [?|[]]; congruence].
    - assert (Kk : is_kid d j k) by (exists q; auto). destruct (kid_below d j k H Kk) as [B1 N1].
      assert (Nj : j <> eid t) by (intros ->; now apply N1).
      apply (below_kid _ _ j k q); [apply IH; exact (below_trans _ _ _ _ B1 Bi)| |exact Hk]. apply L; [exact Eq|]. intros [?|[]]; congruence. }
  apply G; [exact B|]. destruct (below_look (d_forest d) r (eid t) (wf_unique _ H) B) as (q & Eq). exact (below_self _ _ q Eq).
Qed.
Lemma others_snap T t t' : T <> $"History" -> other_kids T t' = other_kids T t -> kids_of $"History" t' = kids_of $"History" t /\ snapshots t' = snapshots t.
Proof. intros N E. pose proof (other_kids_of T $"History" t t' N E) as K. split; [exact K|]. unfold snapshots, find1. now rewrite K. Qed.
Lemma rest_others t : rest_kids t = other_kids $"String" t. Proof. reflexivity. Qed.
Lemma tidy_book t t' : kids_of $"String" t' = kids_of $"String" t -> tidy t -> tidy t'.
Proof. intros E (A & B & C). unfold tidy, book. rewrite E. auto. Qed.
Lemma set_string_kept R d t key v p : sound d t -> plain key -> exists t', sound (snd (set_string R key (eid t) v p d)) t' /\ eid t' = eid t /\ snapshots t' = snapshots t.
Proof.
  intros (H & Ht & Hd & Te & Hy & Ho) Hk.
  assert (G : forall d' t', assigned d d' t t' -> tidy t' -> sound d' t' /\ eid t' = eid t /\ snapshots t' = snapshots t).
  { intros d' t' (W & T & (E1 & E2 & _) & K & O) Y. rewrite !rest_others in K. destruct (others_snap $"String" t t' ltac:(vm_compute; discriminate) K) as [KH KS]. split; [|auto]. split; [exact W|]. split; [exact T|]. split; [|split; [congruence|split; [exact Y|unfold at_most_one; rewrite KH; exact Ho]]].
    apply (only_in_doc d); auto; rewrite E1; auto. }
  destruct v as [v|].
  - destruct (text_ok v) eqn:Ev.
    + destruct (set_string_spec R d t key v p H Ht Hy Hk Ev) as (d' & t' & E & A & Y & _). rewrite E. exists t'. now apply G.
    + destruct (set_string_rejected_tidy R d t key (Some v) p H Ht Hy Hk Ev) as (e & d' & t' & E & A & Y & _). rewrite E. exists t'. now apply G.
  - destruct (set_string_rejected_tidy R d t key None p H Ht Hy Hk I) as (e & d' & t' & E & A & Y & _). rewrite E. exists t'. now apply G.
Qed.
Lemma set_sub_kept d t T v : sound d t -> T <> $"History" -> T <> $"String" -> exists t', sound (snd (set_sub T (eid t) v d)) t' /\ eid t' = eid t /\ snapshots t' = snapshots t.
Proof.
  intros (H & Ht & Hd & Te & Hy & Ho) N1 N2.
  assert (G : forall d' t', resub d d' t t' T -> sound d' t' /\ eid t' = eid t /\ snapshots t' = snapshots t).
  { intros d' t' (W & T' & (E1 & E2 & _) & K & O). destruct (others_snap _ t t' N1 K) as [KH KS]. split; [|auto]. split; [exact W|]. split; [exact T'|]. split; [|split; [congruence|split; [|unfold at_most_one; rewrite KH; exact Ho]]].
    - apply (only_in_doc d); auto; rewrite E1; auto.
    - apply (tidy_book t); [exact (other_kids_of T $"String" t t' N2 K)|exact Hy]. }
  destruct v as [v|].
  - destruct (text_ok v) eqn:Ev.
    + destruct (set_sub_spec d t T v H Ht Ev) as (d' & t' & n & E & A & _). rewrite E. exists t'. now apply G.
    + destruct (set_sub_rejected d t T (Some v) H Ht Ev) as (e & d' & t' & E & A & _). rewrite E. exists t'. now apply G.
  - destruct (set_sub_rejected d t T None H Ht I) as (e & d' & t' & E & A & _). rewrite E. exists t'. now apply G.
Qed.
Lemma retext_slot_kept d d' t name p v : sound d t -> time_slot name t = Some p -> retext d d' p v -> exists t', sound d' t' /\ eid t' = eid t /\ snapshots t' = snapshots t.
Proof.
  intros (H & Ht & Hd & Te & Hy & Ho) Hp Hr. destruct (slot_facts d t name p H Ht Hp) as (ts & E1 & E2 & Hts & Hp' & _ & N1 & N2).
  assert (Its : In ts (ekids t) /\ etag ts = $"Times"). { unfold find1 in E1. apply hd_In in E1. now apply kids_of_In in E1. } destruct Its as [Its Tts].
  assert (Ip : In p (everything ts)). { rewrite everything_eq. right. apply in_flat_map. exists p. split; [|rewrite everything_eq; now left]. unfold find1 in E2. apply hd_In in E2. now apply kids_of_In in E2. }
  pose proof (retext_tree d d' p v H Hp' Hr t Ht) as Ht'. pose proof (upd_text_head (eid p) v t) as (U1 & U2 & _).
  assert (Ab : forall k, In k (ekids t) -> etag k <> $"Times" -> upd (eid p) (set_text v) k = k).
  { intros k Ik Nk. apply upd_absent. intros Hin. assert (k = ts); [|congruence]. apply in_map_iff in Hin as (y & Ey & Iy). assert (y = p) as -> by (apply (unique_inj (d_forest d)); [apply H|exact (everything_has d k y (has_kid d t k Ht Ik) Iy)|exact Hp'|exact Ey]).
    apply (unique_inj (d_forest d)); [apply H|now apply (has_kid d t)|exact Hts|].
    assert (B1 : below (lk d) (eid k) (eid p)) by (apply below_ids; [apply H|now apply (has_kid d t)|rewrite ids_everything; now apply in_map]).
    assert (B2 : below (lk d) (eid ts) (eid p)) by (apply below_ids; [apply H|exact Hts|rewrite ids_everything; now apply in_map]).
    assert (K : is_kid d (eid ts) (eid p)) by (exists (row_of ts); split; [apply look_self; [apply H|exact Hts]|cbn; apply in_map; unfold find1 in E2; apply hd_In in E2; now apply kids_of_In in E2]).
    assert (Kt : is_kid d (eid t) (eid k)) by (exists (row_of t); split; [apply look_self; [apply H|exact Ht]|cbn; now apply in_map]).
    assert (Kts : is_kid d (eid t) (eid ts)) by (exists (row_of t); split; [apply look_self; [apply H|exact Ht]|cbn; now apply in_map]).
    destruct (above d (eid ts) (eid p) (eid k) H K B1) as [Ek|B3].
    - exfalso. assert (k = p) as -> by (apply (unique_inj (d_forest d)); [apply H|now apply (has_kid d t)|exact Hp'|exact Ek]). assert (Eq := one_parent d _ _ _ H Kt K). assert (t = ts) by (apply (unique_inj (d_forest d)); [apply H|exact Ht|exact Hts|exact Eq]). subst ts. apply (proj2 (kid_below d _ _ H Kts)). apply (kid_below d _ _ H Kts).
    - destruct (above d (eid t) (eid ts) (eid k) H Kts B3) as [Ek|B4]; [exact Ek|]. exfalso. exact (proj2 (kid_below d _ _ H Kt) B4). }
  assert (KT : forall T, T <> $"Times" -> kids_of T (upd (eid p) (set_text v) t) = kids_of T t).
  { intros T NT. rewrite upd_text_kids_of by congruence. rewrite <- (map_id (kids_of T t)) at 2. apply map_ext_in. intros k Hk. apply kids_of_In in Hk as [Ik Tk]. apply Ab; congruence. }
  exists (upd (eid p) (set_text v) t). split; [|split; [exact U1|unfold snapshots, find1; rewrite KT by (vm_compute; discriminate); reflexivity]].
  split; [apply Hr|]. split; [exact Ht'|]. split; [|split; [congruence|split]].
  - rewrite U1. apply (retext_doc d d' p v H Hp' Hr). exact Hd.
  - apply (tidy_book t); [apply KT; vm_compute; discriminate|exact Hy].
  - unfold at_most_one. rewrite KT by (vm_compute; discriminate). exact Ho.
Qed.
Lemma set_time_kept d t name v : sound d t -> exists t', sound (snd (set_time name (eid t) v d)) t' /\ eid t' = eid t /\ snapshots t' = snapshots t.
Proof.
  intros S. pose proof S as (H & Ht & Hd & Te & Hy & Ho). destruct (time_slot name t) as [p|] eqn:Ep.
  - destruct (encode_time (v4 d) v) as [s|x] eqn:Es.
    + destruct (set_time_run d t name p v s H Ht Ep Es) as (d' & E & Hr). rewrite E. exact (retext_slot_kept d d' t name p _ S Ep Hr).
    + exists t. split; [|auto]. unfold set_time. rewrite (mbind_ok _ _ _ _ _ (the_run d (eid t) t H Ht eq_refl)). unfold time_slot in Ep. destruct (find1 $"Times" t) as [ts|]; [|discriminate]. rewrite Ep. unfold encode_t, lift, mbind. rewrite Es. exact S.
  - exists t. split; [|auto]. unfold set_time. rewrite (mbind_ok _ _ _ _ _ (the_run d (eid t) t H Ht eq_refl)). unfold time_slot in Ep. destruct (find1 $"Times" t) as [ts|]; [rewrite Ep|]; exact S.
Qed.
Lemma edit_kept R d t e : sound d t -> edit_ok e -> exists t' new, sound (snd (run_edit R (eid t) e d)) t' /\ eid t' = eid t /\ snapshots t' = snapshots t ++ new /\ List.length new = (if is_save e then 1 else 0)%nat /\ Forall (fun s => kids_of $"History" s = []) new.
Proof.
  intros S He.
  assert (G : forall d', (exists t', sound d' t' /\ eid t' = eid t /\ snapshots t' = snapshots t) -> exists t' new, sound d' t' /\ eid t' = eid t /\ snapshots t' = snapshots t ++ new /\ List.length new = 0%nat /\ Forall (fun s => kids_of $"History" s = []) new).
  { intros d' (t' & A & B & C'). exists t', []. rewrite app_nil_r. auto. }
  destruct e as [p v|k v b|v|l|p v|]; cbn [run_edit is_save edit_ok] in *.
  - apply G. pose proof S as (H & Ht & Hd & Te & Hy & Ho).
    assert (Z : exists q, set_prop R p (eid t) v d = set_string R (prop_name p) (eid t) v q d).
    { destruct p; try (eexists; reflexivity); cbn [set_prop]; [unfold set_password; rewrite (mbind_ok _ _ _ _ _ (get_string_spec R d t $"Password" H Ht Hy (prop_plain P_password)))|unfold set_otp; rewrite (mbind_ok _ _ _ _ _ (get_string_spec R d t $"otp" H Ht Hy (prop_plain P_otp)))]; eexists; reflexivity. }
    destruct Z as (q & ->). apply set_string_kept; [exact S|apply prop_plain].
  - apply G. unfold set_custom_property. destruct (reserved (Some k)); [exists t; now split|]. now apply set_string_kept.
  - apply G. apply set_sub_kept; [exact S|vm_compute; discriminate|vm_compute; discriminate].
  - apply G. apply set_sub_kept; [exact S|vm_compute; discriminate|vm_compute; discriminate].
  - apply G. rewrite set_timeprop_name. now apply set_time_kept.
  - pose proof S as (H & Ht & Hd & Te & Hy & Ho). destruct (save_history_claim d t H Ht Hd Te Ho) as (s & t' & d' & E & W & T & (E1 & E2 & _) & K & Ho' & Sn & _ & Ks & _ & _ & D). rewrite E. exists t', [s]. split; [|split; [exact E1|split; [exact Sn|split; [reflexivity|now constructor]]]].
    split; [exact W|]. split; [exact T|]. split; [rewrite E1; apply (D _ (row_of t)); [apply look_self; [apply H|exact Ht]|exact Hd]|]. split; [congruence|]. split; [|exact Ho']. apply (tidy_book t); [apply (other_kids_of $"History" $"String" t t'); [vm_compute; discriminate|exact K]|exact Hy].
Qed.
Lemma edits_kept R l : forall d t, sound d t -> Forall edit_ok l -> exists t' new, sound (after R (eid t) l d) t' /\ eid t' = eid t /\ snapshots t' = snapshots t ++ new /\ List.length new = List.length (filter is_save l) /\ Forall (fun s => kids_of $"History" s = []) new.
Proof.
  induction l as [|e l IH]; intros d t S Hl.
  - exists t, []. rewrite app_nil_r. split; [exact S|]. split; [reflexivity|]. split; [reflexivity|]. split; [reflexivity|constructor].
  - apply Forall_cons_iff in Hl as [He Hl]. destruct (edit_kept R d t e S He) as (t1 & n1 & S1 & E1 & K1 & L1 & F1). destruct (IH _ t1 S1 Hl) as (t2 & n2 & S2 & E2 & K2 & L2 & F2). rewrite E1 in S2, E2.
    exists t2, (n1 ++ n2). split; [exact S2|]. split; [exact E2|]. split; [rewrite K2, K1; now rewrite app_assoc|]. split; [|now apply Forall_app]. rewrite app_length, L1, L2. cbn [filter]. destruct (is_save e); reflexivity.
Qed.
