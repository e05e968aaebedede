(** Sub-element properties, times, expiry, tags and auto-type settings. *)
From Coq Require Import ZifyBool ZifyNat ZifyN.
From Verif Require Import Base PyStr Xml Tree XPath Time Db XPath_facts FindSpec Find_facts ApiSpec Heap Uuid Api Prim Api_fields Codec_facts Kdbx_rt.

(** *** One child element per property *)
Lemma others_drop T c l : (forall k, In k l -> eid k = c -> etag k = T) -> filter (fun k => negb (str_eqb (etag k) T)) (drop c l) = filter (fun k => negb (str_eqb (etag k) T)) l.
Proof.
  intros H. unfold drop. induction l as [|x l IH]; [reflexivity|]. assert (IH' : forall k, In k l -> eid k = c -> etag k = T) by (intros; apply H; [now right|assumption]). specialize (IH IH').
  cbn [filter]. destruct (Nat.eqb_spec (eid x) c) as [E|E]; cbn [negb filter].
  - rewrite (H x (or_introl eq_refl) E), str_eqb_refl. exact IH.
  - rewrite IH. reflexivity.
Qed.
Lemma get_sub_run d t T : wf d -> has d t -> get_sub T (eid t) d = (Ok (first_text T t), d).
Proof. intros H Ht. unfold get_sub. rewrite (mbind_ok _ _ _ _ _ (the_run d (eid t) t H Ht eq_refl)). reflexivity. Qed.
Lemma other_kids_of T U t t' : T <> U -> other_kids T t' = other_kids T t -> kids_of U t' = kids_of U t.
Proof.
  intros N E. assert (G : forall x, kids_of U x = filter (fun k => str_eqb (etag k) U) (other_kids T x)).
  { intros x. unfold kids_of, other_kids. induction (ekids x) as [|k l IH]; [reflexivity|]. cbn [filter]. destruct (str_eqb (etag k) T) eqn:ET; cbn [negb filter].
    - apply str_eqb_eq in ET. destruct (str_eqb (etag k) U) eqn:EU; [apply str_eqb_eq in EU; congruence|]. exact IH.
    - destruct (str_eqb (etag k) U); now rewrite IH. }
  now rewrite !G, E.
Qed.
Lemma nodup_heads l : NoDup (map eid (flat_map everything l)) -> NoDup (map eid l).
Proof.
  induction l as [|k l IH]; [constructor|]. cbn [flat_map map]. rewrite map_app. intros H. constructor; [|apply IH; now apply NoDup_app_r in H].
  intros G. apply (NoDup_app_disj _ _ (eid k) H); [apply in_map, everything_self|]. apply in_map_iff in G as (c & <- & Hc). apply in_map. apply in_flat_map. exists c. split; [exact Hc|apply everything_self].
Qed.
Lemma kids_nodup F t : unique F -> In t (elements F) -> NoDup (map eid (ekids t)).
Proof.
  intros H Ht. apply focus in Ht as (K & ->). apply unique_plug, NoDup_app_l in H. rewrite cells_one in H. cbn [map] in H. apply NoDup_cons_iff in H as [_ H]. rewrite cells_ids in H. now apply nodup_heads.
Qed.
Lemma set_sub_step d t T : wf d -> has d t ->
  exists d1 k1, (do t <- the (eid t); match find1 T t with Some v => lx_remove (eid t) (eid v) | None => ret tt end) d = (Ok tt, d1) /\ rekids d d1 t k1 /\
    filter (fun k => negb (str_eqb (etag k) T)) k1 = other_kids T t /\ filter (fun k => str_eqb (etag k) T) k1 = tl (kids_of T t).
Proof.
  intros H Ht. rewrite (mbind_ok _ _ _ _ _ (the_run d (eid t) t H Ht eq_refl)). unfold find1. destruct (kids_of T t) as [|v l] eqn:E; cbn [hd_error tl].
  - exists d, (ekids t). split; [reflexivity|]. split; [now apply rekids_refl|]. split; [reflexivity|exact E].
  - assert (Hv : In v (ekids t) /\ etag v = T) by (assert (G : In v (kids_of T t)) by (rewrite E; now left); apply filter_In in G; rewrite str_eqb_eq in G; exact G). destruct Hv as [Hv Tv].
    destruct (remove_rekids d t (eid v) H Ht) as (d1 & E1 & K1 & _); [now apply in_map|]. exists d1, (drop (eid v) (ekids t)). split; [exact E1|]. split; [exact K1|].
    assert (I : forall k, In k (ekids t) -> eid k = eid v -> k = v) by (intros k Hk Ek; apply (unique_inj (d_forest d)); auto; [apply H|now apply (has_kid d t)|now apply (has_kid d t)]).
    split; [apply others_drop; intros k Hk Ek; now rewrite (I k Hk Ek)|]. rewrite drop_filter. unfold kids_of in E. rewrite E.
    assert (N : NoDup (map eid (v :: l))). { rewrite <- E. clear -H Ht. destruct H as (_ & Hu & _). pose proof (kids_nodup _ t Hu Ht) as ND. unfold kids_of. revert ND. induction (ekids t) as [|c k IH]; [constructor|]. cbn. intros ND. apply NoDup_cons_iff in ND as [N1 N2]. destruct (str_eqb (etag c) T); [|auto]. cbn. constructor; [|auto]. intros G. apply N1. apply in_map_iff in G as (z & <- & G). apply in_map. now apply filter_In in G. }
    unfold drop. cbn [filter]. rewrite Nat.eqb_refl. cbn [negb]. cbn [map] in N. apply NoDup_cons_iff in N as [N _]. clear -N. induction l as [|c l IH]; [reflexivity|]. cbn [filter]. destruct (Nat.eqb_spec (eid c) (eid v)) as [Ee|Ee]; [exfalso; apply N; rewrite <- Ee; now left|]. cbn [negb]. f_equal. apply IH. intros G. apply N. now right.
Qed.

Lemma set_sub_spec d t T v : wf d -> has d t -> text_ok v = true ->
  exists d' t' n, set_sub T (eid t) (Some v) d = (Ok tt, d') /\ resub d d' t t' T /\ kids_of T t' = tl (kids_of T t) ++ [n] /\ erase n = X T [] (Some v) [].
Proof.
  intros H Ht Hv. destruct (set_sub_step d t T H Ht) as (d1 & k1 & E1 & K1 & O1 & T1). pose proof K1 as (W1 & _ & _ & _ & H1 & _).
  destruct (append_new_rekids d1 (set_kids k1 t) (X T [] (Some v) []) W1 H1) as (n & d2 & E2 & En & Ex & K2 & _ & _). rewrite set_kids_eid in E2. rewrite set_kids_ekids in K2.
  pose proof (rekids_trans d d1 d2 t k1 _ K1 K2) as K. pose proof K as (W & _ & _ & _ & T' & _). exists d2, (set_kids (k1 ++ [n]) t), n.
  assert (Tn : etag n = T) by (apply erase_kids in Ex; tauto).
  assert (E : set_sub T (eid t) (Some v) d = (Ok tt, d2)).
  { unfold set_sub. rewrite (mbind_ok _ _ _ _ _ (the_run d (eid t) t H Ht eq_refl)) in E1. rewrite (mbind_ok _ _ _ _ _ (the_run d (eid t) t H Ht eq_refl)). rewrite (mbind_ok _ _ _ _ _ E1). unfold e_text. cbn [forallb]. rewrite Hv. unfold of_res, mbind at 1. rewrite (mbind_ok _ _ _ _ _ E2). reflexivity. }
  split; [exact E|]. split; [|split; [|exact Ex]].
  - split; [exact W|]. split; [exact T'|]. split; [apply set_kids_head|]. split; [|eapply rekids_only; eauto]. unfold other_kids at 1. rewrite set_kids_ekids, filter_app, O1. cbn [filter]. rewrite Tn, str_eqb_refl. cbn. apply app_nil_r.
  - rewrite kids_of_set, filter_app, T1. cbn [filter]. rewrite Tn, str_eqb_refl. reflexivity.
Qed.
Lemma set_sub_rejected d t T v : wf d -> has d t -> rejected v ->
  exists e d' t', set_sub T (eid t) v d = (Err e, d') /\ resub d d' t t' T /\ kids_of T t' = tl (kids_of T t).
Proof.
  intros H Ht Hv. destruct (set_sub_step d t T H Ht) as (d1 & k1 & E1 & K1 & O1 & T1). pose proof K1 as (W1 & _ & _ & _ & H1 & _).
  assert (exists e, e_text T [] v = Err e) as (e & Ee). { unfold e_text. cbn [forallb]. destruct v as [s|]; [cbn in Hv; rewrite Hv|]; eexists; reflexivity. }
  exists e, d1, (set_kids k1 t). split; [|split].
  - unfold set_sub. rewrite (mbind_ok _ _ _ _ _ (the_run d (eid t) t H Ht eq_refl)) in E1. rewrite (mbind_ok _ _ _ _ _ (the_run d (eid t) t H Ht eq_refl)). rewrite (mbind_ok _ _ _ _ _ E1), Ee. reflexivity.
  - split; [exact W1|]. split; [exact H1|]. split; [apply set_kids_head|]. split; [|eapply rekids_only; eauto]. unfold other_kids at 1. now rewrite set_kids_ekids.
  - rewrite kids_of_set. exact T1.
Qed.
Definition sub_set (d : db) (t : elem) (T v : str) (m : M unit) : Prop :=
  exists d' t', m d = (Ok tt, d') /\ resub d d' t t' T /\ at_most_one T t' /\ get_sub T (eid t) d' = (Ok (Some v), d') /\
    forall U, U <> T -> exists x, get_sub U (eid t) d = (Ok x, d) /\ get_sub U (eid t) d' = (Ok x, d').
Lemma set_sub_claim d t T v : wf d -> has d t -> text_ok v = true -> at_most_one T t -> sub_set d t T v (set_sub T (eid t) (Some v)).
Proof.
  intros H Ht Hv Ho. destruct (set_sub_spec d t T v H Ht Hv) as (d' & t' & n & E & S & Ek & Ex). exists d', t'. split; [exact E|]. split; [exact S|]. destruct S as (W & T' & (Eid & _) & Ok' & _).
  assert (tl (kids_of T t) = []) as Z by (unfold at_most_one in Ho; destruct (kids_of T t) as [|a [|b l]]; cbn in *; [reflexivity|reflexivity|lia]). rewrite Z in Ek. cbn [app] in Ek.
  split; [unfold at_most_one; rewrite Ek; cbn; lia|]. split.
  - rewrite <- Eid, (get_sub_run d' t' T W T'). unfold first_text, find1. rewrite Ek. cbn [hd_error]. apply erase_kids in Ex as (_ & _ & -> & _). reflexivity.
  - intros U N. exists (first_text U t). rewrite (get_sub_run d t U H Ht). split; [reflexivity|]. rewrite <- Eid, (get_sub_run d' t' U W T'). unfold first_text, find1. rewrite (other_kids_of T U t t') by (auto; congruence). reflexivity.
Qed.

(** *** Changing a text deep inside *)
Lemma upd_text_head i v t : eid (upd i (set_text v) t) = eid t /\ etag (upd i (set_text v) t) = etag t /\ eattrs (upd i (set_text v) t) = eattrs t.
Proof. destruct t as [j g a x k]. cbn. destruct (j =? i)%nat; repeat split. Qed.
Lemma upd_other i f t : eid t <> i -> etext (upd i f t) = etext t /\ ekids (upd i f t) = map (upd i f) (ekids t).
Proof. destruct t as [j g a x k]. cbn. intros N. destruct (Nat.eqb_spec j i); [congruence|]. split; reflexivity. Qed.
Lemma upd_text_kids_of i v t T : eid t <> i -> kids_of T (upd i (set_text v) t) = map (upd i (set_text v)) (kids_of T t).
Proof.
  intros N. unfold kids_of. rewrite (proj2 (upd_other i (set_text v) t N)). rewrite filter_map. f_equal. apply filter_ext_in'. intros k _. now rewrite (proj1 (proj2 (upd_text_head i v k))).
Qed.
Lemma find1_upd i v t T : eid t <> i -> find1 T (upd i (set_text v) t) = option_map (upd i (set_text v)) (find1 T t).
Proof. intros N. unfold find1. rewrite upd_text_kids_of by exact N. apply hd_map. Qed.
Lemma retext_tree d d' p v : wf d -> has d p -> retext d d' p v -> forall u, has d u -> has d' (upd (eid p) (set_text v) u).
Proof.
  intros H Hp (W & _ & _ & _ & T & L). induction u as [j g a x k IH] using elem_ind'. intros Hu. destruct (Nat.eq_dec j (eid p)) as [E|N].
  - assert (El j g a x k = p) as -> by (apply (unique_inj (d_forest d)); auto; apply H). rewrite upd_here by reflexivity. exact T.
  - cbn [upd]. destruct (Nat.eqb_spec j (eid p)) as [E|_]; [congruence|]. assert (Lj : lk d' j = Some (Row g a x (map eid k))) by (rewrite L by exact N; exact (look_self _ (El j g a x k) (wf_unique d H) Hu)).
    apply (look_build (d_forest d') j _ (map (upd (eid p) (set_text v)) k) (wf_unique d' W) Lj).
    + cbn. rewrite map_map. apply map_ext. intros c. apply upd_text_head.
    + intros c Hc. apply in_map_iff in Hc as (c0 & <- & Hc). rewrite Forall_forall in IH. apply IH; [exact Hc|]. now apply (has_kid d (El j g a x k)).
Qed.
Lemma retext_only d d' p v : retext d d' p v -> only [eid p] d d'.
Proof.
  intros (W & (M1 & M2 & M3) & N & R & _ & L). split; [exact M1|]. split; [exact M2|]. split; [exact M3|]. split; [lia|]. split; [now rewrite R|].
  intros j r E Hj. rewrite L; [exact E|]. intros ->. apply Hj. now left.
Qed.

(** *** Times *)
Lemma encode_text_ok b t s : encode_time b t = Ok s -> text_ok s = true.
Proof.
  unfold encode_time. destruct b.
  - destruct (instant t) as [i|]; [|discriminate]. intros E. apply bind_ok in E as (x & E & E2). injection E2 as <-. apply b64_text_ok. unfold pack_Q in E. destruct (_ && _); [|discriminate]. assert (x = le_enc 8 (Z.to_N (total_seconds_int i))) as -> by congruence. apply le_enc_ok.
  - intros E. injection E as <-. assert (D : forall k n, text_ok (digs k n) = true) by (intros k n; eapply forallb_impl; [|apply digs_chars]; intros a; unfold is_digit, xml_char; lia).
    unfold isoformat, off_part, off_text, zdigs, text_ok in *. destruct (dus t =? 0)%Z, (doff t) as [o|]; [destruct (o <? 0)%Z| |destruct (o <? 0)%Z|]; rewrite ?forallb_app, ?D; reflexivity.
Qed.
Lemma slot_facts d t name p : wf d -> has d t -> time_slot name t = Some p ->
  exists ts, find1 $"Times" t = Some ts /\ find1 name ts = Some p /\ has d ts /\ has d p /\ etag p = name /\ eid p <> eid t /\ eid p <> eid ts.
Proof.
  intros H Ht. unfold time_slot. destruct (find1 $"Times" t) as [ts|] eqn:E1; [|discriminate]. intros E2. exists ts. split; [reflexivity|]. split; [exact E2|].
  assert (H1 : In ts (ekids t)) by (unfold find1 in E1; destruct (kids_of $"Times" t) as [|a l] eqn:E; [discriminate|]; injection E1 as <-; assert (G : In a (kids_of $"Times" t)) by (rewrite E; now left); apply filter_In in G; tauto).
  assert (H2 : In p (ekids ts) /\ etag p = name) by (unfold find1 in E2; destruct (kids_of name ts) as [|a l] eqn:E; [discriminate|]; injection E2 as <-; assert (G : In a (kids_of name ts)) by (rewrite E; now left); apply filter_In in G; rewrite str_eqb_eq in G; exact G). destruct H2 as [H2 T2].
  pose proof (has_kid d t ts Ht H1) as Hs. pose proof (has_kid d ts p Hs H2) as Hp. split; [exact Hs|]. split; [exact Hp|]. split; [exact T2|]. split.
  - intros E. apply (kid_apart d t ts H Ht H1). rewrite <- E. apply ids_In. now apply everything_kid.
  - intros E. apply (kid_apart d ts p H Hs H2). rewrite <- E. apply ids_In, everything_self.
Qed.
Lemma time_slot_upd d t name p v q : wf d -> has d t -> time_slot name t = Some p ->
  time_slot q (upd (eid p) (set_text v) t) = option_map (upd (eid p) (set_text v)) (time_slot q t).
Proof.
  intros H Ht Hp. destruct (slot_facts d t name p H Ht Hp) as (ts & E1 & E2 & Hs & Hp' & _ & N1 & N2). unfold time_slot. rewrite find1_upd by congruence. rewrite E1. cbn [option_map]. apply find1_upd. congruence.
Qed.
Lemma get_time_run d t name : wf d -> has d t ->
  get_time name (eid t) d = ((match time_slot name t with Some p => match etext p with Some s => let* v := decode_time (v4 d) s in Ok (Some v) | None => Ok None end | None => Ok None end), d).
Proof.
  intros H Ht. unfold get_time, time_slot. rewrite (mbind_ok _ _ _ _ _ (the_run d (eid t) t H Ht eq_refl)). destruct (find1 $"Times" t) as [ts|]; [|reflexivity]. destruct (find1 name ts) as [p|]; [|reflexivity]. destruct (etext p) as [s|]; [|reflexivity]. unfold decode_t, lift, mbind, bind. destruct (decode_time (v4 d) s); reflexivity.
Qed.
Lemma set_time_run d t name p v s : wf d -> has d t -> time_slot name t = Some p -> encode_time (v4 d) v = Ok s ->
  exists d', set_time name (eid t) v d = (Ok tt, d') /\ retext d d' p (Some s).
Proof.
  intros H Ht Hp Es. destruct (slot_facts d t name p H Ht Hp) as (ts & E1 & E2 & Hs & Hp' & _). unfold set_time. rewrite (mbind_ok _ _ _ _ _ (the_run d (eid t) t H Ht eq_refl)), E1, E2.
  rewrite (mbind_ok (encode_t v) _ d s d) by (unfold encode_t, lift; now rewrite Es). apply set_text_retext; auto. cbn. exact (encode_text_ok _ _ _ Es).
Qed.
Lemma upd_away i v t : eid t <> i -> etext (upd i (set_text v) t) = etext t. Proof. intros N. apply (upd_other i (set_text v) t N). Qed.
Lemma retext_v4 d d' p v : retext d d' p v -> v4 d' = v4 d. Proof. intros (_ & M & _). now apply meta_v4. Qed.
Lemma time_name_inj p q : time_name p = time_name q -> p = q. Proof. destruct p, q; try reflexivity; intros E; vm_compute in E; discriminate. Qed.
Lemma get_timeprop_name p i : get_timeprop p i = get_time (time_name p) i. Proof. destruct p; reflexivity. Qed.
Lemma set_timeprop_name p i v : set_timeprop p i v = set_time (time_name p) i v. Proof. destruct p; reflexivity. Qed.
(** After a text change inside [t]: the other times and everything outside Times read the same. *)
Lemma retext_time d d' t name p v q : wf d -> has d t -> time_slot name t = Some p -> retext d d' p v -> q <> name ->
  get_time q (eid t) d' = (fst (get_time q (eid t) d), d').
Proof.
  intros H Ht Hp Hr N. destruct (slot_facts d t name p H Ht Hp) as (ts & E1 & E2 & Hs & Hp' & Tp & N1 & N2). pose proof (retext_tree d d' p v H Hp' Hr t Ht) as Ht'. pose proof Hr as (W & _).
  assert (Ee : eid (upd (eid p) (set_text v) t) = eid t) by apply upd_text_head. rewrite <- Ee at 1. rewrite (get_time_run d' _ q W Ht'), (get_time_run d t q H Ht). cbn [fst]. rewrite (retext_v4 _ _ _ _ Hr), (time_slot_upd d t name p v q H Ht Hp).
  destruct (time_slot q t) as [c|] eqn:Eq; [|reflexivity]. cbn [option_map]. destruct (slot_facts d t q c H Ht Eq) as (ts' & _ & _ & _ & Hc & Tc & _).
  assert (etext (upd (eid p) (set_text v) c) = etext c) as ->; [|reflexivity]. apply upd_away. intros E. assert (c = p) by (apply (unique_inj (d_forest d)); auto; apply H). congruence.
Qed.
Lemma retext_same d d' t name p s : wf d -> has d t -> time_slot name t = Some p -> retext d d' p (Some s) ->
  get_time name (eid t) d' = ((let* x := decode_time (v4 d) s in Ok (Some x)), d').
Proof.
  intros H Ht Hp Hr. destruct (slot_facts d t name p H Ht Hp) as (ts & E1 & E2 & Hs & Hp' & Tp & N1 & N2). pose proof (retext_tree d d' p (Some s) H Hp' Hr t Ht) as Ht'. pose proof Hr as (W & _).
  assert (Ee : eid (upd (eid p) (set_text (Some s)) t) = eid t) by apply upd_text_head. rewrite <- Ee. rewrite (get_time_run d' _ name W Ht'), (retext_v4 _ _ _ _ Hr), (time_slot_upd d t name p _ name H Ht Hp), Hp. cbn [option_map]. rewrite upd_here by reflexivity. destruct p; reflexivity.
Qed.
Lemma retext_texts d d' p v : retext d d' p v -> has d p -> wf d -> only_texts [p] d d'.
Proof.
  intros Hr Hp H. pose proof (retext_only _ _ _ _ Hr) as Ho. destruct Hr as (W & _ & N & R & T & L). split; [exact Ho|]. split; [exact R|]. split; [exact N|].
  intros q [<-|[]]. exists v. pose proof (look_self (d_forest d') (set_text v p) (wf_unique _ W) T) as G. destruct p; exact G.
Qed.
Lemma set_time_claim d t tp p v s x : wf d -> has d t -> time_slot (time_name tp) t = Some p -> encode_time (v4 d) v = Ok s -> decode_time (v4 d) s = Ok x ->
  exists d', set_timeprop tp (eid t) v d = (Ok tt, d') /\ wf d' /\ only_texts [p] d d' /\ get_timeprop tp (eid t) d' = (Ok (Some x), d') /\
    forall tq, tq <> tp -> get_timeprop tq (eid t) d' = (fst (get_timeprop tq (eid t) d), d').
Proof.
  intros H Ht Hp Es Ed. rewrite set_timeprop_name. destruct (set_time_run d t _ p v s H Ht Hp Es) as (d' & E & Hr). exists d'. split; [exact E|]. split; [apply Hr|]. destruct (slot_facts d t _ p H Ht Hp) as (_ & _ & _ & _ & Hp' & _).
  split; [now apply (retext_texts d d' p (Some s))|]. split.
  - rewrite get_timeprop_name, (retext_same d d' t _ p s H Ht Hp Hr), Ed. reflexivity.
  - intros tq N. rewrite !get_timeprop_name. apply (retext_time d d' t (time_name tp) p (Some s)); auto. intros E'. apply N. now apply time_name_inj.
Qed.

(** *** touch *)
Lemma retext_row d d' p v m : wf d -> has d p -> retext d d' p v -> has d m -> row_of (upd (eid p) (set_text v) m) = (if (eid m =? eid p)%nat then with_text v (row_of m) else row_of m).
Proof.
  intros H Hp Hr Hm. destruct m as [j g a x k]. cbn. destruct (Nat.eqb_spec j (eid p)); [reflexivity|]. unfold row_of. cbn. f_equal. rewrite map_map. apply map_ext. intros c. apply upd_text_head.
Qed.
Lemma touch_claim C d t a s x : wf d -> has d t -> time_slot $"LastAccessTime" t = Some a -> encode_time (v4 d) (now C) = Ok s -> decode_time (v4 d) s = Ok x ->
  exists d', touch C false (eid t) d = (Ok tt, d') /\ wf d' /\ only_texts [a] d d' /\ get_timeprop T_atime (eid t) d' = (Ok (Some x), d') /\
    forall q, q <> T_atime -> get_timeprop q (eid t) d' = (fst (get_timeprop q (eid t) d), d').
Proof.
  intros H Ht Ha Es Ed. destruct (set_time_claim d t T_atime a (now C) s x H Ht Ha Es Ed) as (d' & E & G). exists d'. split; [|exact G]. unfold touch. rewrite (mbind_ok _ _ _ _ _ E). reflexivity.
Qed.
Lemma touch_modify_claim C d t a m s x : wf d -> has d t -> time_slot $"LastAccessTime" t = Some a -> time_slot $"LastModificationTime" t = Some m ->
  encode_time (v4 d) (now C) = Ok s -> decode_time (v4 d) s = Ok x ->
  exists d', touch C true (eid t) d = (Ok tt, d') /\ wf d' /\ only_texts [a; m] d d' /\ get_timeprop T_atime (eid t) d' = (Ok (Some x), d') /\ get_timeprop T_mtime (eid t) d' = (Ok (Some x), d') /\
    forall q, q <> T_atime -> q <> T_mtime -> get_timeprop q (eid t) d' = (fst (get_timeprop q (eid t) d), d').
Proof.
  intros H Ht Ha Hm Es Ed. destruct (set_time_run d t _ a (now C) s H Ht Ha Es) as (d1 & E1 & R1). destruct (slot_facts d t _ a H Ht Ha) as (_ & _ & _ & _ & Ha' & Ta & _). destruct (slot_facts d t _ m H Ht Hm) as (_ & _ & _ & _ & Hm' & Tm & _).
  pose proof (retext_tree d d1 a _ H Ha' R1) as TR. pose proof (TR t Ht) as Ht1. pose proof R1 as (W1 & _). set (t1 := upd (eid a) (set_text (Some s)) t) in *. set (m1 := upd (eid a) (set_text (Some s)) m).
  assert (Hm1 : time_slot $"LastModificationTime" t1 = Some m1) by (unfold t1; rewrite (time_slot_upd d t _ a _ _ H Ht Ha), Hm; reflexivity). assert (Et : eid t1 = eid t) by apply upd_text_head. assert (Em : eid m1 = eid m) by apply upd_text_head.
  pose proof (retext_v4 _ _ _ _ R1) as V1. rewrite <- V1 in Es, Ed. destruct (set_time_run d1 t1 _ m1 (now C) s W1 Ht1 Hm1 Es) as (d2 & E2 & R2). pose proof R2 as (W2 & _). rewrite Et in E2. exists d2.
  assert (NE : eid m <> eid a) by (intros G; assert (m = a) by (apply (unique_inj (d_forest d)); auto; apply H); subst; rewrite Ta in Tm; vm_compute in Tm; discriminate).
  split; [unfold touch; cbn [set_timeprop]; rewrite (mbind_ok _ _ _ _ _ E1); exact E2|]. split; [exact W2|]. split; [|split; [|split]].
  - pose proof (retext_only _ _ _ _ R1) as (A1 & A2 & A3 & A4 & A5 & A6). pose proof (retext_only _ _ _ _ R2) as (B1 & B2 & B3 & B4 & B5 & B6). pose proof R1 as (_ & _ & N1 & Q1 & T1 & L1). pose proof R2 as (_ & _ & N2 & Q2 & T2 & L2). split; [|split; [congruence|split; [congruence|]]].
    + split; [congruence|]. split; [congruence|]. split; [congruence|]. split; [lia|]. split; [congruence|]. intros j r Ej Hj. cbn [map In] in *. rewrite L2, L1; [exact Ej| |]; intros G; apply Hj; [left|right; left]; congruence.
    + intros q [<-|[<-|[]]].
      * exists (Some s). rewrite L2 by congruence. pose proof (look_self (d_forest d1) _ (wf_unique _ W1) T1) as G. destruct a; exact G.
      * exists (Some s). pose proof (look_self (d_forest d2) _ (wf_unique _ W2) T2) as G. assert (eid (set_text (Some s) m1) = eid m) as E by (rewrite <- Em; now destruct m1). rewrite E in G. rewrite G. f_equal. replace (row_of (set_text (Some s) m1)) with (with_text (Some s) (row_of m1)) by now destruct m1. unfold m1. rewrite (retext_row d d1 a _ m H Ha' R1 Hm'). destruct (Nat.eqb_spec (eid m) (eid a)); [congruence|reflexivity].
  - cbn [get_timeprop]. rewrite <- Et, (retext_time d1 d2 t1 _ m1 _ $"LastAccessTime" W1 Ht1 Hm1 R2) by (vm_compute; discriminate). rewrite Et, (retext_same d d1 t _ a s H Ht Ha R1). rewrite <- V1, Ed. reflexivity.
  - cbn [get_timeprop]. rewrite <- Et, (retext_same d1 d2 t1 _ m1 s W1 Ht1 Hm1 R2), Ed. reflexivity.
  - intros q N1 N2. rewrite !get_timeprop_name. rewrite <- Et at 1. rewrite (retext_time d1 d2 t1 _ m1 _ (time_name q) W1 Ht1 Hm1 R2) by (intros G; apply N2; now apply time_name_inj).
    rewrite Et, (retext_time d d1 t _ a _ (time_name q) H Ht Ha R1) by (intros G; apply N1; now apply time_name_inj). reflexivity.
Qed.

(** *** expires, expired *)
Lemma expires_run d t p : wf d -> has d t -> time_slot $"Expires" t = Some p -> expires_elem (eid t) d = (Ok p, d).
Proof. intros H Ht Hp. unfold expires_elem. rewrite (mbind_ok _ _ _ _ _ (the_run d (eid t) t H Ht eq_refl)). unfold time_slot in Hp. destruct (find1 $"Times" t) as [ts|]; [|discriminate]. rewrite Hp. reflexivity. Qed.
Lemma get_expires_run d t p : wf d -> has d t -> time_slot $"Expires" t = Some p -> get_expires (eid t) d = (Ok (option_map (fun s => str_eqb s $"True") (etext p)), d).
Proof. intros H Ht Hp. unfold get_expires. rewrite (mbind_ok _ _ _ _ _ (expires_run d t p H Ht Hp)). reflexivity. Qed.
Lemma set_expires_run d t p (b : bool) : wf d -> has d t -> time_slot $"Expires" t = Some p ->
  exists d', set_expires (eid t) b d = (Ok tt, d') /\ retext d d' p (Some (if b then $"True" else $"False")).
Proof.
  intros H Ht Hp. unfold set_expires. rewrite (mbind_ok _ _ _ _ _ (expires_run d t p H Ht Hp)). destruct (slot_facts d t _ p H Ht Hp) as (_ & _ & _ & _ & Hp' & _). apply set_text_retext; auto. destruct b; reflexivity.
Qed.
Lemma retext_expires d d' t p (b : bool) : wf d -> has d t -> time_slot $"Expires" t = Some p -> retext d d' p (Some (if b then $"True" else $"False")) -> get_expires (eid t) d' = (Ok (Some b), d').
Proof.
  intros H Ht Hp Hr. destruct (slot_facts d t _ p H Ht Hp) as (_ & _ & _ & _ & Hp' & _). pose proof (retext_tree d d' p _ H Hp' Hr t Ht) as Ht'. pose proof Hr as (W & _).
  match type of Ht' with has d' (upd _ (set_text ?v) _) => assert (Ee : eid (upd (eid p) (set_text v) t) = eid t) by apply upd_text_head; assert (Es : time_slot $"Expires" (upd (eid p) (set_text v) t) = Some (set_text v p)) by (rewrite (time_slot_upd d t _ p _ _ H Ht Hp), Hp; cbn [option_map]; now rewrite upd_here) end.
  rewrite <- Ee, (get_expires_run d' _ _ W Ht' Es). destruct p; cbn. destruct b; reflexivity.
Qed.
Lemma set_expires_claim d t p b : wf d -> has d t -> time_slot $"Expires" t = Some p ->
  exists d', set_expires (eid t) b d = (Ok tt, d') /\ wf d' /\ only_texts [p] d d' /\ get_expires (eid t) d' = (Ok (Some b), d') /\
    forall q, get_timeprop q (eid t) d' = (fst (get_timeprop q (eid t) d), d').
Proof.
  intros H Ht Hp. destruct (set_expires_run d t p b H Ht Hp) as (d' & E & Hr). destruct (slot_facts d t _ p H Ht Hp) as (_ & _ & _ & _ & Hp' & _). exists d'. split; [exact E|]. split; [apply Hr|]. split; [now apply (retext_texts d d' p _ Hr)|]. split.
  - now apply (retext_expires d d' t p b).
  - intros q. rewrite !get_timeprop_name. apply (retext_time d d' t _ p _ _ H Ht Hp Hr). destruct q; vm_compute; discriminate.
Qed.
Lemma expired_not C d t p : wf d -> has d t -> time_slot $"Expires" t = Some p -> etext p <> Some $"True" -> expired C (eid t) d = (Ok false, d).
Proof.
  intros H Ht Hp N. unfold expired. rewrite (mbind_ok _ _ _ _ _ (get_expires_run d t p H Ht Hp)). destruct (etext p) as [s|]; [|reflexivity]. cbn [option_map]. destruct (str_eqb s $"True") eqn:E; [apply str_eqb_eq in E; congruence|reflexivity].
Qed.
Lemma expired_run C d t p q s x a b : wf d -> has d t -> time_slot $"Expires" t = Some p -> etext p = Some $"True" -> time_slot $"ExpiryTime" t = Some q -> etext q = Some s ->
  decode_time (v4 d) s = Ok x -> instant (now C) = Some a -> instant x = Some b -> expired C (eid t) d = (Ok (b <? a)%Z, d).
Proof.
  intros H Ht Hp Ep Hq Eq Ed Ea Eb. unfold expired. rewrite (mbind_ok _ _ _ _ _ (get_expires_run d t p H Ht Hp)), Ep. cbn [option_map]. rewrite str_eqb_refl. cbn [get_timeprop].
  rewrite (mbind_ok _ _ _ (Some x) d) by (rewrite (get_time_run d t _ H Ht), Hq, Eq; cbn [bind]; rewrite Ed; reflexivity). rewrite Ea, Eb. reflexivity.
Qed.
(** Setting expires and the expiry time decides expired. *)
Lemma expired_after C d t p q v s x a b : wf d -> has d t -> time_slot $"Expires" t = Some p -> time_slot $"ExpiryTime" t = Some q ->
  encode_time (v4 d) v = Ok s -> decode_time (v4 d) s = Ok x -> instant (now C) = Some a -> instant x = Some b ->
  exists d', (do _ <- set_expires (eid t) true; set_timeprop T_expiry (eid t) v) d = (Ok tt, d') /\ expired C (eid t) d' = (Ok (b <? a)%Z, d').
Proof.
  intros H Ht Hp Hq Es Ed Ea Eb. destruct (set_expires_run d t p true H Ht Hp) as (d1 & E1 & R1). destruct (slot_facts d t _ p H Ht Hp) as (_ & _ & _ & _ & Hp' & Tp & _). destruct (slot_facts d t _ q H Ht Hq) as (_ & _ & _ & _ & Hq' & Tq & _).
  pose proof (retext_tree d d1 p _ H Hp' R1 t Ht) as Ht1. cbn [negb] in *. pose proof R1 as (W1 & _). pose proof (retext_v4 _ _ _ _ R1) as V1. set (f := set_text (Some $"True")) in *. set (t1 := upd (eid p) f t) in *.
  assert (Et : eid t1 = eid t) by apply upd_text_head. assert (Hq1 : time_slot $"ExpiryTime" t1 = Some (upd (eid p) f q)) by (unfold t1, f; rewrite (time_slot_upd d t _ p _ _ H Ht Hp), Hq; reflexivity). assert (Hp1 : time_slot $"Expires" t1 = Some (f p)) by (unfold t1, f; rewrite (time_slot_upd d t _ p _ _ H Ht Hp), Hp; cbn [option_map]; now rewrite upd_here).
  rewrite <- V1 in Es, Ed. destruct (set_time_run d1 t1 _ _ v s W1 Ht1 Hq1 Es) as (d2 & E2 & R2). rewrite Et in E2. exists d2. split; [rewrite (mbind_ok _ _ _ _ _ E1); exact E2|].
  destruct (slot_facts d1 t1 _ _ W1 Ht1 Hq1) as (_ & _ & _ & _ & Hq1' & _). destruct (slot_facts d1 t1 _ _ W1 Ht1 Hp1) as (_ & _ & _ & _ & Hp1' & _). pose proof (retext_tree d1 d2 _ _ W1 Hq1' R2 t1 Ht1) as Ht2. pose proof R2 as (W2 & _).
  set (q1 := upd (eid p) f q) in *. set (t2 := upd (eid q1) (set_text (Some s)) t1) in *. assert (Et2 : eid t2 = eid t1) by apply upd_text_head. rewrite <- Et, <- Et2.
  assert (Nq : eid (f p) <> eid q1). { intros G. assert (Eq' : f p = q1) by (apply (unique_inj (d_forest d1)); auto; apply W1). assert (etag (f p) = etag q1) as G2 by now rewrite Eq'. unfold q1, f in G2. rewrite (proj1 (proj2 (upd_text_head (eid p) _ q))) in G2. assert (etag (set_text (Some $"True") p) = etag p) as G3 by now destruct p. rewrite G3, Tp, Tq in G2. vm_compute in G2. discriminate. }
  apply (expired_run C d2 t2 (upd (eid q1) (set_text (Some s)) (f p)) (set_text (Some s) q1) s x); auto.
  - unfold t2. rewrite (time_slot_upd d1 t1 _ q1 _ _ W1 Ht1 Hq1), Hp1. reflexivity.
  - rewrite upd_away by exact Nq. unfold f. now destruct p.
  - unfold t2. rewrite (time_slot_upd d1 t1 _ q1 _ _ W1 Ht1 Hq1), Hq1. cbn [option_map]. now rewrite upd_here.
  - now destruct q1.
  - rewrite (retext_v4 _ _ _ _ R2). exact Ed.
Qed.

(** *** Tags *)
Lemma join_chars sep l c : In c (py_join sep l) -> In c sep \/ exists g, In g l /\ In c g.
Proof.
  induction l as [|a l IH]; [intros []|]. destruct l as [|b l]; [intros H; right; exists a; split; [now left|exact H]|]. change (py_join sep (a :: b :: l)) with (a ++ sep ++ py_join sep (b :: l)). rewrite !in_app_iff. intros [H|[H|H]]; [right; exists a; split; [now left|exact H]|now left|]. destruct (IH H) as [G|(g & Hg & G)]; [now left|right; exists g; split; [now right|exact G]].
Qed.
Lemma single_in c s : substr_in [c] s = true -> In c s.
Proof. induction s as [|b s IH]; [cbn; discriminate|]. cbn [substr_in starts_with]. rewrite orb_true_iff. intros [H|H]; [left; rewrite andb_true_r in H; symmetry; now apply N.eqb_eq|right; auto]. Qed.
Lemma tags_back l : l <> [[]] -> Forall tag_ok l -> (match py_join $";" l with [] => [] | c :: s => py_split 59 (py_replace $"," $";" (c :: s)) end) = l.
Proof.
  intros N H. destruct l as [|g l]; [reflexivity|]. set (J := py_join $";" (g :: l)).
  assert (EJ : py_split 59 (py_replace $"," $";" J) = g :: l).
  { rewrite py_replace_absent; [|discriminate|].
    - apply (py_split_join 59); [discriminate|]. rewrite Forall_forall in *. intros t Ht. destruct (H t Ht) as (_ & G & _). apply forallb_forall. intros c Hc. apply negb_true_iff, N.eqb_neq. intros ->. auto.
    - destruct (substr_in $"," J) eqn:E; [|reflexivity]. apply single_in in E. apply join_chars in E as [[E|[]]|(t & Ht & E)]; [discriminate|]. rewrite Forall_forall in H. destruct (H t Ht) as (G & _). contradiction. }
  destruct J as [|c s] eqn:E; [|exact EJ]. unfold J in E. destruct l as [|b l]; [cbn in E; congruence|]. change (py_join $";" (g :: b :: l)) with (g ++ $";" ++ py_join $";" (b :: l)) in E. destruct g; discriminate.
Qed.
Lemma join_ok l : Forall tag_ok l -> text_ok (py_join $";" l) = true.
Proof.
  intros H. apply forallb_forall. intros c Hc. apply join_chars in Hc as [[<-|[]]|(g & Hg & Hc)]; [reflexivity|]. rewrite Forall_forall in H. destruct (H g Hg) as (_ & _ & G). unfold text_ok in G. rewrite forallb_forall in G. auto.
Qed.
Lemma set_tags_claim d t l : wf d -> has d t -> at_most_one $"Tags" t -> l <> [[]] -> Forall tag_ok l ->
  exists d' t', set_tags (eid t) l d = (Ok tt, d') /\ resub d d' t t' $"Tags" /\ get_tags (eid t) d' = (Ok l, d').
Proof.
  intros H Ht Ho N Hl. destruct (set_sub_claim d t $"Tags" (py_join $";" l) H Ht (join_ok l Hl) Ho) as (d' & t' & E & S & _ & G & _). exists d', t'. split; [exact E|]. split; [exact S|]. unfold get_tags. rewrite (mbind_ok _ _ _ _ _ G). unfold ret. rewrite <- (tags_back l N Hl) at 2. destruct (py_join $";" l); reflexivity.
Qed.

(** *** Auto-type *)
Lemma flat_kids_upd i v T l : (forall k, In k l -> eid k <> i) -> flat_map (kids_of T) (map (upd i (set_text v)) l) = map (upd i (set_text v)) (flat_map (kids_of T) l).
Proof.
  induction l as [|k l IH]; intros H; [reflexivity|]. cbn [map flat_map]. rewrite map_app, IH by (intros; apply H; now right). f_equal. apply upd_text_kids_of. apply H. now left.
Qed.
Definition desc (p t : elem) : Prop := exists k, In k (ekids t) /\ In p (everything k).
Lemma desc_apart d t p : wf d -> has d t -> desc p t -> has d p /\ eid p <> eid t.
Proof.
  intros H Ht (k & Hk & Hp). split; [apply (elements_sub _ k); [now apply (has_kid d t)|exact Hp]|]. intros E. apply (kid_apart d t k H Ht Hk). rewrite <- E. now apply ids_In.
Qed.
Lemma kids_of_In T t k : In k (kids_of T t) -> In k (ekids t) /\ etag k = T. Proof. intros H. apply filter_In in H. rewrite str_eqb_eq in H. exact H. Qed.
Lemma hd_In {A} (l : list A) x : hd_error l = Some x -> In x l. Proof. destruct l; [discriminate|]. intros [= ->]. now left. Qed.
Lemma find_2_In a b t p : find_2 a b t = Some p -> desc p t /\ etag p = b.
Proof. intros H. apply hd_In in H. apply in_flat_map in H as (c & Hc & Hp). apply kids_of_In in Hc, Hp. split; [|tauto]. exists c. split; [tauto|]. now apply everything_kid. Qed.
Lemma find_3_In a b c t p : find_3 a b c t = Some p -> desc p t /\ etag p = c.
Proof.
  intros H. apply hd_In in H. apply in_flat_map in H as (e & He & Hp). apply in_flat_map in He as (f & Hf & He). apply kids_of_In in Hf, He, Hp. split; [|tauto]. exists f. split; [tauto|]. apply (everything_sub f e); now apply everything_kid.
Qed.
Lemma find_2_upd d t p v a b : wf d -> has d t -> desc p t -> etag p <> a -> find_2 a b (upd (eid p) (set_text v) t) = option_map (upd (eid p) (set_text v)) (find_2 a b t).
Proof.
  intros H Ht Hp N. destruct (desc_apart d t p H Ht Hp) as [Hh Ne]. unfold find_2. rewrite upd_text_kids_of by congruence. rewrite flat_kids_upd; [apply hd_map|]. intros k Hk E. apply kids_of_In in Hk as [Hk Tk]. assert (k = p) by (apply (unique_inj (d_forest d)); auto; [apply H|now apply (has_kid d t)]). congruence.
Qed.
Lemma find_3_upd d t p v a b c : wf d -> has d t -> desc p t -> etag p <> a -> etag p <> b -> find_3 a b c (upd (eid p) (set_text v) t) = option_map (upd (eid p) (set_text v)) (find_3 a b c t).
Proof.
  intros H Ht Hp Na Nb. destruct (desc_apart d t p H Ht Hp) as [Hh Ne]. unfold find_3. rewrite upd_text_kids_of by congruence. rewrite flat_kids_upd.
  - rewrite flat_kids_upd; [apply hd_map|]. intros k Hk E. apply in_flat_map in Hk as (e & He & Hk). apply kids_of_In in He as [He _]. apply kids_of_In in Hk as [Hk Tk]. assert (k = p) by (apply (unique_inj (d_forest d)); auto; [apply H|apply (has_kid d e); [now apply (has_kid d t)|exact Hk]]). congruence.
  - intros k Hk E. apply kids_of_In in Hk as [Hk Tk]. assert (k = p) by (apply (unique_inj (d_forest d)); auto; [apply H|now apply (has_kid d t)]). congruence.
Qed.
Definition at_slot (n : nat) (t : elem) : option elem :=
  match n with O => find_2 $"AutoType" $"Enabled" t | S O => find_2 $"AutoType" $"DefaultSequence" t | _ => find_3 $"AutoType" $"Association" $"Window" t end.
Definition at_tag (n : nat) : str := match n with O => $"Enabled" | S O => $"DefaultSequence" | _ => $"Window" end.
Lemma at_slot_In n t p : at_slot n t = Some p -> desc p t /\ etag p = at_tag n.
Proof. destruct n as [|[|n]]; [apply find_2_In|apply find_2_In|apply find_3_In]. Qed.
Lemma at_slot_upd d t n m p v : wf d -> has d t -> at_slot n t = Some p -> at_slot m (upd (eid p) (set_text v) t) = option_map (upd (eid p) (set_text v)) (at_slot m t).
Proof.
  intros H Ht Hp. apply at_slot_In in Hp as [Hd Tp]. assert (N1 : etag p <> $"AutoType") by (rewrite Tp; destruct n as [|[|n]]; vm_compute; discriminate). assert (N2 : etag p <> $"Association") by (rewrite Tp; destruct n as [|[|n]]; vm_compute; discriminate).
  destruct m as [|[|m]]; cbn [at_slot]; [apply (find_2_upd d)|apply (find_2_upd d)|apply (find_3_upd d)]; auto.
Qed.
(** The text of slot [m] after the text of slot [n] became [v]. *)
Lemma at_text d d' t n m p v : wf d -> has d t -> at_slot n t = Some p -> retext d d' p v -> (m < 3)%nat -> (n < 3)%nat ->
  exists t', has d' t' /\ eid t' = eid t /\ option_map etext (at_slot m t') = if (m =? n)%nat then Some v else option_map etext (at_slot m t).
Proof.
  intros H Ht Hp Hr Lm Ln. pose proof (at_slot_In _ _ _ Hp) as [Hd Tp]. destruct (desc_apart d t p H Ht Hd) as [Hh Ne]. exists (upd (eid p) (set_text v) t). split; [now apply (retext_tree d d' p v)|]. split; [apply upd_text_head|].
  rewrite (at_slot_upd d t n m p v H Ht Hp). destruct (Nat.eqb_spec m n) as [->|N].
  - rewrite Hp. cbn [option_map]. rewrite upd_here by reflexivity. now destruct p.
  - destruct (at_slot m t) as [c|] eqn:Ec; [|reflexivity]. cbn [option_map]. f_equal. apply upd_away. apply at_slot_In in Ec as [Hc Tc]. destruct (desc_apart d t c H Ht Hc) as [Hc' _]. intros E. assert (c = p) by (apply (unique_inj (d_forest d)); auto; apply H). subst c. rewrite Tp in Tc. clear -Tc N Lm Ln. destruct n as [|[|[|n]]], m as [|[|[|m]]]; try lia; vm_compute in Tc; discriminate.
Qed.
(** The three getters, from the texts of the slots. *)
Definition at_reads (d : db) (i : nat) (e s w : option (option str)) : Prop :=
  get_autotype_enabled i d = (match e with Some e => Ok (option_map (fun s => str_eqb s $"True") e) | None => Err Ex_Attribute end, d) /\
  get_autotype_sequence i d = (Ok (match s with Some s => blank_none s | None => None end), d) /\
  get_autotype_window i d = (Ok (match w with Some w => blank_none w | None => None end), d).
Lemma at_reads_run d t : wf d -> has d t -> at_reads d (eid t) (option_map etext (at_slot 0 t)) (option_map etext (at_slot 1 t)) (option_map etext (at_slot 2 t)).
Proof.
  intros H Ht. unfold at_reads, get_autotype_enabled, get_autotype_sequence, get_autotype_window, at_slot. rewrite !(mbind_ok _ _ _ _ _ (the_run d (eid t) t H Ht eq_refl)). unfold ret, raise, nonempty_text.
  split; [destruct (find_2 _ _ t); reflexivity|]. split; [destruct (find_2 $"AutoType" $"DefaultSequence" t) as [e|]|destruct (find_3 $"AutoType" $"Association" $"Window" t) as [e|]]; cbn [option_map]; try reflexivity; unfold blank_none; destruct (etext e) as [[|]|]; reflexivity.
Qed.
Lemma at_set_claim d t n p v : wf d -> has d t -> (n < 3)%nat -> at_slot n t = Some p -> legal v = true ->
  exists d', lx_set_text (eid p) v d = (Ok tt, d') /\ wf d' /\ only_texts [p] d d' /\
    at_reads d' (eid t) (if (n =? 0)%nat then Some v else option_map etext (at_slot 0 t)) (if (n =? 1)%nat then Some v else option_map etext (at_slot 1 t)) (if (n =? 2)%nat then Some v else option_map etext (at_slot 2 t)).
Proof.
  intros H Ht Ln Hp Hv. pose proof (at_slot_In _ _ _ Hp) as [Hd _]. destruct (desc_apart d t p H Ht Hd) as [Hh _]. destruct (set_text_retext d p v H Hh Hv) as (d' & E & Hr). exists d'. split; [exact E|]. split; [apply Hr|]. split; [now apply (retext_texts d d' p v)|].
  assert (G : forall m, (m < 3)%nat -> exists t', has d' t' /\ eid t' = eid t /\ option_map etext (at_slot m t') = if (m =? n)%nat then Some v else option_map etext (at_slot m t)) by (intros m Lm; now apply (at_text d d' t n m p v)).
  destruct (G 0%nat ltac:(lia)) as (t' & Ht' & Et & E0). destruct (G 1%nat ltac:(lia)) as (t1 & Ht1 & Et1 & E1). destruct (G 2%nat ltac:(lia)) as (t2 & Ht2 & Et2 & E2). pose proof Hr as (W & _).
  assert (t1 = t') as -> by (apply (unique_inj (d_forest d')); auto; [apply W|congruence]). assert (t2 = t') as -> by (apply (unique_inj (d_forest d')); auto; [apply W|congruence]).
  pose proof (at_reads_run d' t' W Ht') as A. rewrite E0, E1, E2, Et in A. rewrite (Nat.eqb_sym n 0), (Nat.eqb_sym n 1), (Nat.eqb_sym n 2). exact A.
Qed.
Lemma set_at_enabled d t p b : wf d -> has d t -> at_slot 0 t = Some p -> set_autotype_enabled (eid t) b d = lx_set_text (eid p) (option_map py_str_bool b) d.
Proof. intros H Ht Hp. unfold set_autotype_enabled. rewrite (mbind_ok _ _ _ _ _ (the_run d (eid t) t H Ht eq_refl)). cbn [at_slot] in Hp. rewrite Hp. reflexivity. Qed.
Lemma set_at_sequence d t p v : wf d -> has d t -> at_slot 1 t = Some p -> set_autotype_sequence (eid t) v d = lx_set_text (eid p) v d.
Proof. intros H Ht Hp. unfold set_autotype_sequence. rewrite (mbind_ok _ _ _ _ _ (the_run d (eid t) t H Ht eq_refl)). cbn [at_slot] in Hp. rewrite Hp. reflexivity. Qed.
Lemma set_at_window d t p v : wf d -> has d t -> at_slot 2 t = Some p -> set_autotype_window (eid t) v d = lx_set_text (eid p) v d.
Proof. intros H Ht Hp. unfold set_autotype_window. rewrite (mbind_ok _ _ _ _ _ (the_run d (eid t) t H Ht eq_refl)). cbn [at_slot] in Hp. rewrite Hp. reflexivity. Qed.
