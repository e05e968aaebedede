(** From the lemmas of Api_fields, Api_custom and Api_sub to the statements of Prop_Api. *)
From Verif Require Import Base PyStr Xml Tree XPath Time Uuid Db FindSpec Codec_facts Kdbx_rt ApiSpec Api Heap Prim Api_fields Api_custom Api_sub.
From Coq Require Import Lia ZifyBool ZifyN ZifyNat.

Lemma plain_not_prop k p : ~ builtin (Some k) -> k <> prop_name p.
Proof. intros H E. apply H. subst k. unfold builtin. destruct p; cbn; tauto. Qed.
Lemma custom_run R i k d : ~ builtin (Some k) -> get_custom_property R i k d = get_string R k i d.
Proof. intros H. unfold get_custom_property. rewrite <- reserved_builtin in H. destruct (reserved (Some k)); [congruence|reflexivity]. Qed.
Lemma prop_assignment R d t p v : wf d -> has_elem d t -> tidy t -> text_ok v = true ->
  exists d' t', set_prop R p (eid t) (Some v) d = (Ok tt, d') /\
    wf d' /\ has_elem d' t' /\ same_head t t' /\ rest_kids t' = rest_kids t /\ tidy t' /\ only [eid t] d d' /\
    get_prop R p (eid t) d' = (Ok (Some v), d') /\
    (forall q, q <> p -> exists x, get_prop R q (eid t) d = (Ok x, d) /\ get_prop R q (eid t) d' = (Ok x, d')) /\
    (forall k, plain k -> ~ builtin (Some k) ->
       exists x, get_custom_property R (eid t) k d = (Ok x, d) /\ get_custom_property R (eid t) k d' = (Ok x, d')).
Proof.
  intros H Ht Hy Hv. destruct (set_prop_claim R d t p v H Ht Hy Hv) as (d' & t' & E & (W & T & S & K & O) & Y & _ & G & Q). exists d', t'.
  split; [exact E|]. do 6 (split; [assumption|]). split; [now rewrite get_prop_run|]. split.
  - intros q N. rewrite get_prop_run. apply Q; [apply prop_plain|]. intros E'. apply N. now apply prop_name_inj.
  - intros k Hk Hb. rewrite !custom_run by exact Hb. apply Q; [exact Hk|now apply plain_not_prop].
Qed.
Lemma custom_assignment R d t key v b : wf d -> has_elem d t -> tidy t -> plain key -> ~ builtin (Some key) -> text_ok v = true ->
  exists d' t', set_custom_property R (eid t) key (Some v) b d = (Ok tt, d') /\
    wf d' /\ has_elem d' t' /\ same_head t t' /\ rest_kids t' = rest_kids t /\ tidy t' /\ only [eid t] d d' /\
    get_custom_property R (eid t) key d' = (Ok (Some v), d') /\
    (forall q, exists x, get_prop R q (eid t) d = (Ok x, d) /\ get_prop R q (eid t) d' = (Ok x, d')) /\
    (forall k, k <> key -> plain k -> ~ builtin (Some k) ->
       exists x, get_custom_property R (eid t) k d = (Ok x, d) /\ get_custom_property R (eid t) k d' = (Ok x, d')).
Proof.
  intros H Ht Hy Hk Hb Hv. assert (Hr : reserved (Some key) = false) by (rewrite <- reserved_builtin in Hb; destruct (reserved (Some key)); congruence).
  destruct (set_custom_claim R d t key v b H Ht Hy Hk Hr Hv) as (d' & t' & E & (W & T & S & K & O) & Y & _ & G & Q). exists d', t'.
  split; [exact E|]. do 6 (split; [assumption|]). split; [now rewrite custom_run|]. split.
  - intros q. rewrite get_prop_run. apply Q; [apply prop_plain|]. intros E'. now apply (plain_not_prop key q Hb).
  - intros k N Hk' Hb'. rewrite !custom_run by exact Hb'. now apply Q.
Qed.

Lemma look_less_other key k l : k <> key -> look_field k (less_field key l) = look_field k l.
Proof.
  intros N. unfold look_field, less_field. induction l as [|f l IH]; [reflexivity|]. cbn [filter List.find]. destruct (has_key key f) eqn:E; cbn [negb].
  - rewrite IH. assert (has_key k f = false) as ->; [|reflexivity]. unfold has_key in *. destruct (f_key f) as [q|]; [|reflexivity]. apply str_eqb_eq in E. destruct (str_eqb q k) eqn:E'; [|reflexivity]. apply str_eqb_eq in E'. congruence.
  - cbn [List.find]. now rewrite IH.
Qed.
Lemma look_less_same key l : look_field key (less_field key l) = None.
Proof. unfold look_field, less_field. induction l as [|f l IH]; [reflexivity|]. cbn [filter]. destruct (has_key key f) eqn:E; cbn [negb]; [exact IH|]. cbn [List.find]. now rewrite E. Qed.
Lemma look_app k l m : look_field k (l ++ m) = match look_field k l with Some f => Some f | None => look_field k m end.
Proof. unfold look_field. induction l as [|f l IH]; [reflexivity|]. cbn. destruct (has_key k f); [reflexivity|exact IH]. Qed.
Lemma has_key_new k key v fl : has_key k (Fld (Some key) v fl) = str_eqb key k. Proof. reflexivity. Qed.
Lemma look_new key v fl k l : look_field k (less_field key l ++ [Fld (Some key) v fl]) = if str_eqb key k then Some (Fld (Some key) v fl) else look_field k l.
Proof.
  rewrite look_app. destruct (str_eqb key k) eqn:E.
  - apply str_eqb_eq in E. subst k. rewrite look_less_same. unfold look_field. cbn [List.find]. rewrite has_key_new, str_eqb_refl. reflexivity.
  - assert (k <> key) by (intros ->; rewrite str_eqb_refl in E; discriminate). rewrite look_less_other by assumption. destruct (look_field k l); [reflexivity|]. unfold look_field. cbn [List.find]. rewrite has_key_new, E. reflexivity.
Qed.
Lemma flag_new_eq key v fl t t' k : book t' = less_field key (book t) ++ [Fld (Some key) v fl] -> old_flag k t' = if str_eqb key k then fl else old_flag k t.
Proof. intros E. unfold old_flag. rewrite E, look_new. destruct (str_eqb key k); reflexivity. Qed.
Lemma flag_kept R d t p v : wf d -> has_elem d t -> tidy t -> text_ok v = true ->
  secret p = false \/ filled (field_text (prop_name p) t) = true ->
  exists d' t', set_prop R p (eid t) (Some v) d = (Ok tt, d') /\ has_elem d' t' /\ eid t' = eid t /\
    forall key, old_flag key t' = old_flag key t.
Proof.
  intros H Ht Hy Hv Hs. destruct (set_prop_claim R d t p v H Ht Hy Hv) as (d' & t' & E & (W & T & (S & _) & _) & _ & B & _). exists d', t'. repeat split; try assumption.
  intros key. rewrite (flag_new_eq _ _ _ _ _ key B). destruct (str_eqb (prop_name p) key) eqn:Ek; [|reflexivity]. apply str_eqb_eq in Ek. subst key. unfold flag_rule. destruct Hs as [-> | ->]; [reflexivity|]. cbn [negb]. now rewrite andb_false_r.
Qed.
Lemma flag_new R d t p v : wf d -> has_elem d t -> tidy t -> text_ok v = true ->
  secret p = true -> filled (field_text (prop_name p) t) = false ->
  exists d' t', set_prop R p (eid t) (Some v) d = (Ok tt, d') /\ has_elem d' t' /\ eid t' = eid t /\
    old_flag (prop_name p) t' = Some $"True" /\ forall key, key <> prop_name p -> old_flag key t' = old_flag key t.
Proof.
  intros H Ht Hy Hv Hs Hf. destruct (set_prop_claim R d t p v H Ht Hy Hv) as (d' & t' & E & (W & T & (S & _) & _) & _ & B & _). exists d', t'. repeat split; try assumption.
  - rewrite (flag_new_eq _ _ _ _ _ _ B), str_eqb_refl. unfold flag_rule. rewrite Hs, Hf. reflexivity.
  - intros key N. rewrite (flag_new_eq _ _ _ _ _ key B). destruct (str_eqb (prop_name p) key) eqn:Ek; [|reflexivity]. apply str_eqb_eq in Ek. congruence.
Qed.
Lemma custom_flag R d t key v (b : bool) : wf d -> has_elem d t -> tidy t -> plain key -> ~ builtin (Some key) -> text_ok v = true ->
  exists d', set_custom_property R (eid t) key (Some v) b d = (Ok tt, d') /\
    is_custom_property_protected R (eid t) key d' = (Ok b, d') /\
    forall k, k <> key -> plain k -> ~ builtin (Some k) ->
      exists x, is_custom_property_protected R (eid t) k d = (Ok x, d) /\ is_custom_property_protected R (eid t) k d' = (Ok x, d').
Proof.
  intros H Ht Hy Hk Hb Hv. assert (Hr : reserved (Some key) = false) by (rewrite <- reserved_builtin in Hb; destruct (reserved (Some key)); congruence).
  destruct (set_custom_claim R d t key v b H Ht Hy Hk Hr Hv) as (d' & t' & E & (W & T & (S & _) & _) & Y & B & _). exists d'. split; [exact E|]. rewrite <- S. split.
  - rewrite (protected_spec R d' t' key W T Y Hk Hb), (flag_new_eq _ _ _ _ _ _ B), str_eqb_refl. destruct b; reflexivity.
  - intros k N Hk' Hb'. rewrite (protected_spec R d' t' k W T Y Hk' Hb'), S, (protected_spec R d t k H Ht Hy Hk' Hb'), (flag_new_eq _ _ _ _ _ k B). destruct (str_eqb key k) eqn:Ek; [apply str_eqb_eq in Ek; congruence|]. eauto.
Qed.

Lemma prop_rejected R d t p v : wf d -> has_elem d t -> tidy t -> rejected v ->
  exists e d' t', set_prop R p (eid t) v d = (Err e, d') /\ wf d' /\ has_elem d' t' /\ same_head t t' /\
    rest_kids t' = rest_kids t /\ only [eid t] d d' /\ book t' = less_field (prop_name p) (book t).
Proof.
  intros H Ht Hy Hv.
  assert (G : exists q, set_prop R p (eid t) v d = set_string R (prop_name p) (eid t) v q d).
  { destruct p; try (eexists; reflexivity); cbn [set_prop]; [unfold set_password; rewrite (mbind_ok _ _ _ _ _ (get_string_spec R d t $"Password" H Ht Hy (prop_plain P_password)))|unfold set_otp; rewrite (mbind_ok _ _ _ _ _ (get_string_spec R d t $"otp" H Ht Hy (prop_plain P_otp)))]; eexists; reflexivity. }
  destruct G as (q & ->). destruct (set_string_rejected R d t (prop_name p) v q H Ht Hy (prop_plain p) Hv) as (e & d' & t' & E & (W & T & S & K & O) & B). exists e, d', t'. repeat (split; [assumption|]). exact B.
Qed.
Lemma less_none key l : look_field key l = None -> less_field key l = l.
Proof. unfold look_field, less_field. induction l as [|f l IH]; [reflexivity|]. cbn [List.find filter]. destruct (has_key key f); [discriminate|]. cbn [negb]. intros E. now rewrite IH. Qed.
Lemma prop_rejected_new R d t p v : wf d -> has_elem d t -> tidy t -> rejected v -> look_field (prop_name p) (book t) = None ->
  exists e d' t', set_prop R p (eid t) v d = (Err e, d') /\ has_elem d' t' /\ same_head t t' /\
    rest_kids t' = rest_kids t /\ only [eid t] d d' /\ book t' = book t.
Proof. intros H Ht Hy Hv N. destruct (prop_rejected R d t p v H Ht Hy Hv) as (e & d' & t' & E & W & T & S & K & O & B). exists e, d', t'. repeat (split; [assumption|]). rewrite B. now apply less_none. Qed.

Lemma props_keys l : map fst (props l) = map f_key (filter (fun f => negb (reserved (f_key f))) l).
Proof. unfold props. rewrite map_map. reflexivity. Qed.
Lemma nodup_filter {A B} (f : A -> B) P l : NoDup (map f l) -> NoDup (map f (filter P l)).
Proof. induction l as [|x l IH]; [auto|]. cbn. intros H. apply NoDup_cons_iff in H as [Hx H]. destruct (P x); [|auto]. cbn. constructor; [|auto]. intros G. apply Hx. apply in_map_iff in G as (y & <- & G). apply in_map. now apply filter_In in G. Qed.
Lemma custom_dict R d t : wf d -> has_elem d t -> tidy t -> plain_keys t ->
  exists l, custom_properties R (eid t) d = (Ok l, d) /\ customs (book t) l /\ NoDup (map fst l) /\
    forall k v, In (Some k, v) l <-> ~ builtin (Some k) /\ exists f, In f (book t) /\ f_key f = Some k /\ f_val f = v.
Proof.
  intros H Ht Hy Hp. exists (props (book t)). split; [now apply custom_properties_spec|]. split; [apply customs_props|]. split; [rewrite props_keys; apply nodup_filter, Hy|].
  intros k v. unfold props. rewrite in_map_iff. split.
  - intros (f & E & Hf). apply filter_In in Hf as [Hf Hr]. injection E as E1 E2. split; [|eauto]. rewrite <- reserved_builtin, <- E1. destruct (reserved (f_key f)); [discriminate|congruence].
  - intros (Hb & f & Hf & E1 & E2). exists f. split; [congruence|]. apply filter_In. split; [exact Hf|]. rewrite <- reserved_builtin, <- E1 in Hb. destruct (reserved (f_key f)); [congruence|reflexivity].
Qed.
Lemma book_plain t t' key v fl : plain_keys t -> plain key -> book t' = less_field key (book t) ++ [Fld (Some key) v fl] -> plain_keys t'.
Proof. intros Hp Hk E f Hf. rewrite E in Hf. apply in_app_iff in Hf as [Hf|[<-|[]]]; [|exists key; split; [reflexivity|exact Hk]]. apply Hp. now apply filter_In in Hf. Qed.
Lemma custom_set R d t key v b : wf d -> has_elem d t -> tidy t -> plain_keys t -> plain key -> ~ builtin (Some key) -> text_ok v = true ->
  exists d' l, set_custom_property R (eid t) key (Some v) b d = (Ok tt, d') /\ custom_properties R (eid t) d = (Ok l, d) /\
    custom_properties R (eid t) d' = (Ok (filter (fun kv => negb (ostr_eqb (fst kv) (Some key))) l ++ [(Some key, Some v)]), d').
Proof.
  intros H Ht Hy Hp Hk Hb Hv. pose proof Hb as Hr0. rewrite <- reserved_builtin in Hr0. assert (Hr : reserved (Some key) = false) by (destruct (reserved (Some key)); congruence).
  destruct (set_custom_claim R d t key v b H Ht Hy Hk Hr Hv) as (d' & t' & E & (W & T & (S & _) & _) & Y & B & _). exists d', (props (book t)). split; [exact E|]. split; [now apply custom_properties_spec|].
  rewrite <- S, custom_properties_spec by (auto; eapply book_plain; eauto). rewrite B, props_app, props_less. do 3 f_equal. unfold props. cbn [filter f_key]. rewrite Hr. reflexivity.
Qed.
Lemma custom_get R d t key : wf d -> has_elem d t -> tidy t -> plain_keys t -> plain key -> ~ builtin (Some key) ->
  exists l x, custom_properties R (eid t) d = (Ok l, d) /\ get_custom_property R (eid t) key d = (Ok x, d) /\
    (In (Some key, x) l \/ x = None /\ ~ In (Some key) (map fst l)).
Proof.
  intros H Ht Hy Hp Hk Hb. destruct (custom_dict R d t H Ht Hy Hp) as (l & E & _ & _ & L). exists l. rewrite custom_run by exact Hb. rewrite (get_string_spec R d t key H Ht Hy Hk). eexists. split; [exact E|]. split; [reflexivity|].
  unfold field_text. destruct (look_field key (book t)) as [f|] eqn:F.
  - left. apply L. split; [exact Hb|]. exists f. apply find_some in F as [F1 F2]. apply has_key_iff in F2. split; [exact F1|]. split; [exact F2|reflexivity].
  - right. split; [reflexivity|]. intros G. apply in_map_iff in G as ([k x] & E1 & G). cbn in E1. subst k. apply L in G as (_ & f & F1 & F2 & _). apply (find_none _ _ F) in F1. apply has_key_iff in F2. congruence.
Qed.
Lemma custom_delete R d t key : wf d -> has_elem d t -> tidy t -> plain_keys t -> plain key -> ~ builtin (Some key) ->
  look_field key (book t) <> None ->
  exists d' t' l, delete_custom_property R (eid t) key d = (Ok tt, d') /\ assigned d d' t t' /\
    custom_properties R (eid t) d = (Ok l, d) /\
    custom_properties R (eid t) d' = (Ok (filter (fun kv => negb (ostr_eqb (fst kv) (Some key))) l), d').
Proof.
  intros H Ht Hy Hp Hk Hb Hl. destruct (delete_custom_spec R d t key H Ht Hy Hk Hb Hl) as (d' & t' & E & A & Y & B). exists d', t', (props (book t)). split; [exact E|]. split; [exact A|]. split; [now apply custom_properties_spec|].
  destruct A as (W & T & (S & _) & _). rewrite <- S, custom_properties_spec; auto; [now rewrite B, props_less|]. intros f Hf. apply Hp. rewrite B in Hf. now apply filter_In in Hf.
Qed.

(** *** Sub-elements *)
Lemma icon_back d t v : wf d -> has_elem d t -> at_most_one $"IconID" t -> text_ok v = true ->
  exists d' t', set_icon (eid t) (Some v) d = (Ok tt, d') /\ resub d d' t t' $"IconID" /\ get_icon (eid t) d' = (Ok (Some v), d').
Proof. intros H Ht Ho Hv. destruct (set_sub_claim d t $"IconID" v H Ht Hv Ho) as (d' & t' & E & S & _ & G & _). exists d', t'. auto. Qed.
Lemma name_back d t v : wf d -> has_elem d t -> at_most_one $"Name" t -> text_ok v = true ->
  exists d' t', set_name (eid t) (Some v) d = (Ok tt, d') /\ resub d d' t t' $"Name" /\ get_name (eid t) d' = (Ok (Some v), d').
Proof. intros H Ht Ho Hv. destruct (set_sub_claim d t $"Name" v H Ht Hv Ho) as (d' & t' & E & S & _ & G & _). exists d', t'. auto. Qed.
Lemma notes_back d t v : wf d -> has_elem d t -> at_most_one $"Notes" t -> text_ok v = true ->
  exists d' t', set_group_notes (eid t) (Some v) d = (Ok tt, d') /\ resub d d' t t' $"Notes" /\ get_group_notes (eid t) d' = (Ok (Some v), d').
Proof. intros H Ht Ho Hv. destruct (set_sub_claim d t $"Notes" v H Ht Hv Ho) as (d' & t' & E & S & _ & G & _). exists d', t'. auto. Qed.
Lemma uuid_legal u : uuid_ok u -> text_ok (uuid_text u) = true. Proof. intros [H _]. now apply Kdbx_rt.b64_text_ok. Qed.
Lemma uuid_back d t u : wf d -> has_elem d t -> at_most_one $"UUID" t -> uuid_ok u ->
  exists d' t', set_uuid (eid t) u d = (Ok tt, d') /\ resub d d' t t' $"UUID" /\ get_uuid (eid t) d' = (Ok u, d').
Proof.
  intros H Ht Ho Hu. destruct (set_sub_claim d t $"UUID" (uuid_text u) H Ht (uuid_legal u Hu) Ho) as (d' & t' & E & S & _ & G & _). exists d', t'. split; [exact E|]. split; [exact S|].
  unfold get_uuid. rewrite (mbind_ok _ _ _ _ _ G). unfold of_res. now rewrite uuid_text_roundtrip.
Qed.

(** *** Times *)
Lemma v4_true d : 4 <= d_major d -> v4 d = true. Proof. unfold v4. lia. Qed.
Lemma v4_false d : d_major d < 4 -> v4 d = false. Proof. unfold v4. lia. Qed.
Lemma time_back4 d t tp p v i : wf d -> has_elem d t -> time_slot (time_name tp) t = Some p -> 4 <= d_major d ->
  dt_valid v -> instant v = Some i -> (0 <= i < MAXSEC * 1000000)%Z -> (i mod 1000000 = 0)%Z ->
  exists d' x, set_timeprop tp (eid t) v d = (Ok tt, d') /\ get_timeprop tp (eid t) d' = (Ok (Some x), d') /\ instant x = Some i /\ doff x = Some 0%Z.
Proof.
  intros H Ht Hp V Hv Hi Hb Hm. destruct (c03_whole v i Hv Hi Hb Hm) as (s & x & E & D & I & O). rewrite <- (v4_true d V) in E, D. destruct (set_time_claim d t tp p v s x H Ht Hp E D) as (d' & S & _ & _ & G & _). exists d', x. auto.
Qed.
Lemma time_back3 d t tp p v : wf d -> has_elem d t -> time_slot (time_name tp) t = Some p -> d_major d < 4 ->
  dt_valid v -> doff v = Some 0%Z ->
  exists d', set_timeprop tp (eid t) v d = (Ok tt, d') /\ get_timeprop tp (eid t) d' = (Ok (Some v), d').
Proof.
  intros H Ht Hp V Hv Ho. destruct (c05_utc v Hv Ho) as (s & E & D). rewrite <- (v4_false d V) in E, D. destruct (set_time_claim d t tp p v s v H Ht Hp E D) as (d' & S & _ & _ & G & _). exists d'. auto.
Qed.
Lemma expired_iff C d t p q s x a b : wf d -> has_elem d t -> time_slot $"Expires" t = Some p -> etext p = Some $"True" ->
  time_slot $"ExpiryTime" t = Some q -> etext q = Some s -> decode_time (v4 d) s = Ok x -> instant (now C) = Some a -> instant x = Some b ->
  exists r, expired C (eid t) d = (Ok r, d) /\ (r = true <-> (a > b)%Z).
Proof. intros H Ht Hp Ep Hq Eq D A B. rewrite (expired_run C d t p q s x a b H Ht Hp Ep Hq Eq D A B). eexists. split; [reflexivity|]. lia. Qed.
Lemma expired_set C d t p q v i a : wf d -> has_elem d t -> time_slot $"Expires" t = Some p -> time_slot $"ExpiryTime" t = Some q ->
  4 <= d_major d -> dt_valid v -> instant v = Some i -> (0 <= i < MAXSEC * 1000000)%Z -> (i mod 1000000 = 0)%Z -> instant (now C) = Some a ->
  exists d' r, (do _ <- set_expires (eid t) true; set_timeprop T_expiry (eid t) v) d = (Ok tt, d') /\
    expired C (eid t) d' = (Ok r, d') /\ (r = true <-> (a > i)%Z).
Proof.
  intros H Ht Hp Hq V Hv Hi Hb Hm A. destruct (c03_whole v i Hv Hi Hb Hm) as (s & x & E & D & I & O). rewrite <- (v4_true d V) in E, D. destruct (expired_after C d t p q v s x a i H Ht Hp Hq E D A I) as (d' & S & G). exists d'. eexists. split; [exact S|]. split; [exact G|]. lia.
Qed.

(** *** Auto-type *)
Lemma enabled_back d t p b : wf d -> has_elem d t -> find_2 $"AutoType" $"Enabled" t = Some p ->
  exists d', set_autotype_enabled (eid t) b d = (Ok tt, d') /\ wf d' /\ only_texts [p] d d' /\ get_autotype_enabled (eid t) d' = (Ok b, d') /\
    get_autotype_sequence (eid t) d' = (fst (get_autotype_sequence (eid t) d), d') /\ get_autotype_window (eid t) d' = (fst (get_autotype_window (eid t) d), d').
Proof.
  intros H Ht Hp. assert (Hl : legal (option_map py_str_bool b) = true) by (destruct b as [[]|]; reflexivity). destruct (at_set_claim d t 0 p _ H Ht ltac:(lia) Hp Hl) as (d' & E & W & O & A & B & D). destruct (at_reads_run d t H Ht) as (A0 & B0 & D0).
  exists d'. rewrite (set_at_enabled d t p b H Ht Hp). split; [exact E|]. split; [exact W|]. split; [exact O|]. rewrite A, B, B0, D, D0. split; [|split; reflexivity]. destruct b as [[]|]; reflexivity.
Qed.
Lemma sequence_back d t p v : wf d -> has_elem d t -> find_2 $"AutoType" $"DefaultSequence" t = Some p ->
  match v with Some s => text_ok s = true | None => True end ->
  exists d', set_autotype_sequence (eid t) v d = (Ok tt, d') /\ wf d' /\ only_texts [p] d d' /\ get_autotype_sequence (eid t) d' = (Ok (blank_none v), d') /\
    get_autotype_enabled (eid t) d' = (fst (get_autotype_enabled (eid t) d), d') /\ get_autotype_window (eid t) d' = (fst (get_autotype_window (eid t) d), d').
Proof.
  intros H Ht Hp Hv. assert (Hl : legal v = true) by (destruct v; [exact Hv|reflexivity]). destruct (at_set_claim d t 1 p _ H Ht ltac:(lia) Hp Hl) as (d' & E & W & O & A & B & D). destruct (at_reads_run d t H Ht) as (A0 & B0 & D0).
  exists d'. rewrite (set_at_sequence d t p v H Ht Hp). split; [exact E|]. split; [exact W|]. split; [exact O|]. rewrite A, A0, B, D, D0. repeat split.
Qed.
Lemma window_back d t p v : wf d -> has_elem d t -> find_3 $"AutoType" $"Association" $"Window" t = Some p ->
  match v with Some s => text_ok s = true | None => True end ->
  exists d', set_autotype_window (eid t) v d = (Ok tt, d') /\ wf d' /\ only_texts [p] d d' /\ get_autotype_window (eid t) d' = (Ok (blank_none v), d') /\
    get_autotype_enabled (eid t) d' = (fst (get_autotype_enabled (eid t) d), d') /\ get_autotype_sequence (eid t) d' = (fst (get_autotype_sequence (eid t) d), d').
Proof.
  intros H Ht Hp Hv. assert (Hl : legal v = true) by (destruct v; [exact Hv|reflexivity]). destruct (at_set_claim d t 2 p _ H Ht ltac:(lia) Hp Hl) as (d' & E & W & O & A & B & D). destruct (at_reads_run d t H Ht) as (A0 & B0 & D0).
  exists d'. rewrite (set_at_window d t p v H Ht Hp). split; [exact E|]. split; [exact W|]. split; [exact O|]. rewrite A, A0, B, B0, D. repeat split.
Qed.
