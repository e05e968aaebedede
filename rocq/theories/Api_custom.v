(** Custom properties of entries as a dictionary. *)
From Verif Require Import Base PyStr Xml Tree XPath Db XPath_parse XPath_facts XPath_eval FindSpec Find_facts Find_path ApiSpec Heap Api Prim Api_xpath Api_fields.

Lemma reserved_builtin k : reserved k = true <-> builtin k.
Proof.
  unfold reserved, builtin. destruct k as [k|]; [|split; [discriminate|intuition discriminate]]. rewrite existsb_exists. unfold reserved_keys. split.
  - intros (x & Hx & E). apply str_eqb_eq in E. subst x. cbn [In] in Hx. intuition congruence.
  - intros H. exists k. split; [|apply str_eqb_refl]. cbn [In]. intuition congruence.
Qed.
Definition props (l : list field) : list (option str * option str) := map (fun f => (f_key f, f_val f)) (filter (fun f => negb (reserved (f_key f))) l).
Lemma customs_props l : customs l (props l).
Proof.
  unfold props. induction l as [|f l IH]; [constructor|]. cbn [filter]. destruct (reserved (f_key f)) eqn:E; cbn [negb].
  - apply cu_skip; [now apply reserved_builtin|exact IH].
  - apply cu_take; [|exact IH]. rewrite <- reserved_builtin. congruence.
Qed.
Lemma customs_fun l m : customs l m -> m = props l.
Proof.
  induction 1 as [|f l m H _ IH|f l m H _ IH]; [reflexivity| |]; unfold props; cbn [filter].
  - apply reserved_builtin in H. rewrite H. exact IH.
  - rewrite <- reserved_builtin in H. destruct (reserved (f_key f)); [congruence|]. cbn. now rewrite IH.
Qed.

Lemma string_keys_spec d t ex : wf d -> has d t -> tidy t ->
  string_keys ex (eid t) d = (Ok (if ex then filter (fun k => negb (reserved k)) (map f_key (book t)) else map f_key (book t)), d).
Proof.
  intros H Ht Hy. unfold string_keys. rewrite (mbind_ok _ _ _ _ _ (the_run d (eid t) t H Ht eq_refl)).
  assert (E : mapM (fun s => match find1 $"Key" s with Some k => Ok (etext k) | None => Err Ex_Attribute end) (kids_of $"String" t) = Ok (map f_key (book t))).
  { destruct Hy as (Hy & _). unfold book. induction (kids_of $"String" t) as [|s l IH]; [reflexivity|]. cbn [mapM map]. destruct (Hy s (or_introl eq_refl)) as (k & v & Hk & Hv). rewrite IH by (intros; apply Hy; now right). unfold field_of, first_text, find1. cbn [f_key]. rewrite Hk. reflexivity. }
  rewrite E. unfold of_res, mbind, ret. destruct ex; reflexivity.
Qed.
Lemma dict_put_new {A} k (v : A) l : ~ In k (map fst l) -> dict_put k v l = l ++ [(k, v)].
Proof.
  induction l as [|[k' v'] l IH]; [reflexivity|]. cbn. intros H. assert (ostr_eqb k' k = false) as ->.
  - destruct (ostr_eqb k' k) eqn:E; [|reflexivity]. exfalso. apply H. left. destruct k', k; cbn in E; try discriminate; [apply str_eqb_eq in E; now subst|reflexivity].
  - rewrite IH; [reflexivity|]. tauto.
Qed.
Lemma filter_sub {A} (f : A -> bool) l x : In x (filter f l) -> In x l. Proof. rewrite filter_In. tauto. Qed.
Lemma NoDup_filter' {A} (f : A -> bool) l : NoDup l -> NoDup (filter f l). Proof. apply NoDup_filter. Qed.
Lemma look_unique l f k : NoDup (map f_key l) -> In f l -> f_key f = Some k -> look_field k l = Some f.
Proof.
  unfold look_field. induction l as [|g l IH]; intros Hn Hf E; [destruct Hf|]. cbn [map] in Hn. apply NoDup_cons_iff in Hn as [Hg Hn]. cbn [List.find]. destruct Hf as [->|Hf].
  - apply has_key_iff in E. now rewrite E.
  - destruct (has_key k g) eqn:E2; [|auto]. apply has_key_iff in E2. exfalso. apply Hg. rewrite E2, <- E. now apply in_map.
Qed.
Lemma custom_properties_spec R d t : wf d -> has d t -> tidy t -> plain_keys t -> custom_properties R (eid t) d = (Ok (props (book t)), d).
Proof.
  intros H Ht Hy Hp. unfold custom_properties. rewrite (mbind_ok _ _ _ _ _ (string_keys_spec d t true H Ht Hy)).
  rewrite filter_map. unfold props. pose proof Hy as (_ & Hn & _).
  set (L := filter (fun f => negb (reserved (f_key f))) (book t)).
  assert (HL : forall f, In f L -> In f (book t)) by (intros f Hf; now apply filter_sub in Hf).
  assert (NL : NoDup (map f_key L)). { unfold L. clear -Hn. induction (book t) as [|f l IH]; [constructor|]. cbn [map] in Hn. apply NoDup_cons_iff in Hn as [Hf Hn]. cbn [filter]. destruct (negb _); [|auto]. cbn. constructor; [|auto]. intros G. apply Hf. apply in_map_iff in G as (g & <- & G). apply in_map. now apply filter_sub in G. }
  match goal with |- ?go _ _ _ = _ => assert (G : forall l acc, (forall f, In f l -> In f (book t)) -> NoDup (map f_key l) -> (forall f, In f l -> ~ In (f_key f) (map fst acc)) ->
    go (map f_key l) acc d = (Ok (acc ++ map (fun f => (f_key f, f_val f)) l), d)) end.
  { clear L HL NL. induction l as [|f l IH]; intros acc Hl Nl Ha; [cbn; now rewrite app_nil_r|]. cbn [map] in *. apply NoDup_cons_iff in Nl as [Nf Nl]. destruct (Hp f (Hl f (or_introl eq_refl))) as (k & Ek & Pk). rewrite Ek at 1. cbn [py_str_opt].
    assert (Pk' : plain k) by exact Pk. rewrite (mbind_ok _ _ _ _ _ (get_string_spec R d t k H Ht Hy Pk')). unfold field_text. rewrite (look_unique _ f k Hn (Hl f (or_introl eq_refl)) Ek).
    rewrite dict_put_new by (apply Ha; now left). rewrite IH.
    - rewrite <- app_assoc. reflexivity.
    - intros g Hg. apply Hl. now right.
    - exact Nl.
    - intros g Hg. rewrite map_app, in_app_iff. cbn [map fst In]. intros [C|[C|[]]]; [revert C; apply Ha; now right|]. apply Nf. rewrite C. now apply in_map. }
  rewrite (G L [] HL NL); [reflexivity|]. intros f _ [].
Qed.
Lemma protected_spec R d t key : wf d -> has d t -> tidy t -> plain key -> ~ builtin (Some key) ->
  is_custom_property_protected R (eid t) key d = (Ok (match old_flag key t with Some s => str_eqb s $"True" | None => false end), d).
Proof.
  intros H Ht Hy Hk Hb. unfold is_custom_property_protected. rewrite <- reserved_builtin in Hb. destruct (reserved (Some key)); [congruence|].
  rewrite (mbind_ok _ _ _ _ _ (value_first R d t key H Ht Hk)), (value_spec t key Hy). unfold old_flag. rewrite look_fields by exact Hy. unfold ret. do 2 f_equal. destruct (hd_error (fields key t)) as [s|]; [|reflexivity]. cbn [option_map field_of f_prot].
  destruct (find1 $"Value" s) as [v|]; [|reflexivity]. destruct (attr_of $"Protected" v); reflexivity.
Qed.
Lemma less_tidy_kids key l : Forall (fun f => has_key key f = false) (less_field key l).
Proof. apply Forall_forall. intros f Hf. apply filter_In in Hf as [_ Hf]. now apply negb_true_iff. Qed.
Lemma delete_custom_spec R d t key : wf d -> has d t -> tidy t -> plain key -> ~ builtin (Some key) -> look_field key (book t) <> None ->
  exists d' t', delete_custom_property R (eid t) key d = (Ok tt, d') /\ assigned d d' t t' /\ tidy t' /\ book t' = less_field key (book t).
Proof.
  intros H Ht Hy Hk Hb Hl. unfold delete_custom_property. rewrite (mbind_ok _ _ _ _ _ (string_keys_spec d t true H Ht Hy)).
  rewrite <- reserved_builtin in Hb. destruct (look_field key (book t)) as [f|] eqn:E; [|congruence]. pose proof E as E'. apply find_some in E' as [Hf Kf]. apply has_key_iff in Kf.
  assert (existsb (ostr_eqb (Some key)) (filter (fun k => negb (reserved k)) (map f_key (book t))) = true) as ->.
  { apply existsb_exists. exists (Some key). split; [|cbn; apply str_eqb_refl]. apply filter_In. split; [rewrite <- Kf; now apply in_map|]. destruct (reserved (Some key)); [congruence|reflexivity]. }
  destruct (set_string_step1 R d t key (Some true) H Ht Hy Hk) as (d1 & k1 & E1 & K1 & R1 & S1 & B1). exists d1, (set_kids k1 t).
  rewrite look_fields in E by exact Hy. rewrite (mbind_ok _ _ _ _ _ (string_first R d t key H Ht Hk)) in E1. rewrite (mbind_ok _ _ _ _ _ (string_first R d t key H Ht Hk)). destruct (hd_error (fields key t)) as [s|]; [|discriminate].
  split.
  - cbv beta iota delta [mbind ret] in E1. revert E1. destruct (lx_remove (eid t) (eid s) d) as [[[]|e] d2]; intros E1; [|discriminate E1]. injection E1 as ->. reflexivity.
  - pose proof K1 as (W & _ & _ & _ & T & _). assert (EB : book (set_kids k1 t) = less_field key (book t)) by (unfold book at 1; rewrite kids_of_set; exact B1). split; [|split; [|exact EB]].
    + split; [exact W|]. split; [exact T|]. split; [apply set_kids_head|]. split; [|eapply rekids_only; eauto]. unfold rest_kids at 1. now rewrite set_kids_ekids.
    + split; [intros c Hc; rewrite kids_of_set in Hc; apply (proj1 Hy), S1, Hc|]. rewrite EB. destruct Hy as (_ & Hn & Hl'). split.
      * clear -Hn. unfold less_field. induction (book t) as [|g l IH]; [constructor|]. cbn [map] in Hn. apply NoDup_cons_iff in Hn as [Hg Hn]. cbn [filter]. destruct (negb _); [|auto]. cbn. constructor; [|auto]. intros G. apply Hg. apply in_map_iff in G as (h & <- & G). apply in_map. now apply filter_sub in G.
      * rewrite Forall_forall in *. intros g G. apply Hl'. now apply filter_sub in G.
Qed.
Lemma delete_custom_missing R d t key : wf d -> has d t -> tidy t -> builtin (Some key) \/ look_field key (book t) = None ->
  delete_custom_property R (eid t) key d = (Err Ex_Attribute, d).
Proof.
  intros H Ht Hy Hc. unfold delete_custom_property. rewrite (mbind_ok _ _ _ _ _ (string_keys_spec d t true H Ht Hy)).
  assert (existsb (ostr_eqb (Some key)) (filter (fun k => negb (reserved k)) (map f_key (book t))) = false) as ->; [|reflexivity].
  destruct (existsb _ _) eqn:E; [|reflexivity]. apply existsb_exists in E as (k & Hk & E). destruct k as [k|]; [|discriminate]. cbn in E. apply str_eqb_eq in E. subst k. apply filter_In in Hk as [Hk Hr].
  destruct Hc as [Hb|Hn]; [apply reserved_builtin in Hb; rewrite Hb in Hr; discriminate|]. apply in_map_iff in Hk as (f & Ef & Hf). unfold look_field in Hn. apply (find_none _ _ Hn) in Hf. apply has_key_iff in Ef. congruence.
Qed.
Lemma custom_reserved R d i key v b : builtin (Some key) ->
  set_custom_property R i key v b d = (Err Ex_Assertion, d) /\ get_custom_property R i key d = (Err Ex_Assertion, d) /\ is_custom_property_protected R i key d = (Err Ex_Assertion, d).
Proof. intros H. apply reserved_builtin in H. unfold set_custom_property, get_custom_property, is_custom_property_protected. rewrite H. repeat split. Qed.
(** Dictionary reading of the list of custom properties. *)
Lemma props_less key l : props (less_field key l) = filter (fun kv => negb (ostr_eqb (fst kv) (Some key))) (props l).
Proof.
  unfold props, less_field. induction l as [|f l IH]; [reflexivity|]. cbn [filter].
  assert (E : has_key key f = ostr_eqb (f_key f) (Some key)) by (unfold has_key, ostr_eqb; destruct (f_key f); reflexivity).
  destruct (reserved (f_key f)) eqn:R; destruct (has_key key f) eqn:K; cbn [negb filter map fst]; rewrite ?R, ?K; cbn [negb map fst]; rewrite <- ?E; cbn [negb]; rewrite IH; reflexivity.
Qed.
Lemma props_app l m : props (l ++ m) = props l ++ props m. Proof. unfold props. now rewrite filter_app, map_app. Qed.
