(** Theorems about assigning properties of entries and groups: C43 to C50, C74. *)
From Verif Require Import Base PyStr Xml Tree XPath Time Uuid Db FindSpec FindEx ApiSpec Api ApiEx Api_fields Api_custom Api_sub Api_claims.

(** ** C43: a string property reads back what was assigned; nothing else changes.
    Hypothesis [tidy]: no two string fields with the same key (see the counterexample below). *)
Theorem c43_property_assignment_partial : forall R d t p v, wf d -> has_elem d t -> tidy t -> text_ok v = true ->
  exists d' t', set_prop R p (eid t) (Some v) d = (Ok tt, d') /\
    wf d' /\ has_elem d' t' /\ same_head t t' /\ rest_kids t' = rest_kids t /\ tidy t' /\ only [eid t] d d' /\
    get_prop R p (eid t) d' = (Ok (Some v), d') /\
    (forall q, q <> p -> exists x, get_prop R q (eid t) d = (Ok x, d) /\ get_prop R q (eid t) d' = (Ok x, d')) /\
    (forall k, plain k -> ~ builtin (Some k) ->
       exists x, get_custom_property R (eid t) k d = (Ok x, d) /\ get_custom_property R (eid t) k d' = (Ok x, d')).
Proof. exact prop_assignment. Qed.
Print Assumptions c43_property_assignment_partial.
Example c43_ex : wf edb /\ has_elem edb mail /\ tidy mail /\ text_ok $"a<b>""c""" = true /\
  fst (get_prop lit P_title 20 edb) = Ok (Some $"mail") /\
  fst ((do _ <- set_prop lit P_title 20 (Some $"a<b>""c"""); get_prop lit P_title 20) edb) = Ok (Some $"a<b>""c""").
Proof. split; [exact edb_wf|]. split; [exact mail_has|]. split; [exact mail_tidy|]. repeat split; vm_compute; reflexivity. Qed.
Theorem c43_custom_property_assignment_partial : forall R d t key v b, wf d -> has_elem d t -> tidy t -> plain key -> ~ builtin (Some key) -> text_ok v = true ->
  exists d' t', set_custom_property R (eid t) key (Some v) b d = (Ok tt, d') /\
    wf d' /\ has_elem d' t' /\ same_head t t' /\ rest_kids t' = rest_kids t /\ tidy t' /\ only [eid t] d d' /\
    get_custom_property R (eid t) key d' = (Ok (Some v), d') /\
    (forall q, exists x, get_prop R q (eid t) d = (Ok x, d) /\ get_prop R q (eid t) d' = (Ok x, d')) /\
    (forall k, k <> key -> plain k -> ~ builtin (Some k) ->
       exists x, get_custom_property R (eid t) k d = (Ok x, d) /\ get_custom_property R (eid t) k d' = (Ok x, d')).
Proof. exact custom_assignment. Qed.
Print Assumptions c43_custom_property_assignment_partial.
Example c43_custom_ex : plain $"pin" /\ ~ builtin (Some $"pin") /\
  fst ((do _ <- set_custom_property lit 20 $"pin" (Some $"9") false; get_custom_property lit 20 $"pin") edb) = Ok (Some $"9").
Proof. split; [apply plainb_ok; reflexivity|]. split; [rewrite <- reserved_builtin; vm_compute; discriminate|vm_compute; reflexivity]. Qed.
(** Without [tidy] the claim is false: with two Title fields the other one is read afterwards. *)
Definition twice : db := db_of (xdoc 9 [X $"Entry" [] None [xs $"Title" $"a"; xs $"Title" $"b"]]).
Theorem c43_duplicate_keys_refuted : exists d i v x, wf d /\ text_ok v = true /\
  fst ((do _ <- set_prop lit P_title i (Some v); get_prop lit P_title i) d) = Ok x /\ x <> Some v.
Proof. exists twice, 20%nat, $"new", (Some $"b"). split; [apply wfb_ok; vm_compute; reflexivity|]. split; [reflexivity|]. split; [vm_compute; reflexivity|vm_compute; discriminate]. Qed.
Print Assumptions c43_duplicate_keys_refuted.

(** ** C44: the protection flag *)
Theorem c44_flag_kept : forall R d t p v, wf d -> has_elem d t -> tidy t -> text_ok v = true ->
  secret p = false \/ filled (field_text (prop_name p) t) = true ->
  exists d' t', set_prop R p (eid t) (Some v) d = (Ok tt, d') /\ has_elem d' t' /\ eid t' = eid t /\
    forall key, old_flag key t' = old_flag key t.
Proof. exact flag_kept. Qed.
Print Assumptions c44_flag_kept.
Example c44_kept_ex : old_flag $"Password" mail = Some $"True" /\ filled (field_text $"Password" mail) = true /\ old_flag $"Title" mail = None.
Proof. repeat split; vm_compute; reflexivity. Qed.
Theorem c44_new_secret_protected : forall R d t p v, wf d -> has_elem d t -> tidy t -> text_ok v = true ->
  secret p = true -> filled (field_text (prop_name p) t) = false ->
  exists d' t', set_prop R p (eid t) (Some v) d = (Ok tt, d') /\ has_elem d' t' /\ eid t' = eid t /\
    old_flag (prop_name p) t' = Some $"True" /\ forall key, key <> prop_name p -> old_flag key t' = old_flag key t.
Proof. exact flag_new. Qed.
Print Assumptions c44_new_secret_protected.
Example c44_new_ex : secret P_otp = true /\ filled (field_text $"otp" mail) = false.
Proof. split; vm_compute; reflexivity. Qed.
Theorem c44_custom_flag : forall R d t key v b, wf d -> has_elem d t -> tidy t -> plain key -> ~ builtin (Some key) -> text_ok v = true ->
  exists d', set_custom_property R (eid t) key (Some v) b d = (Ok tt, d') /\
    is_custom_property_protected R (eid t) key d' = (Ok b, d') /\
    forall k, k <> key -> plain k -> ~ builtin (Some k) ->
      exists x, is_custom_property_protected R (eid t) k d = (Ok x, d) /\ is_custom_property_protected R (eid t) k d' = (Ok x, d').
Proof. exact custom_flag. Qed.
Print Assumptions c44_custom_flag.
Example c44_custom_ex : fst (is_custom_property_protected lit 20 $"pin" edb) = Ok false /\
  fst ((do _ <- set_custom_property lit 20 $"pin" (Some $"9") true; is_custom_property_protected lit 20 $"pin") edb) = Ok true.
Proof. split; vm_compute; reflexivity. Qed.

(** ** C45 is false of the code: the old field is removed before the new value is checked. *)
Theorem c45_rejected_assignment_refuted : exists d i v, wf d /\ fst (set_prop lit P_password i v d) = Err Ex_Type /\
  fst (get_prop lit P_password i d) = Ok (Some $"s3cret") /\ fst (get_prop lit P_password i (snd (set_prop lit P_password i v d))) = Ok None.
Proof. exists edb, 20%nat, None. split; [exact edb_wf|]. repeat split; vm_compute; reflexivity. Qed.
Print Assumptions c45_rejected_assignment_refuted.
(** What holds: a rejected assignment loses at most that one field. *)
Theorem c45_rejected_assignment_partial : forall R d t p v, wf d -> has_elem d t -> tidy t -> rejected v ->
  exists e d' t', set_prop R p (eid t) v d = (Err e, d') /\ wf d' /\ has_elem d' t' /\ same_head t t' /\
    rest_kids t' = rest_kids t /\ only [eid t] d d' /\ book t' = less_field (prop_name p) (book t).
Proof. exact prop_rejected. Qed.
Print Assumptions c45_rejected_assignment_partial.
(** A field that did not exist is not created by a rejected assignment: the fields stay as they were. *)
Theorem c45_rejected_new_field_partial : forall R d t p v, wf d -> has_elem d t -> tidy t -> rejected v -> look_field (prop_name p) (book t) = None ->
  exists e d' t', set_prop R p (eid t) v d = (Err e, d') /\ has_elem d' t' /\ same_head t t' /\
    rest_kids t' = rest_kids t /\ only [eid t] d d' /\ book t' = book t.
Proof. exact prop_rejected_new. Qed.
Print Assumptions c45_rejected_new_field_partial.
Example c45_ex : rejected (Some [0]) /\ rejected None /\ look_field $"otp" (book mail) = None.
Proof. repeat split; vm_compute; reflexivity. Qed.

(** ** C46: custom properties are a dictionary *)
Theorem c46_custom_properties : forall R d t, wf d -> has_elem d t -> tidy t -> plain_keys t ->
  exists l, custom_properties R (eid t) d = (Ok l, d) /\ customs (book t) l /\ NoDup (map fst l) /\
    forall k v, In (Some k, v) l <-> ~ builtin (Some k) /\ exists f, In f (book t) /\ f_key f = Some k /\ f_val f = v.
Proof. exact custom_dict. Qed.
Print Assumptions c46_custom_properties.
Theorem c46_set : forall R d t key v b, wf d -> has_elem d t -> tidy t -> plain_keys t -> plain key -> ~ builtin (Some key) -> text_ok v = true ->
  exists d' l, set_custom_property R (eid t) key (Some v) b d = (Ok tt, d') /\ custom_properties R (eid t) d = (Ok l, d) /\
    custom_properties R (eid t) d' = (Ok (filter (fun kv => negb (ostr_eqb (fst kv) (Some key))) l ++ [(Some key, Some v)]), d').
Proof. exact custom_set. Qed.
Print Assumptions c46_set.
Theorem c46_get : forall R d t key, wf d -> has_elem d t -> tidy t -> plain_keys t -> plain key -> ~ builtin (Some key) ->
  exists l x, custom_properties R (eid t) d = (Ok l, d) /\ get_custom_property R (eid t) key d = (Ok x, d) /\
    (In (Some key, x) l \/ x = None /\ ~ In (Some key) (map fst l)).
Proof. exact custom_get. Qed.
Print Assumptions c46_get.
Theorem c46_delete : forall R d t key, wf d -> has_elem d t -> tidy t -> plain_keys t -> plain key -> ~ builtin (Some key) ->
  look_field key (book t) <> None ->
  exists d' t' l, delete_custom_property R (eid t) key d = (Ok tt, d') /\ assigned d d' t t' /\
    custom_properties R (eid t) d = (Ok l, d) /\
    custom_properties R (eid t) d' = (Ok (filter (fun kv => negb (ostr_eqb (fst kv) (Some key))) l), d').
Proof. exact custom_delete. Qed.
Print Assumptions c46_delete.
Theorem c46_delete_missing : forall R d t key, wf d -> has_elem d t -> tidy t ->
  builtin (Some key) \/ look_field key (book t) = None -> delete_custom_property R (eid t) key d = (Err Ex_Attribute, d).
Proof. exact delete_custom_missing. Qed.
Print Assumptions c46_delete_missing.
Theorem c46_reserved : forall R d i key v b, builtin (Some key) ->
  set_custom_property R i key v b d = (Err Ex_Assertion, d) /\ get_custom_property R i key d = (Err Ex_Assertion, d) /\
  is_custom_property_protected R i key d = (Err Ex_Assertion, d).
Proof. exact custom_reserved. Qed.
Print Assumptions c46_reserved.
Example c46_ex : plain_keys mail /\ look_field $"pin" (book mail) <> None /\
  fst (custom_properties lit 20 edb) = Ok [(Some $"pin", Some $"1234"); (Some $"seed", Some $"abc")] /\
  fst ((do _ <- delete_custom_property lit 20 $"pin"; custom_properties lit 20) edb) = Ok [(Some $"seed", Some $"abc")].
Proof.
  split; [|split; [vm_compute; discriminate|split; vm_compute; reflexivity]].
  assert (H : Forall (fun f => exists k, f_key f = Some k /\ plain k) (book mail)); [|rewrite Forall_forall in H; exact H].
  vm_compute book. repeat (constructor; [eexists; split; [reflexivity|apply plainb_ok; vm_compute; reflexivity]|]). constructor.
Qed.

(** ** C47: tags *)
Theorem c47_tags : forall d t l, wf d -> has_elem d t -> at_most_one $"Tags" t -> l <> [[]] -> Forall tag_ok l ->
  exists d' t', set_tags (eid t) l d = (Ok tt, d') /\ resub d d' t t' $"Tags" /\ get_tags (eid t) d' = (Ok l, d').
Proof. exact set_tags_claim. Qed.
Print Assumptions c47_tags.
Example c47_ex : at_most_one $"Tags" mail /\ Forall tag_ok [$"a b"; $"c"] /\ fst (get_tags 20 edb) = Ok [$"home"; $"work"].
Proof.
  split; [vm_compute; lia|]. split; [|vm_compute; reflexivity].
  constructor; [|constructor; [|constructor]]; (split; [vm_compute; intuition discriminate|]; split; [vm_compute; intuition discriminate|reflexivity]).
Qed.

(** ** C48: sub-element properties, times and expires *)
Theorem c48_icon : forall d t v, wf d -> has_elem d t -> at_most_one $"IconID" t -> text_ok v = true ->
  exists d' t', set_icon (eid t) (Some v) d = (Ok tt, d') /\ resub d d' t t' $"IconID" /\ get_icon (eid t) d' = (Ok (Some v), d').
Proof. exact icon_back. Qed.
Print Assumptions c48_icon.
Theorem c48_name : forall d t v, wf d -> has_elem d t -> at_most_one $"Name" t -> text_ok v = true ->
  exists d' t', set_name (eid t) (Some v) d = (Ok tt, d') /\ resub d d' t t' $"Name" /\ get_name (eid t) d' = (Ok (Some v), d').
Proof. exact name_back. Qed.
Print Assumptions c48_name.
Theorem c48_group_notes : forall d t v, wf d -> has_elem d t -> at_most_one $"Notes" t -> text_ok v = true ->
  exists d' t', set_group_notes (eid t) (Some v) d = (Ok tt, d') /\ resub d d' t t' $"Notes" /\ get_group_notes (eid t) d' = (Ok (Some v), d').
Proof. exact notes_back. Qed.
Print Assumptions c48_group_notes.
Theorem c48_uuid : forall d t u, wf d -> has_elem d t -> at_most_one $"UUID" t -> uuid_ok u ->
  exists d' t', set_uuid (eid t) u d = (Ok tt, d') /\ resub d d' t t' $"UUID" /\ get_uuid (eid t) d' = (Ok u, d').
Proof. exact uuid_back. Qed.
Print Assumptions c48_uuid.
Example c48_sub_ex : at_most_one $"IconID" mail /\ at_most_one $"UUID" mail /\ at_most_one $"Name" (el edb 56) /\ has_elem edb (el edb 56) /\
  fst (get_name 56 edb) = Ok (Some $"sub") /\ fst (get_uuid 20 edb) = Ok (repeat 2 16).
Proof. split; [vm_compute; lia|]. split; [vm_compute; lia|]. split; [vm_compute; lia|]. split; [apply hasb_ok; vm_compute; reflexivity|]. split; vm_compute; reflexivity. Qed.
(** Times: the value written is the one read, as far as the time text can hold it (C03 to C05). *)
Theorem c48_time : forall d t tp p v s x, wf d -> has_elem d t -> time_slot (time_name tp) t = Some p ->
  encode_time (v4 d) v = Ok s -> decode_time (v4 d) s = Ok x ->
  exists d', set_timeprop tp (eid t) v d = (Ok tt, d') /\ wf d' /\ only_texts [p] d d' /\ get_timeprop tp (eid t) d' = (Ok (Some x), d') /\
    forall tq, tq <> tp -> get_timeprop tq (eid t) d' = (fst (get_timeprop tq (eid t) d), d').
Proof. exact set_time_claim. Qed.
Print Assumptions c48_time.
Theorem c48_time_kdbx4 : forall d t tp p v i, wf d -> has_elem d t -> time_slot (time_name tp) t = Some p -> 4 <= d_major d ->
  dt_valid v -> instant v = Some i -> (0 <= i < MAXSEC * 1000000)%Z -> (i mod 1000000 = 0)%Z ->
  exists d' x, set_timeprop tp (eid t) v d = (Ok tt, d') /\ get_timeprop tp (eid t) d' = (Ok (Some x), d') /\ instant x = Some i /\ doff x = Some 0%Z.
Proof. exact time_back4. Qed.
Print Assumptions c48_time_kdbx4.
Theorem c48_time_kdbx3 : forall d t tp p v, wf d -> has_elem d t -> time_slot (time_name tp) t = Some p -> d_major d < 4 ->
  dt_valid v -> doff v = Some 0%Z ->
  exists d', set_timeprop tp (eid t) v d = (Ok tt, d') /\ get_timeprop tp (eid t) d' = (Ok (Some v), d').
Proof. exact time_back3. Qed.
Print Assumptions c48_time_kdbx3.
Theorem c48_expires : forall d t p b, wf d -> has_elem d t -> time_slot $"Expires" t = Some p ->
  exists d', set_expires (eid t) b d = (Ok tt, d') /\ wf d' /\ only_texts [p] d d' /\ get_expires (eid t) d' = (Ok (Some b), d') /\
    forall q, get_timeprop q (eid t) d' = (fst (get_timeprop q (eid t) d), d').
Proof. exact set_expires_claim. Qed.
Print Assumptions c48_expires.
Definition noon : dt := MkDt 2024 6 1 12 0 0 0 (Some 0%Z).
Example c48_time_ex : (exists p, time_slot (time_name T_mtime) mail = Some p) /\ (exists p, time_slot $"Expires" mail = Some p) /\ 4 <= d_major edb /\ dt_valid noon /\
  (exists i, instant noon = Some i /\ (0 <= i < MAXSEC * 1000000)%Z /\ (i mod 1000000 = 0)%Z).
Proof.
  split; [eexists; vm_compute; reflexivity|]. split; [eexists; vm_compute; reflexivity|]. split; [vm_compute; discriminate|]. split; [apply dt_validb_ok; reflexivity|]. eexists. split; [reflexivity|]. vm_compute. repeat split; congruence.
Qed.

(** ** C49: touch *)
Theorem c49_touch : forall C d t a s x, wf d -> has_elem d t -> time_slot $"LastAccessTime" t = Some a ->
  encode_time (v4 d) (now C) = Ok s -> decode_time (v4 d) s = Ok x ->
  exists d', touch C false (eid t) d = (Ok tt, d') /\ wf d' /\ only_texts [a] d d' /\ get_timeprop T_atime (eid t) d' = (Ok (Some x), d') /\
    forall q, q <> T_atime -> get_timeprop q (eid t) d' = (fst (get_timeprop q (eid t) d), d').
Proof. exact touch_claim. Qed.
Print Assumptions c49_touch.
Theorem c49_touch_modify : forall C d t a m s x, wf d -> has_elem d t -> time_slot $"LastAccessTime" t = Some a ->
  time_slot $"LastModificationTime" t = Some m -> encode_time (v4 d) (now C) = Ok s -> decode_time (v4 d) s = Ok x ->
  exists d', touch C true (eid t) d = (Ok tt, d') /\ wf d' /\ only_texts [a; m] d d' /\
    get_timeprop T_atime (eid t) d' = (Ok (Some x), d') /\ get_timeprop T_mtime (eid t) d' = (Ok (Some x), d') /\
    forall q, q <> T_atime -> q <> T_mtime -> get_timeprop q (eid t) d' = (fst (get_timeprop q (eid t) d), d').
Proof. exact touch_modify_claim. Qed.
Print Assumptions c49_touch_modify.
Example c49_ex : (exists a, time_slot $"LastAccessTime" mail = Some a) /\ (exists m, time_slot $"LastModificationTime" mail = Some m) /\
  encode_time (v4 edb) (now clk) = Ok $"QATt3Q4AAAA=" /\ decode_time (v4 edb) $"QATt3Q4AAAA=" = Ok noon.
Proof. split; [eexists; vm_compute; reflexivity|]. split; [eexists; vm_compute; reflexivity|]. split; vm_compute; reflexivity. Qed.

(** ** C50: expired *)
Theorem c50_not_expiring : forall C d t p, wf d -> has_elem d t -> time_slot $"Expires" t = Some p -> etext p <> Some $"True" ->
  expired C (eid t) d = (Ok false, d).
Proof. exact expired_not. Qed.
Print Assumptions c50_not_expiring.
Theorem c50_expiring : forall C d t p q s x a b, wf d -> has_elem d t -> time_slot $"Expires" t = Some p -> etext p = Some $"True" ->
  time_slot $"ExpiryTime" t = Some q -> etext q = Some s -> decode_time (v4 d) s = Ok x -> instant (now C) = Some a -> instant x = Some b ->
  exists r, expired C (eid t) d = (Ok r, d) /\ (r = true <-> (a > b)%Z).
Proof. exact expired_iff. Qed.
Print Assumptions c50_expiring.
(** Set through the API: expired tells whether the (whole second) expiry time is in the past. *)
Theorem c50_set_and_read : forall C d t p q v i a, wf d -> has_elem d t -> time_slot $"Expires" t = Some p -> time_slot $"ExpiryTime" t = Some q ->
  4 <= d_major d -> dt_valid v -> instant v = Some i -> (0 <= i < MAXSEC * 1000000)%Z -> (i mod 1000000 = 0)%Z -> instant (now C) = Some a ->
  exists d' r, (do _ <- set_expires (eid t) true; set_timeprop T_expiry (eid t) v) d = (Ok tt, d') /\
    expired C (eid t) d' = (Ok r, d') /\ (r = true <-> (a > i)%Z).
Proof. exact expired_set. Qed.
Print Assumptions c50_set_and_read.
Example c50_ex : (exists q, time_slot $"ExpiryTime" mail = Some q) /\ fst (expired clk 20 edb) = Ok false /\
  fst ((do _ <- set_expires 20 true; expired clk 20) edb) = Ok true /\
  fst ((do _ <- set_expires 20 true; do _ <- set_timeprop T_expiry 20 (MkDt 2024 6 1 14 0 1 0 (Some 120%Z)); expired clk 20) edb) = Ok false.
Proof. split; [eexists; vm_compute; reflexivity|]. repeat split; vm_compute; reflexivity. Qed.

(** ** C74: auto-type settings *)
Theorem c74_enabled : forall d t p b, wf d -> has_elem d t -> find_2 $"AutoType" $"Enabled" t = Some p ->
  exists d', set_autotype_enabled (eid t) b d = (Ok tt, d') /\ wf d' /\ only_texts [p] d d' /\ get_autotype_enabled (eid t) d' = (Ok b, d') /\
    get_autotype_sequence (eid t) d' = (fst (get_autotype_sequence (eid t) d), d') /\ get_autotype_window (eid t) d' = (fst (get_autotype_window (eid t) d), d').
Proof. exact enabled_back. Qed.
Print Assumptions c74_enabled.
Theorem c74_sequence : forall d t p v, wf d -> has_elem d t -> find_2 $"AutoType" $"DefaultSequence" t = Some p ->
  match v with Some s => text_ok s = true | None => True end ->
  exists d', set_autotype_sequence (eid t) v d = (Ok tt, d') /\ wf d' /\ only_texts [p] d d' /\ get_autotype_sequence (eid t) d' = (Ok (blank_none v), d') /\
    get_autotype_enabled (eid t) d' = (fst (get_autotype_enabled (eid t) d), d') /\ get_autotype_window (eid t) d' = (fst (get_autotype_window (eid t) d), d').
Proof. exact sequence_back. Qed.
Print Assumptions c74_sequence.
Theorem c74_window : forall d t p v, wf d -> has_elem d t -> find_3 $"AutoType" $"Association" $"Window" t = Some p ->
  match v with Some s => text_ok s = true | None => True end ->
  exists d', set_autotype_window (eid t) v d = (Ok tt, d') /\ wf d' /\ only_texts [p] d d' /\ get_autotype_window (eid t) d' = (Ok (blank_none v), d') /\
    get_autotype_enabled (eid t) d' = (fst (get_autotype_enabled (eid t) d), d') /\ get_autotype_sequence (eid t) d' = (fst (get_autotype_sequence (eid t) d), d').
Proof. exact window_back. Qed.
Print Assumptions c74_window.
Example c74_ex : (exists p, find_2 $"AutoType" $"Enabled" mail = Some p) /\ (exists p, find_2 $"AutoType" $"DefaultSequence" mail = Some p) /\
  (exists p, find_3 $"AutoType" $"Association" $"Window" mail = Some p) /\ fst (get_autotype_enabled 20 edb) = Ok (Some true) /\
  fst ((do _ <- set_autotype_window 20 (Some $"*mail*"); get_autotype_window 20) edb) = Ok (Some $"*mail*").
Proof. split; [eexists; vm_compute; reflexivity|]. split; [eexists; vm_compute; reflexivity|]. split; [eexists; vm_compute; reflexivity|]. split; vm_compute; reflexivity. Qed.
