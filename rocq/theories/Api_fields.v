(** String fields and sub-elements of entries and groups: reading and assigning. *)
From Verif Require Import Base PyStr Xml Tree XPath Db XPath_parse XPath_facts XPath_eval FindSpec Find_facts Find_path ApiSpec Heap Api Prim Api_xpath.

Lemma rekids_only d d' p k : wf d -> rekids d d' p k -> only [eid p] d d'.
Proof.
  intros H (H1 & (M1 & M2 & M3) & H3 & H4 & H5 & H6). split; [exact M1|]. split; [exact M2|]. split; [exact M3|]. split; [exact H3|]. split; [exact H4|].
  intros j r E Hj. rewrite H6; [exact E|now apply (wf_look d j r)|]. intros ->. apply Hj. now left.
Qed.
Lemma set_kids_head k t : same_head t (set_kids k t). Proof. destruct t. repeat split. Qed.
Lemma kids_of_set T k t : kids_of T (set_kids k t) = filter (fun c => str_eqb (etag c) T) k. Proof. destruct t. reflexivity. Qed.

(** *** Reading a field *)
Lemma has_key_iff key f : has_key key f = true <-> f_key f = Some key.
Proof. unfold has_key. destruct (f_key f) as [k|]; [rewrite str_eqb_eq|]; split; congruence. Qed.
Lemma is_key_field key s k : kids_of $"Key" s = [k] -> existsb (is_key key) (ekids s) = has_key key (field_of s).
Proof.
  intros E. unfold field_of, first_text, find1, has_key. cbn [f_key]. rewrite E. cbn [hd_error]. unfold kids_of in E. revert k E. induction (ekids s) as [|c l IH]; intros k E; [discriminate|]. cbn [existsb filter] in *. unfold is_key at 1.
  destruct (str_eqb (etag c) $"Key").
  - injection E as -> E. cbn [andb]. unfold text_eq. assert (existsb (is_key key) l = false) as ->; [|now rewrite orb_false_r]. clear IH. induction l as [|c l IH]; [reflexivity|]. cbn [filter existsb] in *. unfold is_key at 1. destruct (str_eqb (etag c) $"Key"); [discriminate|]. cbn. auto.
  - cbn. now apply IH.
Qed.
Lemma fields_spec t key : tidy t -> fields key t = filter (fun s => has_key key (field_of s)) (kids_of $"String" t).
Proof.
  intros [H _]. unfold fields, kids_of in *. revert H. induction (ekids t) as [|c l IH]; intros H; [reflexivity|]. cbn [filter] in *. destruct (str_eqb (etag c) $"String") eqn:E; cbn [andb].
  - cbn [filter]. destruct (H c (or_introl eq_refl)) as (k & v & Hk & _). rewrite (is_key_field key c k Hk). rewrite IH by (intros; apply H; now right). reflexivity.
  - apply IH, H.
Qed.
Lemma find_filter {A} (f : A -> bool) l : List.find f l = hd_error (filter f l).
Proof. induction l as [|x l IH]; [reflexivity|]. cbn. destruct (f x); [reflexivity|exact IH]. Qed.
Lemma filter_map {A B} (f : A -> B) (p : B -> bool) l : filter p (map f l) = map f (filter (fun x => p (f x)) l).
Proof. induction l as [|x l IH]; [reflexivity|]. cbn. destruct (p (f x)); cbn; now rewrite IH. Qed.
Lemma hd_map {A B} (f : A -> B) l : hd_error (map f l) = option_map f (hd_error l). Proof. destruct l; reflexivity. Qed.
Lemma look_fields t key : tidy t -> look_field key (book t) = option_map field_of (hd_error (fields key t)).
Proof. intros H. unfold look_field, book. rewrite find_filter, filter_map, hd_map, fields_spec by exact H. reflexivity. Qed.
Lemma fields_In key t s : In s (fields key t) -> In s (kids_of $"String" t).
Proof. unfold fields, kids_of. rewrite !filter_In, andb_true_iff. tauto. Qed.
Lemma value_spec t key : tidy t -> hd_error (flat_map (kids_of $"Value") (fields key t)) = match hd_error (fields key t) with Some s => find1 $"Value" s | None => None end.
Proof.
  intros [H _]. destruct (fields key t) as [|s l] eqn:E; [reflexivity|]. cbn [flat_map hd_error]. destruct (H s) as (k & v & _ & Hv); [apply (fields_In key); rewrite E; now left|]. unfold find1. rewrite Hv. reflexivity.
Qed.
Lemma get_string_spec R d t key : wf d -> has d t -> tidy t -> plain key -> get_string R key (eid t) d = (Ok (field_text key t), d).
Proof.
  intros H Ht Hy Hk. rewrite get_string_run by assumption. rewrite value_spec by exact Hy. unfold field_text. rewrite look_fields by exact Hy. do 2 f_equal. destruct (hd_error (fields key t)) as [s|]; reflexivity.
Qed.
Lemma fields_one t key : tidy t -> fields key t = [] \/ exists s, fields key t = [s].
Proof.
  intros Hy. pose proof Hy as (_ & Hn & _). rewrite (fields_spec t key Hy). unfold book in Hn. rewrite map_map in Hn. induction (kids_of $"String" t) as [|s l IH]; [now left|]. cbn [map] in Hn. apply NoDup_cons_iff in Hn as [Hs Hn]. cbn [filter].
  destruct (has_key key (field_of s)) eqn:E; [|auto]. right. exists s. f_equal. clear IH. assert (forall c, In c l -> has_key key (field_of c) = false) as G.
  { intros c Hc. destruct (has_key key (field_of c)) eqn:E2; [|reflexivity]. exfalso. apply Hs. apply has_key_iff in E, E2. rewrite E, <- E2. apply (in_map (fun x => f_key (field_of x))), Hc. }
  clear -G. induction l as [|c l IH]; [reflexivity|]. cbn. rewrite G by now left. apply IH. intros x Hx. apply G. now right.
Qed.

Lemma NoDup_app_one {A} (l : list A) x : NoDup l -> ~ In x l -> NoDup (l ++ [x]).
Proof. induction l as [|y l IH]; intros Hn Hx; [constructor; [intros []|constructor]|]. apply NoDup_cons_iff in Hn as [Hy Hn]. cbn. constructor; [rewrite in_app_iff; intros [G|[G|[]]]; [auto|apply Hx; now left]|]. apply IH; [exact Hn|]. intros G. apply Hx. now right. Qed.

(** *** Assigning a field *)
Lemma drop_filter c l T : filter (fun k => str_eqb (etag k) T) (drop c l) = drop c (filter (fun k => str_eqb (etag k) T) l).
Proof. unfold drop. induction l as [|x l IH]; [reflexivity|]. cbn. destruct (negb (eid x =? c)%nat) eqn:E1, (str_eqb (etag x) T) eqn:E2; cbn; rewrite ?E1, ?E2, IH; reflexivity. Qed.
Lemma drop_rest c l : (forall k, In k l -> eid k = c -> etag k = $"String") -> filter (fun k => negb (str_eqb (etag k) $"String")) (drop c l) = filter (fun k => negb (str_eqb (etag k) $"String")) l.
Proof.
  intros H. unfold drop. induction l as [|x l IH]; [reflexivity|]. assert (IH' : forall k, In k l -> eid k = c -> etag k = $"String") by (intros; apply H; [now right|assumption]). specialize (IH IH').
  cbn [filter]. destruct (Nat.eqb_spec (eid x) c) as [E|E]; cbn [negb filter].
  - rewrite (H x (or_introl eq_refl) E), str_eqb_refl. exact IH.
  - rewrite IH. reflexivity.
Qed.
Lemma less_drop d t key s : wf d -> has d t -> tidy t -> fields key t = [s] -> map field_of (drop (eid s) (kids_of $"String" t)) = less_field key (book t).
Proof.
  intros H Ht Hy E. unfold less_field, book. rewrite filter_map. f_equal. unfold drop. apply filter_ext_in'. intros c Hc. f_equal.
  pose proof (fields_spec t key Hy) as Es. rewrite E in Es. assert (Hs : In s (filter (fun s => has_key key (field_of s)) (kids_of $"String" t))) by (rewrite <- Es; now left). apply filter_In in Hs as [Hs Hks].
  destruct (has_key key (field_of c)) eqn:Ek.
  - assert (In c [s]) as [<-|[]] by (rewrite Es; apply filter_In; auto). apply Nat.eqb_refl.
  - apply Nat.eqb_neq. intros Ee. assert (c = s) as ->; [|congruence]. apply (unique_inj (d_forest d)); [apply H| | |exact Ee]; apply (has_kid d t); auto; apply filter_In in Hc, Hs; tauto.
Qed.
Lemma less_absent key l : look_field key l = None -> less_field key l = l.
Proof.
  unfold look_field, less_field. induction l as [|f l IH]; [reflexivity|]. cbn. destruct (has_key key f); [discriminate|]. cbn. intros E. now rewrite IH.
Qed.
Definition prot_after (key : str) (t : elem) (protected : option bool) : option str :=
  match protected with
  | Some b => Some (if b then $"True" else $"False")
  | None => match look_field key (book t) with Some f => f_prot f | None => None end
  end.
Lemma erase_kids t g a x k : erase t = X g a x k -> etag t = g /\ eattrs t = a /\ etext t = x /\ map erase (ekids t) = k.
Proof. destruct t. cbn. intros [= <- <- <- <-]. auto. Qed.
Lemma e_string_ok key v a : text_ok key = true -> text_ok v = true -> forallb (fun a : str * str => text_ok (snd a)) a = true ->
  e_string key (Some v) a = Ok (X $"String" [] None [X $"Key" [] (Some key) []; X $"Value" a (Some v) []]).
Proof. intros Hk Hv Ha. unfold e_string, e_text. cbn [forallb]. rewrite Hk, Ha. cbn [bind]. rewrite Hv. reflexivity. Qed.
Lemma new_field t key v a : erase t = X $"String" [] None [X $"Key" [] (Some key) []; X $"Value" a (Some v) []] ->
  etag t = $"String" /\ (exists k x, kids_of $"Key" t = [k] /\ kids_of $"Value" t = [x]) /\ field_of t = Fld (Some key) (Some v) (option_map snd (List.find (fun b : str * str => str_eqb (fst b) $"Protected") a)).
Proof.
  intros E. apply erase_kids in E as (E1 & _ & _ & E4). destruct (ekids t) as [|k [|x [|y l]]] eqn:Ek; try discriminate E4. cbn [map] in E4. injection E4 as E5 E6.
  apply erase_kids in E5 as (K1 & K2 & K3 & K4). apply erase_kids in E6 as (V1 & V2 & V3 & V4).
  assert (Hk : kids_of $"Key" t = [k]) by (unfold kids_of; rewrite Ek; cbn [filter]; rewrite K1, V1; reflexivity).
  assert (Hv : kids_of $"Value" t = [x]) by (unfold kids_of; rewrite Ek; cbn [filter]; rewrite K1, V1; reflexivity).
  split; [exact E1|]. split; [eauto|]. unfold field_of, first_text, find1. rewrite Hk, Hv. cbn [hd_error]. rewrite K3, V3. unfold attr_of. rewrite V2. reflexivity.
Qed.
Lemma bool_text (b : bool) : text_ok (if b then $"True" else $"False") = true. Proof. destruct b; reflexivity. Qed.
Lemma less_look key l k : look_field k (less_field key l) = if str_eqb k key then None else look_field k l.
Proof.
  unfold look_field, less_field. induction l as [|f l IH]; [cbn; now destruct (str_eqb k key)|]. cbn [filter]. destruct (has_key key f) eqn:E; cbn [negb List.find].
  - rewrite IH. destruct (str_eqb k key) eqn:Ek; [reflexivity|]. destruct (has_key k f) eqn:E2; [|reflexivity]. apply has_key_iff in E, E2. assert (k = key) by congruence. subst. rewrite str_eqb_refl in Ek. discriminate.
  - rewrite IH. destruct (has_key k f) eqn:E2; [|reflexivity]. destruct (str_eqb k key) eqn:Ek; [|reflexivity]. apply str_eqb_eq in Ek. subst. congruence.
Qed.
Lemma set_string_step1 R d t key p : wf d -> has d t -> tidy t -> plain key ->
  exists d1 k1, (do field <- xfirst R (Some (eid t)) (string_xp key);
    do prot <- (match p with
              | None => do f <- xfirst R (Some (eid t)) (value_xp key);
                        ret (match f with Some v => attr_of $"Protected" v | None => None end)
              | Some b => ret (Some (py_str_bool b))
              end);
    do _ <- (match field with Some f => lx_remove (eid t) (eid f) | None => ret tt end); ret prot) d = (Ok (prot_after key t p), d1) /\
    rekids d d1 t k1 /\ filter (fun k => negb (str_eqb (etag k) $"String")) k1 = rest_kids t /\
    (forall c, In c (filter (fun k => str_eqb (etag k) $"String") k1) -> In c (kids_of $"String" t)) /\ map field_of (filter (fun k => str_eqb (etag k) $"String") k1) = less_field key (book t).
Proof.
  intros H Ht Hy Hk. rewrite (mbind_ok _ _ _ _ _ (string_first R d t key H Ht Hk)).
  assert (E2 : (match p with
              | None => do f <- xfirst R (Some (eid t)) (value_xp key); ret (match f with Some v => attr_of $"Protected" v | None => None end)
              | Some b => ret (Some (py_str_bool b)) end) d = (Ok (prot_after key t p), d)).
  { unfold prot_after. destruct p as [b|]; [destruct b; reflexivity|]. rewrite (mbind_ok _ _ _ _ _ (value_first R d t key H Ht Hk)). rewrite (value_spec t key Hy), look_fields by exact Hy. destruct (hd_error (fields key t)) as [s|]; reflexivity. }
  rewrite (mbind_ok _ _ _ _ _ E2). destruct (fields_one t key Hy) as [E|(s & E)]; rewrite E; cbn [hd_error].
  - exists d, (ekids t). split; [reflexivity|]. split; [now apply rekids_refl|]. split; [reflexivity|]. split; [auto|]. rewrite less_absent; [reflexivity|]. rewrite look_fields, E by exact Hy. reflexivity.
  - assert (Hs : In s (kids_of $"String" t)) by (apply (fields_In key); rewrite E; now left). assert (Hsk : In s (ekids t) /\ etag s = $"String") by (apply filter_In in Hs; rewrite str_eqb_eq in Hs; exact Hs). destruct Hsk as [Hsk Hst].
    destruct (remove_rekids d t (eid s) H Ht) as (d1 & E1 & K1 & _); [now apply in_map|]. exists d1, (drop (eid s) (ekids t)). rewrite (mbind_ok _ _ _ _ _ E1). split; [reflexivity|]. split; [exact K1|]. split; [|split].
    + apply drop_rest. intros k Hk' Ee. assert (k = s) as -> by (apply (unique_inj (d_forest d)); auto; [apply H|now apply (has_kid d t)|now apply (has_kid d t)]). exact Hst.
    + intros c Hc. rewrite drop_filter in Hc. apply filter_In in Hc as [Hc _]. exact Hc.
    + rewrite drop_filter. apply (less_drop d t key s); auto.
Qed.
Lemma set_string_bind R key i v p d :
  set_string R key i v p d = (do prot <- (do field <- xfirst R (Some i) (string_xp key);
    do prot <- (match p with
              | None => do f <- xfirst R (Some i) (value_xp key);
                        ret (match f with Some v => attr_of $"Protected" v | None => None end)
              | Some b => ret (Some (py_str_bool b))
              end);
    do _ <- (match field with Some f => lx_remove i (eid f) | None => ret tt end); ret prot);
    do x <- of_res (e_string key v (match prot with Some q => [($"Protected", q)] | None => [] end));
    do _ <- lx_append_new i x; ret tt) d.
Proof.
  unfold set_string, mbind. destruct (xfirst R (Some i) (string_xp key) d) as [[f|e] d1]; [|reflexivity].
  match goal with |- context [match ?m d1 with _ => _ end] => destruct (m d1) as [[q|e] d2] end; [|reflexivity].
  destruct ((match f with Some f => lx_remove i (eid f) | None => ret tt end) d2) as [[u|e] d3]; reflexivity.
Qed.
Lemma prot_legal key t p : tidy t -> match prot_after key t p with Some s => text_ok s = true | None => True end.
Proof.
  intros (_ & _ & H). unfold prot_after. destruct p as [b|]; [apply bool_text|]. destruct (look_field key (book t)) as [f|] eqn:E; [|exact I]. apply find_some in E as [E _]. rewrite Forall_forall in H. exact (H f E).
Qed.
Lemma set_string_spec R d t key v p : wf d -> has d t -> tidy t -> plain key -> text_ok v = true ->
  exists d' t', set_string R key (eid t) (Some v) p d = (Ok tt, d') /\ assigned d d' t t' /\ tidy t' /\ book t' = less_field key (book t) ++ [Fld (Some key) (Some v) (prot_after key t p)].
Proof.
  intros H Ht Hy Hk Hv. destruct (set_string_step1 R d t key p H Ht Hy Hk) as (d1 & k1 & E1 & K1 & R1 & S1 & B1). rewrite set_string_bind, (mbind_ok _ _ _ _ _ E1).
  assert (Hprot : forallb (fun a : str * str => text_ok (snd a)) (match prot_after key t p with Some q => [($"Protected", q)] | None => [] end) = true).
  { pose proof (prot_legal key t p Hy) as Hp. destruct (prot_after key t p); [cbn [forallb snd]; now rewrite Hp|reflexivity]. }
  rewrite (e_string_ok key v _ (proj2 Hk) Hv Hprot). unfold of_res, mbind at 1. pose proof K1 as (W1 & _ & _ & _ & T1 & _).
  destruct (append_new_rekids d1 (set_kids k1 t) (X $"String" [] None [X $"Key" [] (Some key) []; X $"Value" (match prot_after key t p with Some q => [($"Protected", q)] | None => [] end) (Some v) []]) W1 T1) as (n & d2 & E2 & En & Ex & K2 & _ & _).
  rewrite set_kids_eid in E2. rewrite (mbind_ok _ _ _ _ _ E2). rewrite set_kids_ekids in K2. pose proof (rekids_trans d d1 d2 t k1 _ K1 K2) as K. pose proof K as (W & _ & _ & _ & T & _).
  apply new_field in Ex as (X1 & X2 & X3). exists d2, (set_kids (k1 ++ [n]) t). split; [reflexivity|]. split.
  - split; [exact W|]. split; [exact T|]. split; [apply set_kids_head|]. split; [|eapply rekids_only; eauto]. unfold rest_kids at 1. rewrite set_kids_ekids, filter_app, R1. cbn [filter]. rewrite X1. cbn. apply app_nil_r.
  - assert (Ebook : book (set_kids (k1 ++ [n]) t) = less_field key (book t) ++ [Fld (Some key) (Some v) (prot_after key t p)]).
    { unfold book at 1. rewrite kids_of_set, filter_app, map_app, B1. cbn [filter]. rewrite X1. cbn [map]. change (str_eqb $"String" $"String") with true. cbv iota. cbn [map]. rewrite X3. do 3 f_equal. destruct (prot_after key t p); reflexivity. }
    split; [|exact Ebook]. split.
    + intros s Hs. rewrite kids_of_set, filter_app in Hs. apply in_app_iff in Hs as [Hs|Hs]; [apply (proj1 Hy), S1, Hs|]. cbn [filter] in Hs. rewrite X1 in Hs. destruct Hs as [<-|[]]. exact X2.
    + rewrite Ebook, map_app. cbn [map f_key]. pose proof Hy as (_ & Hn & Hl). split.
      * apply NoDup_app_one.
        -- clear -Hn. unfold less_field. induction (book t) as [|f l IH]; [constructor|]. cbn [map] in Hn. apply NoDup_cons_iff in Hn as [Hf Hn]. cbn [filter]. destruct (negb (has_key key f)); [|auto]. cbn [map]. constructor; [|auto]. intros Hi. apply Hf. apply in_map_iff in Hi as (g & Eg & Hg). apply filter_In in Hg as [Hg _]. rewrite <- Eg. now apply in_map.
        -- intros Hi. apply in_map_iff in Hi as (f & Ef & Hf). apply filter_In in Hf as [_ Hf]. apply has_key_iff in Ef. rewrite Ef in Hf. discriminate.
      * apply Forall_app. split; [|constructor; [|constructor]]; [|exact (prot_legal key t p Hy)]. rewrite Forall_forall in *. intros f Hf. apply filter_In in Hf as [Hf _]. auto.
Qed.

(** *** Reading after an assignment *)
Lemma look_app key l m : look_field key (l ++ m) = match look_field key l with Some f => Some f | None => look_field key m end.
Proof. unfold look_field. induction l as [|f l IH]; [reflexivity|]. cbn. destruct (has_key key f); [reflexivity|exact IH]. Qed.
Lemma look_set key v q l k : look_field k (less_field key l ++ [Fld (Some key) (Some v) q]) = if str_eqb k key then Some (Fld (Some key) (Some v) q) else look_field k l.
Proof.
  rewrite look_app, less_look. destruct (str_eqb k key) eqn:E.
  - apply str_eqb_eq in E. subst. unfold look_field. cbn [List.find]. unfold has_key. cbn [f_key]. now rewrite str_eqb_refl.
  - destruct (look_field k l); [reflexivity|]. unfold look_field. cbn [List.find]. unfold has_key. cbn [f_key]. destruct (str_eqb key k) eqn:E2; [|reflexivity]. apply str_eqb_eq in E2. subst. rewrite str_eqb_refl in E. discriminate.
Qed.
(** The outcome of an accepted assignment [m] of [v] to the field [key] of [t]. *)
Definition field_set (R : regex) (d : db) (t : elem) (key v : str) (flag : option str) (m : M unit) : Prop :=
  exists d' t', m d = (Ok tt, d') /\ assigned d d' t t' /\ tidy t' /\ book t' = less_field key (book t) ++ [Fld (Some key) (Some v) flag] /\
    get_string R key (eid t) d' = (Ok (Some v), d') /\
    forall k, plain k -> k <> key -> exists x, get_string R k (eid t) d = (Ok x, d) /\ get_string R k (eid t) d' = (Ok x, d').
Lemma set_string_claim R d t key v p : wf d -> has d t -> tidy t -> plain key -> text_ok v = true ->
  field_set R d t key v (prot_after key t p) (set_string R key (eid t) (Some v) p).
Proof.
  intros H Ht Hy Hk Hv. destruct (set_string_spec R d t key v p H Ht Hy Hk Hv) as (d' & t' & E & A & Y & B). exists d', t'. split; [exact E|]. split; [exact A|]. split; [exact Y|]. split; [exact B|]. destruct A as (W & T & (Eid & _) & _).
  rewrite <- Eid. split.
  - rewrite (get_string_spec R d' t' key W T Y Hk). unfold field_text. rewrite B, look_set, str_eqb_refl. reflexivity.
  - intros k Pk Nk. exists (field_text k t). rewrite Eid at 1. rewrite (get_string_spec R d t k H Ht Hy Pk), (get_string_spec R d' t' k W T Y Pk). split; [reflexivity|]. unfold field_text. rewrite B, look_set. destruct (str_eqb k key) eqn:E2; [apply str_eqb_eq in E2; contradiction|reflexivity].
Qed.
Lemma filled_truthy o : filled o = truthy o. Proof. destruct o as [[|]|]; reflexivity. Qed.
Lemma prop_plain p : plain (prop_name p).
Proof. split; [|destruct p; reflexivity]. destruct p; vm_compute; intuition discriminate. Qed.
Lemma prop_name_inj p q : prop_name p = prop_name q -> p = q.
Proof. destruct p, q; try reflexivity; intros E; vm_compute in E; discriminate. Qed.
Lemma get_prop_run R p i : get_prop R p i = get_string R (prop_name p) i. Proof. destruct p; reflexivity. Qed.
Lemma set_prop_claim R d t p v : wf d -> has d t -> tidy t -> text_ok v = true -> field_set R d t (prop_name p) v (flag_rule p t) (set_prop R p (eid t) (Some v)).
Proof.
  intros H Ht Hy Hv. assert (G : forall q, field_set R d t (prop_name p) v (prot_after (prop_name p) t q) (set_string R (prop_name p) (eid t) (Some v) q)) by (intros q; apply set_string_claim; auto; apply prop_plain).
  assert (S : secret p = true -> set_prop R p (eid t) (Some v) d = set_string R (prop_name p) (eid t) (Some v) (if filled (field_text (prop_name p) t) then None else Some true) d).
  { destruct p; try discriminate; intros _; cbn [set_prop]; [unfold set_password; rewrite (mbind_ok _ _ _ _ _ (get_string_spec R d t $"Password" H Ht Hy (prop_plain P_password)))|unfold set_otp; rewrite (mbind_ok _ _ _ _ _ (get_string_spec R d t $"otp" H Ht Hy (prop_plain P_otp)))]; reflexivity. }
  unfold flag_rule. destruct (secret p) eqn:Es; cbn [andb].
  - specialize (S eq_refl). specialize (G (if filled (field_text (prop_name p) t) then None else Some true)). destruct G as (d' & t' & E & G). rewrite <- S in E. exists d', t'. split; [exact E|]. destruct (filled (field_text (prop_name p) t)); exact G.
  - specialize (G None). destruct p; try discriminate; exact G.
Qed.
(** Custom properties. *)
Lemma set_custom_claim R d t key v (b : bool) : wf d -> has d t -> tidy t -> plain key -> reserved (Some key) = false -> text_ok v = true ->
  field_set R d t key v (Some (if b then $"True" else $"False")) (set_custom_property R (eid t) key (Some v) b).
Proof. intros H Ht Hy Hk Hr Hv. unfold set_custom_property. rewrite Hr. exact (set_string_claim R d t key v (Some b) H Ht Hy Hk Hv). Qed.

(** *** A rejected assignment *)
Lemma e_string_bad key v a : rejected v -> exists e, e_string key v a = Err e.
Proof. intros H. unfold e_string, e_text. cbn [forallb]. destruct (text_ok key); [|eexists; reflexivity]. cbn [bind]. destruct (forallb _ a); [|eexists; reflexivity]. destruct v as [s|]; [|eexists; reflexivity]. cbn in H. rewrite H. eexists; reflexivity. Qed.
Lemma set_string_rejected_tidy R d t key v p : wf d -> has d t -> tidy t -> plain key -> rejected v ->
  exists e d' t', set_string R key (eid t) v p d = (Err e, d') /\ assigned d d' t t' /\ tidy t' /\ book t' = less_field key (book t).
Proof.
  intros H Ht Hy Hk Hv. destruct (set_string_step1 R d t key p H Ht Hy Hk) as (d1 & k1 & E1 & K1 & R1 & S1 & B1). destruct (e_string_bad key v (match prot_after key t p with Some q => [($"Protected", q)] | None => [] end) Hv) as (e & Ee).
  exists e, d1, (set_kids k1 t). rewrite set_string_bind, (mbind_ok _ _ _ _ _ E1). unfold of_res, mbind at 1. rewrite Ee. split; [reflexivity|]. pose proof K1 as (W & _ & _ & _ & T & _).
  assert (Eb : book (set_kids k1 t) = less_field key (book t)) by (unfold book at 1; rewrite kids_of_set; exact B1).
  split; [|split; [|exact Eb]].
  - split; [exact W|]. split; [exact T|]. split; [apply set_kids_head|]. split; [|eapply rekids_only; eauto]. unfold rest_kids at 1. now rewrite set_kids_ekids.
  - pose proof Hy as (Hs & Hn & Hl). split; [intros s Is; rewrite kids_of_set in Is; apply Hs, S1, Is|]. rewrite Eb. unfold less_field. split.
    + clear -Hn. induction (book t) as [|f l IH]; [constructor|]. cbn [map] in Hn. apply NoDup_cons_iff in Hn as [Hf Hn]. cbn [filter]. destruct (negb (has_key key f)); [|auto]. cbn [map]. constructor; [|auto]. intros Hi. apply Hf. apply in_map_iff in Hi as (g & Eg & Hg). apply filter_In in Hg as [Hg _]. rewrite <- Eg. now apply in_map.
    + rewrite Forall_forall in *. intros f Hf. apply filter_In in Hf as [Hf _]. auto.
Qed.
Lemma set_string_rejected R d t key v p : wf d -> has d t -> tidy t -> plain key -> rejected v ->
  exists e d' t', set_string R key (eid t) v p d = (Err e, d') /\ assigned d d' t t' /\ book t' = less_field key (book t).
Proof.
  intros H Ht Hy Hk Hv. destruct (set_string_step1 R d t key p H Ht Hy Hk) as (d1 & k1 & E1 & K1 & R1 & S1 & B1). destruct (e_string_bad key v (match prot_after key t p with Some q => [($"Protected", q)] | None => [] end) Hv) as (e & Ee).
  exists e, d1, (set_kids k1 t). rewrite set_string_bind, (mbind_ok _ _ _ _ _ E1). unfold of_res, mbind at 1. rewrite Ee. split; [reflexivity|]. pose proof K1 as (W & _ & _ & _ & T & _). split.
  - split; [exact W|]. split; [exact T|]. split; [apply set_kids_head|]. split; [|eapply rekids_only; eauto]. unfold rest_kids at 1. now rewrite set_kids_ekids.
  - unfold book at 1. rewrite kids_of_set. exact B1.
Qed.
