(** Assigning the same value again changes nothing. *)
From Verif Require Import Base PyStr Xml Tree XPath Uuid Time Db Save FindSpec XPath_facts XPath_eval Find_facts Api ApiSpec StructSpec CredSpec Heap Prim Api_xpath Api_fields Api_sub Api_claims Struct Integrity_ops IntegritySpec Lib Kdbx Object ObjectSpec FailSpec Scratch AgainSpec.

(** *** The document, when one element is replaced by one that looks the same *)
Lemma same_looking d d' t t' : wf d -> wf d' -> has d t -> has d' t' -> eid t' = eid t -> erase t' = erase t -> only [eid t] d d' ->
  forall n u, (List.length (ids u) <= n)%nat -> has d u -> exists u', has d' u' /\ eid u' = eid u /\ erase u' = erase u.
Proof.
  intros W W' Ht Ht' Ei Ee (_ & _ & _ & _ & _ & O). induction n as [|n IH]; intros u Hn Hu; [destruct u; cbn in Hn; lia|].
  destruct (Nat.eq_dec (eid u) (eid t)) as [E|E].
  - assert (u = t) as -> by (apply (unique_inj (d_forest d)); auto; apply W). exists t'. auto.
  - assert (L : lk d' (eid u) = Some (row_of u)) by (apply O; [now apply look_self; [apply W|]|intros [X|[]]; congruence]).
    destruct (look_has d' _ _ W' L) as (u' & Hu' & Eu & Er). exists u'. split; [exact Hu'|]. split; [exact Eu|].
    destruct u as [i g a x k], u' as [i' g' a' x' k']. cbn [row_of etag eattrs etext ekids] in Er. injection Er as -> -> -> Ek. cbn [erase]. f_equal.
    assert (G : forall c, In c k -> exists c', has d' c' /\ eid c' = eid c /\ erase c' = erase c).
    { intros c Hc. apply IH; [|apply (has_kid d _ c Hu); exact Hc]. cbn [ids List.length] in Hn. clear -Hc Hn. assert (List.length (ids c) <= List.length (flat_map ids k))%nat; [|lia]. clear Hn. induction k as [|b k IH]; [destruct Hc|]. cbn [flat_map]. rewrite app_length. destruct Hc as [->|Hc]; [lia|]. specialize (IH Hc). lia. }
    assert (H' : forall c, In c k' -> has d' c) by (intros c Hc; apply (has_kid d' _ c Hu'); exact Hc).
    clear -G H' Ek W'. revert k' Ek H'. induction k as [|c k IHk]; intros [|c' k'] Ek H'; try discriminate; [reflexivity|]. cbn [map] in *. injection Ek as E1 E2. f_equal.
    + destruct (G c) as (w & Hw & Ew & Er); [now left|]. assert (c' = w) as -> by (apply (unique_inj (d_forest d')); [apply W'|apply H'; now left|exact Hw|congruence]). exact Er.
    + apply IHk; [intros b Hb; apply G; now right|exact E2|intros b Hb; apply H'; now right].
Qed.
Lemma doc_same d d' t t' : wf d -> wf d' -> has d t -> has d' t' -> eid t' = eid t -> erase t' = erase t -> only [eid t] d d' -> untouched d d'.
Proof.
  intros W W' Ht Ht' Ei Ee O. pose proof (same_looking d d' t t' W W' Ht Ht' Ei Ee O) as S. destruct O as (O1 & O2 & O3 & _ & O5 & _). split; [|auto].
  destruct (top_forest d W) as (r & F & EF). destruct (top_forest d' W') as (r' & F' & EF'). assert (Er : eid r' = eid r) by (rewrite EF, EF' in O5; now injection O5).
  destruct (S _ r (le_n _)) as (w & Hw & Ew & Gw); [rewrite EF; apply elements_root; now left|].
  assert (r' = w) as -> by (apply (unique_inj (d_forest d')); [apply W'|rewrite EF'; apply elements_root; now left|exact Hw|congruence]).
  unfold document. rewrite EF, EF'. cbn [hd_error option_map]. now rewrite Gw.
Qed.
Lemma kids_again d d' t K n m : wf d -> has d (set_kids (K ++ [n]) t) -> rekids d d' (set_kids (K ++ [n]) t) (K ++ [m]) -> erase m = erase n -> untouched d d'.
Proof.
  intros W H RK E. pose proof (rekids_only _ _ _ _ W RK) as O. pose proof RK as (W' & _ & _ & _ & H' & _). rewrite set_kids_set in H'.
  apply (doc_same d d' _ _ W W' H H'); [now rewrite !set_kids_eid| |exact O]. destruct t as [i g a x k]. cbn [set_kids erase]. now rewrite !map_app, (f_equal (fun e => [e]) E : map erase [m] = map erase [n]).
Qed.

(** *** Taking the one element out that matches *)
Definition rest (P : elem -> bool) (t : elem) : list elem := filter (fun k => negb (P k)) (ekids t).
Lemma drop_none c l : ~ In c (map eid l) -> drop c l = l.
Proof.
  induction l as [|b l IH]; [reflexivity|]. cbn [map]. intros N. unfold drop. cbn [filter]. destruct (Nat.eqb_spec (eid b) c) as [E|E]; [exfalso; apply N; now left|]. cbn [negb]. f_equal. apply IH. intros X. apply N. now right.
Qed.
Lemma filter_none (P : elem -> bool) l : filter P l = [] -> filter (fun k => negb (P k)) l = l.
Proof. induction l as [|b l IH]; [reflexivity|]. cbn [filter]. destruct (P b); [discriminate|]. cbn [negb]. intros E. f_equal. auto. Qed.
Lemma drop_rest (P : elem -> bool) l s : NoDup (map eid l) -> filter P l = [s] -> drop (eid s) l = filter (fun k => negb (P k)) l.
Proof.
  induction l as [|b l IH]; [discriminate|]. cbn [map]. intros N E. apply NoDup_cons_iff in N as [N1 N2]. cbn [filter] in *. unfold drop. cbn [filter]. destruct (P b) eqn:Pb; cbn [negb].
  - injection E as -> E. rewrite Nat.eqb_refl. cbn [negb]. rewrite (filter_none P l E). now apply drop_none.
  - assert (In s l) by (assert (X : In s (filter P l)) by (rewrite E; now left); now apply filter_In in X). destruct (Nat.eqb_spec (eid b) (eid s)) as [Eb|Eb]; [exfalso; apply N1; rewrite Eb; now apply in_map|]. cbn [negb]. f_equal. now apply IH.
Qed.
Lemma rest_again P t n : P n = true -> rest P (set_kids (rest P t ++ [n]) t) = rest P t.
Proof.
  intros Hn. unfold rest at 1. rewrite set_kids_ekids, filter_app. cbn [filter]. rewrite Hn. cbn [negb]. rewrite app_nil_r. unfold rest. induction (ekids t) as [|b l IH]; [reflexivity|]. cbn [filter]. destruct (P b) eqn:E; cbn [negb filter]; [exact IH|]. rewrite E. cbn [negb]. f_equal. exact IH.
Qed.
Lemma take_out P d t : wf d -> has d t -> (filter P (ekids t) = [] \/ exists s, filter P (ekids t) = [s]) ->
  exists d1, (match hd_error (filter P (ekids t)) with Some s => lx_remove (eid t) (eid s) | None => ret tt end) d = (Ok tt, d1) /\ rekids d d1 t (rest P t).
Proof.
  intros W Ht [E|(s & E)]; rewrite E; cbn [hd_error].
  - exists d. split; [reflexivity|]. unfold rest. rewrite (filter_none P _ E). now apply rekids_refl.
  - assert (Hs : In s (ekids t)) by (assert (X : In s (filter P (ekids t))) by (rewrite E; now left); now apply filter_In in X).
    destruct (remove_rekids d t (eid s) W Ht) as (d1 & E1 & K1 & _); [now apply in_map|]. exists d1. split; [exact E1|]. unfold rest. rewrite <- (drop_rest P _ s); [exact K1| |exact E]. apply (kids_nodup (d_forest d)); [apply W|exact Ht].
Qed.

(** *** Sub-elements *)
Definition tagged (T : str) (k : elem) : bool := str_eqb (etag k) T.
Lemma set_sub_exact_fresh d t T v : wf d -> has d t -> text_ok v = true -> at_most_one T t ->
  exists d' n, set_sub T (eid t) (Some v) d = (Ok tt, d') /\ rekids d d' t (rest (tagged T) t ++ [n]) /\ erase n = X T [] (Some v) [] /\ (forall j, In j (ids n) -> (d_next d <= j)%nat).
Proof.
  intros W Ht Hv Ho. assert (Hf : filter (tagged T) (ekids t) = [] \/ exists s, filter (tagged T) (ekids t) = [s]).
  { unfold at_most_one, kids_of in Ho. unfold tagged. destruct (filter _ (ekids t)) as [|s [|s' l]]; [now left|right; now exists s|cbn in Ho; lia]. }
  destruct (take_out (tagged T) d t W Ht Hf) as (d1 & E1 & K1). pose proof K1 as (W1 & _ & _ & _ & H1 & _).
  destruct (append_new_rekids d1 _ (X T [] (Some v) []) W1 H1) as (n & d2 & E2 & _ & Ex & K2 & _ & I2). rewrite set_kids_eid in E2. rewrite set_kids_ekids in K2.
  exists d2, n. split; [|split; [exact (rekids_trans _ _ _ _ _ _ K1 K2)|split; [exact Ex|intros j Hj; apply I2 in Hj; destruct K1 as (_ & _ & N1 & _); lia]]]. unfold set_sub. rewrite (mbind_ok _ _ _ _ _ (the_run d (eid t) t W Ht eq_refl)). unfold find1. change (kids_of T t) with (filter (tagged T) (ekids t)). rewrite (mbind_ok _ _ _ _ _ E1). unfold e_text. cbn [forallb]. rewrite Hv. unfold of_res, mbind at 1. rewrite (mbind_ok _ _ _ _ _ E2). reflexivity.
Qed.
Lemma set_sub_exact d t T v : wf d -> has d t -> text_ok v = true -> at_most_one T t ->
  exists d' n, set_sub T (eid t) (Some v) d = (Ok tt, d') /\ rekids d d' t (rest (tagged T) t ++ [n]) /\ erase n = X T [] (Some v) [].
Proof. intros W Ht Hv Ho. destruct (set_sub_exact_fresh d t T v W Ht Hv Ho) as (d' & n & E & K & X & _). now exists d', n. Qed.
Lemma set_sub_again d t T v d1 : wf d -> has d t -> text_ok v = true -> at_most_one T t -> set_sub T (eid t) (Some v) d = (Ok tt, d1) ->
  exists d2, set_sub T (eid t) (Some v) d1 = (Ok tt, d2) /\ untouched d1 d2.
Proof.
  intros W Ht Hv Ho E. destruct (set_sub_exact d t T v W Ht Hv Ho) as (d1' & n & E1 & K1 & X1). rewrite E in E1. injection E1 as <-. pose proof K1 as (W1 & _ & _ & _ & H1 & _).
  assert (Tn : tagged T n = true) by (unfold tagged; apply erase_kids in X1 as (-> & _); apply str_eqb_refl).
  destruct (set_sub_exact d1 _ T v W1 H1 Hv) as (d2 & m & E2 & K2 & X2).
  - unfold at_most_one. change (kids_of T (set_kids (rest (tagged T) t ++ [n]) t)) with (filter (tagged T) (ekids (set_kids (rest (tagged T) t ++ [n]) t))). rewrite set_kids_ekids, filter_app, app_length. cbn [filter]. rewrite Tn.
    assert (Z : filter (tagged T) (rest (tagged T) t) = []); [|rewrite Z; reflexivity]. unfold rest. induction (ekids t) as [|b l IH]; [reflexivity|]. cbn [filter]. destruct (tagged T b) eqn:Eb; cbn [negb filter]; [|rewrite Eb]; exact IH.
  - rewrite set_kids_eid in E2. exists d2. split; [exact E2|]. rewrite (rest_again _ t n Tn) in K2. apply (kids_again d1 d2 t _ n m W1 H1 K2). congruence.
Qed.

(** *** String fields *)
Definition keyed (key : str) (s : elem) : bool := str_eqb (etag s) $"String" && existsb (is_key key) (ekids s).
Lemma set_string_exact_fresh R d t key v p : wf d -> has d t -> tidy t -> plain key -> text_ok v = true ->
  exists d' n, set_string R key (eid t) (Some v) p d = (Ok tt, d') /\ rekids d d' t (rest (keyed key) t ++ [n]) /\
    erase n = X $"String" [] None [X $"Key" [] (Some key) []; X $"Value" (match prot_after key t p with Some q => [($"Protected", q)] | None => [] end) (Some v) []] /\ (forall j, In j (ids n) -> (d_next d <= j)%nat).
Proof.
  intros W Ht Hy Hk Hv. destruct (take_out (keyed key) d t W Ht (fields_one t key Hy)) as (d1 & E1 & K1). pose proof K1 as (W1 & _ & _ & _ & H1 & _).
  destruct (append_new_rekids d1 _ (X $"String" [] None [X $"Key" [] (Some key) []; X $"Value" (match prot_after key t p with Some q => [($"Protected", q)] | None => [] end) (Some v) []]) W1 H1) as (n & d2 & E2 & _ & Ex & K2 & _ & I2). rewrite set_kids_eid in E2. rewrite set_kids_ekids in K2.
  exists d2, n. split; [|split; [exact (rekids_trans _ _ _ _ _ _ K1 K2)|split; [exact Ex|intros j Hj; apply I2 in Hj; destruct K1 as (_ & _ & N1 & _); lia]]].
  assert (Hprot : forallb (fun a : str * str => text_ok (snd a)) (match prot_after key t p with Some q => [($"Protected", q)] | None => [] end) = true).
  { pose proof (prot_legal key t p Hy) as Hp. destruct (prot_after key t p); [cbn [forallb snd]; now rewrite Hp|reflexivity]. }
  unfold set_string. rewrite (mbind_ok _ _ _ _ _ (string_first R d t key W Ht Hk)).
  assert (E3 : (match p with
              | None => do f <- xfirst R (Some (eid t)) (value_xp key); ret (match f with Some v => attr_of $"Protected" v | None => None end)
              | Some b => ret (Some (py_str_bool b)) end) d = (Ok (prot_after key t p), d)).
  { unfold prot_after. destruct p as [b|]; [destruct b; reflexivity|]. rewrite (mbind_ok _ _ _ _ _ (value_first R d t key W Ht Hk)). rewrite (value_spec t key Hy), look_fields by exact Hy. destruct (hd_error (fields key t)) as [s|]; reflexivity. }
  rewrite (mbind_ok _ _ _ _ _ E3). change (fields key t) with (filter (keyed key) (ekids t)). rewrite (mbind_ok _ _ _ _ _ E1). rewrite (Api_fields.e_string_ok key v _ (proj2 Hk) Hv Hprot). unfold of_res, mbind at 1. rewrite (mbind_ok _ _ _ _ _ E2). reflexivity.
Qed.
Lemma set_string_exact R d t key v p : wf d -> has d t -> tidy t -> plain key -> text_ok v = true ->
  exists d' n, set_string R key (eid t) (Some v) p d = (Ok tt, d') /\ rekids d d' t (rest (keyed key) t ++ [n]) /\
    erase n = X $"String" [] None [X $"Key" [] (Some key) []; X $"Value" (match prot_after key t p with Some q => [($"Protected", q)] | None => [] end) (Some v) []].
Proof. intros W Ht Hy Hk Hv. destruct (set_string_exact_fresh R d t key v p W Ht Hy Hk Hv) as (d' & n & E & K & X & _). now exists d', n. Qed.
Lemma keyed_new key v a n : erase n = X $"String" [] None [X $"Key" [] (Some key) []; X $"Value" a (Some v) []] -> keyed key n = true.
Proof.
  intros E. destruct n as [i g a' x k]. cbn [erase] in E. injection E as -> _ _ Ek. destruct k as [|[i1 g1 a1 x1 k1] l]; [discriminate|]. cbn [map erase] in Ek. injection Ek as -> _ -> _ _. unfold keyed. cbn [etag ekids existsb]. unfold is_key. cbn [etag etext]. rewrite ?str_eqb_refl. cbn. rewrite ?str_eqb_refl. reflexivity.
Qed.
Lemma set_string_again R d t key v p q d1 : wf d -> has d t -> tidy t -> plain key -> text_ok v = true -> (q = None \/ exists b : bool, q = Some b /\ prot_after key t p = Some (if b then $"True" else $"False")) -> set_string R key (eid t) (Some v) p d = (Ok tt, d1) ->
  exists d2, set_string R key (eid t) (Some v) q d1 = (Ok tt, d2) /\ untouched d1 d2.
Proof.
  intros W Ht Hy Hk Hv Hq E. destruct (set_string_exact R d t key v p W Ht Hy Hk Hv) as (d1' & n & E1 & K1 & X1). rewrite E in E1. injection E1 as <-. pose proof K1 as (W1 & _ & _ & _ & H1 & _).
  destruct (set_string_spec R d t key v p W Ht Hy Hk Hv) as (d1' & t1 & E1 & (_ & Ht1 & (Ei1 & _) & _) & Hy1 & B1). rewrite E in E1. injection E1 as <-.
  assert (t1 = set_kids (rest (keyed key) t ++ [n]) t) as -> by (apply (unique_inj (d_forest d1)); [apply W1|exact Ht1|exact H1|rewrite set_kids_eid; congruence]).
  destruct (set_string_exact R d1 _ key v q W1 H1 Hy1 Hk Hv) as (d2 & m & E2 & K2 & X2). rewrite set_kids_eid in E2. exists d2. split; [exact E2|].
  rewrite (rest_again _ t n (keyed_new _ _ _ _ X1)) in K2. apply (kids_again d1 d2 t _ n m W1 H1 K2). rewrite X1, X2.
  assert (P : prot_after key (set_kids (rest (keyed key) t ++ [n]) t) q = prot_after key t p); [|now rewrite P].
  assert (P0 : prot_after key (set_kids (rest (keyed key) t ++ [n]) t) None = prot_after key t p) by (unfold prot_after at 1; rewrite B1, look_set, str_eqb_refl; reflexivity).
  destruct Hq as [->|(b & -> & ->)]; [exact P0|reflexivity].
Qed.

(** *** Properties *)
Lemma set_prop_string R d t p v : wf d -> has d t -> tidy t ->
  set_prop R p (eid t) (Some v) d = set_string R (prop_name p) (eid t) (Some v) (if secret p then if filled (field_text (prop_name p) t) then None else Some true else None) d.
Proof.
  intros H Ht Hy. destruct p; try reflexivity; cbn [set_prop secret prop_name]; [unfold set_password; rewrite (mbind_ok _ _ _ _ _ (get_string_spec R d t $"Password" H Ht Hy (Api_fields.prop_plain P_password)))|unfold set_otp; rewrite (mbind_ok _ _ _ _ _ (get_string_spec R d t $"otp" H Ht Hy (Api_fields.prop_plain P_otp)))]; reflexivity.
Qed.
Lemma set_prop_again R d t p v d1 : wf d -> has d t -> tidy t -> text_ok v = true -> settled p v t -> set_prop R p (eid t) (Some v) d = (Ok tt, d1) ->
  exists d2, set_prop R p (eid t) (Some v) d1 = (Ok tt, d2) /\ untouched d1 d2.
Proof.
  intros W Ht Hy Hv Hs E. rewrite (set_prop_string R d t p v W Ht Hy) in E. match type of E with set_string _ _ _ _ ?q _ = _ => destruct (set_string_spec R d t (prop_name p) v q W Ht Hy (Api_fields.prop_plain p) Hv) as (d1' & t1 & E1 & (W1 & Ht1 & (Ei & _) & _) & Hy1 & B1) end. rewrite E in E1. injection E1 as <-.
  rewrite <- Ei. rewrite (set_prop_string R d1 t1 p v W1 Ht1 Hy1). rewrite Ei. match type of E with set_string _ _ _ _ ?q _ = _ => refine (set_string_again R d t (prop_name p) v q _ d1 W Ht Hy (Api_fields.prop_plain p) Hv _ E) end.
  assert (F : field_text (prop_name p) t1 = Some v) by (unfold field_text; rewrite B1, look_set, str_eqb_refl; reflexivity). rewrite F. destruct (secret p) eqn:S; [|now left]. destruct v as [|c v]; [|now left]. right. exists true. split; [reflexivity|].
  destruct Hs as [Hs|[Hs|[Hs|Hs]]]; [congruence|congruence| |].
  - rewrite Hs. reflexivity.
  - destruct (filled (field_text (prop_name p) t)); [exact Hs|reflexivity].
Qed.

(** *** Texts *)
Lemma retext_again d d1 d2 p v : wf d -> has d p -> retext d d1 p v -> retext d1 d2 (set_text v p) v -> untouched d1 d2.
Proof.
  intros W Hp (W1 & _ & _ & _ & H1 & _) (W2 & M2 & _ & R2 & H2 & L2). pose proof M2 as (? & ? & ?). split; [|auto]. apply (rows_document d1 d2 W1 W2); [now rewrite R2|]. intros x _. destruct (Nat.eq_dec x (eid (set_text v p))) as [->|N]; [|now apply L2].
  rewrite (look_self _ _ (wf_unique _ W1) H1). assert (E : set_text v (set_text v p) = set_text v p) by now destruct p. rewrite E in H2. now apply look_self; [apply W2|].
Qed.
Lemma set_time_again d t name v d1 : wf d -> has d t -> set_time name (eid t) v d = (Ok tt, d1) -> exists d2, set_time name (eid t) v d1 = (Ok tt, d2) /\ untouched d1 d2.
Proof.
  intros W Ht E. destruct (time_slot name t) as [p|] eqn:Ep.
  - destruct (slot_facts d t name p W Ht Ep) as (ts & E1 & E2 & _ & Hp & _). destruct (encode_time (v4 d) v) as [s|x] eqn:Es.
    + destruct (set_time_run d t name p v s W Ht Ep Es) as (d1' & E' & Hr). rewrite E in E'. injection E' as <-. pose proof Hr as (W1 & _). pose proof (retext_tree d d1 p _ W Hp Hr t Ht) as Ht1.
      assert (Ei : eid (upd (eid p) (set_text (Some s)) t) = eid t) by apply upd_text_head. assert (Ep1 : time_slot name (upd (eid p) (set_text (Some s)) t) = Some (set_text (Some s) p)) by (rewrite (time_slot_upd d t _ p _ _ W Ht Ep), Ep; cbn [option_map]; now rewrite upd_here).
      destruct (set_time_run d1 _ name _ v s W1 Ht1 Ep1) as (d2 & E3 & Hr2); [rewrite (retext_v4 _ _ _ _ Hr); exact Es|]. rewrite Ei in E3. exists d2. split; [exact E3|]. exact (retext_again d d1 d2 p _ W Hp Hr Hr2).
    + exfalso. unfold set_time in E. rewrite (mbind_ok _ _ _ _ _ (the_run d (eid t) t W Ht eq_refl)), E1, E2 in E. unfold mbind, encode_t, lift in E. rewrite Es in E. discriminate.
  - assert (N : forall d0, wf d0 -> has d0 t -> set_time name (eid t) v d0 = (Ok tt, d0)).
    { intros d0 W0 H0. unfold set_time. rewrite (mbind_ok _ _ _ _ _ (the_run d0 (eid t) t W0 H0 eq_refl)). unfold time_slot in Ep. destruct (find1 $"Times" t) as [ts|]; [rewrite Ep|]; reflexivity. }
    rewrite (N d W Ht) in E. injection E as <-. exists d. split; [now apply N|]. now repeat split.
Qed.
Lemma set_expires_again d t b d1 : wf d -> has d t -> set_expires (eid t) b d = (Ok tt, d1) -> exists d2, set_expires (eid t) b d1 = (Ok tt, d2) /\ untouched d1 d2.
Proof.
  intros W Ht E. destruct (time_slot $"Expires" t) as [p|] eqn:Ep.
  - destruct (slot_facts d t _ p W Ht Ep) as (_ & _ & _ & _ & Hp & _). destruct (set_expires_run d t p b W Ht Ep) as (d1' & E' & Hr). rewrite E in E'. injection E' as <-. pose proof Hr as (W1 & _). set (s := if b then $"True" else $"False") in *. pose proof (retext_tree d d1 p _ W Hp Hr t Ht) as Ht1.
    assert (Ei : eid (upd (eid p) (set_text (Some s)) t) = eid t) by apply upd_text_head. assert (Ep1 : time_slot $"Expires" (upd (eid p) (set_text (Some s)) t) = Some (set_text (Some s) p)) by (rewrite (time_slot_upd d t _ p _ _ W Ht Ep), Ep; cbn [option_map]; now rewrite upd_here).
    destruct (set_expires_run d1 _ _ b W1 Ht1 Ep1) as (d2 & E3 & Hr2). rewrite Ei in E3. exists d2. split; [exact E3|]. exact (retext_again d d1 d2 p _ W Hp Hr Hr2).
  - exfalso. unfold set_expires, expires_elem in E. unfold time_slot in Ep. unfold mbind at 1 in E. rewrite (mbind_ok _ _ _ _ _ (the_run d (eid t) t W Ht eq_refl)) in E. destruct (find1 $"Times" t) as [ts|]; [rewrite Ep in E|]; discriminate.
Qed.
Lemma set_auto_again n v d t d1 (m : M unit) : wf d -> has d t -> (forall d0 t0 p, wf d0 -> has d0 t0 -> eid t0 = eid t -> at_slot n t0 = Some p -> m d0 = lx_set_text (eid p) v d0) ->
  (at_slot n t = None -> exists x, fst (m d) = Err x) -> m d = (Ok tt, d1) -> exists d2, m d1 = (Ok tt, d2) /\ untouched d1 d2.
Proof.
  intros W Ht Hm Hn E. destruct (at_slot n t) as [p|] eqn:Ep; [|destruct (Hn eq_refl) as (x & Ex); rewrite E in Ex; discriminate].
  pose proof (at_slot_In _ _ _ Ep) as [Hd _]. destruct (desc_apart d t p W Ht Hd) as [Hp _]. rewrite (Hm d t p W Ht eq_refl Ep) in E.
  assert (L : legal v = true) by (destruct v as [s|]; [|reflexivity]; cbn; destruct (text_ok s) eqn:Es; [reflexivity|rewrite (set_text_illegal d _ s Es) in E; discriminate]).
  destruct (set_text_retext d p v W Hp L) as (d1' & E' & Hr). rewrite E in E'. injection E' as <-. pose proof Hr as (W1 & _). pose proof (retext_tree d d1 p _ W Hp Hr t Ht) as Ht1. pose proof Hr as (_ & _ & _ & _ & Hp1 & _).
  assert (Ep1 : at_slot n (upd (eid p) (set_text v) t) = Some (set_text v p)) by (rewrite (at_slot_upd d t n n p v W Ht Ep), Ep; cbn [option_map]; now rewrite upd_here).
  destruct (set_text_retext d1 _ v W1 Hp1 L) as (d2 & E3 & Hr2). exists d2. split; [|exact (retext_again d d1 d2 p _ W Hp Hr Hr2)]. rewrite (Hm d1 _ _ W1 Ht1 (proj1 (upd_text_head _ _ _)) Ep1). exact E3.
Qed.

Lemma accepted_or v : (exists s, v = Some s /\ text_ok s = true) \/ rejected v.
Proof. destruct v as [s|]; [|now right]. destruct (text_ok s) eqn:E; [left; now exists s|now right]. Qed.
Theorem same_again R Zl C C' o d d1 : wf d -> assigns d o -> IntegritySpec.run R Zl C o d = (Ok tt, d1) -> exists d2, IntegritySpec.run R Zl C' o d1 = (Ok tt, d2) /\ untouched d1 d2.
Proof.
  assert (SUB : forall T t v, wf d -> has d t -> at_most_one T t -> set_sub T (eid t) v d = (Ok tt, d1) -> exists d2, set_sub T (eid t) v d1 = (Ok tt, d2) /\ untouched d1 d2).
  { intros T t v W Ht Ho E. assert (V : exists s, v = Some s /\ text_ok s = true).
    { destruct (accepted_or v) as [V|V]; [exact V|]. exfalso. destruct (set_sub_rejected d t T v W Ht V) as (e & d' & t' & X & _). rewrite E in X. discriminate. }
    destruct V as (s & -> & Hs). now apply (set_sub_again d t T s d1). }
  intros W A E. destruct o; cbn [assigns IntegritySpec.run] in *; try contradiction.
  - destruct A as (t & Ht & <- & Hy & Hs). assert (V : exists s, v = Some s /\ text_ok s = true).
    { destruct (accepted_or v) as [V|V]; [exact V|]. exfalso. destruct (prop_rejected R d t p v W Ht Hy V) as (e & d' & t' & X & _). rewrite E in X. discriminate. }
    destruct V as (s & -> & Hv). apply (set_prop_again R d t p s d1); auto.
  - destruct A as (Hk & t & Ht & <- & Hy). unfold set_custom_property in *. destruct (reserved (Some key)); [discriminate|]. assert (V : exists s, v = Some s /\ text_ok s = true).
    { destruct (accepted_or v) as [V|V]; [exact V|]. exfalso. destruct (set_string_rejected R d t key v (Some protect) W Ht Hy Hk V) as (e & d' & t' & X & _). rewrite E in X. discriminate. }
    destruct V as (s & -> & Hv). apply (set_string_again R d t key s (Some protect) (Some protect) d1); auto. right. exists protect. split; reflexivity.
  - destruct A as (t & Ht & <- & Ho). exact (SUB _ t _ W Ht Ho E).
  - destruct A as (t & Ht & <- & Ho). exact (SUB _ t _ W Ht Ho E).
  - destruct A as (t & Ht & <- & Ho). exact (SUB _ t _ W Ht Ho E).
  - destruct A as (t & Ht & <- & Ho). exact (SUB _ t _ W Ht Ho E).
  - destruct A as (t & Ht & <- & Ho). exact (SUB _ t _ W Ht Ho E).
  - destruct A as (t & Ht & <- & _). rewrite set_timeprop_name in *. exact (set_time_again d t _ v d1 W Ht E).
  - destruct A as (t & Ht & <- & _). exact (set_expires_again d t b d1 W Ht E).
  - destruct A as (t & Ht & <- & _). apply (set_auto_again 0 (option_map py_str_bool v) d t d1 _ W Ht); [intros d0 t0 p W0 H0 <-; now apply set_at_enabled| |exact E].
    intros N. exists Ex_Attribute. unfold set_autotype_enabled. rewrite (mbind_ok _ _ _ _ _ (the_run d (eid t) t W Ht eq_refl)). cbn [at_slot] in N. now rewrite N.
  - destruct A as (t & Ht & <- & _). apply (set_auto_again 1 v d t d1 _ W Ht); [intros d0 t0 p W0 H0 <-; now apply set_at_sequence| |exact E].
    intros N. exists Ex_Attribute. unfold set_autotype_sequence. rewrite (mbind_ok _ _ _ _ _ (the_run d (eid t) t W Ht eq_refl)). cbn [at_slot] in N. now rewrite N.
  - destruct A as (t & Ht & <- & _). apply (set_auto_again 2 v d t d1 _ W Ht); [intros d0 t0 p W0 H0 <-; now apply set_at_window| |exact E].
    intros N. exists Ex_Attribute. unfold set_autotype_window. rewrite (mbind_ok _ _ _ _ _ (the_run d (eid t) t W Ht eq_refl)). cbn [at_slot] in N. now rewrite N.
Qed.
