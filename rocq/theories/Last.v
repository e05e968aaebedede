(** Only the last assignment counts. *)
From Verif Require Import Base PyStr Xml Tree XPath Uuid Time Db Save FindSpec XPath_facts XPath_eval Find_facts Api ApiSpec StructSpec CredSpec Heap Prim Api_xpath Api_fields Api_sub Api_claims Struct Integrity_ops IntegritySpec Lib Kdbx Object ObjectSpec FailSpec Scratch AgainSpec Again LastSpec.

(** *** Two databases made from one by giving an element children that look the same *)
Lemma both_looking d a b t ta tb : wf d -> wf a -> wf b -> has d t -> has a ta -> has b tb -> eid ta = eid t -> eid tb = eid t -> erase ta = erase tb -> only [eid t] d a -> only [eid t] d b ->
  forall n u, (List.length (ids u) <= n)%nat -> has d u -> exists ua ub, has a ua /\ has b ub /\ eid ua = eid u /\ eid ub = eid u /\ erase ua = erase ub.
Proof.
  intros W Wa Wb Ht Ha Hb Ea Eb Ee (_ & _ & _ & _ & _ & Oa) (_ & _ & _ & _ & _ & Ob). induction n as [|n IH]; intros u Hn Hu; [destruct u; cbn in Hn; lia|].
  destruct (Nat.eq_dec (eid u) (eid t)) as [E|E].
  - exists ta, tb. rewrite E. auto.
  - assert (La : lk a (eid u) = Some (row_of u)) by (apply Oa; [now apply look_self; [apply W|]|intros [X|[]]; congruence]).
    assert (Lb : lk b (eid u) = Some (row_of u)) by (apply Ob; [now apply look_self; [apply W|]|intros [X|[]]; congruence]).
    destruct (look_has a _ _ Wa La) as (ua & Hua & Eua & Era). destruct (look_has b _ _ Wb Lb) as (ub & Hub & Eub & Erb). exists ua, ub. do 4 (split; [assumption|]).
    destruct u as [i g0 a0 x k], ua as [i1 g1 a1 x1 k1], ub as [i2 g2 a2 x2 k2]. cbn [row_of etag eattrs etext ekids] in Era, Erb. injection Era as -> -> -> E1. injection Erb as -> -> -> E2. cbn [erase]. f_equal.
    assert (G : forall c, In c k -> exists ca cb, has a ca /\ has b cb /\ eid ca = eid c /\ eid cb = eid c /\ erase ca = erase cb).
    { intros c Hc. apply IH; [|apply (has_kid d _ c Hu); exact Hc]. cbn [ids List.length] in Hn. clear -Hc Hn. assert (List.length (ids c) <= List.length (flat_map ids k))%nat; [|lia]. clear Hn. induction k as [|c' k IH]; [destruct Hc|]. cbn [flat_map]. rewrite app_length. destruct Hc as [->|Hc]; [lia|]. specialize (IH Hc). lia. }
    assert (H1 : forall c, In c k1 -> has a c) by (intros c Hc; apply (has_kid a _ c Hua); exact Hc).
    assert (H2 : forall c, In c k2 -> has b c) by (intros c Hc; apply (has_kid b _ c Hub); exact Hc).
    clear -G H1 H2 E1 E2 Wa Wb. revert k1 k2 E1 E2 H1 H2. induction k as [|c k IHk]; intros [|c1 k1] [|c2 k2] E1 E2 H1 H2; try discriminate; [reflexivity|]. cbn [map] in *. injection E1 as F1 E1. injection E2 as F2 E2. f_equal.
    + destruct (G c) as (wa & wb & Ha & Hb & Ea & Eb & Er); [now left|].
      assert (c1 = wa) as -> by (apply (unique_inj (d_forest a)); [apply Wa|apply H1; now left|exact Ha|congruence]).
      assert (c2 = wb) as -> by (apply (unique_inj (d_forest b)); [apply Wb|apply H2; now left|exact Hb|congruence]). exact Er.
    + apply IHk; [intros x Hx; apply G; now right|exact E1|exact E2|intros x Hx; apply H1; now right|intros x Hx; apply H2; now right].
Qed.
Lemma both_kids d a b t K n m : wf d -> has d t -> rekids d a t (K ++ [n]) -> rekids d b t (K ++ [m]) -> erase m = erase n -> untouched a b.
Proof.
  intros W Ht Ka Kb E. pose proof (rekids_only _ _ _ _ W Ka) as Oa. pose proof (rekids_only _ _ _ _ W Kb) as Ob. destruct Ka as (Wa & (A1 & A2 & A3) & _ & Ra & Ha & _). destruct Kb as (Wb & (B1 & B2 & B3) & _ & Rb & Hb & _). split; [|repeat split; congruence].
  assert (Ee : erase (set_kids (K ++ [n]) t) = erase (set_kids (K ++ [m]) t)) by (destruct t as [i g x y k]; cbn [set_kids erase]; now rewrite !map_app, (f_equal (fun e => [e]) E : map erase [m] = map erase [n])).
  pose proof (both_looking d a b t _ _ W Wa Wb Ht Ha Hb (set_kids_eid _ _) (set_kids_eid _ _) Ee Oa Ob) as S.
  destruct (top_forest d W) as (r & F & EF). destruct (top_forest a Wa) as (ra & Fa & EFa). destruct (top_forest b Wb) as (rb & Fb & EFb).
  assert (Era : eid ra = eid r) by (rewrite EF, EFa in Ra; now injection Ra). assert (Erb : eid rb = eid r) by (rewrite EF, EFb in Rb; now injection Rb).
  destruct (S _ r (le_n _)) as (wa & wb & Hwa & Hwb & Ea & Eb & Er); [rewrite EF; apply elements_root; now left|].
  assert (ra = wa) as -> by (apply (unique_inj (d_forest a)); [apply Wa|rewrite EFa; apply elements_root; now left|exact Hwa|congruence]).
  assert (rb = wb) as -> by (apply (unique_inj (d_forest b)); [apply Wb|rewrite EFb; apply elements_root; now left|exact Hwb|congruence]).
  unfold document. rewrite EFa, EFb. cbn [hd_error option_map]. now rewrite Er.
Qed.

(** *** Sub-elements *)
Lemma set_sub_last d t T v w d1 d2 : wf d -> has d t -> text_ok v = true -> text_ok w = true -> at_most_one T t -> set_sub T (eid t) (Some v) d = (Ok tt, d1) -> set_sub T (eid t) (Some w) d1 = (Ok tt, d2) ->
  exists d3, set_sub T (eid t) (Some w) d = (Ok tt, d3) /\ untouched d3 d2.
Proof.
  intros W Ht Hv Hw Ho E F. destruct (set_sub_exact d t T v W Ht Hv Ho) as (d1' & n & E1 & K1 & X1). rewrite E in E1. injection E1 as <-. pose proof K1 as (W1 & _ & _ & _ & H1 & _).
  assert (Tn : tagged T n = true) by (unfold tagged; apply erase_kids in X1 as (-> & _); apply str_eqb_refl).
  destruct (set_sub_exact d t T w W Ht Hw Ho) as (d3 & n3 & E3 & K3 & X3). exists d3. split; [exact E3|].
  destruct (set_sub_exact d1 _ T w W1 H1 Hw) as (d2' & m & E2 & K2 & X2).
  - unfold at_most_one. change (kids_of T (set_kids (rest (tagged T) t ++ [n]) t)) with (filter (tagged T) (ekids (set_kids (rest (tagged T) t ++ [n]) t))). rewrite set_kids_ekids, filter_app, app_length. cbn [filter]. rewrite Tn.
    assert (Z : filter (tagged T) (rest (tagged T) t) = []); [|rewrite Z; reflexivity]. unfold rest. induction (ekids t) as [|b l IH]; [reflexivity|]. cbn [filter]. destruct (tagged T b) eqn:Eb; cbn [negb filter]; [|rewrite Eb]; exact IH.
  - rewrite set_kids_eid in E2. rewrite F in E2. injection E2 as <-. rewrite (rest_again _ t n Tn) in K2. apply (both_kids d d3 d2 t _ n3 m W Ht K3 (rekids_trans _ _ _ _ _ _ K1 K2)). congruence.
Qed.

(** *** String fields *)
Lemma set_string_last R d t key v w p q r d1 d2 : wf d -> has d t -> tidy t -> plain key -> text_ok v = true -> text_ok w = true ->
  (q = None /\ prot_after key t p = prot_after key t r \/ exists b : bool, q = Some b /\ prot_after key t r = Some (if b then $"True" else $"False")) ->
  set_string R key (eid t) (Some v) p d = (Ok tt, d1) -> set_string R key (eid t) (Some w) q d1 = (Ok tt, d2) -> exists d3, set_string R key (eid t) (Some w) r d = (Ok tt, d3) /\ untouched d3 d2.
Proof.
  intros W Ht Hy Hk Hv Hw Hq E F. destruct (set_string_exact R d t key v p W Ht Hy Hk Hv) as (d1' & n & E1 & K1 & X1). rewrite E in E1. injection E1 as <-. pose proof K1 as (W1 & _ & _ & _ & H1 & _).
  destruct (set_string_spec R d t key v p W Ht Hy Hk Hv) as (d1' & t1 & E1 & (_ & Ht1 & (Ei1 & _) & _) & Hy1 & B1). rewrite E in E1. injection E1 as <-.
  assert (t1 = set_kids (rest (keyed key) t ++ [n]) t) as -> by (apply (unique_inj (d_forest d1)); [apply W1|exact Ht1|exact H1|rewrite set_kids_eid; congruence]).
  destruct (set_string_exact R d1 _ key w q W1 H1 Hy1 Hk Hw) as (d2' & m & E2 & K2 & X2). rewrite set_kids_eid in E2. rewrite F in E2. injection E2 as <-.
  destruct (set_string_exact R d t key w r W Ht Hy Hk Hw) as (d3 & n3 & E3 & K3 & X3). exists d3. split; [exact E3|].
  rewrite (rest_again _ t n (keyed_new _ _ _ _ X1)) in K2. apply (both_kids d d3 d2 t _ n3 m W Ht K3 (rekids_trans _ _ _ _ _ _ K1 K2)). rewrite X3, X2.
  assert (P : prot_after key (set_kids (rest (keyed key) t ++ [n]) t) q = prot_after key t r); [|now rewrite P].
  assert (P0 : prot_after key (set_kids (rest (keyed key) t ++ [n]) t) None = prot_after key t p) by (unfold prot_after at 1; rewrite B1, look_set, str_eqb_refl; reflexivity).
  destruct Hq as [[-> Hq]|(b & -> & ->)]; [now rewrite P0|reflexivity].
Qed.
Lemma set_prop_last R d t p v w d1 d2 : wf d -> has d t -> tidy t -> text_ok v = true -> text_ok w = true -> settled p v t -> set_prop R p (eid t) (Some v) d = (Ok tt, d1) -> set_prop R p (eid t) (Some w) d1 = (Ok tt, d2) ->
  exists d3, set_prop R p (eid t) (Some w) d = (Ok tt, d3) /\ untouched d3 d2.
Proof.
  intros W Ht Hy Hv Hw Hs E F. rewrite (set_prop_string R d t p v W Ht Hy) in E. match type of E with set_string _ _ _ _ ?q _ = _ => destruct (set_string_spec R d t (prop_name p) v q W Ht Hy (Api_fields.prop_plain p) Hv) as (d1' & t1 & E1 & (W1 & Ht1 & (Ei & _) & _) & Hy1 & B1) end. rewrite E in E1. injection E1 as <-.
  rewrite <- Ei in F. rewrite (set_prop_string R d1 t1 p w W1 Ht1 Hy1) in F. rewrite Ei in F. rewrite (set_prop_string R d t p w W Ht Hy).
  refine (set_string_last R d t (prop_name p) v w _ _ _ d1 d2 W Ht Hy (Api_fields.prop_plain p) Hv Hw _ E F).
  assert (Fl : field_text (prop_name p) t1 = Some v) by (unfold field_text; rewrite B1, look_set, str_eqb_refl; reflexivity). rewrite Fl. destruct (secret p) eqn:S; [|left; now split]. destruct v as [|c v]; [|left; now split]. right. exists true. split; [reflexivity|].
  destruct Hs as [Hs|[Hs|[Hs|Hs]]]; [congruence|congruence| |].
  - rewrite Hs. reflexivity.
  - destruct (filled (field_text (prop_name p) t)); [exact Hs|reflexivity].
Qed.

(** *** Texts *)
Lemma retext_last d d1 d2 d3 p v w : wf d -> has d p -> retext d d1 p v -> retext d1 d2 (set_text v p) w -> retext d d3 p w -> untouched d3 d2.
Proof.
  intros W Hp (W1 & (A1 & A2 & A3) & _ & R1 & H1 & L1) (W2 & (B1 & B2 & B3) & _ & R2 & H2 & L2) (W3 & (C1 & C2 & C3) & _ & R3 & H3 & L3). split; [|repeat split; congruence]. apply (rows_document d3 d2 W3 W2); [now rewrite R2, R1, R3|]. intros x _.
  assert (Ei : forall u, eid (set_text u p) = eid p) by now destruct p. assert (E : set_text w (set_text v p) = set_text w p) by now destruct p. rewrite E in H2.
  destruct (Nat.eq_dec x (eid p)) as [->|N]; [|rewrite L2 by (rewrite Ei; exact N); rewrite L1 by exact N; symmetry; now apply L3].
  rewrite <- (Ei w). rewrite (look_self _ _ (wf_unique _ W3) H3). now apply look_self; [apply W2|].
Qed.
Lemma set_time_last d t name v w d1 d2 : wf d -> has d t -> set_time name (eid t) v d = (Ok tt, d1) -> set_time name (eid t) w d1 = (Ok tt, d2) -> exists d3, set_time name (eid t) w d = (Ok tt, d3) /\ untouched d3 d2.
Proof.
  intros W Ht E F. destruct (time_slot name t) as [p|] eqn:Ep.
  - destruct (slot_facts d t name p W Ht Ep) as (ts & E1 & E2 & _ & Hp & _). destruct (encode_time (v4 d) v) as [s|x] eqn:Es.
    + destruct (set_time_run d t name p v s W Ht Ep Es) as (d1' & E' & Hr). rewrite E in E'. injection E' as <-. pose proof Hr as (W1 & _). pose proof (retext_tree d d1 p _ W Hp Hr t Ht) as Ht1.
      assert (Ei : eid (upd (eid p) (set_text (Some s)) t) = eid t) by apply upd_text_head. assert (Ep1 : time_slot name (upd (eid p) (set_text (Some s)) t) = Some (set_text (Some s) p)) by (rewrite (time_slot_upd d t _ p _ _ W Ht Ep), Ep; cbn [option_map]; now rewrite upd_here).
      pose proof (retext_v4 _ _ _ _ Hr) as V. destruct (encode_time (v4 d) w) as [z|x] eqn:Ez.
      * destruct (set_time_run d1 _ name _ w z W1 Ht1 Ep1) as (d2' & E3 & Hr2); [rewrite V; exact Ez|]. rewrite Ei, F in E3. injection E3 as <-.
        destruct (set_time_run d t name p w z W Ht Ep Ez) as (d3 & E4 & Hr3). exists d3. split; [exact E4|]. exact (retext_last d d1 d2 d3 p _ _ W Hp Hr Hr2 Hr3).
      * exfalso. destruct (slot_facts d1 _ name _ W1 Ht1 Ep1) as (ts1 & F1 & F2 & _). rewrite <- Ei in F. unfold set_time in F. rewrite (mbind_ok _ _ _ _ _ (the_run d1 _ _ W1 Ht1 eq_refl)), F1, F2 in F. unfold mbind, encode_t, lift in F. rewrite V, Ez in F. discriminate.
    + exfalso. unfold set_time in E. rewrite (mbind_ok _ _ _ _ _ (the_run d (eid t) t W Ht eq_refl)), E1, E2 in E. unfold mbind, encode_t, lift in E. rewrite Es in E. discriminate.
  - assert (N : forall u, set_time name (eid t) u d = (Ok tt, d)).
    { intros u. unfold set_time. rewrite (mbind_ok _ _ _ _ _ (the_run d (eid t) t W Ht eq_refl)). unfold time_slot in Ep. destruct (find1 $"Times" t) as [ts|]; [rewrite Ep|]; reflexivity. }
    rewrite N in E. injection E as <-. exists d2. split; [exact F|]. now repeat split.
Qed.
Lemma set_expires_last d t b c d1 d2 : wf d -> has d t -> set_expires (eid t) b d = (Ok tt, d1) -> set_expires (eid t) c d1 = (Ok tt, d2) -> exists d3, set_expires (eid t) c d = (Ok tt, d3) /\ untouched d3 d2.
Proof.
  intros W Ht E F. destruct (time_slot $"Expires" t) as [p|] eqn:Ep.
  - destruct (slot_facts d t _ p W Ht Ep) as (_ & _ & _ & _ & Hp & _). destruct (set_expires_run d t p b W Ht Ep) as (d1' & E' & Hr). rewrite E in E'. injection E' as <-. pose proof Hr as (W1 & _). set (s := if b then $"True" else $"False") in *. pose proof (retext_tree d d1 p _ W Hp Hr t Ht) as Ht1.
    assert (Ei : eid (upd (eid p) (set_text (Some s)) t) = eid t) by apply upd_text_head. assert (Ep1 : time_slot $"Expires" (upd (eid p) (set_text (Some s)) t) = Some (set_text (Some s) p)) by (rewrite (time_slot_upd d t _ p _ _ W Ht Ep), Ep; cbn [option_map]; now rewrite upd_here).
    destruct (set_expires_run d1 _ _ c W1 Ht1 Ep1) as (d2' & E3 & Hr2). rewrite Ei, F in E3. injection E3 as <-. destruct (set_expires_run d t p c W Ht Ep) as (d3 & E4 & Hr3). exists d3. split; [exact E4|]. exact (retext_last d d1 d2 d3 p _ _ W Hp Hr Hr2 Hr3).
  - exfalso. unfold set_expires, expires_elem in E. unfold time_slot in Ep. unfold mbind at 1 in E. rewrite (mbind_ok _ _ _ _ _ (the_run d (eid t) t W Ht eq_refl)) in E. destruct (find1 $"Times" t) as [ts|]; [rewrite Ep in E|]; discriminate.
Qed.
Lemma set_auto_last n v w d t d1 d2 (m m' : M unit) : wf d -> has d t -> (forall d0 t0 p, wf d0 -> has d0 t0 -> eid t0 = eid t -> at_slot n t0 = Some p -> m d0 = lx_set_text (eid p) v d0 /\ m' d0 = lx_set_text (eid p) w d0) ->
  (at_slot n t = None -> exists x, fst (m d) = Err x) -> m d = (Ok tt, d1) -> m' d1 = (Ok tt, d2) -> exists d3, m' d = (Ok tt, d3) /\ untouched d3 d2.
Proof.
  intros W Ht Hm Hn E F. destruct (at_slot n t) as [p|] eqn:Ep; [|destruct (Hn eq_refl) as (x & Ex); rewrite E in Ex; discriminate].
  pose proof (at_slot_In _ _ _ Ep) as [Hd _]. destruct (desc_apart d t p W Ht Hd) as [Hp _]. rewrite (proj1 (Hm d t p W Ht eq_refl Ep)) in E. rewrite (proj2 (Hm d t p W Ht eq_refl Ep)).
  assert (L : forall z d0 j d0', lx_set_text j z d0 = (Ok tt, d0') -> legal z = true) by (intros [s|] d0 j d0' X; [|reflexivity]; cbn; destruct (text_ok s) eqn:Es; [reflexivity|rewrite (set_text_illegal d0 _ s Es) in X; discriminate]).
  destruct (set_text_retext d p v W Hp (L _ _ _ _ E)) as (d1' & E' & Hr). rewrite E in E'. injection E' as <-. pose proof Hr as (W1 & _). pose proof (retext_tree d d1 p _ W Hp Hr t Ht) as Ht1. pose proof Hr as (_ & _ & _ & _ & Hp1 & _).
  assert (Ep1 : at_slot n (upd (eid p) (set_text v) t) = Some (set_text v p)) by (rewrite (at_slot_upd d t n n p v W Ht Ep), Ep; cbn [option_map]; now rewrite upd_here).
  rewrite (proj2 (Hm d1 _ _ W1 Ht1 (proj1 (upd_text_head _ _ _)) Ep1)) in F. pose proof (L _ _ _ _ F) as Lw.
  destruct (set_text_retext d1 _ w W1 Hp1 Lw) as (d2' & E3 & Hr2). rewrite F in E3. injection E3 as <-. destruct (set_text_retext d p w W Hp Lw) as (d3 & E4 & Hr3). exists d3. split; [exact E4|]. exact (retext_last d d1 d2 d3 p _ _ W Hp Hr Hr2 Hr3).
Qed.

Theorem last_counts R Zl C C' C'' o o' d d1 d2 : wf d -> assigns d o -> same_property o o' -> IntegritySpec.run R Zl C o d = (Ok tt, d1) -> IntegritySpec.run R Zl C' o' d1 = (Ok tt, d2) ->
  exists d3, IntegritySpec.run R Zl C'' o' d = (Ok tt, d3) /\ untouched d3 d2.
Proof.
  assert (SUB : forall T t v w, wf d -> has d t -> at_most_one T t -> set_sub T (eid t) v d = (Ok tt, d1) -> set_sub T (eid t) w d1 = (Ok tt, d2) -> exists d3, set_sub T (eid t) w d = (Ok tt, d3) /\ untouched d3 d2).
  { intros T t v w W Ht Ho E F. assert (V : exists s, v = Some s /\ text_ok s = true).
    { destruct (accepted_or v) as [V|V]; [exact V|]. exfalso. destruct (set_sub_rejected d t T v W Ht V) as (e & d' & t' & X & _). rewrite E in X. discriminate. }
    destruct V as (s & -> & Hs). destruct (set_sub_exact d t T s W Ht Hs Ho) as (d1' & n & E1 & K1 & X1). rewrite E in E1. injection E1 as <-. pose proof K1 as (W1 & _ & _ & _ & H1 & _).
    assert (V : exists z, w = Some z /\ text_ok z = true).
    { destruct (accepted_or w) as [V|V]; [exact V|]. exfalso. destruct (set_sub_rejected d1 _ T w W1 H1 V) as (e & d' & t' & X & _). rewrite set_kids_eid, F in X. discriminate. }
    destruct V as (z & -> & Hz). now apply (set_sub_last d t T s z d1 d2). }
  assert (STR : forall key v p t, wf d -> has d t -> tidy t -> plain key -> set_string R key (eid t) v p d = (Ok tt, d1) -> exists s t1, v = Some s /\ text_ok s = true /\ wf d1 /\ has d1 t1 /\ tidy t1 /\ eid t1 = eid t).
  { intros key v p t W Ht Hy Hk E. destruct (accepted_or v) as [(s & -> & Hs)|V].
    - destruct (set_string_spec R d t key s p W Ht Hy Hk Hs) as (d1' & t1 & E1 & (W1 & Ht1 & (Ei1 & _) & _) & Hy1 & _). rewrite E in E1. injection E1 as <-. exists s, t1. auto 8.
    - exfalso. destruct (set_string_rejected R d t key v p W Ht Hy Hk V) as (e & d' & t' & X & _). rewrite E in X. discriminate. }
  intros W A Q E F. destruct o; cbn [assigns] in A; try contradiction; destruct o'; cbn [same_property] in Q; try contradiction; cbn [IntegritySpec.run] in *.
  - destruct Q as [<- <-]. destruct A as (t & Ht & <- & Hy & Hs). assert (V : exists s, v = Some s /\ text_ok s = true).
    { destruct (accepted_or v) as [V|V]; [exact V|]. exfalso. destruct (prop_rejected R d t p v W Ht Hy V) as (e & d' & t' & X & _). rewrite E in X. discriminate. }
    destruct V as (s & -> & Hv). pose proof E as E0. rewrite (set_prop_string R d t p s W Ht Hy) in E0. destruct (STR _ _ _ t W Ht Hy (Api_fields.prop_plain p) E0) as (_ & t1 & _ & _ & W1 & Ht1 & Hy1 & Ei).
    assert (V : exists z, v0 = Some z /\ text_ok z = true).
    { destruct (accepted_or v0) as [V|V]; [exact V|]. exfalso. destruct (prop_rejected R d1 t1 p v0 W1 Ht1 Hy1 V) as (e & d' & t' & X & _). rewrite Ei, F in X. discriminate. }
    destruct V as (z & -> & Hz). apply (set_prop_last R d t p s z d1 d2); auto.
  - destruct Q as [<- <-]. destruct A as (Hk & t & Ht & <- & Hy). unfold set_custom_property in *. destruct (reserved (Some key)); [discriminate|]. destruct (STR _ _ _ t W Ht Hy Hk E) as (s & t1 & -> & Hv & W1 & Ht1 & Hy1 & Ei).
    assert (V : exists z, v0 = Some z /\ text_ok z = true).
    { destruct (accepted_or v0) as [V|V]; [exact V|]. exfalso. destruct (set_string_rejected R d1 t1 key v0 (Some protect0) W1 Ht1 Hy1 Hk V) as (e & d' & t' & X & _). rewrite Ei, F in X. discriminate. }
    destruct V as (z & -> & Hz). apply (set_string_last R d t key s z (Some protect) (Some protect0) (Some protect0) d1 d2); auto. right. exists protect0. split; reflexivity.
  - subst. destruct A as (t & Ht & <- & Ho). exact (SUB _ t _ _ W Ht Ho E F).
  - subst. destruct A as (t & Ht & <- & Ho). exact (SUB _ t _ _ W Ht Ho E F).
  - subst. destruct A as (t & Ht & <- & Ho). exact (SUB _ t _ _ W Ht Ho E F).
  - subst. destruct A as (t & Ht & <- & Ho). exact (SUB _ t _ _ W Ht Ho E F).
  - subst. destruct A as (t & Ht & <- & Ho). exact (SUB _ t _ _ W Ht Ho E F).
  - destruct Q as [<- <-]. destruct A as (t & Ht & <- & _). rewrite set_timeprop_name in *. exact (set_time_last d t _ _ _ d1 d2 W Ht E F).
  - subst. destruct A as (t & Ht & <- & _). exact (set_expires_last d t _ _ d1 d2 W Ht E F).
  - subst. destruct A as (t & Ht & <- & _). refine (set_auto_last 0 _ _ d t d1 d2 _ _ W Ht _ _ E F); [intros d0 t0 p W0 H0 <- X; split; now apply set_at_enabled|].
    intros N. exists Ex_Attribute. unfold set_autotype_enabled. rewrite (mbind_ok _ _ _ _ _ (the_run d (eid t) t W Ht eq_refl)). cbn [at_slot] in N. now rewrite N.
  - subst. destruct A as (t & Ht & <- & _). refine (set_auto_last 1 _ _ d t d1 d2 _ _ W Ht _ _ E F); [intros d0 t0 p W0 H0 <- X; split; now apply set_at_sequence|].
    intros N. exists Ex_Attribute. unfold set_autotype_sequence. rewrite (mbind_ok _ _ _ _ _ (the_run d (eid t) t W Ht eq_refl)). cbn [at_slot] in N. now rewrite N.
  - subst. destruct A as (t & Ht & <- & _). refine (set_auto_last 2 _ _ d t d1 d2 _ _ W Ht _ _ E F); [intros d0 t0 p W0 H0 <- X; split; now apply set_at_window|].
    intros N. exists Ex_Attribute. unfold set_autotype_window. rewrite (mbind_ok _ _ _ _ _ (the_run d (eid t) t W Ht eq_refl)). cbn [at_slot] in N. now rewrite N.
Qed.
