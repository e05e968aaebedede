(** No UUID comes to be there twice: histories of calls. *)
From Coq Require Import ZifyBool ZifyNat ZifyN.
From Verif Require Import Base PyStr Xml Tree XPath Uuid Time Db FindSpec XPath_facts XPath_eval Find_facts Find_path Api ApiSpec StructSpec CredSpec Heap Prim Api_xpath Struct Struct_add Struct_empty Struct_hist Struct_claims Struct_find Struct_index Struct_trash Struct_bin Bin_xpath IntegritySpec Integrity Integrity_ops Integrity_calls Integrity_step Integrity_hist LocalSpec Local Local_step LocalEx Relabel OutlineSpec Outline_tree Outline_calm Outline_step RegisterSpec Register_mute Register_calls Register Line Outline_list Listing Path PathSpec Ref Bin UniqueSpec.

(** *** The UUIDs of new elements *)
Lemma base_first C ic ex xp d b d' : base_kids C ic ex xp d = (Ok b, d') -> exists rest, b = X $"UUID" [] (Some (uuid_text (uuid1 C))) [] :: rest.
Proof.
  intros H. unfold base_kids in H. apply mbind_inv in H as [(y & _ & X)|(u & d1 & Hu & H)]; [discriminate X|]. unfold of_res, e_text in Hu. injection Hu as Hu _. cbn [forallb] in Hu. destruct (text_ok (uuid_text (uuid1 C))); [|discriminate Hu]. injection Hu as <-.
  apply mbind_inv in H as [(y & _ & X)|(i & d2 & _ & H)]; [discriminate X|]. apply mbind_inv in H as [(y & _ & X)|(c & d3 & _ & H)]; [discriminate X|]. apply mbind_inv in H as [(y & _ & X)|(p & d4 & _ & H)]; [discriminate X|]. injection H as <- _. cbn [app]. eauto.
Qed.
Lemma joined_uuid (b : bool) u l g d r d' : sane d -> Forall frameless (X $"UUID" [] (Some (uuid_text u)) [] :: l) -> a_group d g -> uuid_ok u ->
  (do c <- lx_new (e_node (if b then $"Group" else $"Entry") (X $"UUID" [] (Some (uuid_text u)) [] :: l)); do _ <- lx_append g c; ret c) d = (r, d') -> bears_uuid d' (d_next d) u.
Proof.
  intros O Fl G Hu Hr. pose proof O as [W L]. set (T := if b then $"Group" else $"Entry") in *.
  destruct (linked (e_node T (X $"UUID" [] (Some (uuid_text u)) [] :: l)) g $"Group" d O) as (d1 & t & E1 & O1 & T1 & Ht & Et & Ex & Im); [now apply laid_node|exact G|unfold T; destruct b; [apply joins_gg|apply joins_ge]|reflexivity|]. rewrite E1 in Hr. injection Hr as _ <-.
  unfold bears_uuid. rewrite <- Et. destruct O1 as [W1 _]. rewrite (get_uuid_run d1 t u W1 Ht); [reflexivity|]. unfold uuid_is. unfold first_text, find1. destruct t as [ti tt ta tx [|k ks]]; cbn in Ex; [discriminate Ex|]. injection Ex as _ _ _ Ek _.
  destruct k as [ki kt ka kx kk]. cbn in Ek. injection Ek as -> _ -> _. unfold kids_of. cbn [ekids filter etag]. change (str_eqb $"UUID" $"UUID") with true. cbn. now apply uuid_text_roundtrip.
Qed.
Lemma add_entry_uuid R C g t u p url n x tags otp icon f d e d' : sane d -> a_group d g -> uuid_ok (uuid1 C) -> add_entry R C g t u p url n x tags otp icon f d = (Ok e, d') -> bears_uuid d' e (uuid1 C).
Proof.
  intros O G Hu Hr. pose proof Hr as Hs. apply add_entry_step in Hs as (_ & _ & -> & _); [|exact O|exact G]. unfold add_entry in Hr. apply mbind_inv in Hr as [(y & _ & X)|(dup & d1 & Hd & Hr)]; [discriminate X|]. unfold lift in Hd. injection Hd as _ <-.
  assert (K : (do e <- new_entry C t u p url n otp tags (Some (match x with Some _ => true | None => false end)) x icon None true None; do _ <- lx_append g e; ret e) d = (Ok (d_next d), d') -> bears_uuid d' (d_next d) (uuid1 C)).
  { clear Hr. intros Hr. unfold new_entry in Hr. rewrite bind_bind in Hr. apply mbind_inv in Hr as [(y & _ & X)|(b & d1 & Hb & Hr)]; [discriminate X|]. pose proof (reads_run _ _ _ _ (reads_base C _ _ _) Hb) as ->.
    rewrite bind_bind in Hr. apply mbind_inv in Hr as [(y & _ & X)|(k & d1 & Hk & Hr)]; [discriminate X|]. unfold of_res in Hk. injection Hk as Hk <-.
    assert (Fb := base_frameless _ _ _ _ _ _ _ Hb). assert (Fk := entry_frameless _ _ _ _ _ _ _ _ _ _ _ Hk). apply base_first in Hb as (q & ->). rewrite <- app_comm_cons in Hr.
    apply (joined_uuid false (uuid1 C) (q ++ k) g d (Ok (d_next d)) d' O); [rewrite app_comm_cons; apply Forall_app; now split|exact G|exact Hu|exact Hr]. }
  destruct dup as [|z l]; [now apply K|]. destruct f; [now apply K|]. apply mbind_inv in Hr as [(y & _ & X)|(b & d1 & Hb & Hr)]; [discriminate X|discriminate Hr].
Qed.
Lemma add_group_uuid C g n icon notes d e d' : sane d -> a_group d g -> uuid_ok (uuid1 C) -> add_group C (Some g) n icon notes d = (Ok e, d') -> bears_uuid d' e (uuid1 C).
Proof.
  intros O G Hu Hr. pose proof Hr as Hs. apply add_group_step in Hs as (_ & _ & -> & _); [|exact O|exact G]. unfold add_group, new_group in Hr. rewrite bind_bind in Hr. apply mbind_inv in Hr as [(y & _ & X)|(b & d1 & Hb & Hr)]; [discriminate X|]. pose proof (reads_run _ _ _ _ (reads_base C _ _ _) Hb) as ->.
  rewrite bind_bind in Hr. apply mbind_inv in Hr as [(y & _ & X)|(k & d1 & Hk & Hr)]; [discriminate X|]. unfold of_res in Hk. injection Hk as Hk <-.
  assert (Rn : reads (if truthy notes then of_res (let* x := e_text $"Notes" [] notes in Ok [x]) else ret [])) by (destruct (truthy notes); [apply reads_of|apply reads_ret]).
  rewrite bind_bind in Hr. apply mbind_inv in Hr as [(y & _ & X)|(nt & d1 & Hn & Hr)]; [discriminate X|]. pose proof (reads_run _ _ _ _ Rn Hn) as ->.
  assert (Fb := base_frameless _ _ _ _ _ _ _ Hb). apply base_first in Hb as (q & ->). rewrite <- app_comm_cons in Hr. apply (joined_uuid true (uuid1 C) (q ++ [k] ++ nt) g d (Ok (d_next d)) d' O); [|exact G|exact Hu|exact Hr]. rewrite app_comm_cons.
  apply Forall_app. split; [exact Fb|]. constructor; [eapply frameless_text; [|exact Hk]; reflexivity|].
  destruct (truthy notes); [|injection Hn as <-; constructor]. unfold of_res in Hn. injection Hn as Hn. apply bind_ok in Hn as (y & Hy & Hn). injection Hn as <-. constructor; [eapply frameless_text; [|exact Hy]; reflexivity|constructor].
Qed.
Definition only_uuid (T : str) : bool := str_eqb T $"UUID".
Lemma kept_uuid d d' e : wf d -> wf d' -> tags_le d d' -> kept only_uuid d d' -> an_item d e -> fst (get_uuid e d') = fst (get_uuid e d).
Proof.
  intros W W' Tl K I. assert (H : exists t, has d t /\ eid t = e) by (destruct I as [X|X]; destruct (tag_has d _ e W X) as (t & Ht & E & _); eauto). destruct H as (t & Ht & Et).
  assert (H' : exists t', has d' t' /\ eid t' = e) by (destruct I as [X|X]; apply Tl in X; destruct (tag_has d' _ e W' X) as (t' & Ht' & E & _); eauto). destruct H' as (t' & Ht' & Et').
  assert (F : fixed d d' [$"UUID"] e).
  { destruct (item_tag d e I) as (U & q & Eq & Tq). apply (kept_fixed only_uuid d d' _ W W' Tl K) with q; [|exact Eq| |discriminate].
    - intros T [<-|[]]. split; [reflexivity|]. intros X. vm_compute in X. discriminate X.
    - intros X. destruct I as [(q' & E' & T')|(q' & E' & T')]; rewrite E' in Eq; injection Eq as ->; rewrite T' in X; vm_compute in X; discriminate X. }
  unfold get_uuid. apply (fst_bind (get_sub $"UUID" e) uuid_of_text). exact (sub_alike d d' W W' e t t' Ht Ht' Et Et' $"UUID" F).
Qed.
(** *** The bin *)
Lemma bin_more R C d r d' : sane d -> uuid_ok (uuid1 C) -> create_or_get_recyclebin_group R C d = (r, d') ->
  match r with Ok b => recyclebin_group R d = (Ok (Some b), d) /\ d' = d | Err _ => forall t, pictures d t -> pictures d' t end \/
  exists b g, fresh d b /\ (forall t, pictures d t -> pictures d' (put g (Node true b []) t)) /\ bears_uuid d' b (uuid1 C) /\ pictures d' (Node true b []) /\ forall x, r = Ok x -> x = b.
Proof.
  intros O Hu0 Hr. pose proof O as [W L]. destruct (op_bin (fun _ => True) True d W R C d Logic.I (sane_ev d O) r d' Hr) as [Ev T].
  unfold create_or_get_recyclebin_group in Hr. apply mbind_inv in Hr as [(y & Hr & ->)|(o & d1 & Ho & Hr)]; [rewrite (reads_run _ _ _ _ (reads_bin R) Hr); now left|]. pose proof (reads_run _ _ _ _ (reads_bin R) Ho) as ->. destruct o as [b0|]; [injection Hr as <- <-; now left|].
  apply mbind_inv in Hr as [(y & Hr & ->)|(o & d1 & Hg & Hr)]; [unfold root_group, lift in Hr; injection Hr as _ <-; now left|]. assert (d1 = d) as -> by (unfold root_group, lift in Hg; injection Hg as _ <-; reflexivity).
  destruct o as [g|].
  2: { assert (X : exists y, r = Err y /\ ((d' = d) \/ exists x c, lx_new x d = (Ok c, d'))).
       { unfold add_group at 1 in Hr. apply mbind_inv in Hr as [(y & Hr & ->)|(c & d2 & Ha & _)]; [|apply mbind_inv in Ha as [(y & _ & X)|(q & d3 & _ & X)]; discriminate X]. exists y. split; [reflexivity|]. assert (Z : d' = d \/ exists x c, lx_new x d = (Ok c, d')); [|exact Z].
         apply mbind_inv in Hr as [(z & Hr & _)|(q & d3 & Hq & X)]; [|injection X as _ <-; rename Hq into Hr]; unfold new_group in Hr;
           (apply mbind_inv in Hr as [(z1 & Hr & Z)|(b & d1 & Hb & Hr)]; [left; exact (reads_run _ _ _ _ (reads_base C _ _ _) Hr)|]; pose proof (reads_run _ _ _ _ (reads_base C _ _ _) Hb) as ->;
            apply mbind_inv in Hr as [(z1 & Hr & Z)|(k & d1 & Hk & Hr)]; [left; unfold of_res in Hr; now injection Hr as _ <-|]; unfold of_res in Hk; injection Hk as Hk <-;
            apply mbind_inv in Hr as [(z1 & Hr & Z)|(nt & d1 & Hn & Hr)]; [left; injection Hr as _ <-; reflexivity|]; injection Hn as _ <-).
         - destruct (new_run d (e_node $"Group" (b ++ [k] ++ nt)) W) as (t & d5 & E5 & _). rewrite E5 in Hr. discriminate Hr.
         - right. eauto. }
       destruct X as (y & -> & [->|(x & c & X)]); left; [auto|]. intros t Pt. apply (pic_same d d' T t); [|exact Pt]. exact (new_calm x d _ d' W T X). }
  apply root_group_ok in Hg as Hg'; [|exact W]. destruct Hg' as (_ & G & _). apply mbind_inv in Hr as [(y & Hr & ->)|(b & d2 & Ha & Hr)].
  { destruct (add_group_step C g _ _ _ d _ d' O G Hr) as (_ & _ & ->). now left. }
  destruct (add_group_step C g _ _ _ d _ d2 O G Ha) as (O2 & T2 & Eb & Tb & P2). pose proof (add_group_uuid C g _ _ _ d b d2 O G Hu0 Ha) as U2. assert (Fb : fresh d b) by (rewrite Eb; now apply fresh_next). right. exists b, g. split; [exact Fb|].
  assert (Hd : d' = d2 \/ exists e v r1, meta_elem R $"RecycleBinUUID" d2 = (Ok (Some e), d2) /\ lx_set_text (eid e) v d2 = (r1, d')).
  { apply mbind_inv in Hr as [(y & Hr & ->)|(e & d3 & He & Hr)]; [unfold meta_elem, xfirst, lift in Hr; injection Hr as _ <-; now left|]. assert (d3 = d2) as -> by (unfold meta_elem, xfirst, lift in He; injection He as _ <-; reflexivity).
    assert (Rg : reads (get_uuid b)) by (unfold get_uuid; apply reads_bind; [apply reads_sub|intros ?; apply reads_of]).
    apply mbind_inv in Hr as [(y & Hr & ->)|(u & d3 & Hu & Hr)]; [rewrite (reads_run _ _ _ _ Rg Hr); now left|]. pose proof (reads_run _ _ _ _ Rg Hu) as ->.
    destruct e as [e|]; [|injection Hr as <- <-; now left]. apply mbind_inv in Hr as [(y & Hr & ->)|(v & d3 & Hs & Hr)]; [right; eauto|]. injection Hr as <- <-. right. eauto. }
  assert (Hx : forall x, r = Ok x -> x = b).
  { intros x ->. apply mbind_inv in Hr as [(y & _ & X)|(e & d3 & _ & Hr)]; [discriminate X|]. apply mbind_inv in Hr as [(y & _ & X)|(u & d4 & _ & Hr)]; [discriminate X|]. destruct e as [e|]; [|discriminate Hr]. apply mbind_inv in Hr as [(y & _ & X)|(v & d5 & _ & Hr)]; [discriminate X|]. now injection Hr as <- _. }
  assert (Ib : an_item d2 b) by now right.
  assert (Ps : forall d3, (forall t, pictures d t -> pictures d3 (put g (Node true b []) t)) -> pictures d3 (Node true b [])).
  { intros d3 P3. destruct (picture d g W (or_intror G)) as (tg & Pg & Eg). apply (pic_sub d3 _ (P3 tg Pg)). destruct tg as [c j l]. cbn [oid] in Eg. subst j. cbn [put]. rewrite Nat.eqb_refl. cbn [onodes]. right. apply in_flat_map. exists (Node true b []). split; [apply in_app_iff; right; now left|now left]. }
  destruct Hd as [->|(e & v & r1 & He & Hs)]; [auto|]. destruct (hush_text (eid e) v d2 O2 _ _ Hs) as (O3 & T3 & C3).
  assert (Mu : mute only_uuid (lx_set_text (eid e) v) d2) by (apply (mute_meta_text only_uuid R $"RecycleBinUUID" v d2 e d2); [reflexivity|cbn; tauto|reflexivity|exact O2|exact He]).
  destruct (Mu r1 d' Hs) as (_ & _ & K). assert (P3 : forall t, pictures d t -> pictures d' (put g (Node true b []) t)) by (intros t Pt; apply (pic_same d2 d' T3); [now apply calm_items|now apply P2]).
  split; [exact P3|]. split; [|split; [now apply Ps|exact Hx]]. unfold bears_uuid in *. rewrite (kept_uuid d2 d' b (proj1 O2) (proj1 O3) T3 K Ib). exact U2.
Qed.
(** *** What is inside *)
Lemma oids_sub t u : In u (onodes t) -> incl (oids u) (oids t).
Proof.
  revert u. induction t as [b i l IH] using outline_ind'. intros u [<-|Hu]; [intros x; auto|]. apply in_flat_map in Hu as (k & Hk & Hu). rewrite Forall_forall in IH. intros x Hx. apply (IH k Hk u Hu) in Hx. unfold oids in *. cbn [onodes map]. right. apply in_map_iff in Hx as (w & <- & Hw). apply in_map. apply in_flat_map. eauto.
Qed.
Lemma oids_kid b i l x : In x (oids (Node b i l)) <-> x = i \/ exists k, In k l /\ In x (oids k).
Proof.
  unfold oids. cbn [onodes map oid]. split.
  - intros [<-|H]; [now left|]. apply in_map_iff in H as (w & <- & Hw). apply in_flat_map in Hw as (k & Hk & Hw). right. exists k. split; [exact Hk|now apply in_map].
  - intros [->|(k & Hk & H)]; [now left|]. right. apply in_map_iff in H as (w & <- & Hw). apply in_map. apply in_flat_map. eauto.
Qed.
Lemma oids_self t : In (oid t) (oids t). Proof. destruct t as [b i l]. apply oids_kid. now left. Qed.
Lemma oids_put p s t x : In x (oids (put p s t)) -> In x (oids t) \/ In x (oids s).
Proof.
  induction t as [b i l IH] using outline_ind'. cbn [put]. rewrite !oids_kid. intros [->|(k & Hk & H)]; [auto|]. apply in_app_iff in Hk as [Hk|Hk].
  - apply in_map_iff in Hk as (w & <- & Hw). rewrite Forall_forall in IH. destruct (IH w Hw H) as [X|X]; [|auto]. left. right. eauto.
  - destruct (i =? p)%nat; [|destruct Hk]. destruct Hk as [->|[]]. now right.
Qed.
Lemma oids_drop i t x : In x (oids (drop i t)) -> In x (oids t).
Proof.
  induction t as [b j l IH] using outline_ind'. cbn [drop]. rewrite !oids_kid. intros [->|(k & Hk & H)]; [auto|]. apply in_flat_map in Hk as (w & Hw & Hk). destruct (oid w =? i)%nat; [destruct Hk|]. destruct Hk as [<-|[]]. rewrite Forall_forall in IH. right. eauto.
Qed.
Lemma oids_clear i t x : In x (oids (clear i t)) -> In x (oids t).
Proof.
  induction t as [b j l IH] using outline_ind'. cbn [clear]. rewrite !oids_kid. intros [->|(k & Hk & H)]; [auto|]. destruct (j =? i)%nat; [destruct Hk|]. apply in_map_iff in Hk as (w & <- & Hw). rewrite Forall_forall in IH. right. eauto.
Qed.
Lemma oids_arrange p o t x : In x (oids (arrange p o t)) -> In x (oids t).
Proof.
  induction t as [b j l IH] using outline_ind'. cbn [arrange]. cbv zeta. rewrite !oids_kid. intros [->|(k & Hk & H)]; [auto|]. assert (X : In k (map (arrange p o) l)). { destruct (j =? p)%nat; [|exact Hk]. unfold arranged in Hk. apply in_flat_map in Hk as (n & _ & Hk). now apply filter_In in Hk. }
  apply in_map_iff in X as (w & <- & Hw). rewrite Forall_forall in IH. right. eauto.
Qed.
(** A set of elements with everything in them. *)
Definition closed (d : db) (l : list nat) : Prop := Forall (an_item d) l /\ forall s, pictures d s -> In (oid s) l -> incl (oids s) l.
Lemma pic_closed d t : pictures d t -> closed d (oids t).
Proof.
  intros P. split.
  - apply Forall_forall. intros x Hx. unfold oids in Hx. apply in_map_iff in Hx as (u & <- & Hu). apply pic_item. now apply (pic_sub d t).
  - intros s Ps I. unfold oids in I. apply in_map_iff in I as (u & Eu & Hu). rewrite <- (pic_fun d u s (pic_sub d t P u Hu) Ps Eu). now apply oids_sub.
Qed.
Lemma inside_iff d t x : pictures d t -> (inside d (oid t) x <-> In x (oids t)).
Proof. intros P. split; [|intros H; exists t; auto]. intros (u & Pu & E & H). now rewrite <- (pic_fun d u t Pu P E). Qed.
Lemma closed_move d i p r d' l : sane d -> a_group d p -> In i l -> closed d l -> move i p d = (r, d') -> closed d' l.
Proof.
  intros O G Il [Cf Cl] Hr. assert (I : an_item d i) by (rewrite Forall_forall in Cf; now apply Cf). destruct (move_step d i p r d' O I G Hr) as (O' & Tl & X). split; [eapply Forall_impl; [|exact Cf]; intros k; now apply item_le|]. intros s' Ps' Hs.
  destruct r as [v|y]; [|subst d'; now apply Cl]. destruct X as (s & Ps & Es & X). rewrite Forall_forall in Cf. destruct (picture d (oid s') (proj1 O) (Cf _ Hs)) as (s0 & P0 & E0).
  rewrite (pic_fun d' s' (put p s (drop i s0)) Ps' (X s0 P0)) by now rewrite oid_put, oid_drop. intros x Hx. apply oids_put in Hx as [Hx|Hx].
  - apply oids_drop in Hx. apply (Cl s0 P0); [now rewrite E0|exact Hx].
  - apply (Cl s Ps); [now rewrite Es|exact Hx].
Qed.
Lemma closed_append p ls l : forall d r d', sane d -> a_group d p -> incl ls l -> closed d l -> group_append p ls d = (r, d') -> closed d' l.
Proof.
  induction ls as [|i ls IH]; intros d r d' O G Il Cl Hr; [injection Hr as <- <-; exact Cl|]. cbn [group_append] in Hr. change (lx_append p i) with (move i p) in Hr. assert (I : In i l) by (apply Il; now left). assert (It : an_item d i) by (destruct Cl as [Cf _]; rewrite Forall_forall in Cf; now apply Cf).
  apply mbind_inv in Hr as [(y & Hr & ->)|(u & d1 & Hm & Hr)]; [exact (closed_move d i p _ d' l O G I Cl Hr)|]. pose proof (closed_move d i p _ d1 l O G I Cl Hm) as C1. destruct (move_step d i p _ d1 O It G Hm) as (O1 & T1 & _).
  apply (IH d1 r d' O1 (T1 _ _ G)); [intros x Hx; apply Il; now right|exact C1|exact Hr].
Qed.
(** *** One call: what is inside was inside, or is new with the UUID drawn *)
Definition draws (o : op) : Prop := match o with Op_add_entry _ _ _ _ _ _ _ _ _ _ _ | Op_add_group _ _ _ _ | Op_trash _ => True | _ => False end.
Lemma inside_step R Zl C o d g : sane d -> typed d o -> an_item d g -> minted C d g o -> exists e, forall x, inside (next R Zl (C, o) d) g x -> inside d g x \/ x = e /\ draws o /\ bears_uuid (next R Zl (C, o) d) e (uuid1 C).
Proof.
  intros O T I Mi. pose proof O as [W L]. unfold next. cbn [fst snd]. destruct (run R Zl C o d) as [r d'] eqn:Hr. cbn [snd]. destruct (picture d g W I) as (t & P & Et). subst g.
  assert (Old : forall t', pictures d' t' -> oid t' = oid t -> incl (oids t') (oids t) -> exists e, forall x, inside d' (oid t) x -> inside d (oid t) x \/ x = e /\ draws o /\ bears_uuid d' e (uuid1 C)).
  { intros t' P' E' Hi. exists 0%nat. intros x Hx. left. rewrite <- E' in Hx. apply (inside_iff d' t' x P') in Hx. apply (inside_iff d t x P). now apply Hi. }
  assert (New : forall t' e, pictures d' t' -> oid t' = oid t -> (forall x, In x (oids t') -> In x (oids t) \/ x = e) -> draws o -> bears_uuid d' e (uuid1 C) -> exists e, forall x, inside d' (oid t) x -> inside d (oid t) x \/ x = e /\ draws o /\ bears_uuid d' e (uuid1 C)).
  { intros t' e P' E' Hi Dr Be. exists e. intros x Hx. rewrite <- E' in Hx. apply (inside_iff d' t' x P') in Hx. destruct (Hi x Hx) as [X|X]; [left; now apply (inside_iff d t x P)|right; auto]. }
  assert (Cr : closed d' (oids t) -> exists e, forall x, inside d' (oid t) x -> inside d (oid t) x \/ x = e /\ draws o /\ bears_uuid d' e (uuid1 C)).
  { intros [_ Cl]. exists 0%nat. intros x (u & Pu & Eu & Hx). left. apply (inside_iff d t x P). apply (Cl u Pu); [rewrite Eu; apply oids_self|exact Hx]. }
  assert (Hc : pictures d' t -> exists e, forall x, inside d' (oid t) x -> inside d (oid t) x \/ x = e /\ draws o /\ bears_uuid d' e (uuid1 C)) by (intros P'; apply (Old t P' eq_refl); intros x; auto).
  destruct o; try solve [destruct (effect_step R Zl C _ d r d' t O T Hr P) as (t' & Ef & P'); cbn [effect] in Ef; subst t'; now apply Hc].
  - (* add_entry *) cbn [run typed minted] in *. destruct Mi as [Hu _]. apply quiet_inv in Hr as (q & Hr & Eq). destruct (add_entry_step _ _ _ _ _ _ _ _ _ _ _ _ _ _ _ _ O T Hr) as (_ & _ & X). destruct q as [e|y]; [|subst d'; now apply Hc]. destruct X as (_ & _ & X).
    apply (New _ e (X t P)); [apply oid_put| |exact Logic.I|now apply (add_entry_uuid _ _ _ _ _ _ _ _ _ _ _ _ _ _ _ _ O T Hu Hr)]. intros x Hx. apply oids_put in Hx as [Hx|Hx]; [auto|]. cbn in Hx. destruct Hx as [<-|[]]. auto.
  - cbn [run typed minted] in *. destruct Mi as [Hu _]. apply quiet_inv in Hr as (q & Hr & Eq). destruct (add_group_step _ _ _ _ _ _ _ _ O T Hr) as (_ & _ & X). destruct q as [e|y]; [|subst d'; now apply Hc]. destruct X as (_ & _ & X).
    apply (New _ e (X t P)); [apply oid_put| |exact Logic.I|now apply (add_group_uuid _ _ _ _ _ _ _ _ O T Hu Hr)]. intros x Hx. apply oids_put in Hx as [Hx|Hx]; [auto|]. cbn in Hx. destruct Hx as [<-|[]]. auto.
  - cbn [run typed minted] in *. destruct T as [Ti Tg]. apply (inside_iff d t _ P) in Mi. apply Cr. exact (closed_move d i g r d' _ O Tg Mi (pic_closed d t P) Hr).
  - cbn [run typed minted] in *. destruct T as [Tg Tl]. assert (Il : incl l (oids t)) by (intros x Hx; rewrite Forall_forall in Mi; now apply (inside_iff d t x P), Mi). apply Cr. exact (closed_append g l _ d r d' O Tg Il (pic_closed d t P) Hr).
  - cbn [run typed] in *. destruct (delete_step d i r d' O T Hr) as (_ & _ & X). destruct r as [v|y]; [|subst d'; now apply Hc]. apply (Old _ (X t P)); [apply oid_drop|]. intros x. apply oids_drop.
  - (* trash *) cbn [run typed minted] in *. destruct Mi as [[Hu _] Ii]. apply (inside_iff d t _ P) in Ii. unfold trash in Hr. apply mbind_inv in Hr as [(y & Hr & ->)|(ok & d1 & Hk & Hr)]; [rewrite (reads_run _ _ _ _ (reads_can R i) Hr) in *; now apply Hc|].
    pose proof (reads_run _ _ _ _ (reads_can R i) Hk) as ->. destruct ok; [|injection Hr as <- <-; now apply Hc].
    apply mbind_inv in Hr as [(y & Hr & ->)|(b & d1 & Hb & Hr)].
    + destruct (bin_more R C d _ d' O Hu Hr) as [X|(b & h & Fb & X & Be & _ & _)]; [now apply Hc, X|]. apply (New _ b (X t P)); [apply oid_put| |exact Logic.I|exact Be]. intros x Hx. apply oids_put in Hx as [Hx|Hx]; [auto|]. cbn in Hx. destruct Hx as [<-|[]]. auto.
    + destruct (bin_made R C d b d1 W L Hb) as [G _]. destruct (bin_step R C d _ d1 O Hb) as (O1 & T1 & _). destruct (bin_more R C d _ d1 O Hu Hb) as [[_ ->]|(b' & h & Fb & X & Be & Pb & Eb)].
      * apply Cr. exact (closed_move d i b r d' _ O G Ii (pic_closed d t P) Hr).
      * specialize (Eb b eq_refl). subst b'. pose proof (pic_item _ _ Pb) as Ib. cbn [oid] in Ib. assert (C1 : closed d1 (b :: oids t)).
        { split; [constructor; [exact Ib|]; destruct (pic_closed d t P) as [Cf _]; eapply Forall_impl; [|exact Cf]; intros k; now apply item_le|]. intros s1 Ps1 [Hs|Hs].
          - rewrite (pic_fun d1 s1 _ Ps1 Pb) by (symmetry; exact Hs). intros x Hx. cbn in Hx. destruct Hx as [<-|[]]. now left.
          - destruct (pic_closed d t P) as [Cf Cl]. rewrite Forall_forall in Cf. destruct (picture d (oid s1) W (Cf _ Hs)) as (s & Ps & Es). rewrite (pic_fun d1 s1 (put h (Node true b []) s) Ps1 (X s Ps)) by now rewrite oid_put. intros x Hx. apply oids_put in Hx as [Hx|Hx]; [|cbn in Hx; destruct Hx as [<-|[]]; now left]. right. apply (Cl s Ps); [now rewrite Es|exact Hx]. }
        assert (C2 : closed d' (b :: oids t)) by (apply (closed_move d1 i b r d' _ O1 G); [now right|exact C1|exact Hr]). destruct C2 as [_ C2].
        exists b. intros x (u & Pu & Eu & Hx). assert (Hb2 : In x (b :: oids t)) by (apply (C2 u Pu); [rewrite Eu; right; apply oids_self|exact Hx]). destruct Hb2 as [<-|Hx2]; [|left; now apply (inside_iff d t)]. right. split; [reflexivity|]. split; [exact Logic.I|].
        assert (Mu : mute only_uuid (move i b) d1) by (apply mute_move; [reflexivity|reflexivity|exact O1|now apply (item_le d)|exact G]). destruct (Mu r d' Hr) as (O2 & T2 & K2). unfold bears_uuid in *. now rewrite (kept_uuid d1 d' b (proj1 O1) (proj1 O2) T2 K2 Ib).
  - cbn [run typed] in *. destruct (empty_step d g r d' O T Hr) as (_ & _ & _ & X). apply (Old _ (X t P)); [apply oid_clear|]. intros x. apply oids_clear.
  - cbn [run typed] in *. destruct (reindex_step R e z d r d' O T Hr) as (_ & _ & X). destruct r as [v|y]; [|subst d'; now apply Hc]. destruct X as (p & a & b & _ & _ & X). apply (Old _ (X t P)); [apply oid_arrange|]. intros x. apply oids_arrange.
Qed.
Lemma inside_item d g x : inside d g x -> an_item d x.
Proof. intros (t & P & _ & Hx). destruct (pic_closed d t P) as [Cf _]. rewrite Forall_forall in Cf. now apply Cf. Qed.
Lemma uuid_assigned R Zl C d i u : sane d -> an_item d i -> uuid_ok u -> (List.length (kids_tagged (lk d) $"UUID" i) <= 1)%nat -> bears_uuid (next R Zl (C, Op_uuid i u) d) i u.
Proof.
  intros [W L] I Hu Hl. assert (H : exists t, has d t /\ eid t = i) by (destruct I as [X|X]; destruct (tag_has d _ i W X) as (t & Ht & E & _); eauto). destruct H as (t & Ht & <-).
  rewrite (kids_tagged_of d t _ W Ht), map_length in Hl. exact (assign_read R Zl C P_uuid d t u u W Ht (conj Hl (conj Hu eq_refl))).
Qed.
Lemma distinct_step R Zl C o d g : sane d -> typed d o -> settings o -> an_item d g -> minted C d g o -> distinct d g -> distinct (next R Zl (C, o) d) g.
Proof.
  intros O T St I Mi Di. pose proof O as [W L]. destruct (inside_step R Zl C o d g O T I Mi) as (e & Hi). set (d' := next R Zl (C, o) d) in *.
  assert (Stay : forall x, inside d g x -> ~ assigns P_uuid x d o -> fst (get_uuid x d') = fst (get_uuid x d)) by (intros x Hx Na; apply (one_call R Zl C o d P_uuid x W L T St (inside_item d g x Hx) Na)).
  assert (Dec : (exists i u, o = Op_uuid i u) \/ forall x, ~ assigns P_uuid x d o) by (destruct o; try (right; intros ? []; fail); try (right; intros ? [X _]; discriminate X); [left; eauto|right; intros ? [[X|[X _]] _]; discriminate X]).
  destruct Dec as [(i & u & ->)|Na].
  - cbn [minted typed] in Mi, T. destruct Mi as (Hu & Hl & Ot). pose proof (uuid_assigned R Zl C d i u O T Hu Hl) as Bi. fold d' in Bi.
    assert (Old : forall x, inside d' g x -> inside d g x) by (intros x Hx; destruct (Hi x Hx) as [X|(_ & [] & _)]; exact X).
    assert (Nu : forall y, inside d g y -> y <> i -> ~ bears_uuid d' y u).
    { intros y Hy Ny By. apply (Ot y Hy Ny). unfold bears_uuid in *. rewrite <- (Stay y Hy); [exact By|]. intros [_ ->]. now apply Ny. }
    intros x y v Hx Hy Bx By. apply Old in Hx, Hy. destruct (Nat.eq_dec x i) as [->|Nx], (Nat.eq_dec y i) as [->|Ny]; [reflexivity| | |].
    + assert (v = u) as -> by (unfold bears_uuid in *; congruence). now apply (Nu y) in By.
    + assert (v = u) as -> by (unfold bears_uuid in *; congruence). now apply (Nu x) in Bx.
    + apply (Di x y v Hx Hy); unfold bears_uuid in *; [rewrite <- (Stay x Hx)|rewrite <- (Stay y Hy)]; auto; intros [_ ->]; auto.
  - assert (Keep : forall x v, inside d g x -> bears_uuid d' x v -> bears_uuid d x v) by (intros x v Hx Bx; unfold bears_uuid in *; rewrite <- (Stay x Hx (Na x)); exact Bx).
    assert (Fr : draws o -> forall y, inside d g y -> ~ bears_uuid d y (uuid1 C)) by (intros Dr; destruct o; try destruct Dr; cbn [minted] in Mi; first [exact (proj2 (proj1 Mi))|exact (proj2 Mi)]).
    intros x y v Hx Hy Bx By. destruct (Hi x Hx) as [Ox|(-> & Dr & Be)], (Hi y Hy) as [Oy|(Ey & Dr' & Be')]; [| | |congruence].
    + apply (Di x y v); auto.
    + subst y. assert (v = uuid1 C) as -> by (unfold bears_uuid in *; congruence). exfalso. apply (Fr Dr' x Ox). now apply Keep.
    + assert (v = uuid1 C) as -> by (unfold bears_uuid in *; congruence). exfalso. apply (Fr Dr y Oy). now apply Keep.
Qed.
Theorem distinct_history R Zl g l : forall d, wf d -> laid d -> an_item d g -> all_typed R Zl l d -> Forall (fun c => settings (snd c)) l -> all_minted R Zl g l d -> distinct d g -> distinct (later R Zl l d) g.
Proof.
  induction l as [|[C o] l IH]; intros d W L I T St Mi Di; [exact Di|]. cbn [all_typed all_minted fst snd] in T, Mi. apply Forall_cons_iff in St as [S0 St]. cbn [snd] in S0. destruct T as [T0 T], Mi as [M0 Mi].
  destruct (step_sane R Zl C o d (conj W L) T0 S0) as ((W1 & L1) & Tl). cbn [later]. apply IH; auto; [now apply (item_le d)|]. exact (distinct_step R Zl C o d g (conj W L) T0 S0 I M0 Di).
Qed.
(** *** The search for a UUID finds at most one *)
Lemma for_usable keys R u : In $"uuid" keys -> uuid_ok u -> usable keys R (for_uuid u).
Proof.
  intros K Hu. split; [reflexivity|]. split; [exact Logic.I|]. split; [intros ? ? []|]. intros k v [E|[]]. injection E as <- <-. split; [exact K|]. split; [intros _; now exists u|]. split; [intros X; discriminate X|]. split; [exact (uuid_plain u Hu)|]. intros X; discriminate X.
Qed.
Lemma named_uuid d t u : wf d -> has d t -> uuid_ok u -> (List.length (kids_tagged (lk d) $"UUID" (eid t)) <= 1)%nat -> kid_with $"UUID" (text_meets (fun o => o = Some (uuid_text u))) t -> bears_uuid d (eid t) u.
Proof.
  intros W Ht Hu Hl (k & Ik & Tk & Xk). unfold text_meets in Xk. rewrite (kids_tagged_of d t _ W Ht), map_length in Hl. unfold bears_uuid. rewrite (get_uuid_run d t u W Ht); [reflexivity|]. unfold uuid_is, first_text, find1.
  assert (I : In k (kids_of $"UUID" t)) by (apply filter_In; split; [exact Ik|now apply str_eqb_eq]). destruct (kids_of $"UUID" t) as [|a [|b l]]; [destruct I| |cbn in Hl; lia]. destruct I as [->|[]]. cbn. rewrite Xk. now apply uuid_text_roundtrip.
Qed.
Lemma few (l : list elem) : NoDup l -> (forall x y, In x l -> In y l -> x = y) -> (List.length l <= 1)%nat.
Proof. intros N H. destruct l as [|x [|y l]]; cbn; try lia. exfalso. apply NoDup_cons_iff in N as [N _]. apply N. rewrite (H x y); [now left|now left|right; now left]. Qed.
Lemma everything_apart d doc F : wf d -> d_forest d = doc :: F -> NoDup (everything doc).
Proof. intros W EF. pose proof (wf_unique d W) as U. unfold unique, elements in U. rewrite EF in U. cbn [flat_map] in U. rewrite map_app in U. apply NoDup_app_l in U. now apply NoDup_map_inv in U. Qed.
Section Found.
  Variables (R : regex) (d : db) (g : nat) (u : bytes) (W : wf d) (L : laid d) (Rt : rooted d g) (Di : distinct d g) (One : one_uuid_each d g) (Hu : uuid_ok u).
  Lemma root_picture : exists t, pictures d t /\ oid t = g.
  Proof. destruct Rt as (doc & r & _ & _ & _ & Eg). apply (picture d g W). right. assert (I : In g (kids_tagged (lk d) $"Group" r)) by (rewrite Eg; now left). now apply kids_tagged_tag in I. Qed.
  Lemma shown_inside (b : bool) doc F x : d_forest d = doc :: F -> In x (everything doc) -> etag x = (if b then $"Group" else $"Entry") -> ~ past d (eid x) -> inside d g (eid x).
  Proof.
    intros EF Ix Tx Nx. destruct root_picture as (t & P & Et). rewrite <- Et. exists t. split; [exact P|]. split; [reflexivity|]. rewrite <- Et in Rt.
    assert (H : exists m, picks (fun t => etag t = (if b then $"Group" else $"Entry") /\ ~ past d (eid t)) (everything doc) m) by (destruct b; [destruct (groups_all R d doc F W EF) as (m & _ & Pm)|destruct (entries_all R d doc F W EF) as (m & _ & Pm)]; eauto). destruct H as (m & Pm).
    pose proof (whole_list d W L b t doc F m EF Rt P Pm) as E. assert (Im : In (eid x) (map eid m)) by (apply in_map; apply (Find_more.picks_all _ _ _ _ Pm); auto). rewrite E in Im. apply in_map_iff in Im as (w & Ew & Hw). apply filter_In in Hw as [Hw _]. rewrite <- Ew. unfold oids. now apply in_map.
  Qed.
  Lemma found (b : bool) (key : (option str -> Prop) -> str -> elem -> Prop) doc F l : d_forest d = doc :: F -> (forall M t, key M $"uuid" t = kid_with $"UUID" (text_meets M) t) -> picks (answers (if b then $"Group" else $"Entry") key R (d_forest d) (for_uuid u)) (everything doc) l ->
    (List.length l <= 1)%nat /\ forall x, In x l -> inside d g (eid x) /\ bears_uuid d (eid x) u.
  Proof.
    intros EF Ky Pl. assert (Ev : forall x, In x l -> has d x /\ inside d g (eid x) /\ bears_uuid d (eid x) u).
    { intros x Hx. apply (Find_more.picks_all _ _ _ _ Pl) in Hx as [Ix (Tx & Vx & _ & Kx)]. assert (Hx : has d x) by (unfold has_elem, elements; apply in_flat_map; exists doc; rewrite EF; split; [now left|exact Ix]). destruct Vx as [X|Vx]; [discriminate X|]. apply (past_visible d x W Hx) in Vx.
      pose proof (shown_inside b doc F x EF Ix Tx Vx) as In1. split; [exact Hx|]. split; [exact In1|]. specialize (Kx _ (or_introl eq_refl)). unfold meets in Kx. cbn [snd fst] in Kx. rewrite Ky in Kx. apply named_uuid; auto. }
    split; [|intros x Hx; now apply Ev in Hx as (_ & H)]. apply few; [apply (picks_NoDup _ _ _ Pl); exact (everything_apart d doc F W EF)|]. intros x y Hx Hy. apply Ev in Hx as (Hx & Ix & Bx), Hy as (Hy & Iy & By). apply (unique_inj (d_forest d)); auto; [now apply wf_unique|]. exact (Di _ _ u Ix Iy Bx By).
  Qed.
End Found.
Theorem found_entries R d g u : wf d -> laid d -> rooted d g -> distinct d g -> one_uuid_each d g -> uuid_ok u ->
  exists l, find_entries R d true (for_uuid u) = Ok (map R_entry l) /\ (List.length l <= 1)%nat /\ forall x, In x l -> inside d g x /\ bears_uuid d x u.
Proof.
  intros W L Rt Di On Hu. destruct (d_forest d) as [|doc F] eqn:EF; [destruct Rt as (? & ? & E & _); rewrite EF in E; discriminate E|].
  destruct (find_entries_spec R d (for_uuid u) true (everything doc) (wf_unique d W)) as (l & P & E); [apply for_usable; [cbn; tauto|exact Hu]|exact (se_all _ doc F EF)|]. destruct (found R d g u W L Rt Di On Hu false entry_key doc F l EF (fun _ _ => eq_refl) P) as [Ln Ev].
  exists (map eid l). rewrite map_map, map_length. split; [exact E|]. split; [exact Ln|]. intros x Hx. apply in_map_iff in Hx as (y & <- & Hy). now apply Ev.
Qed.
Theorem found_groups R d g u : wf d -> laid d -> rooted d g -> distinct d g -> one_uuid_each d g -> uuid_ok u ->
  exists l, find_groups R d true (for_uuid u) = Ok (map R_group l) /\ (List.length l <= 1)%nat /\ forall x, In x l -> inside d g x /\ bears_uuid d x u.
Proof.
  intros W L Rt Di On Hu. destruct (d_forest d) as [|doc F] eqn:EF; [destruct Rt as (? & ? & E & _); rewrite EF in E; discriminate E|].
  destruct (find_groups_spec R d (for_uuid u) true (everything doc) (wf_unique d W)) as (l & P & E); [apply for_usable; [cbn; tauto|exact Hu]|reflexivity|exact (se_all _ doc F EF)|]. destruct (found R d g u W L Rt Di On Hu true group_key doc F l EF (fun _ _ => eq_refl) P) as [Ln Ev].
  exists (map eid l). rewrite map_map, map_length. split; [exact E|]. split; [exact Ln|]. intros x Hx. apply in_map_iff in Hx as (y & <- & Hy). now apply Ev.
Qed.
