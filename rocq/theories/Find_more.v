(** Consequences of the search specification. *)
From Verif Require Import Base Base64 PyStr Xml Tree XPath Db Uuid XPath_parse XPath_facts XPath_eval FindSpec Find_facts Find_path FindEx.

Lemma give_list q {A} (mk : A -> ref) l : q_path q = None ->
  give true q (Ok (map mk l)) = Ok (F_one (match l with [] => None | t :: _ => Some (mk t) end)) /\ give false q (Ok (map mk l)) = Ok (F_list (map mk l)).
Proof. intros H. unfold give. cbn [bind]. rewrite H. destruct l; split; reflexivity. Qed.
Lemma find_entries_first R d q rec cand : unique (d_forest d) -> usable entry_keys R q -> searched (d_forest d) (q_tree q) rec cand ->
  exists l, picks (answers $"Entry" entry_key R (d_forest d) q) cand l /\
    give true q (find_entries R d rec q) = Ok (F_one (match l with [] => None | t :: _ => Some (R_entry (eid t)) end)) /\
    give false q (find_entries R d rec q) = Ok (F_list (map (fun t => R_entry (eid t)) l)).
Proof. intros Hu Hq Hs. destruct (find_entries_spec R d q rec cand Hu Hq Hs) as (l & Hp & E). exists l. split; [exact Hp|]. rewrite E. apply (give_list q (fun t => R_entry (eid t))), Hq. Qed.
Lemma find_groups_first R d q rec cand : unique (d_forest d) -> usable group_keys R q -> q_string q = [] -> searched (d_forest d) (q_tree q) rec cand ->
  exists l, picks (answers $"Group" group_key R (d_forest d) q) cand l /\
    give false q (find_groups R d rec q) = Ok (F_list (map (fun t => R_group (eid t)) l)) /\
    give true q (find_groups R d rec q) = Ok (F_one (match l with [] => None | t :: _ => Some (R_group (eid t)) end)).
Proof. intros Hu Hq Hst Hs. destruct (find_groups_spec R d q rec cand Hu Hq Hst Hs) as (l & Hp & E). exists l. split; [exact Hp|]. rewrite E. apply and_comm. apply (give_list q (fun t => R_group (eid t))), Hq. Qed.

(** *** Criteria given as None *)
Inductive ins {A} (x : A) : list A -> list A -> Prop :=
| ins_here l : ins x l (x :: l)
| ins_later y l m : ins x l m -> ins x (y :: l) (y :: m).
Lemma ins_app {A} (x : A) a b : ins x (a ++ b) (a ++ x :: b).
Proof. induction a; cbn; constructor. exact IHa. Qed.
Lemma mapM_ins {A B} (f : A -> res B) x y l m : f x = Ok y -> ins x l m -> match mapM f l with Ok r => exists r', mapM f m = Ok r' /\ ins y r r' | Err e => mapM f m = Err e end.
Proof.
  intros E H. induction H as [l|z l m H IH]; cbn [mapM].
  - rewrite E. cbn [bind]. destruct (mapM f l) as [r|e]; [|reflexivity]. exists (y :: r). split; [reflexivity|constructor].
  - destruct (f z) as [w|e]; [|reflexivity]. cbn [bind]. destruct (mapM f l) as [r|e]; [|now rewrite IH]. destruct IH as (r' & -> & Hr). exists (w :: r'). split; [reflexivity|now constructor].
Qed.
Lemma steps_ins xp fl k l m : xp k <> None -> ins (k, K_none) l m -> kw_steps xp fl m = kw_steps xp fl l.
Proof.
  intros Hk H. remember (k, K_none) as kv eqn:Ekv. induction H as [l|[j v] l m H IH]; cbn [kw_steps].
  - subst kv. destruct (xp k); [|now destruct Hk]. cbn [kw_text]. destruct (kw_steps xp fl l); reflexivity.
  - destruct (xp j); [|reflexivity]. now rewrite IH.
Qed.
Lemma none_ignored R d q rec k kw1 kw2 : In k entry_keys -> k <> $"uuid" -> k <> $"tags" -> q_kw q = kw1 ++ (k, K_none) :: kw2 ->
  find_entries R d rec q = find_entries R d rec (MkQuery (q_path q) (q_tree q) (q_history q) (q_regex q) (q_flags q) (q_string q) (kw1 ++ kw2)).
Proof.
  intros Hk Hu Ht E. unfold find_entries, find. f_equal. unfold find_xp. cbn [q_path q_tree q_history q_regex q_flags q_string q_kw]. destruct (q_path q); [reflexivity|]. rewrite E.
  match goal with |- bind ?s ?k1 = bind ?s ?k2 => destruct s; cbn [bind]; [|reflexivity] end. unfold kw_conv.
  assert (C1 : conv_uuid (k, K_none) = Ok (k, K_none)) by (unfold conv_uuid; cbn [fst]; destruct (str_eqb k $"uuid") eqn:Ek; [apply str_eqb_eq in Ek; contradiction|reflexivity]).
  assert (C2 : conv_tags (k, K_none) = Ok (k, K_none)) by (unfold conv_tags; cbn [fst]; destruct (str_eqb k $"tags") eqn:Ek; [apply str_eqb_eq in Ek; contradiction|reflexivity]).
  pose proof (mapM_ins _ _ _ _ _ C1 (ins_app (k, K_none) kw1 kw2)) as H1. destruct (mapM conv_uuid (kw1 ++ kw2)) as [r|e]; [|now rewrite H1]. destruct H1 as (r' & -> & H1). cbn [bind].
  pose proof (mapM_ins _ _ _ _ _ C2 H1) as H2. destruct (mapM conv_tags r) as [s|e]; [|now rewrite H2]. destruct H2 as (s' & -> & H2). cbn [bind].
  assert (Hx : entry_xp (q_regex q) k <> None) by (clear - Hk; cbn in Hk; repeat destruct Hk as [<-|Hk]; try contradiction; destruct (q_regex q); discriminate).
  rewrite (steps_ins _ _ _ _ _ Hx H2). reflexivity.
Qed.
Lemma mapM_err {A B} (f : A -> res B) l x e : In x l -> f x = Err e -> exists e', mapM f l = Err e'.
Proof.
  induction l as [|y l IH]; intros [] E; cbn [mapM].
  - subst y. rewrite E. eexists. reflexivity.
  - destruct (f y); [|eexists; reflexivity]. cbn [bind]. destruct (IH H E) as (e' & ->). eexists. reflexivity.
Qed.
Lemma conv_err R d q rec : q_path q = None -> (exists e, kw_conv (q_kw q) = Err e) -> exists x, find_entries R d rec q = Err x.
Proof.
  intros Hp (e & E). unfold find_entries, find, find_xp. rewrite Hp, E. destruct (q_string q); [eexists; reflexivity|]. destruct (q_regex q); eexists; reflexivity.
Qed.
Lemma none_uuid R d q rec kw1 kw2 : q_path q = None -> q_kw q = kw1 ++ ($"uuid", K_none) :: kw2 -> exists x, find_entries R d rec q = Err x.
Proof.
  intros Hp E. apply conv_err; [exact Hp|]. unfold kw_conv. destruct (mapM_err conv_uuid (q_kw q) ($"uuid", K_none) Ex_Attribute) as (e & ->); [rewrite E; apply in_or_app; right; left; reflexivity|reflexivity|]. eexists. reflexivity.
Qed.
Lemma mapM_In {A B} (f : A -> res B) l r x : mapM f l = Ok r -> In x l -> exists y, f x = Ok y /\ In y r.
Proof.
  revert r. induction l as [|z l IH]; intros r H []; cbn [mapM] in H; destruct (f z) as [w|] eqn:Ez; try discriminate; cbn [bind] in H; destruct (mapM f l) as [s|]; try discriminate; injection H as <-.
  - subst z. exists w. split; [exact Ez|left; reflexivity].
  - destruct (IH s eq_refl H0) as (y & H1 & H2). exists y. split; [exact H1|right; exact H2].
Qed.
Lemma none_tags R d q rec kw1 kw2 : q_path q = None -> q_kw q = kw1 ++ ($"tags", K_none) :: kw2 -> exists x, find_entries R d rec q = Err x.
Proof.
  intros Hp E. apply conv_err; [exact Hp|]. unfold kw_conv. destruct (mapM conv_uuid (q_kw q)) as [r|e] eqn:Er; [|eexists; reflexivity]. cbn [bind].
  destruct (mapM_In _ _ _ ($"tags", K_none) Er) as (y & H1 & H2); [rewrite E; apply in_or_app; right; left; reflexivity|]. injection H1 as <-. apply (mapM_err conv_tags r _ Ex_Type H2). reflexivity.
Qed.

(** *** Quoting *)
Definition one_doc (kids : list elem) : db := MkDb 4 0 [] [El 0 $"KeePassFile" [] None [El 1 $"Root" [] None [El 2 $"Group" [] None kids]]] 100.
Lemma injection_witness : exists R d t e, unique (d_forest d) /\ In e (elements (d_forest d)) /\
  find_entries R d true (with_kw [($"title", K_str t)]) = Ok [R_entry (eid e)] /\ ~ has_field (fun o => o = Some t) $"Title" e.
Proof.
  exists lit, (one_doc [El 3 $"Entry" [] None [sf 4 $"Title" $"bank"]]), $""" or ""1""=""1", (El 3 $"Entry" [] None [sf 4 $"Title" $"bank"]).
  split; [apply nodupb_ok; vm_compute; reflexivity|]. split; [right; right; right; left; reflexivity|]. split; [vm_compute; reflexivity|].
  intros (s & [<-|[]] & _ & _ & k & [<-|[<-|[]]] & Hv & E); discriminate.
Qed.
Lemma picks_all {A} (P : A -> Prop) l m x : picks P l m -> In x m <-> In x l /\ P x.
Proof.
  intros H. split; [apply (picks_In P l m x H)|]. induction H; cbn; intuition (subst; auto); contradiction.
Qed.
Lemma usable_one keys R k v : In k keys -> (k = $"uuid" -> exists u, v = K_uuid u) -> (k = $"tags" -> exists ts, v = K_tags ts /\ ts <> []) ->
  match v with K_tags ts => k = $"tags" /\ forall g, In g ts -> plain g | K_none => True | _ => plain (shown v) end -> usable keys R (with_kw [(k, v)]).
Proof.
  intros Hk H1 H2 H3. split; [reflexivity|]. split; [exact I|]. split; [intros f w []|]. intros k' v' [E|[]]. injection E as <- <-. split; [exact Hk|]. split; [exact H1|]. split; [exact H2|].
  assert (P : forall w, pattern_ok R (with_kw [(k, v)]) w) by (intros w Hw; discriminate Hw). destruct v; auto.
Qed.
Lemma title_is_data R d t doc F' : d_forest d = doc :: F' -> unique (d_forest d) -> ~ In 34 t -> text_ok t = true ->
  exists l, find_entries R d true (with_kw [($"title", K_str t)]) = Ok (map (fun e => R_entry (eid e)) l) /\
    forall e, In e l -> In e (everything doc) /\ etag e = $"Entry" /\ has_field (fun o => o = Some t) $"Title" e.
Proof.
  intros EF Hu Hq Ht. destruct (find_entries_spec R d (with_kw [($"title", K_str t)]) true (everything doc) Hu) as (l & Hp & E).
  - apply usable_one; [left; reflexivity|intros H; discriminate H|intros H; discriminate H|split; assumption].
  - exact (se_all (d_forest d) doc F' EF).
  - exists l. split; [exact E|]. intros e He. apply (picks_all _ _ _ _ Hp) in He as [He (H1 & _ & _ & H2)]. split; [exact He|]. split; [exact H1|]. exact (H2 _ (or_introl eq_refl)).
Qed.

(** *** History *)
Lemma pre_suffix t : forall u n, In n (pre u t) -> exists l, nd_up n = l ++ u.
Proof.
  induction t as [i g a x k IH] using elem_ind'. intros u n H. rewrite pre_eq in H. destruct H as [<-|H]; [exists []; reflexivity|]. cbn [ekids] in H. apply in_flat_map in H as (c & Hc & H).
  rewrite Forall_forall in IH. destruct (IH c Hc _ _ H) as (l & ->). exists (l ++ [El i g a x k]). now rewrite <- app_assoc.
Qed.
Lemma pre_ups t : forall u n p, In n (pre u t) -> In p (nd_up n) -> In p u \/ (In p (everything t) /\ In (nd_el n) (flat_map everything (ekids p))).
Proof.
  induction t as [i g a x k IH] using elem_ind'. intros u n p H Hp. rewrite pre_eq in H. destruct H as [<-|H]; [left; exact Hp|]. cbn [ekids] in H. apply in_flat_map in H as (c & Hc & H).
  rewrite Forall_forall in IH. assert (Hn : In (nd_el n) (everything c)) by (rewrite (everything_pre c (El i g a x k :: u)); apply in_map, H).
  destruct (IH c Hc _ _ p H Hp) as [[<-|Hu]|[H1 H2]]; [right|left; exact Hu|right].
  - split; [left; reflexivity|]. cbn [ekids]. apply in_flat_map. exists c. auto.
  - split; [|exact H2]. right. apply in_flat_map. exists c. auto.
Qed.
Lemma visible_below F t : unique F -> In t (elements F) -> (In t (visible F) <-> ~ exists h, In h (elements F) /\ etag h = $"History" /\ In t (flat_map everything (ekids h))).
Proof.
  intros Hu Ht. rewrite elements_fpre in Ht. apply in_map_iff in Ht as (n & <- & Hn). rewrite (visible_iff F n Hu Hn). unfold hist_ok. cbn [orb]. rewrite negb_true_iff, <- not_true_iff_false. apply not_iff_compat.
  rewrite existsb_exists. pose proof Hn as Hn'. apply in_flat_map in Hn as (r & Hr & Hn). split.
  - intros (p & Hp & Ep). apply str_eqb_eq in Ep. destruct (pre_ups r [] n p Hn Hp) as [[]|[H1 H2]]. exists p. split; [apply in_flat_map; eauto|]. auto.
  - intros (h & Hh & Eh & Hb). rewrite elements_fpre in Hh. apply in_map_iff in Hh as (m & <- & Hm). apply in_flat_map in Hb as (c & Hc & Hb).
    rewrite (everything_pre c (nd_el m :: nd_up m)) in Hb. apply in_map_iff in Hb as (n' & En & Hn2).
    assert (In n' (fpre F)).
    { apply in_flat_map in Hm as (r' & Hr' & Hm). apply in_flat_map. exists r'. split; [exact Hr'|]. apply (subseq_In (pre (nd_up m) (nd_el m))); [apply pre_sub_subseq, Hm|]. rewrite pre_eq. right. apply in_flat_map. exists c. auto. }
    assert (n' = n) as <- by (apply (NoDup_map_inj nid (fpre F)); [apply unique_fpre, Hu|assumption|assumption|unfold nid; now rewrite En]).
    destruct (pre_suffix _ _ _ Hn2) as (l & El). exists (nd_el m). split; [rewrite El; apply in_or_app; right; left; reflexivity|]. now apply str_eqb_eq.
Qed.
Lemma picks_restrict {A} (P Q : A -> Prop) cand l m : picks P cand l -> picks (fun t => P t /\ Q t) cand m -> picks Q l m.
Proof.
  intros H. revert m. induction H as [|x l l' Hx H IH|x l l' Hx H IH]; intros m Hm; inversion Hm; subst; try tauto.
  - constructor.
  - apply picks_yes; [tauto|apply IH; assumption].
  - apply picks_no; [tauto|apply IH; assumption].
  - apply IH; assumption.
Qed.
Lemma picks_ext {A} (P Q : A -> Prop) l m : (forall x, In x l -> (P x <-> Q x)) -> picks P l m -> picks Q l m.
Proof.
  intros E H. induction H as [|x l m Hx H IH|x l m Hx H IH]; [constructor|apply picks_yes|apply picks_no]; try (apply IH; intros y Hy; apply E; right; exact Hy); (apply E; [left; reflexivity|exact Hx]) || (intros HQ; apply Hx, E; [left; reflexivity|exact HQ]).
Qed.
Lemma searched_incl F tree rec cand : searched F tree rec cand -> incl cand (elements F).
Proof.
  intros [t F' ->|t F' ->|e He|e He] x Hx; unfold elements; apply in_flat_map.
  - exists t. split; [left; reflexivity|exact Hx].
  - destruct Hx as [<-|[]]. exists t. split; [left; reflexivity|]. destruct t; left; reflexivity.
  - rewrite <- in_flat_map. change (In x (elements F)). rewrite elements_fpre in He. apply in_map_iff in He as (n & <- & Hn). rewrite elements_fpre. rewrite everything_kids in Hx. apply in_map_iff in Hx as (m & <- & Hm). apply in_map.
    apply in_flat_map in Hn as (r & Hr & Hn). apply in_flat_map. exists r. split; [exact Hr|]. apply (subseq_In (pre (nd_up n) (nd_el n))); [apply pre_sub_subseq, Hn|]. rewrite pre_eq. right. exact Hm.
  - rewrite <- in_flat_map. change (In x (elements F)). rewrite elements_fpre in He. apply in_map_iff in He as (n & <- & Hn). rewrite elements_fpre. apply in_flat_map in Hn as (r & Hr & Hn).
    apply in_map_iff. exists (Nd x (nd_el n :: nd_up n)). split; [reflexivity|]. apply in_flat_map. exists r. split; [exact Hr|]. apply pre_kid; assumption.
Qed.
Lemma history_split R d q rec cand : unique (d_forest d) -> usable entry_keys R q -> searched (d_forest d) (q_tree q) rec cand ->
  exists all now, find_entries R d rec (with_history true q) = Ok (map (fun t => R_entry (eid t)) all) /\
    find_entries R d rec (with_history false q) = Ok (map (fun t => R_entry (eid t)) now) /\
    picks (fun t => ~ exists h, In h (elements (d_forest d)) /\ etag h = $"History" /\ In t (flat_map everything (ekids h))) all now.
Proof.
  intros Hu Hq Hs. destruct (find_entries_spec R d (with_history true q) rec cand Hu Hq Hs) as (all & Ha & Ea). destruct (find_entries_spec R d (with_history false q) rec cand Hu Hq Hs) as (now & Hn & En).
  exists all, now. split; [exact Ea|]. split; [exact En|]. apply (picks_restrict _ _ _ _ _ Ha). eapply picks_ext; [|exact Hn]. intros t Ht. rewrite <- (visible_below _ _ Hu (searched_incl _ _ _ _ Hs t Ht)).
  unfold answers, with_history. cbn [q_history q_string q_kw q_regex q_flags]. split.
  - intros (H1 & [H2|H2] & H3 & H4); [discriminate|]. auto 10.
  - intros ((H1 & _ & H3 & H4) & H2). auto 10.
Qed.

(** *** Tags *)
Lemma tag_witness : exists R d g e s, unique (d_forest d) /\ In e (elements (d_forest d)) /\ kid_with $"Tags" (fun x => etext x = Some s) e /\ ~ tag_of g s /\
  find_entries R d true (with_kw [($"tags", K_tags [g])]) = Ok [R_entry (eid e)].
Proof.
  set (e := El 3 $"Entry" [] None [tx 4 $"Tags" $"workshop"]). exists lit, (one_doc [e]), $"work", e, $"workshop".
  split; [apply nodupb_ok; vm_compute; reflexivity|]. split; [right; right; right; left; reflexivity|]. split; [exists (tx 4 $"Tags" $"workshop"); repeat split; left; reflexivity|]. split; [|vm_compute; reflexivity].
  intros (p & q & E & _ & Hp & Hq). assert (S : forall c, In c $"workshop" -> ~ sep c) by (intros c; unfold sep; cbn; intuition (subst; discriminate)).
  destruct Hp as [->|(p' & c & -> & Hc)]; [|apply (S c); [rewrite E; apply in_or_app; left; apply in_or_app; right; left; reflexivity|exact Hc]].
  destruct Hq as [->|(c & q' & -> & Hc)]; [discriminate E|apply (S c); [rewrite E; apply in_or_app; right; apply in_or_app; right; left; reflexivity|exact Hc]].
Qed.
Lemma tag_search R d ts doc F' : d_forest d = doc :: F' -> unique (d_forest d) -> ts <> [] -> (forall g, In g ts -> plain g) ->
  exists l, find_entries R d true (with_kw [($"tags", K_tags ts)]) = Ok (map (fun e => R_entry (eid e)) l) /\
    (forall e, In e (everything doc) -> In e (visible (d_forest d)) -> etag e = $"Entry" ->
       kid_with $"Tags" (fun x => exists s, etext x = Some s /\ forall g, In g ts -> tag_of g s) e -> In e l) /\
    (forall e, In e l -> In e (everything doc) /\ etag e = $"Entry" /\ kid_with $"Tags" (fun x => forall g, In g ts -> substring g (text_or_empty (etext x))) e).
Proof.
  intros EF Hu Hts Hg. destruct (find_entries_spec R d (with_kw [($"tags", K_tags ts)]) true (everything doc) Hu) as (l & Hp & E).
  - apply usable_one; [cbn; auto 12|intros H; discriminate H|intros _; exists ts; auto|auto].
  - exact (se_all (d_forest d) doc F' EF).
  - exists l. split; [exact E|]. split.
    + intros e He Hv Ht (x & Hx & HT & s & Es & Hs). apply (picks_all _ _ _ _ Hp). split; [exact He|]. split; [exact Ht|]. split; [right; exact Hv|]. split; [intros f v []|]. intros kv [<-|[]]. exists x. split; [exact Hx|]. split; [exact HT|].
      intros g Hgin. rewrite Es. destruct (Hs g Hgin) as (p & q & Eq & _). exists p, q. exact Eq.
    + intros e He. apply (picks_all _ _ _ _ Hp) in He as [He (H1 & _ & _ & H2)]. split; [exact He|]. split; [exact H1|]. exact (H2 _ (or_introl eq_refl)).
Qed.

(** *** Attachments *)
Lemma attachment_witness : exists R d x, unique (d_forest d) /\ find_attachments R d true plain_query = Err x.
Proof.
  exists lit, (MkDb 3 1 [] [El 0 $"KeePassFile" [] None [El 1 $"Meta" [] None [El 2 $"Binaries" [] None [El 3 $"Binary" [($"ID", $"0")] None []]]; El 4 $"Root" [] None []]] 9). eexists.
  split; [apply nodupb_ok; vm_compute; reflexivity|]. vm_compute. reflexivity.
Qed.

(** *** Paths *)
Lemma give_path q p {A} (mk : A -> ref) l first : q_path q = Some p -> give first q (Ok (map mk l)) = Ok (F_one (match l with [] => None | t :: _ => Some (mk t) end)).
Proof. intros H. unfold give. cbn [bind]. rewrite H, orb_true_r. destruct l; reflexivity. Qed.
Lemma entry_by_path R d q rec groups title t F' : d_forest d = t :: F' -> unique (d_forest d) -> q_tree q = None ->
  path_query q (groups ++ [title]) -> Forall plain (groups ++ [title]) ->
  exists l, picks (entry_at t groups title) (everything t) l /\ find_entries R d rec q = Ok (map (fun e => R_entry (eid e)) l) /\
    forall first, give first q (find_entries R d rec q) = Ok (F_one (match l with [] => None | e :: _ => Some (R_entry (eid e)) end)).
Proof.
  intros H1 H2 H3 H4 H5. destruct (find_entries_path R d q rec groups title t F' H1 H2 H3 H4 H5) as (l & Hp & E). exists l. split; [exact Hp|]. split; [exact E|]. intros first. rewrite E. apply (give_path q _ (fun t => R_entry (eid t)) l first (proj1 H4)).
Qed.
Lemma group_by_path R d q rec names t F' : d_forest d = t :: F' -> unique (d_forest d) -> q_tree q = None ->
  path_query q names -> Forall (fun n => plain n /\ n <> []) names ->
  exists l, picks (group_at t names) (everything t) l /\ find_groups R d rec q = Ok (map (fun e => R_group (eid e)) l) /\
    forall first, give first q (find_groups R d rec q) = Ok (F_one (match l with [] => None | e :: _ => Some (R_group (eid e)) end)).
Proof.
  intros H1 H2 H3 H4 H5. destruct (find_groups_path R d q rec names t F' H1 H2 H3 H4 H5) as (l & Hp & E). exists l. split; [exact Hp|]. split; [exact E|]. intros first. rewrite E. apply (give_path q _ (fun t => R_group (eid t)) l first (proj1 H4)).
Qed.
