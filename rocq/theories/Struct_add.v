(** Adding entries and groups. *)
From Coq Require Import ZifyBool ZifyNat ZifyN.
From Verif Require Import Base PyStr Xml Tree XPath Time Db XPath_facts FindSpec Find_facts Find_path Find_more ApiSpec StructSpec Heap Uuid Api Prim Api_xpath Api_fields Api_custom Api_sub Api_claims Struct.

Lemma less_fresh n l : (forall j, In j l -> (j < n)%nat) -> less n l = l.
Proof. intros H. rewrite <- without_less. apply without_absent. intros G. apply H in G. lia. Qed.
Lemma rows_small d j r : wf d -> lk d j = Some r -> forall k, In k (r_kids r) -> (k < d_next d)%nat.
Proof. intros H E k Hk. destruct (look_has d j r H E) as (t & Ht & _ & <-). cbn in Hk. apply in_map_iff in Hk as (c & <- & Hc). apply (wf_has d c H). now apply (has_kid d t). Qed.
Lemma append_new_claim d p x : wf d -> in_doc d p ->
  exists t d', lx_append_new p x d = (Ok (d_next d), d') /\ eid t = d_next d /\ erase t = x /\ wf d' /\ added d d' p (d_next d) /\ has d' t /\
    forall j, in_doc d' j <-> in_doc d j \/ In j (ids t).
Proof.
  intros H Hp. destruct (new_run d x H) as (t & d1 & E1 & Et & Ex & EF & W1 & (M1 & M2 & M3) & N1 & T1 & R1 & I1 & L1). destruct (d_forest d) as [|r F] eqn:Er; [destruct H; congruence|].
  assert (Hsame : forall j, in_doc d1 j <-> in_doc d j) by (intros j; rewrite (in_doc_root d1 r (F ++ [t]) j W1 EF), (in_doc_root d r F j H Er); reflexivity).
  assert (H0 : hd_error (rts d1) = hd_error (rts d)) by (rewrite EF, Er; reflexivity).
  pose proof (in_doc_has d p H Hp) as (q & Hq & Eq).
  assert (Hn : ~ below (lk d1) (eid t) p). { intros B. apply (below_ids _ t p (wf_unique _ W1) T1) in B. apply I1 in B. pose proof (wf_has d q H Hq). lia. }
  assert (Hr : hd_error (rts d1) <> Some (eid t)). { rewrite H0, Er. cbn. intros C. injection C as C. assert (Hh : has d r) by (rewrite Er; apply elements_root; now left). pose proof (wf_has d r H Hh). lia. }
  destruct (move_claim d1 p t W1 (proj2 (Hsame p) Hp) T1 Hn Hr) as (d2 & E2 & W2 & (P1 & P2 & P3 & P4 & P5) & T2 & N2 & D2 & _). exists t, d2.
  split; [unfold lx_append_new, mbind; rewrite E1; rewrite Et in E2; unfold move in E2; rewrite E2; reflexivity|]. split; [exact Et|]. split; [exact Ex|]. split; [exact W2|]. split; [|split; [exact T2|]].
  - assert (LL : forall j r', lk d j = Some r' -> lk d2 j = Some (with_kids (if (j =? p)%nat then r_kids r' ++ [d_next d] else r_kids r') r')).
    { intros j r' Ej. pose proof (wf_look d j r' H Ej) as Lj. rewrite (P5 j r') by (rewrite L1 by exact Lj; rewrite <- Er; exact Ej). rewrite Et, (less_fresh (d_next d) (r_kids r')); [reflexivity|]. now apply (rows_small d j r'). }
    split; [|split].
    + destruct (lk d (d_next d)) as [r'|] eqn:E; [|reflexivity]. apply (wf_look d _ r' H) in E. lia.
    + split; [congruence|]. split; [congruence|]. split; [congruence|]. split; [lia|]. split; [rewrite P4; exact H0|]. intros j r' Ej Hj. rewrite (LL j r' Ej). destruct (Nat.eqb_spec j p) as [->|]; [exfalso; apply Hj; now left|]. now rewrite with_kids_id.
    + intros r' Ej. rewrite (LL p r' Ej), Nat.eqb_refl. reflexivity.
  - intros j. rewrite D2, Hsame, (below_ids _ t j (wf_unique _ W1) T1). reflexivity.
Qed.

(** *** Calls that only read *)
Definition reads {A} (m : M A) : Prop := forall d, snd (m d) = d.
Lemma reads_ret {A} (a : A) : reads (ret a). Proof. intros d. reflexivity. Qed.
Lemma reads_raise {A} x : reads (@raise A x). Proof. intros d. reflexivity. Qed.
Lemma reads_lift {A} (f : db -> res A) : reads (lift f). Proof. intros d. reflexivity. Qed.
Lemma reads_of {A} (r : res A) : reads (of_res r). Proof. intros d. reflexivity. Qed.
Lemma reads_bind {A B} (m : M A) (k : A -> M B) : reads m -> (forall a, reads (k a)) -> reads (mbind m k).
Proof. intros Hm Hk d. unfold mbind. specialize (Hm d). destruct (m d) as [[a|x] d']; cbn in *; subst d'; [apply Hk|reflexivity]. Qed.
Lemma reads_the i : reads (the i). Proof. apply reads_lift. Qed.
Ltac reads := repeat first [apply reads_ret | apply reads_raise | apply reads_lift | apply reads_of | apply reads_the | apply reads_bind; [|intros ?]].
Lemma reads_run {A} (m : M A) d r d' : reads m -> m d = (r, d') -> d' = d.
Proof. intros H E. specialize (H d). rewrite E in H. exact H. Qed.
Lemma reads_root i : reads (is_root_group i). Proof. apply reads_lift. Qed.
Lemma reads_group R i : reads (group_of R i). Proof. unfold group_of. reads. Qed.
Lemma reads_sub tag i : reads (get_sub tag i). Proof. unfold get_sub. reads. Qed.
Lemma reads_loop R n : forall p l, reads (path_loop R n p l).
Proof. induction n as [|n IH]; intros p l; cbn [path_loop]; [apply reads_raise|]. destruct p as [p|]; [|reads]. apply reads_bind; [apply reads_root|]. intros b. destruct b; [reads|]. apply reads_bind; [apply reads_sub|]. intros o. apply reads_bind; [apply reads_group|]. intros q. apply IH. Qed.
Lemma reads_path R i : reads (group_path R i).
Proof.
  unfold group_path. apply reads_bind; [apply reads_root|]. intros b. destruct b; [reads|]. apply reads_bind; [apply reads_group|]. intros p. destruct p; [|reads]. apply reads_bind; [apply reads_sub|]. intros o. apply reads_bind; [reads|]. intros nm. apply reads_loop.
Qed.
Lemma reads_encode v : reads (encode_t v). Proof. apply reads_lift. Qed.
Lemma reads_base C icon expires expiry : reads (base_kids C icon expires expiry).
Proof.
  unfold base_kids. apply reads_bind; [reads|]. intros u. apply reads_bind; [destruct (truthy icon); reads|]. intros ic. apply reads_bind; [apply reads_encode|]. intros cur. apply reads_bind; [destruct expiry; [apply reads_bind; [reads|intros; apply reads_encode]|reads]|]. intros; reads.
Qed.

(** *** A raising add_entry leaves no trace *)
Lemma bind_assoc_new {A} (m : M (list xml)) (f : list xml -> res (list xml)) T (g : nat -> M A) d :
  (do e <- (do b <- m; do k <- of_res (f b); lx_new (e_node T (b ++ k))); g e) d = (do b <- m; do k <- of_res (f b); do e <- lx_new (e_node T (b ++ k)); g e) d.
Proof. unfold mbind, of_res. destruct (m d) as [[b|x] d1]; [destruct (f b); reflexivity|reflexivity]. Qed.
Lemma add_entry_raises R C d g title username password url notes expiry tags otp icon force x d' : wf d -> in_doc d g ->
  add_entry R C g title username password url notes expiry tags otp icon force d = (Err x, d') -> d' = d.
Proof.
  intros H Hg. unfold add_entry. cbv zeta. unfold mbind at 1, lift at 1. set (q := find_entries R d false _). clearbody q. destruct q as [dup|y]; [|intros E; now injection E].
  assert (G : forall m, (m = (do e <- new_entry C title username password url notes otp tags (Some (match expiry with Some _ => true | None => false end)) expiry icon None true None; do _ <- lx_append g e; ret e)) -> m d = (Err x, d') -> d' = d).
  { intros m ->. unfold new_entry. rewrite (bind_assoc_new _ (fun _ => entry_kids title username password url notes otp tags None true None)). unfold mbind at 1. pose proof (reads_base C icon (Some (match expiry with Some _ => true | None => false end)) expiry d) as Hb.
    destruct (base_kids _ _ _ _ d) as [[b|y] d1]; cbn in Hb; subst d1; [|intros E; now injection E]. unfold of_res at 1, mbind at 1. destruct (entry_kids _ _ _ _ _ _ _ _ _ _) as [k|y]; [|intros E; now injection E].
    destruct (append_new_claim d g (e_node $"Entry" (b ++ k)) H Hg) as (t & d2 & E2 & _). intros E. unfold lx_append_new in E2. change ((do c <- lx_new (e_node $"Entry" (b ++ k)); do _ <- lx_append g c; ret c) d = (Err x, d')) in E. rewrite E2 in E. discriminate. }
  destruct dup as [|e dup]; [apply G; reflexivity|]. destruct force; [apply G; reflexivity|]. intros E. eapply reads_run; [|exact E]. apply reads_bind; [apply reads_path|]. intros. apply reads_raise.
Qed.

(** *** The parts of a new element *)
Definition xsub (T : str) (x : xml) : list xml := filter (fun k => str_eqb (xtag k) T) (xkids x).
Definition xtext1 (T : str) (x : xml) : option str := match hd_error (xsub T x) with Some k => xtext k | None => None end.
Definition xattr (n : str) (x : xml) : option str := option_map snd (List.find (fun a : str * str => str_eqb (fst a) n) (xattrs x)).
Definition xfield (s : xml) : field := Fld (xtext1 $"Key" s) (xtext1 $"Value" s) (match hd_error (xsub $"Value" s) with Some v => xattr $"Protected" v | None => None end).
Definition xbook (x : xml) : list field := map xfield (xsub $"String" x).
Definition xslot (n : str) (x : xml) : option str := match hd_error (xsub $"Times" x) with Some ts => xtext1 n ts | None => None end.
Lemma erase_tag t : xtag (erase t) = etag t. Proof. destruct t; reflexivity. Qed.
Lemma erase_text t : xtext (erase t) = etext t. Proof. destruct t; reflexivity. Qed.
Lemma erase_attrs t : xattrs (erase t) = eattrs t. Proof. destruct t; reflexivity. Qed.
Lemma erase_kids t : xkids (erase t) = map erase (ekids t). Proof. destruct t; reflexivity. Qed.
Lemma filter_map_comm {A B} (f : A -> B) (P : B -> bool) l : filter P (map f l) = map f (filter (fun a => P (f a)) l).
Proof. induction l as [|a l IH]; [reflexivity|]. cbn [map filter]. rewrite IH. destruct (P (f a)); reflexivity. Qed.
Lemma erase_sub T t : xsub T (erase t) = map erase (kids_of T t).
Proof. unfold xsub, kids_of. rewrite erase_kids, filter_map_comm. f_equal. apply filter_ext. intros k. now rewrite erase_tag. Qed.
Lemma hd_map {A B} (f : A -> B) l : hd_error (map f l) = option_map f (hd_error l). Proof. destruct l; reflexivity. Qed.
Lemma erase_first T t : xtext1 T (erase t) = first_text T t.
Proof. unfold xtext1, first_text, find1. rewrite erase_sub, hd_map. destruct (hd_error (kids_of T t)); [apply erase_text|reflexivity]. Qed.
Lemma erase_slot n t : xslot n (erase t) = slot_text n t.
Proof. unfold xslot, slot_text, time_slot, find1 at 1. rewrite erase_sub, hd_map. destruct (hd_error (kids_of $"Times" t)) as [ts|]; [|reflexivity]. cbn [option_map]. rewrite erase_first. reflexivity. Qed.
Lemma erase_field s : xfield (erase s) = field_of s.
Proof.
  unfold xfield, field_of. rewrite !erase_first, erase_sub, hd_map. unfold find1. destruct (hd_error (kids_of $"Value" s)) as [v|]; [|reflexivity]. cbn [option_map]. unfold xattr, attr_of. now rewrite erase_attrs.
Qed.
Lemma erase_book t : xbook (erase t) = book t.
Proof. unfold xbook, book. rewrite erase_sub, map_map. apply map_ext. intros s. apply erase_field. Qed.
Definition xtidy (x : xml) : Prop := forall s, In s (xsub $"String" x) -> exists k v, xsub $"Key" s = [k] /\ xsub $"Value" s = [v].
Lemma erase_tidy t : xtidy (erase t) -> NoDup (map f_key (book t)) -> Forall legal_flag (book t) -> tidy t.
Proof.
  intros H N L. split; [|split; assumption]. intros s Hs. destruct (H (erase s)) as (k & v & E1 & E2); [rewrite erase_sub; now apply in_map|].
  rewrite erase_sub in E1, E2. destruct (kids_of $"Key" s) as [|a [|]]; try discriminate. destruct (kids_of $"Value" s) as [|b [|]]; try discriminate. eauto.
Qed.

(** The arguments' strings are legal and present where needed. *)
Lemma e_string_ok key s attrs : forallb (fun a : str * str => text_ok (snd a)) attrs = true -> text_ok key = true -> text_ok s = true ->
  e_string key (Some s) attrs = Ok (e_node $"String" [X $"Key" [] (Some key) []; X $"Value" attrs (Some s) []]).
Proof. intros Ha Hk Hs. unfold e_string, e_text. cbn [forallb]. rewrite Hk, Ha, Hs. reflexivity. Qed.
Definition xstring (key : str) (v : option str) (attrs : list (str * str)) : xml := e_node $"String" [X $"Key" [] (Some key) []; X $"Value" attrs v []].
Definition xopt (key : str) (v : option str) (attrs : list (str * str)) : list xml := if filled v then [xstring key v attrs] else [].
Lemma opt_string_ok key v attrs : forallb (fun a : str * str => text_ok (snd a)) attrs = true -> text_ok key = true -> opt_text v -> opt_string key v attrs = Ok (xopt key v attrs).
Proof. intros Ha Hk Hv. unfold opt_string, xopt. destruct v as [[|c s]|]; try reflexivity. cbn [truthy filled]. rewrite e_string_ok by assumption. reflexivity. Qed.
Definition xtags (tags : tagsval) : list xml := match tags_text tags with Some s => [X $"Tags" [] (Some s) []] | None => [] end.
Definition xauto : xml := e_node $"AutoType" [X $"Enabled" [] (Some $"True") []; X $"DataTransferObfuscation" [] (Some $"0") []; X $"DefaultSequence" [] (Some []) []; e_node $"Association" [X $"Window" [] (Some []) []; X $"KeystrokeSequence" [] (Some []) []]].
Lemma entry_kids_ok title username password url notes otp tags : some_text title -> some_text username -> some_text password -> opt_text url -> opt_text notes -> opt_text otp -> opt_text (tags_text tags) ->
  entry_kids title username password url notes otp tags None true None =
  Ok ([xstring $"Title" title []; xstring $"UserName" username []; xstring $"Password" password protected_attr] ++ xopt $"URL" url [] ++ xopt $"Notes" notes [] ++ xopt $"otp" otp protected_attr ++ xtags tags ++ [xauto]).
Proof.
  intros (t & -> & Ht) (u & -> & Hu) (p & -> & Hp) Hurl Hn Ho Hg. unfold entry_kids. rewrite !e_string_ok by (assumption || reflexivity). cbn [bind]. rewrite !opt_string_ok by (assumption || reflexivity). cbn [bind].
  assert (E : match tags with T_none => Ok [] | T_list [] => Ok [] | T_list l => let* x := e_text $"Tags" [] (Some (py_join $";" l)) in Ok [x] | T_str [] => Ok [] | T_str s => let* x := e_text $"Tags" [] (Some s) in Ok [x] end = Ok (xtags tags)).
  { unfold xtags. destruct tags as [|[|a l]|[|c s]]; cbn [tags_text opt_text] in *; try reflexivity; unfold e_text; cbn [forallb]; rewrite Hg; reflexivity. }
  rewrite E. reflexivity.
Qed.
Definition xtimes (cur exp : str) (b : bool) : xml :=
  e_node $"Times" [X $"CreationTime" [] (Some cur) []; X $"LastModificationTime" [] (Some cur) []; X $"LastAccessTime" [] (Some cur) []; X $"ExpiryTime" [] (Some exp) []; X $"Expires" [] (Some (py_str_bool b)) []; X $"UsageCount" [] (Some $"0") []; X $"LocationChanged" [] (Some cur) []].
Definition xicon (icon : option str) : list xml := if filled icon then [X $"IconID" [] icon []] else [].
Definition xbase (C : clock) (icon : option str) (cur exp : str) (b : bool) : list xml := [X $"UUID" [] (Some (uuid_text (uuid1 C))) []] ++ xicon icon ++ [xtimes cur exp b].
Definition obool (o : option bool) : bool := match o with Some b => b | None => false end.
Lemma base_kids_ok C d icon expires expiry u cur exp : uuid_ok (uuid1 C) -> opt_text icon -> encode_time (v4 d) (now C) = Ok cur -> expiry_of C expiry u -> encode_time (v4 d) u = Ok exp ->
  base_kids C icon expires expiry d = (Ok (xbase C icon cur exp (obool expires)), d).
Proof.
  intros Hu Hi Hc Hx He. unfold base_kids.
  rewrite (mbind_ok _ _ d (X $"UUID" [] (Some (uuid_text (uuid1 C))) []) d) by (unfold of_res, e_text; cbn [forallb]; rewrite (uuid_legal _ Hu); reflexivity).
  rewrite (mbind_ok _ _ d (xicon icon) d) by (destruct icon as [[|c s]|]; cbn [truthy]; try reflexivity; unfold of_res, e_text; cbn [forallb]; cbn [opt_text] in Hi; rewrite Hi; reflexivity).
  rewrite (mbind_ok _ _ d cur d) by (unfold encode_t, lift; rewrite Hc; reflexivity).
  rewrite (mbind_ok _ _ d exp d). 2: { destruct expiry as [v|]; cbn [expiry_of] in Hx; [|subst u; unfold ret; congruence]. rewrite (mbind_ok _ _ d u d) by (unfold of_res; now rewrite Hx). unfold encode_t, lift. now rewrite He. }
  reflexivity.
Qed.

(** *** What the new entry contains *)
Lemma new_book C icon cur exp b title username password url notes otp tags t :
  erase t = e_node $"Entry" (xbase C icon cur exp b ++ [xstring $"Title" title []; xstring $"UserName" username []; xstring $"Password" password protected_attr] ++ xopt $"URL" url [] ++ xopt $"Notes" notes [] ++ xopt $"otp" otp protected_attr ++ xtags tags ++ [xauto]) ->
  etag t = $"Entry" /\ tidy t /\ book t = new_fields title username password url notes otp /\
  first_text $"UUID" t = Some (uuid_text (uuid1 C)) /\ first_text $"IconID" t = blank_none icon /\ first_text $"Tags" t = tags_text tags /\
  slot_text $"CreationTime" t = Some cur /\ slot_text $"LastModificationTime" t = Some cur /\ slot_text $"LastAccessTime" t = Some cur /\ slot_text $"ExpiryTime" t = Some exp /\ slot_text $"Expires" t = Some (py_str_bool b) /\
  kids_of $"History" t = [] /\ kids_of $"Binary" t = [].
Proof.
  intros E. rewrite <- (erase_tag t), <- !erase_first, <- !erase_slot.
  assert (B : book t = new_fields title username password url notes otp).
  { rewrite <- erase_book, E. unfold xopt, new_fields, opt_field, xbase, xicon, xtags. destruct (filled icon), (tags_text tags), (filled url), (filled notes), (filled otp); vm_compute; reflexivity. }
  assert (K : forall T, kids_of T t = [] <-> xsub T (erase t) = []) by (intros T; rewrite erase_sub; destruct (kids_of T t); split; intros; (reflexivity || discriminate)).
  rewrite !K.
  assert (T : tidy t).
  { apply erase_tidy.
    - rewrite E. unfold xtidy, xopt, xbase, xicon, xtags. intros s Hs.
      assert (G : exists key v a, s = xstring key v a).
      { destruct (filled icon), (tags_text tags), (filled url), (filled notes), (filled otp); vm_compute in Hs; repeat destruct Hs as [<-|Hs]; try contradiction; do 3 eexists; reflexivity. }
      destruct G as (key & v & a & ->). do 2 eexists. split; vm_compute; reflexivity.
    - rewrite B. unfold new_fields, opt_field. destruct (filled url), (filled notes), (filled otp); vm_compute; repeat (apply NoDup_cons; [vm_compute; intuition discriminate|]); apply NoDup_nil.
    - rewrite B. unfold new_fields, opt_field. destruct (filled url), (filled notes), (filled otp); repeat constructor. }
  rewrite E. split; [reflexivity|]. split; [exact T|]. split; [exact B|]. unfold xopt, xbase, xicon, xtags.
  destruct icon as [[|ic icn]|], (tags_text tags), (filled url), (filled notes), (filled otp); repeat split; reflexivity.
Qed.
Lemma new_field_text title username password url notes otp t P : book t = new_fields title username password url notes otp ->
  field_text (prop_name P) t = given title username password url notes otp P.
Proof.
  intros E. unfold field_text. rewrite E. unfold new_fields, opt_field. destruct url as [[|]|], notes as [[|]|], otp as [[|]|], P; vm_compute; reflexivity.
Qed.
Lemma prop_plain P : plain (prop_name P). Proof. destruct P; (split; [vm_compute; intuition discriminate|reflexivity]). Qed.
Lemma get_prop_name R P i : get_prop R P i = get_string R (prop_name P) i. Proof. destruct P; reflexivity. Qed.
Lemma get_prop_field R d t P : wf d -> has d t -> tidy t -> get_prop R P (eid t) d = (Ok (field_text (prop_name P) t), d).
Proof. intros H Ht Hy. rewrite get_prop_name. apply get_string_spec; try assumption. apply prop_plain. Qed.

(** *** The duplicate test *)
Lemma kid_visible F g k : unique F -> In g (elements F) -> In g (visible F) -> etag g <> $"History" -> In k (ekids g) -> In k (visible F).
Proof.
  intros Hu Hg Hv Hn Hk. unfold visible in *. apply in_flat_map in Hv as (r & Hr & Hv). apply in_flat_map. exists r. split; [exact Hr|]. clear Hr Hg. revert Hv. 
  assert (G : forall t, In g (unarchived t) -> In k (unarchived t)); [|apply G].
  intros t. induction t as [i T a x l IH] using elem_ind'. cbn [unarchived]. intros [<-|Hv].
  - cbn [ekids etag] in *. right. destruct (str_eqb T $"History") eqn:E; [apply str_eqb_eq in E; contradiction|]. apply in_flat_map. exists k. split; [exact Hk|]. destruct k; left; reflexivity.
  - right. destruct (str_eqb T $"History"); [contradiction|]. apply in_flat_map in Hv as (c & Hc & Hv). apply in_flat_map. exists c. split; [exact Hc|]. rewrite Forall_forall in IH. now apply IH.
Qed.
Definition dup_query (g : nat) (title username : option str) : query :=
  let kw (k : str) (v : option str) := (k, match v with Some s => K_str s | None => K_none end) in
  MkQuery None (Some g) false false None [] [kw $"title" title; kw $"username" username].
Lemma dup_search R d g title username : wf d -> has d g -> etag g <> $"History" -> In g (visible (d_forest d)) ->
  (forall s, title = Some s -> plain s) -> (forall s, username = Some s -> plain s) ->
  exists l, find_entries R d false (dup_query (eid g) title username) = Ok l /\ (l = [] <-> forall k, ~ duplicate g title username k).
Proof.
  intros H Hg Hn Hv Ht Hu. destruct (find_entries_spec R d (dup_query (eid g) title username) false (ekids g)) as (l & Hp & E).
  - apply H.
  - split; [reflexivity|]. split; [exact I|]. split; [intros f v []|]. intros k v Hk. cbn [dup_query q_kw] in Hk.
    assert (G : (k = $"title" /\ v = match title with Some s => K_str s | None => K_none end) \/ (k = $"username" /\ v = match username with Some s => K_str s | None => K_none end)) by (destruct Hk as [Hk|[Hk|[]]]; injection Hk as <- <-; auto).
    destruct G as [[-> ->]|[-> ->]].
    + split; [left; reflexivity|]. split; [discriminate|]. split; [discriminate|]. destruct title as [s|]; [|exact I]. cbn [shown]. split; [now apply Ht|]. intros C; discriminate C.
    + split; [right; left; reflexivity|]. split; [discriminate|]. split; [discriminate|]. destruct username as [s|]; [|exact I]. cbn [shown]. split; [now apply Hu|]. intros C; discriminate C.
  - apply se_kids. exact Hg.
  - eexists. split; [exact E|].
    assert (G : forall k, In k (ekids g) -> (answers $"Entry" entry_key R (d_forest d) (dup_query (eid g) title username) k <-> duplicate g title username k)).
    { intros k Hk. unfold answers, duplicate. cbn [dup_query q_history q_string q_kw q_regex q_flags]. split.
      - intros (T & _ & _ & K). split; [exact Hk|]. split; [exact T|]. split; intros s ->.
        + exact (K _ (or_introl eq_refl)).
        + exact (K _ (or_intror (or_introl eq_refl))).
      - intros (_ & T & K1 & K2). split; [exact T|]. split; [right; apply (kid_visible _ g); try assumption; apply H|]. split; [intros f v []|]. intros kv [<-|[<-|[]]]; unfold meets; cbn [snd fst].
        + destruct title as [s|]; [|exact I]. exact (K1 s eq_refl).
        + destruct username as [s|]; [|exact I]. exact (K2 s eq_refl). }
    split.
    + intros El k Hd. pose proof Hd as (Hk & _). apply G in Hd; [|exact Hk]. assert (l = []) by (destruct l; [reflexivity|discriminate]). subst l. clear - Hp Hk Hd. remember (ekids g) as c. clear Heqc. remember [] as m eqn:Em. induction Hp as [|x c m Hx Hp IH|x c m Hx Hp IH]; [contradiction|discriminate|]. destruct Hk as [->|Hk]; [contradiction|]. now apply IH.
    + intros Hd. destruct l as [|e l]; [reflexivity|]. exfalso. 
      assert (S : In e (ekids g) /\ answers $"Entry" entry_key R (d_forest d) (dup_query (eid g) title username) e).
      { clear - Hp. remember (e :: l) as m eqn:Em. induction Hp as [|x c m Hx Hp IH|x c m Hx Hp IH]; [discriminate| |]. - injection Em as -> ->. split; [now left|exact Hx]. - destruct (IH Em). split; [now right|assumption]. }
      destruct S as [S1 S2]. apply (Hd e). now apply G.
Qed.

(** *** add_entry *)
Definition is_some {A} (o : option A) : bool := match o with Some _ => true | None => false end.
Lemma add_entry_claim R C d g title username password url notes expiry tags otp icon force u cur exp : wf d -> has d g -> in_doc d (eid g) -> etag g <> $"History" -> In g (visible (d_forest d)) ->
  uuid_ok (uuid1 C) -> (forall s, title = Some s -> plain s) -> (forall s, username = Some s -> plain s) ->
  some_text title -> some_text username -> some_text password -> opt_text url -> opt_text notes -> opt_text otp -> opt_text icon -> opt_text (tags_text tags) ->
  encode_time (v4 d) (now C) = Ok cur -> expiry_of C expiry u -> encode_time (v4 d) u = Ok exp ->
  force = true \/ (forall k, ~ duplicate g title username k) ->
  exists e t d', add_entry R C (eid g) title username password url notes expiry tags otp icon force d = (Ok e, d') /\
    wf d' /\ added d d' (eid g) e /\ has d' t /\ eid t = e /\ (forall j, in_doc d' j <-> in_doc d j \/ In j (ids t)) /\
    etag t = $"Entry" /\ tidy t /\ book t = new_fields title username password url notes otp /\
    first_text $"UUID" t = Some (uuid_text (uuid1 C)) /\ first_text $"IconID" t = blank_none icon /\ first_text $"Tags" t = tags_text tags /\
    slot_text $"CreationTime" t = Some cur /\ slot_text $"LastModificationTime" t = Some cur /\ slot_text $"LastAccessTime" t = Some cur /\ slot_text $"ExpiryTime" t = Some exp /\ slot_text $"Expires" t = Some (py_str_bool (is_some expiry)) /\
    kids_of $"History" t = [] /\ kids_of $"Binary" t = [].
Proof.
  intros H Hg Hd Hn Hv HU P1 P2 St Su Sp Ou On Oo Oi Og Ec Ex Ee Hf. destruct (dup_search R d g title username H Hg Hn Hv P1 P2) as (l & El & Hl).
  set (b := is_some expiry).
  destruct (append_new_claim d (eid g) (e_node $"Entry" (xbase C icon cur exp b ++ [xstring $"Title" title []; xstring $"UserName" username []; xstring $"Password" password protected_attr] ++ xopt $"URL" url [] ++ xopt $"Notes" notes [] ++ xopt $"otp" otp protected_attr ++ xtags tags ++ [xauto])) H Hd)
    as (t & d' & E & Et & Ex' & W & A & T & D).
  exists (d_next d), t, d'. split.
  2: { split; [exact W|]. split; [exact A|]. split; [exact T|]. split; [exact Et|]. split; [exact D|]. exact (new_book C icon cur exp b title username password url notes otp tags t Ex'). }
  assert (G : (do e <- new_entry C title username password url notes otp tags (Some b) expiry icon None true None; do _ <- lx_append (eid g) e; ret e) d = (Ok (d_next d), d')).
  { unfold new_entry. rewrite (bind_assoc_new _ (fun _ => entry_kids title username password url notes otp tags None true None)).
    rewrite (mbind_ok _ _ _ _ _ (base_kids_ok C d icon (Some b) expiry u cur exp HU Oi Ec Ex Ee)). rewrite entry_kids_ok by assumption. exact E. }
  unfold add_entry. cbv zeta. fold (dup_query (eid g) title username). rewrite (mbind_ok _ _ d l d) by (unfold lift; now rewrite El).
  destruct l as [|r l]; [exact G|]. destruct force; [exact G|]. destruct Hf as [Hf|Hf]; [discriminate|]. apply Hl in Hf. discriminate.
Qed.
Lemma add_entry_duplicate R C d g title username password url notes expiry tags otp icon k : wf d -> has d g -> etag g <> $"History" -> In g (visible (d_forest d)) ->
  (forall s, title = Some s -> plain s) -> (forall s, username = Some s -> plain s) -> duplicate g title username k ->
  exists x, add_entry R C (eid g) title username password url notes expiry tags otp icon false d = (Err x, d).
Proof.
  intros H Hg Hn Hv P1 P2 Hk. destruct (dup_search R d g title username H Hg Hn Hv P1 P2) as (l & El & Hl). unfold add_entry. cbv zeta. fold (dup_query (eid g) title username). rewrite (mbind_ok _ _ d l d) by (unfold lift; now rewrite El).
  destruct l as [|r l]; [exfalso; exact (proj1 Hl eq_refl k Hk)|]. unfold mbind. pose proof (reads_path R (eid g) d) as Hp. destruct (group_path R (eid g) d) as [[p|x] d']; cbn in Hp; subst d'; eexists; reflexivity.
Qed.
Lemma some_inj {A} (x y : A) : Some x = Some y -> x = y. Proof. intros H. injection H as ->. reflexivity. Qed.
(** The stored expiry is the same moment. *)
Lemma astimezone_instant z v i : dt_valid v -> instant v = Some i -> (0 <= i < MAXSEC * 1000000)%Z -> exists u, astimezone_utc z v = Ok u /\ dt_valid u /\ instant u = Some i /\ doff u = Some 0%Z.
Proof.
  intros Hv Hi Hr. unfold instant in Hi. destruct (doff v) as [o|] eqn:Eo; [|discriminate]. apply some_inj in Hi. unfold instant_us, local_us in Hi. unfold astimezone_utc. rewrite Eo. cbv zeta.
  pose proof Hv as (_ & _ & _ & _ & _ & _ & Hus & _). set (s := (local_sec v - o * 60)%Z). assert (Es : (s * 1000000 + dus v = i)%Z) by (unfold s; lia).
  assert (Hs : (0 <= s < MAXSEC)%Z) by lia. replace (s <? 0)%Z with false by lia. destruct (dt_of_sec_spec s Hs) as (w & -> & Hw & Iw & Ow). cbn [bind]. eexists. split; [reflexivity|].
  destruct Hw as (V1 & V2 & V3 & V4 & V5 & V6 & V7 & V8). unfold instant in *. rewrite Ow in Iw. cbn [option_map] in Iw. apply some_inj in Iw. cbn [doff option_map]. split; [|split; [|reflexivity]].
  - unfold dt_valid. cbn [dyear dmonth dday dhour dmin dsec dus doff]. do 7 (split; [assumption|]). intros q Hq. injection Hq as <-. lia.
  - f_equal. assert (Iw' : instant_us w 0 = (s * 1000000)%Z) by exact Iw. unfold instant_us, local_us, local_sec in Iw'. unfold instant_us, local_us, local_sec. cbn [dyear dmonth dday dhour dmin dsec dus].
    assert (dus w = 0)%Z; [|lia]. lia.
Qed.

(** *** add_group *)
Lemma assoc_group {A} (m : M (list xml)) (r : res xml) (n : M (list xml)) T (g : nat -> M A) d :
  (do e <- (do b <- m; do x <- of_res r; do y <- n; lx_new (e_node T (b ++ [x] ++ y))); g e) d = (do b <- m; do x <- of_res r; do y <- n; do e <- lx_new (e_node T (b ++ [x] ++ y)); g e) d.
Proof. unfold mbind, of_res. destruct (m d) as [[b|x] d1]; [|reflexivity]. destruct r; [|reflexivity]. destruct (n d1) as [[y|z] d2]; reflexivity. Qed.
Definition xnotes (notes : option str) : list xml := if filled notes then [X $"Notes" [] notes []] else [].
Fixpoint xall (x : xml) : list xml := let 'X _ _ _ k := x in x :: flat_map xall k.
Lemma map_flat {A B C} (f : B -> C) (g : A -> list B) l : map f (flat_map g l) = flat_map (fun a => map f (g a)) l.
Proof. induction l as [|a l IH]; [reflexivity|]. cbn [flat_map]. now rewrite map_app, IH. Qed.
Lemma erase_all t : map erase (everything t) = xall (erase t).
Proof.
  induction t as [i g a x k IH] using elem_ind'. rewrite everything_eq. cbn [map ekids erase xall]. f_equal. rewrite map_flat. induction IH as [|c k Hc _ IH]; [reflexivity|]. cbn [flat_map map]. now rewrite Hc, IH.
Qed.
Lemma new_group_parts C cur name notes icon t :
  erase t = e_node $"Group" (xbase C icon cur cur false ++ [X $"Name" [] name []] ++ xnotes notes) ->
  etag t = $"Group" /\ first_text $"Name" t = name /\ first_text $"Notes" t = blank_none notes /\
  first_text $"UUID" t = Some (uuid_text (uuid1 C)) /\ first_text $"IconID" t = blank_none icon /\
  slot_text $"CreationTime" t = Some cur /\ slot_text $"LastModificationTime" t = Some cur /\ slot_text $"LastAccessTime" t = Some cur /\ slot_text $"ExpiryTime" t = Some cur /\ slot_text $"Expires" t = Some (py_str_bool false) /\
  kids_of $"Entry" t = [] /\ kids_of $"Group" t = [] /\ (forall y, In y (everything t) -> y = t \/ kids_of $"UUID" y = []) /\ exists k, kids_of $"UUID" t = [k].
Proof.
  intros E. rewrite <- (erase_tag t), <- !erase_first, <- !erase_slot.
  assert (K : forall T, kids_of T t = [] <-> xsub T (erase t) = []) by (intros T; rewrite erase_sub; destruct (kids_of T t); split; intros; (reflexivity || discriminate)).
  assert (K1 : forall T, (exists k, kids_of T t = [k]) <-> exists k, xsub T (erase t) = [k]). { intros T. rewrite erase_sub. destruct (kids_of T t) as [|a [|]]; split; intros (k & Hk); try discriminate; eexists; reflexivity. }
  assert (Y : forall y, In y (everything t) -> y = t \/ kids_of $"UUID" y = []).
  { intros y Hy. rewrite everything_eq in Hy. destruct Hy as [<-|Hy]; [now left|right]. assert (Hx : In (erase y) (flat_map xall (xkids (erase t)))).
    { rewrite erase_kids. apply (in_map erase) in Hy. rewrite map_flat in Hy. apply in_flat_map in Hy as (c & Hc & Hy). rewrite erase_all in Hy. apply in_flat_map. exists (erase c). split; [now apply in_map|exact Hy]. }
    assert (Hz : xsub $"UUID" (erase y) = []). { rewrite E in Hx. revert Hx. generalize (erase y). unfold xbase, xicon, xnotes. intros z Hz. destruct icon as [[|ic icn]|], notes as [[|ic' icn']|]; cbn in Hz; repeat (destruct Hz as [<-|Hz]; [reflexivity|]); destruct Hz. }
    rewrite erase_sub in Hz. destruct (kids_of $"UUID" y); [reflexivity|discriminate]. }
  enough (G : etag t = $"Group" /\ xtext1 $"Name" (erase t) = name /\ xtext1 $"Notes" (erase t) = blank_none notes /\ xtext1 $"UUID" (erase t) = Some (uuid_text (uuid1 C)) /\ xtext1 $"IconID" (erase t) = blank_none icon /\
    xslot $"CreationTime" (erase t) = Some cur /\ xslot $"LastModificationTime" (erase t) = Some cur /\ xslot $"LastAccessTime" (erase t) = Some cur /\ xslot $"ExpiryTime" (erase t) = Some cur /\ xslot $"Expires" (erase t) = Some (py_str_bool false) /\
    kids_of $"Entry" t = [] /\ kids_of $"Group" t = [] /\ exists k, kids_of $"UUID" t = [k]) by (rewrite erase_tag; tauto).
  rewrite <- (erase_tag t), !K, K1, E. unfold xbase, xicon, xnotes. destruct icon as [[|ic icn]|], notes as [[|ic' icn']|]; repeat split; try (eexists; reflexivity); reflexivity.
Qed.
Lemma add_group_claim C d p name icon notes cur : wf d -> in_doc d p -> uuid_ok (uuid1 C) -> some_text name -> opt_text icon -> opt_text notes -> encode_time (v4 d) (now C) = Ok cur ->
  exists e t d', add_group C (Some p) name icon notes d = (Ok e, d') /\ wf d' /\ added d d' p e /\ has d' t /\ eid t = e /\ (forall j, in_doc d' j <-> in_doc d j \/ In j (ids t)) /\
  etag t = $"Group" /\ first_text $"Name" t = name /\ first_text $"Notes" t = blank_none notes /\
  first_text $"UUID" t = Some (uuid_text (uuid1 C)) /\ first_text $"IconID" t = blank_none icon /\
  slot_text $"CreationTime" t = Some cur /\ slot_text $"LastModificationTime" t = Some cur /\ slot_text $"LastAccessTime" t = Some cur /\ slot_text $"ExpiryTime" t = Some cur /\ slot_text $"Expires" t = Some (py_str_bool false) /\
  kids_of $"Entry" t = [] /\ kids_of $"Group" t = [] /\ (forall y, In y (everything t) -> y = t \/ kids_of $"UUID" y = []) /\ exists k, kids_of $"UUID" t = [k].
Proof.
  intros H Hp HU (s & -> & Hs) Hi Hn Ec. destruct (append_new_claim d p (e_node $"Group" (xbase C icon cur cur false ++ [X $"Name" [] (Some s) []] ++ xnotes notes)) H Hp) as (t & d' & E & Et & Ex & W & A & T & D).
  exists (d_next d), t, d'. split. 2: { split; [exact W|]. split; [exact A|]. split; [exact T|]. split; [exact Et|]. split; [exact D|]. exact (new_group_parts C cur (Some s) notes icon t Ex). }
  unfold add_group, new_group. rewrite assoc_group. rewrite (mbind_ok _ _ _ _ _ (base_kids_ok C d icon None None (now C) cur cur HU Hi Ec eq_refl Ec)).
  rewrite (mbind_ok _ _ d (X $"Name" [] (Some s) []) d) by (unfold of_res, e_text; cbn [forallb]; rewrite Hs; reflexivity).
  rewrite (mbind_ok _ _ d (xnotes notes) d) by (destruct notes as [[|c n]|]; cbn [truthy]; try reflexivity; unfold of_res, e_text; cbn [forallb]; cbn [opt_text] in Hn; rewrite Hn; reflexivity).
  exact E.
Qed.
Lemma add_group_raises C d p name icon notes x d' : wf d -> in_doc d p -> add_group C (Some p) name icon notes d = (Err x, d') -> d' = d.
Proof.
  intros H Hp. unfold add_group, new_group. rewrite assoc_group. unfold mbind at 1. pose proof (reads_base C icon None None d) as Hb. destruct (base_kids _ _ _ _ d) as [[b|y] d1]; cbn in Hb; subst d1; [|intros E; now injection E].
  unfold of_res at 1, mbind at 1. destruct (e_text _ _ _) as [n|y]; [|intros E; now injection E]. unfold mbind at 1.
  assert (Hr : exists r, (if truthy notes then of_res (let* x0 := e_text $"Notes" [] notes in Ok [x0]) else ret []) d = (r, d)) by (destruct (truthy notes); eexists; reflexivity). destruct Hr as (r & ->). destruct r as [y|y]; [|intros E; now injection E].
  destruct (append_new_claim d p (e_node $"Group" (b ++ [n] ++ y)) H Hp) as (t & d2 & E2 & _). intros E. unfold lx_append_new in E2. change ((do c <- lx_new (e_node $"Group" (b ++ [n] ++ y)); do _ <- lx_append p c; ret c) d = (Err x, d')) in E. rewrite E2 in E. discriminate.
Qed.
