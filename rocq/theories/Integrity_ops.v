(** The calls of the API, as sequences of the steps of Integrity.v. *)
From Verif Require Import Base PyStr Xml Tree XPath Uuid Time Db FindSpec XPath_facts XPath_eval Find_facts Find_path Api ApiSpec StructSpec CredSpec Heap Prim Api_xpath Struct Struct_add Struct_empty Struct_hist Struct_claims Struct_find Bin_xpath IntegritySpec Integrity.

Lemma find1_in T t k : find1 T t = Some k -> In k (ekids t) /\ etag k = T.
Proof. unfold find1. intros E. assert (I : In k (kids_of T t)) by (destruct (kids_of T t); [discriminate E|injection E as ->; now left]). apply filter_In in I as [I E']. apply str_eqb_eq in E'. auto. Qed.
Lemma reads_string R key i : reads (get_string R key i). Proof. unfold get_string. reads. Qed.
Lemma top_forest d : wf d -> exists r F, d_forest d = r :: F.
Proof. intros (H & _). destruct (d_forest d); [congruence|eauto]. Qed.
Lemma top_has d r F t : d_forest d = r :: F -> In t (everything r) -> has d t.
Proof. intros E I. rewrite E. unfold elements. cbn. apply in_app_iff. now left. Qed.
Lemma top_in d r F t : wf d -> d_forest d = r :: F -> In t (everything r) -> in_doc d (eid t).
Proof. intros H E I. apply (in_doc_root d r F (eid t) H E). now apply ids_In. Qed.

(** *** Searches that return elements of one kind *)
Lemma plain_Z z : plain (str_of_Z z).
Proof.
  destruct (Z.le_gt_cases 0 z) as [H|H]; [now apply number_plain|]. destruct z as [|p|p]; [lia|lia|]. unfold str_of_Z. destruct (digits_plain (str_of_N (N.pos p)) (str_of_N_digits _)) as [A B]. split.
  - intros [C|C]; [discriminate C|now apply A].
  - unfold text_ok in *. cbn [app forallb]. rewrite B. reflexivity.
Qed.
Lemma mapM_refs l : forall rs, mapM cast l = Ok rs -> forall r, In r rs -> exists n, In n l /\ rid r = nid n.
Proof. intros rs E r I. destruct (mapM_out cast l rs r E I) as (n & Hn & Ec). exists n. split; [exact Hn|now apply cast_id]. Qed.
Lemma id_refs R d z rs : wf d -> find_attachments R d true (MkQuery None None false false None [] [($"id", K_int z)]) = Ok rs -> forall r, In r rs -> is_tag (lk d) $"Binary" (rid r).
Proof.
  intros H E r I. destruct (top_forest d H) as (top & F & EF). set (q := MkQuery None None false false None [] [($"id", K_int z)]) in *.
  destruct (find_generic R d q $"Binary" attachment_keys attachment_xp (attachment_crit R false $"None") (fun M k t => exists v, M (Some v) /\ crits_hold (attachment_crit R false $"None" k v) t = true)) with (rec := true) (cand := everything top) as (cn & l & Ec & Hin & Hp & Ef); try tagok.
  - split; [intros k v Hk Ht Hv; apply (attachment_piece R); [assumption|assumption|apply plain_none]|intros C; cbn in C; intuition discriminate].
  - now left.
  - intros w k v Hw Hpat. apply attachment_crit_ok; assumption.
  - intros k v t _ _ _ _. cbn [matches q_regex q]. split; [intros X; exists v; auto|]. intros (v' & E' & X). injection E' as ->. exact X.
  - split; [reflexivity|]. split; [exact Logic.I|]. split; [intros f v []|]. intros k v [C|[]]. injection C as <- <-. split; [now left|]. split; [discriminate|]. split; [discriminate|]. split; [apply plain_Z|]. intros C; discriminate C.
  - apply H.
  - apply (se_all _ top F EF).
  - unfold find_attachments in E. change $"//Binary" with ($"//" ++ $"Binary") in E. rewrite Ef in E. destruct (mapM_refs l rs E r I) as (n & Hn & ->). destruct (picks_In _ _ _ _ Hp Hn) as [In_ (T & _)]. exists (row_of (nd_el n)). split; [|exact T].
    unfold nid. apply look_self; [apply H|]. rewrite elements_fpre. apply in_map. now apply Hin.
Qed.
Lemma root_group_ok R d o d' : wf d -> root_group R d = (Ok (Some o), d') -> d' = d /\ is_tag (lk d) $"Group" o /\ in_doc d o.
Proof.
  intros H E. destruct (top_forest d H) as (r & F & EF). unfold root_group, lift in E. destruct (find_groups_path R d (MkQuery (Some []) None false false None [] []) true [] r F EF) as (l & Hp & El); [apply H|reflexivity|split; reflexivity|constructor|].
  rewrite El in E. cbn [bind] in E. destruct l as [|x l]; [discriminate E|]. cbn [map hd_error option_map rid] in E. injection E as <- <-. destruct (picks_hd _ _ _ Hp x eq_refl) as [I (rg & (_ & q & _ & _ & _ & T) & L)]. inversion L; subst.
  split; [reflexivity|]. split; [|now apply (top_in d r F)]. rewrite <- T. apply has_tag; [exact H|now apply (top_has d r F)].
Qed.
Lemma reads_bin R : reads (recyclebin_group R).
Proof. unfold recyclebin_group. apply reads_bind; [apply reads_lift|]. intros [e|]; reads. Qed.
Lemma bin_group_ok R d b d' : wf d -> recyclebin_group R d = (Ok (Some b), d') -> is_tag (lk d) $"Group" b /\ in_doc d b.
Proof.
  intros H E. destruct (top_forest d H) as (r & F & EF). unfold recyclebin_group in E. rewrite (mbind_ok _ _ _ _ _ (meta_run R d r F $"RecycleBinUUID" H EF ltac:(now left))) in E.
  destruct (meta_of _ r) as [e|]; [|discriminate E]. apply mbind_inv in E as [(x & _ & C)|(u & d1 & E1 & E)]; [discriminate C|]. unfold of_res in E1. injection E1 as E1 <-.
  destruct (bin_search R d r F u H EF (uuid_of_text_ok _ _ E1)) as (l & Hp & El). unfold lift in E. change (MkQuery None None false false None [] [($"uuid", K_uuid u)]) with (bin_query u) in E. rewrite El in E. cbn [bind] in E. destruct l as [|x l]; [discriminate E|]. cbn [map hd_error option_map rid] in E. injection E as <- _.
  destruct (picks_hd _ _ _ Hp x eq_refl) as [I (T & _)]. split; [|now apply (top_in d r F)]. rewrite <- T. apply has_tag; [exact H|now apply (top_has d r F)].
Qed.
Lemma binaries_elem R d b d' : wf d -> xfirst R None $"/KeePassFile/Meta/Binaries" d = (Ok (Some b), d') -> has d b /\ etag b = $"Binaries".
Proof.
  intros H E. destruct (top_forest d H) as (r & F & EF). change (xfirst R None $"/KeePassFile/Meta/Binaries" d) with (meta_elem R $"Binaries" d) in E. rewrite (meta_run R d r F $"Binaries" H EF) in E; [|cbn; tauto]. injection E as E _. unfold meta_of in E.
  destruct (str_eqb (etag r) _); [|discriminate E]. assert (I : In b (flat_map (kids_of $"Binaries") (kids_of $"Meta" r))) by (destruct (flat_map _ _); [discriminate E|injection E as ->; now left]).
  apply in_flat_map in I as (m & Hm & Hb). apply filter_In in Hm as [Hm _]. apply filter_In in Hb as [Hb Tb]. apply str_eqb_eq in Tb. split; [|exact Tb]. apply (has_kid d m); [|exact Hb]. apply (has_kid d r); [|exact Hm]. apply (top_has d r F); [exact EF|apply everything_self].
Qed.

Section Ops.
  Variables (S : nat -> Prop) (Nw : Prop) (d0 : db) (H0 : wf d0) (L0 : laid d0) (R : regex) (Zl : zlib).
  Notation ev := (evolves S Nw d0).
  Definition good {A} (m : M A) (d : db) : Prop := forall r d', m d = (r, d') -> ev d' /\ tags_le d d'.
  Lemma good_read {A} (m : M A) d : ev d -> reads m -> good m d.
  Proof. intros E Rd r d' Hr. apply reads_run in Hr as ->; [|exact Rd]. split; [exact E|apply le_refl]. Qed.
  Lemma good_bind {A B} (m : M A) (k : A -> M B) d : good m d -> (forall a d1, m d = (Ok a, d1) -> ev d1 -> tags_le d d1 -> good (k a) d1) -> good (mbind m k) d.
  Proof.
    intros Gm Gk r d' Hr. apply mbind_inv in Hr as [(e & Hr & _)|(a & d1 & Hr & K)]; [exact (Gm _ _ Hr)|]. destruct (Gm _ _ Hr) as [E1 T1]. destruct (Gk a d1 Hr E1 T1 _ _ K) as [E2 T2]. split; [exact E2|eapply le_trans; eauto].
  Qed.
  Lemma good_bind_read {A B} (m : M A) (k : A -> M B) d : ev d -> reads m -> (forall a, m d = (Ok a, d) -> good (k a) d) -> good (mbind m k) d.
  Proof. intros E Rd Gk. apply good_bind; [now apply good_read|]. intros a d1 Ha. pose proof (reads_run m d _ _ Rd Ha) as ->. intros _ _. now apply Gk. Qed.
  Lemma good_ret {A} (a : A) d : ev d -> good (ret a) d. Proof. intros E. apply good_read; [exact E|apply reads_ret]. Qed.
  Lemma good_raise {A} x d : ev d -> good (@raise A x) d. Proof. intros E. apply good_read; [exact E|apply reads_raise]. Qed.
  Lemma good_text i v d : ev d -> good (lx_set_text i v) d. Proof. intros E r d' Hr. exact (ev_text S Nw d0 H0 i v d r d' E Hr). Qed.
  Lemma good_attr i k v d : ev d -> good (lx_set_attr i k v) d. Proof. intros E r d' Hr. exact (ev_attr S Nw d0 H0 i k v d r d' E Hr). Qed.
  Lemma good_append_new i P x d : ev d -> is_tag (lk d) P i -> frameless x -> good (lx_append_new i x) d.
  Proof. intros E T F r d' Hr. exact (ev_append_new S Nw d0 H0 i P x d r d' E T F Hr). Qed.
  Lemma good_remove p c d : ev d -> (is_kid d p c -> free S d0 d c) -> good (lx_remove p c) d.
  Proof. intros E F r d' Hr. exact (ev_remove S Nw d0 H0 p c d r d' E F Hr). Qed.
  Lemma good_append p c P T d : ev d -> is_tag (lk d) P p -> is_tag (lk d) T c -> joins P T -> free S d0 d c -> good (lx_append p c) d.
  Proof. intros E TP TT J F r d' Hr. destruct (ev_append S Nw d0 H0 p c P T d r d' E TP TT J F Hr) as (A & B & _). auto. Qed.
  Lemma good_quiet {A} (m : M A) d : good m d -> good (quiet m) d.
  Proof. intros G. unfold quiet. apply good_bind; [exact G|]. intros a d1 _ E1 _. now apply good_ret. Qed.
  Notation evw E := (ev_wf _ _ _ _ E).

  (** *** Fields *)
  Lemma op_sub T i P v d : frameb T = false -> ev d -> is_tag (lk d) P i -> good (set_sub T i v) d.
  Proof.
    intros NF E TP. pose proof (evw E) as W. apply unframed in NF. unfold set_sub. apply good_bind_read; [exact E|apply reads_the|]. intros t Ht. apply the_ok in Ht as (_ & Ht & Ei); [|exact W].
    apply good_bind.
    - destruct (find1 T t) as [x|] eqn:Ef; [|now apply good_ret]. apply find1_in in Ef as [Ix Tx]. apply good_remove; [exact E|]. intros _. left. exists T. split; [|exact NF]. rewrite <- Tx. apply has_tag; [exact W|now apply (has_kid d t)].
    - intros _ d1 _ E1 T1. apply good_bind_read; [exact E1|apply reads_of|]. intros x Hx. unfold of_res in Hx. injection Hx as Hx. unfold e_text in Hx. destruct (forallb _ _); [|discriminate Hx]. destruct v as [s|]; [|discriminate Hx]. destruct (text_ok s); [|discriminate Hx]. injection Hx as <-.
      apply good_bind; [|intros; now apply good_ret]. apply (good_append_new i P); [exact E1|now apply T1|now apply frameless_leaf].
  Qed.
  Lemma e_text_leaf T a v x : e_text T a v = Ok x -> exists s, x = X T a (Some s) [].
  Proof. unfold e_text. destruct (forallb _ a); [|discriminate]. destruct v as [s|]; [|discriminate]. destruct (text_ok s); [|discriminate]. intros E. injection E as <-. eauto. Qed.
  Lemma frameless_text T a v x : frameb T = false -> e_text T a v = Ok x -> frameless x.
  Proof. intros NF E. apply e_text_leaf in E as (s & ->). now apply frameless_leaf, unframed. Qed.
  Lemma frameless_string key v a x : e_string key v a = Ok x -> frameless x.
  Proof.
    unfold e_string. intros E. apply bind_ok in E as (k & Ek & E). apply bind_ok in E as (w & Ew & E). injection E as <-. apply frameless_node; [now apply unframed|]. intros c [<-|[<-|[]]]; [eapply frameless_text; [|exact Ek]|eapply frameless_text; [|exact Ew]]; reflexivity.
  Qed.
  Lemma field_elem key i P t d f : ev d -> plain key -> is_tag (lk d) P i -> xfirst R (Some i) (string_xp key) d = (Ok (Some f), t) -> is_tag (lk d) $"String" (eid f).
  Proof.
    intros E Pk TP Hx. pose proof (evw E) as W. destruct (tag_has d P i W TP) as (u & Hu & <- & _). rewrite (string_first R d u key W Hu Pk) in Hx. injection Hx as Hx _.
    assert (I : In f (fields key u)) by (destruct (fields key u); [discriminate Hx|injection Hx as ->; now left]). unfold fields in I. apply filter_In in I as [I B]. apply andb_true_iff in B as [B _]. apply str_eqb_eq in B. rewrite <- B. apply has_tag; [exact W|now apply (has_kid d u)].
  Qed.
  Lemma free_string d c : is_tag (lk d) $"String" c -> free S d0 d c.
  Proof. intros T. left. exists $"String". split; [exact T|now apply unframed]. Qed.
  Lemma op_string key i P v p d : plain key -> ev d -> is_tag (lk d) P i -> good (set_string R key i v p) d.
  Proof.
    intros Pk E TP. unfold set_string. apply good_bind_read; [exact E|apply reads_lift|]. intros f Hf. apply good_bind_read; [exact E| |].
    { destruct p; [apply reads_ret|]. apply reads_bind; [apply reads_lift|intros ?; apply reads_ret]. }
    intros prot _. apply good_bind.
    - destruct f as [f|]; [|now apply good_ret]. apply good_remove; [exact E|]. intros _. apply free_string. exact (field_elem key i P d d f E Pk TP Hf).
    - intros _ d1 _ E1 T1. apply good_bind_read; [exact E1|apply reads_of|]. intros x Hx. unfold of_res in Hx. injection Hx as Hx. apply frameless_string in Hx. apply good_bind; [|intros; now apply good_ret]. apply (good_append_new i P); auto.
  Qed.
  Lemma op_prop p i P v d : ev d -> is_tag (lk d) P i -> good (set_prop R p i v) d.
  Proof.
    intros E TP. assert (Pl : forall k, forallb xml_char k = true -> existsb (N.eqb 34) k = false -> plain k).
    { intros k X Q. split; [|exact X]. intros I. assert (existsb (N.eqb 34) k = true) by (apply existsb_exists; exists 34; auto). congruence. }
    destruct p; cbn [set_prop]; try (apply (op_string _ i P); [apply Pl; reflexivity|exact E|exact TP]).
    all: unfold set_password, set_otp; (apply good_bind_read; [exact E|apply reads_string|]); intros a _; (apply (op_string _ i P); [apply Pl; reflexivity|exact E|exact TP]).
  Qed.
  Lemma op_custom i P key v b d : plain key -> ev d -> is_tag (lk d) P i -> good (set_custom_property R i key v b) d.
  Proof. intros Pk E TP. unfold set_custom_property. destruct (reserved _); [now apply good_raise|now apply (op_string key i P)]. Qed.
  Lemma reads_keys b i : reads (string_keys b i). Proof. unfold string_keys. reads. Qed.
  Lemma op_delete_custom i P key d : plain key -> ev d -> is_tag (lk d) P i -> good (delete_custom_property R i key) d.
  Proof.
    intros Pk E TP. unfold delete_custom_property. apply good_bind_read; [exact E|apply reads_keys|]. intros ks _. destruct (existsb _ ks); [|now apply good_raise]. apply good_bind_read; [exact E|apply reads_lift|]. intros [f|] Hf; [|now apply good_raise].
    apply good_remove; [exact E|]. intros _. apply free_string. exact (field_elem key i P d d f E Pk TP Hf).
  Qed.
  (** *** Times and auto-type *)
  Lemma op_time prop i v d : ev d -> good (set_time prop i v) d.
  Proof.
    intros E. unfold set_time. apply good_bind_read; [exact E|apply reads_the|]. intros t _. destruct (find1 _ t) as [ts|]; [|now apply good_ret]. destruct (find1 prop ts) as [p|]; [|now apply good_ret]. apply good_bind_read; [exact E|apply reads_encode|]. intros s _. now apply good_text.
  Qed.
  Lemma op_timeprop p i v d : ev d -> good (set_timeprop p i v) d. Proof. destruct p; apply op_time. Qed.
  Lemma op_touch C m i d : ev d -> good (touch C m i) d.
  Proof. intros E. unfold touch. apply good_bind; [now apply op_timeprop|]. intros _ d1 _ E1 _. destruct m; [now apply op_timeprop|now apply good_ret]. Qed.
  Lemma op_expires i b d : ev d -> good (set_expires i b) d.
  Proof.
    intros E. unfold set_expires. apply good_bind_read; [exact E| |intros p _; now apply good_text]. unfold expires_elem. apply reads_bind; [apply reads_the|]. intros t. destruct (find1 _ t) as [ts|]; [|apply reads_raise]. destruct (find1 _ ts); [apply reads_ret|apply reads_raise].
  Qed.
  Lemma op_auto (f : elem -> option elem) i v d : ev d -> good (do t <- the i; match f t with Some e => lx_set_text (eid e) v | None => raise Ex_Attribute end) d.
  Proof. intros E. apply good_bind_read; [exact E|apply reads_the|]. intros t _. destruct (f t); [now apply good_text|now apply good_raise]. Qed.
  (** *** Attachments and binaries *)
  Lemma op_attach i P id f d : ev d -> is_tag (lk d) P i -> good (add_attachment i id f) d.
  Proof.
    intros E TP. unfold add_attachment. apply good_bind_read; [exact E|apply reads_of|]. intros k Hk. unfold of_res in Hk. injection Hk as Hk. apply (good_append_new i P); [exact E|exact TP|]. apply frameless_node; [now apply unframed|]. intros c [<-|[<-|[]]]; [eapply frameless_text; [|exact Hk]; reflexivity|now apply frameless_leaf, unframed].
  Qed.
  Lemma op_att_id a id d : ev d -> good (set_att_id a id) d.
  Proof. intros E. unfold set_att_id. apply good_bind_read; [exact E|apply reads_the|]. intros t _. destruct (find1 _ t); [now apply good_attr|now apply good_raise]. Qed.
  Lemma op_att_filename a v d : ev d -> good (set_att_filename a v) d.
  Proof. intros E. exact (op_auto (find1 $"Key") a v d E). Qed.
  Lemma reads_binaries : reads (binaries R Zl). Proof. apply reads_lift. Qed.
  Lemma good_bins l d : ev d -> good (set_bins l) d. Proof. intros E r d' Hr. exact (ev_bins S Nw d0 H0 l d r d' E Hr). Qed.
  Lemma reads_db : reads get_db. Proof. intros d. reflexivity. Qed.
  Lemma op_add_binary data c p d : ev d -> good (add_binary R Zl data c p) d.
  Proof.
    intros E. unfold add_binary. apply good_bind_read; [exact E|apply reads_db|]. intros dd _. apply good_bind.
    - destruct (v4 dd); [now apply good_bins|]. apply good_bind_read; [exact E|apply reads_lift|]. intros b Hb. apply good_bind_read; [exact E|apply reads_binaries|]. intros n _. apply good_bind_read; [exact E|apply reads_of|]. intros x Hx. unfold of_res in Hx. injection Hx as Hx.
      destruct b as [b|]; [|now apply good_raise]. apply binaries_elem in Hb as [Hb Tb]; [|apply (evw E)]. apply good_bind; [|intros; now apply good_ret]. apply (good_append_new (eid b) $"Binaries"); [exact E|rewrite <- Tb; apply has_tag; [apply (evw E)|exact Hb]|]. eapply frameless_text; [|exact Hx]. reflexivity.
    - intros _ d1 _ E1 _. apply good_read; [exact E1|]. apply reads_bind; [apply reads_binaries|intros ?; apply reads_ret].
  Qed.
  Lemma op_each {A} (f : A -> M unit) (P : A -> db -> Prop) : (forall a d, ev d -> P a d -> good (f a) d) -> (forall a d d', P a d -> tags_le d d' -> P a d') -> forall l d, ev d -> (forall a, In a l -> P a d) -> good (each f l) d.
  Proof.
    intros Hf Hm. induction l as [|a l IH]; intros d E Hl; [now apply good_ret|]. cbn [each]. apply good_bind; [apply Hf; [exact E|apply Hl; now left]|]. intros _ d1 _ E1 T1. apply IH; [exact E1|]. intros b Hb. apply (Hm b d); [|exact T1]. apply Hl. now right.
  Qed.
  Lemma free_binary d c : is_tag (lk d) $"Binary" c -> free S d0 d c.
  Proof. intros T. left. exists $"Binary". split; [exact T|now apply unframed]. Qed.
  Lemma reads_att a : reads (att_id a).
  Proof. unfold att_id. apply reads_bind; [apply reads_the|]. intros t. destruct (find1 _ t) as [v|]; [|apply reads_raise]. destruct (attr_of _ v); [apply reads_of|apply reads_raise]. Qed.
  Lemma py_index_In {A} (l : list A) z x : py_index l z = Ok x -> In x l.
  Proof. unfold py_index. set (k := if (z <? 0)%Z then _ else z). cbv zeta. clearbody k. destruct (k <? 0)%Z; [discriminate|]. destruct (nth_error l _) eqn:En; [|discriminate]. intros E. injection E as <-. eapply nth_error_In. exact En. Qed.
  Lemma binaries_kid d b c : laid d -> wf d -> has d b -> etag b = $"Binaries" -> In c (ekids b) -> ~ frame (etag c).
  Proof.
    intros L W Hb Tb Hc FT. destruct (L (eid b) (eid c) $"Binaries" (etag c)) as (F1 & F2 & F3 & F4 & F5); [now apply kid_elem|rewrite <- Tb; now apply has_tag|apply has_tag; [exact W|now apply (has_kid d b)]|].
    assert (N : forall T : str, $"Binaries" = T -> str_eqb $"Binaries" T = true) by (intros T ET; now apply str_eqb_eq).
    unfold frame in FT. cbn [In] in FT. destruct FT as [X|[X|[X|[X|[X|[]]]]]]; symmetry in X; [now apply F5| | | |].
    - apply F4, N in X. discriminate X.
    - apply F1 in X as [X|X]; apply N in X; discriminate X.
    - apply F2 in X as [X|X]; apply N in X; discriminate X.
    - apply F3, N in X. discriminate X.
  Qed.
  Lemma op_delete_binary id d : ev d -> good (delete_binary R id) d.
  Proof.
    intros E. unfold delete_binary. apply good_bind_read; [exact E|apply reads_db|]. intros dd _. apply good_bind.
    - destruct (v4 dd); [destruct (py_pop _ id); [now apply good_bins|now apply good_raise]|]. apply good_bind_read; [exact E|apply reads_lift|]. intros [b|] Hb; [|now apply good_raise]. apply binaries_elem in Hb as [Hb Tb]; [|apply (evw E)].
      destruct (py_index (ekids b) id) as [c|] eqn:Ei; [|now apply good_raise]. apply py_index_In in Ei. apply good_remove; [exact E|]. intros _. left. exists (etag c). split; [apply has_tag; [apply (evw E)|now apply (has_kid d b)]|]. apply (binaries_kid d b c); auto; apply E.
    - intros _ d1 _ E1 _. apply good_bind_read; [exact E1|apply reads_lift|]. intros refs Hr. apply good_bind.
      + apply (op_each _ (fun r d => is_tag (lk d) $"Binary" (rid r))); [|intros a d2 d3 X Y; now apply Y|exact E1|].
        * intros r d2 E2 Tr r' d' Hd. exact (ev_delete S Nw d0 H0 (rid r) d2 r' d' E2 (free_binary d2 _ Tr) Hd).
        * intros r Ir. unfold lift in Hr. injection Hr as Hr. exact (id_refs R d1 id refs (evw E1) Hr r Ir).
      + intros _ d2 _ E2 _. apply good_bind_read; [exact E2|apply reads_lift|]. intros gt _. apply (op_each _ (fun _ _ => True)); [|auto|exact E2|auto]. intros r d3 E3 _. apply good_bind_read; [exact E3|apply reads_att|]. intros n _. now apply op_att_id.
  Qed.
  (** *** Settings *)
  Lemma op_meta tag v d : ev d -> good (set_meta R tag v) d.
  Proof. intros E. unfold set_meta. apply good_bind_read; [exact E|apply reads_lift|]. intros [e|] _; [now apply good_text|now apply good_raise]. Qed.
End Ops.
