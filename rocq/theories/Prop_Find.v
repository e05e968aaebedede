(** Searches: C37-C42, C76 (spec in FindSpec.v). *)
From Verif Require Import Base Base64 PyStr Xml Tree XPath Db Uuid XPath_parse XPath_facts XPath_eval FindSpec Find_facts Find_path FindEx Find_more Find_rpath.

(** C37 *)
Theorem c37_find_entries_exact : forall R d q rec cand, unique (d_forest d) -> usable entry_keys R q -> searched (d_forest d) (q_tree q) rec cand ->
  exists l, picks (answers $"Entry" entry_key R (d_forest d) q) cand l /\ find_entries R d rec q = Ok (map (fun t => R_entry (eid t)) l).
Proof. exact find_entries_spec. Qed.
Print Assumptions c37_find_entries_exact.
Theorem c37_first : forall R d q rec cand, unique (d_forest d) -> usable entry_keys R q -> searched (d_forest d) (q_tree q) rec cand ->
  exists l, picks (answers $"Entry" entry_key R (d_forest d) q) cand l /\
    give true q (find_entries R d rec q) = Ok (F_one (match l with [] => None | t :: _ => Some (R_entry (eid t)) end)) /\
    give false q (find_entries R d rec q) = Ok (F_list (map (fun t => R_entry (eid t)) l)).
Proof. exact find_entries_first. Qed.
Print Assumptions c37_first.
(** None is ignored for the text criteria ... *)
Theorem c37_none_ignored : forall R d q rec k kw1 kw2, In k entry_keys -> k <> $"uuid" -> k <> $"tags" -> q_kw q = kw1 ++ (k, K_none) :: kw2 ->
  find_entries R d rec q = find_entries R d rec (MkQuery (q_path q) (q_tree q) (q_history q) (q_regex q) (q_flags q) (q_string q) (kw1 ++ kw2)).
Proof. exact none_ignored. Qed.
Print Assumptions c37_none_ignored.
(** ... but raises for uuid and tags. *)
Theorem c37_none_uuid_raises : forall R d q rec kw1 kw2, q_path q = None -> q_kw q = kw1 ++ ($"uuid", K_none) :: kw2 -> exists x, find_entries R d rec q = Err x.
Proof. exact none_uuid. Qed.
Print Assumptions c37_none_uuid_raises.
Theorem c37_none_tags_raises : forall R d q rec kw1 kw2, q_path q = None -> q_kw q = kw1 ++ ($"tags", K_none) :: kw2 -> exists x, find_entries R d rec q = Err x.
Proof. exact none_tags. Qed.
Print Assumptions c37_none_tags_raises.
Definition q37 : query := MkQuery None (Some 5%nat) false false None [($"UserName", $"ann")] [($"title", K_str $"mail"); ($"uuid", K_uuid uuid_a); ($"url", K_none)].
Example c37_ex : unique (d_forest fdb) /\ usable entry_keys lit q37 /\ searched (d_forest fdb) (q_tree q37) true (flat_map everything (ekids root_g)) /\
  find_entries lit fdb true q37 = Ok [R_entry 20].
Proof.
  split; [exact fdb_unique|]. split; [|split; [|vm_compute; reflexivity]].
  - split; [reflexivity|]. split; [exact I|]. split.
    + intros f v [H|[]]. injection H as <- <-. split; [|split; [|intros H; discriminate H]]; (split; [cbn; intuition discriminate|reflexivity]).
    + intros k v [H|[H|[H|[]]]]; injection H as <- <-.
      * split; [cbn; auto|]. split; [intros H; discriminate H|]. split; [intros H; discriminate H|]. split; [split; [cbn; intuition discriminate|reflexivity]|intros H; discriminate H].
      * split; [cbn; auto 12|]. split; [intros _; exists uuid_a; reflexivity|]. split; [intros H; discriminate H|]. split; [split; [vm_compute; intuition discriminate|vm_compute; reflexivity]|intros H; discriminate H].
      * split; [cbn; auto 12|]. split; [intros H; discriminate H|]. split; [intros H; discriminate H|]. exact I.
  - exact (se_below (d_forest fdb) root_g ltac:(right; right; right; left; reflexivity)).
Qed.

(** C38 *)
Theorem c38_search_value_is_data_refuted : exists R d t e, unique (d_forest d) /\ In e (elements (d_forest d)) /\
  find_entries R d true (with_kw [($"title", K_str t)]) = Ok [R_entry (eid e)] /\ ~ has_field (fun o => o = Some t) $"Title" e.
Proof. exact injection_witness. Qed.
Print Assumptions c38_search_value_is_data_refuted.
(** Missing against C38: titles containing a double quote. *)
Theorem c38_search_value_is_data_partial : forall R d t doc F', d_forest d = doc :: F' -> unique (d_forest d) -> ~ In 34 t -> text_ok t = true ->
  exists l, find_entries R d true (with_kw [($"title", K_str t)]) = Ok (map (fun e => R_entry (eid e)) l) /\
    forall e, In e l -> In e (everything doc) /\ etag e = $"Entry" /\ has_field (fun o => o = Some t) $"Title" e.
Proof. exact title_is_data. Qed.
Print Assumptions c38_search_value_is_data_partial.
Example c38_ex : ~ In 34 $"' or '1'='1" /\ text_ok $"' or '1'='1" = true /\ find_entries lit fdb true (with_kw [($"title", K_str $"' or '1'='1")]) = Ok [].
Proof. split; [cbn; intuition discriminate|]. split; vm_compute; reflexivity. Qed.

(** C39 *)
Theorem c39_history_only_on_request : forall R d q rec cand, unique (d_forest d) -> usable entry_keys R q -> searched (d_forest d) (q_tree q) rec cand ->
  exists all now, find_entries R d rec (with_history true q) = Ok (map (fun t => R_entry (eid t)) all) /\
    find_entries R d rec (with_history false q) = Ok (map (fun t => R_entry (eid t)) now) /\
    picks (fun t => ~ exists h, In h (elements (d_forest d)) /\ etag h = $"History" /\ In t (flat_map everything (ekids h))) all now.
Proof. exact history_split. Qed.
Print Assumptions c39_history_only_on_request.
Example c39_ex : find_entries lit fdb true (with_history true (with_kw [($"title", K_str $"mail")])) = Ok [R_entry 20; R_entry 40] /\
  find_entries lit fdb true (with_history false (with_kw [($"title", K_str $"mail")])) = Ok [R_entry 20] /\
  In old_entry (flat_map everything (ekids (El 39 $"History" [] None [old_entry]))).
Proof. split; [vm_compute; reflexivity|]. split; [vm_compute; reflexivity|]. left. reflexivity. Qed.

(** C40 *)
Theorem c40_find_groups_exact : forall R d q rec cand, unique (d_forest d) -> usable group_keys R q -> q_string q = [] -> searched (d_forest d) (q_tree q) rec cand ->
  exists l, picks (answers $"Group" group_key R (d_forest d) q) cand l /\
    give false q (find_groups R d rec q) = Ok (F_list (map (fun t => R_group (eid t)) l)) /\
    give true q (find_groups R d rec q) = Ok (F_one (match l with [] => None | t :: _ => Some (R_group (eid t)) end)).
Proof. exact find_groups_first. Qed.
Print Assumptions c40_find_groups_exact.
Definition q40 : query := MkQuery None (Some 5%nat) false false None [] [($"name", K_str $"social")].
Example c40_ex : usable group_keys lit q40 /\ searched (d_forest fdb) (q_tree q40) false (ekids root_g) /\ find_groups lit fdb false q40 = Ok [R_group 10].
Proof.
  split; [|split; [|vm_compute; reflexivity]].
  - split; [reflexivity|]. split; [exact I|]. split; [intros f v []|]. intros k v [H|[]]. injection H as <- <-. split; [cbn; auto|]. split; [intros H; discriminate H|]. split; [intros H; discriminate H|]. split; [split; [cbn; intuition discriminate|reflexivity]|intros H; discriminate H].
  - exact (se_kids (d_forest fdb) root_g ltac:(right; right; right; left; reflexivity)).
Qed.

(** C42 *)
Theorem c42_tag_search_exact_refuted : exists R d g e s, unique (d_forest d) /\ In e (elements (d_forest d)) /\ kid_with $"Tags" (fun x => etext x = Some s) e /\ ~ tag_of g s /\
  find_entries R d true (with_kw [($"tags", K_tags [g])]) = Ok [R_entry (eid e)].
Proof. exact tag_witness. Qed.
Print Assumptions c42_tag_search_exact_refuted.
(** Missing against C42: that an entry found has [g] as a tag and not only inside its tag text. *)
Theorem c42_tag_search_partial : forall R d ts doc F', d_forest d = doc :: F' -> unique (d_forest d) -> ts <> [] -> (forall g, In g ts -> plain g) ->
  exists l, find_entries R d true (with_kw [($"tags", K_tags ts)]) = Ok (map (fun e => R_entry (eid e)) l) /\
    (forall e, In e (everything doc) -> In e (visible (d_forest d)) -> etag e = $"Entry" ->
       kid_with $"Tags" (fun x => exists s, etext x = Some s /\ forall g, In g ts -> tag_of g s) e -> In e l) /\
    (forall e, In e l -> In e (everything doc) /\ etag e = $"Entry" /\ kid_with $"Tags" (fun x => forall g, In g ts -> substring g (text_or_empty (etext x))) e).
Proof. exact tag_search. Qed.
Print Assumptions c42_tag_search_partial.
Example c42_ex : tag_of $"home" $"home;workshop" /\ find_entries lit fdb true (with_kw [($"tags", K_tags [$"home"])]) = Ok [R_entry 20] /\
  find_entries lit fdb true (with_kw [($"tags", K_tags [$"work"])]) = Ok [R_entry 20; R_entry 50].
Proof. split; [exists [], $";workshop"; split; [reflexivity|]; split; [intros c; unfold sep; cbn; intuition (subst; discriminate)|]; split; [left; reflexivity|right; exists 59, $"workshop"; split; [reflexivity|left; reflexivity]]|]. split; vm_compute; reflexivity. Qed.

(** C76 *)
Theorem c76_find_attachments_exact_partial : forall R d q rec cand, unique (d_forest d) -> usable attachment_keys R q -> q_string q = [] -> searched (d_forest d) (q_tree q) rec cand ->
  (forall t x, In t (elements (d_forest d)) -> etag t = $"Binary" -> In x (ekids t) -> NoDup (map fst (eattrs x)) /\ (etag x = $"Value" -> attr_of $"Ref" x <> None)) ->
  (forall t, In t cand -> answers $"Binary" attachment_key R (d_forest d) q t -> exists e, In e (elements (d_forest d)) /\ etag e = $"Entry" /\ In t (ekids e)) ->
  exists l, picks (answers $"Binary" attachment_key R (d_forest d) q) cand l /\ find_attachments R d rec q = Ok (map (fun t => R_att (eid t)) l).
Proof. exact find_attachments_spec. Qed.
Print Assumptions c76_find_attachments_exact_partial.
(** A KDBX3 document stores the file contents in Binary elements below Meta: there an unrestricted search raises. *)
Theorem c76_unrestricted_search_refuted : exists R d x, unique (d_forest d) /\ find_attachments R d true plain_query = Err x.
Proof. exact attachment_witness. Qed.
Print Assumptions c76_unrestricted_search_refuted.
Definition q76 : query := with_kw [($"filename", K_str $"a.txt"); ($"id", K_int 0)].
Example c76_ex : usable attachment_keys lit q76 /\ searched (d_forest fdb) (q_tree q76) true (everything find_doc) /\ find_attachments lit fdb true q76 = Ok [R_att 29] /\
  (forall t x, In t (elements (d_forest fdb)) -> etag t = $"Binary" -> In x (ekids t) -> NoDup (map fst (eattrs x)) /\ (etag x = $"Value" -> attr_of $"Ref" x <> None)) /\
  (forall t, In t (everything find_doc) -> answers $"Binary" attachment_key lit (d_forest fdb) q76 t -> exists e, In e (elements (d_forest fdb)) /\ etag e = $"Entry" /\ In t (ekids e)).
Proof.
  split; [|split; [|split; [vm_compute; reflexivity|split]]].
  - split; [reflexivity|]. split; [exact I|]. split; [intros f v []|]. intros k v [H|[H|[]]]; injection H as <- <-; (split; [cbn; auto|]); (split; [intros H; discriminate H|]); (split; [intros H; discriminate H|]); (split; [split; [vm_compute; intuition discriminate|vm_compute; reflexivity]|intros H; discriminate H]).
  - exact (se_all (d_forest fdb) find_doc [] eq_refl).
  - intros t x Ht Hg Hx. vm_compute in Ht. repeat (destruct Ht as [<-|Ht]; [try (vm_compute in Hg; discriminate Hg)|]); [|destruct Ht].
    cbn in Hx. destruct Hx as [<-|[<-|[]]]; (split; [repeat constructor; cbn; tauto|intros _; vm_compute; discriminate]) || (split; [repeat constructor; cbn; tauto|vm_compute; discriminate]).
  - intros t Ht [Hg _]. exists entry_a. split; [vm_compute; tauto|]. split; [reflexivity|]. vm_compute in Ht. repeat (destruct Ht as [<-|Ht]; [try (vm_compute in Hg; discriminate Hg)|]); [|destruct Ht]. vm_compute. tauto.
Qed.

(** C41: what a path search returns (the path property itself is treated in Prop_Api.v). *)
Theorem c41_entry_by_path : forall R d q rec groups title t F', d_forest d = t :: F' -> unique (d_forest d) -> q_tree q = None ->
  path_query q (groups ++ [title]) -> Forall plain (groups ++ [title]) ->
  exists l, picks (entry_at t groups title) (everything t) l /\ find_entries R d rec q = Ok (map (fun e => R_entry (eid e)) l) /\
    forall first, give first q (find_entries R d rec q) = Ok (F_one (match l with [] => None | e :: _ => Some (R_entry (eid e)) end)).
Proof. exact entry_by_path. Qed.
Print Assumptions c41_entry_by_path.
Theorem c41_group_by_path : forall R d q rec names t F', d_forest d = t :: F' -> unique (d_forest d) -> q_tree q = None ->
  path_query q names -> Forall (fun n => plain n /\ n <> []) names ->
  exists l, picks (group_at t names) (everything t) l /\ find_groups R d rec q = Ok (map (fun e => R_group (eid e)) l) /\
    forall first, give first q (find_groups R d rec q) = Ok (F_one (match l with [] => None | e :: _ => Some (R_group (eid e)) end)).
Proof. exact group_by_path. Qed.
Print Assumptions c41_group_by_path.
(** The same where the parts of the path are patterns (regex=True), for any regular expression library: each group on the way has a name, and the entry a title, that answers the part. *)
Theorem c41_entry_by_pattern : forall R d q rec groups title t F', d_forest d = t :: F' -> unique (d_forest d) -> q_tree q = None -> flags_plain q ->
  q_path q = Some (map Some (groups ++ [title])) -> Forall (fun v => plain v /\ pattern_ok R q v) (groups ++ [title]) ->
  exists l, picks (entry_by (answer R q) t groups title) (everything t) l /\ find_entries R d rec q = Ok (map (fun e => R_entry (eid e)) l) /\
    forall first, give first q (find_entries R d rec q) = Ok (F_one (match l with [] => None | e :: _ => Some (R_entry (eid e)) end)).
Proof. exact entries_by_path. Qed.
Print Assumptions c41_entry_by_pattern.
Theorem c41_group_by_pattern : forall R d q rec names t F', d_forest d = t :: F' -> unique (d_forest d) -> q_tree q = None -> flags_plain q ->
  q_path q = Some (map Some names) -> Forall (fun v => plain v /\ pattern_ok R q v) names -> last names [1] <> [] ->
  exists l, picks (group_by (answer R q) t names) (everything t) l /\ find_groups R d rec q = Ok (map (fun e => R_group (eid e)) l) /\
    forall first, give first q (find_groups R d rec q) = Ok (F_one (match l with [] => None | e :: _ => Some (R_group (eid e)) end)).
Proof. exact groups_by_path. Qed.
Print Assumptions c41_group_by_pattern.
Definition by_pattern (p : list str) : query := MkQuery (Some (map Some p)) None false true None [] [].
Example c41_ex_pattern : q_tree (by_pattern [$"soc"; $"ma"]) = None /\ flags_plain (by_pattern [$"soc"; $"ma"]) /\ q_path (by_pattern [$"soc"; $"ma"]) = Some (map Some ([$"soc"] ++ [$"ma"])) /\
  Forall (fun v => plain v /\ pattern_ok lit (by_pattern [$"soc"; $"ma"]) v) [$"soc"; $"ma"] /\
  find_entries lit fdb true (by_pattern [$"soc"; $"ma"]) = Ok [R_entry 20] /\ find_entries lit fdb true (with_path [$"soc"; $"ma"]) = Ok [] /\ find_groups lit fdb true (by_pattern [$"ci"]) = Ok [R_group 10].
Proof. split; [reflexivity|]. split; [exact I|]. split; [reflexivity|]. split; [repeat constructor; try (cbn; intuition discriminate); intros; eexists; reflexivity|]. repeat split; vm_compute; reflexivity. Qed.
Example c41_ex : path_query (with_path [$"social"; $"mail"]) ([$"social"] ++ [$"mail"]) /\ Forall plain [$"social"; $"mail"] /\
  find_entries lit fdb true (with_path [$"social"; $"mail"]) = Ok [R_entry 20] /\ find_groups lit fdb true (with_path [$"social"]) = Ok [R_group 10] /\ find_groups lit fdb true (with_path []) = Ok [R_group 5].
Proof. split; [split; reflexivity|]. split; [repeat constructor; cbn; intuition discriminate|]. repeat split; vm_compute; reflexivity. Qed.
