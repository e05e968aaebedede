(** Parents, listings and paths (C41, C73). *)
From Verif Require Import Base PyStr Xml Tree XPath Db FindSpec Find_path Heap ApiSpec FindEx Api ApiEx StructSpec StructEx PathSpec Path PathEx.

(** ** C41: the path of an entry is the names leading to it and its title, and searching for it gives the entries at that path, in document order ... *)
Theorem c41_path_leads_back : forall R d doc F gs title t rec, wf d -> one_name d -> d_forest d = doc :: F -> In t (everything doc) -> entry_at doc gs title t -> tidy t -> Forall plain (gs ++ [title]) ->
  exists p, entry_path R (eid t) d = (Ok (Some p), d) /\ exists l, find_entries R d rec (path_q p) = Ok (map (fun e => R_entry (eid e)) l) /\ picks (entry_at doc gs title) (everything doc) l /\ In t l /\
    give true (path_q p) (find_entries R d rec (path_q p)) = Ok (F_one (hd_error (map (fun e => R_entry (eid e)) l))) /\
    ((forall x, In x (everything doc) -> entry_at doc gs title x -> x = t) -> give true (path_q p) (find_entries R d rec (path_q p)) = Ok (F_one (Some (R_entry (eid t))))).
Proof. exact entry_leads_back. Qed.
Print Assumptions c41_path_leads_back.
(** ... those found being exactly the entries with that path ... *)
Theorem c41_same_path : forall R d doc F gs title t gs' title', wf d -> one_name d -> d_forest d = doc :: F -> entry_at doc gs title t -> tidy t -> (entry_path R (eid t) d = (Ok (Some (map Some (gs' ++ [title']))), d) <-> entry_at doc gs' title' t).
Proof. exact same_path. Qed.
Print Assumptions c41_same_path.
(** ... and so for groups, the root group having the empty path. *)
Theorem c41_group_path_leads_back : forall R d doc F ns g rec, wf d -> one_name d -> d_forest d = doc :: F -> In g (everything doc) -> group_at doc ns g -> Forall (fun n => plain n /\ n <> []) ns ->
  exists p, group_path R (eid g) d = (Ok p, d) /\ exists l, find_groups R d rec (path_q p) = Ok (map (fun e => R_group (eid e)) l) /\ picks (group_at doc ns) (everything doc) l /\ In g l /\
    give true (path_q p) (find_groups R d rec (path_q p)) = Ok (F_one (hd_error (map (fun e => R_group (eid e)) l))) /\
    ((forall x, In x (everything doc) -> group_at doc ns x -> x = g) -> give true (path_q p) (find_groups R d rec (path_q p)) = Ok (F_one (Some (R_group (eid g))))).
Proof. exact group_leads_back. Qed.
Print Assumptions c41_group_path_leads_back.
Definition bank : elem := el edb 67.
Lemma edb_root : FindSpec.root_group (el edb 0) (el edb 9).
Proof. split; [vm_compute; reflexivity|]. exists (el edb 8). split; [vm_compute; auto|]. split; [vm_compute; reflexivity|]. split; [vm_compute; auto|vm_compute; reflexivity]. Qed.
Lemma sub_named : named_group $"sub" (el edb 56).
Proof. split; [vm_compute; reflexivity|]. exists (nth 2 (ekids (el edb 56)) (el edb 0)). split; [vm_compute; auto|split; vm_compute; reflexivity]. Qed.
Example c41_path_ex : wf edb /\ one_name edb /\ d_forest edb = [el edb 0] /\ In bank (everything (el edb 0)) /\ entry_at (el edb 0) [$"sub"] $"bank" bank /\ tidy bank /\ Forall plain ([$"sub"] ++ [$"bank"]) /\
  fst (entry_path lit 67 edb) = Ok (Some [Some $"sub"; Some $"bank"]) /\ give true (path_q [Some $"sub"; Some $"bank"]) (find_entries lit edb true (path_q [Some $"sub"; Some $"bank"])) = Ok (F_one (Some (R_entry 67))) /\
  fst (group_path lit 56 edb) = Ok [Some $"sub"] /\ fst (group_path lit 9 edb) = Ok [].
Proof.
  split; [exact edb_wf|]. split; [exact edb_one_name|]. split; [vm_compute; reflexivity|]. split; [|split; [|split; [apply tidyb_ok; vm_compute; reflexivity|split; [repeat constructor; cbv; intuition discriminate|]]]].
  - assert (H : existsb (fun t => Nat.eqb (eid t) 67) (everything (el edb 0)) = true) by (vm_compute; reflexivity). apply existsb_exists in H as (u & I & E). apply Nat.eqb_eq in E. destruct (hasb_ok edb 67 ltac:(vm_compute; reflexivity)) as [Hb Eb].
    assert (Hu : has_elem edb u) by (unfold has_elem, elements; apply in_flat_map; exists (el edb 0); split; [vm_compute; auto|exact I]). unfold bank. rewrite <- (unique_inj (d_forest edb) u (el edb 67) (proj1 (proj2 edb_wf)) Hu Hb (eq_trans E (eq_sym Eb))). exact I.
  - exists (el edb 9), (el edb 56). split; [exact edb_root|]. split; [apply (leads_down $"sub" [] (el edb 9) (el edb 56)); [|exact sub_named|constructor]|].
    + assert (H : nth 4 (ekids (el edb 9)) (el edb 0) = el edb 56) by (vm_compute; reflexivity). rewrite <- H. apply nth_In. vm_compute. lia.
    + split; [assert (H : nth 3 (ekids (el edb 56)) (el edb 0) = bank) by (vm_compute; reflexivity); rewrite <- H; apply nth_In; vm_compute; lia|]. split; [vm_compute; reflexivity|]. exists (nth 2 (ekids bank) bank). split; [apply nth_In; vm_compute; lia|]. split; [vm_compute; reflexivity|]. split; eexists (nth _ (ekids (nth 2 (ekids bank) bank)) bank).
      * split; [apply (nth_In (n:=0)); vm_compute; lia|split; vm_compute; reflexivity].
      * split; [apply (nth_In (n:=1)); vm_compute; lia|split; vm_compute; reflexivity].
  - vm_compute. auto.
Qed.

(** ** C73: the parent of anything stored is the nearest group around it ... *)
Theorem c73_parent : forall R d x, wf d -> look (d_forest d) x <> None -> exists o, nearest d x o /\ group_of R x d = (Ok o, d).
Proof. exact parent_group. Qed.
Print Assumptions c73_parent.
Theorem c73_parent_unique : forall d x o, wf d -> nearest d x o -> forall o', nearest d x o' -> o = o'.
Proof. exact nearest_det. Qed.
Print Assumptions c73_parent_unique.
(** ... the entries of a group are, each once, the entries outside histories whose parent it is, as a search of the group gives them ... *)
Theorem c73_entries : forall R d g, wf d -> neat d -> is_tag (look (d_forest d)) $"Group" g -> ~ past d g ->
  exists l, group_entries g d = (Ok l, d) /\ (NoDup l /\ forall x, In x l <-> is_tag (look (d_forest d)) $"Entry" x /\ ~ past d x /\ group_of R x d = (Ok (Some g), d)) /\ find_entries R d false (kids_query g) = Ok (map R_entry l).
Proof. exact entries_listed. Qed.
Print Assumptions c73_entries.
(** ... and so its subgroups. *)
Theorem c73_subgroups : forall R d g, wf d -> neat d -> is_tag (look (d_forest d)) $"Group" g -> ~ past d g ->
  exists l, group_subgroups g d = (Ok l, d) /\ (NoDup l /\ forall x, In x l <-> is_tag (look (d_forest d)) $"Group" x /\ ~ past d x /\ group_of R x d = (Ok (Some g), d)) /\ find_groups R d false (kids_query g) = Ok (map R_group l).
Proof. exact groups_listed. Qed.
Print Assumptions c73_subgroups.
Example c73_ex : wf edb /\ neat edb /\ is_tag (look (d_forest edb)) $"Group" 56 /\ ~ past edb 56 /\ fst (group_entries 56 edb) = Ok [67; 126]%nat /\ fst (group_subgroups 9 edb) = Ok [56]%nat /\ fst (group_of lit 97 edb) = Ok (Some 56%nat) /\ fst (group_of lit 56 edb) = Ok (Some 9%nat) /\ fst (group_of lit 9 edb) = Ok None.
Proof.
  split; [exact edb_wf|]. split; [exact edb_neat|]. destruct (hasb_ok edb 56 ltac:(vm_compute; reflexivity)) as [Hb Eb]. split; [|split].
  - rewrite <- Eb. apply (has_tag edb _ _ edb_wf Hb). vm_compute. reflexivity.
  - pose proof (pastb_ok edb (el edb 56) edb_wf Hb ltac:(vm_compute; reflexivity)) as P. rewrite Eb in P. exact P.
  - vm_compute. auto.
Qed.
