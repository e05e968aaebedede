(** C109: the location of an element leads back to it. *)
From Verif Require Import Base PyStr Xml Tree XPath FindSpec FindEx Db Api ApiSpec ApiEx StructSpec StructEx Find_facts UserXPath ElementPath.

(** The location of an element of the document, used as a query, finds that element and nothing else. *)
Theorem c109_leads_back : forall R d r F e n, wf d -> d_forest d = r :: F -> In n (pre [] r) -> nd_el n = e -> Forall (fun x => word (etag x)) (e :: nd_up n) ->
  exists s, element_path (eid e) d = (Ok s, d) /\ user_xpath R s None false false d = (Ok (A_list [H_elem (eid e)]), d).
Proof. exact leads_back. Qed.
Print Assumptions c109_leads_back.
(** It is that of the parent, followed by the tag and, if the parent has other children with this tag, by the ordinal. *)
Theorem c109_shape : forall e before after p ups, NoDup (map eid (before ++ e :: after)) -> ekids p = before ++ e :: after ->
  let k := List.length (filter (fun x => str_eqb (etag x) (etag e)) before) in
  node_path e (p :: ups) = node_path p ups ++ $"/" ++ etag e ++
    (if existsb (fun x => str_eqb (etag x) (etag e)) (before ++ after) then $"[" ++ str_of_N (N.of_nat (S k)) ++ $"]" else []).
Proof. exact path_shape. Qed.
Print Assumptions c109_shape.
(** All elements of a document with two entries, a snapshot and a group have tags that are words; the locations of the entries. *)
Definition wordb (T : str) : bool := match T with [] => false | _ => forallb letter T end.
Lemma wordb_ok T : wordb T = true -> word T.
Proof. unfold wordb, word. destruct T; [discriminate|]. intros H. split; [discriminate|exact H]. Qed.
Example c109_ex : wf edb /\ exists r F, d_forest edb = r :: F /\ Forall (fun n => Forall (fun x => word (etag x)) (nd_el n :: nd_up n)) (pre [] r) /\
  map (fun n => fst (element_path (eid (nd_el n)) edb)) (filter (fun n => str_eqb (etag (nd_el n)) $"Entry") (pre [] r)) =
    [Ok $"/KeePassFile/Root/Group/Entry"; Ok $"/KeePassFile/Root/Group/Group/Entry[1]";
     Ok $"/KeePassFile/Root/Group/Group/Entry[1]/History/Entry"; Ok $"/KeePassFile/Root/Group/Group/Entry[2]"].
Proof.
  split; [exact edb_wf|]. eexists. eexists. split; [reflexivity|]. split.
  - apply Forall_forall. intros n Hn. apply Forall_forall. intros x Hx. apply wordb_ok. revert x Hx. apply (proj1 (forallb_forall _ _)). revert n Hn. apply (proj1 (forallb_forall _ _)). vm_compute. reflexivity.
  - vm_compute. reflexivity.
Qed.
