(** C97: xpath() as called by users. *)
From Verif Require Import Base PyStr Xml Tree XPath FindSpec FindEx Db Api ApiSpec ApiEx StructSpec StructEx UserXPath XPath_parse XPath_owner XPath_number.

(** The elements found are elements of the tree searched, each at most once, in document order; nothing is changed. *)
Theorem c97_document_order R d s tree l d' : wf d -> user_xpath R s tree false false d = (Ok (A_list l), d') ->
  d' = d /\ exists t es, searched_tree d tree t /\ picks (fun e => In e es) (everything t) es /\ NoDup (map eid es) /\ found_elems l = map eid es.
Proof. exact (in_document_order R d s tree l d'). Qed.
Print Assumptions c97_document_order.
(** first=True: the first of the results, or None; an exception exactly when the call without it raises it. *)
Theorem c97_first R d s tree c : exists x, user_xpath R s tree false c d = (x, d) /\
  match x with
  | Ok (A_list l) => user_xpath R s tree true c d = (Ok (A_one (hd_error l)), d)
  | Ok (A_one _) => False
  | Err e => user_xpath R s tree true c d = (Err e, d)
  end.
Proof. exact (first_of_list R d s tree c). Qed.
Print Assumptions c97_first.
(** cast=True: the same elements as objects of their kind, or an exception if one of the results is of no such kind. *)
Theorem c97_cast R d s tree l : wf d -> user_xpath R s tree false false d = (Ok (A_list l), d) ->
  (forall rs, Forall2 (kind d) l rs -> user_xpath R s tree false true d = (Ok (A_list (map H_obj rs)), d)) /\
  (forall h, In h l -> (forall r, ~ kind d h r) -> exists x, user_xpath R s tree false true d = (Err x, d)).
Proof. exact (cast_all R d s tree l). Qed.
Print Assumptions c97_cast.
(** [//T] finds all elements of the document with that tag. *)
Theorem c97_all_named R d T r F : wf d -> word T -> d_forest d = r :: F -> exists es, picks (fun e => etag e = T) (everything r) es /\
  user_xpath R ($"//" ++ T) None false false d = (Ok (A_list (map H_elem (map eid es))), d).
Proof. exact (all_named R d T r F). Qed.
Print Assumptions c97_all_named.
(** [.//T] with tree= finds all elements below that one with that tag. *)
Theorem c97_all_below R d T t : wf d -> word T -> has_elem d t -> exists es, picks (fun e => etag e = T) (flat_map everything (ekids t)) es /\
  user_xpath R ($".//" ++ T) (Some (eid t)) false false d = (Ok (A_list (map H_elem (map eid es))), d).
Proof. exact (all_below R d T t). Qed.
Print Assumptions c97_all_below.

(** The parent of a text, and of an attribute, is the element it belongs to. *)
Theorem c97_text_owner R d t : wf d -> has_elem d t -> user_xpath R $"text()/.." (Some (eid t)) false false d = (Ok (A_list (match etext t with Some _ => [H_elem (eid t)] | None => [] end)), d).
Proof. exact (text_owner R d t). Qed.
Print Assumptions c97_text_owner.
Theorem c97_attribute_owner R d t : wf d -> has_elem d t -> user_xpath R $"@*/.." (Some (eid t)) false false d = (Ok (A_list (match eattrs t with [] => [] | _ => [H_elem (eid t)] end)), d).
Proof. exact (attr_owner R d t). Qed.
Print Assumptions c97_attribute_owner.
(** [*[.="v"]] finds the children whose text, with the texts of all that is in them, is [v]. *)
Theorem c97_text_compared R d t v : wf d -> has_elem d t -> quotefree v -> forallb xml_char v = true -> exists es, picks (fun e => flat_map (fun x => match etext x with Some s => s | None => [] end) (everything e) = v) (ekids t) es /\
  user_xpath R ($"*[." ++ $"=" ++ [34] ++ v ++ [34] ++ $"]") (Some (eid t)) false false d = (Ok (A_list (map H_elem (map eid es))), d).
Proof. exact (reads_found R d t v). Qed.
Print Assumptions c97_text_compared.
(** [*[.>"v"]], and so with [<], [<=] and [>=]: the children whose text says a number (white space, minus sign, digits, fraction; XPath 1.0, 4.4) that is greater, and so on, than the one [v] says; texts that say no number are not found, and nothing is if [v] says none. *)
Theorem c97_numbers_compared R d t o v : wf d -> has_elem d t -> quotefree v -> forallb xml_char v = true -> exists es, picks (fun e => stands o (flat_map (fun x => match etext x with Some s => s | None => [] end) (everything e)) v) (ekids t) es /\
  user_xpath R ($"*[." ++ sign_of o ++ [34] ++ v ++ [34] ++ $"]") (Some (eid t)) false false d = (Ok (A_list (map H_elem (map eid es))), d).
Proof. exact (order_found o R d t v). Qed.
Print Assumptions c97_numbers_compared.
(** MasterKeyChangeRec is -1 and MasterKeyChangeForce is 30; the other settings are no numbers. *)
Example c97_numbers_ex : has_elem edb (el edb 1) /\ eid (el edb 1) = 1%nat /\ says $" -1.50 " (-150) 2 /\ no_number $"1.5.0" /\
  fst (user_xpath lit ($"*[." ++ sign_of O_more ++ [34] ++ $" -1.50 " ++ [34] ++ $"]") (Some 1%nat) false false edb) = Ok (A_list [H_elem 4; H_elem 5]) /\
  fst (user_xpath lit ($"*[." ++ sign_of O_at_most ++ [34] ++ $"-1" ++ [34] ++ $"]") (Some 1%nat) false false edb) = Ok (A_list [H_elem 4]) /\
  fst (user_xpath lit ($"*[." ++ sign_of O_less ++ [34] ++ $"-1" ++ [34] ++ $"]") (Some 1%nat) false false edb) = Ok (A_list []).
Proof.
  destruct (hasb_ok edb 1 eq_refl) as [A B]. split; [exact A|]. split; [exact B|]. split.
  - destruct (proj1 (number_says $" -1.50 " (-150) 100) eq_refl) as (k & Sk & Ek). destruct k as [|[|[|k]]]; [discriminate Ek|discriminate Ek|exact Sk|]. exfalso. rewrite !Nat2Z.inj_succ, !Z.pow_succ_r in Ek by lia. assert (0 < 10 ^ Z.of_nat k)%Z by (apply Z.pow_pos_nonneg; lia). lia.
  - split; [apply no_number_iff; reflexivity|]. repeat split; vm_compute; reflexivity.
Qed.

(** Two entries, a snapshot and a group; attachments; a query that finds elements which are no objects. *)
Definition answer_of (s : str) (tree : option nat) (first casting : bool) : res answer := fst (user_xpath lit s tree first casting edb).
Example c97_ex :
  wf edb /\ word $"Entry" /\
  (exists a b c e, answer_of $"//Entry" None false true = Ok (A_list [H_obj (R_entry a); H_obj (R_entry b); H_obj (R_entry c); H_obj (R_entry e)]) /\
     answer_of $"//Entry" None true false = Ok (A_one (Some (H_elem a))) /\
     answer_of $"//Group[Name='sub']/Entry | //Entry[String[Key='Title' and Value='mail']]" None false false = Ok (A_list [H_elem a; H_elem b; H_elem e])) /\
  (exists a b c, answer_of $"//Entry/Binary" None false true = Ok (A_list [H_obj (R_att a); H_obj (R_att b); H_obj (R_att c)])) /\
  answer_of $"//Meta" None false true = Err Ex_Generic /\ answer_of $"//Nothing" None true true = Ok (A_one None) /\
  answer_of $"//Group/Name/text()" None false false = Ok (A_list [H_text $"Root"; H_text $"sub"]).
Proof.
  split; [exact edb_wf|]. split; [split; [discriminate|reflexivity]|]. split; [do 4 eexists; vm_compute; repeat split|]. split; [do 3 eexists; vm_compute; reflexivity|]. repeat split; vm_compute; reflexivity.
Qed.
