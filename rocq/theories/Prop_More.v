(** The deprecated search functions: C89 (spec and model in Deprecated.v).  Sequences of calls on the fields of an entry: C90 (Ledger.v). *)
From Verif Require Import Base Base64 PyStr Xml Tree XPath Uuid XPath_parse XPath_facts XPath_eval FindSpec Find_facts Find_path Find_more FindEx Deprecated.
From Verif Require Import Db ApiSpec Api ApiEx Api_fields Ledger.

(** C89 *)
Theorem c89_entries_by_field : forall R d o v cand, unique (d_forest d) -> searched (d_forest d) (p_group o) true cand -> opts_ok R o -> value_ok R o v ->
  returns_entries d o (has_field (fits R o v) $"Title") cand (find_entries_by_title R d (Some v) o) /\
  returns_entries d o (has_field (fits R o v) $"UserName") cand (find_entries_by_username R d (Some v) o) /\
  returns_entries d o (has_field (fits R o v) $"Password") cand (find_entries_by_password R d (Some v) o) /\
  returns_entries d o (has_field (fits R o v) $"URL") cand (find_entries_by_url R d (Some v) o) /\
  returns_entries d o (has_field (fits R o v) $"Notes") cand (find_entries_by_notes R d (Some v) o).
Proof. exact entries_by_field. Qed.
Print Assumptions c89_entries_by_field.
Theorem c89_entries_by_none : forall R d o cand, unique (d_forest d) -> searched (d_forest d) (p_group o) true cand -> opts_ok R o ->
  returns_entries d o (fun _ => True) cand (find_entries_by_title R d None o) /\
  returns_entries d o (fun _ => True) cand (find_entries_by_username R d None o) /\
  returns_entries d o (fun _ => True) cand (find_entries_by_password R d None o) /\
  returns_entries d o (fun _ => True) cand (find_entries_by_url R d None o) /\
  returns_entries d o (fun _ => True) cand (find_entries_by_notes R d None o).
Proof. exact entries_by_none. Qed.
Print Assumptions c89_entries_by_none.
Theorem c89_entries_by_uuid : forall R d o u cand, unique (d_forest d) -> searched (d_forest d) (p_group o) true cand -> opts_ok R o -> value_ok R o (b64encode u) ->
  returns_entries d o (kid_with $"UUID" (fun x => fits R o (b64encode u) (etext x))) cand (find_entries_by_uuid R d (Some u) o).
Proof. exact entries_by_uuid. Qed.
Print Assumptions c89_entries_by_uuid.
Theorem c89_entries_by_string : forall R d o string cand, unique (d_forest d) -> searched (d_forest d) (p_group o) true cand -> opts_ok R o ->
  (forall f v, In (f, v) string -> plain f /\ value_ok R o v) ->
  returns_entries d o (fun t => forall f v, In (f, v) string -> has_field (fits R o v) f t) cand (find_entries_by_string R d string o).
Proof. exact entries_by_string. Qed.
Print Assumptions c89_entries_by_string.
Theorem c89_entries_by_path : forall R d o groups title t F', d_forest d = t :: F' -> unique (d_forest d) -> p_group o = None -> p_regex o = false -> Forall plain (groups ++ [title]) ->
  exists l, picks (entry_at t groups title) (everything t) l /\
    find_entries_by_path R d (Some (map Some (groups ++ [title]))) o = Ok (F_one (match l with [] => None | e :: _ => Some (R_entry (eid e)) end)).
Proof. exact entries_by_path. Qed.
Print Assumptions c89_entries_by_path.
(** Searches by group name have no history argument. *)
Theorem c89_groups_by_field : forall R d o v cand, unique (d_forest d) -> searched (d_forest d) (p_group o) true cand -> opts_ok R o -> value_ok R o v ->
  returns_groups d o false (kid_with $"Name" (fun x => fits R o v (etext x))) cand (find_groups_by_name R d (Some v) o) /\
  returns_groups d o (p_history o) (kid_with $"Notes" (fun x => fits R o v (etext x))) cand (find_groups_by_notes R d (Some v) o).
Proof. exact groups_by_field. Qed.
Print Assumptions c89_groups_by_field.
Theorem c89_groups_by_uuid : forall R d o u cand, unique (d_forest d) -> searched (d_forest d) (p_group o) true cand -> opts_ok R o -> value_ok R o (b64encode u) ->
  returns_groups d o (p_history o) (kid_with $"UUID" (fun x => fits R o (b64encode u) (etext x))) cand (find_groups_by_uuid R d (Some u) o).
Proof. exact groups_by_uuid. Qed.
Print Assumptions c89_groups_by_uuid.
Theorem c89_groups_by_path : forall R d o names t F', d_forest d = t :: F' -> unique (d_forest d) -> p_group o = None -> p_regex o = false -> Forall (fun n => plain n /\ n <> []) names ->
  exists l, picks (group_at t names) (everything t) l /\
    find_groups_by_path R d (Some (map Some names)) o = Ok (F_one (match l with [] => None | e :: _ => Some (R_group (eid e)) end)).
Proof. exact groups_by_path. Qed.
Print Assumptions c89_groups_by_path.
Theorem c89_groups_by_no_path : forall R d o cand, unique (d_forest d) -> searched (d_forest d) (p_group o) true cand -> opts_ok R o ->
  returns_groups d o false (fun _ => True) cand (find_groups_by_path R d None o).
Proof. exact groups_by_no_path. Qed.
Print Assumptions c89_groups_by_no_path.
Definition o89 (hist rx first : bool) : opts := MkOpts rx None None hist first.
Example c89_ex : searched (d_forest fdb) (p_group (o89 true false false)) true (everything find_doc) /\ opts_ok lit (o89 true false false) /\
  value_ok lit (o89 true false false) $"mail" /\ value_ok lit (o89 true false false) (b64encode uuid_b) /\
  find_entries_by_title lit fdb (Some $"mail") (o89 true false false) = Ok (F_list [R_entry 20; R_entry 40]) /\
  find_entries_by_title lit fdb (Some $"ai") (o89 false true false) = Ok (F_list [R_entry 20]) /\
  find_entries_by_username lit fdb (Some $"eve") (o89 true false true) = Ok (F_one (Some (R_entry 40))) /\
  find_entries_by_username lit fdb (Some $"eve") (o89 false false true) = Ok (F_one None) /\
  find_entries_by_uuid lit fdb (Some uuid_b) (o89 false false false) = Ok (F_list [R_entry 50]) /\
  find_entries_by_string lit fdb [($"Title", $"mail"); ($"UserName", $"ann")] (o89 true false false) = Ok (F_list [R_entry 20]) /\
  find_entries_by_path lit fdb (Some (map Some [$"social"; $"mail"])) (o89 false false false) = Ok (F_one (Some (R_entry 20))) /\
  find_groups_by_name lit fdb (Some $"social") (o89 false false false) = Ok (F_list [R_group 10]) /\
  find_groups_by_path lit fdb None (o89 false false false) = Ok (F_list [R_group 5; R_group 10]).
Proof.
  split; [exact (se_all (d_forest fdb) find_doc [] eq_refl)|]. split; [exact I|]. split; [split; [split; [vm_compute; intuition discriminate|reflexivity]|intros H; discriminate H]|].
  split; [split; [split; [vm_compute; intuition discriminate|vm_compute; reflexivity]|intros H; discriminate H]|].
  repeat split; vm_compute; reflexivity.
Qed.

(** C90: any sequence of assignments, deletions and reads of an entry's string fields, caught exceptions included, gives the
    answers of the ledger and leaves its lines; nothing else changes. *)
Theorem c90_ledger : forall R cs d t, wf d -> has_elem d t -> tidy t -> plain_keys t -> Forall key_plain cs ->
  let '(a, l) := line_steps cs (book t) in
  exists d' t', do_calls R (eid t) cs d = (a, d') /\ assigned d d' t t' /\ tidy t' /\ plain_keys t' /\ book t' = l.
Proof. exact calls_run. Qed.
Print Assumptions c90_ledger.
Definition calls90 : list call :=
  [Set_custom $"pin" (Some $"9") true; Set_prop P_title (Some $"new"); Set_prop P_password None; Get_prop P_password; Set_prop P_password (Some $"pw");
   Del_custom $"seed"; Del_custom $"seed"; Set_custom $"Title" (Some $"x") false; Set_custom $"z" (Some $"1") false; Get_flag $"pin"; Get_all].
Example c90_ex : has_elem edb mail /\ tidy mail /\ Forall key_plain calls90 /\
  fst (do_calls lit 20 calls90 edb) =
    [Ok A_done; Ok A_done; Err Ex_Type; Ok (A_text None); Ok A_done; Ok A_done; Err Ex_Attribute; Err Ex_Assertion; Ok A_done; Ok (A_flag true);
     Ok (A_all [(Some $"pin", Some $"9"); (Some $"z", Some $"1")])] /\
  fst (line_steps calls90 (book mail)) = fst (do_calls lit 20 calls90 edb).
Proof.
  split; [exact mail_has|]. split; [exact mail_tidy|]. split; [|split; vm_compute; reflexivity].
  repeat (constructor; [first [exact I | apply plainb_ok; vm_compute; reflexivity]|]). constructor.
Qed.
