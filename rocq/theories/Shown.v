(** Printing entries, groups and attachments. *)
From Verif Require Import Base PyStr Xml Tree XPath Time Db XPath_parse XPath_facts XPath_eval FindSpec Find_facts Find_path Find_more ApiSpec StructSpec Heap Uuid Api Prim Api_xpath Api_fields Api_custom Api_sub Api_claims Struct Struct_add Struct_find Struct_bin Struct_trash Struct_empty Struct_index BinSpec Bin PathSpec Path.

Section Shown.
Variable R : regex.
(** '/'.join('' if p is None else p for p in path): entry.py:445, group.py:105 *)
Definition path_str (l : list (option str)) : str := py_join $"/" (map (fun p => match p with Some s => s | None => [] end) l).
(** str.format of a str or None *)
Definition format_opt (o : option str) : str := match o with Some s => s | None => $"None" end.
(** entry.py:443-446; iterating over None raises TypeError *)
Definition entry_str (i : nat) : M str :=
  do p <- entry_path R i;
  match p with
  | None => raise Ex_Type
  | Some l => do u <- get_prop R P_username i; ret ($"Entry: """ ++ path_str l ++ $" (" ++ format_opt u ++ $")""")
  end.
(** entry.py:451-453 *)
Definition history_entry_str (i : nat) : M str := do s <- entry_str i; ret ($"HistoryEntry: " ++ s).
(** group.py:103-106 *)
Definition group_str (i : nat) : M str := do l <- group_path R i; ret ($"Group: """ ++ path_str l ++ $"""").
(** attachment.py:19-20 *)
Definition att_repr (a : nat) : M str := do f <- att_filename a; do n <- att_id a; ret ($"Attachment: '" ++ format_opt f ++ $"' -> " ++ str_of_Z n).

(** *** Spec *)
(** The names with a slash between them. *)
Inductive slashed : list str -> str -> Prop :=
| sl_none : slashed [] []
| sl_one x : slashed [x] x
| sl_more x y l s : slashed (y :: l) s -> slashed (x :: y :: l) (x ++ [47] ++ s).
Lemma join_slashed l : slashed l (py_join $"/" l).
Proof. induction l as [|x [|y l] IH]; [constructor..|]. change (py_join $"/" (x :: y :: l)) with (x ++ [47] ++ py_join $"/" (y :: l)). now constructor. Qed.
Lemma slashed_fun l s u : slashed l s -> slashed l u -> s = u.
Proof. intros H. revert u. induction H as [| |x y l s H IH]; intros u G; inversion G; subst; auto. f_equal. f_equal. now apply IH. Qed.
Lemma path_str_some l : path_str (map Some l) = py_join $"/" l.
Proof. unfold path_str. rewrite map_map, map_id. reflexivity. Qed.

Lemma entry_shown d doc F gs title t : wf d -> one_name d -> d_forest d = doc :: F -> In t (everything doc) -> entry_at doc gs title t -> tidy t ->
  exists s, entry_str (eid t) d = (Ok ($"Entry: """ ++ s ++ $" (" ++ match field_text $"UserName" t with Some u => u | None => $"None" end ++ $")"""), d) /\ slashed (gs ++ [title]) s.
Proof.
  intros H ON EF It A T. assert (Ht : has d t) by (unfold has_elem, elements; apply in_flat_map; exists doc; rewrite EF; split; [now left|exact It]).
  exists (py_join $"/" (gs ++ [title])). split; [|apply join_slashed]. unfold entry_str. rewrite (mbind_ok _ _ _ _ _ (entry_path_run R d doc F gs title t H ON EF A T)), (mbind_ok _ _ _ _ _ (get_prop_field R d t P_username H Ht T)). now rewrite path_str_some.
Qed.
Lemma history_entry_shown d doc F gs title t : wf d -> one_name d -> d_forest d = doc :: F -> In t (everything doc) -> entry_at doc gs title t -> tidy t ->
  exists s, history_entry_str (eid t) d = (Ok ($"HistoryEntry: Entry: """ ++ s ++ $" (" ++ match field_text $"UserName" t with Some u => u | None => $"None" end ++ $")"""), d) /\ slashed (gs ++ [title]) s.
Proof. intros H ON EF It A T. destruct (entry_shown d doc F gs title t H ON EF It A T) as (s & E & S). exists s. split; [|exact S]. unfold history_entry_str. now rewrite (mbind_ok _ _ _ _ _ E). Qed.
Lemma group_shown d doc F ns g : wf d -> one_name d -> d_forest d = doc :: F -> group_at doc ns g -> exists s, group_str (eid g) d = (Ok ($"Group: """ ++ s ++ $""""), d) /\ slashed ns s.
Proof. intros H ON EF A. exists (py_join $"/" ns). split; [|apply join_slashed]. unfold group_str. rewrite (mbind_ok _ _ _ _ _ (group_path_run R d doc F ns g H ON EF A)). now rewrite path_str_some. Qed.
Lemma att_shown d t v n k : wf d -> regular d -> has d t -> attached d (eid t) v n -> find1 $"Key" t = Some k ->
  att_repr (eid t) d = (Ok ($"Attachment: '" ++ match etext k with Some s => s | None => $"None" end ++ $"' -> " ++ number n), d).
Proof.
  intros H G Ht A K. unfold att_repr. assert (E : att_filename (eid t) d = (Ok (etext k), d)) by (unfold att_filename; rewrite (mbind_ok _ _ _ _ _ (the_run d (eid t) t H Ht eq_refl)), K; reflexivity).
  rewrite (mbind_ok _ _ _ _ _ E), (mbind_ok _ _ _ _ _ (att_id_run d _ v n H (attached_refs d _ v n H G A))). reflexivity.
Qed.
(** Two entries at the same place with the same user name are printed alike. *)
Lemma shown_alike d d2 doc F doc2 F2 gs title t t2 : wf d -> wf d2 -> one_name d -> one_name d2 -> d_forest d = doc :: F -> d_forest d2 = doc2 :: F2 -> In t (everything doc) -> In t2 (everything doc2) ->
  entry_at doc gs title t -> entry_at doc2 gs title t2 -> tidy t -> tidy t2 -> field_text $"UserName" t2 = field_text $"UserName" t -> fst (entry_str (eid t2) d2) = fst (entry_str (eid t) d).
Proof.
  intros H H2 O O2 E E2 I I2 A A2 T T2 U. destruct (entry_shown d doc F gs title t H O E I A T) as (s & -> & S). destruct (entry_shown d2 doc2 F2 gs title t2 H2 O2 E2 I2 A2 T2) as (s2 & -> & S2). rewrite (slashed_fun _ _ _ S2 S), U. reflexivity.
Qed.
Lemma show_reads i d : snd (entry_str i d) = d /\ snd (history_entry_str i d) = d /\ snd (group_str i d) = d /\ snd (att_repr i d) = d.
Proof.
  assert (G : reads (get_prop R P_username i)) by (unfold get_prop, get_string; reads). assert (E : reads (entry_str i)).
  { unfold entry_str. apply reads_bind; [|intros [l|]; [apply reads_bind; [exact G|intros; apply reads_ret]|apply reads_raise]]. unfold entry_path. apply reads_bind; [apply reads_group|]. intros [p|]; [|apply reads_ret]. apply reads_bind; [unfold get_string; reads|]. intros ti. apply reads_bind; [apply reads_lift|]. intros n. apply reads_bind; [apply reads_loop|]. intros; apply reads_ret. }
  split; [apply E|]. split; [unfold history_entry_str; apply (reads_bind _ _ E); intros; apply reads_ret|]. split; [unfold group_str; apply (reads_bind _ _ (reads_path R i)); intros; apply reads_ret|].
  assert (X : reads (att_repr i)); [|apply X]. unfold att_repr, att_filename, att_id. apply reads_bind.
  - apply reads_bind; [apply reads_the|]. intros t. destruct (find1 _ t); [apply reads_ret|apply reads_raise].
  - intros f. apply reads_bind; [|intros; apply reads_ret]. apply reads_bind; [apply reads_the|]. intros t. destruct (find1 _ t) as [v|]; [|apply reads_raise]. destruct (attr_of _ v); [apply reads_of|apply reads_raise].
Qed.
End Shown.
