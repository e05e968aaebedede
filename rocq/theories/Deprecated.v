(** Model of deprecated.py: the find_..._by_... functions, and what they return. *)
From Verif Require Import Base Base64 PyStr Xml Tree XPath Uuid XPath_parse XPath_facts XPath_eval FindSpec Find_facts Find_path Find_more.
From Verif Require Import Db.

(** *** Model *)
(** Arguments of deprecated.py's functions other than the value: regex, flags, group, history, first. *)
Record opts := MkOpts { p_regex : bool; p_flags : option str; p_group : option nat; p_history : bool; p_first : bool }.
Definition o_query (o : opts) (hist : bool) (path : option (list (option str))) (string : list (str * str)) (kw : list (str * kwval)) : query :=
  MkQuery path (p_group o) hist (p_regex o) (p_flags o) string kw.
(** deprecated.py:4-13; no history argument *)
Definition find_groups_by_name (R : regex) (d : db) (name : option str) (o : opts) : res found :=
  let q := o_query o false None [] [($"name", match name with Some s => K_str s | None => K_none end)] in give (p_first o) q (find_groups R d true q).
(** deprecated.py:15-24; no history argument *)
Definition find_groups_by_path (R : regex) (d : db) (path : option (list (option str))) (o : opts) : res found :=
  let q := o_query o false path [] [] in give (p_first o) q (find_groups R d true q).
(** deprecated.py:26-36 *)
Definition find_groups_by_uuid (R : regex) (d : db) (u : option bytes) (o : opts) : res found :=
  let q := o_query o (p_history o) None [] [($"uuid", match u with Some b => K_uuid b | None => K_none end)] in give (p_first o) q (find_groups R d true q).
(** deprecated.py:38-48 *)
Definition find_groups_by_notes (R : regex) (d : db) (notes : option str) (o : opts) : res found :=
  let q := o_query o (p_history o) None [] [($"notes", match notes with Some s => K_str s | None => K_none end)] in give (p_first o) q (find_groups R d true q).
(** deprecated.py:50-60 *)
Definition find_entries_by_title (R : regex) (d : db) (title : option str) (o : opts) : res found :=
  let q := o_query o (p_history o) None [] [($"title", match title with Some s => K_str s | None => K_none end)] in give (p_first o) q (find_entries R d true q).
(** deprecated.py:62-72 *)
Definition find_entries_by_username (R : regex) (d : db) (username : option str) (o : opts) : res found :=
  let q := o_query o (p_history o) None [] [($"username", match username with Some s => K_str s | None => K_none end)] in give (p_first o) q (find_entries R d true q).
(** deprecated.py:74-84 *)
Definition find_entries_by_password (R : regex) (d : db) (password : option str) (o : opts) : res found :=
  let q := o_query o (p_history o) None [] [($"password", match password with Some s => K_str s | None => K_none end)] in give (p_first o) q (find_entries R d true q).
(** deprecated.py:86-96 *)
Definition find_entries_by_url (R : regex) (d : db) (url : option str) (o : opts) : res found :=
  let q := o_query o (p_history o) None [] [($"url", match url with Some s => K_str s | None => K_none end)] in give (p_first o) q (find_entries R d true q).
(** deprecated.py:98-108 *)
Definition find_entries_by_notes (R : regex) (d : db) (notes : option str) (o : opts) : res found :=
  let q := o_query o (p_history o) None [] [($"notes", match notes with Some s => K_str s | None => K_none end)] in give (p_first o) q (find_entries R d true q).
(** deprecated.py:110-120 *)
Definition find_entries_by_path (R : regex) (d : db) (path : option (list (option str))) (o : opts) : res found :=
  let q := o_query o (p_history o) path [] [] in give (p_first o) q (find_entries R d true q).
(** deprecated.py:122-132 *)
Definition find_entries_by_uuid (R : regex) (d : db) (u : option bytes) (o : opts) : res found :=
  let q := o_query o (p_history o) None [] [($"uuid", match u with Some b => K_uuid b | None => K_none end)] in give (p_first o) q (find_entries R d true q).
(** deprecated.py:134-144; [string] is a dictionary.  Simplification: None (which raises in pykeepass.py:411) is left out. *)
Definition find_entries_by_string (R : regex) (d : db) (string : list (str * str)) (o : opts) : res found :=
  let q := o_query o (p_history o) None string [] in give (p_first o) q (find_entries R d true q).

(** *** What they return *)
(** With [first] the first of the list, or None; otherwise the list. *)
Definition given (first : bool) (l : list ref) : found := if first then F_one (match l with [] => None | r :: _ => Some r end) else F_list l.
Definition fits (R : regex) (o : opts) (v : str) : option str -> Prop := matches R (p_regex o) (ignore_case (p_flags o)) v.
(** The options are usable for the value [v]. *)
Definition opts_ok (R : regex) (o : opts) : Prop := match p_flags o with Some s => plain s | None => True end.
Definition value_ok (R : regex) (o : opts) (v : str) : Prop :=
  plain v /\ (p_regex o = true -> forall s, exists b, R v (ignore_case (p_flags o)) s = Ok b).
(** The entries (groups) among [cand] with property [P], out of the histories unless asked for. *)
Definition entries_with (F : forest) (hist : bool) (P : elem -> Prop) (t : elem) : Prop := etag t = $"Entry" /\ (hist = true \/ In t (visible F)) /\ P t.
Definition groups_with (F : forest) (hist : bool) (P : elem -> Prop) (t : elem) : Prop := etag t = $"Group" /\ (hist = true \/ In t (visible F)) /\ P t.
Definition returns_entries (d : db) (o : opts) (P : elem -> Prop) (cand : list elem) (r : res found) : Prop :=
  exists l, picks (entries_with (d_forest d) (p_history o) P) cand l /\ r = Ok (given (p_first o) (map (fun t => R_entry (eid t)) l)).
Definition returns_groups (d : db) (o : opts) (hist : bool) (P : elem -> Prop) (cand : list elem) (r : res found) : Prop :=
  exists l, picks (groups_with (d_forest d) hist P) cand l /\ r = Ok (given (p_first o) (map (fun t => R_group (eid t)) l)).

Lemma usable_one keys R o h k v : opts_ok R o -> In k keys -> k <> $"uuid" -> k <> $"tags" -> value_ok R o v ->
  usable keys R (o_query o h None [] [(k, K_str v)]).
Proof.
  intros Ho Hk Hu Ht [Hv Hp]. split; [reflexivity|]. split; [exact Ho|]. split; [intros f w []|].
  intros k' v' [E|[]]. injection E as <- <-. split; [exact Hk|]. split; [intros E; contradiction|]. split; [intros E; contradiction|]. split; [exact Hv|exact Hp].
Qed.
Lemma usable_uuid keys R o h u : opts_ok R o -> In $"uuid" keys -> value_ok R o (b64encode u) ->
  usable keys R (o_query o h None [] [($"uuid", K_uuid u)]).
Proof.
  intros Ho Hk [Hv Hp]. split; [reflexivity|]. split; [exact Ho|]. split; [intros f w []|].
  intros k' v' [E|[]]. injection E as <- <-. split; [exact Hk|]. split; [intros _; exists u; reflexivity|]. split; [intros E; discriminate E|]. split; [exact Hv|exact Hp].
Qed.
Lemma usable_none keys R o h k : opts_ok R o -> In k keys -> k <> $"uuid" -> k <> $"tags" -> usable keys R (o_query o h None [] [(k, K_none)]).
Proof.
  intros Ho Hk Hu Ht. split; [reflexivity|]. split; [exact Ho|]. split; [intros f w []|].
  intros k' v' [E|[]]. injection E as <- <-. split; [exact Hk|]. split; [intros E; contradiction|]. split; [intros E; contradiction|exact I].
Qed.
Lemma usable_string R o h string : opts_ok R o -> (forall f v, In (f, v) string -> plain f /\ value_ok R o v) ->
  usable entry_keys R (o_query o h None string []).
Proof.
  intros Ho Hs. split; [reflexivity|]. split; [exact Ho|]. split; [|intros k v []].
  intros f v Hin. destruct (Hs f v Hin) as [Hf [Hv Hp]]. split; [exact Hf|]. split; [exact Hv|exact Hp].
Qed.
Lemma by_entries R d o cand P q : unique (d_forest d) -> searched (d_forest d) (p_group o) true cand ->
  usable entry_keys R q -> q_tree q = p_group o -> q_history q = p_history o ->
  (forall t, ((forall f v, In (f, v) (q_string q) -> has_field (matches R (q_regex q) (ignore_case (q_flags q)) v) f t) /\
     (forall kv, In kv (q_kw q) -> meets entry_key R (q_regex q) (ignore_case (q_flags q)) kv t)) <-> P t) ->
  returns_entries d o P cand (give (p_first o) q (find_entries R d true q)).
Proof.
  intros U S Q Eg Eh HP. rewrite <- Eg in S. destruct (find_entries_first R d q true cand U Q S) as (l & Hl & H1 & H2).
  exists l. split.
  - eapply picks_ext; [|exact Hl]. intros t _. unfold answers, entries_with. rewrite Eh, <- HP. tauto.
  - destruct (p_first o); [rewrite H1|rewrite H2]; [|reflexivity]. destruct l; reflexivity.
Qed.
Lemma by_groups R d o h cand P q : q_history q = h -> unique (d_forest d) -> searched (d_forest d) (p_group o) true cand ->
  usable group_keys R q -> q_string q = [] -> q_tree q = p_group o ->
  (forall t, (forall kv, In kv (q_kw q) -> meets group_key R (q_regex q) (ignore_case (q_flags q)) kv t) <-> P t) ->
  returns_groups d o h P cand (give (p_first o) q (find_groups R d true q)).
Proof.
  intros <- U S Q Es Eg HP. rewrite <- Eg in S. destruct (find_groups_first R d q true cand U Q Es S) as (l & Hl & H1 & H2).
  exists l. split.
  - eapply picks_ext; [|exact Hl]. intros t _. unfold answers, groups_with. rewrite Es, <- HP. cbn [In]. tauto.
  - destruct (p_first o); [rewrite H2|rewrite H1]; [|reflexivity]. destruct l; reflexivity.
Qed.
Ltac one_kw := intros t; cbn [q_string q_kw o_query q_regex q_flags]; split;
  [intros H; first [exact (proj2 H _ (or_introl eq_refl)) | exact (H _ (or_introl eq_refl))]
  |intros H; first [split; [intros ? ? []|intros kv [<-|[]]; exact H] | intros kv [<-|[]]; exact H]].

(** find_entries_by_title, _username, _password, _url, _notes *)
Lemma entries_by_field R d o v cand : unique (d_forest d) -> searched (d_forest d) (p_group o) true cand -> opts_ok R o -> value_ok R o v ->
  returns_entries d o (has_field (fits R o v) $"Title") cand (find_entries_by_title R d (Some v) o) /\
  returns_entries d o (has_field (fits R o v) $"UserName") cand (find_entries_by_username R d (Some v) o) /\
  returns_entries d o (has_field (fits R o v) $"Password") cand (find_entries_by_password R d (Some v) o) /\
  returns_entries d o (has_field (fits R o v) $"URL") cand (find_entries_by_url R d (Some v) o) /\
  returns_entries d o (has_field (fits R o v) $"Notes") cand (find_entries_by_notes R d (Some v) o).
Proof.
  intros U S Ho Hv.
  repeat split; apply by_entries; try assumption; try reflexivity;
    try (apply usable_one; [assumption|vm_compute; tauto|discriminate|discriminate|assumption]); one_kw.
Qed.
(** None for a value: no restriction. *)
Lemma entries_by_none R d o cand : unique (d_forest d) -> searched (d_forest d) (p_group o) true cand -> opts_ok R o ->
  returns_entries d o (fun _ => True) cand (find_entries_by_title R d None o) /\
  returns_entries d o (fun _ => True) cand (find_entries_by_username R d None o) /\
  returns_entries d o (fun _ => True) cand (find_entries_by_password R d None o) /\
  returns_entries d o (fun _ => True) cand (find_entries_by_url R d None o) /\
  returns_entries d o (fun _ => True) cand (find_entries_by_notes R d None o).
Proof.
  intros U S Ho.
  repeat split; apply by_entries; try assumption; try reflexivity;
    try (apply usable_none; [assumption|vm_compute; tauto|discriminate|discriminate]);
    intros t; cbn [q_string q_kw o_query q_regex q_flags]; split; try tauto; intros _; (split; [intros ? ? []|intros kv [<-|[]]; exact I]).
Qed.
Lemma entries_by_uuid R d o u cand : unique (d_forest d) -> searched (d_forest d) (p_group o) true cand -> opts_ok R o -> value_ok R o (b64encode u) ->
  returns_entries d o (kid_with $"UUID" (fun x => fits R o (b64encode u) (etext x))) cand (find_entries_by_uuid R d (Some u) o).
Proof.
  intros U S Ho Hv. apply by_entries; try assumption; try reflexivity; [apply usable_uuid; [assumption|vm_compute; tauto|assumption]|]. one_kw.
Qed.
Lemma entries_by_string R d o string cand : unique (d_forest d) -> searched (d_forest d) (p_group o) true cand -> opts_ok R o ->
  (forall f v, In (f, v) string -> plain f /\ value_ok R o v) ->
  returns_entries d o (fun t => forall f v, In (f, v) string -> has_field (fits R o v) f t) cand (find_entries_by_string R d string o).
Proof.
  intros U S Ho Hv. apply by_entries; try assumption; try reflexivity; [apply usable_string; assumption|].
  intros t. cbn [q_string q_kw o_query q_regex q_flags In]. split; [tauto|]. intros H. split; [exact H|tauto].
Qed.
Lemma groups_by_field R d o v cand : unique (d_forest d) -> searched (d_forest d) (p_group o) true cand -> opts_ok R o -> value_ok R o v ->
  returns_groups d o false (kid_with $"Name" (fun x => fits R o v (etext x))) cand (find_groups_by_name R d (Some v) o) /\
  returns_groups d o (p_history o) (kid_with $"Notes" (fun x => fits R o v (etext x))) cand (find_groups_by_notes R d (Some v) o).
Proof.
  intros U S Ho Hv.
  split; unfold find_groups_by_name, find_groups_by_notes, find_groups_by_uuid, find_groups_by_path; apply by_groups; try assumption; try reflexivity;
    try (apply usable_one; [assumption|vm_compute; tauto|discriminate|discriminate|assumption]); one_kw.
Qed.
Lemma groups_by_uuid R d o u cand : unique (d_forest d) -> searched (d_forest d) (p_group o) true cand -> opts_ok R o -> value_ok R o (b64encode u) ->
  returns_groups d o (p_history o) (kid_with $"UUID" (fun x => fits R o (b64encode u) (etext x))) cand (find_groups_by_uuid R d (Some u) o).
Proof.
  intros U S Ho Hv. unfold find_groups_by_name, find_groups_by_notes, find_groups_by_uuid, find_groups_by_path; apply by_groups; try assumption; try reflexivity; [apply usable_uuid; [assumption|vm_compute; tauto|assumption]|]. one_kw.
Qed.
(** By path: one result, whatever [first], [flags] and [history] say. *)
Lemma entries_by_path R d o groups title t F' : d_forest d = t :: F' -> unique (d_forest d) -> p_group o = None -> p_regex o = false -> Forall plain (groups ++ [title]) ->
  exists l, picks (entry_at t groups title) (everything t) l /\
    find_entries_by_path R d (Some (map Some (groups ++ [title]))) o = Ok (F_one (match l with [] => None | e :: _ => Some (R_entry (eid e)) end)).
Proof.
  intros E U Eg Er Hp. unfold find_entries_by_path.
  edestruct (entry_by_path R d (o_query o (p_history o) (Some (map Some (groups ++ [title]))) [] []) true groups title t F' E U Eg (conj eq_refl Er) Hp) as (l & Hl & _ & Hf).
  exists l. split; [exact Hl|]. apply Hf.
Qed.
Lemma groups_by_path R d o names t F' : d_forest d = t :: F' -> unique (d_forest d) -> p_group o = None -> p_regex o = false -> Forall (fun n => plain n /\ n <> []) names ->
  exists l, picks (group_at t names) (everything t) l /\
    find_groups_by_path R d (Some (map Some names)) o = Ok (F_one (match l with [] => None | e :: _ => Some (R_group (eid e)) end)).
Proof.
  intros E U Eg Er Hp. unfold find_groups_by_path.
  edestruct (group_by_path R d (o_query o false (Some (map Some names)) [] []) true names t F' E U Eg (conj eq_refl Er) Hp) as (l & Hl & _ & Hf).
  exists l. split; [exact Hl|]. apply Hf.
Qed.
(** find_groups_by_path() without a path returns every group. *)
Lemma groups_by_no_path R d o cand : unique (d_forest d) -> searched (d_forest d) (p_group o) true cand -> opts_ok R o ->
  returns_groups d o false (fun _ => True) cand (find_groups_by_path R d None o).
Proof.
  intros U S Ho. unfold find_groups_by_name, find_groups_by_notes, find_groups_by_uuid, find_groups_by_path; apply by_groups; try assumption; try reflexivity.
  - split; [reflexivity|]. split; [exact Ho|]. split; [intros f w []|intros k v []].
  - intros t. cbn. tauto.
Qed.
