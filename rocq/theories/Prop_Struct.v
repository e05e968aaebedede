(** Theorems about adding, deleting, moving and trashing elements, positions and histories: C51 to C60. *)
From Verif Require Import Base Base64 PyStr Xml Tree XPath Time Uuid Db FindSpec FindEx ApiSpec StructSpec Api ApiEx StructEx Struct Struct_add Struct_trash Struct_empty Struct_index Struct_hist Struct_claims.

(** ** C51: add_entry raises and changes nothing, or appends exactly one entry to the group; whatever the arguments. *)
Theorem c51_raise_changes_nothing : forall R C d g title username password url notes expiry tags otp icon force x d', wf d -> in_doc d g ->
  add_entry R C g title username password url notes expiry tags otp icon force d = (Err x, d') -> d' = d.
Proof. exact add_entry_raises. Qed.
Print Assumptions c51_raise_changes_nothing.
Theorem c51_one_entry_appended : forall R C d g title username password url notes expiry tags otp icon force e d', wf d -> in_doc d g ->
  add_entry R C g title username password url notes expiry tags otp icon force d = (Ok e, d') ->
  exists t, wf d' /\ added d d' g e /\ has_elem d' t /\ eid t = e /\ etag t = $"Entry" /\ (forall j, in_doc d' j <-> in_doc d j \/ In j (ids t)).
Proof. exact add_entry_ok. Qed.
Print Assumptions c51_one_entry_appended.
(** With legal text the call returns, and every property of the new entry reads as given. *)
Theorem c51_given_fields_partial : forall R C d g title username password url notes expiry tags otp icon force u cur exp x y,
  wf d -> has_elem d g -> in_doc d (eid g) -> etag g <> $"History" -> In g (visible (d_forest d)) ->
  uuid_ok (uuid1 C) -> (forall s, title = Some s -> plain s) -> (forall s, username = Some s -> plain s) ->
  some_text title -> some_text username -> some_text password -> opt_text url -> opt_text notes -> opt_text otp -> opt_text icon -> opt_text (tags_text tags) ->
  encode_time (v4 d) (now C) = Ok cur -> decode_time (v4 d) cur = Ok x -> expiry_of C expiry u -> encode_time (v4 d) u = Ok exp -> decode_time (v4 d) exp = Ok y ->
  force = true \/ (forall k, ~ duplicate g title username k) ->
  exists e t d', add_entry R C (eid g) title username password url notes expiry tags otp icon force d = (Ok e, d') /\
    wf d' /\ added d d' (eid g) e /\ has_elem d' t /\ eid t = e /\ (forall j, in_doc d' j <-> in_doc d j \/ In j (ids t)) /\
    etag t = $"Entry" /\ book t = new_fields title username password url notes otp /\
    new_entry_reads R C d' e title username password url notes expiry tags otp icon x y.
Proof. exact add_entry_reads. Qed.
Print Assumptions c51_given_fields_partial.
Theorem c51_duplicate_raises_partial : forall R C d g title username password url notes expiry tags otp icon k,
  wf d -> has_elem d g -> etag g <> $"History" -> In g (visible (d_forest d)) ->
  (forall s, title = Some s -> plain s) -> (forall s, username = Some s -> plain s) -> duplicate g title username k ->
  exists x, add_entry R C (eid g) title username password url notes expiry tags otp icon false d = (Err x, d).
Proof. exact add_entry_duplicate. Qed.
Print Assumptions c51_duplicate_raises_partial.
Definition new_one : M nat := add_entry lit clk 9 (Some $"wiki") (Some $"ann") (Some $"pw") (Some $"http://x") None (Some (MkDt 2030 1 1 0 0 0 0 (Some 0%Z))) (T_list [$"a"; $"b"]) None (Some $"3") false.
Example c51_ex : wf edb /\ in_doc edb 9 /\ has_elem edb (el edb 9) /\ In (el edb 9) (visible (d_forest edb)) /\
  fst (new_one edb) = Ok 152%nat /\
  fst ((do e <- new_one; get_prop lit P_url e) edb) = Ok (Some $"http://x") /\ fst ((do e <- new_one; get_tags e) edb) = Ok [$"a"; $"b"] /\
  fst ((do e <- new_one; get_expires e) edb) = Ok (Some true) /\ fst ((do e <- new_one; group_of lit e) edb) = Ok (Some 9%nat) /\
  fst ((do e <- new_one; get_timeprop T_expiry e) edb) = Ok (Some (MkDt 2030 1 1 0 0 0 0 (Some 0%Z))) /\
  fst ((do _ <- new_one; new_one) edb) = Err Ex_Generic /\
  fst (add_entry lit clk 9 (Some $"mail") (Some $"ann") (Some $"other") None None None T_none None None false edb) = Err Ex_Generic /\
  fst (add_entry lit clk 9 (Some $"mail") (Some $"ann") (Some $"other") None None None T_none None None true edb) = Ok 152%nat.
Proof.
  split; [exact edb_wf|]. split; [apply in_docb_ok; [exact edb_wf|vm_compute; reflexivity]|]. assert (H : has_elem edb (el edb 9)) by (apply hasb_ok; vm_compute; reflexivity). split; [exact H|].
  split; [apply visibleb_ok; [exact edb_wf|exact H|vm_compute; reflexivity]|]. repeat split; vm_compute; reflexivity.
Qed.
(** The duplicate rule is false for titles with a double quote, which end up inside the search expression: *)
Theorem c51_quotes_refuted : exists d g s u p, wf d /\ in_doc d g /\ text_ok s = true /\ (exists x, add_entry lit clk g (Some s) (Some u) (Some p) None None None T_none None None false d = (Err x, d)) /\
  (forall k, ~ duplicate (el d g) (Some s) (Some u) k).
Proof.
  exists bdb, 120%nat, $"a""b", $"u", $"p". split; [exact bdb_wf|]. split; [apply in_docb_ok; [exact bdb_wf|vm_compute; reflexivity]|]. split; [reflexivity|]. split; [exists Ex_XPath; vm_compute; reflexivity|].
  intros k (Ik & Tk & _). assert (H : forallb (fun k => negb (str_eqb (etag k) $"Entry")) (ekids (el bdb 120)) = true) by (vm_compute; reflexivity). rewrite forallb_forall in H. specialize (H k Ik). rewrite Tk in H. discriminate.
Qed.
Print Assumptions c51_quotes_refuted.

(** ** C52: None as title, username or password is not accepted, although documented. *)
Theorem c52_none_refuted : exists d g, wf d /\ in_doc d g /\ forall b1 b2 b3 : bool, b1 && b2 && b3 = false ->
  add_entry lit clk g (if b1 then Some $"t" else None) (if b2 then Some $"u" else None) (if b3 then Some $"p" else None) None None None T_none None None true d = (Err Ex_Type, d).
Proof.
  exists edb, 9%nat. split; [exact edb_wf|]. split; [apply in_docb_ok; [exact edb_wf|vm_compute; reflexivity]|]. intros [] [] []; intros E; try discriminate; vm_compute; reflexivity.
Qed.
Print Assumptions c52_none_refuted.

(** ** C53: deleting removes exactly the element and what is below it; no search of any kind finds it any more.
    [cut] says what the rest of the document looks like: every row is the same, except that the deleted number is no longer listed among children. *)
Theorem c53_delete : forall R d t, wf d -> has_elem d t -> in_doc d (eid t) -> hd_error (roots (d_forest d)) <> Some (eid t) ->
  exists d', delete (eid t) d = (Ok tt, d') /\ wf d' /\ cut d d' (eid t) /\ (forall j, in_doc d' j <-> in_doc d j /\ ~ In j (ids t)) /\
    forall pf xp q l, (forall i, q_tree q = Some i -> in_doc d' i) -> find R d' pf xp q = Ok l -> forall r, In r l -> ~ In (rid r) (ids t).
Proof. exact delete_doc. Qed.
Print Assumptions c53_delete.
Example c53_ex : in_doc edb 56 /\ hd_error (roots (d_forest edb)) <> Some 56%nat /\ In 67%nat (ids (el edb 56)) /\
  fst ((do _ <- delete 56; entries lit) edb) = Ok [20%nat] /\ fst (entries lit edb) = Ok [20%nat; 67%nat; 126%nat].
Proof. split; [apply in_docb_ok; [exact edb_wf|vm_compute; reflexivity]|]. split; [vm_compute; discriminate|]. split; [vm_compute; tauto|]. split; vm_compute; reflexivity. Qed.

(** ** C54: moving makes the element the last child of the destination, with everything below it; nothing else changes. *)
Theorem c54_move : forall d p t, wf d -> has_elem d t -> in_doc d (eid t) -> in_doc d p -> hd_error (roots (d_forest d)) <> Some (eid t) -> ~ In p (ids t) ->
  exists d', move (eid t) p d = (Ok tt, d') /\ wf d' /\ relocated d d' p (eid t) /\ has_elem d' t /\ (forall j, in_doc d' j <-> in_doc d j).
Proof. exact move_doc. Qed.
Print Assumptions c54_move.
Theorem c54_into_itself_refused : forall d p t, wf d -> has_elem d t -> In p (ids t) -> move (eid t) p d = (Err Ex_Value, d).
Proof. exact move_inside. Qed.
Print Assumptions c54_into_itself_refused.
Example c54_ex : in_doc bdb 46 /\ in_doc bdb 120 /\ ~ In 120%nat (ids (el bdb 46)) /\ fst ((do _ <- move 46 120; group_of lit 46) bdb) = Ok (Some 120%nat) /\
  fst ((do _ <- move 46 120; entries lit) bdb) = Ok [20%nat; 57%nat; 94%nat] /\ In 83%nat (ids (el bdb 46)) /\ move 46 83 bdb = (Err Ex_Value, bdb).
Proof.
  split; [apply in_docb_ok; [exact bdb_wf|vm_compute; reflexivity]|]. split; [apply in_docb_ok; [exact bdb_wf|vm_compute; reflexivity]|]. split; [vm_compute; intuition discriminate|]. split; [vm_compute; reflexivity|]. split; [vm_compute; reflexivity|]. split; [vm_compute; tauto|vm_compute; reflexivity].
Qed.

(** ** C55: the recycle bin. [skeleton d r rt g m e]: [g] is the root group and the element [e] records the UUID of the bin. *)
Theorem c55_root_refused : forall R C d r rt g m e t u, wf d -> skeleton d r rt g m e -> has_elem d t -> uuid_is t u -> (exists q, has_elem d q /\ eid q = g /\ uuid_is q u) ->
  trash R C (eid t) d = (Err Ex_UnableToSendToRecycleBin, d).
Proof. exact trash_root. Qed.
Print Assumptions c55_root_refused.
Theorem c55_bin_refused : forall R C d r rt g m e t u w v b, wf d -> skeleton d r rt g m e -> has_elem d t -> uuid_is t u -> not_root d g u -> text_at d e v -> uuid_of_text v = Ok w ->
  first_such (is_bin (d_forest d) w) (doc_elems d) b -> has_uuid u b -> trash R C (eid t) d = (Err Ex_UnableToSendToRecycleBin, d).
Proof. exact trash_bin. Qed.
Print Assumptions c55_bin_refused.
(** With a bin [b]: the element becomes its last child. *)
Theorem c55_moved_to_bin_partial : forall R C d r rt g m e t u w v b, wf d -> skeleton d r rt g m e -> has_elem d t -> item t -> uuid_is t u -> not_root d g u -> text_at d e v -> uuid_of_text v = Ok w ->
  first_such (is_bin (d_forest d) w) (doc_elems d) b -> ~ has_uuid u b -> ~ below (look (d_forest d)) (eid t) (eid b) ->
  exists d', trash R C (eid t) d = (Ok tt, d') /\ wf d' /\ relocated d d' (eid b) (eid t) /\ has_elem d' t /\
    (forall j, in_doc d' j <-> in_doc d j \/ below (look (d_forest d)) (eid t) j) /\ skeleton d' r rt g m e /\ text_at d' e v.
Proof. exact trash_moves. Qed.
Print Assumptions c55_moved_to_bin_partial.
(** A group that contains the bin: a ValueError, and nothing changes. *)
Theorem c55_around_bin_refused : forall R C d r rt g m e t u w v b, wf d -> skeleton d r rt g m e -> has_elem d t -> uuid_is t u -> not_root d g u -> text_at d e v -> uuid_of_text v = Ok w ->
  first_such (is_bin (d_forest d) w) (doc_elems d) b -> ~ has_uuid u b -> below (look (d_forest d)) (eid t) (eid b) -> trash R C (eid t) d = (Err Ex_Value, d).
Proof. exact trash_holds_bin. Qed.
Print Assumptions c55_around_bin_refused.
(** Without a bin: a new group "Recycle Bin" appears under the root group, its UUID is recorded, the element moves there; the new group is the recycle bin from then on. *)
Theorem c55_bin_created_partial : forall R C d r rt g m e t u w v cur, wf d -> skeleton d r rt g m e -> has_elem d t -> item t -> in_doc d (eid t) -> uuid_is t u -> not_root d g u -> text_at d e v -> uuid_of_text v = Ok w ->
  (forall x, In x (doc_elems d) -> ~ is_bin (d_forest d) w x) -> uuid_ok (uuid1 C) -> encode_time (v4 d) (now C) = Ok cur ->
  exists b d1 d2 d', trash R C (eid t) d = (Ok tt, d') /\ wf d' /\ added d d1 g (eid b) /\ etag b = $"Group" /\ first_text $"Name" b = Some $"Recycle Bin" /\
    first_text $"UUID" b = Some (uuid_text (uuid1 C)) /\ kids_of $"Entry" b = [] /\ kids_of $"Group" b = [] /\ has_elem d1 b /\
    only [e] d1 d2 /\ relocated d2 d' (eid b) (eid t) /\ has_elem d' t /\ (forall j, in_doc d' j <-> in_doc d j \/ In j (ids b)) /\ skeleton d' r rt g m e /\ text_at d' e (Some (uuid_text (uuid1 C))) /\
    ((forall x, has_elem d x -> ~ has_uuid (uuid1 C) x) -> recyclebin_group R d' = (Ok (Some (eid b)), d')).
Proof. exact trash_creates. Qed.
Print Assumptions c55_bin_created_partial.
Example c55_ex : skeleton edb 0 8 9 1 6 /\ text_at edb 6 (Some (uuid_text (repeat 9 16))) /\ uuid_is (el edb 20) (repeat 2 16) /\ not_root edb 9 (repeat 2 16) /\ item (el edb 20) /\
  trash lit clk 9 edb = (Err Ex_UnableToSendToRecycleBin, edb) /\
  fst ((do _ <- trash lit clk 20; group_of lit 20) edb) = Ok (Some 152%nat) /\ fst ((do _ <- trash lit clk 20; do _ <- trash lit clk 56; group_of lit 56) edb) = Ok (Some 152%nat) /\
  fst ((do _ <- trash lit clk 20; groups lit) edb) = Ok [9%nat; 56%nat; 152%nat].
Proof.
  split; [apply skeletonb_ok; vm_compute; reflexivity|]. split; [eexists; split; vm_compute; reflexivity|]. split; [vm_compute; reflexivity|].
  split; [exists (el edb 9), (repeat 1 16); split; [apply hasb_ok; vm_compute; reflexivity|]; split; [vm_compute; reflexivity|]; split; vm_compute; reflexivity|]. split; [left; vm_compute; reflexivity|]. repeat split; vm_compute; reflexivity.
Qed.
Example c55_bin_ex : skeleton bdb 0 8 9 1 6 /\ trash lit clk 83 bdb = (Err Ex_UnableToSendToRecycleBin, bdb) /\ trash lit clk 46 bdb = (Err Ex_Value, bdb) /\
  fst ((do _ <- trash lit clk 20; group_of lit 20) bdb) = Ok (Some 83%nat) /\ first_such (is_bin (d_forest bdb) (repeat 9 16)) (doc_elems bdb) (el bdb 83).
Proof.
  split; [apply skeletonb_ok; vm_compute; reflexivity|]. split; [vm_compute; reflexivity|]. split; [vm_compute; reflexivity|]. split; [vm_compute; reflexivity|].
  apply (first_bin_ok bdb (repeat 9 16) 83 83 bdb_wf); vm_compute; reflexivity.
Qed.

(** False of the code in two points: an entry whose UUID collides with that of the root group (C68) is refused, and so is (with a ValueError) a group that contains the bin. *)
Definition collision : bytes := [1; 1; 1; 1; 1; 1; 1; 1; 33; 1; 1; 1; 1; 1; 1; 0].
Definition cdb : db := db_of (xdoc 9 [X $"Entry" [] None [xt $"UUID" (b64encode collision); xs $"Title" $"a"]]).
Theorem c55_collision_refuted : exists d r rt g m e t u v, wf d /\ skeleton d r rt g m e /\ in_doc d (eid t) /\ has_elem d t /\ etag t = $"Entry" /\ uuid_is t u /\ uuid_is (el d g) v /\ u <> v /\
  trash lit clk (eid t) d = (Err Ex_UnableToSendToRecycleBin, d).
Proof.
  exists cdb, 0%nat, 8%nat, 9%nat, 1%nat, 6%nat, (el cdb 20), collision, (repeat 1 16). assert (W : wf cdb) by (apply wfb_ok; vm_compute; reflexivity). split; [exact W|]. split; [apply skeletonb_ok; vm_compute; reflexivity|].
  split; [apply in_docb_ok; [exact W|vm_compute; reflexivity]|]. split; [apply hasb_ok; vm_compute; reflexivity|]. split; [vm_compute; reflexivity|]. split; [vm_compute; reflexivity|]. split; [vm_compute; reflexivity|]. split; [vm_compute; discriminate|vm_compute; reflexivity].
Qed.
Print Assumptions c55_collision_refuted.
Theorem c55_around_bin_refuted : exists d r rt g m e t u v w, wf d /\ skeleton d r rt g m e /\ in_doc d (eid t) /\ has_elem d t /\ etag t = $"Group" /\ uuid_is t u /\ uuid_is (el d g) v /\ u <> v /\
  text_at d e (Some (uuid_text w)) /\ u <> w /\ trash lit clk (eid t) d = (Err Ex_Value, d).
Proof.
  exists bdb, 0%nat, 8%nat, 9%nat, 1%nat, 6%nat, (el bdb 46), (repeat 3 16), (repeat 1 16), (repeat 9 16). split; [exact bdb_wf|]. split; [apply skeletonb_ok; vm_compute; reflexivity|].
  split; [apply in_docb_ok; [exact bdb_wf|vm_compute; reflexivity]|]. split; [apply hasb_ok; vm_compute; reflexivity|]. split; [vm_compute; reflexivity|]. split; [vm_compute; reflexivity|]. split; [vm_compute; reflexivity|]. split; [vm_compute; discriminate|].
  split; [eexists; split; vm_compute; reflexivity|]. split; [vm_compute; discriminate|vm_compute; reflexivity].
Qed.
Print Assumptions c55_around_bin_refuted.

(** ** C56: empty_group ends, for every group, with no entries and no subgroups; every other row stays ([dropped]). *)
Theorem c56_empty_group : forall d g, wf d -> in_doc d g ->
  exists d', empty_group g d = (Ok tt, d') /\ wf d' /\ dropped d d' g (itemb (look (d_forest d))) /\ (forall j, in_doc d' j <-> in_doc d j /\ ~ gone d g (itemb (look (d_forest d))) j).
Proof. exact empty_group_claim. Qed.
Print Assumptions c56_empty_group.
Example c56_ex : in_doc bdb 46 /\ fst ((do _ <- empty_group 46; entries lit) bdb) = Ok [20%nat] /\ fst ((do _ <- empty_group 46; groups lit) bdb) = Ok [9%nat; 46%nat; 120%nat] /\
  fst ((do _ <- empty_group 46; get_sub $"Name" 46) bdb) = Ok (Some $"sub").
Proof. split; [apply in_docb_ok; [exact bdb_wf|vm_compute; reflexivity]|]. repeat split; vm_compute; reflexivity. Qed.

(** ** C57: reindex. The entries of the group are together: children [a], then the entries, then [b]. *)
Theorem c57_reindex : forall R d g a x i y b n, wf d -> is_tag (look (d_forest d)) $"Group" g -> contiguous d g a (x ++ i :: y) b -> (n <= List.length (x ++ y))%nat ->
  exists d', reindex R i (Z.of_nat n) d = (Ok tt, d') /\ wf d' /\ reordered d d' g (a ++ (firstn n (x ++ y) ++ i :: skipn n (x ++ y)) ++ b) /\
    index R i d' = (Ok (Z.of_nat n), d') /\ (forall j, in_doc d' j <-> in_doc d j).
Proof. exact reindex_claim. Qed.
Print Assumptions c57_reindex.
Definition row3 : db := db_of (xdoc 9 [xentry 2 $"a" $"" $"" []; xentry 3 $"b" $"" $"" []; xentry 4 $"c" $"" $"" []; xgroup 5 $"s" []]).
Example c57_ex : wf row3 /\ contiguous row3 9 [10; 11; 19]%nat ([20] ++ 46 :: [72])%nat [98]%nat /\ fst ((do _ <- reindex lit 46 0; entries lit) row3) = Ok [46; 20; 72]%nat /\
  fst ((do _ <- reindex lit 46 2; entries lit) row3) = Ok [20; 72; 46]%nat /\ fst ((do _ <- reindex lit 46 2; index lit 46) row3) = Ok 2%Z.
Proof.
  split; [apply wfb_ok; vm_compute; reflexivity|]. split.
  - split; [eexists; split; vm_compute; reflexivity|]. split; [repeat (constructor; [eexists; split; vm_compute; reflexivity|]); constructor|].
    repeat (constructor; [intros (r & Er & Et); revert Et; vm_compute in Er; injection Er as <-; vm_compute; discriminate|]). constructor.
  - repeat split; vm_compute; reflexivity.
Qed.

(** ** C58: index is the distance to the first entry of the group, so it counts entries when they are together. *)
Theorem c58_index_contiguous_partial : forall R d g a x i y b, wf d -> is_tag (look (d_forest d)) $"Group" g -> contiguous d g a (x ++ i :: y) b -> index R i d = (Ok (Z.of_nat (List.length x)), d).
Proof. exact index_contiguous. Qed.
Print Assumptions c58_index_contiguous_partial.
Theorem c58_index_distance : forall R d g a x i y e l, wf d -> is_tag (look (d_forest d)) $"Group" g -> row_kids d g (a ++ x ++ i :: y) -> x ++ i :: y = e :: l -> Forall (fun j => ~ entry_row d j) a -> entry_row d e ->
  index R i d = (Ok (Z.of_nat (List.length x)), d).
Proof. exact index_run. Qed.
Print Assumptions c58_index_distance.
(** The general claim is false: a subgroup between entries is counted. *)
Definition mixed : db := db_of (xdoc 9 [xentry 2 $"a" $"" $"" []; xgroup 3 $"s" []; xentry 4 $"b" $"" $"" []]).
Theorem c58_index_refuted : exists d i k, wf d /\ fst (index lit i d) = Ok k /\ (exists g, fst (group_of lit i d) = Ok (Some g) /\ kids_tagged (look (d_forest d)) $"Entry" g = [20; i]%nat) /\ k <> 1%Z.
Proof.
  exists mixed, 57%nat, 2%Z. split; [apply wfb_ok; vm_compute; reflexivity|]. split; [vm_compute; reflexivity|]. split; [exists 9%nat; split; vm_compute; reflexivity|discriminate].
Qed.
Print Assumptions c58_index_refuted.

(** ** C59: a snapshot has the content of the entry without its history; earlier snapshots and the live fields stay. *)
Theorem c59_save_history : forall d t, wf d -> has_elem d t -> in_doc d (eid t) -> etag t = $"Entry" -> at_most_one $"History" t ->
  exists s t' d', save_history (eid t) d = (Ok tt, d') /\ wf d' /\ has_elem d' t' /\ same_head t t' /\ other_kids $"History" t' = other_kids $"History" t /\ at_most_one $"History" t' /\
    snapshots t' = snapshots t ++ [s] /\ erase s = archived t /\ kids_of $"History" s = [] /\ look (d_forest d) (eid s) = None /\
    only (eid t :: map eid (kids_of $"History" t)) d d' /\ (forall j r, look (d_forest d) j = Some r -> (in_doc d' j <-> in_doc d j)).
Proof. exact save_history_claim. Qed.
Print Assumptions c59_save_history.
(** Sequences of edits, raising or not: the snapshots taken before stay as they are (as whole elements), in order; only save_history adds to them. *)
Theorem c59_edits_keep_snapshots : forall R l d t, sound d t -> Forall edit_ok l ->
  exists t' new, sound (after R (eid t) l d) t' /\ eid t' = eid t /\ snapshots t' = snapshots t ++ new /\ List.length new = List.length (filter is_save l) /\ Forall (fun s => kids_of $"History" s = []) new.
Proof. exact edits_kept. Qed.
Print Assumptions c59_edits_keep_snapshots.
Definition some_edits : list edit := [Ed_save; Ed_prop P_password (Some $"new"); Ed_prop P_title None; Ed_save; Ed_custom $"pin" (Some $"1") true; Ed_tags [$"x"]; Ed_time T_mtime (MkDt 2025 1 1 0 0 0 0 (Some 0%Z))].
Example c59_ex : sound edb (el edb 67) /\ Forall edit_ok some_edits /\ map eid (snapshots (el edb 67)) = [97%nat] /\
  (let d' := after lit 67 some_edits edb in exists s2 s3, snapshots (el d' 67) = [el edb 97; s2; s3] /\
     fst (get_prop lit P_password (eid s2) d') = Ok (Some $"pw") /\ fst (get_prop lit P_password (eid s3) d') = Ok (Some $"new") /\ fst (get_prop lit P_title (eid s3) d') = Ok None).
Proof.
  split.
  - split; [exact edb_wf|]. split; [apply hasb_ok; vm_compute; reflexivity|]. split; [apply in_docb_ok; [exact edb_wf|vm_compute; reflexivity]|]. split; [vm_compute; reflexivity|]. split; [apply tidyb_ok; vm_compute; reflexivity|vm_compute; repeat constructor].
  - split; [repeat (constructor; [try exact I; apply plainb_ok; reflexivity|]); constructor|]. split; [vm_compute; reflexivity|]. eexists; eexists. split; [vm_compute; reflexivity|]. repeat split; vm_compute; reflexivity.
Qed.

(** ** C60: delete_history *)
Theorem c60_delete_one : forall d t h s, wf d -> has_elem d t -> in_doc d (eid t) -> find1 $"History" t = Some h -> In s (ekids h) ->
  exists d', delete_history (eid t) (Some (eid s)) d = (Ok tt, d') /\ wf d' /\ dropped d d' (eid h) (fun j => (j =? eid s)%nat) /\ (forall j, in_doc d' j <-> in_doc d j /\ ~ below (look (d_forest d)) (eid s) j).
Proof. exact delete_one_claim. Qed.
Print Assumptions c60_delete_one.
Theorem c60_delete_all : forall d t h, wf d -> has_elem d t -> in_doc d (eid t) -> find1 $"History" t = Some h ->
  exists d', delete_history (eid t) None d = (Ok tt, d') /\ wf d' /\ dropped d d' (eid t) (fun j => (j =? eid h)%nat) /\ (forall j, in_doc d' j <-> in_doc d j /\ ~ below (look (d_forest d)) (eid h) j) /\
    (at_most_one $"History" t -> exists t', has_elem d' t' /\ same_head t t' /\ other_kids $"History" t' = other_kids $"History" t /\ snapshots t' = []).
Proof. exact delete_all_claim. Qed.
Print Assumptions c60_delete_all.
Theorem c60_raise_changes_nothing : forall d t o x d', wf d -> has_elem d t -> delete_history (eid t) o d = (Err x, d') -> d' = d.
Proof. exact delete_history_raises. Qed.
Print Assumptions c60_raise_changes_nothing.
Example c60_ex : find1 $"History" (el edb 67) = Some (el edb 96) /\ In (el edb 97) (ekids (el edb 96)) /\
  fst ((do _ <- save_history 67; do _ <- delete_history 67 (Some 97%nat); do h <- history 67; ret (List.length h)) edb) = Ok 1%nat /\
  fst ((do _ <- save_history 67; do _ <- delete_history 67 None; history 67) edb) = Ok [] /\ fst ((do _ <- delete_history 67 None; get_prop lit P_password 67) edb) = Ok (Some $"pw").
Proof. split; [vm_compute; reflexivity|]. split; [vm_compute; tauto|]. repeat split; vm_compute; reflexivity. Qed.
