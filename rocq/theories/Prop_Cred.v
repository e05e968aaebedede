(** Database settings (C70, C77). *)
From Verif Require Import Base Base64 PyStr Xml Tree XPath Time Codec_facts Uuid Db FindSpec ApiSpec FindEx Api ApiEx StructSpec StructEx CredSpec Cred.

(** ** C70: a change of credentials is due exactly if a date of change is recorded, the configured number of days is not -1, and more than that many whole days have passed. *)
Theorem c70_due : forall R C d w i s x j t n a b, wf d -> setting d $"MasterKeyChanged" [i] -> text_at d i (Some s) -> decode_time (v4 d) s = Ok x -> instant x = Some b ->
  setting d (due_tag w) [j] -> text_at d j (Some t) -> int_of_str t = Ok n -> instant (now C) = Some a ->
  exists r, due_now R C w d = (Ok r, d) /\ (r = true <-> n <> (-1)%Z /\ overdue a b n).
Proof. exact due_run. Qed.
Print Assumptions c70_due.
Theorem c70_no_date : forall R C d w, wf d -> setting d $"MasterKeyChanged" [] -> due_now R C w d = (Ok false, d).
Proof. exact due_no_date. Qed.
Print Assumptions c70_no_date.
(** The same through the API: any date and number of days assigned before. *)
Theorem c70_assigned : forall R C d w i j v b n a, wf d -> setting d $"MasterKeyChanged" [i] -> setting d (due_tag w) [j] -> 4 <= d_major d ->
  dt_valid v -> instant v = Some b -> (0 <= b < MAXSEC * 1000000)%Z -> (b mod 1000000 = 0)%Z -> instant (now C) = Some a ->
  exists d' r, (do _ <- set_credchange_date R v; set_due_days R w n) d = (Ok tt, d') /\ due_now R C w d' = (Ok r, d') /\ (r = true <-> n <> (-1)%Z /\ overdue a b n).
Proof. exact due_set. Qed.
Print Assumptions c70_assigned.
(** If no number of days is stored at all, asking raises TypeError instead of answering. *)
Theorem c70_no_days : forall R C d w i s x, wf d -> setting d $"MasterKeyChanged" [i] -> text_at d i (Some s) -> decode_time (v4 d) s = Ok x -> setting d (due_tag w) [] -> due_now R C w d = (Err Ex_Type, d).
Proof. exact due_no_days. Qed.
Print Assumptions c70_no_days.
(** [edb] has exactly one element for each of the settings. *)
Definition one_setting (d : db) (T : str) : list nat :=
  match roots (d_forest d) with r :: _ => flat_map (kids_tagged (look (d_forest d)) T) (kids_tagged (look (d_forest d)) $"Meta" r) | [] => [] end.
Lemma edb_setting T l : one_setting edb T = l -> setting edb T l.
Proof.
  intros <-. assert (E : exists r m, roots (d_forest edb) = [r] /\ is_tag (look (d_forest edb)) $"KeePassFile" r /\ kids_tagged (look (d_forest edb)) $"Meta" r = [m]) by (eexists _, _; split; [vm_compute; reflexivity|]; split; [eexists; split; vm_compute; reflexivity|]; vm_compute; reflexivity).
  destruct E as (r & m & E1 & E2 & E3). exists r, m. unfold one_setting. rewrite E1, E3. cbn [hd_error flat_map]. rewrite app_nil_r. repeat split; assumption.
Qed.
(** Now is 2024-06-01 12:00:00. *)
Definition day (n : Z) : clock := MkClock (MkDt 2024 6 n 12 0 0 0 (Some 0%Z)) (repeat 7 16) (fun _ => 0%Z).
Definition changed : dt := MkDt 2024 6 1 12 0 0 0 (Some 0%Z).
Definition set_both (w : due) (n : Z) : M unit := do _ <- set_credchange_date lit changed; set_due_days lit w n.
Definition asked (w : due) (n k : Z) : res bool := fst ((do _ <- set_both w n; due_now lit (day k) w) edb).
Example c70_ex : wf edb /\ setting edb $"MasterKeyChanged" (one_setting edb $"MasterKeyChanged") /\ List.length (one_setting edb $"MasterKeyChanged") = 1%nat /\
  setting edb $"MasterKeyChangeForce" (one_setting edb $"MasterKeyChangeForce") /\ List.length (one_setting edb $"MasterKeyChangeForce") = 1%nat /\
  setting edb $"MasterKeyChangeRec" (one_setting edb $"MasterKeyChangeRec") /\ List.length (one_setting edb $"MasterKeyChangeRec") = 1%nat /\ 4 <= d_major edb /\
  (exists b, instant changed = Some b /\ (0 <= b < MAXSEC * 1000000)%Z /\ (b mod 1000000 = 0)%Z) /\
  asked Required 4 5 = Ok false /\ asked Required 4 6 = Ok true /\ asked Recommended 4 5 = Ok false /\ asked Recommended 4 6 = Ok true /\ asked Required (-1) 6 = Ok false /\ asked Required 0 1 = Ok false /\
  fst (due_now lit clk Required edb) = Ok true /\ fst (due_now lit clk Recommended edb) = Ok false.
Proof.
  split; [exact edb_wf|]. split; [now apply edb_setting|]. split; [vm_compute; reflexivity|]. split; [now apply edb_setting|]. split; [vm_compute; reflexivity|]. split; [now apply edb_setting|]. split; [vm_compute; reflexivity|]. split; [vm_compute; discriminate|].
  split; [eexists; split; [vm_compute; reflexivity|]; vm_compute; repeat split; discriminate|]. vm_compute. repeat split.
Qed.

(** ** C77: settings of the database read back as assigned, and nothing else changes. *)
Theorem c77_days : forall R d w i n, wf d -> setting d (due_tag w) [i] -> exists d', set_due_days R w n d = (Ok tt, d') /\ wf d' /\ only [i] d d' /\ due_days R w d' = (Ok (Some n), d').
Proof. exact set_days_back. Qed.
Print Assumptions c77_days.
Theorem c77_date : forall R d i v b, wf d -> setting d $"MasterKeyChanged" [i] -> 4 <= d_major d -> dt_valid v -> instant v = Some b -> (0 <= b < MAXSEC * 1000000)%Z -> (b mod 1000000 = 0)%Z ->
  exists d' x, set_credchange_date R v d = (Ok tt, d') /\ wf d' /\ only [i] d d' /\ credchange_date R d' = (Ok (Some x), d') /\ instant x = Some b.
Proof. exact set_date_back. Qed.
Print Assumptions c77_date.
Theorem c77_date_kdbx3 : forall R d i v, wf d -> setting d $"MasterKeyChanged" [i] -> d_major d < 4 -> dt_valid v -> doff v = Some 0%Z ->
  exists d', set_credchange_date R v d = (Ok tt, d') /\ wf d' /\ only [i] d d' /\ credchange_date R d' = (Ok (Some v), d').
Proof. exact set_date_back3. Qed.
Print Assumptions c77_date_kdbx3.
Theorem c77_text : forall R d p i v, wf d -> setting d (text_tag p) [i] -> text_ok v = true ->
  exists d', set_meta R (text_tag p) (Some v) d = (Ok tt, d') /\ wf d' /\ only [i] d d' /\ get_meta R (text_tag p) d' = (Ok (Some v), d').
Proof. exact set_meta_back. Qed.
Print Assumptions c77_text.
(** Not for None: it is read back as the text "None". *)
Theorem c77_none_refuted : forall R d p i, wf d -> setting d (text_tag p) [i] ->
  exists d', set_meta R (text_tag p) None d = (Ok tt, d') /\ wf d' /\ only [i] d d' /\ get_meta R (text_tag p) d' = (Ok (Some $"None"), d').
Proof. exact set_meta_none. Qed.
Print Assumptions c77_none_refuted.
Example c77_ex : setting edb (text_tag M_name) (one_setting edb (text_tag M_name)) /\ List.length (one_setting edb (text_tag M_name)) = 1%nat /\ text_ok $"my data" = true /\
  fst ((do _ <- set_meta lit (text_tag M_name) (Some $"my data"); get_meta lit (text_tag M_name)) edb) = Ok (Some $"my data") /\ dt_valid changed /\ doff changed = Some 0%Z.
Proof. split; [now apply edb_setting|]. split; [vm_compute; reflexivity|]. split; [reflexivity|]. split; [vm_compute; reflexivity|]. split; [apply dt_validb_ok; reflexivity|reflexivity]. Qed.
