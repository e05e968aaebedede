(** C94: calls change nothing in the parts of a database they are not about. *)
From Verif Require Import Base Base64 PyStr Xml Tree XPath Time Uuid Db FindSpec ApiSpec FindEx Api ApiEx StructSpec StructEx CredSpec Heap Prim Struct Struct_hist IntegritySpec IntegrityEx Integrity LocalSpec Local_step LocalEx.

(** A part of the document made of entries, groups and things taken with them keeps every row -- tags, texts, attributes, children in their order -- through every history of calls none of which is about a member of it. *)
Theorem c94_locality : forall R Zl X l d, wf d -> laid d -> part d X -> all_kinds R Zl l d -> ~ ever R Zl (meddled R X) l d -> forall x, X x -> look (d_forest (later R Zl l d)) x = look (d_forest d) x.
Proof. exact locality. Qed.
Print Assumptions c94_locality.
(** An entry or group that no call is about, nor about anything in it, is the same tree afterwards. *)
Theorem c94_untouched : forall R Zl l d t, wf d -> laid d -> all_kinds R Zl l d -> In t (elements (d_forest d)) -> an_item d (eid t) -> ~ ever R Zl (meddled R (within d (eid t))) l d ->
  In t (elements (d_forest (later R Zl l d))).
Proof. exact whole. Qed.
Print Assumptions c94_untouched.
(** What is read from it is the same. *)
Theorem c94_readings : forall R Zl l d t, wf d -> laid d -> all_kinds R Zl l d -> In t (elements (d_forest d)) -> an_item d (eid t) -> ~ ever R Zl (meddled R (within d (eid t))) l d ->
  let d' := later R Zl l d in let i := eid t in
  (forall p, fst (get_prop R p i d') = fst (get_prop R p i d)) /\ (forall k, plain k -> fst (get_custom_property R i k d') = fst (get_custom_property R i k d)) /\
  fst (get_tags i d') = fst (get_tags i d) /\ fst (get_uuid i d') = fst (get_uuid i d) /\ fst (get_icon i d') = fst (get_icon i d) /\ fst (get_name i d') = fst (get_name i d) /\ fst (get_group_notes i d') = fst (get_group_notes i d) /\ fst (history i d') = fst (history i d).
Proof. exact readings. Qed.
Print Assumptions c94_readings.
(** Nothing done to an entry changes its snapshots. *)
Theorem c94_snapshots : forall R Zl l d e h t, wf d -> laid d -> all_kinds R Zl l d -> (forall c, In c l -> about e (snd c)) -> snapshot d e h -> In t (elements (d_forest d)) -> eid t = h -> In t (elements (d_forest (later R Zl l d))).
Proof. exact snapshots. Qed.
Print Assumptions c94_snapshots.
Example c94_ex : wf edb /\ laid edb /\ all_kinds lit no_z calls2 edb /\ an_item edb 97 /\ In (el edb 97) (elements (d_forest edb)) /\ ~ ever lit no_z (meddled lit (within edb 97)) calls2 edb /\ part edb (within edb 97) /\
  all_kinds lit no_z edits edb /\ (forall c, In c edits -> about 67 (snd c)) /\ snapshot edb 67 97 /\ fst (history 67 (later lit no_z edits edb)) <> fst (history 67 edb).
Proof.
  split; [exact edb_wf|]. split; [apply laidb_ok; [exact edb_wf|vm_compute; reflexivity]|]. split; [apply all_typed_kinds, all_typedb_ok; vm_compute; reflexivity|]. assert (I : an_item edb 97) by (left; apply tagb_is; vm_compute; reflexivity). split; [exact I|].
  assert (Hb : hasb edb 97 = true) by (vm_compute; reflexivity). split; [now apply hasb_ok in Hb as [Ht _]|].
  split. { apply (apartb_ok lit no_z _ (ids (el edb 97))); [intros x; apply within_ids; [exact edb_wf|exact Hb]|vm_compute; reflexivity]. }
  split; [now apply within_part|]. split; [apply all_kindsb_ok; vm_compute; reflexivity|].
  split. { intros c Hc. unfold edits in Hc. apply in_map_iff in Hc as (o & <- & Ho). cbn [snd]. cbn [In] in Ho. repeat (destruct Ho as [<-|Ho]; [reflexivity|]). destruct Ho. }
  split; [|vm_compute; discriminate]. split; [apply tagb_is; vm_compute; reflexivity|].
  assert (E : existsb (fun y => tagb (look (d_forest edb)) $"History" y && childb edb y 97 && childb edb 67 y) (map eid (elements (d_forest edb))) = true) by (vm_compute; reflexivity).
  apply existsb_exists in E as (y & _ & E). rewrite !andb_true_iff in E. destruct E as [[E1 E2] E3]. exists y. split; [now apply childb_ok|]. split; [now apply childb_ok|now apply tagb_is].
Qed.
