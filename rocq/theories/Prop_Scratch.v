(** C112: what is put into a database and deleted again leaves nothing behind. *)
From Verif Require Import Base Base64 PyStr Xml Tree XPath Time Uuid Db Save FindSpec ApiSpec FindEx Api ApiEx StructSpec StructEx CredSpec IntegritySpec IntegrityEx LocalSpec Lib Kdbx Object ObjectSpec FailSpec ScratchSpec Scratch.

(** A new entry or group [e] in a group of the document; then any calls on entries, groups and attachments, none of them
    touching anything that was in the document before (so: on [e], on what is put into it, on what is made meanwhile), some of
    them raising or not; then [e] is deleted, wherever the calls left things below it.  The document, the binaries and the version
    are exactly as before, and the elements in the document are the very same. *)
Theorem c112_nothing_left : forall R Zl C g m e d d1 l, keepass d -> a_group d g -> in_doc d g -> puts R C g m -> m d = (Ok e, d1) ->
  (forall c, In c l -> on_items (snd c)) -> all_kinds R Zl l d1 -> ~ ever R Zl (meddled R (in_doc d)) l d1 ->
  exists d2, scratch R Zl m l d = (Ok tt, d2) /\ wf d2 /\ untouched d d2 /\ forall x, in_doc d2 x <-> in_doc d x.
Proof. exact scratch_gone. Qed.
Print Assumptions c112_nothing_left.
(** So that any save afterwards has the outcome, and leaves the files and streams, it would have had without all this. *)
Theorem c112_saved : forall L R Zl C g m e d d1 l o o' k, o_kdbx o = Some (k, Some d) -> keepass d -> a_group d g -> in_doc d g -> puts R C g m -> m d = (Ok e, d1) ->
  (forall c, In c l -> on_items (snd c)) -> all_kinds R Zl l d1 -> ~ ever R Zl (meddled R (in_doc d)) l d1 -> call (scratch R Zl m l) o = (Ok tt, o') ->
  forall en w fn tk, fst (fst (save L en w o' fn tk)) = fst (fst (save L en w o fn tk)) /\ snd (save L en w o' fn tk) = snd (save L en w o fn tk).
Proof. exact scratch_saved. Qed.
Print Assumptions c112_saved.
(** The restriction to calls on items is needed: a binary stored for the new entry stays when the entry is deleted. *)
Theorem c112_binary_stays : exists g m l d d2, keepass d /\ puts lit clk g m /\ scratch lit no_z m l d = (Ok tt, d2) /\ document d2 = document d /\ d_bins d2 <> d_bins d.
Proof.
  exists 56%nat, (add_entry lit clk 56 (Some $"x") (Some $"u") (Some $"p") None None None T_none None None false), [(clk, Op_add_binary [1] true true); (clk, Op_attach 152 0%Z (Some $"f"))], edb.
  eexists. split; [split; [exact edb_wf|split; [apply laidb_ok; [exact edb_wf|vm_compute; reflexivity]|]]; exists 0%nat; split; [vm_compute; reflexivity|]; eexists; split; vm_compute; reflexivity|]. split; [left; repeat eexists|].
  split; [vm_compute; reflexivity|]. split; vm_compute; [reflexivity|discriminate].
Qed.
Print Assumptions c112_binary_stays.

(** A temporary group: an entry is put into it, renamed, a snapshot taken and dropped, a file attached; an illegal name for the group raises. *)
Definition temp : list (clock * op) :=
  [(clk, Op_add_entry 152 (Some $"x") (Some $"u") (Some $"p") None None None T_none None None false); (clk, Op_prop 163 P_title (Some $"y")); (clk, Op_save_history 163); (clk, Op_tags 163 [$"a"]); (clk, Op_delete_history 163 None);
   (clk, Op_attach 163 0%Z (Some $"f")); (clk, Op_name 152 (Some [1]))].
Lemma old_small x : in_doc edb x -> (x < d_next edb)%nat.
Proof. intros (r & _ & [q E|j k q B E Hk]); [exact (Prim.wf_look edb _ _ edb_wf E)|]. destruct (Struct.kid_look edb j k edb_wf) as (q' & E'); [now exists q|]. exact (Prim.wf_look edb _ _ edb_wf E'). Qed.
Example c112_ex : let m := add_group clk (Some 56%nat) (Some $"tmp") None None in let d1 := snd (m edb) in
  keepass edb /\ a_group edb 56 /\ in_doc edb 56 /\ puts lit clk 56 m /\ m edb = (Ok 152%nat, d1) /\ (forall c, In c temp -> on_items (snd c)) /\ all_kinds lit no_z temp d1 /\ ~ ever lit no_z (meddled lit (in_doc edb)) temp d1 /\
  fst (get_string lit $"Title" 163 (later lit no_z temp d1)) = Ok (Some $"y") /\ fst (run lit no_z clk (Op_name 152 (Some [1])) d1) = Err Ex_Value.
Proof.
  cbv zeta. split; [split; [exact edb_wf|split; [apply laidb_ok; [exact edb_wf|vm_compute; reflexivity]|]]; exists 0%nat; split; [vm_compute; reflexivity|]; eexists; split; vm_compute; reflexivity|].
  split; [eexists; split; vm_compute; reflexivity|]. split; [apply in_docb_ok; [exact edb_wf|vm_compute; reflexivity]|]. split; [right; repeat eexists|]. split; [vm_compute; reflexivity|].
  split; [intros c Hc; repeat (destruct Hc as [<-|Hc]; [exact I|]); destruct Hc|]. split.
  { unfold temp. cbn [all_kinds snd]. repeat (split; [eexists; split; vm_compute; reflexivity|]). exact I. }
  split; [|split; vm_compute; reflexivity].
  assert (N : forall x, (d_next edb <= x)%nat -> ~ in_doc edb x) by (intros x Hx Hd; apply old_small in Hd; exact (Nat.lt_irrefl _ (Nat.lt_le_trans _ _ _ Hd Hx))).
  unfold temp. cbn [ever snd]. unfold meddled. cbn [touches].
  intros H. repeat match type of H with _ \/ _ => destruct H as [(x & Hx & ->)|H]; [apply N in Hx; [exact Hx|apply Nat.leb_le; vm_compute; reflexivity]|] end. exact H.
Qed.
