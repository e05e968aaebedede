(** Calls on entries, groups and attachments leave the binaries, the version and the place of the document alone. *)
From Verif Require Import Base PyStr Xml Tree XPath Uuid Time Db FindSpec XPath_facts XPath_eval Find_facts Find_path Api ApiSpec StructSpec CredSpec Heap Prim Api_xpath Struct Struct_add Struct_empty Struct_hist Struct_claims Struct_find Bin_xpath IntegritySpec Integrity Integrity_ops Integrity_calls Clean ScratchSpec.

Definition calm {A} (m : M A) : Prop := forall d, d_major (snd (m d)) = d_major d /\ d_minor (snd (m d)) = d_minor d /\ d_bins (snd (m d)) = d_bins d /\ (d_forest d <> [] -> hd_error (rts (snd (m d))) = hd_error (rts d)).
Lemma calm_read {A} (m : M A) : reads m -> calm m.
Proof. intros H d. rewrite H. auto. Qed.
Lemma hd_roots F G : F <> [] -> hd_error (roots G) = hd_error (roots F) -> G <> [].
Proof. destruct F, G; try easy. Qed.
Lemma calm_bind {A B} (m : M A) (k : A -> M B) : calm m -> (forall a, calm (k a)) -> calm (mbind m k).
Proof.
  intros H K d. unfold mbind. specialize (H d). destruct (m d) as [[a|x] d1]; cbn [snd] in *; [|exact H]. destruct H as (H1 & H2 & H3 & H4). destruct (K a d1) as (K1 & K2 & K3 & K4). repeat (split; [congruence|]). intros N. specialize (H4 N). rewrite K4; [exact H4|]. now apply (hd_roots (d_forest d)).
Qed.
Lemma calm_ret {A} (a : A) : calm (ret a). Proof. intros d. cbn. auto. Qed.
Lemma calm_raise {A} x : calm (@raise A x). Proof. intros d. cbn. auto. Qed.
Lemma calm_lift {A} (f : db -> res A) : calm (lift f). Proof. intros d. cbn. auto. Qed.
Lemma calm_of {A} (r : res A) : calm (of_res r). Proof. intros d. cbn. auto. Qed.
Lemma calm_db : calm get_db. Proof. intros d. cbn. auto. Qed.
Lemma calm_xfirst R s q : calm (xfirst R s q). Proof. intros d. cbn. auto. Qed.
Lemma calm_forest {A} (m : M A) : (forall d, exists F, snd (m d) = set_forest d F /\ (d_forest d <> [] -> hd_error (roots F) = hd_error (roots (d_forest d)))) -> calm m.
Proof. intros H d. destruct (H d) as (F & -> & E). cbn. auto. Qed.
Lemma same_forest d : d = set_forest d (d_forest d). Proof. now destruct d. Qed.
Lemma eid_upd i f t : (forall u, eid (f u) = eid u) -> eid (upd i f t) = eid t.
Proof. intros H. destruct t as [j g a x k]. cbn [upd]. destruct (j =? i)%nat; [now rewrite H|reflexivity]. Qed.
Lemma roots_fupd i f F : (forall u, eid (f u) = eid u) -> roots (fupd i f F) = roots F.
Proof. intros H. unfold roots, fupd. rewrite map_map. apply map_ext. intros t. now apply eid_upd. Qed.
Lemma calm_on i f : (forall u, eid (f u) = eid u) -> calm (on i f).
Proof. intros H. apply calm_forest. intros d. eexists. split; [reflexivity|]. intros _. now rewrite roots_fupd. Qed.
Lemma calm_text i v : calm (lx_set_text i v). Proof. unfold lx_set_text. destruct v as [s|]; [destruct (text_ok s); [|apply calm_raise]|]; apply calm_on; now intros [? ? ? ? ?]. Qed.
Lemma calm_attr i k v : calm (lx_set_attr i k v). Proof. unfold lx_set_attr. destruct (text_ok v); [|apply calm_raise]. apply calm_on; now intros [? ? ? ? ?]. Qed.
Lemma detach_hd F c : F <> [] -> hd_error (roots (detach F c)) = hd_error (roots F).
Proof. intros N. unfold detach. destruct (is_root F c); [reflexivity|]. destruct (elem_of F c); [|reflexivity]. destruct F as [|u F]; [congruence|]. cbn. now rewrite prune_eid. Qed.
Lemma relink_hd F p c link : F <> [] -> is_doc F c = false -> (forall u v, eid (link u v) = eid v) -> hd_error (roots (relink F p c link)) = hd_error (roots F).
Proof.
  intros N D Hl. unfold relink, take_root. destruct (List.find _ (detach F c)) as [t|]; [|reflexivity]. destruct (detach_head F c N D) as (u & G & E & Eu). pose proof (detach_hd F c N) as Hd. rewrite roots_fupd by (intros v; apply Hl). rewrite E in *. cbn [filter]. rewrite Eu. cbn [negb]. exact Hd.
Qed.
Lemma calm_remove p c : calm (lx_remove p c).
Proof.
  apply calm_forest. intros d. unfold lx_remove. destruct (parent_of _ _) as [t|]; [destruct (_ =? _)%nat|]; try (exists (d_forest d); split; [apply same_forest|reflexivity]). eexists. split; [reflexivity|]. apply detach_hd.
Qed.
Lemma calm_delete i : calm (delete i). Proof. intros d. unfold delete. destruct (parent_of _ _) as [t|]; [apply calm_remove|cbn; auto]. Qed.
Lemma calm_append p c : calm (lx_append p c).
Proof.
  apply calm_forest. intros d. unfold lx_append. destruct (_ || _) eqn:E; [exists (d_forest d); split; [apply same_forest|reflexivity]|]. apply orb_false_iff in E as [_ E]. eexists. split; [reflexivity|]. intros N. apply relink_hd; [exact N|exact E|]. now intros u [? ? ? ? ?].
Qed.
Lemma calm_insert p z c : calm (lx_insert p z c).
Proof.
  apply calm_forest. intros d. unfold lx_insert. destruct (_ || _) eqn:E; [exists (d_forest d); split; [apply same_forest|reflexivity]|]. apply orb_false_iff in E as [_ E]. destruct (elem_of _ _); [|exists (d_forest d); split; [apply same_forest|reflexivity]]. eexists. split; [reflexivity|]. intros N. apply relink_hd; [exact N|exact E|]. now intros u [? ? ? ? ?].
Qed.
Lemma calm_new x : calm (lx_new x).
Proof. intros d. unfold lx_new. destruct (label _ _) as [t n]. cbn. repeat (split; [reflexivity|]). intros N. destruct (d_forest d); [congruence|reflexivity]. Qed.
Lemma calm_move i g : calm (move i g). Proof. apply calm_append. Qed.
Lemma calm_base C a b c : calm (base_kids C a b c). Proof. apply calm_read, reads_base. Qed.
Ltac lv := repeat first [apply calm_bind; [|intros ?] | apply calm_ret | apply calm_raise | apply calm_lift | apply calm_of | apply calm_db | apply calm_xfirst | apply calm_text | apply calm_attr | apply calm_remove | apply calm_delete | apply calm_append | apply calm_insert | apply calm_new | apply calm_move
  | apply calm_base | apply calm_read; first [apply reads_the | apply reads_string | apply reads_keys | apply reads_encode | apply reads_bin | apply reads_sub | apply reads_group | apply reads_path | apply reads_can | apply reads_binaries | apply reads_db | apply reads_att]
  | match goal with |- calm (match ?x with _ => _ end) => destruct x end].
Lemma calm_sub T i v : calm (set_sub T i v). Proof. unfold set_sub, lx_append_new. lv. Qed.
Lemma calm_set_string R k i v p : calm (set_string R k i v p). Proof. unfold set_string, lx_append_new. lv. Qed.
Lemma calm_time T i v : calm (set_time T i v). Proof. unfold set_time. lv. Qed.
Lemma calm_timeprop p i v : calm (set_timeprop p i v). Proof. destruct p; apply calm_time. Qed.
Lemma calm_att_id a n : calm (set_att_id a n). Proof. unfold set_att_id. lv. Qed.
Lemma calm_new_group C n icon notes : calm (new_group C n icon notes None None). Proof. unfold new_group. lv. Qed.
Lemma calm_add_group C o n icon notes : calm (add_group C o n icon notes). Proof. unfold add_group. apply calm_bind; [apply calm_new_group|]. intros c. lv. Qed.
Lemma calm_loop T g n : calm (empty_loop n T g). Proof. induction n as [|n IH]; cbn [empty_loop]; [apply calm_raise|]. lv. exact IH. Qed.
Lemma calm_group_append g l : calm (group_append g l). Proof. induction l as [|e l IH]; cbn [group_append]; lv. exact IH. Qed.
Lemma calm_run R Zl C o : on_items o -> calm (run R Zl C o).
Proof.
  intros I. destruct o; cbn [run on_items] in *; try contradiction.
  - destruct p; cbn [set_prop]; try apply calm_set_string; unfold set_password, set_otp; (apply calm_bind; [apply calm_read, reads_string|intros ?; apply calm_set_string]).
  - unfold set_custom_property. destruct (reserved _); [apply calm_raise|apply calm_set_string].
  - unfold delete_custom_property. lv.
  - apply calm_sub.
  - apply calm_sub.
  - apply calm_sub.
  - apply calm_sub.
  - apply calm_sub.
  - apply calm_timeprop.
  - unfold set_expires, expires_elem. lv.
  - unfold touch. apply calm_bind; [apply calm_timeprop|intros _]. destruct modify; [apply calm_timeprop|apply calm_ret].
  - unfold set_autotype_enabled. lv.
  - unfold set_autotype_sequence. lv.
  - unfold set_autotype_window. lv.
  - unfold save_history. lv.
  - unfold delete_history. lv.
  - unfold quiet, add_attachment, lx_append_new. lv.
  - apply calm_att_id.
  - unfold set_att_filename. lv.
  - unfold quiet, add_entry, new_entry. lv. apply calm_read, reads_loop.
  - unfold quiet. apply calm_bind; [apply calm_add_group|intros ?; apply calm_ret].
  - apply calm_move.
  - apply calm_group_append.
  - apply calm_delete.
  - unfold empty_group. apply calm_bind; [apply calm_read, reads_the|intros t]. cbv zeta. apply calm_bind; [apply calm_loop|intros _; apply calm_loop].
  - unfold reindex, first_entry. lv.
Qed.
