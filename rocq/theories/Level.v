(** No call changes the version of the format. *)
From Verif Require Import Base PyStr Xml Tree XPath Uuid Time Db FindSpec XPath_facts XPath_eval Find_facts Find_path Api ApiSpec StructSpec CredSpec Heap Prim Api_xpath Struct Struct_add Struct_empty Struct_hist Struct_claims Struct_find Bin_xpath IntegritySpec Integrity Integrity_ops Integrity_calls.

Definition lev {A} (m : M A) : Prop := forall d, d_major (snd (m d)) = d_major d.
Lemma lev_read {A} (m : M A) : reads m -> lev m.
Proof. intros H d. now rewrite H. Qed.
Lemma lev_bind {A B} (m : M A) (k : A -> M B) : lev m -> (forall a, lev (k a)) -> lev (mbind m k).
Proof. intros H K d. unfold mbind. specialize (H d). destruct (m d) as [[a|x] d1]; cbn in *; [rewrite K|]; exact H. Qed.
Lemma lev_ret {A} (a : A) : lev (ret a). Proof. now intros d. Qed.
Lemma lev_raise {A} x : lev (@raise A x). Proof. now intros d. Qed.
Lemma lev_lift {A} (f : db -> res A) : lev (lift f). Proof. now intros d. Qed.
Lemma lev_of {A} (r : res A) : lev (of_res r). Proof. now intros d. Qed.
Lemma lev_db : lev get_db. Proof. now intros d. Qed.
Lemma lev_xfirst R s q : lev (xfirst R s q). Proof. now intros d. Qed.
Lemma lev_text i v : lev (lx_set_text i v). Proof. unfold lx_set_text. destruct v as [s|]; [destruct (text_ok s)|]; now intros d. Qed.
Lemma lev_attr i k v : lev (lx_set_attr i k v). Proof. unfold lx_set_attr. destruct (text_ok v); now intros d. Qed.
Lemma lev_remove p c : lev (lx_remove p c). Proof. intros d. unfold lx_remove. destruct (parent_of _ _) as [t|]; [destruct (_ =? _)%nat|]; reflexivity. Qed.
Lemma lev_delete i : lev (delete i). Proof. intros d. unfold delete. destruct (parent_of _ _) as [t|]; [apply lev_remove|reflexivity]. Qed.
Lemma lev_append p c : lev (lx_append p c). Proof. intros d. unfold lx_append. destruct (_ || _); reflexivity. Qed.
Lemma lev_insert p z c : lev (lx_insert p z c). Proof. intros d. unfold lx_insert. destruct (_ || _); [reflexivity|]. destruct (elem_of _ _); reflexivity. Qed.
Lemma lev_new x : lev (lx_new x). Proof. intros d. unfold lx_new. destruct (label _ _). reflexivity. Qed.
Lemma lev_bins l : lev (set_bins l). Proof. now intros d. Qed.
Lemma lev_move i g : lev (move i g). Proof. apply lev_append. Qed.
Lemma lev_base C a b c : lev (base_kids C a b c). Proof. apply lev_read, reads_base. Qed.
Ltac lv := repeat first [apply lev_bind; [|intros ?] | apply lev_ret | apply lev_raise | apply lev_lift | apply lev_of | apply lev_db | apply lev_xfirst | apply lev_text | apply lev_attr | apply lev_remove | apply lev_delete | apply lev_append | apply lev_insert | apply lev_new | apply lev_bins | apply lev_move
  | apply lev_base | apply lev_read; first [apply reads_the | apply reads_string | apply reads_keys | apply reads_encode | apply reads_bin | apply reads_sub | apply reads_group | apply reads_path | apply reads_can | apply reads_binaries | apply reads_db | apply reads_att]
  | match goal with |- lev (match ?x with _ => _ end) => destruct x end].
Lemma lev_each {A} (f : A -> M unit) l : (forall a, lev (f a)) -> lev (each f l).
Proof. intros H. induction l as [|a l IH]; cbn [each]; [apply lev_ret|]. apply lev_bind; [apply H|intros _; exact IH]. Qed.
Lemma lev_sub T i v : lev (set_sub T i v). Proof. unfold set_sub, lx_append_new. lv. Qed.
Lemma lev_set_string R k i v p : lev (set_string R k i v p). Proof. unfold set_string, lx_append_new. lv. Qed.
Lemma lev_time T i v : lev (set_time T i v). Proof. unfold set_time. lv. Qed.
Lemma lev_timeprop p i v : lev (set_timeprop p i v). Proof. destruct p; apply lev_time. Qed.
Lemma lev_att_id a n : lev (set_att_id a n). Proof. unfold set_att_id. lv. Qed.
Lemma lev_new_group C n icon notes : lev (new_group C n icon notes None None). Proof. unfold new_group. lv. Qed.
Lemma lev_add_group C o n icon notes : lev (add_group C o n icon notes). Proof. unfold add_group. apply lev_bind; [apply lev_new_group|]. intros c. lv. Qed.
Lemma lev_create R C : lev (create_or_get_recyclebin_group R C).
Proof. unfold create_or_get_recyclebin_group. lv. all: try (apply lev_add_group). all: unfold get_uuid; lv. Qed.
Lemma lev_loop T g n : lev (empty_loop n T g). Proof. induction n as [|n IH]; cbn [empty_loop]; [apply lev_raise|]. lv. exact IH. Qed.
Lemma lev_group_append g l : lev (group_append g l). Proof. induction l as [|e l IH]; cbn [group_append]; lv. exact IH. Qed.
Lemma lev_run R Zl C o : lev (run R Zl C o).
Proof.
  destruct o; cbn [run].
  - destruct p; cbn [set_prop]; try apply lev_set_string; unfold set_password, set_otp; (apply lev_bind; [apply lev_read, reads_string|intros ?; apply lev_set_string]).
  - unfold set_custom_property. destruct (reserved _); [apply lev_raise|apply lev_set_string].
  - unfold delete_custom_property. lv.
  - apply lev_sub.
  - apply lev_sub.
  - apply lev_sub.
  - apply lev_sub.
  - apply lev_sub.
  - apply lev_timeprop.
  - unfold set_expires, expires_elem. lv.
  - unfold touch. apply lev_bind; [apply lev_timeprop|intros _]. destruct modify; [apply lev_timeprop|apply lev_ret].
  - unfold set_autotype_enabled. lv.
  - unfold set_autotype_sequence. lv.
  - unfold set_autotype_window. lv.
  - unfold save_history. lv.
  - unfold delete_history. lv.
  - unfold quiet, add_attachment, lx_append_new. lv.
  - apply lev_att_id.
  - unfold set_att_filename. lv.
  - unfold quiet, add_binary, lx_append_new. lv.
  - unfold delete_binary. lv; apply lev_each; intros r; lv; apply lev_att_id.
  - unfold set_meta, meta_elem. lv.
  - destruct w; cbn [set_due_days]; unfold set_credchange_days, meta_elem; lv.
  - unfold set_credchange_date, meta_elem. lv.
  - unfold quiet, add_entry, new_entry. lv. apply lev_read, reads_loop.
  - unfold quiet. apply lev_bind; [apply lev_add_group|intros ?; apply lev_ret].
  - apply lev_move.
  - apply lev_group_append.
  - apply lev_delete.
  - unfold trash. lv; apply lev_create.
  - unfold empty_group. apply lev_bind; [apply lev_read, reads_the|intros t]. cbv zeta. apply lev_bind; [apply lev_loop|intros _; apply lev_loop].
  - unfold reindex, first_entry. lv.
Qed.
Theorem level R Zl c d : d_major (next R Zl c d) = d_major d. Proof. apply lev_run. Qed.
