(** Calls that ask change nothing: proofs of C110.  Models no code. *)
From Verif Require Import Base PyStr Xml Tree XPath Uuid Time Db FindSpec Api ApiSpec StructSpec CredSpec IntegritySpec Struct_add Integrity_ops Integrity_calls Shown UserXPath ElementPath Lib Kdbx Object ReadSpec.

Section Read.
  Variable R : regex.
  Variable Zl : zlib.
  Variable so : list fref -> list fref.
  Ltac rd := repeat first [progress reads | apply reads_sub | apply reads_string | apply reads_group | apply reads_root | apply reads_keys | apply reads_att | apply reads_binaries
    | match goal with |- reads (match ?x with _ => _ end) => destruct x end].
  Lemma reads_quiet {A} (m : M A) : reads m -> reads (quiet m).
  Proof. intros H. unfold quiet. apply reads_bind; [exact H|intros _; apply reads_ret]. Qed.
  Lemma reads_decode o : reads (decode_t o). Proof. apply reads_lift. Qed.
  Lemma reads_time p i : reads (get_time p i). Proof. unfold get_time. rd; try apply reads_decode. Qed.
  Lemma reads_timeprop p i : reads (get_timeprop p i). Proof. destruct p; apply reads_time. Qed.
  Lemma reads_expires i : reads (get_expires i). Proof. unfold get_expires, expires_elem. rd. Qed.
  Lemma reads_expired C i : reads (expired C i).
  Proof. unfold expired. apply reads_bind; [apply reads_expires|]. intros [[]|]; [|rd|rd]. apply reads_bind; [apply reads_timeprop|]. intros o. rd. Qed.
  Lemma reads_uuid i : reads (get_uuid i). Proof. unfold get_uuid. rd. Qed.
  Lemma reads_prop p e : reads (get_prop R p e). Proof. destruct p; apply reads_string. Qed.
  Lemma reads_entry_path e : reads (entry_path R e).
  Proof. unfold entry_path. apply reads_bind; [apply reads_group|]. intros p. destruct p; [|rd]. rd. apply reads_loop. Qed.
  Lemma reads_index e : reads (index R e).
  Proof. unfold index. apply reads_bind; [apply reads_group|]. intros p. destruct p; [|rd]. unfold first_entry. rd. Qed.
  Lemma reads_customs e : reads (custom_properties R e).
  Proof. unfold custom_properties. apply reads_bind; [apply reads_keys|]. intros ks. generalize (@nil (option str * option str)). induction ks as [|k ks IH]; intros acc; [apply reads_ret|]. apply reads_bind; [apply reads_string|]. intros v. apply IH. Qed.
  Lemma reads_entry_str e : reads (entry_str R e).
  Proof. unfold entry_str. apply reads_bind; [apply reads_entry_path|]. intros [l|]; [|rd]. apply reads_bind; [apply reads_prop|]. intros u. rd. Qed.
  Lemma reads_filename a : reads (att_filename a). Proof. unfold att_filename. rd. Qed.
  Lemma reads_data a : reads (att_binary R Zl a).
  Proof.
    intros d. unfold att_binary. assert (H : reads (do l <- binaries R Zl; do n <- att_id a; of_res (py_index l n))) by rd. specialize (H d).
    destruct ((do l <- binaries R Zl; do n <- att_id a; of_res (py_index l n)) d) as [r d']. cbn [snd] in H. subst d'. destruct r as [b|x]; [reflexivity|]. pose proof (reads_att a d) as H. destruct (att_id a d) as [[n|y] d']; cbn [snd] in H; subst d'; destruct x; reflexivity.
  Qed.
  Lemma reads_wanted c e : reads (wanted_text R c e).
  Proof. unfold wanted_text. destruct (c =? 73); [apply reads_bind; [apply reads_uuid|intros _; rd]|]. apply reads_bind; [apply reads_string|]. intros v. rd. Qed.
  Lemma reads_find_ref f : reads (find_ref R f).
  Proof. unfold find_ref. rd. Qed.
  Lemma reads_replace l : forall v, reads (replace_refs R l v).
  Proof. induction l as [|f l IH]; intros v; cbn [replace_refs]; [rd|]. apply reads_bind; [apply reads_find_ref|]. intros [e|]; [|rd]. apply reads_bind; [apply reads_wanted|]. intros w. apply IH. Qed.
  Lemma reads_deref n : forall v, reads (deref R so n v).
  Proof.
    induction n as [|n IH]; intros v; cbn [deref]; [rd|]. destruct v as [[|c s]|]; try apply reads_ret. destruct (so _) as [|f l]; [rd|]. apply reads_bind; [apply reads_replace|]. intros [w|]; [apply IH|rd].
  Qed.
  Lemma reads_meta tag : reads (get_meta R tag). Proof. unfold get_meta, meta_elem, xfirst. rd. Qed.
  Lemma reads_days tag : reads (credchange_days R tag). Proof. unfold credchange_days, meta_elem, xfirst. rd. Qed.
  Lemma reads_changed : reads (credchange_date R).
  Proof. unfold credchange_date, meta_elem, xfirst. apply reads_bind; [rd|]. intros [e|]; [|rd]. apply reads_bind; [apply reads_decode|]. intros; rd. Qed.
  Lemma reads_due C tag : reads (credchange_due R C tag).
  Proof. unfold credchange_due. apply reads_bind; [apply reads_changed|]. intros [c|]; [|rd]. apply reads_bind; [apply reads_days|]. intros n. rd. Qed.

  Lemma ask_reads C q : reads (ask R Zl so C q).
  Proof.
    destruct q; cbn [ask]; apply reads_quiet.
    - apply reads_uuid.
    - apply reads_sub.
    - apply reads_timeprop.
    - apply reads_expires.
    - apply reads_expired.
    - apply reads_group.
    - apply same_reads.
    - apply reads_lift.
    - apply reads_prop.
    - unfold get_tags. rd.
    - unfold history. rd.
    - unfold get_autotype_enabled. rd.
    - unfold get_autotype_sequence. rd.
    - unfold get_autotype_window. rd.
    - apply reads_lift.
    - apply reads_entry_path.
    - apply reads_index.
    - apply reads_lift.
    - unfold get_custom_property. rd.
    - unfold is_custom_property_protected, xfirst. rd.
    - apply reads_customs.
    - unfold make_ref. rd; apply reads_uuid.
    - apply reads_entry_str.
    - unfold history_entry_str. apply reads_bind; [apply reads_entry_str|intros; rd].
    - apply reads_sub.
    - apply reads_sub.
    - unfold group_entries. rd.
    - unfold group_subgroups. rd.
    - apply reads_root.
    - apply reads_path.
    - unfold group_str. apply reads_bind; [apply reads_path|intros; rd].
    - apply reads_att.
    - apply reads_filename.
    - apply reads_lift.
    - apply reads_data.
    - unfold att_repr. apply reads_bind; [apply reads_filename|]. intros f. rd.
    - apply reads_lift.
    - apply reads_bin.
    - apply reads_lift.
    - apply reads_lift.
    - apply reads_lift.
    - apply reads_binaries.
    - apply reads_meta.
    - destruct w; apply reads_days.
    - apply reads_changed.
    - destruct w; apply reads_due.
    - apply reads_lift.
    - apply reads_lift.
    - apply reads_lift.
    - apply reads_lift.
    - apply reads_deref.
  Qed.
  Lemma session_changes l : forall d, session R Zl so l d = session R Zl so (changes l) d.
  Proof.
    induction l as [|[C [o|q]] l IH]; intros d; cbn [session changes filter snd].
    - reflexivity.
    - destruct (run R Zl C o d) as [r d1]. now rewrite IH.
    - now rewrite (ask_reads C q d), IH.
  Qed.
  Lemma session_two l l' d : changes l = changes l' -> session R Zl so l d = session R Zl so l' d.
  Proof. intros E. now rewrite (session_changes l), (session_changes l'), E. Qed.
  Lemma ask_object C q o : snd (call (ask R Zl so C q) o) = o.
  Proof.
    unfold call. destruct o as [pw kf fn [[k [d|]]|]]; cbn [o_kdbx payload_of o_password o_keyfile o_filename].
    - pose proof (ask_reads C q d) as H. destruct (ask R Zl so C q d) as [r d']. cbn [snd] in *. now subst d'.
    - destruct (k_body k); reflexivity.
    - reflexivity.
  Qed.
End Read.
