(** Property theorems C31-C33 (statements; proofs in Save_facts.v).  A crash is any prefix of the effects of the call. *)
From Verif Require Import Base Save Save_facts Lib Keyfile Construct Kdbx Kdbx_claims Toy Toy_facts.

(** The saving of database [k] with credentials [cr] to [target], on file system [s], in environment [e]. *)
Definition saving (e : env) (s : fs) (target : path) (L : lib) (cr : creds) (k : kdbx) : list fsop * res unit :=
  save_ops e s target (fst (fst (build_kdbx L cr k))) (snd (fst (build_kdbx L cr k))).
(** Names that [with_suffix('.tmp')] maps to themselves. *)
Definition dot_tmp (p : path) : Prop := exists x, x <> [] /\ p_name p = x ++ $".tmp".

(** C31: false for targets named x.tmp, and where a rename is not possible. *)
Definition plain_env : env := MkEnv true None (fun b => [b]) true.
Definition norename_env : env := MkEnv true None (fun b => [b]) false.
Definition one_file (p : path) (b : bytes) : fs := fs_set (fun _ => None) p (Some b).
Theorem c31_crash_keeps_database_refuted :
  (exists e s target old n, env_ok e /\ e_rename e = true /\ s target = Some old /\ old <> [] /\ run s (firstn n (fst (saving e s target toy sample_cr k4))) target = Some []) /\
  (exists e s target old n, env_ok e /\ ~ dot_tmp target /\ s target = Some old /\ old <> [] /\ run s (firstn n (fst (saving e s target toy sample_cr k4))) target = Some []).
Proof.
  split.
  - exists plain_env, (one_file (MkPath ($"/d") ($"db.tmp")) file4), (MkPath ($"/d") ($"db.tmp")), file4, 1%nat.
    split; [intros b; apply app_nil_r|]. split; [reflexivity|]. split; [reflexivity|]. split; [vm_compute; discriminate|vm_compute; reflexivity].
  - exists norename_env, (one_file (MkPath ($"/d") ($"db.kdbx")) file4), (MkPath ($"/d") ($"db.kdbx")), file4, 3%nat.
    split; [intros b; apply app_nil_r|]. split; [|split; [reflexivity|]; split; [vm_compute; discriminate|vm_compute; reflexivity]].
    intros H. apply tmp_of_self in H. vm_compute in H. discriminate.
Qed.
Print Assumptions c31_crash_keeps_database_refuted.
(** At every point of the call the target holds the old contents or the complete new ones; and the new ones once it returns.
    Missing against C31: targets named x.tmp and moves that are not renames. *)
Theorem c31_crash_keeps_database_partial : forall e s target L cr k n, env_ok e -> p_name target <> [] -> ~ dot_tmp target -> e_rename e = true ->
  let s' := run s (firstn n (fst (saving e s target L cr k))) in
  s' target = s target \/ exists out k', build_kdbx L cr k = (out, Ok tt, k') /\ s' target = Some out.
Proof.
  intros e s target L cr k n He Hn Ht Hr. destruct (tmp_of_total target Hn) as [tmp Htmp]. unfold saving. destruct (build_kdbx L cr k) as [[out r] k'] eqn:E. cbn [fst snd].
  destruct (save_crash e s target tmp out r n He Htmp) as [H|[-> H]]; eauto. apply (tmp_of_other target tmp Htmp). intros x Hx Hx'. apply Ht. exists x. auto.
Qed.
Print Assumptions c31_crash_keeps_database_partial.
Theorem c31_save_completes : forall e s target L cr k, env_ok e -> ~ dot_tmp target -> snd (saving e s target L cr k) = Ok tt ->
  exists out k', build_kdbx L cr k = (out, Ok tt, k') /\ run s (fst (saving e s target L cr k)) target = Some out.
Proof.
  intros e s target L cr k He Ht. unfold saving. destruct (build_kdbx L cr k) as [[out r] k'] eqn:E. cbn [fst snd]. intros H.
  destruct (tmp_of target) as [tmp|x] eqn:Htmp; [|unfold save_ops in H; rewrite Htmp in H; discriminate].
  destruct (save_success e s target tmp out He Htmp) with (r := r) as (-> & H1 & _); eauto. apply (tmp_of_other target tmp Htmp). intros x Hx Hx'. apply Ht. exists x. auto.
Qed.
Print Assumptions c31_save_completes.
Example c31_ex : let target := MkPath ($"/d") ($"db.kdbx") in env_ok plain_env /\ ~ dot_tmp target /\ snd (saving plain_env (one_file target [1]) target toy sample_cr k4) = Ok tt /\
  run (one_file target [1]) (firstn 2 (fst (saving plain_env (one_file target [1]) target toy sample_cr k4))) target = Some [1].
Proof.
  cbv zeta. split; [intros b; apply app_nil_r|]. split; [|split; vm_compute; reflexivity]. intros H. apply tmp_of_self in H. vm_compute in H. discriminate.
Qed.

(** C32 *)
Theorem c32_failing_save_refuted : exists e s target old k x, env_ok e /\ e_rename e = true /\ s target = Some old /\
  snd (fst (build_kdbx toy sample_cr k)) = Err x /\ run s (fst (saving e s target toy sample_cr k)) target = None.
Proof.
  exists plain_env, (one_file (MkPath ($"/d") ($"db.tmp")) file4), (MkPath ($"/d") ($"db.tmp")), file4, (MkKdbx (k_hdr k4) (Some (MkBody [] [] None))).
  eexists. split; [intros b; apply app_nil_r|]. split; [reflexivity|]. split; [reflexivity|]. split; vm_compute; reflexivity.
Qed.
Print Assumptions c32_failing_save_refuted.
(** Missing against C32: targets named x.tmp.  Failures of any kind: of building, of opening the temporary file, of the disk. *)
Theorem c32_failing_save_partial : forall e s target L cr k x tmp, tmp_of target = Ok tmp -> ~ dot_tmp target -> snd (saving e s target L cr k) = Err x ->
  run s (fst (saving e s target L cr k)) target = s target /\ run s (fst (saving e s target L cr k)) tmp = None.
Proof.
  intros e s target L cr k x tmp Htmp Ht H. apply (save_failure _ _ _ _ _ _ x Htmp); [|exact H]. apply (tmp_of_other target tmp Htmp). intros y Hy Hy'. apply Ht. exists y. auto.
Qed.
Print Assumptions c32_failing_save_partial.
Theorem c32_build_errors_raise : forall e s target L cr k x, snd (fst (build_kdbx L cr k)) = Err x -> exists y, snd (saving e s target L cr k) = Err y.
Proof.
  intros e s target L cr k x H. unfold saving. rewrite H. unfold save_ops, limited. destruct (tmp_of target); [|cbn; eauto]. destruct (e_open e); [|cbn; eauto]. destruct (e_room e) as [m|]; [destruct (_ <=? m)%nat|]; cbn; eauto.
Qed.
Print Assumptions c32_build_errors_raise.
Example c32_ex : let target := MkPath ($"/d") ($"db.kdbx") in let k := MkKdbx (k_hdr k4) (Some (MkBody [] [] None)) in
  tmp_of target = Ok (MkPath ($"/d") ($"db.tmp")) /\ exists x, snd (saving plain_env (one_file target [1]) target toy sample_cr k) = Err x.
Proof. cbv zeta. split; [reflexivity|]. eexists. vm_compute. reflexivity. Qed.

(** C33 *)
Theorem c33_other_files_untouched : forall e s target L cr k n q, q <> target -> (forall tmp, tmp_of target = Ok tmp -> q <> tmp) ->
  run s (firstn n (fst (saving e s target L cr k))) q = s q.
Proof. intros e s target L cr k n q. apply save_frame. Qed.
Print Assumptions c33_other_files_untouched.
Theorem c33_sibling_not_a_user_file_refuted : exists e s target q user, env_ok e /\ e_rename e = true /\ q <> target /\ s q = Some user /\ user <> [] /\
  snd (saving e s target toy sample_cr k4) = Ok tt /\ run s (fst (saving e s target toy sample_cr k4)) q = None.
Proof.
  exists plain_env, (one_file (MkPath ($"/d") ($"db.tmp")) file3), (MkPath ($"/d") ($"db.kdbx")), (MkPath ($"/d") ($"db.tmp")), file3.
  split; [intros b; apply app_nil_r|]. split; [reflexivity|]. split; [discriminate|]. split; [reflexivity|]. split; [vm_compute; discriminate|]. split; vm_compute; reflexivity.
Qed.
Print Assumptions c33_sibling_not_a_user_file_refuted.
Example c33_ex : let target := MkPath ($"/d") ($"db.kdbx") in tmp_of target = Ok (MkPath ($"/d") ($"db.tmp")) /\ MkPath ($"/d") ($"x") <> target.
Proof. split; [reflexivity|discriminate]. Qed.
