(** Lemmas about Save.v. *)
From Verif Require Import Base Save.

Lemma path_eqb_eq a b : path_eqb a b = true <-> a = b.
Proof.
  unfold path_eqb. rewrite andb_true_iff. destruct (str_eqb_spec (p_dir a) (p_dir b)), (str_eqb_spec (p_name a) (p_name b)), a, b; cbn in *; split; intros; try (intuition congruence).
Qed.
Lemma path_eqb_refl a : path_eqb a a = true. Proof. now apply path_eqb_eq. Qed.
Lemma path_eqb_neq a b : a <> b -> path_eqb a b = false.
Proof. intros H. destruct (path_eqb a b) eqn:E; [apply path_eqb_eq in E; congruence|reflexivity]. Qed.
Lemma fs_set_same s p v : fs_set s p v p = v. Proof. unfold fs_set. now rewrite path_eqb_refl. Qed.
Lemma fs_set_other s p v q : p <> q -> fs_set s p v q = s q. Proof. intros H. unfold fs_set. now rewrite path_eqb_neq. Qed.

(** Operations that only concern [p]. *)
Definition only (ps : list path) (o : fsop) : Prop :=
  match o with Create p | Write p _ | Remove p => In p ps | Rename p q => In p ps /\ In q ps end.
Lemma run_other ps l q : Forall (only ps) l -> ~ In q ps -> forall s, run s l q = s q.
Proof.
  intros H Hq. unfold run. induction H as [|o l Ho Hl IH]; intros s; [reflexivity|]. cbn [fold_left]. rewrite IH. clear IH.
  assert (N : forall p, In p ps -> p <> q) by congruence.
  destruct o as [p|p b|p|p p']; cbn [run_op only] in *; try (apply fs_set_other; auto).
  destruct Ho as [H1 H2]. destruct (path_eqb p p'); [reflexivity|]. rewrite !fs_set_other by auto. reflexivity.
Qed.
Lemma run_app s a b : run s (a ++ b) = run (run s a) b.
Proof. apply fold_left_app. Qed.
Lemma run_writes p l : forall s old, s p = Some old -> run s (map (Write p) l) p = Some (old ++ List.concat l).
Proof.
  unfold run. induction l as [|b l IH]; intros s old H; [cbn; now rewrite app_nil_r|]. cbn [map fold_left run_op List.concat]. rewrite app_assoc. apply IH. rewrite H. apply fs_set_same.
Qed.
Lemma only_weaken ps qs o : (forall p, In p ps -> In p qs) -> only ps o -> only qs o.
Proof. destruct o; cbn; intuition. Qed.
Lemma only_firstn ps l n : Forall (only ps) l -> Forall (only ps) (firstn n l).
Proof. intros H. rewrite Forall_forall in *. intros x Hx. apply H. rewrite <- (firstn_skipn n l). apply in_or_app. auto. Qed.
Lemma only_writes p l : Forall (only [p]) (Create p :: map (Write p) l).
Proof. constructor; [cbn; auto|]. rewrite Forall_forall. intros o Ho. apply in_map_iff in Ho. destruct Ho as (b & <- & _). cbn. auto. Qed.
Lemma only_move e tmp target d : Forall (only [tmp; target]) (move_ops e tmp target d).
Proof.
  unfold move_ops. destruct (e_rename e); [constructor; cbn; auto|]. constructor; [cbn; auto|]. apply Forall_app. split; [|constructor; cbn; auto].
  rewrite Forall_forall. intros o Ho. apply in_map_iff in Ho. destruct Ho as (b & <- & _). cbn. auto.
Qed.
Lemma only_save e s target tmp out r : tmp_of target = Ok tmp -> Forall (only [tmp; target]) (fst (save_ops e s target out r)).
Proof.
  intros Ht. unfold save_ops. rewrite Ht. destruct (e_open e); [|cbn; destruct (s tmp); repeat constructor; cbn; auto].
  set (p := limited (e_room e) out r). destruct p as [o2 r2].
  assert (W : Forall (only [tmp; target]) (Create tmp :: map (Write tmp) (e_split e o2))) by (eapply Forall_impl; [|apply only_writes]; intros a; apply only_weaken; cbn; tauto).
  destruct r2 as [u|x]; cbn [fst]; apply Forall_app; split; auto; [apply only_move|]. repeat constructor; cbn; auto.
Qed.
(** Saving concerns only the target and its temporary sibling, at every point of the execution. *)
Lemma save_frame e s target out r n q : q <> target -> (forall tmp, tmp_of target = Ok tmp -> q <> tmp) ->
  run s (firstn n (fst (save_ops e s target out r))) q = s q.
Proof.
  intros Hq Hn. destruct (tmp_of target) as [tmp|x] eqn:Ht; [|unfold save_ops; rewrite Ht; cbn; now rewrite firstn_nil].
  apply (run_other [tmp; target]); [apply only_firstn, only_save, Ht|]. cbn. specialize (Hn tmp eq_refl). intuition congruence.
Qed.
Lemma firstn_app_cases {A} (a b : list A) n : firstn n (a ++ b) = firstn n a \/ exists m, firstn n (a ++ b) = a ++ firstn m b.
Proof.
  rewrite firstn_app. destruct (Nat.leb_spec n (List.length a)).
  - left. replace (n - List.length a)%nat with 0%nat by lia. cbn. now rewrite app_nil_r.
  - right. exists (n - List.length a)%nat. rewrite firstn_all2 by lia. reflexivity.
Qed.
Lemma save_crash e s target tmp out r n : env_ok e -> tmp_of target = Ok tmp -> tmp <> target -> e_rename e = true ->
  let s' := run s (firstn n (fst (save_ops e s target out r))) in s' target = s target \/ (r = Ok tt /\ s' target = Some out).
Proof.
  intros He Ht Hne Hr. cbv zeta. unfold save_ops. rewrite Ht. destruct (e_open e).
  2: { left. cbn [fst]. apply (run_other [tmp]); [|cbn; intuition]. apply only_firstn. destruct (s tmp); repeat constructor; cbn; auto. }
  set (pr := limited (e_room e) out r). assert (Hpr : snd pr = Ok tt -> fst pr = out /\ r = Ok tt).
  { unfold pr, limited. destruct (e_room e) as [m|]; [destruct (_ <=? m)%nat|]; cbn; try discriminate; auto. }
  destruct pr as [o2 r2]. cbn [fst snd] in Hpr.
  set (w := Create tmp :: map (Write tmp) (e_split e o2)).
  assert (Hw : forall n s, run s (firstn n w) target = s target) by (intros; apply (run_other [tmp]); [apply only_firstn, only_writes|cbn; intuition]).
  assert (Hfull : forall s, run s w target = s target) by (intros s0; specialize (Hw (List.length w) s0); now rewrite firstn_all in Hw).
  destruct r2 as [[]|x]; cbn [fst].
  - destruct (Hpr eq_refl) as [-> ->]. destruct (firstn_app_cases w (move_ops e tmp target out) n) as [->|[m ->]]; [left; apply Hw|].
    unfold move_ops. rewrite Hr, run_app. destruct m as [|m]; [left; apply Hfull|]. right. split; [reflexivity|]. cbn [firstn]. rewrite firstn_nil. cbn [run fold_left run_op].
    rewrite path_eqb_neq by congruence. rewrite fs_set_other by congruence. rewrite fs_set_same. unfold w, run at 1. cbn [fold_left run_op].
    fold (run (fs_set s tmp (Some [])) (map (Write tmp) (e_split e out))). rewrite run_writes with (old := []) by apply fs_set_same. cbn [app]. now rewrite He.
  - left. destruct (firstn_app_cases w [Remove tmp] n) as [->|[m ->]]; [apply Hw|]. rewrite run_app, (run_other [tmp] (firstn m [Remove tmp])); [apply Hfull|apply only_firstn; repeat constructor; cbn; auto|cbn; intuition].
Qed.
Lemma save_success e s target tmp out : env_ok e -> tmp_of target = Ok tmp -> tmp <> target ->
  forall r, snd (save_ops e s target out r) = Ok tt -> r = Ok tt /\ run s (fst (save_ops e s target out r)) target = Some out /\ run s (fst (save_ops e s target out r)) tmp = None.
Proof.
  intros He Ht Hne r. unfold save_ops. rewrite Ht. destruct (e_open e); [|discriminate].
  set (pr := limited (e_room e) out r). assert (Hpr : snd pr = Ok tt -> fst pr = out /\ r = Ok tt).
  { unfold pr, limited. destruct (e_room e) as [m|]; [destruct (_ <=? m)%nat|]; cbn; try discriminate; auto. }
  destruct pr as [o2 [[]|x]]; cbn [fst snd] in *; [|discriminate]. intros _. destruct (Hpr eq_refl) as [-> ->]. split; [reflexivity|].
  set (w := Create tmp :: map (Write tmp) (e_split e out)).
  assert (Hw : run s w tmp = Some out).
  { unfold w, run. cbn [fold_left run_op]. fold (run (fs_set s tmp (Some [])) (map (Write tmp) (e_split e out))). rewrite run_writes with (old := []) by apply fs_set_same. cbn [app]. now rewrite He. }
  rewrite run_app. unfold move_ops. destruct (e_rename e).
  - cbn [run fold_left run_op]. rewrite path_eqb_neq by congruence. rewrite fs_set_other by congruence. rewrite !fs_set_same. auto.
  - change (Create target :: map (Write target) (e_split e out) ++ [Remove tmp]) with ((Create target :: map (Write target) (e_split e out)) ++ [Remove tmp]).
    rewrite run_app. cbn [run fold_left run_op]. rewrite fs_set_same, fs_set_other by congruence. split; [|reflexivity].
    fold (run (fs_set (run s w) target (Some [])) (map (Write target) (e_split e out))). rewrite run_writes with (old := []) by apply fs_set_same. cbn [app]. now rewrite He.
Qed.
Lemma save_failure e s target tmp out r x : tmp_of target = Ok tmp -> tmp <> target -> snd (save_ops e s target out r) = Err x ->
  run s (fst (save_ops e s target out r)) target = s target /\ run s (fst (save_ops e s target out r)) tmp = None.
Proof.
  intros Ht Hne. unfold save_ops. rewrite Ht. destruct (e_open e).
  2: { cbn [fst]. intros _. destruct (s tmp) eqn:E; cbn; [|auto]. rewrite fs_set_same, fs_set_other by congruence. auto. }
  set (pr := limited (e_room e) out r). destruct pr as [o2 [[]|y]]; cbn [fst snd]; [discriminate|]. intros _. rewrite run_app. match goal with |- context [run ?a [Remove tmp]] => change (run a [Remove tmp]) with (fs_set a tmp None) end. rewrite fs_set_same, fs_set_other by congruence.
  split; [|reflexivity]. apply (run_other [tmp]); [apply only_writes|cbn; intuition].
Qed.
(** A building error is reported as such. *)
Lemma save_raises e s target tmp out x : tmp_of target = Ok tmp -> e_open e = true -> e_room e = None -> snd (save_ops e s target out (Err x)) = Err x.
Proof. intros Ht Ho Hr. unfold save_ops. rewrite Ht, Ho, Hr. reflexivity. Qed.
(** When the temporary name is the target's own. *)
Lemma stem_tmp n : n <> [] -> stem (n ++ $".tmp") = n.
Proof.
  intros Hn. unfold stem. assert (E : forall n i, last_dot i (n ++ $".tmp") = Some (i + List.length n)%nat).
  { induction n0 as [|c n0 IH]; intros i; cbn [app last_dot List.length]; [rewrite Nat.add_0_r; reflexivity|]. rewrite IH. f_equal. lia. }
  rewrite E. rewrite app_length. change (List.length ($".tmp")) with 4%nat. rewrite Nat.add_0_l. assert (0 < List.length n)%nat by (destruct n; [congruence|cbn; lia]).
  rewrite (proj2 (Nat.ltb_lt 0 (List.length n))) by lia. rewrite (proj2 (Nat.ltb_lt (List.length n) (List.length n + 4 - 1))) by lia. cbn [andb].
  rewrite firstn_app, Nat.sub_diag, firstn_all. apply app_nil_r.
Qed.
(** The temporary name is the target's own exactly for names x.tmp. *)
Lemma tmp_of_self p : tmp_of p = Ok p <-> exists x, x <> [] /\ p_name p = x ++ $".tmp".
Proof.
  unfold tmp_of. destruct p as [d n]. cbn [p_name p_dir]. split.
  - intros H. exists (stem n). destruct n as [|c n]; [discriminate|]. injection H as H. symmetry in H. split; [|exact H]. intros E. rewrite E in H. cbn in H. rewrite H in E. vm_compute in E. discriminate.
  - intros (x & Hx & ->). destruct (x ++ $".tmp") eqn:E; [destruct x; discriminate|]. rewrite <- E. now rewrite stem_tmp.
Qed.
Lemma tmp_of_other p tmp : tmp_of p = Ok tmp -> (forall x, x <> [] -> p_name p <> x ++ $".tmp") -> tmp <> p.
Proof. intros H Hn ->. apply tmp_of_self in H. destruct H as (x & Hx & E). exact (Hn x Hx E). Qed.
Lemma tmp_of_total p : p_name p <> [] -> exists tmp, tmp_of p = Ok tmp.
Proof. unfold tmp_of. destruct (p_name p); [congruence|]. intros _. eauto. Qed.
