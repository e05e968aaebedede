(** A database with references for the examples of Prop_Ref.v. *)
From Verif Require Import Base Base64 PyStr Xml Tree XPath Time Uuid Db FindSpec Find_facts Find_more Heap Prim ApiSpec FindEx Api ApiEx StructSpec StructEx Struct_find RefSpec Ref.

Definition kidb (T : str) (p : elem -> bool) (t : elem) : bool := existsb (fun k => str_eqb (etag k) T && p k) (ekids t).
Lemma kidb_iff T p P t : (forall k, p k = true <-> P k) -> kidb T p t = true <-> kid_with T P t.
Proof.
  intros H. unfold kidb, kid_with. rewrite existsb_exists. split; intros (k & I & E).
  - apply andb_true_iff in E as [E1 E2]. exists k. split; [exact I|]. split; [now apply str_eqb_eq|now apply H].
  - exists k. split; [exact I|]. rewrite (proj1 E), str_eqb_refl. cbn. now apply H.
Qed.
Definition textb (v : str) (k : elem) : bool := match etext k with Some s => str_eqb s v | None => false end.
Lemma textb_iff v k : textb v k = true <-> etext k = Some v.
Proof. unfold textb. destruct (etext k) as [s|]; [rewrite str_eqb_eq; split; congruence|split; discriminate]. Qed.
Definition aboutb (c : cite) (t : elem) : bool :=
  if c_in c =? 73 then match uuid_of_hex (c_value c) with Ok u => kidb $"UUID" (textb (uuid_text u)) t | Err _ => false end
  else kidb $"String" (fun s => kidb $"Key" (textb (letter_name (c_in c))) s && kidb $"Value" (textb (c_value c)) s) t.
Lemma aboutb_iff c t : aboutb c t = true <-> about c t.
Proof.
  unfold aboutb, about. destruct (c_in c =? 73).
  - destruct (uuid_of_hex (c_value c)) as [u|e]; [|split; [discriminate|intros (u & E & _); discriminate]]. rewrite (kidb_iff _ _ (fun x => etext x = Some (uuid_text u))) by (intros; apply textb_iff). split; [eauto|]. intros (u' & E & K). injection E as <-. exact K.
  - unfold has_field. apply kidb_iff. intros k. rewrite andb_true_iff. rewrite (kidb_iff _ _ (fun x => etext x = Some (letter_name (c_in c)))) by (intros; apply textb_iff). rewrite (kidb_iff _ _ (text_meets (fun o => o = Some (c_value c)))) by (intros; apply textb_iff). reflexivity.
Qed.
Definition seen (d : db) (t : elem) : bool := existsb (fun x => (eid x =? eid t)%nat) (visible (d_forest d)).
Definition candb (d : db) (c : cite) (t : elem) : bool := str_eqb (etag t) $"Entry" && seen d t && aboutb c t.
Lemma visible_elements F t : In t (visible F) -> In t (elements F).
Proof. rewrite visible_fpre. intros I. apply in_map_iff in I as (n & <- & I). apply filter_In in I as [I _]. rewrite elements_fpre. now apply in_map. Qed.
Lemma found_by d c l : wf d -> map eid (match d_forest d with doc :: _ => filter (candb d c) (everything doc) | [] => [] end) = map eid l -> (forall t, In t l -> has_elem d t) -> found d c l.
Proof.
  intros H E Hl. destruct (d_forest d) as [|doc F] eqn:EF; [destruct H as [H _]; congruence|]. exists doc, F. split; [exact EF|].
  assert (D : forall x, In x (everything doc) -> In x (elements (d_forest d))) by (intros x I; rewrite EF; unfold elements; cbn [flat_map]; apply in_or_app; now left).
  assert (filter (candb d c) (everything doc) = l) as <-.
  { apply (map_eid_inj (d_forest d)); [apply H| | |exact E]; [intros x I; apply filter_In in I as [I _]; auto|exact Hl]. }
  apply picks_filter. intros x I. unfold candb, candidate. rewrite !andb_true_iff, str_eqb_eq, aboutb_iff. assert (seen d x = true <-> In x (visible (d_forest d))); [|tauto]. unfold seen. rewrite existsb_exists. split.
  - intros (y & Iy & Ey). apply Nat.eqb_eq in Ey. rewrite <- (unique_inj (d_forest d) y x); auto; [apply H|now apply visible_elements].
  - intros Ix. exists x. split; [exact Ix|apply Nat.eqb_refl].
Qed.
(** The user name of "mail" refers to the title of "bank"; the user name of "loop" to itself, those of "ping" and "pong" to each other. *)
Definition hex (n : N) : str := uuid_hex_upper (repeat n 16).
Definition to_bank : cite := Cite 84 73 (hex 4).
Definition to_mail : cite := Cite 85 84 $"mail".
Definition to_loop : cite := Cite 85 84 $"loop".
Definition to_ping : cite := Cite 85 84 $"ping".
Definition to_pong : cite := Cite 85 84 $"pong".
Definition rdb : db := db_of (xdoc 9
  [xentry 2 $"mail" ($"<" ++ written to_bank ++ $"> ") $"s3cret" [];
   xgroup 3 $"sub"
     [xentry 4 $"bank" $"bob" $"p{w}" [X $"History" [] None [xentry 4 $"old" $"bob" $"old" []]];
      xentry 5 $"loop" (written to_loop) $"x" []];
   xentry 6 $"ping" ($"a" ++ written to_pong ++ $"{b}" ++ written to_bank) $"x" [];
   xentry 7 $"pong" (written to_ping) $"x" []]).
Lemma rdb_wf : wf rdb. Proof. apply wfb_ok. vm_compute. reflexivity. Qed.
Definition e_of (n : nat) : elem := el rdb (nth n (ids_of $"Entry" rdb) 0%nat).
Lemma e_has n : hasb rdb (nth n (ids_of $"Entry" rdb) 0%nat) = true -> has_elem rdb (e_of n). Proof. intros H. now apply hasb_ok. Qed.
Lemma rdb_found c n : map eid (match d_forest rdb with doc :: _ => filter (candb rdb c) (everything doc) | [] => [] end) = [nth n (ids_of $"Entry" rdb) 0%nat] -> hasb rdb (nth n (ids_of $"Entry" rdb) 0%nat) = true -> found rdb c [e_of n].
Proof. intros E Hn. apply found_by; [exact rdb_wf| |intros t [<-|[]]; now apply e_has]. rewrite E. cbn [map]. f_equal. symmetry. now apply hasb_ok. Qed.
Lemma rdb_points c n w : map eid (match d_forest rdb with doc :: _ => filter (candb rdb c) (everything doc) | [] => [] end) = [nth n (ids_of $"Entry" rdb) 0%nat] -> hasb rdb (nth n (ids_of $"Entry" rdb) 0%nat) = true ->
  searchable c -> c_want c <> 73 -> tidyb (e_of n) = true -> field_text (letter_name (c_want c)) (e_of n) = Some w -> points rdb c w.
Proof. intros E Hn S N Y Ef. split; [exact S|]. split; [exact N|]. exists (e_of n), []. split; [now apply rdb_found|]. split; [now apply tidyb_ok|exact Ef]. Qed.
Lemma bank_points : points rdb to_bank $"bank".
Proof. apply (rdb_points _ 1); try (vm_compute; reflexivity); [exists (repeat 4 16); vm_compute; reflexivity|vm_compute; discriminate]. Qed.
Lemma mail_points : points rdb to_mail ($"<" ++ written to_bank ++ $"> ").
Proof. apply (rdb_points _ 0); try (vm_compute; reflexivity); [apply plainb_ok; vm_compute; reflexivity|vm_compute; discriminate]. Qed.
Lemma ping_points : points rdb to_ping ($"a" ++ written to_pong ++ $"{b}" ++ written to_bank).
Proof. apply (rdb_points _ 4); try (vm_compute; reflexivity); [apply plainb_ok; vm_compute; reflexivity|vm_compute; discriminate]. Qed.
Lemma pong_points : points rdb to_pong (written to_ping).
Proof. apply (rdb_points _ 5); try (vm_compute; reflexivity); [apply plainb_ok; vm_compute; reflexivity|vm_compute; discriminate]. Qed.
Lemma loop_points : points rdb to_loop (written to_loop).
Proof. apply (rdb_points _ 3); try (vm_compute; reflexivity); [apply plainb_ok; vm_compute; reflexivity|vm_compute; discriminate]. Qed.
Definition legalb (c : cite) : bool := is_field (c_want c) && is_field (c_in c) && negb (match c_value c with [] => true | _ => false end) && negb (existsb (N.eqb 125) (c_value c)).
Lemma legalb_ok c : legalb c = true -> legal_cite c.
Proof.
  unfold legalb, legal_cite. rewrite !andb_true_iff, !negb_true_iff, !is_field_in. intros [[[A B] C] D]. split; [exact A|]. split; [exact B|]. split; [intros E; rewrite E in C; discriminate|]. intros I. assert (existsb (N.eqb 125) (c_value c) = true); [|congruence]. apply existsb_exists. exists 125. split; [exact I|reflexivity].
Qed.
Definition chars (s : str) : list piece := map Ch s.
Fixpoint strayb (pat : str) (l : list piece) : bool := match pat, l with y :: pat, Ch x :: l => if x =? y then strayb pat l else true | _, _ => false end.
Lemma strayb_gen l : forall pat a, $"REF:" = a ++ pat -> strayb pat l = true -> stray (map Ch a ++ l).
Proof.
  induction l as [|p l IH]; intros [|y pat] a E H; cbn [strayb] in H; try discriminate H. destruct p as [x|c]; [|discriminate]. destruct (N.eqb_spec x y) as [->|N].
  - specialize (IH pat (a ++ [y])). rewrite map_app, <- !app_assoc in IH. cbn [map app] in IH. apply IH; [exact E|exact H].
  - exists (a ++ [x]), l. split; [rewrite map_app, <- app_assoc; reflexivity|]. exists a, x, y, [], pat. auto.
Qed.
Lemma strayb_ok l : strayb $"REF:" l = true -> stray l.
Proof. intros H. now apply (strayb_gen l $"REF:" []). Qed.
Fixpoint cleanb (l : list piece) : bool :=
  match l with [] => true | Ch x :: l => (negb (x =? 123) || strayb $"REF:" l) && cleanb l | Ref c :: l => legalb c && negb (existsb (N.eqb 123) (c_value c)) && cleanb l end.
Lemma flat_scanned l : cleanb l = true -> scanned (flat l) l.
Proof.
  intros H. apply clean_scanned. induction l as [|[x|c] l IH]; [constructor| |]; cbn [cleanb] in H; apply andb_true_iff in H as [A B].
  - destruct (N.eqb_spec x 123) as [->|N]; [apply cl_brace; [now apply strayb_ok|auto]|constructor; auto].
  - apply andb_true_iff in A as [A1 A2]. constructor; [now apply legalb_ok| |auto]. intros J. apply negb_true_iff in A2. assert (existsb (N.eqb 123) (c_value c) = true); [|congruence]. apply existsb_exists. exists 123. split; [exact J|reflexivity].
Qed.
Lemma ex_chars d n s l t : forallb (fun x => negb (x =? 123)) s = true -> expands d n l t -> expands d n (chars s ++ l) (s ++ t).
Proof. intros H E. induction s as [|x s IH]; [exact E|]. cbn [forallb] in H. apply andb_true_iff in H as [A B]. cbn [chars map app]. constructor; [|now apply IH]. intros ->. discriminate. Qed.
Lemma endless : exists d c, wf d /\ legal_cite c /\ points d c (written c) /\ forall R o n, some_order o -> deref R o n (Some (written c)) d = (Err Ex_Recursion, d).
Proof.
  assert (L : legal_cite to_loop) by (apply legalb_ok; vm_compute; reflexivity). exists rdb, to_loop. split; [exact rdb_wf|]. split; [exact L|]. split; [exact loop_points|]. intros. apply deref_self; auto using rdb_wf, loop_points.
Qed.
Definition uuid_of_bank : cite := Cite 73 73 (hex 4).
Lemma uuid_found : found rdb uuid_of_bank [e_of 1]. Proof. apply rdb_found; vm_compute; reflexivity. Qed.
Lemma uuid_witness : exists d c t, wf d /\ legal_cite c /\ c_want c = 73 /\ found d c [t] /\ forall R o n, some_order o -> deref R o (S n) (Some (written c)) d = (Err Ex_Type, d).
Proof.
  assert (L : legal_cite uuid_of_bank) by (apply legalb_ok; vm_compute; reflexivity). exists rdb, uuid_of_bank, (e_of 1). split; [exact rdb_wf|]. split; [exact L|]. split; [reflexivity|]. split; [exact uuid_found|]. intros R o n Ho.
  apply (deref_uuid R o rdb _ [Ref uuid_of_bank] uuid_of_bank (e_of 1) [] (repeat 4 16)); auto using rdb_wf, uuid_found, scanned_one; [exists (repeat 4 16); vm_compute; reflexivity|vm_compute; reflexivity].
Qed.
Lemma deref_ends R o d n : wf d -> some_order o -> forall v l s, scanned v l -> expands d n l s -> exists r, deref R o (S n) (Some v) d = (Ok r, d).
Proof. intros H Ho v l s S E. exists (Some s). apply (deref_run R o d n H Ho v l s S E). lia. Qed.
(** Around a reference stands half of another one. *)
Definition tdb : db := db_of (xdoc 9 [xentry 2 $"T" $"x" $"y" []]).
Definition to_t : cite := Cite 84 85 $"x".
Lemma tdb_wf : wf tdb. Proof. apply wfb_ok. vm_compute. reflexivity. Qed.
Definition t_entry : elem := el tdb (nth 0 (ids_of $"Entry" tdb) 0%nat).
Lemma t_points : points tdb to_t $"T".
Proof.
  split; [apply plainb_ok; vm_compute; reflexivity|]. split; [discriminate|]. exists t_entry, []. split; [|split; [apply tidyb_ok; vm_compute; reflexivity|vm_compute; reflexivity]].
  apply found_by; [exact tdb_wf|vm_compute; reflexivity|]. intros t [<-|[]]. apply hasb_ok. vm_compute. reflexivity.
Qed.
Lemma scanned_chars p s l : (forall a b c q, p = a ++ b -> b <> [] -> legal_cite c -> b ++ s <> written c ++ q) -> scanned s l -> scanned (p ++ s) (chars p ++ l).
Proof.
  intros H S. induction p as [|x p IH]; [exact S|]. cbn [app chars map]. constructor; [intros c q L; exact (H [] (x :: p) c q eq_refl ltac:(discriminate) L)|]. apply IH. intros a b c q -> N L. exact (H (x :: a) b c q eq_refl N L).
Qed.
Lemma around_witness : exists d c p q w, wf d /\ points d c w /\ no_refs w /\ scanned (p ++ written c ++ q) (chars p ++ Ref c :: chars q) /\ forall R o n, some_order o -> exists r, deref R o (S (S (S n))) (Some (p ++ written c ++ q)) d = (Ok (Some r), d) /\ r <> p ++ w ++ q.
Proof.
  assert (L : legal_cite to_t) by (apply legalb_ok; vm_compute; reflexivity).
  assert (NT : no_refs $"T") by (intros p c q _ E; destruct p as [|a p]; [discriminate|]; injection E as _ E; destruct p; discriminate).
  assert (S : scanned ($"{REF:" ++ written to_t ++ $"@U:x}") (chars $"{REF:" ++ Ref to_t :: chars $"@U:x}")).
  { apply scanned_chars; [|constructor; [exact L|apply (flat_scanned (chars $"@U:x}")); vm_compute; reflexivity]]. intros a b c q E N Lc X.
    destruct a as [|x a]; cbn [app] in E; [subst b|injection E as <- E].
    - rewrite (written_app c q) in X. apply app_inv_head in X. rewrite written_cons in X. cbn [app] in X. injection X as X _. destruct Lc as (W & _). apply (letter_no_brace _ W). now symmetry.
    - do 4 (destruct a as [|? a]; cbn [app] in E; [subst b; discriminate X|injection E as <- E]). destruct a; [|discriminate E]. cbn in E. congruence. }
  exists tdb, to_t, $"{REF:", $"@U:x}", $"T". split; [exact tdb_wf|]. split; [exact t_points|]. split; [exact NT|]. split; [exact S|]. intros R o n Ho. exists $"T". split; [|vm_compute; discriminate].
  destruct (deref_round R o tdb _ _ (Datatypes.S (Datatypes.S n)) Ho S) as (C & HC & E0); [discriminate|]. etransitivity; [exact E0|]. clear E0. change (refs (chars $"{REF:" ++ Ref to_t :: chars $"@U:x}")) with [to_t] in HC.
  assert (E1 : py_replace (written to_t) $"T" ($"{REF:" ++ written to_t ++ $"@U:x}") = written to_t) by (vm_compute; reflexivity). assert (E2 : py_replace (written to_t) $"T" (written to_t) = $"T") by (vm_compute; reflexivity). assert (E3 : py_replace (written to_t) $"T" $"T" = $"T") by (vm_compute; reflexivity).
  destruct C as [|c C]; [destruct (proj2 (HC to_t)); now left|]. assert (HC' : forall c', In c' (c :: C) -> c' = to_t) by (intros c' I; apply HC in I as [I|[]]; auto). pose proof (HC' c (or_introl eq_refl)). subst c.
  assert (X : forall C v, (forall c', In c' C -> c' = to_t) -> (v = written to_t \/ v = $"T") -> exists v', replace_refs R (map fref_of C) v tdb = (Ok (Some v'), tdb) /\ (v' = written to_t \/ v' = $"T")).
  { clear C HC HC'. induction C as [|c C IH]; intros v HC Hv; [exists v; split; [reflexivity|exact Hv]|]. pose proof (HC c (or_introl eq_refl)). subst c. cbn [map]. rewrite (replace_step R tdb to_t _ _ _ tdb_wf L t_points). apply IH; [intros; apply HC; now right|]. destruct Hv as [->| ->]; [right; exact E2|right; exact E3]. }
  cbn [map]. destruct (X C (written to_t) (fun c' I => HC' c' (or_intror I)) (or_introl eq_refl)) as (v' & Ev & Hv).
  rewrite (mbind_ok _ _ tdb (Some v') tdb); [|rewrite (replace_step R tdb to_t _ _ _ tdb_wf L t_points), E1; exact Ev]. destruct Hv as [->| ->]; [apply deref_one; auto using tdb_wf, t_points|apply plain_value; auto].
Qed.
