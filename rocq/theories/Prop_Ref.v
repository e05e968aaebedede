(** Field references (C65-C67). *)
From Coq Require Import Permutation.
From Verif Require Import Base Base64 PyStr Xml Tree XPath Time Uuid Db FindSpec ApiSpec FindEx Api ApiEx StructSpec StructEx RefSpec Ref Ref_loop RefEx.

(** ** C65: deref undoes ref ... *)
Theorem c65_roundtrip : forall R o d t u p a k w n, wf d -> some_order o -> own_uuid d t u -> tidy t -> ref_attr p = Some (a, k) -> get_prop R p (eid t) d = (Ok (Some w), d) -> no_refs w ->
  exists r, make_ref (eid t) a d = (Ok r, d) /\ deref R o (S (S n)) (Some r) d = (Ok (Some w), d).
Proof. exact roundtrip. Qed.
Print Assumptions c65_roundtrip.
(** ... replaces every reference of a text, also those in the texts referred to, and keeps everything around them, in whatever order the references are replaced. Missing against C65: texts where {REF: or a beginning of it, followed by a reference or the end of a text, stands outside references ... *)
Theorem c65_text_around_kept_partial : forall R o d n, wf d -> some_order o -> forall v l s, scanned v l -> expands d n l s -> forall fuel, (n < fuel)%nat -> deref R o fuel (Some v) d = (Ok (Some s), d).
Proof. exact deref_run. Qed.
Print Assumptions c65_text_around_kept_partial.
Theorem c65_text_around_refuted : exists d c p q w, wf d /\ points d c w /\ no_refs w /\ scanned (p ++ written c ++ q) (chars p ++ Ref c :: chars q) /\ forall R o n, some_order o -> exists r, deref R o (S (S (S n))) (Some (p ++ written c ++ q)) d = (Ok (Some r), d) /\ r <> p ++ w ++ q.
Proof. exact around_witness. Qed.
Print Assumptions c65_text_around_refuted.
(** ... gives None if a reference leads nowhere ... *)
Theorem c65_dangling : forall R o d v l n, wf d -> some_order o -> scanned v l -> (forall c, In c (refs l) -> dangling d c \/ exists w, points d c w) -> (exists c, In c (refs l) /\ dangling d c) -> deref R o (S n) (Some v) d = (Ok None, d).
Proof. exact deref_dangling. Qed.
Print Assumptions c65_dangling.
(** ... and leaves a text without references alone. *)
Theorem c65_no_references : forall R o d w n, some_order o -> no_refs w -> deref R o (S n) (Some w) d = (Ok (Some w), d).
Proof. exact plain_value. Qed.
Print Assumptions c65_no_references.
(** A reference to a field that is missing or has no text raises TypeError. *)
Theorem c65_missing_field_raises : forall R o d v l c0 t m n, wf d -> some_order o -> scanned v l -> refs l = [c0] -> c_want c0 <> 73 -> searchable c0 -> found d c0 (t :: m) -> tidy t -> field_text (letter_name (c_want c0)) t = None -> deref R o (S n) (Some v) d = (Err Ex_Type, d).
Proof. exact deref_missing. Qed.
Print Assumptions c65_missing_field_raises.
Lemma rev_order : some_order (@rev fref). Proof. intros l. apply Permutation_sym, Permutation_rev. Qed.
Definition letter_pieces : list piece := chars $"to " ++ Ref to_mail :: chars $" and }" ++ Ref to_bank :: chars $"{REX}" ++ Ref to_mail :: [].
Lemma letter_expands : expands rdb 2 letter_pieces ($"to " ++ $"<bank> " ++ $" and }" ++ $"bank" ++ $"{REX}" ++ $"<bank> " ++ []).
Proof.
  assert (M : forall l s, expands rdb 2 l s -> expands rdb 2 (Ref to_mail :: l) ($"<bank> " ++ s)).
  { intros l s H. apply (ex_ref rdb 1 to_mail l ($"<" ++ written to_bank ++ $"> ") (chars $"<" ++ Ref to_bank :: chars $"> ")); [apply legalb_ok; vm_compute; reflexivity|vm_compute; intuition discriminate|exact mail_points| | |exact H].
    - apply (flat_scanned (chars $"<" ++ Ref to_bank :: chars $"> ")). vm_compute. reflexivity.
    - apply (ex_chars rdb 1 $"<" _ $"bank> "); [reflexivity|]. apply (ex_ref rdb 0 to_bank _ $"bank" (chars $"bank") $"bank" $"> "); [apply legalb_ok; vm_compute; reflexivity|vm_compute; intuition discriminate|exact bank_points|apply (flat_scanned (chars $"bank")); vm_compute; reflexivity| |].
      + apply (ex_chars rdb 0 $"bank" [] []); [reflexivity|constructor].
      + apply (ex_chars rdb 1 $"> " [] []); [reflexivity|constructor]. }
  apply (ex_chars rdb 2 $"to "); [reflexivity|]. apply M. apply (ex_chars rdb 2 $" and }"); [reflexivity|]. apply (ex_ref rdb 1 to_bank _ $"bank" (chars $"bank") $"bank"); [apply legalb_ok; vm_compute; reflexivity|vm_compute; intuition discriminate|exact bank_points|apply (flat_scanned (chars $"bank")); vm_compute; reflexivity| |].
  - apply (ex_chars rdb 1 $"bank" [] []); [reflexivity|constructor].
  - apply ex_brace; [apply strayb_ok; vm_compute; reflexivity|]. apply (ex_chars rdb 2 $"REX}"); [reflexivity|]. apply M. constructor.
Qed.
Definition ghost : cite := Cite 80 85 $"nobody".
Lemma ghost_dangling : dangling rdb ghost.
Proof. split; [apply plainb_ok; vm_compute; reflexivity|]. apply found_by; [exact rdb_wf|vm_compute; reflexivity|intros t []]. Qed.
Lemma bank_own : own_uuid rdb (e_of 1) (repeat 4 16).
Proof.
  assert (F : found rdb to_bank [e_of 1]) by (apply rdb_found; vm_compute; reflexivity). destruct F as (doc & F' & EF & P).
  assert (U : uuid_of_hex (hex 4) = Ok (repeat 4 16)) by (vm_compute; reflexivity).
  destruct (Find_path.picks_In _ _ _ _ P (or_introl eq_refl)) as [I (T & V & _)].
  split; [split; [repeat constructor|reflexivity]|]. split; [vm_compute; reflexivity|]. split; [exact T|]. split; [exact V|]. exists doc, F'. split; [exact EF|]. split; [exact I|].
  intros x Ix Tx Vx Kx. assert (C : candidate rdb to_bank x) by (split; [exact Tx|]; split; [exact Vx|]; exists (repeat 4 16); split; [exact U|exact Kx]).
  destruct (proj2 (Find_more.picks_all _ _ _ x P) (conj Ix C)) as [E|[]]. now symmetry.
Qed.
Lemma braces_no_refs : no_refs $"p{w}".
Proof. intros p c q L E. destruct p as [|a [|b [|e [|f p]]]]; cbn in E; try discriminate E. destruct p; discriminate E. Qed.
Example c65_ex : wf rdb /\ some_order (@rev fref) /\ own_uuid rdb (e_of 1) (repeat 4 16) /\ tidy (e_of 1) /\ get_prop lit P_password (eid (e_of 1)) rdb = (Ok (Some $"p{w}"), rdb) /\ no_refs $"p{w}" /\
  scanned (flat letter_pieces) letter_pieces /\ expands rdb 2 letter_pieces $"to <bank>  and }bank{REX}<bank> " /\ fst (deref lit (@rev fref) 3 (Some (flat letter_pieces)) rdb) = Ok (Some $"to <bank>  and }bank{REX}<bank> ") /\
  dangling rdb ghost /\ points rdb to_bank $"bank" /\ fst (deref lit (@rev fref) 3 (Some (flat [Ref to_bank; Ref ghost])) rdb) = Ok None.
Proof.
  split; [exact rdb_wf|]. split; [exact rev_order|]. split; [exact bank_own|]. split; [apply tidyb_ok; vm_compute; reflexivity|]. split; [vm_compute; reflexivity|]. split; [exact braces_no_refs|]. split; [apply flat_scanned; vm_compute; reflexivity|]. split; [exact letter_expands|]. split; [vm_compute; reflexivity|]. split; [exact ghost_dangling|]. split; [exact bank_points|vm_compute; reflexivity].
Qed.

(** ** C66: deref does not terminate for every value: a field that refers to itself exhausts any recursion limit. *)
Theorem c66_self_reference_refuted : exists d c, wf d /\ legal_cite c /\ points d c (written c) /\ forall R o n, some_order o -> deref R o n (Some (written c)) d = (Err Ex_Recursion, d).
Proof. exact endless. Qed.
Print Assumptions c66_self_reference_refuted.
(** It is so for every database with such a field. *)
Theorem c66_every_self_reference : forall R o d c n, wf d -> some_order o -> legal_cite c -> points d c (written c) -> deref R o n (Some (written c)) d = (Err Ex_Recursion, d).
Proof. exact deref_self. Qed.
Print Assumptions c66_every_self_reference.
(** It terminates if the references are not circular. Missing against C66: circular references, and texts where {REF: or a beginning of it, followed by a reference or the end of a text, stands outside references. *)
Theorem c66_terminates_partial : forall R o d n, wf d -> some_order o -> forall v l s, scanned v l -> expands d n l s -> exists r, deref R o (S n) (Some v) d = (Ok r, d).
Proof. exact deref_ends. Qed.
Print Assumptions c66_terminates_partial.
(** Circular references of every shape, also mixed with others: no recursion limit suffices. *)
Theorem c66_circular : forall R o d A C v l n, wf d -> some_order o -> circular d A C -> scanned v l -> clean l -> (forall c, In c (refs l) -> A c) -> (exists c, In c (refs l) /\ C c) -> deref R o n (Some v) d = (Err Ex_Recursion, d).
Proof. exact deref_circular. Qed.
Print Assumptions c66_circular.
(** There is no third case: with k references that all stand for a text, deref either returns within k + 2 calls or the references are circular. *)
Theorem c66_ends_or_circular : forall R o d L v l, wf d -> some_order o -> complete d L -> scanned v l -> clean l -> (forall c, In c (refs l) -> In c L) ->
  (exists s, expands d (S (List.length L)) l s /\ forall fuel, (S (List.length L) < fuel)%nat -> deref R o fuel (Some v) d = (Ok (Some s), d)) \/
  ((exists C, circular d (fun c => In c L) C /\ exists c, In c (refs l) /\ C c) /\ forall n, deref R o n (Some v) d = (Err Ex_Recursion, d)).
Proof. exact deref_dichotomy. Qed.
Print Assumptions c66_ends_or_circular.
(** For every text, whatever stands around its references: what is returned has no references, ... *)
Theorem c66_nothing_left : forall R o n v d s d', some_order o -> deref R o n v d = (Ok (Some s), d') -> no_refs s.
Proof. intros R o n v d s d' Ho. exact (deref_clean R o Ho n v d s d'). Qed.
Print Assumptions c66_nothing_left.
(** ... the database is unchanged in every outcome, ... *)
Theorem c66_only_reads : forall R o n v d, snd (deref R o n v d) = d.
Proof. intros R o n v. exact (q_deref R o n v). Qed.
Print Assumptions c66_only_reads.
(** ... and a higher recursion limit changes no outcome but that of the limit. *)
Theorem c66_limit : forall R o n v d r d', deref R o n v d = (r, d') -> r <> Err Ex_Recursion -> forall m, (n <= m)%nat -> deref R o m v d = (r, d').
Proof. exact deref_more. Qed.
Print Assumptions c66_limit.
Definition ping_pieces : list piece := chars $"a" ++ Ref to_pong :: chars $"{b}" ++ [Ref to_bank].
Ltac brace_free := vm_compute; intuition discriminate.
Lemma ping_scanned : scanned (flat ping_pieces) ping_pieces. Proof. apply flat_scanned. vm_compute. reflexivity. Qed.
Lemma ping_clean : clean ping_pieces.
Proof. constructor; [discriminate|]. constructor; [apply legalb_ok; vm_compute; reflexivity|brace_free|]. apply cl_brace; [apply strayb_ok; vm_compute; reflexivity|]. repeat (constructor; [discriminate|]). constructor; [apply legalb_ok; vm_compute; reflexivity|brace_free|constructor]. Qed.
Lemma rdb_complete : complete rdb [to_ping; to_pong; to_bank].
Proof.
  intros c [<-|[<-|[<-|[]]]]; (split; [apply legalb_ok; vm_compute; reflexivity|]); (split; [brace_free|]).
  - exists (flat ping_pieces), ping_pieces. split; [exact ping_points|]. split; [exact ping_scanned|]. split; [exact ping_clean|]. cbn. intuition.
  - exists (written to_ping), [Ref to_ping]. split; [exact pong_points|]. split; [apply scanned_one, legalb_ok; vm_compute; reflexivity|]. split; [|cbn; intuition]. constructor; [apply legalb_ok; vm_compute; reflexivity|brace_free|constructor].
  - exists $"bank", (chars $"bank"). split; [exact bank_points|]. split; [apply (flat_scanned (chars $"bank")); vm_compute; reflexivity|]. split; [repeat (constructor; [discriminate|]); constructor|]. cbn. intuition.
Qed.
Lemma ping_circular : circular rdb (fun c => In c [to_ping; to_pong; to_bank]) (fun c => c = to_ping \/ c = to_pong).
Proof.
  intros c Ic. pose proof rdb_complete c Ic as (_ & _ & _). destruct Ic as [<-|[<-|[<-|[]]]].
  - exists (flat ping_pieces), ping_pieces. split; [exact ping_points|]. split; [exact ping_scanned|]. split; [exact ping_clean|]. split; [cbn; intuition|]. intros _. exists to_pong. cbn. auto.
  - destruct (rdb_complete to_pong ltac:(cbn; auto)) as (_ & _ & w & ps & P & S & C & X). assert (w = written to_ping) as -> by exact (points_det _ _ _ _ P pong_points). assert (ps = [Ref to_ping]) as -> by (apply (scanned_det _ _ S); apply scanned_one, legalb_ok; vm_compute; reflexivity).
    exists (written to_ping), [Ref to_ping]. split; [exact P|]. split; [exact S|]. split; [exact C|]. split; [exact X|]. intros _. exists to_ping. cbn. auto.
  - destruct (rdb_complete to_bank ltac:(cbn; auto)) as (_ & _ & w & ps & P & S & C & X). exists w, ps. split; [exact P|]. split; [exact S|]. split; [exact C|]. split; [exact X|]. intros [E|E]; discriminate E.
Qed.
Example c66_ex : expands rdb 2 letter_pieces $"to <bank>  and }bank{REX}<bank> " /\ legal_cite to_loop /\ points rdb to_loop (written to_loop) /\ fst (deref lit (@rev fref) 50 (Some (written to_loop)) rdb) = Err Ex_Recursion /\
  complete rdb [to_ping; to_pong; to_bank] /\ circular rdb (fun c => In c [to_ping; to_pong; to_bank]) (fun c => c = to_ping \/ c = to_pong) /\ clean ping_pieces /\ scanned (flat ping_pieces) ping_pieces /\ refs ping_pieces = [to_pong; to_bank] /\
  fst (deref lit (@rev fref) 20 (Some (flat ping_pieces)) rdb) = Err Ex_Recursion /\ fst (deref lit (@rev fref) 5 (Some ($"{REF:" ++ flat [Ref to_bank])) rdb) = Ok (Some $"{REF:bank").
Proof.
  split; [exact letter_expands|]. split; [apply legalb_ok; vm_compute; reflexivity|]. split; [exact loop_points|]. split; [vm_compute; reflexivity|]. split; [exact rdb_complete|]. split; [exact ping_circular|]. split; [exact ping_clean|]. split; [exact ping_scanned|]. split; [vm_compute; reflexivity|]. split; vm_compute; reflexivity.
Qed.

(** ** C67: a reference to the UUID of an entry is not resolved: it raises TypeError, for every database and entry. *)
Theorem c67_uuid_reference_refuted : exists d c t, wf d /\ legal_cite c /\ c_want c = 73 /\ found d c [t] /\ forall R o n, some_order o -> deref R o (S n) (Some (written c)) d = (Err Ex_Type, d).
Proof. exact uuid_witness. Qed.
Print Assumptions c67_uuid_reference_refuted.
Theorem c67_every_uuid_reference : forall R o d v l c0 t m u n, wf d -> some_order o -> scanned v l -> refs l = [c0] -> c_want c0 = 73 -> searchable c0 -> found d c0 (t :: m) -> uuid_is t u -> deref R o (S n) (Some v) d = (Err Ex_Type, d).
Proof. exact deref_uuid. Qed.
Print Assumptions c67_every_uuid_reference.
Example c67_ex : found rdb uuid_of_bank [e_of 1] /\ uuid_is (e_of 1) (repeat 4 16) /\ fst (make_ref (eid (e_of 1)) $"uuid" rdb) = Ok (written uuid_of_bank) /\ fst (deref lit (@rev fref) 50 (Some (written uuid_of_bank)) rdb) = Err Ex_Type.
Proof. split; [exact uuid_found|]. vm_compute. auto. Qed.
