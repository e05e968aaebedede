(** The string fields of an entry under every sequence of calls: a simple ledger with the same answers. *)
From Verif Require Import Base PyStr Xml Tree XPath Time Uuid Db FindSpec ApiSpec Api Heap Prim Api_fields Api_custom Api_sub Api_claims.

(** Calls on the string fields of one entry, and their answers. *)
Inductive call :=
| Set_prop (p : strprop) (v : option str)
| Set_custom (key : str) (v : option str) (protect : bool)
| Del_custom (key : str)
| Get_prop (p : strprop)
| Get_custom (key : str)
| Get_flag (key : str)
| Get_all.
Inductive answer := A_done | A_text (o : option str) | A_flag (b : bool) | A_all (l : list (option str * option str)).
Definition do_call (R : regex) (i : nat) (c : call) : M answer :=
  match c with
  | Set_prop p v => do _ <- set_prop R p i v; ret A_done
  | Set_custom key v b => do _ <- set_custom_property R i key v b; ret A_done
  | Del_custom key => do _ <- delete_custom_property R i key; ret A_done
  | Get_prop p => do x <- get_prop R p i; ret (A_text x)
  | Get_custom key => do x <- get_custom_property R i key; ret (A_text x)
  | Get_flag key => do b <- is_custom_property_protected R i key; ret (A_flag b)
  | Get_all => do l <- custom_properties R i; ret (A_all l)
  end.
(** One call after the other, exceptions being caught. *)
Fixpoint do_calls (R : regex) (i : nat) (cs : list call) (d : db) : list (res answer) * db :=
  match cs with
  | [] => ([], d)
  | c :: cs' => let '(a, d1) := do_call R i c d in let '(l, d2) := do_calls R i cs' d1 in (a :: l, d2)
  end.

(** *** The ledger: lines of key, value and flag.  Writing a line strikes out the old one with the same key, then checks the value. *)
Definition line_text (key : str) (l : list field) : option str := match look_field key l with Some f => f_val f | None => None end.
Definition line_flag (key : str) (l : list field) : option str := match look_field key l with Some f => f_prot f | None => None end.
Definition is_builtin (key : str) : bool :=
  existsb (str_eqb key) [$"Title"; $"UserName"; $"Password"; $"URL"; $"Notes"; $"otp"; $"Tags"; $"IconID"; $"Times"; $"History"].
Definition write (key : str) (v : option str) (flag : option str) (l : list field) : res answer * list field :=
  match v with
  | None => (Err Ex_Type, less_field key l)
  | Some s => if text_ok s then (Ok A_done, less_field key l ++ [Fld (Some key) v flag]) else (Err Ex_Value, less_field key l)
  end.
Definition line_step (c : call) (l : list field) : res answer * list field :=
  match c with
  | Set_prop p v =>
      let key := prop_name p in
      write key v (if secret p && negb (filled (line_text key l)) then Some $"True" else line_flag key l) l
  | Set_custom key v b => if is_builtin key then (Err Ex_Assertion, l) else write key v (Some (if b then $"True" else $"False")) l
  | Del_custom key =>
      if is_builtin key then (Err Ex_Attribute, l)
      else match look_field key l with Some _ => (Ok A_done, less_field key l) | None => (Err Ex_Attribute, l) end
  | Get_prop p => (Ok (A_text (line_text (prop_name p) l)), l)
  | Get_custom key => (if is_builtin key then Err Ex_Assertion else Ok (A_text (line_text key l)), l)
  | Get_flag key => (if is_builtin key then Err Ex_Assertion else Ok (A_flag (match line_flag key l with Some s => str_eqb s $"True" | None => false end)), l)
  | Get_all => (Ok (A_all (map (fun f => (f_key f, f_val f)) (filter (fun f => match f_key f with Some k => negb (is_builtin k) | None => true end) l))), l)
  end.
Fixpoint line_steps (cs : list call) (l : list field) : list (res answer) * list field :=
  match cs with
  | [] => ([], l)
  | c :: cs' => let '(a, l1) := line_step c l in let '(m, l2) := line_steps cs' l1 in (a :: m, l2)
  end.
Definition key_plain (c : call) : Prop := match c with Set_custom k _ _ | Del_custom k | Get_custom k | Get_flag k => plain k | _ => True end.

Lemma builtin_reserved key : reserved (Some key) = is_builtin key.
Proof.
  destruct (reserved (Some key)) eqn:E; symmetry.
  - apply reserved_builtin in E. unfold is_builtin. apply existsb_exists. exists key. split; [|apply str_eqb_refl]. unfold builtin in E. cbn [In]. intuition congruence.
  - destruct (is_builtin key) eqn:B; [|reflexivity]. exfalso. apply existsb_exists in B as (x & Hx & Ex). apply str_eqb_eq in Ex. subst x.
    assert (reserved (Some key) = true); [|congruence]. apply reserved_builtin. unfold builtin. cbn [In] in Hx. intuition congruence.
Qed.
Lemma e_string_err key v a : text_ok key = true -> forallb (fun a : str * str => text_ok (snd a)) a = true -> rejected v ->
  e_string key v a = Err (match v with None => Ex_Type | Some _ => Ex_Value end).
Proof. intros Hk Ha Hv. unfold e_string, e_text. cbn [forallb]. rewrite Hk. cbn [bind]. rewrite Ha. destruct v as [s|]; [|reflexivity]. cbn in Hv. now rewrite Hv. Qed.
Lemma set_string_rejected_exn R d t key v p : wf d -> has_elem d t -> tidy t -> plain key -> rejected v ->
  fst (set_string R key (eid t) v p d) = Err (match v with None => Ex_Type | Some _ => Ex_Value end).
Proof.
  intros H Ht Hy Hk Hv. destruct (set_string_step1 R d t key p H Ht Hy Hk) as (d1 & k1 & E1 & _).
  rewrite set_string_bind, (mbind_ok _ _ _ _ _ E1). unfold of_res, mbind at 1.
  rewrite (e_string_err key v _ (proj2 Hk)); [reflexivity| |exact Hv].
  pose proof (prot_legal key t p Hy) as Hp. destruct (prot_after key t p); [cbn [forallb snd]; now rewrite Hp|reflexivity].
Qed.
(** Every way to write a line. *)
Lemma write_run R d t key v p : wf d -> has_elem d t -> tidy t -> plain_keys t -> plain key ->
  let '(a, l') := write key v (prot_after key t p) (book t) in
  exists d' t', (do _ <- set_string R key (eid t) v p; ret A_done) d = (a, d') /\ assigned d d' t t' /\ tidy t' /\ plain_keys t' /\ book t' = l'.
Proof.
  intros H Ht Hy Hp Hk. unfold write.
  assert (B : rejected v -> exists d' t', (do _ <- set_string R key (eid t) v p; ret A_done) d = (Err (match v with None => Ex_Type | Some _ => Ex_Value end), d') /\
    assigned d d' t t' /\ tidy t' /\ plain_keys t' /\ book t' = less_field key (book t)).
  { intros Hv. destruct (set_string_rejected_tidy R d t key v p H Ht Hy Hk Hv) as (e & d' & t' & E & A & Y & Bk). exists d', t'.
    pose proof (set_string_rejected_exn R d t key v p H Ht Hy Hk Hv) as Ex. rewrite E in Ex. cbn [fst] in Ex. injection Ex as ->.
    split; [unfold mbind; now rewrite E|]. split; [exact A|]. split; [exact Y|]. split; [|exact Bk].
    intros f Hf. rewrite Bk in Hf. apply Hp. now apply filter_In in Hf. }
  destruct v as [s|]; [|exact (B I)]. destruct (text_ok s) eqn:Es; [|exact (B Es)].
  destruct (set_string_spec R d t key s p H Ht Hy Hk Es) as (d' & t' & E & A & Y & Bk). exists d', t'.
  split; [unfold mbind; now rewrite E|]. split; [exact A|]. split; [exact Y|]. split; [|exact Bk]. eapply book_plain; eauto.
Qed.
Lemma assigned_refl d t : wf d -> has_elem d t -> assigned d d t t.
Proof. intros H Ht. split; [exact H|]. split; [exact Ht|]. repeat split; auto. Qed.
Lemma set_prop_string R d t p v : wf d -> has_elem d t -> tidy t -> exists q,
  set_prop R p (eid t) v d = set_string R (prop_name p) (eid t) v q d /\
  prot_after (prop_name p) t q = (if secret p && negb (filled (line_text (prop_name p) (book t))) then Some $"True" else line_flag (prop_name p) (book t)).
Proof.
  intros H Ht Hy. change (line_text (prop_name p) (book t)) with (field_text (prop_name p) t).
  destruct p; cbn [set_prop secret andb]; try (exists None; split; reflexivity);
    [unfold set_password; rewrite (mbind_ok _ _ _ _ _ (get_string_spec R d t $"Password" H Ht Hy (prop_plain P_password)))
    |unfold set_otp; rewrite (mbind_ok _ _ _ _ _ (get_string_spec R d t $"otp" H Ht Hy (prop_plain P_otp)))];
    eexists; (split; [reflexivity|]); rewrite <- filled_truthy; cbn [prop_name]; destruct (filled _); reflexivity.
Qed.
Lemma call_run R d t c : wf d -> has_elem d t -> tidy t -> plain_keys t -> key_plain c ->
  let '(a, l') := line_step c (book t) in
  exists d' t', do_call R (eid t) c d = (a, d') /\ assigned d d' t t' /\ tidy t' /\ plain_keys t' /\ book t' = l'.
Proof.
  intros H Ht Hy Hp Hc. destruct c as [p v|key v b|key|p|key|key|]; cbn [line_step do_call key_plain] in *.
  - destruct (set_prop_string R d t p v H Ht Hy) as (q & E & Ep). rewrite <- Ep. pose proof (write_run R d t (prop_name p) v q H Ht Hy Hp (prop_plain p)) as W.
    destruct (write (prop_name p) v (prot_after (prop_name p) t q) (book t)) as [a l']. destruct W as (d' & t' & W & G). exists d', t'. split; [|exact G].
    rewrite <- W. unfold mbind. now rewrite E.
  - unfold set_custom_property. rewrite builtin_reserved. destruct (is_builtin key).
    + exists d, t. split; [reflexivity|]. split; [now apply assigned_refl|]. auto.
    + exact (write_run R d t key v (Some b) H Ht Hy Hp Hc).
  - destruct (is_builtin key) eqn:B.
    + exists d, t. split; [unfold mbind; rewrite delete_custom_missing; auto; left; now apply reserved_builtin; rewrite builtin_reserved|]. split; [now apply assigned_refl|]. auto.
    + assert (Nb : ~ builtin (Some key)) by (rewrite <- reserved_builtin, builtin_reserved; congruence).
      destruct (look_field key (book t)) as [f|] eqn:F.
      * destruct (delete_custom_spec R d t key H Ht Hy Hc Nb) as (d' & t' & E & A & Y & Bk); [congruence|]. exists d', t'.
        split; [unfold mbind; now rewrite E|]. split; [exact A|]. split; [exact Y|]. split; [|exact Bk]. intros g Hg. rewrite Bk in Hg. apply Hp. now apply filter_In in Hg.
      * exists d, t. split; [unfold mbind; rewrite delete_custom_missing; auto|]. split; [now apply assigned_refl|]. auto.
  - exists d, t. split; [|split; [now apply assigned_refl|auto]]. rewrite get_prop_run. unfold mbind. now rewrite (get_string_spec R d t (prop_name p) H Ht Hy (prop_plain p)).
  - exists d, t. split; [|split; [now apply assigned_refl|auto]]. unfold get_custom_property. rewrite builtin_reserved. destruct (is_builtin key); [reflexivity|].
    unfold mbind. now rewrite (get_string_spec R d t key H Ht Hy Hc).
  - exists d, t. split; [|split; [now apply assigned_refl|auto]]. destruct (is_builtin key) eqn:B.
    + unfold is_custom_property_protected. rewrite builtin_reserved, B. reflexivity.
    + assert (Nb : ~ builtin (Some key)) by (rewrite <- reserved_builtin, builtin_reserved; congruence).
      unfold mbind. rewrite (protected_spec R d t key H Ht Hy Hc Nb). reflexivity.
  - exists d, t. split; [|split; [now apply assigned_refl|auto]]. unfold mbind. rewrite (custom_properties_spec R d t H Ht Hy Hp). unfold ret, props. do 4 f_equal.
    apply filter_ext. intros f. destruct (f_key f) as [k|]; [|reflexivity]. now rewrite builtin_reserved.
Qed.
Lemma only_trans i d d1 d2 : only [i] d d1 -> only [i] d1 d2 -> only [i] d d2.
Proof.
  intros (A1 & A2 & A3 & A4 & A5 & A6) (B1 & B2 & B3 & B4 & B5 & B6).
  split; [congruence|]. split; [congruence|]. split; [congruence|]. split; [eapply Nat.le_trans; eauto|]. split; [congruence|]. auto.
Qed.
Lemma assigned_trans d d1 d2 t t1 t2 : assigned d d1 t t1 -> assigned d1 d2 t1 t2 -> assigned d d2 t t2.
Proof.
  intros (A1 & A2 & (A3 & A4 & A5 & A6) & A7 & A8) (B1 & B2 & (B3 & B4 & B5 & B6) & B7 & B8). rewrite A3 in B8.
  split; [exact B1|]. split; [exact B2|]. split; [repeat split; congruence|]. split; [congruence|]. eapply only_trans; eauto.
Qed.
(** Every sequence of calls gives the answers of the ledger and ends with its lines. *)
Lemma calls_run R cs : forall d t, wf d -> has_elem d t -> tidy t -> plain_keys t -> Forall key_plain cs ->
  let '(a, l') := line_steps cs (book t) in
  exists d' t', do_calls R (eid t) cs d = (a, d') /\ assigned d d' t t' /\ tidy t' /\ plain_keys t' /\ book t' = l'.
Proof.
  induction cs as [|c cs IH]; intros d t H Ht Hy Hp Hc; cbn [line_steps do_calls].
  - exists d, t. split; [reflexivity|]. split; [now apply assigned_refl|]. auto.
  - apply Forall_cons_iff in Hc as [Hc Hcs]. pose proof (call_run R d t c H Ht Hy Hp Hc) as G. destruct (line_step c (book t)) as [a l1].
    destruct G as (d1 & t1 & E & A & Y & P & B). pose proof A as (W1 & T1 & (I1 & _) & _). specialize (IH d1 t1 W1 T1 Y P Hcs). rewrite B, I1 in IH.
    destruct (line_steps cs l1) as [m l2]. destruct IH as (d2 & t2 & E2 & A2 & Y2 & P2 & B2). exists d2, t2. rewrite E, E2. split; [reflexivity|].
    split; [eapply assigned_trans; eauto|]. auto.
Qed.
