(** The settings of the database through histories of calls. *)
From Coq Require Import ZifyBool ZifyNat ZifyN.
From Verif Require Import Base PyStr Xml Tree XPath Uuid Time Db FindSpec XPath_facts XPath_eval Find_facts Find_path Api ApiSpec StructSpec CredSpec Heap Prim Api_xpath Struct Struct_add Struct_empty Struct_hist Struct_claims Struct_find Struct_index Struct_trash Struct_bin Bin_xpath IntegritySpec Integrity Integrity_ops Integrity_calls Integrity_step Integrity_hist LocalSpec Local Local_step LocalEx RegisterSpec Register_mute Register_calls Level Register Cred SettingSpec.

Definition slot (q : quantity) : str := match q with Q_text p => text_tag p | Q_days w => due_tag w | Q_changed => $"MasterKeyChanged" end.
Lemma slot_meta q : In (slot q) meta_tags.
Proof. destruct q as [[]|[]|]; cbn; tauto. Qed.
Definition trail (q : quantity) : list str := [$"Meta"; slot q].
Lemma trail_free q o : settings o -> ~ sets q o -> forall U, In U (minds o) -> inb (trail q) U = false.
Proof.
  intros St N U HU. destruct o; cbn [minds settings sets] in *.
  all: try (cbn [In] in HU; repeat (destruct HU as [<-|HU]; [destruct q as [[]|[]|]; reflexivity|]); now destruct HU).
  - destruct HU as [<-|[]]. destruct p, q as [[]|[]|]; reflexivity.
  - destruct HU as [<-|HU]; [destruct q as [[]|[]|]; reflexivity|]. destruct modify; [|destruct HU]. destruct HU as [<-|[]]. destruct q as [[]|[]|]; reflexivity.
  - destruct HU as [<-|[]]. destruct St as [<-|[<-|[<-|[]]]]; destruct q as [[]|[]|]; first [reflexivity|now destruct N].
  - destruct HU as [<-|[]]. destruct w, q as [[]|[]|]; first [reflexivity|now destruct N].
  - destruct HU as [<-|[]]. destruct q as [[]|[]|]; first [reflexivity|now destruct N].
Qed.
Lemma step_setting R Zl C o d q r : sane d -> typed d o -> settings o -> ~ sets q o -> is_tag (lk d) $"KeePassFile" r -> fixed d (next R Zl (C, o) d) (trail q) r.
Proof.
  intros O T St N (r0 & E0 & N0). destruct (run R Zl C o d) as [a d1] eqn:Er. unfold next. cbn [fst snd]. rewrite Er. cbn [snd].
  destruct (step_mute (inb (trail q)) R Zl C o d O T St (trail_free q o St N) a d1 Er) as (O1 & T1 & K1).
  apply (kept_fixed (inb (trail q)) d d1 (trail q) (proj1 O) (proj1 O1) T1 K1) with r0; auto; [|rewrite N0; discriminate|discriminate]. intros V HV. split; [now apply inb_In|]. destruct HV as [<-|[<-|[]]]; [discriminate|]. destruct q as [[]|[]|]; discriminate.
Qed.
Lemma history_setting R Zl q l : forall d r, sane d -> all_typed R Zl l d -> Forall (fun c => settings (snd c)) l -> (forall c, In c l -> ~ sets q (snd c)) -> is_tag (lk d) $"KeePassFile" r -> l <> [] -> fixed d (later R Zl l d) (trail q) r.
Proof.
  induction l as [|[C o] l IH]; intros d r O T St N Tr Ne; [congruence|]. cbn [later all_typed] in *. destruct T as [T1 T2]. apply Forall_cons_iff in St as [S1 S2]. cbn [snd] in *.
  pose proof (step_setting R Zl C o d q r O T1 S1 (N _ (or_introl eq_refl)) Tr) as F. destruct l as [|c2 l]; [exact F|].
  destruct (later_good R Zl [(C, o)] d (proj1 O) (proj2 O) (conj T1 Logic.I)) as (W1 & L1 & _ & _ & Tl). cbn [later] in *. apply (fixed_trans _ (next R Zl (C, o) d)); [exact F|]. apply IH; auto; [now split|intros c Hc; apply N; now right|discriminate].
Qed.
Lemma root_there d : wf d -> exists r F, d_forest d = r :: F /\ has d r /\ hd_error (rts d) = Some (eid r).
Proof. intros (Hn & _). destruct (d_forest d) as [|r F] eqn:E; [congruence|]. exists r, F. split; [reflexivity|]. split; [|reflexivity]. apply in_flat_map. exists r. split; [now left|]. destruct r. now left. Qed.
Lemma meta_alike d d' q r r' : wf d -> wf d' -> alike d d' (trail q) r r' -> etag r' = etag r -> option_map etext (meta_of (slot q) r') = option_map etext (meta_of (slot q) r).
Proof.
  intros W W' A E. unfold meta_of. rewrite E. destruct (str_eqb _ _); [|reflexivity]. apply (text_hd d d' W W'). apply flat_alike; auto. now apply kids_alike.
Qed.
Lemma ask_run R d q : wf d -> exists e, (forall r F, d_forest d = r :: F -> e = meta_of (slot q) r) /\ meta_elem R (slot q) d = (Ok e, d).
Proof. intros W. destruct (root_there d W) as (r & F & EF & _). exists (meta_of (slot q) r). split; [intros r1 F1 E1; congruence|]. now apply (meta_run R d r F); [| |apply slot_meta]. Qed.
Theorem setting_kept R Zl q l d : wf d -> laid d -> all_typed R Zl l d -> Forall (fun c => settings (snd c)) l -> (forall c, In c l -> ~ sets q (snd c)) -> fst (ask R q (later R Zl l d)) = fst (ask R q d).
Proof.
  intros W L T St N. destruct l as [|c l]; [reflexivity|]. set (h := c :: l) in *. destruct (later_good R Zl h d W L T) as (W' & L' & Hd & _ & Tl). set (d' := later R Zl h d) in *.
  assert (Hm : v4 d' = v4 d). { unfold v4. f_equal. clear -h. unfold d'. clear d'. generalize h as m. intros m. revert d. induction m as [|x m IH]; intros d; [reflexivity|]. cbn [later]. rewrite IH. apply level. }
  destruct (root_there d W) as (r & F & EF & Hr & Er). destruct (root_there d' W') as (r' & F' & EF' & Hr' & Er'). rewrite Er, Er' in Hd. injection Hd as Ei.
  assert (Et : etag r' = etag r). { destruct (Tl (eid r) (etag r) (has_tag d r W Hr)) as (q1 & Eq & Tq). rewrite <- Ei in Eq. pose proof (look_self _ r' (wf_unique d' W') Hr') as E2. rewrite Eq in E2. injection E2 as ->. exact Tq. }
  assert (M : option_map etext (meta_of (slot q) r') = option_map etext (meta_of (slot q) r)).
  { destruct (str_eqb (etag r) $"KeePassFile") eqn:K.
    - apply str_eqb_eq in K. apply (meta_alike d d'); auto. split; [exact Hr|]. split; [exact Hr'|]. split; [exact Ei|]. apply history_setting; auto; [now split|rewrite <- K; now apply has_tag|discriminate].
    - unfold meta_of. now rewrite Et, K. }
  pose proof (meta_run R d r F _ W EF (slot_meta q)) as E1. pose proof (meta_run R d' r' F' _ W' EF' (slot_meta q)) as E2.
  destruct q as [p|[]|]; cbn [slot ask due_tag due_days] in *; unfold get_meta, credchange_days, credchange_date; rewrite !bind_bind, (mbind_ok _ _ _ _ _ E1), (mbind_ok _ _ _ _ _ E2);
    destruct (meta_of _ r) as [e|], (meta_of _ r') as [e'|]; cbn in M; try discriminate M; try reflexivity; injection M as M; rewrite M; try reflexivity.
  - destruct (etext e) as [s|]; [|reflexivity]. unfold mbind, of_res. destruct (int_of_str s); reflexivity.
  - destruct (etext e) as [s|]; [|reflexivity]. unfold mbind, of_res. destruct (int_of_str s); reflexivity.
  - unfold mbind, decode_t, lift. rewrite Hm. destruct (etext e) as [s|]; [destruct (decode_time _ s)|]; reflexivity.
Qed.
Lemma store_back R Zl C d q o v : wf d -> stores d q o v -> exists w, stores d q o w /\ fst (ask R q (next R Zl (C, o) d)) = Ok w.
Proof.
  intros W H. destruct H as [p i v Hs Ht|w i n Hs|i v Hs Hm Hv Ho|i v b x Hs Hm Hv Hb Hr H6 Hx]; unfold next; cbn [run fst snd ask].
  - destruct (set_meta_back R d p i v W Hs Ht) as (d' & E & _ & _ & G). exists (V_text (Some v)). split; [now apply stores_text with i|]. rewrite E. cbn [snd]. now rewrite (mbind_ok _ _ _ _ _ G).
  - destruct (set_days_back R d w i n W Hs) as (d' & E & _ & _ & G). exists (V_days (Some n)). split; [now apply stores_days with i|]. rewrite E. cbn [snd]. now rewrite (mbind_ok _ _ _ _ _ G).
  - destruct (set_date_back3 R d i v W Hs Hm Hv Ho) as (d' & E & _ & _ & G). exists (V_date (Some v)). split; [now apply stores_old with i|]. rewrite E. cbn [snd]. now rewrite (mbind_ok _ _ _ _ _ G).
  - destruct (set_date_back R d i v b W Hs Hm Hv Hb Hr H6) as (d' & y & E & _ & _ & G & Hy). exists (V_date (Some y)). split; [now apply stores_new with i b|]. rewrite E. cbn [snd]. now rewrite (mbind_ok _ _ _ _ _ G).
Qed.
Theorem setting_last R Zl C q o v l d : wf d -> laid d -> stores d q o v -> all_typed R Zl ((C, o) :: l) d -> Forall (fun c => settings (snd c)) l -> (forall c, In c l -> ~ sets q (snd c)) ->
  exists w, stores d q o w /\ fst (ask R q (later R Zl ((C, o) :: l) d)) = Ok w.
Proof.
  intros W L H T St N. destruct (store_back R Zl C d q o v W H) as (w & Hw & E). exists w. split; [exact Hw|]. cbn [later all_typed] in *. destruct T as [T1 T2]. destruct (later_good R Zl [(C, o)] d W L (conj T1 Logic.I)) as (W1 & L1 & _). cbn [later] in *. now rewrite setting_kept.
Qed.
(** Whether a change of the credentials is due depends on the date, the days and the clock only. *)
Lemma due_same R C w d d' : fst (ask R Q_changed d') = fst (ask R Q_changed d) -> fst (ask R (Q_days w) d') = fst (ask R (Q_days w) d) -> fst (due_now R C w d') = fst (due_now R C w d).
Proof.
  intros A B. assert (Rd : reads (credchange_date R)) by (unfold credchange_date, meta_elem, xfirst, decode_t; repeat first [progress reads | match goal with |- reads (match ?x with _ => _ end) => destruct x end]).
  assert (Rn : forall T, reads (credchange_days R T)) by (intros T; unfold credchange_days, meta_elem, xfirst; repeat first [progress reads | match goal with |- reads (match ?x with _ => _ end) => destruct x end]).
  assert (A' : fst (credchange_date R d') = fst (credchange_date R d)). { cbn [ask] in A. unfold mbind in A. destruct (credchange_date R d) as [[x|x] e], (credchange_date R d') as [[y|y] e']; cbn in *; congruence. }
  assert (B' : fst (due_days R w d') = fst (due_days R w d)). { cbn [ask] in B. unfold mbind in B. destruct (due_days R w d) as [[x|x] e], (due_days R w d') as [[y|y] e']; cbn in *; congruence. }
  assert (G : forall T, fst (credchange_days R T d') = fst (credchange_days R T d) -> fst (credchange_due R C T d') = fst (credchange_due R C T d)).
  { intros T E. unfold credchange_due, mbind. pose proof (Rd d) as R1. pose proof (Rd d') as R2. destruct (credchange_date R d) as [x e], (credchange_date R d') as [x' e']. cbn [fst snd] in *. subst x' e e'. destruct x as [[c|]|]; try reflexivity.
    destruct (credchange_days R T d) as [n e], (credchange_days R T d') as [n' e']. cbn [fst] in *. subst n'. destruct n as [[[|z|z]|]|]; try reflexivity; destruct (instant (now C)), (instant c); try reflexivity. destruct z; reflexivity. all: destruct z; reflexivity. }
  destruct w; now apply G.
Qed.
Theorem due_kept R Zl C w l d : wf d -> laid d -> all_typed R Zl l d -> Forall (fun c => settings (snd c)) l -> (forall c, In c l -> ~ sets Q_changed (snd c) /\ ~ sets (Q_days w) (snd c)) -> fst (due_now R C w (later R Zl l d)) = fst (due_now R C w d).
Proof. intros W L T St N. apply due_same; apply setting_kept; auto; intros c Hc; now apply N. Qed.
