(** What is done and taken back leaves the document as it was. *)
From Verif Require Import Base PyStr Xml Tree XPath Uuid Time Db FindSpec XPath_facts XPath_eval Find_facts Find_path Api ApiSpec StructSpec CredSpec Heap Prim Api_xpath Api_fields Api_custom Api_sub Struct Struct_add Struct_empty Struct_hist Struct_claims Struct_bin Struct_index Lib Kdbx Object ObjectSpec FailSpec IntegritySpec Scratch.

Lemma less_absent' e l : ~ In e l -> less e l = l.
Proof.
  induction l as [|k l IH]; intros H; [reflexivity|]. unfold less in *. cbn [filter]. destruct (Nat.eqb_spec k e) as [->|_]; [destruct H; now left|]. cbn [negb]. f_equal. apply IH. intros Hk. apply H. now right.
Qed.
Lemma doc_row d x : wf d -> in_doc d x -> exists r, lk d x = Some r.
Proof. intros W (r0 & _ & [q E|j k q B E Hk]); [now exists q|]. apply (kid_look d j k W). now exists q. Qed.
Lemma less_last e l : ~ In e l -> less e (l ++ [e]) = l.
Proof. intros H. unfold less. rewrite filter_app. fold (less e l). rewrite less_absent' by exact H. cbn [filter]. rewrite Nat.eqb_refl. cbn [negb]. apply app_nil_r. Qed.
(** A new child of an element of the document, and taken out again. *)
Lemma added_cut d d1 d2 p i : wf d -> wf d2 -> in_doc d p -> added d d1 p i -> cut d1 d2 i -> untouched d d2.
Proof.
  intros W W2 Dp (Ni & (A1 & A2 & A3 & _ & A5 & A6) & A7) (C1 & C2 & C3 & C4 & C5).
  assert (Nk : forall x r, lk d x = Some r -> ~ In i (r_kids r)) by (intros x r E Hk; destruct (kid_look d x i W) as (q & Eq); [now exists r|congruence]).
  split; [|repeat split; congruence]. apply rows_document; [exact W|exact W2|congruence|]. intros x Hx. destruct (doc_row d x W Hx) as (r & E). specialize (Nk x r E). destruct (Nat.eq_dec x p) as [->|Nx].
  - rewrite (C5 p _ (A7 r E)), E. f_equal. cbn [r_kids with_kids]. rewrite (less_last _ _ Nk). now destruct r.
  - assert (E1 : lk d1 x = Some r) by (apply A6; [exact E|]; intros [->|[]]; congruence). rewrite (C5 x _ E1), E, (less_absent' _ _ Nk). f_equal. apply with_kids_id.
Qed.
Lemma added_kid d d1 p i : wf d -> in_doc d p -> added d d1 p i -> is_kid d1 p i.
Proof. intros W Dp (_ & _ & A7). destruct (doc_row d p W Dp) as (r & E). exists (with_kids (r_kids r ++ [i]) r). split; [now apply A7|]. apply in_app_iff. right. now left. Qed.
Lemma added_delete d d1 p i : wf d -> wf d1 -> in_doc d p -> in_doc d1 p -> added d d1 p i -> exists d2, delete i d1 = (Ok tt, d2) /\ untouched d d2.
Proof.
  intros W W1 Dp Dp1 A. pose proof (added_kid d d1 p i W Dp A) as K. destruct (delete_claim d1 p i W1 Dp1 K) as (d2 & E & W2 & Cu & _). exists d2. split; [exact E|]. exact (added_cut d d1 d2 p i W W2 Dp A Cu).
Qed.
(** *** Attachments *)
Lemma attach_undone d e id f a d1 : wf d -> in_doc d e -> add_attachment e id f d = (Ok a, d1) -> exists d2, delete a d1 = (Ok tt, d2) /\ untouched d d2.
Proof.
  intros W D E. unfold add_attachment in E. apply mbind_inv in E as [(x & _ & C)|(k & d0 & E0 & E)]; [discriminate C|]. unfold of_res in E0. injection E0 as _ <-.
  destruct (append_new_claim d e (e_node $"Binary" [k; X $"Value" [($"Ref", str_of_Z id)] None []]) W D) as (t & d' & E2 & _ & _ & W1 & A & _ & Dd). rewrite E2 in E. injection E as <- <-. apply (added_delete d d' e (d_next d)); auto. apply Dd. now left.
Qed.
(** *** Snapshots *)
Lemma snapshot_undone d t h : wf d -> has d t -> in_doc d (eid t) -> kids_of $"History" t = [h] -> exists s d1 d2, save_history (eid t) d = (Ok tt, d1) /\ lk d s = None /\ delete_history (eid t) (Some s) d1 = (Ok tt, d2) /\ untouched d d2.
Proof.
  intros W Ht D Kh. destruct (save_again d t h W Ht D Kh) as (s & d1 & E & W1 & A & Hs & _ & Dd & _).
  assert (Ih : In h (kids_of $"History" t)) by (rewrite Kh; now left). apply kids_of_in in Ih as [Ih Th]. pose proof (has_kid d t h Ht Ih) as Hh.
  assert (Dh : in_doc d (eid h)). { destruct D as (r & Er & B). exists r. split; [exact Er|]. eapply below_kid; [exact B|apply (look_self _ t (wf_unique _ W) Ht)|cbn; now apply in_map]. }
  assert (Dh1 : in_doc d1 (eid h)) by (apply Dd; now left). destruct (added_delete d d1 (eid h) (eid s) W W1 Dh Dh1 A) as (d2 & E2 & U).
  exists (eid s), d1, d2. split; [exact E|]. split; [apply A|]. split; [|exact U].
  pose proof (added_kid d d1 (eid h) (eid s) W Dh A) as K. rewrite <- (remove_delete d1 (eid h) (eid s) W1 K) in E2.
  pose proof (added_tree d d1 h s W W1 A Hh Hs) as Hh1. destruct A as (_ & O & _). pose proof (only_kid_tree d d1 t h (with_last h s) W W1 Ht Ih eq_refl Hh1 O) as Ht1. set (t1 := El (eid t) (etag t) (eattrs t) (etext t) (map (swap_kid (with_last h s)) (ekids t))) in *.
  assert (F1 : find1 $"History" t1 = Some (with_last h s)). { unfold find1, kids_of, t1. cbn [ekids]. rewrite (filter_swap_one $"History" h (with_last h s) (ekids t)); [reflexivity|exact (kids_nodup (d_forest d) t (wf_unique _ W) Ht)|exact Ih|reflexivity|reflexivity|exact Kh]. }
  unfold delete_history. change (eid t) with (eid t1). rewrite (mbind_ok _ _ _ _ _ (the_run d1 _ t1 W1 Ht1 eq_refl)), F1. exact E2.
Qed.
Lemma first_snapshot_undone d t : wf d -> has d t -> in_doc d (eid t) -> kids_of $"History" t = [] -> exists d1 d2, save_history (eid t) d = (Ok tt, d1) /\ delete_history (eid t) None d1 = (Ok tt, d2) /\ untouched d d2.
Proof.
  intros W Ht D Kh. destruct (save_first d t W Ht D Kh) as (s & h & d1 & E & W1 & A & Hh & Th & _ & _ & Dd & _). assert (D1 : in_doc d1 (eid t)) by (apply Dd; now left).
  destruct (added_delete d d1 (eid t) (eid h) W W1 D D1 A) as (d2 & E2 & U). exists d1, d2. split; [exact E|]. split; [|exact U].
  pose proof (added_kid d d1 (eid t) (eid h) W D A) as K. rewrite <- (remove_delete d1 (eid t) (eid h) W1 K) in E2. pose proof (added_tree d d1 t h W W1 A Ht Hh) as Ht1.
  unfold delete_history. change (eid t) with (eid (with_last t h)). rewrite (mbind_ok _ _ _ _ _ (the_run d1 _ (with_last t h) W1 Ht1 eq_refl)).
  assert (F1 : find1 $"History" (with_last t h) = Some h) by (unfold find1, with_last; rewrite kids_of_app; destruct t; cbn [eid etag eattrs etext ekids] in *; rewrite Kh; unfold kids_of; cbn [ekids filter app]; rewrite Th, str_eqb_refl; reflexivity). rewrite F1. exact E2.
Qed.
(** *** Custom properties *)
Lemma custom_undone R d t key v b : wf d -> has d t -> in_doc d (eid t) -> tidy t -> plain key -> ~ builtin (Some key) -> text_ok v = true -> look_field key (book t) = None ->
  exists d1 d2, set_custom_property R (eid t) key (Some v) b d = (Ok tt, d1) /\ delete_custom_property R (eid t) key d1 = (Ok tt, d2) /\ untouched d d2.
Proof.
  intros W Ht D Ty Pk Nb Tv Lf. pose proof Nb as Nr. rewrite <- reserved_builtin in Nr. assert (Er : reserved (Some key) = false) by (destruct (reserved (Some key)); congruence).
  destruct (set_string_spec R d t key v (Some b) W Ht Ty Pk Tv) as (d1 & t1 & E1 & As & Ty1 & B1). exists d1. pose proof As as (W1 & Ht1 & (Ei1 & _) & _).
  assert (Fn : fields key t = []). { rewrite look_fields in Lf by exact Ty. destruct (fields key t); [reflexivity|discriminate Lf]. }
  assert (Ad : exists c, eid c = d_next d /\ added d d1 (eid t) (eid c) /\ has d1 c /\ in_doc d1 (eid t)).
  { unfold set_string in E1. rewrite (mbind_ok _ _ _ _ _ (string_first R d t key W Ht Pk)), Fn in E1. cbn [hd_error] in E1. rewrite (mbind_ok (ret (Some (py_str_bool b))) _ d _ d eq_refl) in E1. rewrite (mbind_ok (ret tt) _ d tt d eq_refl) in E1.
    apply mbind_inv in E1 as [(x & _ & C)|(x & d0 & E0 & E1)]; [discriminate C|]. unfold of_res in E0. injection E0 as _ <-. destruct (append_new_claim d (eid t) x W D) as (c & d' & E2 & Ec & _ & W' & A & Hc & Dd). rewrite (mbind_ok _ _ _ _ _ E2) in E1. injection E1 as <-.
    exists c. rewrite Ec. split; [reflexivity|]. split; [exact A|]. split; [exact Hc|]. apply Dd. now left. }
  destruct Ad as (c & Ec & A & Hc & D1). destruct (added_delete d d1 (eid t) (eid c) W W1 D D1 A) as (d2 & E2 & U). exists d2.
  split; [unfold set_custom_property; rewrite Er; exact E1|]. split; [|exact U]. pose proof (added_kid d d1 _ _ W D A) as K. rewrite <- (remove_delete d1 _ _ W1 K) in E2.
  pose proof (added_tree d d1 t c W W1 A Ht Hc) as Ht1'. assert (t1 = with_last t c) by (apply (unique_inj (d_forest d1)); [apply W1|exact Ht1|exact Ht1'|exact Ei1]). subst t1.
  unfold delete_custom_property. change (eid t) with (eid (with_last t c)). rewrite (mbind_ok _ _ _ _ _ (string_keys_spec d1 (with_last t c) true W1 Ht1 Ty1)).
  assert (existsb (ostr_eqb (Some key)) (filter (fun k => negb (reserved k)) (map f_key (book (with_last t c)))) = true) as ->.
  { apply existsb_exists. exists (Some key). split; [|cbn; apply str_eqb_refl]. apply filter_In. split; [|now rewrite Er]. rewrite B1, map_app. apply in_app_iff. right. now left. }
  assert (F1 : hd_error (fields key (with_last t c)) = Some c).
  { assert (G : look_field key (book (with_last t c)) <> None).
    { intros G. unfold look_field in G. assert (I : In (Fld (Some key) (Some v) (prot_after key t (Some b))) (book (with_last t c))) by (rewrite B1; apply in_app_iff; right; now left). apply (find_none _ _ G) in I. unfold has_key in I. cbn [f_key] in I. rewrite str_eqb_refl in I. discriminate I. }
    rewrite look_fields in G by exact Ty1. unfold fields, with_last in *. cbn [ekids] in *. rewrite filter_app, Fn in *. cbn [app filter] in *. destruct (_ && _); [reflexivity|]. now destruct G. }
  rewrite (mbind_ok _ _ _ _ _ (string_first R d1 (with_last t c) key W1 Ht1 Pk)), F1. exact E2.
Qed.
(** *** The last child of a group, moved to another group and back *)
Lemma move_undone d p q t l : wf d -> has d t -> in_doc d p -> in_doc d q -> row_kids d p (l ++ [eid t]) -> ~ below (lk d) (eid t) q ->
  exists d1 d2, move (eid t) q d = (Ok tt, d1) /\ move (eid t) p d1 = (Ok tt, d2) /\ untouched d d2.
Proof.
  intros W Ht Dp Dq (rp & Ep & Kp) Nq. assert (K : is_kid d p (eid t)) by (exists rp; split; [exact Ep|]; rewrite Kp; apply in_app_iff; right; now left). destruct (kid_below d p (eid t) W K) as [Bp Np].
  assert (Nr : hd_error (rts d) <> Some (eid t)) by (intros C; destruct Dp as (r & Er & B); rewrite Er in C; injection C as ->; contradiction).
  destruct (move_claim d q t W Dq Ht Nq Nr) as (d1 & E1 & W1 & (A1 & A2 & A3 & A4 & A5) & Ht1 & _ & Dd & _). exists d1.
  assert (Dp1 : in_doc d1 p) by (apply Dd; now left).
  assert (Np1 : ~ below (lk d1) (eid t) p). { intros B. apply Np. apply (below_ids (d_forest d1) t p (wf_unique _ W1) Ht1) in B. now apply (below_ids (d_forest d) t p (wf_unique _ W) Ht). }
  destruct (move_claim d1 p t W1 Dp1 Ht1 Np1) as (d2 & E2 & W2 & (B1 & B2 & B3 & B4 & B5) & _); [rewrite A4; exact Nr|]. exists d2. split; [exact E1|]. split; [exact E2|].
  split; [|repeat split; congruence]. apply rows_document; [exact W|exact W2|congruence|]. intros x Hx. destruct (doc_row d x W Hx) as (r & E). rewrite (B5 x _ (A5 x r E)), E. f_equal. cbn [r_kids with_kids].
  assert (Ll : forall m, less (eid t) (less (eid t) m) = less (eid t) m) by (intros m; unfold less; rewrite filter_filter; apply filter_same; intros k _; now destruct (k =? eid t)%nat).
  assert (Le : less (eid t) (if (x =? q)%nat then less (eid t) (r_kids r) ++ [eid t] else less (eid t) (r_kids r)) = less (eid t) (r_kids r)).
  { destruct (x =? q)%nat; [|apply Ll]. apply less_last. unfold less. intros I. apply filter_In in I as [_ I]. rewrite Nat.eqb_refl in I. discriminate I. }
  rewrite Le. destruct (Nat.eqb_spec x p) as [->|Nx].
  - rewrite Ep in E. injection E as <-. rewrite Kp, less_last; [rewrite <- Kp; now destruct rp|]. pose proof (row_nodup d p rp W Ep) as N. rewrite Kp in N. apply NoDup_remove_2 in N. now rewrite app_nil_r in N.
  - rewrite less_absent'; [now destruct r|]. intros I. apply Nx. apply (one_parent d x p (eid t) W); [now exists r|exact K].
Qed.
