(** Deletions may be made in either order, and before or after assignments in place. *)
From Verif Require Import Base PyStr Xml Tree XPath Uuid Time Db Save FindSpec XPath_facts XPath_eval Find_facts Api ApiSpec StructSpec CredSpec Heap Prim Api_xpath Api_fields Api_sub Api_claims Struct Struct_bin Struct_trash Bin_xpath Cred Relabel Integrity_ops IntegritySpec Lib Kdbx Object ObjectSpec FailSpec Scratch AgainSpec Again LastSpec Last LastSet LastAtt SwapSpec Swap Apart Inside DropSpec.

Lemma delete_parent d i d1 : wf d -> delete i d = (Ok tt, d1) -> exists p, is_kid d p i.
Proof.
  intros W E. unfold delete in E. destruct (parent_of (d_forest d) i) as [p|] eqn:P; [|discriminate]. apply parent_of_In in P as [Hp Hi]; [|apply W]. exists (eid p), (row_of p). split; [now apply look_self; [apply W|]|exact Hi].
Qed.
Lemma delete_cut d i d1 : wf d -> delete i d = (Ok tt, d1) -> wf d1 /\ cut d d1 i /\ (forall k, lk d1 k <> None -> lk d k <> None).
Proof. intros W E. destruct (delete_parent d i d1 W E) as (p & K). destruct (delete_run d p i W K) as (d1' & E' & W1 & Cu & _). rewrite E in E'. injection E' as <-. split; [exact W1|]. split; [exact Cu|]. exact (delete_same d p i d1 W K E). Qed.
Lemma less_less i j l : less i (less j l) = less j (less i l).
Proof. unfold less. induction l as [|x l IH]; [reflexivity|]. cbn [filter]. destruct (x =? j)%nat eqn:A, (x =? i)%nat eqn:B; cbn [negb filter]; rewrite ?A, ?B; cbn [negb]; rewrite ?IH; reflexivity. Qed.
Lemma cut_twice d d1 d2 d3 d4 i j : wf d2 -> wf d4 -> cut d d1 i -> cut d1 d2 j -> cut d d3 j -> cut d3 d4 i -> (forall k, lk d2 k <> None -> lk d k <> None) -> untouched d2 d4.
Proof.
  intros W2 W4 (A1 & A2 & A3 & A4 & A5) (B1 & B2 & B3 & B4 & B5) (C1 & C2 & C3 & C4 & C5) (D1 & D2 & D3 & D4 & D5) N. split; [|repeat split; congruence]. apply (rows_document d2 d4 W2 W4); [congruence|]. intros x (r0 & _ & B).
  destruct (below_look _ _ _ (wf_unique d2 W2) B) as (r2 & E2). destruct (lk d x) as [r|] eqn:E; [|exfalso; apply (N x); [congruence|exact E]]. rewrite (D5 _ _ (C5 _ _ E)), (B5 _ _ (A5 _ _ E)). cbn [with_kids r_kids r_tag r_attrs r_text]. unfold with_kids. cbn [r_kids r_tag r_attrs r_text]. now rewrite less_less.
Qed.
Theorem deletes_order i j d d1 d2 : wf d -> delete i d = (Ok tt, d1) -> delete j d1 = (Ok tt, d2) -> exists d3 d4, delete j d = (Ok tt, d3) /\ delete i d3 = (Ok tt, d4) /\ untouched d2 d4.
Proof.
  intros W E F. destruct (delete_parent d i d1 W E) as (p & K). destruct (delete_cut d i d1 W E) as (W1 & Cu1 & S1). destruct (delete_parent d1 j d2 W1 F) as (q & (r1 & Er1 & I1)). destruct (delete_cut d1 j d2 W1 F) as (W2 & Cu2 & S2).
  assert (X : exists r, lk d q = Some r) by (destruct (lk d q) as [r|] eqn:Y; [now exists r|exfalso; apply (S1 q); [congruence|exact Y]]). destruct X as (r & Er). pose proof Cu1 as (_ & _ & _ & _ & L1). rewrite (L1 _ _ Er) in Er1. apply Some_inj in Er1. subst r1. cbn [with_kids r_kids] in I1. apply filter_In in I1 as [I1 Nj]. apply Bool.negb_true_iff, Nat.eqb_neq in Nj.
  destruct (delete_run d q j W) as (d3 & E3 & W3 & Cu3 & _); [exists r; auto|]. destruct K as (rp & Ep & Ip). pose proof Cu3 as (_ & _ & _ & _ & L3).
  destruct (delete_run d3 p i W3) as (d4 & E4 & W4 & Cu4 & _). { eexists. split; [exact (L3 _ _ Ep)|]. cbn [with_kids r_kids]. apply filter_In. split; [exact Ip|]. apply Bool.negb_true_iff, Nat.eqb_neq. congruence. }
  exists d3, d4. split; [exact E3|]. split; [exact E4|]. apply (cut_twice d d1 d2 d3 d4 i j); auto.
Qed.
(** *** With an assignment in place *)
Lemma ink_kids b o g l r : ink b o = Some g -> g (with_kids l r) = with_kids l (g r).
Proof.
  unfold ink, wr. intros E. destruct o; try discriminate; repeat match type of E with context [match ?x with _ => _ end] => destruct x; try discriminate end; injection E as <-; reflexivity.
Qed.
Lemma thing_way d i U : thing d i -> In U ways -> tagb (lk d) U i = false.
Proof.
  intros (r & Er & Ht) IU. unfold tagb. rewrite Er. destruct (str_eqb (r_tag r) U) eqn:E; [|reflexivity]. apply str_eqb_eq in E. assert (X : existsb (str_eqb U) ways = true) by (apply existsb_exists; exists U; split; [exact IU|apply str_eqb_refl]). rewrite <- E in X. destruct Ht as [Y|[Y|[Y|[]]]]; rewrite <- Y in X; vm_compute in X; discriminate X.
Qed.
Lemma spot_cut d d1 i o k : wf d -> cut d d1 i -> thing d i -> spot d o = Some k -> spot d1 o = Some k.
Proof.
  intros W (_ & _ & _ & Rr & L) Th S. apply (spot_kept d d1 o k W Rr); [| |exact S].
  - intros r Er. destruct (top_forest d W) as (u & F & EF). assert (Hu : has d u) by (rewrite EF; apply elements_root; now left). assert (r = eid u) as -> by (rewrite EF in Er; cbn in Er; congruence). pose proof (look_self _ u (wf_unique _ W) Hu) as Lu. unfold tagb. now rewrite Lu, (L _ _ Lu).
  - intros U j r IU Ej. unfold kids_tagged. rewrite (L _ _ Ej), Ej. cbn [with_kids r_kids]. destruct (look_has d j r W Ej) as (u & Hu & _ & <-). cbn [row_of r_kids]. assert (A : forall c, In c (map eid (ekids u)) -> tagb (lk d1) U c = tagb (lk d) U c).
    { intros c Hc. apply in_map_iff in Hc as (w & <- & Hw). pose proof (look_self _ w (wf_unique _ W) (has_kid d u w Hu Hw)) as Lw. unfold tagb. now rewrite (L _ _ Lw), Lw. }
    pose proof (thing_way d i U Th IU) as Ni. revert A. generalize (map eid (ekids u)). clear -Ni. induction l as [|c l IH]; intros A; [reflexivity|]. unfold less in *. cbn [filter]. specialize (IH (fun x Hx => A x (or_intror Hx))). destruct (Nat.eqb_spec c i) as [->|N]; cbn [negb filter].
    + now rewrite IH, Ni.
    + now rewrite (A c (or_introl eq_refl)), IH.
Qed.
Theorem delete_assign R Zl C o i k d d1 d2 : wf d -> thing d i -> spot d o = Some k -> delete i d = (Ok tt, d1) -> IntegritySpec.run R Zl C o d1 = (Ok tt, d2) ->
  exists d3 d4, IntegritySpec.run R Zl C o d = (Ok tt, d3) /\ delete i d3 = (Ok tt, d4) /\ untouched d2 d4.
Proof.
  intros W Th S E F. destruct (delete_parent d i d1 W E) as (p & (rp & Ep & Ip)). destruct (delete_cut d i d1 W E) as (W1 & Cu1 & N1). pose proof (spot_cut d d1 i o k W Cu1 Th S) as S1. pose proof Cu1 as (A1 & A2 & A3 & A4 & A5).
  assert (M1 : same_meta d d1) by (repeat split; congruence). destruct (spot_did R Zl C d1 o k d2 W1 S1 F) as (g & r1 & G & Lr & D2 & _). rewrite (meta_v4 _ _ M1) in G.
  assert (Lk : exists r, lk d k = Some r) by (destruct (spot_run R Zl C d o k W S) as (u & Hu & <- & _); exists (row_of u); now apply look_self; [apply W|]). destruct Lk as (r & Lk). rewrite (A5 _ _ Lk) in Lr. apply Some_inj in Lr. subst r1.
  destruct (spot_can R Zl C d o k g r W S G Lk) as (d3 & E3 & D3). destruct (spot_did R Zl C d o k d3 W S E3) as (_ & _ & _ & _ & _ & O3). pose proof D3 as (W3 & M3 & R3 & Q3 & L3). destruct (ink_same _ _ g r G) as (_ & Kg).
  destruct (delete_run d3 p i W3) as (d4 & E4 & W4 & Cu4 & _). { destruct (Nat.eq_dec p k) as [->|Np]; [exists (g r); split; [exact Q3|]; rewrite Kg; congruence|exists rp; split; [rewrite L3 by exact Np; exact Ep|exact Ip]]. }
  exists d3, d4. split; [exact E3|]. split; [exact E4|]. pose proof Cu4 as (B1 & B2 & B3 & B4 & B5). destruct D2 as (W2 & (X1 & X2 & X3) & R2 & Q2 & L2). destruct M3 as (Y1 & Y2 & Y3).
  split; [|repeat split; congruence]. apply (rows_document d2 d4 W2 W4); [rewrite B4, R3, R2; congruence|]. intros x (r0 & _ & B). destruct (below_look _ _ _ (wf_unique d2 W2) B) as (r2 & E2). destruct (Nat.eq_dec x k) as [->|Nx].
  - rewrite (B5 _ _ Q3), Q2. rewrite (ink_kids _ _ g _ r G), Kg. reflexivity.
  - rewrite L2 in E2 by exact Nx. destruct (lk d x) as [q|] eqn:Eq; [|exfalso; apply (N1 x); [congruence|exact Eq]]. rewrite L2 by exact Nx. rewrite (A5 _ _ Eq). apply B5. now rewrite L3.
Qed.
Theorem assign_delete R Zl C o i k d d1 d2 : wf d -> thing d i -> spot d o = Some k -> IntegritySpec.run R Zl C o d = (Ok tt, d1) -> delete i d1 = (Ok tt, d2) ->
  exists d3 d4, delete i d = (Ok tt, d3) /\ IntegritySpec.run R Zl C o d3 = (Ok tt, d4) /\ untouched d4 d2.
Proof.
  intros W Th S E F. destruct (spot_did R Zl C d o k d1 W S E) as (g & r & G & Lk & D1 & O1). pose proof D1 as (W1 & M1 & R1 & Q1 & L1). destruct (ink_same _ _ g r G) as (_ & Kg). destruct (delete_parent d1 i d2 W1 F) as (p & (rp & Ep & Ip)).
  destruct (delete_run d p i W) as (d3 & E3 & W3 & Cu3 & _). { destruct (Nat.eq_dec p k) as [->|Np]; [exists r; split; [exact Lk|]; rewrite <- Kg; congruence|exists rp; split; [rewrite <- L1 by exact Np; exact Ep|exact Ip]]. }
  pose proof (spot_cut d d3 i o k W Cu3 Th S) as S3. pose proof Cu3 as (A1 & A2 & A3 & A4 & A5). assert (M3 : same_meta d d3) by (repeat split; congruence).
  destruct (spot_can R Zl C d3 o k g (with_kids (less i (r_kids r)) r) W3 S3) as (d4 & E4 & _); [now rewrite (meta_v4 _ _ M3)|exact (A5 _ _ Lk)|]. exists d3, d4. split; [exact E3|]. split; [exact E4|]. destruct (delete_assign R Zl C o i k d d3 d4 W Th S E3 E4) as (a & b & Ea & Eb & U). congruence.
Qed.
