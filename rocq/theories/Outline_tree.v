(** Outlines: one for every group and entry; how they follow the lists of members. *)
From Coq Require Import ZifyBool ZifyNat ZifyN.
From Verif Require Import Base PyStr Xml Tree XPath Uuid Time Db FindSpec XPath_facts XPath_eval Find_facts Find_path Api ApiSpec StructSpec CredSpec Heap Prim Api_xpath Struct Struct_add Struct_empty Struct_hist Struct_claims Struct_find Struct_index IntegritySpec Integrity OutlineSpec.

Lemma outline_ind' (P : outline -> Prop) : (forall b i l, Forall P l -> P (Node b i l)) -> forall t, P t.
Proof. intros H. fix IH 1. intros [b i l]. apply H. induction l as [|k l IHl]; constructor; [apply IH|exact IHl]. Qed.
Fixpoint osize (t : outline) : nat := let '(Node _ _ l) := t in S (list_sum (map osize l)).
Lemma osize_kid k l : In k l -> (osize k <= list_sum (map osize l))%nat.
Proof. induction l as [|x l IH]; intros []; cbn [map list_sum fold_right]; [subst; unfold list_sum; cbn; lia|]. apply IH in H. unfold list_sum in *. cbn. lia. Qed.
Lemma osize_sub t : forall s, In s (onodes t) -> (osize s <= osize t)%nat.
Proof.
  induction t as [b i l IH] using outline_ind'. intros s [<-|H]; [lia|]. apply in_flat_map in H as (k & Hk & Hs). rewrite Forall_forall in IH. specialize (IH k Hk s Hs). pose proof (osize_kid k l Hk). cbn [osize]. lia.
Qed.
Lemma pic_inv d b i l : pictures d (Node b i l) -> is_tag (lk d) (if b then $"Group" else $"Entry") i /\ items d i = map oid l /\ Forall (pictures d) l.
Proof. intros H. inversion H; subst. auto. Qed.
Lemma pic_item d t : pictures d t -> an_item d (oid t).
Proof. destruct t as [b i l]. intros H. apply pic_inv in H as (T & _). cbn [oid]. destruct b; [now right|now left]. Qed.
Lemma pic_sub d t : pictures d t -> forall s, In s (onodes t) -> pictures d s.
Proof.
  induction t as [b i l IH] using outline_ind'. intros P s [<-|H]; [exact P|]. apply pic_inv in P as (_ & _ & P). apply in_flat_map in H as (k & Hk & Hs). rewrite Forall_forall in IH, P. exact (IH k Hk (P k Hk) s Hs).
Qed.
Lemma pic_fun d t : forall u, pictures d t -> pictures d u -> oid t = oid u -> t = u.
Proof.
  induction t as [b i l IH] using outline_ind'. intros [c j m] Pt Pu E. cbn [oid] in E. subst j. apply pic_inv in Pt as (T1 & I1 & P1). apply pic_inv in Pu as (T2 & I2 & P2).
  assert (b = c) as <-. { pose proof (is_tag_fun _ _ _ _ T1 T2) as X. destruct b, c; auto; vm_compute in X; discriminate X. }
  f_equal. rewrite I1 in I2. clear - IH P1 P2 I2. revert m I2 P2. induction l as [|x l IHl]; intros [|y m] E P2; try discriminate E; [reflexivity|]. cbn [map] in E. injection E as E1 E2. apply Forall_cons_iff in IH as [IH1 IH2]. apply Forall_cons_iff in P1 as [P11 P12]. apply Forall_cons_iff in P2 as [P21 P22].
  f_equal; [now apply IH1|now apply IHl].
Qed.
Lemma pic_acyclic d b i l k s : pictures d (Node b i l) -> In k l -> In s (onodes k) -> oid s <> i.
Proof.
  intros P Hk Hs E. assert (Ps : pictures d s). { apply (pic_sub d (Node b i l) P). right. apply in_flat_map. eauto. }
  pose proof (pic_fun d s (Node b i l) Ps P E) as X. pose proof (osize_sub k s Hs). pose proof (osize_kid k l Hk). rewrite X in *. cbn [osize] in *. lia.
Qed.
(** Every group and entry has an outline. *)
Lemma itemb_item d i : itemb (lk d) i = true <-> an_item d i.
Proof.
  unfold itemb, tagb, an_item, an_entry, a_group, is_tag. destruct (lk d i) as [r|]; [|split; [discriminate|intros [(x & C & _)|(x & C & _)]; discriminate C]]. rewrite orb_true_iff, !str_eqb_eq. split.
  - intros [H|H]; [right|left]; exists r; auto.
  - intros [(x & E & H)|(x & E & H)]; injection E as <-; auto.
Qed.
Lemma pic_ex d e : wf d -> has d e -> an_item d (eid e) -> exists t, pictures d t /\ oid t = eid e.
Proof.
  intros W. induction e as [i T a x k IH] using elem_ind'. intros H It. assert (L : exists l, Forall (pictures d) l /\ map oid l = filter (itemb (lk d)) (map eid k)).
  { assert (Hk : forall c, In c k -> has d c) by (intros c Hc; now apply (has_kid d (El i T a x k))). clear H It. induction k as [|c k IHk]; [exists []; split; [constructor|reflexivity]|]. apply Forall_cons_iff in IH as [IH1 IH2].
    destruct (IHk IH2) as (l & Pl & Em); [intros y Hy; apply Hk; now right|]. cbn [map filter]. destruct (itemb (lk d) (eid c)) eqn:Ec.
    - destruct (IH1 (Hk c (or_introl eq_refl))) as (t & Pt & Et); [now apply itemb_item|]. exists (t :: l). split; [now constructor|]. cbn [map]. now rewrite Et, Em.
    - exists l. auto. }
  destruct L as (l & Pl & Em). assert (Ii : items d i = map oid l). { unfold items. change i with (eid (El i T a x k)) at 1. rewrite (look_self _ _ (wf_unique d W) H). cbn [r_kids row_of]. now rewrite Em. }
  destruct It as [It|It]; [exists (Node false i l)|exists (Node true i l)]; (split; [constructor; [exact It|exact Ii|exact Pl]|reflexivity]).
Qed.
Lemma picture d i : wf d -> an_item d i -> exists t, pictures d t /\ oid t = i.
Proof. intros W It. assert (H : exists e, has d e /\ eid e = i) by (destruct It as [It|It]; destruct (tag_has d _ i W It) as (e & He & Ee & _); eauto). destruct H as (e & He & <-). now apply pic_ex. Qed.

(** *** Changes of the lists of members *)
Lemma oid_put p s t : oid (put p s t) = oid t. Proof. destruct t. reflexivity. Qed.
Lemma oid_drop i t : oid (drop i t) = oid t. Proof. destruct t. reflexivity. Qed.
Lemma oid_clear i t : oid (clear i t) = oid t. Proof. destruct t. reflexivity. Qed.
Lemma oid_arrange p o t : oid (arrange p o t) = oid t. Proof. destruct t. reflexivity. Qed.
Section Change.
  Variables (d d' : db).
  Hypothesis Le : forall i T, is_tag (lk d) T i -> is_tag (lk d') T i.
  Lemma pic_same t : (forall j, an_item d j -> items d' j = items d j) -> pictures d t -> pictures d' t.
  Proof.
    intros H. induction t as [b i l IH] using outline_ind'. intros P. pose proof (H i (pic_item d _ P)) as Hi. apply pic_inv in P as (T & I & P). constructor; [now apply Le|congruence|]. rewrite Forall_forall in *. auto.
  Qed.
  Lemma pic_put p s t : pictures d' s -> (forall j, an_item d j -> items d' j = items d j ++ (if (j =? p)%nat then [oid s] else [])) -> pictures d t -> pictures d' (put p s t).
  Proof.
    intros Ps H. induction t as [b i l IH] using outline_ind'. intros P. pose proof (H i (pic_item d _ P)) as Hi. apply pic_inv in P as (T & I & P). cbn [put]. constructor; [now apply Le| |].
    - rewrite Hi, I, map_app, map_map. f_equal; [apply map_ext; intros k; now rewrite oid_put|]. destruct (i =? p)%nat; reflexivity.
    - apply Forall_app. split; [|destruct (i =? p)%nat; auto]. apply Forall_map. rewrite Forall_forall in *. auto.
  Qed.
  Lemma oid_dropped i l : map oid (flat_map (fun k => if (oid k =? i)%nat then [] else [drop i k]) l) = less i (map oid l).
  Proof. unfold less. induction l as [|k l IH]; [reflexivity|]. cbn [flat_map map filter]. rewrite map_app, IH. destruct (oid k =? i)%nat; [reflexivity|]. cbn [negb map app]. now rewrite oid_drop. Qed.
  Lemma pic_carry p i s t : pictures d' s -> oid s = i -> (forall j, an_item d j -> items d' j = less i (items d j) ++ (if (j =? p)%nat then [i] else [])) -> pictures d t -> pictures d' (put p s (drop i t)).
  Proof.
    intros Ps Es H. induction t as [b j l IH] using outline_ind'. intros P. pose proof (H j (pic_item d _ P)) as Hj. apply pic_inv in P as (T & I & P). cbn [drop put]. constructor; [now apply Le| |].
    - rewrite Hj, I, map_app, map_map. f_equal; [|rewrite <- Es; destruct (j =? p)%nat; reflexivity]. rewrite <- oid_dropped. apply map_ext. intros k. now rewrite oid_put.
    - apply Forall_app. split; [|destruct (j =? p)%nat; auto]. apply Forall_map, Forall_forall. intros k Hk. apply in_flat_map in Hk as (c & Hc & Hk). rewrite Forall_forall in *. destruct (oid c =? i)%nat; [destruct Hk|]. destruct Hk as [<-|[]]. auto.
  Qed.
  Lemma pic_drop i t : (forall j, an_item d j -> items d' j = less i (items d j)) -> pictures d t -> pictures d' (drop i t).
  Proof.
    intros H. induction t as [b j l IH] using outline_ind'. intros P. pose proof (H j (pic_item d _ P)) as Hj. apply pic_inv in P as (T & I & P). cbn [drop]. constructor; [now apply Le| |].
    - now rewrite Hj, I, oid_dropped.
    - apply Forall_forall. intros k Hk. apply in_flat_map in Hk as (c & Hc & Hk). rewrite Forall_forall in *. destruct (oid c =? i)%nat; [destruct Hk|]. destruct Hk as [<-|[]]. auto.
  Qed.
  Lemma pic_clear g t : (forall j, an_item d j -> items d' j = if (j =? g)%nat then [] else items d j) -> pictures d t -> pictures d' (clear g t).
  Proof.
    intros H. induction t as [b j l IH] using outline_ind'. intros P. pose proof (H j (pic_item d _ P)) as Hj. apply pic_inv in P as (T & I & P). cbn [clear]. destruct (j =? g)%nat; constructor; try (now apply Le); [exact Hj|constructor| |].
    - rewrite Hj, I, map_map. apply map_ext. intros k. now rewrite oid_clear.
    - apply Forall_map. rewrite Forall_forall in *. auto.
  Qed.
  Lemma found_one i : forall l, NoDup (map oid l) -> In i (map oid l) -> exists k, In k l /\ oid k = i /\ filter (fun k => (oid k =? i)%nat) l = [k].
  Proof.
    induction l as [|k l IH]; cbn [map]; [intros _ []|]. intros N [E|I]; apply NoDup_cons_iff in N as [N1 N2].
    - exists k. split; [now left|]. split; [exact E|]. cbn [filter]. assert (oid k =? i = true)%nat as -> by now apply Nat.eqb_eq. f_equal. rewrite (filter_same _ (fun _ => false)); [clear; induction l; auto|]. intros x Hx. apply Nat.eqb_neq. intros C. apply N1. rewrite E, <- C. now apply in_map.
    - destruct (IH N2 I) as (c & Hc & Ec & F). exists c. split; [now right|]. split; [exact Ec|]. cbn [filter]. assert (oid k =? i = false)%nat as ->; [|exact F]. apply Nat.eqb_neq. intros C. apply N1. now rewrite C.
  Qed.
  Lemma arranged_ids l : NoDup (map oid l) -> forall o, incl o (map oid l) -> map oid (arranged o l) = o /\ incl (arranged o l) l.
  Proof.
    intros N. induction o as [|i o IH]; intros H; [split; [reflexivity|intros x []]|]. destruct (IH (fun x Hx => H x (or_intror Hx))) as [E1 E2]. destruct (found_one i l N (H i (or_introl eq_refl))) as (k & Hk & Ek & F). unfold arranged. cbn [flat_map]. rewrite F. cbn [map app]. split.
    - fold (arranged o l). now rewrite E1, Ek.
    - intros x [<-|Hx]; [exact Hk|]. now apply E2.
  Qed.
  Lemma pic_arrange p o t : NoDup (items d p) -> incl o (items d p) -> (forall j, an_item d j -> items d' j = if (j =? p)%nat then o else items d j) -> pictures d t -> pictures d' (arrange p o t).
  Proof.
    intros N Ho H. induction t as [b j l IH] using outline_ind'. intros P. pose proof (H j (pic_item d _ P)) as Hj. apply pic_inv in P as (T & I & P). cbn [arrange]. cbv zeta.
    assert (Em : map oid (map (arrange p o) l) = map oid l) by (rewrite map_map; apply map_ext; intros k; apply oid_arrange).
    assert (Fm : Forall (pictures d') (map (arrange p o) l)) by (apply Forall_map; rewrite Forall_forall in *; auto).
    destruct (Nat.eqb_spec j p) as [->|Nj]; (constructor; [now apply Le| |]).
    - rewrite Hj. symmetry. apply arranged_ids; rewrite Em, <- I; auto.
    - apply Forall_forall. intros k Hk. rewrite Forall_forall in Fm. apply Fm. revert k Hk. apply arranged_ids; rewrite Em, <- I; auto.
    - now rewrite Hj, I, Em.
    - exact Fm.
  Qed.
End Change.
