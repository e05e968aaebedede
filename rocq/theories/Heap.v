(** Facts about the row view of forests. *)
From Coq Require Import Permutation.
From Verif Require Import Base PyStr Xml Tree XPath Db FindSpec XPath_facts Find_facts ApiSpec.

(** *** Lookup *)
Lemma find_key {A} (l : list (nat * A)) i r : NoDup (map fst l) -> (option_map snd (List.find (fun c => (fst c =? i)%nat) l) = Some r <-> In (i, r) l).
Proof.
  induction l as [|[j s] l IH]; cbn [map List.find fst]; intros Hd; [split; [discriminate|intros []]|]. apply NoDup_cons_iff in Hd as [Hn Hd].
  destruct (Nat.eqb_spec j i) as [->|Hj].
  - cbn. split; [intros [= ->]; now left|]. intros [[= ->]|H]; [reflexivity|]. destruct Hn. apply (in_map fst) in H. exact H.
  - rewrite IH by exact Hd. split; [intros H; now right|]. intros [[= -> ->]|H]; [now destruct Hj|exact H].
Qed.
Lemma cells_ids F : map fst (cells F) = map eid (elements F).
Proof. unfold cells. rewrite map_map. reflexivity. Qed.
Lemma unique_cells F : unique F <-> NoDup (map fst (cells F)).
Proof. unfold unique. now rewrite cells_ids. Qed.
Lemma look_In F i r : unique F -> (look F i = Some r <-> In (i, r) (cells F)).
Proof. intros H. apply find_key, unique_cells, H. Qed.
Lemma look_elem F i r : unique F -> (look F i = Some r <-> exists t, In t (elements F) /\ eid t = i /\ row_of t = r).
Proof.
  intros H. rewrite look_In by exact H. unfold cells. rewrite in_map_iff. unfold cell. split.
  - intros (t & [= <- <-] & Ht). eauto.
  - intros (t & Ht & <- & <-). eauto.
Qed.
Lemma look_self F t : unique F -> In t (elements F) -> look F (eid t) = Some (row_of t).
Proof. intros H Ht. apply look_elem; eauto. Qed.
Lemma unique_inj F t u : unique F -> In t (elements F) -> In u (elements F) -> eid t = eid u -> t = u.
Proof. intros H. apply NoDup_map_inj. exact H. Qed.
Lemma look_None F i : look F i = None <-> ~ In i (map eid (elements F)).
Proof.
  unfold look. rewrite <- cells_ids. induction (cells F) as [|[j s] l IH]; cbn; [tauto|]. destruct (Nat.eqb_spec j i) as [->|Hj]; cbn.
  - split; [discriminate|]. intros H. destruct H. now left.
  - rewrite IH. tauto.
Qed.
Lemma look_perm F F' i : unique F -> Permutation (cells F) (cells F') -> look F' i = look F i.
Proof.
  intros Hu Hp. assert (Hu' : unique F'). { apply unique_cells. rewrite <- Hp. now apply unique_cells. }
  destruct (look F i) as [r|] eqn:E.
  - apply look_In in E; [|exact Hu]. apply look_In; [exact Hu'|]. now rewrite <- Hp.
  - destruct (look F' i) as [r|] eqn:E'; [|reflexivity]. apply look_In in E'; [|exact Hu']. rewrite <- Hp in E'. apply look_In in E'; [congruence|exact Hu].
Qed.

(** *** Subtrees are determined by their rows *)
Lemma everything_eq t : everything t = t :: flat_map everything (ekids t).
Proof. destruct t. reflexivity. Qed.
Lemma elements_app F G : elements (F ++ G) = elements F ++ elements G.
Proof. unfold elements. apply flat_map_app. Qed.
Lemma cells_app F G : cells (F ++ G) = cells F ++ cells G.
Proof. unfold cells. now rewrite elements_app, map_app. Qed.
Lemma cells_one t : cells [t] = cell t :: cells (ekids t).
Proof. unfold cells, elements. cbn [flat_map]. rewrite app_nil_r, everything_eq. reflexivity. Qed.
Lemma cells_cons t F : cells (t :: F) = cells [t] ++ cells F.
Proof. apply (cells_app [t] F). Qed.
Lemma everything_sub t u : In u (everything t) -> incl (everything u) (everything t).
Proof.
  induction t as [i g a x k IH] using elem_ind'. rewrite (everything_eq (El i g a x k)). cbn [ekids]. intros [<-|H]; [rewrite everything_eq; cbn [ekids]; apply incl_refl|].
  apply in_flat_map in H as (c & Hc & Hu). rewrite Forall_forall in IH. intros z Hz. right. apply in_flat_map. exists c. split; [exact Hc|]. now apply (IH c Hc Hu).
Qed.
Lemma elements_sub F t : In t (elements F) -> incl (everything t) (elements F).
Proof. unfold elements. intros H z Hz. apply in_flat_map in H as (c & Hc & Hu). apply in_flat_map. exists c. split; [exact Hc|]. now apply (everything_sub _ _ Hu). Qed.
Lemma everything_self t : In t (everything t).
Proof. rewrite everything_eq. now left. Qed.
Lemma everything_kid t k : In k (ekids t) -> In k (everything t).
Proof. intros H. rewrite everything_eq. right. apply in_flat_map. exists k. split; [exact H|apply everything_self]. Qed.
Lemma elements_kid F t k : In t (elements F) -> In k (ekids t) -> In k (elements F).
Proof. intros Ht Hk. apply (elements_sub F t Ht). now apply everything_kid. Qed.
Lemma ids_everything t : ids t = map eid (everything t).
Proof.
  induction t as [i g a x k IH] using elem_ind'. cbn [ids everything map eid]. f_equal. induction IH as [|c k Hc Hk IHk]; [reflexivity|]. cbn [flat_map]. rewrite map_app. now f_equal.
Qed.
Lemma fids_elements F : fids F = map eid (elements F).
Proof. unfold fids, elements. induction F as [|t F IH]; [reflexivity|]. cbn [flat_map]. rewrite map_app, ids_everything. now f_equal. Qed.
Lemma map_eid_inj F l : forall m, unique F -> (forall x, In x l -> In x (elements F)) -> (forall x, In x m -> In x (elements F)) -> map eid l = map eid m -> l = m.
Proof.
  induction l as [|x l IH]; intros [|y m] Hu Hl Hm; cbn [map]; try discriminate; [reflexivity|]. intros E. injection E as E1 E2. f_equal.
  - apply (unique_inj F); [exact Hu|apply Hl; now left|apply Hm; now left|exact E1].
  - apply IH; auto using in_cons.
Qed.
Lemma same_tree F F' t : unique F -> unique F' -> In t (elements F) -> (forall j, In j (ids t) -> look F' j = look F j) -> In t (elements F').
Proof.
  intros Hu Hu'. induction t as [i g a x k IH] using elem_ind'. intros Ht Hl. set (t := El i g a x k) in *.
  assert (E : look F' i = Some (row_of t)). { rewrite Hl by (left; reflexivity). now apply (look_self F t). }
  apply look_elem in E; [|exact Hu']. destruct E as (t' & Ht' & Ei & Er).
  assert (ekids t' = k) as Ek.
  { apply (map_eid_inj F' (ekids t') k); [exact Hu'| | |].
    - intros z Hz. now apply (elements_kid F' t').
    - intros z Hz. rewrite Forall_forall in IH. apply (IH z Hz); [now apply (elements_kid F t)|]. intros j Hj. apply Hl. right. apply in_flat_map. eauto.
    - injection Er as _ _ _ Ek. exact Ek. }
  replace t with t'; [exact Ht'|]. destruct t' as [i' g' a' x' k']. cbn in Ei, Ek. subst i' k'. injection Er as -> -> ->. reflexivity.
Qed.
(** An element is what its row says, given its children. *)
Lemma elem_eta t : t = El (eid t) (etag t) (eattrs t) (etext t) (ekids t).
Proof. destruct t. reflexivity. Qed.
Lemma look_build F i r k : unique F -> look F i = Some r -> map eid k = r_kids r -> (forall c, In c k -> In c (elements F)) ->
  In (El i (r_tag r) (r_attrs r) (r_text r) k) (elements F).
Proof.
  intros Hu E Hk Hin. apply look_elem in E; [|exact Hu]. destruct E as (t & Ht & <- & <-).
  assert (k = ekids t) as ->. { apply (map_eid_inj F); auto. intros z Hz. now apply (elements_kid F t). }
  cbn. rewrite <- elem_eta. exact Ht.
Qed.

(** *** Contexts *)
Inductive ctx := Top (l r : list elem) | Down (l r : list elem) (i : nat) (g : str) (a : list (str * str)) (x : option str) (K : ctx).
Fixpoint plug (K : ctx) (m : list elem) : forest :=
  match K with Top l r => l ++ m ++ r | Down l r i g a x K' => plug K' [El i g a x (l ++ m ++ r)] end.
Fixpoint around (K : ctx) (m : list nat) : list (nat * row) :=
  match K with
  | Top l r => cells l ++ cells r
  | Down l r i g a x K' => (i, Row g a x (map eid l ++ m ++ map eid r)) :: cells l ++ cells r ++ around K' [i]
  end.
Fixpoint into (K K' : ctx) : ctx := (* put context K below K' *)
  match K with Top l r => match K' with Top l' r' => Top (l' ++ l) (r ++ r') | Down l' r' i g a x K'' => Down (l' ++ l) (r ++ r') i g a x K'' end | Down l r i g a x J => Down l r i g a x (into J K') end.
Lemma plug_into K : forall K' m, plug (into K K') m = plug K' (plug K m).
Proof. induction K as [l r|l r i g a x K IH]; intros K' m; cbn [into plug]; [destruct K'; cbn [plug]; rewrite <- ?app_assoc; reflexivity|]. apply IH. Qed.
Lemma focus_tree t : forall s, In s (everything t) -> exists K, [t] = plug K [s].
Proof.
  induction t as [i g a x k IH] using elem_ind'. intros s Hs. rewrite everything_eq in Hs. destruct Hs as [<-|H]; [exists (Top [] []); reflexivity|]. cbn [ekids] in H.
  apply in_flat_map in H as (c & Hc & Hs). rewrite Forall_forall in IH. destruct (IH c Hc s Hs) as (K & EK). apply in_split in Hc as (l & r & ->).
  exists (into K (Down l r i g a x (Top [] []))). rewrite plug_into, <- EK. reflexivity.
Qed.
Lemma focus F s : In s (elements F) -> exists K, F = plug K [s].
Proof.
  intros H. apply in_flat_map in H as (t & Ht & Hs). destruct (focus_tree t s Hs) as (K & EK). apply in_split in Ht as (l & r & ->).
  exists (into K (Top l r)). rewrite plug_into, <- EK. reflexivity.
Qed.
Lemma plug_cells K : forall m, Permutation (cells (plug K m)) (cells m ++ around K (map eid m)).
Proof.
  induction K as [l r|l r i g a x K IH]; intros m; cbn [plug around].
  - rewrite !cells_app. rewrite app_assoc, (Permutation_app_comm (cells l)), <- app_assoc. reflexivity.
  - rewrite IH. rewrite cells_one. unfold cell at 1. cbn [eid map ekids]. unfold row_of. cbn [etag eattrs etext ekids]. rewrite !map_app, !cells_app. cbn [app].
    rewrite <- Permutation_middle. apply perm_skip. rewrite <- !app_assoc. apply Permutation_app_swap_app.
Qed.
Lemma roots_plug K m : roots (plug K m) = match K with Top l r => roots l ++ map eid m ++ roots r | Down _ _ _ _ _ _ _ => roots (plug K []) end.
Proof.
  destruct K as [l r|l r i g a x K]; cbn [plug]; [unfold roots; now rewrite !map_app|].
  assert (H : forall K t u, eid t = eid u -> roots (plug K [t]) = roots (plug K [u])).
  { clear. induction K as [l r|l r i g a x K IH]; intros t u E; cbn [plug]; [unfold roots; rewrite !map_app; cbn; now rewrite E|]. apply IH. reflexivity. }
  apply H. reflexivity.
Qed.
Lemma roots_plug_eid K t u : eid t = eid u -> roots (plug K [t]) = roots (plug K [u]).
Proof. intros E. rewrite (roots_plug K [t]), (roots_plug K [u]). destruct K; [|reflexivity]. cbn. now rewrite E. Qed.

(** Everything around the focus, by number. *)
Definition outside (K : ctx) (m : list nat) (i : nat) : Prop := ~ In i (map fst (around K m)).
Lemma unique_plug K m : unique (plug K m) -> NoDup (map fst (cells m) ++ map fst (around K (map eid m))).
Proof. intros H. apply unique_cells in H. rewrite plug_cells, map_app in H. exact H. Qed.
Lemma outside_focus K s : unique (plug K [s]) -> forall u, In u (everything s) -> outside K [eid s] (eid u).
Proof.
  intros H u Hu Hin. apply unique_plug in H. apply (NoDup_app_disj _ _ (eid u) H); [|exact Hin]. rewrite cells_ids. apply in_map. unfold elements. cbn [flat_map]. now rewrite app_nil_r.
Qed.

(** [upd], [prune] away from and at the focus *)
Lemma upd_absent i f t : ~ In i (map eid (everything t)) -> upd i f t = t.
Proof.
  induction t as [j g a x k IH] using elem_ind'. intros H. cbn [upd]. rewrite everything_eq in H. cbn [map ekids eid] in H. destruct (Nat.eqb_spec j i) as [->|Hj]; [destruct H; now left|]. f_equal.
  rewrite Forall_forall in IH. rewrite <- (map_id k) at 2. apply map_ext_in. intros c Hc. apply IH; [exact Hc|]. intros Hi. apply H. right. apply in_map_iff in Hi as (u & <- & Hu). apply in_map. apply in_flat_map. eauto.
Qed.
Lemma fupd_absent i f F : ~ In i (map fst (cells F)) -> fupd i f F = F.
Proof.
  rewrite cells_ids. intros H. unfold fupd. rewrite <- (map_id F) at 2. apply map_ext_in. intros t Ht. apply upd_absent. intros Hi. apply H. apply in_map_iff in Hi as (u & <- & Hu). apply in_map. apply in_flat_map. eauto.
Qed.
Lemma upd_here i f t : eid t = i -> upd i f t = f t.
Proof. destruct t. cbn. intros ->. now rewrite Nat.eqb_refl. Qed.
Lemma fupd_plug K : forall i f s, eid s = i -> outside K [i] i -> fupd i f (plug K [s]) = plug K [f s].
Proof.
  assert (G : forall K i f m, outside K (map eid m) i -> fupd i f (plug K m) = plug K (map (upd i f) m)).
  { clear. induction K as [l r|l r j g a x K IH]; intros i f m H; unfold outside in H; cbn [plug around] in H |- *.
    - rewrite map_app, in_app_iff in H. unfold fupd in *. rewrite !map_app. change (map (upd i f) l) with (fupd i f l). change (map (upd i f) r) with (fupd i f r). rewrite !fupd_absent; tauto.
    - cbn [map fst In] in H. rewrite !map_app, !in_app_iff in H. rewrite IH by (unfold outside; cbn [map eid]; tauto). cbn [map upd].
      destruct (Nat.eqb_spec j i) as [->|Hj]; [destruct H; now left|]. rewrite !map_app. change (map (upd i f) l) with (fupd i f l). change (map (upd i f) r) with (fupd i f r). rewrite !fupd_absent; tauto. }
  intros i f s Hs H. rewrite G by (cbn; now rewrite Hs). cbn [map]. now rewrite upd_here.
Qed.
Lemma prune_absent i t : (forall u, In u (everything t) -> ~ In i (map eid (ekids u))) -> prune i t = t.
Proof.
  induction t as [j g a x k IH] using elem_ind'. intros H. cbn [prune]. f_equal. rewrite Forall_forall in IH. pose proof (H _ (everything_self _)) as Hk. cbn [ekids] in Hk.
  assert (G : forall c, In c k -> prune i c = c). { intros c Hc. apply IH; [exact Hc|]. intros u Hu. apply H. rewrite everything_eq. right. apply in_flat_map. eauto. }
  clear IH H. induction k as [|c k IHk]; [reflexivity|]. cbn [flat_map]. destruct (Nat.eqb_spec (eid c) i) as [E|E]; [destruct Hk; left; exact E|]. cbn [app]. rewrite (G c (or_introl eq_refl)). f_equal. apply IHk; [intros Hi; apply Hk; now right|]. intros; apply G; now right.
Qed.
Lemma prune_away i t : ~ In i (map eid (everything t)) -> prune i t = t.
Proof. intros H. apply prune_absent. intros u Hu Hi. apply H. apply in_map_iff in Hi as (c & <- & Hc). apply in_map. apply (everything_sub t u Hu). now apply everything_kid. Qed.
Lemma prune_kids i l : ~ In i (map fst (cells l)) -> flat_map (fun c => if (eid c =? i)%nat then [] else [prune i c]) l = l.
Proof.
  rewrite cells_ids. unfold elements. induction l as [|c l IH]; [reflexivity|]. cbn [flat_map]. rewrite map_app, in_app_iff. intros H. destruct (Nat.eqb_spec (eid c) i) as [E|E].
  - destruct H. left. rewrite <- E. apply in_map, everything_self.
  - cbn [app]. rewrite prune_away by tauto. f_equal. apply IH. tauto.
Qed.
Lemma prune_map i l : ~ In i (map fst (cells l)) -> map (prune i) l = l.
Proof.
  rewrite cells_ids. unfold elements. intros H. rewrite <- (map_id l) at 2. apply map_ext_in. intros c Hc. apply prune_away. intros Hi. apply H. apply in_map_iff in Hi as (u & <- & Hu). apply in_map, in_flat_map. eauto.
Qed.
Lemma prune_plug l r j g a x K s : outside (Down l r j g a x K) [eid s] (eid s) -> map (prune (eid s)) (plug (Down l r j g a x K) [s]) = plug (Down l r j g a x K) [].
Proof.
  intros H. unfold outside in H. cbn [around map fst In] in H. rewrite !map_app, !in_app_iff in H. cbn [plug].
  assert (G : forall K i m, outside K (map eid m) i -> ~ In i (map eid m) -> map (prune i) (plug K m) = plug K (map (prune i) m)).
  { clear. induction K as [l r|l r j g a x K IH]; intros i m H Hm; unfold outside in H; cbn [plug around] in H |- *.
    - rewrite map_app, in_app_iff in H. rewrite !map_app, (prune_map i l), (prune_map i r) by tauto. reflexivity.
    - cbn [map fst In] in H. rewrite !map_app, !in_app_iff in H. rewrite IH; [|unfold outside; cbn [map eid]; tauto|cbn [map eid In]; tauto]. cbn [map prune].
      rewrite !flat_map_app, (prune_kids i l), (prune_kids i r) by tauto. do 4 f_equal. f_equal. clear -Hm. induction m as [|c m IHm]; [reflexivity|]. cbn [flat_map map]. cbn [map In] in Hm. destruct (Nat.eqb_spec (eid c) i); [tauto|]. cbn [app]. f_equal. apply IHm. tauto. }
  rewrite G; [|unfold outside; cbn [map eid]; tauto|cbn [map eid In]; tauto]. cbn [map prune]. rewrite !flat_map_app, (prune_kids _ l), (prune_kids _ r) by tauto. cbn [flat_map]. rewrite Nat.eqb_refl. reflexivity.
Qed.

(** *** Reading *)
Lemma node_of_In F i n : unique F -> (node_of F i = Some n <-> In n (fpre F) /\ nid n = i).
Proof.
  intros Hu. apply unique_fpre in Hu. unfold node_of. split.
  - intros H. apply find_some in H as [H E]. apply Nat.eqb_eq in E. auto.
  - intros [H E]. destruct (List.find _ _) as [m|] eqn:F1.
    + apply find_some in F1 as [Hm Em]. apply Nat.eqb_eq in Em. f_equal. apply (NoDup_map_inj nid (fpre F)); auto. congruence.
    + apply (find_none _ _ F1) in H. rewrite E, Nat.eqb_refl in H. discriminate.
Qed.
Lemma elem_of_In F i t : unique F -> (elem_of F i = Some t <-> In t (elements F) /\ eid t = i).
Proof.
  intros Hu. unfold elem_of. rewrite elements_fpre, in_map_iff. split.
  - destruct (node_of F i) as [n|] eqn:E; [|discriminate]. intros [= <-]. apply node_of_In in E as [H E]; [|exact Hu]. split; [eauto|exact E].
  - intros [(n & <- & Hn) E]. assert (node_of F i = Some n) as -> by (apply node_of_In; auto). reflexivity.
Qed.
Lemma elem_of_self F t : unique F -> In t (elements F) -> elem_of F (eid t) = Some t.
Proof. intros. apply elem_of_In; auto. Qed.
Lemma fpre_In F n : In n (fpre F) <-> exists t, In t F /\ In n (pre [] t).
Proof. unfold fpre. apply in_flat_map. Qed.
Lemma fpre_kid F n k : In n (fpre F) -> In k (ekids (nd_el n)) -> In (Nd k (nd_el n :: nd_up n)) (fpre F).
Proof. rewrite !fpre_In. intros (t & Ht & Hn) Hk. exists t. split; [exact Ht|]. now apply pre_kid. Qed.
Lemma parent_of_In F i p : unique F -> (parent_of F i = Some p <-> In p (elements F) /\ In i (map eid (ekids p))).
Proof.
  intros Hu. unfold parent_of. split.
  - destruct (node_of F i) as [n|] eqn:E; [|discriminate]. apply node_of_In in E as [H <-]; [|exact Hu]. apply fpre_In in H as (t & Ht & Hn).
    destruct (pre_parent t [] n Hn) as [->|(q & up & E1 & E2 & E3)]; [discriminate|]. rewrite E1. intros [= ->]. split.
    + rewrite elements_fpre. change p with (nd_el (Nd p up)). apply in_map. apply fpre_In. eauto.
    + unfold nid. now apply in_map.
  - intros [Hp Hi]. apply in_map_iff in Hi as (k & <- & Hk). rewrite elements_fpre in Hp. apply in_map_iff in Hp as (n & <- & Hn).
    pose proof (fpre_kid F n k Hn Hk) as H. assert (node_of F (eid k) = Some (Nd k (nd_el n :: nd_up n))) as -> by (apply node_of_In; auto). reflexivity.
Qed.
Lemma root_no_parent F t p : unique F -> In t F -> In p (elements F) -> ~ In (eid t) (map eid (ekids p)).
Proof.
  intros Hu Ht Hp Hi. assert (E : parent_of F (eid t) = Some p) by (apply parent_of_In; auto). unfold parent_of in E.
  assert (node_of F (eid t) = Some (Nd t [])) as E2. { apply node_of_In; [exact Hu|]. split; [|reflexivity]. apply fpre_In. exists t. split; [exact Ht|]. rewrite pre_eq. now left. }
  rewrite E2 in E. discriminate.
Qed.
Lemma roots_In F i : In i (roots F) <-> exists t, In t F /\ eid t = i.
Proof. unfold roots. rewrite in_map_iff. firstorder. Qed.
Lemma elements_root F t : In t F -> In t (elements F).
Proof. intros H. apply in_flat_map. exists t. split; [exact H|apply everything_self]. Qed.
Lemma is_root_In F i : is_root F i = true <-> In i (roots F).
Proof. unfold is_root. rewrite existsb_exists, roots_In. split; intros (t & H & E); exists t; (split; [exact H|]); [now apply Nat.eqb_eq|now apply Nat.eqb_eq]. Qed.
Lemma anc_or_self_In F a i t : unique F -> elem_of F a = Some t -> (exists u, elem_of F i = Some u) -> (anc_or_self F a i = true <-> In i (ids t)).
Proof.
  intros Hu Ha (u & Hi). rewrite ids_everything. apply elem_of_In in Ha as [Ha <-]; [|exact Hu]. apply elem_of_In in Hi as [Hi <-]; [|exact Hu]. unfold anc_or_self. split.
  - intros H. apply orb_true_iff in H as [H|H].
    + apply Nat.eqb_eq in H. rewrite <- H. apply in_map, everything_self.
    + destruct (node_of F (eid u)) as [n|] eqn:E; [|discriminate]. apply node_of_In in E as [Hn E]; [|exact Hu]. apply existsb_exists in H as (p & Hp & Ep). apply Nat.eqb_eq in Ep. rewrite <- E. clear E Hi u.
      assert (G : forall n, In n (fpre F) -> In p (nd_up n) -> In (nid n) (map eid (everything p)) /\ In p (elements F)).
      { clear n Hn Hp. intros n Hn. rewrite fpre_In in Hn. destruct Hn as (r & Hr & Hn). remember (nd_up n) as up eqn:Eu. revert n Hn Eu. induction up as [|q up IH]; intros n Hn Eu Hp; [destruct Hp|].
        destruct (pre_parent r [] n Hn) as [->|(q' & up' & E1 & E2 & E3)]; [discriminate|]. rewrite E1 in Eu. injection Eu as -> ->.
        destruct Hp as [->|Hp].
        - split; [unfold nid; apply in_map, everything_kid, E3|]. rewrite elements_fpre. change p with (nd_el (Nd p up')). apply in_map, fpre_In. eauto.
        - destruct (IH _ E2 eq_refl Hp) as [H1 H2]. split; [|exact H2]. unfold nid in *. cbn [nd_el] in H1. apply in_map_iff in H1 as (q & Eq & Hq).
          assert (q = q') as ->. { apply (unique_inj F); auto. - apply (elements_sub F p H2 q Hq). - rewrite elements_fpre. change q' with (nd_el (Nd q' up')). apply in_map, fpre_In. eauto. }
          apply in_map. apply (everything_sub p q' Hq). now apply everything_kid. }
      destruct (G n Hn Hp) as [H1 H2]. assert (p = t) as -> by (apply (unique_inj F); auto). exact H1.
  - intros H. apply in_map_iff in H as (v & Ev & Hv). assert (v = u) as -> by (apply (unique_inj F); auto; now apply (elements_sub F t)). clear Ev. apply orb_true_iff.
    rewrite elements_fpre in Ha. apply in_map_iff in Ha as (n & <- & Hn). apply fpre_In in Hn as (r & Hr & Hn). rewrite (everything_pre _ (nd_up n)) in Hv. apply in_map_iff in Hv as (m & <- & Hm).
    destruct (pre_parent _ _ m Hm) as [->|(q & up & E1 & E2 & E3)]; [left; cbn; apply Nat.eqb_refl|right].
    assert (node_of F (eid (nd_el m)) = Some m) as ->. { apply node_of_In; [exact Hu|]. split; [|reflexivity]. apply fpre_In. exists r. split; [exact Hr|]. apply (pre_sub r [] n Hn). exact Hm. }
    destruct (nd_el n) as [ni ng na nx nk] eqn:En. rewrite pre_eq in Hm. destruct Hm as [<-|Hm]; [exfalso; cbn in E1|].
    + assert (D : (List.length (nd_up (Nd (El ni ng na nx nk) (nd_up n))) = List.length (nd_up n))) by reflexivity. clear D. destruct (pre_nodes_up _ _ _ E2) as (v & Ev & _). cbn [nd_up] in Ev. apply (f_equal (@List.length _)) in E1. rewrite Ev in E1. cbn in E1. rewrite app_length in E1. lia.
    + apply in_flat_map in Hm as (k & _ & Hm). destruct (pre_nodes_up _ _ _ Hm) as (v & Ev & _). rewrite Ev. rewrite existsb_app. cbn [existsb eid]. now rewrite Nat.eqb_refl, orb_true_r.
Qed.

(** *** Edits: one row changes *)
Definition edit (F F' : forest) (p : nat) (r r' : row) : Prop :=
  exists l, Permutation (cells F) ((p, r) :: l) /\ Permutation (cells F') ((p, r') :: l).
Lemma edit_unique F F' p r r' : edit F F' p r r' -> unique F -> unique F'.
Proof. intros (l & H1 & H2). rewrite !unique_cells, H1, H2. auto. Qed.
Lemma edit_ids F F' p r r' : edit F F' p r r' -> Permutation (map eid (elements F')) (map eid (elements F)).
Proof. intros (l & H1 & H2). rewrite <- !cells_ids, H1, H2. reflexivity. Qed.
Lemma edit_look F F' p r r' : edit F F' p r r' -> unique F -> look F p = Some r /\ look F' p = Some r' /\ forall j, j <> p -> look F' j = look F j.
Proof.
  intros H Hu. pose proof (edit_unique _ _ _ _ _ H Hu) as Hu'. destruct H as (l & H1 & H2). split; [|split].
  - apply look_In; [exact Hu|]. rewrite H1. now left.
  - apply look_In; [exact Hu'|]. rewrite H2. now left.
  - intros j Hj. destruct (look F j) as [s|] eqn:E.
    + apply look_In in E; [|exact Hu]. apply look_In; [exact Hu'|]. rewrite H1 in E. rewrite H2. destruct E as [[= E _]|E]; [congruence|now right].
    + destruct (look F' j) as [s|] eqn:E'; [|reflexivity]. exfalso. apply look_In in E'; [|exact Hu']. rewrite H2 in E'. destruct E' as [[= E' _]|E']; [congruence|].
      assert (In (j, s) (cells F)) as Hi by (rewrite H1; now right). apply look_In in Hi; [congruence|exact Hu].
Qed.
Lemma focus_upd F t f : unique F -> In t (elements F) -> exists K, F = plug K [t] /\ fupd (eid t) f F = plug K [f t].
Proof.
  intros Hu Ht. destruct (focus F t Ht) as (K & ->). exists K. split; [reflexivity|]. apply fupd_plug; [reflexivity|]. apply (outside_focus K t Hu t). apply everything_self.
Qed.
(** A change that keeps the children. *)
Lemma edit_in_place F t f : unique F -> In t (elements F) -> eid (f t) = eid t -> ekids (f t) = ekids t ->
  edit F (fupd (eid t) f F) (eid t) (row_of t) (row_of (f t)) /\ roots (fupd (eid t) f F) = roots F.
Proof.
  intros Hu Ht He Hk. destruct (focus_upd F t f Hu Ht) as (K & EF & ->). split.
  - exists (cells (ekids t) ++ around K [eid t]). split; rewrite ?EF, plug_cells; cbn [map]; rewrite cells_one; unfold cell; [reflexivity|]. rewrite He, Hk. reflexivity.
  - rewrite EF. now apply roots_plug_eid.
Qed.
(** Unlinking an element from its parent. *)
Lemma edit_detach F c p : unique F -> parent_of F c = Some p ->
  edit F (detach F c) (eid p) (row_of p) (with_kids (filter (fun j => negb (j =? c)%nat) (map eid (ekids p))) (row_of p)) /\ roots (detach F c) = roots F ++ [c] /\ ~ In c (roots F).
Proof.
  intros Hu Hp. pose proof Hp as Hp'. apply parent_of_In in Hp as [Hp Hc]; [|exact Hu]. apply in_map_iff in Hc as (s & <- & Hs).
  assert (Hr : is_root F (eid s) = false).
  { destruct (is_root F (eid s)) eqn:E; [|reflexivity]. apply is_root_In, roots_In in E as (t & Ht & E). exfalso. apply (root_no_parent F t p Hu Ht Hp). rewrite E. now apply in_map. }
  assert (Hr' : ~ In (eid s) (roots F)) by (intros H; apply is_root_In in H; congruence).
  unfold detach. rewrite Hr, (elem_of_self F s Hu) by (now apply (elements_kid F p)).
  destruct (focus F p Hp) as (K & EF). destruct p as [i g a x k]. cbn [ekids] in Hs. apply in_split in Hs as (l & r & ->).
  assert (EP : F = plug (Down l r i g a x K) [s]) by exact EF. assert (Hu2 := Hu). rewrite EP in Hu2.
  pose proof (outside_focus _ s Hu2 s (everything_self s)) as Ho. rewrite EP, prune_plug by exact Ho. split; [|split].
  - exists (cells [s] ++ cells l ++ cells r ++ around K [i]). split.
    + rewrite plug_cells. cbn [map around]. rewrite <- Permutation_middle. unfold row_of. cbn [eid etag eattrs etext ekids]. rewrite map_app. cbn [map app]. reflexivity.
    + rewrite cells_app, plug_cells. cbn [map around app]. rewrite (Permutation_app_comm _ (cells [s])).
      rewrite <- Permutation_middle. unfold row_of, with_kids. cbn [etag eattrs etext ekids r_tag r_attrs r_text eid].
      assert (EK : filter (fun j => negb (j =? eid s)%nat) (map eid (l ++ s :: r)) = map eid l ++ map eid r).
      { apply unique_cells in Hu2. rewrite plug_cells in Hu2. cbn [map around] in Hu2. rewrite cells_one in Hu2. cbn [app map fst] in Hu2. apply NoDup_cons_iff in Hu2 as [Hn _]. unfold cell in Hn. cbn [fst] in Hn.
        rewrite map_app, filter_app. cbn [map filter]. rewrite Nat.eqb_refl. cbn [negb].
        assert (G : forall m, ~ In (eid s) (map fst (cells m)) -> filter (fun j => negb (j =? eid s)%nat) (map eid m) = map eid m).
        { clear. intros m. rewrite cells_ids. induction m as [|c m IH]; [reflexivity|]. intros H. cbn [map filter]. unfold elements in *. cbn [flat_map] in H. rewrite map_app, in_app_iff in H.
          destruct (Nat.eqb_spec (eid c) (eid s)) as [E|E]; [destruct H; left; rewrite <- E; apply in_map, everything_self|]. cbn [negb]. f_equal. apply IH. tauto. }
        rewrite !map_app in Hn. cbn [map] in Hn. rewrite !map_app, !in_app_iff in Hn. cbn [fst In] in Hn. rewrite !in_app_iff in Hn. rewrite !G by tauto. reflexivity. }
      rewrite EK. rewrite <- Permutation_middle. reflexivity.
  - unfold roots. rewrite map_app. cbn [map]. f_equal. change (roots (plug (Down l r i g a x K) []) = roots (plug (Down l r i g a x K) [s])). symmetry. apply (roots_plug (Down l r i g a x K) [s]).
  - rewrite <- EP. exact Hr'.
Qed.
(** Linking a root below an element outside it. *)
Lemma take_root_spec F t : unique F -> In t F -> exists l r, F = l ++ t :: r /\ take_root F (eid t) = Some (t, l ++ r).
Proof.
  intros Hu Ht. apply in_split in Ht as (l & r & ->). exists l, r. split; [reflexivity|]. unfold take_root.
  unfold unique in Hu. rewrite elements_app, map_app in Hu.
  assert (G : forall m, ~ In (eid t) (map eid (elements m)) -> filter (fun u => negb (eid u =? eid t)%nat) m = m).
  { clear. unfold elements. induction m as [|c m IH]; [reflexivity|]. cbn [flat_map filter]. rewrite map_app, in_app_iff. intros H. destruct (Nat.eqb_spec (eid c) (eid t)) as [E|E]; [destruct H; left; rewrite <- E; apply in_map, everything_self|]. cbn [negb]. f_equal. apply IH. tauto. }
  assert (Hl : ~ In (eid t) (map eid (elements l))). { intros H. apply (NoDup_app_disj _ _ _ Hu H). apply in_map, elements_root. now left. }
  assert (Hr : ~ In (eid t) (map eid (elements r))).
  { intros H. apply NoDup_app_r in Hu. change (t :: r) with ([t] ++ r) in Hu. rewrite elements_app, map_app in Hu. apply (NoDup_app_disj _ _ _ Hu) in H; [exact H|]. apply in_map, elements_root. now left. }
  assert (Hf : List.find (fun u => (eid u =? eid t)%nat) (l ++ t :: r) = Some t).
  { destruct (List.find _ _) as [u|] eqn:E.
    - apply find_some in E as [H E]. apply Nat.eqb_eq in E. f_equal. apply (unique_inj (l ++ t :: r)); [unfold unique; rewrite elements_app, map_app; exact Hu|now apply elements_root|apply elements_root, in_or_app; right; now left|exact E].
    - apply (find_none _ _) with (x := t) in E; [|apply in_or_app; right; now left]. rewrite Nat.eqb_refl in E. discriminate. }
  rewrite Hf. do 2 f_equal. rewrite filter_app. cbn [filter]. rewrite Nat.eqb_refl. cbn [negb]. now rewrite (G l Hl), (G r Hr).
Qed.
Lemma edit_link F t p k : unique F -> In t F -> In p (elements F) -> ~ In (eid p) (ids t) ->
  exists l r, F = l ++ t :: r /\ take_root F (eid t) = Some (t, l ++ r) /\
    let F' := fupd (eid p) (insert_kid k t) (l ++ r) in
    edit F F' (eid p) (row_of p) (with_kids (insert_at k (eid t) (map eid (ekids p))) (row_of p)) /\ roots F' = roots l ++ roots r.
Proof.
  intros Hu Ht Hp Hn. destruct (take_root_spec F t Hu Ht) as (l & r & EF & ET). exists l, r. split; [exact EF|]. split; [exact ET|].
  assert (Hp' : In p (elements (l ++ r))).
  { rewrite EF in Hp. rewrite elements_app in *. change (t :: r) with ([t] ++ r) in Hp. rewrite elements_app in Hp. rewrite !in_app_iff in *. destruct Hp as [H|[H|H]]; auto. exfalso. apply Hn. rewrite ids_everything. apply in_map. unfold elements in H. cbn [flat_map] in H. now rewrite app_nil_r in H. }
  assert (Hu' : unique (l ++ r)).
  { rewrite EF in Hu. apply unique_cells in Hu. apply unique_cells. rewrite cells_app, cells_cons in Hu. rewrite cells_app. rewrite (Permutation_app_swap_app (cells l)) in Hu. rewrite map_app in Hu. now apply NoDup_app_r in Hu. }
  destruct (focus_upd (l ++ r) p (insert_kid k t) Hu' Hp') as (K & EK & EU). cbv zeta. split.
  - exists (cells [t] ++ cells (ekids p) ++ around K [eid p]). split.
    + rewrite EF, cells_app, cells_cons, (Permutation_app_swap_app (cells l)), <- cells_app, EK, plug_cells, (cells_one p). cbn [map app]. rewrite <- Permutation_middle. reflexivity.
    + rewrite EU, plug_cells, (cells_one (insert_kid k t p)). cbn [map app]. destruct p as [i g a x kk]. unfold insert_kid, set_kids, cell, row_of, with_kids. cbn [eid etag eattrs etext ekids r_tag r_attrs r_text].
      unfold insert_at at 1. rewrite map_app. cbn [map]. unfold insert_at. rewrite !firstn_map, !skipn_map. apply perm_skip. rewrite app_assoc. apply Permutation_app_tail.
      rewrite cells_app. change (t :: skipn k kk) with ([t] ++ skipn k kk). rewrite cells_app. rewrite Permutation_app_swap_app. apply Permutation_app_head. rewrite <- cells_app, firstn_skipn. reflexivity.
  - rewrite EU. rewrite (roots_plug_eid K _ p) by (destruct p; reflexivity). rewrite <- EK. unfold roots. now rewrite map_app.
Qed.
