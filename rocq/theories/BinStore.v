(** The stored binaries: reading, adding, deleting. *)
From Coq Require Import ZifyBool ZifyNat ZifyN.
From Verif Require Import Base Base64 PyStr Xml Tree XPath Time Db XPath_parse XPath_facts XPath_eval FindSpec Find_facts Find_path Find_more ApiSpec StructSpec Heap Uuid Api Prim Api_xpath Api_fields Api_custom Api_sub Api_claims Struct Struct_add Struct_find Struct_bin Struct_trash Struct_empty Kdbx_rt BinSpec Bin_xpath Bin.

(** *** A new subtree under [p] *)
Record grown (d d' : db) (p : nat) (t : elem) : Prop := Grown {
  gr_wf : wf d';
  gr_meta : same_meta d d';
  gr_top : hd_error (rts d') = hd_error (rts d);
  gr_has : has d' t;
  gr_fresh : forall j, In j (ids t) -> lk d j = None;
  gr_old : forall j r, lk d j = Some r -> lk d' j = Some (with_kids (if (j =? p)%nat then r_kids r ++ [eid t] else r_kids r) r);
  gr_new : forall j r, lk d' j = Some r -> lk d j <> None \/ In j (ids t);
  gr_doc : forall j, in_doc d' j <-> in_doc d j \/ In j (ids t) }.
Lemma append_new_grown d p x : wf d -> in_doc d p -> exists t d', lx_append_new p x d = (Ok (d_next d), d') /\ eid t = d_next d /\ erase t = x /\ grown d d' p t.
Proof.
  intros H Hp. destruct (append_new_claim d p x H Hp) as (t & d' & E & Et & Ex & W & (A1 & (O1 & O2 & O3 & O4 & O5 & O6) & A3) & T & D). exists t, d'. split; [exact E|]. split; [exact Et|]. split; [exact Ex|].
  destruct (in_doc_has d p H Hp) as (q & Hq & Eq).
  destruct (new_run d x H) as (t1 & d1 & E1 & Et1 & Ex1 & EF & W1 & M1 & N1 & T1 & R1 & I1 & L1).
  assert (Hp1 : has d1 q) by (rewrite EF, elements_app; apply in_or_app; now left).
  assert (Hn : ~ In (eid q) (ids t1)) by (intros G; apply I1 in G; pose proof (wf_has d q H Hq); lia).
  assert (Hdoc : is_doc (d_forest d1) (eid t1) = false). { rewrite EF. destruct H as (H & _ & H3). destruct (d_forest d) as [|r F] eqn:Er; [congruence|]. cbn. apply Nat.eqb_neq. specialize (H3 r (elements_root (r :: F) r (or_introl eq_refl))). lia. }
  destruct (append_run d1 q t1 W1 Hp1 T1 Hn Hdoc) as (d2 & E2 & W2 & M2 & N2 & R2 & L2).
  assert (d2 = d') as ->. { unfold lx_append_new, mbind in E. rewrite E1 in E. rewrite <- Eq, <- Et1, E2 in E. now injection E. }
  assert (Hids : forall j r, lk d1 j = Some r -> lk d j <> None \/ In j (ids t1)).
  { intros j r Ej. destruct (look_has d1 j r W1 Ej) as (u & Hu & <- & _). rewrite EF, elements_app in Hu. apply in_app_iff in Hu as [Hu|Hu].
    - left. rewrite (look_self _ u (wf_unique d H) Hu). discriminate.
    - right. unfold elements in Hu. cbn in Hu. rewrite app_nil_r in Hu. now apply ids_In. }
  assert (T1' : has d' t1).
  { apply (same_tree (d_forest d1)); auto using wf_unique. intros j Hj. rewrite L2. destruct (lk d1 j) as [r|] eqn:Ej; [|reflexivity]. cbn. unfold move_row. destruct (Nat.eqb_spec j (eid q)) as [->|]; [tauto|]. rewrite without_absent; [now rewrite with_kids_id|].
    apply look_elem in Ej; [|apply W1]. destruct Ej as (u & Hu & _ & <-). cbn. apply (root_no_parent (d_forest d1)); auto using wf_unique. rewrite EF. apply in_or_app. right. now left. }
  assert (t1 = t) as -> by (apply (unique_inj (d_forest d')); [apply W|exact T1'|exact T|congruence]).
  constructor; auto.
  - split; [exact O1|]. split; [exact O2|exact O3].
  - intros j Ij. apply I1 in Ij. destruct (lk d j) as [r|] eqn:Ej; [|reflexivity]. apply (wf_look d j r H) in Ej. lia.
  - intros j r Ej. destruct (Nat.eqb_spec j p) as [->|N]; [now rewrite Et, (A3 r Ej)|]. rewrite with_kids_id. apply O6; [exact Ej|]. intros [C|[]]. congruence.
  - intros j r Ej. rewrite L2 in Ej. destruct (lk d1 j) as [r1|] eqn:E1j; [|discriminate]. now apply (Hids j r1).
Qed.
Section Grown.
  Context (d d' : db) (p : nat) (t : elem) (H : wf d) (G : grown d d' p t) (Hp : is_tag (lk d) $"Entry" p \/ is_tag (lk d) $"Binaries" p).
  Lemma grown_not T : T <> $"Entry" -> T <> $"Binaries" -> ~ is_tag (lk d) T p.
  Proof. intros N1 N2 (r & E & Tr). destruct Hp as [(q & Eq & Tq)|(q & Eq & Tq)]; congruence. Qed.
  Lemma grown_row j r : lk d j = Some r -> exists q, lk d' j = Some q /\ r_tag q = r_tag r /\ r_text q = r_text r /\ r_attrs q = r_attrs r /\ (exists new, r_kids q = r_kids r ++ new) /\ (j <> p -> q = r).
  Proof.
    intros E. eexists. split; [exact (gr_old _ _ _ _ G j r E)|]. cbn. repeat (split; [reflexivity|]). split.
    - destruct (Nat.eqb j p); [eauto|exists []; now rewrite app_nil_r].
    - intros N. destruct (Nat.eqb_spec j p); [contradiction|apply with_kids_id].
  Qed.
  Lemma grown_tag T j : is_tag (lk d) T j -> is_tag (lk d') T j.
  Proof. intros (r & E & Tr). destruct (grown_row j r E) as (q & Eq & Tq & _). exists q. split; [exact Eq|congruence]. Qed.
  Lemma grown_tagb T j : lk d j <> None -> tagb (lk d') T j = tagb (lk d) T j.
  Proof. intros N. unfold tagb. destruct (lk d j) as [r|] eqn:E; [|congruence]. destruct (grown_row j r E) as (q & -> & -> & _). reflexivity. Qed.
  Lemma grown_kids T j : lk d j <> None -> j <> p -> kids_tagged (lk d') T j = kids_tagged (lk d) T j.
  Proof.
    intros N Np. unfold kids_tagged. destruct (lk d j) as [r|] eqn:E; [|congruence]. destruct (grown_row j r E) as (q & -> & _ & _ & _ & _ & X). rewrite (X Np). apply filter_same. intros x I. apply grown_tagb. destruct (kid_look d j x H) as (u & ->); [exists r; auto|discriminate].
  Qed.
  Lemma grown_attached a v n : attached d a v n -> attached d' a v n.
  Proof.
    intros [B1 B2 B3 (q & Eq & Iq)]. assert (a <> p) as Na. { intros ->. apply (grown_not $"Binary"); [vm_compute; discriminate|vm_compute; discriminate|exact B2]. } assert (lk d a <> None) as La by (destruct B2 as (r & -> & _); discriminate).
    constructor; [apply (gr_doc _ _ _ _ G); auto|now apply grown_tag|now rewrite grown_kids|]. destruct (grown_row v q Eq) as (q' & Eq' & _ & _ & A & _). exists q'. rewrite A. auto.
  Qed.
  Lemma grown_kept : kept d d'.
  Proof.
    split; [apply G|]. split; [intros j D; apply (gr_doc _ _ _ _ G); auto|]. split; [|exact grown_attached]. intros j r E. destruct (grown_row j r E) as (q & ? & ? & ? & ? & ? & _). exists q. repeat (split; [assumption|]). assumption.
  Qed.
  Context (Hb : forall u, In u (everything t) -> etag u = $"Binary" -> u = t)
          (Hk : forall x, etag t = $"Binary" -> In x (ekids t) -> ekids x = [] /\ NoDup (map fst (eattrs x)) /\ (etag x = $"Key" \/ etag x = $"Value"))
          (Hv : forall V, etag t = $"Binary" -> In V (kids_of $"Value" t) -> kids_of $"Value" t = [V] /\ exists n, In ($"Ref", number n) (eattrs V))
          (He : kids_of $"Value" t <> [] -> is_tag (lk d) $"Entry" p).
  Lemma grown_new_tag T j : is_tag (lk d') T j -> is_tag (lk d) T j \/ exists u, In u (everything t) /\ eid u = j /\ etag u = T.
  Proof.
    intros (r & E & Tr). destruct (lk d j) as [q|] eqn:Ej.
    - left. destruct (grown_row j q Ej) as (q' & Eq' & Tq' & _). exists q. split; [exact Ej|congruence].
    - right. destruct (gr_new _ _ _ _ G j r E) as [N|I]; [congruence|]. rewrite ids_everything in I. apply in_map_iff in I as (u & Eu & Iu). exists u. split; [exact Iu|]. split; [exact Eu|].
      assert (has d' u) by (apply (everything_has d' t); [apply G|exact Iu]). rewrite <- Eu, (look_self _ u (wf_unique _ (gr_wf _ _ _ _ G))) in E by assumption. apply Some_inj in E. now subst r.
  Qed.
  Lemma grown_regular : regular d -> regular d'.
  Proof.
    intros Rg. pose proof (gr_wf _ _ _ _ G) as W. pose proof (gr_has _ _ _ _ G) as T.
    assert (Hkid : forall x, In x (ekids t) -> has d' x) by (intros x I; now apply (has_kid d' t)).
    constructor.
    - intros a r x E Tr I. destruct (grown_new_tag $"Binary" a) as [(q & Eq & Tq)|(u & Iu & Eu & Tu)]; [exists r; auto| |].
      + assert (a <> p) as Na by (intros ->; apply (grown_not $"Binary"); [vm_compute; discriminate|vm_compute; discriminate|exists q; auto]). destruct (grown_row a q Eq) as (q' & Eq' & _ & _ & _ & _ & X). rewrite E in Eq'. apply Some_inj in Eq'. subst q'. rewrite (X Na) in I.
        destruct (rg_leaf d Rg a q x Eq Tq I) as (u & Eu & Ku & Nu & Tu). assert (x <> p) as Nx. { intros ->. destruct Tu as [Tu|Tu]; apply (grown_not (r_tag u)); try (rewrite Tu; vm_compute; discriminate); exists u; auto. }
        destruct (grown_row x u Eu) as (u' & Eu' & _ & _ & _ & _ & Xu). exists u'. rewrite (Xu Nx). rewrite (Xu Nx) in Eu'. auto.
      + pose proof (Hb u Iu Tu) as ->. rewrite <- Eu, (look_self _ t (wf_unique _ W) T) in E. apply Some_inj in E. subst r. cbn in I. apply in_map_iff in I as (x' & <- & I). destruct (Hk x' Tu I) as (K & N & Tx). exists (row_of x'). split; [apply look_self; [apply W|auto]|]. cbn. rewrite K. auto.
    - intros a x Ta I. destruct (grown_new_tag $"Binary" a Ta) as [(q & Eq & Tq)|(u & Iu & Eu & Tu)].
      + assert (a <> p) as Na by (intros ->; apply (grown_not $"Binary"); [vm_compute; discriminate|vm_compute; discriminate|exists q; auto]). rewrite grown_kids in I |- * by (congruence || auto). destruct (rg_value d Rg a x (ex_intro _ q (conj Eq Tq)) I) as (K & n & w & Ew & Iw). split; [exact K|]. destruct (grown_row x w Ew) as (w' & Ew' & _ & _ & Aw & _). exists n, w'. rewrite Aw. auto.
      + pose proof (Hb u Iu Tu) as ->. subst a. rewrite (kids_tagged_of d' t _ W T) in I |- *. apply in_map_iff in I as (V & <- & IV). destruct (Hv V Tu IV) as (K & n & In_). rewrite K. split; [reflexivity|]. exists n, (row_of V). split; [|exact In_]. apply look_self; [apply W|]. apply Hkid. now apply kids_of_in in IV.
    - intros a Da Ta K. destruct (grown_new_tag $"Binary" a Ta) as [(q & Eq & Tq)|(u & Iu & Eu & Tu)].
      + assert (a <> p) as Na by (intros ->; apply (grown_not $"Binary"); [vm_compute; discriminate|vm_compute; discriminate|exists q; auto]). rewrite grown_kids in K by (congruence || auto). apply (gr_doc _ _ _ _ G) in Da as [Da|I]; [|rewrite (gr_fresh _ _ _ _ G a I) in Eq; discriminate].
        destruct (rg_entry d Rg a Da (ex_intro _ q (conj Eq Tq)) K) as (e & (w & Ew & Iw) & Te). exists e. split; [|now apply grown_tag]. destruct (grown_row e w Ew) as (w' & Ew' & _ & _ & _ & (new & Kw) & _). exists w'. split; [exact Ew'|]. rewrite Kw. apply in_or_app. now left.
      + pose proof (Hb u Iu Tu) as ->. subst a. rewrite (kids_tagged_of d' t _ W T) in K. assert (Te : is_tag (lk d) $"Entry" p) by (apply He; intros C; rewrite C in K; apply K; reflexivity). exists p. split; [|now apply grown_tag]. destruct Te as (w & Ew & _). eexists. split; [exact (gr_old _ _ _ _ G p w Ew)|]. cbn. rewrite Nat.eqb_refl. apply in_or_app. right. now left.
  Qed.
End Grown.

(** *** Reading the list *)
Lemma v4_true d : (4 <= d_major d)%N -> v4 d = true. Proof. intros H. unfold v4. now apply N.leb_le. Qed.
Lemma v4_false d : (d_major d < 4)%N -> v4 d = false. Proof. intros H. unfold v4. now apply N.leb_gt. Qed.
Lemma py_insert_end {A} (l : list A) n x : (List.length l <= n)%nat -> py_insert l (Z.of_nat n) x = l ++ [x].
Proof. intros H. unfold py_insert. destruct (Z.ltb_spec (Z.of_nat n) 0); [lia|]. rewrite Z.min_r, Nat2Z.id by lia. now apply insert_at_end. Qed.
Lemma ostr_eqb_eq a b : ostr_eqb a b = true -> a = b.
Proof. destruct a, b; cbn; try discriminate; [|reflexivity]. intros E. apply str_eqb_eq in E. congruence. Qed.
Lemma data_run Zl t x : NoDup (map fst (eattrs t)) -> holds Zl (row_of t) x -> bin_data Zl t = Ok x.
Proof.
  intros N. unfold holds, bin_data. cbn [row_of r_text r_attrs]. destruct (etext t) as [s|]; [|intros ->; reflexivity]. intros (c & E & X). rewrite E. cbn [bind].
  destruct (ostr_eqb (attr_of $"Compressed" t) (Some $"True")) eqn:Ec.
  - apply ostr_eqb_eq in Ec. apply (attr_In _ _ t N) in Ec. tauto.
  - destruct X as [[I _]|[_ ->]]; [|reflexivity]. apply (attr_In _ _ t N) in I. rewrite I in Ec. vm_compute in Ec. discriminate.
Qed.
Lemma bins3_run Zl d es : wf d -> (forall t, In t es -> has d t) -> forall k xs acc, shelf Zl (lk d) k (map eid es) xs -> List.length acc = k -> bins3 Zl es acc = Ok (acc ++ xs).
Proof.
  intros H. induction es as [|t es IH]; intros He k xs acc Hs Hl.
  - inversion Hs; subst. cbn. now rewrite app_nil_r.
  - cbn [map] in Hs. inversion Hs as [|k0 i is x xs' r n Er Tr Kr Nr Ir Ln Hr Hs']; subst. rewrite (look_self _ t (wf_unique d H) (He t (or_introl eq_refl))) in Er. apply Some_inj in Er. subst r.
    cbn [bins3]. rewrite (data_run Zl t x Nr Hr). cbn [bind]. apply (attr_In _ _ t Nr) in Ir. rewrite Ir. unfold number. rewrite int_of_str_Z. cbn [bind]. rewrite py_insert_end by exact Ln.
    rewrite (IH (fun u I => He u (or_intror I)) (S (List.length acc)) xs'); [now rewrite <- app_assoc|exact Hs'|rewrite app_length; cbn; lia].
Qed.
Lemma shelf_tags Zl L k is xs : shelf Zl L k is xs -> Forall (fun i => tagb L $"Binary" i = true) is.
Proof. induction 1; constructor; auto. unfold tagb. rewrite H. now apply str_eqb_eq. Qed.
Lemma shelf_length Zl L k is xs : shelf Zl L k is xs -> List.length is = List.length xs.
Proof. induction 1; cbn; congruence. Qed.
(** The elements behind a KDBX3 store. *)
Lemma store3_elems d r m b q : wf d -> hd_error (rts d) = Some r -> is_tag (lk d) $"KeePassFile" r -> kids_tagged (lk d) $"Meta" r = [m] -> kids_tagged (lk d) $"Binaries" m = [b] -> lk d b = Some q ->
  exists tr F tm tb, d_forest d = tr :: F /\ eid tr = r /\ etag tr = $"KeePassFile" /\ kids_of $"Meta" tr = [tm] /\ eid tm = m /\ kids_of $"Binaries" tm = [tb] /\ eid tb = b /\ has d tr /\ has d tm /\ has d tb /\ row_of tb = q.
Proof.
  intros H E1 E2 E3 E4 E5. destruct (d_forest d) as [|tr F] eqn:EF; [discriminate|]. rewrite <- EF in *. assert (Hr : has d tr) by (rewrite EF; apply elements_root; now left). rewrite EF in E1. cbn in E1. apply Some_inj in E1. subst r.
  destruct E2 as (w & Ew & Tw). rewrite (look_self _ tr (wf_unique d H) Hr) in Ew. apply Some_inj in Ew. subst w.
  rewrite (kids_tagged_of d tr _ H Hr) in E3. apply map_one in E3 as (tm & K3 & <-). assert (Hm : has d tm). { apply (has_kid d tr); [exact Hr|]. apply (kids_of_in $"Meta"). rewrite K3. now left. }
  rewrite (kids_tagged_of d tm _ H Hm) in E4. apply map_one in E4 as (tb & K4 & <-). assert (Hb : has d tb). { apply (has_kid d tm); [exact Hm|]. apply (kids_of_in $"Binaries"). rewrite K4. now left. }
  rewrite (look_self _ tb (wf_unique d H) Hb) in E5. apply Some_inj in E5. exists tr, F, tm, tb. repeat (split; [first [reflexivity|assumption]|]). assumption.
Qed.
Lemma filter_all {A} (f : A -> bool) l : (forall x, In x l -> f x = true) -> filter f l = l.
Proof. induction l as [|a l IH]; [reflexivity|]. intros H. cbn [filter]. rewrite (H a (or_introl eq_refl)), IH; [reflexivity|]. intros x I. apply H. now right. Qed.
Lemma all_tagged d t T : wf d -> has d t -> Forall (fun i => tagb (lk d) T i = true) (map eid (ekids t)) -> kids_of T t = ekids t.
Proof.
  intros H Ht F. unfold kids_of. apply filter_all. intros k I. rewrite Forall_forall in F. specialize (F (eid k) (in_map eid _ _ I)). unfold tagb in F. now rewrite (look_self _ k (wf_unique d H) (has_kid d t k Ht I)) in F.
Qed.
Lemma binaries_run R Zl d l : wf d -> store Zl d l -> binaries R Zl d = (Ok l, d).
Proof.
  intros H [L F|r m b q L E1 E2 E3 E4 E5 S]; unfold binaries, lift.
  - rewrite (v4_true d L). f_equal. f_equal. clear L H. induction F as [|x y xs ys (f & ->) F IH]; [reflexivity|]. cbn. now rewrite IH.
  - rewrite (v4_false d L). destruct (store3_elems d r m b q H E1 E2 E3 E4 E5) as (tr & F & tm & tb & EF & <- & Tr & Km & <- & Kb & <- & Hr & Hm & Hb & <-).
    destruct (abs_path R d tr F $"/KeePassFile/Meta/Binaries/Binary" ($"KeePassFile", []) [($"Meta", []); ($"Binaries", []); ($"Binary", [])] EF (wf_unique d H)) as (n & E & En); [vm_compute; reflexivity|vm_compute; reflexivity| |].
    + intros w _. repeat (constructor; [constructor|]). constructor.
    + rewrite E. cbn [bind]. rewrite En, !ewalk_bare. cbn [ewalk filter fst snd]. rewrite Tr. change (str_eqb $"KeePassFile" $"KeePassFile" && crits_hold [] tr)%bool with true. cbn [flat_map]. rewrite app_nil_r, Km. cbn [flat_map]. rewrite app_nil_r, Kb. cbn [flat_map]. rewrite app_nil_r.
      cbn [row_of r_kids] in S. rewrite (all_tagged d tb $"Binary" H Hb (shelf_tags _ _ _ _ _ S)). rewrite (bins3_run Zl d (ekids tb) H (fun t I => has_kid d tb t Hb I) 0%nat l [] S eq_refl). reflexivity.
Qed.

(** *** Adding *)
Lemma shelf_mono Zl L M : (forall i r, L i = Some r -> r_tag r = $"Binary" -> exists q, M i = Some q /\ r_tag q = r_tag r /\ r_text q = r_text r /\ r_attrs q = r_attrs r /\ (r_kids r = [] -> r_kids q = [])) ->
  forall k is xs, shelf Zl L k is xs -> shelf Zl M k is xs.
Proof.
  intros X k is xs. induction 1 as [|k i is x xs r n E T K N I Ln Hh S IH]; [constructor|]. destruct (X i r E T) as (q & Eq & Tq & Xq & Aq & Kq).
  apply (shelf_cons Zl M k i is x xs q n); [exact Eq|congruence|auto|now rewrite Aq|now rewrite Aq|exact Ln| |exact IH]. unfold holds in *. now rewrite Xq, Aq.
Qed.
Lemma shelf_app Zl L is xs js ys : forall k, shelf Zl L k is xs -> shelf Zl L (k + List.length is)%nat js ys -> shelf Zl L k (is ++ js) (xs ++ ys).
Proof.
  intros k S. revert js ys. induction S as [k|k i is x xs r n E T K N I Ln Hh S IH]; intros js ys Sj; cbn [app List.length] in *; [now rewrite Nat.add_0_r in Sj|].
  econstructor; try eassumption. apply IH. now rewrite <- plus_n_Sm in Sj.
Qed.
Lemma number_text n : text_ok (number n) = true.
Proof. destruct (number_plain (Z.of_nat n) (Nat2Z.is_nonneg n)) as [_ T]. exact T. Qed.
Lemma doc_path d r m b : wf d -> hd_error (rts d) = Some r -> kids_tagged (lk d) $"Meta" r = [m] -> kids_tagged (lk d) $"Binaries" m = [b] -> in_doc d b /\ is_kid d m b /\ is_tag (lk d) $"Meta" m /\ is_tag (lk d) $"Binaries" b.
Proof.
  intros H E1 E2 E3. assert (X : forall T i j, kids_tagged (lk d) T i = [j] -> is_kid d i j /\ is_tag (lk d) T j).
  { intros T i j E. unfold kids_tagged in E. destruct (lk d i) as [w|] eqn:Ei; [|discriminate]. assert (I : In j (filter (tagb (lk d) T) (r_kids w))) by (rewrite E; now left). apply filter_In in I as [I Tj]. split; [exists w; auto|]. unfold tagb in Tj. destruct (lk d j) as [u|] eqn:Ej; [|discriminate]. exists u. split; [exact Ej|now apply str_eqb_eq]. }
  destruct (X _ _ _ E2) as [K2 T2]. destruct (X _ _ _ E3) as [K3 T3]. split; [|auto]. exists r. split; [exact E1|]. destruct K2 as (w2 & Ew2 & I2). destruct K3 as (w3 & Ew3 & I3). eapply below_kid; [|exact Ew3|exact I3]. eapply below_kid; [|exact Ew2|exact I2]. eapply below_self. exact Ew2.
Qed.
Lemma add_run R Zl d l data (c p : bool) : wf d -> regular d -> store Zl d l -> zlib_ok Zl -> bytes_ok data ->
  exists d', add_binary R Zl data c p d = (Ok (Z.of_nat (List.length l)), d') /\ wf d' /\ regular d' /\ store Zl d' (l ++ [data]) /\ kept d d' /\ (in_order d -> in_order d').
Proof.
  intros H G S Z B. destruct S as [L F|r m b q L E1 E2 E3 E4 E5 S]; unfold add_binary; rewrite (mbind_ok get_db _ d d d eq_refl).
  - rewrite (v4_true d L). set (d' := MkDb (d_major d) (d_minor d) (d_bins d ++ [(if p then 1 else 0) :: data]) (d_forest d) (d_next d)). exists d'.
    assert (W' : wf d') by exact H. assert (S' : store Zl d' (l ++ [data])) by (apply store4; [exact L|]; apply Forall2_app; [exact F|]; constructor; [eauto|constructor]).
    split; [|split; [exact W'|split; [destruct G; constructor; assumption|split; [exact S'|split; [|intros _ r0 m0 b0 q0 k0 c0 C; cbn in C; lia]]]]].
    + rewrite (mbind_ok _ _ d tt d') by reflexivity. rewrite (mbind_ok _ _ _ _ _ (binaries_run R Zl d' _ W' S')). unfold ret. rewrite app_length. cbn [List.length]. f_equal. f_equal. lia.
    + split; [reflexivity|]. split; [auto|]. split; [|intros a v n A; destruct A; constructor; auto]. intros j w E. exists w. repeat (split; [first [exact E|reflexivity]|]). exists []. now rewrite app_nil_r.
  - rewrite (v4_false d L). pose proof (store3 Zl d l r m b q L E1 E2 E3 E4 E5 S) as S0. destruct (store3_elems d r m b q H E1 E2 E3 E4 E5) as (tr & F & tm & tb & EF & Er & Tr & Km & Em & Kb & Eb & Hr & Hm & Hb & Eq).
    destruct (doc_path d r m b H E1 E3 E4) as (Db & Kmb & Tm & Tb).
    assert (Q1 : xfirst R None $"/KeePassFile/Meta/Binaries" d = (Ok (Some tb), d)).
    { change (meta_elem R $"Binaries" d = (Ok (Some tb), d)). rewrite (meta_run R d tr F $"Binaries" H EF); [|cbn; tauto]. unfold meta_of. rewrite Tr. change (str_eqb $"KeePassFile" $"KeePassFile") with true. cbv iota. rewrite Km. cbn [flat_map]. rewrite app_nil_r, Kb. reflexivity. }
    set (payload := if c then zgzip Zl data else data). assert (Bp : bytes_ok payload) by (unfold payload; destruct c; [apply Z|]; exact B).
    set (at_ := [($"ID", number (List.length l)); ($"Compressed", py_str_bool c)]). set (x := X $"Binary" at_ (Some (b64encode payload)) []).
    assert (Ex : e_text $"Binary" at_ (Some (b64encode payload)) = Ok x).
    { unfold e_text, at_. cbn [forallb snd]. rewrite number_text. replace (text_ok (py_str_bool c)) with true by (destruct c; reflexivity). cbn [andb]. now rewrite (proj1 (b64_text_ok payload Bp)). }
    destruct (append_new_grown d b x H Db) as (t & d' & EA & Et & Ext & Gr). destruct (Api_fields.erase_kids _ _ _ _ _ Ext) as (T1 & T2 & T3 & T4).
    assert (K0 : ekids t = []) by (destruct (ekids t); [reflexivity|discriminate]).
    assert (Hp : is_tag (lk d) $"Entry" b \/ is_tag (lk d) $"Binaries" b) by now right.
    assert (Hev : everything t = [t]) by (destruct t as [? ? ? ? k]; cbn in K0; subst k; reflexivity).
    exists d'.
    assert (Rg : regular d').
    { apply (grown_regular d d' b t H Gr Hp).
      - intros u I _. rewrite Hev in I. now destruct I as [<-|[]].
      - intros y _ I. rewrite K0 in I. destruct I.
      - intros V _ I. apply kids_of_in in I as [I _]. rewrite K0 in I. destruct I.
      - intros N. exfalso. apply N. unfold kids_of. now rewrite K0.
      - exact G. }
    assert (Nb : forall j, is_tag (lk d) $"Binary" j \/ is_tag (lk d) $"Meta" j \/ is_tag (lk d) $"KeePassFile" j -> j <> b).
    { intros j [X|[X|X]] ->; [apply (grown_not d b Hp $"Binary") in X|apply (grown_not d b Hp $"Meta") in X|apply (grown_not d b Hp $"KeePassFile") in X]; try exact X; vm_compute; discriminate. }
    assert (S' : store Zl d' (l ++ [data])).
    { apply (store3 Zl d' _ r m b (with_kids (r_kids q ++ [eid t]) q)).
      - rewrite (proj1 (gr_meta _ _ _ _ Gr)). exact L.
      - rewrite (gr_top _ _ _ _ Gr). exact E1.
      - now apply (grown_tag d d' b t Gr).
      - rewrite (grown_kids d d' b t H Gr); [exact E3|destruct E2 as (w & -> & _); discriminate|apply Nb; auto].
      - rewrite (grown_kids d d' b t H Gr); [exact E4|destruct Tm as (w & -> & _); discriminate|apply Nb; auto].
      - rewrite (gr_old _ _ _ _ Gr b q E5). now rewrite Nat.eqb_refl.
      - cbn. apply shelf_app.
        + eapply shelf_mono; [|exact S]. intros i w Ei Ti. destruct (grown_row d d' b t Gr i w Ei) as (w' & Ew' & a1 & a2 & a3 & _ & a5). exists w'. repeat (split; [assumption|]). intros K. rewrite a5; [exact K|]. apply Nb. left. exists w. auto.
        + rewrite (shelf_length _ _ _ _ _ S). cbn [Nat.add]. apply (shelf_cons _ _ _ (eid t) [] data [] (row_of t) (List.length l)); [apply look_self; [apply Gr|apply Gr]|exact T1|cbn; now rewrite K0| | |lia| |constructor].
          * cbn [row_of r_attrs]. rewrite T2. unfold at_. cbn [map fst]. constructor; [intros [C|[]]; vm_compute in C; discriminate|constructor; [intros []|constructor]].
          * cbn [row_of r_attrs]. rewrite T2. now left.
          * unfold holds. cbn [row_of r_text r_attrs]. rewrite T3, T2. exists payload. split; [now apply b64_roundtrip|]. unfold payload, at_. destruct c.
            -- left. split; [right; now left|]. now apply Z.
            -- right. split; [|reflexivity]. intros [C|[C|[]]]; [apply (f_equal fst) in C; vm_compute in C; discriminate|apply (f_equal snd) in C; vm_compute in C; discriminate]. }
    split; [|split; [apply Gr|split; [exact Rg|split; [exact S'|split; [now apply (grown_kept d d' b t H Gr Hp)|]]]]].
    { rewrite (mbind_ok _ _ d tt d').
    + rewrite (mbind_ok _ _ _ _ _ (binaries_run R Zl d' _ (gr_wf _ _ _ _ Gr) S')). unfold ret. rewrite app_length. cbn [List.length]. f_equal. f_equal. lia.
    + rewrite (mbind_ok _ _ _ _ _ Q1). rewrite (mbind_ok _ _ _ _ _ (binaries_run R Zl d _ H S0)). fold (number (List.length l)). fold at_. fold payload. rewrite (mbind_ok _ _ d x d) by (unfold of_res; now rewrite Ex). rewrite Eb. rewrite (mbind_ok _ _ _ _ _ EA). reflexivity. }
    { intros O r0 m0 b0 q0 k0 c0 C0 X1 X2 X3 X4 X5. rewrite (gr_top _ _ _ _ Gr), E1 in X1. apply Some_inj in X1. subst r0. rewrite (grown_kids d d' b t H Gr), E3 in X2; [|destruct E2 as (w & -> & _); discriminate|apply Nb; auto]. injection X2 as <-. rewrite (grown_kids d d' b t H Gr), E4 in X3; [|destruct Tm as (w & -> & _); discriminate|apply Nb; auto]. injection X3 as <-.
      rewrite (gr_old _ _ _ _ Gr b q E5), Nat.eqb_refl in X4. apply Some_inj in X4. subst q0. cbn [with_kids r_kids] in X5. destruct (Nat.ltb_spec k0 (List.length (r_kids q))) as [Lk|Lk].
      * rewrite nth_error_app1 in X5 by exact Lk. destruct (O r m b q k0 c0 L E1 E3 E4 E5 X5) as (w & Ew & Iw). destruct (grown_row d d' b t Gr c0 w Ew) as (w' & Ew' & _ & _ & Aw & _). exists w'. rewrite Aw. auto.
      * rewrite nth_error_app2 in X5 by exact Lk. destruct (k0 - List.length (r_kids q))%nat as [|z] eqn:Ez; [|destruct z; discriminate X5]. cbn in X5. apply Some_inj in X5. subst c0. exists (row_of t). split; [apply look_self; [apply Gr|apply Gr]|]. cbn [row_of r_attrs]. rewrite T2. left. rewrite <- (shelf_length _ _ _ _ _ S). now replace k0 with (List.length (r_kids q)) by lia. }
Qed.

(** *** Deleting *)
Lemma picks_all {A} (P : A -> Prop) l m : picks P l m -> (forall x, In x l -> P x) -> m = l.
Proof. induction 1 as [|x l m Px Pk IH|x l m Px Pk IH]; intros X; [reflexivity| |]. - f_equal. apply IH. intros y I. apply X. now right. - exfalso. apply Px, X. now left. Qed.
Lemma store_unbound Zl d d' k l : wf d -> regular d -> unbound d d' k -> same_meta d d' -> store Zl d l -> store Zl d' l.
Proof.
  intros H G U (M1 & M2 & M3) S.
  assert (Hkid : forall j r, lk d j = Some r -> r_tag r <> $"Entry" -> exists q, lk d' j = Some q /\ r_tag q = r_tag r /\ r_text q = r_text r /\ r_kids q = r_kids r).
  { intros j r E N. destruct (ub_row _ _ _ U j r E) as (q & Eq & Tq & Xq & Pq & _). exists q. repeat (split; [assumption|]). apply (picks_all _ _ _ Pq). intros x I (_ & v & A). destruct (rg_entry d G x (at_doc _ _ _ _ A) (at_tag _ _ _ _ A)) as (e & Ke & (w & Ew & Tw)); [rewrite (at_value _ _ _ _ A); discriminate|].
    assert (e = j) as -> by (apply (one_parent d e j x H Ke); exists r; auto). rewrite E in Ew. apply Some_inj in Ew. congruence. }
  assert (Htag : forall T j, lk d j <> None -> tagb (lk d') T j = tagb (lk d) T j).
  { intros T j N. unfold tagb. destruct (lk d j) as [r|] eqn:E; [|congruence]. destruct (ub_row _ _ _ U j r E) as (q & -> & -> & _). reflexivity. }
  assert (Hk : forall T j r, lk d j = Some r -> r_tag r <> $"Entry" -> kids_tagged (lk d') T j = kids_tagged (lk d) T j).
  { intros T j r E N. destruct (Hkid j r E N) as (q & Eq & _ & _ & K). unfold kids_tagged. rewrite E, Eq, K. apply filter_same. intros x I. apply Htag. destruct (kid_look d j x H) as (u & ->); [exists r; auto|discriminate]. }
  destruct S as [L F|r m b q L E1 E2 E3 E4 E5 S]; [apply store4; congruence|]. destruct (doc_path d r m b H E1 E3 E4) as (Db & Kmb & Tm & Tb). destruct E2 as (wr & Ewr & Twr). destruct Tm as (wm & Ewm & Twm). destruct Tb as (wb & Ewb & Twb). rewrite E5 in Ewb. apply Some_inj in Ewb. subst wb.
  destruct (Hkid b q E5) as (q' & Eq' & Tq' & Xq' & Kq'); [rewrite Twb; vm_compute; discriminate|].
  apply (store3 Zl d' l r m b q'); [congruence| | | | |exact Eq'|].
  - rewrite (ub_top _ _ _ U). exact E1.
  - destruct (ub_row _ _ _ U r wr Ewr) as (w & Ew & Tw & _). exists w. split; [exact Ew|congruence].
  - rewrite (Hk _ r wr Ewr); [exact E3|rewrite Twr; vm_compute; discriminate].
  - rewrite (Hk _ m wm Ewm); [exact E4|rewrite Twm; vm_compute; discriminate].
  - rewrite Kq'. eapply shelf_mono; [|exact S]. intros i w Ei Ti. destruct (ub_row _ _ _ U i w Ei) as (w' & Ew' & Tw' & Xw' & Pw' & Aw'). exists w'. repeat (split; [assumption|]). split.
    + apply Aw'. intros a n A. exfalso. pose proof (at_value _ _ _ _ A) as V. unfold kids_tagged in V. destruct (lk d a) as [wa|]; [|discriminate]. assert (I : In i (filter (tagb (lk d) $"Value") (r_kids wa))) by (rewrite V; now left). apply filter_In in I as [_ I]. unfold tagb in I. rewrite Ei, Ti in I. vm_compute in I. discriminate.
    + intros K. rewrite K in Pw'. now inversion Pw'.
Qed.
Lemma shelf_weak Zl L k is xs : shelf Zl L (S k) is xs -> shelf Zl L k is xs.
Proof.
  remember (S k) as k'. intros S. revert k Heqk'. induction S as [k1|k0 i is x xs r n E T K N I Ln Hh S IH]; intros k ->; [constructor|]. apply (shelf_cons _ _ _ _ _ _ _ r n); auto. lia.
Qed.
Lemma shelf_remove Zl L is xs : forall k j, shelf Zl L k is xs -> shelf Zl L k (remove_nth j is) (remove_nth j xs).
Proof.
  intros k j S. revert j. induction S as [k|k i is x xs r n E T K N I Ln Hh S IH]; intros [|j]; cbn; try constructor.
  - now apply shelf_weak.
  - apply (shelf_cons _ _ _ _ _ _ _ r n); auto. apply IH.
Qed.
Lemma remove_less (k : nat) (l : list nat) c : NoDup l -> nth_error l k = Some c -> less c l = remove_nth k l.
Proof.
  revert k. induction l as [|a l IH]; intros [|k] N E; try discriminate.
  - cbn in E. apply Some_inj in E. subst a. apply NoDup_cons_iff in N as [Na N]. unfold remove_nth, less. cbn [firstn skipn app filter]. rewrite Nat.eqb_refl. cbn [negb]. apply filter_all. intros x I. apply negb_true_iff, Nat.eqb_neq. congruence.
  - cbn in E. apply NoDup_cons_iff in N as [Na N]. unfold remove_nth, less. cbn [firstn skipn app filter]. destruct (Nat.eqb_spec a c) as [->|_]; [apply nth_error_In in E; contradiction|]. cbn [negb]. f_equal. exact (IH k N E).
Qed.
Lemma cut_shrunk d d' c p : wf d -> is_kid d p c -> cut d d' c -> (forall j, lk d j = None -> lk d' j = None) -> shrunk (Nat.eqb c) d d'.
Proof.
  intros H K (_ & _ & _ & T & X) N. constructor; [exact T|exact N|]. intros j r E. exists (with_kids (less c (r_kids r)) r). split; [now apply X|]. cbn. repeat (split; [reflexivity|]). split.
  - apply filter_same. intros x _. now rewrite Nat.eqb_sym.
  - split; [auto|]. intros n I. eauto.
Qed.
Lemma py_index_nth {A} (l : list A) k x : nth_error l k = Some x -> py_index l (Z.of_nat k) = Ok x.
Proof. intros E. unfold py_index. destruct (Z.ltb_spec (Z.of_nat k) 0); [lia|]. destruct (Z.ltb_spec (Z.of_nat k) 0); [lia|]. now rewrite Nat2Z.id, E. Qed.
Lemma delete_binary_tail R d k (m : M unit) d1 : (if v4 d then match py_pop (d_bins d) (Z.of_nat k) with Ok l => set_bins l | Err _ => raise Ex_Binary end
           else do b <- xfirst R None $"/KeePassFile/Meta/Binaries";
             match b with None => raise Ex_Attribute | Some b => match py_index (ekids b) (Z.of_nat k) with Ok c => lx_remove (eid b) (eid c) | Err _ => raise Ex_Binary end end) = m ->
  m d = (Ok tt, d1) -> delete_binary R (Z.of_nat k) d = unbind R (Z.of_nat k) d1.
Proof. intros Em E. unfold delete_binary. rewrite (mbind_ok get_db _ d d d eq_refl). rewrite Em, (mbind_ok _ _ _ _ _ E). reflexivity. Qed.

Lemma bin_delete_run R Zl d l k : wf d -> regular d -> store Zl d l -> (k < List.length l)%nat ->
  exists d1 d', delete_binary R (Z.of_nat k) d = (Ok tt, d') /\ wf d' /\ regular d' /\ store Zl d' (remove_nth k l) /\ popped d d1 k /\ unbound d1 d' k /\
    (forall a v n, attached d1 a v n <-> attached d a v n) /\ (forall a v n, attached d a v n -> (in_history d1 a <-> in_history d a)).
Proof.
  intros H G S Lk. destruct S as [L F|r m b q L E1 E2 E3 E4 E5 S].
  - set (d1 := MkDb (d_major d) (d_minor d) (remove_nth k (d_bins d)) (d_forest d) (d_next d)).
    assert (W1 : wf d1) by exact H. assert (G1 : regular d1) by (destruct G; constructor; assumption). destruct (unbind_run R d1 k W1 G1) as (d' & E & W' & M' & G' & U).
    assert (S1 : store Zl d1 (remove_nth k l)). { apply store4; [exact L|]. cbn [d1 d_bins]. clear - F. generalize k. clear k. induction F as [|x y xs ys X F IH]; intros [|k]; cbn; try constructor; auto. apply IH. }
    exists d1, d'. split; [|split; [exact W'|split; [exact G'|split; [exact (store_unbound Zl d1 d' k _ W1 G1 U M' S1)|split; [|split; [exact U|]]]]]].
    + rewrite (delete_binary_tail R d k _ d1 eq_refl); [exact E|]. rewrite (v4_true d L). unfold py_pop. assert (EL : List.length (d_bins d) = List.length l) by (clear - F; induction F; cbn; congruence). destruct (Z.ltb_spec (Z.of_nat k) 0); [lia|]. destruct (Z.ltb_spec (Z.of_nat k) 0); [lia|]. destruct (Z.leb_spec (Z.of_nat (List.length (d_bins d))) (Z.of_nat k)); [lia|]. cbn [orb]. rewrite Nat2Z.id. reflexivity.
    + split; [reflexivity|]. split; [reflexivity|]. split; [reflexivity|]. left. auto.
    + split; [|reflexivity]. intros a v n. split; intros [A1 A2 A3 A4]; constructor; assumption.
  - pose proof (shelf_length _ _ _ _ _ S) as SL. destruct (store3_elems d r m b q H E1 E2 E3 E4 E5) as (tr & F & tm & tb & EF & Er & Tr & Km & Em & Kb & Eb & Hr & Hm & Hb & Eq).
    destruct (doc_path d r m b H E1 E3 E4) as (Db & Kmb & Tm & Tb).
    assert (Q1 : xfirst R None $"/KeePassFile/Meta/Binaries" d = (Ok (Some tb), d)).
    { change (meta_elem R $"Binaries" d = (Ok (Some tb), d)). rewrite (meta_run R d tr F $"Binaries" H EF); [|cbn; tauto]. unfold meta_of. rewrite Tr. change (str_eqb $"KeePassFile" $"KeePassFile") with true. cbv iota. rewrite Km. cbn [flat_map]. rewrite app_nil_r, Kb. reflexivity. }
    assert (Ec : exists tc, nth_error (ekids tb) k = Some tc). { destruct (nth_error (ekids tb) k) as [tc|] eqn:E; [eauto|]. apply nth_error_None in E. rewrite <- Eq in SL. cbn in SL. rewrite map_length in SL. lia. }
    destruct Ec as (tc & Ec). pose proof (nth_error_In _ _ Ec) as Ic. set (c := eid tc). assert (Ic' : In c (map eid (ekids tb))) by now apply in_map.
    assert (Enc : nth_error (r_kids q) k = Some c) by (rewrite <- Eq; cbn; now rewrite (map_nth_error eid k (ekids tb) Ec)).
    assert (Kc : is_kid d b c) by (exists q; split; [exact E5|now apply nth_error_In in Enc]).
    assert (Rc : exists rc, lk d c = Some rc /\ r_tag rc = $"Binary" /\ r_kids rc = []).
    { clear - S Enc. remember 0%nat as z. clear Heqz. revert k Enc. induction S as [k1|k0 i is x xs r0 n E T K N I Ln Hh S IH]; intros [|k] E'; try discriminate; [cbn in E'; apply Some_inj in E'; subst i; eauto|eauto]. }
    destruct Rc as (rc & Erc & Trc & Krc).
    destruct (remove_run d tb c H Hb Ic') as (d1 & ER & W1 & M1 & N1 & R1 & L1 & L2). rewrite Eb in *.
    assert (C1 : cut d d1 c).
    { destruct M1 as (m1 & m2 & m3). split; [exact m1|]. split; [exact m2|]. split; [exact m3|]. split; [rewrite R1; destruct (rts d); [discriminate|reflexivity]|]. intros j w Ej. destruct (Nat.eq_dec j b) as [->|N].
      - rewrite L1. rewrite E5 in Ej. apply Some_inj in Ej. subst w. rewrite Eq. rewrite <- Eq at 2. reflexivity.
      - rewrite L2 by exact N. rewrite (less_id d b c H Kc j w Ej N), with_kids_id. exact Ej. }
    assert (S1 : shrunk (Nat.eqb c) d d1). { apply (cut_shrunk d d1 c b H Kc C1). intros j Ej. rewrite L2; [exact Ej|]. intros ->. congruence. }
    assert (Hl : forall a w x, lk d a = Some w -> r_tag w = $"Binary" -> In x (r_kids w) -> Nat.eqb c x = false).
    { intros a w x Ea Ta Ix. apply Nat.eqb_neq. intros <-. assert (a = b) as -> by (apply (one_parent d a b c H); [exists w; auto|exact Kc]). destruct Tb as (u & Eu & Tu). rewrite Ea in Eu. apply Some_inj in Eu. subst u. rewrite Tu in Ta. vm_compute in Ta. discriminate. }
    pose proof (shrunk_regular _ d d1 H S1 Hl G) as G1.
    assert (Bc : forall j, below (lk d) c j -> j = c). { intros j B. induction B as [w Ew|j j' w B IH Ew Ij]; [reflexivity|]. subst j. rewrite Erc in Ew. apply Some_inj in Ew. subst w. rewrite Krc in Ij. destruct Ij. }
    assert (Nc : forall a v n, attached d a v n -> a <> c). { intros a v n A ->. pose proof (at_value _ _ _ _ A) as V. unfold kids_tagged in V. rewrite Erc, Krc in V. discriminate. }
    assert (A1 : forall a v n, attached d1 a v n <-> attached d a v n).
    { intros a v n. split; intros A; pose proof A as [B1 B2 B3 (w & Ew & Iw)].
      - apply (shrunk_tag _ d d1 S1) in B2. rewrite (shrunk_value _ d d1 S1 Hl a B2) in B3. constructor; [exact (shrunk_doc_sub _ d d1 S1 a B1)|exact B2|exact B3|]. destruct (lk d v) as [u|] eqn:Ev; [|rewrite (sh_none _ _ _ S1 v Ev) in Ew; discriminate]. destruct C1 as (_ & _ & _ & _ & C1). rewrite (C1 v u Ev) in Ew. apply Some_inj in Ew. subst w. exists u. auto.
      - constructor; [|now apply (shrunk_tag _ d d1 S1)|now rewrite (shrunk_value _ d d1 S1 Hl a B2)|].
        + apply (shrunk_doc_keep _ d d1 H S1 a B1). intros j _ B. apply Nat.eqb_neq. intros <-. apply (Nc a v n A). now apply Bc.
        + exists (with_kids (less c (r_kids w)) w). split; [now apply C1|exact Iw]. }
    assert (Sd1 : store Zl d1 (remove_nth k l)).
    { assert (ND : NoDup (r_kids q)). { rewrite <- Eq. cbn. apply (kids_nodup (d_forest d) tb (wf_unique d H) Hb). }
      assert (Hk : forall T j, lk d j <> None -> j <> b -> kids_tagged (lk d1) T j = kids_tagged (lk d) T j).
      { intros T j Nj Nb. destruct (lk d j) as [w|] eqn:Ej; [|congruence]. apply (shrunk_kids _ d d1 S1 T j w Ej). intros x Ix. apply Nat.eqb_neq. intros <-. apply Nb. apply (one_parent d j b c H); [exists w; auto|exact Kc]. }
      destruct Tb as (u & Eu & Tu). rewrite E5 in Eu. apply Some_inj in Eu. subst u.
      apply (store3 Zl d1 _ r m b (with_kids (remove_nth k (r_kids q)) q)).
      - rewrite (proj1 M1). exact L.
      - destruct C1 as (_ & _ & _ & C1 & _). rewrite C1. exact E1.
      - now apply (shrunk_tag _ d d1 S1).
      - destruct E2 as (w & Ew & Tw). rewrite Hk; [exact E3|congruence|]. intros ->. rewrite E5 in Ew. apply Some_inj in Ew. subst w. rewrite Tu in Tw. vm_compute in Tw. discriminate.
      - destruct Tm as (w & Ew & Tw). rewrite Hk; [exact E4|congruence|]. intros ->. rewrite E5 in Ew. apply Some_inj in Ew. subst w. rewrite Tu in Tw. vm_compute in Tw. discriminate.
      - destruct C1 as (_ & _ & _ & _ & C1). rewrite (C1 b q E5). now rewrite (remove_less k _ c ND Enc).
      - cbn. apply shelf_remove. eapply shelf_mono; [|exact S]. intros i w Ei Ti. destruct C1 as (_ & _ & _ & _ & C1). exists (with_kids (less c (r_kids w)) w). split; [now apply C1|]. cbn. repeat (split; [reflexivity|]). intros ->. reflexivity. }
    destruct (unbind_run R d1 k W1 G1) as (d' & E & W' & M' & G' & U).
    exists d1, d'. split; [|split; [exact W'|split; [exact G'|split; [exact (store_unbound Zl d1 d' k _ W1 G1 U M' Sd1)|split; [|split; [exact U|split; [exact A1|]]]]]]].
    + rewrite (delete_binary_tail R d k _ d1 eq_refl); [exact E|]. rewrite (v4_false d L). rewrite (mbind_ok _ _ _ _ _ Q1). rewrite (py_index_nth _ _ _ Ec), Eb. exact ER.
    + split; [apply M1|]. split; [apply M1|]. split; [apply C1|]. right. split; [exact L|]. exists m, b, q, c. split; [exact Tm|]. split; [rewrite E4; now left|]. auto.
    + intros a v n A. split; intros (h & Th & Nh & B); exists h; (split; [now apply (shrunk_tag _ d d1 S1)|split; [exact Nh|]]).
      * exact (shrunk_below_sub _ d d1 S1 h a B).
      * apply (shrunk_below_keep _ d d1 H S1 h a B). intros j _ Bj. apply Nat.eqb_neq. intros <-. apply (Nc a v n A). now apply Bc.
Qed.
Lemma bin_delete_none R Zl d l k : wf d -> store Zl d l -> (List.length l <= k)%nat -> delete_binary R (Z.of_nat k) d = (Err Ex_Binary, d).
Proof.
  intros H S Lk. unfold delete_binary. rewrite (mbind_ok get_db _ d d d eq_refl). apply mbind_err. destruct S as [L F|r m b q L E1 E2 E3 E4 E5 S].
  - rewrite (v4_true d L). assert (EL : List.length (d_bins d) = List.length l) by (clear - F; induction F; cbn; congruence). unfold py_pop. destruct (Z.ltb_spec (Z.of_nat k) 0); [lia|]. destruct (Z.ltb_spec (Z.of_nat k) 0); [lia|]. destruct (Z.leb_spec (Z.of_nat (List.length (d_bins d))) (Z.of_nat k)); [|lia]. reflexivity.
  - pose proof (shelf_length _ _ _ _ _ S) as SL. rewrite (v4_false d L). destruct (store3_elems d r m b q H E1 E2 E3 E4 E5) as (tr & F & tm & tb & EF & Er & Tr & Km & Em & Kb & Eb & Hr & Hm & Hb & Eq).
    assert (Q1 : xfirst R None $"/KeePassFile/Meta/Binaries" d = (Ok (Some tb), d)).
    { change (meta_elem R $"Binaries" d = (Ok (Some tb), d)). rewrite (meta_run R d tr F $"Binaries" H EF); [|cbn; tauto]. unfold meta_of. rewrite Tr. change (str_eqb $"KeePassFile" $"KeePassFile") with true. cbv iota. rewrite Km. cbn [flat_map]. rewrite app_nil_r, Kb. reflexivity. }
    rewrite (mbind_ok _ _ _ _ _ Q1). unfold py_index. destruct (Z.ltb_spec (Z.of_nat k) 0); [lia|]. destruct (Z.ltb_spec (Z.of_nat k) 0); [lia|]. rewrite Nat2Z.id. replace (nth_error (ekids tb) k) with (@None elem); [reflexivity|]. symmetry. apply nth_error_None. rewrite <- Eq in SL. cbn in SL. rewrite map_length in SL. lia.
Qed.

(** *** Attaching *)
Lemma store_grown Zl d d' p t l : wf d -> grown d d' p t -> is_tag (lk d) $"Entry" p -> store Zl d l -> store Zl d' l.
Proof.
  intros H Gr Tp S. destruct (gr_meta _ _ _ _ Gr) as (M1 & M2 & M3). destruct S as [L F|r m b q L E1 E2 E3 E4 E5 S]; [apply store4; congruence|]. destruct (doc_path d r m b H E1 E3 E4) as (Db & Kmb & Tm & Tb).
  assert (Nb : forall T j, T <> $"Entry" -> is_tag (lk d) T j -> j <> p) by (intros T j N (w & Ew & Tw) ->; destruct Tp as (u & Eu & Tu); congruence).
  assert (Ne : forall T j, is_tag (lk d) T j -> lk d j <> None) by (intros T j (w & -> & _); discriminate).
  apply (store3 Zl d' l r m b q); [congruence| | | | | |].
  - rewrite (gr_top _ _ _ _ Gr). exact E1.
  - now apply (grown_tag d d' p t Gr).
  - rewrite (grown_kids d d' p t H Gr); [exact E3|eapply Ne; exact E2|apply (Nb $"KeePassFile"); [vm_compute; discriminate|exact E2]].
  - rewrite (grown_kids d d' p t H Gr); [exact E4|eapply Ne; exact Tm|apply (Nb $"Meta"); [vm_compute; discriminate|exact Tm]].
  - destruct (grown_row d d' p t Gr b q E5) as (q' & Eq' & _ & _ & _ & _ & X). rewrite X in Eq'; [exact Eq'|]. apply (Nb $"Binaries"); [vm_compute; discriminate|exact Tb].
  - eapply shelf_mono; [|exact S]. intros i w Ei Ti. destruct (grown_row d d' p t Gr i w Ei) as (w' & Ew' & a1 & a2 & a3 & _ & a5). exists w'. repeat (split; [assumption|]). intros K. rewrite a5; [exact K|]. apply (Nb $"Binary"); [vm_compute; discriminate|]. exists w. auto.
Qed.
Lemma attach_run Zl d l e k f : wf d -> regular d -> store Zl d l -> in_doc d e -> is_tag (lk d) $"Entry" e -> text_ok f = true ->
  exists a v d', add_attachment e (Z.of_nat k) (Some f) d = (Ok a, d') /\ wf d' /\ regular d' /\ store Zl d' l /\ kept d d' /\ lk d a = None /\ is_kid d' e a /\ attached d' a v k /\ att_filename a d' = (Ok (Some f), d').
Proof.
  intros H G S De Te Tf. set (x := e_node $"Binary" [X $"Key" [] (Some f) []; X $"Value" [($"Ref", number k)] None []]).
  destruct (append_new_grown d e x H De) as (t & d' & EA & Et & Ext & Gr). destruct (Api_fields.erase_kids _ _ _ _ _ Ext) as (T1 & T2 & T3 & T4).
  destruct (ekids t) as [|tk [|tv [|]]] eqn:K0; try discriminate. cbn [map] in T4. injection T4 as Ek Ev. destruct (Api_fields.erase_kids _ _ _ _ _ Ek) as (K1 & K2 & K3 & K4). destruct (Api_fields.erase_kids _ _ _ _ _ Ev) as (V1 & V2 & V3 & V4).
  assert (Kk : ekids tk = []) by (destruct (ekids tk); [reflexivity|discriminate]). assert (Kv : ekids tv = []) by (destruct (ekids tv); [reflexivity|discriminate]).
  assert (Hp : is_tag (lk d) $"Entry" e \/ is_tag (lk d) $"Binaries" e) by now left.
  assert (Hev : everything t = [t; tk; tv]).
  { destruct t as [? ? ? ? kk]; cbn in K0; subst kk. destruct tk as [? ? ? ? kk]; cbn in Kk; subst kk. destruct tv as [? ? ? ? kk]; cbn in Kv; subst kk. reflexivity. }
  assert (Hval : kids_of $"Value" t = [tv]). { unfold kids_of. rewrite K0. cbn [filter]. rewrite K1, V1. change (str_eqb $"Key" $"Value") with false. change (str_eqb $"Value" $"Value") with true. reflexivity. }
  assert (Hkey : kids_of $"Key" t = [tk]). { unfold kids_of. rewrite K0. cbn [filter]. rewrite K1, V1. change (str_eqb $"Value" $"Key") with false. change (str_eqb $"Key" $"Key") with true. reflexivity. }
  assert (Hl : lk d (eid t) = None). { apply (gr_fresh _ _ _ _ Gr). rewrite ids_everything, Hev. now left. }
  assert (Hr : regular d').
  { apply (grown_regular d d' e t H Gr Hp).
    - intros u I Tu. rewrite Hev in I. destruct I as [<-|[<-|[<-|[]]]]; [reflexivity| |]; exfalso; [rewrite K1 in Tu|rewrite V1 in Tu]; vm_compute in Tu; discriminate.
    - intros y _ I. rewrite K0 in I. destruct I as [<-|[<-|[]]].
      + rewrite K2. split; [exact Kk|]. split; [constructor|]. now left.
      + rewrite V2. split; [exact Kv|]. split; [cbn; constructor; [intros []|constructor]|]. now right.
    - intros V _ I. rewrite Hval in I |- *. destruct I as [<-|[]]. split; [reflexivity|]. exists k. rewrite V2. now left.
    - intros _. exact Te.
    - exact G. }
  exists (eid t), (eid tv), d'. split; [|split; [apply Gr|split; [exact Hr|split; [exact (store_grown Zl d d' e t l H Gr Te S)|split; [exact (grown_kept d d' e t H Gr Hp)|split; [exact Hl|split; [|split]]]]]]].
  - unfold add_attachment. rewrite (mbind_ok _ _ d (X $"Key" [] (Some f) []) d). + change (lx_append_new e x d = (Ok (eid t), d')). rewrite EA, Et. reflexivity. + unfold of_res, e_text. cbn [forallb]. now rewrite Tf.
  - destruct Te as (w & Ew & _). eexists. split; [exact (gr_old _ _ _ _ Gr e w Ew)|]. cbn. rewrite Nat.eqb_refl. apply in_or_app. right. now left.
  - pose proof (gr_wf _ _ _ _ Gr) as W. pose proof (gr_has _ _ _ _ Gr) as T. constructor.
    + apply (gr_doc _ _ _ _ Gr). right. rewrite ids_everything, Hev. now left.
    + exists (row_of t). split; [now apply look_self; [apply W|]|exact T1].
    + rewrite (kids_tagged_of d' t _ W T), Hval. reflexivity.
    + exists (row_of tv). split; [apply look_self; [apply W|]; apply (has_kid d' t); [exact T|rewrite K0; right; now left]|]. cbn. rewrite V2. now left.
  - unfold att_filename. rewrite (mbind_ok _ _ _ _ _ (the_run d' (eid t) t (gr_wf _ _ _ _ Gr) (gr_has _ _ _ _ Gr) eq_refl)). unfold find1. rewrite Hkey. cbn. now rewrite K3.
Qed.
Lemma attach_bad d e k f : (f = None \/ exists s, f = Some s /\ text_ok s = false) -> exists x, (x = Ex_Type \/ x = Ex_Value) /\ add_attachment e k f d = (Err x, d).
Proof.
  intros [->|(s & -> & T)]; unfold add_attachment.
  - exists Ex_Type. split; [now left|]. reflexivity.
  - exists Ex_Value. split; [now right|]. apply mbind_err. unfold of_res, e_text. cbn [forallb]. now rewrite T.
Qed.

(** *** The data of an attachment *)
Lemma att_binary_run R Zl d l a v n : wf d -> regular d -> store Zl d l -> attached d a v n ->
  att_binary R Zl a d = (match nth_error l n with Some x => Ok x | None => Err Ex_Binary end, d).
Proof.
  intros H G S A. unfold att_binary. pose proof (att_id_run d a v n H (attached_refs d a v n H G A)) as E. rewrite (mbind_ok _ _ _ _ _ (binaries_run R Zl d l H S)), (mbind_ok _ _ _ _ _ E). unfold of_res, py_index. destruct (Z.ltb_spec (Z.of_nat n) 0); [lia|]. destruct (Z.ltb_spec (Z.of_nat n) 0); [lia|]. rewrite Nat2Z.id. destruct (nth_error l n); [reflexivity|]. now rewrite E.
Qed.
Lemma remove_nth_renumber {A} (l : list A) k n : n <> k -> (n < List.length l)%nat -> nth_error (remove_nth k l) (renumber k n) = nth_error l n.
Proof.
  intros N Ln. unfold remove_nth, renumber. destruct (Nat.ltb_spec k n).
  - rewrite nth_error_app2 by (rewrite firstn_length; lia). rewrite firstn_length. destruct (Nat.min_spec k (List.length l)) as [[_ ->]|[? ->]]; [|lia].
    assert (X : forall m (u : list A) j, nth_error (skipn m u) j = nth_error u (m + j)%nat). { clear. induction m as [|m IH]; intros [|x u] j; cbn; auto. now destruct j. }
    rewrite X. f_equal. lia.
  - assert (n < k)%nat by lia. rewrite nth_error_app1 by (rewrite firstn_length; lia). clear - H0. revert l k H0. induction n as [|n IH]; intros [|x l] [|k] L; cbn; auto; try lia. apply IH. lia.
Qed.
Lemma delete_data R Zl d l k : wf d -> regular d -> store Zl d l -> (k < List.length l)%nat ->
  exists d', delete_binary R (Z.of_nat k) d = (Ok tt, d') /\ wf d' /\ regular d' /\ store Zl d' (remove_nth k l) /\
    (forall a, unwanted d k a -> ~ in_doc d' a) /\
    (forall a v n x, attached d a v n -> n <> k -> att_binary R Zl a d = (Ok x, d) -> in_doc d' a /\ att_binary R Zl a d' = (Ok x, d')).
Proof.
  intros H G S L. destruct (bin_delete_run R Zl d l k H G S L) as (d1 & d' & E & W & G' & S' & P & U & A1 & A2). exists d'. repeat (split; [assumption|]).
  assert (HU : forall a, unwanted d1 k a <-> unwanted d k a).
  { intros a. split; intros (N & v & A); [apply A1 in A|]; (split; [|exists v; auto]).
    - intros C. apply N. now apply (A2 a v k A).
    - intros C. apply N. now apply (A2 a v k A).
    - now apply A1. }
  split.
  - intros a Ua. apply (ub_gone _ _ _ U). now apply HU.
  - intros a v n x A N Ex. assert (A' : attached d' a v (renumber k n)).
    { apply (ub_ref _ _ _ U); [now apply A1|]. intros (_ & v' & A''). apply A1 in A''. apply N. pose proof (attached_refs d a v n H G A) as R1. pose proof (attached_refs d a v' k H G A'') as R2. assert (v' = v) as -> by (pose proof (at_value _ _ _ _ A); pose proof (at_value _ _ _ _ A''); congruence). destruct (refs_value_inj d a v n H R1 a k R2) as [_ ->]. reflexivity. }
    split; [exact (at_doc _ _ _ _ A')|]. rewrite (att_binary_run R Zl d l a v n H G S A) in Ex. rewrite (att_binary_run R Zl d' _ a v _ W G' S' A').
    destruct (nth_error l n) as [y|] eqn:Ey; [|discriminate]. assert (n < List.length l)%nat by (apply nth_error_Some; congruence). rewrite remove_nth_renumber, Ey by assumption. congruence.
Qed.

(** *** Sequences of calls *)
Lemma remove_nth_none {A} (l : list A) k : (List.length l <= k)%nat -> remove_nth k l = l.
Proof. intros L. unfold remove_nth. rewrite firstn_all2, skipn_all2 by lia. apply app_nil_r. Qed.
Lemma bops_run R Zl os : zlib_ok Zl -> forall d l, wf d -> regular d -> store Zl d l -> bops_ok R Zl d os ->
  wf (after_bops R Zl os d) /\ regular (after_bops R Zl os d) /\ store Zl (after_bops R Zl os d) (shelved l os).
Proof.
  intros Z. induction os as [|o os IH]; intros d l H G S Hok; [auto|]. cbn [bops_ok] in Hok. destruct Hok as [Ho Hos]. cbn [after_bops]. destruct o as [x c p|k|e k f]; cbn [run_bop shelved] in *.
  - destruct (add_run R Zl d l x c p H G S Z Ho) as (d' & E & W & G' & S' & _ & _). rewrite E in *. cbn [snd] in *. now apply IH.
  - destruct (Nat.ltb_spec k (List.length l)) as [L|L].
    + destruct (bin_delete_run R Zl d l k H G S L) as (d1 & d' & E & W & G' & S' & _). rewrite (mbind_ok _ _ _ _ _ E) in *. cbn [snd ret] in *. now apply IH.
    + rewrite (mbind_err _ _ _ _ _ (bin_delete_none R Zl d l k H S L)) in *. cbn [snd] in *. rewrite remove_nth_none by exact L. now apply IH.
  - destruct Ho as (De & Te & s & -> & Ts). destruct (attach_run Zl d l e k s H G S De Te Ts) as (a & v & d' & E & W & G' & S' & _). rewrite (mbind_ok _ _ _ _ _ E) in *. cbn [snd ret] in *. now apply IH.
Qed.
Lemma attach_order Zl d l e k f d' a : wf d -> regular d -> store Zl d l -> in_doc d e -> is_tag (lk d) $"Entry" e -> text_ok f = true -> in_order d -> add_attachment e (Z.of_nat k) (Some f) d = (Ok a, d') -> in_order d'.
Proof.
  intros H G S De Te Tf O E r m b q i c L X1 X2 X3 X4 X5. set (x := e_node $"Binary" [X $"Key" [] (Some f) []; X $"Value" [($"Ref", number k)] None []]).
  destruct (append_new_grown d e x H De) as (t & d'' & EA & Et & Ext & Gr). assert (d'' = d') as ->.
  { unfold add_attachment in E. rewrite (mbind_ok _ _ d (X $"Key" [] (Some f) []) d) in E. - change (lx_append_new e x d = (Ok a, d')) in E. congruence. - unfold of_res, e_text. cbn [forallb]. now rewrite Tf. }
  assert (Nb : forall T j, T <> $"Entry" -> is_tag (lk d) T j -> j <> e) by (intros T j N (w & Ew & Tw) ->; destruct Te as (u & Eu & Tu); congruence).
  assert (L0 : (d_major d < 4)%N) by (destruct (gr_meta _ _ _ _ Gr) as (M & _); congruence). destruct S as [L1 _|r0 m0 b0 q0 _ E1 E2 E3 E4 E5 _]; [lia|]. destruct (doc_path d r0 m0 b0 H E1 E3 E4) as (Db & Kmb & Tm & Tb).
  assert (Ne : forall T j, is_tag (lk d) T j -> lk d j <> None) by (intros T j (w & -> & _); discriminate).
  rewrite (gr_top _ _ _ _ Gr), E1 in X1. apply Some_inj in X1. subst r0.
  rewrite (grown_kids d d' e t H Gr), E3 in X2; [|eapply Ne; exact E2|apply (Nb $"KeePassFile"); [vm_compute; discriminate|exact E2]]. injection X2 as <-.
  rewrite (grown_kids d d' e t H Gr), E4 in X3; [|eapply Ne; exact Tm|apply (Nb $"Meta"); [vm_compute; discriminate|exact Tm]]. injection X3 as <-.
  destruct (grown_row d d' e t Gr b0 q0 E5) as (q' & Eq' & _ & _ & _ & _ & X). rewrite X in Eq' by (apply (Nb $"Binaries"); [vm_compute; discriminate|exact Tb]). rewrite X4 in Eq'. apply Some_inj in Eq'. subst q0.
  destruct (O r m0 b0 q i c L0 E1 E3 E4 E5 X5) as (w & Ew & Iw). destruct (grown_row d d' e t Gr c w Ew) as (w' & Ew' & _ & _ & Aw & _). exists w'. rewrite Aw. auto.
Qed.
Lemma bops_order R Zl os : zlib_ok Zl -> forall d l, wf d -> regular d -> store Zl d l -> in_order d -> bops_ok R Zl d os -> forallb no_del os = true -> in_order (after_bops R Zl os d).
Proof.
  intros Z. induction os as [|o os IH]; intros d l H G S O Hok Hn; [auto|]. cbn [bops_ok forallb] in Hok, Hn. apply andb_true_iff in Hn as [No Hn]. destruct Hok as [Ho Hos]. cbn [after_bops]. destruct o as [x c p|k|e k f]; cbn [run_bop] in *; [| discriminate|].
  - destruct (add_run R Zl d l x c p H G S Z Ho) as (d' & E & W & G' & S' & _ & O'). rewrite E in *. cbn [snd] in *. eapply IH; eauto.
  - destruct Ho as (De & Te & s & -> & Ts). destruct (attach_run Zl d l e k s H G S De Te Ts) as (a & v & d' & E & W & G' & S' & _). pose proof (attach_order Zl d l e k s d' a H G S De Te Ts O E) as O'. rewrite (mbind_ok _ _ _ _ _ E) in *. cbn [snd ret] in *. eapply IH; eauto.
Qed.
Lemma archive_binaries s t : erase s = archived t -> map erase (kids_of $"Binary" s) = map erase (kids_of $"Binary" t).
Proof.
  intros E. apply Api_fields.erase_kids in E as (_ & _ & _ & K). unfold kids_of, other_kids in *. revert K. generalize (ekids s). induction (ekids t) as [|k l IH]; intros m K.
  - destruct m; [reflexivity|discriminate].
  - cbn [filter] in K |- *. destruct (str_eqb (etag k) $"History") eqn:Eh; cbn [negb] in K.
    + apply str_eqb_eq in Eh. rewrite Eh. change (str_eqb $"History" $"Binary") with false. cbv iota. now apply IH.
    + destruct m as [|k' m]; [discriminate|]. cbn [map] in K. injection K as K1 K2. cbn [filter]. assert (etag k' = etag k) as -> by (destruct k, k'; cbn in K1 |- *; congruence). destruct (str_eqb (etag k) $"Binary"); cbn [map]; [rewrite K1; f_equal|]; now apply IH.
Qed.
