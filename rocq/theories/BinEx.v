(** Examples and checkers for Prop_Bin.v. *)
From Verif Require Import Base Base64 PyStr Xml Tree XPath Time Uuid Db FindSpec ApiSpec FindEx Api ApiEx StructSpec StructEx Find_facts Heap Prim Struct Struct_find Struct_bin Struct_trash BinSpec Bin BinStore.

Fixpoint nodups (l : list str) : bool := match l with [] => true | x :: l' => negb (existsb (str_eqb x) l') && nodups l' end.
Lemma nodups_ok l : nodups l = true -> NoDup l.
Proof.
  induction l as [|x l IH]; [constructor|]. cbn. rewrite andb_true_iff, negb_true_iff. intros [H1 H2]. constructor; [|auto]. intros I. assert (existsb (str_eqb x) l = true); [|congruence]. apply existsb_exists. exists x. split; [exact I|apply str_eqb_refl].
Qed.
Definition refb (v : elem) : bool := existsb (fun n => existsb (fun a : str * str => str_eqb (fst a) $"Ref" && str_eqb (snd a) (number n)) (eattrs v)) (seq 0 20).
Lemma refb_ok v : refb v = true -> exists n, In ($"Ref", number n) (eattrs v).
Proof.
  intros H. apply existsb_exists in H as (n & _ & H). apply existsb_exists in H as ([a b] & I & H). apply andb_true_iff in H as [H1 H2]. apply str_eqb_eq in H1, H2. cbn in H1, H2. subst a b. eauto.
Qed.
Definition regularb (d : db) : bool :=
  forallb (fun t =>
    (if str_eqb (etag t) $"Binary" then
      forallb (fun x => match ekids x with [] => true | _ => false end && nodups (map fst (eattrs x)) && (str_eqb (etag x) $"Key" || str_eqb (etag x) $"Value")) (ekids t) &&
      match kids_of $"Value" t with [] => true | [v] => refb v && match parent_of (d_forest d) (eid t) with Some p => str_eqb (etag p) $"Entry" && existsb (fun k => (eid k =? eid t)%nat) (ekids p) | None => false end | _ => false end
     else true)) (elements (d_forest d)).
Lemma regularb_ok d : wf d -> regularb d = true -> regular d.
Proof.
  intros W Hb. unfold regularb in Hb. rewrite forallb_forall in Hb.
  assert (X : forall a, is_tag (look (d_forest d)) $"Binary" a -> exists t, has_elem d t /\ eid t = a /\ forallb (fun x => match ekids x with [] => true | _ => false end && nodups (map fst (eattrs x)) && (str_eqb (etag x) $"Key" || str_eqb (etag x) $"Value")) (ekids t) = true /\
      match kids_of $"Value" t with [] => true | [v] => refb v && match parent_of (d_forest d) (eid t) with Some p => str_eqb (etag p) $"Entry" && existsb (fun k => (eid k =? eid t)%nat) (ekids p) | None => false end | _ => false end = true).
  { intros a (r & E & T). destruct (look_has d a r W E) as (t & Ht & Ea & <-). exists t. split; [exact Ht|]. split; [exact Ea|]. specialize (Hb t Ht). change (etag t = $"Binary") in T. rewrite T in Hb. change (str_eqb $"Binary" $"Binary") with true in Hb. cbv iota in Hb. now apply andb_true_iff in Hb. }
  constructor.
  - intros a r x E T I. destruct (X a (ex_intro _ r (conj E T))) as (t & Ht & <- & K & _). rewrite (look_self _ t (wf_unique d W) Ht) in E. apply Some_inj in E. subst r. cbn in I. apply in_map_iff in I as (c & <- & Ic). rewrite forallb_forall in K. specialize (K c Ic). rewrite !andb_true_iff, orb_true_iff in K. destruct K as [[K1 K2] K3].
    exists (row_of c). split; [apply look_self; [apply W|now apply (has_kid d t)]|]. cbn. split; [destruct (ekids c); [reflexivity|discriminate]|]. split; [now apply nodups_ok|]. destruct K3 as [K3|K3]; apply str_eqb_eq in K3; auto.
  - intros a x T I. destruct (X a T) as (t & Ht & <- & _ & K). rewrite (kids_tagged_of d t _ W Ht) in I |- *. destruct (kids_of $"Value" t) as [|v [|]] eqn:Ev; [destruct I| |discriminate]. destruct I as [<-|[]]. split; [reflexivity|]. apply andb_true_iff in K as [K _]. apply refb_ok in K as (n & K). exists n, (row_of v). split; [|exact K]. apply look_self; [apply W|]. apply (has_kid d t); [exact Ht|]. apply (kids_of_in $"Value"). rewrite Ev. now left.
  - intros a Da T N. destruct (X a T) as (t & Ht & <- & _ & K). rewrite (kids_tagged_of d t _ W Ht) in N. destruct (kids_of $"Value" t) as [|v [|]] eqn:Ev; [now elim N| |discriminate]. apply andb_true_iff in K as [_ K]. destruct (parent_of (d_forest d) (eid t)) as [p|] eqn:Ep; [|discriminate]. apply andb_true_iff in K as [K1 K2]. apply parent_of_In in Ep as [Hp Ip]; [|apply W].
    exists (eid p). split; [exists (row_of p)|exists (row_of p)]; (split; [apply look_self; [apply W|exact Hp]|]); [exact Ip|now apply str_eqb_eq].
Qed.
Definition attachedb (d : db) (a v n : nat) : bool := in_docb d a && tagb (look (d_forest d)) $"Binary" a && list_eqb Nat.eqb (kids_tagged (look (d_forest d)) $"Value" a) [v] &&
  match look (d_forest d) v with Some r => existsb (fun x : str * str => str_eqb (fst x) $"Ref" && str_eqb (snd x) (number n)) (r_attrs r) | None => false end.
Lemma attachedb_ok d a v n : wf d -> attachedb d a v n = true -> attached d a v n.
Proof.
  intros W. unfold attachedb. rewrite !andb_true_iff. intros [[[H1 H2] H3] H4]. constructor; [now apply in_docb_ok| |now apply nats_eqb_ok|].
  - unfold tagb in H2. destruct (look (d_forest d) a) as [r|] eqn:E; [|discriminate]. exists r. split; [exact E|now apply str_eqb_eq].
  - destruct (look (d_forest d) v) as [r|] eqn:E; [|discriminate]. exists r. split; [exact E|]. apply existsb_exists in H4 as ([x y] & I & H4). apply andb_true_iff in H4 as [A B]. apply str_eqb_eq in A, B. cbn in A, B. now subst.
Qed.
Lemma no_z_ok : zlib_ok no_z. Proof. intros x H. split; [exact H|reflexivity]. Qed.
Lemma edb_regular : regular edb. Proof. apply regularb_ok; [exact edb_wf|vm_compute; reflexivity]. Qed.
Lemma edb_store : store no_z edb [[65]; [66]].
Proof. apply store4; [vm_compute; discriminate|]. repeat constructor; eexists; reflexivity. Qed.
(** A KDBX3 document with three binaries, the last compressed (by [no_z]), and three attachments, one of them in a history. *)
Definition xbin3 (id data : str) (z : str) : xml := X $"Binary" [($"ID", id); ($"Compressed", z)] (Some data) [].
Definition doc3 : db :=
  let '(t, n) := label 0 (X $"KeePassFile" [] None
    [X $"Meta" [] None [xt $"RecycleBinUUID" (b64encode (repeat 9 16)); X $"Binaries" [] None [xbin3 $"0" $"QQ==" $"False"; xbin3 $"1" $"Qg==" $"False"; xbin3 $"2" $"Qw==" $"True"]];
     X $"Root" [] None [xgroup 1 $"Root"
       [xentry 2 $"mail" $"ann" $"s3cret" [xbinary $"a.txt" $"0"; xbinary $"c.txt" $"2"; X $"History" [] None [xentry 2 $"mail" $"ann" $"old" [xbinary $"c.txt" $"2"]]]]]]) in MkDb 3 1 [] [t] n.
Lemma doc3_wf : wf doc3. Proof. apply wfb_ok. vm_compute. reflexivity. Qed.
Lemma doc3_regular : regular doc3. Proof. apply regularb_ok; [exact doc3_wf|vm_compute; reflexivity]. Qed.
Lemma doc3_store : store no_z doc3 [[65]; [66]; [67]].
Proof.
  assert (X : forall k i is (x : bytes) xs r n, look (d_forest doc3) i = Some r -> str_eqb (r_tag r) $"Binary" = true -> r_kids r = [] -> nodups (map fst (r_attrs r)) = true -> In ($"ID", number n) (r_attrs r) -> (k <= n)%nat -> holds no_z r x -> shelf no_z (look (d_forest doc3)) (S k) is xs -> shelf no_z (look (d_forest doc3)) k (i :: is) (x :: xs)).
  { intros k i is x xs r n H1 H2 H3 H4 H5 H6 H7 H8. apply (shelf_cons _ _ _ _ _ _ _ r n); auto; [now apply str_eqb_eq|now apply nodups_ok]. }
  eapply (store3 no_z doc3 _ 0%nat 1%nat 3%nat); [vm_compute; reflexivity|vm_compute; reflexivity|eexists; split; [vm_compute; reflexivity|reflexivity]|vm_compute; reflexivity|vm_compute; reflexivity|vm_compute; reflexivity|].
  cbn [r_kids].
  eapply (X _ _ _ _ _ _ 0%nat); [vm_compute; reflexivity|vm_compute; reflexivity|reflexivity|vm_compute; reflexivity|vm_compute; now left|auto|exists [65]; split; [vm_compute; reflexivity|right; split; [vm_compute; intuition discriminate|reflexivity]]|].
  eapply (X _ _ _ _ _ _ 1%nat); [vm_compute; reflexivity|vm_compute; reflexivity|reflexivity|vm_compute; reflexivity|vm_compute; now left|auto|exists [66]; split; [vm_compute; reflexivity|right; split; [vm_compute; intuition discriminate|reflexivity]]|].
  eapply (X _ _ _ _ _ _ 2%nat); [vm_compute; reflexivity|vm_compute; reflexivity|reflexivity|vm_compute; reflexivity|vm_compute; now left|auto|exists [67]; split; [vm_compute; reflexivity|left; split; [vm_compute; tauto|reflexivity]]|].
  constructor.
Qed.
