(** A small document for the examples of Prop_Api*.v, and checkers for the hypotheses. *)
From Verif Require Import Base Base64 PyStr Xml Tree XPath Time Uuid Db FindSpec ApiSpec FindEx Api.

Definition xt (g v : str) : xml := X g [] (Some v) [].
Definition xs (k v : str) : xml := X $"String" [] None [xt $"Key" k; xt $"Value" v].
Definition xp (k v : str) : xml := X $"String" [] None [xt $"Key" k; X $"Value" [($"Protected", $"True")] (Some v) []].
Definition xtimes : xml := X $"Times" [] None
  [xt $"CreationTime" $"qK4P3A4AAAA="; xt $"LastModificationTime" $"qK4P3A4AAAA="; xt $"LastAccessTime" $"qK4P3A4AAAA=";
   xt $"ExpiryTime" $"qK4P3A4AAAA="; xt $"Expires" $"False"; xt $"UsageCount" $"0"; xt $"LocationChanged" $"qK4P3A4AAAA="].
Definition xauto : xml := X $"AutoType" [] None
  [xt $"Enabled" $"True"; xt $"DataTransferObfuscation" $"0"; X $"DefaultSequence" [] None [];
   X $"Association" [] None [X $"Window" [] None []; X $"KeystrokeSequence" [] None []]].
Definition xuuid (n : N) : xml := xt $"UUID" (b64encode (repeat n 16)).
Definition xentry (n : N) (title user pass : str) (more : list xml) : xml :=
  X $"Entry" [] None ([xuuid n; xtimes; xs $"Title" title; xs $"UserName" user; xp $"Password" pass; xauto] ++ more).
Definition xbinary (f : str) (id : str) : xml := X $"Binary" [] None [xt $"Key" f; X $"Value" [($"Ref", id)] None []].
Definition xgroup (n : N) (name : str) (kids : list xml) : xml := X $"Group" [] None ([xuuid n; xtimes; xt $"Name" name] ++ kids).
Definition xdoc (bin : N) (kids : list xml) : xml :=
  X $"KeePassFile" [] None
    [X $"Meta" [] None
       [xt $"DatabaseName" $"demo"; xt $"MasterKeyChanged" $"qK4P3A4AAAA="; xt $"MasterKeyChangeRec" $"-1"; xt $"MasterKeyChangeForce" $"30";
        xt $"RecycleBinUUID" (b64encode (repeat bin 16)); X $"Binaries" [] None []];
     X $"Root" [] None [xgroup 1 $"Root" kids]].
Definition db_of (x : xml) : db := let '(t, n) := label 0 x in MkDb 4 0 [[0; 65]; [1; 66]] [t] n.
Definition edb : db := db_of (xdoc 9
  [xentry 2 $"mail" $"ann" $"s3cret" [xs $"pin" $"1234"; xp $"seed" $"abc"; xt $"Tags" $"home;work"; xbinary $"a.txt" $"0"];
   xgroup 3 $"sub"
     [xentry 4 $"bank" $"bob" $"pw" [xbinary $"b.txt" $"1"; X $"History" [] None [xentry 4 $"bank" $"bob" $"old" [xbinary $"b.txt" $"0"]]];
      xentry 5 $"shop" $"eve" $"x" []]]).
(** The element number [i]. *)
Definition el (d : db) (i : nat) : elem := match elem_of (d_forest d) i with Some t => t | None => El 0 [] [] None [] end.
Definition ids_of (T : str) (d : db) : list nat := map eid (filter (fun t => str_eqb (etag t) T) (elements (d_forest d))).

(** *** Checkers *)
Definition wfb (d : db) : bool := match d_forest d with [] => false | _ => nodupb (map eid (elements (d_forest d))) && forallb (fun t => (eid t <? d_next d)%nat) (elements (d_forest d)) end.
Lemma wfb_ok d : wfb d = true -> wf d.
Proof.
  unfold wfb, wf. destruct (d_forest d) as [|r F]; [discriminate|]. rewrite andb_true_iff. intros [H1 H2]. split; [discriminate|]. split; [now apply nodupb_ok|]. intros t Ht. rewrite forallb_forall in H2. now apply Nat.ltb_lt, H2.
Qed.
Definition hasb (d : db) (i : nat) : bool := match elem_of (d_forest d) i with Some _ => true | None => false end.
Lemma hasb_ok d i : hasb d i = true -> has_elem d (el d i) /\ eid (el d i) = i.
Proof.
  unfold hasb, el, has_elem. destruct (elem_of (d_forest d) i) as [t|] eqn:E; [|discriminate]. intros _. unfold elem_of, node_of in E. destruct (List.find _ _) as [n|] eqn:En; [|discriminate]. injection E as <-. apply find_some in En as [Hn En]. apply Nat.eqb_eq in En. split; [|exact En].
  revert Hn. clear. unfold fpre, elements. rewrite !in_flat_map. intros (t & Ht & Hn). exists t. split; [exact Ht|]. clear Ht. revert Hn. generalize (@nil elem). revert n. induction t as [j g a x k IH] using elem_ind'. intros n up. cbn [pre everything]. intros [<-|Hn]; [now left|]. right. apply in_flat_map in Hn as (c & Hc & Hn). apply in_flat_map. exists c. split; [exact Hc|]. rewrite Forall_forall in IH. now apply (IH c Hc n (El j g a x k :: up)).
Qed.
Fixpoint nodupo (l : list (option str)) : bool := match l with [] => true | x :: l' => negb (existsb (ostr_eqb x) l') && nodupo l' end.
Definition tidyb (t : elem) : bool :=
  forallb (fun s => (List.length (kids_of $"Key" s) =? 1)%nat && (List.length (kids_of $"Value" s) =? 1)%nat) (kids_of $"String" t) &&
  nodupo (map f_key (book t)) && forallb (fun f => match f_prot f with Some s => text_ok s | None => true end) (book t).
Lemma tidyb_ok t : tidyb t = true -> tidy t.
Proof.
  unfold tidyb, tidy. rewrite !andb_true_iff. intros [[H1 H2] H3]. split; [|split].
  - intros s Hs. rewrite forallb_forall in H1. specialize (H1 s Hs). rewrite andb_true_iff, !Nat.eqb_eq in H1. destruct H1 as [A B]. destruct (kids_of $"Key" s) as [|k [|? ?]]; try discriminate A. destruct (kids_of $"Value" s) as [|v [|? ?]]; try discriminate B. eauto.
  - revert H2. induction (map f_key (book t)) as [|x l IH]; [constructor|]. cbn. rewrite andb_true_iff, negb_true_iff. intros [G1 G2]. constructor; [|auto]. intros Hx. assert (existsb (ostr_eqb x) l = true); [|congruence]. apply existsb_exists. exists x. split; [exact Hx|]. destruct x; [apply str_eqb_refl|reflexivity].
  - apply Forall_forall. intros f Hf. rewrite forallb_forall in H3. specialize (H3 f Hf). unfold legal_flag. destruct (f_prot f); [exact H3|exact I].
Qed.
Definition clk : clock := MkClock (MkDt 2024 6 1 12 0 0 0 (Some 0%Z)) (repeat 7 16) (fun _ => 0%Z).
Definition no_z : zlib := MkZlib (fun b => b) (fun b => Ok b).
Lemma edb_wf : wf edb. Proof. apply wfb_ok. vm_compute. reflexivity. Qed.
(** The entry "mail" of [edb]. *)
Definition mail : elem := el edb 20.
Lemma mail_has : has_elem edb mail. Proof. apply hasb_ok. vm_compute. reflexivity. Qed.
Lemma mail_tidy : tidy mail. Proof. apply tidyb_ok. vm_compute. reflexivity. Qed.
Definition plainb (s : str) : bool := negb (existsb (N.eqb 34) s) && text_ok s.
Lemma plainb_ok s : plainb s = true -> plain s.
Proof.
  unfold plainb, plain. rewrite andb_true_iff, negb_true_iff. intros [H1 H2]. split; [|exact H2]. intros H. assert (existsb (N.eqb 34) s = true); [|congruence]. apply existsb_exists. exists 34. split; [exact H|reflexivity].
Qed.
