(** The calls that change the structure, and what remains in the document. *)
From Verif Require Import Base PyStr Xml Tree XPath Uuid Time Db FindSpec XPath_facts XPath_eval Find_facts Find_path Api ApiSpec StructSpec CredSpec Heap Prim Api_xpath Struct Struct_add Struct_empty Struct_hist Struct_claims Struct_find Struct_index Bin_xpath IntegritySpec Integrity Integrity_ops.

(** *** New elements *)
Lemma cons_frameless x l : frameless x -> Forall frameless l -> Forall frameless (x :: l). Proof. now constructor. Qed.
Lemma base_frameless C icon ex expiry d l d' : base_kids C icon ex expiry d = (Ok l, d') -> Forall frameless l.
Proof.
  unfold base_kids. intros E. apply mbind_inv in E as [(e & _ & X)|(u & d1 & Hu & E)]; [discriminate X|]. apply mbind_inv in E as [(e & _ & X)|(ic & d2 & Hi & E)]; [discriminate X|]. apply mbind_inv in E as [(e & _ & X)|(cur & d3 & _ & E)]; [discriminate X|]. apply mbind_inv in E as [(e & _ & X)|(exp & d4 & _ & E)]; [discriminate X|].
  unfold ret in E. injection E as <- _. unfold of_res in Hu. injection Hu as Hu _. constructor; [eapply frameless_text; [|exact Hu]; reflexivity|]. apply Forall_app. split.
  - destruct (truthy icon); [|injection Hi as <- _; constructor]. unfold of_res in Hi. injection Hi as Hi _. apply bind_ok in Hi as (x & Hx & Hi). injection Hi as <-. constructor; [eapply frameless_text; [|exact Hx]; reflexivity|constructor].
  - constructor; [|constructor]. apply frameless_node; [now apply unframed|]. intros c Hc. cbn [In] in Hc. repeat (destruct Hc as [<-|Hc]; [apply frameless_leaf, unframed; reflexivity|]). destruct Hc.
Qed.
Lemma opt_frameless key v a l : opt_string key v a = Ok l -> Forall frameless l.
Proof. unfold opt_string. destruct (truthy v); [|intros E; injection E as <-; constructor]. intros E. apply bind_ok in E as (x & Hx & E). injection E as <-. constructor; [eapply frameless_string; exact Hx|constructor]. Qed.
Lemma auto_frameless s e w x : autotype_xml s e w = Ok x -> frameless x.
Proof.
  unfold autotype_xml. intros E. apply bind_ok in E as (a & Ha & E). apply bind_ok in E as (b & Hb & E). injection E as <-. apply frameless_node; [now apply unframed|]. intros c Hc. cbn [In] in Hc. destruct Hc as [<-|[<-|[<-|[<-|[]]]]].
  - apply frameless_leaf, unframed; reflexivity.
  - apply frameless_leaf, unframed; reflexivity.
  - eapply frameless_text; [|exact Ha]; reflexivity.
  - apply frameless_node; [now apply unframed|]. intros c [<-|[<-|[]]]; [eapply frameless_text; [|exact Hb]; reflexivity|apply frameless_leaf, unframed; reflexivity].
Qed.
Lemma entry_frameless title username password url notes otp tags s e w l : entry_kids title username password url notes otp tags s e w = Ok l -> Forall frameless l.
Proof.
  unfold entry_kids. intros E. apply bind_ok in E as (t & Ht & E). apply bind_ok in E as (u & Hu & E). apply bind_ok in E as (p & Hp & E). apply bind_ok in E as (ur & Hur & E). apply bind_ok in E as (n & Hn & E). apply bind_ok in E as (o & Ho & E). apply bind_ok in E as (tg & Htg & E). apply bind_ok in E as (a & Ha & E). injection E as <-.
  constructor; [eapply frameless_string; exact Ht|]. constructor; [eapply frameless_string; exact Hu|]. constructor; [eapply frameless_string; exact Hp|]. repeat (apply Forall_app; split); [eapply opt_frameless; exact Hur|eapply opt_frameless; exact Hn|eapply opt_frameless; exact Ho| |constructor; [eapply auto_frameless; exact Ha|constructor]].
  destruct tags as [|[|x l]|[|c q]]; try (injection Htg as <-; constructor); apply bind_ok in Htg as (y & Hy & Htg); injection Htg as <-; (constructor; [eapply frameless_text; [|exact Hy]; reflexivity|constructor]).
Qed.
Lemma laid_node T l : Forall frameless l -> xlaid (e_node T l).
Proof. intros F. apply simple_laid. intros c Hc. rewrite Forall_forall in F. now apply F. Qed.

Section Calls.
  Variables (S : nat -> Prop) (Nw : Prop) (d0 : db) (H0 : wf d0) (L0 : laid d0) (R : regex).
  Notation ev := (evolves S Nw d0).
  Notation good := (good S Nw d0).
  Notation evw E := (ev_wf _ _ _ _ E).
  Lemma good_new x d : ev d -> xlaid x -> (frameless x \/ Nw) -> good (lx_new x) d.
  Proof. intros E X F r d' Hr. destruct (ev_new S Nw d0 x d r d' E X F Hr) as (c & _ & _ & _ & A & B & _). auto. Qed.
  Lemma link_new T l g d : Nw -> ev d -> Forall frameless l -> is_tag (lk d) $"Group" g -> joins $"Group" T -> good (do e <- lx_new (e_node T l); do _ <- lx_append g e; ret e) d.
  Proof.
    intros N E F TG J. apply good_bind; [apply good_new; [exact E|now apply laid_node|now right]|]. intros c d1 Hc E1 T1. destruct (fun a b => ev_new S Nw d0 _ d _ d1 E a b Hc) as (c' & Ec & B & Tc & _); [now apply laid_node|now right|]. injection Ec as <-.
    apply good_bind; [|intros; now apply good_ret]. apply (good_append S Nw d0 H0 g c $"Group" T); [exact E1|now apply T1|exact Tc|exact J|right; now left].
  Qed.
  Lemma joins_ge : joins $"Group" $"Entry". Proof. right. right. left. auto. Qed.
  Lemma joins_gg : joins $"Group" $"Group". Proof. right. left. auto. Qed.
  Lemma bind_bind {A B D} (m : M A) (f : A -> M B) (k : B -> M D) d : mbind (mbind m f) k d = mbind m (fun a => mbind (f a) k) d.
  Proof. unfold mbind. destruct (m d) as [[a|e] d1]; reflexivity. Qed.
  Lemma good_ext {A} (m m' : M A) d : (forall d, m d = m' d) -> good m d -> good m' d.
  Proof. intros X G r d' Hr. apply (G r d'). now rewrite X. Qed.
  Lemma op_add_entry C g t u p url n x tags otp icon f d : Nw -> ev d -> is_tag (lk d) $"Group" g -> good (add_entry R C g t u p url n x tags otp icon f) d.
  Proof.
    intros N E TG. unfold add_entry. apply good_bind_read; [exact E|apply reads_lift|]. intros dup _.
    assert (G : good (do e <- new_entry C t u p url n otp tags (Some (match x with Some _ => true | None => false end)) x icon None true None; do _ <- lx_append g e; ret e) d).
    { eapply good_ext; [intros d1; symmetry; unfold new_entry; apply bind_bind|]. apply good_bind_read; [exact E|apply reads_base|]. intros b Hb. eapply good_ext; [intros d1; symmetry; apply bind_bind|]. apply good_bind_read; [exact E|apply reads_of|]. intros k Hk. unfold of_res in Hk. injection Hk as Hk.
      apply link_new; [exact N|exact E| |exact TG|apply joins_ge]. apply Forall_app. split; [eapply base_frameless; exact Hb|eapply entry_frameless; exact Hk]. }
    destruct dup as [|z l]; [exact G|]. destruct f; [exact G|]. apply good_bind_read; [exact E|apply reads_path|]. intros y _. now apply good_raise.
  Qed.
  Lemma op_add_group C g n icon notes d : Nw -> ev d -> is_tag (lk d) $"Group" g -> good (add_group C (Some g) n icon notes) d.
  Proof.
    intros N E TG. unfold add_group, new_group. eapply good_ext; [intros d1; symmetry; apply bind_bind|]. apply good_bind_read; [exact E|apply reads_base|]. intros b Hb. eapply good_ext; [intros d1; symmetry; apply bind_bind|]. apply good_bind_read; [exact E|apply reads_of|]. intros k Hk. unfold of_res in Hk. injection Hk as Hk.
    eapply good_ext; [intros d1; symmetry; apply bind_bind|]. apply good_bind_read; [exact E|destruct (truthy notes); [apply reads_of|apply reads_ret]|]. intros nt Hn.
    apply link_new; [exact N|exact E| |exact TG|apply joins_gg]. apply Forall_app. split; [eapply base_frameless; exact Hb|]. constructor; [eapply frameless_text; [|exact Hk]; reflexivity|].
    destruct (truthy notes); [|injection Hn as <-; constructor]. unfold of_res in Hn. injection Hn as Hn. apply bind_ok in Hn as (y & Hy & Hn). injection Hn as <-. constructor; [eapply frameless_text; [|exact Hy]; reflexivity|constructor].
  Qed.
  Lemma add_group_none C n icon notes d : Nw -> ev d -> good (add_group C None n icon notes) d.
  Proof.
    intros N E. unfold add_group. apply good_bind; [|intros; now apply good_raise]. unfold new_group. apply good_bind_read; [exact E|apply reads_base|]. intros b Hb. apply good_bind_read; [exact E|apply reads_of|]. intros k Hk. unfold of_res in Hk. injection Hk as Hk.
    apply good_bind_read; [exact E|destruct (truthy notes); [apply reads_of|apply reads_ret]|]. intros nt Hn. apply good_new; [exact E| |now right]. apply laid_node. apply Forall_app. split; [eapply base_frameless; exact Hb|]. constructor; [eapply frameless_text; [|exact Hk]; reflexivity|].
    destruct (truthy notes); [|injection Hn as <-; constructor]. unfold of_res in Hn. injection Hn as Hn. apply bind_ok in Hn as (y & Hy & Hn). injection Hn as <-. constructor; [eapply frameless_text; [|exact Hy]; reflexivity|constructor].
  Qed.
  (** *** History *)
  Lemma op_save_history i d : Nw -> ev d -> is_tag (lk d) $"Entry" i -> good (save_history i) d.
  Proof.
    intros N E TE. pose proof (evw E) as W. unfold save_history. apply good_bind_read; [exact E|apply reads_the|]. intros t Ht. apply the_ok in Ht as (_ & Ht & Ei); [|exact W].
    assert (Et : etag t = $"Entry") by (apply (is_tag_fun (lk d) _ _ i); [rewrite <- Ei; now apply has_tag|exact TE]).
    assert (XL : xlaid (erase t)) by (apply (tree_laid d); [exact W|apply E|exact Ht]).
    apply good_bind; [apply good_new; [exact E|exact XL|now right]|]. intros a d1 Ha E1 T1. destruct (fun b => ev_new S Nw d0 _ d _ d1 E XL b Ha) as (a' & Ea & Ba & Ta & _ & _ & (ta & Hta & Eta & Era & Ida)); [now right|]. injection Ea as <-. rewrite erase_tag, Et in Ta.
    apply good_bind_read; [exact E1|apply reads_the|]. intros ta' Hta'. apply the_ok in Hta' as (_ & Hta' & Eta'); [|apply (evw E1)]. assert (ta' = ta) as -> by (apply (unique_inj (d_forest d1)); [apply (evw E1)|exact Hta'|exact Hta|congruence]).
    destruct (find1 $"History" ta) as [h|] eqn:Eh.
    - apply find1_in in Eh as [Ih Th]. apply good_bind.
      + apply good_remove; [exact H0|exact E1|]. intros _. right. left. apply Ida. apply ids_In. now apply everything_kid.
      + intros _ d2 _ E2 T2. apply good_bind_read; [exact E2|apply reads_the|]. intros t' Ht'. apply the_ok in Ht' as (_ & Ht' & Ei'); [|apply (evw E2)]. destruct (find1 $"History" t') as [h'|] eqn:Eh'; [|now apply good_raise]. apply find1_in in Eh' as [Ih' Th'].
        apply (good_append S Nw d0 H0 (eid h') a $"History" $"Entry"); [exact E2|rewrite <- Th'; apply has_tag; [apply (evw E2)|now apply (has_kid d2 t')]|now apply T2|right; right; left; auto|right; now left].
    - assert (XH : xlaid (e_node $"History" [])) by (apply laid_node; constructor). apply good_bind; [apply good_new; [exact E1|exact XH|now right]|]. intros h d2 Hh E2 T2. destruct (fun b => ev_new S Nw d0 _ d1 _ d2 E1 XH b Hh) as (h' & Eh' & Bh & Tgh & _); [now right|]. injection Eh' as <-. change (xtag (e_node $"History" [])) with $"History" in Tgh.
      apply good_bind; [apply (good_append S Nw d0 H0 h a $"History" $"Entry"); [exact E2|exact Tgh|now apply T2|right; right; left; auto|right; now left]|]. intros _ d3 _ E3 T3. apply (good_append S Nw d0 H0 i h $"Entry" $"History"); [exact E3|now apply T3, T2, T1|now apply T3|right; right; right; auto|right; now left].
  Qed.
  Lemma op_delete_history i h d : ev d -> (forall x, match h with None => is_kid d i x /\ is_tag (lk d) $"History" x | Some h => x = h end -> S x) -> good (delete_history i h) d.
  Proof.
    intros E Hs. pose proof (evw E) as W. unfold delete_history. apply good_bind_read; [exact E|apply reads_the|]. intros t Ht. apply the_ok in Ht as (_ & Ht & Ei); [|exact W]. destruct h as [h|].
    - destruct (find1 _ t) as [e|]; [|now apply good_raise]. apply good_remove; [exact H0|exact E|]. intros _. right. right. now apply Hs.
    - destruct (find1 _ t) as [e|] eqn:Ef; [|now apply good_raise]. apply find1_in in Ef as [Ie Te]. apply good_remove; [exact H0|exact E|]. intros K. right. right. apply Hs. split; [exact K|]. rewrite <- Te. apply has_tag; [exact W|now apply (has_kid d t)].
  Qed.
  (** *** Moving *)
  Lemma op_delete i d : ev d -> S i -> good (delete i) d.
  Proof. intros E Si r d' Hr. apply (ev_delete S Nw d0 H0 i d r d' E); [right; now right|exact Hr]. Qed.
  Lemma op_move i g d : ev d -> S i -> an_item d i -> is_tag (lk d) $"Group" g -> good (move i g) d.
  Proof.
    intros E Si It TG. unfold move. destruct It as [It|It]; [apply (good_append S Nw d0 H0 g i $"Group" $"Entry"); auto; [apply joins_ge|right; now right]|apply (good_append S Nw d0 H0 g i $"Group" $"Group"); auto; [apply joins_gg|right; now right]].
  Qed.
  Lemma item_le d d' i : tags_le d d' -> an_item d i -> an_item d' i.
  Proof. intros T [X|X]; [left|right]; now apply T. Qed.
  Lemma op_group_append g l : forall d, ev d -> (forall x, In x l -> S x /\ an_item d x) -> is_tag (lk d) $"Group" g -> good (group_append g l) d.
  Proof.
    induction l as [|e l IH]; intros d E Hl TG; [now apply good_ret|]. cbn [group_append]. change (lx_append g e) with (move e g). apply good_bind; [apply op_move; auto; now apply Hl; left|]. intros _ d1 _ E1 T1. apply IH; [exact E1| |now apply T1]. intros x Hx. destruct (Hl x (or_intror Hx)) as [A B]. split; [exact A|now apply (item_le d)].
  Qed.
  Lemma same_reads i j : reads (same i j). Proof. unfold same, get_uuid. reads. Qed.
  Lemma reads_can i : reads (can_be_moved_to_recyclebin R i).
  Proof.
    unfold can_be_moved_to_recyclebin. apply reads_bind; [apply reads_lift|]. intros r. apply reads_bind; [destruct r; [apply same_reads|apply reads_ret]|]. intros [|]; [apply reads_ret|]. apply reads_bind; [apply reads_bin|]. intros [b|]; [|apply reads_ret]. apply reads_bind; [unfold get_uuid; reads|]. intros u. reads.
  Qed.
  Lemma op_bin C d : Nw -> ev d -> good (create_or_get_recyclebin_group R C) d.
  Proof.
    intros N E. unfold create_or_get_recyclebin_group. apply good_bind_read; [exact E|apply reads_bin|]. intros [b|] _; [now apply good_ret|]. apply good_bind_read; [exact E|apply reads_lift|]. intros r Hr. apply good_bind.
    - destruct r as [r|]; [|now apply add_group_none]. apply root_group_ok in Hr as (_ & TG & _); [|apply (evw E)]. now apply op_add_group.
    - intros g d1 _ E1 _. apply good_bind_read; [exact E1|apply reads_lift|]. intros e _. apply good_bind_read; [exact E1|unfold get_uuid; reads|]. intros u _. destruct e; [|now apply good_raise]. apply good_bind; [now apply good_text|]. intros; now apply good_ret.
  Qed.
End Calls.
