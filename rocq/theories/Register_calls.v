(** The tags each call may change something under. *)
From Coq Require Import ZifyBool ZifyNat ZifyN.
From Verif Require Import Base PyStr Xml Tree XPath Uuid Time Db FindSpec XPath_facts XPath_eval Find_facts Find_path Api ApiSpec StructSpec CredSpec Heap Prim Api_xpath Struct Struct_add Struct_empty Struct_hist Struct_claims Struct_find Struct_index Struct_trash Struct_bin Bin_xpath IntegritySpec Integrity Integrity_ops Integrity_calls Integrity_step Integrity_hist LocalSpec Local Local_step RegisterSpec Register_mute.

Definition minds (o : op) : list str :=
  match o with
  | Op_prop _ _ _ | Op_custom _ _ _ _ | Op_delete_custom _ _ => [$"String"]
  | Op_uuid _ _ => [$"UUID"] | Op_icon _ _ => [$"IconID"] | Op_tags _ _ => [$"Tags"] | Op_name _ _ => [$"Name"] | Op_notes _ _ => [$"Notes"]
  | Op_time _ p _ => [time_name p] | Op_expires _ _ => [$"Expires"]
  | Op_touch _ m => $"LastAccessTime" :: (if m then [$"LastModificationTime"] else [])
  | Op_autotype_enabled _ _ => [$"Enabled"] | Op_autotype_sequence _ _ => [$"DefaultSequence"] | Op_autotype_window _ _ => [$"Window"]
  | Op_save_history _ | Op_delete_history _ _ => [$"History"; $"Entry"]
  | Op_attach _ _ _ | Op_add_binary _ _ _ | Op_delete_binary _ => [$"Binary"]
  | Op_att_id _ _ => [] | Op_att_filename _ _ => [$"Key"]
  | Op_meta tag _ => [tag] | Op_days w _ => [due_tag w] | Op_changed _ => [$"MasterKeyChanged"]
  | Op_add_entry _ _ _ _ _ _ _ _ _ _ _ => [$"Entry"] | Op_add_group _ _ _ _ => [$"Group"]
  | Op_move _ _ | Op_append _ _ | Op_empty _ | Op_reindex _ _ => [$"Entry"; $"Group"]
  | Op_delete _ => [$"Entry"; $"Group"; $"Binary"]
  | Op_trash _ => [$"Entry"; $"Group"; $"RecycleBinUUID"]
  end.
Section Calls.
  Variables (S : str -> bool) (R : regex) (Zl : zlib).
  Notation mute := (mute S). Notation mb := (mb S).
  Lemma sane_ok d : sane d -> ok (fun _ => False) d. Proof. intros [W L]. split; [exact W|]. split; [exact L|intros x []]. Qed.
  Lemma has_mb d t T : wf d -> has d t -> etag t = T -> S T = false -> mb d (eid t) = false.
  Proof. intros W Ht <- N. rewrite (mb_tag S d (etag t)); [exact N|now apply has_tag]. Qed.
  Lemma the_has i t d : sane d -> the i d = (Ok t, d) -> has d t /\ eid t = i.
  Proof. intros [W _] Ht. now apply the_ok in Ht as (_ & Ht & E). Qed.
  Lemma find1_has T t k d : has d t -> find1 T t = Some k -> has d k /\ etag k = T.
  Proof. intros Ht Ef. apply find1_in in Ef as [Ik Tk]. split; [now apply (has_kid d t)|exact Tk]. Qed.
  (** *** Fields *)
  Lemma mute_sub T i P v d : frameb T = false -> S T = false -> sane d -> is_tag (lk d) P i -> mute (set_sub T i v) d.
  Proof.
    intros NF NS O TP. apply unframed in NF. unfold set_sub. apply mute_bind_read; [exact O|apply reads_the|]. intros t Ht. apply the_has in Ht as [Ht <-]; [|exact O]. apply mute_bind.
    - destruct (find1 T t) as [x|] eqn:Ef; [|now apply mute_ret]. destruct (find1_has T t x d Ht Ef) as [Hx Tx]. apply mute_remove; [exact O|left]. apply (has_mb d x T); auto. apply O.
    - intros _ d1 _ O1 T1 _. apply mute_bind_read; [exact O1|apply reads_of|]. intros x Hx. unfold of_res in Hx. injection Hx as Hx. apply e_text_leaf in Hx as (s & ->).
      apply mute_bind; [|intros; now apply mute_ret]. apply (mute_append_new S (eid t) P); [exact O1|now apply T1|now apply frameless_leaf|exact NS].
  Qed.
  Lemma field_tag key i P d f d' : sane d -> plain key -> is_tag (lk d) P i -> xfirst R (Some i) (string_xp key) d = (Ok (Some f), d') -> S $"String" = false -> mb d (eid f) = false.
  Proof. intros O Pk TP Hf NS. rewrite (mb_tag S d $"String"); [exact NS|]. exact (field_elem (fun _ => True) True d R key i P d' d f (sane_ev d O) Pk TP Hf). Qed.
  Lemma mute_string key i P v p d : plain key -> S $"String" = false -> sane d -> is_tag (lk d) P i -> mute (set_string R key i v p) d.
  Proof.
    intros Pk NS O TP. unfold set_string. apply mute_bind_read; [exact O|apply reads_lift|]. intros f Hf. apply mute_bind_read; [exact O| |].
    { destruct p; [apply reads_ret|]. apply reads_bind; [apply reads_lift|intros ?; apply reads_ret]. }
    intros prot _. apply mute_bind.
    - destruct f as [f|]; [|now apply mute_ret]. apply mute_remove; [exact O|left]. now apply (field_tag key i P d f d).
    - intros _ d1 _ O1 T1 _. apply mute_bind_read; [exact O1|apply reads_of|]. intros x Hx. unfold of_res in Hx. injection Hx as Hx. assert (Tx : xtag x = $"String"). { unfold e_string in Hx. apply bind_ok in Hx as (? & _ & Hx). apply bind_ok in Hx as (? & _ & Hx). now injection Hx as <-. }
      apply frameless_string in Hx. apply mute_bind; [|intros; now apply mute_ret]. apply (mute_append_new S i P); auto. now rewrite Tx.
  Qed.
  Lemma mute_prop p i P v d : S $"String" = false -> sane d -> is_tag (lk d) P i -> mute (set_prop R p i v) d.
  Proof.
    intros NS O TP. assert (Pl : forall k, forallb xml_char k = true -> existsb (N.eqb 34) k = false -> plain k).
    { intros k X Q. split; [|exact X]. intros I. assert (existsb (N.eqb 34) k = true) by (apply existsb_exists; exists 34; auto). congruence. }
    destruct p; cbn [set_prop]; try (apply (mute_string _ i P); [apply Pl; reflexivity|exact NS|exact O|exact TP]).
    all: unfold set_password, set_otp; (apply mute_bind_read; [exact O|apply reads_string|]); intros a _; (apply (mute_string _ i P); [apply Pl; reflexivity|exact NS|exact O|exact TP]).
  Qed.
  Lemma mute_custom i P key v b d : plain key -> S $"String" = false -> sane d -> is_tag (lk d) P i -> mute (set_custom_property R i key v b) d.
  Proof. intros Pk NS O TP. unfold set_custom_property. destruct (reserved _); [now apply mute_raise|now apply (mute_string key i P)]. Qed.
  Lemma mute_delete_custom i P key d : plain key -> S $"String" = false -> sane d -> is_tag (lk d) P i -> mute (delete_custom_property R i key) d.
  Proof.
    intros Pk NS O TP. unfold delete_custom_property. apply mute_bind_read; [exact O|apply reads_keys|]. intros ks _. destruct (existsb _ ks); [|now apply mute_raise]. apply mute_bind_read; [exact O|apply reads_lift|]. intros [f|] Hf; [|now apply mute_raise]. apply mute_remove; [exact O|left]. now apply (field_tag key i P d f d).
  Qed.
  (** *** Times and auto-type *)
  Lemma mute_time prop i v d : S prop = false -> sane d -> mute (set_time prop i v) d.
  Proof.
    intros NS O. unfold set_time. apply mute_bind_read; [exact O|apply reads_the|]. intros t Ht. apply the_has in Ht as [Ht <-]; [|exact O]. destruct (find1 _ t) as [ts|] eqn:E1; [|now apply mute_ret]. destruct (find1_has _ t ts d Ht E1) as [Hs _].
    destruct (find1 prop ts) as [p|] eqn:E2; [|now apply mute_ret]. destruct (find1_has _ ts p d Hs E2) as [Hp Tp]. apply mute_bind_read; [exact O|apply reads_encode|]. intros s _. apply mute_text; [exact O|]. apply (has_mb d p prop); auto. apply O.
  Qed.
  Lemma mute_timeprop p i v d : S (time_name p) = false -> sane d -> mute (set_timeprop p i v) d. Proof. destruct p; apply mute_time. Qed.
  Lemma mute_touch C m i d : S $"LastAccessTime" = false -> (m = true -> S $"LastModificationTime" = false) -> sane d -> mute (touch C m i) d.
  Proof. intros N1 N2 O. unfold touch. apply mute_bind; [now apply mute_timeprop|]. intros _ d1 _ O1 _ _. destruct m; [apply mute_timeprop; auto|now apply mute_ret]. Qed.
  Lemma mute_expires i b d : S $"Expires" = false -> sane d -> mute (set_expires i b) d.
  Proof.
    intros NS O. unfold set_expires, expires_elem. eapply mute_ext; [intros d1; symmetry; apply bind_bind|]. apply mute_bind_read; [exact O|apply reads_the|]. intros t Ht. apply the_has in Ht as [Ht <-]; [|exact O].
    destruct (find1 $"Times" t) as [ts|] eqn:E1; [|apply mute_bind; [now apply mute_raise|intros ? ? C; discriminate C]]. destruct (find1_has _ t ts d Ht E1) as [Hs _].
    destruct (find1 $"Expires" ts) as [p|] eqn:E2; [|apply mute_bind; [now apply mute_raise|intros ? ? C; discriminate C]]. destruct (find1_has _ ts p d Hs E2) as [Hp Tp].
    apply mute_bind_read; [exact O|apply reads_ret|]. intros q Hq. injection Hq as <-. apply mute_text; [exact O|]. apply (has_mb d p _ (proj1 O) Hp Tp NS).
  Qed.
  Lemma mute_auto (f : elem -> option elem) i v d T : (forall t e, has d t -> f t = Some e -> has d e /\ etag e = T) -> S T = false -> sane d -> mute (do t <- the i; match f t with Some e => lx_set_text (eid e) v | None => raise Ex_Attribute end) d.
  Proof. intros F NS O. apply mute_bind_read; [exact O|apply reads_the|]. intros t Ht. apply the_has in Ht as [Ht <-]; [|exact O]. destruct (f t) as [e|] eqn:Ef; [|now apply mute_raise]. destruct (F t e Ht Ef) as [He Te]. apply mute_text; [exact O|]. apply (has_mb d e T); auto. apply O. Qed.
  Lemma kids_has T t k d : has d t -> In k (kids_of T t) -> has d k /\ etag k = T.
  Proof. intros Ht Ik. apply kids_of_in in Ik as [Ik Tk]. split; [now apply (has_kid d t)|exact Tk]. Qed.
  Lemma find_2_has a b t e d : has d t -> find_2 a b t = Some e -> has d e /\ etag e = b.
  Proof. intros Ht E. apply hd_In, in_flat_map in E as (k & Hk & He). destruct (kids_has a t k d Ht Hk) as [Hk' _]. now apply (kids_has b k e d). Qed.
  Lemma find_3_has a b c t e d : has d t -> find_3 a b c t = Some e -> has d e /\ etag e = c.
  Proof. intros Ht E. apply hd_In, in_flat_map in E as (m & Hm & He). apply in_flat_map in Hm as (k & Hk & Hm). destruct (kids_has a t k d Ht Hk) as [Hk' _]. destruct (kids_has b k m d Hk' Hm) as [Hm' _]. now apply (kids_has c m e d). Qed.
  (** *** Attachments and binaries *)
  Lemma mute_attach i P id f d : S $"Binary" = false -> sane d -> is_tag (lk d) P i -> mute (add_attachment i id f) d.
  Proof.
    intros NS O TP. unfold add_attachment. apply mute_bind_read; [exact O|apply reads_of|]. intros k Hk. unfold of_res in Hk. injection Hk as Hk. apply (mute_append_new S i P); [exact O|exact TP| |exact NS]. apply frameless_node; [now apply unframed|]. intros c [<-|[<-|[]]]; [eapply frameless_text; [|exact Hk]; reflexivity|now apply frameless_leaf, unframed].
  Qed.
  Lemma mute_att_id a id d : sane d -> mute (set_att_id a id) d.
  Proof. intros O. unfold set_att_id. apply mute_bind_read; [exact O|apply reads_the|]. intros t _. destruct (find1 _ t); [apply mute_attr; [exact O|reflexivity]|now apply mute_raise]. Qed.
  Lemma mute_att_filename a v d : S $"Key" = false -> sane d -> mute (set_att_filename a v) d.
  Proof. intros NS O. apply (mute_auto (find1 $"Key") a v d $"Key"); auto. intros t e Ht Ef. now apply (find1_has _ t). Qed.
  Lemma meta_tag tag d e d' : sane d -> itemb tag = false -> In tag meta_tags -> meta_elem R tag d = (Ok (Some e), d') -> has d e /\ etag e = tag.
  Proof. intros O NT Ht E. destruct (meta_out (fun _ => False) R tag d e d' (sane_ok d O) NT Ht E) as (A & _ & B). auto. Qed.
  Lemma mute_add_binary data c p d : S $"Binary" = false -> sane d -> mute (add_binary R Zl data c p) d.
  Proof.
    intros NS O. unfold add_binary. apply mute_bind_read; [exact O|apply reads_db|]. intros dd _. apply mute_bind.
    - destruct (v4 dd); [now apply mute_bins|]. apply mute_bind_read; [exact O|apply reads_lift|]. intros b Hb. apply mute_bind_read; [exact O|apply reads_binaries|]. intros n _. apply mute_bind_read; [exact O|apply reads_of|]. intros x Hx. unfold of_res in Hx. injection Hx as Hx.
      destruct b as [b|]; [|now apply mute_raise]. change (xfirst R None $"/KeePassFile/Meta/Binaries" d) with (meta_elem R $"Binaries" d) in Hb. apply meta_tag in Hb as (Hb & Tb); [|exact O|reflexivity|cbn; tauto]. apply mute_bind; [|intros; now apply mute_ret]. apply (mute_append_new S (eid b) $"Binaries"); [exact O|rewrite <- Tb; apply has_tag; [apply O|exact Hb]| |].
      + eapply frameless_text; [|exact Hx]. reflexivity.
      + apply e_text_leaf in Hx as (s & ->). exact NS.
    - intros _ d1 _ O1 _ _. apply mute_read; [exact O1|]. apply reads_bind; [apply reads_binaries|intros ?; apply reads_ret].
  Qed.
  Lemma mute_each {A} (f : A -> M unit) (P : A -> db -> Prop) : (forall a d, sane d -> P a d -> mute (f a) d) -> (forall a d d', P a d -> tags_le d d' -> P a d') -> forall l d, sane d -> (forall a, In a l -> P a d) -> mute (each f l) d.
  Proof.
    intros Hf Hm. induction l as [|a l IH]; intros d O Hl; [now apply mute_ret|]. cbn [each]. apply mute_bind; [apply Hf; [exact O|apply Hl; now left]|]. intros _ d1 _ O1 T1 _. apply IH; [exact O1|]. intros b Hb. apply (Hm b d); [apply Hl; now right|exact T1].
  Qed.
  Lemma mute_delete_binary id d : S $"Binary" = false -> sane d -> mute (delete_binary R id) d.
  Proof.
    intros NS O. pose proof O as [W L]. unfold delete_binary. apply mute_bind_read; [exact O|apply reads_db|]. intros dd _. apply mute_bind.
    - destruct (v4 dd); [destruct (py_pop _ id); [now apply mute_bins|now apply mute_raise]|]. apply mute_bind_read; [exact O|apply reads_lift|]. intros [b|] Hb; [|now apply mute_raise]. apply binaries_elem in Hb as [Hb Tb]; [|exact W].
      destruct (py_index (ekids b) id) as [c|] eqn:Ei; [|now apply mute_raise]. apply mute_remove; [exact O|right]. rewrite <- Tb. now apply has_tag.
    - intros _ d1 _ O1 _ _. apply mute_bind_read; [exact O1|apply reads_lift|]. intros refs Hr. apply mute_bind.
      + apply (mute_each _ (fun r d => is_tag (lk d) $"Binary" (rid r))); [|intros a d2 d3 X Y; now apply Y|exact O1|].
        * intros r d2 O2 Tr. apply mute_delete; [exact O2|]. now rewrite (mb_tag S d2 $"Binary").
        * intros r Ir. unfold lift in Hr. injection Hr as Hr. exact (id_refs R d1 id refs (proj1 O1) Hr r Ir).
      + intros _ d2 _ O2 _ _. apply mute_bind_read; [exact O2|apply reads_lift|]. intros gt _. apply (mute_each _ (fun _ _ => True)); [|auto|exact O2|auto]. intros r d3 O3 _. apply mute_bind_read; [exact O3|apply reads_att|]. intros n _. now apply mute_att_id.
  Qed.
  (** *** Settings *)
  Lemma mute_meta_text tag v d e d' : itemb tag = false -> In tag meta_tags -> S tag = false -> sane d -> meta_elem R tag d = (Ok (Some e), d') -> mute (lx_set_text (eid e) v) d.
  Proof. intros NI Ht NS O He. apply meta_tag in He as [He Te]; auto. apply mute_text; [exact O|]. apply (has_mb d e tag); auto. apply O. Qed.
  Lemma mute_days tag n d : itemb tag = false -> In tag meta_tags -> S tag = false -> sane d -> mute (set_credchange_days R tag n) d.
  Proof. intros NT Ht NS O. unfold set_credchange_days. apply mute_bind_read; [exact O|apply reads_lift|]. intros [e|] He; [|now apply mute_raise]. now apply (mute_meta_text tag _ d e d). Qed.
  Lemma mute_changed t d : S $"MasterKeyChanged" = false -> sane d -> mute (set_credchange_date R t) d.
  Proof. intros NS O. unfold set_credchange_date. apply mute_bind_read; [exact O|apply reads_lift|]. intros e He. apply mute_bind_read; [exact O|apply reads_encode|]. intros s _. destruct e as [e|]; [|now apply mute_raise]. apply (mute_meta_text $"MasterKeyChanged" _ d e d); auto. cbn; tauto. Qed.
  Lemma mute_meta tag v d : itemb tag = false -> In tag meta_tags -> S tag = false -> sane d -> mute (set_meta R tag v) d.
  Proof. intros NT Ht NS O. unfold set_meta. apply mute_bind_read; [exact O|apply reads_lift|]. intros [e|] He; [|now apply mute_raise]. now apply (mute_meta_text tag _ d e d). Qed.
  (** *** New entries and groups *)
  Lemma mute_add_entry C g t u p url n x tags otp icon f d : S $"Entry" = false -> sane d -> is_tag (lk d) $"Group" g -> mute (add_entry R C g t u p url n x tags otp icon f) d.
  Proof.
    intros NS O TG. unfold add_entry. apply mute_bind_read; [exact O|apply reads_lift|]. intros dup _.
    assert (G : mute (do e <- new_entry C t u p url n otp tags (Some (match x with Some _ => true | None => false end)) x icon None true None; do _ <- lx_append g e; ret e) d).
    { eapply mute_ext; [intros d1; symmetry; unfold new_entry; apply bind_bind|]. apply mute_bind_read; [exact O|apply reads_base|]. intros b Hb. eapply mute_ext; [intros d1; symmetry; apply bind_bind|]. apply mute_bind_read; [exact O|apply reads_of|]. intros k Hk. unfold of_res in Hk. injection Hk as Hk.
      apply (mute_link S _ g $"Group"); [exact O| |exact TG|apply joins_ge|exact NS]. apply laid_node. apply Forall_app. split; [eapply base_frameless; exact Hb|eapply entry_frameless; exact Hk]. }
    destruct dup as [|z l]; [exact G|]. destruct f; [exact G|]. apply mute_bind_read; [exact O|apply reads_path|]. intros y _. now apply mute_raise.
  Qed.
  Lemma mute_new_group C n icon notes d : sane d -> mute (new_group C n icon notes None None) d.
  Proof.
    intros O. unfold new_group. apply mute_bind_read; [exact O|apply reads_base|]. intros b Hb. apply mute_bind_read; [exact O|apply reads_of|]. intros k Hk. unfold of_res in Hk. injection Hk as Hk.
    apply mute_bind_read; [exact O|destruct (truthy notes); [apply reads_of|apply reads_ret]|]. intros nt Hn. apply mute_new; [exact O|]. apply laid_node. apply Forall_app. split; [eapply base_frameless; exact Hb|]. constructor; [eapply frameless_text; [|exact Hk]; reflexivity|].
    destruct (truthy notes); [|injection Hn as <-; constructor]. unfold of_res in Hn. injection Hn as Hn. apply bind_ok in Hn as (y & Hy & Hn). injection Hn as <-. constructor; [eapply frameless_text; [|exact Hy]; reflexivity|constructor].
  Qed.
  Lemma mute_add_group C o n icon notes d : S $"Group" = false -> sane d -> (forall g, o = Some g -> is_tag (lk d) $"Group" g) -> mute (add_group C o n icon notes) d.
  Proof.
    intros NS O Ho. destruct o as [g|]; [|unfold add_group; apply mute_bind; [now apply mute_new_group|intros; now apply mute_raise]]. pose proof (Ho g eq_refl) as TG.
    unfold add_group, new_group. eapply mute_ext; [intros d1; symmetry; apply bind_bind|]. apply mute_bind_read; [exact O|apply reads_base|]. intros b Hb. eapply mute_ext; [intros d1; symmetry; apply bind_bind|]. apply mute_bind_read; [exact O|apply reads_of|]. intros k Hk. unfold of_res in Hk. injection Hk as Hk.
    eapply mute_ext; [intros d1; symmetry; apply bind_bind|]. apply mute_bind_read; [exact O|destruct (truthy notes); [apply reads_of|apply reads_ret]|]. intros nt Hn.
    apply (mute_link S _ g $"Group"); [exact O| |exact TG|apply joins_gg|exact NS]. apply laid_node. apply Forall_app. split; [eapply base_frameless; exact Hb|]. constructor; [eapply frameless_text; [|exact Hk]; reflexivity|].
    destruct (truthy notes); [|injection Hn as <-; constructor]. unfold of_res in Hn. injection Hn as Hn. apply bind_ok in Hn as (y & Hy & Hn). injection Hn as <-. constructor; [eapply frameless_text; [|exact Hy]; reflexivity|constructor].
  Qed.
  (** *** History *)
  Lemma mute_save_history i d : S $"History" = false -> S $"Entry" = false -> sane d -> is_tag (lk d) $"Entry" i -> mute (save_history i) d.
  Proof.
    intros NH NE O TE. pose proof O as [W L]. unfold save_history. apply mute_bind_read; [exact O|apply reads_the|]. intros t Ht. apply the_ok in Ht as (_ & Ht & Ei); [|exact W].
    assert (Et : etag t = $"Entry") by (apply (is_tag_fun (lk d) _ _ i); [rewrite <- Ei; now apply has_tag|exact TE]).
    assert (XL : xlaid (erase t)) by (apply (tree_laid d); [exact W|apply O|exact Ht]).
    apply mute_bind; [now apply mute_new|]. intros a d1 Ha O1 T1 _. pose proof (new_tag' _ d a d1 O XL Ha) as Ta. rewrite erase_tag, Et in Ta.
    apply mute_bind_read; [exact O1|apply reads_the|]. intros ta Hta. apply the_has in Hta as [Hta Eta]; [|exact O1].
    destruct (find1 $"History" ta) as [h|] eqn:Eh.
    - destruct (find1_has _ ta h d1 Hta Eh) as [Hh Th]. apply mute_bind; [apply mute_remove; [exact O1|left; now apply (has_mb d1 h _ (proj1 O1) Hh Th)]|]. intros _ d2 _ O2 T2 _. apply mute_bind_read; [exact O2|apply reads_the|]. intros t' Ht'. apply the_has in Ht' as [Ht' _]; [|exact O2]. destruct (find1 $"History" t') as [h'|] eqn:Eh'; [|now apply mute_raise]. destruct (find1_has _ t' h' d2 Ht' Eh') as [Hh' Th'].
      apply (mute_append S (eid h') a $"History" $"Entry"); [exact O2|rewrite <- Th'; apply has_tag; [apply O2|exact Hh']|now apply T2|right; right; left; auto|exact NE].
    - assert (XH : xlaid (e_node $"History" [])) by (apply laid_node; constructor). apply mute_bind; [now apply mute_new|]. intros h d2 Hh O2 T2 _. pose proof (new_tag' _ d1 h d2 O1 XH Hh) as Tgh. change (xtag (e_node $"History" [])) with $"History" in Tgh.
      apply mute_bind; [apply (mute_append S h a $"History" $"Entry"); [exact O2|exact Tgh|now apply T2|right; right; left; auto|exact NE]|].
      intros _ d3 _ O3 T3 _. apply (mute_append S i h $"Entry" $"History"); [exact O3|now apply T3, T2, T1|now apply T3|right; right; right; auto|exact NH].
  Qed.
  Lemma mute_delete_history i h d : S $"History" = false -> S $"Entry" = false -> sane d -> (forall x, h = Some x -> an_entry d x) -> mute (delete_history i h) d.
  Proof.
    intros NH NE O He. unfold delete_history. apply mute_bind_read; [exact O|apply reads_the|]. intros t Ht. apply the_has in Ht as [Ht <-]; [|exact O]. destruct h as [h|].
    - destruct (find1 _ t) as [e|] eqn:Ef; [|now apply mute_raise]. apply mute_remove; [exact O|left]. now rewrite (mb_tag S d $"Entry" h (He h eq_refl)).
    - destruct (find1 _ t) as [e|] eqn:Ef; [|now apply mute_raise]. destruct (find1_has _ t e d Ht Ef) as [He' Te]. apply mute_remove; [exact O|left]. now apply (has_mb d e _ (proj1 O) He' Te).
  Qed.
  (** *** Moving *)
  Lemma mute_move i g d : S $"Entry" = false -> S $"Group" = false -> sane d -> an_item d i -> is_tag (lk d) $"Group" g -> mute (move i g) d.
  Proof.
    intros NE NG O It TG. unfold move. destruct It as [It|It]; [apply (mute_append S g i $"Group" $"Entry"); auto; apply joins_ge|apply (mute_append S g i $"Group" $"Group"); auto; apply joins_gg].
  Qed.
  Lemma mute_group_append g l : S $"Entry" = false -> S $"Group" = false -> forall d, sane d -> (forall x, In x l -> an_item d x) -> is_tag (lk d) $"Group" g -> mute (group_append g l) d.
  Proof.
    intros NE NG. induction l as [|e l IH]; intros d O Hl TG; [now apply mute_ret|]. cbn [group_append]. change (lx_append g e) with (move e g). apply mute_bind; [apply mute_move; auto; apply Hl; now left|]. intros _ d1 _ O1 T1 _. apply IH; [exact O1| |now apply T1].
    intros x Hx. apply (item_le d); [exact T1|]. apply Hl. now right.
  Qed.
  Lemma mute_bin C d : S $"Group" = false -> S $"RecycleBinUUID" = false -> sane d -> mute (create_or_get_recyclebin_group R C) d.
  Proof.
    intros NG NB O. unfold create_or_get_recyclebin_group. apply mute_bind_read; [exact O|apply reads_bin|]. intros [b|] _; [now apply mute_ret|]. apply mute_bind_read; [exact O|apply reads_lift|]. intros r Hr. apply mute_bind.
    - apply mute_add_group; [exact NG|exact O|]. intros g ->. now apply root_group_ok in Hr as (_ & TG & _); [|apply O].
    - intros g d1 _ O1 _ _. apply mute_bind_read; [exact O1|apply reads_lift|]. intros e He. apply mute_bind_read; [exact O1|unfold get_uuid; apply reads_bind; [apply reads_sub|intros ?; apply reads_of]|]. intros u _. destruct e as [e|]; [|now apply mute_raise].
      apply mute_bind; [|intros; now apply mute_ret]. apply (mute_meta_text $"RecycleBinUUID" _ d1 e d1); auto. cbn; tauto.
  Qed.
  Lemma mute_empty_loop T g : S T = false -> forall n d, sane d -> mute (empty_loop n T g) d.
  Proof.
    intros NS. induction n as [|n IH]; intros d O; [now apply mute_raise|]. cbn [empty_loop]. apply mute_bind_read; [exact O|apply reads_the|]. intros t Ht. apply the_has in Ht as [Ht <-]; [|exact O].
    destruct (kids_of T t) as [|k l] eqn:Ek; [now apply mute_ret|]. assert (Ik : In k (kids_of T t)) by (rewrite Ek; now left). destruct (kids_has T t k d Ht Ik) as [Hk Tk]. apply mute_bind.
    - apply mute_delete; [exact O|]. apply (has_mb d k T); auto. apply O.
    - intros _ d1 _ O1 _ _. now apply IH.
  Qed.
  Lemma mute_empty g d : S $"Entry" = false -> S $"Group" = false -> sane d -> mute (empty_group g) d.
  Proof. intros NE NG O. unfold empty_group. apply mute_bind_read; [exact O|apply reads_the|]. intros t _. cbv zeta. apply mute_bind; [now apply mute_empty_loop|]. intros _ d1 _ O1 _ _. now apply mute_empty_loop. Qed.
  Lemma mute_reindex e z d : S $"Entry" = false -> sane d -> an_entry d e -> mute (reindex R e z) d.
  Proof.
    intros NE O Ie r d' Hr. pose proof O as [W L]. pose proof (op_reindex R e z d r d' W L Hr) as E. split; [split; [apply (ev_wf _ _ _ _ E)|apply E]|]. pose proof (ev_tag _ _ _ _ E) as T. split; [exact T|].
    unfold reindex in Hr. apply mbind_inv in Hr as [(y & Hr & _)|(g & d1 & Hg & Hr)]; [rewrite (reads_run _ _ _ _ (reads_group R e) Hr); apply kept_refl|]. pose proof (reads_run _ _ _ _ (reads_group R e) Hg) as ->.
    destruct g as [g|]; [|injection Hr as _ <-; apply kept_refl].
    assert (Rf : reads (first_entry g)) by (unfold first_entry; apply reads_bind; [apply reads_the|]; intros t; destruct (first_pos _ _); [apply reads_ret|apply reads_raise]).
    apply mbind_inv in Hr as [(y & Hr & _)|(f & d1 & Hf & Hr)]; [rewrite (reads_run _ _ _ _ Rf Hr); apply kept_refl|]. pose proof (reads_run _ _ _ _ Rf Hf) as ->.
    assert (Kr : mute (lx_remove g e) d) by (apply mute_remove; [exact O|left; now rewrite (mb_tag S d $"Entry" e Ie)]). apply mbind_inv in Hr as [(y & Hr & _)|([] & d1 & Hm & Hr)]; [now destruct (Kr _ _ Hr) as (_ & _ & K)|]. destruct (Kr _ _ Hm) as (O1 & T1 & K1).
    assert (K : lk d g <> None). { unfold lx_remove in Hm. destruct (parent_of (d_forest d) e) as [t|] eqn:Ep; [|discriminate Hm]. destruct (Nat.eqb_spec (eid t) g) as [<-|N]; [|discriminate Hm]. apply parent_of_In in Ep as [Ht _]; [|apply W]. rewrite (look_self _ t (wf_unique d W) Ht). discriminate. }
    assert (T2 : tags_le d1 d').
    { intros j U (q & Eq & Tq). assert (X : exists q0, lk d j = Some q0 /\ r_tag q0 = U).
      { pose proof (wf_unique d W) as Un. unfold lx_remove in Hm. destruct (parent_of (d_forest d) e) as [t|] eqn:Ep; [|discriminate Hm]. destruct (Nat.eqb_spec (eid t) g) as [Eg|N]; [|discriminate Hm].
        assert (Hm' : lx_remove (eid t) e d = (Ok tt, d1)) by (unfold lx_remove; rewrite Ep, Nat.eqb_refl; exact Hm || (rewrite <- Eg in Hm; exact Hm)).
        apply parent_of_In in Ep as [Ht Hc]; [|exact Un]. destruct (remove_run d t e W Ht Hc) as (d2 & E2 & _ & _ & _ & _ & L1 & L2). rewrite E2 in Hm'. injection Hm' as <-. destruct (Nat.eq_dec j (eid t)) as [->|Nj].
        - rewrite L1 in Eq. injection Eq as <-. exists (row_of t). split; [now apply look_self|exact Tq].
        - rewrite L2 in Eq by exact Nj. now exists q. }
      apply T. destruct X as (q0 & E0 & T0). now exists q0. }
    apply (kept_trans S d d1 d' T1 K1). apply (mute_insert S g (z + Z.of_nat f)%Z e $"Entry" d1 r d' O1 T2); [|now apply T1|exact NE|exact Hr].
    destruct (lk d g) as [q|] eqn:Eq; [|congruence]. destruct (T1 g (r_tag q)) as (q1 & E1 & _); [now exists q|]. congruence.
  Qed.
  Lemma mute_trash C i d : S $"Entry" = false -> S $"Group" = false -> S $"RecycleBinUUID" = false -> sane d -> an_item d i -> mute (trash R C i) d.
  Proof.
    intros NE NG NB O It. pose proof O as [W L]. unfold trash. apply mute_bind_read; [exact O|apply reads_can|]. intros [|] _; [|now apply mute_raise]. apply mute_bind; [now apply mute_bin|]. intros b d1 Hb O1 T1 _.
    destruct (bin_made R C d b d1 W L Hb) as [G _]. apply mute_move; auto. now apply (item_le d).
  Qed.
  Theorem step_mute C o d : sane d -> typed d o -> settings o -> (forall T, In T (minds o) -> S T = false) -> mute (run R Zl C o) d.
  Proof.
    intros O T St N. pose proof O as [W _]. destruct o; cbn [typed settings minds run] in *.
    - apply (mute_prop p e $"Entry"); auto. apply N; cbn; tauto.
    - destruct T as [T Pk]. apply (mute_custom e $"Entry"); auto. apply N; cbn; tauto.
    - destruct T as [T Pk]. apply (mute_delete_custom e $"Entry"); auto. apply N; cbn; tauto.
    - destruct (item_tag d i T) as (U & TU). apply (mute_sub _ i U); auto. apply N; cbn; tauto.
    - destruct (item_tag d i T) as (U & TU). apply (mute_sub _ i U); auto. apply N; cbn; tauto.
    - apply (mute_sub _ e $"Entry"); auto. apply N; cbn; tauto.
    - apply (mute_sub _ g $"Group"); auto. apply N; cbn; tauto.
    - apply (mute_sub _ g $"Group"); auto. apply N; cbn; tauto.
    - apply mute_timeprop; [|exact O]. apply N. now left.
    - apply mute_expires; [|exact O]. apply N; cbn; tauto.
    - apply mute_touch; [apply N; now left| |exact O]. intros ->. apply N. right. now left.
    - apply (mute_auto (find_2 $"AutoType" $"Enabled") e _ d $"Enabled"); [|apply N; cbn; tauto|exact O]. intros t k. apply find_2_has.
    - apply (mute_auto (find_2 $"AutoType" $"DefaultSequence") e _ d $"DefaultSequence"); [|apply N; cbn; tauto|exact O]. intros t k. apply find_2_has.
    - apply (mute_auto (find_3 $"AutoType" $"Association" $"Window") e _ d $"Window"); [|apply N; cbn; tauto|exact O]. intros t k. apply find_3_has.
    - apply mute_save_history; auto; apply N; cbn; tauto.
    - apply mute_delete_history; [apply N; cbn; tauto|apply N; cbn; tauto|exact O|]. intros x ->. apply T.
    - apply mute_quiet. apply (mute_attach e $"Entry"); auto. apply N; cbn; tauto.
    - now apply mute_att_id.
    - apply mute_att_filename; [|exact O]. apply N; cbn; tauto.
    - apply mute_quiet. apply mute_add_binary; [|exact O]. apply N; cbn; tauto.
    - apply mute_delete_binary; [|exact O]. apply N; cbn; tauto.
    - apply mute_meta; [cbn in St; destruct St as [<-|[<-|[<-|[]]]]; reflexivity|cbn in *; tauto|apply N; cbn; tauto|exact O].
    - destruct w; cbn [set_due_days]; apply mute_days; try reflexivity; try (cbn; tauto); try exact O; apply N; cbn; tauto.
    - apply mute_changed; [|exact O]. apply N; cbn; tauto.
    - apply mute_quiet. apply mute_add_entry; auto. apply N; cbn; tauto.
    - apply mute_quiet. apply mute_add_group; [apply N; cbn; tauto|exact O|]. intros g' E. injection E as <-. auto.
    - destruct T as [T1 T2]. apply mute_move; auto; apply N; cbn; tauto.
    - destruct T as [T1 T2]. rewrite Forall_forall in T2. apply mute_group_append; auto; apply N; cbn; tauto.
    - apply mute_delete; [exact O|]. destruct T as [[T|T]|T]; [rewrite (mb_tag S d $"Entry" i T)|rewrite (mb_tag S d $"Group" i T)|rewrite (mb_tag S d $"Binary" i T)]; apply N; cbn; tauto.
    - apply mute_trash; auto; apply N; cbn; tauto.
    - apply mute_empty; auto; apply N; cbn; tauto.
    - apply mute_reindex; auto. apply N; cbn; tauto.
  Qed.
End Calls.
