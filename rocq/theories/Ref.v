(** Field references: deref follows every acyclic reference, in whatever order it replaces them. *)
From Coq Require Import ZifyBool ZifyNat ZifyN Permutation.
From Verif Require Import Base Base64 PyStr Xml Tree XPath Db XPath_parse XPath_facts XPath_eval FindSpec Find_facts Find_path Find_more ApiSpec StructSpec Heap Uuid Api Prim Api_xpath Api_fields Api_custom Api_sub Api_claims Struct Struct_add Struct_find Struct_bin Struct_trash RefSpec.

(** *** Syntax *)
Definition fref_of (c : cite) : fref := MkFref (written c) (c_want c) (c_in c) (c_value c).
Lemma is_field_in c : is_field c = true <-> In c $"TUPANI".
Proof. unfold is_field. rewrite existsb_exists. split; [intros (x & I & E); apply N.eqb_eq in E; now subst|intros I; exists c; split; [exact I|apply N.eqb_refl]]. Qed.
Lemma upto_hit v s : ~ In 125 v -> upto_brace (v ++ 125 :: s) = Some (v, s).
Proof.
  induction v as [|c v IH]; intros N; [reflexivity|]. cbn [app upto_brace]. destruct (N.eqb_spec c 125) as [->|_]; [exfalso; apply N; now left|]. rewrite IH; [reflexivity|]. intros I. apply N. now right.
Qed.
Lemma upto_inv s : forall v r, upto_brace s = Some (v, r) -> s = v ++ 125 :: r /\ ~ In 125 v.
Proof.
  induction s as [|c s IH]; intros v r E; [discriminate|]. cbn [upto_brace] in E. destruct (N.eqb_spec c 125) as [->|N]; [injection E as <- <-; split; [reflexivity|intros []]|].
  destruct (upto_brace s) as [[v' r']|]; [|discriminate]. cbn in E. injection E as <- <-. destruct (IH _ _ eq_refl) as [-> X]. split; [reflexivity|]. intros [C|C]; [congruence|contradiction].
Qed.
Lemma written_app c s : written c ++ s = $"{REF:" ++ c_want c :: 64 :: c_in c :: 58 :: c_value c ++ 125 :: s.
Proof. unfold written. rewrite <- !app_assoc. reflexivity. Qed.
Lemma written_eq c : written c = $"{REF:" ++ [c_want c; 64; c_in c; 58] ++ c_value c ++ [125]. Proof. reflexivity. Qed.
Lemma match_hit c s : legal_cite c -> match_ref (written c ++ s) = Some (fref_of c, s).
Proof.
  intros (W & I & V & B). unfold match_ref. rewrite written_app. rewrite starts_with_app. change (skipn 5 ($"{REF:" ++ c_want c :: 64 :: c_in c :: 58 :: c_value c ++ 125 :: s)) with (c_want c :: 64 :: c_in c :: 58 :: c_value c ++ 125 :: s). cbv iota beta.
  rewrite (proj2 (is_field_in _) W), (proj2 (is_field_in _) I). cbn [andb]. rewrite upto_hit by exact B. unfold fref_of. rewrite written_eq. destruct (c_value c) as [|x v]; [congruence|reflexivity].
Qed.
Lemma colon_match {A} (s : str) (f : N -> N -> str -> A) (z : A) : (match s with w :: 64 :: i :: 58 :: s' => f w i s' | _ => z end) = z \/ exists w i s', s = w :: 64 :: i :: 58 :: s' /\ (match s with w :: 64 :: i :: 58 :: s' => f w i s' | _ => z end) = f w i s'.
Proof.
  destruct s as [|w [|a [|i [|b s']]]]; try (left; reflexivity).
  - destruct a as [|p]; [now left|]. do 7 (try destruct p as [p|p|]; try (left; reflexivity)).
  - destruct a as [|p]; [now left|]. do 7 (try destruct p as [p|p|]; try (left; reflexivity)).
  - destruct (N.eq_dec a 64) as [->|N1]; [destruct (N.eq_dec b 58) as [->|N2]; [right; eauto|left; destruct b as [|p]; [reflexivity|]; do 6 (try destruct p as [p|p|]; try reflexivity); congruence]|]. left. destruct a as [|p]; [reflexivity|]. do 7 (try destruct p as [p|p|]; try reflexivity); congruence.
Qed.
Lemma match_inv s f r : match_ref s = Some (f, r) -> exists c, legal_cite c /\ s = written c ++ r /\ f = fref_of c.
Proof.
  unfold match_ref. destruct (starts_with $"{REF:" s) eqn:S; [|discriminate]. apply starts_with_spec in S as (t & ->). change (skipn 5 ($"{REF:" ++ t)) with t.
  pose proof (colon_match t (fun w i s' => if is_field w && is_field i then match upto_brace s' with Some (c :: v, rest) => Some (MkFref ($"{REF:" ++ [w; 64; i; 58] ++ (c :: v) ++ [125]) w i (c :: v), rest) | _ => None end else None) None) as X. cbv beta in X.
  destruct X as [X|(w & i & s' & E & X)]; rewrite X; clear X; [discriminate|]. subst t.
  destruct (is_field w && is_field i) eqn:E; [|discriminate]. apply andb_true_iff in E as [E1 E2]. destruct (upto_brace s') as [[[|c v] rest]|] eqn:U; [discriminate| |discriminate]. intros X. injection X as <- <-. apply upto_inv in U as [-> U].
  exists (Cite w i (c :: v)). split; [repeat split; [now apply is_field_in|now apply is_field_in|discriminate|exact U]|]. split; [rewrite written_app; reflexivity|reflexivity].
Qed.
Lemma match_none s : (forall c q, legal_cite c -> s <> written c ++ q) -> match_ref s = None.
Proof. intros H. destruct (match_ref s) as [[f r]|] eqn:E; [|reflexivity]. apply match_inv in E as (c & L & E & _). destruct (H c r L E). Qed.
Lemma app_upto (v v' s s' : str) : ~ In 125 v -> ~ In 125 v' -> v ++ 125 :: s = v' ++ 125 :: s' -> v = v' /\ s = s'.
Proof. intros A B E. pose proof (upto_hit v s A) as E1. rewrite E, (upto_hit v' s' B) in E1. injection E1 as <- <-. auto. Qed.
Lemma written_inj c c' s s' : legal_cite c -> legal_cite c' -> written c ++ s = written c' ++ s' -> c = c' /\ s = s'.
Proof.
  intros (_ & _ & _ & B) (_ & _ & _ & B') E. rewrite !written_app in E. apply app_inv_head in E. destruct c as [w i v], c' as [w' i' v']. cbn [c_want c_in c_value] in *. injection E as <- <- E. destruct (app_upto _ _ _ _ B B' E) as [<- <-]. auto.
Qed.
Lemma written_cons c : written c = 123 :: $"REF:" ++ [c_want c; 64; c_in c; 58] ++ c_value c ++ [125]. Proof. reflexivity. Qed.
Lemma findall_skip k a s : List.length a = k -> findall k (a ++ s) = findall 0 s.
Proof. revert k. induction a as [|c a IH]; intros k E; cbn [List.length] in E; subst k; [reflexivity|]. cbn [app findall]. now apply IH. Qed.
Lemma findall_scanned s l : scanned s l -> findall 0 s = map fref_of (refs l).
Proof.
  induction 1 as [|c s l L H IH|x s l N H IH]; [reflexivity| |].
  - change (refs (Ref c :: l)) with (c :: refs l). cbn [map]. rewrite <- IH. pose proof (match_hit c s L) as E. rewrite (written_cons c) in E |- *. cbn [app findall] in E |- *. rewrite E. f_equal. change (f_text (fref_of c)) with (written c). rewrite (written_cons c). cbn [List.length]. rewrite Nat.sub_succ, Nat.sub_0_r. apply (findall_skip _ ($"REF:" ++ [c_want c; 64; c_in c; 58] ++ c_value c ++ [125])). reflexivity.
  - cbn [findall]. rewrite (match_none _ N). exact IH.
Qed.
Lemma scanned_cases v l' : scanned v l' -> (v = [] /\ l' = []) \/ (exists c s l, v = written c ++ s /\ l' = Ref c :: l /\ legal_cite c /\ scanned s l) \/
  (exists x s l, v = x :: s /\ l' = Ch x :: l /\ (forall c q, legal_cite c -> x :: s <> written c ++ q) /\ scanned s l).
Proof. destruct 1; [now left|right; left; eauto 10|right; right; eauto 10]. Qed.
Lemma scanned_det s l : scanned s l -> forall l', scanned s l' -> l = l'.
Proof.
  induction 1 as [|c s l L H IH|x s l N H IH]; intros l' H'; apply scanned_cases in H' as [[E ->]|[(c' & s' & l0 & E & -> & L0 & H0)|(x' & s' & l0 & E & -> & N0 & H0)]]; try discriminate E; try reflexivity.
  - apply written_inj in E as [<- <-]; try assumption. f_equal. now apply IH.
  - exfalso. apply (N0 c s L). symmetry. exact E.
  - exfalso. apply (N c' s' L0). exact E.
  - injection E as <- <-. f_equal. now apply IH.
Qed.
Definition ptext (p : piece) : str := match p with Ch x => [x] | Ref c => written c end.
Definition flat (l : list piece) : str := flat_map ptext l.
Lemma flat_app a b : flat (a ++ b) = flat a ++ flat b. Proof. apply flat_map_app. Qed.
Lemma scanned_flat s l : scanned s l -> s = flat l.
Proof. induction 1 as [|c s l L H IH|x s l N H IH]; [reflexivity| |]; cbn [flat flat_map ptext app]; rewrite IH; reflexivity. Qed.
Lemma no_refs_chars s : no_refs s -> exists l, scanned s l /\ refs l = [].
Proof.
  induction s as [|x s IH]; intros H; [exists []; split; [constructor|reflexivity]|]. destruct IH as (l & S & E). { intros p c q L X. apply (H (x :: p) c q L). cbn. now rewrite X. }
  exists (Ch x :: l). split; [|exact E]. constructor; [|exact S]. intros c q L X. apply (H [] c q L). exact X.
Qed.
Lemma flat_chars ys : flat (map Ch ys) = ys.
Proof. induction ys as [|y ys IH]; [reflexivity|]. cbn [map flat flat_map ptext app]. f_equal. exact IH. Qed.
Lemma stray_flat l c q : stray l -> 123 :: flat l <> written c ++ q.
Proof.
  intros (ys & l' & -> & a & x & y & b & b' & -> & E & N) X. rewrite written_cons in X. cbn [app] in X. injection X as X. change (flat (map Ch (a ++ x :: b) ++ l') = $"REF:" ++ ([c_want c; 64; c_in c; 58] ++ c_value c ++ [125]) ++ q) in X.
  rewrite flat_app, flat_chars, E, <- !app_assoc in X. apply app_inv_head in X. cbn [app] in X. injection X as X _. exact (N X).
Qed.
Lemma stray_app l b : stray l -> stray (l ++ b).
Proof. intros (ys & l' & -> & D). exists ys, (l' ++ b). split; [now rewrite app_assoc|exact D]. Qed.
Lemma clean_scanned l : clean l -> scanned (flat l) l.
Proof.
  induction 1 as [|x l P H IH|l P H IH|c l L B H IH]; [constructor| | |]; cbn [flat flat_map ptext app].
  - constructor; [|exact IH]. intros c q _ E. rewrite written_cons in E. injection E as E _. exact (P E).
  - constructor; [|exact IH]. intros c q _. now apply stray_flat.
  - constructor; [exact L|exact IH].
Qed.
Definition cite_eqb (a b : cite) : bool := (c_want a =? c_want b) && (c_in a =? c_in b) && str_eqb (c_value a) (c_value b).
Lemma cite_eqb_eq a b : cite_eqb a b = true <-> a = b.
Proof. unfold cite_eqb. rewrite !andb_true_iff, !N.eqb_eq, str_eqb_eq. destruct a, b. cbn. split; [intros [[-> ->] ->]; reflexivity|intros E; injection E; auto]. Qed.
Definition subst (c : cite) (ps : list piece) (l : list piece) : list piece := flat_map (fun p => match p with Ref c' => if cite_eqb c c' then ps else [p] | _ => [p] end) l.
Lemma replace_past a old new s : (forall x, In x a -> x <> 123) -> hd_error old = Some 123 -> py_replace old new (a ++ s) = a ++ py_replace old new s.
Proof.
  intros Ha Ho. induction a as [|x a IH]; [reflexivity|]. cbn [app]. rewrite py_replace_miss; [f_equal; apply IH; intros; apply Ha; now right|]. destruct old as [|o old]; [discriminate|]. injection Ho as ->. cbn [starts_with]. assert (x <> 123) by (apply Ha; now left). destruct (N.eqb_spec 123 x); [congruence|reflexivity].
Qed.
Lemma letter_no_brace c : In c $"TUPANI" -> c <> 123. Proof. intros I ->. revert I. vm_compute. intuition discriminate. Qed.
Lemma stray_subst c ps l : stray l -> stray (subst c ps l).
Proof. intros (ys & l' & -> & D). exists ys, (subst c ps l'). split; [|exact D]. clear D. induction ys as [|y ys IH]; [reflexivity|]. cbn [map app subst flat_map]. f_equal. exact IH. Qed.
Lemma replace_flat c w ps l : legal_cite c -> clean l -> flat ps = w -> py_replace (written c) w (flat l) = flat (subst c ps l).
Proof.
  intros L H <-. induction H as [|x l P H IH|l P H IH|c' l L' B' H IH]; [reflexivity| | |].
  - change (flat (Ch x :: l)) with ([x] ++ flat l). change (flat (subst c ps (Ch x :: l))) with (x :: flat (subst c ps l)). rewrite (replace_past [x]) ; [|intros y [<-|[]]; exact P|reflexivity]. cbn [app]. f_equal. exact IH.
  - change (flat (Ch 123 :: l)) with (123 :: flat l). change (flat (subst c ps (Ch 123 :: l))) with (123 :: flat (subst c ps l)). rewrite py_replace_miss; [f_equal; exact IH|]. destruct (starts_with (written c) (123 :: flat l)) eqn:S; [|reflexivity]. apply starts_with_spec in S as (q & S). destruct (stray_flat l c q P S).
  - change (flat (Ref c' :: l)) with (written c' ++ flat l). cbn [subst flat_map]. destruct (cite_eqb c c') eqn:E.
    + apply cite_eqb_eq in E. subst c'. rewrite py_replace_hit by (rewrite written_cons; discriminate). rewrite flat_app. f_equal. exact IH.
    + rewrite flat_app. change (flat [Ref c']) with (written c' ++ []). rewrite app_nil_r. rewrite (written_cons c') at 1. cbn [app]. rewrite py_replace_miss.
      * rewrite replace_past; [rewrite (written_cons c'); cbn [app]; f_equal; f_equal; exact IH| |reflexivity]. destruct L' as (W & I & _). pose proof (letter_no_brace _ W). pose proof (letter_no_brace _ I).
        intros y Hy. apply in_app_or in Hy as [Hy|Hy]; [intros ->; revert Hy; vm_compute; intuition discriminate|]. destruct Hy as [<-|[<-|[<-|[<-|Hy]]]]; try assumption; try discriminate. apply in_app_or in Hy as [Hy|[<-|[]]]; [|discriminate]. intros ->. contradiction.
      * destruct (starts_with (written c) _) eqn:S; [|reflexivity]. apply starts_with_spec in S as (q & S). change (123 :: ($"REF:" ++ [c_want c'; 64; c_in c'; 58] ++ c_value c' ++ [125]) ++ flat l) with (written c' ++ flat l) in S. apply written_inj in S as [-> _]; [|assumption|assumption]. assert (cite_eqb c c = true) by now apply cite_eqb_eq. congruence.
Qed.
(** *** Looking up *)
Lemma picks_det {A} (P Q : A -> Prop) l m : picks P l m -> (forall x, In x l -> (P x <-> Q x)) -> forall m', picks Q l m' -> m = m'.
Proof.
  induction 1 as [|x l m Px H IH|x l m Px H IH]; intros E m' H'; inversion H'; subst; [reflexivity|f_equal; apply IH; auto; intros; apply E; now right| | |apply IH; auto; intros; apply E; now right].
  - exfalso. apply H2, E; [now left|exact Px].
  - exfalso. apply Px, E; [now left|assumption].
Qed.
Lemma found_det d c l l' : found d c l -> found d c l' -> l = l'.
Proof. intros (doc & F & E & P) (doc' & F' & E' & P'). rewrite E in E'. injection E' as <- <-. eapply picks_det; eauto. intros; reflexivity. Qed.
Lemma points_det d c w w' : points d c w -> points d c w' -> w = w'.
Proof. intros (_ & _ & t & l & F & _ & E) (_ & _ & t' & l' & F' & _ & E'). pose proof (found_det _ _ _ _ F F') as X. injection X as <- <-. congruence. Qed.
Lemma uuid_of_hex_ok s u : uuid_of_hex s = Ok u -> uuid_ok u.
Proof.
  unfold uuid_of_hex. destruct (_ =? 32)%nat; [|discriminate]. intros E. apply bind_ok in E as (z & _ & E). destruct ((0 <=? z) && (z <? 2 ^ 128))%Z; [|discriminate]. assert (u = rev (le_enc 16 (Z.to_N z))) as -> by congruence. split.
  - unfold bytes_ok. apply Forall_rev. apply le_enc_ok.
  - rewrite rev_length. apply le_enc_length.
Qed.
Lemma find_ref_run R d c l : wf d -> legal_cite c -> searchable c -> found d c l -> find_ref R (fref_of c) d = (Ok (option_map eid (hd_error l)), d).
Proof.
  intros H L S (doc & F & EF & P). unfold find_ref. cbn [fref_of f_in f_value]. unfold searchable in S.
  assert (X : forall v, usable entry_keys R (MkQuery None None false false None [] [(field_attr (c_in c), v)]) -> (forall t, In t (everything doc) -> (answers $"Entry" entry_key R (d_forest d) (MkQuery None None false false None [] [(field_attr (c_in c), v)]) t <-> candidate d c t)) ->
    lift (fun d0 => let* l0 := find_entries R d0 true (MkQuery None None false false None [] [(field_attr (c_in c), v)]) in Ok (option_map rid (hd_error l0))) d = (Ok (option_map eid (hd_error l)), d)).
  { intros v U A. destruct (find_entries_spec R d _ true (everything doc) (wf_unique d H) U (se_all (d_forest d) doc F EF)) as (m & Pm & Em). unfold lift. rewrite Em. cbn [bind]. rewrite (picks_det _ _ _ _ Pm A _ P). destruct l; reflexivity. }
  destruct (c_in c =? 73) eqn:EI.
  - destruct S as (u & Eu). unfold of_res, mbind. rewrite Eu. cbn iota beta. pose proof (uuid_of_hex_ok _ _ Eu) as Hu. apply N.eqb_eq in EI. apply X; rewrite EI.
    + split; [reflexivity|]. split; [exact I|]. split; [intros ? ? []|]. intros k v [E|[]]. injection E as <- <-. split; [cbn; tauto|]. split; [intros _; eauto|]. split; [vm_compute; discriminate|]. split; [now apply uuid_plain|unfold pattern_ok; cbn [q_regex]; discriminate].
    + intros t It. unfold answers, candidate, about. cbn [q_history q_string q_kw q_regex q_flags]. rewrite EI. change (73 =? 73) with true. cbv iota. split.
      * intros (T & V & _ & K). split; [exact T|]. split; [destruct V as [V|V]; [discriminate|exact V]|]. exists u. split; [exact Eu|]. exact (K _ (or_introl eq_refl)).
      * intros (T & V & u' & Eu' & K). split; [exact T|]. split; [now right|]. split; [intros ? ? []|]. intros kv [<-|[]]. assert (u' = u) as -> by congruence. exact K.
  - unfold mbind, ret. assert (Hl : In (field_attr (c_in c)) entry_keys /\ field_attr (c_in c) <> $"uuid" /\ field_attr (c_in c) <> $"tags" /\ forall Mx t, entry_key Mx (field_attr (c_in c)) t <-> has_field Mx (letter_name (c_in c)) t).
    { destruct L as (_ & I & _). cbn in I. revert EI; destruct I as [<-|[<-|[<-|[<-|[<-|[<-|[]]]]]]]; intros EI; try discriminate EI; (split; [cbn; tauto|]); (split; [vm_compute; discriminate|]); (split; [vm_compute; discriminate|]); intros; split; intros Y; exact Y. }
    destruct Hl as (I1 & N1 & N2 & K1). apply X.
    + split; [reflexivity|]. split; [exact I|]. split; [intros ? ? []|]. intros k v [E|[]]. injection E as <- <-. split; [exact I1|]. split; [intros; contradiction|]. split; [intros; contradiction|]. split; [exact S|unfold pattern_ok; cbn [q_regex]; discriminate].
    + intros t It. unfold answers, candidate, about. cbn [q_history q_string q_kw q_regex q_flags]. rewrite EI. split.
      * intros (T & V & _ & K). split; [exact T|]. split; [destruct V as [V|V]; [discriminate|exact V]|]. apply K1. exact (K _ (or_introl eq_refl)).
      * intros (T & V & K). split; [exact T|]. split; [now right|]. split; [intros ? ? []|]. intros kv [<-|[]]. apply K1. exact K.
Qed.
Lemma letter_plain c : plain (letter_name c).
Proof. unfold letter_name. repeat destruct (c =? _); split; vm_compute; intuition discriminate. Qed.
Lemma found_has d c t l : found d c (t :: l) -> has d t /\ etag t = $"Entry" /\ candidate d c t.
Proof. intros (doc & F & EF & P). destruct (picks_In _ _ _ t P (or_introl eq_refl)) as [I C]. split; [|split; [exact (proj1 C)|exact C]]. unfold has, has_elem, elements. rewrite EF. cbn [flat_map]. apply in_or_app. now left. Qed.
Lemma wanted_run R d c t w : wf d -> has d t -> tidy t -> c_want c <> 73 -> field_text (letter_name (c_want c)) t = Some w -> wanted_text R (c_want c) (eid t) d = (Ok w, d).
Proof.
  intros H Ht Hy N E. unfold wanted_text. destruct (N.eqb_spec (c_want c) 73); [contradiction|]. fold (letter_name (c_want c)). rewrite (mbind_ok _ _ _ _ _ (get_string_spec R d t _ H Ht Hy (letter_plain _))). rewrite E. reflexivity.
Qed.
Lemma replace_step R d c L v w : wf d -> legal_cite c -> points d c w -> replace_refs R (fref_of c :: L) v d = replace_refs R L (py_replace (written c) w v) d.
Proof.
  intros H L0 (S & N & t & l & F & Y & E). cbn [replace_refs]. rewrite (mbind_ok _ _ _ _ _ (find_ref_run R d c _ H L0 S F)). cbn [hd_error option_map]. destruct (found_has _ _ _ _ F) as (Ht & _). change (f_want (fref_of c)) with (c_want c). rewrite (mbind_ok _ _ _ _ _ (wanted_run R d c t w H Ht Y N E)). reflexivity.
Qed.
(** *** Expansion *)
Lemma ex_mono d n l s : expands d n l s -> forall m, (n <= m)%nat -> expands d m l s.
Proof.
  induction 1 as [n|n x l s N H IH|n l s N H IH|n c l w ps s s' L B P S H1 IH1 H2 IH2]; intros m Hm; [constructor|constructor; auto|apply ex_brace; auto|]. destruct m as [|m]; [lia|]. apply (ex_ref d m c l w ps s s'); auto. apply IH1. lia.
Qed.
Lemma ex_clean d n l s : expands d n l s -> clean l.
Proof. induction 1; [constructor|now constructor|now apply cl_brace|now constructor]. Qed.
Lemma ex_app d n a s : expands d n a s -> forall b s', expands d n b s' -> expands d n (a ++ b) (s ++ s').
Proof.
  induction 1 as [n|n x l s N H IH|n l s N H IH|n c l w ps s s0 L B P S H1 IH1 H2 IH2]; intros b s' Hb; [exact Hb|cbn [app]; constructor; auto|cbn [app]; apply ex_brace; [now apply stray_app|auto]|]. cbn [app]. rewrite <- app_assoc. eapply ex_ref; eauto.
Qed.
Lemma ex_cons d n c l s : expands d n (Ref c :: l) s -> exists a b, s = a ++ b /\ expands d n [Ref c] a /\ expands d n l b.
Proof. inversion 1; subst. eexists _, _. split; [reflexivity|]. split; [|assumption]. rewrite <- (app_nil_r s0). eapply ex_ref; eauto. constructor. Qed.
Lemma ex_ch d n x l s : expands d n (Ch x :: l) s -> exists s0, s = x :: s0 /\ expands d n l s0 /\ (x <> 123 \/ x = 123 /\ stray l).
Proof. inversion 1; subst; eexists; (split; [reflexivity|]); auto. Qed.
Inductive mixed (d : db) (n : nat) (C : list cite) : list piece -> str -> Prop :=
| mx_nil : mixed d n C [] []
| mx_char x l s : x <> 123 -> mixed d n C l s -> mixed d n C (Ch x :: l) (x :: s)
| mx_brace l s : stray l -> mixed d n C l s -> mixed d n C (Ch 123 :: l) (123 :: s)
| mx_ref c l s s' : expands d (S n) [Ref c] s -> (~ In c C -> expands d n [Ref c] s) -> mixed d n C l s' -> mixed d n C (Ref c :: l) (s ++ s').
Lemma mx_app d n C a s : mixed d n C a s -> forall b s', mixed d n C b s' -> mixed d n C (a ++ b) (s ++ s').
Proof. induction 1 as [|x l s N H IH|l s N H IH|c l s s0 H1 H2 H IH]; intros b s' Hb; [exact Hb|cbn [app]; constructor; auto|cbn [app]; apply mx_brace; [now apply stray_app|auto]|]. cbn [app]. rewrite <- app_assoc. constructor; auto. Qed.
Lemma mx_low d n C l : forall s, expands d n l s -> mixed d n C l s.
Proof.
  induction l as [|[x|c] l IH]; intros s H.
  - inversion H. constructor.
  - apply ex_ch in H as (s0 & -> & H & [N|[-> N]]); [constructor; auto|apply mx_brace; auto].
  - apply ex_cons in H as (a & b & -> & H1 & H2). constructor; auto. eapply ex_mono; eauto.
Qed.
Lemma mx_start d n l : forall s C, expands d (S n) l s -> (forall c, In c (refs l) -> In c C) -> mixed d n C l s.
Proof.
  induction l as [|[x|c] l IH]; intros s C H I.
  - inversion H. constructor.
  - apply ex_ch in H as (s0 & -> & H & [N|[-> N]]); [constructor; auto|apply mx_brace; auto].
  - apply ex_cons in H as (a & b & -> & H1 & H2). constructor; auto; [|apply IH; auto; intros; apply I; now right]. intros N. destruct N. apply I. now left.
Qed.
Lemma mx_end d n l s : mixed d n [] l s -> expands d n l s.
Proof. induction 1 as [|x l s N H IH|l s N H IH|c l s s0 H1 H2 H IH]; [constructor|constructor; auto|apply ex_brace; auto|]. apply (ex_app d n [Ref c]); auto. Qed.
Lemma mx_clean d n C l s : mixed d n C l s -> clean l.
Proof. induction 1 as [|x l s N H IH|l s N H IH|c l s s0 H1 H2 H IH]; [constructor|now constructor|now apply cl_brace|]. apply ex_clean in H1. inversion H1. now constructor. Qed.
Lemma mx_step d n c C w ps l s : points d c w -> scanned w ps -> mixed d n (c :: C) l s -> mixed d n C (subst c ps l) s.
Proof.
  intros P Sc. induction 1 as [|x l s N H IH|l s N H IH|c' l s s0 H1 H2 H IH]; [constructor|cbn [subst flat_map app]; constructor; auto|cbn [subst flat_map app]; apply mx_brace; [now apply stray_subst|exact IH]|]. cbn [subst flat_map]. destruct (cite_eqb c c') eqn:E.
  - apply cite_eqb_eq in E. subst c'. apply mx_app; [|exact IH]. inversion H1; subst. assert (w0 = w) as -> by (eapply points_det; eauto). assert (ps0 = ps) as -> by (eapply scanned_det; eauto). inversion H11; subst. rewrite app_nil_r. now apply mx_low.
  - assert (c <> c') by (intros ->; assert (cite_eqb c' c' = true) by (now apply cite_eqb_eq); congruence). cbn [app]. constructor; auto. intros N. apply H2. intros [X|X]; auto.
Qed.
Definition follows (d : db) (c : cite) : Prop := legal_cite c /\ exists w ps, points d c w /\ scanned w ps.
Lemma ex_follows d n l s : expands d n l s -> forall c, In c (refs l) -> follows d c.
Proof.
  induction 1 as [n|n x l s N H IH|n l s N H IH|n c l w ps s s0 L B P S H1 IH1 H2 IH2]; intros c' I; [destruct I|auto|auto|]. destruct I as [<-|I]; [split; [exact L|eauto]|auto].
Qed.
Lemma round R d n C : wf d -> (forall c, In c C -> follows d c) -> forall l s, mixed d n C l s -> exists l', replace_refs R (map fref_of C) (flat l) d = (Ok (Some (flat l')), d) /\ expands d n l' s.
Proof.
  intros H. induction C as [|c C IH]; intros Hf l s Hm.
  - exists l. split; [reflexivity|now apply mx_end].
  - destruct (Hf c (or_introl eq_refl)) as (L & w & ps & P & S). cbn [map]. rewrite (replace_step R d c _ _ w H L P). rewrite (replace_flat c w ps l L (mx_clean _ _ _ _ _ Hm) (eq_sym (scanned_flat _ _ S))). apply IH; [intros; apply Hf; now right|]. eapply mx_step; eauto.
Qed.
(** *** deref *)
Lemma nodup_in f l : In f (fref_nodup l) -> In f l.
Proof. induction l as [|g l IH]; [auto|]. cbn [fref_nodup]. intros [->|I]; [now left|]. right. apply filter_In in I as [I _]. auto. Qed.
Lemma nodup_keeps c l : In c l -> exists f, In f (fref_nodup (map fref_of l)) /\ f_text f = written c.
Proof.
  induction l as [|g l IH]; [intros []|]. cbn [map fref_nodup]. intros [->|I]; [exists (fref_of c); split; [now left|reflexivity]|]. destruct (IH I) as (f & If & Ef). destruct (str_eqb (f_text (fref_of g)) (f_text f)) eqn:E.
  - apply str_eqb_eq in E. exists (fref_of g). split; [now left|congruence].
  - exists f. split; [right; apply filter_In; split; [exact If|unfold fref_eqb; now rewrite E]|exact Ef].
Qed.
Lemma ordered o l : some_order o -> (forall c, In c l -> legal_cite c) -> exists C, o (fref_nodup (map fref_of l)) = map fref_of C /\ (forall c, In c C <-> In c l).
Proof.
  intros Ho Hl. assert (X : forall f, In f (o (fref_nodup (map fref_of l))) -> In f (map fref_of l)). { intros f I. apply nodup_in. eapply Permutation_in; [apply Ho|exact I]. }
  assert (Y : forall m, (forall f, In f m -> In f (map fref_of l)) -> exists C, m = map fref_of C /\ forall c, In c C -> In c l).
  { induction m as [|f m IH]; intros Hm; [exists []; split; [reflexivity|intros ? []]|]. destruct IH as (C & -> & HC); [intros; apply Hm; now right|]. destruct (in_map_iff fref_of l f) as [Z _]. destruct Z as (c & <- & Ic); [apply Hm; now left|]. exists (c :: C). split; [reflexivity|]. intros c' [<-|I]; auto. }
  destruct (Y _ X) as (C & EC & HC). exists C. split; [exact EC|]. intros c. split; [apply HC|]. intros I. destruct (nodup_keeps c l I) as (f & If & Ef). apply (Permutation_in f (Permutation_sym (Ho _))) in If. rewrite EC in If. apply in_map_iff in If as (c' & <- & Ic'). cbn in Ef.
  pose proof (written_inj c' c [] [] (Hl _ (HC _ Ic')) (Hl _ I)) as W. rewrite !app_nil_r in W. now destruct (W Ef) as [<- _].
Qed.
Lemma scanned_legal s l : scanned s l -> forall c, In c (refs l) -> legal_cite c.
Proof. induction 1 as [|c s l L H IH|x s l N H IH]; intros c' I; [destruct I|destruct I as [<-|I]; auto|auto]. Qed.
Lemma deref_none R o d n v : some_order o -> (v = None \/ exists s l, v = Some s /\ scanned s l /\ refs l = []) -> deref R o (S n) v d = (Ok v, d).
Proof.
  intros Ho [->|(s & l & -> & S & E)]; [reflexivity|]. cbn [deref]. destruct s as [|x s]; [reflexivity|]. rewrite (findall_scanned _ _ S), E. cbn [map fref_nodup]. pose proof (Ho []) as P. apply Permutation_sym, Permutation_nil in P. rewrite P. reflexivity.
Qed.
Lemma deref_round R o d v l n : some_order o -> scanned v l -> refs l <> [] -> exists C, (forall c, In c C <-> In c (refs l)) /\
  deref R o (S n) (Some v) d = (do w <- replace_refs R (map fref_of C) v; match w with None => ret None | Some w => deref R o n (Some w) end) d.
Proof.
  intros Ho S N. destruct (ordered o (refs l) Ho (scanned_legal _ _ S)) as (C & EC & HC). exists C. split; [exact HC|]. cbn [deref]. destruct v as [|x v].
  - exfalso. apply N. pose proof (scanned_det _ _ S _ sc_nil) as ->. reflexivity.
  - rewrite (findall_scanned _ _ S), EC. destruct C as [|c C]; [|reflexivity]. exfalso. destruct (refs l) as [|c l']; [congruence|]. apply (HC c). now left.
Qed.
Lemma ex_refs d n l s : expands d (S n) l s -> refs l = [] -> expands d n l s.
Proof. revert s. induction l as [|[x|c] l IH]; intros s H E; [inversion H; constructor| |discriminate E]. apply ex_ch in H as (s0 & -> & H & [N|[-> N]]); [constructor; auto|apply ex_brace; auto]. Qed.
Lemma ex_done d n l s : expands d n l s -> refs l = [] -> s = flat l.
Proof. revert s. induction l as [|[x|c] l IH]; intros s H E; [inversion H; reflexivity| |discriminate E]. apply ex_ch in H as (s0 & -> & H & _). cbn [flat flat_map ptext app]. f_equal. auto. Qed.
Lemma ex_zero d l s : expands d 0 l s -> refs l = [].
Proof. revert s. induction l as [|[x|c] l IH]; intros s H; [reflexivity| |inversion H]. apply ex_ch in H as (s0 & -> & H & _). exact (IH _ H). Qed.
Lemma deref_run R o d n : wf d -> some_order o -> forall v l s, scanned v l -> expands d n l s -> forall fuel, (n < fuel)%nat -> deref R o fuel (Some v) d = (Ok (Some s), d).
Proof.
  intros H Ho. induction n as [|n IH]; intros v l s Sc E fuel Hf; (destruct fuel as [|fuel]; [lia|]).
  - pose proof (ex_zero _ _ _ E) as R0. rewrite (ex_done _ _ _ _ E R0). rewrite <- (scanned_flat _ _ Sc). apply deref_none; [exact Ho|]. right. eauto.
  - destruct (refs l) as [|c0 l0] eqn:R0; [rewrite (ex_done _ _ _ _ E R0), <- (scanned_flat _ _ Sc); apply deref_none; [exact Ho|]; right; eauto|].
    destruct (deref_round R o d v l fuel Ho Sc ltac:(congruence)) as (C & HC & ->).
    destruct (round R d n C H) with (l := l) (s := s) as (l' & E' & X').
    + intros c Ic. apply (ex_follows _ _ _ _ E). now apply HC.
    + apply mx_start; [exact E|]. intros c Ic. now apply HC.
    + rewrite (scanned_flat _ _ Sc). rewrite (mbind_ok _ _ _ _ _ E'). apply (IH _ l'); [apply clean_scanned; now apply (ex_clean _ _ _ _ X')|exact X'|lia].
Qed.
Lemma deref_dangling R o d v l n : wf d -> some_order o -> scanned v l -> (forall c, In c (refs l) -> dangling d c \/ exists w, points d c w) -> (exists c, In c (refs l) /\ dangling d c) -> deref R o (S n) (Some v) d = (Ok None, d).
Proof.
  intros H Ho Sc Ha (c0 & I0 & D0). destruct (deref_round R o d v l n Ho Sc) as (C & HC & ->); [intros E; rewrite E in I0; destruct I0|]. pose proof (scanned_legal _ _ Sc) as HL.
  assert (X : forall C v, (forall c, In c C -> In c (refs l)) -> In c0 C -> replace_refs R (map fref_of C) v d = (Ok None, d)).
  { clear C HC v Sc. induction C as [|c C IH]; intros v HC I1; [destruct I1|]. pose proof (HC c (or_introl eq_refl)) as Ic. destruct (Ha c Ic) as [[S F]|(w & P)].
    - cbn [map replace_refs]. rewrite (mbind_ok _ _ _ _ _ (find_ref_run R d c _ H (HL c Ic) S F)). reflexivity.
    - cbn [map]. rewrite (replace_step R d c _ _ w H (HL c Ic) P). destruct I1 as [->|I1]; [|apply IH; auto; intros; apply HC; now right]. exfalso. destruct P as (_ & _ & t & m & F & _). destruct D0 as [_ F0]. pose proof (found_det _ _ _ _ F F0). discriminate. }
  rewrite (mbind_ok _ _ _ _ _ (X C v (fun c => proj1 (HC c)) (proj2 (HC c0) I0))). reflexivity.
Qed.
Lemma scanned_one c : legal_cite c -> scanned (written c) [Ref c].
Proof. intros L. rewrite <- (app_nil_r (written c)). apply sc_ref; [exact L|constructor]. Qed.
Lemma no_refs_keep w c v : legal_cite c -> no_refs w -> py_replace (written c) v w = w.
Proof. intros L N. apply py_replace_absent; [rewrite written_cons; discriminate|]. destruct (substr_in (written c) w) eqn:E; [|reflexivity]. apply substr_in_spec in E as (p & q & E). destruct (N p c q L E). Qed.
Lemma replace_self c w : py_replace (written c) w (written c) = w.
Proof. rewrite <- (app_nil_r (written c)) at 2. rewrite py_replace_hit by (rewrite written_cons; discriminate). apply app_nil_r. Qed.
Lemma deref_one R o d c w n : wf d -> some_order o -> legal_cite c -> points d c w -> no_refs w -> deref R o (S (S n)) (Some (written c)) d = (Ok (Some w), d).
Proof.
  intros H Ho L P N. destruct (deref_round R o d (written c) [Ref c] (S n) Ho (scanned_one c L)) as (C & HC & ->); [discriminate|].
  assert (X : forall C, (forall c', In c' C -> c' = c) -> replace_refs R (map fref_of C) w d = (Ok (Some w), d)).
  { clear C HC. induction C as [|c' C IH]; intros HC; [reflexivity|]. pose proof (HC c' (or_introl eq_refl)). subst c'. cbn [map]. rewrite (replace_step R d c _ _ w H L P), no_refs_keep by assumption. apply IH. intros; apply HC; now right. }
  destruct C as [|c' C]; [destruct (proj2 (HC c)); now left|]. assert (HC' : forall c'', In c'' (c' :: C) -> c'' = c). { intros c'' I. apply HC in I as [I|[]]. auto. }
  pose proof (HC' c' (or_introl eq_refl)). subst c'. cbn [map]. rewrite (mbind_ok _ _ d (Some w) d); [|rewrite (replace_step R d c _ _ w H L P), replace_self; apply X; intros; apply HC'; now right].
  destruct (no_refs_chars w N) as (l & Sw & Ew). apply deref_none; [exact Ho|]. right. eauto.
Qed.
Lemma deref_self R o d c n : wf d -> some_order o -> legal_cite c -> points d c (written c) -> deref R o n (Some (written c)) d = (Err Ex_Recursion, d).
Proof.
  intros H Ho L P. induction n as [|n IH]; [reflexivity|]. destruct (deref_round R o d (written c) [Ref c] n Ho (scanned_one c L)) as (C & HC & ->); [discriminate|].
  rewrite (mbind_ok _ _ d (Some (written c)) d); [exact IH|]. assert (HC' : forall c'', In c'' C -> c'' = c). { intros c'' I. apply HC in I as [I|[]]. auto. } clear HC.
  induction C as [|c' C IHC]; [reflexivity|]. pose proof (HC' c' (or_introl eq_refl)). subst c'. cbn [map]. rewrite (replace_step R d c _ _ _ H L P), replace_self. apply IHC. intros; apply HC'; now right.
Qed.
Lemma deref_uuid R o d v l c0 t m u n : wf d -> some_order o -> scanned v l -> refs l = [c0] -> c_want c0 = 73 -> searchable c0 -> found d c0 (t :: m) -> uuid_is t u -> deref R o (S n) (Some v) d = (Err Ex_Type, d).
Proof.
  intros H Ho Sc E W S F U. destruct (deref_round R o d v l n Ho Sc) as (C & HC & ->); [congruence|]. pose proof (scanned_legal _ _ Sc c0 ltac:(rewrite E; now left)) as L. rewrite E in HC. destruct C as [|c C]; [destruct (proj2 (HC c0)); now left|]. destruct (proj1 (HC c) (or_introl eq_refl)) as [<-|[]].
  unfold mbind at 1. cbn [map replace_refs]. rewrite (mbind_ok _ _ _ _ _ (find_ref_run R d c0 _ H L S F)). cbn [hd_error option_map]. unfold wanted_text. change (f_want (fref_of c0)) with (c_want c0). rewrite W. change (73 =? 73) with true. cbv iota. destruct (found_has _ _ _ _ F) as (Ht & _). unfold mbind. rewrite (get_uuid_run d t u H Ht U). reflexivity.
Qed.
Lemma deref_missing R o d v l c0 t m n : wf d -> some_order o -> scanned v l -> refs l = [c0] -> c_want c0 <> 73 -> searchable c0 -> found d c0 (t :: m) -> tidy t -> field_text (letter_name (c_want c0)) t = None -> deref R o (S n) (Some v) d = (Err Ex_Type, d).
Proof.
  intros H Ho Sc E W S F Y U. destruct (deref_round R o d v l n Ho Sc) as (C & HC & ->); [congruence|]. pose proof (scanned_legal _ _ Sc c0 ltac:(rewrite E; now left)) as L. rewrite E in HC. destruct C as [|c C]; [destruct (proj2 (HC c0)); now left|]. destruct (proj1 (HC c) (or_introl eq_refl)) as [<-|[]].
  unfold mbind at 1. cbn [map replace_refs]. rewrite (mbind_ok _ _ _ _ _ (find_ref_run R d c0 _ H L S F)). cbn [hd_error option_map]. unfold wanted_text. change (f_want (fref_of c0)) with (c_want c0). destruct (N.eqb_spec (c_want c0) 73); [contradiction|]. fold (letter_name (c_want c0)). destruct (found_has _ _ _ _ F) as (Ht & _). unfold mbind. rewrite (get_string_spec R d t _ H Ht Y (letter_plain _)), U. reflexivity.
Qed.
(** *** References made by [ref] *)
Lemma picks_one {A} (P : A -> Prop) l t : NoDup l -> In t l -> P t -> (forall x, In x l -> P x -> x = t) -> picks P l [t].
Proof.
  induction 1 as [|x l N D IH]; intros I Pt U; [destruct I|]. destruct I as [->|I].
  - constructor; [exact Pt|]. assert (forall y, In y l -> ~ P y). { intros y Iy Py. apply N. rewrite <- (U y (or_intror Iy) Py). exact Iy. } clear -H. induction l as [|y l IH]; constructor; [apply H; now left|]. apply IH. intros; apply H; now right.
  - constructor; [|apply IH; auto; intros; apply U; auto; now right]. intros Px. apply N. rewrite (U x (or_introl eq_refl) Px). exact I.
Qed.
Lemma hex_cite u k : uuid_ok u -> In k $"TUPANI" -> legal_cite (Cite k 73 (uuid_hex_upper u)) /\ ~ In 123 (uuid_hex_upper u).
Proof.
  intros [Hb Hl] Hk. unfold uuid_hex_upper. pose proof (hex_up_chars u Hb) as X. rewrite forallb_forall in X.
  split; [split; [exact Hk|split; [cbn; tauto|split; cbn [c_value]]]|].
  - intros E. pose proof (hex_up_length u) as L. rewrite E, Hl in L. discriminate.
  - intros I. specialize (X _ I). discriminate.
  - intros I. specialize (X _ I). discriminate.
Qed.
Lemma own_found d t u k : wf d -> own_uuid d t u -> found d (Cite k 73 (uuid_hex_upper u)) [t].
Proof.
  intros H (Hu & E & T & V & doc & F & EF & I & U). exists doc, F. split; [exact EF|]. apply picks_one; [|exact I| |].
  - pose proof (wf_unique d H) as D. rewrite EF in D. unfold unique, elements in D. cbn [flat_map] in D. rewrite map_app in D. apply NoDup_map_inv with (f := eid). now apply NoDup_app_l in D.
  - split; [exact T|]. split; [exact V|]. unfold about. change (73 =? 73) with true. cbv iota. exists u. split; [now apply uuid_hex_roundtrip|]. unfold first_text in E. destruct (find1 $"UUID" t) as [x|] eqn:Ex; [|discriminate]. unfold find1 in Ex. destruct (kids_of $"UUID" t) as [|y r] eqn:Ek; [discriminate|]. injection Ex as ->. assert (Ix : In x (kids_of $"UUID" t)) by (rewrite Ek; now left). apply kids_of_in in Ix as [Ix Tx]. exists x. auto.
  - intros x Ix (Tx & Vx & Ax). unfold about in Ax. change (73 =? 73) with true in Ax. cbv iota in Ax. destruct Ax as (u' & Eu & Kx). cbn [c_value] in Eu. rewrite uuid_hex_roundtrip in Eu by exact Hu. injection Eu as <-. now apply U.
Qed.
Lemma ref_made d t u p a k : wf d -> own_uuid d t u -> ref_attr p = Some (a, k) -> make_ref (eid t) a d = (Ok (written (Cite k 73 (uuid_hex_upper u))), d) /\ In k $"TUPANI" /\ k <> 73 /\ letter_name k = prop_name p.
Proof.
  intros H (Hu & E & T & V & doc & F & EF & I & U) Ra. assert (Ht : has d t) by (unfold has, has_elem, elements; rewrite EF; cbn [flat_map]; apply in_or_app; now left).
  assert (G : get_uuid (eid t) d = (Ok u, d)) by (apply get_uuid_run; auto; unfold uuid_is; rewrite E; now apply uuid_text_roundtrip).
  assert (X : forall c, ref_letter a = Ok c -> make_ref (eid t) a d = (Ok ($"{REF:" ++ c ++ $"@I:" ++ uuid_hex_upper u ++ $"}"), d)) by (intros c Ec; unfold make_ref, of_res, mbind; rewrite Ec, G; reflexivity).
  destruct p; cbn in Ra; try discriminate Ra; injection Ra as <- <-; (split; [rewrite (X _ eq_refl); reflexivity|split; [cbn; tauto|split; [discriminate|reflexivity]]]).
Qed.
Lemma roundtrip R o d t u p a k w n : wf d -> some_order o -> own_uuid d t u -> tidy t -> ref_attr p = Some (a, k) -> get_prop R p (eid t) d = (Ok (Some w), d) -> no_refs w ->
  exists r, make_ref (eid t) a d = (Ok r, d) /\ deref R o (S (S n)) (Some r) d = (Ok (Some w), d).
Proof.
  intros H Ho O Y Ra G N. destruct (ref_made d t u p a k H O Ra) as (M & Ik & Nk & Ek). eexists. split; [exact M|]. pose proof O as O'. destruct O' as (Hu & _ & _ & _ & doc & F & EF & I & _). assert (Ht : has d t) by (unfold has, has_elem, elements; rewrite EF; cbn [flat_map]; apply in_or_app; now left).
  destruct (hex_cite u k Hu Ik) as [L _]. apply deref_one; auto. split; [unfold searchable; change (73 =? 73) with true; cbv iota; exists u; now apply uuid_hex_roundtrip|]. split; [exact Nk|]. exists t, []. split; [now apply own_found|]. split; [exact Y|]. cbn [c_want]. rewrite Ek.
  rewrite get_prop_name in G. rewrite (get_string_spec R d t _ H Ht Y (prop_plain p)) in G. congruence.
Qed.
Lemma plain_value R o d w n : some_order o -> no_refs w -> deref R o (S n) (Some w) d = (Ok (Some w), d).
Proof. intros Ho N. destruct (no_refs_chars w N) as (l & Sw & Ew). apply deref_none; [exact Ho|]. right. eauto. Qed.
