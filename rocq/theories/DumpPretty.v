(** [dump_xml(pretty_print=True)] of an entry, a group or an attachment (baseelement.py:64-65): as in Dump.v, with the characters
    outside ASCII as references (Xml.v).  The development follows that of Dump.v. *)
From Coq Require Import ZifyBool ZifyNat ZifyN.
From Verif Require Import Base PyStr Utf8 Xml Xml_facts Dump.

(** baseelement.py:64-65 through libxml2's xmlNodeDumpOutputInternal, format = 1, as [print] of Dump.v *)
Fixpoint pprint (pretty : bool) (lvl : nat) (t : xml) : str :=
  let 'X tag attrs text kids := t in
  60 :: tag ++ flat_map ser_attr attrs ++
  match text, kids with
  | None, [] => [47; 62]
  | None, _ =>
      if pretty then
        62 :: 10 :: flat_map (fun k => indent (S lvl) ++ pprint true (S lvl) k ++ [10]) kids
          ++ indent lvl ++ [60; 47] ++ tag ++ [62]
      else 62 :: flat_map (pprint false lvl) kids ++ [60; 47] ++ tag ++ [62]
  | Some s, _ => 62 :: esc_text s ++ flat_map (pprint false lvl) kids ++ [60; 47] ++ tag ++ [62]
  end.
(** baseelement.py:64-65 with pretty_print=True: ASCII output, no declaration, a line end after it (lxml serializer.pxi,
    _writeNodeToBuffer). *)
Definition element_pretty (t : xml) : bytes := pprint true O t ++ [10].

Lemma pprint_cons p lvl t : exists s, pprint p lvl t = 60 :: xtag t ++ s.
Proof. destruct t. cbn [pprint xtag]. eauto. Qed.
Lemma pprint_len t : xml_ok t = true -> forall p lvl, (need t < List.length (pprint p lvl t))%nat.
Proof.
  induction t as [tag attrs text kids IH] using xml_ind'. cbn [xml_ok need]. intros H p lvl.
  apply andb_prop in H. destruct H as [H Hk]. do 3 (apply andb_prop in H; destruct H as [H ?]).
  destruct (name_ok_inv _ H) as (c & s & E & _).
  assert (L : (1 <= List.length tag)%nat) by (rewrite E; cbn; lia).
  assert (K : forall p' lvl', (kids_need kids <= List.length (flat_map (pprint p' lvl') kids))%nat).
  { clear - IH Hk. intros p' lvl'. induction kids as [|k kids IHk]; cbn [kids_need fold_right flat_map forallb] in *; [lia|].
    apply andb_prop in Hk. destruct Hk as [Hk Hks]. inversion IH as [|? ? H1 H2]; subst. rewrite app_length.
    specialize (IHk H2 Hks). specialize (H1 Hk p' lvl'). fold (kids_need kids) in *. lia. }
  assert (K' : (kids_need kids <= List.length (flat_map (fun k => indent (S lvl) ++ pprint true (S lvl) k ++ [10%N]) kids))%nat).
  { clear - IH Hk. induction kids as [|k kids IHk]; cbn [kids_need fold_right flat_map forallb] in *; [lia|].
    apply andb_prop in Hk. destruct Hk as [Hk Hks]. inversion IH as [|? ? H1 H2]; subst. rewrite !app_length.
    specialize (IHk H2 Hks). specialize (H1 Hk true (S lvl)). fold (kids_need kids) in *. lia. }
  fold (kids_need kids).
  cbn [pprint List.length]. rewrite !app_length. specialize (K false lvl).
  destruct text as [tx|]; [|destruct kids as [|k kids]; [cbn [kids_need fold_right List.length]; lia|destruct p]].
  all: cbn [List.length]; rewrite !app_length; cbn [List.length]; rewrite ?app_length; cbn [List.length]; lia.
Qed.

Definition pprint_rt (t : xml) : Prop := xml_ok t = true -> forall p lvl f r, (need t <= f)%nat ->
  pelem f (tl (pprint p lvl t) ++ r) = Ok (norm t, r).

(** Children without added white space *)
Lemma pkids_pprint lvl kids : Forall pprint_rt kids -> forallb xml_ok kids = true ->
  forall f r, (S (kids_need kids) <= f)%nat ->
  pkids f (flat_map (pprint false lvl) kids ++ 60 :: 47 :: r) = Ok (map norm kids, r).
Proof.
  induction kids as [|k kids IH]; intros HF Hok f r Hf.
  - destruct f; [lia|]. reflexivity.
  - destruct f as [|f]; [lia|]. cbn [flat_map kids_need fold_right forallb] in *. fold (kids_need kids) in *.
    apply andb_prop in Hok. destruct Hok as [Hk Hks]. inversion HF as [|? ? HFk HFks]; subst.
    rewrite <- app_assoc. specialize (HFk Hk false lvl f (flat_map (pprint false lvl) kids ++ 60 :: 47 :: r) ltac:(lia)).
    pose proof (ok_tag k Hk) as Htag. destruct (pprint_cons false lvl k) as [u Hu]. rewrite Hu in *. cbn [tl] in HFk. cbn [app].
    rewrite pkids_step. rewrite <- (app_assoc (xtag k) u) in *. rewrite name_not_slash by exact Htag. rewrite HFk. cbn [bind].
    assert (Hn : exists q, flat_map (pprint false lvl) kids ++ 60 :: 47 :: r = 60 :: q).
    { destruct kids as [|k2 kids]; cbn [flat_map app]; [eauto|]. destruct (pprint_cons false lvl k2) as [q ->]. cbn [app]. eauto. }
    destruct Hn as [q Hq]. specialize (IH HFks Hks f r ltac:(lia)). rewrite Hq in *.
    cbn [parse_text]. cbn [N.eqb Pos.eqb bind]. rewrite IH. reflexivity.
Qed.
(** Children on lines of their own: what stands from the next '<' on, and the indentation before it *)
Definition plines (lvl : nat) (kids : list xml) (r : str) : str :=
  flat_map (fun k => indent (S lvl) ++ pprint true (S lvl) k ++ [10]) kids ++ indent lvl ++ 60 :: 47 :: r.
Definition pbefore (lvl : nat) (kids : list xml) : str := match kids with [] => indent lvl | _ => indent (S lvl) end.
Definition pfrom (lvl : nat) (kids : list xml) (r : str) : str :=
  match kids with [] => 60 :: 47 :: r | k :: ks => pprint true (S lvl) k ++ 10 :: plines lvl ks r end.
Lemma plines_split lvl kids r : plines lvl kids r = pbefore lvl kids ++ pfrom lvl kids r.
Proof.
  destruct kids as [|k ks]; [reflexivity|]. unfold plines. cbn [flat_map pbefore pfrom]. rewrite <- !app_assoc. reflexivity.
Qed.
Lemma pfrom_cons lvl kids r : exists q, pfrom lvl kids r = 60 :: q.
Proof. destruct kids as [|k ks]; cbn [pfrom]; [eauto|]. destruct (pprint_cons true (S lvl) k) as [s ->]. cbn [app]. eauto. Qed.
Lemma pbefore_blank lvl kids : forallb blank_char (10 :: pbefore lvl kids) = true.
Proof. destruct kids; [exact (indent_blank lvl)|exact (indent_blank (S lvl))]. Qed.
Lemma pline_end lvl kids r : parse_text (S (List.length (10 :: plines lvl kids r))) (10 :: plines lvl kids r)
  = Ok (10 :: pbefore lvl kids, true, pfrom lvl kids r).
Proof.
  rewrite plines_split. destruct (pfrom_cons lvl kids r) as [q ->].
  change (10 :: pbefore lvl kids ++ 60 :: q) with ((10 :: pbefore lvl kids) ++ 60 :: q).
  apply parse_text_blank; [apply pbefore_blank|]. rewrite app_length. lia.
Qed.
Lemma pkids_plines lvl kids : Forall pprint_rt kids -> forallb xml_ok kids = true ->
  forall f r, (S (kids_need kids) <= f)%nat -> pkids f (pfrom lvl kids r) = Ok (map norm kids, r).
Proof.
  induction kids as [|k kids IH]; intros HF Hok f r Hf.
  - destruct f; [lia|]. reflexivity.
  - destruct f as [|f]; [lia|]. cbn [pfrom kids_need fold_right forallb] in *. fold (kids_need kids) in *.
    apply andb_prop in Hok. destruct Hok as [Hk Hks]. inversion HF as [|? ? HFk HFks]; subst.
    specialize (HFk Hk true (S lvl) f (10 :: plines lvl kids r) ltac:(lia)).
    pose proof (ok_tag k Hk) as Htag. destruct (pprint_cons true (S lvl) k) as [u Hu]. rewrite Hu in *. cbn [tl] in HFk. cbn [app].
    rewrite pkids_step. rewrite <- (app_assoc (xtag k) u) in *. rewrite name_not_slash by exact Htag. rewrite HFk.
    cbn [bind]. rewrite pline_end. cbn [bind]. rewrite (IH HFks Hks f r ltac:(lia)). reflexivity.
Qed.

Lemma pprint_roundtrip t : pprint_rt t.
Proof.
  induction t as [tag attrs text kids IH] using xml_ind'. intros Hok p lvl f r Hf.
  destruct f as [|f]; [cbn in Hf; lia|]. rewrite pelem_step.
  cbn [xml_ok] in Hok. apply andb_prop in Hok. destruct Hok as [Hok Hkids].
  apply andb_prop in Hok. destruct Hok as [Hok Htext]. apply andb_prop in Hok. destruct Hok as [Hok Hdup].
  apply andb_prop in Hok. destruct Hok as [Htag Hattrs].
  cbn [need] in Hf. fold (kids_need kids) in Hf.
  cbn [pprint tl norm]. rewrite <- !app_assoc.
  set (tail := match text with Some _ => _ | None => _ end).
  assert (Htl : tail = [47; 62] /\ text = None /\ kids = [] \/
    (tail = 62 :: 10 :: flat_map (fun k => indent (S lvl) ++ pprint true (S lvl) k ++ [10]) kids
          ++ indent lvl ++ [60; 47] ++ tag ++ [62] /\ text = None /\ kids <> []) \/
    tail = 62 :: esc_text (opt_text text) ++ flat_map (pprint false lvl) kids ++ [60; 47] ++ tag ++ [62] /\ ~(text = None /\ kids = [])).
  { unfold tail. destruct text as [s|], kids as [|k ks], p; auto; right; try (right; split; [reflexivity|intros [? ?]; discriminate]).
    left. split; [reflexivity|]. split; [reflexivity|discriminate]. }
  clearbody tail.
  assert (Hnm : match flat_map ser_attr attrs ++ tail ++ r with c :: _ => name_char c = false | [] => True end).
  { destruct attrs as [|a l]; [|reflexivity]. cbn [flat_map app]. destruct Htl as [(-> & _)|[(-> & _)|(-> & _)]]; reflexivity. }
  rewrite (parse_name_app tag _ Htag Hnm). cbn [bind].
  destruct Htl as [(-> & -> & ->)|[(-> & -> & Hne)|(-> & Hne)]].
  - pose proof (parse_attrs_ser attrs (S (List.length (flat_map ser_attr attrs ++ [47; 62] ++ r))) [] true r Hattrs Hdup) as E.
    cbn [app] in *. rewrite E; [reflexivity|]. rewrite app_length. pose proof (attrs_len attrs). lia.
  - set (body := 10 :: plines lvl kids (tag ++ 62 :: r)).
    assert (Hb : (62 :: 10 :: flat_map (fun k => indent (S lvl) ++ pprint true (S lvl) k ++ [10]) kids
          ++ indent lvl ++ [60; 47] ++ tag ++ [62]) ++ r = 62 :: body).
    { unfold body, plines. cbn [app]. rewrite <- !app_assoc. cbn [app]. rewrite <- !app_assoc. reflexivity. }
    rewrite Hb.
    pose proof (parse_attrs_ser attrs (S (List.length (flat_map ser_attr attrs ++ 62 :: body))) [] false body Hattrs Hdup) as E.
    cbn [app] in *. rewrite E; [|rewrite app_length; pose proof (attrs_len attrs); lia]. cbn [bind]. cbn iota.
    unfold body. rewrite pline_end. cbn [bind]. rewrite (pkids_plines lvl kids IH Hkids f (tag ++ 62 :: r)) by lia. cbn [bind].
    rewrite (parse_name_app tag (62 :: r) Htag eq_refl). cbn [bind].
    change (skip_space (62 :: r)) with (62 :: r). cbn iota. rewrite str_eqb_refl, keep_norm.
    destruct kids; [congruence|reflexivity].
  - set (body := esc_text (opt_text text) ++ flat_map (pprint false lvl) kids ++ [60; 47] ++ tag ++ [62]).
    pose proof (parse_attrs_ser attrs (S (List.length (flat_map ser_attr attrs ++ (62 :: body) ++ r))) [] false (body ++ r) Hattrs Hdup) as E.
    cbn [app] in *. rewrite E; [|rewrite app_length; pose proof (attrs_len attrs); lia]. cbn [bind]. cbn iota.
    assert (Hb : body ++ r = esc_text (opt_text text) ++ flat_map (pprint false lvl) kids ++ 60 :: 47 :: tag ++ 62 :: r).
    { unfold body. cbn [app]. rewrite <- !app_assoc. cbn [app]. rewrite <- !app_assoc. reflexivity. }
    rewrite Hb.
    assert (Hn : exists q, flat_map (pprint false lvl) kids ++ 60 :: 47 :: tag ++ 62 :: r = 60 :: q).
    { destruct kids as [|k2 kids]; cbn [flat_map app]; [eauto|]. destruct (pprint_cons false lvl k2) as [q ->]. cbn [app]. eauto. }
    destruct Hn as [q Hq]. rewrite Hq.
    rewrite (parse_text_esc (opt_text text)); [|exact Htext|rewrite app_length; pose proof (esc_text_len (opt_text text)); lia].
    cbn [bind]. rewrite <- Hq.
    rewrite (pkids_pprint lvl kids IH Hkids f (tag ++ 62 :: r)) by lia. cbn [bind].
    rewrite (parse_name_app tag (62 :: r) Htag eq_refl). cbn [bind].
    change (skip_space (62 :: r)) with (62 :: r). cbn iota. rewrite str_eqb_refl. rewrite keep_norm.
    destruct text as [s|]; cbn [opt_text norm_text] in *; [reflexivity|].
    destruct kids; [exfalso; auto|reflexivity].
Qed.


(** *** Reading it back *)
Lemma indent_ascii n : forallb (fun c => c <? 128) (indent n) = true.
Proof. unfold indent. induction (n + n)%nat as [|k IH]; [reflexivity|exact IH]. Qed.
Lemma pprint_ascii t : xml_ok t = true -> forall p lvl, forallb (fun c => c <? 128) (pprint p lvl t) = true.
Proof.
  induction t as [tag attrs text kids IH] using xml_ind'. cbn [xml_ok]. intros Hok p lvl.
  apply andb_prop in Hok. destruct Hok as [Hok Hkids].
  apply andb_prop in Hok. destruct Hok as [Hok Htext]. apply andb_prop in Hok. destruct Hok as [Hok Hdup].
  apply andb_prop in Hok. destruct Hok as [Htag Hattrs].
  destruct (name_ok_inv _ Htag) as (_ & _ & _ & _ & Hn). apply name_ascii in Hn.
  assert (K : forall p' lvl', Forall (fun k => forallb (fun c => c <? 128) (pprint p' lvl' k) = true) kids).
  { intros p' lvl'. rewrite Forall_forall in *. intros k Hk. apply IH; [exact Hk|]. rewrite forallb_forall in Hkids. auto. }
  assert (K1 : forallb (fun c => c <? 128) (flat_map (pprint false lvl) kids) = true) by (apply flat_map_ascii; intros k Hk; specialize (K false lvl); rewrite Forall_forall in K; auto).
  assert (K2 : forallb (fun c => c <? 128) (flat_map (fun k => indent (S lvl) ++ pprint true (S lvl) k ++ [10]) kids) = true).
  { apply flat_map_ascii. intros k Hk. rewrite !forallb_app, indent_ascii. specialize (K true (S lvl)). rewrite Forall_forall in K. rewrite K by exact Hk. reflexivity. }
  assert (A : forallb (fun c => c <? 128) (flat_map ser_attr attrs) = true).
  { apply flat_map_ascii. intros [n v] Ha. rewrite forallb_forall in Hattrs. specialize (Hattrs _ Ha). cbn [fst snd] in Hattrs. apply andb_prop in Hattrs. destruct Hattrs as [Hnm _]. destruct (name_ok_inv _ Hnm) as (_ & _ & _ & _ & Hn'). apply name_ascii in Hn'.
    unfold ser_attr. cbn [fst snd forallb]. rewrite !forallb_app, Hn', esc_attr_ascii. reflexivity. }
  cbn [pprint forallb]. rewrite !forallb_app, Hn, A. cbn [andb].
  destruct text as [s|]; [|destruct kids as [|k ks]; [reflexivity|destruct p]]; cbn [forallb]; rewrite !forallb_app, ?K1, ?K2, ?Hn, ?indent_ascii, ?esc_text_ascii; reflexivity.
Qed.
Theorem pretty_codec t : xml_ok t = true -> xml_parse_doc (element_pretty t) = Ok (norm t).
Proof.
  intros H. unfold xml_parse_doc, element_pretty. rewrite utf8_decode_ascii by (rewrite forallb_app, (pprint_ascii t H); reflexivity). cbn [bind].
  pose proof (ok_tag t H) as Htag. destruct (pprint_cons true O t) as [u Hu].
  assert (Hd : starts_with ($"<?xml ") (pprint true O t ++ [10]) = false).
  { rewrite Hu. destruct (name_ok_inv _ Htag) as (c & s & -> & Hc & _). unfold name_start in Hc.
    change ($"<?xml ") with ([60; 63; 120; 109; 108; 32] : str). cbn [app starts_with].
    replace (63 =? c) with false by lia. reflexivity. }
  rewrite Hd.
  assert (Hsk : skip_space (pprint true O t ++ [10]) = pprint true O t ++ [10]) by (rewrite Hu; reflexivity).
  rewrite Hsk. pose proof (pprint_len t H true O) as L. rewrite Hu in L |- *. cbn [List.length app] in L |- *.
  pose proof (pprint_roundtrip t H true O (List.length ((xtag t ++ u) ++ [10])) [10] ltac:(rewrite app_length; cbn [List.length]; lia)) as R.
  rewrite Hu in R. cbn [tl] in R. rewrite R. reflexivity.
Qed.
