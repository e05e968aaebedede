(** Looking at the document: [xml()] (pykeepass.py:303-313); see Dump_obj.v for [dump_xml].
    [etree.tostring(self.tree, pretty_print=True, standalone=True, encoding='utf-8')] is lxml's and libxml2's: the
    declaration, the indented document, a line end, all in UTF-8.
    Simplification: non-ASCII characters in attribute values are written as they are; libxml2 writes some of them as
    character references, which a parser reads back as the same characters. *)
From Coq Require Import ZifyBool ZifyNat ZifyN.
From Verif Require Import Base PyStr Utf8 Xml Xml_facts.

(** libxml2 xmlEscapeEntities / xmlAttrSerializeTxtContent with UTF-8 output *)
Definition plain_text_c (c : N) : str :=
  if c =? 38 then $"&amp;" else if c =? 60 then $"&lt;" else if c =? 62 then $"&gt;"
  else if c =? 13 then char_ref c else [c].
Definition plain_attr_c (c : N) : str :=
  if c =? 38 then $"&amp;" else if c =? 60 then $"&lt;" else if c =? 62 then $"&gt;" else if c =? 34 then $"&quot;"
  else if (c =? 9) || (c =? 10) || (c =? 13) then char_ref c else [c].
Definition plain_text (s : str) : str := flat_map plain_text_c s.
Definition plain_attr (s : str) : str := flat_map plain_attr_c s.
Definition print_attr (a : str * str) : str := 32 :: fst a ++ [61; 34] ++ plain_attr (snd a) ++ [34].
(** libxml2 indents by two spaces for each level. *)
Definition indent (lvl : nat) : str := repeat 32 (lvl + lvl).
(** libxml2 xmlNodeDumpOutputInternal with format = 1: an element with text, and everything below it, is written
    without added white space; the children of any other element are on lines of their own. *)
Fixpoint print (pretty : bool) (lvl : nat) (t : xml) : str :=
  let 'X tag attrs text kids := t in
  60 :: tag ++ flat_map print_attr attrs ++
  match text, kids with
  | None, [] => [47; 62]
  | None, _ =>
      if pretty then
        62 :: 10 :: flat_map (fun k => indent (S lvl) ++ print true (S lvl) k ++ [10]) kids
          ++ indent lvl ++ [60; 47] ++ tag ++ [62]
      else 62 :: flat_map (print false lvl) kids ++ [60; 47] ++ tag ++ [62]
  | Some s, _ => 62 :: plain_text s ++ flat_map (print false lvl) kids ++ [60; 47] ++ tag ++ [62]
  end.
Definition declaration : str := $"<?xml version='1.0' encoding='utf-8' standalone='yes'?>" ++ [10].
(** pykeepass.py:303-313 *)
Definition xml_text (t : xml) : res bytes := utf8_encode (declaration ++ print true O t ++ [10]).
(** baseelement.py:64-65 with pretty_print=False, the default: ASCII output, no declaration (Xml.v) *)
Definition element_xml (t : xml) : bytes := xml_tostring t.

(** *** Reading it back *)
Lemma parse_text_plain t : forall f r, text_ok t = true -> (List.length t < f)%nat ->
  parse_text f (plain_text t ++ 60 :: r) = Ok (t, forallb blank_char t, 60 :: r).
Proof.
  induction t as [|c t IH]; intros f r Ht Hf.
  - destruct f; [cbn in Hf; lia|]. reflexivity.
  - destruct f as [|f]; [cbn in Hf; lia|]. cbn [List.length] in Hf.
    unfold text_ok in Ht. cbn [forallb] in Ht. apply andb_prop in Ht. destruct Ht as [Hc Ht].
    specialize (IH f r Ht ltac:(lia)). unfold plain_text in *. cbn [flat_map]. rewrite <- app_assoc. unfold plain_text_c at 1.
    destruct (N.eqb_spec c 38) as [->|N38].
    { change ($"&amp;" ++ ?x) with (38 :: $"amp;" ++ x). cbn [parse_text]. cbn [N.eqb Pos.eqb].
      rewrite (esc_ref _ 38) by (cbn; tauto). cbn [bind]. rewrite IH. reflexivity. }
    destruct (N.eqb_spec c 60) as [->|N60].
    { change ($"&lt;" ++ ?x) with (38 :: $"lt;" ++ x). cbn [parse_text]. cbn [N.eqb Pos.eqb].
      rewrite (esc_ref _ 60) by (cbn; tauto). cbn [bind]. rewrite IH. reflexivity. }
    destruct (N.eqb_spec c 62) as [->|N62].
    { change ($"&gt;" ++ ?x) with (38 :: $"gt;" ++ x). cbn [parse_text]. cbn [N.eqb Pos.eqb].
      rewrite (esc_ref _ 62) by (cbn; tauto). cbn [bind]. rewrite IH. reflexivity. }
    destruct (c =? 13) eqn:Er.
    { unfold char_ref. rewrite <- !app_assoc. cbn [lit map list_ascii_of_string app].
      change (N_of_ascii "&") with 38. change (N_of_ascii "#") with 35. cbn [parse_text]. cbn [N.eqb Pos.eqb].
      rewrite char_ref_parse by exact Hc. cbn [bind]. rewrite IH. cbn [bind forallb].
      replace (blank_char c) with false by (unfold blank_char; lia). reflexivity. }
    cbn [app parse_text forallb]. rewrite (proj2 (N.eqb_neq c 60) N60), (proj2 (N.eqb_neq c 38) N38), Er, Hc.
    rewrite IH. reflexivity.
Qed.
Lemma parse_attval_plain t : forall f r, text_ok t = true -> (List.length t < f)%nat ->
  parse_attval f 34 (plain_attr t ++ 34 :: r) = Ok (t, r).
Proof.
  induction t as [|c t IH]; intros f r Ht Hf.
  - destruct f; [cbn in Hf; lia|]. reflexivity.
  - destruct f as [|f]; [cbn in Hf; lia|]. cbn [List.length] in Hf.
    unfold text_ok in Ht. cbn [forallb] in Ht. apply andb_prop in Ht. destruct Ht as [Hc Ht].
    specialize (IH f r Ht ltac:(lia)). unfold plain_attr in *. cbn [flat_map]. rewrite <- app_assoc. unfold plain_attr_c at 1.
    destruct (N.eqb_spec c 38) as [->|N38].
    { change ($"&amp;" ++ ?x) with (38 :: $"amp;" ++ x). cbn [parse_attval]. cbn [N.eqb Pos.eqb].
      rewrite (esc_ref _ 38) by (cbn; tauto). cbn [bind]. rewrite IH. reflexivity. }
    destruct (N.eqb_spec c 60) as [->|N60].
    { change ($"&lt;" ++ ?x) with (38 :: $"lt;" ++ x). cbn [parse_attval]. cbn [N.eqb Pos.eqb].
      rewrite (esc_ref _ 60) by (cbn; tauto). cbn [bind]. rewrite IH. reflexivity. }
    destruct (N.eqb_spec c 62) as [->|N62].
    { change ($"&gt;" ++ ?x) with (38 :: $"gt;" ++ x). cbn [parse_attval]. cbn [N.eqb Pos.eqb].
      rewrite (esc_ref _ 62) by (cbn; tauto). cbn [bind]. rewrite IH. reflexivity. }
    destruct (N.eqb_spec c 34) as [->|N34].
    { change ($"&quot;" ++ ?x) with (38 :: $"quot;" ++ x). cbn [parse_attval]. cbn [N.eqb Pos.eqb].
      rewrite (esc_ref _ 34) by (cbn; tauto). cbn [bind]. rewrite IH. reflexivity. }
    destruct ((c =? 9) || (c =? 10) || (c =? 13)) eqn:Er.
    { unfold char_ref. rewrite <- !app_assoc. cbn [lit map list_ascii_of_string app].
      change (N_of_ascii "&") with 38. change (N_of_ascii "#") with 35. cbn [parse_attval]. cbn [N.eqb Pos.eqb].
      rewrite char_ref_parse by exact Hc. cbn [bind]. rewrite IH. reflexivity. }
    cbn [app parse_attval]. rewrite (proj2 (N.eqb_neq c 34) N34), (proj2 (N.eqb_neq c 60) N60), (proj2 (N.eqb_neq c 38) N38).
    replace (c =? 13) with false by lia. rewrite Hc. rewrite IH. cbn [bind].
    replace (if xml_space c then 32 else c) with c; [reflexivity|].
    unfold xml_space. destruct (N.eqb_spec c 32) as [->|]; [reflexivity|].
    replace (c =? 9) with false by lia. replace (c =? 10) with false by lia. replace (c =? 13) with false by lia. reflexivity.
Qed.
Lemma plain_text_len t : (List.length t <= List.length (plain_text t))%nat.
Proof.
  apply esc_len. intros c. unfold plain_text_c.
  repeat match goal with |- context [if ?b then _ else _] => destruct b end; cbn; lia.
Qed.
Lemma plain_attr_len t : (List.length t <= List.length (plain_attr t))%nat.
Proof.
  apply esc_len. intros c. unfold plain_attr_c.
  repeat match goal with |- context [if ?b then _ else _] => destruct b end; cbn; lia.
Qed.
Lemma parse_attrs_plain f acc n v r : name_ok n = true -> text_ok v = true ->
  existsb (fun a => str_eqb (fst a) n) acc = false ->
  parse_attrs (S f) acc (print_attr (n, v) ++ r) = parse_attrs f ((n, v) :: acc) r.
Proof.
  intros Hn Hv He. rewrite parse_attrs_step.
  assert (E0 : print_attr (n, v) ++ r = 32 :: n ++ 61 :: 34 :: plain_attr v ++ 34 :: r).
  { unfold print_attr. cbn [fst snd app]. rewrite <- !app_assoc. cbn [app]. rewrite <- !app_assoc. reflexivity. }
  rewrite E0. clear E0.
  assert (S1 : skip_space (32 :: n ++ 61 :: 34 :: plain_attr v ++ 34 :: r) = n ++ 61 :: 34 :: plain_attr v ++ 34 :: r).
  { unfold skip_space. cbn [span]. change (xml_space 32) with true. cbn iota.
    pose proof (skip_space_name n (61 :: 34 :: plain_attr v ++ 34 :: r) Hn) as E. unfold skip_space in E.
    destruct (span xml_space (n ++ 61 :: 34 :: plain_attr v ++ 34 :: r)). exact E. }
  rewrite S1. clear S1.
  rewrite (parse_name_app n) by (auto; reflexivity). cbn [bind].
  change (skip_space (61 :: 34 :: plain_attr v ++ 34 :: r)) with (61 :: 34 :: plain_attr v ++ 34 :: r). cbn iota.
  change (skip_space (34 :: plain_attr v ++ 34 :: r)) with (34 :: plain_attr v ++ 34 :: r). cbn iota.
  cbn [N.eqb Pos.eqb orb].
  rewrite parse_attval_plain; [|exact Hv|rewrite app_length; pose proof (plain_attr_len v); lia].
  cbn [bind]. rewrite He.
  destruct (name_ok_inv n Hn) as (c & s' & E & Hc & _). rewrite E. cbn [app].
  unfold name_start in Hc.
  destruct c as [|c]; [reflexivity|]. do 7 (try destruct c as [c|c|]; try reflexivity; try lia).
Qed.
Lemma parse_attrs_print attrs : forall f acc e r,
  forallb (fun a => name_ok (fst a) && text_ok (snd a)) attrs = true ->
  nodup_keys (rev acc ++ attrs) = true -> (List.length attrs < f)%nat ->
  parse_attrs f acc (flat_map print_attr attrs ++ (if e : bool then 47 :: 62 :: r else 62 :: r)) = Ok (rev acc ++ attrs, e, r).
Proof.
  induction attrs as [|[n v] attrs IH]; intros f acc e r Ha Hd Hf.
  - destruct f; [cbn in Hf; lia|]. rewrite parse_attrs_step, app_nil_r. destruct e; reflexivity.
  - destruct f as [|f]; [cbn in Hf; lia|]. cbn [flat_map]. rewrite <- app_assoc.
    cbn [forallb fst snd] in Ha. apply andb_prop in Ha. destruct Ha as [Hn Ha]. apply andb_prop in Hn. destruct Hn as [Hn Hv].
    cbn [List.length] in Hf.
    rewrite parse_attrs_plain; [|exact Hn|exact Hv|].
    + rewrite IH; [|exact Ha| |lia]; cbn [rev]; rewrite <- app_assoc; [reflexivity|exact Hd].
    + rewrite <- existsb_rev. apply (nodup_app _ _ Hd n v). left; reflexivity.
Qed.
Lemma print_attrs_len attrs : (List.length attrs <= List.length (flat_map print_attr attrs))%nat.
Proof.
  induction attrs as [|a l IH]; cbn [flat_map List.length]; [lia|]. rewrite app_length. unfold print_attr at 1. cbn [List.length]. lia.
Qed.

(** White space up to the next '<' *)
Lemma parse_text_blank w : forall f r, forallb blank_char w = true -> (List.length w < f)%nat ->
  parse_text f (w ++ 60 :: r) = Ok (w, true, 60 :: r).
Proof.
  induction w as [|c w IH]; intros f r Hw Hf.
  - destruct f; [cbn in Hf; lia|]. reflexivity.
  - destruct f as [|f]; [cbn in Hf; lia|]. cbn [List.length forallb] in *. apply andb_prop in Hw. destruct Hw as [Hc Hw].
    cbn [app parse_text]. unfold blank_char in Hc.
    replace (c =? 60) with false by lia. replace (c =? 38) with false by lia. replace (c =? 13) with false by lia.
    replace (xml_char c) with true by (unfold xml_char; lia). rewrite IH by (auto; lia). cbn [bind].
    replace (blank_char c) with true by (unfold blank_char; lia). reflexivity.
Qed.
Lemma indent_blank n : forallb blank_char (indent n) = true.
Proof. unfold indent. induction (n + n)%nat as [|k IH]; [reflexivity|exact IH]. Qed.

Lemma print_cons p lvl t : exists s, print p lvl t = 60 :: xtag t ++ s.
Proof. destruct t. cbn [print xtag]. eauto. Qed.
Lemma ok_tag t : xml_ok t = true -> name_ok (xtag t) = true.
Proof.
  destruct t as [tag attrs text kids]. cbn [xml_ok xtag]. intros H. apply andb_prop in H. destruct H as [H _].
  do 3 (apply andb_prop in H; destruct H as [H _]). exact H.
Qed.

Definition kids_need (kids : list xml) : nat := fold_right (fun k a => S (need k + a)) 0%nat kids.
Lemma print_len t : xml_ok t = true -> forall p lvl, (need t < List.length (print p lvl t))%nat.
Proof.
  induction t as [tag attrs text kids IH] using xml_ind'. cbn [xml_ok need]. intros H p lvl.
  apply andb_prop in H. destruct H as [H Hk]. do 3 (apply andb_prop in H; destruct H as [H ?]).
  destruct (name_ok_inv _ H) as (c & s & E & _).
  assert (L : (1 <= List.length tag)%nat) by (rewrite E; cbn; lia).
  assert (K : forall p' lvl', (kids_need kids <= List.length (flat_map (print p' lvl') kids))%nat).
  { clear - IH Hk. intros p' lvl'. induction kids as [|k kids IHk]; cbn [kids_need fold_right flat_map forallb] in *; [lia|].
    apply andb_prop in Hk. destruct Hk as [Hk Hks]. inversion IH as [|? ? H1 H2]; subst. rewrite app_length.
    specialize (IHk H2 Hks). specialize (H1 Hk p' lvl'). fold (kids_need kids) in *. lia. }
  assert (K' : (kids_need kids <= List.length (flat_map (fun k => indent (S lvl) ++ print true (S lvl) k ++ [10%N]) kids))%nat).
  { clear - IH Hk. induction kids as [|k kids IHk]; cbn [kids_need fold_right flat_map forallb] in *; [lia|].
    apply andb_prop in Hk. destruct Hk as [Hk Hks]. inversion IH as [|? ? H1 H2]; subst. rewrite !app_length.
    specialize (IHk H2 Hks). specialize (H1 Hk true (S lvl)). fold (kids_need kids) in *. lia. }
  fold (kids_need kids).
  cbn [print List.length]. rewrite !app_length. specialize (K false lvl).
  destruct text as [tx|]; [|destruct kids as [|k kids]; [cbn [kids_need fold_right List.length]; lia|destruct p]].
  all: cbn [List.length]; rewrite !app_length; cbn [List.length]; rewrite ?app_length; cbn [List.length]; lia.
Qed.

Definition print_rt (t : xml) : Prop := xml_ok t = true -> forall p lvl f r, (need t <= f)%nat ->
  pelem f (tl (print p lvl t) ++ r) = Ok (norm t, r).

(** Children without added white space *)
Lemma pkids_print lvl kids : Forall print_rt kids -> forallb xml_ok kids = true ->
  forall f r, (S (kids_need kids) <= f)%nat ->
  pkids f (flat_map (print false lvl) kids ++ 60 :: 47 :: r) = Ok (map norm kids, r).
Proof.
  induction kids as [|k kids IH]; intros HF Hok f r Hf.
  - destruct f; [lia|]. reflexivity.
  - destruct f as [|f]; [lia|]. cbn [flat_map kids_need fold_right forallb] in *. fold (kids_need kids) in *.
    apply andb_prop in Hok. destruct Hok as [Hk Hks]. inversion HF as [|? ? HFk HFks]; subst.
    rewrite <- app_assoc. specialize (HFk Hk false lvl f (flat_map (print false lvl) kids ++ 60 :: 47 :: r) ltac:(lia)).
    pose proof (ok_tag k Hk) as Htag. destruct (print_cons false lvl k) as [u Hu]. rewrite Hu in *. cbn [tl] in HFk. cbn [app].
    rewrite pkids_step. rewrite <- (app_assoc (xtag k) u) in *. rewrite name_not_slash by exact Htag. rewrite HFk. cbn [bind].
    assert (Hn : exists q, flat_map (print false lvl) kids ++ 60 :: 47 :: r = 60 :: q).
    { destruct kids as [|k2 kids]; cbn [flat_map app]; [eauto|]. destruct (print_cons false lvl k2) as [q ->]. cbn [app]. eauto. }
    destruct Hn as [q Hq]. specialize (IH HFks Hks f r ltac:(lia)). rewrite Hq in *.
    cbn [parse_text]. cbn [N.eqb Pos.eqb bind]. rewrite IH. reflexivity.
Qed.
(** Children on lines of their own: what stands from the next '<' on, and the indentation before it *)
Definition lines (lvl : nat) (kids : list xml) (r : str) : str :=
  flat_map (fun k => indent (S lvl) ++ print true (S lvl) k ++ [10]) kids ++ indent lvl ++ 60 :: 47 :: r.
Definition before (lvl : nat) (kids : list xml) : str := match kids with [] => indent lvl | _ => indent (S lvl) end.
Definition from (lvl : nat) (kids : list xml) (r : str) : str :=
  match kids with [] => 60 :: 47 :: r | k :: ks => print true (S lvl) k ++ 10 :: lines lvl ks r end.
Lemma lines_split lvl kids r : lines lvl kids r = before lvl kids ++ from lvl kids r.
Proof.
  destruct kids as [|k ks]; [reflexivity|]. unfold lines. cbn [flat_map before from]. rewrite <- !app_assoc. reflexivity.
Qed.
Lemma from_cons lvl kids r : exists q, from lvl kids r = 60 :: q.
Proof. destruct kids as [|k ks]; cbn [from]; [eauto|]. destruct (print_cons true (S lvl) k) as [s ->]. cbn [app]. eauto. Qed.
Lemma before_blank lvl kids : forallb blank_char (10 :: before lvl kids) = true.
Proof. destruct kids; [exact (indent_blank lvl)|exact (indent_blank (S lvl))]. Qed.
Lemma line_end lvl kids r : parse_text (S (List.length (10 :: lines lvl kids r))) (10 :: lines lvl kids r)
  = Ok (10 :: before lvl kids, true, from lvl kids r).
Proof.
  rewrite lines_split. destruct (from_cons lvl kids r) as [q ->].
  change (10 :: before lvl kids ++ 60 :: q) with ((10 :: before lvl kids) ++ 60 :: q).
  apply parse_text_blank; [apply before_blank|]. rewrite app_length. lia.
Qed.
Lemma pkids_lines lvl kids : Forall print_rt kids -> forallb xml_ok kids = true ->
  forall f r, (S (kids_need kids) <= f)%nat -> pkids f (from lvl kids r) = Ok (map norm kids, r).
Proof.
  induction kids as [|k kids IH]; intros HF Hok f r Hf.
  - destruct f; [lia|]. reflexivity.
  - destruct f as [|f]; [lia|]. cbn [from kids_need fold_right forallb] in *. fold (kids_need kids) in *.
    apply andb_prop in Hok. destruct Hok as [Hk Hks]. inversion HF as [|? ? HFk HFks]; subst.
    specialize (HFk Hk true (S lvl) f (10 :: lines lvl kids r) ltac:(lia)).
    pose proof (ok_tag k Hk) as Htag. destruct (print_cons true (S lvl) k) as [u Hu]. rewrite Hu in *. cbn [tl] in HFk. cbn [app].
    rewrite pkids_step. rewrite <- (app_assoc (xtag k) u) in *. rewrite name_not_slash by exact Htag. rewrite HFk.
    cbn [bind]. rewrite line_end. cbn [bind]. rewrite (IH HFks Hks f r ltac:(lia)). reflexivity.
Qed.

Lemma print_roundtrip t : print_rt t.
Proof.
  induction t as [tag attrs text kids IH] using xml_ind'. intros Hok p lvl f r Hf.
  destruct f as [|f]; [cbn in Hf; lia|]. rewrite pelem_step.
  cbn [xml_ok] in Hok. apply andb_prop in Hok. destruct Hok as [Hok Hkids].
  apply andb_prop in Hok. destruct Hok as [Hok Htext]. apply andb_prop in Hok. destruct Hok as [Hok Hdup].
  apply andb_prop in Hok. destruct Hok as [Htag Hattrs].
  cbn [need] in Hf. fold (kids_need kids) in Hf.
  cbn [print tl norm]. rewrite <- !app_assoc.
  set (tail := match text with Some _ => _ | None => _ end).
  assert (Htl : tail = [47; 62] /\ text = None /\ kids = [] \/
    (tail = 62 :: 10 :: flat_map (fun k => indent (S lvl) ++ print true (S lvl) k ++ [10]) kids
          ++ indent lvl ++ [60; 47] ++ tag ++ [62] /\ text = None /\ kids <> []) \/
    tail = 62 :: plain_text (opt_text text) ++ flat_map (print false lvl) kids ++ [60; 47] ++ tag ++ [62] /\ ~(text = None /\ kids = [])).
  { unfold tail. destruct text as [s|], kids as [|k ks], p; auto; right; try (right; split; [reflexivity|intros [? ?]; discriminate]).
    left. split; [reflexivity|]. split; [reflexivity|discriminate]. }
  clearbody tail.
  assert (Hnm : match flat_map print_attr attrs ++ tail ++ r with c :: _ => name_char c = false | [] => True end).
  { destruct attrs as [|a l]; [|reflexivity]. cbn [flat_map app]. destruct Htl as [(-> & _)|[(-> & _)|(-> & _)]]; reflexivity. }
  rewrite (parse_name_app tag _ Htag Hnm). cbn [bind].
  destruct Htl as [(-> & -> & ->)|[(-> & -> & Hne)|(-> & Hne)]].
  - pose proof (parse_attrs_print attrs (S (List.length (flat_map print_attr attrs ++ [47; 62] ++ r))) [] true r Hattrs Hdup) as E.
    cbn [app] in *. rewrite E; [reflexivity|]. rewrite app_length. pose proof (print_attrs_len attrs). lia.
  - set (body := 10 :: lines lvl kids (tag ++ 62 :: r)).
    assert (Hb : (62 :: 10 :: flat_map (fun k => indent (S lvl) ++ print true (S lvl) k ++ [10]) kids
          ++ indent lvl ++ [60; 47] ++ tag ++ [62]) ++ r = 62 :: body).
    { unfold body, lines. cbn [app]. rewrite <- !app_assoc. cbn [app]. rewrite <- !app_assoc. reflexivity. }
    rewrite Hb.
    pose proof (parse_attrs_print attrs (S (List.length (flat_map print_attr attrs ++ 62 :: body))) [] false body Hattrs Hdup) as E.
    cbn [app] in *. rewrite E; [|rewrite app_length; pose proof (print_attrs_len attrs); lia]. cbn [bind]. cbn iota.
    unfold body. rewrite line_end. cbn [bind]. rewrite (pkids_lines lvl kids IH Hkids f (tag ++ 62 :: r)) by lia. cbn [bind].
    rewrite (parse_name_app tag (62 :: r) Htag eq_refl). cbn [bind].
    change (skip_space (62 :: r)) with (62 :: r). cbn iota. rewrite str_eqb_refl, keep_norm.
    destruct kids; [congruence|reflexivity].
  - set (body := plain_text (opt_text text) ++ flat_map (print false lvl) kids ++ [60; 47] ++ tag ++ [62]).
    pose proof (parse_attrs_print attrs (S (List.length (flat_map print_attr attrs ++ (62 :: body) ++ r))) [] false (body ++ r) Hattrs Hdup) as E.
    cbn [app] in *. rewrite E; [|rewrite app_length; pose proof (print_attrs_len attrs); lia]. cbn [bind]. cbn iota.
    assert (Hb : body ++ r = plain_text (opt_text text) ++ flat_map (print false lvl) kids ++ 60 :: 47 :: tag ++ 62 :: r).
    { unfold body. cbn [app]. rewrite <- !app_assoc. cbn [app]. rewrite <- !app_assoc. reflexivity. }
    rewrite Hb.
    assert (Hn : exists q, flat_map (print false lvl) kids ++ 60 :: 47 :: tag ++ 62 :: r = 60 :: q).
    { destruct kids as [|k2 kids]; cbn [flat_map app]; [eauto|]. destruct (print_cons false lvl k2) as [q ->]. cbn [app]. eauto. }
    destruct Hn as [q Hq]. rewrite Hq.
    rewrite (parse_text_plain (opt_text text)); [|exact Htext|rewrite app_length; pose proof (plain_text_len (opt_text text)); lia].
    cbn [bind]. rewrite <- Hq.
    rewrite (pkids_print lvl kids IH Hkids f (tag ++ 62 :: r)) by lia. cbn [bind].
    rewrite (parse_name_app tag (62 :: r) Htag eq_refl). cbn [bind].
    change (skip_space (62 :: r)) with (62 :: r). cbn iota. rewrite str_eqb_refl. rewrite keep_norm.
    destruct text as [s|]; cbn [opt_text norm_text] in *; [reflexivity|].
    destruct kids; [exfalso; auto|reflexivity].
Qed.

(** *** Every character can be encoded *)
Lemma all_flat_map {A} (P : N -> bool) (g : A -> str) l : (forall a, In a l -> forallb P (g a) = true) -> forallb P (flat_map g l) = true.
Proof.
  induction l as [|a l IH]; cbn [flat_map]; intros H; [reflexivity|]. rewrite forallb_app, H by (left; reflexivity).
  rewrite IH; [reflexivity|]. intros b Hb. apply H. right; exact Hb.
Qed.
Lemma char_scalar c : xml_char c = true -> is_scalar c = true.
Proof. unfold xml_char, is_scalar. lia. Qed.
Lemma ascii_scalar s : forallb (fun c => c <? 128) s = true -> forallb is_scalar s = true.
Proof. apply forallb_impl. intros c. unfold is_scalar. lia. Qed.
Lemma plain_text_scalar s : text_ok s = true -> forallb is_scalar (plain_text s) = true.
Proof.
  intros H. apply all_flat_map. intros c Hc. unfold text_ok in H. rewrite forallb_forall in H. specialize (H c Hc). unfold plain_text_c.
  repeat match goal with |- context [if ?b then _ else _] => destruct b eqn:?; try reflexivity end;
    [apply ascii_scalar, char_ref_ascii|]. cbn [forallb]. rewrite char_scalar by exact H. reflexivity.
Qed.
Lemma plain_attr_scalar s : text_ok s = true -> forallb is_scalar (plain_attr s) = true.
Proof.
  intros H. apply all_flat_map. intros c Hc. unfold text_ok in H. rewrite forallb_forall in H. specialize (H c Hc). unfold plain_attr_c.
  repeat match goal with |- context [if ?b then _ else _] => destruct b eqn:?; try reflexivity end;
    [apply ascii_scalar, char_ref_ascii|]. cbn [forallb]. rewrite char_scalar by exact H. reflexivity.
Qed.
Lemma indent_scalar n : forallb is_scalar (indent n) = true.
Proof. unfold indent. induction (n + n)%nat as [|k IH]; [reflexivity|exact IH]. Qed.
Lemma print_scalar t : xml_ok t = true -> forall p lvl, forallb is_scalar (print p lvl t) = true.
Proof.
  induction t as [tag attrs text kids IH] using xml_ind'. cbn [xml_ok]. intros Hok p lvl.
  apply andb_prop in Hok. destruct Hok as [Hok Hkids].
  apply andb_prop in Hok. destruct Hok as [Hok Htext]. apply andb_prop in Hok. destruct Hok as [Hok Hdup].
  apply andb_prop in Hok. destruct Hok as [Htag Hattrs].
  destruct (name_ok_inv _ Htag) as (_ & _ & _ & _ & Hn). apply name_ascii, ascii_scalar in Hn.
  assert (K : forallb is_scalar (flat_map (print false lvl) kids) = true).
  { apply all_flat_map. intros k Hk. rewrite Forall_forall in IH. apply (IH k Hk). rewrite forallb_forall in Hkids. auto. }
  assert (K' : forallb is_scalar (flat_map (fun k => indent (S lvl) ++ print true (S lvl) k ++ [10]) kids) = true).
  { apply all_flat_map. intros k Hk. rewrite !forallb_app, indent_scalar. rewrite Forall_forall in IH. rewrite (IH k Hk); [reflexivity|].
    rewrite forallb_forall in Hkids. auto. }
  assert (A : forallb is_scalar (flat_map print_attr attrs) = true).
  { apply all_flat_map. intros [n v] Ha. rewrite forallb_forall in Hattrs. specialize (Hattrs _ Ha). cbn [fst snd] in Hattrs.
    apply andb_prop in Hattrs. destruct Hattrs as [H1 H2]. destruct (name_ok_inv _ H1) as (_ & _ & _ & _ & Hn1).
    unfold print_attr. cbn [fst snd forallb]. rewrite !forallb_app, (ascii_scalar _ (name_ascii _ Hn1)), plain_attr_scalar by exact H2. reflexivity. }
  cbn [print forallb]. rewrite !forallb_app, Hn, A. cbn [andb].
  change (is_scalar 60) with true. cbn [andb].
  destruct text as [s|]; [|destruct kids as [|k ks]; [reflexivity|destruct p]].
  - cbn [opt_text] in Htext. cbn [forallb]. rewrite !forallb_app, plain_text_scalar, K, Hn by exact Htext. reflexivity.
  - set (kk := flat_map _ (k :: ks)) in *. cbn [forallb]. rewrite !forallb_app, indent_scalar, K', Hn. reflexivity.
  - set (kk := flat_map _ (k :: ks)) in *. cbn [forallb]. rewrite !forallb_app, K, Hn. reflexivity.
Qed.

Theorem xml_text_reads t : xml_ok t = true -> exists b, xml_text t = Ok b /\ xml_parse_doc b = Ok (norm t).
Proof.
  intros H.
  destruct (utf8_encode_total (declaration ++ print true O t ++ [10])) as [b Eb].
  { rewrite !forallb_app, print_scalar by exact H. reflexivity. }
  exists b. split; [exact Eb|]. unfold xml_parse_doc. rewrite (utf8_roundtrip _ _ Eb). cbn [bind].
  destruct (print_cons true O t) as [u Hu].
  assert (D : (if starts_with ($"<?xml ") (declaration ++ print true O t ++ [10]) then skip_decl (declaration ++ print true O t ++ [10])
               else declaration ++ print true O t ++ [10]) = 10 :: print true O t ++ [10]) by reflexivity.
  rewrite D. clear D.
  assert (Sk : skip_space (10 :: print true O t ++ [10]) = print true O t ++ [10]) by (rewrite Hu; reflexivity).
  rewrite Sk. pose proof (print_len t H true O) as L.
  pose proof (print_roundtrip t H true O) as R. rewrite Hu in *. cbn [tl List.length app] in *.
  rewrite R; [reflexivity|]. rewrite app_length. lia.
Qed.
