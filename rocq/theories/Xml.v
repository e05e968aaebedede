(** XML documents as stored in the file: model of what [etree.parse(..., XMLParser(remove_blank_text=True))]
    and [etree.tostring(tree)] (kdbx_parsing/common.py:194-202) do on KeePass documents.
    Simplifications: elements, attributes and text only (no comments, processing instructions, CDATA,
    namespaces, DTDs, no text after a child element). *)
From Coq Require Import ZifyBool ZifyNat ZifyN.
From Verif Require Import Base PyStr Utf8.

Inductive xml := X (tag : str) (attrs : list (str * str)) (text : option str) (kids : list xml).
Definition xtag (t : xml) := let 'X a _ _ _ := t in a.
Definition xattrs (t : xml) := let 'X _ a _ _ := t in a.
Definition xtext (t : xml) := let 'X _ _ a _ := t in a.
Definition xkids (t : xml) := let 'X _ _ _ a := t in a.

Section Ind.
  Variable P : xml -> Prop.
  Hypothesis HX : forall tag attrs text kids, Forall P kids -> P (X tag attrs text kids).
  Fixpoint xml_ind' (t : xml) : P t :=
    match t with
    | X tag attrs text kids =>
        HX tag attrs text kids
          ((fix go (l : list xml) : Forall P l :=
              match l with [] => Forall_nil P | k :: l' => Forall_cons k (xml_ind' k) (go l') end) kids)
    end.
End Ind.

(** The Char production of XML 1.0; lxml refuses other characters (apihelpers.pxi: _utf8). *)
Definition xml_char (c : N) : bool :=
  (c =? 9) || (c =? 10) || (c =? 13) || ((32 <=? c) && (c <? 0xD800))
  || ((0xE000 <=? c) && (c <=? 0xFFFD)) || ((0x10000 <=? c) && (c <? 0x110000)).
(** Names: the ASCII part of NameStartChar / NameChar. *)
Definition name_start (c : N) : bool :=
  ((65 <=? c) && (c <=? 90)) || ((97 <=? c) && (c <=? 122)) || (c =? 95).
Definition name_char (c : N) : bool :=
  name_start c || ((48 <=? c) && (c <=? 57)) || (c =? 45) || (c =? 46).
Definition xml_space (c : N) : bool := (c =? 32) || (c =? 9) || (c =? 10) || (c =? 13).
Definition blank_char (c : N) : bool := (c =? 32) || (c =? 9) || (c =? 10).

(** *** Serialisation: libxml2's xmlNodeDumpOutput with ASCII output (tostring's default encoding). *)
Definition char_ref (c : N) : str := $"&#" ++ str_of_N c ++ [59].
Definition esc_text_c (c : N) : str :=
  if c =? 38 then $"&amp;" else if c =? 60 then $"&lt;" else if c =? 62 then $"&gt;"
  else if (c =? 13) || (128 <=? c) then char_ref c else [c].
Definition esc_attr_c (c : N) : str :=
  if c =? 38 then $"&amp;" else if c =? 60 then $"&lt;" else if c =? 62 then $"&gt;" else if c =? 34 then $"&quot;"
  else if (c =? 9) || (c =? 10) || (c =? 13) || (128 <=? c) then char_ref c else [c].
Definition esc_text (s : str) : str := flat_map esc_text_c s.
Definition esc_attr (s : str) : str := flat_map esc_attr_c s.
Definition ser_attr (a : str * str) : str := 32 :: fst a ++ [61; 34] ++ esc_attr (snd a) ++ [34].
Definition opt_text (t : option str) : str := match t with Some s => s | None => [] end.
Fixpoint ser (t : xml) : str :=
  let 'X tag attrs text kids := t in
  60 :: tag ++ flat_map ser_attr attrs ++
  match text, kids with
  | None, [] => [47; 62]
  | _, _ => 62 :: esc_text (opt_text text) ++ flat_map ser kids ++ [60; 47] ++ tag ++ [62]
  end.

(** *** Parsing *)
Fixpoint span (p : N -> bool) (s : str) : str * str :=
  match s with
  | c :: s' => if p c then let '(a, r) := span p s' in (c :: a, r) else ([], s)
  | [] => ([], [])
  end.
Definition skip_space (s : str) : str := snd (span xml_space s).
Fixpoint hex_acc (acc : N) (s : str) : option N :=
  match s with
  | [] => Some acc
  | c :: s' => match hex_val c with Some v => hex_acc (acc * 16 + v) s' | None => None end
  end.
(** After '&': entity or character reference up to ';'. *)
Definition ref_value (b : str) : option N :=
  match b with
  | 35 :: 120 :: (_ :: _) as b' => hex_acc 0 (skipn 2 b)
  | 35 :: (_ :: _) as b' => dec_val 0 (skipn 1 b)
  | _ => if str_eqb b ($"amp") then Some 38 else if str_eqb b ($"lt") then Some 60
         else if str_eqb b ($"gt") then Some 62 else if str_eqb b ($"quot") then Some 34
         else if str_eqb b ($"apos") then Some 39 else None
  end.
Definition parse_ref (s : str) : res (N * str) :=
  let '(b, r) := span (fun c => negb (c =? 59)) s in
  match r, ref_value b with
  | 59 :: r', Some c => if xml_char c then Ok (c, r') else Err Ex_XMLSyntax
  | _, _ => Err Ex_XMLSyntax
  end.
(** Text up to the next '<'; the flag tells that it consists of literal white space only. *)
Fixpoint parse_text (fuel : nat) (s : str) : res (str * bool * str) :=
  match fuel with
  | O => Err Ex_Recursion
  | S f =>
      match s with
      | [] => Err Ex_XMLSyntax
      | c :: s' =>
          if c =? 60 then Ok ([], true, s)
          else if c =? 38 then
            let* (v, r) := parse_ref s' in
            let* (t, _, r') := parse_text f r in Ok (v :: t, false, r')
          else if c =? 13 then
            let s'' := match s' with 10 :: s'' => s'' | _ => s' end in
            let* (t, b, r') := parse_text f s'' in Ok (10 :: t, b, r')
          else if xml_char c then
            let* (t, b, r') := parse_text f s' in Ok (c :: t, blank_char c && b, r')
          else Err Ex_XMLSyntax
      end
  end.
(** Attribute value up to the quote [q], with white space normalisation. *)
Fixpoint parse_attval (fuel : nat) (q : N) (s : str) : res (str * str) :=
  match fuel with
  | O => Err Ex_Recursion
  | S f =>
      match s with
      | [] => Err Ex_XMLSyntax
      | c :: s' =>
          if c =? q then Ok ([], s')
          else if c =? 60 then Err Ex_XMLSyntax
          else if c =? 38 then
            let* (v, r) := parse_ref s' in
            let* (t, r') := parse_attval f q r in Ok (v :: t, r')
          else if c =? 13 then
            let s'' := match s' with 10 :: s'' => s'' | _ => s' end in
            let* (t, r') := parse_attval f q s'' in Ok (32 :: t, r')
          else if xml_char c then
            let* (t, r') := parse_attval f q s' in Ok ((if xml_space c then 32 else c) :: t, r')
          else Err Ex_XMLSyntax
      end
  end.
Definition parse_name (s : str) : res (str * str) :=
  let '(n, r) := span name_char s in
  match n with
  | c :: _ => if name_start c then Ok (n, r) else Err Ex_XMLSyntax
  | [] => Err Ex_XMLSyntax
  end.
(** Attributes up to '>' or '/>'; true when the element is empty.  [acc] holds earlier ones, last first. *)
Fixpoint parse_attrs (fuel : nat) (acc : list (str * str)) (s : str) : res (list (str * str) * bool * str) :=
  match fuel with
  | O => Err Ex_Recursion
  | S f =>
      let s1 := skip_space s in
      match s1 with
      | 62 :: r => Ok (rev acc, false, r)
      | 47 :: 62 :: r => Ok (rev acc, true, r)
      | _ =>
          let* (n, r) := parse_name s1 in
          match skip_space r with
          | 61 :: r1 =>
              match skip_space r1 with
              | q :: r2 =>
                  if (q =? 34) || (q =? 39) then
                    let* (v, r3) := parse_attval (S (List.length r2)) q r2 in
                    if existsb (fun a => str_eqb (fst a) n) acc then Err Ex_XMLSyntax
                    else parse_attrs f ((n, v) :: acc) r3
                  else Err Ex_XMLSyntax
              | [] => Err Ex_XMLSyntax
              end
          | _ => Err Ex_XMLSyntax
          end
      end
  end.
(** remove_blank_text: white space before a child element is dropped, a leaf keeps its text. *)
Definition keep_text (t : str) (blank : bool) (kids : list xml) : option str :=
  match t, kids with
  | [], _ => None
  | _, [] => Some t
  | _, _ => if blank then None else Some t
  end.
(** [pelem] is called after '<', [pkids] at the '<' following text. *)
Fixpoint pelem (fuel : nat) (s : str) : res (xml * str) :=
  match fuel with
  | O => Err Ex_Recursion
  | S f =>
      let* (tag, r) := parse_name s in
      let* (attrs, empty, r1) := parse_attrs (S (List.length r)) [] r in
      if empty then Ok (X tag attrs None [], r1)
      else
        let* (t, blank, r2) := parse_text (S (List.length r1)) r1 in
        let* (kids, r3) := pkids f r2 in
        let* (tag', r4) := parse_name r3 in
        match skip_space r4 with
        | 62 :: r5 => if str_eqb tag tag' then Ok (X tag attrs (keep_text t blank kids) kids, r5) else Err Ex_XMLSyntax
        | _ => Err Ex_XMLSyntax
        end
  end
with pkids (fuel : nat) (s : str) : res (list xml * str) :=
  match fuel with
  | O => Err Ex_Recursion
  | S f =>
      match s with
      | 60 :: 47 :: r => Ok ([], r)
      | 60 :: r =>
          let* (k, r1) := pelem f r in
          let* (_, blank, r2) := parse_text (S (List.length r1)) r1 in
          if blank then let* (ks, r3) := pkids f r2 in Ok (k :: ks, r3)
          else Err Ex_XMLSyntax
      | _ => Err Ex_XMLSyntax
      end
  end.
(** Skip an XML declaration. *)
Fixpoint skip_decl (s : str) : str :=
  match s with
  | 63 :: 62 :: r => r
  | _ :: r => skip_decl r
  | [] => []
  end.
(** [etree.parse(io.BytesIO(data), XMLParser(remove_blank_text=True))], UTF-8 input *)
Definition xml_parse_doc (data : bytes) : res xml :=
  let* s := utf8_decode data in
  let s := if starts_with ($"<?xml ") s then skip_decl s else s in
  match skip_space s with
  | 60 :: r =>
      let* (t, r') := pelem (List.length r) r in
      match skip_space r' with [] => Ok t | _ => Err Ex_XMLSyntax end
  | _ => Err Ex_XMLSyntax
  end.
(** [etree.tostring(tree)] *)
Definition xml_tostring (t : xml) : bytes := ser t.

(** *** What is preserved *)
Definition name_ok (s : str) : bool :=
  match s with c :: _ => name_start c && forallb name_char s | [] => false end.
Definition text_ok (s : str) : bool := forallb xml_char s.
Fixpoint nodup_keys (l : list (str * str)) : bool :=
  match l with [] => true | (k, _) :: l' => negb (existsb (fun a => str_eqb (fst a) k) l') && nodup_keys l' end.
Fixpoint xml_ok (t : xml) : bool :=
  let 'X tag attrs text kids := t in
  name_ok tag && forallb (fun a => name_ok (fst a) && text_ok (snd a)) attrs && nodup_keys attrs
  && text_ok (opt_text text) && forallb xml_ok kids.
(** Empty text becomes absent; white space before child elements is dropped. *)
Definition norm_text (t : option str) (kids : list xml) : option str :=
  match t with
  | None => None
  | Some s => keep_text s (forallb blank_char s) kids
  end.
Fixpoint norm (t : xml) : xml :=
  let 'X tag attrs text kids := t in X tag attrs (norm_text text kids) (map norm kids).

(** *** Proofs *)
Lemma span_app p a b : forallb p a = true -> match b with c :: _ => p c = false | [] => True end ->
  span p (a ++ b) = (a, b).
Proof.
  induction a as [|c a IH]; cbn [app forallb]; intros Ha Hb.
  - destruct b as [|c b]; [reflexivity|]. cbn [span]. rewrite Hb. reflexivity.
  - apply andb_prop in Ha. destruct Ha as [Hc Ha]. cbn [span]. rewrite Hc, IH by assumption. reflexivity.
Qed.
Lemma char_ref_parse c r : xml_char c = true -> parse_ref (35 :: str_of_N c ++ 59 :: r) = Ok (c, r).
Proof.
  intros Hc. unfold parse_ref.
  change (35 :: str_of_N c ++ 59 :: r) with ((35 :: str_of_N c) ++ 59 :: r).
  pose proof (str_of_N_digits c) as D.
  assert (Q : forallb (fun a => negb (a =? 59)) (str_of_N c) = true).
  { rewrite forallb_forall in D |- *. intros a Ha. specialize (D a Ha). unfold is_digit in D. lia. }
  rewrite span_app; [|cbn [forallb]; rewrite Q; reflexivity|reflexivity].
  pose proof (str_of_N_val c) as V. pose proof (str_of_N_nonempty c) as NE.
  assert (R : ref_value (35 :: str_of_N c) = Some c).
  { unfold ref_value. destruct (str_of_N c) as [|d l] eqn:E; [congruence|].
    cbn [forallb] in D. apply andb_prop in D. destruct D as [Dd D].
    cbn [skipn]. rewrite <- V. unfold is_digit in Dd.
    destruct d as [|d]; [reflexivity|]. do 7 (try destruct d as [d|d|]; try reflexivity; try lia). }
  rewrite R, Hc. reflexivity.
Qed.
Ltac fixref := cbn [lit map list_ascii_of_string app]; reflexivity.
Lemma esc_ref s c r : In (s, c) [($"amp;", 38); ($"lt;", 60); ($"gt;", 62); ($"quot;", 34)] ->
  parse_ref (s ++ r) = Ok (c, r).
Proof.
  intros H. cbn [In] in H.
  repeat destruct H as [H|H]; try contradiction; injection H as <- <-; reflexivity.
Qed.
Lemma parse_text_esc t : forall f r, text_ok t = true -> (List.length t < f)%nat ->
  parse_text f (esc_text t ++ 60 :: r) = Ok (t, forallb blank_char t, 60 :: r).
Proof.
  induction t as [|c t IH]; intros f r Ht Hf.
  - destruct f; [cbn in Hf; lia|]. reflexivity.
  - destruct f as [|f]; [cbn in Hf; lia|]. cbn [List.length] in Hf.
    unfold text_ok in Ht. cbn [forallb] in Ht. apply andb_prop in Ht. destruct Ht as [Hc Ht].
    specialize (IH f r Ht ltac:(lia)). unfold esc_text in *. cbn [flat_map]. rewrite <- app_assoc. unfold esc_text_c at 1.
    destruct (N.eqb_spec c 38) as [->|N38].
    { change ($"&amp;" ++ ?x) with (38 :: $"amp;" ++ x). cbn [parse_text]. cbn [N.eqb Pos.eqb].
      rewrite (esc_ref _ 38) by (cbn; tauto). cbn [bind]. rewrite IH. reflexivity. }
    destruct (N.eqb_spec c 60) as [->|N60].
    { change ($"&lt;" ++ ?x) with (38 :: $"lt;" ++ x). cbn [parse_text]. cbn [N.eqb Pos.eqb].
      rewrite (esc_ref _ 60) by (cbn; tauto). cbn [bind]. rewrite IH. reflexivity. }
    destruct (N.eqb_spec c 62) as [->|N62].
    { change ($"&gt;" ++ ?x) with (38 :: $"gt;" ++ x). cbn [parse_text]. cbn [N.eqb Pos.eqb].
      rewrite (esc_ref _ 62) by (cbn; tauto). cbn [bind]. rewrite IH. reflexivity. }
    destruct ((c =? 13) || (128 <=? c)) eqn:Er.
    { unfold char_ref. rewrite <- !app_assoc. cbn [lit map list_ascii_of_string app].
      change (N_of_ascii "&") with 38. change (N_of_ascii "#") with 35. cbn [parse_text]. cbn [N.eqb Pos.eqb].
      rewrite char_ref_parse by exact Hc. cbn [bind]. rewrite IH. cbn [bind forallb].
      replace (blank_char c) with false by (unfold blank_char; lia). reflexivity. }
    apply orb_false_iff in Er. destruct Er as [E13 E128].
    cbn [app parse_text forallb]. rewrite (proj2 (N.eqb_neq c 60) N60), (proj2 (N.eqb_neq c 38) N38), E13, Hc.
    rewrite IH. reflexivity.
Qed.
Lemma parse_attval_esc t : forall f r, text_ok t = true -> (List.length t < f)%nat ->
  parse_attval f 34 (esc_attr t ++ 34 :: r) = Ok (t, r).
Proof.
  induction t as [|c t IH]; intros f r Ht Hf.
  - destruct f; [cbn in Hf; lia|]. reflexivity.
  - destruct f as [|f]; [cbn in Hf; lia|]. cbn [List.length] in Hf.
    unfold text_ok in Ht. cbn [forallb] in Ht. apply andb_prop in Ht. destruct Ht as [Hc Ht].
    specialize (IH f r Ht ltac:(lia)). unfold esc_attr in *. cbn [flat_map]. rewrite <- app_assoc. unfold esc_attr_c at 1.
    destruct (N.eqb_spec c 38) as [->|N38].
    { change ($"&amp;" ++ ?x) with (38 :: $"amp;" ++ x). cbn [parse_attval]. cbn [N.eqb Pos.eqb].
      rewrite (esc_ref _ 38) by (cbn; tauto). cbn [bind]. rewrite IH. reflexivity. }
    destruct (N.eqb_spec c 60) as [->|N60].
    { change ($"&lt;" ++ ?x) with (38 :: $"lt;" ++ x). cbn [parse_attval]. cbn [N.eqb Pos.eqb].
      rewrite (esc_ref _ 60) by (cbn; tauto). cbn [bind]. rewrite IH. reflexivity. }
    destruct (N.eqb_spec c 62) as [->|N62].
    { change ($"&gt;" ++ ?x) with (38 :: $"gt;" ++ x). cbn [parse_attval]. cbn [N.eqb Pos.eqb].
      rewrite (esc_ref _ 62) by (cbn; tauto). cbn [bind]. rewrite IH. reflexivity. }
    destruct (N.eqb_spec c 34) as [->|N34].
    { change ($"&quot;" ++ ?x) with (38 :: $"quot;" ++ x). cbn [parse_attval]. cbn [N.eqb Pos.eqb].
      rewrite (esc_ref _ 34) by (cbn; tauto). cbn [bind]. rewrite IH. reflexivity. }
    destruct ((c =? 9) || (c =? 10) || (c =? 13) || (128 <=? c)) eqn:Er.
    { unfold char_ref. rewrite <- !app_assoc. cbn [lit map list_ascii_of_string app].
      change (N_of_ascii "&") with 38. change (N_of_ascii "#") with 35. cbn [parse_attval]. cbn [N.eqb Pos.eqb].
      rewrite char_ref_parse by exact Hc. cbn [bind]. rewrite IH. reflexivity. }
    cbn [app parse_attval]. rewrite (proj2 (N.eqb_neq c 34) N34), (proj2 (N.eqb_neq c 60) N60), (proj2 (N.eqb_neq c 38) N38).
    replace (c =? 13) with false by lia. rewrite Hc. rewrite IH. cbn [bind].
    replace (if xml_space c then 32 else c) with c; [reflexivity|].
    unfold xml_space. destruct (N.eqb_spec c 32) as [->|]; [reflexivity|].
    replace (c =? 9) with false by lia. replace (c =? 10) with false by lia. replace (c =? 13) with false by lia. reflexivity.
Qed.

(** *** What libxml2 reads without XML_PARSE_HUGE (common.py:198 passes no huge_tree to XMLParser): elements nested at most 256 deep
    (xmlParserMaxDepth), texts and attribute values of at most 10000000 bytes (XML_MAX_TEXT_LENGTH), names of at most 50000
    (XML_MAX_NAME_LENGTH).  Texts are counted in UTF-8, attribute values as written. *)
Definition utf8_width (c : N) : N := if c <? 0x80 then 1 else if c <? 0x800 then 2 else if c <? 0x10000 then 3 else 4.
Definition utf8_size (s : str) : N := fold_right (fun c n => utf8_width c + n) 0 s.
Fixpoint xml_depth (t : xml) : N := let 'X _ _ _ kids := t in 1 + fold_right N.max 0 (map xml_depth kids).
Definition names_fit (tag : str) (attrs : list (str * str)) : bool :=
  (utf8_size tag <=? 50000) && forallb (fun a => (utf8_size (fst a) <=? 50000) && (lenN (esc_attr (snd a)) <=? 10000000)) attrs.
Fixpoint texts_fit (t : xml) : bool :=
  let 'X tag attrs text kids := t in names_fit tag attrs && (utf8_size (opt_text text) <=? 10000000) && forallb texts_fit kids.
Definition lxml_reads (t : xml) : bool := (xml_depth t <=? 256) && texts_fit t.
(** etree.parse with the limits.  Simplified: what exceeds them is found after parsing. *)
Definition lxml_parse (data : bytes) : res xml := let* t := xml_parse_doc data in if lxml_reads t then Ok t else Err Ex_XMLSyntax.
