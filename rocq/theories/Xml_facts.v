(** Parsing what was serialised gives the same document, up to [norm]. *)
From Coq Require Import ZifyBool ZifyNat ZifyN.
From Verif Require Import Base PyStr Utf8 Xml.

Lemma name_ok_inv s : name_ok s = true -> exists c s', s = c :: s' /\ name_start c = true /\ forallb name_char s = true.
Proof.
  destruct s as [|c s']; cbn [name_ok]; [discriminate|]. intros H. apply andb_prop in H. destruct H as [H1 H2].
  exists c, s'. auto.
Qed.
Lemma parse_name_app n r : name_ok n = true -> match r with c :: _ => name_char c = false | [] => True end ->
  parse_name (n ++ r) = Ok (n, r).
Proof.
  intros Hn Hr. destruct (name_ok_inv n Hn) as (c & s' & E & Hc & Ha).
  unfold parse_name. rewrite span_app by assumption. rewrite E. rewrite Hc. reflexivity.
Qed.
Lemma skip_space_name n r : name_ok n = true -> skip_space (n ++ r) = n ++ r.
Proof.
  intros Hn. destruct (name_ok_inv n Hn) as (c & s' & -> & Hc & _). unfold skip_space. cbn [app span].
  replace (xml_space c) with false by (unfold xml_space, name_start in *; lia). reflexivity.
Qed.
Lemma esc_len (f : N -> str) (t : str) : (forall c, 1 <= List.length (f c))%nat -> (List.length t <= List.length (flat_map f t : str))%nat.
Proof.
  intros H. induction t as [|c t IH]; cbn [flat_map List.length]; [lia|]. rewrite app_length. specialize (H c). lia.
Qed.
Lemma esc_text_len t : (List.length t <= List.length (esc_text t))%nat.
Proof.
  apply esc_len. intros c. unfold esc_text_c.
  repeat match goal with |- context [if ?b then _ else _] => destruct b end; cbn; lia.
Qed.
Lemma esc_attr_len t : (List.length t <= List.length (esc_attr t))%nat.
Proof.
  apply esc_len. intros c. unfold esc_attr_c.
  repeat match goal with |- context [if ?b then _ else _] => destruct b end; cbn; lia.
Qed.

Lemma parse_attrs_step f acc s : parse_attrs (S f) acc s =
      match skip_space s with
      | 62 :: r => Ok (rev acc, false, r)
      | 47 :: 62 :: r => Ok (rev acc, true, r)
      | _ =>
          let* (n, r) := parse_name (skip_space s) in
          match skip_space r with
          | 61 :: r1 =>
              match skip_space r1 with
              | q :: r2 =>
                  if (q =? 34) || (q =? 39) then
                    let* (v, r3) := parse_attval (S (List.length r2)) q r2 in
                    if existsb (fun a => str_eqb (fst a) n) acc then Err Ex_XMLSyntax
                    else parse_attrs f ((n, v) :: acc) r3
                  else Err Ex_XMLSyntax
              | [] => Err Ex_XMLSyntax
              end
          | _ => Err Ex_XMLSyntax
          end
      end.
Proof. reflexivity. Qed.

Lemma parse_attrs_one f acc n v r : name_ok n = true -> text_ok v = true ->
  existsb (fun a => str_eqb (fst a) n) acc = false ->
  parse_attrs (S f) acc (ser_attr (n, v) ++ r) = parse_attrs f ((n, v) :: acc) r.
Proof.
  intros Hn Hv He. rewrite parse_attrs_step.
  assert (E0 : ser_attr (n, v) ++ r = 32 :: n ++ 61 :: 34 :: esc_attr v ++ 34 :: r).
  { unfold ser_attr. cbn [fst snd app]. rewrite <- !app_assoc. cbn [app]. rewrite <- !app_assoc. reflexivity. }
  rewrite E0. clear E0.
  assert (S1 : skip_space (32 :: n ++ 61 :: 34 :: esc_attr v ++ 34 :: r) = n ++ 61 :: 34 :: esc_attr v ++ 34 :: r).
  { unfold skip_space. cbn [span]. change (xml_space 32) with true. cbn iota.
    pose proof (skip_space_name n (61 :: 34 :: esc_attr v ++ 34 :: r) Hn) as E. unfold skip_space in E.
    destruct (span xml_space (n ++ 61 :: 34 :: esc_attr v ++ 34 :: r)). exact E. }
  rewrite S1. clear S1.
  rewrite (parse_name_app n) by (auto; reflexivity). cbn [bind].
  change (skip_space (61 :: 34 :: esc_attr v ++ 34 :: r)) with (61 :: 34 :: esc_attr v ++ 34 :: r). cbn iota.
  change (skip_space (34 :: esc_attr v ++ 34 :: r)) with (34 :: esc_attr v ++ 34 :: r). cbn iota.
  cbn [N.eqb Pos.eqb orb].
  rewrite parse_attval_esc; [|exact Hv|rewrite app_length; pose proof (esc_attr_len v); lia].
  cbn [bind]. rewrite He.
  destruct (name_ok_inv n Hn) as (c & s' & E & Hc & _). rewrite E. cbn [app].
  unfold name_start in Hc.
  destruct c as [|c]; [reflexivity|]. do 7 (try destruct c as [c|c|]; try reflexivity; try lia).
Qed.
Lemma existsb_rev {A} (p : A -> bool) l : existsb p (rev l) = existsb p l.
Proof.
  destruct (existsb p l) eqn:E.
  - apply existsb_exists in E. apply existsb_exists. destruct E as (x & H & Hp). exists x. split; [apply in_rev in H|]; auto.
  - destruct (existsb p (rev l)) eqn:E'; [|reflexivity]. apply existsb_exists in E'. destruct E' as (x & H & Hp).
    apply in_rev in H. rewrite <- E. symmetry. apply existsb_exists. exists x; auto.
Qed.
Lemma nodup_app a b : nodup_keys (a ++ b) = true ->
  forall k v, In (k, v) b -> existsb (fun x => str_eqb (fst x) k) a = false.
Proof.
  induction a as [|[k0 v0] a IH]; cbn [app nodup_keys]; intros H k v Hin; [reflexivity|].
  apply andb_prop in H. destruct H as [H1 H2]. cbn [existsb fst]. rewrite (IH H2 k v Hin).
  destruct (str_eqb k0 k) eqn:E; [|reflexivity]. apply str_eqb_eq in E. subst.
  rewrite existsb_app in H1. apply negb_true_iff in H1. apply orb_false_iff in H1. destruct H1 as [_ H1].
  rewrite <- H1. symmetry. apply existsb_exists. exists (k, v). split; [exact Hin|]. apply str_eqb_refl.
Qed.
Lemma parse_attrs_ser attrs : forall f acc e r,
  forallb (fun a => name_ok (fst a) && text_ok (snd a)) attrs = true ->
  nodup_keys (rev acc ++ attrs) = true -> (List.length attrs < f)%nat ->
  parse_attrs f acc (flat_map ser_attr attrs ++ (if e : bool then 47 :: 62 :: r else 62 :: r)) = Ok (rev acc ++ attrs, e, r).
Proof.
  induction attrs as [|[n v] attrs IH]; intros f acc e r Ha Hd Hf.
  - destruct f; [cbn in Hf; lia|]. rewrite parse_attrs_step, app_nil_r. destruct e; reflexivity.
  - destruct f as [|f]; [cbn in Hf; lia|]. cbn [flat_map]. rewrite <- app_assoc.
    cbn [forallb fst snd] in Ha. apply andb_prop in Ha. destruct Ha as [Hn Ha]. apply andb_prop in Hn. destruct Hn as [Hn Hv].
    cbn [List.length] in Hf.
    rewrite parse_attrs_one; [|exact Hn|exact Hv|].
    + rewrite IH; [|exact Ha| |lia]; cbn [rev]; rewrite <- app_assoc; [reflexivity|exact Hd].
    + rewrite <- existsb_rev. apply (nodup_app _ _ Hd n v). left; reflexivity.
Qed.

Fixpoint need (t : xml) : nat :=
  let 'X _ _ _ kids := t in S (S (fold_right (fun k a => S (need k + a)) 0%nat kids)).
Lemma ser_len t : name_ok (xtag t) = true -> (2 <= List.length (ser t))%nat.
Proof. destruct t as [tag at' tx ks]. cbn [xtag ser]. intros H. destruct (name_ok_inv _ H) as (c & s & -> & _). cbn [app List.length]. lia. Qed.
Lemma need_len t : xml_ok t = true -> (need t < List.length (ser t))%nat.
Proof.
  induction t as [tag attrs text kids IH] using xml_ind'. cbn [xml_ok need]. intros H.
  apply andb_prop in H. destruct H as [H Hk]. do 3 (apply andb_prop in H; destruct H as [H ?]).
  destruct (name_ok_inv _ H) as (c & s & E & _).
  assert (L : (1 <= List.length tag)%nat) by (rewrite E; cbn; lia).
  assert (K : (fold_right (fun k a => S (need k + a)) 0 kids <= List.length (flat_map ser kids))%nat).
  { clear - IH Hk. induction kids as [|k kids IHk]; cbn [fold_right flat_map forallb] in *; [lia|].
    apply andb_prop in Hk. destruct Hk as [Hk Hks]. inversion IH; subst. rewrite app_length.
    specialize (IHk H2 Hks). specialize (H1 Hk). lia. }
  cbn [ser List.length]. rewrite !app_length.
  destruct text as [tx|]; [|destruct kids as [|k kids]].
  2: { cbn [fold_right List.length]. lia. }
  all: cbn [List.length]; rewrite !app_length; cbn [List.length]; rewrite ?app_length; cbn [List.length]; lia.
Qed.

Lemma keep_norm s blank kids : keep_text s blank (map norm kids) = keep_text s blank kids.
Proof. destruct s, kids; reflexivity. Qed.

Lemma pelem_step f s : pelem (S f) s =
      let* (tag, r) := parse_name s in
      let* (attrs, empty, r1) := parse_attrs (S (List.length r)) [] r in
      if empty then Ok (X tag attrs None [], r1)
      else
        let* (t, blank, r2) := parse_text (S (List.length r1)) r1 in
        let* (kids, r3) := pkids f r2 in
        let* (tag', r4) := parse_name r3 in
        match skip_space r4 with
        | 62 :: r5 => if str_eqb tag tag' then Ok (X tag attrs (keep_text t blank kids) kids, r5) else Err Ex_XMLSyntax
        | _ => Err Ex_XMLSyntax
        end.
Proof. reflexivity. Qed.

Lemma ser_cons t : exists s, ser t = 60 :: s.
Proof. destruct t. cbn [ser]. eauto. Qed.

Lemma pkids_step f r : pkids (S f) (60 :: r) =
  match r with
  | 47 :: r' => Ok ([], r')
  | _ => let* (k, r1) := pelem f r in
          let* (_, blank, r2) := parse_text (S (List.length r1)) r1 in
          if blank then let* (ks, r3) := pkids f r2 in Ok (k :: ks, r3)
          else Err Ex_XMLSyntax
  end.
Proof. destruct r as [|c r]; [reflexivity|]. destruct c as [|c]; [reflexivity|]. do 6 (destruct c as [c|c|]; try reflexivity). Qed.
Lemma name_not_slash (A : Type) tag s (a : str -> A) b : name_ok tag = true ->
  match tag ++ s with 47 :: r' => a r' | _ => b end = b.
Proof.
  intros H. destruct (name_ok_inv _ H) as (c & t & -> & Hc & _). cbn [app]. unfold name_start in Hc.
  destruct c as [|c]; [reflexivity|]. do 6 (destruct c as [c|c|]; try reflexivity). cbn in Hc. discriminate.
Qed.

Definition elem_rt (t : xml) : Prop := xml_ok t = true -> forall f r, (need t <= f)%nat ->
  pelem f (tl (ser t) ++ r) = Ok (norm t, r).

Lemma attrs_len attrs : (List.length attrs <= List.length (flat_map ser_attr attrs))%nat.
Proof.
  induction attrs as [|a l IH]; cbn [flat_map List.length]; [lia|]. rewrite app_length. unfold ser_attr at 1. cbn [List.length]. lia.
Qed.

Lemma pkids_ser kids : Forall elem_rt kids -> forallb xml_ok kids = true ->
  forall f r, (S (fold_right (fun k a => S (need k + a)) 0 kids) <= f)%nat ->
  pkids f (flat_map ser kids ++ 60 :: 47 :: r) = Ok (map norm kids, r).
Proof.
  induction kids as [|k kids IH]; intros HF Hok f r Hf.
  - destruct f; [lia|]. reflexivity.
  - destruct f as [|f]; [lia|]. cbn [flat_map fold_right forallb] in *.
    apply andb_prop in Hok. destruct Hok as [Hk Hks]. inversion HF as [|? ? HFk HFks]; subst.
    rewrite <- app_assoc. specialize (HFk Hk f (flat_map ser kids ++ 60 :: 47 :: r) ltac:(lia)).
    destruct k as [tag attrs text kk] eqn:Ek. rewrite <- Ek in *.
    assert (Htag : name_ok tag = true).
    { rewrite Ek in Hk. cbn [xml_ok] in Hk. apply andb_prop in Hk. destruct Hk as [Hk _]. do 3 (apply andb_prop in Hk; destruct Hk as [Hk _]). exact Hk. }
    assert (Hs : exists u, ser k = 60 :: tag ++ u) by (rewrite Ek; cbn [ser]; eauto).
    destruct Hs as [u Hu]. rewrite Hu in *. cbn [tl] in HFk. cbn [app].
    rewrite pkids_step. rewrite <- (app_assoc tag u) in *. rewrite name_not_slash by exact Htag. rewrite HFk. cbn [bind].
    assert (Hn : exists q, flat_map ser kids ++ 60 :: 47 :: r = 60 :: q).
    { destruct kids as [|k2 kids]; cbn [flat_map app]; [eauto|]. destruct (ser_cons k2) as [q ->]. cbn [app]. eauto. }
    destruct Hn as [q Hq]. specialize (IH HFks Hks f r ltac:(lia)). rewrite Hq in *.
    cbn [parse_text]. cbn [N.eqb Pos.eqb bind]. rewrite IH. reflexivity.
Qed.

Lemma xml_roundtrip_elem t : elem_rt t.
Proof.
  induction t as [tag attrs text kids IH] using xml_ind'. intros Hok f r Hf.
  destruct f as [|f]; [cbn in Hf; lia|]. rewrite pelem_step.
  cbn [xml_ok] in Hok. apply andb_prop in Hok. destruct Hok as [Hok Hkids].
  apply andb_prop in Hok. destruct Hok as [Hok Htext]. apply andb_prop in Hok. destruct Hok as [Hok Hdup].
  apply andb_prop in Hok. destruct Hok as [Htag Hattrs].
  cbn [need] in Hf.
  cbn [ser tl norm]. rewrite <- !app_assoc.
  set (tail := match text with Some _ => _ | None => _ end).
  assert (Htl : tail = 47 :: 62 :: [] /\ text = None /\ kids = [] \/
    tail = 62 :: esc_text (opt_text text) ++ flat_map ser kids ++ [60; 47] ++ tag ++ [62] /\ ~(text = None /\ kids = [])).
  { unfold tail. destruct text, kids; auto; right; split; auto; intros [? ?]; discriminate. }
  clearbody tail.
  assert (Hnm : match flat_map ser_attr attrs ++ tail ++ r with c :: _ => name_char c = false | [] => True end).
  { destruct attrs as [|a l]; [|reflexivity]. cbn [flat_map app]. destruct Htl as [(-> & _)|(-> & _)]; reflexivity. }
  rewrite (parse_name_app tag _ Htag Hnm). cbn [bind].
  destruct Htl as [(-> & -> & ->)|(-> & Hne)].
  - pose proof (parse_attrs_ser attrs (S (List.length (flat_map ser_attr attrs ++ [47; 62] ++ r))) [] true r Hattrs Hdup) as E.
    cbn [app] in *. rewrite E; [reflexivity|]. rewrite app_length. pose proof (attrs_len attrs). lia.
  - set (body := esc_text (opt_text text) ++ flat_map ser kids ++ [60; 47] ++ tag ++ [62]).
    pose proof (parse_attrs_ser attrs (S (List.length (flat_map ser_attr attrs ++ (62 :: body) ++ r))) [] false (body ++ r) Hattrs Hdup) as E.
    cbn [app] in *. rewrite E; [|rewrite app_length; pose proof (attrs_len attrs); lia]. cbn [bind]. cbn iota.
    assert (Hb : body ++ r = esc_text (opt_text text) ++ flat_map ser kids ++ 60 :: 47 :: tag ++ 62 :: r).
    { unfold body. cbn [app]. rewrite <- !app_assoc. cbn [app]. rewrite <- !app_assoc. reflexivity. }
    rewrite Hb.
    assert (Hn : exists q, flat_map ser kids ++ 60 :: 47 :: tag ++ 62 :: r = 60 :: q).
    { destruct kids as [|k2 kids]; cbn [flat_map app]; [eauto|]. destruct (ser_cons k2) as [q ->]. cbn [app]. eauto. }
    destruct Hn as [q Hq]. rewrite Hq.
    rewrite (parse_text_esc (opt_text text)); [|exact Htext|rewrite app_length; pose proof (esc_text_len (opt_text text)); lia].
    cbn [bind]. rewrite <- Hq.
    rewrite (pkids_ser kids IH Hkids f (tag ++ 62 :: r)) by lia. cbn [bind].
    rewrite (parse_name_app tag (62 :: r) Htag eq_refl). cbn [bind].
    change (skip_space (62 :: r)) with (62 :: r). cbn iota. rewrite str_eqb_refl. rewrite keep_norm.
    destruct text as [s|]; cbn [opt_text norm_text] in *; [reflexivity|].
    destruct kids; [exfalso; auto|reflexivity].
Qed.

(** ASCII output *)
Lemma name_ascii s : forallb name_char s = true -> forallb (fun c => c <? 128) s = true.
Proof. apply forallb_impl. intros c. unfold name_char, name_start. lia. Qed.
Lemma digits_ascii s : forallb is_digit s = true -> forallb (fun c => c <? 128) s = true.
Proof. apply forallb_impl. intros c. unfold is_digit. lia. Qed.
Lemma flat_map_ascii {A} (g : A -> str) l : (forall a, In a l -> forallb (fun c => c <? 128) (g a) = true) ->
  forallb (fun c => c <? 128) (flat_map g l) = true.
Proof.
  induction l as [|a l IH]; cbn [flat_map]; intros H; [reflexivity|]. rewrite forallb_app, H by (left; reflexivity).
  rewrite IH; [reflexivity|]. intros b Hb. apply H. right; exact Hb.
Qed.
Lemma char_ref_ascii c : forallb (fun c => c <? 128) (char_ref c) = true.
Proof.
  unfold char_ref. rewrite !forallb_app. rewrite (digits_ascii _ (str_of_N_digits c)). reflexivity.
Qed.
Lemma esc_text_ascii s : forallb (fun c => c <? 128) (esc_text s) = true.
Proof.
  apply flat_map_ascii. intros c _. unfold esc_text_c.
  repeat match goal with |- context [if ?b then _ else _] => destruct b eqn:?; try reflexivity end;
    [apply char_ref_ascii|]. cbn [forallb]. lia.
Qed.
Lemma esc_attr_ascii s : forallb (fun c => c <? 128) (esc_attr s) = true.
Proof.
  apply flat_map_ascii. intros c _. unfold esc_attr_c.
  repeat match goal with |- context [if ?b then _ else _] => destruct b eqn:?; try reflexivity end;
    [apply char_ref_ascii|]. cbn [forallb]. lia.
Qed.
Lemma ser_ascii t : xml_ok t = true -> forallb (fun c => c <? 128) (ser t) = true.
Proof.
  induction t as [tag attrs text kids IH] using xml_ind'. cbn [xml_ok]. intros Hok.
  apply andb_prop in Hok. destruct Hok as [Hok Hkids].
  apply andb_prop in Hok. destruct Hok as [Hok Htext]. apply andb_prop in Hok. destruct Hok as [Hok Hdup].
  apply andb_prop in Hok. destruct Hok as [Htag Hattrs].
  destruct (name_ok_inv _ Htag) as (_ & _ & _ & _ & Hn). apply name_ascii in Hn.
  assert (K : forallb (fun c => c <? 128) (flat_map ser kids) = true).
  { apply flat_map_ascii. intros k Hk. rewrite Forall_forall in IH. apply (IH k Hk). rewrite forallb_forall in Hkids. auto. }
  assert (A : forallb (fun c => c <? 128) (flat_map ser_attr attrs) = true).
  { apply flat_map_ascii. intros [n v] Ha. rewrite forallb_forall in Hattrs. specialize (Hattrs _ Ha). cbn [fst snd] in Hattrs.
    apply andb_prop in Hattrs. destruct Hattrs as [H1 _]. destruct (name_ok_inv _ H1) as (_ & _ & _ & _ & Hn1).
    unfold ser_attr. cbn [fst snd forallb]. rewrite !forallb_app, (name_ascii _ Hn1), esc_attr_ascii. reflexivity. }
  cbn [ser forallb]. rewrite !forallb_app, Hn, A. cbn [andb].
  change (60 <? 128) with true. cbn [andb].
  destruct text, kids; cbn [forallb]; rewrite ?forallb_app; cbn [forallb]; rewrite ?forallb_app, ?esc_text_ascii, ?Hn; try reflexivity.
  - rewrite K. reflexivity.
  - rewrite K. reflexivity.
Qed.
Lemma utf8_decode_ascii s : forallb (fun c => c <? 128) s = true -> utf8_decode s = Ok s.
Proof.
  intros H.
  assert (E : utf8_encode s = Ok s).
  { induction s as [|c s IH]; [reflexivity|]. cbn [forallb] in H. apply andb_prop in H. destruct H as [Hc H].
    specialize (IH H). cbn [utf8_encode]. rewrite IH.
    replace (is_scalar c) with true by (unfold is_scalar; lia). cbn [bind]. unfold utf8_char.
    replace (c <? 128) with true by lia. reflexivity. }
  apply utf8_roundtrip in E. exact E.
Qed.

Theorem xml_codec t : xml_ok t = true -> xml_parse_doc (xml_tostring t) = Ok (norm t).
Proof.
  intros H. unfold xml_parse_doc, xml_tostring. rewrite utf8_decode_ascii by (apply ser_ascii; exact H). cbn [bind].
  destruct t as [tag attrs text kids] eqn:Et. rewrite <- Et in *.
  assert (Htag : name_ok tag = true).
  { rewrite Et in H. cbn [xml_ok] in H. apply andb_prop in H. destruct H as [H _]. do 3 (apply andb_prop in H; destruct H as [H _]). exact H. }
  assert (Hs : exists u, ser t = 60 :: tag ++ u) by (rewrite Et; cbn [ser]; eauto).
  destruct Hs as [u Hu].
  assert (Hd : starts_with ($"<?xml ") (ser t) = false).
  { rewrite Hu. destruct (name_ok_inv _ Htag) as (c & s & -> & Hc & _). unfold name_start in Hc.
    change ($"<?xml ") with ([60; 63; 120; 109; 108; 32] : str). cbn [app starts_with].
    replace (63 =? c) with false by lia. reflexivity. }
  rewrite Hd.
  assert (Hsk : skip_space (ser t) = ser t) by (rewrite Hu; reflexivity).
  rewrite Hsk. pose proof (need_len t H) as L. rewrite Hu in L |- *. cbn [List.length] in L.
  pose proof (xml_roundtrip_elem t H (List.length (tag ++ u)) [] ltac:(lia)) as R.
  rewrite Hu in R. cbn [tl] in R. rewrite app_nil_r in R. rewrite R. reflexivity.
Qed.
Lemma norm_text_idem t kids : norm_text (norm_text t kids) kids = norm_text t kids.
Proof.
  destruct t as [s|]; [|reflexivity]. cbn [norm_text]. destruct s, kids; cbn [keep_text]; try reflexivity.
  destruct (forallb blank_char (n :: s)) eqn:E; [reflexivity|]. cbn [norm_text keep_text]. rewrite E. reflexivity.
Qed.
Lemma norm_idem t : norm (norm t) = norm t.
Proof.
  induction t as [tag attrs text kids IH] using xml_ind'. cbn [norm]. f_equal.
  - replace (norm_text (norm_text text kids) (map norm kids)) with (norm_text (norm_text text kids) kids); [apply norm_text_idem|].
    destruct (norm_text text kids) as [s|]; [|reflexivity]. cbn [norm_text]. symmetry. apply keep_norm.
  - rewrite map_map. apply map_ext_in. rewrite Forall_forall in IH. auto.
Qed.
Lemma xml_ok_norm t : xml_ok t = true -> xml_ok (norm t) = true.
Proof.
  induction t as [tag attrs text kids IH] using xml_ind'. cbn [xml_ok norm]. intros Hok.
  apply andb_prop in Hok. destruct Hok as [Hok Hkids].
  apply andb_prop in Hok. destruct Hok as [Hok Htext].
  rewrite Hok. cbn [andb]. apply andb_true_intro. split.
  - destruct text as [s|]; [|reflexivity]. cbn [norm_text opt_text] in *. unfold keep_text.
    destruct s; [reflexivity|]. destruct kids; [exact Htext|]. destruct (forallb blank_char _); [reflexivity|exact Htext].
  - rewrite forallb_forall in *. intros k Hk. apply in_map_iff in Hk. destruct Hk as (k' & <- & Hk').
    rewrite Forall_forall in IH. apply IH; auto.
Qed.

(** *** Limits *)
Lemma norm_depth t : xml_depth (norm t) = xml_depth t.
Proof. induction t as [tag attrs text kids IH] using xml_ind'. cbn [norm xml_depth]. do 2 f_equal. rewrite map_map. induction IH as [|k l Hk Hl IHl]; [reflexivity|]. cbn [map]. now rewrite Hk, IHl. Qed.
Lemma norm_fits t : texts_fit t = true -> texts_fit (norm t) = true.
Proof.
  induction t as [tag attrs text kids IH] using xml_ind'. cbn [norm texts_fit]. intros M. apply andb_prop in M as [M M3]. apply andb_prop in M as [M1 M2]. rewrite M1. cbn [andb]. apply andb_true_intro. split.
  - destruct text as [s|]; [|exact M2]. cbn [norm_text]. unfold keep_text. destruct s; [reflexivity|]. destruct kids; [exact M2|]. destruct (forallb blank_char _); [reflexivity|exact M2].
  - rewrite forallb_forall in *. rewrite Forall_forall in IH. intros x Hx. apply in_map_iff in Hx as (k & <- & Hk). auto.
Qed.
Lemma lxml_codec t : xml_ok t = true -> lxml_parse (xml_tostring t) = (if lxml_reads (norm t) then Ok (norm t) else Err Ex_XMLSyntax) /\ (lxml_reads t = true -> lxml_parse (xml_tostring t) = Ok (norm t)).
Proof.
  intros H. unfold lxml_parse. rewrite (xml_codec t H). cbn [bind]. split; [reflexivity|]. unfold lxml_reads. rewrite norm_depth. intros M. apply andb_prop in M as [M1 M2]. now rewrite M1, (norm_fits t M2).
Qed.
