(** Settings of the database: only the last assignment counts, and assigning again changes nothing. *)
From Verif Require Import Base PyStr Xml Tree XPath Uuid Time Db Save FindSpec XPath_facts XPath_eval Find_facts Api ApiSpec StructSpec CredSpec Heap Prim Api_xpath Api_fields Api_sub Api_claims Struct Struct_bin Bin_xpath Cred Integrity_ops IntegritySpec Lib Kdbx Object ObjectSpec FailSpec Scratch AgainSpec Again LastSpec Last.

Definition told (b : bool) (o : op) : res str := match o with Op_meta _ v => Ok (py_str_opt v) | Op_days _ n => Ok (str_of_Z n) | Op_changed t => encode_time b t | _ => Err Ex_Type end.
Lemma sets_known T o : sets T o -> In T meta_tags.
Proof. destruct o; cbn [sets]; try contradiction; [intros [_ [<-|[<-|[<-|[]]]]]|intros ->; destruct w|intros ->]; cbn; tauto. Qed.
Lemma sets_run R Zl C T o d t : sets T o -> meta_elem R T d = (Ok (Some t), d) -> IntegritySpec.run R Zl C o d = match told (v4 d) o with Ok s => lx_set_text (eid t) (Some s) d | Err x => (Err x, d) end.
Proof.
  intros S E. destruct o; cbn [sets] in S; try contradiction; cbn [IntegritySpec.run told].
  - destruct S as [<- _]. unfold set_meta. now rewrite (mbind_ok _ _ _ _ _ E).
  - subst T. unfold set_due_days. destruct w; unfold set_credchange_days; cbn [due_tag] in E; now rewrite (mbind_ok _ _ _ _ _ E).
  - subst T. unfold set_credchange_date. rewrite (mbind_ok _ _ _ _ _ E). unfold encode_t, lift, mbind. destruct (encode_time (v4 d) t0); reflexivity.
Qed.
Lemma sets_retext R Zl C T o d d1 i l : wf d -> setting d T (i :: l) -> sets T o -> IntegritySpec.run R Zl C o d = (Ok tt, d1) ->
  exists t s, has d t /\ eid t = i /\ told (v4 d) o = Ok s /\ text_ok s = true /\ retext d d1 t (Some s) /\ setting d1 T (i :: l).
Proof.
  intros W S A E. destruct (setting_run R d T (i :: l) W S (sets_known T o A)) as (t & Ht & <- & M). rewrite (sets_run R Zl C T o d t A M) in E. destruct (told (v4 d) o) as [s|x] eqn:Et; [|discriminate].
  assert (L : text_ok s = true) by (destruct (text_ok s) eqn:Es; [reflexivity|rewrite (set_text_illegal d _ s Es) in E; discriminate]).
  destruct (set_text_retext d t (Some s) W Ht L) as (d1' & E' & Hr). rewrite E in E'. injection E' as <-. exists t, s. do 5 (split; [auto|]).
  destruct Hr as (W1 & _ & _ & R1 & H1 & L1). apply (setting_retext d d1 (eid t) t (Some s)); auto. assert (Ei : eid (set_text (Some s) t) = eid t) by now destruct t. rewrite <- Ei. rewrite (look_self _ _ (wf_unique _ W1) H1). now destruct t.
Qed.
Lemma sets_again R Zl C T o d t i l s : wf d -> setting d T (i :: l) -> has d t -> eid t = i -> sets T o -> told (v4 d) o = Ok s -> text_ok s = true -> exists d1, IntegritySpec.run R Zl C o d = (Ok tt, d1) /\ retext d d1 t (Some s).
Proof.
  intros W S Ht Ei A Et L. destruct (setting_run R d T (i :: l) W S (sets_known T o A)) as (t' & Ht' & Ei' & M). assert (t' = t) as -> by (apply (unique_inj (d_forest d)); [apply W|exact Ht'|exact Ht|congruence]). rewrite (sets_run R Zl C T o d t A M), Et. now apply set_text_retext.
Qed.
Theorem setting_last R Zl C C' C'' T o o' d d1 d2 i l : wf d -> setting d T (i :: l) -> sets T o -> sets T o' -> IntegritySpec.run R Zl C o d = (Ok tt, d1) -> IntegritySpec.run R Zl C' o' d1 = (Ok tt, d2) ->
  exists d3, IntegritySpec.run R Zl C'' o' d = (Ok tt, d3) /\ untouched d3 d2.
Proof.
  intros W S A A' E F. destruct (sets_retext R Zl C T o d d1 i l W S A E) as (t & s & Ht & Ei & _ & _ & Hr & S1). pose proof Hr as (W1 & _ & _ & _ & H1 & _).
  destruct (sets_retext R Zl C' T o' d1 d2 i l W1 S1 A' F) as (t1 & z & Ht1 & Ei1 & Ez & Lz & Hr2 & _). assert (Eu : eid (set_text (Some s) t) = eid t) by now destruct t.
  assert (t1 = set_text (Some s) t) as -> by (apply (unique_inj (d_forest d1)); [apply W1|exact Ht1|exact H1|congruence]). rewrite (retext_v4 _ _ _ _ Hr) in Ez.
  destruct (sets_again R Zl C'' T o' d t i l z W S Ht Ei A' Ez Lz) as (d3 & E3 & Hr3). exists d3. split; [exact E3|]. exact (retext_last d d1 d2 d3 t _ _ W Ht Hr Hr2 Hr3).
Qed.
Theorem setting_again R Zl C C' T o d d1 i l : wf d -> setting d T (i :: l) -> sets T o -> IntegritySpec.run R Zl C o d = (Ok tt, d1) -> exists d2, IntegritySpec.run R Zl C' o d1 = (Ok tt, d2) /\ untouched d1 d2.
Proof.
  intros W S A E. destruct (sets_retext R Zl C T o d d1 i l W S A E) as (t & s & Ht & Ei & Et & L & Hr & S1). pose proof Hr as (W1 & _ & _ & _ & H1 & _). assert (Eu : eid (set_text (Some s) t) = eid t) by now destruct t.
  destruct (sets_again R Zl C' T o d1 (set_text (Some s) t) i l s W1 S1 H1) as (d2 & E2 & Hr2); [congruence|exact A|now rewrite (retext_v4 _ _ _ _ Hr)|exact L|]. exists d2. split; [exact E2|]. exact (retext_again d d1 d2 t _ W Ht Hr Hr2).
Qed.
