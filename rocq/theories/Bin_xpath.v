(** The query of delete_binary for attachments with a greater reference (pykeepass.py:865-868). *)
From Verif Require Import Base PyStr Xml Tree XPath Db XPath_parse XPath_facts XPath_eval FindSpec Find_facts Find_path ApiSpec Heap Api Prim Api_xpath.

(** *** Numbers *)
Lemma num_digits_dec s : forall acc seen, forallb is_digit s = true -> (seen = true \/ s <> []) -> num_digits (Z.of_N acc) 1 seen false s = option_map (fun v => (Z.of_N v, 1%Z)) (dec_val acc s).
Proof.
  induction s as [|c s IH]; intros acc seen Hd Hs; [destruct Hs as [->|Hs]; [reflexivity|congruence]|]. cbn [forallb] in Hd. apply andb_true_iff in Hd as [Hc Hd].
  cbn [num_digits dec_val]. rewrite Hc. replace (Z.of_N acc * 10 + Z.of_N (c - 48))%Z with (Z.of_N (acc * 10 + (c - 48))) by lia. apply IH; auto.
Qed.
Lemma to_num_digits s : forallb is_digit s = true -> to_num s = num_digits 0 1 false false s.
Proof.
  intros Hd. unfold to_num. rewrite py_strip_id by (eapply forallb_impl; [|exact Hd]; intros a; unfold is_digit, xml_space; lia).
  destruct s as [|c s]; [reflexivity|]. cbn [forallb] in Hd. apply andb_true_iff in Hd as [Hc _]. unfold is_digit in Hc. destruct c as [|p]; [reflexivity|]. do 7 (try destruct p as [p|p|]; try reflexivity); cbn in Hc; discriminate.
Qed.
Lemma to_num_N n : to_num (str_of_N n) = Some (Z.of_N n, 1%Z).
Proof.
  pose proof (str_of_N_digits n) as Hd. rewrite to_num_digits by exact Hd. change 0%Z with (Z.of_N 0). rewrite num_digits_dec; [|exact Hd|right; apply str_of_N_nonempty]. now rewrite str_of_N_val.
Qed.
Lemma to_num_Z z : (0 <= z)%Z -> to_num (str_of_Z z) = Some (z, 1%Z).
Proof. intros H. unfold str_of_Z. destruct z as [|p|p]; [apply (to_num_N 0)|rewrite to_num_N; f_equal|lia]. Qed.
Lemma digits_plain s : forallb is_digit s = true -> plain s.
Proof.
  intros H. rewrite forallb_forall in H. split.
  - intros Hc. specialize (H _ Hc). discriminate.
  - unfold text_ok. apply forallb_forall. intros c Hc. specialize (H c Hc). unfold is_digit in H. unfold xml_char. lia.
Qed.
Lemma number_plain z : (0 <= z)%Z -> plain (str_of_Z z).
Proof. intros H. unfold str_of_Z. destruct z; [apply digits_plain, str_of_N_digits|apply digits_plain, str_of_N_digits|lia]. Qed.

(** *** The query *)
Definition ref_gt (v : str) : expr := E_cmp C_gt (E_path false [Step A_attr (NT_name $"Ref") []]) (E_lit v).
Definition gt_test (v : str) (t : elem) : bool := existsb (fun a : str * str => str_eqb (fst a) $"Ref" && num_cmp C_gt (to_num (snd a)) (to_num v)) (eattrs t).
Lemma block_ref_gt T v : block (T_slash :: T_name T :: [T_lb; T_at; T_name $"Ref"; T_gt; T_lit v; T_rb]) [kid T [ref_gt v]]. Proof. step_tac. Qed.
Lemma pred_gt R w v : wok w -> pred_is R w (ref_gt v) (fun n => gt_test v (nd_el n)).
Proof.
  intros Hw n i z Hn. eexists. split; [unfold ref_gt; apply eval_cmp; [apply eval_ref; [exact Hw|exact Hn]|reflexivity]|]. cbn [holds truth]. unfold gt_test. cbn [value_cmp]. clear. induction (eattrs (nd_el n)) as [|a q IH]; [reflexivity|].
  cbn [filter existsb]. rewrite <- IH. destruct (str_eqb (fst a) _); reflexivity.
Qed.
Definition gt_query (v : str) : str := $"//Binary/Value[@Ref > """ ++ v ++ $"""]/..".
Definition gt_crit (v : str) : crit := CK $"Value" [ref_gt v] (gt_test v) [].
Lemma gt_parse v : plain v -> forallb xml_char (gt_query v) = true /\ parse_xpath (gt_query v) = Ok (E_path true (dos :: kid $"Binary" [] :: flat_map crit_steps [gt_crit v])).
Proof.
  intros [Hq Hx]. unfold text_ok in Hx. split; [unfold gt_query; now rewrite !forallb_app, Hx|].
  apply (parse_desc _ $"Binary" true ((T_slash :: T_name $"Value" :: [T_lb; T_at; T_name $"Ref"; T_gt; T_lit v; T_rb]) ++ [T_slash; T_ddot])).
  - apply lexes_lex. unfold gt_query. change $"//Binary/Value[@Ref > """ with ($"//Binary/Value[@Ref > " ++ [34]). change $"""]/.." with ([34] ++ $"]/.."). rewrite <- app_assoc.
    change (T_dslash :: T_name $"Binary" :: t_hist true ++ (T_slash :: T_name $"Value" :: [T_lb; T_at; T_name $"Ref"; T_gt; T_lit v; T_rb]) ++ [T_slash; T_ddot])
      with ([T_dslash; T_name $"Binary"; T_slash; T_name $"Value"; T_lb; T_at; T_name $"Ref"; T_gt] ++ T_lit v :: [T_rb; T_slash; T_ddot]).
    apply lexes_cut; [lex_done|exact Hq|lex_done].
  - cbn [flat_map crit_steps gt_crit app]. apply (block_cons (T_slash :: T_name $"Value" :: [T_lb; T_at; T_name $"Ref"; T_gt; T_lit v; T_rb]) [T_slash; T_ddot]); [apply block_ref_gt|apply block_up].
Qed.
Lemma gt_search R d r F v : wf d -> d_forest d = r :: F -> plain v ->
  xpath R d None (gt_query v) = Ok (filter (fun n => tagged $"Binary" n && crits_hold [gt_crit v] (nd_el n)) (pre [] r)).
Proof.
  intros (_ & Hu & _) EF Hv. destruct (gt_parse v Hv) as [Hx Hp]. apply unique_fpre in Hu. pose proof (wok_of (d_forest d) true r Hu) as Hw. rewrite EF in Hw. specialize (Hw (or_introl eq_refl)).
  unfold xpath, xpath_raw. rewrite Hx, Hp. cbn [bind]. unfold context. rewrite EF. rewrite (search_all R (World true r) Hw $"Binary" [] (fun _ => true) [gt_crit v]); [|reflexivity|apply preds_nil|].
  - cbn [bind]. rewrite mapM_as. f_equal. apply filter_ext_in'. intros n _. now rewrite andb_true_r.
  - constructor; [|constructor]. apply crit_ok_eq. split; [apply preds_one, pred_gt, Hw|constructor].
Qed.
