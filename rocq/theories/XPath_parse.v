(** Lexing and parsing of the queries built from the templates of xpath.py. *)
From Verif Require Import Base PyStr Xml Tree XPath Db.

(** Search values: no double quote. *)
Definition quotefree (s : str) : Prop := ~ In 34 s.

Lemma lex_lit v : quotefree v -> forall r out, fold_left lex_step v (L_dq r, out) = (L_dq (rev v ++ r), out).
Proof.
  induction v as [|c v IH]; intros Hv r out; [reflexivity|]. cbn [fold_left lex_step]. destruct (N.eqb_spec c 34) as [->|Hc]; [now destruct Hv; left|].
  rewrite IH by (intros H; apply Hv; right; exact H). cbn [rev]. rewrite <- app_assoc. reflexivity.
Qed.
Lemma lex_quoted v out : quotefree v -> fold_left lex_step ([34] ++ v ++ [34]) (L0, out) = (L0, T_lit v :: out).
Proof. intros Hv. rewrite !fold_left_app. cbn [fold_left lex_step]. change (lex_start 34 out) with (L_dq [], out). rewrite lex_lit by exact Hv. cbn. now rewrite app_nil_r, rev_involutive. Qed.

(** [lexes s ts]: from the initial state the characters [s] produce the tokens [ts]. *)
Definition lexes (s : str) (ts : list tok) : Prop := forall out, fold_left lex_step s (L0, out) = (L0, rev ts ++ out).
Lemma lexes_nil : lexes [] []. Proof. intros out. reflexivity. Qed.
Lemma lexes_app a b ta tb : lexes a ta -> lexes b tb -> lexes (a ++ b) (ta ++ tb).
Proof. intros Ha Hb out. rewrite fold_left_app, Ha, Hb, rev_app_distr, app_assoc. reflexivity. Qed.
Lemma lexes_quoted v : quotefree v -> lexes ([34] ++ v ++ [34]) [T_lit v].
Proof. intros Hv out. now apply lex_quoted. Qed.
Lemma lexes_lex s ts : lexes s ts -> lex s = ts.
Proof. intros H. unfold lex. rewrite H, app_nil_r. cbn. apply rev_involutive. Qed.
(** A pending name is closed by whatever is not a name character. *)
Definition no_name_head (s : str) : Prop := match s with [] => True | c :: _ => xname_char c = false end.
Lemma lex_after_name s r out : no_name_head s -> lex_finish (fold_left lex_step s (L_name r, out)) = lex_finish (fold_left lex_step s (L0, T_name (rev r) :: out)).
Proof. destruct s as [|c s]; [reflexivity|]. cbn [no_name_head fold_left lex_step]. intros ->. reflexivity. Qed.
Lemma flat_lexes {A} (f : A -> str) (g : A -> list tok) l : (forall x, In x l -> lexes (f x) (g x)) -> lexes (flat_map f l) (flat_map g l).
Proof. intros H. induction l as [|x l IH]; [apply lexes_nil|]. cbn. apply lexes_app; [apply H; left; reflexivity|apply IH; intros; apply H; right; assumption]. Qed.

(** What follows a step. *)
Definition p_tail (f : nat) (ts : list tok) : res (list step * list tok) :=
  match ts with
  | T_slash :: ts' => p_rel f ts'
  | T_dslash :: ts' => let* (l, ts'') := p_rel f ts' in Ok (dos :: l, ts'')
  | _ => Ok ([], ts)
  end.
Lemma p_rel_eq f ts : p_rel (S f) ts = let* (s, ts) := p_step f ts in let* (l, ts) := p_tail f ts in Ok (s :: l, ts).
Proof.
  cbn [p_rel]. destruct (p_step f ts) as [[s ts']|e]; [|reflexivity]. cbn [bind]. destruct ts' as [|t ts']; [reflexivity|]. destruct t; cbn [p_tail bind]; try reflexivity; destruct (p_rel f ts') as [[l r]|e]; reflexivity.
Qed.
Definition up : step := Step A_parent NT_node [].
Definition kid (T : str) (ps : list expr) : step := Step A_child (NT_name T) ps.
Definition p_text : expr := E_path false [Step A_child NT_text []].
Definition text_is (v : str) : expr := E_cmp C_eq p_text (E_lit v).
Definition text_re (v fl : str) : expr := E_call $"re:test" [p_text; E_lit v; E_lit fl].
Definition ref_is (v : str) : expr := E_cmp C_eq (E_path false [Step A_attr (NT_name $"Ref") []]) (E_lit v).
Definition tail_ok (ts : list tok) : Prop := match ts with [] | T_slash :: _ => True | _ => False end.

(** A block of steps: tokens that parse to [ss] wherever they stand in a path. *)
Definition block (ts : list tok) (ss : list step) : Prop :=
  (tail_ok ts /\ (List.length ss <= List.length ts)%nat) /\
  forall F rest, (20 + List.length ts <= F)%nat -> tail_ok rest -> p_tail (List.length ss + F) (ts ++ rest) = let* (l, r) := p_tail F rest in Ok (ss ++ l, r).
Lemma block_nil : block [] [].
Proof. split; [split; [exact I|apply le_n]|]. intros F rest _ _. cbn [List.length Nat.add app]. destruct (p_tail F rest) as [[l r]|e]; reflexivity. Qed.
Lemma block_app a b sa sb : block a sa -> block b sb -> block (a ++ b) (sa ++ sb).
Proof.
  intros [[Ha La] Pa] [[Hb Lb] Pb]. split; [split; [destruct a; [exact Hb|exact Ha]|rewrite !app_length; lia]|]. intros F rest HF Hr. rewrite app_length in HF. rewrite <- app_assoc, app_length.
  replace (List.length sa + List.length sb + F)%nat with (List.length sa + (List.length sb + F))%nat by lia.
  rewrite Pa; [|lia|destruct b; [exact Hr|exact Hb]]. rewrite Pb by (try assumption; lia).
  destruct (p_tail F rest) as [[l r]|e]; [|reflexivity]. cbn [bind]. now rewrite <- app_assoc.
Qed.
Lemma flat_block {A} (f : A -> list tok) (g : A -> list step) l : (forall x, In x l -> block (f x) (g x)) -> block (flat_map f l) (flat_map g l).
Proof. intros H. induction l as [|x l IH]; [apply block_nil|]. cbn. apply block_app; [apply H; left; reflexivity|apply IH; intros; apply H; right; assumption]. Qed.
Lemma block_step ts s : (forall F rest, (20 + List.length ts <= F)%nat -> tail_ok rest -> p_step F (ts ++ rest) = Ok (s, rest)) -> block (T_slash :: ts) [s].
Proof.
  intros H. split; [split; [exact I|cbn; lia]|]. intros F rest HF Hr. cbn [app p_tail]. change (List.length [s] + F)%nat with (S F). cbn [List.length] in HF. rewrite p_rel_eq, H by (try exact Hr; lia). cbn [bind].
  destruct (p_tail F rest) as [[l r]|e]; reflexivity.
Qed.
Ltac step_tac := apply block_step; intros F rest HF Hr; replace F with (20 + (F - 20))%nat by lia; destruct rest as [|[] rest]; try (exfalso; exact Hr); reflexivity.
Lemma block_up : block [T_slash; T_ddot] [up]. Proof. step_tac. Qed.
Lemma block_kid T : block [T_slash; T_name T] [kid T []]. Proof. step_tac. Qed.
Definition t_text_is (v : str) : list tok := [T_lb; T_name $"text"; T_lp; T_rp; T_eq; T_lit v; T_rb].
Lemma block_text T v : block (T_slash :: T_name T :: t_text_is v) [kid T [text_is v]]. Proof. step_tac. Qed.
Definition t_re (a : list tok) (v fl : str) : list tok := [T_lb; T_name $"re"; T_colon; T_name $"test"; T_lp] ++ a ++ [T_comma; T_lit v; T_comma; T_lit fl; T_rp; T_rb].
Lemma block_re T v fl : block (T_slash :: T_name T :: t_re [T_name $"text"; T_lp; T_rp] v fl) [kid T [text_re v fl]]. Proof. step_tac. Qed.
Definition ref_re (v fl : str) : expr := E_call $"re:test" [E_path false [Step A_attr (NT_name $"Ref") []]; E_lit v; E_lit fl].
Lemma block_ref T v : block (T_slash :: T_name T :: [T_lb; T_at; T_name $"Ref"; T_eq; T_lit v; T_rb]) [kid T [ref_is v]]. Proof. step_tac. Qed.
Lemma block_ref_re T v fl : block (T_slash :: T_name T :: t_re [T_at; T_name $"Ref"] v fl) [kid T [ref_re v fl]]. Proof. step_tac. Qed.
Lemma block_cons a ts s ss : block a [s] -> block ts ss -> block (a ++ ts) (s :: ss).
Proof. intros H1 H2. exact (block_app a ts [s] ss H1 H2). Qed.

(** *** Whole queries *)
Lemma p_top f ts e : p_prim f ts = Ok (e, []) -> p_or (4 + f) ts = Ok (e, []).
Proof.
  intros H. assert (E1 : p_union (S f) ts = Ok (e, [])) by (change (p_union (S f) ts) with (let* (a, ts) := p_prim f ts in match ts with T_bar :: ts' => let* (b, ts') := p_union f ts' in Ok (E_union a b, ts') | _ => Ok (a, ts) end); rewrite H; reflexivity).
  assert (E2 : p_cmp (S (S f)) ts = Ok (e, [])) by (change (p_cmp (S (S f)) ts) with (let* (a, ts) := p_union (S f) ts in match ts with t :: ts' => match cmp_tok t with Some o => let* (b, ts') := p_union (S f) ts' in Ok (E_cmp o a b, ts') | None => Ok (a, ts) end | [] => Ok (a, ts) end); rewrite E1; reflexivity).
  assert (E3 : p_and (S (S (S f))) ts = Ok (e, [])) by (change (p_and (S (S (S f))) ts) with (let* (a, ts) := p_cmp (S (S f)) ts in match ts with T_name o :: ts' => if str_eqb o $"and" then let* (b, ts') := p_and (S (S f)) ts' in Ok (E_and a b, ts') else Ok (a, ts) | _ => Ok (a, ts) end); rewrite E2; reflexivity).
  change (p_or (4 + f) ts) with (let* (a, ts) := p_and (S (S (S f))) ts in match ts with T_name o :: ts' => if str_eqb o $"or" then let* (b, ts') := p_or (S (S (S f))) ts' in Ok (E_or a b, ts') else Ok (a, ts) | _ => Ok (a, ts) end). rewrite E3. reflexivity.
Qed.
Lemma p_prim_slash f ts : p_prim (S f) (T_slash :: ts) = let* (l, r) := p_rel f ts in Ok (E_path true l, r). Proof. reflexivity. Qed.
Lemma p_prim_dslash f ts : p_prim (S f) (T_dslash :: ts) = let* (l, r) := p_rel f ts in Ok (E_path true (dos :: l), r). Proof. reflexivity. Qed.
Lemma p_prim_dot f ts : p_prim (S f) (T_dot :: ts) = let* (l, r) := p_rel f (T_dot :: ts) in Ok (E_path false l, r). Proof. reflexivity. Qed.
Lemma p_prim_name f T ts : p_prim (S f) (T_name T :: T_slash :: ts) = let* (l, r) := p_rel f (T_name T :: T_slash :: ts) in Ok (E_path false l, r). Proof. reflexivity. Qed.
Lemma p_step_dot f ts : p_step (S f) (T_dot :: ts) = Ok (Step A_self NT_node [], ts). Proof. reflexivity. Qed.
Lemma p_tail_block ts ss f : block ts ss -> (20 + 2 * List.length ts <= f)%nat -> p_tail f ts = Ok (ss, []).
Proof.
  intros [[Ht Hl] H] Hf. specialize (H (f - List.length ss)%nat [] ltac:(lia) I). rewrite app_nil_r in H. cbn [p_tail bind] in H. rewrite app_nil_r in H.
  replace (List.length ss + (f - List.length ss))%nat with f in H by lia. exact H.
Qed.
Definition nohist : expr := E_call $"not" [E_path false [Step A_anc (NT_name $"History") []]].
Definition t_nohist : list tok := [T_lb; T_name $"not"; T_lp; T_name $"ancestor"; T_dcolon; T_name $"History"; T_rp; T_rb].
Definition hist_ps (history : bool) : list expr := if history then [] else [nohist].
Definition t_hist (history : bool) : list tok := if history then [] else t_nohist.
Lemma p_head T history f rest : tail_ok rest -> p_step (20 + f) (T_name T :: t_hist history ++ rest) = Ok (kid T (hist_ps history), rest).
Proof. intros Hr. destruct rest as [|[] rest]; try (exfalso; exact Hr); destruct history; reflexivity. Qed.
Lemma p_rel_head T history f blk ss : block blk ss -> (21 + 2 * List.length blk <= f)%nat -> p_rel f (T_name T :: t_hist history ++ blk) = Ok (kid T (hist_ps history) :: ss, []).
Proof.
  intros Hb Hf. destruct f as [|f]; [lia|]. rewrite p_rel_eq. replace f with (20 + (f - 20))%nat at 1 by lia. rewrite p_head by apply Hb. cbn [bind]. rewrite (p_tail_block blk ss) by (try assumption; lia). reflexivity.
Qed.
Lemma parse_from ts e : p_prim (26 + 10 * List.length ts) ts = Ok (e, []) -> forall s, lex s = ts -> parse_xpath s = Ok e.
Proof. intros H s Hs. unfold parse_xpath. rewrite Hs. unfold fuel_for. change (30 + 10 * List.length ts)%nat with (4 + (26 + 10 * List.length ts))%nat. rewrite (p_top _ _ e H). reflexivity. Qed.
(** '//T[..]...' *)
Lemma parse_desc s T history blk ss : lex s = T_dslash :: T_name T :: t_hist history ++ blk -> block blk ss -> parse_xpath s = Ok (E_path true (dos :: kid T (hist_ps history) :: ss)).
Proof.
  intros Hs Hb. apply (parse_from (T_dslash :: T_name T :: t_hist history ++ blk)); [|exact Hs]. match goal with |- context [(26 + ?n)%nat] => change (26 + n)%nat with (S (25 + n)) end. rewrite p_prim_dslash.
  rewrite (p_rel_head T history _ blk ss Hb); [reflexivity|]. cbn [List.length]. rewrite app_length. lia.
Qed.
(** '/T[..]...' *)
Lemma parse_child s T history blk ss : lex s = T_slash :: T_name T :: t_hist history ++ blk -> block blk ss -> parse_xpath s = Ok (E_path true (kid T (hist_ps history) :: ss)).
Proof.
  intros Hs Hb. apply (parse_from (T_slash :: T_name T :: t_hist history ++ blk)); [|exact Hs]. match goal with |- context [(26 + ?n)%nat] => change (26 + n)%nat with (S (25 + n)) end. rewrite p_prim_slash.
  rewrite (p_rel_head T history _ blk ss Hb); [reflexivity|]. cbn [List.length]. rewrite app_length. lia.
Qed.
Definition self : step := Step A_self NT_node [].
(** './/T[..]...' and './T[..]...' *)
Lemma parse_below s T history blk ss : lex s = T_dot :: T_dslash :: T_name T :: t_hist history ++ blk -> block blk ss -> parse_xpath s = Ok (E_path false (self :: dos :: kid T (hist_ps history) :: ss)).
Proof.
  intros Hs Hb. apply (parse_from (T_dot :: T_dslash :: T_name T :: t_hist history ++ blk)); [|exact Hs]. match goal with |- context [(26 + ?n)%nat] => change (26 + n)%nat with (S (S (S (23 + n)))) end. rewrite p_prim_dot, p_rel_eq, p_step_dot. cbn [bind p_tail].
  rewrite (p_rel_head T history _ blk ss Hb); [reflexivity|]. cbn [List.length]. rewrite app_length. lia.
Qed.
Lemma parse_kid s T history blk ss : lex s = T_dot :: T_slash :: T_name T :: t_hist history ++ blk -> block blk ss -> parse_xpath s = Ok (E_path false (self :: kid T (hist_ps history) :: ss)).
Proof.
  intros Hs Hb. apply (parse_from (T_dot :: T_slash :: T_name T :: t_hist history ++ blk)); [|exact Hs]. match goal with |- context [(26 + ?n)%nat] => change (26 + n)%nat with (S (S (S (23 + n)))) end. rewrite p_prim_dot, p_rel_eq, p_step_dot. cbn [bind p_tail].
  rewrite (p_rel_head T history _ blk ss Hb); [reflexivity|]. cbn [List.length]. rewrite app_length. lia.
Qed.
(** 'T/...' *)
Lemma parse_rel s T blk ss : T <> $"text" -> T <> $"node" -> lex s = T_name T :: blk -> block blk ss -> blk <> [] -> parse_xpath s = Ok (E_path false (kid T [] :: ss)).
Proof.
  intros H1 H2 Hs Hb Hne. apply (parse_from (T_name T :: blk)); [|exact Hs]. destruct Hb as [[Ht Hl] Hp]. destruct blk as [|[] blk]; try contradiction.
  match goal with |- context [(26 + ?n)%nat] => change (26 + n)%nat with (S (25 + n)) end. rewrite p_prim_name. change (T_name T :: T_slash :: blk) with (T_name T :: t_hist true ++ (T_slash :: blk)).
  rewrite (p_rel_head T true _ (T_slash :: blk) ss); [reflexivity|split; [split; assumption|assumption]|]. cbn [List.length app t_hist]. lia.
Qed.

(** *** The conjunction built for tags *)
Definition has_text (v : str) : expr := E_call $"contains" [p_text; E_lit v].
Definition t_has (v : str) : list tok := [T_name $"contains"; T_lp; T_name $"text"; T_lp; T_rp; T_comma; T_lit v; T_rp].
Fixpoint all_text (v : str) (vs : list str) : expr := match vs with [] => has_text v | v' :: vs' => E_and (has_text v) (all_text v' vs') end.
Fixpoint t_all (v : str) (vs : list str) : list tok := match vs with [] => t_has v | v' :: vs' => t_has v ++ T_name $"and" :: t_all v' vs' end.
Lemma p_and_eq f ts : p_and (S f) ts = let* (a, ts) := p_cmp f ts in
      match ts with
      | T_name o :: ts' => if str_eqb o $"and" then let* (b, ts') := p_and f ts' in Ok (E_and a b, ts') else Ok (a, ts)
      | _ => Ok (a, ts)
      end.
Proof. reflexivity. Qed.
Lemma p_or_eq f ts : p_or (S f) ts = let* (a, ts) := p_and f ts in
      match ts with
      | T_name o :: ts' => if str_eqb o $"or" then let* (b, ts') := p_or f ts' in Ok (E_or a b, ts') else Ok (a, ts)
      | _ => Ok (a, ts)
      end.
Proof. reflexivity. Qed.
Lemma p_cmp_has f v t rest : t = T_rb \/ t = T_name $"and" -> p_cmp (15 + f) (t_has v ++ t :: rest) = Ok (has_text v, t :: rest).
Proof. intros [-> | ->]; reflexivity. Qed.
Lemma p_and_all vs : forall v F rest, (16 + List.length vs <= F)%nat -> p_and F (t_all v vs ++ T_rb :: rest) = Ok (all_text v vs, T_rb :: rest).
Proof.
  induction vs as [|v' vs IH]; intros v F rest HF; (destruct F as [|F]; [cbn [List.length] in HF; lia|]); cbn [List.length] in HF; rewrite p_and_eq; cbn [t_all]; replace F with (15 + (F - 15))%nat by lia.
  - rewrite p_cmp_has by auto. reflexivity.
  - rewrite <- app_assoc. cbn [app]. rewrite p_cmp_has by auto. cbn [bind]. change (str_eqb $"and" $"and") with true. cbv iota. rewrite IH by lia. reflexivity.
Qed.
Lemma t_all_length v vs : (8 + 9 * List.length vs = List.length (t_all v vs))%nat.
Proof. revert v. induction vs as [|v' vs IH]; intros v; [reflexivity|]. cbn [t_all List.length]. rewrite app_length. cbn [List.length]. rewrite <- IH. cbn. lia. Qed.
Lemma p_step_tags F v vs rest : (20 + List.length vs <= F)%nat -> tail_ok rest -> p_step F (T_name $"Tags" :: T_lb :: t_all v vs ++ T_rb :: rest) = Ok (kid $"Tags" [all_text v vs], rest).
Proof.
  intros HF Hr. destruct F as [|[|[|F]]]; try lia.
  change (p_step (S (S (S F))) (T_name $"Tags" :: T_lb :: t_all v vs ++ T_rb :: rest)) with
    (let* (ps, ts3) := (let* (e, ts1) := p_or (S F) (t_all v vs ++ T_rb :: rest) in let* ts2 := close T_rb ts1 in let* (ps, ts3) := p_preds (S F) ts2 in Ok (e :: ps, ts3)) in Ok (Step A_child (NT_name $"Tags") ps, ts3)).
  rewrite p_or_eq, p_and_all by lia. cbn [bind close]. destruct rest as [|[] rest]; try (exfalso; exact Hr); reflexivity.
Qed.
Lemma block_tags v vs : block (T_slash :: T_name $"Tags" :: T_lb :: t_all v vs ++ [T_rb]) [kid $"Tags" [all_text v vs]].
Proof.
  apply block_step. intros F rest HF Hr. cbn [app]. rewrite <- app_assoc. cbn [app]. apply p_step_tags; [|exact Hr].
  cbn [List.length] in HF. rewrite app_length, <- t_all_length in HF. lia.
Qed.
Definition tag_text (t : str) : str := $"contains(text(),""" ++ t ++ $""")".
Lemma lexes_has v : quotefree v -> lexes (tag_text v) (t_has v).
Proof.
  intros Hv. unfold tag_text. change $"contains(text(),""" with ($"contains(text()," ++ [34]). change $""")" with ([34] ++ $")").
  rewrite <- app_assoc. rewrite (app_assoc v). rewrite app_assoc with (l := [34]). change (t_has v) with ([T_name $"contains"; T_lp; T_name $"text"; T_lp; T_rp; T_comma] ++ [T_lit v] ++ [T_rp]).
  apply lexes_app; [intros out; reflexivity|]. apply lexes_app; [apply lexes_quoted, Hv|intros out; reflexivity].
Qed.
Lemma lexes_all vs : forall v, quotefree v -> Forall quotefree vs -> lexes (py_join $" and " (map tag_text (v :: vs))) (t_all v vs).
Proof.
  induction vs as [|v' vs IH]; intros v Hv Hvs; [apply lexes_has, Hv|]. inversion Hvs; subst.
  change (py_join $" and " (map tag_text (v :: v' :: vs))) with (tag_text v ++ $" and " ++ py_join $" and " (map tag_text (v' :: vs))). cbn [t_all].
  apply lexes_app; [apply lexes_has, Hv|]. change (T_name $"and" :: t_all v' vs) with ([T_name $"and"] ++ t_all v' vs). apply lexes_app; [intros out; reflexivity|]. apply IH; assumption.
Qed.
