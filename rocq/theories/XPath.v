(** XPath 1.0 as evaluated by lxml/libxml2 for PyKeePass.xpath (pykeepass.py:325-375): the query *string* is lexed,
    parsed and evaluated, so that the templates of xpath.py are used as they are.
    Simplifications: the fragment with location paths (child, parent, self, attribute, ancestor, descendant-or-self),
    predicates, comparisons, and/or, union, literals, numbers and the functions listed in [call]; anything else is
    reported as an XPath error.  Numbers are exact decimals instead of floating point. *)
From Verif Require Import Base PyStr Xml Tree.

(** *** Lexer: a state machine over the characters. *)
Inductive tok :=
| T_slash | T_dslash | T_dot | T_ddot | T_lb | T_rb | T_lp | T_rp | T_at | T_comma | T_colon | T_dcolon | T_star | T_bar
| T_eq | T_ne | T_lt | T_le | T_gt | T_ge | T_bad
| T_name (s : str) | T_num (s : str) | T_lit (s : str).
Inductive lst := L0 | L_name (r : str) | L_num (r : str) | L_dq (r : str) | L_sq (r : str) | L_one (c : N).
(** Simplification: libxml2's tables of name characters outside ASCII are not modelled; any such character may be in a name. *)
Definition xname_start (c : N) : bool := name_start c || (128 <=? c).
Definition xname_char (c : N) : bool := name_char c || (128 <=? c).
Definition single (c : N) : tok :=
  if c =? 47 then T_slash else if c =? 46 then T_dot else if c =? 58 then T_colon else if c =? 60 then T_lt else if c =? 62 then T_gt else T_bad.
Definition lex_start (c : N) (out : list tok) : lst * list tok :=
  if xml_space c then (L0, out)
  else if c =? 34 then (L_dq [], out) else if c =? 39 then (L_sq [], out)
  else if xname_start c then (L_name [c], out) else if is_digit c then (L_num [c], out)
  else if (c =? 47) || (c =? 46) || (c =? 58) || (c =? 33) || (c =? 60) || (c =? 62) then (L_one c, out)
  else (L0, (if c =? 91 then T_lb else if c =? 93 then T_rb else if c =? 40 then T_lp else if c =? 41 then T_rp
             else if c =? 64 then T_at else if c =? 44 then T_comma else if c =? 61 then T_eq
             else if c =? 42 then T_star else if c =? 124 then T_bar else T_bad) :: out).
Definition lex_step (s : lst * list tok) (c : N) : lst * list tok :=
  let '(st, out) := s in
  match st with
  | L0 => lex_start c out
  | L_name r => if xname_char c then (L_name (c :: r), out) else lex_start c (T_name (rev r) :: out)
  | L_num r => if is_digit c || (c =? 46) then (L_num (c :: r), out) else lex_start c (T_num (rev r) :: out)
  | L_dq r => if c =? 34 then (L0, T_lit (rev r) :: out) else (L_dq (c :: r), out)
  | L_sq r => if c =? 39 then (L0, T_lit (rev r) :: out) else (L_sq (c :: r), out)
  | L_one d =>
      if (d =? 47) && (c =? 47) then (L0, T_dslash :: out)
      else if (d =? 46) && (c =? 46) then (L0, T_ddot :: out)
      else if (d =? 58) && (c =? 58) then (L0, T_dcolon :: out)
      else if (d =? 33) && (c =? 61) then (L0, T_ne :: out)
      else if (d =? 60) && (c =? 61) then (L0, T_le :: out)
      else if (d =? 62) && (c =? 61) then (L0, T_ge :: out)
      else lex_start c (single d :: out)
  end.
Definition lex_finish (s : lst * list tok) : list tok :=
  let '(st, out) := s in
  rev match st with
      | L0 => out
      | L_name r => T_name (rev r) :: out
      | L_num r => T_num (rev r) :: out
      | L_dq _ | L_sq _ => T_bad :: out
      | L_one d => single d :: out
      end.
Definition lex (s : str) : list tok := lex_finish (fold_left lex_step s (L0, [])).

(** *** Syntax *)
Inductive axis := A_child | A_parent | A_self | A_attr | A_anc | A_dos.
Inductive ntest := NT_name (s : str) | NT_text | NT_node | NT_any.
Inductive cmp := C_eq | C_ne | C_lt | C_le | C_gt | C_ge.
Inductive expr :=
| E_path (abs : bool) (steps : list step)
| E_filter (e : expr) (preds : list expr)
| E_lit (s : str)
| E_num (s : str)
| E_cmp (o : cmp) (a b : expr)
| E_and (a b : expr)
| E_or (a b : expr)
| E_union (a b : expr)
| E_call (f : str) (args : list expr)
with step := Step (a : axis) (t : ntest) (preds : list expr).

Definition dos : step := Step A_dos NT_node [].
Definition axis_named (s : str) : option axis :=
  if str_eqb s $"child" then Some A_child else if str_eqb s $"parent" then Some A_parent
  else if str_eqb s $"self" then Some A_self else if str_eqb s $"attribute" then Some A_attr
  else if str_eqb s $"ancestor" then Some A_anc else if str_eqb s $"descendant-or-self" then Some A_dos else None.
Definition p_ntest (ts : list tok) : res (ntest * list tok) :=
  match ts with
  | T_star :: ts' => Ok (NT_any, ts')
  | T_name n :: T_lp :: T_rp :: ts' =>
      if str_eqb n $"text" then Ok (NT_text, ts') else if str_eqb n $"node" then Ok (NT_node, ts') else Err Ex_XPath
  | T_name n :: ts' => Ok (NT_name n, ts')
  | _ => Err Ex_XPath
  end.
Definition cmp_tok (t : tok) : option cmp :=
  match t with T_eq => Some C_eq | T_ne => Some C_ne | T_lt => Some C_lt | T_le => Some C_le | T_gt => Some C_gt | T_ge => Some C_ge | _ => None end.
Definition close (t : tok) (ts : list tok) : res (list tok) :=
  match t, ts with
  | T_rb, T_rb :: ts' => Ok ts'
  | T_rp, T_rp :: ts' => Ok ts'
  | _, _ => Err Ex_XPath
  end.
(** Recursive descent; the fuel is more than any token list of that length needs. *)
Fixpoint p_or (f : nat) (ts : list tok) : res (expr * list tok) :=
  match f with
  | O => Err Ex_XPath
  | S f =>
      let* (a, ts) := p_and f ts in
      match ts with
      | T_name o :: ts' => if str_eqb o $"or" then let* (b, ts') := p_or f ts' in Ok (E_or a b, ts') else Ok (a, ts)
      | _ => Ok (a, ts)
      end
  end
with p_and (f : nat) (ts : list tok) : res (expr * list tok) :=
  match f with
  | O => Err Ex_XPath
  | S f =>
      let* (a, ts) := p_cmp f ts in
      match ts with
      | T_name o :: ts' => if str_eqb o $"and" then let* (b, ts') := p_and f ts' in Ok (E_and a b, ts') else Ok (a, ts)
      | _ => Ok (a, ts)
      end
  end
with p_cmp (f : nat) (ts : list tok) : res (expr * list tok) :=
  match f with
  | O => Err Ex_XPath
  | S f =>
      let* (a, ts) := p_union f ts in
      match ts with
      | t :: ts' => match cmp_tok t with Some o => let* (b, ts') := p_union f ts' in Ok (E_cmp o a b, ts') | None => Ok (a, ts) end
      | [] => Ok (a, ts)
      end
  end
with p_union (f : nat) (ts : list tok) : res (expr * list tok) :=
  match f with
  | O => Err Ex_XPath
  | S f =>
      let* (a, ts) := p_prim f ts in
      match ts with
      | T_bar :: ts' => let* (b, ts') := p_union f ts' in Ok (E_union a b, ts')
      | _ => Ok (a, ts)
      end
  end
with p_prim (f : nat) (ts : list tok) : res (expr * list tok) :=
  match f with
  | O => Err Ex_XPath
  | S f =>
      match ts with
      | T_lit s :: ts' => Ok (E_lit s, ts')
      | T_num s :: ts' => Ok (E_num s, ts')
      | T_lp :: ts' =>
          let* (e, ts1) := p_or f ts' in
          let* ts2 := close T_rp ts1 in
          let* (ps, ts3) := p_preds f ts2 in
          Ok (E_filter e ps, ts3)
      | T_name p :: T_colon :: T_name n :: T_lp :: ts' => let* (args, ts'') := p_args f ts' in Ok (E_call (p ++ [58] ++ n) args, ts'')
      | T_name n :: T_lp :: ts' =>
          if str_eqb n $"text" || str_eqb n $"node" then let* (l, ts'') := p_rel f ts in Ok (E_path false l, ts'')
          else let* (args, ts'') := p_args f ts' in Ok (E_call n args, ts'')
      | T_slash :: ts' => let* (l, ts'') := p_rel f ts' in Ok (E_path true l, ts'')
      | T_dslash :: ts' => let* (l, ts'') := p_rel f ts' in Ok (E_path true (dos :: l), ts'')
      | _ => let* (l, ts'') := p_rel f ts in Ok (E_path false l, ts'')
      end
  end
with p_rel (f : nat) (ts : list tok) : res (list step * list tok) :=
  match f with
  | O => Err Ex_XPath
  | S f =>
      let* (s, ts) := p_step f ts in
      match ts with
      | T_slash :: ts' => let* (l, ts'') := p_rel f ts' in Ok (s :: l, ts'')
      | T_dslash :: ts' => let* (l, ts'') := p_rel f ts' in Ok (s :: dos :: l, ts'')
      | _ => Ok ([s], ts)
      end
  end
with p_step (f : nat) (ts : list tok) : res (step * list tok) :=
  match f with
  | O => Err Ex_XPath
  | S f =>
      match ts with
      | T_dot :: ts' => Ok (Step A_self NT_node [], ts')
      | T_ddot :: ts' => Ok (Step A_parent NT_node [], ts')
      | T_at :: ts' => let* (t, ts'') := p_ntest ts' in let* (ps, ts3) := p_preds f ts'' in Ok (Step A_attr t ps, ts3)
      | T_name a :: T_dcolon :: ts' =>
          match axis_named a with
          | Some ax => let* (t, ts'') := p_ntest ts' in let* (ps, ts3) := p_preds f ts'' in Ok (Step ax t ps, ts3)
          | None => Err Ex_XPath
          end
      | _ => let* (t, ts'') := p_ntest ts in let* (ps, ts3) := p_preds f ts'' in Ok (Step A_child t ps, ts3)
      end
  end
with p_preds (f : nat) (ts : list tok) : res (list expr * list tok) :=
  match f with
  | O => Err Ex_XPath
  | S f =>
      match ts with
      | T_lb :: ts' =>
          let* (e, ts1) := p_or f ts' in
          let* ts2 := close T_rb ts1 in
          let* (ps, ts3) := p_preds f ts2 in
          Ok (e :: ps, ts3)
      | _ => Ok ([], ts)
      end
  end
with p_args (f : nat) (ts : list tok) : res (list expr * list tok) :=
  match f with
  | O => Err Ex_XPath
  | S f =>
      match ts with
      | T_rp :: ts' => Ok ([], ts')
      | _ =>
          let* (e, ts1) := p_or f ts in
          match ts1 with
          | T_comma :: ts' => let* (l, ts2) := p_args f ts' in Ok (e :: l, ts2)
          | _ => let* ts2 := close T_rp ts1 in Ok ([e], ts2)
          end
      end
  end.
Definition fuel_for (ts : list tok) : nat := 30 + 10 * List.length ts.
Definition parse_xpath (s : str) : res expr :=
  let ts := lex s in
  let* (e, r) := p_or (fuel_for ts) ts in
  match r with [] => Ok e | _ => Err Ex_XPath end.

(** *** Data model *)
Inductive xnode := XDoc | XEl (n : node) | XText (n : node) (s : str) | XAttr (n : node) (k v : str).
Inductive value := V_set (l : list xnode) | V_str (s : str) | V_num (q : option (Z * Z)) | V_bool (b : bool).

(** The tree searched: with or without a document node on top. *)
Record world := World { w_doc : bool; w_root : elem }.
Definition w_nodes (w : world) : list node := pre [] (w_root w).
Definition items (n : node) : list xnode :=
  XEl n :: map (fun a => XAttr n (fst a) (snd a)) (eattrs (nd_el n)) ++ match etext (nd_el n) with Some s => [XText n s] | None => [] end.
(** All nodes in document order. *)
Definition w_list (w : world) : list xnode := (if w_doc w then [XDoc] else []) ++ flat_map items (w_nodes w).
Definition xeq (a b : xnode) : bool :=
  match a, b with
  | XDoc, XDoc => true
  | XEl m, XEl n => (nid m =? nid n)%nat
  | XText m _, XText n _ => (nid m =? nid n)%nat
  | XAttr m k _, XAttr n j _ => (nid m =? nid n)%nat && str_eqb k j
  | _, _ => false
  end.
(** A node set, in document order and without repetition: the nodes of the tree that are in [l] (in_order_eq below).  Long lists are
    looked up in a tree over the numbers of their nodes. *)
Inductive table := T_leaf | T_node (l : table) (v : list xnode) (r : table).
Fixpoint t_get (t : table) (p : positive) : list xnode :=
  match t, p with T_leaf, _ => [] | T_node _ v _, xH => v | T_node l _ _, xO p => t_get l p | T_node _ _ r, xI p => t_get r p end.
Fixpoint t_add (t : table) (p : positive) (x : xnode) : table :=
  match t, p with
  | T_leaf, xH => T_node T_leaf [x] T_leaf | T_leaf, xO p => T_node (t_add T_leaf p x) [] T_leaf | T_leaf, xI p => T_node T_leaf [] (t_add T_leaf p x)
  | T_node l v r, xH => T_node l (x :: v) r | T_node l v r, xO p => T_node (t_add l p x) v r | T_node l v r, xI p => T_node l v (t_add r p x)
  end.
Definition x_key (x : xnode) : positive := match x with XDoc => xH | XEl n | XText n _ | XAttr n _ _ => Pos.of_succ_nat (nid n) end.
Definition t_of (l : list xnode) : table := fold_right (fun x t => t_add t (x_key x) x) T_leaf l.
Definition in_order (w : world) (l : list xnode) : list xnode :=
  if (List.length l <=? 8)%nat then filter (fun x => existsb (xeq x) l) (w_list w)
  else let t := t_of l in filter (fun x => existsb (xeq x) (t_get t (x_key x))) (w_list w).
Lemma t_get_add t : forall p q x, t_get (t_add t p x) q = if Pos.eqb p q then x :: t_get t q else t_get t q.
Proof.
  induction t as [|l IHl v r IHr].
  - induction p as [p IH|p IH|]; intros [q|q|] x; cbn [t_add t_get Pos.eqb]; try reflexivity; try apply IH; destruct q; reflexivity.
  - intros [p|p|] [q|q|] x; cbn [t_add t_get Pos.eqb]; try reflexivity; [apply IHr|apply IHl].
Qed.
Lemma xeq_key a b : xeq a b = true -> x_key a = x_key b.
Proof. destruct a, b; cbn; try discriminate; try reflexivity; try (intros H; apply Nat.eqb_eq in H; now rewrite H). intros H. apply andb_prop in H as [H _]. apply Nat.eqb_eq in H. now rewrite H. Qed.
Lemma t_of_get x l : existsb (xeq x) (t_get (t_of l) (x_key x)) = existsb (xeq x) l.
Proof.
  induction l as [|y l IH]; [cbn [t_of fold_right t_get]; now destruct (x_key x)|]. cbn [t_of fold_right existsb]. fold (t_of l). rewrite t_get_add. destruct (Pos.eqb (x_key y) (x_key x)) eqn:E.
  - cbn [existsb]. now rewrite IH.
  - rewrite IH. destruct (xeq x y) eqn:Ex; [|reflexivity]. apply xeq_key in Ex. rewrite Ex, Pos.eqb_refl in E. discriminate.
Qed.
Lemma in_order_eq w l : in_order w l = filter (fun x => existsb (xeq x) l) (w_list w).
Proof. unfold in_order. destruct (_ <=? _)%nat; [reflexivity|]. apply filter_ext. intros x. apply t_of_get. Qed.

Definition kid_nodes (n : node) : list node := map (fun k => Nd k (nd_el n :: nd_up n)) (ekids (nd_el n)).
Fixpoint up_nodes (up : list elem) : list node := match up with [] => [] | p :: up' => Nd p up' :: up_nodes up' end.
Definition text_nodes (n : node) : list xnode := match etext (nd_el n) with Some s => [XText n s] | None => [] end.
(** The nodes on an axis, in axis order. *)
Definition axis_nodes (w : world) (a : axis) (x : xnode) : list xnode :=
  match a, x with
  | A_child, XDoc => [XEl (Nd (w_root w) [])]
  | A_child, XEl n => text_nodes n ++ map XEl (kid_nodes n)
  | A_child, _ => []
  | A_parent, XDoc => []
  | A_parent, XEl n => match nd_up n with p :: up => [XEl (Nd p up)] | [] => if w_doc w then [XDoc] else [] end
  | A_parent, (XText n _ | XAttr n _ _) => [XEl n]
  | A_self, x => [x]
  | A_attr, XEl n => map (fun a => XAttr n (fst a) (snd a)) (eattrs (nd_el n))
  | A_attr, _ => []
  | A_anc, XDoc => []
  | A_anc, XEl n => map XEl (up_nodes (nd_up n)) ++ (if w_doc w then [XDoc] else [])
  | A_anc, (XText n _ | XAttr n _ _) => XEl n :: map XEl (up_nodes (nd_up n)) ++ (if w_doc w then [XDoc] else [])
  | A_dos, XDoc => XDoc :: map XEl (w_nodes w)
  | A_dos, XEl n => map XEl (pre (nd_up n) (nd_el n))
  | A_dos, x => [x]
  end.
Definition test_ok (a : axis) (t : ntest) (x : xnode) : bool :=
  match t, x with
  | NT_node, _ => true
  | NT_text, XText _ _ => true
  | NT_any, XEl _ => match a with A_attr => false | _ => true end
  | NT_any, XAttr _ _ _ => match a with A_attr => true | _ => false end
  | NT_name s, XEl n => str_eqb (etag (nd_el n)) s
  | NT_name s, XAttr _ k _ => match a with A_attr => str_eqb k s | _ => false end
  | _, _ => false
  end.
Fixpoint str_value (t : elem) : str :=
  let 'El _ _ _ x k := t in match x with Some s => s | None => [] end ++ flat_map str_value k.
Definition xstr (w : world) (x : xnode) : str :=
  match x with XDoc => str_value (w_root w) | XEl n => str_value (nd_el n) | XText _ s => s | XAttr _ _ v => v end.

(** number(string): optional white space, '-', digits with an optional fraction; NaN (None) otherwise. *)
Fixpoint num_digits (acc den : Z) (seen dot : bool) (s : str) : option (Z * Z) :=
  match s with
  | [] => if seen then Some (acc, den) else None
  | c :: s' =>
      if is_digit c then num_digits (acc * 10 + Z.of_N (c - 48)) (if dot then den * 10 else den)%Z true dot s'
      else if (c =? 46) && negb dot then num_digits acc den seen true s' else None
  end.
Definition to_num (s : str) : option (Z * Z) :=
  match py_strip xml_space s with
  | 45 :: s' => option_map (fun q => (- fst q, snd q)%Z) (num_digits 0 1 false false s')
  | s' => num_digits 0 1 false false s'
  end.
Definition num_cmp (o : cmp) (a b : option (Z * Z)) : bool :=
  match a, b with
  | Some (n, d), Some (m, e) =>
      let x := (n * e)%Z in let y := (m * d)%Z in
      match o with C_eq => (x =? y)%Z | C_ne => negb (x =? y)%Z | C_lt => (x <? y)%Z | C_le => (x <=? y)%Z | C_gt => (y <? x)%Z | C_ge => (y <=? x)%Z end
  | _, _ => match o with C_ne => true | _ => false end
  end.
Definition num_of_str_value (v : value) (w : world) : option (Z * Z) :=
  match v with
  | V_set l => to_num match l with x :: _ => xstr w x | [] => [] end
  | V_str s => to_num s
  | V_num q => q
  | V_bool b => Some ((if b then 1 else 0)%Z, 1%Z)
  end.
Definition truth (v : value) : bool :=
  match v with
  | V_set l => match l with [] => false | _ => true end
  | V_str s => match s with [] => false | _ => true end
  | V_num q => match q with Some (n, _) => negb (n =? 0)%Z | None => false end
  | V_bool b => b
  end.
(** Comparison of two values neither of which is a node set. *)
Definition atom_cmp (w : world) (o : cmp) (a b : value) : bool :=
  match o with
  | C_eq | C_ne =>
      let same := match a, b with
                  | V_bool x, _ => Bool.eqb x (truth b)
                  | _, V_bool y => Bool.eqb (truth a) y
                  | V_num _, _ | _, V_num _ => num_cmp C_eq (num_of_str_value a w) (num_of_str_value b w)
                  | V_str s, V_str t => str_eqb s t
                  | _, _ => false
                  end in
      match o with C_eq => same | _ => negb same end
  | _ => num_cmp o (num_of_str_value a w) (num_of_str_value b w)
  end.
(** XPath 1.0, section 3.4. *)
Definition value_cmp (w : world) (o : cmp) (a b : value) : bool :=
  match a, b with
  | V_set l, V_bool _ => atom_cmp w o (V_bool (truth a)) b
  | V_bool _, V_set l => atom_cmp w o a (V_bool (truth b))
  | V_set l, V_set m => existsb (fun x => existsb (fun y => atom_cmp w o (V_str (xstr w x)) (V_str (xstr w y))) m) l
  | V_set l, _ => existsb (fun x => atom_cmp w o (V_str (xstr w x)) b) l
  | _, V_set m => existsb (fun y => atom_cmp w o a (V_str (xstr w y))) m
  | _, _ => atom_cmp w o a b
  end.
Definition to_str (w : world) (v : value) : str :=
  match v with
  | V_set l => match l with x :: _ => xstr w x | [] => [] end
  | V_str s => s
  | V_num (Some (n, d)) => str_of_Z (n / d)
  | V_num None => $"NaN"
  | V_bool b => if b then $"true" else $"false"
  end.

(** Python's re.compile(pattern, re.IGNORECASE?) and search, as an oracle; [Err] for an invalid pattern. *)
Definition regex := str -> bool -> str -> res bool.

Fixpoint mapM {A B} (f : A -> res B) (l : list A) : res (list B) :=
  match l with [] => Ok [] | x :: l' => let* y := f x in let* ys := mapM f l' in Ok (y :: ys) end.
Fixpoint filterM {A} (f : nat -> A -> res bool) (i : nat) (l : list A) : res (list A) :=
  match l with [] => Ok [] | x :: l' => let* b := f i x in let* ys := filterM f (S i) l' in Ok (if b then x :: ys else ys) end.

Section Eval.
  Variable R : regex.
  Variable w : world.
  Record ctx := Cx { cx_node : xnode; cx_pos : nat; cx_size : nat }.
  (** Function calls.  re:test is lxml's EXSLT implementation (extensions.pxi, _ExsltRegExp.test). *)
  Definition call (c : ctx) (f : str) (vs : list value) : res value :=
    if str_eqb f $"not" then match vs with [v] => Ok (V_bool (negb (truth v))) | _ => Err Ex_XPath end
    else if str_eqb f $"last" then match vs with [] => Ok (V_num (Some (Z.of_nat (cx_size c), 1%Z))) | _ => Err Ex_XPath end
    else if str_eqb f $"position" then match vs with [] => Ok (V_num (Some (Z.of_nat (cx_pos c), 1%Z))) | _ => Err Ex_XPath end
    else if str_eqb f $"contains" then match vs with [a; b] => Ok (V_bool (substr_in (to_str w b) (to_str w a))) | _ => Err Ex_XPath end
    else if str_eqb f $"starts-with" then match vs with [a; b] => Ok (V_bool (starts_with (to_str w b) (to_str w a))) | _ => Err Ex_XPath end
    else if str_eqb f $"true" then match vs with [] => Ok (V_bool true) | _ => Err Ex_XPath end
    else if str_eqb f $"false" then match vs with [] => Ok (V_bool false) | _ => Err Ex_XPath end
    else if str_eqb f $"count" then match vs with [V_set l] => Ok (V_num (Some (Z.of_nat (List.length l), 1%Z))) | _ => Err Ex_XPath end
    else if str_eqb f $"re:test" then
      match vs with
      | [s; p; fl] => let* b := R (to_str w p) (substr_in [105] (to_str w fl)) (to_str w s) in Ok (V_bool b)
      | [s; p] => let* b := R (to_str w p) false (to_str w s) in Ok (V_bool b)
      | _ => Err Ex_XPath
      end
    else Err Ex_XPath.
  (** A predicate holds: a number means a position. *)
  Definition holds (pos : nat) (v : value) : bool :=
    match v with V_num q => num_cmp C_eq q (Some (Z.of_nat pos, 1%Z)) | _ => truth v end.

  Fixpoint eval (e : expr) (c : ctx) {struct e} : res value :=
    match e with
    | E_lit s => Ok (V_str s)
    | E_num s => Ok (V_num (to_num s))
    | E_cmp o a b => let* x := eval a c in let* y := eval b c in Ok (V_bool (value_cmp w o x y))
    | E_and a b => let* x := eval a c in if truth x then let* y := eval b c in Ok (V_bool (truth y)) else Ok (V_bool false)
    | E_or a b => let* x := eval a c in if truth x then Ok (V_bool true) else let* y := eval b c in Ok (V_bool (truth y))
    | E_union a b =>
        let* x := eval a c in let* y := eval b c in
        match x, y with V_set l, V_set m => Ok (V_set (in_order w (l ++ m))) | _, _ => Err Ex_XPath end
    | E_call f args =>
        let* vs := (fix go (l : list expr) : res (list value) :=
                      match l with [] => Ok [] | a :: l' => let* v := eval a c in let* vs := go l' in Ok (v :: vs) end) args in
        call c f vs
    | E_filter e ps =>
        let* v := eval e c in
        match v, ps with
        | _, [] => Ok v
        | V_set l, _ =>
            let* l' := (fix gp (ps : list expr) (l : list xnode) : res (list xnode) :=
                          match ps with
                          | [] => Ok l
                          | p :: ps' =>
                              let* l' := filterM (fun i x => let* v := eval p (Cx x i (List.length l)) in Ok (holds i v)) 1 l in
                              gp ps' l'
                          end) ps l in
            Ok (V_set l')
        | _, _ => Err Ex_XPath
        end
    | E_path abs steps =>
        let* l := (fix gs (ss : list step) (l : list xnode) : res (list xnode) :=
                     match ss with
                     | [] => Ok l
                     | Step a t ps :: ss' =>
                         let* ll := mapM (fun x =>
                           (fix gp (ps : list expr) (l : list xnode) : res (list xnode) :=
                              match ps with
                              | [] => Ok l
                              | p :: ps' =>
                                  let* l' := filterM (fun i x => let* v := eval p (Cx x i (List.length l)) in Ok (holds i v)) 1 l in
                                  gp ps' l'
                              end) ps (filter (test_ok a t) (axis_nodes w a x))) l in
                         gs ss' (in_order w (List.concat ll))
                     end) steps (if abs then (if w_doc w then [XDoc] else [XEl (Nd (w_root w) [])]) else [cx_node c]) in
        Ok (V_set l)
    end.
End Eval.
