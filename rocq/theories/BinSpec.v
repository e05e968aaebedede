(** Binaries and attachments, described on the rows of the store. *)
From Verif Require Import Base Base64 PyStr Xml Tree XPath Db FindSpec Api ApiSpec StructSpec.

Definition attr_at (L : nat -> option row) (i : nat) (k v : str) : Prop := exists r, L i = Some r /\ In (k, v) (r_attrs r).
(** The decimal notation of a number. *)
Definition number (n : nat) : str := str_of_Z (Z.of_nat n).
(** [a] is an attachment element of the document; its only Value child [v] refers to binary [n]. *)
Record attached (d : db) (a v n : nat) : Prop := Att {
  at_doc : in_doc d a;
  at_tag : is_tag (look (d_forest d)) $"Binary" a;
  at_value : kids_tagged (look (d_forest d)) $"Value" a = [v];
  at_ref : attr_at (look (d_forest d)) v $"Ref" (number n) }.
(** [a] belongs to a history snapshot. *)
Definition in_history (d : db) (a : nat) : Prop := exists h, is_tag (look (d_forest d)) $"History" h /\ h <> a /\ below (look (d_forest d)) h a.
(** As KeePass writes attachments: Key and Value, leaves with distinct attribute names; one Value with a decimal Ref; directly in an entry. *)
Record regular (d : db) : Prop := Regular {
  rg_leaf : forall a r x, look (d_forest d) a = Some r -> r_tag r = $"Binary" -> In x (r_kids r) ->
    exists q, look (d_forest d) x = Some q /\ r_kids q = [] /\ NoDup (map fst (r_attrs q)) /\ (r_tag q = $"Key" \/ r_tag q = $"Value");
  rg_value : forall a x, is_tag (look (d_forest d)) $"Binary" a -> In x (kids_tagged (look (d_forest d)) $"Value" a) ->
    kids_tagged (look (d_forest d)) $"Value" a = [x] /\ exists n, attr_at (look (d_forest d)) x $"Ref" (number n);
  rg_entry : forall a, in_doc d a -> is_tag (look (d_forest d)) $"Binary" a -> kids_tagged (look (d_forest d)) $"Value" a <> [] ->
    exists e, is_kid d e a /\ is_tag (look (d_forest d)) $"Entry" e }.
(** The attachments of live entries that refer to binary [k]. *)
Definition unwanted (d : db) (k a : nat) : Prop := ~ in_history d a /\ exists v, attached d a v k.
(** References after binary [k] is gone. *)
Definition renumber (k n : nat) : nat := if (k <? n)%nat then pred n else n.
(** What deleting binary [k] leaves of the document. *)
Record unbound (d d' : db) (k : nat) : Prop := Unbound {
  ub_top : hd_error (roots (d_forest d')) = hd_error (roots (d_forest d));
  ub_row : forall j r, look (d_forest d) j = Some r -> exists q, look (d_forest d') j = Some q /\ r_tag q = r_tag r /\ r_text q = r_text r /\
    picks (fun i => ~ unwanted d k i) (r_kids r) (r_kids q) /\ ((forall a n, attached d a j n -> (n <= k)%nat) -> r_attrs q = r_attrs r);
  ub_gone : forall a, unwanted d k a -> ~ in_doc d' a;
  ub_kept : forall j, in_doc d j -> ~ (exists a, unwanted d k a /\ below (look (d_forest d)) a j) -> in_doc d' j;
  ub_less : forall j, in_doc d' j -> in_doc d j;
  ub_ref : forall a v n, attached d a v n -> ~ unwanted d k a -> attached d' a v (renumber k n) }.
Definition remove_nth {A} (k : nat) (l : list A) : list A := firstn k l ++ skipn (S k) l.
(** *** The stored binaries *)
(** The row of a Binary element of Meta/Binaries holds the data [x]. *)
Definition holds (Zl : zlib) (r : row) (x : bytes) : Prop :=
  match r_text r with
  | None => x = []
  | Some s => exists c, b64decode s = Ok c /\ ((In ($"Compressed", $"True") (r_attrs r) /\ zinflate Zl c = Ok x) \/ (~ In ($"Compressed", $"True") (r_attrs r) /\ x = c))
  end.
(** The Binary elements [is], the first of which is number [k], hold the data [xs]; no ID is less than the position. *)
Inductive shelf (Zl : zlib) (L : nat -> option row) : nat -> list nat -> list bytes -> Prop :=
| shelf_nil k : shelf Zl L k [] []
| shelf_cons k i is x xs r n : L i = Some r -> r_tag r = $"Binary" -> r_kids r = [] -> NoDup (map fst (r_attrs r)) -> In ($"ID", number n) (r_attrs r) -> (k <= n)%nat ->
    holds Zl r x -> shelf Zl L (S k) is xs -> shelf Zl L k (i :: is) (x :: xs).
(** KDBX4: in the inner header, a flag byte before each. KDBX3: in Meta/Binaries. *)
Inductive store (Zl : zlib) (d : db) (l : list bytes) : Prop :=
| store4 : (4 <= d_major d)%N -> Forall2 (fun b x => exists f, b = f :: x) (d_bins d) l -> store Zl d l
| store3 r m b q : (d_major d < 4)%N -> hd_error (roots (d_forest d)) = Some r -> is_tag (look (d_forest d)) $"KeePassFile" r ->
    kids_tagged (look (d_forest d)) $"Meta" r = [m] -> kids_tagged (look (d_forest d)) $"Binaries" m = [b] ->
    look (d_forest d) b = Some q -> shelf Zl (look (d_forest d)) 0 (r_kids q) l -> store Zl d l.
(** Compression can be undone. *)
Definition zlib_ok (Zl : zlib) : Prop := forall x, bytes_ok x -> bytes_ok (zgzip Zl x) /\ zinflate Zl (zgzip Zl x) = Ok x.
(** Everything outside the list of binaries stays: nothing leaves, no row loses anything. *)
Definition kept (d d' : db) : Prop :=
  hd_error (roots (d_forest d')) = hd_error (roots (d_forest d)) /\ (forall j, in_doc d j -> in_doc d' j) /\
  (forall j r, look (d_forest d) j = Some r -> exists q, look (d_forest d') j = Some q /\ r_tag q = r_tag r /\ r_text q = r_text r /\ r_attrs q = r_attrs r /\ exists new, r_kids q = r_kids r ++ new) /\
  (forall a v n, attached d a v n -> attached d' a v n).
(** *** Sequences of calls *)
Inductive bop := Badd (data : bytes) (compressed protected : bool) | Bdel (k : nat) | Battach (e k : nat) (filename : option str).
(** The list of binaries the calls lead to. *)
Fixpoint shelved (l : list bytes) (os : list bop) : list bytes :=
  match os with
  | [] => l
  | Badd x _ _ :: os => shelved (l ++ [x]) os
  | Bdel k :: os => shelved (remove_nth k l) os
  | Battach _ _ _ :: os => shelved l os
  end.
Definition run_bop (R : regex) (Zl : zlib) (o : bop) (d : db) : res Z * db :=
  match o with
  | Badd x c p => add_binary R Zl x c p d
  | Bdel k => (do _ <- delete_binary R (Z.of_nat k); ret 0%Z) d
  | Battach e k f => (do a <- add_attachment e (Z.of_nat k) f; ret (Z.of_nat a)) d
  end.
Fixpoint after_bops (R : regex) (Zl : zlib) (os : list bop) (d : db) : db := match os with [] => d | o :: os => after_bops R Zl os (snd (run_bop R Zl o d)) end.
(** The list itself without number [k]; nothing else changes. *)
Definition popped (d d' : db) (k : nat) : Prop :=
  d_major d' = d_major d /\ d_minor d' = d_minor d /\ hd_error (roots (d_forest d')) = hd_error (roots (d_forest d)) /\
  (((4 <= d_major d)%N /\ d_bins d' = remove_nth k (d_bins d) /\ d_forest d' = d_forest d) \/
   ((d_major d < 4)%N /\ exists m b q c, is_tag (look (d_forest d)) $"Meta" m /\ In b (kids_tagged (look (d_forest d)) $"Binaries" m) /\ look (d_forest d) b = Some q /\ nth_error (r_kids q) k = Some c /\ cut d d' c)).
(** Calls with sensible arguments: bytes; an entry of the document and a legal file name. *)
Fixpoint bops_ok (R : regex) (Zl : zlib) (d : db) (os : list bop) : Prop :=
  match os with
  | [] => True
  | o :: os' =>
      match o with
      | Badd x _ _ => bytes_ok x
      | Bdel _ => True
      | Battach e _ f => in_doc d e /\ is_tag (look (d_forest d)) $"Entry" e /\ exists s, f = Some s /\ text_ok s = true
      end /\ bops_ok R Zl (snd (run_bop R Zl o d)) os'
  end.
(** KDBX3: the ID of a binary is its position. *)
Definition in_order (d : db) : Prop := forall r m b q k c, (d_major d < 4)%N -> hd_error (roots (d_forest d)) = Some r -> kids_tagged (look (d_forest d)) $"Meta" r = [m] -> kids_tagged (look (d_forest d)) $"Binaries" m = [b] ->
  look (d_forest d) b = Some q -> nth_error (r_kids q) k = Some c -> attr_at (look (d_forest d)) c $"ID" (number k).
Definition no_del (o : bop) : bool := match o with Bdel _ => false | _ => true end.
