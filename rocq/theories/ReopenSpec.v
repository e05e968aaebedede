(** What the API reads from a database and what it reads from it after saving and opening again. *)
From Verif Require Import Base PyStr Xml Tree XPath FindSpec Db Api Save Kdbx KdbxSpec Kdbx_rt Lib Object ObjectSpec Streams.

(** The element reached from [t] by child positions. *)
Fixpoint follow (route : list nat) (t : elem) : option elem :=
  match route with [] => Some t | n :: r => match nth_error (ekids t) n with Some k => follow r k | None => None end end.
(** The same place in two documents. *)
Definition twins (d d2 : db) (x y : elem) : Prop :=
  exists doc F doc2 F2 route, d_forest d = doc :: F /\ d_forest d2 = doc2 :: F2 /\ follow route doc = Some x /\ follow route doc2 = Some y.
(** A text that is unchanged, or was empty and is now absent. *)
Definition faded (o o2 : option str) : Prop := o2 = o \/ (o = Some [] /\ o2 = None).
(** No white space in front of child elements (it is dropped when a file is read, so it is absent until a call writes it). *)
Definition unpadded (d : db) : Prop := forall doc F x s, d_forest d = doc :: F -> In x (everything doc) -> etext x = Some s -> s <> [] -> forallb blank_char s = true -> ekids x = [].
(** [d2] is the database of the object got by saving an object with database [d] and opening the file, or reloading, or reading it
    back from the stream it was written to. *)
Inductive comes_back (L : lib) (R : regex) (Zl : zlib) (lost : bytes -> nat) (d d2 : db) : Prop :=
| CB_open e w o fn tk p tmp k w' key w2 pw2 kf2 tk2 o2 w3 k2 :
    reached L R Zl lost o -> o_kdbx o = Some (k, Some d) -> goes_to o fn p -> apart p tmp (o_keyfile o) -> env_ok e ->
    key_for L w (o_password o) (o_keyfile o) tk (k_hdr k) = Ok key -> moderate L (current (k, Some d)) key ->
    save L e w o fn tk = (Ok tt, o, w') ->
    w_fs w2 p = w_fs w' p -> key_for L w2 pw2 kf2 tk2 (k_hdr k) = Ok key ->
    open_db L lost w2 (F_path p) pw2 kf2 tk2 true = (Ok o2, w3) -> o_kdbx o2 = Some (k2, Some d2) -> comes_back L R Zl lost d d2
| CB_reload e w o p tmp k w' key o2 w3 k2 :
    reached L R Zl lost o -> o_kdbx o = Some (k, Some d) -> o_filename o = Some (F_path p) -> apart p tmp (o_keyfile o) -> steady w p (o_keyfile o) -> env_ok e ->
    key_for L w (o_password o) (o_keyfile o) None (k_hdr k) = Ok key -> moderate L (current (k, Some d)) key ->
    save L e w o F_none None = (Ok tt, o, w') ->
    reload L lost w' o = (Ok tt, o2, w3) -> o_kdbx o2 = Some (k2, Some d2) -> comes_back L R Zl lost d d2
| CB_stream e w o fn tk n k w' key w2 pw2 kf2 tk2 o2 w3 k2 :
    reached L R Zl lost o -> o_kdbx o = Some (k, Some d) -> goes_into o fn n -> o_keyfile o <> N_stream n -> (st_pos (w_st w n) <= List.length (st_data (w_st w n)))%nat ->
    key_for L w (o_password o) (o_keyfile o) tk (k_hdr k) = Ok key -> moderate L (current (k, Some d)) key ->
    save L e w o fn tk = (Ok tt, o, w') ->
    st_pos (w_st w2 n) = st_pos (w_st w n) -> firstn (st_pos (w_st w' n)) (st_data (w_st w2 n)) = firstn (st_pos (w_st w' n)) (st_data (w_st w' n)) ->
    h_major (k_hdr k) = 4 \/ (List.length (st_data (w_st w2 n)) <= st_pos (w_st w' n))%nat -> kf2 <> N_stream n -> key_for L w2 pw2 kf2 tk2 (k_hdr k) = Ok key ->
    open_db L lost w2 (F_stream n) pw2 kf2 tk2 true = (Ok o2, w3) -> o_kdbx o2 = Some (k2, Some d2) -> comes_back L R Zl lost d d2.
(** Queries whose values are not empty (a regular expression may be). *)
Definition telling (q : query) : Prop :=
  (forall f v, In (f, v) (q_string q) -> f <> [] /\ (q_regex q = true \/ v <> [])) /\
  forall k v, In (k, v) (q_kw q) -> match v with K_none | K_tags _ => True | _ => q_regex q = true \/ FindSpec.shown v <> [] end.
(** The same query, looking below another element. *)
Definition aim (tree : option nat) (q : query) : query := MkQuery (q_path q) tree (q_history q) (q_regex q) (q_flags q) (q_string q) (q_kw q).
(** Where a query looks, in both databases. *)
Inductive both_aim (d d2 : db) : option nat -> option nat -> Prop :=
| ba_all : both_aim d d2 None None
| ba_below x y : twins d d2 x y -> both_aim d d2 (Some (eid x)) (Some (eid y)).
(** The components of a path that have a name. *)
Definition named (l : list (option str)) : list str := flat_map (fun o => match o with Some (c :: s) => [c :: s] | _ => [] end) l.
(** Numbers of corresponding elements. *)
Definition same_place (d d2 : db) (i j : nat) : Prop := exists x y, twins d d2 x y /\ eid x = i /\ eid y = j.
Definition opt_rel {A} (P : A -> A -> Prop) (a b : option A) : Prop := match a, b with Some x, Some y => P x y | None, None => True | _, _ => False end.
(** As KeePass writes attachments: no attribute twice, values refer to a binary, and Binary elements with a name or a value stand in entries. *)
Definition att_shape (d : db) : Prop :=
  (forall t x, In t (elements (d_forest d)) -> etag t = $"Binary" -> In x (ekids t) -> NoDup (map fst (eattrs x)) /\ (etag x = $"Value" -> attr_of $"Ref" x <> None)) /\
  forall t, In t (elements (d_forest d)) -> etag t = $"Binary" -> (exists x, In x (ekids t) /\ (etag x = $"Key" \/ etag x = $"Value")) -> exists e, In e (elements (d_forest d)) /\ etag e = $"Entry" /\ In t (ekids e).
(** Keys of custom properties that can be read one by one. *)
Definition readable (k : option str) : Prop := exists s, k = Some s /\ plain s /\ s <> [].
Definition row_faded (a b : option str * option str) : Prop := fst b = fst a /\ faded (snd a) (snd b).
(** A flag that is unchanged, or was false because its text was empty and is now absent. *)
Definition dimmed (b b2 : option bool) : Prop := b2 = b \/ (b = Some false /\ b2 = None).
(** Both calls return, with corresponding values, or both raise the same exception; the second database stays as it is. *)
Definition agree {X Y} (d2 : db) (P : X -> Y -> Prop) (r : res X * db) (r2 : res Y * db) : Prop := match r with (Ok v, _) => exists v2, r2 = (Ok v2, d2) /\ P v v2 | (Err e, _) => r2 = (Err e, d2) end.
(** Saved and opened again, with libraries that do what they should. *)
Definition reopened (L : lib) (R : regex) (Zl : zlib) (lost : bytes -> nat) (d d2 : db) : Prop := lib_ok L /\ xml_sound L /\ comes_back L R Zl lost d d2 /\ unpadded d.
