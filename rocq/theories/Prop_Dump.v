(** Property theorems about looking at the document (C92): [xml()], [dump_xml] and [dump_xml] of an element (statements; proofs in
    Dump.v, Dump_obj.v).  Vocabulary in Dump_obj.v: [inside], [holds], [unmarked]; in ObjectSpec.v: [reached], [document]. *)
From Coq Require Import ZifyBool.
From Verif Require Import Base Base64 PyStr Utf8 Xml Xml_facts Tree XPath Time FindSpec FindEx Db Api ApiSpec ApiEx StructSpec CredSpec IntegritySpec Lib Keyfile Construct Kdbx KdbxSpec Kdbx_file Kdbx_claims Toy Toy_facts Save Save_facts Object Heap Cred Clean ObjectSpec Object_facts Object_claims ObjectEx Dump Dump_obj DumpPretty.

(** ** C92: whatever calls led to the object, [xml()] returns, and reading the bytes as XML gives the document in memory (empty texts
    are absent and white space between elements is dropped, as on saving). *)
Theorem c92_reads_back : forall L R Zl lost o k d, lib_ok L -> xml_sound L -> reached L R Zl lost o -> o_kdbx o = Some (k, Some d) ->
  exists b t, xml_of o = Ok b /\ document d = Some t /\ xml_parse_doc b = Ok (norm t).
Proof. exact xml_reads. Qed.
Print Assumptions c92_reads_back.
(** Every text in the document, protected or not, is in it in the clear. *)
Theorem c92_in_the_clear : forall o k d b t e s bs, o_kdbx o = Some (k, Some d) -> document d = Some t -> xml_of o = Ok b ->
  inside e t -> xtext e = Some s -> unmarked s -> utf8_encode s = Ok bs -> holds b bs.
Proof. exact xml_shows. Qed.
Print Assumptions c92_in_the_clear.
(** [dump_xml] writes exactly these bytes, and no other file. *)
Theorem c92_dump : forall e w o p b w', env_ok e -> xml_of o = Ok b -> dump_xml e w o p = (Ok tt, w') ->
  w_fs w' p = Some b /\ (forall q, q <> p -> w_fs w' q = w_fs w q) /\ w_st w' = w_st w.
Proof. exact dump_file. Qed.
Print Assumptions c92_dump.
(** When it fails, the file holds a beginning of these bytes, unless it could not be opened. *)
Theorem c92_dump_fails : forall e w o p x w', env_ok e -> dump_xml e w o p = (Err x, w') ->
  (forall q, q <> p -> w_fs w' q = w_fs w q) /\ w_st w' = w_st w /\
  (w' = w \/ exists out rest, w_fs w' p = Some out /\ (xml_of o = Ok (out ++ rest) \/ (out = [] /\ xml_of o = Err x))).
Proof. exact dump_fails. Qed.
Print Assumptions c92_dump_fails.
(** So, unlike [save], it may lose an older file: nothing is left of it on a full device. *)
Theorem c92_dump_not_atomic_refuted : exists e w o p old x w',
  env_ok e /\ w_fs w p = Some old /\ old <> [] /\ dump_xml e w o p = (Err x, w') /\ w_fs w' p = Some [].
Proof.
  exists (MkEnv true (Some O) (fun b => [b]) true), ex_w, o_db, P_key, key_data, Ex_IO.
  exists (snd (dump_xml (MkEnv true (Some O) (fun b => [b]) true) ex_w o_db P_key)).
  split; [intros b; apply app_nil_r|]. split; [vm_compute; reflexivity|]. split; [discriminate|]. split.
  - assert (H : fst (dump_xml (MkEnv true (Some O) (fun b => [b]) true) ex_w o_db P_key) = Err Ex_IO) by (vm_compute; reflexivity).
    destruct (dump_xml (MkEnv true (Some O) (fun b => [b]) true) ex_w o_db P_key) as [r w']. cbn [fst snd] in *. now subst.
  - vm_compute. reflexivity.
Qed.
Print Assumptions c92_dump_not_atomic_refuted.
(** [dump_xml] of an entry or a group gives that element. *)
Theorem c92_element : forall t, xml_ok t = true -> xml_parse_doc (element_xml t) = Ok (norm t).
Proof. exact xml_codec. Qed.
Print Assumptions c92_element.
(** Also with pretty_print=True. *)
Theorem c92_element_pretty : forall t, xml_ok t = true -> xml_parse_doc (element_pretty t) = Ok (norm t).
Proof. exact pretty_codec. Qed.
Print Assumptions c92_element_pretty.
Example c92_pretty_ex : element_pretty (X $"Entry" [] None [X $"Key" [] (Some [233; 38]) []; X $"Times" [] None []]) = $"<Entry>" ++ [10] ++ $"  <Key>&#233;&amp;</Key>" ++ [10] ++ $"  <Times/>" ++ [10] ++ $"</Entry>" ++ [10].
Proof. vm_compute. reflexivity. Qed.

(** An edited object: it is reached; the dump begins as shown; a protected value stands in it. *)
Definition add_shop (o : obj) : obj := snd (call (IntegritySpec.run lit no_z clk (Op_add_entry (hd O (ids_of $"Group" (db_in o))) (Some $"shop") (Some $"ann") (Some $"pw") None None None T_none None None false)) o).
Definition o_shop : obj := Eval vm_compute in add_shop o_db.
Lemma o_shop_reached : reached toy lit no_z no_loss o_shop.
Proof. replace o_shop with (add_shop o_db) by (vm_compute; reflexivity). apply R_call; [exact o_db_reached|exact I]. Qed.
Fixpoint all_inside (t : xml) : list xml := t :: flat_map all_inside (xkids t).
Lemma all_inside_ok e t : In e (all_inside t) -> inside e t.
Proof.
  induction t as [g a x k IH] using xml_ind'. cbn [all_inside xkids In]. intros [<-|H]; [constructor|].
  apply in_flat_map in H as (t & Ht & He). rewrite Forall_forall in IH. apply I_kid with t; auto.
Qed.
Definition secret_el (t : xml) : bool := existsb (fun a => str_eqb (fst a) $"Protected") (xattrs t) && match xtext t with Some (_ :: _) => true | _ => false end.
Definition secret_of (o : obj) : xml :=
  match document (db_in o) with Some t => match List.find secret_el (all_inside t) with Some e => e | None => X [] [] None [] end | None => X [] [] None [] end.
Definition unmarkedb (s : str) : bool := forallb (fun c => negb ((c =? 38) || (c =? 60) || (c =? 62) || (c =? 13))) s.
Lemma unmarkedb_ok s : unmarkedb s = true -> unmarked s.
Proof. unfold unmarkedb. rewrite forallb_forall. intros H c Hc. specialize (H c Hc). lia. Qed.
Example c92_ex : reached toy lit no_z no_loss o_shop /\
  (exists b t s, xml_of o_shop = Ok b /\ document (db_in o_shop) = Some t /\ inside (secret_of o_shop) t /\ xtext (secret_of o_shop) = Some s /\ s <> [] /\ unmarked s /\
    firstn 93 b = $"<?xml version='1.0' encoding='utf-8' standalone='yes'?>" ++ [10] ++ $"<KeePassFile>" ++ [10] ++ $"  <Meta>" ++ [10] ++ $"    <DatabaseN") /\
  fst (dump_xml ok_env ex_w o_shop P_tmp) = Ok tt.
Proof.
  split; [exact o_shop_reached|]. split; [|vm_compute; reflexivity].
  eexists. eexists. eexists. split; [vm_compute; reflexivity|]. split; [vm_compute; reflexivity|].
  split; [apply all_inside_ok|split; [vm_compute; reflexivity|split; [discriminate|split; [apply unmarkedb_ok; vm_compute; reflexivity|vm_compute; reflexivity]]]].
  eapply (find_some secret_el). vm_compute. reflexivity.
Qed.
(** Markup characters, line ends and other alphabets; an element with text is written without added white space. *)
Example c92_layout_ex :
  print true O (X $"a" [($"k", [34; 10; 60; 233])] None [X $"b" [] None []; X $"c" [] (Some [38; 13; 10; 8364]) []; X $"d" [] None [X $"e" [] (Some []) [X $"f" [] None []]]])
  = $"<a k=""&quot;&#10;&lt;" ++ [233] ++ $""">" ++ [10] ++ $"  <b/>" ++ [10] ++ $"  <c>&amp;&#13;" ++ [10; 8364] ++ $"</c>" ++ [10] ++ $"  <d>" ++ [10] ++ $"    <e><f/></e>" ++ [10] ++ $"  </d>" ++ [10] ++ $"</a>".
Proof. vm_compute. reflexivity. Qed.
