(** A small document for the examples of Prop_Find.v. *)
From Verif Require Import Base Base64 PyStr Xml Tree XPath Db FindSpec.

Definition tx (i : nat) (g v : str) : elem := El i g [] (Some v) [].
Definition sf (i : nat) (k v : str) : elem := El i $"String" [] None [tx (S i) $"Key" k; tx (S (S i)) $"Value" v].
Definition uuid_a : bytes := repeat 1 16.
Definition uuid_b : bytes := repeat 2 16.
Definition old_entry : elem := El 40 $"Entry" [] None [tx 41 $"UUID" (b64encode uuid_a); sf 42 $"Title" $"mail"; sf 45 $"UserName" $"eve"].
Definition entry_a : elem :=
  El 20 $"Entry" [] None [tx 21 $"UUID" (b64encode uuid_a); sf 22 $"Title" $"mail"; sf 25 $"UserName" $"ann"; tx 28 $"Tags" $"home;workshop";
    El 29 $"Binary" [] None [tx 30 $"Key" $"a.txt"; El 31 $"Value" [($"Ref", $"0")] None []];
    El 39 $"History" [] None [old_entry]].
Definition entry_b : elem := El 50 $"Entry" [] None [tx 51 $"UUID" (b64encode uuid_b); sf 52 $"Title" $"bank"; tx 55 $"Tags" $"work"].
Definition group_s : elem := El 10 $"Group" [] None [tx 11 $"UUID" (b64encode (repeat 3 16)); tx 12 $"Name" $"social"; entry_a].
Definition root_g : elem := El 5 $"Group" [] None [tx 6 $"Name" $"Root"; group_s; entry_b].
Definition find_doc : elem := El 0 $"KeePassFile" [] None [El 1 $"Meta" [] None []; El 2 $"Root" [] None [root_g]].
Definition fdb : db := MkDb 4 0 [] [find_doc] 100.
(** A stand-in for the regular expression library: literal patterns. *)
Definition lit : regex := fun p ic s => Ok (substr_in p s).
Definition with_kw (kw : list (str * kwval)) : query := MkQuery None None false false None [] kw.
Definition with_path (p : list str) : query := MkQuery (Some (map Some p)) None false false None [] [].

Fixpoint nodupb (l : list nat) : bool := match l with [] => true | x :: l' => negb (existsb (Nat.eqb x) l') && nodupb l' end.
Lemma nodupb_ok l : nodupb l = true -> NoDup l.
Proof.
  induction l as [|x l IH]; cbn; [constructor|]. rewrite andb_true_iff, negb_true_iff. intros [H1 H2]. constructor; [|auto].
  intros Hx. assert (existsb (Nat.eqb x) l = true) by (apply existsb_exists; exists x; split; [exact Hx|apply Nat.eqb_refl]). congruence.
Qed.
Lemma fdb_unique : unique (d_forest fdb).
Proof. apply nodupb_ok. vm_compute. reflexivity. Qed.
