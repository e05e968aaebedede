(** tests.py:1319-1400 (wrong credentials, files that are no database) and header data without decrypting, on the sample files.  Models no code of pykeepass/. *)
From Verif Require Import Base Db Object RealOpen Conform Conform_save.

Definition rejections : list (option exn) := Eval vm_compute in
  [rejected "test3.kdbx" "invalid" "test3.key";
   rejected "test3.kdbx" "password" "test4.key";
   rejected "test4_aeskdf.kdbx" "invalid" "test4.key";
   rejected "test4_aeskdf.kdbx" "password" "test3.key";
   rejected "test3.key" "password" "test3.key"].
Check (@eq_refl _ [Some Ex_Credentials; Some Ex_Credentials; Some Ex_Credentials; Some Ex_Credentials; Some Ex_HeaderChecksum] : rejections = _).
Definition all_unread : bool := Eval vm_compute in forallb unread samples.
Check (@eq_refl _ true : all_unread = true).
(** The tests can fail: on an empty database. *)
Definition failed_on_empty : nat := Eval vm_compute in List.length (failures (MkDb 4 0 [] [] O)).
Check (@eq_refl bool false : Nat.eqb failed_on_empty O = false).
