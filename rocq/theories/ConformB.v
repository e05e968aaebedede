(** tests.py:1149-1325, test_open_save of Conform_save.v on some of the sample files.  Models no code of pykeepass/. *)
From Verif Require Import Base Db Object RealOpen Conform Conform_save.

Definition raised_b : list exn := Eval vm_compute in raised (map open_save samples_b) blank.
Check (@eq_refl _ [] : raised_b = []).
