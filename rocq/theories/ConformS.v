(** The unit tests that save and reload (Conform_save.v), on a copy of tests/test3.kdbx.  Models no code of pykeepass/. *)
From Verif Require Import Base Db Object RealOpen Conform Conform_save.

Definition raised_saving : list exn := Eval vm_compute in raised saving copy3.
Check (@eq_refl _ [] : raised_saving = []).
