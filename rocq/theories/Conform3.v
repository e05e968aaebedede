(** The unit tests of Conform.v on tests/test3.kdbx as opened by the model (tests.py:43-62 sets the tests up on the sample files).  Models no code of pykeepass/. *)
From Verif Require Import Base Db Object RealOpen Conform.

Definition failed_on_test3 : list (string * exn) := Eval vm_compute in failures (the_db kp3).
Check (@eq_refl _ [] : failed_on_test3 = []).
