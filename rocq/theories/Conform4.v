(** The unit tests of Conform.v on tests/test4.kdbx as opened by the model (tests.py:43-62 sets the tests up on the sample files).  Models no code of pykeepass/. *)
From Verif Require Import Base Db Object RealOpen Conform.

Definition failed_on_test4 : list (string * exn) := Eval vm_compute in failures (the_db kp4).
Check (@eq_refl _ [] : failed_on_test4 = []).
