(** The sample databases of the project's test suite (RealFiles.v), opened by the model with the real algorithms (Real.v).  Models no code
    of /repo: validates the model against the project's own files.  The results of this file and of Conform*.v are computed by the virtual machine
    while building, which fails if one is not as expected; they are no theorems, as checking them without the virtual machine would take hours. *)
From Verif Require Import Base PyStr Xml Tree XPath Db Time Api Lib Keyfile Construct Kdbx Kdbx_file Save Object Hash Inflate Argon Real RealFiles.

Definition here (f : string) : path := MkPath $"/repo/tests" $f.
Definition files : list (string * bytes) :=
  [("test3.kdbx", f_test3); ("test3.key", f_test3_key); ("test4.kdbx", f_test4); ("test4.key", f_test4_key); ("change.key", f_change_key); ("test_invalidversion.key", f_invalid_key);
   ("test3_transformed.kdbx", f_test3_transformed); ("test4_transformed.kdbx", f_test4_transformed); ("test4_aes.kdbx", f_test4_aes); ("test4_aeskdf.kdbx", f_test4_aeskdf); ("test4_chacha20.kdbx", f_test4_chacha20);
   ("test4_twofish.kdbx", f_test4_twofish); ("test4_aes_uncompressed.kdbx", f_test4_aes_uncompressed); ("test4_twofish_uncompressed.kdbx", f_test4_twofish_uncompressed);
   ("test4_chacha20_uncompressed.kdbx", f_test4_chacha20_uncompressed); ("test4_argon2id.kdbx", f_test4_argon2id); ("test4_blankpass.kdbx", f_test4_blankpass); ("test4_hex.kdbx", f_test4_hex);
   ("test4_hex.key", f_test4_hex_key); ("test4_keyx.kdbx", f_test4_keyx); ("test4_keyx.keyx", f_test4_keyx_keyx); ("extra_content.kdbx", f_extra_content); ("blank_database.kdbx", f_blank_database)]%string.
Definition tests_dir : world := MkWorld (fold_left (fun s f => fs_set s (here (fst f)) (Some (snd f))) files (fun _ => None)) (fun _ => MkStream [] O true).
Definition lost0 : bytes -> nat := fun _ => O.
(** PyKeePass(filename, password, keyfile, transformed_key) *)
Definition opens (f : string) (pw : option str) (kf : option string) (tk : option bytes) : res obj :=
  fst (open_db real lost0 tests_dir (F_path (here f)) pw (match kf with Some k => N_path (here k) | None => N_none end) tk true).
Definition got (r : res obj) : obj := match r with Ok o => o | Err _ => fresh end.
Definition password : option str := Some $"password".

(** tests.py:31-62: what most of the tests work on. *)
Definition kp3 : obj := Eval vm_compute in got (opens "test3.kdbx" password (Some "test3.key"%string) None).
Check (@eq_refl bool true : match o_kdbx kp3 with Some (_, Some _) => true | _ => false end = true).
Definition kp4 : obj := Eval vm_compute in got (opens "test4.kdbx" password (Some "test4.key"%string) (Some tk_test4)).
Check (@eq_refl bool true : match o_kdbx kp4 with Some (_, Some _) => true | _ => false end = true).
