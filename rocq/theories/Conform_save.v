(** The unit tests that open, save and reload (tests/tests.py), transcribed and run as in Conform.v.  Models no code of pykeepass/. *)
From Verif Require Import Base Base64 PyStr Xml Tree XPath Db Time Api Lib Keyfile Construct Kdbx Kdbx_file Save Object Real RealFiles RealOpen Conform.

(** Programs over an object and the file system. *)
Definition W (A : Type) : Type := world * obj -> res (A * (world * obj)).
Definition wret {A} (a : A) : W A := fun s => Ok (a, s).
Definition wbind {A B} (m : W A) (k : A -> W B) : W B := fun s => let* (a, s) := m s in k a s.
Notation "'go' x '<-' m ';' k" := (wbind m (fun x => k)) (at level 200, x pattern, m at level 100, k at level 200, right associativity).
Definition api {A} (m : M A) : W A := fun s => match call m (snd s) with (Ok a, o) => Ok (a, (fst s, o)) | (Err e, _) => Err e end.
Definition fine : env := MkEnv true None (fun b => [b]) true.
Definition wsave (fn : fname) (tk : option bytes) : W unit := fun s => match save real fine (fst s) (snd s) fn tk with (Ok _, o, w) => Ok (tt, (w, o)) | (Err e, _, _) => Err e end.
Definition wsave_fails : W unit := fun s => match save real fine (fst s) (snd s) F_none None with (Ok _, _, _) => Err Ex_Assertion | (Err _, o, w) => Ok (tt, (w, o)) end.
Definition wreload : W unit := fun s => match reload real lost0 (fst s) (snd s) with (Ok _, o, w) => Ok (tt, (w, o)) | (Err e, _, _) => Err e end.
Definition wopen (fn : fname) (pw : option str) (kf : kfname) (tk : option bytes) : W unit := fun s => match open_db real lost0 (fst s) fn pw kf tk true with (Ok o, w) => Ok (tt, (w, o)) | (Err e, _) => Err e end.
Definition wset_pw (pw : string) : W unit := fun s => match set_pw rx (now (ck 1)) (Some $pw) (snd s) with (Ok _, o) => Ok (tt, (fst s, o)) | (Err e, _) => Err e end.
Definition wset_kf (kf : kfname) : W unit := fun s => match set_kf rx (now (ck 2)) kf (snd s) with (Ok _, o) => Ok (tt, (fst s, o)) | (Err e, _) => Err e end.
Definition passed (r : res (unit * (world * obj))) : option exn := match r with Ok _ => None | Err e => Some e end.
Definition key_at (k : string) : kfname := N_path (here k).
Definition on_copy (o : obj) (f : string) (b : bytes) : world * obj := (with_fs tests_dir (fs_set (w_fs tests_dir) (here f) (Some b)), set_filename (F_path (here f)) o).

(** tests.py:868-878 *)
Definition save_binary : W unit :=
  let data := $"Ronald McDonald Trump" in
  go l <- api (Api.attachments rx); go e <- api (Api.entries rx); go _ <- api (do e <- some (hd_error e); add_attachment e 123 (Some $"foo.txt"));
  go n <- api (add_binary rx zl data true true); go _ <- wsave F_none None; go _ <- wreload;
  go b <- api (binaries rx zl); go _ <- api (assert (str_eqb (nth (Z.to_nat n) b []) data)); go l' <- api (Api.attachments rx); go _ <- api (assert_len l' (S (List.length l)));
  go _ <- api (delete_binary rx n); go _ <- wsave F_none None; go _ <- wreload; go b' <- api (binaries rx zl); api (assert_len b (S (List.length b'))).
(** tests.py:925-936, with an entry of the file reopened *)
Definition set_credentials (f : string) (user : string) : W unit :=
  go _ <- wset_pw "f00bar"; go _ <- wset_kf (key_at "change.key"); go _ <- wsave F_none None; go _ <- wopen (F_path (here f)) (Some $"f00bar") (key_at "change.key") None;
  go e <- api (fe1 (q0 (kws [("username", user)]%string))); go u <- api (username e); api (assert_text u $user).
(** tests.py:1002-1009, 1026-1033: protected values through saving *)
Definition protects (t p : string) : W unit :=
  go e <- api (by_title t); go _ <- api (do v <- passw e; assert_text v $p); go _ <- api (do r <- root; add 1 r "protect_test" "user" "pass");
  go _ <- wsave F_none None; go _ <- api (do v <- passw e; assert_text v $p);
  go _ <- wreload; go _ <- api (do e <- by_title "protect_test"; do v <- passw e; assert_text v $"pass"); api (do e <- by_title t; do v <- passw e; assert_text v $p).
(** tests.py:1035-1048: saving with a key file that does not exist leaves the database usable *)
Definition issue223 (f : string) (kf : string) : W unit := go _ <- wset_kf (key_at "foo"); go _ <- wsave_fails; wopen (F_path (here f)) password (key_at kf) None.
(** tests.py:1123-1146 *)
Definition info : W unit :=
  go _ <- api test_database_info; go _ <- wsave F_none None; go _ <- wreload;
  api (each (fun p : string * string => do v <- get_meta rx $(fst p); assert_text v $(snd p)) [("DatabaseName", "Test Name"); ("DatabaseDescription", "Test Description"); ("DefaultUserName", "Test User")]%string).

(** tests.py:1149-1316: open, look at the algorithms and the version, save elsewhere, open that *)
Record sample := MkSample { s_file : string; s_pw : option str; s_kf : kfname; s_tk : option bytes; s_cipher : cipher; s_kdf : kdfname; s_version : N * N }.
Definition cipher_eqb (a b : cipher) : bool := match a, b with C_aes, C_aes | C_twofish, C_twofish | C_chacha, C_chacha => true | _, _ => false end.
Definition kdf_eqb (a b : kdfname) : bool := match a, b with K_aes, K_aes | K_argon2, K_argon2 | K_argon2id, K_argon2id => true | _, _ => false end.
Definition as_expected (x : sample) (o : obj) : bool :=
  match encryption_algorithm o, kdf_algorithm o, version o with
  | Ok c, Ok (Some k), Ok v => cipher_eqb c (s_cipher x) && kdf_eqb k (s_kdf x) && (fst v =? fst (s_version x)) && (snd v =? snd (s_version x))
  | _, _, _ => false
  end.
Definition doc_is (o o' : obj) : bool :=
  match payload_of o, payload_of o' with
  | Ok d, Ok d' => match d_forest d, d_forest d' with [a], [b] => str_eqb (xml_tostring (erase a)) (xml_tostring (erase b)) && list_eqb str_eqb (d_bins d) (d_bins d') | _, _ => false end
  | _, _ => false
  end.
Definition open_save (x : sample) : W unit :=
  let out := here (s_file x ++ ".out")%string in
  go _ <- wopen (F_path (here (s_file x))) (s_pw x) (s_kf x) (s_tk x);
  fun s => if as_expected x (snd s) then
    (go _ <- wsave (F_path out) (s_tk x); go _ <- wopen (F_path out) (s_pw x) (s_kf x) (s_tk x); fun s' => if doc_is (snd s) (snd s') then Ok (tt, s') else Err Ex_Assertion) s
  else Err Ex_Assertion.
Definition blank : world * obj := (tests_dir, fresh).
Definition pw1 := password.
Definition samples_a : list sample :=
  [MkSample "test4_aes.kdbx" pw1 (key_at "test4.key") (Some tk_test4_aes) C_aes K_argon2 (4, 0); MkSample "test4_aeskdf.kdbx" pw1 (key_at "test4.key") None C_aes K_aes (4, 0);
   MkSample "test4_chacha20.kdbx" pw1 (key_at "test4.key") (Some tk_test4_chacha20) C_chacha K_argon2 (4, 0); MkSample "test4_twofish.kdbx" pw1 (key_at "test4.key") (Some tk_test4_twofish) C_twofish K_argon2 (4, 0);
   MkSample "test4_hex.kdbx" pw1 (key_at "test4_hex.key") (Some tk_test4_hex) C_chacha K_argon2 (4, 0); MkSample "test4_aes_uncompressed.kdbx" pw1 N_none (Some tk_test4_aes_uncompressed) C_aes K_argon2 (4, 0);
   MkSample "test4_twofish_uncompressed.kdbx" pw1 N_none (Some tk_test4_twofish_uncompressed) C_twofish K_argon2 (4, 0); MkSample "test4_argon2id.kdbx" pw1 N_none (Some tk_test4_argon2id) C_aes K_argon2id (4, 0);
   MkSample "test4_blankpass.kdbx" (Some []) (key_at "test4.key") (Some tk_test4_blankpass) C_aes K_argon2 (4, 0)].
Definition samples_b : list sample := [MkSample "test3_transformed.kdbx" None N_none (Some tk_test3_transformed) C_aes K_aes (3, 1); MkSample "test4_chacha20_uncompressed.kdbx" pw1 N_none (Some tk_test4_chacha20_uncompressed) C_chacha K_argon2 (4, 0)].
Definition samples_c : list sample := [MkSample "test3.kdbx" pw1 (key_at "test3.key") None C_aes K_aes (3, 1); MkSample "test4_transformed.kdbx" None N_none (Some tk_test4_transformed) C_chacha K_argon2 (4, 0)].
Definition samples : list sample := samples_a ++ samples_b ++ samples_c.
(** tests.py:1319-1367 *)
Definition rejected (f : string) (pw : string) (kf : string) : option exn := match opens f (Some $pw) (Some kf) None with Ok _ => None | Err e => Some e end.
(** tests.py:1370-1400 *)
Definition unread (x : sample) : bool := match open_db real lost0 tests_dir (F_path (here (s_file x))) (s_pw x) N_none (s_tk x) false with (Ok o, _) => as_expected x o | (Err _, _) => false end.
(** What the tests above raise, over a copy of test3.kdbx; over the samples. *)
Definition copy3 : world * obj := on_copy kp3 "test3_tmp.kdbx" f_test3.
Definition saving : list (W unit) := [save_binary; set_credentials "test3_tmp.kdbx" "foobar_user"; protects "foobar_entry" "foobar"; issue223 "test3_tmp.kdbx" "test3.key"; info].
Definition raised (l : list (W unit)) (s : world * obj) : list exn := flat_map (fun m => match passed (m s) with None => [] | Some e => [e] end) l.
Lemma all_end : forall l s, raised l s = [] -> Forall (fun m => exists s', m s = Ok (tt, s')) l.
Proof.
  unfold raised. intros l s. induction l as [|m l IH]; intros H; [constructor|]. cbn [flat_map] in H.
  apply app_eq_nil in H; destruct H as [H1 H2]. constructor; [|apply IH, H2]. revert H1. destruct (m s) as [[[] s']|e]; intros H1; [exists s'; reflexivity|discriminate H1].
Qed.
