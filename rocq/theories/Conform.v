(** The project's unit tests (tests/tests.py), transcribed as programs over the model and run on the project's own databases (RealOpen.v):
    the model behaves on them as the developers expect of the code.  Models no code of pykeepass/. *)
From Verif Require Import Base Base64 PyStr Xml Tree XPath FindSpec Db Time Api Deprecated Shown Hash Inflate Object.

(** *** A stand-in for re: literals, the dot and the star; ASCII case for the flag i *)
Definition low (c : N) : N := if (65 <=? c) && (c <=? 90) then c + 32 else c.
Definition atom (ic : bool) (c x : N) : bool := (c =? 46) || (if ic then low c =? low x else c =? x).
Fixpoint rx_here (fuel : nat) (ic : bool) (p s : str) : bool :=
  match fuel with
  | O => false
  | S f =>
      match p with
      | [] => true
      | c :: 42 :: p' => rx_here f ic p' s || (match s with x :: s' => atom ic c x && rx_here f ic p s' | [] => false end)
      | c :: p' => match s with x :: s' => atom ic c x && rx_here f ic p' s' | [] => false end
      end
  end.
Fixpoint rx_search (ic : bool) (p s : str) : bool :=
  rx_here (S (List.length p + List.length s)) ic p s || (match s with [] => false | _ :: s' => rx_search ic p s' end).
Definition rx : regex := fun p ic s => Ok (rx_search ic p s).
Definition zl : zlib := MkZlib gzip_of gunzip_of.
(** The clock at the [n]th call: noon, [n] seconds, 5 microseconds; the [n]th UUID. *)
Definition ck (n : Z) : clock := MkClock (MkDt 2024 6 1 12 0 n 5 (Some 0%Z)) (be_enc 16 (Z.to_N n + 77)) (fun _ => 0%Z).

(** *** unittest *)
Definition assert (b : bool) : M unit := if b then ret tt else raise Ex_Assertion.
Definition assert_len {A} (l : list A) (n : nat) : M unit := assert (List.length l =? n)%nat.
Definition assert_text (o : option str) (s : str) : M unit := assert (ostr_eqb o (Some s)).
Definition assert_raises {A} (e : exn -> bool) (m : M A) : M unit := fun d => match m d with (Err x, d') => (if e x then Ok tt else Err Ex_Assertion, d') | (Ok _, d') => (Err Ex_Assertion, d') end.
Definition some {A} (o : option A) : M A := match o with Some a => ret a | None => raise Ex_Assertion end.
Definition is_none {A} (o : option A) : bool := match o with None => true | Some _ => false end.
Definition ids (l : list ref) : list nat := map rid l.
Definition in_ids (i : nat) (l : list nat) : bool := existsb (Nat.eqb i) l.
Definition ids_eqb : list nat -> list nat -> bool := list_eqb Nat.eqb.
Definition path_is (l : list (option str)) (p : list str) : bool := list_eqb ostr_eqb l (map Some p).
Definition same_instant (a b : dt) : bool := match instant a, instant b with Some x, Some y => (x =? y)%Z | _, _ => false end.
Definition before (a b : dt) : bool := match instant a, instant b with Some x, Some y => (x <? y)%Z | _, _ => false end.
Definition strs_eqb : list str -> list str -> bool := list_eqb str_eqb.

(** *** Calls *)
Definition kws (l : list (string * string)) : list (str * kwval) := map (fun p => ($(fst p), K_str $(snd p))) l.
Definition q0 (kw : list (str * kwval)) : query := MkQuery None None false false None [] kw.
Definition q_re (flags : option str) (kw : list (str * kwval)) : query := MkQuery None None false true flags [] kw.
Definition q_in (g : option nat) (kw : list (str * kwval)) : query := MkQuery None g false false None [] kw.
Definition q_hist (kw : list (str * kwval)) : query := MkQuery None None true false None [] kw.
Definition q_at (p : list string) : query := MkQuery (Some (map (fun s => Some $s) p)) None false false None [] [].
Definition fe (q : query) : M (list nat) := lift (fun d => let* l := find_entries rx d true q in Ok (ids l)).
Definition fg (q : query) : M (list nat) := lift (fun d => let* l := find_groups rx d true q in Ok (ids l)).
Definition fe1 (q : query) : M nat := do l <- fe q; some (hd_error l).
Definition fg1 (q : query) : M nat := do l <- fg q; some (hd_error l).
Definition by_title (t : string) : M nat := fe1 (q0 (kws [("title", t)]%string)).
Definition by_name (t : string) : M nat := fg1 (q0 (kws [("name", t)]%string)).
Definition root : M nat := do r <- Api.root_group rx; some r.
Definition bin : M nat := do r <- recyclebin_group rx; some r.
Definition title := get_prop rx P_title. Definition username := get_prop rx P_username. Definition passw := get_prop rx P_password.
Definition add (n : Z) (dest : nat) (t u p : string) : M nat := add_entry rx (ck n) dest (Some $t) (Some $u) (Some $p) None None None T_none None None false.
Definition addg (n : Z) (dest : nat) (name : string) : M nat := add_group (ck n) (Some dest) (Some $name) None None.
Definition o0 : opts := MkOpts false None None false false.
Definition o1 : opts := MkOpts false None None false true.
Definition oi : opts := MkOpts true (Some $"i") None false true.
Definition old (f : db -> res found) : M (list nat) := lift (fun d => let* r := f d in match r with F_list l => Ok (ids l) | F_one _ => Err Ex_Assertion end).
Definition old1 (f : db -> res found) : M nat := lift (fun d => let* r := f d in match r with F_one (Some r) => Ok (rid r) | _ => Err Ex_Assertion end).
Definition uuid_hex (n : N) : bytes := be_enc 16 n.

(** *** class EntryFindTests3 (tests.py:72-345) *)
(** tests.py:76-80 *)
Definition test_find_entries_by_title : M unit :=
  do l <- old (fun d => find_entries_by_title rx d (Some $"root_entry") o0); do _ <- assert_len l 1;
  do e <- old1 (fun d => find_entries_by_title rx d (Some $"Root_entry") oi); do t <- title e; assert_text t $"root_entry".
(** tests.py:82-86 *)
Definition test_find_entries_by_username : M unit :=
  do l <- old (fun d => find_entries_by_username rx d (Some $"foobar_user") o0); do _ <- assert_len l 2;
  do e <- old1 (fun d => find_entries_by_username rx d (Some $"Foobar_user") oi); do t <- username e; assert_text t $"foobar_user".
(** tests.py:88-92 *)
Definition test_find_entries_by_password : M unit :=
  do l <- old (fun d => find_entries_by_password rx d (Some $"passw0rd") o0); do _ <- assert_len l 2;
  do e <- old1 (fun d => find_entries_by_password rx d (Some $"Passw0rd") oi); do t <- passw e; assert_text t $"passw0rd".
(** tests.py:94-98 *)
Definition test_find_entries_by_url : M unit :=
  do l <- old (fun d => find_entries_by_url rx d (Some $"http://example.com") o0); do _ <- assert_len l 2;
  do e <- old1 (fun d => find_entries_by_url rx d (Some $"http://example.com") o1); do t <- get_prop rx P_url e; assert_text t $"http://example.com".
(** tests.py:100-106 *)
Definition test_find_entries_by_notes : M unit :=
  do l <- old (fun d => find_entries_by_notes rx d (Some $"entry notes") o0); do _ <- assert_len l 1;
  do l <- old (fun d => find_entries_by_notes rx d (Some $"entry notes") (MkOpts true None None false false)); do _ <- assert_len l 2;
  do e <- old1 (fun d => find_entries_by_notes rx d (Some $"Entry notes") oi); do t <- get_prop rx P_notes e; assert_text t $"root entry notes".
(** tests.py:108-115 *)
Definition test_find_entries_by_path : M unit :=
  do e <- fe1 (q_at ["foobar_group"; "group_entry"]%string);
  do l <- fe (q_at ["foobar_group"]%string); do _ <- assert_len l 0;
  do e <- fe1 (MkQuery (Some [Some $"foobar_group"; Some $"Group_entry"]) None false true (Some $"i") [] []); do t <- title e; assert_text t $"group_entry".
(** tests.py:117-122 *)
Definition test_find_entries_by_uuid : M unit :=
  let uu := uuid_hex 0xcc5f7ecd2a0048ca9621c222a347b0bb in
  do l <- old (fun d => find_entries_by_uuid rx d (Some uu) o0); do e <- some (hd_error l);
  do u <- get_uuid e; do _ <- assert (str_eqb u uu); do t <- username e; assert_text t $"foobar_user".
(** tests.py:124-127 *)
Definition test_find_entries_by_tags : M unit := do e <- fe1 (q0 [($"tags", K_tags [$"tag1"; $"tag2"])]); do t <- title e; assert_text t $"foobar_entry".
(** tests.py:129-134 *)
Definition test_find_entries_by_string : M unit :=
  do l <- old (fun d => find_entries_by_string rx d [($"custom_field", $"custom field value")] o0); do e <- some (hd_error l);
  do v <- get_custom_property rx e $"custom_field"; do _ <- assert_text v $"custom field value";
  do u <- get_uuid e; assert (str_eqb u (uuid_hex 0x1e73786c74958c4c9b3dff273aad5b54)).
(** tests.py:136-139 *)
Definition test_find_entries_by_autotype_sequence : M unit :=
  do l <- fe (q_re None (kws [("autotype_sequence", "{TAB}")]%string)); do _ <- assert_len l 1;
  do e <- some (hd_error l); do s <- get_autotype_sequence e; assert_text s $"{USERNAME}{TAB}{PASSWORD}{ENTER}".
(** tests.py:141-144 *)
Definition test_find_entries_by_autotype_window : M unit :=
  do l <- fe (q_re (Some $"i") (kws [("autotype_window", "test")]%string)); do _ <- assert_len l 1;
  do e <- some (hd_error l); do s <- get_autotype_window e; assert_text s $"TEST".
(** tests.py:146-148 *)
Definition test_find_entries_by_autotype_enabled : M unit :=
  do l <- fe (q0 [($"autotype_enabled", K_bool true)]); do all <- Api.entries rx; assert_len all (S (List.length l)).
(** tests.py:150-157 (without pyotp) *)
Definition test_find_entries_by_otp : M unit :=
  do l <- fe (q_re (Some $"i") (kws [("otp", "nonmatch")]%string)); do _ <- assert_len l 0;
  do l <- fe (q_re None (kws [("otp", "OTPSECRETT")]%string)); do _ <- assert_len l 1;
  do e <- some (hd_error l); do t <- title e; assert_text t $"foobar_entry".
(** tests.py:159-176 *)
Definition test_find_entries : M unit :=
  do l <- fe (q_re None (kws [("title", "Root_entry")]%string)); do _ <- assert_len l 0;
  do e <- fe1 (q_re (Some $"i") (kws [("title", "Root_entry")]%string)); do t <- title e; do _ <- assert_text t $"root_entry";
  do l <- fe (q0 (kws [("url", "http://example.com")]%string)); do _ <- assert_len l 2;
  do l <- fe (q0 (kws [("notes", "entry notes"); ("url", "http://example.com")]%string)); do _ <- assert_len l 1;
  do e <- by_title "group_entry"; do _ <- assert (in_ids e l);
  do l <- fe (q_in None (kws [("title", "foobar_entry")]%string)); do _ <- assert_len l 3;
  do g <- by_name "foobar_group"; do l <- fe (q_in (Some g) (kws [("title", "foobar_entry")]%string)); assert_len l 2.
(** tests.py:180-190 *)
Definition test_is_a_history_entry : M unit :=
  each (fun t : string =>
    do r1 <- fe (q0 (kws [("title"%string, t)])); do _ <- each (fun e => do h <- is_a_history_entry e; assert (negb h)) r1;
    do r2 <- fe (q_hist (kws [("title"%string, t)])); do _ <- assert (List.length r1 <? List.length r2)%nat;
    each (fun e => if in_ids e r1 then ret tt else do h <- is_a_history_entry e; assert h) r2) ["root_entry"; "subentry"]%string.
(** tests.py:192-203 *)
Definition test_history : M unit :=
  do e <- by_title "subentry2"; do h <- history e; do _ <- assert_len h 0;
  do e <- by_title "subentry"; do h <- history e; do _ <- assert_len h 4; assert_len (nodup Nat.eq_dec h) 4.
(** tests.py:205-223 *)
Definition test_history_path_group : M unit :=
  each (fun t : string =>
    do e <- by_title t; do p <- entry_path rx e; do p <- some p; do g <- group_of rx e; do g <- some g; do h <- history e; do _ <- assert (0 <? List.length h)%nat;
    each (fun i => do p' <- entry_path rx i; do p' <- some p'; do _ <- assert (list_eqb ostr_eqb p p'); do g' <- group_of rx i; do g' <- some g'; assert (g =? g')%nat) h) ["root_entry"; "subentry"]%string.
(** tests.py:227-273 *)
Definition test_add_delete_move_entry : M unit :=
  do r <- root;
  do e <- add_entry rx (ck 1) r (Some $"test_add_entry_title") (Some $"test_add_entry_user") (Some $"test_add_entry_pass") (Some $"test_add_entry_url") (Some $"test_add_entry_notes")
            (Some (now (ck 0))) (T_list [$"tag1"; $"tag2"; $"tag3;tag4"; $"tag5,tag6"]) None (Some $"0") false;
  do l <- fe (q0 (kws [("title", "test_add_entry_title")]%string)); do _ <- assert_len l 1; do x <- some (hd_error l);
  do v <- title x; do _ <- assert_text v $"test_add_entry_title"; do v <- username x; do _ <- assert_text v $"test_add_entry_user"; do v <- passw x; do _ <- assert_text v $"test_add_entry_pass";
  do v <- get_prop rx P_url x; do _ <- assert_text v $"test_add_entry_url"; do v <- get_prop rx P_notes x; do _ <- assert_text v $"test_add_entry_notes";
  do t <- get_tags x; do _ <- assert_len t 6; do _ <- get_uuid x; do s <- get_autotype_sequence x; do _ <- assert (is_none s); do v <- get_icon x; do _ <- assert_text v $"0";
  do g <- addg 2 r "sub_group"; do _ <- move e g; do x <- fe1 (q_at ["sub_group"; "test_add_entry_title"]%string); do _ <- assert (x =? e)%nat;
  do _ <- Api.delete e; do l <- fe (q0 (kws [("title", "test_add_entry_title")]%string)); do _ <- assert_len l 0;
  do s <- by_name "subgroup2"; do _ <- add 3 s "foobar_entry" "foobar" "foobar"; do _ <- add 4 s "foobar_entry2" "foobar" "foobar"; do _ <- add 5 r "foobar_entry2" "foobar" "foobar"; ret tt.
(** pykeepass.py:695-702: adding a second entry of this title and user to the group (no test of the suite does it) *)
Definition test_add_twice : M unit :=
  do r <- root; do _ <- add 1 r "a" "b" "c"; assert_raises (fun x => match x with Ex_Generic => true | _ => false end) (add 2 r "a" "b" "d").
(** tests.py:293-345 *)
Definition test_expiration_time_tz : M unit :=
  each (fun p : Z * (dt * dt * bool) => let '(n, (t, utc, want)) := p in
    do r <- root;
    do e <- add_entry rx (ck n) r (Some $"test_exptime_tz") (Some (str_of_Z n)) (Some $"pass") None None (Some t) T_none None None false;
    do x <- expired (ck n) e; do _ <- assert (Bool.eqb x want); do v <- get_timeprop T_expiry e; do v <- some v; assert (same_instant v utc && same_instant v t))
    [(1, (MkDt 2024 6 1 18 0 1 0 (Some 360), MkDt 2024 6 1 12 0 1 0 (Some 0), true)); (2, (MkDt 2024 6 1 12 0 2 0 (Some 0), MkDt 2024 6 1 12 0 2 0 (Some 0), true));
     (3, (MkDt 2024 6 1 12 0 3 0 (Some (-360)), MkDt 2024 6 1 18 0 3 0 (Some 0), false))]%Z.
(** tests.py:349-360 (what __repr__ formats exists) *)
Definition test_print_entries : M unit :=
  do l <- Api.entries rx; do _ <- each (fun e => do _ <- entry_str rx e; ret tt) l;
  do e <- fe1 (q0 [($"title", K_str [1058; 1077; 1089; 1090])]); do _ <- save_history e; do _ <- entry_str rx e; do h <- history e; do _ <- each (fun e => do _ <- history_entry_str rx e; ret tt) h;
  do e <- fe1 (q0 (kws [("username", "blank_title")]%string)); do _ <- entry_str rx e; ret tt.

(** *** class GroupFindTests3 (tests.py:345-418) *)
(** tests.py:349-358 *)
Definition test_find_groups_by_name : M unit :=
  do l <- old (fun d => find_groups_by_name rx d (Some $"subgroup") o0); do _ <- assert_len l 1;
  do g <- old1 (fun d => find_groups_by_name rx d (Some $"subgroup") o1); do n <- get_name g; do _ <- assert_text n $"subgroup";
  do g <- by_name "foobar_group";
  do l <- fg (MkQuery None (Some g) false true None [] (kws [("name", ".*group.*")]%string)); do _ <- assert_len l 2;
  do l <- lift (fun d => find_groups rx d false (MkQuery None (Some g) false true None [] (kws [("name", ".*group.*")]%string))); assert_len l 1.
(** tests.py:360-366 *)
Definition test_find_groups_by_path : M unit :=
  do g <- old1 (fun d => find_groups_by_path rx d (Some [Some $"foobar_group"; Some $"subgroup"]) o0);
  do g <- fg1 (q_at ["foobar_group"; "subgroup"]%string); do n <- get_name g; do _ <- assert_text n $"subgroup";
  do l <- fg (q_at ["foobar_group"; "group_entry"]%string); assert_len l 0.
(** tests.py:368-373 *)
Definition test_find_groups_by_uuid : M unit :=
  let uu := uuid_hex 0x95155a325317a10fd4e4d0c2030264b6 in
  do _ <- old1 (fun d => find_groups_by_uuid rx d (Some uu) o1);
  do l <- fg (q_re None [($"uuid", K_uuid uu)]); assert_len l 1.
(** tests.py:375-379 *)
Definition test_find_groups_by_notes : M unit :=
  do l <- fg (q0 (kws [("notes", "group notes")]%string)); do _ <- assert_len l 1; do g <- some (hd_error l);
  do u <- get_uuid g; assert (str_eqb u (uuid_hex 0x95155a325317a10fd4e4d0c2030264b6)).
(** tests.py:381-384 *)
Definition test_groups : M unit := do l <- Api.groups rx; assert_len l 7.
(** tests.py:388-410 *)
Definition test_add_delete_move_group : M unit :=
  do r <- root; do b <- add_group (ck 1) (Some r) (Some $"base_group") None (Some $"this is a note for a group!"); do s <- addg 2 b "sub_group"; do s2 <- addg 3 b "sub_group2";
  do n <- get_group_notes b; do _ <- assert_text n $"this is a note for a group!"; do _ <- set_group_notes b (Some []); do n <- get_group_notes b; do _ <- assert_text n [];
  do x <- fg1 (q_at ["base_group"; "sub_group"]%string); do _ <- assert (x =? s)%nat; do _ <- get_uuid x;
  do _ <- move s2 s; do x <- fg1 (q_at ["base_group"; "sub_group"; "sub_group2"]%string); do _ <- assert (x =? s2)%nat;
  do _ <- Api.delete s; do l <- fg (q_at ["base_group"; "sub_group"]%string); assert_len l 0.
(** tests.py:414-419 *)
Definition test_print_groups : M unit := do l <- Api.groups rx; each (fun g => do _ <- group_str rx g; ret tt) l.

(** *** class RecycleBinTests3 (tests.py:421-484) *)
(** tests.py:423-430 *)
Definition test_recyclebincreation : M unit :=
  do b <- recyclebin_group rx; do _ <- assert (is_none b); do r <- root; do e <- add 1 r "RecycleBinTest1" "login" "password"; do _ <- trash rx (ck 2) e;
  do b <- bin; do l <- group_entries b; assert_len l 1.
(** tests.py:432-441 *)
Definition test_bin_entry : M unit :=
  do r <- root; do e <- add 1 r "RecycleBinTest2" "login" "password"; do u <- get_uuid e; do _ <- trash rx (ck 2) e;
  do l <- lift (fun d => find_entries rx d false (q_in (Some r) [($"uuid", K_uuid u)])); do _ <- assert_len l 0;
  do b <- bin; do l <- lift (fun d => find_entries rx d false (q_in (Some b) [($"uuid", K_uuid u)])); assert_len l 1.
(** tests.py:443-459 *)
Definition test_bin_group : M unit :=
  do r <- root; do g <- addg 1 r "RecycleBinTest3 Group"; do u <- get_uuid g; do e <- add 2 g "RecycleBinTest3 Entry" "login" "password"; do ue <- get_uuid e; do _ <- trash rx (ck 3) g;
  do l <- lift (fun d => find_groups rx d false (q_in (Some r) [($"uuid", K_uuid u)])); do _ <- assert_len l 0;
  do b <- bin; do l <- lift (fun d => find_groups rx d false (q_in (Some b) [($"uuid", K_uuid u)])); do _ <- assert_len l 1;
  do x <- some (hd_error l); do es <- group_entries (rid x); do _ <- assert_len es 1; do y <- some (hd_error es); do uy <- get_uuid y; assert (str_eqb uy ue).
(** tests.py:461-474 *)
Definition test_recyclebinemptying : M unit :=
  do r <- root; do e <- add 1 r "RecycleBinTest4 Entry" "login" "password"; do _ <- trash rx (ck 2) e; do g <- addg 3 r "RecycleBinTest4 Group"; do _ <- trash rx (ck 4) g;
  do b <- bin; do l <- group_subgroups b; do _ <- assert_len l 1; do l <- group_entries b; do _ <- assert_len l 1;
  do _ <- empty_group b; do b <- bin; do l <- group_subgroups b; do _ <- assert_len l 0; do l <- group_entries b; assert_len l 0.

(** *** class EntryTests3 (tests.py:477-680) *)
Definition entry_of (otp : option str) (t : dt) (n : Z) : M nat :=
  new_entry (ck n) (Some $"title") (Some $"username") (Some $"password") (Some $"url") (Some $"notes") otp (T_str $"tags") (Some true) (Some t) (Some $"0") None true None.
(** tests.py:479-513 *)
Definition test_fields : M unit :=
  let t := MkDt 2024 6 1 12 0 0 0 (Some 0%Z) in
  do e <- entry_of (Some $"otp") t 1;
  do v <- title e; do _ <- assert_text v $"title"; do v <- username e; do _ <- assert_text v $"username"; do v <- passw e; do _ <- assert_text v $"password"; do v <- get_prop rx P_url e; do _ <- assert_text v $"url";
  do v <- get_prop rx P_notes e; do _ <- assert_text v $"notes"; do v <- get_tags e; do _ <- assert (strs_eqb v [$"tags"]); do v <- get_prop rx P_otp e; do _ <- assert_text v $"otp";
  do v <- get_expires e; do _ <- assert (match v with Some b => b | None => false end); do v <- get_timeprop T_expiry e; do v <- some v; do _ <- assert (same_instant v t);
  do v <- get_icon e; do _ <- assert_text v $"0"; do h <- is_a_history_entry e; do _ <- assert (negb h);
  do e <- by_title "subentry"; do p <- entry_path rx e; do p <- some p; do _ <- assert (path_is p [$"foobar_group"; $"subgroup"; $"subentry"]);
  do e <- by_title "root_entry"; do h <- history e; do h <- some (hd_error h); do g <- group_of rx h; do g <- some g; do r <- root; assert (g =? r)%nat.
Definition dereference (v : option str) : M (option str) := Api.deref rx (fun l => l) 50 v.
(** tests.py:515-532 *)
Definition test_references : M unit :=
  do o <- by_title "foobar_entry"; do c1 <- by_title "foobar_entry - Clone"; do c2 <- by_title "foobar_entry - Clone of clone"; do pf <- by_title "foobar_entry - Clone with prefix and suffix";
  do ou <- username o; do ou <- some ou; do op <- passw o; do op <- some op;
  do v <- username c2; do v <- dereference v; do _ <- assert_text v ou; do v <- passw c2; do v <- dereference v; do _ <- assert_text v op;
  do v <- make_ref o $"username"; do w <- username c1; do _ <- assert_text w v;
  do v <- username pf; do v <- dereference v; do _ <- assert_text v ($"domain\" ++ ou ++ $"2"); do v <- passw pf; do v <- dereference v; do _ <- assert_text v ($"A" ++ op ++ $"BC");
  do s <- same o c1; do _ <- assert (negb s); do s <- same c1 c2; assert (negb s).
(** tests.py:534-546 *)
Definition test_broken_reference : M unit :=
  do r <- root; do e <- add 1 r "broken reference" "{REF:U@I:AAAAAAAAAAAAAAAAAAAAAAAAAAAAAAAA}" "{REF:P@I:AAAAAAAAAAAAAAAAAAAAAAAAAAAAAAAA}";
  do e <- by_title "broken reference"; do v <- username e; do v <- dereference v; do _ <- assert (is_none v); do v <- passw e; do v <- dereference v; do _ <- assert (is_none v); Api.delete e.
(** tests.py:548-602 *)
Definition test_set_and_get_fields : M unit :=
  let t := MkDt 2024 6 1 12 0 0 0 (Some 0%Z) in let t' := MkDt 2024 6 1 21 0 0 0 (Some 0%Z) in let ml := $"hello" ++ [10] ++ $"world" in
  do e <- entry_of None t 1;
  do _ <- set_prop rx P_title e (Some $"changed_title"); do _ <- set_prop rx P_username e (Some $"changed_username"); do _ <- set_prop rx P_password e (Some $"changed_password");
  do _ <- set_prop rx P_url e (Some $"changed_url"); do _ <- set_prop rx P_notes e (Some $"changed_notes"); do _ <- set_expires e false; do _ <- set_timeprop T_expiry e t'; do _ <- set_icon e (Some $"1");
  do _ <- set_custom_property rx e $"foo" (Some $"bar") false; do _ <- set_custom_property rx e $"multiline" (Some ml) false; do _ <- set_prop rx P_otp e (Some $"otpsecret");
  do v <- title e; do _ <- assert_text v $"changed_title"; do v <- username e; do _ <- assert_text v $"changed_username"; do v <- passw e; do _ <- assert_text v $"changed_password";
  do v <- get_prop rx P_url e; do _ <- assert_text v $"changed_url"; do v <- get_prop rx P_notes e; do _ <- assert_text v $"changed_notes"; do v <- get_icon e; do _ <- assert_text v $"1";
  do v <- get_custom_property rx e $"foo"; do _ <- assert_text v $"bar"; do v <- get_custom_property rx e $"multiline"; do _ <- assert_text v ml; do v <- get_prop rx P_otp e; do _ <- assert_text v $"otpsecret";
  do l <- custom_properties rx e; do _ <- assert (existsb (fun p => ostr_eqb (fst p) (Some $"foo")) l);
  do _ <- delete_custom_property rx e $"foo"; do v <- get_custom_property rx e $"foo"; do _ <- assert (is_none v);
  do v <- get_expires e; do _ <- assert (match v with Some b => negb b | None => false end); do v <- get_timeprop T_expiry e; do v <- some v; do _ <- assert (same_instant v t');
  do _ <- set_tags e [$"changed_tags"]; do v <- get_tags e; do _ <- assert (strs_eqb v [$"changed_tags"]); do _ <- set_tags e [$"changed;tags"]; do v <- get_tags e; do _ <- assert (strs_eqb v [$"changed"; $"tags"]);
  do _ <- set_tags e [$"changed"; $"again"; $"tags"]; do v <- get_tags e; do _ <- assert (strs_eqb v [$"changed"; $"again"; $"tags"]); do _ <- set_tags e []; do v <- get_tags e; assert (strs_eqb v []).
(** tests.py:604-620 *)
Definition test_expired_datetime_offset : M unit :=
  do e <- entry_of None (MkDt 2024 6 2 12 0 0 0 (Some 0%Z)) 1; do x <- expired (ck 2) e; do _ <- assert (negb x);
  do _ <- set_timeprop T_expiry e (MkDt 2024 5 31 12 0 0 0 (Some 0%Z)); do x <- expired (ck 3) e; assert x.
Definition touched (modify : bool) (i : nat) : M unit :=
  do a <- get_timeprop T_atime i; do a <- some a; do m <- get_timeprop T_mtime i; do m <- some m; do c <- get_timeprop T_ctime i; do c <- some c;
  do _ <- touch (ck 1) modify i;
  do a' <- get_timeprop T_atime i; do a' <- some a'; do m' <- get_timeprop T_mtime i; do m' <- some m'; do c' <- get_timeprop T_ctime i; do c' <- some c';
  assert (before a a' && (if modify then before m m' else same_instant m m') && same_instant c c').
(** tests.py:622-651 *)
Definition test_touch : M unit := do e <- by_title "root_entry"; do _ <- touched false e; do e <- by_title "foobar_entry"; do _ <- touched true e; do g <- by_name "foobar_group"; touched true g.
(** tests.py:654-671 *)
Definition test_add_remove_attachment : M unit :=
  do r <- root; do e <- add 1 r "title" "username" "password"; do l0 <- entry_attachments rx e; do _ <- add_attachment e 0 (Some $"foobar.txt"); do _ <- add_attachment e 0 (Some $"foobar2.txt");
  do l <- entry_attachments rx e; do _ <- assert_len l (List.length l0 + 2);
  do a <- lift (fun d => find_attachments rx d true (q0 [($"id", K_int 0); ($"filename", K_str $"foobar.txt")])); do a <- some (hd_error a);
  do f <- att_filename (rid a); do _ <- assert_text f $"foobar.txt"; do n <- att_id (rid a); do _ <- assert (n =? 0)%Z;
  do _ <- Api.delete (rid a); do l <- entry_attachments rx e; do _ <- assert_len l (List.length l0 + 1); do x <- some (hd_error l); do f <- att_filename x; assert_text f $"foobar2.txt".
(** tests.py:673-681 *)
Definition test_is_custom_property_protected : M unit :=
  do r <- root; do e <- add 1 r "test-protect" "some-user" "pass"; do _ <- set_custom_property rx e $"protected" (Some $"something") true; do _ <- set_custom_property rx e $"explicit-unprotected" (Some $"other") false;
  do _ <- set_custom_property rx e $"not-protected" (Some $"secret") false;
  do b <- is_custom_property_protected rx e $"protected"; do _ <- assert b; do b <- is_custom_property_protected rx e $"explicit-unprotected"; do _ <- assert (negb b);
  do b <- is_custom_property_protected rx e $"not-protected"; do _ <- assert (negb b); do b <- is_custom_property_protected rx e $"non-existent"; assert (negb b).
(** tests.py:683-692 *)
Definition test_reindex : M unit :=
  do r <- root; do e1 <- add 1 r "Test-Index1" "user-index" "pass"; do e2 <- add 2 r "Test-Index2" "user-index" "pass"; do e3 <- add 3 r "Test-Index3" "user-index" "pass"; do e4 <- add 4 r "Test-Index4" "user-index" "pass";
  do _ <- reindex rx e2 0; do _ <- reindex rx e3 0; do _ <- reindex rx e4 0; do l <- fe (q0 (kws [("username", "user-index")]%string)); assert (ids_eqb l [e4; e3; e2; e1]).

(** *** class EntryHistoryTests3 (tests.py:695-835) *)
Definition no_history (n : nat) (e : nat) : M unit := do b <- is_a_history_entry e; do _ <- assert (negb b); do h <- history e; assert_len h n.
Definition starts_with (p s : str) : bool := str_eqb (firstn (List.length p) s) p.
(** tests.py:699-830 *)
Definition test_find_history_entries : M unit :=
  let old_t := q0 (kws [("title", "TFE_title")]%string) in let new_t := q0 (kws [("title", "tfe_changed_title")]%string) in
  do r <- root; do e1 <- add 1 r "TFE_title" "TFE_user" "TFE_pass"; do g1 <- addg 2 r "TFE_group"; do _ <- add 3 g1 "TFE_title" "TFE_user" "TFE_pass"; do g2 <- addg 4 g1 "TFE_sub_group"; do _ <- add 5 g2 "TFE_title" "TFE_user" "TFE_pass";
  do r1 <- fe old_t; do _ <- assert_len r1 3; do _ <- each (no_history 0) r1; do r2 <- fe (q_hist (q_kw old_t)); do _ <- assert_len r2 3;
  do _ <- each save_history r1;
  do r1 <- fe old_t; do _ <- assert_len r1 3;
  do _ <- each (fun e => do _ <- no_history 1 e; do h <- history e; each (fun i => do b <- is_a_history_entry i; do _ <- assert b; do g <- group_of rx i; do g <- some g; do g' <- group_of rx e; do g' <- some g'; do _ <- assert (g =? g')%nat;
                   do s <- history_entry_str rx i; assert (starts_with $"HistoryEntry:" s)) h) r1;
  do r2 <- fe (q_hist (q_kw old_t)); do _ <- assert_len r2 6; do _ <- each (fun e => if in_ids e r1 then ret tt else do b <- is_a_history_entry e; assert b) r2;
  do _ <- each (fun e => do _ <- set_prop rx P_title e (Some $"tfe_changed_title"); do _ <- set_prop rx P_username e (Some $"tfe_changed_user"); do _ <- set_prop rx P_password e (Some $"tfe_changed_pass");
                  do _ <- set_timeprop T_atime e (now (ck 9)); set_timeprop T_mtime e (now (ck 9))) r1;
  do l <- fe old_t; do _ <- assert_len l 0; do l <- fe (q_hist (q_kw old_t)); do _ <- assert_len l 3;
  do l <- fe (q0 (kws [("username", "TFE_user")]%string)); do _ <- assert_len l 0; do l <- fe (q_hist (kws [("username", "TFE_user")]%string)); do _ <- assert_len l 3;
  do l <- fe new_t;
  do _ <- each (fun e => do h <- history e; each (fun i => do v <- title i; do _ <- assert_text v $"TFE_title"; do v <- username i; do _ <- assert_text v $"TFE_user"; do v <- passw i; do _ <- assert_text v $"TFE_pass";
                   do a <- get_timeprop T_atime i; do a <- some a; do m <- get_timeprop T_mtime i; do m <- some m; do c <- get_timeprop T_ctime e; do c <- some c; do c' <- get_timeprop T_ctime i; do c' <- some c';
                   assert (before a (now (ck 9)) && before m (now (ck 9)) && same_instant c c')) h) l;
  do _ <- each save_history l;
  do r1 <- fe new_t; do _ <- assert_len r1 3; do _ <- each (no_history 2) r1;
  do _ <- each (fun e => do h <- history e; each (fun i => do b <- is_a_history_entry i; do _ <- assert b; do g <- group_of rx i; do g <- some g; do g' <- group_of rx e; do g' <- some g'; assert (g =? g')%nat) h) r1;
  do r2 <- fe (q_hist (q_kw new_t)); do _ <- assert_len r2 6; do _ <- each (fun e => if in_ids e r1 then ret tt else do b <- is_a_history_entry e; assert b) r2;
  do h <- history e1; do x <- some (hd_error h); do _ <- delete_history e1 (Some x); do h <- history e1; do _ <- assert (negb (in_ids x h)); do _ <- assert (0 <? List.length h)%nat;
  do _ <- delete_history e1 None; do h <- history e1; assert_len h 0.

(** *** class GroupTests3 (tests.py:837-855) *)
(** tests.py:839-843 *)
Definition test_group_fields : M unit := do g <- by_name "subgroup2"; do p <- group_path rx g; assert (path_is p [$"foobar_group"; $"subgroup"; $"subgroup2"]).
(** tests.py:845-854 *)
Definition test_empty_group : M unit :=
  do r <- root; do g <- addg 1 r "emptytest_group"; do _ <- add 2 g "emptytest_entry" "user" "pass"; do _ <- addg 3 g "emptytest_subgroup";
  do l <- group_entries g; do _ <- assert_len l 1; do l <- group_subgroups g; do _ <- assert_len l 1; do _ <- empty_group g; do l <- group_entries g; do _ <- assert_len l 0; do l <- group_subgroups g; assert_len l 0.

(** *** class AttachmentTests3 (tests.py:857-910); saving and reloading: Conform_save.v *)
Definition is_binary_error (e : exn) : bool := match e with Ex_Binary => true | _ => false end.
(** tests.py:861-866, 880-883 *)
Definition test_create_delete_binary : M unit :=
  do _ <- assert_raises is_binary_error (delete_binary rx 999);
  do l <- Api.entries rx; do e <- some (hd_error l);
  do _ <- assert_raises is_binary_error (do _ <- add_attachment e 123 (Some $"foo.txt"); do l <- entry_attachments rx e; do a <- some (hd_error l); att_binary rx zl a); ret tt.
(** tests.py:880-883 *)
Definition test_empty_attachment : M unit :=
  do l <- lift (fun d => find_attachments rx d true (q0 (kws [("filename", "foo.txt")]%string))); do a <- some (hd_error l); do t <- the (rid a); do _ <- assert (is_none (etext t)); do b <- att_binary rx zl (rid a); assert_len b 0.
(** tests.py:885-896 *)
Definition test_attachment_reference_decrement : M unit :=
  do l <- Api.entries rx; do e <- some (hd_error l); do n1 <- add_binary rx zl $"foobar" true true; do n2 <- add_binary rx zl $"foobar2" true true;
  do _ <- add_attachment e n1 (Some $"foo.txt"); do a2 <- add_attachment e n2 (Some $"foo.txt"); do _ <- delete_binary rx n1; do n <- att_id a2; assert (n =? n2 - 1)%Z.
(** tests.py:898-905 *)
Definition test_attachment_fields : M unit :=
  do l <- Api.entries rx; do e <- some (hd_error l); do n <- add_binary rx zl $"foobar" true true; do a <- add_attachment e n (Some $"test.txt");
  do b <- att_binary rx zl a; do _ <- assert (str_eqb b $"foobar"); do m <- att_id a; do _ <- assert (m =? n)%Z; do f <- att_filename a; assert_text f $"test.txt".

(** *** class PyKeePassTests3 (tests.py:908-995, 1120-1146) *)
Definition due (want : bool) (n : Z) : M unit := do a <- credchange_required rx (ck n); do b <- credchange_recommended rx (ck n); assert (Bool.eqb a want && Bool.eqb b want).
Definition days (n : Z) : M unit := do _ <- set_credchange_days rx $"MasterKeyChangeForce" n; set_credchange_days rx $"MasterKeyChangeRec" n.
(** tests.py:949-993; the last part: setting the key file sets the date to now (pykeepass.py:920-923) *)
Definition test_credchange : M unit :=
  let unexpired := MkDt 2024 5 31 12 0 0 0 (Some 0%Z) in let exp := MkDt 2024 5 22 12 0 0 0 (Some 0%Z) in
  do _ <- days 5; do _ <- set_credchange_date rx unexpired; do _ <- due false 1; do _ <- set_credchange_date rx exp; do _ <- due true 2; do _ <- days (-1); do _ <- due false 3;
  do _ <- days 5; do _ <- set_credchange_date rx exp; do _ <- due true 4; do _ <- set_credchange_date rx (now (ck 5)); due false 6.
(** tests.py:1123-1143 (the part before saving) *)
Definition test_database_info : M unit :=
  each (fun p : string * string => do v <- get_meta rx $(fst p); do _ <- assert (is_none v); do _ <- set_meta rx $(fst p) (Some $(snd p)); do v <- get_meta rx $(fst p); assert_text v $(snd p))
    [("DatabaseName", "Test Name"); ("DatabaseDescription", "Test Description"); ("DefaultUserName", "Test User")]%string.

(** *** class BugRegressionTests3 (tests.py:996-1110) *)
(** tests.py:997-1000 *)
Definition test_issue129 : M unit := do e <- by_title "foobar_entry"; do v <- get_custom_property rx e $"multiline"; assert_text v ($"hello" ++ [10] ++ $"world").
(** tests.py:1002-1009 (the part before saving) *)
Definition test_pull102 : M unit := do e <- by_title "foobar_entry"; do v <- passw e; assert_text v $"foobar".
(** tests.py:1011-1024 *)
Definition test_issue193 : M unit :=
  do r <- root; do e <- add 1 r "test" "user" "pass"; do p <- xfirst rx (Some e) $"String/Key[text()=""Title""]/.."; do p <- some p; do _ <- lx_remove e (eid p);
  do v <- title e; do _ <- assert (is_none v); do l <- Api.entries rx; do _ <- assert (in_ids e l);
  do g <- addg 2 r "test_g"; do p <- xfirst rx (Some g) $"Name"; do p <- some p; do _ <- lx_remove g (eid p); do v <- get_name g; do _ <- assert (is_none v); do l <- Api.groups rx; assert (in_ids g l).
(** tests.py:1066-1072 *)
Definition test_issue308 : M unit := do l <- fe (q0 (kws [("title", "foobar_entry")]%string)); do l' <- fe (q0 (kws [("title", "foobar_entry")]%string ++ [($"username", K_none)])); assert (ids_eqb l l').
(** tests.py:1074-1079 *)
Definition test_issue344 : M unit :=
  do e <- by_title "none_date"; do p <- xfirst rx (Some e) $"Times/ExpiryTime"; do p <- some p; do _ <- lx_set_text (eid p) None; do v <- get_timeprop T_expiry e; assert (is_none v).
Definition protected_is (e : nat) (key : str) (want : bool) : M unit :=
  do f <- xfirst rx (Some e) (value_xp key); assert (Bool.eqb want (match f with Some v => match attr_of $"Protected" v with Some s => str_eqb s $"True" | None => false end | None => false end)).
(** tests.py:1081-1110 *)
Definition test_issue376 : M unit :=
  do r <- root; do e <- add 1 r "banana_entry" "user" "pass"; do _ <- protected_is e $"Password" true; do _ <- protected_is e $"Title" false; do v <- get_prop rx P_otp e; do _ <- assert (is_none v); do _ <- protected_is e $"otp" false;
  do _ <- set_prop rx P_title e (Some $"pineapple"); do _ <- set_prop rx P_password e (Some $"pizza"); do _ <- set_prop rx P_otp e (Some $"aa");
  do _ <- protected_is e $"Password" true; do _ <- protected_is e $"Title" false; do _ <- protected_is e $"otp" true;
  do _ <- set_string rx $"XYZ" e (Some $"1") None; do _ <- protected_is e $"XYZ" false; do _ <- set_string rx $"XYZ" e (Some $"1") (Some true); do _ <- protected_is e $"XYZ" true;
  do _ <- set_string rx $"XYZ" e (Some $"1") None; do _ <- protected_is e $"XYZ" true; do _ <- set_string rx $"XYZ" e (Some $"1") (Some false); protected_is e $"XYZ" false.

Definition suite : list (string * M unit) :=
  [("find_entries_by_title", test_find_entries_by_title); ("find_entries_by_username", test_find_entries_by_username); ("find_entries_by_password", test_find_entries_by_password); ("find_entries_by_url", test_find_entries_by_url);
   ("find_entries_by_notes", test_find_entries_by_notes); ("find_entries_by_path", test_find_entries_by_path); ("find_entries_by_uuid", test_find_entries_by_uuid); ("find_entries_by_tags", test_find_entries_by_tags);
   ("find_entries_by_string", test_find_entries_by_string); ("find_entries_by_autotype_sequence", test_find_entries_by_autotype_sequence); ("find_entries_by_autotype_window", test_find_entries_by_autotype_window);
   ("find_entries_by_autotype_enabled", test_find_entries_by_autotype_enabled); ("find_entries_by_otp", test_find_entries_by_otp); ("find_entries", test_find_entries); ("is_a_history_entry", test_is_a_history_entry);
   ("history", test_history); ("history_path, history_group", test_history_path_group); ("add_delete_move_entry", test_add_delete_move_entry); ("(adding twice)", test_add_twice); ("expiration_time_tz", test_expiration_time_tz);
   ("print_entries", test_print_entries); ("find_groups_by_name", test_find_groups_by_name); ("find_groups_by_path", test_find_groups_by_path); ("find_groups_by_uuid", test_find_groups_by_uuid);
   ("find_groups_by_notes", test_find_groups_by_notes); ("groups", test_groups); ("add_delete_move_group", test_add_delete_move_group); ("print_groups", test_print_groups); ("recyclebincreation", test_recyclebincreation);
   ("entry", test_bin_entry); ("group", test_bin_group); ("recyclebinemptying", test_recyclebinemptying); ("fields (entry)", test_fields); ("references", test_references); ("broken_reference", test_broken_reference);
   ("set_and_get_fields", test_set_and_get_fields); ("expired_datetime_offset", test_expired_datetime_offset); ("touch", test_touch); ("add_remove_attachment", test_add_remove_attachment);
   ("is_custom_property_protected", test_is_custom_property_protected); ("reindex", test_reindex); ("find_history_entries", test_find_history_entries); ("fields (group)", test_group_fields); ("empty_group", test_empty_group);
   ("create_delete_binary", test_create_delete_binary); ("empty attachment", test_empty_attachment); ("attachment_reference_decrement", test_attachment_reference_decrement); ("fields (attachment)", test_attachment_fields);
   ("credchange", test_credchange); ("database_info", test_database_info); ("issue129", test_issue129); ("pull102", test_pull102); ("issue193", test_issue193); ("issue308", test_issue308); ("issue344", test_issue344); ("issue376", test_issue376)]%string.
(** The tests that do not pass, with what they raise. *)
Definition failures (d : db) : list (string * exn) := flat_map (fun t => match fst (snd t d) with Ok _ => [] | Err e => [(fst t, e)] end) suite.
Definition the_db (o : obj) : db := match payload_of o with Ok d => d | Err _ => MkDb 0 0 [] [] O end.
Lemma all_pass : forall d, failures d = [] -> Forall (fun t => fst (snd t d) = Ok tt) suite.
Proof.
  unfold failures. intros d; generalize suite as l. induction l as [|[n m] l IH]; intros H; [constructor|]. cbn [flat_map snd fst] in H.
  apply app_eq_nil in H; destruct H as [H1 H2]. constructor; [|apply IH, H2]. cbn [snd]. revert H1. destruct (fst (m d)) as [[]|e]; intros H1; [reflexivity|discriminate H1].
Qed.
