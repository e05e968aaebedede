(** The gzip format (RFC 1952) around DEFLATE (RFC 1951): a decoder for all three kinds of blocks, and an encoder that stores.  What
    zlib.decompress(_, 16 + 15) in kdbx_parsing/common.py:364-373 undoes; zlib's compressor (375-385) chooses other, shorter encodings.
    Used by Real.v; models no code of /repo. *)
From Coq Require Import ZifyBool ZifyNat ZifyN.
From Verif Require Import Base.

(** *** Bits *)
(** The unread bits of the current byte, the bytes after it. *)
Definition rd : Type := list bool * bytes.
Fixpoint bits_of (n : nat) (x : N) : list bool := match n with O => [] | S n => N.odd x :: bits_of n (N.div2 x) end.
Definition rd_bit (s : rd) : res (bool * rd) :=
  match s with
  | (b :: l, r) => Ok (b, (l, r))
  | ([], x :: r) => match bits_of 8 x with b :: l => Ok (b, (l, r)) | [] => Err Ex_Zlib end
  | ([], []) => Err Ex_Zlib
  end.
(** Least significant bit first. *)
Fixpoint rd_bits (n : nat) (s : rd) : res (N * rd) :=
  match n with
  | O => Ok (0, s)
  | S n => let* (b, s) := rd_bit s in let* (v, s) := rd_bits n s in Ok ((if b then N.succ_double v else N.double v), s)
  end.

(** *** Huffman codes: the number of codes of each length from 1 on, the symbols in the order of their codes *)
Definition code : Type := list N * list N.
Definition lengths_code (ls : list N) : code :=
  let syms := combine ls (map N.of_nat (seq 0 (List.length ls))) in
  let of_len (n : nat) := filter (fun p => fst p =? N.of_nat n) syms in
  (map (fun n => lenN (of_len n)) (seq 1 15), flat_map (fun n => map snd (of_len n)) (seq 1 15)).
Fixpoint decode_f (counts : list N) (code first index : N) (syms : list N) (s : rd) : res (N * rd) :=
  match counts with
  | [] => Err Ex_Zlib
  | n :: counts =>
      let* (b, s) := rd_bit s in
      let code := if b then N.succ_double code else N.double code in let first := N.double first in
      if code <? first + n then match nth_error syms (N.to_nat (index + (code - first))) with Some x => Ok (x, s) | None => Err Ex_Zlib end
      else decode_f counts code (first + n) (index + n) syms s
  end.
Definition decode (c : code) (s : rd) : res (N * rd) := decode_f (fst c) 0 0 0 (snd c) s.
Definition fixed_lit : code := lengths_code (repeat 8 144 ++ repeat 9 112 ++ repeat 7 24 ++ repeat 8 8).
Definition fixed_dist : code := lengths_code (repeat 5 30).
Definition len_base : list N := [3; 4; 5; 6; 7; 8; 9; 10; 11; 13; 15; 17; 19; 23; 27; 31; 35; 43; 51; 59; 67; 83; 99; 115; 131; 163; 195; 227; 258].
Definition len_extra : list nat := [0; 0; 0; 0; 0; 0; 0; 0; 1; 1; 1; 1; 2; 2; 2; 2; 3; 3; 3; 3; 4; 4; 4; 4; 5; 5; 5; 5; 0]%nat.
Definition dist_base : list N := [1; 2; 3; 4; 5; 7; 9; 13; 17; 25; 33; 49; 65; 97; 129; 193; 257; 385; 513; 769; 1025; 1537; 2049; 3073; 4097; 6145; 8193; 12289; 16385; 24577].
Definition dist_extra : list nat := [0; 0; 0; 0; 1; 1; 2; 2; 3; 3; 4; 4; 5; 5; 6; 6; 7; 7; 8; 8; 9; 9; 10; 10; 11; 11; 12; 12; 13; 13]%nat.
(** The output is kept in reverse. *)
Fixpoint copy (n : nat) (d : nat) (out : bytes) : res bytes :=
  match n with
  | O => Ok out
  | S n => match nth_error out d with Some b => copy n d (b :: out) | None => Err Ex_Zlib end
  end.
Definition at_ {A} (l : list A) (i : N) : res A := match nth_error l (N.to_nat i) with Some x => Ok x | None => Err Ex_Zlib end.
Fixpoint codes (fuel : nat) (lit dist : code) (s : rd) (out : bytes) : res (rd * bytes) :=
  match fuel with
  | O => Err Ex_Zlib
  | S f =>
      let* (x, s) := decode lit s in
      if x <? 256 then codes f lit dist s (x :: out)
      else if x =? 256 then Ok (s, out)
      else
        let* lb := at_ len_base (x - 257) in let* le := at_ len_extra (x - 257) in
        let* (a, s) := rd_bits le s in
        let* (y, s) := decode dist s in
        let* db := at_ dist_base y in let* de := at_ dist_extra y in
        let* (b, s) := rd_bits de s in
        let* out := copy (N.to_nat (lb + a)) (N.to_nat (db + b - 1)) out in
        codes f lit dist s out
  end.
Definition order : list nat := [16; 17; 18; 0; 8; 7; 9; 6; 10; 5; 11; 4; 12; 3; 13; 2; 14; 1; 15]%nat.
Fixpoint read3 (n : nat) (s : rd) : res (list N * rd) := match n with O => Ok ([], s) | S n => let* (x, s) := rd_bits 3 s in let* (l, s) := read3 n s in Ok (x :: l, s) end.
(** Code lengths of a dynamic block, in reverse. *)
Fixpoint lens (fuel : nat) (c : code) (want : nat) (acc : list N) (s : rd) : res (list N * rd) :=
  match fuel with
  | O => Err Ex_Zlib
  | S f =>
      if (List.length acc =? want)%nat then Ok (acc, s)
      else if (want <? List.length acc)%nat then Err Ex_Zlib
      else
        let* (x, s) := decode c s in
        if x <? 16 then lens f c want (x :: acc) s
        else if x =? 16 then let* (n, s) := rd_bits 2 s in match acc with [] => Err Ex_Zlib | y :: _ => lens f c want (repeat y (N.to_nat (n + 3)) ++ acc) s end
        else if x =? 17 then let* (n, s) := rd_bits 3 s in lens f c want (repeat 0 (N.to_nat (n + 3)) ++ acc) s
        else let* (n, s) := rd_bits 7 s in lens f c want (repeat 0 (N.to_nat (n + 11)) ++ acc) s
  end.
Definition dynamic (fuel : nat) (s : rd) (out : bytes) : res (rd * bytes) :=
  let* (nl, s) := rd_bits 5 s in let* (nd, s) := rd_bits 5 s in let* (nc, s) := rd_bits 4 s in
  let* (cl, s) := read3 (N.to_nat (nc + 4)) s in
  let pos i := match List.find (fun p => (fst p =? i)%nat) (combine order cl) with Some p => snd p | None => 0 end in
  let* (ls, s) := lens 400 (lengths_code (map pos (seq 0 19))) (N.to_nat (nl + 257 + nd + 1)) [] s in
  let ls := rev ls in
  codes fuel (lengths_code (firstn (N.to_nat (nl + 257)) ls)) (lengths_code (skipn (N.to_nat (nl + 257)) ls)) s out.
(** The rest of the byte is skipped. *)
Definition stored (s : rd) (out : bytes) : res (rd * bytes) :=
  match snd s with
  | a :: b :: c :: d :: r =>
      let n := a + 256 * b in
      if (n + (c + 256 * d) =? 65535) && (n <=? lenN r) then Ok (([], skipn (N.to_nat n) r), rev_append (firstn (N.to_nat n) r) out) else Err Ex_Zlib
  | _ => Err Ex_Zlib
  end.
Fixpoint inflate (fuel syms : nat) (s : rd) (out : bytes) : res (rd * bytes) :=
  match fuel with
  | O => Err Ex_Zlib
  | S f =>
      let* (final, s) := rd_bits 1 s in
      let* (ty, s) := rd_bits 2 s in
      let* (s, out) := (if ty =? 0 then stored s out else if ty =? 1 then codes syms fixed_lit fixed_dist s out else if ty =? 2 then dynamic syms s out else Err Ex_Zlib) in
      if final =? 1 then Ok (s, out) else inflate f syms s out
  end.

(** *** gzip *)
Definition crc_step (c : N) : N := if N.odd c then N.lxor (N.div2 c) 0xEDB88320 else N.div2 c.
Definition crc_byte (c b : N) : N := crc_step (crc_step (crc_step (crc_step (crc_step (crc_step (crc_step (crc_step (N.lxor c b)))))))).
Definition crc32 (d : bytes) : N := N.lxor (fold_left crc_byte d 0xffffffff) 0xffffffff.
Fixpoint after_zero (d : bytes) : bytes := match d with [] => [] | 0 :: r => r | _ :: r => after_zero r end.
Definition flag (f i : N) : bool := N.testbit f i.
Definition gz_body (d : bytes) : res bytes :=
  match d with
  | 0x1f :: 0x8b :: 8 :: f :: _ :: _ :: _ :: _ :: _ :: _ :: r =>
      let r := if flag f 2 then match r with a :: b :: r => skipn (N.to_nat (a + 256 * b)) r | _ => [] end else r in
      let r := if flag f 3 then after_zero r else r in
      let r := if flag f 4 then after_zero r else r in
      Ok (if flag f 1 then skipn 2 r else r)
  | _ => Err Ex_Zlib
  end.
Definition all_bytesb (l : bytes) : bool := forallb is_byteb l.
Definition gunzip_of (d : bytes) : res bytes :=
  let* r := gz_body d in
  let* (s, out) := inflate (S (List.length r)) (S (8 * List.length r)) ([], r) [] in
  let x := rev_append out [] in
  if str_eqb (firstn 8 (snd s)) (le_enc 4 (crc32 x) ++ le_enc 4 (lenN x)) && all_bytesb x then Ok x else Err Ex_Zlib.
Definition max_stored : N := 65535.
Fixpoint store_blocks (fuel : nat) (d : bytes) : bytes :=
  match fuel with
  | O => []
  | S f => if lenN d <=? max_stored then [1] ++ le_enc 2 (lenN d) ++ le_enc 2 (65535 - lenN d) ++ d
           else [0] ++ [255; 255; 0; 0] ++ firstn (N.to_nat max_stored) d ++ store_blocks f (skipn (N.to_nat max_stored) d)
  end.
Definition gzip_of (d : bytes) : bytes :=
  [0x1f; 0x8b; 8; 0; 0; 0; 0; 0; 0; 3] ++ store_blocks (S (List.length d)) d ++ le_enc 4 (crc32 d) ++ le_enc 4 (lenN d).

(** *** Decoding what was stored *)
Lemma le2 n : n <= 65535 -> exists a b, le_enc 2 n = [a; b] /\ a + 256 * b = n.
Proof.
  intros H. exists (n mod 256), (n / 256 mod 256). split; [reflexivity|]. rewrite (N.mod_small (n / 256)) by (apply N.div_lt_upper_bound; lia). pose proof (N.div_mod n 256 ltac:(discriminate)). lia.
Qed.
Lemma stored_run bits n c r out : lenN c = n -> n <= 65535 -> stored (bits, le_enc 2 n ++ le_enc 2 (65535 - n) ++ c ++ r) out = Ok (([], r), rev c ++ out).
Proof.
  intros Hn Hm. destruct (le2 n Hm) as (a & b & -> & Ea). destruct (le2 (65535 - n) ltac:(lia)) as (a' & b' & -> & Eb). cbn [app]. unfold stored. cbn [snd]. cbv zeta. rewrite Ea, Eb.
  replace (n + (65535 - n) =? 65535) with true by lia. assert (L : N.to_nat n = List.length c) by (unfold lenN in Hn; lia).
  replace (n <=? lenN (c ++ r)) with true by (unfold lenN in *; rewrite app_length; lia). cbn [andb].
  rewrite L, firstn_app, Nat.sub_diag, firstn_all, firstn_O, app_nil_r, skipn_app, Nat.sub_diag, skipn_all. cbn [skipn app]. now rewrite rev_append_rev.
Qed.
Lemma bits_final r : rd_bits 1 ([], 1 :: r) = Ok (1, (repeat false 7, r)) /\ rd_bits 2 (repeat false 7, r) = Ok (0, (repeat false 5, r)).
Proof. split; reflexivity. Qed.
Lemma bits_more r : rd_bits 1 ([], 0 :: r) = Ok (0, (repeat false 7, r)).
Proof. reflexivity. Qed.
Lemma inflate_stored f : forall d g syms r out, (List.length d < f)%nat -> (List.length d < g)%nat -> inflate g syms ([], store_blocks f d ++ r) out = Ok (([], r), rev d ++ out).
Proof.
  induction f as [|f IH]; intros d g syms r out Hf Hg; [lia|]. destruct g as [|g]; [lia|]. cbn [store_blocks inflate]. destruct (N.leb_spec (lenN d) max_stored) as [Hd|Hd]; unfold max_stored in *.
  - cbn [app]. rewrite (proj1 (bits_final _)). cbn [bind]. rewrite (proj2 (bits_final _)). cbn [bind]. change (0 =? 0) with true. cbv iota. rewrite <- !app_assoc, stored_run by (reflexivity || lia). reflexivity.
  - cbn [app]. rewrite bits_more. cbn [bind]. rewrite (proj2 (bits_final _)). cbn [bind]. change (0 =? 0) with true. cbv iota. rewrite <- app_assoc.
    set (c := firstn (N.to_nat 65535) d). set (e := skipn (N.to_nat 65535) d). assert (Ed : d = c ++ e) by (symmetry; apply firstn_skipn).
    assert (Lc : lenN c = 65535) by (unfold c, lenN in *; rewrite firstn_length; lia).
    change (255 :: 255 :: 0 :: 0 :: c ++ store_blocks f e ++ r) with (le_enc 2 65535 ++ le_enc 2 (65535 - 65535) ++ c ++ store_blocks f e ++ r). rewrite stored_run by (assumption || lia). cbn [bind]. change (0 =? 1) with false. cbv iota.
    clearbody c e. subst d. rewrite app_length in Hf, Hg. unfold lenN in Lc. rewrite IH by lia. now rewrite rev_app_distr, app_assoc.
Qed.
Lemma le2_ok n : bytes_ok (le_enc 2 n). Proof. apply le_enc_ok. Qed.
Lemma store_ok f : forall d, bytes_ok d -> bytes_ok (store_blocks f d).
Proof.
  induction f as [|f IH]; intros d H; [constructor|]. cbn [store_blocks]. destruct (lenN d <=? max_stored).
  - apply bytes_ok_app. split; [repeat constructor|]. apply bytes_ok_app. split; [apply le_enc_ok|]. apply bytes_ok_app. split; [apply le_enc_ok|exact H].
  - rewrite <- (firstn_skipn (N.to_nat max_stored) d) in H. apply bytes_ok_app in H. destruct H as (H1 & H2). apply bytes_ok_app. split; [repeat constructor|]. apply bytes_ok_app. split; [repeat constructor|].
    apply bytes_ok_app. split; [exact H1|apply IH, H2].
Qed.
Lemma all_bytesb_iff l : all_bytesb l = true <-> bytes_ok l.
Proof.
  unfold all_bytesb, bytes_ok. rewrite forallb_forall, Forall_forall. split; intros H x Hx; specialize (H x Hx); unfold is_byteb, is_byte in *; lia.
Qed.
Lemma store_length f : forall d, (List.length d < f)%nat -> (List.length d < List.length (store_blocks f d))%nat.
Proof.
  induction f as [|f IH]; intros d H; [lia|]. cbn [store_blocks]. destruct (N.leb_spec (lenN d) max_stored) as [Hd|Hd].
  - rewrite !app_length. cbn [List.length]. lia.
  - rewrite !app_length. cbn [List.length]. assert (E : (List.length (skipn (N.to_nat max_stored) d) < List.length d)%nat) by (rewrite skipn_length; unfold lenN in Hd; unfold max_stored in *; lia).
    specialize (IH (skipn (N.to_nat max_stored) d) ltac:(lia)). rewrite firstn_length. rewrite skipn_length in *. lia.
Qed.
Lemma gzip_inverse d : bytes_ok d -> bytes_ok (gzip_of d) /\ gunzip_of (gzip_of d) = Ok d.
Proof.
  intros H. split.
  - unfold gzip_of. apply bytes_ok_app. split; [repeat constructor|]. apply bytes_ok_app. split; [apply store_ok, H|]. apply bytes_ok_app. split; apply le_enc_ok.
  - unfold gunzip_of, gzip_of. cbn [app gz_body flag N.testbit]. cbn [bind]. set (tl := le_enc 4 (crc32 d) ++ le_enc 4 (lenN d)). set (b := store_blocks (S (List.length d)) d).
    pose proof (store_length (S (List.length d)) d ltac:(lia)) as Lb. fold b in Lb.
    unfold b at 3. rewrite inflate_stored; [|lia|rewrite app_length; lia]. cbn [bind]. rewrite app_nil_r, rev_append_rev, rev_involutive, app_nil_r. cbn [snd].
    assert (T : firstn 8 tl = tl) by (apply firstn_all2; unfold tl; rewrite app_length, !le_enc_length; lia). rewrite T. unfold tl at 1. rewrite (proj2 (str_eqb_eq _ _) eq_refl), (proj2 (all_bytesb_iff d) H). reflexivity.
Qed.
Lemma gunzip_bytes d x : gunzip_of d = Ok x -> bytes_ok x.
Proof.
  unfold gunzip_of. intros H. apply bind_ok in H. destruct H as (r & _ & H). apply bind_ok in H. destruct H as ((s & out) & _ & H). cbv zeta in H. destruct (str_eqb _ _ && _) eqn:E; [|discriminate]. injection H as <-.
  apply andb_prop in E. now apply all_bytesb_iff.
Qed.
