(** C107: no UUID comes to be there twice. *)
From Verif Require Import Base Base64 PyStr Xml Tree XPath Time Uuid Db FindSpec ApiSpec FindEx Api ApiEx StructSpec StructEx CredSpec IntegritySpec IntegrityEx Integrity LocalSpec OutlineSpec OutlineEx Outline_tree RegisterSpec UniqueSpec Unique.

(** If the UUIDs of a group and everything in it differ, they differ after every history of calls that draws new UUIDs and assigns UUIDs that are not there, and moves only what is in the group. *)
Theorem c107_distinct : forall R Zl g l d, wf d -> laid d -> an_item d g -> all_typed R Zl l d -> Forall (fun c => settings (snd c)) l -> all_minted R Zl g l d -> distinct d g -> distinct (later R Zl l d) g.
Proof. exact distinct_history. Qed.
Print Assumptions c107_distinct.
(** One call puts nothing into a group but what was in it, and the new with the UUID drawn for it. *)
Theorem c107_newcomers : forall R Zl C o d g, wf d /\ laid d -> typed d o -> an_item d g -> minted C d g o ->
  exists e, forall x, inside (next R Zl (C, o) d) g x -> inside d g x \/ x = e /\ draws o /\ bears_uuid (next R Zl (C, o) d) e (uuid1 C).
Proof. exact inside_step. Qed.
Print Assumptions c107_newcomers.
(** With different UUIDs, the search for a UUID finds at most one entry and one group, with that UUID. *)
Theorem c107_entry_found : forall R d g u, wf d -> laid d -> rooted d g -> distinct d g -> one_uuid_each d g -> uuid_ok u ->
  exists l, find_entries R d true (for_uuid u) = Ok (map R_entry l) /\ (List.length l <= 1)%nat /\ forall x, In x l -> inside d g x /\ bears_uuid d x u.
Proof. exact found_entries. Qed.
Print Assumptions c107_entry_found.
Theorem c107_group_found : forall R d g u, wf d -> laid d -> rooted d g -> distinct d g -> one_uuid_each d g -> uuid_ok u ->
  exists l, find_groups R d true (for_uuid u) = Ok (map R_group l) /\ (List.length l <= 1)%nat /\ forall x, In x l -> inside d g x /\ bears_uuid d x u.
Proof. exact found_groups. Qed.
Print Assumptions c107_group_found.

(** *** Decided on the sample database *)
Definition root_of (d : db) : outline := outline_of 6 d 9.
Definition bearsb (d : db) (u : bytes) (x : nat) : bool := match fst (get_uuid x d) with Ok v => str_eqb v u | Err _ => false end.
Lemma bearsb_ok d u x : bears_uuid d x u <-> bearsb d u x = true.
Proof. unfold bears_uuid, bearsb. destruct (fst (get_uuid x d)) as [v|e]; [|split; discriminate]. rewrite str_eqb_eq. split; [now intros [= ->]|now intros ->]. Qed.
Lemma inside_root d x : pictureb d (root_of d) = true -> (inside d 9 x <-> In x (oids (root_of d))).
Proof. intros P. exact (inside_iff d (root_of d) x (pictureb_ok d _ P)). Qed.
Definition uuid_okb (u : bytes) : bool := forallb (fun b => b <? 256) u && (List.length u =? 16)%nat.
Definition unheardb (d : db) (u : bytes) : bool := uuid_okb u && forallb (fun y => negb (bearsb d u y)) (oids (root_of d)).
Definition insideb (d : db) (x : nat) : bool := existsb (Nat.eqb x) (oids (root_of d)).
Definition mintedb (C : clock) (d : db) (o : op) : bool :=
  pictureb d (root_of d) &&
  match o with
  | Op_uuid i u => uuid_okb u && (List.length (kids_tagged (look (d_forest d)) $"UUID" i) <=? 1)%nat && forallb (fun y => (y =? i)%nat || negb (bearsb d u y)) (oids (root_of d))
  | Op_add_entry _ _ _ _ _ _ _ _ _ _ _ | Op_add_group _ _ _ _ => unheardb d (uuid1 C)
  | Op_trash i => unheardb d (uuid1 C) && insideb d i
  | Op_move i _ => insideb d i
  | Op_append _ l => forallb (insideb d) l
  | _ => true
  end.
Lemma uuid_okb_ok u : uuid_okb u = true -> uuid_ok u.
Proof. unfold uuid_okb, uuid_ok. intros H. apply andb_prop in H as [A B]. apply Nat.eqb_eq in B. rewrite forallb_forall in A. split; [|exact B]. apply Forall_forall. intros x Hx. apply N.ltb_lt. now apply A. Qed.
Lemma insideb_ok d x : pictureb d (root_of d) = true -> insideb d x = true -> inside d 9 x.
Proof. intros P H. apply existsb_exists in H as (y & Hy & E). apply Nat.eqb_eq in E as <-. now apply inside_root. Qed.
Lemma unheardb_ok d u : pictureb d (root_of d) = true -> unheardb d u = true -> unheard d 9 u.
Proof. intros P H. apply andb_prop in H as [A B]. split; [now apply uuid_okb_ok|]. intros y Hy X. apply (inside_root d y P) in Hy. rewrite forallb_forall in B. apply B in Hy. apply bearsb_ok in X. rewrite X in Hy. discriminate Hy. Qed.
Lemma mintedb_ok C d o : mintedb C d o = true -> minted C d 9 o.
Proof.
  unfold mintedb. intros H. apply andb_prop in H as [P H]. destruct o; cbn [minted]; try exact Logic.I.
  - apply andb_prop in H as [H B]. apply andb_prop in H as [A L]. split; [now apply uuid_okb_ok|]. split; [now apply Nat.leb_le|]. intros y Hy Ny X. apply (inside_root d y P) in Hy. rewrite forallb_forall in B. apply B in Hy. apply bearsb_ok in X. rewrite X in Hy. apply Nat.eqb_neq in Ny. rewrite Ny in Hy. discriminate Hy.
  - now apply unheardb_ok.
  - now apply unheardb_ok.
  - now apply insideb_ok.
  - rewrite forallb_forall in H. apply Forall_forall. intros x Hx. apply insideb_ok; auto.
  - apply andb_prop in H as [A B]. split; [now apply unheardb_ok|now apply insideb_ok].
Qed.
Fixpoint all_mintedb (l : list (clock * op)) (d : db) : bool :=
  match l with [] => true | c :: l => mintedb (fst c) d (snd c) && all_mintedb l (next lit no_z c d) end.
Lemma all_mintedb_ok l : forall d, all_mintedb l d = true -> all_minted lit no_z 9 l d.
Proof. induction l as [|c l IH]; intros d H; [exact Logic.I|]. cbn [all_mintedb] in H. apply andb_prop in H as [A B]. split; [now apply mintedb_ok|now apply IH]. Qed.
Fixpoint differb (d : db) (l : list nat) : bool :=
  match l with [] => true | x :: l => match fst (get_uuid x d) with Ok u => forallb (fun y => negb (bearsb d u y)) l | Err _ => true end && differb d l end.
Lemma differb_ok d : forall l, differb d l = true -> forall x y u, In x l -> In y l -> bears_uuid d x u -> bears_uuid d y u -> x = y.
Proof.
  induction l as [|z l IH]; intros H x y u Hx Hy Bx By; [destruct Hx|]. cbn [differb] in H. apply andb_prop in H as [A B].
  assert (Z : forall w, In w l -> bears_uuid d z u -> ~ bears_uuid d w u).
  { intros w Hw Bz Bw. unfold bears_uuid in Bz. rewrite Bz in A. rewrite forallb_forall in A. apply A in Hw. apply bearsb_ok in Bw. rewrite Bw in Hw. discriminate Hw. }
  destruct Hx as [<-|Hx], Hy as [<-|Hy]; [reflexivity|now apply (Z y) in By|now apply (Z x) in Bx|now apply (IH B x y u)].
Qed.
Lemma distinctb_ok d : pictureb d (root_of d) = true -> differb d (oids (root_of d)) = true -> distinct d 9.
Proof. intros P H x y u Hx Hy. apply (inside_root d x P) in Hx. apply (inside_root d y P) in Hy. now apply (differb_ok d _ H). Qed.

Definition drawing (n : N) : clock := MkClock (now clk) (repeat n 16) (zone clk).
(** A group is added, an entry is snapshotted and assigned a UUID, entries are moved and thrown away: the bin is made. *)
Definition mint_calls : list (clock * op) :=
  [(clk, Op_add_group 9 (Some $"g2") None None); (clk, Op_save_history 20); (clk, Op_uuid 20 (repeat 6 16)); (clk, Op_move 67 9); (drawing 8, Op_trash 20); (clk, Op_append 56 [67; 126]%nat)].
Example c107_ex : wf edb /\ laid edb /\ an_item edb 9 /\ rooted edb 9 /\ all_typed lit no_z mint_calls edb /\ Forall (fun c => settings (snd c)) mint_calls /\ all_minted lit no_z 9 mint_calls edb /\ distinct edb 9 /\ one_uuid_each edb 9 /\
  (List.length (oids (root_of edb)) < List.length (oids (root_of (later lit no_z mint_calls edb))))%nat /\ find_entries lit (later lit no_z mint_calls edb) true (for_uuid (repeat 6 16)) = Ok [R_entry 20].
Proof.
  split; [exact edb_wf|]. split; [apply laidb_ok; [exact edb_wf|vm_compute; reflexivity]|]. split; [right; apply tagb_is; vm_compute; reflexivity|]. split; [apply rootedb_ok; vm_compute; reflexivity|]. split; [apply all_typedb_ok; vm_compute; reflexivity|].
  split; [repeat (constructor; [exact Logic.I|]); constructor|]. split; [apply all_mintedb_ok; vm_compute; reflexivity|]. split; [apply distinctb_ok; vm_compute; reflexivity|]. split; [|split; vm_compute; [repeat constructor|reflexivity]].
  intros x Hx. apply inside_root in Hx; [|vm_compute; reflexivity]. apply Nat.leb_le. revert x Hx. apply forallb_forall. vm_compute. reflexivity.
Qed.

(** *** Where the claim fails without the conditions *)
Lemma sample_fails l u x y : all_typedb lit no_z l edb = true -> let d := later lit no_z l edb in pictureb d (root_of d) = true -> insideb d x = true -> insideb d y = true -> bearsb d u x = true -> bearsb d u y = true -> x <> y ->
  (wf edb /\ laid edb /\ an_item edb 9 /\ distinct edb 9) /\ all_typed lit no_z l edb /\ ~ distinct (later lit no_z l edb) 9.
Proof.
  intros T d P Ix Iy Bx By N. split; [|split; [now apply all_typedb_ok|]].
  - split; [exact edb_wf|]. split; [apply laidb_ok; [exact edb_wf|vm_compute; reflexivity]|]. split; [right; apply tagb_is; vm_compute; reflexivity|apply distinctb_ok; vm_compute; reflexivity].
  - intros D. apply N. apply (D x y u); [now apply insideb_ok|now apply insideb_ok|now apply bearsb_ok|now apply bearsb_ok].
Qed.
(** A snapshot moved out of the history of its entry into a group has the UUID of its entry: two entries then have one UUID. *)
Theorem c107_snapshot_refuted : exists R Zl C d g e s, (wf d /\ laid d /\ an_item d g /\ distinct d g) /\ all_typed R Zl [(C, Op_save_history e); (C, Op_move s g)] d /\ ~ distinct (later R Zl [(C, Op_save_history e); (C, Op_move s g)] d) g.
Proof. exists lit, no_z, clk, edb, 9%nat, 20%nat, 152%nat. apply (sample_fails _ (repeat 2 16) 20 152); [vm_compute; reflexivity..|discriminate]. Qed.
Print Assumptions c107_snapshot_refuted.
(** Nothing keeps an entry from being assigned the UUID of another. *)
Theorem c107_assigned_refuted : exists R Zl C d g e u, (wf d /\ laid d /\ an_item d g /\ distinct d g) /\ all_typed R Zl [(C, Op_uuid e u)] d /\ ~ distinct (later R Zl [(C, Op_uuid e u)] d) g.
Proof. exists lit, no_z, clk, edb, 9%nat, 20%nat, (repeat 4 16). apply (sample_fails _ (repeat 4 16) 20 67); [vm_compute; reflexivity..|discriminate]. Qed.
Print Assumptions c107_assigned_refuted.
