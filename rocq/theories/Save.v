(** Model of the file-system side of PyKeePass.save (pykeepass.py:143-182) and of construct's build_file, pathlib's
    with_suffix and shutil.move as used there.
    Simplifications: a path is a directory plus a final component (no links, no case folding, no directory at the
    target); durability after power loss is not modelled, only the sequence of effects of the process. *)
From Verif Require Import Base.

Record path := MkPath { p_dir : str; p_name : str }.
Definition path_eqb (a b : path) : bool := str_eqb (p_dir a) (p_dir b) && str_eqb (p_name a) (p_name b).
(** Files present, with contents. *)
Definition fs := path -> option bytes.
Definition fs_set (s : fs) (p : path) (v : option bytes) : fs := fun q => if path_eqb p q then v else s q.

(** The part before the last dot, if there is a dot that is neither first nor last (PurePath.suffix). *)
Fixpoint last_dot (i : nat) (s : str) : option nat :=
  match s with
  | [] => None
  | c :: s' => match last_dot (S i) s' with Some j => Some j | None => if c =? 46 then Some i else None end
  end.
Definition stem (name : str) : str :=
  match last_dot 0 name with
  | Some i => if (0 <? i)%nat && (i <? List.length name - 1)%nat then firstn i name else name
  | None => name
  end.
(** [Path(filename).with_suffix('.tmp')] (pykeepass.py:169); ValueError for an empty name. *)
Definition tmp_of (p : path) : res path :=
  match p_name p with [] => Err Ex_Value | n => Ok (MkPath (p_dir p) (stem n ++ $".tmp")) end.

(** Effects on the file system, in order. *)
Inductive fsop :=
| Create (p : path)               (* open(p, 'wb'): create or truncate *)
| Write (p : path) (b : bytes)    (* bytes reach the file *)
| Remove (p : path)               (* os.remove *)
| Rename (p q : path).            (* os.rename *)
Definition run_op (s : fs) (o : fsop) : fs :=
  match o with
  | Create p => fs_set s p (Some [])
  | Write p b => fs_set s p (match s p with Some old => Some (old ++ b) | None => Some b end)
  | Remove p => fs_set s p None
  | Rename p q => if path_eqb p q then s else fs_set (fs_set s q (s p)) p None
  end.
Definition run (s : fs) (l : list fsop) : fs := fold_left run_op l s.

(** What the operating system does during one call: whether the temporary file can be opened, how many bytes the disk
    still takes, how buffered bytes reach the disk, whether rename works (otherwise shutil.move copies). *)
Record env := MkEnv { e_open : bool; e_room : option nat; e_split : bytes -> list bytes; e_rename : bool }.
Definition env_ok (e : env) : Prop := forall b, List.concat (e_split e b) = b.

(** shutil.move(tmp, target) for files. *)
Definition move_ops (e : env) (tmp target : path) (data : bytes) : list fsop :=
  if e_rename e then [Rename tmp target]
  else Create target :: map (Write target) (e_split e data) ++ [Remove tmp].
(** What of [out] the disk takes; writing beyond that raises OSError. *)
Definition limited (room : option nat) (out : bytes) (r : res unit) : bytes * res unit :=
  match room with
  | Some n => if (List.length out <=? n)%nat then (out, r) else (firstn n out, Err Ex_IO)
  | None => (out, r)
  end.
(** pykeepass.py:166-182, with the outcome [out, r] of building: the bytes written and whether building raised. *)
Definition save_ops (e : env) (s : fs) (target : path) (out : bytes) (r : res unit) : list fsop * res unit :=
  match tmp_of target with
  | Err x => ([], Err x)
  | Ok tmp =>
      if e_open e then
        let '(out, r) := limited (e_room e) out r in
        let w := Create tmp :: map (Write tmp) (e_split e out) in
        match r with
        | Ok _ => (w ++ move_ops e tmp target out, Ok tt)
        | Err x => (w ++ [Remove tmp], Err x)
        end
      else (match s tmp with Some _ => [Remove tmp] | None => [] end, Err Ex_IO)
  end.
