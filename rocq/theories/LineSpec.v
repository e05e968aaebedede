(** The string fields of one entry within histories of all kinds of calls: which calls of the history write to the ledger of the entry (Ledger.v). *)
From Verif Require Import Base PyStr Xml Tree XPath Uuid Time Db FindSpec Api ApiSpec StructSpec CredSpec IntegritySpec Ledger.

(** The call on the string fields of the entry [e], if it is one. *)
Definition on_strings (e : nat) (o : op) : list call :=
  match o with
  | Op_prop j p v => if (j =? e)%nat then [Set_prop p v] else []
  | Op_custom j k v b => if (j =? e)%nat then [Set_custom k v b] else []
  | Op_delete_custom j k => if (j =? e)%nat then [Del_custom k] else []
  | _ => []
  end.
Definition calls_on (e : nat) (l : list (clock * op)) : list call := flat_map (fun c => on_strings e (snd c)) l.
(** How these calls ended. *)
Definition ending (a : res answer) : res unit := match a with Ok _ => Ok tt | Err x => Err x end.
Fixpoint told (R : regex) (Zl : zlib) (e : nat) (l : list (clock * op)) (d : db) : list (res unit) :=
  match l with
  | [] => []
  | c :: l => match on_strings e (snd c) with [] => [] | _ => [fst (run R Zl (fst c) (snd c) d)] end ++ told R Zl e l (next R Zl c d)
  end.
(** The calls that read string fields. *)
Definition asks (c : call) : Prop := match c with Get_prop _ | Get_custom _ | Get_flag _ | Get_all => True | _ => False end.
