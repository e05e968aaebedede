(** The settings of the database as registers: what reads them and which calls assign to them. *)
From Verif Require Import Base PyStr Xml Tree XPath Uuid Time Db FindSpec Api ApiSpec StructSpec CredSpec IntegritySpec.

Inductive quantity := Q_text (p : textprop) | Q_days (w : due) | Q_changed.
Inductive value := V_text (v : option str) | V_days (n : option Z) | V_date (x : option dt).
(** Reading a setting. *)
Definition ask (R : regex) (q : quantity) : M value :=
  match q with
  | Q_text p => do v <- get_meta R (text_tag p); ret (V_text v)
  | Q_days w => do n <- due_days R w; ret (V_days n)
  | Q_changed => do x <- credchange_date R; ret (V_date x)
  end.
(** The calls that assign to a setting. *)
Definition sets (q : quantity) (o : op) : Prop :=
  match q, o with
  | Q_text p, Op_meta tag _ => tag = text_tag p
  | Q_days w, Op_days w' _ => w' = w
  | Q_changed, Op_changed _ => True
  | _, _ => False
  end.
(** What an assignment leaves to be read; the setting is there once.  Times keep the instant, to the second (C03 to C05). *)
Inductive stores (d : db) : quantity -> op -> value -> Prop :=
| stores_text p i v : setting d (text_tag p) [i] -> text_ok v = true -> stores d (Q_text p) (Op_meta (text_tag p) (Some v)) (V_text (Some v))
| stores_days w i n : setting d (due_tag w) [i] -> stores d (Q_days w) (Op_days w n) (V_days (Some n))
| stores_old i v : setting d $"MasterKeyChanged" [i] -> d_major d < 4 -> dt_valid v -> doff v = Some 0%Z -> stores d Q_changed (Op_changed v) (V_date (Some v))
| stores_new i v b x : setting d $"MasterKeyChanged" [i] -> 4 <= d_major d -> dt_valid v -> instant v = Some b -> (0 <= b < MAXSEC * 1000000)%Z -> (b mod 1000000 = 0)%Z -> instant x = Some b -> stores d Q_changed (Op_changed v) (V_date (Some x)).
