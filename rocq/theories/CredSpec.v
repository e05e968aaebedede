(** The database settings stored in the Meta section, described on the rows of the store. *)
From Verif Require Import Base PyStr Xml Tree XPath Time Db FindSpec Api ApiSpec StructSpec.

(** [l]: the children [T] of the only Meta element of the document. *)
Definition setting (d : db) (T : str) (l : list nat) : Prop := exists r m,
  hd_error (roots (d_forest d)) = Some r /\ is_tag (look (d_forest d)) $"KeePassFile" r /\ kids_tagged (look (d_forest d)) $"Meta" r = [m] /\ kids_tagged (look (d_forest d)) T m = l.
(** A day in microseconds. *)
Definition DAY : Z := 86400000000.
(** More than [n] whole days lie between the instants [b] and [a]. *)
Definition overdue (a b n : Z) : Prop := exists k : Z, (n < k)%Z /\ (b + k * DAY <= a)%Z.
Inductive due := Required | Recommended.
Definition due_tag (w : due) : str := match w with Required => $"MasterKeyChangeForce" | Recommended => $"MasterKeyChangeRec" end.
Definition due_now (R : regex) (C : clock) (w : due) : M bool := match w with Required => credchange_required R C | Recommended => credchange_recommended R C end.
Definition due_days (R : regex) (w : due) : M (option Z) := match w with Required => credchange_days R $"MasterKeyChangeForce" | Recommended => credchange_days R $"MasterKeyChangeRec" end.
Definition set_due_days (R : regex) (w : due) (n : Z) : M unit := match w with Required => set_credchange_days R $"MasterKeyChangeForce" n | Recommended => set_credchange_days R $"MasterKeyChangeRec" n end.
(** The text properties of the database. *)
Inductive textprop := M_name | M_description | M_username.
Definition text_tag (p : textprop) : str := match p with M_name => $"DatabaseName" | M_description => $"DatabaseDescription" | M_username => $"DefaultUserName" end.
