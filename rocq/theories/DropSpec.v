(** What C117 says. *)
From Verif Require Import Base PyStr Xml Tree XPath Db FindSpec ApiSpec Api StructSpec.

(** Entries, groups and attachments. *)
Definition thing (d : db) (i : nat) : Prop := exists r, look (d_forest d) i = Some r /\ In (r_tag r) [$"Entry"; $"Group"; $"Binary"].
