(** C110: asking changes nothing. *)
From Verif Require Import Base Base64 PyStr Xml Tree XPath Time Uuid Db FindSpec ApiSpec FindEx Api ApiEx StructSpec StructEx CredSpec IntegritySpec Lib Kdbx Object ReadSpec Read.

(** Whatever is asked, and whether there is an answer or an exception: the database is as before. *)
Theorem c110_asking : forall R Zl so C q d, snd (ask R Zl so C q d) = d.
Proof. exact ask_reads. Qed.
Print Assumptions c110_asking.
(** The same for the object as a whole: password, key file, file name, header and contents, so that what save() writes is the same too; also when nothing was decrypted. *)
Theorem c110_object : forall R Zl so C q o, snd (call (ask R Zl so C q) o) = o.
Proof. exact ask_object. Qed.
Print Assumptions c110_object.
(** Two sessions that make the same changes in the same order end with the same database, and each change has the same outcome, wherever questions are asked in between. *)
Theorem c110_sessions : forall R Zl so l l' d, changes l = changes l' -> session R Zl so l d = session R Zl so l' d.
Proof. exact session_two. Qed.
Print Assumptions c110_sessions.

(** A session with questions of many kinds (some raising) between two changes that take effect. *)
Definition asked : list (clock * deed) :=
  map (fun q => (clk, Ask q)) [Ask_entries; Ask_uuid 20; Ask_expired 20; Ask_prop P_title 20; Ask_entry_path 20; Ask_index 20; Ask_customs 20; Ask_bin; Ask_meta $"DatabaseName"; Ask_xpath $"//Entry" None true false; Ask_data 20; Ask_deref 5 (Some $"{REF:T@I:00}")].
Definition busy : list (clock * deed) := asked ++ (clk, Change (Op_prop 20 P_title (Some $"new"))) :: asked ++ [(clk, Change (Op_delete 4000))] ++ asked.
Definition brief : list (clock * deed) := [(clk, Change (Op_prop 20 P_title (Some $"new"))); (clk, Change (Op_delete 4000))].
Example c110_ex : changes busy = changes brief /\ busy <> brief /\ map (fun r => match r with Ok _ => true | Err _ => false end) (fst (session lit no_z (fun l => l) brief edb)) = [true; false] /\
  fst (get_prop lit P_title 20 edb) <> Ok (Some $"new") /\ fst (get_prop lit P_title 20 (snd (session lit no_z (fun l => l) brief edb))) = Ok (Some $"new").
Proof. repeat apply conj; try (vm_compute; reflexivity); vm_compute; discriminate. Qed.
