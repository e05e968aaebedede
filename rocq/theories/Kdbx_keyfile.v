(** Key file streams in the key transformation. *)
From Verif Require Import Base Lib Keyfile Construct Kdbx.
Lemma seekable_iter b n : forall pos, exists p, Nat.iter n kf_next (KF_stream true b pos) = KF_stream true b p.
Proof. induction n as [|n IH]; intros pos; [cbn; eauto|]. destruct (IH pos) as [p E]. change (Nat.iter (S n) kf_next (KF_stream true b pos)) with (kf_next (Nat.iter n kf_next (KF_stream true b pos))). rewrite E. cbn. eauto. Qed.
Lemma seekable_stream L h pw tk d b pos n : let kf := Nat.iter n kf_next (KF_stream true b pos) in
  transformed4 L (MkCreds pw kf tk d) h = transformed4 L (MkCreds pw (KF_path (Some b)) tk d) h /\
  transformed3 L (MkCreds pw kf tk d) h = transformed3 L (MkCreds pw (KF_path (Some b)) tk d) h.
Proof. cbv zeta. destruct (seekable_iter b n pos) as [p ->]. split; reflexivity. Qed.
