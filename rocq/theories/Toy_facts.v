(** The sample databases of Toy.v meet the hypotheses of the theorems in Prop_Kdbx.v. *)
From Verif Require Import Base Base64 PyStr Utf8 Xml Xml_facts Cbc Cbc_facts Lib Keyfile Construct Kdbx KdbxSpec Kdbx_facts Kdbx_rt Kdbx_inner Kdbx_file Kdbx_v3 Kdbx_auth Kdbx_claims Toy.

Definition open_or (v : kdbx) (d : bytes) : kdbx := match open_kdbx toy sample_cr d with Ok (k, _) => k | Err _ => v end.
Definition dummy_k : kdbx := MkKdbx (MkHdr [] 0 0 None) None.
Definition k4 : kdbx := Eval vm_compute in open_or dummy_k file4.
Definition k3 : kdbx := Eval vm_compute in open_or dummy_k file3.
Definition k3c : kdbx := Eval vm_compute in open_or dummy_k file3c.
Definition tk4 : bytes := Eval vm_compute in match transformed4 toy sample_cr (k_hdr k4) with Ok t => t | Err _ => [] end.
Definition tk3 : bytes := Eval vm_compute in match transformed3 toy sample_cr (k_hdr k3) with Ok t => t | Err _ => [] end.
Lemma opened_k4 : opened 4 toy sample_cr file4 k4.
Proof. split; [apply all_bytesb_ok; vm_compute; reflexivity|]. split; [reflexivity|]. split; [reflexivity|]. exists []. vm_compute. reflexivity. Qed.
Lemma opened_k3 : opened 3 toy sample_cr file3 k3.
Proof. split; [apply all_bytesb_ok; vm_compute; reflexivity|]. split; [reflexivity|]. split; [reflexivity|]. exists []. vm_compute. reflexivity. Qed.
Lemma opened_k3c : opened 3 toy sample_cr file3c k3c.
Proof. split; [apply all_bytesb_ok; vm_compute; reflexivity|]. split; [reflexivity|]. split; [reflexivity|]. exists []. vm_compute. reflexivity. Qed.
Lemma tk4_ok : transformed4 toy sample_cr (k_hdr k4) = Ok tk4. Proof. vm_compute. reflexivity. Qed.
Lemma tk3_ok : transformed3 toy sample_cr (k_hdr k3) = Ok tk3. Proof. vm_compute. reflexivity. Qed.
Definition new_bins : list bytes := [[0; 7; 7]; [1]].
Lemma small_bins : Forall small new_bins. Proof. repeat constructor; vm_compute; reflexivity. Qed.
Lemma fits_k4 : fits4 toy (edited k4 new_bins sample_doc2) tk4.
Proof.
  intros b p comp c mk iv ct Hb Hp Hc Hci Hm Hi He.
  assert (E : payload_encrypt toy C_chacha (sha256 toy (repeat 17 32 ++ tk4)) (repeat 9 12) p = Ok ct).
  { rewrite <- He. f_equal.
    - vm_compute in Hci. injection Hci as <-. reflexivity.
    - unfold master_key in Hm. change (hbytes Ex_Attribute (k_hdr (edited k4 new_bins sample_doc2)) H_seed) with (Ok (repeat 17 32)) in Hm. cbn [bind] in Hm. congruence.
    - change (hbytes Ex_Attribute (k_hdr (edited k4 new_bins sample_doc2)) H_iv) with (Ok (repeat 9 12)) in Hi. congruence.
    - vm_compute in Hc. injection Hc as <-. reflexivity. }
  change (k_body (edited k4 new_bins sample_doc2)) with (Some (MkBody (match k_body k4 with Some b => b_tkey b | None => [] end) (match k_body k4 with Some b => b_mkey b | None => [] end)
     (Some (MkPay (Some (MkInner new_bins (match k_body k4 with Some b => match b_payload b with Some p => match p_hdr p with Some ih => ih_items ih | None => [] end | None => [] end | None => [] end))) sample_doc2)))) in Hb.
  injection Hb as <-. cbn [b_payload] in Hp. vm_compute in Hp. injection Hp as <-. vm_compute in E. injection E as <-. vm_compute. discriminate.
Qed.
Lemma fits_k3 : fits3 toy (edited k3 [] sample_doc2).
Proof.
  intros t comp Ht s t' Hs Hp Hc. vm_compute in Ht. injection Ht as <-. vm_compute in Hs. injection Hs as <-.
  vm_compute in Hp. injection Hp as <-. vm_compute in Hc. injection Hc as <-. vm_compute. discriminate.
Qed.
