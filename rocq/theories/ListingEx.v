(** Checkers and a regular-expression oracle for the examples about listings. *)
From Verif Require Import Base PyStr Xml Tree XPath Db FindSpec ApiSpec FindEx Api ApiEx Prim Heap StructSpec Struct Struct_bin Listing.

Definition wild : regex := fun p f s => if str_eqb p $".*" then Ok true else lit p f s.
Definition labelledb (d : db) : bool := forallb (fun t => negb (str_eqb (etag t) $"Binary") || match kids_of $"Key" t, kids_of $"Value" t with [], [] | _ :: _, _ :: _ => true | _, _ => false end) (elements (d_forest d)).
Lemma labelledb_ok d : wf d -> labelledb d = true -> labelled d.
Proof.
  intros W Hb a (r & E & T). destruct (look_has d a r W E) as (t & Ht & <- & <-). unfold labelledb in Hb. rewrite forallb_forall in Hb. specialize (Hb t Ht). change (etag t = $"Binary") in T. rewrite T in Hb. change (str_eqb $"Binary" $"Binary") with true in Hb. cbn [negb orb] in Hb.
  rewrite !(kids_tagged_of d t _ W Ht). destruct (kids_of $"Key" t), (kids_of $"Value" t); try discriminate Hb; split; intros X; try reflexivity; discriminate X.
Qed.
