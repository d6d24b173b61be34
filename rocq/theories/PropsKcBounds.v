(** * PropsKcBounds: which key ceremonies can get a joint key (C75). *)
From Verif Require Import Base Group Spec Codec Hash DLog ElGamal ZK Poly Manifest Ballot Encrypt Ceremony GuiCeremony SpecGui Tiny EncryptThms GuiStuck GuiDemo KcBounds.
From Coq Require Import List Lia.
Local Open Scope Z_scope.

(** Although ceremonies with any quorum up to the number of guardians are made, none with a quorum below one, and so none without guardians,
    ever gets a joint key or is completed, whatever the programs do, in whatever order and with whatever crashes. *)
Theorem C75_completed E count quorum d h : create_key_ceremony count quorum = Some d ->
  let d' := w_doc (gui_run E (gui_start count quorum) h) in kc_joint d' <> None \/ kc_completed d' = true -> 1 <= quorum <= count.
Proof. exact (bounds_thm E count quorum d h). Qed.
Print Assumptions C75_completed.
Example C75_completed_example : (exists d, create_key_ceremony 1 1 = Some d) /\ (exists d, create_key_ceremony 0 (-3) = Some d) /\ exists h, kc_joint (w_doc (gui_run medium (gui_start 1 1) h)) <> None.
Proof.
  split; [eexists; reflexivity|]. split; [eexists; reflexivity|]. destruct unmarked_refuted as (h & _ & _ & _ & H). exists (h ++ []). specialize (H [] (Forall_nil _)). cbv zeta in H. destruct H as [H _]; [exact I|].
  intros Hj. unfold get_key_ceremony_state in H. rewrite Hj in H. repeat match type of H with (if ?b then _ else _) = _ => destruct b end; discriminate.
Qed.
