(** * PropsKcEndless: what a key ceremony without guardians does to the programs of the administrators (C67, C75). *)
From Verif Require Import Base Group Spec Codec Hash ElGamal ZK Poly Ceremony GuiCeremony SpecGui GuiWatch SpecGuiWatch KcEndless.
From Coq Require Import List Lia.
Local Open Scope Z_scope.

(** That guardians are asked for is needed in C67_comes_to_an_end: a ceremony for no guardians can be created, and once two administrators
    have its page open their programs send messages for ever, without anybody doing anything and without the ceremony changing. *)
Theorem C67_no_guardians_refuted : forall E, exists d h, create_key_ceremony 0 0 = Some d /\ let w := watch_run E (watch_start 0 0) h in
  forall N, exists l, Forall by_itself l /\ N <= len l /\ moving E w l /\
    ww_sent (watch_run E w l) >= N /\ w_doc (ww_world (watch_run E w l)) = d.
Proof.
  intros E. exists (kc_create 0 0), (opens "a" ++ opens "b")%list. split; [reflexivity|]. cbv zeta. rewrite busy_start. intros N. exists (for_long (Z.to_nat N)).
  split; [apply long_self|]. split; [rewrite long_len; lia|]. split; [apply long_moving|]. rewrite long_run. split; [cbn [ww_sent busy]; lia|reflexivity].
Qed.
Print Assumptions C67_no_guardians_refuted.
Example C67_no_guardians_ex : len (for_long 4) = 12.
Proof. reflexivity. Qed.
