(** * PropsKcList: which key ceremonies exist, what they are called and to whom they are shown (C75).
    Only theorems and non-vacuity examples.  A history starts with an empty database; calls start, make their next step in any
    interleaving or stop for ever, and key ceremonies are completed. *)
From Verif Require Import Base Group Hash GuiUpload KcList KcListThms.
From Coq Require Import List Lia.
Local Open Scope string_scope.
Local Open Scope Z_scope.
Local Open Scope list_scope.

(** A key ceremony whose creation was answered with its id has no larger quorum than guardians.  The guardians are shown it with its
    name, and it cannot be chosen for an election, until it is completed; from then on, for ever, it is the other way round. *)
Theorem C75_shown h c id : In c (kw_calls (k_history h)) -> kc_at c = KAnswered (KCreated id) -> let w := kw_db (k_history h) in
  kc_quorum c <= kc_count c /\
  (~ In (KComplete id) h -> In (id, kc_name c) (get_key_ceremonies w) /\ forall n, ~ In (id, n) (get_keys w)) /\
  forall h', let w' := kw_db (k_history (h ++ KComplete id :: h')) in In (id, kc_name c) (get_keys w') /\ forall n, ~ In (id, n) (get_key_ceremonies w').
Proof. intros Hc Ha. apply shown_thm; [exact Hc|right; exact Ha]. Qed.
Print Assumptions C75_shown.
(** Nothing is listed twice, and only what a call has made is listed, under the name of that call. *)
Theorem C75_only h : let w := kw_db (k_history h) in
  NoDup (map fst (get_key_ceremonies w ++ get_keys w)) /\
  forall id n, In (id, n) (get_key_ceremonies w ++ get_keys w) -> exists c, In c (kw_calls (k_history h)) /\ kc_name c = n /\ (kc_at c = KNotify id \/ kc_at c = KAnswered (KCreated id)).
Proof. exact (only_thm h). Qed.
Print Assumptions C75_only.
Example C75_shown_example : let h := [KStart "a" 3 2; KStart "b" 1 2; KStart "c" 2 2; KNext 0 ""; KNext 1 ""; KNext 0 "k1"; KNext 2 ""; KNext 2 "k2"; KNext 0 ""; KNext 2 ""] in
  kw_calls (k_history h) = [mkKCall "a" 3 2 (KAnswered (KCreated "k1")); mkKCall "b" 1 2 (KAnswered KRefused); mkKCall "c" 2 2 (KAnswered (KCreated "k2"))] /\
  get_key_ceremonies (kw_db (k_history h)) = [("k1", "a"); ("k2", "c")] /\
  get_keys (kw_db (k_history (h ++ [KComplete "k1"]))) = [("k1", "a")] /\ get_key_ceremonies (kw_db (k_history (h ++ [KComplete "k1"]))) = [("k2", "c")].
Proof. repeat split; vm_compute; reflexivity. Qed.

(** A creation that nobody interrupts makes the key ceremony as asked if the quorum is not larger than the number of guardians and the
    name is new; otherwise it is refused and changes nothing. *)
Theorem C75_create name c q new w : ~ In new (map kd_id w) ->
  (q <= c /\ ~ In name (map kd_name w) -> k_run 3 new (mkKCall name c q KCheck) w = (KAnswered (KCreated new), w ++ [mkKDoc new name c q false])) /\
  (c < q \/ In name (map kd_name w) -> k_run 3 new (mkKCall name c q KCheck) w = (KAnswered KRefused, w)).
Proof. exact (run_thm name c q new w). Qed.
Print Assumptions C75_create.
Example C75_create_example : k_run 3 "k2" (mkKCall "b" 3 3 KCheck) [mkKDoc "k1" "a" 2 2 true] = (KAnswered (KCreated "k2"), [mkKDoc "k1" "a" 2 2 true; mkKDoc "k2" "b" 3 3 false]) /\
  k_run 3 "k2" (mkKCall "a" 3 3 KCheck) [mkKDoc "k1" "a" 2 2 true] = (KAnswered KRefused, [mkKDoc "k1" "a" 2 2 true]).
Proof. split; vm_compute; reflexivity. Qed.
(** There is no lower bound: key ceremonies without guardians and with a quorum of zero or less are made. *)
Theorem C75_bounds_refuted : forall q, q <= 0 -> exists w, k_run 3 "k1" (mkKCall "a" 0 q KCheck) [] = (KAnswered (KCreated "k1"), w) /\ get_key_ceremonies w = [("k1", "a")].
Proof. intros q Hq. eexists. split; [apply run_thm; [intros []|split; [exact Hq|intros []]]|reflexivity]. Qed.
Print Assumptions C75_bounds_refuted.

(** Creations one after the other, each stopping anywhere: no two key ceremonies have the same name. *)
Theorem C75_names h : NoDup (map kd_name (k_in_turn h)).
Proof. exact (in_turn_names_thm h). Qed.
Print Assumptions C75_names.
Example C75_names_example : map id_name (k_in_turn [("a", 2, 2, "k1", 3%nat); ("a", 3, 2, "k2", 3%nat); ("b", 3, 2, "k3", 2%nat); ("c", 3, 2, "k4", 1%nat)]) = [("k1", "a"); ("k3", "b")].
Proof. vm_compute. reflexivity. Qed.
(** Two creations at the same time can make two key ceremonies with the same name, and both are shown to the guardians. *)
Theorem C75_names_refuted : exists h, get_key_ceremonies (kw_db (k_history h)) = [("k1", "a"); ("k2", "a")] /\ forall c, In c (kw_calls (k_history h)) -> exists id, kc_at c = KAnswered (KCreated id).
Proof.
  exists [KStart "a" 2 2; KStart "a" 2 2; KNext 0 ""; KNext 1 ""; KNext 0 "k1"; KNext 1 "k2"; KNext 0 ""; KNext 1 ""]. split; [vm_compute; reflexivity|]. intros c Hc. vm_compute in Hc. destruct Hc as [<-|[<-|[]]]; eexists; reflexivity.
Qed.
Print Assumptions C75_names_refuted.
