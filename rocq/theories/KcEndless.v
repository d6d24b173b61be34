(** * KcEndless: two administrators watching a key ceremony without guardians keep each other busy for ever. *)
From Verif Require Import Base Group Spec Codec Hash ElGamal ZK Poly Ceremony GuiCeremony SpecGui GuiWatch SpecGuiWatch.
From Coq Require Import List Lia.
Local Open Scope string_scope.
Local Open Scope Z_scope.
Local Open Scope list_scope.

(** the program [c] of an administrator opens the page, looks, announces nobody, sends the message and starts to watch *)
Definition opens (c : string) : list watch_event :=
  [Step (Open c (Some c) true); FirstLook c; Step (RunStage c (fun _ => 0)); Notify c; Burn c].
(** it receives a message, announces nobody and sends a message *)
Definition again (c : string) : list watch_event := [Deliver c; Step (RunStage c (fun _ => 0)); Notify c].
Fixpoint for_long (n : nat) : list watch_event := match n with O => [] | S n' => again "a" ++ for_long n' end.
(** all that changes are the two counters *)
Definition busy (k : Z) : watch_world :=
  mkWatchWorld (mkWorld (kc_create 0 0) [] [("a", mkClient (Some "a") true Idle); ("b", mkClient (Some "b") true Idle)]) (k + 1)
    [("a", mkWatch (Watching k) false); ("b", mkWatch (Watching 2) false)].
Lemma busy_start E : watch_run E (watch_start 0 0) (opens "a" ++ opens "b") = busy 1.
Proof. reflexivity. Qed.
Lemma busy_deliver E k : watch_step E (busy k) (Deliver "a") = mkWatchWorld (mkWorld (kc_create 0 0) [] [("a", mkClient (Some "a") true (Running S2Announce (kc_create 0 0))); ("b", mkClient (Some "b") true Idle)]) (k + 1)
    [("a", mkWatch (Watching (k + 1)) false); ("b", mkWatch (Watching 2) false)].
Proof.
  unfold busy, watch_step. change (dget "a" [("a", mkWatch (Watching k) false); ("b", mkWatch (Watching 2) false)]) with (Some (mkWatch (Watching k) false)). cbv iota beta.
  replace (k <? k + 1) with true by (symmetry; apply Z.ltb_lt; lia). reflexivity.
Qed.
Lemma busy_again E k : watch_run E (busy k) (again "a") = busy (k + 1).
Proof. unfold again, watch_run. cbn [fold_left]. rewrite busy_deliver. reflexivity. Qed.
Lemma busy_moving E k l : moving E (busy (k + 1)) l -> moving E (busy k) (again "a" ++ l).
Proof.
  intros H. unfold again. cbn [app moving]. rewrite busy_deliver. split; [intros He; discriminate|].
  split; [intros He; discriminate|]. split; [intros He; apply (f_equal ww_sent) in He; cbn [ww_sent watch_step] in He; change (k + 1 + 1 = k + 1) in He; lia|]. exact H.
Qed.
Lemma long_moving E n : forall k, moving E (busy k) (for_long n).
Proof. induction n as [|n IH]; intros k; cbn [for_long]; [exact I|]. apply busy_moving, IH. Qed.
Lemma long_run E n : forall k, watch_run E (busy k) (for_long n) = busy (k + Z.of_nat n).
Proof.
  induction n as [|n IH]; intros k; cbn [for_long]; [change (Z.of_nat 0) with 0; rewrite Z.add_0_r; reflexivity|]. unfold watch_run. rewrite fold_left_app. change (fold_left (watch_step E) (again "a") (busy k)) with (watch_run E (busy k) (again "a")). rewrite busy_again.
  change (fold_left (watch_step E) (for_long n) (busy (k + 1))) with (watch_run E (busy (k + 1)) (for_long n)). rewrite IH. replace (k + 1 + Z.of_nat n) with (k + Z.of_nat (S n)) by lia. reflexivity.
Qed.
Lemma long_len n : len (for_long n) = 3 * Z.of_nat n.
Proof. unfold len. induction n as [|n IH]; [reflexivity|]. cbn [for_long again app List.length]. lia. Qed.
Lemma long_self n : Forall by_itself (for_long n).
Proof. induction n as [|n IH]; cbn [for_long again app]; repeat constructor. exact IH. Qed.
