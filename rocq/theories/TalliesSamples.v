(** * TalliesSamples: a few elections and histories. *)
From Verif Require Import Base Group Hash GuiUpload GuiTallies SpecTallies.
From Coq Require Import List.
Local Open Scope string_scope.
Definition two_elections : tdb := mkTdb [mkTElection "e1" "Primary" []; mkTElection "e2" "Runoff" []] [].
Definition same_names : tdb := mkTdb [mkTElection "e1" "Primary" []; mkTElection "e2" "Primary" []] [].
Lemma two_elections_start : no_tallies two_elections.
Proof. split; [repeat constructor; cbn; intros H; decompose [or] H; congruence|reflexivity|]. intros x [<-|[<-|[]]]; reflexivity. Qed.
Lemma same_names_start : no_tallies same_names.
Proof. split; [repeat constructor; cbn; intros H; decompose [or] H; congruence|reflexivity|]. intros x [<-|[<-|[]]]; reflexivity. Qed.
(** two whole creations, one of them of a tally that is completed later; a third one whose name is taken *)
Definition quiet : list t_event :=
  [TStart "e1" "a"; TNext 0 "t1"; TNext 0 "t1"; TNext 0 "t1"; TNext 0 "t1"; TStart "e2" "b"; TNext 1 "t2"; TNext 1 "t2"; TNext 1 "t2"; TNext 1 "t2";
   TComplete "t1"; TStart "e2" "a"; TNext 2 "t3"; TNext 2 "t3"].
(** two creations with the same name that both check before either inserts *)
Definition race : list t_event :=
  [TStart "e1" "a"; TStart "e1" "a"; TNext 0 "t1"; TNext 1 "t2"; TNext 0 "t1"; TNext 1 "t2"; TNext 0 "t1"; TNext 1 "t2"; TNext 0 "t1"; TNext 1 "t2"].
(** a creation that stops after the insert *)
Definition stopped : list t_event := [TStart "e1" "a"; TNext 0 "t1"; TNext 0 "t1"; TNext 0 "t1"].
