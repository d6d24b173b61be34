(** * PropsTallies: the tallies of an election, their names and where they are listed (C74).
    Only theorems and non-vacuity examples; the vocabulary is in SpecTallies.v. *)
From Verif Require Import Base Group Hash GuiUpload GuiTallies SpecTallies TalliesThms TalliesSamples.
From Coq Require Import List.
Local Open Scope string_scope.
Local Open Scope list_scope.

(** Whatever creations run, in whatever interleaving and with whatever stops: an election lists only its own tallies, under their names, no
    tally is listed twice, and once all calls have come to their end every tally is listed by its election. *)
Theorem C74_listed w0 h : no_tallies w0 -> let w := tally_db w0 h in
  (forall x id n, In x (tb_elections w) -> In (id, n) (te_decryptions x) -> tally_of w (te_id x) id n) /\
  (forall id, times_listed w id <= 1)%nat /\
  (all_done (t_history (mkTWorld w0 []) h) -> forall e id n, tally_of w e id n -> times_listed w id = 1%nat /\ exists x, In x (tb_elections w) /\ te_id x = e /\ In (id, n) (te_decryptions x)).
Proof. exact (listed_thm w0 h). Qed.
Print Assumptions C74_listed.
Example C74_listed_example : no_tallies two_elections /\ all_done (t_history (mkTWorld two_elections []) quiet) /\
  tally_db two_elections quiet = mkTdb [mkTElection "e1" "Primary" [("t1", "a")]; mkTElection "e2" "Runoff" [("t2", "b")]] [mkTDoc "t1" "e1" "a" true; mkTDoc "t2" "e2" "b" false] /\
  get_active (tally_db two_elections quiet) = [("t2", "b")]%string.
Proof.
  split; [exact two_elections_start|]. split; [|split; vm_compute; reflexivity]. intros c Hc. vm_compute in Hc. destruct Hc as [<-|[<-|[<-|[]]]]; eexists; reflexivity.
Qed.
(** A creation that stops before its last step leaves a tally that no election lists, and whose name is taken for ever. *)
Theorem C74_unlisted_refuted : no_tallies two_elections /\ tally_of (tally_db two_elections stopped) "e1" "t1" "a" /\ times_listed (tally_db two_elections stopped) "t1" = 0%nat /\
  forall h e new, fst (t_run 4 new (TCreate e "a") (tally_db two_elections (stopped ++ h))) = TAnswered TFailed.
Proof.
  split; [exact two_elections_start|]. split; [eexists; split; [left; reflexivity|repeat split; reflexivity]|]. split; [vm_compute; reflexivity|].
  intros h e new. assert (Hn : name_exists (tally_db two_elections (stopped ++ h)) "a" = true).
  { unfold tally_db, t_history. rewrite fold_left_app. apply name_stays_history. vm_compute. reflexivity. }
  cbn [t_run t_step]. destruct (t_find _ e); [|reflexivity]. cbn [t_run t_step]. rewrite Hn. reflexivity.
Qed.
Print Assumptions C74_unlisted_refuted.

(** The guardians are shown every tally that was never completed, with its name, and a completed one never again. *)
Theorem C74_active w0 h e id n : no_tallies w0 -> tally_of (tally_db w0 h) e id n ->
  (~ In (TComplete id) h -> In (id, n) (get_active (tally_db w0 h))) /\ forall h' n', ~ In (id, n') (get_active (tally_db w0 (h ++ TComplete id :: h'))).
Proof. exact (active_thm w0 h e id n). Qed.
Print Assumptions C74_active.
Example C74_active_example : tally_of (tally_db two_elections quiet) "e2" "t2" "b" /\ ~ In (TComplete "t2") quiet /\ get_active (tally_db two_elections (quiet ++ [TComplete "t2"])) = [].
Proof. split; [eexists; split; [right; left; reflexivity|repeat split; reflexivity]|]. split; [|vm_compute; reflexivity]. intros H. cbn in H. decompose [or] H; try discriminate; assumption. Qed.

(** Creations one after the other, each stopping anywhere: no two tallies have the same name. *)
Theorem C74_names w0 h : no_tallies w0 -> NoDup (map td_name (tb_docs (in_turn w0 h))).
Proof. intros [_ H _]. apply in_turn_names. rewrite H. constructor. Qed.
Print Assumptions C74_names.
Example C74_names_example : tb_docs (in_turn two_elections [("e1", "a", "t1", 4%nat); ("e2", "a", "t2", 4%nat); ("e2", "b", "t3", 3%nat)]%string) = [mkTDoc "t1" "e1" "a" false; mkTDoc "t3" "e2" "b" false].
Proof. vm_compute. reflexivity. Qed.
(** Two creations at the same time can make two tallies with the same name. *)
Theorem C74_names_refuted : no_tallies two_elections /\ map td_name (tb_docs (tally_db two_elections race)) = ["a"; "a"]%string.
Proof. split; [exact two_elections_start|vm_compute; reflexivity]. Qed.
Print Assumptions C74_names_refuted.

(** The suggested name is accepted, for each election and every time, if the elections have different names and the tallies so far
    were made one after the other with suggested names, even if some of these creations stopped half-way and some tallies were completed. *)
Theorem C74_suggested w0 h e new : no_tallies w0 -> NoDup (map te_name (tb_elections w0)) -> In e (map te_id (tb_elections w0)) -> let w := as_suggested w0 h in unused w new ->
  exists name, suggested_name w e = Ok name /\ fst (t_run 4 new (TCreate e name) w) = TAnswered (TCreated new).
Proof. exact (suggested_thm w0 h e new). Qed.
Print Assumptions C74_suggested.
Example C74_suggested_example : NoDup (map te_name (tb_elections two_elections)) /\
  let w := as_suggested two_elections [Create "e1" "t1" 4; Create "e2" "t2" 3; Complete "t1"; Create "e1" "t3" 4] in
  map td_name (tb_docs w) = ["Primary Tally #1"; "Runoff Tally #1"; "Primary Tally #2"]%string /\ unused w "t4" /\ suggested_name w "e2" = Ok "Runoff Tally #2"%string.
Proof.
  split; [repeat constructor; cbn; intros H; decompose [or] H; congruence|]. split; [vm_compute; reflexivity|]. split; [|vm_compute; reflexivity]. intros d Hd. vm_compute in Hd. destruct Hd as [<-|[<-|[<-|[]]]]; discriminate.
Qed.
(** Otherwise it need not be: with two elections of the same name the first suggestion for the second one is refused, and after a
    tally with a name of one's own that looks like the next suggestion.  As nothing changes by that, it is then suggested and refused again. *)
Theorem C74_suggested_refuted :
  (no_tallies same_names /\ let w := as_suggested same_names [Create "e1" "t1" 4] in
    exists name, suggested_name w "e2" = Ok name /\ forall new, t_run 4 new (TCreate "e2" name) w = (TAnswered TFailed, w)) /\
  (no_tallies two_elections /\ let w := in_turn two_elections [("e1", "Primary Tally #2", "t1", 4%nat)]%string in
    exists name, suggested_name w "e1" = Ok name /\ forall new, t_run 4 new (TCreate "e1" name) w = (TAnswered TFailed, w)).
Proof.
  split; (split; [first [exact same_names_start|exact two_elections_start]|]); eexists; (split; [vm_compute; reflexivity|]); intros new; vm_compute; reflexivity.
Qed.
Print Assumptions C74_suggested_refuted.
