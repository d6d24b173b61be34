(** * UploadFacts: proofs about the ballot uploads of the graphical application. *)
From Verif Require Import Base Group Hash ElGamal Manifest Ballot GuiUpload SpecUpload ListFacts.
From Coq Require Import List Permutation.

Lemma NoDup_app_intro {A} (a b : list A) : NoDup a -> NoDup b -> (forall x, In x a -> In x b -> False) -> NoDup (a ++ b).
Proof.
  induction a as [|x a IH]; cbn; [auto|]. intros Ha Hb H. inversion Ha as [|? ? Hn Ha']; subst. constructor; [|apply IH; eauto].
  intros Hi. apply in_app_or in Hi as [Hi|Hi]; [exact (Hn Hi)|apply (H x); auto].
Qed.
Lemma find_first_some {A} (f : A -> bool) l x : find_first f l = Some x -> In x l /\ f x = true.
Proof. induction l as [|y l IH]; cbn; [discriminate|]. destruct (f y) eqn:Hy; [intros [= <-]; auto|]. intros H. apply IH in H as [H1 H2]. auto. Qed.
Lemma find_first_none {A} (f : A -> bool) l : find_first f l = None <-> forall x, In x l -> f x = false.
Proof.
  induction l as [|y l IH]; cbn; [split; [intros _ x []|reflexivity]|]. destruct (f y) eqn:Hy.
  - split; [discriminate|]. intros H. rewrite (H y) in Hy by auto. discriminate.
  - rewrite IH. split; [intros H x [<-|Hx]; auto|auto].
Qed.
Lemma doc_id_eqb_spec a b : doc_id_eqb a b = true <-> a = b.
Proof. destruct a, b; cbn; rewrite ?String.eqb_eq; split; congruence. Qed.
Lemma update_first_no {A} (p : A -> bool) f l : (forall x, In x l -> p x = false) -> update_first p f l = l.
Proof. induction l as [|x l IH]; cbn; [reflexivity|]. intros H. rewrite (H x) by auto. rewrite IH by auto. reflexivity. Qed.
Lemma update_first_map {A B} (g : A -> B) (p : A -> bool) f l : (forall x, In x l -> p x = true -> g (f x) = g x) -> map g (update_first p f l) = map g l.
Proof.
  induction l as [|x l IH]; cbn; [reflexivity|]. intros H. destruct (p x) eqn:Hx; cbn; [rewrite H by auto; reflexivity|]. rewrite IH by auto. reflexivity.
Qed.
Lemma update_first_in {A} (p : A -> bool) f l y : In y (update_first p f l) -> In y l \/ exists x, In x l /\ p x = true /\ y = f x.
Proof.
  induction l as [|x l IH]; cbn; [auto|]. destruct (p x) eqn:Hx; cbn; intros [<-|H]; [right; exists x; auto|auto|auto|].
  apply IH in H as [H|(z & H1 & H2 & H3)]; [auto|right; exists z; auto].
Qed.
(** what never changes about the elections *)
Definition el_fixed (x : election) := (el_id x, el_context x, el_manifest x, el_records x, (el_ceremony x, el_guardians x, el_quorum x)).
Definition all_oid (w : gdb) : Prop := forall d, In d (db_uploads w) -> exists s, ud_id d = Oid s.
Lemma fixed_ids w w' : map el_fixed (db_elections w) = map el_fixed (db_elections w') -> map el_id (db_elections w) = map el_id (db_elections w').
Proof. intros H. apply (f_equal (map (fun x => fst (fst (fst (fst x)))))) in H. rewrite !map_map in H. exact H. Qed.
Lemma fixed_manifest w w' e q : map el_fixed (db_elections w) = map el_fixed (db_elections w') -> election_manifest w e q -> election_manifest w' e q.
Proof.
  intros H (x & cx & H1 & H2 & H3 & H4). assert (Hi : In (el_fixed x) (map el_fixed (db_elections w'))) by (rewrite <- H; apply in_map, H1).
  apply in_map_iff in Hi as (y & Hy & Hi). injection Hy as E1 E2 E3 E4 E5 E6 E7. exists y, cx. repeat split; congruence.
Qed.
Lemma inc_noop w u : all_oid w -> increment_ballot_count w u = w.
Proof.
  intros H. unfold increment_ballot_count. rewrite update_first_no; [destruct w; reflexivity|].
  intros d Hd. destruct (H d Hd) as [s ->]. reflexivity.
Qed.
Lemma append_fixed device w e u s w' : append_ballot_upload device w e u s = Ok w' -> device s = true /\ map el_fixed (db_elections w') = map el_fixed (db_elections w) /\ db_uploads w' = db_uploads w.
Proof.
  unfold append_ballot_upload. destruct (device s); [|discriminate]. intros [= <-]. split; [reflexivity|]. split; [|reflexivity].
  apply update_first_map. reflexivity.
Qed.
Lemma increment_fixed w e u : map el_fixed (db_elections (increment_upload_count w e u)) = map el_fixed (db_elections w) /\ db_uploads (increment_upload_count w e u) = db_uploads w.
Proof. split; [|reflexivity]. apply update_first_map. reflexivity. Qed.
Lemma stored_docs w w' e : db_uploads w' = db_uploads w -> stored w' e = stored w e.
Proof. unfold stored. intros ->. reflexivity. Qed.
Lemma insert_ok w d w' : insert_doc w d = Ok w' -> db_elections w' = db_elections w /\ db_uploads w' = db_uploads w ++ [d] /\ forall x, In x (db_uploads w) -> ud_id x <> ud_id d.
Proof.
  unfold insert_doc. destruct (existsb _ _) eqn:Hx; [discriminate|]. intros [= <-]. split; [reflexivity|]. split; [reflexivity|].
  intros x Hi He. rewrite (proj2 (existsb_exists _ _)) in Hx; [discriminate|]. exists x. split; [exact Hi|]. apply doc_id_eqb_spec, He.
Qed.
Lemma stored_insert_ballot w w' new e u o s e' : insert_doc w (mkUpDoc (Oid new) e (BallotDoc u o s)) = Ok w' ->
  stored w' e' = stored w e' ++ (if String.eqb e e' then [mkStored (Oid new) u o s] else []).
Proof. intros H. apply insert_ok in H as (_ & H & _). unfold stored. rewrite H, flat_map_app. cbn. rewrite app_nil_r. reflexivity. Qed.
Lemma stored_insert_upload w w' new e n e' : insert_doc w (mkUpDoc (Oid new) e (UploadDoc n)) = Ok w' -> stored w' e' = stored w e'.
Proof. intros H. apply insert_ok in H as (_ & H & _). unfold stored. rewrite H, flat_map_app. cbn. rewrite app_nil_r. reflexivity. Qed.

Section Uploads.
  Variable parse : string -> option sub_ballot.
  Variable device : string -> bool.
  Variable w0 : gdb.
  Context (H0 : no_uploads w0).
  Notation step := (call_step parse device).

  (** ** the checked ballot of a call under way *)
  Definition checked (e s o : string) : Prop := exists b, parse s = Some b /\ sb_id b = o /\ election_manifest w0 e (cb_manifest_hash (sb_ballot b)).
  Definition good_call (c : call) : Prop :=
    match c with UploadCheck _ e s o | UploadInsert _ e s o => checked e s o | _ => True end.
  Record good_db (w : gdb) : Prop := {
    gw_fixed : map el_fixed (db_elections w) = map el_fixed (db_elections w0);
    gw_oid : all_oid w;
    gw_ballots : forall e b, In b (stored w e) -> checked e (so_contents b) (so_object b);
    gw_zero : forall d n, In d (db_uploads w) -> ud_body d = UploadDoc n -> n = 0;
    gw_ids : NoDup (map ud_id (db_uploads w)) }.
  Lemma good_start : good_db w0.
  Proof.
    destruct H0 as [_ Hd _]. split; [reflexivity| | | |]; unfold all_oid, stored; rewrite Hd.
    - intros d [].
    - intros e b [].
    - intros d n [].
    - constructor.
  Qed.
  Lemma insert_good w d w' s : good_db w -> insert_doc w d = Ok w' -> ud_id d = Oid s -> (forall n, ud_body d = UploadDoc n -> n = 0) ->
    (forall u o t, ud_body d = BallotDoc u o t -> checked (ud_election d) t o) -> good_db w'.
  Proof.
    intros [G1 G2 G3 G4 G5] Hi Hs Hz Hb. apply insert_ok in Hi as (I1 & I2 & I3). split.
    - rewrite I1. exact G1.
    - intros x. rewrite I2. intros Hx. apply in_app_or in Hx as [Hx|[<-|[]]]; [apply G2, Hx|exists s; exact Hs].
    - intros e b. unfold stored. rewrite I2, flat_map_app. intros Hx. apply in_app_or in Hx as [Hx|Hx]; [apply (G3 e b Hx)|].
      cbn in Hx. rewrite app_nil_r in Hx. destruct (ud_body d) as [n|u o t] eqn:Ed; [destruct Hx|].
      destruct (String.eqb_spec (ud_election d) e) as [<-|]; [|destruct Hx]. destruct Hx as [<-|[]]. cbn. apply (Hb u). reflexivity.
    - intros x n. rewrite I2. intros Hx Hn. apply in_app_or in Hx as [Hx|[<-|[]]]; [apply (G4 x n Hx Hn)|apply (Hz n Hn)].
    - rewrite I2, map_app. cbn. apply NoDup_app_intro; [exact G5|repeat constructor; intros []|].
      intros x Hx [<-|[]]. apply in_map_iff in Hx as (y & Hy & Hx). apply (I3 y Hx Hy).
  Qed.
  Lemma same_docs_good w w' : good_db w -> map el_fixed (db_elections w') = map el_fixed (db_elections w) -> db_uploads w' = db_uploads w -> good_db w'.
  Proof.
    intros [G1 G2 G3 G4 G5] He Hd. split; [congruence|unfold all_oid; rewrite Hd; exact G2|intros e b; rewrite (stored_docs w w') by exact Hd; apply G3|rewrite Hd; exact G4|rewrite Hd; exact G5].
  Qed.
  Lemma step_good new c w c' w' : good_db w -> good_call c -> step new c w = (c', w') -> good_db w' /\ good_call c'.
  Proof.
    intros Hw Hc. destruct c as [e s|e s|e u s|u e s|u e s o|u e s o|u e|u e|a]; cbn [call_step good_call] in *.
    - destruct (find_election w e); intros [= <- <-]; split; cbn; auto.
    - destruct (insert_doc _ _) as [w1|] eqn:Hi; intros [= <- <-]; split; cbn; auto.
      eapply insert_good; [exact Hw|exact Hi|reflexivity|cbn; intros n [= <-]; reflexivity|cbn; discriminate].
    - destruct (append_ballot_upload _ _ _ _ _) as [w1|] eqn:Hi; intros [= <- <-]; split; cbn; auto.
      apply append_fixed in Hi as (_ & A1 & A2). apply (same_docs_good w); assumption.
    - destruct (parse s) as [b|] eqn:Hp; [|intros [= <- <-]; split; cbn; auto].
      destruct (find_election w e) as [x|] eqn:Hf; [|intros [= <- <-]; split; cbn; auto].
      destruct (el_context x) as [cx|] eqn:Hx; [|intros [= <- <-]; split; cbn; auto].
      destruct (Z.eqb_spec (cx_manifest_hash cx) (cb_manifest_hash (sb_ballot b))) as [Hh|]; intros [= <- <-]; split; cbn; auto.
      exists b. split; [exact Hp|]. split; [reflexivity|]. apply (fixed_manifest w); [apply (gw_fixed w Hw)|].
      apply find_first_some in Hf as [F1 F2]. apply String.eqb_eq in F2. exists x, cx. auto.
    - destruct (any_ballot_exists w e o); intros [= <- <-]; split; cbn; auto.
    - destruct (insert_doc _ _) as [w1|] eqn:Hi; intros [= <- <-]; split; cbn; auto.
      eapply insert_good; [exact Hw|exact Hi|reflexivity|cbn; discriminate|cbn; intros ? ? ? [= <- <- <-]; exact Hc].
    - intros [= <- <-]. split; cbn; auto. rewrite inc_noop by apply (gw_oid w Hw). exact Hw.
    - intros [= <- <-]. split; cbn; auto. destruct (increment_fixed w e u) as [A1 A2]. apply (same_docs_good w); assumption.
    - intros [= <- <-]. auto.
  Qed.
  Lemma set_nth_in {A} i (a : A) l x : In x (set_nth i a l) -> x = a \/ In x l.
  Proof. revert i; induction l as [|y l IH]; intros [|i]; cbn; intros H; [destruct H|destruct H|destruct H as [<-|H]; auto|destruct H as [<-|H]; auto]. destruct (IH i H); auto. Qed.
  Definition good_up (w : up_world) : Prop := good_db (uw_db w) /\ Forall good_call (uw_calls w).
  Lemma up_step_good w ev : good_up w -> good_up (up_step parse device w ev).
  Proof.
    intros [Hw Hc]. destruct ev as [e s|u e s|i new]; cbn [up_step]; [split; cbn; [exact Hw|apply Forall_app; split; [exact Hc|repeat constructor]]..|].
    destruct (nth_error (uw_calls w) i) as [c|] eqn:Hn; [|split; assumption]. destruct (step new c (uw_db w)) as [c' d'] eqn:Hs.
    apply step_good in Hs as [S1 S2]; [|exact Hw|rewrite Forall_forall in Hc; apply Hc; eapply nth_error_In; exact Hn].
    split; cbn; [exact S1|]. apply Forall_forall. intros x Hx. apply set_nth_in in Hx as [->|Hx]; [exact S2|]. rewrite Forall_forall in Hc. apply Hc, Hx.
  Qed.
  Lemma up_run_good h w : good_up w -> good_up (up_run parse device w h).
  Proof. revert w. unfold up_run. induction h as [|ev h IH]; cbn; intros w Hw; [exact Hw|]. apply IH, up_step_good, Hw. Qed.
  Lemma after_good h : good_db (after parse device w0 h).
  Proof. unfold after. apply up_run_good. split; [exact good_start|constructor]. Qed.

  Lemma only_matching h e b : In b (stored (after parse device w0 h) e) ->
    exists sb, parse (so_contents b) = Some sb /\ sb_id sb = so_object b /\ election_manifest w0 e (cb_manifest_hash (sb_ballot sb)).
  Proof. apply (gw_ballots _ (after_good h)). Qed.
  Lemma own_count h d n : In d (db_uploads (after parse device w0 h)) -> ud_body d = UploadDoc n -> n = 0.
  Proof. apply (gw_zero _ (after_good h)). Qed.

  (** ** one call after the other *)
  Lemma call_run_answered n new a w : call_run parse device n new (Answered a) w = (Answered a, w).
  Proof. induction n as [|n IH]; cbn; [reflexivity|exact IH]. Qed.
  Lemma exists_ballot w e o : any_ballot_exists w e o = false -> ~ In o (map so_object (stored w e)).
  Proof.
    intros H Hin. apply in_map_iff in Hin as (b & Hb & Hin). unfold stored in Hin. apply in_flat_map in Hin as (d & Hd & Hin).
    assert (Ht : any_ballot_exists w e o = true); [|congruence]. apply existsb_exists. exists d. split; [exact Hd|]. unfold is_ballot.
    destruct (ud_body d) as [|u o' s]; [destruct Hin|]. destruct (String.eqb (ud_election d) e); [|destruct Hin]. destruct Hin as [<-|[]]. cbn in Hb. subst o'. apply String.eqb_refl.
  Qed.
  Definition once (w : gdb) : Prop := forall e, NoDup (map so_object (stored w e)).
  (** every step but the insert keeps [once]; the insert keeps it right after the check *)
  Definition safe_call (w : gdb) (c : call) : Prop :=
    match c with UploadInsert u e s o => ~ In o (map so_object (stored w e)) | _ => True end.
  Lemma step_once new c w c' w' : all_oid w -> once w -> safe_call w c -> step new c w = (c', w') -> once w' /\ safe_call w' c'.
  Proof.
    intros Ho Hw Hc. destruct c as [e s|e s|e u s|u e s|u e s o|u e s o|u e|u e|a]; cbn [call_step safe_call] in *.
    - destruct (find_election w e); intros [= <- <-]; split; cbn; auto.
    - destruct (insert_doc _ _) as [w1|] eqn:Hi; intros [= <- <-]; split; cbn; auto. intros e'. rewrite (stored_insert_upload _ _ _ _ _ e' Hi). apply Hw.
    - destruct (append_ballot_upload _ _ _ _ _) as [w1|] eqn:Hi; intros [= <- <-]; split; cbn; auto.
      apply append_fixed in Hi as (_ & _ & A2). intros e'. rewrite (stored_docs w) by exact A2. apply Hw.
    - destruct (parse s) as [b|]; [|intros [= <- <-]; split; cbn; auto].
      destruct (find_election w e) as [x|]; [|intros [= <- <-]; split; cbn; auto].
      destruct (el_context x) as [cx|]; [|intros [= <- <-]; split; cbn; auto].
      destruct (_ =? _); intros [= <- <-]; split; cbn; auto.
    - destruct (any_ballot_exists w e o) eqn:Hx; intros [= <- <-]; split; cbn; auto. apply exists_ballot, Hx.
    - destruct (insert_doc _ _) as [w1|] eqn:Hi; intros [= <- <-]; split; cbn; auto. intros e'. rewrite (stored_insert_ballot _ _ _ _ _ _ _ e' Hi).
      destruct (String.eqb_spec e e') as [<-|]; [|rewrite app_nil_r; apply Hw]. rewrite map_app. cbn. apply NoDup_app_intro; [apply Hw|repeat constructor; intros []|].
      intros x Hx [<-|[]]. exact (Hc Hx).
    - intros [= <- <-]. split; cbn; auto. rewrite inc_noop by exact Ho. exact Hw.
    - intros [= <- <-]. split; cbn; auto.
    - intros [= <- <-]. auto.
  Qed.
  Lemma run_once n : forall new c w, good_db w -> good_call c -> once w -> safe_call w c ->
    let '(c', w') := call_run parse device n new c w in good_db w' /\ once w'.
  Proof.
    induction n as [|n IH]; cbn; intros new c w Hg Hgc Hw Hc; [auto|]. destruct (step new c w) as [c' w'] eqn:Hs.
    destruct (step_once _ _ _ _ _ (gw_oid _ Hg) Hw Hc Hs). destruct (step_good _ _ _ _ _ Hg Hgc Hs). apply IH; assumption.
  Qed.
  Lemma one_by_one_once h : once (one_by_one parse device w0 h).
  Proof.
    unfold one_by_one. assert (Hs : good_db w0 /\ once w0).
    { split; [exact good_start|]. intros e. unfold stored. rewrite (nu_docs w0 H0). constructor. }
    revert Hs. generalize w0 at 1 2 3. induction h as [|[[r new] n] h IH]; cbn [fold_left]; intros w [Hg Hw]; [exact Hw|]. apply IH.
    pose proof (run_once n new (begin r) w Hg) as H. destruct (call_run _ _ _ _ _ _) as [c' w']. apply H; [destruct r; exact I|exact Hw|destruct r; exact I].
  Qed.
End Uploads.
