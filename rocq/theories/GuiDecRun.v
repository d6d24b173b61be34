(** * GuiDecRun: what all histories of the decryption of the graphical application have in common. *)
From Verif Require Import Base Group Codec Hash DLog ElGamal ZK Poly Manifest Ballot Encrypt Box Tally Spec SpecElection SpecTally
  ListFacts CryptoThms Ceremony SpecCeremony Shares SpecShares SpecEndToEnd EndToEnd GuiUpload SpecUpload UploadFacts UploadRead GuiDecrypt SpecGuiDecrypt GuiDecPure.
From Coq Require Import List.

(** ** lists *)
Lemma update_first_grows {A} (R : A -> A -> Prop) (p : A -> bool) f l : (forall x, R x x) -> (forall x, R x (f x)) -> forall x, In x l -> exists y, In y (update_first p f l) /\ R x y.
Proof.
  intros H1 H2. induction l as [|y l IH]; intros x; [intros []|]. cbn. destruct (p y); intros [<-|Hx]; [eexists; split; [left; reflexivity|apply H2]|exists x; split; [right; exact Hx|apply H1]|
    exists y; split; [left; reflexivity|apply H1]|]. destruct (IH x Hx) as (z & Hz & Hr). exists z. split; [right; exact Hz|exact Hr].
Qed.
Lemma set_nth_keeps {A} i (a c0 c : A) l : In c l -> nth_error l i = Some c0 -> c = c0 \/ In c (set_nth i a l).
Proof.
  revert i; induction l as [|y l IH]; intros i; [intros []|]. destruct i as [|i]; cbn.
  - intros [<-|H] [= ->]; auto.
  - intros [<-|H] Hn; [auto|]. destruct (IH i H Hn); auto.
Qed.
Lemma set_nth_has {A} i (a c0 : A) l : nth_error l i = Some c0 -> In a (set_nth i a l).
Proof. revert i; induction l as [|y l IH]; intros [|i]; cbn; try discriminate; intros H; [auto|right; apply (IH i H)]. Qed.
Lemma set_nth_length {A} i (a : A) l : length (set_nth i a l) = length l.
Proof. revert i; induction l as [|y l IH]; intros [|i]; cbn; auto. Qed.
Lemma set_nth_same {A} i (a c0 : A) l : nth_error l i = Some c0 -> nth_error (set_nth i a l) i = Some a.
Proof. revert i; induction l as [|y l IH]; intros [|i]; cbn; try discriminate; auto. Qed.
Lemma set_nth_other {A} i j (a : A) l : i <> j -> nth_error (set_nth i a l) j = nth_error l j.
Proof. revert i j; induction l as [|y l IH]; intros [|i] [|j] H; cbn; auto; congruence. Qed.

(** ** the stored ballots *)
Lemma in_stored w e b : In b (stored w e) -> exists d, In d (db_uploads w) /\ ud_id d = so_doc b /\ ud_election d = e /\ ud_body d = BallotDoc (so_upload b) (so_object b) (so_contents b).
Proof.
  unfold stored. intros H. apply in_flat_map in H as (d & Hd & H). exists d. destruct (ud_body d) as [n|u o s]; [destruct H|].
  destruct (String.eqb_spec (ud_election d) e) as [He|]; [|destruct H]. destruct H as [<-|[]]. auto.
Qed.
Lemma ids_stored w e : ballot_ids w e = map so_doc (stored w e).
Proof.
  unfold ballot_ids, stored. induction (db_uploads w) as [|d l IH]; [reflexivity|]. cbn [filter flat_map]. unfold has_contents at 1.
  destruct (ud_body d) as [n|u o s]; cbn [has_count negb]; [rewrite andb_false_r; exact IH|]. rewrite andb_true_r. destruct (String.eqb (ud_election d) e); cbn [map app]; [f_equal|]; exact IH.
Qed.
Lemma stored_more w w' e l : db_uploads w' = db_uploads w ++ l -> forall b, In b (stored w e) -> In b (stored w' e).
Proof. intros H b. unfold stored. rewrite H, flat_map_app. intros Hb. apply in_or_app. left. exact Hb. Qed.
Lemma stored_len w e : (length (stored w e) <= length (db_uploads w))%nat.
Proof.
  unfold stored. induction (db_uploads w) as [|d l IH]; [reflexivity|]. cbn [flat_map length]. rewrite app_length. destruct (ud_body d) as [n|u o s]; [cbn; lia|].
  destruct (String.eqb _ _); cbn; lia.
Qed.
Lemma read_stored parse w e b sb : NoDup (map ud_id (db_uploads w)) -> In b (stored w e) -> parse (so_contents b) = Some sb ->
  get_submitted_ballot parse (Some w) (so_doc b) = match last_char (so_contents b) with None => Broken | Some c => if Ascii.eqb c "}"%char then Got sb else Again end.
Proof.
  intros Hn Hb Hp. apply in_stored in Hb as (d & Hd & Hi & _ & Hbody). unfold get_submitted_ballot. rewrite <- Hi, (find_doc _ d Hn Hd), Hbody, Hp. reflexivity.
Qed.

Section Run.
  Context (E : env) (parse : string -> option sub_ballot) (device : string -> bool) (disk : string -> string -> option private_record) (w0 : gdb) (H0 : no_uploads w0).
  Notation estep := (dec_event_step E parse device disk).
  Notation run := (dec_run E parse device disk).
  Definition ups (h : list dec_event) : list up_event := flat_map (fun ev => match ev with Uploads u => [u] | _ => [] end) h.
  Lemma up_of W ev : dw_up (estep W ev) = match ev with Uploads u => up_step parse device (dw_up W) u | _ => dw_up W end.
  Proof.
    destruct ev as [u|id e'|u id|a id|i net up rnd]; cbn [dec_event_step]; try reflexivity. destruct (nth_error _ _) as [c|]; [|reflexivity].
    destruct (dec_step _ _ _ _ _ _ _ _ _) as [c' ds']. reflexivity.
  Qed.
  Lemma ups_run h : forall W, dw_up (run W h) = up_run parse device (dw_up W) (ups h).
  Proof.
    unfold dec_run, up_run. induction h as [|ev h IH]; intros W; [reflexivity|]. cbn [fold_left ups flat_map]. fold (ups h). rewrite IH, up_of. destruct ev; reflexivity.
  Qed.
  Lemma good_event W ev : good_up parse w0 (dw_up W) -> good_up parse w0 (dw_up (estep W ev)).
  Proof. intros H. rewrite up_of. destruct ev; [apply up_step_good, H|exact H..]. Qed.
  Lemma good_run h W : good_up parse w0 (dw_up W) -> good_up parse w0 (dw_up (run W h)).
  Proof. rewrite ups_run. apply up_run_good. Qed.
  Lemma good_init : good_up parse w0 (mkUpWorld w0 []).
  Proof. split; [apply good_start, H0|constructor]. Qed.
  Lemma run_more h W : good_up parse w0 (dw_up W) -> exists l, db_uploads (dw_db (run W h)) = db_uploads (dw_db W) ++ l.
  Proof. unfold dw_db. rewrite ups_run. apply run_keeps. Qed.
  Lemma event_more W ev : good_up parse w0 (dw_up W) -> exists l, db_uploads (dw_db (estep W ev)) = db_uploads (dw_db W) ++ l.
  Proof. apply (run_more [ev]). Qed.
  Lemma run_app h1 h2 W : run W (h1 ++ h2) = run (run W h1) h2.
  Proof. unfold dec_run. apply fold_left_app. Qed.

  (** ** a call ends *)
  Definition left_reads (ids : list doc_id) (k : nat) : nat := match ids with [] => 3 | _ => 3 * length ids + 3 - Nat.min k 2 end.
  Definition left (N : nat) (c : dec_call) : nat :=
    match c with
    | JoinStart _ _ => 3 * N + 6 | JoinElection _ _ => 3 * N + 5 | JoinList _ _ _ _ _ => 3 * N + 4
    | JoinRead _ _ _ _ _ ids k _ => left_reads ids k | JoinPush _ _ => 2 | JoinMark _ _ => 1
    | ViewStart _ _ => 3 * N + 6 | ViewElection _ => 3 * N + 5 | ViewList _ _ _ _ => 3 * N + 4
    | ViewRead _ _ _ _ ids k _ => left_reads ids k | ViewSet _ _ => 2 | Finished _ => 0
    end.
  Lemma left_read db ids k got ids' k' got' i : ids = i :: tl ids -> read_next parse db ids k got = (ids', k', got') -> (left_reads ids' k' < left_reads ids k)%nat.
  Proof.
    intros -> . cbn [read_next tl]. set (l := tl ids).
    assert (H : (left_reads l 0 < left_reads (i :: l) k)%nat) by (unfold left_reads; destruct l; cbn [length]; lia).
    destruct (get_submitted_ballot parse db i); [destruct (Nat.leb_spec 2 k)| |]; intros [= <- <- <-]; try exact H. unfold left_reads. cbn [length]. lia.
  Qed.
  Lemma step_left N net up rnd c w ds c' ds' : (length (db_uploads w) <= N)%nat -> dec_step E parse disk net up rnd c w ds = (c', ds') -> left N c = 0%nat \/ (left N c' < left N c)%nat.
  Proof.
    intros HN. assert (HL : forall e, (left_reads (ballot_ids w e) 0 < 3 * N + 4)%nat).
    { intros e. rewrite ids_stored. pose proof (stored_len w e). rewrite <- (map_length so_doc) in H. unfold left_reads. destruct (map so_doc (stored w e)); lia. }
    destruct c as [u id|u d|u d x cx g|u d x cx g ids k got|id en|id u|a id|d|d x cx med|d x cx med ids k got|id r|ok]; cbn [dec_step]; intros Hs; try (right; injection Hs as <- <-; cbn; lia).
    - right. destruct (find_decryption ds id); injection Hs as <- <-; cbn; lia.
    - right. destruct (find_election w _) as [x|]; [|injection Hs as <- <-; cbn; lia]. destruct (el_context x); [|injection Hs as <- <-; cbn; lia].
      destruct (load_guardian _ _ _); injection Hs as <- <-; cbn; lia.
    - right. injection Hs as <- <-. cbn [left]. apply HL.
    - right. destruct ids as [|i ids]; [destruct (join_entry _ _ _ _ _ _ _ _); injection Hs as <- <-; cbn; lia|].
      destruct (read_next _ _ _ _ _) as [[ids' k'] got'] eqn:Hr. injection Hs as <- <-. cbn [left]. apply (left_read _ _ _ _ _ _ _ i eq_refl Hr).
    - right. destruct (find_decryption ds id) as [d|]; [destruct (should_run a d)|]; injection Hs as <- <-; cbn; lia.
    - right. destruct (find_election w _) as [x|]; [|injection Hs as <- <-; cbn; lia]. destruct (el_context x); [|injection Hs as <- <-; cbn; lia].
      destruct (rbind _ _); injection Hs as <- <-; cbn; lia.
    - right. injection Hs as <- <-. cbn [left]. apply HL.
    - right. destruct ids as [|i ids]; [destruct (make_result _ _ _ _ _ _); injection Hs as <- <-; cbn; lia|].
      destruct (read_next _ _ _ _ _) as [[ids' k'] got'] eqn:Hr. injection Hs as <- <-. cbn [left]. apply (left_read _ _ _ _ _ _ _ i eq_refl Hr).
    - left. reflexivity.
  Qed.
  Lemma finished_stays net up rnd c w ds c' ds' N : left N c = 0%nat -> dec_step E parse disk net up rnd c w ds = (c', ds') -> left N c' = 0%nat.
  Proof.
    destruct c as [u id|u d|u d x cx g|u d x cx g ids k got|id en|id u|a id|d|d x cx med|d x cx med ids k got|id r|ok]; cbn [left]; try lia; [unfold left_reads; destruct ids; cbn [length]; lia..|].
    cbn [dec_step]. intros _ [= <- <-]. reflexivity.
  Qed.
  Lemma left_finished N c : left N c = 0%nat -> exists ok, c = Finished ok.
  Proof. destruct c; cbn [left]; try lia; [unfold left_reads; destruct ids; cbn [length]; lia..|]. eauto. Qed.
  Lemma call_ends h : forall W i c N, good_up parse w0 (dw_up W) -> nth_error (dw_calls W) i = Some c -> (length (db_uploads (dw_db (run W h))) <= N)%nat ->
    exists c', nth_error (dw_calls (run W h)) i = Some c' /\ (left N c' <= left N c - steps_of i h)%nat.
  Proof.
    induction h as [|ev h IH]; intros W i c N Hg Hc HN; [exists c; split; [exact Hc|cbn; lia]|].
    assert (HN' : (length (db_uploads (dw_db W)) <= N)%nat).
    { destruct (run_more (ev :: h) W Hg) as [l Hl]. rewrite Hl, app_length in HN. lia. }
    change (run W (ev :: h)) with (run (estep W ev) h) in *.
    assert (H : exists c1, nth_error (dw_calls (estep W ev)) i = Some c1 /\ (left N c1 <= left N c - steps_of i [ev])%nat).
    { destruct ev as [u|id e'|u id|a id|j net up rnd]; cbn [dec_event_step dw_calls].
      - exists c. split; [exact Hc|cbn; lia].
      - exists c. split; [exact Hc|cbn; lia].
      - exists c. rewrite nth_error_app1 by (apply nth_error_Some; congruence). split; [exact Hc|cbn; lia].
      - exists c. rewrite nth_error_app1 by (apply nth_error_Some; congruence). split; [exact Hc|cbn; lia].
      - unfold steps_of. cbn [filter]. destruct (nth_error (dw_calls W) j) as [cj|] eqn:Hj.
        + destruct (dec_step _ _ _ _ _ _ cj _ _) as [c' ds'] eqn:Hs. cbn [dw_calls]. destruct (Nat.eqb_spec i j) as [<-|Hij].
          * assert (cj = c) by congruence. subst cj. exists c'. split; [apply (set_nth_same i c' c), Hc|]. cbn [length].
            destruct (step_left N _ _ _ _ _ _ _ _ HN' Hs) as [H|H]; [rewrite (finished_stays _ _ _ _ _ _ _ _ N H Hs); lia|lia].
          * exists c. rewrite set_nth_other by congruence. split; [exact Hc|cbn; lia].
        + exists c. split; [exact Hc|]. destruct (Nat.eqb_spec i j) as [<-|]; [congruence|cbn; lia]. }
    destruct H as (c1 & H1 & H2). destruct (IH (estep W ev) i c1 N (good_event W ev Hg) H1 HN) as (c' & H3 & H4). exists c'. split; [exact H3|].
    assert (Hst : steps_of i (ev :: h) = (steps_of i [ev] + steps_of i h)%nat).
    { unfold steps_of. cbn [filter]. destruct (match ev with Step _ _ _ _ => _ | _ => _ end); cbn [length]; lia. }
    rewrite Hst. lia.
  Qed.
End Run.
