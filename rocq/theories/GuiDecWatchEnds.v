(** * GuiDecWatchEnds: left to themselves, the programs of a decryption come to an end, and nobody stands still before. *)
From Coq Require Import List Wf_nat.
From Verif Require Import Base Group Hash ElGamal ZK Spec ListFacts Manifest Ballot Encrypt SpecElection Box Tally SpecTally Ceremony SpecCeremony Shares SpecShares SpecEndToEnd
  GuiUpload SpecUpload GuiDecrypt SpecGuiDecrypt GuiDecRun GuiDecThms GuiDecWatch SpecGuiDecWatch GuiDecWatchFacts GuiDecWatchThms.

Fixpoint total {A} (f : A -> nat) (l : list A) : nat := match l with [] => 0%nat | x :: l' => (f x + total f l')%nat end.
Lemma total_app {A} (f : A -> nat) l r : total f (l ++ r) = (total f l + total f r)%nat.
Proof. induction l as [|x l IH]; cbn [app total]; [reflexivity|]. rewrite IH. lia. Qed.
Lemma total_ext {A} (f g : A -> nat) l : (forall x, In x l -> f x = g x) -> total f l = total g l.
Proof. intros H. induction l as [|x l IH]; [reflexivity|]. cbn [total]. rewrite (H x) by (left; reflexivity). rewrite IH; [reflexivity|]. intros y Hy. apply H. right. exact Hy. Qed.
Lemma total_set {A} (f : A -> nat) l : forall i x y, nth_error l i = Some x -> (total f (set_nth i y l) + f x = total f l + f y)%nat.
Proof.
  induction l as [|z l IH]; intros [|i] x y H; try discriminate; cbn [set_nth total].
  - injection H as ->. lia.
  - cbn [nth_error] in H. specialize (IH i x y H). lia.
Qed.
Lemma set_nth_id {A} (l : list A) : forall i x, nth_error l i = Some x -> set_nth i x l = l.
Proof. induction l as [|z l IH]; intros [|i] x H; try discriminate; cbn [set_nth]; [injection H as ->; reflexivity|]. f_equal. apply IH, H. Qed.
Lemma filter_none {A} (f : A -> bool) l : filter f l = [] -> filter (fun x => negb (f x)) l = l.
Proof. induction l as [|x l IH]; [reflexivity|]. cbn [filter]. destruct (f x); [discriminate|]. intros H. cbn [negb]. f_equal. apply IH, H. Qed.
Lemma filter_some {A} (f : A -> bool) l : filter f l <> [] -> (length (filter (fun x => negb (f x)) l) < length l)%nat.
Proof.
  assert (H0 : (length (filter (fun x => negb (f x)) l) <= length l)%nat).
  { clear. induction l as [|x l IH]; [constructor|]. cbn [filter]. destruct (negb (f x)); cbn [length]; lia. }
  induction l as [|x l IH]; [intros H; destruct (H eq_refl)|]. cbn [filter] in *. destruct (f x) eqn:Hf; cbn [negb length] in *.
  - intros _. assert (Hl : (length (filter (fun x => negb (f x)) l) <= length l)%nat).
    { clear. induction l as [|y l IH]; [constructor|]. cbn [filter]. destruct (negb (f y)); cbn [length]; lia. } lia.
  - intros H. assert (Hl : (length (filter (fun x => negb (f x)) l) <= length l)%nat).
    { clear. induction l as [|y l IH']; [constructor|]. cbn [filter]. destruct (negb (f y)); cbn [length]; lia. }
    specialize (IH Hl H). lia.
Qed.

(** the four measures *)
Definition unfinished (d : decryption) : nat := if has_result d then 0 else 1.
Definition is_done (ds : list decryption) (id : string) : bool := match find_decryption ds id with Some d => has_result d | None => true end.
Definition source (ds : list decryption) (c : dec_call) : nat :=
  match c with
  | JoinStart _ _ | JoinElection _ _ | JoinList _ _ _ _ _ | JoinRead _ _ _ _ _ _ _ _ | JoinPush _ _ | JoinMark _ _ => 2
  | _ => match about c with Some id => if is_done ds id then 2 else 0 | None => 0 end
  end.
Definition rank (rows : nat) (pg : page) : nat :=
  match pg_state pg with
  | PgNew => 3 | PgRunning _ => 2 | PgLooked _ => 1 | PgWatching k => 2 * (rows - k) | PgHandling _ k => 2 * (rows - k) + 1 | _ => 0
  end.
Definition mu1 (w : dx_world) : nat := total unfinished (dw_docs (dx_dec w)).
Definition mu2 (w : dx_world) : nat := total (source (dw_docs (dx_dec w))) (dw_calls (dx_dec w)) + length (dx_owes w).
Definition mu3 (w : dx_world) : nat := total (rank (length (dx_rows w))) (dx_pages w).
Definition mu4 (N : nat) (w : dx_world) : nat := total (left N) (dw_calls (dx_dec w)).
Definition less (N : nat) (w' w : dx_world) : Prop :=
  (mu1 w' < mu1 w)%nat \/ mu1 w' = mu1 w /\ ((mu2 w' < mu2 w)%nat \/ mu2 w' = mu2 w /\ ((mu3 w' < mu3 w)%nat \/ mu3 w' = mu3 w /\ (mu4 N w' < mu4 N w)%nat)).
Lemma less_wf N : well_founded (less N).
Proof.
  assert (H : forall a b c d w, mu1 w = a -> mu2 w = b -> mu3 w = c -> mu4 N w = d -> Acc (less N) w).
  { induction a as [a Ha] using lt_wf_ind. induction b as [b Hb] using lt_wf_ind. induction c as [c Hc] using lt_wf_ind. induction d as [d Hd] using lt_wf_ind.
    intros w H1 H2 H3 H4. constructor. intros w' [H|[E1 [H|[E2 [H|[E3 H]]]]]].
    - eapply (Ha (mu1 w')); [lia|reflexivity..].
    - eapply (Hb (mu2 w')); [lia|lia|reflexivity..].
    - eapply (Hc (mu3 w')); [lia|lia|lia|reflexivity..].
    - eapply (Hd (mu4 N w')); [lia|lia|lia|lia|reflexivity]. }
  intros w. eapply H; reflexivity.
Qed.

Section Ends.
  Variable E : env.
  Variable parse : string -> option sub_ballot.
  Variable device : string -> bool.
  Variable disk : string -> string -> option private_record.
  Notation run := (dec_run E parse device disk).
  Notation step := (dx_step E parse device disk).
  Notation xrun := (dx_run E parse device disk).
  Definition look_call (ds : list decryption) (id : string) : dec_call :=
    match find_decryption ds id with None => Finished false | Some x => if should_run true x then ViewElection x else Finished true end.
  Lemma set_nth_end {A} (l : list A) x y : set_nth (length l) y (l ++ [x]) = l ++ [y].
  Proof. induction l as [|z l IH]; [reflexivity|]. cbn [length app set_nth]. rewrite IH. reflexivity. Qed.
  Lemma reading_world d id : run d (reading (length (dw_calls d)) id) = mkDecWorld (dw_up d) (dw_docs d) (dw_calls d ++ [look_call (dw_docs d) id]).
  Proof.
    unfold reading, dec_run. cbn [fold_left dec_event_step dw_calls dw_docs dw_up].
    rewrite nth_error_app2, Nat.sub_diag by lia. cbn [nth_error dec_step]. unfold look_call.
    destruct (find_decryption (dw_docs d) id) as [x|]; [destruct (should_run true x)|]; cbn [dw_up]; rewrite set_nth_end; reflexivity.
  Qed.
  Lemma look_source ds id : source ds (look_call ds id) = 0%nat.
  Proof.
    unfold look_call. destruct (find_decryption ds id) as [x|] eqn:Hf; [|reflexivity]. destruct (should_run true x) eqn:Hs; [|reflexivity].
    cbn [source about]. destruct (find_dec _ _ _ Hf) as [_ Hi]. unfold is_done. rewrite Hi, Hf. unfold should_run in Hs. apply andb_prop in Hs as [_ Hs]. unfold has_result. destruct (dy_result x); [discriminate|reflexivity].
  Qed.

  (** changes of the documents *)
  Lemma find_update ds id f j : (forall d, dy_id (f d) = dy_id d) -> find_decryption (update_decryption ds id f) j =
    if String.eqb id j then option_map f (find_decryption ds j) else find_decryption ds j.
  Proof.
    intros Hf. unfold find_decryption, update_decryption. induction ds as [|d ds IH]; [cbn; destruct (String.eqb id j); reflexivity|]. cbn [update_first].
    destruct (String.eqb_spec (dy_id d) id) as [He|He]; cbn [find_first].
    - rewrite Hf. destruct (String.eqb_spec id j) as [Hj|Hj].
      + rewrite He, Hj, String.eqb_refl. reflexivity.
      + destruct (String.eqb_spec (dy_id d) j) as [Hx|Hx]; [congruence|reflexivity].
    - rewrite IH. destruct (String.eqb_spec (dy_id d) j) as [Hx|Hx]; [|reflexivity]. destruct (String.eqb_spec id j) as [Hj|Hj]; [congruence|reflexivity].
  Qed.
  Lemma kept ds id f : (forall d, dy_id (f d) = dy_id d) -> (forall d, has_result (f d) = has_result d) ->
    total unfinished (update_decryption ds id f) = total unfinished ds /\ forall j, is_done (update_decryption ds id f) j = is_done ds j.
  Proof.
    intros H1 H2. split.
    - unfold update_decryption. induction ds as [|d ds IH]; [reflexivity|]. cbn [update_first]. destruct (String.eqb (dy_id d) id); cbn [total]; [unfold unfinished at 1; rewrite H2; reflexivity|rewrite IH; reflexivity].
    - intros j. unfold is_done. rewrite find_update by exact H1. destruct (String.eqb id j); [|reflexivity]. destruct (find_decryption ds j) as [d|]; [|reflexivity]. cbn [option_map]. apply H2.
  Qed.
  Lemma completed ds id r : if is_done ds id
    then total unfinished (update_decryption ds id (set_completed r)) = total unfinished ds /\ (forall j, is_done (update_decryption ds id (set_completed r)) j = is_done ds j)
    else (total unfinished (update_decryption ds id (set_completed r)) < total unfinished ds)%nat.
  Proof.
    unfold is_done at 1. destruct (find_decryption ds id) as [d|] eqn:Hf.
    - destruct (has_result d) eqn:Hr.
      + split.
        * revert Hf. unfold find_decryption, update_decryption. induction ds as [|x ds IH]; [discriminate|]. cbn [find_first update_first]. destruct (String.eqb (dy_id x) id); cbn [total].
          -- intros H. injection H as ->. unfold unfinished at 1 3. rewrite Hr. reflexivity.
          -- intros H. rewrite (IH H). reflexivity.
        * intros j. unfold is_done. rewrite find_update by reflexivity. destruct (String.eqb_spec id j) as [->|]; [|reflexivity]. rewrite Hf. cbn [option_map]. unfold has_result in *. cbn [set_completed dy_result]. symmetry. exact Hr.
      + revert Hf. unfold find_decryption, update_decryption. induction ds as [|x ds IH]; [discriminate|]. cbn [find_first update_first]. destruct (String.eqb (dy_id x) id); cbn [total].
        * intros H. injection H as ->. unfold unfinished at 1 3. rewrite Hr. cbn. lia.
        * intros H. specialize (IH H). lia.
    - assert (Hu : update_decryption ds id (set_completed r) = ds); [|rewrite Hu; split; reflexivity].
      revert Hf. unfold find_decryption, update_decryption. induction ds as [|x ds IH]; [reflexivity|]. cbn [find_first update_first]. destruct (String.eqb (dy_id x) id); [discriminate|]. intros H. f_equal. apply IH, H.
  Qed.
  Lemma source_ext ds ds' c : (forall j, is_done ds' j = is_done ds j) -> source ds' c = source ds c.
  Proof. intros H. destruct c; cbn [source about]; rewrite ?H; reflexivity. Qed.

  Lemma rank_set rows q s l x : nth_error l q = Some x -> (total (rank rows) (set_page q s l) + rank rows x = total (rank rows) l + rank rows (mkPage (pg_doc x) s))%nat.
  Proof. intros H. unfold set_page. rewrite H. apply total_set, H. Qed.

  (** a step of a call *)
  Lemma less_call N d rows owes pages i net up rnd : (length (db_uploads (dw_db d)) <= N)%nat ->
    let w := mkDx d rows owes pages in let w' := step w (Do (Step i net up rnd)) in w' = w \/ less N w' w.
  Proof.
    intros HN. cbv zeta. cbn [dx_step plain]. unfold dec_run. cbn [fold_left dec_event_step owes_after]. destruct d as [u ds calls]. cbn [dw_calls dw_docs dw_up] in *.
    destruct (nth_error calls i) as [c|] eqn:Hc; [|left; reflexivity]. destruct (dec_step E parse disk net up rnd c (dw_db (mkDecWorld u ds calls)) ds) as [c' ds'] eqn:Hs.
    assert (HL := step_left E parse disk N net up rnd c _ ds c' ds' HN Hs).
    destruct (match c with Finished _ => true | _ => false end) eqn:Hfin.
    { destruct c; try discriminate. cbn [dec_step last_change] in *. injection Hs as <- <-. left. rewrite (set_nth_id _ _ _ Hc). reflexivity. }
    right. assert (HLt : (left N c' < left N c)%nat). { destruct HL as [HL|HL]; [|exact HL]. apply left_finished in HL as [ok ->]. discriminate. } clear HL.
    unfold less, mu1, mu2, mu3, mu4. cbn [dx_dec dw_docs dw_calls dx_owes dx_pages dx_rows].
    assert (H4 := total_set (left N) calls i c c' Hc).
    (* the documents and the number of messages to come stay *)
    assert (Hkeep : ds' = ds -> (source ds c' <= source ds c)%nat -> last_change c = None ->
      (total unfinished ds' < total unfinished ds)%nat \/ total unfinished ds' = total unfinished ds /\
      ((total (source ds') (set_nth i c' calls) + length (match last_change c with Some id => owes ++ [(i, id)] | None => owes end) < total (source ds) calls + length owes)%nat \/
       (total (source ds') (set_nth i c' calls) + length (match last_change c with Some id => owes ++ [(i, id)] | None => owes end) = total (source ds) calls + length owes)%nat /\
       ((total (rank (length rows)) pages < total (rank (length rows)) pages)%nat \/ total (rank (length rows)) pages = total (rank (length rows)) pages /\ (total (left N) (set_nth i c' calls) < total (left N) calls)%nat))).
    { intros -> Hsrc ->. right. split; [reflexivity|]. assert (H2 := total_set (source ds) calls i c c' Hc).
      destruct (Nat.eq_dec (source ds c') (source ds c)) as [He|He]; [right; split; [lia|right; split; [reflexivity|lia]]|left; lia]. }
    destruct c as [user id|user d|user d x cx g|user d x cx g ids k got|id en|id user|a id|d|d x cx med|d x cx med ids k got|id r|ok]; cbn [dec_step] in Hs; try discriminate Hfin.
    - destruct (find_decryption ds id); injection Hs as <- <-; apply Hkeep; try reflexivity; cbn [source about]; lia.
    - destruct (find_election _ _) as [x|]; [destruct (el_context x); [destruct (load_guardian disk user d)|]|]; injection Hs as <- <-; apply Hkeep; try reflexivity; cbn [source about]; lia.
    - injection Hs as <- <-; apply Hkeep; try reflexivity; cbn [source about]; lia.
    - destruct ids as [|j ids]; [destruct (join_entry _ _ _ _ _ _ _ _)|destruct (read_next _ _ _ _ _) as [[? ?] ?]]; injection Hs as <- <-; apply Hkeep; try reflexivity; cbn [source about]; lia.
    - injection Hs as <- <-. destruct (kept ds id (push_share en)) as [K1 K2]; [reflexivity|reflexivity|]. cbn [last_change]. right. split; [exact K1|]. right. split.
      + f_equal. rewrite (total_ext _ (source ds)) by (intros y _; apply source_ext, K2). assert (H2 := total_set (source ds) calls i _ (JoinMark id (en_user en)) Hc). cbn [source] in H2. lia.
      + right. split; [reflexivity|lia].
    - injection Hs as <- <-. destruct (kept ds id (push_joined user)) as [K1 K2]; [reflexivity|reflexivity|]. cbn [last_change]. right. split; [exact K1|]. left.
      rewrite (total_ext _ (source ds)) by (intros y _; apply source_ext, K2). assert (H2 := total_set (source ds) calls i _ (Finished true) Hc). cbn [source about] in H2. rewrite app_length. cbn [length]. lia.
    - destruct (find_decryption ds id) as [d|] eqn:Hf; [destruct (should_run a d) eqn:Hr|]; injection Hs as <- <-; apply Hkeep; try reflexivity; cbn [source about]; try lia.
      destruct (find_dec _ _ _ Hf) as [_ Hi]. unfold is_done. rewrite Hi, Hf. unfold should_run in Hr. apply andb_prop in Hr as [_ Hr]. unfold has_result. destruct (dy_result d); [discriminate|lia].
    - destruct (find_election _ _) as [x|]; [destruct (el_context x); [|]|]; try (injection Hs as <- <-; apply Hkeep; try reflexivity; cbn [source about]; lia).
      match type of Hs with match ?t with Ok _ => _ | Err _ => _ end = _ => destruct t end; injection Hs as <- <-; apply Hkeep; try reflexivity; cbn [source about]; lia.
    - injection Hs as <- <-; apply Hkeep; try reflexivity; cbn [source about]; lia.
    - destruct ids as [|j ids]; [destruct (make_result _ _ _ _ _ _)|destruct (read_next _ _ _ _ _) as [[? ?] ?]]; injection Hs as <- <-; apply Hkeep; try reflexivity; cbn [source about]; lia.
    - injection Hs as <- <-. assert (K := completed ds id r). cbn [last_change]. destruct (is_done ds id) eqn:Hd; [|left; exact K]. destruct K as [K1 K2]. right. split; [exact K1|]. left.
      rewrite (total_ext _ (source ds)) by (intros y _; apply source_ext, K2). assert (H2 := total_set (source ds) calls i _ (Finished true) Hc). cbn [source about] in H2. rewrite Hd in H2. rewrite app_length. cbn [length]. lia.
  Qed.
  Lemma less_step N w e : by_itself e -> (length (db_uploads (dw_db (dx_dec w))) <= N)%nat -> step w e = w \/ less N (step w e) w.
  Proof.
    destruct w as [d rows owes pages]. intros He HN. destruct e as [ev|i|i|s|id|p|p|p|p|p]; try destruct He; cbn [dx_dec] in HN.
    - destruct ev as [| | | |i net up rnd]; try destruct He. apply less_call, HN.
    - cbn [dx_step]. destruct (filter (fun x => Nat.eqb (fst x) i) owes) as [|y l] eqn:Hf.
      + left. rewrite (filter_none _ _ Hf). cbn [map]. rewrite app_nil_r. reflexivity.
      + right. assert (Hl := filter_some (fun x => Nat.eqb (fst x) i) owes). rewrite Hf in Hl. unfold less, mu1, mu2, mu3, mu4. cbn [dx_dec dx_owes dx_pages dx_rows]. right. split; [reflexivity|]. left.
        specialize (Hl ltac:(discriminate)). lia.
    - cbn [dx_step plain dx_pages dx_dec]. destruct (nth_error pages p) as [[id []]|] eqn:Hp; try (left; reflexivity). right. rewrite reading_world.
      unfold less, mu1, mu2, mu3. cbn [dx_dec dw_docs dw_calls dx_owes dx_pages dx_rows]. right. split; [reflexivity|]. right. rewrite total_app. cbn [total]. rewrite look_source. split; [lia|]. left.
      assert (H := rank_set (length rows) p (after_look (dw_docs d) id (length (dw_calls d)) (length rows)) pages _ Hp). unfold rank in H at 2 4. cbn [pg_state] in H.
      unfold after_look in *. destruct (find_decryption (dw_docs d) id) as [x|]; [destruct (should_run true x); [|destruct (has_result x)]|]; cbn in H; lia.
    - cbn [dx_step]. destruct (nth_error pages p) as [[id []]|] eqn:Hp; try (left; reflexivity).
      + assert (H : forall s, (rank (length rows) (mkPage id s) < 2)%nat -> less N (mkDx d rows owes (set_page p s pages)) (mkDx d rows owes pages)).
        { intros s Hs. unfold less, mu1, mu2, mu3. cbn [dx_dec dw_docs dw_calls dx_owes dx_pages dx_rows]. right. split; [reflexivity|]. right. split; [reflexivity|]. left.
          assert (H := rank_set (length rows) p s pages _ Hp). cbn [pg_doc] in H. unfold rank in H at 2. cbn [pg_state] in H. lia. }
        destruct (nth_error (dw_calls d) i) as [[| | | | | | | | | | |[]]|]; try (left; reflexivity).
        * destruct (is_owed i owes); [left; reflexivity|]. right. apply H. destruct (find_decryption (dw_docs d) id) as [x|]; [destruct (has_result x)|]; cbn; lia.
        * right. apply H. cbn. lia.
      + destruct (nth_error (dw_calls d) i) as [[]|]; try (left; reflexivity). destruct (is_owed i owes); [left; reflexivity|]. right.
        unfold less, mu1, mu2, mu3. cbn [dx_dec dw_docs dw_calls dx_owes dx_pages dx_rows]. right. split; [reflexivity|]. right. split; [reflexivity|]. left.
        assert (H := rank_set (length rows) p (PgWatching k) pages _ Hp). unfold rank in H at 2 4. cbn [pg_state] in H. lia.
    - cbn [dx_step]. destruct (nth_error pages p) as [[id []]|] eqn:Hp; try (left; reflexivity). right.
      unfold less, mu1, mu2, mu3. cbn [dx_dec dw_docs dw_calls dx_owes dx_pages dx_rows]. right. split; [reflexivity|]. right. split; [reflexivity|]. left.
      assert (H := rank_set (length rows) p (PgWatching (length rows)) pages _ Hp). unfold rank in H at 2 4. cbn [pg_state] in H. lia.
    - cbn [dx_step plain dx_pages dx_dec dx_rows]. destruct (nth_error pages p) as [[id []]|] eqn:Hp; try (left; reflexivity). destruct (nth_error rows k) as [s|] eqn:Hk; [|left; reflexivity]. right.
      assert (Hlt : (k < length rows)%nat) by (apply nth_error_Some; congruence).
      destruct (String.eqb s id).
      + rewrite reading_world. unfold less, mu1, mu2, mu3. cbn [dx_dec dw_docs dw_calls dx_owes dx_pages dx_rows]. right. split; [reflexivity|]. right. rewrite total_app. cbn [total]. rewrite look_source. split; [lia|]. left.
        assert (H := rank_set (length rows) p (after_message (dw_docs d) id (length (dw_calls d)) (S k)) pages _ Hp). unfold rank in H at 2 4. cbn [pg_state] in H.
        unfold after_message in *. destruct (find_decryption (dw_docs d) id) as [x|]; [destruct (should_run true x)|]; lia.
      + unfold less, mu1, mu2, mu3. cbn [dec_run fold_left dx_dec dw_docs dw_calls dx_owes dx_pages dx_rows]. right. split; [reflexivity|]. right. split; [reflexivity|]. left.
        assert (H := rank_set (length rows) p (PgWatching (S k)) pages _ Hp). unfold rank in H at 2 4. cbn [pg_state] in H. lia.
  Qed.
  Lemma same_uploads w e : by_itself e -> dw_db (dx_dec (step w e)) = dw_db (dx_dec w).
  Proof.
    intros He. rewrite dec_of_step. unfold dw_db. rewrite ups_run. replace (ups (plain w e)) with (@nil up_event); [reflexivity|].
    destruct e as [ev|i|i|s|id|p|p|p|p|p]; try destruct He; cbn [plain]; try reflexivity.
    - destruct ev; try destruct He. reflexivity.
    - destruct (nth_error (dx_pages w) p) as [[id []]|]; reflexivity.
    - destruct (nth_error (dx_pages w) p) as [[id []]|]; try reflexivity. destruct (nth_error (dx_rows w) k) as [s|]; [|reflexivity]. destruct (String.eqb s id); reflexivity.
  Qed.
  Lemma ends w (f : nat -> dx_event) : (forall n, by_itself (f n)) -> exists n, let w' := xrun w (map f (seq 0 n)) in step w' (f n) = w'.
  Proof.
    set (N := length (db_uploads (dw_db (dx_dec w)))). assert (HN : (length (db_uploads (dw_db (dx_dec w))) <= N)%nat) by (unfold N; lia). clearbody N. revert f HN.
    induction w as [w IH] using (well_founded_ind (less_wf N)). intros f HN Hf. destruct (less_step N w (f 0%nat) (Hf 0%nat) HN) as [H|H]; [exists 0%nat; exact H|].
    destruct (IH (step w (f 0%nat)) H (fun n => f (S n))) as [n Hn]; [rewrite same_uploads by apply Hf; exact HN|intros n; apply Hf|].
    exists (S n). cbv zeta in *. cbn [seq map]. rewrite <- seq_shift, map_map. exact Hn.
  Qed.

  (** ** as long as a page is not at rest, something can happen *)
  Definition own_calls (w : dx_world) : Prop :=
    Forall (fun pg => match pg_state pg with PgRunning i | PgHandling i _ => (i < length (dw_calls (dx_dec w)))%nat | _ => True end) (dx_pages w).
  Lemma calls_grow d l : (length (dw_calls d) <= length (dw_calls (run d l)))%nat.
  Proof.
    revert d. induction l as [|ev l IH]; intros d; [cbn; lia|]. change (run d (ev :: l)) with (run (dec_event_step E parse device disk d ev) l).
    eapply Nat.le_trans; [|apply IH]. destruct ev as [v|id e|user id|a id|i net up rnd]; cbn [dec_event_step dw_calls]; rewrite ?app_length; try lia.
    destruct (nth_error (dw_calls d) i) as [c|]; [|lia]. destruct (dec_step _ _ _ _ _ _ _ _ _) as [c' ds']. cbn [dw_calls]. rewrite set_nth_length. lia.
  Qed.
  Lemma own_step w e : own_calls w -> own_calls (step w e).
  Proof.
    unfold own_calls. intros H. assert (Hg : (length (dw_calls (dx_dec w)) <= length (dw_calls (dx_dec (step w e))))%nat) by (rewrite dec_of_step; apply calls_grow).
    assert (H' : Forall (fun pg => match pg_state pg with PgRunning i | PgHandling i _ => (i < length (dw_calls (dx_dec (step w e))))%nat | _ => True end) (dx_pages w)).
    { eapply Forall_impl; [|exact H]. intros pg. cbv beta. destruct (pg_state pg); try (intros; exact Logic.I); intros Hi; lia. }
    clear H. destruct w as [d rows owes pages]. cbn [dx_pages dx_dec] in H', Hg.
    assert (Hn : forall id, (length (dw_calls d) < length (dw_calls (run d (reading (length (dw_calls d)) id))))%nat).
    { intros id. rewrite reading_world. cbn [dw_calls]. rewrite app_length. cbn. lia. }
    destruct e as [ev|j|j|x|y|q|q|q|q|q]; cbn [dx_step plain dx_pages dx_rows dx_dec] in *; try exact H'.
    - apply Forall_app. split; [exact H'|]. constructor; [exact Logic.I|constructor].
    - destruct (nth_error pages q) as [[id []]|]; try exact H'. cbn [dx_pages dx_dec] in *. apply Forall_set_page; [exact H'|]. intros x _. cbn [pg_state]. unfold after_look.
      destruct (find_decryption (dw_docs d) id) as [y|]; [destruct (should_run true y); [apply Hn|destruct (has_result y); exact Logic.I]|exact Logic.I].
    - destruct (nth_error pages q) as [[id []]|]; try exact H'; destruct (nth_error (dw_calls d) _) as [[| | | | | | | | | | |[]]|]; try exact H'; try (destruct (is_owed _ _); try exact H');
        cbn [dx_pages dx_dec] in *; (apply Forall_set_page; [exact H'|]); intros x _; cbn [pg_state]; try exact Logic.I.
      destruct (find_decryption (dw_docs d) id) as [y|]; [destruct (has_result y)|]; exact Logic.I.
    - destruct (nth_error pages q) as [[id []]|]; try exact H'. cbn [dx_pages dx_dec] in *. apply Forall_set_page; [exact H'|]. intros x _. exact Logic.I.
    - destruct (nth_error pages q) as [[id []]|]; try exact H'. destruct (nth_error rows k) as [s|]; [|exact H']. cbn [dx_pages dx_dec] in *. apply Forall_set_page; [exact H'|]. intros x _. cbn [pg_state].
      destruct (String.eqb s id); [|exact Logic.I]. unfold after_message. destruct (find_decryption (dw_docs d) id) as [y|]; [destruct (should_run true y); [apply Hn|exact Logic.I]|exact Logic.I].
    - apply Forall_set_page; [exact H'|]. intros x _. exact Logic.I.
  Qed.
  Lemma own_run h : forall w, own_calls w -> own_calls (xrun w h).
  Proof. induction h as [|e h IH]; intros w H; [exact H|]. apply IH, own_step, H. Qed.
  Lemma page_moves q s pages x : nth_error pages q = Some x -> pg_state x <> s -> set_page q s pages <> pages.
  Proof. intros Hx Hs He. assert (H := nth_set_page q s pages q). rewrite He, Nat.eqb_refl, Hx in H. cbn in H. injection H as H. apply Hs. rewrite H. reflexivity. Qed.
  Lemma tell_moves d rows owes pages i id : In (i, id) owes -> step (mkDx d rows owes pages) (Tell i) <> mkDx d rows owes pages.
  Proof.
    intros Hi He. cbn [dx_step] in He. assert (Ho := f_equal dx_owes He). cbn [dx_owes] in Ho. assert (Hin : In (i, id) (filter (fun x => negb (Nat.eqb (fst x) i)) owes)) by (rewrite Ho; exact Hi).
    apply filter_In in Hin as [_ Hin]. cbn [fst] in Hin. rewrite Nat.eqb_refl in Hin. discriminate.
  Qed.
  Lemma not_stuck w p id s : own_calls w -> nth_error (dx_pages w) p = Some (mkPage id s) -> s <> PgClosed ->
    at_rest w p id \/ exists e, by_itself e /\ step w e <> w.
  Proof.
    destruct w as [d rows owes pages]. intros Ho Hp Hs. cbn [dx_pages] in Hp.
    assert (Hcall : forall i, (i < length (dw_calls d))%nat -> (exists ok, nth_error (dw_calls d) i = Some (Finished ok)) \/ step (mkDx d rows owes pages) (Do (Step i true (fun _ => true) (fun _ => 0))) <> mkDx d rows owes pages).
    { intros i Hi. destruct (nth_error (dw_calls d) i) as [c|] eqn:Hc; [|apply nth_error_Some in Hc; [destruct Hc|exact Hi]].
      destruct (left 0 c) as [|n] eqn:Hl; [left; apply left_finished in Hl as [ok ->]; exists ok; reflexivity|]. right. intros He. apply (f_equal dx_dec) in He. cbn [dx_step plain dx_dec] in He.
      unfold dec_run in He. cbn [fold_left dec_event_step] in He. rewrite Hc in He. destruct (dec_step _ _ _ _ _ _ _ _ _) as [c' ds'] eqn:Hst. cbn [dx_dec] in He.
      apply (f_equal dw_calls) in He. cbn [dw_calls] in He. assert (Hsame := GuiDecRun.set_nth_same i c' c (dw_calls d) Hc). rewrite He, Hc in Hsame. injection Hsame as ->.
      destruct (step_left E parse disk (length (db_uploads (dw_db d))) _ _ _ _ _ _ _ _ (le_n _) Hst) as [H|H]; [|lia]. apply left_finished in H as [ok ->]. cbn in Hl. discriminate. }
    assert (Hown : match s with PgRunning i | PgHandling i _ => (i < length (dw_calls d))%nat | _ => True end).
    { unfold own_calls in Ho. rewrite Forall_forall in Ho. exact (Ho _ (nth_error_In _ _ Hp)). }
    assert (Howed : forall i, is_owed i owes = true -> exists e, by_itself e /\ step (mkDx d rows owes pages) e <> mkDx d rows owes pages).
    { intros i Hi. apply existsb_exists in Hi as ([j x] & Hin & Hj). cbn [fst] in Hj. apply Nat.eqb_eq in Hj as ->. exists (Tell i). split; [exact Logic.I|]. eapply tell_moves, Hin. }
    destruct s as [|i|n|k|i k| | |]; try (left; eexists; split; [exact Hp|exact Logic.I]); [right|right|right| |right|destruct (Hs eq_refl)].
    - exists (Look p). split; [exact Logic.I|]. cbn [dx_step]. rewrite Hp. intros He. apply (f_equal dx_pages) in He. cbn [dx_pages] in He. revert He. eapply page_moves; [exact Hp|]. cbn [pg_state].
      unfold after_look. destruct (find_decryption (dw_docs d) id) as [y|]; [destruct (should_run true y); [|destruct (has_result y)]|]; discriminate.
    - destruct (Hcall i Hown) as [[ok Hf]|H]; [|eexists; split; [|exact H]; exact Logic.I]. destruct (is_owed i owes) eqn:Hw; [eapply Howed, Hw|]. exists (Back p). split; [exact Logic.I|]. cbn [dx_step]. rewrite Hp, Hf.
      destruct ok; [rewrite Hw|]; intros He; apply (f_equal dx_pages) in He; cbn [dx_pages] in He; revert He; (eapply page_moves; [exact Hp|]); cbn [pg_state]; try discriminate.
      destruct (find_decryption (dw_docs d) id) as [y|]; [destruct (has_result y)|]; discriminate.
    - exists (Burn p). split; [exact Logic.I|]. cbn [dx_step]. rewrite Hp. intros He. apply (f_equal dx_pages) in He. cbn [dx_pages] in He. revert He. eapply page_moves; [exact Hp|]. discriminate.
    - destruct (nth_error rows k) as [x|] eqn:Hk.
      + right. exists (Deliver p). split; [exact Logic.I|]. cbn [dx_step]. rewrite Hp, Hk. intros He. apply (f_equal dx_pages) in He. cbn [dx_pages] in He. revert He. eapply page_moves; [exact Hp|]. cbn [pg_state].
        assert (Hx : forall n, PgWatching k <> PgWatching (S k + n)) by (intros n He; injection He; lia). specialize (Hx 0%nat). rewrite Nat.add_0_r in Hx.
        destruct (String.eqb x id); [|exact Hx]. unfold after_message. destruct (find_decryption (dw_docs d) id) as [y|]; [destruct (should_run true y); [discriminate|exact Hx]|exact Hx].
      + assert (Hd : (exists i, In (i, id) owes) \/ ~ exists i, In (i, id) owes).
        { clear. induction owes as [|[i x] l IH]; [right; intros [i []]|]. destruct (String.eqb_spec x id) as [->|Hn]; [left; exists i; left; reflexivity|].
          destruct IH as [[j Hj]|IH]; [left; exists j; right; exact Hj|]. right. intros [j [Hj|Hj]]; [congruence|]. apply IH. exists j. exact Hj. }
        destruct Hd as [[i Hi]|Hd]; [right; exists (Tell i); split; [exact Logic.I|]; eapply tell_moves, Hi|]. left. exists (PgWatching k). split; [exact Hp|]. split; [|exact Hd].
        unfold unread. cbn [dx_rows]. apply nth_error_None in Hk. rewrite skipn_all2 by exact Hk. intros [].
    - destruct (Hcall i Hown) as [[ok Hf]|H]; [|eexists; split; [|exact H]; exact Logic.I]. destruct (is_owed i owes) eqn:Hw; [eapply Howed, Hw|]. exists (Back p). split; [exact Logic.I|]. cbn [dx_step]. rewrite Hp, Hf, Hw.
      intros He. apply (f_equal dx_pages) in He. cbn [dx_pages] in He. revert He. eapply page_moves; [exact Hp|]. discriminate.
  Qed.
End Ends.
Lemma watched_not_stuck E parse device disk w0 h p id s : let w := watched E parse device disk w0 h in
  nth_error (dx_pages w) p = Some (mkPage id s) -> s <> PgClosed -> at_rest w p id \/ exists e, by_itself e /\ dx_step E parse device disk w e <> w.
Proof. intros w. apply not_stuck. apply own_run. constructor. Qed.
