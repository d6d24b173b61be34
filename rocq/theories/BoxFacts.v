(** * BoxFacts: the scheduler, data stores and the ballot box. *)
From Verif Require Import Base Group Codec Hash DLog ElGamal ZK Manifest Ballot Encrypt Box Tally Spec SpecElection SpecTally ListFacts BallotFacts EncryptThms TallyMore.
From Coq Require Import Permutation List.

(** ** the scheduler *)
Section Sched.
  Context {A B : Type} (task : A -> res B) (args : list A).
  Lemma run_tasks_ok rs : rmapM task args = Ok rs -> forall order slots,
    (forall i, In i order -> (i < length args)%nat) ->
    exists slots', run_tasks task args order slots = Ok slots' /\
      forall j, slots' j = if existsb (Nat.eqb j) order then nth_error rs j else slots j.
  Proof.
    intros Hr. apply rmapM_iff in Hr. induction order as [|i order IH]; intros slots Ho; cbn [run_tasks].
    - exists slots. cbn. auto.
    - pose proof (Ho i (or_introl eq_refl)) as Hi.
      destruct (nth_error args i) as [a|] eqn:Ha; [|apply nth_error_None in Ha; lia].
      assert (Hb : exists b, nth_error rs i = Some b /\ task a = Ok b).
      { clear - Hr Ha. revert i Ha. induction Hr as [|x y l l' Hxy Hr IH]; intros [|i] Ha; cbn in *; try discriminate.
        - injection Ha as ->. eauto.
        - apply IH, Ha. }
      destruct Hb as [b [Hb1 Hb2]]. rewrite Hb2. cbn [rbind].
      destruct (IH (fun j => if Nat.eqb j i then Some b else slots j)) as [slots' [H1 H2]]; [intros; apply Ho; right; assumption|].
      exists slots'. split; [exact H1|]. intros j. rewrite H2. cbn [existsb].
      destruct (existsb (Nat.eqb j) order); [rewrite orb_true_r; reflexivity|]. rewrite orb_false_r.
      destruct (Nat.eqb_spec j i) as [->|_]; [symmetry; exact Hb1|reflexivity].
  Qed.
  Lemma run_tasks_err order : forall slots, (exists i a e, In i order /\ nth_error args i = Some a /\ task a = Err e) ->
    exists e, run_tasks task args order slots = Err e.
  Proof.
    induction order as [|i order IH]; intros slots (j & a & e & Hj & Ha & He); [destruct Hj|]. cbn [run_tasks].
    destruct (nth_error args i) as [a'|] eqn:Ha'.
    - destruct (task a') as [b|e'] eqn:Ht; cbn [rbind]; [|eauto]. apply IH. exists j, a, e. destruct Hj as [->|Hj]; [|auto]. congruence.
    - apply IH. exists j, a, e. destruct Hj as [->|Hj]; [congruence|auto].
  Qed.
  Lemma rmapM_err l e : rmapM task l = Err e -> exists a e', In a l /\ task a = Err e'.
  Proof.
    revert e. induction l as [|a l IH]; intros e H; cbn in H; [discriminate|]. destruct (task a) as [b|e'] eqn:Ht; cbn in H.
    - destruct (rmapM task l) as [bs|e']; [discriminate|]. destruct (IH e' eq_refl) as (a' & e2 & Hin & He). exists a', e2. split; [right|]; assumption.
    - exists a, e'. split; [left; reflexivity|assumption].
  Qed.
  Lemma nth_error_seq_all (rs : list B) : forall n slots, (forall j, (j < length rs)%nat -> slots (n + j)%nat = nth_error rs j) ->
    flat_map (fun i => match slots i with Some r => [r] | None => [] end) (seq n (length rs)) = rs.
  Proof.
    induction rs as [|r rs IH]; intros n slots H; cbn [length seq flat_map]; [reflexivity|].
    pose proof (H 0%nat) as H0. rewrite Nat.add_0_r in H0. rewrite H0 by (cbn; lia). cbn [nth_error app]. f_equal.
    apply IH. intros j Hj. replace (S n + j)%nat with (n + S j)%nat by lia. rewrite H by (cbn; lia). reflexivity.
  Qed.
  (** whatever the order in which the tasks are run, the outcome is the same *)
  Theorem schedule_any_order order up : Permutation order (seq 0 (length args)) ->
    schedule_in order up task args = schedule up task args.
  Proof.
    intros HP. unfold schedule_in, schedule. destruct up; [|reflexivity]. unfold pool_starmap.
    destruct (rmapM task args) as [rs|e] eqn:Hr.
    - destruct (run_tasks_ok rs Hr order (fun _ => None)) as [slots [H1 H2]].
      { intros i Hi. apply (Permutation_in _ HP), in_seq in Hi. lia. }
      rewrite H1. cbn [rbind]. rewrite <- (rmapM_length _ _ _ Hr). apply nth_error_seq_all. intros j Hj. cbn [Nat.add]. rewrite H2.
      replace (existsb (Nat.eqb j) order) with true; [reflexivity|]. symmetry. apply existsb_exists. exists j.
      split; [|apply Nat.eqb_refl]. apply (Permutation_in _ (Permutation_sym HP)), in_seq. rewrite <- (rmapM_length _ _ _ Hr). lia.
    - destruct (rmapM_err _ _ Hr) as (a & e' & Hin & He). apply In_nth_error in Hin as [i Hi].
      destruct (run_tasks_err order (fun _ => None)) as [e2 H2].
      { exists i, a, e'. split; [|auto]. apply (Permutation_in _ (Permutation_sym HP)), in_seq.
        assert (i < length args)%nat by (apply nth_error_Some; congruence). lia. }
      rewrite H2. reflexivity.
  Qed.
  (** all the results in the order of the arguments, or nothing at all *)
  Theorem schedule_all_or_nothing up : let rs := schedule up task args in
    (up = true /\ Forall2 (fun a r => task a = Ok r) args rs) \/
    (rs = [] /\ (up = false \/ exists a e, In a args /\ task a = Err e)).
  Proof.
    unfold schedule. destruct up; [|right; auto]. destruct (rmapM task args) as [rs|e] eqn:Hr.
    - left. split; [reflexivity|]. apply rmapM_iff, Hr.
    - right. split; [reflexivity|]. right. exact (rmapM_err _ _ Hr).
  Qed.
End Sched.

(** ** data stores *)
Section StoreFacts.
  Context {K V : Type} `{EqB K}.
  Lemma store_run (h : list (store_op K V)) : let s := fold_left store_step h ds_new in
    NoDup (ds_keys s) /\ forall k, ds_get s k = latest (rev h) k.
  Proof.
    cbv zeta. induction h as [|o h IH] using rev_ind; [split; [constructor|reflexivity]|].
    rewrite fold_left_app, rev_app_distr. cbn [fold_left rev app]. destruct IH as [Hn Hg]. destruct o as [k v|k|]; cbn [store_step latest].
    - split; [apply dset_nodup, Hn|]. intros k'. unfold ds_get, ds_set in *. rewrite dget_dset. destruct (eqb k' k); [reflexivity|apply Hg].
    - unfold ds_pop. destruct (dmem k _) eqn:Hm; cbn [fst].
      + split; [apply dpop_nodup, Hn|]. intros k'. unfold ds_get in *. rewrite dget_dpop by exact Hn. destruct (eqb k' k); [reflexivity|apply Hg].
      + split; [exact Hn|]. intros k'. eqb_cases k' k; [|apply Hg]. subst k'. unfold dmem in Hm. unfold ds_get.
        destruct (dget k _); [discriminate|reflexivity].
    - split; [constructor|reflexivity].
  Qed.
  Lemma store_reads (h : list (store_op K V)) : let s := fold_left store_step h ds_new in
    (forall k, ds_get s k = latest (rev h) k) /\
    (forall k v, In (k, v) (ds_items s) <-> latest (rev h) k = Some v) /\
    NoDup (ds_keys s) /\ (forall k, In k (ds_keys s) <-> latest (rev h) k <> None) /\
    ds_len s = len (ds_keys s) /\ ds_items s = combine (ds_keys s) (ds_values s) /\
    (forall k, snd (ds_pop s k) = latest (rev h) k).
  Proof.
    cbv zeta. destruct (store_run h) as [Hn Hg]. set (s := fold_left store_step h ds_new) in *.
    split; [exact Hg|]. split; [|split; [exact Hn|split; [|split; [|split]]]].
    - intros k v. rewrite <- Hg. unfold ds_items, ds_get. split; [apply in_dget, Hn|apply dget_in].
    - intros k. rewrite <- Hg. unfold ds_keys, ds_get. rewrite <- dget_some_key. destruct (dget k s); split; eauto; try discriminate; try congruence.
      intros [? ?]; discriminate.
    - unfold ds_len, ds_keys, dkeys. rewrite len_map. reflexivity.
    - unfold ds_items, ds_keys, ds_values, dkeys, dvals. clearbody s. clear. induction s as [|[k v] s IH]; cbn; [reflexivity|]. rewrite <- IH. reflexivity.
    - intros k. rewrite <- Hg. unfold ds_pop, ds_get, dmem. destruct (dget k s); reflexivity.
  Qed.
End StoreFacts.

(** ** the ballot box *)
Section BoxRun.
  Context (E : env) (im : internal_manifest) (cx : context).
  Notation valid_for := (valid_for E im cx).
  Notation step := (fun '(x, rs) '(b, st) => let '(x', r) := box_submit E x b st in (x', rs ++ [r])).
  Lemma box_form : forall h s rs seen, (forall i, In i seen <-> In i (dkeys s)) ->
    exists rs', fold_left step h (mkBox im cx s, rs) =
      (mkBox im cx (s ++ map (fun b => (sb_id b, b)) (somes (box_answers E valid_for seen h))), rs ++ rs') /\
      map answer_of rs' = box_answers E valid_for seen h.
  Proof.
    induction h as [|[b st] h IH]; intros s rs seen Hs; cbn [fold_left box_answers].
    - exists []. cbn. rewrite !app_nil_r. auto.
    - unfold box_submit at 2. cbn [bx_manifest bx_context bx_store]. unfold submit_to_box.
      assert (Hno : forall r, answer_of r = None -> exists rs',
        fold_left step h (mkBox im cx s, rs ++ [r]) =
          (mkBox im cx (s ++ map (fun b => (sb_id b, b)) (somes (None :: box_answers E valid_for seen h))), rs ++ rs') /\
        map answer_of rs' = None :: box_answers E valid_for seen h).
      { intros r Hr. destruct (IH s (rs ++ [r]) seen Hs) as (rs' & H1 & H2). exists (r :: rs').
        rewrite H1, <- app_assoc. cbn [map app]. rewrite Hr, H2. auto. }
      assert (Hv : valid_for b = match ballot_valid_for_election E b im cx true with Ok true => true | _ => false end) by reflexivity.
      rewrite Hv. clear Hv.
      destruct (ballot_valid_for_election E b im cx true) as [[|]|e]; cbn [andb]; [|apply Hno; reflexivity|apply Hno; reflexivity].
      destruct (inb (cb_id b) seen) eqn:Hi; cbn [negb].
      + apply inb_spec, Hs, dget_some_key in Hi as [v Hv]. unfold ds_get. rewrite Hv. apply Hno. reflexivity.
      + apply inb_false in Hi. rewrite Hs in Hi. pose proof Hi as Hi'. apply dget_none in Hi'. unfold ds_get at 1. rewrite Hi'.
        change (sb_id (submit_ballot E b st)) with (cb_id b). unfold ds_get, ds_set. rewrite dget_dset_same, dset_new by exact Hi.
        destruct (IH (s ++ [(cb_id b, submit_ballot E b st)]) (rs ++ [Ok (Some (submit_ballot E b st))]) (cb_id b :: seen)) as (rs' & H1 & H2).
        { intros i. unfold dkeys. rewrite map_app, in_app_iff. cbn [In map fst]. rewrite (Hs i). unfold dkeys. tauto. }
        exists (Ok (Some (submit_ballot E b st)) :: rs'). rewrite H1, <- !app_assoc. cbn [map app answer_of somes flat_map]. rewrite H2. auto.
  Qed.
  Lemma box_history h : let x := fst (run_box E (mkBox im cx ds_new) h) in
    let took := somes (box_answers E valid_for [] h) in
    map answer_of (snd (run_box E (mkBox im cx ds_new) h)) = box_answers E valid_for [] h /\
    ds_items (bx_store x) = map (fun b => (sb_id b, b)) took.
  Proof.
    cbv zeta. unfold run_box. destruct (box_form h ds_new [] []) as (rs' & H1 & H2); [cbn; tauto|].
    unfold ds_new in *. rewrite H1. cbn [fst snd bx_store app]. auto.
  Qed.
  Lemma box_took_ids : forall h seen, NoDup (map sb_id (somes (box_answers E valid_for seen h))) /\
    (forall i, In i seen -> ~ In i (map sb_id (somes (box_answers E valid_for seen h)))).
  Proof.
    induction h as [|[b st] h IH]; intros seen; cbn [box_answers]; [split; [constructor|intros i _ []]|].
    destruct (valid_for b && negb (inb (cb_id b) seen)) eqn:Hc.
    - apply andb_true_iff in Hc as [_ Hc]. apply negb_true_iff, inb_false in Hc. destruct (IH (cb_id b :: seen)) as [H1 H2].
      cbn [somes flat_map app map]. fold (somes (box_answers E valid_for (cb_id b :: seen) h)). split.
      + constructor; [|exact H1]. apply H2. left. reflexivity.
      + intros i Hi [<-|Hin]; [apply Hc, Hi|]. apply (H2 i); [right; exact Hi|exact Hin].
    - destruct (IH seen) as [H1 H2]. split; [exact H1|exact H2].
  Qed.
  Lemma box_took_from : forall h seen sb, In sb (somes (box_answers E valid_for seen h)) ->
    exists b st, In (b, st) h /\ valid_for b = true /\ sb = submit_ballot E b st.
  Proof.
    induction h as [|[b st] h IH]; intros seen sb Hin; cbn [box_answers] in Hin; [destruct Hin|].
    destruct (valid_for b && negb (inb (cb_id b) seen)) eqn:Hc; cbn [somes flat_map app] in Hin.
    - destruct Hin as [<-|Hin].
      + exists b, st. apply andb_true_iff in Hc as [Hc _]. split; [left; reflexivity|auto].
      + destruct (IH _ _ Hin) as (b' & st' & H1 & H2). exists b', st'. split; [right; exact H1|exact H2].
    - destruct (IH _ _ Hin) as (b' & st' & H1 & H2). exists b', st'. split; [right; exact H1|exact H2].
  Qed.
  Lemma submit_no_nonces b st : no_nonces (sb_ballot (submit_ballot E b st)).
  Proof.
    split; [reflexivity|]. intros c Hc. apply in_map_iff in Hc as [c0 [<- _]]. split; [reflexivity|].
    intros s Hs. apply in_map_iff in Hs as [s0 [<- _]]. reflexivity.
  Qed.
  (** unconditional facts about one call *)
  Lemma submit_keeps x b st i sb : ds_get (bx_store x) i = Some sb -> ds_get (bx_store (fst (box_submit E x b st))) i = Some sb.
  Proof.
    intros Hg. unfold box_submit, submit_to_box. destruct (ballot_valid_for_election E b _ _ true) as [[|]|e]; cbn [fst bx_store]; try exact Hg.
    destruct (ds_get (bx_store x) (cb_id b)) as [y|] eqn:Hy; cbn [fst bx_store]; [exact Hg|].
    change (sb_id (submit_ballot E b st)) with (cb_id b). unfold ds_get, ds_set in *. rewrite dget_dset_other; [exact Hg|]. intros ->. congruence.
  Qed.
  Lemma submit_refused x b st : answer_of (snd (box_submit E x b st)) = None -> fst (box_submit E x b st) = x.
  Proof.
    unfold box_submit, submit_to_box. destruct (ballot_valid_for_election E b _ _ true) as [[|]|e]; cbn; try (destruct x; reflexivity).
    destruct (ds_get (bx_store x) (cb_id b)) as [y|]; cbn; [destruct x; reflexivity|].
    unfold ds_get, ds_set. change (sb_id (submit_ballot E b st)) with (cb_id b). rewrite dget_dset_same. discriminate.
  Qed.
  Lemma run_box_keeps h x i sb : ds_get (bx_store x) i = Some sb -> ds_get (bx_store (fst (run_box E x h))) i = Some sb.
  Proof.
    intros Hg. unfold run_box.
    enough (Hall : forall h x rs, ds_get (bx_store x) i = Some sb -> ds_get (bx_store (fst (fold_left step h (x, rs)))) i = Some sb) by (apply Hall, Hg).
    clear. induction h as [|[b st] h IH]; intros x rs Hg; cbn [fold_left]; [exact Hg|].
    pose proof (submit_keeps x b st i sb Hg) as H. destruct (box_submit E x b st) as [x' r]. apply IH, H.
  Qed.
  (** the stored copy of a ballot whose contests are in sequence order is itself valid *)
  Lemma stored_valid b st : ballot_valid_for_election E b im cx true = Ok true ->
    sort_by bc_seq (cb_contests b) = cb_contests b -> cb_contests b <> [] -> ballot_valid_for_election E (sb_ballot (submit_ballot E b st)) im cx true = Ok true.
  Proof.
    intros Hv Hs Hne. apply accepted_iff in Hv as (ds & H1 & H2 & H3 & H4 & H5). apply accepted_iff.
    exists ds. split; [exact H1|]. split.
    - intros d Hd. apply style_contest_iff. specialize (H2 d Hd). apply style_contest_iff in H2. rewrite <- H2.
      unfold style_contest_ok. cbn [submit_ballot make_submitted sb_ballot cb_contests]. rewrite find_first_map. cbn [strip_contest bc_id].
      destruct (find_first _ (cb_contests b)) as [c|]; cbn [option_map]; [|reflexivity]. f_equal.
      + unfold contest_valid_for_style, strip_contest; cbn [bc_desc_hash bc_selections]. rewrite len_map. reflexivity.
      + apply forallb_ext'. intros sd _. cbn [strip_contest bc_selections]. rewrite find_first_map. cbn [strip_selection cs_id].
        destruct (find_first _ (bc_selections c)); reflexivity.
    - split; [exact H3|]. split.
      + cbn [submit_ballot make_submitted sb_ballot cb_hash]. unfold create_ballot_hash. rewrite Hs.
        unfold ballot_crypto_hash_with in *. cbn [cb_contests cb_id]. rewrite <- H3 in *.
        destruct (cb_contests b) as [|c cs] eqn:Hcs; cbn [map].
        * destruct (Hne eq_refl).
        * rewrite map_map. reflexivity.
      + cbn [submit_ballot make_submitted sb_ballot cb_contests]. intros c Hc. apply in_map_iff in Hc as [c0 [<- Hc]].
        destruct (H5 c0 Hc) as (A1 & A2 & A3 & A4).
        cbn [strip_contest bc_hash bc_id bc_selections bc_desc_hash bc_acc bc_proof]. rewrite contest_hash_strip, map_map.
        split; [exact A1|]. split; [exact A2|]. split; [exact A3|].
        intros s Hs'. apply in_map_iff in Hs' as [s0 [<- Hs0]]. exact (A4 s0 Hs0).
  Qed.
End BoxRun.

Lemma box_contents E im cx h : let s := bx_store (fst (run_box E (mkBox im cx ds_new) h)) in
  forall i sb, ds_get s i = Some sb -> exists b st, In (b, st) h /\ ballot_valid_for_election E b im cx true = Ok true /\
    sb = submit_ballot E b st /\ cb_id b = i.
Proof.
  cbv zeta. intros i sb Hg. destruct (box_history E im cx h) as [_ Hs]. apply dget_in in Hg. unfold ds_items in Hs. rewrite Hs in Hg.
  apply in_map_iff in Hg as [sb' [Hp Hin]]. injection Hp as Hi ->. destruct (box_took_from _ _ _ _ _ _ Hin) as (b & st & H1 & H2 & H3).
  exists b, st. split; [exact H1|]. unfold valid_for in H2. split; [destruct (ballot_valid_for_election E b im cx true) as [[|]|]; (reflexivity || discriminate)|].
  split; [exact H3|]. rewrite <- Hi, H3. reflexivity.
Qed.
Lemma box_nodup E im cx h : NoDup (ds_keys (bx_store (fst (run_box E (mkBox im cx ds_new) h)))).
Proof.
  destruct (box_history E im cx h) as [_ Hs]. unfold ds_items in Hs. rewrite Hs. unfold ds_keys, dkeys. rewrite map_map. cbn [fst].
  apply (box_took_ids E im cx h []).
Qed.
Lemma NoDup_keys_filter {K V} (f : K * V -> bool) (l : dict K V) : NoDup (dkeys l) -> NoDup (dkeys (filter f l)).
Proof.
  unfold dkeys. induction l as [|[k v] l IH]; intros Hn; [exact Hn|]. cbn [filter map] in *. inversion Hn as [|? ? Hni Hn']; subst.
  destruct (f (k, v)); cbn [map]; [|auto]. constructor; [|auto]. intros Hin. apply Hni. apply in_map_iff in Hin as [x [Hx Hin]].
  apply filter_In in Hin as [Hin _]. cbn [fst] in Hx. rewrite <- Hx. apply in_map, Hin.
Qed.
Lemma get_ballots_iff (s : ballot_store) st i sb : NoDup (ds_keys s) ->
  dget i (get_ballots s st) = Some sb <-> ds_get s i = Some sb /\ (st = None \/ st = Some (sb_state sb)).
Proof.
  intros Hn. unfold get_ballots, ds_items, ds_get.
  assert (Hn' := NoDup_keys_filter (fun kv => match st with None => true | Some st => box_state_eqb (sb_state (snd kv)) st end) s Hn).
  rewrite dict_of_distinct by exact Hn'. split.
  - intros H. apply dget_in, filter_In in H as [H Hf]. split; [apply in_dget; assumption|]. destruct st as [st|]; [right|left; reflexivity].
    cbn [snd] in Hf. destruct (sb_state sb), st; (reflexivity || discriminate).
  - intros [H Hst]. apply in_dget; [exact Hn'|]. apply filter_In. split; [apply dget_in, H|]. cbn [snd].
    destruct Hst as [-> | ->]; [reflexivity|]. destruct (sb_state sb); reflexivity.
Qed.
