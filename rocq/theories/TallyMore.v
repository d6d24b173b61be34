(** * TallyMore: invariants without assumptions on the ballots, order independence, batches. *)
From Verif Require Import Base Group Codec Hash DLog ElGamal ZK Manifest Ballot Box Tally Spec GroupFacts ListFacts SpecTally BallotFacts CryptoThms TallyFacts TallyThms.
From Coq Require Import Permutation List.

(** ** any history *)
Section Any.
  Context (E : env).
  Lemma add_cast_ids up t b : let '(t', r) := add_cast E up t b in
    ty_manifest t' = ty_manifest t /\ ty_context t' = ty_context t /\ ty_id t' = ty_id t /\ ty_spoiled t' = ty_spoiled t /\
    ty_cast t' = if said_yes r then set_add (sb_id b) (ty_cast t) else ty_cast t.
  Proof.
    unfold add_cast. destruct (add_contests E up 0 _ _) as [d r]. destruct r as [[|]|e]; cbn; auto.
  Qed.
  Lemma append_ids up t b v : let '(t', r) := append E up t b v in
    ty_manifest t' = ty_manifest t /\ ty_context t' = ty_context t /\ ty_id t' = ty_id t /\
    (said_yes r = false -> ty_cast t' = ty_cast t /\ ty_spoiled t' = ty_spoiled t) /\
    (said_yes r = true -> ~ In (sb_id b) (ty_cast t) /\ ~ In (sb_id b) (ty_spoiled t) /\
       ((sb_state b = CAST /\ ty_cast t' = ty_cast t ++ [sb_id b] /\ ty_spoiled t' = ty_spoiled t) \/
        (sb_state b = SPOILED /\ ty_cast t' = ty_cast t /\ ty_spoiled t' = ty_spoiled t ++ [sb_id b] /\ ty_contests t' = ty_contests t))).
  Proof.
    unfold append. destruct (box_state_eqb (sb_state b) UNKNOWN); [cbn; intuition discriminate|].
    destruct (tally_contains t b) eqn:Hc; [cbn; intuition discriminate|].
    destruct (ballot_valid_for_election E (sb_ballot b) _ _ v) as [[|]|e]; [|cbn; intuition discriminate|cbn; intuition discriminate].
    unfold tally_contains in Hc. apply orb_false_iff in Hc as [H1 H2]. pose proof H1 as H1'. pose proof H2 as H2'.
    apply inb_false in H1, H2. destruct (sb_state b); [| |cbn; intuition discriminate].
    - pose proof (add_cast_ids up t b) as Ha. destruct (add_cast E up t b) as [t' r]. destruct Ha as (A1 & A2 & A3 & A4 & A5).
      do 3 (split; [assumption|]). unfold set_add in A5. rewrite H1' in A5. split; intros Hr; rewrite Hr in A5; [auto|].
      split; [exact H1|]. split; [exact H2|]. left. auto.
    - cbn. unfold set_add. rewrite H2'. intuition discriminate.
  Qed.
  Lemma append_spoiled_contests up t b v : sb_state b <> CAST -> ty_contests (fst (append E up t b v)) = ty_contests t /\
    ty_cast (fst (append E up t b v)) = ty_cast t.
  Proof.
    intros Hs. unfold append. destruct (box_state_eqb (sb_state b) UNKNOWN); [cbn; auto|].
    destruct (tally_contains t b); [cbn; auto|].
    destruct (ballot_valid_for_election E (sb_ballot b) _ _ v) as [[|]|e]; cbn; auto. destruct (sb_state b); cbn; auto. congruence.
  Qed.

  Definition ids_ok (t : tally) : Prop :=
    NoDup (ty_cast t) /\ NoDup (ty_spoiled t) /\ forall i, In i (ty_cast t) -> In i (ty_spoiled t) -> False.
  Lemma NoDup_snoc {A} (l : list A) x : NoDup l -> ~ In x l -> NoDup (l ++ [x]).
  Proof.
    intros Hn Hx. apply Permutation_NoDup with (l := x :: l); [apply Permutation_cons_append|constructor; assumption].
  Qed.
  Lemma append_ids_ok up t b v : ids_ok t -> ids_ok (fst (append E up t b v)).
  Proof.
    intros (H1 & H2 & H3). pose proof (append_ids up t b v) as Ha. destruct (append E up t b v) as [t' r].
    destruct Ha as (_ & _ & _ & Hno & Hyes). cbn [fst]. destruct (said_yes r).
    - destruct (Hyes eq_refl) as (N1 & N2 & [(_ & C & S)|(_ & C & S & _)]); unfold ids_ok; rewrite C, S.
      + split; [apply NoDup_snoc; assumption|]. split; [assumption|]. intros i Hi Hs. apply in_app_iff in Hi as [Hi|[<-|[]]]; eauto.
      + split; [assumption|]. split; [apply NoDup_snoc; assumption|]. intros i Hi Hs. apply in_app_iff in Hs as [Hs|[<-|[]]]; eauto.
    - destruct (Hno eq_refl) as [C S]. unfold ids_ok. rewrite C, S. auto.
  Qed.
  (** invariants hold along any history *)
  Lemma run_any_inv (P : tally -> Prop) : (forall up t b v, P t -> P (fst (append E up t b v))) ->
    forall h t rs, P t -> P (fst (fold_left (fun '(t, rs) '(up, b, v) => let '(t', r) := append E up t b v in (t', rs ++ [r])) h (t, rs))).
  Proof.
    intros Hstep. induction h as [|[[up b] v] h IH]; intros t rs Ht; cbn [fold_left]; [exact Ht|].
    pose proof (Hstep up t b v Ht) as H. destruct (append E up t b v) as [t' r]. apply IH, H.
  Qed.
  Lemma run_any_ids id im cx h : ids_ok (fst (run_any E (new_tally E id im cx) h)).
  Proof.
    unfold run_any. apply run_any_inv; [apply append_ids_ok|]. split; [constructor|]. split; [constructor|]. intros i [].
  Qed.
  (** an accepted id stays recorded *)
  Lemma append_keeps up t b v i : In i (ty_cast t) \/ In i (ty_spoiled t) ->
    In i (ty_cast (fst (append E up t b v))) \/ In i (ty_spoiled (fst (append E up t b v))).
  Proof.
    intros Hi. pose proof (append_ids up t b v) as Ha. destruct (append E up t b v) as [t' r].
    destruct Ha as (_ & _ & _ & Hno & Hyes). cbn [fst]. destruct (said_yes r).
    - destruct (Hyes eq_refl) as (N1 & N2 & [(_ & C & S)|(_ & C & S & _)]); rewrite C, S, in_app_iff; tauto.
    - destruct (Hno eq_refl) as [C S]. rewrite C, S. exact Hi.
  Qed.
  Lemma append_again up t b v : In (sb_id b) (ty_cast t) \/ In (sb_id b) (ty_spoiled t) -> append E up t b v = (t, Ok false).
  Proof.
    intros Hi. unfold append. destruct (box_state_eqb (sb_state b) UNKNOWN); [reflexivity|].
    replace (tally_contains t b) with true; [reflexivity|]. symmetry. unfold tally_contains. rewrite orb_true_iff, !inb_spec. exact Hi.
  Qed.
  Lemma second_refused t h1 h2 up b v up' b' v' :
    said_yes (snd (append E up (fst (run_any E t h1)) b v)) = true -> sb_id b' = sb_id b ->
    let t2 := fst (run_any E (fst (append E up (fst (run_any E t h1)) b v)) h2) in
    append E up' t2 b' v' = (t2, Ok false).
  Proof.
    intros Hy Hid t2. apply append_again. rewrite Hid. unfold t2, run_any.
    apply (run_any_inv (fun t => In (sb_id b) (ty_cast t) \/ In (sb_id b) (ty_spoiled t))).
    - intros. apply append_keeps. assumption.
    - pose proof (append_ids up (fst (run_any E t h1)) b v) as Ha. unfold run_any in *.
      destruct (append E up _ b v) as [t' r]. cbn [snd] in Hy. cbn [fst]. destruct Ha as (_ & _ & _ & _ & Hyes).
      destruct (Hyes Hy) as (_ & _ & [(_ & C & S)|(_ & C & S & _)]); rewrite C, S, in_app_iff; cbn; auto.
  Qed.
End Any.

(** ** order *)
Lemma accepted_distinct ok : forall h seen, NoDup (map (fun bv : sub_ballot * bool => sb_id (fst bv)) h) ->
  (forall i, In i seen -> ~ In i (map (fun bv : sub_ballot * bool => sb_id (fst bv)) h)) ->
  accepted ok seen h = map fst (filter (fun bv => negb (box_state_eqb (sb_state (fst bv)) UNKNOWN) && ok (fst bv) (snd bv)) h).
Proof.
  induction h as [|[b v] h IH]; intros seen Hn Hs; cbn [accepted map filter fst snd] in *; [reflexivity|].
  inversion Hn as [|? ? Hni Hn']; subst.
  replace (inb (sb_id b) seen) with false.
  2:{ symmetry. apply inb_false. intros Hi. apply (Hs _ Hi). left. reflexivity. }
  cbn [negb]. rewrite andb_true_r.
  destruct (negb (box_state_eqb (sb_state b) UNKNOWN) && ok b v); cbn [map fst]; rewrite IH; try assumption; try reflexivity.
  - intros i [<-|Hi]; [exact Hni|]. intros Hin. apply (Hs i Hi). right. exact Hin.
  - intros i Hi Hin. apply (Hs i Hi). right. exact Hin.
Qed.
Lemma filter_perm {A} (f : A -> bool) l l' : Permutation l l' -> Permutation (filter f l) (filter f l').
Proof.
  induction 1 as [|x l l' H IH|x y l|l l' l'' H1 IH1 H2 IH2]; cbn.
  - constructor.
  - destruct (f x); [constructor; exact IH|exact IH].
  - destruct (f x), (f y); try constructor; try apply Permutation_refl.
  - eapply Permutation_trans; eassumption.
Qed.
Lemma accepted_perm ok h h' : Permutation h h' -> NoDup (map (fun bv : sub_ballot * bool => sb_id (fst bv)) h) ->
  Permutation (accepted ok [] h) (accepted ok [] h').
Proof.
  intros HP Hn. assert (Hn' : NoDup (map (fun bv : sub_ballot * bool => sb_id (fst bv)) h')).
  { eapply Permutation_NoDup; [apply Permutation_map, HP|exact Hn]. }
  rewrite !accepted_distinct by (assumption || (intros i [])). apply Permutation_map, filter_perm, HP.
Qed.
Lemma order_independent E im cx id h h' : valid_env E -> NoDup (contest_ids im) ->
  Forall (fun '(b, _) => complete im (sb_ballot b)) h -> Permutation h h' ->
  NoDup (map (fun bv : sub_ballot * bool => sb_id (fst bv)) h) ->
  let t := fst (run_appends E all_up (new_tally E id im cx) h) in
  let t' := fst (run_appends E all_up (new_tally E id im cx) h') in
  ty_contests t = ty_contests t' /\ Permutation (ty_cast t) (ty_cast t') /\ Permutation (ty_spoiled t) (ty_spoiled t').
Proof.
  intros HE Hn HF HP Hids.
  assert (HF' : Forall (fun '(b, _) => complete im (sb_ballot b)) h').
  { rewrite Forall_forall in *. intros x Hx. apply HF. eapply Permutation_in; [apply Permutation_sym, HP|exact Hx]. }
  destruct (run_appends_form E im cx Hn id h HF) as [H1 _]. destruct (run_appends_form E im cx Hn id h' HF') as [H1' _].
  cbv zeta. rewrite H1, H1'. unfold state_of. cbn [ty_contests ty_cast ty_spoiled].
  pose proof (accepted_perm (passes E im cx) h h' HP Hids) as Hacc.
  split; [|split; apply Permutation_map, filter_perm, Hacc].
  apply upd_perm; [exact HE|]. intros k s. unfold casts. apply Permutation_flat_map, filter_perm, Hacc.
Qed.
Lemma same_counted_same_totals E im cx id h h' : valid_env E -> NoDup (contest_ids im) ->
  Forall (fun '(b, _) => complete im (sb_ballot b)) h -> Forall (fun '(b, _) => complete im (sb_ballot b)) h' ->
  in_state CAST (accepted (passes E im cx) [] h) = in_state CAST (accepted (passes E im cx) [] h') ->
  ty_contests (fst (run_appends E all_up (new_tally E id im cx) h)) = ty_contests (fst (run_appends E all_up (new_tally E id im cx) h')).
Proof.
  intros HE Hn HF HF' Heq.
  destruct (run_appends_form E im cx Hn id h HF) as [H1 _]. destruct (run_appends_form E im cx Hn id h' HF') as [H1' _].
  rewrite H1, H1'. unfold state_of. cbn [ty_contests]. apply upd_ext. intros k s. unfold casts. rewrite Heq. reflexivity.
Qed.

(** ** refused ballots *)
Lemma refused_unchanged E im cx id h b v : NoDup (contest_ids im) ->
  Forall (fun '(b, _) => complete im (sb_ballot b)) h -> complete im (sb_ballot b) ->
  let t := fst (run_appends E all_up (new_tally E id im cx) h) in
  said_yes (snd (append E all_up t b v)) = false -> fst (append E all_up t b v) = t.
Proof.
  intros Hn HF Hc t. destruct (run_appends_form E im cx Hn id h HF) as [H1 _]. unfold t. rewrite H1. clear t H1.
  unfold append. destruct (box_state_eqb (sb_state b) UNKNOWN); [reflexivity|].
  destruct (tally_contains _ b) eqn:Hin; [reflexivity|].
  destruct (ballot_valid_for_election _ _ _ _ v) as [[|]|e]; try reflexivity.
  unfold tally_contains in Hin. apply orb_false_iff in Hin as [Hin _]. apply inb_false in Hin. cbn [state_of ty_cast] in Hin.
  destruct (sb_state b); try reflexivity; try discriminate.
  rewrite add_cast_ok; [discriminate|assumption|assumption|exact Hin].
Qed.
Lemma accumulate_refused E tc sels : NoDup (dkeys (tc_selections tc)) -> ~ In EmptyString (dkeys (tc_selections tc)) ->
  snd (accumulate_contest E true tc sels) <> Ok true -> fst (accumulate_contest E true tc sels) = tc.
Proof.
  intros Hn Hne. destruct sels as [|s0 ss] eqn:Hs; [reflexivity|]. rewrite <- Hs.
  destruct (existsb (fun k => negb (eqb k EmptyString))
     (filter (fun k => negb (inb k (set_of (map cs_id (filter (fun s => negb (cs_placeholder s)) sels))))) (dkeys (tc_selections tc)))) eqn:Hex.
  - intros _. unfold accumulate_contest. rewrite Hex. rewrite Hs. reflexivity.
  - intros H. exfalso. apply H. rewrite accumulate_contest_ok; [reflexivity|assumption|]. split; [congruence|].
    intros k Hk. destruct (inb k (set_of (map cs_id (filter (fun s => negb (cs_placeholder s)) sels)))) eqn:Hi.
    + apply inb_spec, set_of_in, in_map_iff in Hi as [s [Hid Hin]]. apply filter_In in Hin as [Hin Hp].
      exists s. split; [assumption|]. split; [assumption|]. destruct (cs_placeholder s); [discriminate|reflexivity].
    + exfalso. assert (Hf : existsb (fun k => negb (eqb k EmptyString))
       (filter (fun k => negb (inb k (set_of (map cs_id (filter (fun s => negb (cs_placeholder s)) sels))))) (dkeys (tc_selections tc))) = true).
      { apply existsb_exists. exists k. split; [apply filter_In; rewrite Hi; auto|].
        apply negb_true_iff, eqb_neq. intros ->. contradiction. }
      congruence.
Qed.

(** ** batches *)
Definition sel_votes (b : ct_ballot) (s : string) : list ciphertext :=
  map cs_ct (filter (fun x => String.eqb s (cs_id x)) (flat_map bc_selections (cb_contests b))).
Section Batch.
  Context (E : env) (HE : valid_env E).
  Notation entries := (string -> list (string * ciphertext)).
  Definition holds (acc : dict string (dict string ciphertext)) (A : entries) : Prop :=
    NoDup (dkeys acc) /\ forall s, dget s acc = match A s with [] => None | m => Some m end.

  Lemma collect_one_holds i acc A x : holds acc A -> ~ In i (map fst (A (cs_id x))) ->
    holds (collect_one i acc x) (fun s => A s ++ if String.eqb s (cs_id x) then [(i, cs_ct x)] else []).
  Proof.
    intros [H1 H2] Hf. unfold collect_one. rewrite H2. destruct (A (cs_id x)) as [|e m] eqn:HA; (split; [apply dset_nodup, H1|]);
      intros s; rewrite dget_dset; cbv [eqb EqB_string]; destruct (String.eqb_spec s (cs_id x)) as [->|Hs].
    - rewrite HA. reflexivity.
    - rewrite app_nil_r. apply H2.
    - rewrite HA. rewrite dset_new by exact Hf. reflexivity.
    - rewrite app_nil_r. apply H2.
  Qed.
  Lemma collect_fold i : forall ss acc A, NoDup (map cs_id ss) -> holds acc A ->
    (forall s, In s (map cs_id ss) -> ~ In i (map fst (A s))) ->
    holds (fold_left (collect_one i) ss acc)
          (fun s => A s ++ map (fun c => (i, c)) (map cs_ct (filter (fun x => String.eqb s (cs_id x)) ss))).
  Proof.
    induction ss as [|x ss IH]; intros acc A Hnd Hh Hf; cbn [fold_left filter map].
    - destruct Hh as [H1 H2]. split; [exact H1|]. intros s. rewrite H2, app_nil_r. reflexivity.
    - cbn [map] in Hnd. inversion Hnd as [|? ? Hni Hnd']; subst.
      pose proof (collect_one_holds i acc A x Hh (Hf _ (or_introl eq_refl))) as Hh1.
      specialize (IH _ _ Hnd' Hh1).
      destruct IH as [I1 I2].
      { intros s Hs. cbv beta. destruct (String.eqb_spec s (cs_id x)) as [->|_]; [contradiction|]. rewrite app_nil_r. apply Hf. right. exact Hs. }
      split; [exact I1|]. intros s. rewrite I2.
      destruct (String.eqb_spec s (cs_id x)) as [->|Hs]; [|rewrite app_nil_r; reflexivity]. rewrite <- app_assoc. reflexivity.
  Qed.
  Lemma collect_holds b acc A : holds acc A -> (forall s, ~ In (sb_id b) (map fst (A s))) ->
    NoDup (map cs_id (flat_map bc_selections (cb_contests (sb_ballot b)))) ->
    holds (collect_selections b acc) (fun s => A s ++ map (fun c => (sb_id b, c)) (sel_votes (sb_ballot b) s)).
  Proof. intros Hh Hf Hnd. unfold collect_selections, sel_votes. apply collect_fold; auto. Qed.

  Lemma execute_form acc A d : holds acc A ->
    execute_accumulate E true acc d = upd E (fun _ s => map snd (A s)) d.
  Proof.
    intros [H1 H2]. unfold execute_accumulate, schedule.
    assert (Hne : forall s m, In (s, m) acc -> m <> [] /\ m = A s).
    { intros s m Hin. pose proof (in_dget _ _ _ H1 Hin) as Hg. rewrite H2 in Hg. destruct (A s) as [|e l]; [discriminate|].
      injection Hg as <-. split; [discriminate|reflexivity]. }
    pose (val := fun m : list (string * ciphertext) => match map snd m with c :: cs => fold_left (ct_mul E) cs c | [] => mkCt 0 0 end).
    assert (Hr : rmapM (accumulate_ids E) acc = Ok (map (fun kv => (fst kv, val (snd kv))) acc)).
    { apply rmapM_total. intros [s m] Hin. destruct (Hne s m Hin) as [Hm _]. unfold accumulate_ids, val, dvals. cbn [fst snd].
      destruct m as [|e m]; [congruence|]. reflexivity. }
    rewrite Hr, dict_of_distinct.
    2:{ rewrite map_map. exact H1. }
    unfold upd. apply map_ext. intros [k tc]. cbn [fst snd]. f_equal. f_equal. unfold upd_sel. apply map_ext. intros [s t]. cbn [fst snd]. f_equal.
    rewrite (dget_map_val (fun _ m => val m)), H2. destruct (A s) as [|e m] eqn:HA; cbn [option_map].
    - destruct t; reflexivity.
    - f_equal. unfold val. cbn [map fold_left]. symmetry.
      assert (Hassoc : forall l t c, fold_left (ct_mul E) l (ct_mul E t c) = ct_mul E t (fold_left (ct_mul E) l c)).
      { clear - HE. induction l as [|x l IH]; intros t c; cbn [fold_left]; [reflexivity|]. rewrite <- IH. f_equal.
        unfold ct_mul. cbn [ct_pad ct_data]. rewrite !(mult2 E HE).
        rewrite !Zmult_mod_idemp_l, !Zmult_mod_idemp_r. f_equal; f_equal; ring. }
      apply Hassoc.
  Qed.
End Batch.

Lemma NoDup_app_l {A} (l1 l2 : list A) : NoDup (l1 ++ l2) -> NoDup l1.
Proof.
  induction l1 as [|x l1 IH]; intros H; [constructor|]. cbn [app] in H. inversion H as [|? ? Hni H']; subst.
  constructor; [|auto]. intros Hi. apply Hni, in_app_iff. auto.
Qed.
Lemma NoDup_app_r {A} (l1 l2 : list A) : NoDup (l1 ++ l2) -> NoDup l2.
Proof. induction l1 as [|x l1 IH]; intros H; [exact H|]. inversion H; auto. Qed.
Lemma upd_ext_in E v1 v2 d : (forall k tc s, In (k, tc) d -> In s (dkeys (tc_selections tc)) -> v1 k s = v2 k s) -> upd E v1 d = upd E v2 d.
Proof.
  intros H. unfold upd. apply map_ext_in. intros [k tc] Hin. cbn [fst snd]. rewrite (upd_sel_ext E (v1 k) (v2 k)); [reflexivity|].
  intros s Hs. eapply H; eassumption.
Qed.
Lemma filter_one (ss : list ct_selection) s : NoDup (map cs_id ss) ->
  map cs_ct (filter (fun x => String.eqb s (cs_id x)) ss) =
  match find (fun x => String.eqb s (cs_id x)) ss with Some x => [cs_ct x] | None => [] end.
Proof.
  induction ss as [|x ss IH]; intros Hn; cbn [filter find map]; [reflexivity|]. cbn [map] in Hn. inversion Hn as [|? ? Hni Hn']; subst.
  destruct (String.eqb_spec s (cs_id x)) as [->|Hs]; [|apply IH; assumption]. cbn [map]. f_equal.
  rewrite IH by assumption. clear - Hni. induction ss as [|y ss IH]; [reflexivity|]. cbn [find map In] in *.
  destruct (String.eqb_spec (cs_id x) (cs_id y)) as [Heq|_]; [exfalso; apply Hni; left; congruence|]. apply IH. tauto.
Qed.
Lemma sel_votes_for im b d o : own_ids im b -> In d (im_contests im) -> In o (cd_selections (ph_desc d)) ->
  sel_votes b (sd_id o) = votes_for b (cd_id (ph_desc d)) (sd_id o).
Proof.
  intros [Hn Hh] Hd Ho. unfold sel_votes, votes_for.
  assert (Hg : forall cs, (forall c, In c cs -> In c (cb_contests b)) -> NoDup (map cs_id (flat_map bc_selections cs)) ->
    map cs_ct (filter (fun x => String.eqb (sd_id o) (cs_id x)) (flat_map bc_selections cs)) =
    flat_map (fun c => if String.eqb (bc_id c) (cd_id (ph_desc d))
                     then match find (fun s => String.eqb (sd_id o) (cs_id s)) (bc_selections c) with
                          | Some s => [cs_ct s] | None => [] end else []) cs).
  { induction cs as [|c cs IH]; intros Hin Hnd; [reflexivity|]. cbn [flat_map]. rewrite filter_app, map_app.
    cbn [flat_map] in Hnd. rewrite map_app in Hnd. rewrite IH; [|intros; apply Hin; right; assumption|apply NoDup_app_r in Hnd; exact Hnd].
    f_equal. destruct (String.eqb_spec (bc_id c) (cd_id (ph_desc d))) as [Heq|Hne].
    - apply filter_one. apply NoDup_app_l in Hnd. exact Hnd.
    - replace (filter _ (bc_selections c)) with (@nil ct_selection); [reflexivity|]. symmetry.
      assert (Hnone : forall s, In s (bc_selections c) -> String.eqb (sd_id o) (cs_id s) = false).
      { intros s Hs. apply String.eqb_neq. intros Heq. apply Hne. eapply (Hh c s d o); try eassumption; [apply Hin; left; reflexivity|congruence]. }
      clear - Hnone. induction (bc_selections c) as [|x l IH]; [reflexivity|]. cbn [filter].
      rewrite (Hnone x (or_introl eq_refl)). apply IH. intros; apply Hnone; right; assumption. }
  apply Hg; auto.
Qed.

Section BatchThm.
  Context (E : env) (im : internal_manifest) (cx : context) (HE : valid_env E) (Hn : NoDup (contest_ids im)).
  Lemma batch_collect_form id cs vf v : forall bs ss acc A, holds acc A ->
    Forall (fun b => passes E im cx b v = true /\ own_ids im (sb_ballot b)) bs ->
    NoDup (map sb_id bs) -> (forall b, In b bs -> ~ In (sb_id b) ss) ->
    (forall b s, In b bs -> ~ In (sb_id b) (map fst (A s))) ->
    exists acc', batch_collect E v bs (state_of E im cx id cs ss vf) acc =
        (state_of E im cx id cs (ss ++ map sb_id (in_state SPOILED bs)) vf, Ok acc') /\
      holds acc' (fun s => A s ++ flat_map (fun b => map (fun c => (sb_id b, c)) (sel_votes (sb_ballot b) s)) (in_state CAST bs)).
  Proof.
    induction bs as [|b bs IH]; intros ss acc A Hh HF Hnd Hs HA; cbn [batch_collect].
    - exists acc. cbn. rewrite app_nil_r. split; [reflexivity|]. destruct Hh as [H1 H2]. split; [exact H1|].
      intros s. rewrite H2, app_nil_r. reflexivity.
    - inversion HF as [|? ? [Hp Hown] HF']; subst. cbn [map] in Hnd. inversion Hnd as [|? ? Hni Hnd']; subst.
      unfold state_of at 1 2. cbn [ty_manifest ty_context]. unfold passes in Hp.
      destruct (ballot_valid_for_election E (sb_ballot b) im cx v) as [[|]|e]; try discriminate.
      assert (Hs' : forall b', In b' bs -> ~ In (sb_id b') ss) by (intros; apply Hs; right; assumption).
      assert (HA' : forall b' s, In b' bs -> ~ In (sb_id b') (map fst (A s))) by (intros; apply HA; right; assumption).
      unfold in_state. cbn [filter]. destruct (sb_state b) eqn:Hst; cbn [box_state_eqb map flat_map].
      + pose proof (collect_holds b acc A Hh (fun s => HA b s (or_introl eq_refl)) (proj1 Hown)) as Hh1.
        destruct (IH ss _ _ Hh1 HF' Hnd' Hs') as (acc' & H1 & H2).
        { intros b' s Hb'. rewrite map_app, in_app_iff, map_map. cbn [fst]. intros [Hi|Hi]; [apply (HA' b' s Hb' Hi)|].
          apply in_map_iff in Hi as [c [Heq _]]. apply Hni. rewrite Heq. apply in_map, Hb'. }
        exists acc'. split; [exact H1|]. destruct H2 as [N G]. split; [exact N|]. intros s. rewrite G, <- app_assoc. reflexivity.
      + assert (Hsp : add_spoiled (state_of E im cx id cs ss vf) b = state_of E im cx id cs (ss ++ [sb_id b]) vf).
        { unfold add_spoiled, state_of, set_add; cbn [ty_id ty_manifest ty_context ty_cast ty_spoiled ty_contests].
          pose proof (Hs b (or_introl eq_refl)) as Hs2. apply inb_false in Hs2. rewrite Hs2. reflexivity. }
        rewrite Hsp. destruct (IH (ss ++ [sb_id b]) _ _ Hh HF' Hnd') as (acc' & H1 & H2); [|exact HA'|].
        { intros b' Hb'. rewrite in_app_iff. intros [Hi|[Hi|[]]]; [apply (Hs' b' Hb' Hi)|]. apply Hni. rewrite Hi. apply in_map, Hb'. }
        exists acc'. split; [rewrite H1, <- app_assoc; reflexivity|exact H2].
      + destruct (IH ss _ _ Hh HF' Hnd' Hs' HA') as (acc' & H1 & H2). exists acc'. split; [exact H1|exact H2].
  Qed.
  Lemma mark_cast id ss vf : forall bs cs, NoDup (map sb_id bs) -> (forall b, In b bs -> ~ In (sb_id b) cs) ->
    fold_left (fun t b => if box_state_eqb (sb_state b) CAST then with_cast t (sb_id b) else t) bs (state_of E im cx id cs ss vf)
    = state_of E im cx id (cs ++ map sb_id (in_state CAST bs)) ss vf.
  Proof.
    induction bs as [|b bs IH]; intros cs Hnd Hc; cbn [fold_left]; [cbn; rewrite app_nil_r; reflexivity|].
    cbn [map] in Hnd. inversion Hnd as [|? ? Hni Hnd']; subst. unfold in_state. cbn [filter].
    destruct (box_state_eqb (sb_state b) CAST).
    - assert (Hw : with_cast (state_of E im cx id cs ss vf) (sb_id b) = state_of E im cx id (cs ++ [sb_id b]) ss vf).
      { unfold with_cast, state_of, set_add; cbn [ty_id ty_manifest ty_context ty_cast ty_spoiled ty_contests].
        pose proof (Hc b (or_introl eq_refl)) as H. apply inb_false in H. rewrite H. reflexivity. }
      rewrite Hw, IH; [cbn [map]; rewrite <- app_assoc; reflexivity|assumption|].
      intros b' Hb'. rewrite in_app_iff. intros [Hi|[Hi|[]]]; [apply (Hc b' (or_intror Hb') Hi)|]. apply Hni. rewrite Hi. apply in_map, Hb'.
    - apply IH; [assumption|]. intros; apply Hc; right; assumption.
  Qed.
  Lemma accepted_all v : forall bs seen,
    Forall (fun b => passes E im cx b v = true /\ sb_state b <> UNKNOWN) bs -> NoDup (map sb_id bs) ->
    (forall b, In b bs -> ~ In (sb_id b) seen) ->
    accepted (passes E im cx) seen (map (fun b => (b, v)) bs) = bs /\
    answers (passes E im cx) seen (map (fun b => (b, v)) bs) = map (fun _ => true) bs.
  Proof.
    induction bs as [|b bs IH]; intros seen HF Hnd Hs; cbn [map accepted answers]; [auto|].
    inversion HF as [|? ? [Hp Hst] HF']; subst. cbn [map] in Hnd. inversion Hnd as [|? ? Hni Hnd']; subst.
    rewrite Hp. replace (box_state_eqb (sb_state b) UNKNOWN) with false by (destruct (sb_state b); reflexivity || congruence).
    pose proof (Hs b (or_introl eq_refl)) as Hb. apply inb_false in Hb. rewrite Hb. cbn [negb andb].
    destruct (IH (sb_id b :: seen) HF' Hnd') as [H1 H2].
    { intros b' Hb' [Hi|Hi]; [apply Hni; rewrite Hi; apply in_map, Hb'|apply (Hs b' (or_intror Hb') Hi)]. }
    rewrite H1, H2. auto.
  Qed.

  Theorem batch_equals_append id h0 bs v :
    Forall (fun '(b, _) => complete im (sb_ballot b)) h0 ->
    let t := fst (run_appends E all_up (new_tally E id im cx) h0) in
    Forall (fun b => passes E im cx b v = true /\ sb_state b <> UNKNOWN /\ complete im (sb_ballot b) /\ own_ids im (sb_ballot b)) bs ->
    NoDup (map sb_id bs) -> (forall b, In b bs -> ~ In (sb_id b) (ty_cast t) /\ ~ In (sb_id b) (ty_spoiled t)) ->
    batch_append E true false t bs v = (fst (run_appends E all_up t (map (fun b => (b, v)) bs)), Ok true) /\
    map said_yes (snd (run_appends E all_up t (map (fun b => (b, v)) bs))) = map (fun _ => true) bs.
  Proof.
    intros H0 t HF Hnd Hfresh. destruct (run_appends_form E im cx Hn id h0 H0) as [Ht _]. unfold t in *. rewrite Ht in *. clear t Ht.
    set (cs := map sb_id (in_state CAST _)) in *. set (ss := map sb_id (in_state SPOILED _)) in *. set (vf := casts _) in *.
    clearbody cs ss vf. cbn [state_of ty_cast ty_spoiled] in Hfresh.
    destruct (accepted_all v bs (cs ++ ss)) as [Hacc Hans].
    { eapply Forall_impl; [|exact HF]. intros b0 (Q1 & Q2 & Q3 & Q4); auto. }
    { exact Hnd. }
    { intros b Hb. rewrite in_app_iff. destruct (Hfresh b Hb). tauto. }
    destruct (run_form E im cx Hn id (map (fun b => (b, v)) bs) cs ss vf [] (cs ++ ss)) as (cs' & ss' & rs' & H1 & H2 & H3 & H4).
    { intros i. apply in_app_iff. }
    { apply Forall_map. eapply Forall_impl; [|exact HF]. intros b0 (Q1 & Q2 & Q3 & Q4); auto. }
    unfold run_appends. rewrite H1. cbn [fst snd app]. rewrite Hacc in *. split; [|rewrite H4; exact Hans].
    unfold batch_append.
    destruct (batch_collect_form id cs vf v bs ss [] (fun _ => [])) as (acc' & B1 & B2).
    { split; [constructor|reflexivity]. }
    { eapply Forall_impl; [|exact HF]. intros b0 (Q1 & Q2 & Q3 & Q4); auto. }
    { exact Hnd. }
    { intros b Hb. apply (Hfresh b Hb). }
    { intros b s _ []. }
    rewrite B1. f_equal. cbn [app] in B2.
    rewrite (execute_form E HE acc' _ _ B2).
    set (vb := fun _ s => map snd (flat_map _ _)).
    assert (Hw : with_contests (state_of E im cx id cs (ss ++ map sb_id (in_state SPOILED bs)) vf)
               (upd E vb (ty_contests (state_of E im cx id cs (ss ++ map sb_id (in_state SPOILED bs)) vf)))
             = state_of E im cx id cs (ss ++ map sb_id (in_state SPOILED bs)) (fun k s => vf k s ++ casts bs k s)).
    { unfold with_contests, state_of; cbn [ty_id ty_manifest ty_context ty_cast ty_spoiled ty_contests]. f_equal.
      rewrite upd_upd. apply upd_ext_in. intros k tc s Hin Hs. f_equal.
      assert (Hg : dget k (build_collection E im) = Some tc) by (apply in_dget; [apply build_dwf|exact Hin]).
      apply build_get_inv in Hg as (d & Hd & Hk & Hsel). rewrite Hsel in Hs. apply build_selections_keys, in_map_iff in Hs as [o [Ho Hin']].
      subst k s. unfold vb, casts.
      assert (Hsub : forall b, In b (in_state CAST bs) -> own_ids im (sb_ballot b)).
      { intros b Hb. apply filter_In in Hb as [Hb _]. rewrite Forall_forall in HF. apply (HF b Hb). }
      revert Hsub. generalize (in_state CAST bs) as l. induction l as [|b l IHl]; intros Hsub; [reflexivity|].
      cbn [flat_map]. rewrite map_app, map_map. cbn [snd]. rewrite map_id, IHl by (intros; apply Hsub; right; assumption).
      f_equal. apply (sel_votes_for im); try assumption. apply Hsub. left. reflexivity. }
    rewrite Hw, mark_cast; [|assumption|intros b Hb; apply (Hfresh b Hb)].
    rewrite H2, H3. reflexivity.
  Qed.
End BatchThm.

Lemma tally_ballots_form E im cx : valid_env E -> NoDup (contest_ids im) -> forall s : ballot_store,
  NoDup (ds_keys s) -> (forall i sb, ds_get s i = Some sb -> sb_id sb = i) ->
  Forall (fun b => passes E im cx b true = true /\ sb_state b <> UNKNOWN /\ complete im (sb_ballot b) /\ own_ids im (sb_ballot b)) (ds_values s) ->
  tally_ballots E true s im cx = Ok (Some (fst (run_appends E all_up (new_tally E "election-results" im cx) (map (fun b => (b, true)) (ds_values s))))).
Proof.
  intros HE Hn s Hk Hid HF. unfold tally_ballots, ds_iter.
  assert (Hids : map sb_id (ds_values s) = ds_keys s).
  { unfold ds_values, ds_keys, dvals, dkeys. rewrite map_map. apply map_ext_in. intros [k v] Hin. cbn. apply Hid. apply in_dget; assumption. }
  destruct (batch_equals_append E im cx HE Hn "election-results" [] (ds_values s) true) as [Hb _].
  - constructor.
  - exact HF.
  - rewrite Hids. exact Hk.
  - intros b _. cbn. tauto.
  - unfold run_appends in Hb at 1. cbn [fold_left fst] in Hb. change (map snd s) with (ds_values s). rewrite Hb. reflexivity.
Qed.
Lemma append_checks_first E up t b v :
  sb_state b = UNKNOWN \/ In (sb_id b) (ty_cast t) \/ In (sb_id b) (ty_spoiled t) \/ passes E (ty_manifest t) (ty_context t) b v = false ->
  fst (append E up t b v) = t /\ said_yes (snd (append E up t b v)) = false.
Proof.
  unfold append, tally_contains, passes. destruct (box_state_eqb (sb_state b) UNKNOWN) eqn:Hs; [intros _; split; reflexivity|].
  intros H. destruct (inb (sb_id b) (ty_cast t)) eqn:Hc; [split; reflexivity|].
  destruct (inb (sb_id b) (ty_spoiled t)) eqn:Hp; [split; reflexivity|]. cbn [orb].
  apply inb_false in Hc. apply inb_false in Hp. destruct H as [H|[H|[H|H]]].
  - rewrite H in Hs. discriminate.
  - contradiction.
  - contradiction.
  - destruct (ballot_valid_for_election _ _ _ _ v) as [[|]|]; [discriminate|split; reflexivity|split; reflexivity].
Qed.
Lemma tally_tasks_total E t c sels k : (exists x, elgamal_accumulate E t c = Ok x) /\ (exists r, accumulate_task E (k, t, sels) = Ok r).
Proof.
  split; [eexists; reflexivity|]. unfold accumulate_task. destruct (find_first _ sels); eexists; reflexivity.
Qed.

(** ** what any append does, whatever the ballot and whichever pools fail *)
Section AppendAny.
  Context (E : env).
  Definition named (d : dict string tally_contest) : Prop :=
    dwf d /\ forall k tc, dget k d = Some tc -> ~ In EmptyString (dkeys (tc_selections tc)).
  Lemma named_upd v d : named d -> named (upd E v d).
  Proof.
    intros [H1 H2]. split; [apply dwf_upd, H1|]. intros k tc Hk. rewrite dget_upd in Hk.
    destruct (dget k d) as [tc0|] eqn:Hg; [|discriminate]. injection Hk as <-. cbn [tc_selections]. rewrite upd_sel_keys. eauto.
  Qed.
  Lemma dset_same_dict {V} k (v : V) (d : dict string V) : dget k d = Some v -> dset k v d = d.
  Proof.
    induction d as [|[k' v'] d IH]; cbn [dget dset]; [discriminate|]. eqb_cases k k'.
    - intros [= ->]. subst. reflexivity.
    - intros H. rewrite IH by exact H. reflexivity.
  Qed.
  Lemma accumulate_any up tc sels : NoDup (dkeys (tc_selections tc)) -> ~ In EmptyString (dkeys (tc_selections tc)) ->
    accumulate_contest E up tc sels =
      (if up then mkTcon (tc_id tc) (tc_seq tc) (tc_hash tc) (upd_sel E (sels_vote sels) (tc_selections tc)) else tc, Ok true) \/
    (fst (accumulate_contest E up tc sels) = tc /\ snd (accumulate_contest E up tc sels) = Ok false).
  Proof.
    intros Hn Hne. destruct sels as [|s0 ss] eqn:Hs; [right; split; reflexivity|]. rewrite <- Hs.
    destruct (existsb (fun k => negb (eqb k EmptyString))
       (filter (fun k => negb (inb k (set_of (map cs_id (filter (fun s => negb (cs_placeholder s)) sels))))) (dkeys (tc_selections tc)))) eqn:Hex.
    - right. unfold accumulate_contest. rewrite Hex. rewrite Hs. split; reflexivity.
    - left. assert (Hcov : covers sels (dkeys (tc_selections tc))).
      { split; [congruence|]. intros k Hk. destruct (inb k (set_of (map cs_id (filter (fun s => negb (cs_placeholder s)) sels)))) eqn:Hi.
        + apply inb_spec, set_of_in, in_map_iff in Hi as [s [Hid Hin]]. apply filter_In in Hin as [Hin Hp].
          exists s. split; [assumption|]. split; [assumption|]. destruct (cs_placeholder s); [discriminate|reflexivity].
        + exfalso. assert (Hf : existsb (fun k => negb (eqb k EmptyString))
           (filter (fun k => negb (inb k (set_of (map cs_id (filter (fun s => negb (cs_placeholder s)) sels))))) (dkeys (tc_selections tc))) = true).
          { apply existsb_exists. exists k. split; [apply filter_In; rewrite Hi; auto|].
            apply negb_true_iff, eqb_neq. intros ->. contradiction. }
          congruence. }
      destruct up; [apply accumulate_contest_ok; assumption|].
      unfold accumulate_contest. rewrite Hex. rewrite Hs. cbn [schedule store_results]. destruct tc; reflexivity.
  Qed.
  Lemma add_contests_any up : forall cs i d, named d ->
    exists n, (n <= List.length cs)%nat /\
      fst (add_contests E up i cs d) = upd E (votes_of (kept up i (firstn n cs))) d /\
      ((snd (add_contests E up i cs d) = Ok true /\ n = List.length cs) \/
       (snd (add_contests E up i cs d) = Ok false /\ (n < List.length cs)%nat)).
  Proof.
    induction cs as [|c cs IH]; intros i d Hw; cbn [add_contests].
    - exists 0%nat. cbn [firstn kept fst snd List.length]. split; [lia|]. split; [rewrite <- (upd_nil E d) at 1; reflexivity|]. left. auto.
    - destruct (dget (bc_id c) d) as [tc|] eqn:Hg.
      2:{ exists 0%nat. cbn [firstn kept fst snd List.length]. split; [lia|]. split; [rewrite <- (upd_nil E d) at 1; reflexivity|]. right. split; [reflexivity|lia]. }
      pose proof Hw as [[Hn1 Hn2] Hn3].
      destruct (accumulate_any (up i) tc (bc_selections c) (Hn2 _ _ Hg) (Hn3 _ _ Hg)) as [Hacc|[Hf Hr]].
      + rewrite Hacc. cbv beta iota.
        assert (Hd : dset (bc_id c) (if up i then mkTcon (tc_id tc) (tc_seq tc) (tc_hash tc) (upd_sel E (sels_vote (bc_selections c)) (tc_selections tc)) else tc) d
                     = upd E (votes_of (kept up i [c])) d).
        { cbn [kept]. destruct (up i); [|rewrite dset_same_dict by exact Hg; rewrite <- (upd_nil E d) at 1; reflexivity].
          assert (Hk : In (bc_id c) (dkeys d)) by (apply dget_in in Hg; apply (in_map fst) in Hg; exact Hg).
          rewrite dset_as_map by assumption. unfold upd. apply map_ext_in. intros [k x] Hin. cbn [fst snd]. f_equal.
          unfold votes_of. cbn [flat_map]. eqb_cases (bc_id c) k.
          - subst k. rewrite (in_dget _ _ _ Hn1 Hin) in Hg. injection Hg as ->. f_equal. apply upd_sel_ext. intros s _.
            rewrite String.eqb_refl, app_nil_r. reflexivity.
          - replace (String.eqb (bc_id c) k) with false by (symmetry; apply String.eqb_neq; assumption).
            cbn [app]. rewrite upd_sel_nil. destruct x; reflexivity. }
        rewrite Hd. destruct (IH (S i) (upd E (votes_of (kept up i [c])) d) (named_upd _ _ Hw)) as (n & Hn & H1 & H2).
        exists (S n). cbn [List.length firstn]. split; [lia|]. split.
        * rewrite H1, upd_upd. apply upd_ext. intros k s. unfold votes_of. cbn [kept]. destruct (up i); cbn [flat_map]; [|reflexivity].
          rewrite app_nil_r. reflexivity.
        * destruct H2 as [[H2 ->]|[H2 H3]]; [left; auto|right; split; [exact H2|lia]].
      + destruct (accumulate_contest E (up i) tc (bc_selections c)) as [tc' r]. cbn [fst snd] in Hf, Hr. subst tc' r.
        exists 0%nat. cbn [firstn kept fst snd List.length]. split; [lia|]. split; [rewrite dset_same_dict by exact Hg; rewrite <- (upd_nil E d) at 1; reflexivity|].
        right. split; [reflexivity|lia].
  Qed.
  Lemma append_any up t b v : named (ty_contests t) -> exists n, (n <= List.length (cb_contests (sb_ballot b)))%nat /\
    ty_contests (fst (append E up t b v)) = upd E (votes_of (kept up 0 (firstn n (cb_contests (sb_ballot b))))) (ty_contests t) /\
    (said_yes (snd (append E up t b v)) = true /\ (sb_state b = CAST /\ n = List.length (cb_contests (sb_ballot b)) \/ sb_state b = SPOILED /\ n = 0%nat) \/
     said_yes (snd (append E up t b v)) = false /\ (n = 0%nat \/ (n < List.length (cb_contests (sb_ballot b)))%nat) /\
       ty_cast (fst (append E up t b v)) = ty_cast t /\ ty_spoiled (fst (append E up t b v)) = ty_spoiled t).
  Proof.
    intros Hw.
    assert (Hno : forall r, said_yes r = false -> exists n, (n <= List.length (cb_contests (sb_ballot b)))%nat /\
      ty_contests (fst (t, r)) = upd E (votes_of (kept up 0 (firstn n (cb_contests (sb_ballot b))))) (ty_contests t) /\
      (said_yes (snd (t, r)) = true /\ (sb_state b = CAST /\ n = List.length (cb_contests (sb_ballot b)) \/ sb_state b = SPOILED /\ n = 0%nat) \/
       said_yes (snd (t, r)) = false /\ (n = 0%nat \/ (n < List.length (cb_contests (sb_ballot b)))%nat) /\
       ty_cast (fst (t, r)) = ty_cast t /\ ty_spoiled (fst (t, r)) = ty_spoiled t)).
    { intros r Hr. exists 0%nat. split; [lia|]. cbn [fst snd firstn kept]. split; [rewrite <- (upd_nil E (ty_contests t)) at 1; reflexivity|]. right. auto. }
    unfold append. destruct (box_state_eqb (sb_state b) UNKNOWN); [apply Hno; reflexivity|].
    destruct (tally_contains t b); [apply Hno; reflexivity|].
    destruct (ballot_valid_for_election _ _ _ _ v) as [[|]|e]; [|apply Hno; reflexivity|apply Hno; reflexivity].
    destruct (sb_state b) eqn:Hst.
    - unfold add_cast. destruct (add_contests_any up (cb_contests (sb_ballot b)) 0 (ty_contests t) Hw) as (n & Hn & H1 & H2).
      destruct (add_contests E up 0 (cb_contests (sb_ballot b)) (ty_contests t)) as [d r]. cbn [fst snd] in H1, H2. subst d.
      exists n. split; [exact Hn|]. destruct H2 as [[-> ->]|[-> H3]]; cbn [fst snd said_yes with_cast with_contests ty_contests ty_cast ty_spoiled].
      + split; [reflexivity|]. left. auto.
      + split; [reflexivity|]. right. auto.
    - exists 0%nat. cbn [fst snd said_yes add_spoiled ty_contests firstn kept]. split; [lia|].
      split; [rewrite <- (upd_nil E (ty_contests t)) at 1; reflexivity|]. left. auto.
    - apply Hno. reflexivity.
  Qed.
  Lemma named_append up t b v : named (ty_contests t) -> named (ty_contests (fst (append E up t b v))).
  Proof. intros Hw. destruct (append_any up t b v Hw) as (n & _ & H & _). rewrite H. apply named_upd, Hw. Qed.
  Lemma named_new id im cx : NoDup (contest_ids im) ->
    (forall d o, In d (im_contests im) -> In o (cd_selections (ph_desc d)) -> sd_id o <> EmptyString) ->
    named (ty_contests (new_tally E id im cx)).
  Proof.
    intros Hn Hne. cbn [new_tally ty_contests]. split; [apply build_dwf|]. intros k tc Hk.
    destruct (build_get_inv E im k tc Hk) as (d & Hd & _ & He). rewrite He, build_selections_keys.
    intros Hin. apply in_map_iff in Hin as [o [Ho Hin]]. apply (Hne d o Hd Hin Ho).
  Qed.
  Lemma total_upd v t t' cid oid : ty_contests t' = upd E v (ty_contests t) ->
    total_of t' cid oid = option_map (fun c => fold_left (ct_mul E) (v cid oid) c) (total_of t cid oid).
  Proof.
    intros H. unfold total_of. rewrite H, dget_upd. destruct (dget cid (ty_contests t)) as [tc|]; cbn [option_map tc_selections]; [|reflexivity].
    rewrite dget_upd_sel. destruct (dget oid (tc_selections tc)) as [ts|]; reflexivity.
  Qed.
  Theorem append_effect im cx id h up b v : NoDup (contest_ids im) ->
    (forall d o, In d (im_contests im) -> In o (cd_selections (ph_desc d)) -> sd_id o <> EmptyString) ->
    let t := fst (run_any E (new_tally E id im cx) h) in
    let t' := fst (append E up t b v) in let yes := said_yes (snd (append E up t b v)) in
    let cs := cb_contests (sb_ballot b) in
    exists n, (forall cid oid, total_of t' cid oid =
                 option_map (fun c => fold_left (ct_mul E) (votes_of (kept up 0 (firstn n cs)) cid oid) c) (total_of t cid oid)) /\
      (yes = true -> sb_state b = CAST /\ n = List.length cs \/ sb_state b = SPOILED /\ n = 0%nat) /\
      (yes = false -> (n = 0%nat \/ (n < List.length cs)%nat) /\ ty_cast t' = ty_cast t /\ ty_spoiled t' = ty_spoiled t).
  Proof.
    intros Hn Hne t t' yes cs.
    assert (Hw : named (ty_contests t)).
    { unfold t, run_any. apply (run_any_inv E (fun t => named (ty_contests t))); [intros; apply named_append; assumption|]. apply named_new; assumption. }
    destruct (append_any up t b v Hw) as (n & Hle & H1 & H2). exists n. split; [intros cid oid; apply total_upd, H1|].
    unfold yes, t', cs. destruct H2 as [[H2 H3]|[H2 H3]].
    - split; [intros _; exact H3|intros Hc; congruence].
    - split; [intros Hc; congruence|intros _; exact H3].
  Qed.
End AppendAny.
