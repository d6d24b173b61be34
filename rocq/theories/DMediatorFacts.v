(** * Invariants of the decryption mediator over all histories of calls. *)
From Verif Require Import Base Group Codec Hash DLog ElGamal ZK Poly Spec ListFacts Manifest Ballot Box Tally Ceremony SpecCeremony MediatorFacts Shares SpecShares.
From Coq Require Import List.

Lemma set_of_snoc (l : list string) x : set_of (l ++ [x]) = set_add x (set_of l).
Proof. unfold set_of. rewrite fold_left_app. reflexivity. Qed.

Definition known (m : dmediator) (o : string) : Prop := In o (dkeys (dm_available m)) \/ In o (dkeys (dm_missing m)).
Record dm_inv (cx : context) (h : list dm_call) (m : dmediator) : Prop := {
  di_cx : dm_context m = cx;
  di_avail : dkeys (dm_available m) = firsts (map pk_owner (present_keys h));
  di_first : forall o, dget o (dm_available m) = first_key o (present_keys h);
  di_mnd : NoDup (dkeys (dm_missing m));
  di_missing : forall o k, dget o (dm_missing m) = Some k -> pk_owner k = o /\ In k (absent_keys h) /\ ~ present h o;
  di_absent : forall k, In (Absent k) h -> present h (pk_owner k) \/ In (pk_owner k) (dkeys (dm_missing m));
  di_tnd : NoDup (dkeys (dm_tally m));
  di_tally : forall o, In o (dkeys (dm_tally m)) -> known m o;
  di_shares : forall o, present h o -> In o (dkeys (dm_tally m));
  di_ballots : forall b shs, dget b (dm_ballots m) = Some shs -> NoDup (dkeys shs) /\ forall o, In o (dkeys shs) -> known m o }.

Lemma present_snoc h c o : present (h ++ [c]) o <-> present h o \/ match c with Present k _ _ => pk_owner k = o | _ => False end.
Proof.
  unfold present, present_keys. rewrite flat_map_app, map_app, in_app_iff. cbn. destruct c; cbn; tauto.
Qed.
Lemma absent_keys_snoc h c k : In k (absent_keys (h ++ [c])) <-> In k (absent_keys h) \/ match c with Absent k' => k' = k | AbsentAmong ks => In k ks | _ => False end.
Proof. unfold absent_keys. rewrite flat_map_app, in_app_iff. cbn. destruct c; rewrite ?app_nil_r; cbn; tauto. Qed.

Lemma save_ballot_fold id (P : string -> Prop) : P id -> forall bl d, (forall b shs, dget b d = Some shs -> NoDup (dkeys shs) /\ forall o, In o (dkeys shs) -> P o) ->
  forall b shs, dget b (fold_left (save_ballot_share id) bl d) = Some shs -> NoDup (dkeys shs) /\ forall o, In o (dkeys shs) -> P o.
Proof.
  intros HP. induction bl as [|[b0 o0] bl IH]; intros d Hd; cbn [fold_left]; [exact Hd|]. apply IH. intros b shs.
  unfold save_ballot_share. cbn [fst snd]. eqb_cases b b0.
  - subst b0. rewrite dget_dset_same. intros Hs. 
    assert (Hold : NoDup (dkeys (match dget b d with Some s => s | None => [] end)) /\ forall o, In o (dkeys (match dget b d with Some s => s | None => [] end)) -> P o).
    { destruct (dget b d) as [s|] eqn:Hb; [apply (Hd b s Hb)|]. split; [constructor|intros o []]. }
    inversion Hs; subst shs. destruct o0 as [sh|]; [|exact Hold]. destruct Hold as [H1 H2]. split; [apply dset_nodup; assumption|].
    intros o Ho. apply dkeys_dset_in in Ho. destruct Ho as [->|Ho]; auto.
  - rewrite dget_dset_other by assumption. apply Hd.
Qed.
Lemma validate_loop_keys (ks : dict string public_key) : forall d, NoDup (dkeys d) -> let d' := fst (validate_missing_loop ks d) in
  NoDup (dkeys d') /\ (forall o, In o (dkeys d) -> In o (dkeys d')) /\ (forall o k, dget o d' = Some k -> dget o d = Some k \/ In (o, k) ks).
Proof.
  induction ks as [|[id k] ks IH]; intros d Hd; cbn [validate_missing_loop fst].
  - split; [assumption|]. split; auto.
  - destruct (dget id d) as [k'|] eqn:Hk.
    + destruct (public_key_eqb k' k); [|cbn; auto]. destruct (IH d Hd) as (H1 & H2 & H3). split; [assumption|]. split; [assumption|].
      intros o x Hx. destruct (H3 o x Hx); [left; assumption|right; right; assumption].
    + destruct (IH (dset id k d) (dset_nodup _ _ _ Hd)) as (H1 & H2 & H3). split; [assumption|]. split.
      * intros o Ho. apply H2. apply dkeys_dset_in. auto.
      * intros o x Hx. destruct (H3 o x Hx) as [H|H]; [|right; right; assumption]. rewrite dget_dset in H. eqb_cases o id.
        -- inversion H; subst. right; left; reflexivity.
        -- left; assumption.
Qed.
Lemma reconstruct_tally_keys E t ct L : forall ms d, NoDup (dkeys d) -> let d' := fst (reconstruct_tally_loop E t ct L ms d) in
  NoDup (dkeys d') /\ (forall o, In o (dkeys d) -> In o (dkeys d')) /\ (forall o, In o (dkeys d') -> In o (dkeys d) \/ In o (dkeys ms)).
Proof.
  induction ms as [|[id k] ms IH]; intros d Hd; cbn [reconstruct_tally_loop].
  - cbn. auto.
  - destruct (dmem id d).
    + destruct (IH d Hd) as (H1 & H2 & H3). split; [assumption|]. split; [assumption|]. intros o Ho. destruct (H3 o Ho); [left; assumption|right; right; assumption].
    + destruct (reconstruct_share E k t (filter_by_missing id ct) L) as [s|e]; [|cbn; auto].
      destruct (IH (dset id s d) (dset_nodup _ _ _ Hd)) as (H1 & H2 & H3). split; [assumption|]. split.
      * intros o Ho. apply H2. apply dkeys_dset_in. auto.
      * intros o Ho. destruct (H3 o Ho) as [H|H]; [|right; right; assumption]. apply dkeys_dset_in in H. destruct H as [->|H]; [right; left; reflexivity|left; assumption].
Qed.
Lemma reconstruct_ballot_keys E b ct L : forall ms d, NoDup (dkeys d) -> let d' := fst (reconstruct_ballot_loop E b ct L ms d) in
  NoDup (dkeys d') /\ (forall o, In o (dkeys d') -> In o (dkeys d) \/ In o (dkeys ms)).
Proof.
  induction ms as [|[id k] ms IH]; intros d Hd; cbn [reconstruct_ballot_loop].
  - cbn. auto.
  - destruct (dmem id d).
    + destruct (IH d Hd) as (H1 & H3). split; [assumption|]. intros o Ho. destruct (H3 o Ho); [left; assumption|right; right; assumption].
    + destruct ct as [ct|]; [|cbn; auto]. destruct (reconstruct_share_for_ballot E k b (filter_by_missing id ct) L) as [s|e]; [|cbn; auto].
      destruct (IH (dset id s d) (dset_nodup _ _ _ Hd)) as (H1 & H3). split; [assumption|].
      intros o Ho. destruct (H3 o Ho) as [H|H]; [|right; right; assumption]. apply dkeys_dset_in in H. destruct H as [->|H]; [right; left; reflexivity|left; assumption].
Qed.
Lemma reconstruct_ballots_keys E m L (P : string -> Prop) : (forall o, In o (dkeys (dm_missing m)) -> P o) -> forall bs d,
  (forall b shs, dget b d = Some shs -> NoDup (dkeys shs) /\ forall o, In o (dkeys shs) -> P o) ->
  forall b shs, dget b (fst (reconstruct_ballots_loop E m L bs d)) = Some shs -> NoDup (dkeys shs) /\ forall o, In o (dkeys shs) -> P o.
Proof.
  intros HP. induction bs as [|b0 bs IH]; intros d Hd; cbn [reconstruct_ballots_loop]; [exact Hd|].
  destruct (dget (sb_id b0) d) as [shs0|] eqn:H0; [|exact Hd]. destruct (Hd _ _ H0) as [N0 K0].
  destruct (reconstruct_ballot_loop E b0 (dget (sb_id b0) (dm_cballots m)) L (dm_missing m) shs0) as [shs' r] eqn:Hl.
  assert (Hd' : forall b shs, dget b (dset (sb_id b0) shs' d) = Some shs -> NoDup (dkeys shs) /\ forall o, In o (dkeys shs) -> P o).
  { intros b shs. rewrite dget_dset. eqb_cases b (sb_id b0); [|apply Hd]. intros Hs; inversion Hs; subst shs.
    pose proof (reconstruct_ballot_keys E b0 (dget (sb_id b0) (dm_cballots m)) L (dm_missing m) shs0 N0) as H. rewrite Hl in H. cbn [fst] in H.
    destruct H as [H1 H2]. split; [assumption|]. intros o Ho. destruct (H2 o Ho); auto. }
  destruct r; [apply IH; exact Hd'|exact Hd'].
Qed.

Lemma inv_same cx h c m m' : dm_inv cx h m -> dm_context m' = dm_context m -> dm_available m' = dm_available m -> dm_missing m' = dm_missing m ->
  dm_tally m' = dm_tally m -> dm_ballots m' = dm_ballots m -> match c with Compensate _ | CompensateBallots _ | Rebuild _ | RebuildBallots _ => True | _ => False end ->
  dm_inv cx (h ++ [c]) m'.
Proof.
  intros [A1 A2 A3 A4 A5 A6 A7 A8 A9 A10] E1 E2 E3 E4 E5 Hc.
  assert (Hpk : present_keys (h ++ [c]) = present_keys h) by (unfold present_keys; rewrite flat_map_app; destruct c; try contradiction; cbn; apply app_nil_r).
  assert (Hak : absent_keys (h ++ [c]) = absent_keys h) by (unfold absent_keys; rewrite flat_map_app; destruct c; try contradiction; cbn; apply app_nil_r).
  constructor; rewrite ?E1, ?E2, ?E3, ?E4, ?E5, ?Hpk, ?Hak; unfold known, present in *; rewrite ?E2, ?E3, ?Hpk; auto.
  intros k Hk. apply in_app_iff in Hk. destruct Hk as [Hk|[Hk|[]]]; [auto|]. subst c. contradiction.
Qed.
Lemma inv_step E cx h c m : dm_inv cx h m -> dm_inv cx (h ++ [c]) (dm_step E m c).
Proof.
  intros Hinv. pose proof Hinv as [A1 A2 A3 A4 A5 A6 A7 A8 A9 A10].
  assert (Hpres : forall o, present h o <-> In o (dkeys (dm_available m))) by (intros o; rewrite A2; unfold present, firsts; symmetry; apply set_of_in).
  destruct c as [k sh bl|k|ks|s|d|t|bs]; cbn [dm_step].
  - (* Present *)
    unfold dm_announce. 
    assert (Hpk : present_keys (h ++ [Present k sh bl]) = present_keys h ++ [k]) by (unfold present_keys; rewrite flat_map_app; reflexivity).
    assert (Hak : absent_keys (h ++ [Present k sh bl]) = absent_keys h) by (unfold absent_keys; rewrite flat_map_app; cbn; apply app_nil_r).
    assert (Hps : forall o, present (h ++ [Present k sh bl]) o <-> present h o \/ pk_owner k = o) by (intros o; apply present_snoc).
    destruct (dmem (pk_owner k) (dm_available m)) eqn:Hm.
    + apply dmem_spec in Hm. pose proof (proj2 (Hpres _) Hm) as Hp.
      assert (Hps' : forall o, present (h ++ [Present k sh bl]) o <-> present h o) by (intros o; rewrite Hps; split; [intros [H| <-]; assumption|auto]).
      constructor; rewrite ?Hpk, ?Hak; auto.
      * rewrite A2. unfold firsts. rewrite map_app. cbn [map]. rewrite set_of_snoc. unfold set_add.
        replace (inb (pk_owner k) (set_of (map pk_owner (present_keys h)))) with true; [reflexivity|]. symmetry. apply inb_spec. apply set_of_in. exact Hp.
      * intros o. rewrite A3. unfold first_key. rewrite find_app. destruct (find _ (present_keys h)) eqn:Hf; [reflexivity|]. cbn [find].
        eqb_cases (pk_owner k) o; [|reflexivity]. exfalso. subst o. unfold present in Hp. apply in_map_iff in Hp. destruct Hp as (k' & Hk' & Hin).
        apply (find_none _ _ Hf) in Hin. rewrite Hk', eqb_refl' in Hin. discriminate.
      * intros o x Hx. rewrite Hps'. auto.
      * intros x Hx. rewrite Hps'. apply in_app_iff in Hx. destruct Hx as [Hx|[Hx|[]]]; [auto|discriminate].
      * intros o Ho. apply A9, Hps'. assumption.
    + assert (Hn : ~ In (pk_owner k) (dkeys (dm_available m))) by (intros H; apply dmem_spec in H; congruence).
      assert (Hn' : ~ present h (pk_owner k)) by (rewrite Hpres; exact Hn).
      assert (Hav' : dkeys (dset (pk_owner k) k (dm_available m)) = dkeys (dm_available m) ++ [pk_owner k]).
      { rewrite dset_new by assumption. unfold dkeys. rewrite map_app. reflexivity. }
      assert (Hkn : forall o, known m o -> In o (dkeys (dset (pk_owner k) k (dm_available m))) \/ In o (dkeys (dpop (pk_owner k) (dm_missing m)))).
      { intros o [H|H]; [left; apply dkeys_dset_in; auto|]. eqb_cases o (pk_owner k); [left; apply dkeys_dset_in; auto|]. right.
        apply dget_some_key in H. destruct H as [v Hv]. apply dget_some_key. exists v. rewrite dget_dpop by assumption. rewrite (proj2 (eqb_neq _ _) Heq). assumption. }
      constructor; cbn [dm_context dm_available dm_missing dm_tally dm_ballots]; rewrite ?Hpk, ?Hak; auto.
      * rewrite Hav', A2. unfold firsts. rewrite map_app. cbn [map]. rewrite set_of_snoc. unfold set_add.
        replace (inb (pk_owner k) (set_of (map pk_owner (present_keys h)))) with false; [reflexivity|]. symmetry. apply inb_false. rewrite set_of_in. exact Hn'.
      * intros o. unfold first_key. rewrite find_app, dget_dset. eqb_cases o (pk_owner k).
        -- subst o. destruct (find (fun k0 => eqb (pk_owner k0) (pk_owner k)) (present_keys h)) as [k'|] eqn:Hf.
           ++ exfalso. apply find_some in Hf. destruct Hf as [Hf1 Hf2]. apply Hn'. unfold present. apply in_map_iff. exists k'. split; [|assumption].
              eqb_cases (pk_owner k') (pk_owner k); [assumption|discriminate].
           ++ cbn [find]. rewrite eqb_refl'. reflexivity.
        -- rewrite A3. unfold first_key. destruct (find _ (present_keys h)); [reflexivity|]. cbn [find]. rewrite (proj2 (eqb_neq (pk_owner k) o)) by (intros H; apply Heq; symmetry; exact H). reflexivity.
      * apply dpop_nodup. assumption.
      * intros o x. rewrite dget_dpop by assumption. eqb_cases o (pk_owner k); [discriminate|]. intros Hx. destruct (A5 o x Hx) as (H1 & H2 & H3).
        split; [assumption|]. split; [assumption|]. rewrite Hps. intros [H|H]; [contradiction|]. apply Heq. symmetry. exact H.
      * intros x Hx. rewrite Hps. apply in_app_iff in Hx. destruct Hx as [Hx|[Hx|[]]]; [|discriminate].
        destruct (A6 x Hx) as [H|H]; [auto|]. eqb_cases (pk_owner x) (pk_owner k); [left; right; symmetry; exact Heq|]. right.
        apply dget_some_key in H. destruct H as [v Hv]. apply dget_some_key. exists v. rewrite dget_dpop by assumption. rewrite (proj2 (eqb_neq _ _) Heq). assumption.
      * apply dset_nodup. assumption.
      * intros o Ho. apply dkeys_dset_in in Ho. destruct Ho as [->|Ho]; [left; apply dkeys_dset_in; auto|]. apply Hkn. apply A8. assumption.
      * intros o Ho. apply Hps in Ho. apply dkeys_dset_in. destruct Ho as [Ho|Ho]; auto.
      * assert (Hold : forall b shs, dget b (dm_ballots m) = Some shs -> NoDup (dkeys shs) /\ forall o, In o (dkeys shs) ->
          In o (dkeys (dset (pk_owner k) k (dm_available m))) \/ In o (dkeys (dpop (pk_owner k) (dm_missing m)))).
        { intros b shs Hb. destruct (A10 b shs Hb) as [H1 H2]. split; [assumption|]. intros o Ho. apply Hkn. apply H2. assumption. }
        destruct bl as [bl|]; [|exact Hold]. apply save_ballot_fold; [left; apply dkeys_dset_in; auto|exact Hold].
  - (* Absent *)
    unfold dm_announce_missing.
    assert (Hpk : present_keys (h ++ [Absent k]) = present_keys h) by (unfold present_keys; rewrite flat_map_app; cbn; apply app_nil_r).
    assert (Hps : forall o, present (h ++ [Absent k]) o <-> present h o) by (intros o; unfold present; rewrite Hpk; tauto).
    destruct (dmem (pk_owner k) (dm_available m)) eqn:Hm.
    + apply dmem_spec in Hm. constructor; rewrite ?Hpk; auto.
      * intros o x Hx. rewrite Hps. destruct (A5 o x Hx) as (H1 & H2 & H3). rewrite absent_keys_snoc. auto.
      * intros x Hx. rewrite Hps. apply in_app_iff in Hx. destruct Hx as [Hx|[Hx|[]]]; [auto|]. inversion Hx; subst. left. apply Hpres. assumption.
      * intros o Ho. apply A9, Hps. assumption.
    + assert (Hn : ~ In (pk_owner k) (dkeys (dm_available m))) by (intros H; apply dmem_spec in H; congruence).
      assert (Hkn : forall o, known m o -> In o (dkeys (dm_available m)) \/ In o (dkeys (dset (pk_owner k) k (dm_missing m)))).
      { intros o [H|H]; [left; assumption|right; apply dkeys_dset_in; auto]. }
      constructor; cbn [dm_with_missing dm_context dm_available dm_missing dm_tally dm_ballots]; rewrite ?Hpk; auto.
      * apply dset_nodup. assumption.
      * intros o x. rewrite dget_dset. rewrite Hps, absent_keys_snoc. eqb_cases o (pk_owner k).
        -- intros Hx; inversion Hx; subst. split; [reflexivity|]. split; [auto|]. rewrite Hpres. assumption.
        -- intros Hx. destruct (A5 o x Hx) as (H1 & H2 & H3). auto.
      * intros x Hx. rewrite Hps. apply in_app_iff in Hx. destruct Hx as [Hx|[Hx|[]]].
        -- destruct (A6 x Hx); [auto|]. right. apply dkeys_dset_in. auto.
        -- inversion Hx; subst. right. apply dkeys_dset_in. auto.
      * intros o Ho. apply Hkn, A8. assumption.
      * intros o Ho. apply A9, Hps. assumption.
      * intros b shs Hb. destruct (A10 b shs Hb) as [H1 H2]. split; [assumption|]. intros o Ho. apply Hkn, H2. assumption.
  - (* AbsentAmong *)
    unfold dm_validate_missing.
    set (ms := dict_of (map (fun k => (pk_owner k, k)) (filter (fun k => negb (dmem (pk_owner k) (dm_available m))) ks))).
    assert (Hms : forall o k, In (o, k) ms -> pk_owner k = o /\ In k ks /\ ~ In o (dkeys (dm_available m))).
    { intros o k Hin. apply in_dget in Hin; [|apply dict_of_nodup].
      assert (Hsub : forall (l : list (string * public_key)) d o k, dget o (fold_left (fun d kv => dset (fst kv) (snd kv) d) l d) = Some k -> dget o d = Some k \/ In (o, k) l).
      { clear. induction l as [|[a x] l IH]; intros d o k H; cbn [fold_left fst snd] in H; [auto|]. destruct (IH _ _ _ H) as [H1|H1]; [|right; right; assumption].
        rewrite dget_dset in H1. eqb_cases o a; [inversion H1; subst; right; left; reflexivity|left; assumption]. }
      apply Hsub in Hin. destruct Hin as [Hin|Hin]; [discriminate|]. apply in_map_iff in Hin. destruct Hin as (k' & He & Hin). inversion He; subst.
      apply filter_In in Hin. destruct Hin as [Hin Hb]. split; [reflexivity|]. split; [assumption|]. intros Hx. apply dmem_spec in Hx. rewrite Hx in Hb. discriminate. }
    pose proof (validate_loop_keys ms (dm_missing m) A4) as HV.
    destruct (validate_missing_loop ms (dm_missing m)) as [d ok]. cbn [fst] in *. destruct HV as (V1 & V2 & V3).
    assert (Hpk : present_keys (h ++ [AbsentAmong ks]) = present_keys h) by (unfold present_keys; rewrite flat_map_app; cbn; apply app_nil_r).
    assert (Hps : forall o, present (h ++ [AbsentAmong ks]) o <-> present h o) by (intros o; unfold present; rewrite Hpk; tauto).
    assert (Hkn : forall o, known m o -> In o (dkeys (dm_available m)) \/ In o (dkeys d)) by (intros o [H|H]; auto).
    constructor; cbn [dm_with_missing dm_context dm_available dm_missing dm_tally dm_ballots]; rewrite ?Hpk; auto.
    + intros o x Hx. rewrite Hps, absent_keys_snoc. destruct (V3 o x Hx) as [H|H].
      * destruct (A5 o x H) as (H1 & H2 & H3). auto.
      * destruct (Hms o x H) as (H1 & H2 & H3). rewrite Hpres. auto.
    + intros x Hx. rewrite Hps. apply in_app_iff in Hx. destruct Hx as [Hx|[Hx|[]]]; [|discriminate]. destruct (A6 x Hx); auto.
    + intros o Ho. apply Hkn, A8. assumption.
    + intros o Ho. apply A9, Hps. assumption.
    + intros b shs Hb. destruct (A10 b shs Hb) as [H1 H2]. split; [assumption|]. intros o Ho. apply Hkn, H2. assumption.
  - apply (inv_same cx h _ m); try reflexivity; assumption || exact I.
  - apply (inv_same cx h _ m); try reflexivity; assumption || exact I.
  - (* Rebuild *)
    unfold dm_reconstruct_tally. destruct (lagrange_all E (dvals (dm_available m))) as [L|e]; [|apply (inv_same cx h _ m); try reflexivity; assumption || exact I].
    pose proof (reconstruct_tally_keys E t (dm_ctally m) L (dm_missing m) (dm_tally m) A7) as HV.
    destruct (reconstruct_tally_loop E t (dm_ctally m) L (dm_missing m) (dm_tally m)) as [d r]. cbn [fst] in *. destruct HV as (V1 & V2 & V3).
    assert (Hm : dm_inv cx h (dm_with_tally m d)).
    { constructor; cbn [dm_with_tally dm_context dm_available dm_missing dm_tally dm_ballots]; auto.
      intros o Ho. destruct (V3 o Ho) as [H|H]; [apply A8; assumption|right; exact H]. }
    apply (inv_same cx h _ (dm_with_tally m d)); try reflexivity; assumption || exact I.
  - (* RebuildBallots *)
    unfold dm_reconstruct_ballots. destruct (lagrange_all E (dvals (dm_available m))) as [L|e]; [|apply (inv_same cx h _ m); try reflexivity; assumption || exact I].
    pose proof (reconstruct_ballots_keys E m L (known m) (fun o H => or_intror H) bs (dm_ballots m) A10) as HV.
    destruct (reconstruct_ballots_loop E m L bs (dm_ballots m)) as [d r]. cbn [fst] in *.
    assert (Hm : dm_inv cx h (dm_with_ballots m d)).
    { constructor; cbn [dm_with_ballots dm_context dm_available dm_missing dm_tally dm_ballots]; auto. }
    apply (inv_same cx h _ (dm_with_ballots m d)); try reflexivity; assumption || exact I.
Qed.
Lemma inv_run E id cx h : dm_inv cx h (dm_run E (new_dmediator id cx) h).
Proof.
  induction h as [|c h IH] using rev_ind.
  - cbn. constructor; cbn; auto; try constructor; try (intros; discriminate); try contradiction.
  - unfold dm_run in *. rewrite fold_left_app. cbn [fold_left]. apply inv_step. exact IH.
Qed.

Section Thms.
  Variable E : env.
  Variable id : string.
  Variable cx : context.
  Variable h : list dm_call.
  Notation m := (dm_run E (new_dmediator id cx) h).
  Lemma avail_owners : map pk_owner (dm_get_available m) = dkeys (dm_available m).
  Proof.
    pose proof (inv_run E id cx h) as Hi. pose proof (di_first _ _ _ Hi) as Hf. pose proof (di_avail _ _ _ Hi) as Ha.
    assert (Hn : NoDup (dkeys (dm_available m))) by (rewrite Ha; apply set_of_nodup).
    unfold dm_get_available, dvals, dkeys. rewrite map_map. apply map_ext_in. intros [o k] Hin. cbn [fst snd].
    apply in_dget in Hin; [|assumption]. rewrite Hf in Hin. apply find_some in Hin. destruct Hin as [_ Hin]. eqb_cases (pk_owner k) o; [assumption|discriminate].
  Qed.
  Lemma missing_owners : map pk_owner (dm_get_missing m) = dkeys (dm_missing m).
  Proof.
    pose proof (inv_run E id cx h) as Hi. pose proof (di_missing _ _ _ Hi) as Hf. pose proof (di_mnd _ _ _ Hi) as Hn.
    unfold dm_get_missing, dvals, dkeys. rewrite map_map. apply map_ext_in. intros [o k] Hin. cbn [fst snd].
    apply in_dget in Hin; [|assumption]. apply (Hf o k Hin).
  Qed.
  Lemma dm_guardians :
    map pk_owner (dm_get_available m) = firsts (map pk_owner (present_keys h))
    /\ (forall k, In k (dm_get_available m) <-> first_key (pk_owner k) (present_keys h) = Some k)
    /\ NoDup (map pk_owner (dm_get_missing m))
    /\ (forall k, In k (dm_get_missing m) -> In k (absent_keys h) /\ ~ present h (pk_owner k))
    /\ (forall k, In (Absent k) h -> ~ present h (pk_owner k) -> In (pk_owner k) (map pk_owner (dm_get_missing m))).
  Proof.
    pose proof (inv_run E id cx h) as [A1 A2 A3 A4 A5 A6 A7 A8 A9 A10]. rewrite avail_owners, missing_owners.
    assert (Hn : NoDup (dkeys (dm_available m))) by (rewrite A2; apply set_of_nodup).
    split; [exact A2|]. split; [|split; [exact A4|split]].
    - intros k. rewrite <- A3. unfold dm_get_available, dvals. split.
      + intros Hin. apply in_map_iff in Hin. destruct Hin as ([o k'] & He & Hin). cbn in He. subst k'. 
        pose proof Hin as Hin'. apply in_dget in Hin; [|assumption]. pose proof Hin as Hf. rewrite A3 in Hf. apply find_some in Hf. destruct Hf as [_ Hf].
        eqb_cases (pk_owner k) o; [subst o; assumption|discriminate].
      + intros Hg. apply dget_in in Hg. apply in_map_iff. exists (pk_owner k, k). auto.
    - intros k Hin. unfold dm_get_missing, dvals in Hin. apply in_map_iff in Hin. destruct Hin as ([o k'] & He & Hin). cbn in He. subst k'.
      apply in_dget in Hin; [|assumption]. destruct (A5 o k Hin) as (H1 & H2 & H3). subst o. auto.
    - intros k Hk Hp. destruct (A6 k Hk) as [H|H]; [contradiction|assumption].
  Qed.
  Lemma incl_count (a b : list string) : NoDup a -> (forall x, In x a -> In x b) -> length a = length b -> forall x, In x b -> In x a.
  Proof. intros Hn Hin Hl x Hx. assert (H : (length b <= length a)%nat) by lia. exact (NoDup_length_incl Hn H Hin x Hx). Qed.
  Lemma table_full (d : dict string dec_share) : NoDup (dkeys d) -> (forall o, In o (dkeys d) -> known m o) ->
    announcement_complete m = true -> ready_to_decrypt m d = true ->
    cx_quorum cx <= len (dm_get_available m) /\ len (dm_get_available m) + len (dm_get_missing m) = cx_guardians cx /\ len d = cx_guardians cx /\
    (forall o, In o (dkeys d) <-> In o (map pk_owner (dm_get_available m)) \/ In o (map pk_owner (dm_get_missing m))).
  Proof.
    pose proof (inv_run E id cx h) as [A1 A2 A3 A4 A5 A6 A7 A8 A9 A10].
    intros Hn Hk Hc Hr. unfold announcement_complete in Hc. apply andb_prop in Hc. destruct Hc as [Hc1 Hc2]. apply Z.leb_le in Hc1. apply Z.eqb_eq in Hc2.
    unfold ready_to_decrypt in Hr. apply Z.eqb_eq in Hr. rewrite A1 in *.
    assert (L1 : len (dm_get_available m) = len (dm_available m)) by (unfold dm_get_available, dvals; apply len_map).
    assert (L2 : len (dm_get_missing m) = len (dm_missing m)) by (unfold dm_get_missing, dvals; apply len_map).
    rewrite L1, L2, avail_owners, missing_owners. split; [assumption|]. split; [assumption|]. split; [assumption|].
    intros o. split; [apply Hk|]. intros Ho.
    apply (incl_count (dkeys d) (dkeys (dm_available m) ++ dkeys (dm_missing m))); [assumption| | |apply in_app_iff; assumption].
    - intros x Hx. apply in_app_iff. apply Hk. assumption.
    - unfold dkeys. rewrite app_length, !map_length. unfold len in *. lia.
  Qed.
  Lemma dm_no_early_tally t mf : dm_plaintext_tally E m t mf <> Ok None ->
    cx_quorum cx <= len (dm_get_available m) /\ len (dm_get_available m) + len (dm_get_missing m) = cx_guardians cx /\ len (dm_tally m) = cx_guardians cx /\
    (forall o, In o (dkeys (dm_tally m)) <-> In o (map pk_owner (dm_get_available m)) \/ In o (map pk_owner (dm_get_missing m))).
  Proof.
    pose proof (inv_run E id cx h) as [A1 A2 A3 A4 A5 A6 A7 A8 A9 A10].
    unfold dm_plaintext_tally. destruct (announcement_complete m) eqn:Hc; [|cbn; contradiction]. destruct (ready_to_decrypt m (dm_tally m)) eqn:Hr; [|cbn; contradiction].
    intros _. apply table_full; assumption.
  Qed.
  Lemma dm_no_early_ballots bs mf : dm_plaintext_ballots E m bs mf <> Ok None ->
    cx_quorum cx <= len (dm_get_available m) /\ len (dm_get_available m) + len (dm_get_missing m) = cx_guardians cx /\
    forall ps, dm_plaintext_ballots E m bs mf = Ok (Some ps) -> forall b p, dget b ps = Some p -> pt_id p = b /\ In b (map sb_id bs) /\
      exists shs, dget b (dm_ballots m) = Some shs /\ len shs = cx_guardians cx /\
      (forall o, In o (dkeys shs) <-> In o (map pk_owner (dm_get_available m)) \/ In o (map pk_owner (dm_get_missing m))).
  Proof.
    pose proof (inv_run E id cx h) as [A1 A2 A3 A4 A5 A6 A7 A8 A9 A10].
    unfold dm_plaintext_ballots. destruct (announcement_complete m) eqn:Hc; [|cbn; contradiction]. cbn [negb]. intros _.
    assert (Hl : forall bl d, (forall b, In b bl -> In b bs) -> forall ps, plaintext_ballots_loop E m mf bl d = Ok ps ->
      (forall b p, dget b ps = Some p -> dget b d = Some p \/ pt_id p = b /\ In b (map sb_id bs) /\ exists shs, dget b (dm_ballots m) = Some shs /\ ready_to_decrypt m shs = true)).
    { induction bl as [|b0 bl IH]; intros d Hin ps Hps; cbn [plaintext_ballots_loop] in Hps; [inversion Hps; subst; auto|].
      assert (Hin' : forall b, In b bl -> In b bs) by (intros; apply Hin; right; assumption).
      destruct (dget (sb_id b0) (dm_ballots m)) as [[|e shs]|] eqn:Hb; [apply (IH d Hin' ps Hps)| |apply (IH d Hin' ps Hps)].
      destruct (ready_to_decrypt m (e :: shs)) eqn:Hr; cbn [negb] in Hps; [|apply (IH d Hin' ps Hps)].
      destruct (decrypt_ballot E b0 (e :: shs) (cx_ext_hash (dm_context m)) mf true) as [o|] eqn:Ho; [|discriminate]. cbn [rbind] in Hps.
      intros b p Hp. destruct (IH _ Hin' ps Hps b p Hp) as [H|H]; [|right; assumption].
      destruct o as [p0|]; [|left; assumption]. rewrite dget_dset in H. eqb_cases b (pt_id p0); [|left; assumption]. inversion H; subst p0.
      assert (Hid : pt_id p = sb_id b0).
      { unfold decrypt_ballot, decrypt_shares in Ho. destruct decrypt_contests_shares as [o'|]; [|discriminate]. cbn [rbind] in Ho. destruct o'; inversion Ho; reflexivity. }
      right. split; [symmetry; assumption|]. rewrite Heq, Hid. split; [apply in_map, Hin; left; reflexivity|]. exists (e :: shs). auto. }
    split; [|split].
    - unfold announcement_complete in Hc. apply andb_prop in Hc. destruct Hc as [Hc1 _]. apply Z.leb_le in Hc1. rewrite A1 in Hc1.
      unfold dm_get_available, dvals. rewrite len_map. assumption.
    - unfold announcement_complete in Hc. apply andb_prop in Hc. destruct Hc as [_ Hc1]. apply Z.eqb_eq in Hc1. rewrite A1 in Hc1.
      unfold dm_get_available, dm_get_missing, dvals. rewrite !len_map. assumption.
    - intros ps Hps b p Hp. destruct (plaintext_ballots_loop E m mf bs []) as [d|] eqn:Hd; [|discriminate]. cbn [rbind] in Hps. inversion Hps; subst d.
      destruct (Hl bs [] (fun _ H => H) ps Hd b p Hp) as [H|(H1 & H2 & shs & H3 & H4)]; [discriminate|]. split; [assumption|]. split; [assumption|].
      exists shs. split; [assumption|]. destruct (A10 b shs H3) as [N1 N2]. destruct (table_full shs N1 N2 Hc H4) as (_ & _ & H5 & H6). auto.
  Qed.
  Lemma dm_announce_again k sh bl : present h (pk_owner k) -> dm_run E (new_dmediator id cx) (h ++ [Present k sh bl]) = m.
  Proof.
    intros Hp. unfold dm_run. rewrite fold_left_app. cbn [fold_left dm_step]. unfold dm_announce.
    pose proof (inv_run E id cx h) as Hi. pose proof (di_avail _ _ _ Hi) as Ha.
    replace (dmem (pk_owner k) (dm_available (fold_left (dm_step E) h (new_dmediator id cx)))) with true; [reflexivity|].
    symmetry. apply dmem_spec. unfold dm_run in Ha. rewrite Ha. unfold firsts. apply set_of_in. exact Hp.
  Qed.
End Thms.
(** the share credited to a guardian that announced itself is the one it announced first *)
Lemma reconstruct_tally_other E t ct L o v : forall ms d, dget o d = Some v -> dget o (fst (reconstruct_tally_loop E t ct L ms d)) = Some v.
Proof.
  induction ms as [|[id k] ms IH]; intros d Hd; cbn [reconstruct_tally_loop]; [exact Hd|]. destruct (dmem id d) eqn:Hm; [apply IH; assumption|].
  destruct (reconstruct_share E k t (filter_by_missing id ct) L) as [s|e]; [|exact Hd]. apply IH. rewrite dget_dset_other; [assumption|].
  intros He. subst. unfold dmem in Hm. rewrite Hd in Hm. discriminate.
Qed.
Lemma dm_first_share E id cx h o : present h o -> dget o (dm_tally (dm_run E (new_dmediator id cx) h)) = first_share o h.
Proof.
  induction h as [|c h IH] using rev_ind; [intros []|]. intros Hp. pose proof (inv_run E id cx h) as Hi.
  assert (Hpres : forall o, present h o <-> In o (dkeys (dm_available (dm_run E (new_dmediator id cx) h)))) by (intros x; rewrite (di_avail _ _ _ Hi); unfold present, firsts; symmetry; apply set_of_in).
  unfold dm_run in *. rewrite fold_left_app. cbn [fold_left]. set (m := fold_left (dm_step E) h (new_dmediator id cx)) in *.
  assert (Hold : present h o -> first_share o (h ++ [c]) = first_share o h).
  { intros Ho. unfold first_share. rewrite find_app. destruct (find _ h) as [c'|] eqn:Hf; [reflexivity|]. exfalso.
    unfold present, present_keys in Ho. apply in_map_iff in Ho. destruct Ho as (k & <- & Hk). apply in_flat_map in Hk. destruct Hk as (c' & Hc & Hk).
    apply (find_none _ _ Hf) in Hc. destruct c'; try contradiction. destruct Hk as [->|[]]. rewrite eqb_refl' in Hc. discriminate. }
  apply present_snoc in Hp. 
  assert (Hdec : present h o \/ ~ present h o) by (rewrite Hpres; destruct (inb o (dkeys (dm_available m))) eqn:Hx; [left; apply inb_spec; exact Hx|right; apply inb_false; exact Hx]).
  destruct Hdec as [Ho|Ho].
  - rewrite (Hold Ho). rewrite <- (IH Ho). pose proof (IH Ho) as Hg.
    assert (Hsome : exists v, dget o (dm_tally m) = Some v) by (apply dget_some_key; apply (di_shares _ _ _ Hi); assumption).
    destruct Hsome as [v Hv]. rewrite Hv.
    destruct c as [k sh bl|k|ks|s|d|t|bs]; cbn [dm_step].
    + unfold dm_announce. destruct (dmem (pk_owner k) (dm_available m)) eqn:Hm; [exact Hv|]. cbn [dm_tally]. rewrite dget_dset_other; [exact Hv|].
      intros He. subst o. apply Hpres in Ho. apply dmem_spec in Ho. congruence.
    + unfold dm_announce_missing. destruct (dmem _ _); exact Hv.
    + unfold dm_validate_missing. destruct (validate_missing_loop _ _). exact Hv.
    + exact Hv.
    + exact Hv.
    + unfold dm_reconstruct_tally. destruct lagrange_all as [L|]; [|exact Hv]. pose proof (reconstruct_tally_other E t (dm_ctally m) L o v (dm_missing m) (dm_tally m) Hv) as H.
      destruct reconstruct_tally_loop. exact H.
    + unfold dm_reconstruct_ballots. destruct lagrange_all as [L|]; [|exact Hv]. destruct reconstruct_ballots_loop. exact Hv.
  - destruct Hp as [Hp|Hp]; [contradiction|]. destruct c as [k sh bl|k|ks|s|d|t|bs]; try contradiction. subst o. cbn [dm_step]. unfold dm_announce.
    destruct (dmem (pk_owner k) (dm_available m)) eqn:Hm; [exfalso; apply Ho, Hpres, dmem_spec; exact Hm|]. cbn [dm_tally]. rewrite dget_dset_same.
    unfold first_share. rewrite find_app. destruct (find _ h) as [c'|] eqn:Hf.
    + exfalso. apply find_some in Hf. destruct Hf as [Hin Hc]. destruct c' as [k' ? ?| | | | | |]; try discriminate. apply Ho. unfold present, present_keys.
      apply in_map_iff. exists k'. split; [eqb_cases (pk_owner k') (pk_owner k); [assumption|discriminate]|]. apply in_flat_map. eexists. split; [exact Hin|left; reflexivity].
    + cbn [find]. rewrite eqb_refl'. reflexivity.
Qed.
