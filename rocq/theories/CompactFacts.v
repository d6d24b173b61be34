(** * CompactFacts: lemmas about compact ballots. *)
From Verif Require Import Base Group Codec Hash DLog ElGamal ZK Spec Manifest Ballot Encrypt Box Compact SpecCompact SpecElection ListFacts.
From Coq Require Import List.

Lemma write_ins_get ss : forall k d i, dget i (collect_write_ins k ss d) =
  match (if k <? i then nth_error ss (Z.to_nat (i - k - 1)) else None) with
  | Some s => match text_of s with Some w => Some w | None => dget i d end
  | None => dget i d end.
Proof.
  induction ss as [|s ss IH]; intros k d i; cbn [collect_write_ins].
  - destruct (k <? i); [|reflexivity]. destruct (Z.to_nat (i - k - 1)); reflexivity.
  - rewrite IH. assert (Hd : forall x, dget x (match ps_write_in s with Some w => if eqb w ""%string then d else dset (k + 1) w d | None => d end) =
      if x =? k + 1 then match text_of s with Some w => Some w | None => dget x d end else dget x d).
    { intros x. unfold text_of. cbv [eqb EqB_string]. destruct (ps_write_in s) as [w|]; [destruct (String.eqb w "")|]; destruct (Z.eqb_spec x (k + 1)); subst; auto.
      - apply dget_dset_same.
      - apply dget_dset_other. assumption. }
    rewrite Hd. destruct (Z.ltb_spec (k + 1) i).
    + destruct (Z.ltb_spec k i); [|lia]. replace (Z.to_nat (i - k - 1)) with (S (Z.to_nat (i - (k + 1) - 1))) by lia. cbn [nth_error]. destruct (Z.eqb_spec i (k + 1)); [lia|]. reflexivity.
    + destruct (Z.ltb_spec k i).
      * assert (i = k + 1) by lia. subst. rewrite Z.eqb_refl. replace (Z.to_nat (k + 1 - k - 1)) with O by lia. reflexivity.
      * destruct (Z.eqb_spec i (k + 1)); [lia|]. reflexivity.
Qed.
Lemma write_ins_at b i : dget (Z.of_nat i) (compact_write_ins b) =
  match i with O => None | S j => match nth_error (all_selections b) j with Some s => text_of s | None => None end end.
Proof.
  unfold compact_write_ins. rewrite write_ins_get. fold (all_selections b). destruct i as [|j]; [reflexivity|]. destruct (Z.ltb_spec 0 (Z.of_nat (S j))); [|lia].
  replace (Z.to_nat (Z.of_nat (S j) - 0 - 1)) with j by lia. destruct (nth_error (all_selections b) j) as [s|]; [|reflexivity]. destruct (text_of s); reflexivity.
Qed.

(** what the expansion makes of the entries *)
Fixpoint rebuilt (wi : dict Z string) (in_style : bool) (i : nat) (ss : list pt_selection) : list pt_selection :=
  match ss with
  | [] => []
  | s :: ss' => mkPsel (ps_id s) (ps_vote s) (negb in_style) (dget (Z.of_nat i) wi) :: rebuilt wi in_style (S i) ss'
  end.
Lemma rebuilt_length wi st i ss : List.length (rebuilt wi st i ss) = List.length ss.
Proof. revert i. induction ss; intros i; cbn; [reflexivity|]. f_equal. auto. Qed.
Lemma expand_selections_ok c st : forall os ss pre post, Forall2 (fun o s => ps_id s = sd_id o /\ (ps_vote s = 0 \/ ps_vote s = 1)) os ss ->
  cp_selections c = map (fun s => ps_vote s =? 1) (pre ++ ss ++ post) ->
  expand_selections c st (List.length pre) os = Ok (rebuilt (cp_write_ins c) st (List.length pre) ss).
Proof.
  induction os as [|o os IH]; intros ss pre post HF Hc; inversion HF as [|? s ? ss' [Hi Hv] HF']; subst; [reflexivity|]. cbn [expand_selections rebuilt].
  rewrite Hc, map_app, nth_error_app2 by (rewrite map_length; lia). rewrite map_length, Nat.sub_diag. cbn [app map nth_error rbind].
  specialize (IH ss' (pre ++ [s]) post HF'). rewrite <- app_assoc in IH. specialize (IH Hc). rewrite app_length in IH. cbn [List.length] in IH.
  replace (List.length pre + 1)%nat with (S (List.length pre)) in IH by lia. rewrite IH. cbn [rbind]. f_equal. f_equal. rewrite Hi. f_equal. destruct Hv as [->| ->]; reflexivity.
Qed.
Fixpoint rebuilt_contests (wi : dict Z string) (ids : list string) (i : nat) (cs : list pt_contest) : list pt_contest :=
  match cs with
  | [] => []
  | c :: cs' => mkPcon (pc_id c) (rebuilt wi (inb (pc_id c) ids) i (pc_selections c)) :: rebuilt_contests wi ids (i + List.length (pc_selections c)) cs'
  end.
Lemma expand_contests_ok c ids : forall ds cs pre,
  Forall2 (fun d c => pc_id c = cd_id (ph_desc d) /\
      Forall2 (fun o s => ps_id s = sd_id o /\ (ps_vote s = 0 \/ ps_vote s = 1)) (sort_by sd_seq (cd_selections (ph_desc d))) (pc_selections c)) ds cs ->
  cp_selections c = map (fun s => ps_vote s =? 1) (pre ++ flat_map pc_selections cs) ->
  expand_contests c ids (List.length pre) ds = Ok (rebuilt_contests (cp_write_ins c) ids (List.length pre) cs).
Proof.
  induction ds as [|d ds IH]; intros cs pre HF Hc; inversion HF as [|? x ? cs' [Hi Hs] HF']; subst; [reflexivity|]. cbn [expand_contests rebuilt_contests flat_map] in *.
  rewrite (expand_selections_ok c _ _ (pc_selections x) pre (flat_map pc_selections cs') Hs Hc). cbn [rbind].
  specialize (IH cs' (pre ++ pc_selections x) HF'). rewrite <- app_assoc in IH. specialize (IH Hc). rewrite app_length in IH.
  assert (Hl : List.length (sort_by sd_seq (cd_selections (ph_desc d))) = List.length (pc_selections x)) by (clear -Hs; induction Hs; cbn; congruence). rewrite Hl, IH. cbn [rbind]. rewrite Hi. reflexivity.
Qed.
Lemma expand_compressed im b ds : lists_everything im b -> get_contests_for im (pb_style b) = Ok ds ->
  expand_plain (compress_plain b) im = Ok (mkPbal (pb_id b) (pb_style b) (rebuilt_contests (compact_write_ins b) (map (fun d => cd_id (ph_desc d)) ds) 0 (pb_contests b))).
Proof.
  intros HL Hd. unfold expand_plain, compress_plain. cbn [cp_style cp_id]. rewrite Hd. cbn [rbind].
  pose proof (expand_contests_ok (mkCompact (pb_id b) (pb_style b) (compact_selections b) (compact_write_ins b)) (map (fun d => cd_id (ph_desc d)) ds) _ (pb_contests b) [] HL eq_refl) as H.
  cbn [List.length cp_write_ins] in H. rewrite H. reflexivity.
Qed.
Lemma rebuilt_votes wi st : forall ss i, Forall2 (fun s s' => ps_id s' = ps_id s /\ ps_vote s' = ps_vote s) ss (rebuilt wi st i ss).
Proof. induction ss as [|s ss IH]; intros i; cbn; constructor; [split; reflexivity|apply IH]. Qed.
Lemma rebuilt_contests_votes wi ids : forall cs i, Forall2 (fun c c' => pc_id c' = pc_id c /\ Forall2 (fun s s' => ps_id s' = ps_id s /\ ps_vote s' = ps_vote s) (pc_selections c) (pc_selections c')) cs (rebuilt_contests wi ids i cs).
Proof. induction cs as [|c cs IH]; intros i; cbn; constructor; [split; [reflexivity|apply rebuilt_votes]|apply IH]. Qed.
Lemma rebuilt_nth wi st : forall ss k i s', nth_error (rebuilt wi st k ss) i = Some s' -> ps_write_in s' = dget (Z.of_nat (k + i)) wi.
Proof.
  induction ss as [|s ss IH]; intros k i s' H; [destruct i; discriminate|]. destruct i as [|i]; cbn in H; [inversion H; subst; cbn; rewrite Nat.add_0_r; reflexivity|].
  apply IH in H. rewrite H. f_equal. lia.
Qed.
Lemma rebuilt_contests_nth wi ids : forall cs k i s', nth_error (flat_map pc_selections (rebuilt_contests wi ids k cs)) i = Some s' -> ps_write_in s' = dget (Z.of_nat (k + i)) wi.
Proof.
  induction cs as [|c cs IH]; intros k i s' H; [destruct i; discriminate|]. cbn [rebuilt_contests flat_map pc_selections] in H.
  destruct (Nat.lt_ge_cases i (List.length (pc_selections c))) as [Hi|Hi].
  - rewrite nth_error_app1 in H by (rewrite rebuilt_length; assumption). apply rebuilt_nth in H. assumption.
  - rewrite nth_error_app2 in H by (rewrite rebuilt_length; assumption). rewrite rebuilt_length in H. apply IH in H. rewrite H. f_equal. lia.
Qed.
Lemma rebuilt_style wi ids : forall cs k c' s', In c' (rebuilt_contests wi ids k cs) -> In s' (pc_selections c') -> ps_placeholder s' = negb (inb (pc_id c') ids).
Proof.
  assert (Hr : forall st ss k s', In s' (rebuilt wi st k ss) -> ps_placeholder s' = negb st).
  { intros st. induction ss as [|s ss IH]; intros k s' []; [subst; reflexivity|eauto]. }
  induction cs as [|c cs IH]; intros k c' s' Hc Hs; [destruct Hc|]. destruct Hc as [Hc|Hc]; [|eauto]. subst c'. cbn [pc_selections pc_id] in *. apply Hr in Hs. assumption.
Qed.
Lemma expand_plaintext im b ds : lists_everything im b -> get_contests_for im (pb_style b) = Ok ds ->
  exists b', expand_plain (compress_plain b) im = Ok b' /\ same_votes b b' /\
    (forall c s, In c (pb_contests b') -> In s (pc_selections c) -> (ps_placeholder s = false <-> In (pc_id c) (map (fun d => cd_id (ph_desc d)) ds))) /\
    forall i s', nth_error (all_selections b') i = Some s' ->
      ps_write_in s' = match i with O => None | S j => match nth_error (all_selections b) j with Some s => text_of s | None => None end end.
Proof.
  intros HL Hd. eexists. split; [apply (expand_compressed im b ds HL Hd)|]. split; [split; [reflexivity|split; [reflexivity|apply rebuilt_contests_votes]]|]. split.
  - intros c s Hc Hs. rewrite (rebuilt_style _ _ _ _ c s Hc Hs). rewrite negb_false_iff. apply inb_spec.
  - intros i s' H. unfold all_selections in H. cbn [pb_contests] in H. apply rebuilt_contests_nth in H. rewrite H. apply write_ins_at.
Qed.
Lemma rebuilt_same wi st : forall ss k, (forall i, dget i wi = None) -> st = true -> (forall s, In s ss -> ps_placeholder s = false /\ ps_write_in s = None) -> rebuilt wi st k ss = ss.
Proof.
  intros ss k Hw ->. revert k. induction ss as [|[i v p w] ss IH]; intros k Hs; cbn; [reflexivity|]. destruct (Hs _ (or_introl eq_refl)) as [E1 E2]. cbn in E1, E2. subst. rewrite Hw. f_equal.
  apply IH. intros s Hin. apply Hs. right. assumption.
Qed.
Lemma expand_exact im b ds : lists_everything im b -> get_contests_for im (pb_style b) = Ok ds -> plain_entries b ->
  (forall c, In c (pb_contests b) -> In (pc_id c) (map (fun d => cd_id (ph_desc d)) ds)) -> expand_plain (compress_plain b) im = Ok b.
Proof.
  intros HL Hd Hp Hs. rewrite (expand_compressed im b ds HL Hd). f_equal. destruct b as [id st cs]. cbn [pb_id pb_style pb_contests] in *. f_equal.
  assert (Hw : forall i, dget i (compact_write_ins (mkPbal id st cs)) = None).
  { intros i. unfold compact_write_ins. rewrite write_ins_get. destruct (0 <? i); [|reflexivity]. destruct (nth_error _ _) as [s|] eqn:Hn; [|reflexivity]. apply nth_error_In in Hn.
    destruct (Hp s Hn) as [_ H]. unfold text_of. rewrite H. reflexivity. }
  unfold plain_entries, all_selections in Hp. cbn [pb_contests] in Hp. revert Hw. generalize (compact_write_ins (mkPbal id st cs)) as wi. intros wi Hw. clear HL.
  generalize O. induction cs as [|[ci ss] cs IH]; intros k; cbn; [reflexivity|]. f_equal.
  - f_equal. apply rebuilt_same; [assumption| |].
    + apply inb_spec. apply (Hs _ (or_introl eq_refl)).
    + intros s Hin. apply Hp. cbn. apply in_app_iff. left. assumption.
  - apply IH; [intros s Hin; apply Hp; cbn; apply in_app_iff; right; assumption|]. intros c Hc. apply Hs. right. assumption.
Qed.

(** the proof checks of the encryption do not change its result *)
Lemma selection_no_verify E s d K Q n ph es : encrypt_selection E s d K Q n ph true = Ok (Some es) -> encrypt_selection E s d K Q n ph false = Ok (Some es).
Proof.
  unfold encrypt_selection. destruct (negb _); [discriminate|]. destruct (nonce_get _ _ _); cbn [rbind]; [|discriminate]. destruct (elgamal_encrypt _ _ _ _) as [[c|]|]; cbn [rbind]; [|discriminate|discriminate].
  destruct (make_ct_selection _ _ _ _ _ _ _ _ _ _ _) as [x|]; cbn [rbind]; [|discriminate]. destruct (cs_proof x); [|discriminate]. cbn [negb]. destruct (selection_is_valid_encryption _ _ _ _ _); [auto|discriminate].
Qed.
Lemma options_no_verify E ds sels ov K Q n : forall cnt r, encrypt_options E ds sels ov K Q n true cnt = Ok (Some r) -> encrypt_options E ds sels ov K Q n false cnt = Ok (Some r).
Proof.
  induction ds as [|d ds IH]; intros cnt r; cbn [encrypt_options]; [auto|]. set (ch := match (if ov then None else _) with Some s => _ | None => _ end). destruct ch as [s c2].
  destruct (encrypt_selection E s d K Q n false true) as [[es|]|] eqn:Hs; cbn [rbind]; [|discriminate|discriminate]. rewrite (selection_no_verify _ _ _ _ _ _ _ _ Hs). cbn [rbind].
  destruct (encrypt_options E ds sels ov K Q n true c2) as [[[rest m]|]|] eqn:Hr; cbn [rbind]; [|discriminate|discriminate]. rewrite (IH _ _ Hr). auto.
Qed.
Lemma placeholders_no_verify E ds num K Q n : forall cnt r, encrypt_placeholders E ds num K Q n true cnt = Ok (Some r) -> encrypt_placeholders E ds num K Q n false cnt = Ok (Some r).
Proof.
  induction ds as [|d ds IH]; intros cnt r; cbn [encrypt_placeholders]; [auto|].
  destruct (encrypt_selection E _ d K Q n true true) as [[es|]|] eqn:Hs; cbn [rbind]; [|discriminate|discriminate]. rewrite (selection_no_verify _ _ _ _ _ _ _ _ Hs). cbn [rbind].
  destruct (encrypt_placeholders E ds num K Q n true _) as [[rest|]|] eqn:Hr; cbn [rbind]; [|discriminate|discriminate]. rewrite (IH _ _ Hr). auto.
Qed.
Lemma contest_no_verify E c d K Q n ec : encrypt_contest E c d K Q n true = Ok (Some ec) -> encrypt_contest E c d K Q n false = Ok (Some ec).
Proof.
  unfold encrypt_contest. destruct (contest_error _) as [[[er ed] ov]|]; [|discriminate]. destruct (nonce_get _ _ _) as [cn|]; cbn [rbind]; [|discriminate].
  destruct (encrypt_options _ _ _ _ _ _ _ true _) as [[[real cnt]|]|] eqn:Ho; cbn [rbind]; [|discriminate|discriminate]. rewrite (options_no_verify _ _ _ _ _ _ _ _ _ Ho). cbn [rbind].
  destruct (encrypt_placeholders _ _ _ _ _ _ true _) as [[ph|]|] eqn:Hp; cbn [rbind]; [|discriminate|discriminate]. rewrite (placeholders_no_verify _ _ _ _ _ _ _ _ Hp). cbn [rbind].
  destruct (padded_encode _); cbn [rbind]; [|discriminate]. destruct (hashed_elgamal_encrypt _ _ _ _ _); cbn [rbind]; [|discriminate]. destruct (make_ct_contest _ _ _ _ _ _ _ _ _ _ _) as [x|]; cbn [rbind]; [|discriminate].
  cbn [orb]. destruct (contest_is_valid_encryption _ _ _ _ _) as [[|]|] eqn:Hv; cbn [rbind]; [|discriminate|discriminate]. intros H; inversion H; subst. destruct (bc_proof ec); [reflexivity|cbn; reflexivity].
Qed.
Lemma contests_no_verify E ds cs K Q n : forall r, encrypt_contests E ds cs K Q n true = Ok (Some r) -> encrypt_contests E ds cs K Q n false = Ok (Some r).
Proof.
  induction ds as [|d ds IH]; intros r; cbn [encrypt_contests]; [auto|]. destruct (encrypt_contest E _ d K Q n true) as [[ec|]|] eqn:Hc; cbn [rbind]; [|discriminate|discriminate].
  rewrite (contest_no_verify _ _ _ _ _ _ _ Hc). cbn [rbind]. destruct (encrypt_contests E ds cs K Q n true) as [[rest|]|] eqn:Hr; cbn [rbind]; [|discriminate|discriminate]. rewrite (IH _ eq_refl). auto.
Qed.
Lemma submitted_roundtrip E im cx b eseed nonce verify rand now eb st master : lists_everything im b -> plain_entries b ->
  (forall ds c, get_contests_for im (pb_style b) = Ok ds -> In c (pb_contests b) -> In (pc_id c) (map (fun d => cd_id (ph_desc d)) ds)) ->
  encrypt_ballot E b im cx eseed nonce verify rand now = Ok (Some eb) -> cb_nonce eb = Some master ->
  expand_submitted E (compress_submitted (submit_ballot E eb st) b master) im cx = Ok (submit_ballot E eb st).
Proof.
  intros HL Hp Hs He Hn. unfold encrypt_ballot in He. destruct (get_ballot_style im (pb_style b)); cbn [rbind] in He; [|discriminate]. destruct (negb _); [discriminate|].
  destruct (get_contests_for im (pb_style b)) as [ds|] eqn:Hd; cbn [rbind] in He; [|discriminate].
  set (m := match nonce with Some n => n | None => rand end) in He.
  destruct (encrypt_contests E ds (pb_contests b) (cx_key cx) (cx_ext_hash cx) (ballot_nonce_seed E (im_hash im) (pb_id b) m) verify) as [[cs|]|] eqn:Hc; cbn [rbind] in He; [|discriminate|discriminate].
  assert (Hc' : encrypt_contests E ds (pb_contests b) (cx_key cx) (cx_ext_hash cx) (ballot_nonce_seed E (im_hash im) (pb_id b) m) false = Ok (Some cs)) by (destruct verify; [apply contests_no_verify|]; assumption).
  assert (Heb : eb = make_ct_ballot E (pb_id b) (pb_style b) (im_hash im) (Some eseed) cs (Some m) None None now).
  { destruct verify; cbn [negb] in He; [|inversion He; reflexivity]. destruct (ballot_is_valid_encryption _ _ _ _ _) as [[|]|]; cbn [rbind] in He; [inversion He; reflexivity|discriminate|discriminate]. }
  clear He. subst eb. cbn [make_ct_ballot cb_nonce] in Hn. inversion Hn; subst master.
  unfold expand_submitted, compress_submitted. cbn [cm_plain]. rewrite (expand_exact im b ds HL Hd Hp (fun c Hin => Hs ds c eq_refl Hin)). cbn [rbind]. rewrite Hd. cbn [rbind]. unfold compress_plain. cbn [cp_id cm_nonce].
  rewrite Hc'. cbn [rbind get_optional]. f_equal.
Qed.
