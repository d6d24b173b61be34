(** * MarkFacts: ballots made at random. *)
From Coq Require Import List Permutation.
From Verif Require Import Base Group Codec Hash Manifest Ballot Encrypt SpecElection ListFacts ManifestThms Cli SpecCli Mark SpecMark.
Local Open Scope Z_scope.
Local Open Scope list_scope.

Definition falses_of (f : nat -> bool) (k : nat) (rest : list selection_desc) : list pt_selection :=
  flat_map (fun js : nat * selection_desc => if f (fst js) then [selection_from (snd js) false false] else []) (combine (seq k (List.length rest)) rest).
Lemma falses_cons f k x rest : falses_of f k (x :: rest) = (if f k then [selection_from x false false] else []) ++ falses_of f (S k) rest.
Proof. reflexivity. Qed.
Lemma falses_in f rest : forall k s, In s (falses_of f k rest) -> exists x, In x rest /\ s = selection_from x false false.
Proof.
  induction rest as [|x rest IH]; intros k s H; [destruct H|]. rewrite falses_cons in H. apply in_app_iff in H as [H|H].
  - destruct (f k); [|destruct H]. destruct H as [<-|[]]. exists x. split; [left; reflexivity|reflexivity].
  - destruct (IH _ _ H) as (y & Hy & ->). exists y. split; [right; exact Hy|reflexivity].
Qed.
Lemma falses_nodup f rest : forall k, NoDup (map sd_id rest) -> NoDup (map ps_id (falses_of f k rest)).
Proof.
  induction rest as [|x rest IH]; intros k H; [constructor|]. cbn [map] in H. inversion H as [|? ? Hn Hr]; subst. rewrite falses_cons, map_app. destruct (f k); [|apply IH, Hr]. cbn [map app selection_from ps_id].
  constructor; [|apply IH, Hr]. intros Hi. apply in_map_iff in Hi as (s & Hs & Hi). destruct (falses_in _ _ _ _ Hi) as (y & Hy & ->). apply Hn. cbn in Hs. rewrite <- Hs. apply in_map, Hy.
Qed.
Lemma nodup_join {A} (a b : list A) : NoDup a -> NoDup b -> (forall x, In x a -> In x b -> False) -> NoDup (a ++ b).
Proof.
  intros Ha Hb H. induction Ha as [|x a Hx Ha IH]; [exact Hb|]. cbn. constructor.
  - rewrite in_app_iff. intros [Hi|Hi]; [exact (Hx Hi)|exact (H x (or_introl eq_refl) Hi)].
  - apply IH. intros y Hy. apply H. right. exact Hy.
Qed.
Lemma filter_true {A} (f : A -> bool) l : (forall x, In x l -> f x = true) -> filter f l = l.
Proof. induction l as [|x l IH]; intros H; [reflexivity|]. cbn. rewrite (H x (or_introl eq_refl)), IH; [reflexivity|]. intros y Hy. apply H. right. exact Hy. Qed.
Lemma filter_false {A} (f : A -> bool) l : (forall x, In x l -> f x = false) -> filter f l = [].
Proof. induction l as [|x l IH]; intros H; [reflexivity|]. cbn. rewrite (H x (or_introl eq_refl)), IH; [reflexivity|]. intros y Hy. apply H. right. exact Hy. Qed.
Lemma filter_permuted {A} (f : A -> bool) l l' : Permutation l l' -> Permutation (filter f l) (filter f l').
Proof.
  induction 1; cbn; [constructor| | |etransitivity; eassumption].
  - destruct (f x); [constructor|]; assumption.
  - destruct (f x), (f y); try reflexivity. apply perm_swap.
Qed.

Lemma contest_made mix d sh cut f k : Permutation sh (cd_selections (ph_desc d)) -> (forall l, Permutation (mix l) l) -> good_contest (ph_desc d) -> k = slice_at cut sh -> 0 <= cut <= len sh ->
  let c := mkPcon (cd_id (ph_desc d)) (mix (map (fun s => selection_from s false true) (firstn k sh) ++ falses_of f 0 (skipn k sh))) in filled_in d c /\ SpecElection.marked c = cut.
Proof.
  intros Hsh Hmix Hg -> Hcut. set (k := slice_at cut sh). set (l := map _ _ ++ _). intros c.
  assert (Hnd : NoDup (map sd_id sh)) by (apply (Permutation_NoDup (Permutation_sym (Permutation_map sd_id Hsh))), Hg).
  assert (Hin : forall x, In x (firstn k sh) \/ In x (skipn k sh) -> In (sd_id x) (map sd_id (cd_selections (ph_desc d)))).
  { intros x H. apply in_map, (Permutation_in _ Hsh). rewrite <- (firstn_skipn k sh), in_app_iff. exact H. }
  rewrite <- (firstn_skipn k sh), map_app in Hnd. assert (Hk : len (firstn k sh) = cut).
  { unfold k, slice_at, len in *. destruct (Z.ltb_spec cut 0); [lia|]. rewrite firstn_length. lia. }
  split; [split; [reflexivity|split]|].
  - unfold c. cbn [pc_selections]. apply (Permutation_NoDup (Permutation_sym (Permutation_map ps_id (Hmix l)))). unfold l. rewrite map_app, map_map. cbn [selection_from ps_id]. apply nodup_join.
    + clear -Hnd. induction (map sd_id (firstn k sh)); [constructor|]. cbn in Hnd. inversion Hnd; subst. constructor; [|auto]. intros H. apply H1, in_app_iff. left. exact H.
    + apply falses_nodup. clear -Hnd. induction (map sd_id (firstn k sh)); [exact Hnd|]. cbn in Hnd. inversion Hnd; subst. auto.
    + intros x Hx Hy. apply in_map_iff in Hy as (s & Hs & Hy). destruct (falses_in _ _ _ _ Hy) as (y & Hy' & ->). cbn in Hs. subst x. apply (in_map sd_id) in Hy'.
      clear -Hnd Hx Hy'. induction (map sd_id (firstn k sh)) as [|a m IH]; [destruct Hx|]. cbn in Hnd. inversion Hnd; subst. destruct Hx as [->|Hx]; [|auto]. apply H1, in_app_iff. right. exact Hy'.
  - intros s Hs. unfold c in Hs. cbn [pc_selections] in Hs. apply (Permutation_in _ (Hmix l)) in Hs. unfold l in Hs. apply in_app_iff in Hs as [Hs|Hs].
    + apply in_map_iff in Hs as (x & <- & Hx). cbn. split; [apply Hin; left; exact Hx|]. split; [right; reflexivity|split; reflexivity].
    + destruct (falses_in _ _ _ _ Hs) as (x & Hx & ->). cbn. split; [apply Hin; right; exact Hx|]. split; [left; reflexivity|split; reflexivity].
  - unfold SpecElection.marked, c. cbn [pc_selections]. unfold len. rewrite (Permutation_length (filter_permuted _ _ _ (Hmix l))). unfold l. rewrite filter_app, app_length.
    rewrite filter_true by (intros s Hs; apply in_map_iff in Hs as (x & <- & _); reflexivity). rewrite filter_false by (intros s Hs; destruct (falses_in _ _ _ _ Hs) as (x & _ & ->); reflexivity).
    rewrite map_length. unfold len in Hk. cbn [List.length]. lia.
Qed.

Lemma randint_bounds lo hi r x : randint lo hi r = Ok x -> lo <= x <= hi.
Proof. unfold randint. destruct (Z.ltb_spec hi lo) as [H|H]; [discriminate|]. intros Hx. assert (Hx' : x = lo + r mod (hi - lo + 1)) by congruence. pose proof (Z.mod_pos_bound r (hi - lo + 1) ltac:(lia)). lia. Qed.
(** the marks of a contest made at random *)
Lemma random_contest_marks an au lk d c : shuffles lk -> random_contest false an au lk d = Ok c -> contest_ph_is_valid d = true /\ filled_in d c /\
  let n := cd_number_elected (ph_desc d) in let k := SpecElection.marked c in
  0 <= k <= n /\ (an = false -> au = false -> k = n) /\ (an = false -> au = true -> 1 <= k) /\ (an = true -> au = false -> k = 0 \/ k = n).
Proof.
  intros [S1 S2] H. unfold random_contest in H. cbn [negb andb] in H. destruct (contest_ph_is_valid d) eqn:Hv; [|discriminate]. cbn [negb] in H. split; [reflexivity|].
  destruct (proj1 (ph_valid_iff d) Hv) as [Hg Hp]. set (sh := cl_order lk (cd_selections (ph_desc d))) in *. assert (Hsh : Permutation sh (cd_selections (ph_desc d))) by apply S1.
  assert (Hl : len sh = len (cd_selections (ph_desc d))) by (unfold len; rewrite (Permutation_length Hsh); reflexivity). assert (Hn : cd_number_elected (ph_desc d) <= len sh) by (rewrite Hl; apply Hg).
  assert (H0 : 0 <= cd_number_elected (ph_desc d)) by (rewrite <- Hp; unfold len; lia).
  match type of H with rbind ?e _ = _ => destruct e as [cut|] eqn:He; [|discriminate] end. cbn [rbind] in H. injection H as <-.
  assert (Hc : 0 <= cut <= cd_number_elected (ph_desc d) /\ (an = false -> au = false -> cut = cd_number_elected (ph_desc d)) /\ (an = false -> au = true -> 1 <= cut) /\
      (an = true -> au = false -> cut = 0 \/ cut = cd_number_elected (ph_desc d))).
  { destruct an, au; cbn [andb negb] in He.
    - apply randint_bounds in He. split; [lia|]. repeat split; discriminate.
    - injection He as <-. destruct (Z.even (cl_cut lk)); (split; [lia|]; split; [discriminate|]; split; [discriminate|]; auto).
    - apply randint_bounds in He. split; [lia|]. split; [discriminate|]. split; [lia|discriminate].
    - apply randint_bounds in He. split; [lia|]. split; [lia|]. split; discriminate. }
  destruct (contest_made (cl_mix lk) d sh cut (cl_false lk) (slice_at cut sh) Hsh S2 Hg eq_refl ltac:(lia)) as [F1 F2]. split; [exact F1|]. cbv zeta. unfold falses_of in F2. rewrite F2. exact Hc.
Qed.
Lemma random_contest_total lk d : contest_ph_is_valid d = true -> exists c, random_contest false false false lk d = Ok c.
Proof.
  intros Hv. unfold random_contest. rewrite Hv. cbn [negb andb]. unfold randint. rewrite Z.ltb_irrefl. cbn [rbind]. eexists. reflexivity.
Qed.

(** ** ballots *)
Lemma combine_seq_in {A} (l : list A) : forall k j x, In (j, x) (combine (seq k (List.length l)) l) -> In x l.
Proof. intros k j x H. apply in_combine_r in H. exact H. Qed.
Lemma made_contests (P : contest_ph -> pt_contest -> Prop) (g : nat * contest_ph -> res pt_contest) : forall ds k cs, (forall j d c, g (j, d) = Ok c -> P d c) -> rmapM g (combine (seq k (List.length ds)) ds) = Ok cs -> Forall2 P ds cs.
Proof.
  induction ds as [|d ds IH]; intros k cs HP H; cbn [List.length seq combine rmapM] in H; [injection H as <-; constructor|].
  destruct (g (k, d)) as [c|] eqn:Hg; cbn [rbind] in H; [|discriminate]. destruct (rmapM g _) as [cs'|] eqn:Hr; cbn [rbind] in H; [|discriminate]. injection H as <-. constructor; [exact (HP _ _ _ Hg)|]. exact (IH _ _ HP Hr).
Qed.
Lemma fake_ballot_full im st lk i b : honest_luck lk -> fake_ballot im st false false lk i = Ok b ->
  pb_id b = ("ballot-" ++ lk_uuid lk i)%string /\ (exists s, get_ballot_style im (pb_style b) = Ok s) /\ match st with Some s => pb_style b = s | None => In (pb_style b) (map bs_id (im_styles im)) end /\ full_ballot im b.
Proof.
  intros HL H. unfold fake_ballot in H. match type of H with rbind ?e _ = _ => destruct e as [s|] eqn:Hs; [|discriminate] end. cbn [rbind] in H.
  destruct (get_contests_for im (bs_id s)) as [ds|] eqn:Hd; cbn [rbind] in H; [|discriminate]. destruct (rmapM _ _) as [cs|] eqn:Hc; cbn [rbind] in H; [|discriminate]. injection H as <-. cbn [pb_id pb_style].
  split; [reflexivity|]. split. { unfold get_contests_for in Hd. destruct (get_ballot_style im (bs_id s)) as [s'|]; [eauto|discriminate]. }
  split.
  - destruct st as [sid|].
    + unfold get_ballot_style in Hs. destruct (find_first _ _) as [s'|] eqn:Hf; [|discriminate]. injection Hs as ->. apply find_first_some in Hf as [_ Hf]. apply String.eqb_eq in Hf. exact Hf.
    + destruct (randint _ _ _) as [x|]; cbn [rbind] in Hs; [|discriminate]. destruct (nth_error _ _) as [s'|] eqn:Hn; [|discriminate]. injection Hs as ->. apply in_map, (nth_error_In _ _ Hn).
  - exists ds. cbn [pb_style pb_contests]. split; [exact Hd|]. refine (made_contests _ _ ds 0%nat cs _ Hc). intros j d c Hg. cbn [fst snd] in Hg.
    destruct (random_contest_marks _ _ _ _ _ (HL i j) Hg) as (_ & F & _ & K & _). split; [exact F|]. apply K; reflexivity.
Qed.
Lemma fake_ballots_full im st lk n bs : honest_luck lk -> fake_ballots im n st false false lk = Ok bs ->
  map pb_id bs = map (fun i => "ballot-" ++ lk_uuid lk i)%string (seq 0 (Z.to_nat n)) /\
  forall b, In b bs -> match st with Some s => pb_style b = s | None => In (pb_style b) (map bs_id (im_styles im)) end /\ full_ballot im b.
Proof.
  intros HL H. unfold fake_ballots in H. apply rmapM_iff in H. split.
  - induction H as [|i b l bs Hb H IH]; [reflexivity|]. cbn [map]. rewrite IH. f_equal. exact (proj1 (fake_ballot_full _ _ _ _ _ HL Hb)).
  - intros b Hb. destruct (Forall2_in_r _ _ _ _ H Hb) as (i & _ & Hi). destruct (fake_ballot_full _ _ _ _ _ HL Hi) as (_ & _ & H1 & H2). split; assumption.
Qed.
Lemma fake_ballots_total E m im st lk n : manifest_is_valid m = true -> make_internal E m = Ok im -> (forall c, In c (mf_contests m) -> 0 <= cd_number_elected c) ->
  (match st with Some s => In s (map bs_id (im_styles im)) | None => im_styles im <> [] end) -> exists bs, fake_ballots im n st false false lk = Ok bs.
Proof.
  intros Hv Hm Hn Hst. assert (Hph : forall d, In d (im_contests im) -> contest_ph_is_valid d = true).
  { intros d Hd. destruct (internal_manifest_contests E m im Hm) as [_ HF]. destruct (Forall2_in_r _ _ _ _ HF Hd) as (c & Hc & _ & _ & _ & _ & _ & _ & _ & HG). apply HG; [|apply Hn, Hc].
    apply manifest_is_valid_iff in Hv. apply Hv, Hc. }
  assert (Hone : forall i, exists b, fake_ballot im st false false lk i = Ok b).
  { intros i. unfold fake_ballot. assert (Hs : exists s, In (bs_id s) (map bs_id (im_styles im)) /\
      match st with Some sid => get_ballot_style im sid | None => do x <- randint 0 (len (im_styles im) - 1) (lk_style lk i); match nth_error (im_styles im) (Z.to_nat x) with Some s => Ok s | None => Err IndexError end end = Ok s).
    { assert (HF : forall sid, In sid (map bs_id (im_styles im)) -> exists s, In (bs_id s) (map bs_id (im_styles im)) /\ get_ballot_style im sid = Ok s).
      { intros sid H. unfold get_ballot_style. destruct (find_first _ _) as [s|] eqn:Hf; [exists s; split; [apply in_map, (find_first_some _ _ _ Hf)|reflexivity]|]. exfalso. apply in_map_iff in H as (s & Hs & H). pose proof (proj1 (find_first_none _ _) Hf s H) as HX. cbn in HX. rewrite Hs, String.eqb_refl in HX. discriminate. }
      destruct st as [sid|]; [apply HF, Hst|]. unfold randint. assert (Hl : 0 < len (im_styles im)) by (unfold len; destruct (im_styles im); [contradiction|cbn; lia]).
      destruct (Z.ltb_spec (len (im_styles im) - 1) 0); [lia|]. cbn [rbind]. pose proof (Z.mod_pos_bound (lk_style lk i) (len (im_styles im) - 1 - 0 + 1) ltac:(lia)) as HB.
      destruct (nth_error (im_styles im) _) as [s|] eqn:Hs; [exists s; split; [apply in_map, (nth_error_In _ _ Hs)|reflexivity]|]. exfalso. apply nth_error_None in Hs. unfold len in *. lia. }
    destruct Hs as (s & Hin & ->). cbn [rbind]. unfold get_contests_for, get_ballot_style. destruct (find_first _ (im_styles im)) as [s'|] eqn:Hf.
    2:{ exfalso. apply in_map_iff in Hin as (s2 & Hs & H). pose proof (proj1 (find_first_none _ _) Hf s2 H) as HX. cbn in HX. rewrite Hs, String.eqb_refl in HX. discriminate. }
    cbn [rbind]. set (r := match bs_gp_unit_ids s' with Some _ => _ | None => _ end). assert (Hr : exists ds, r = Ok ds /\ incl ds (im_contests im)).
    { unfold r. destruct (bs_gp_unit_ids s') as [us|]; [eexists; split; [reflexivity|intros x Hx; apply filter_In in Hx; tauto]|exists []; split; [reflexivity|intros x []]]. }
    destruct Hr as (ds & -> & Hds). cbn [rbind]. assert (Hc : forall k, exists cs, rmapM (fun jd : nat * contest_ph => random_contest false false false (lk_contest lk i (fst jd)) (snd jd)) (combine (seq k (List.length ds)) ds) = Ok cs).
    { induction ds as [|d ds IH]; intros k; cbn [List.length seq combine rmapM]; [eauto|]. cbn [fst snd]. destruct (random_contest_total (lk_contest lk i k) d (Hph d (Hds d (or_introl eq_refl)))) as [c ->]. cbn [rbind].
      destruct (IH (fun x Hx => Hds x (or_intror Hx)) (S k)) as [cs ->]. cbn [rbind]. eauto. }
    destruct (Hc 0%nat) as [cs ->]. cbn [rbind]. eauto. }
  unfold fake_ballots. induction (seq 0 (Z.to_nat n)) as [|i l IH]; cbn [rmapM]; [eauto|]. destruct (Hone i) as [b ->]. cbn [rbind]. destruct IH as [bs ->]. cbn [rbind]. eauto.
Qed.
