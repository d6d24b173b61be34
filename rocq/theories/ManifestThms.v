(** * ManifestThms: lemmas behind the manifest and plaintext-contest properties. *)
From Verif Require Import Base Group Codec Hash DLog ElGamal ZK Manifest Ballot Spec SpecElection Tiny CodecFacts HashFacts ListFacts.
From Coq Require Import Permutation.

Lemma len_set_map {A K} `{EqB K} (f : A -> K) (l : list A) :
  (len (set_of (map f l)) =? len l) = true <-> NoDup (map f l).
Proof. rewrite Z.eqb_eq, <- set_of_len_iff, len_map. reflexivity. Qed.

Lemma contest_is_valid_iff c : contest_is_valid c = true <-> good_contest c.
Proof.
  unfold contest_is_valid. rewrite !andb_true_iff, !len_set_map, Z.leb_le, inb_spec.
  split.
  - intros [[[[[H1 H2] H3] H4] H5] H6]. constructor; try assumption.
    intros va Hva. rewrite Hva in H2. apply Z.leb_le, H2.
  - intros [H1 H2 H3 H4 H5 H6]. repeat (split; try assumption).
    destruct (cd_votes_allowed c) as [va|]; [|reflexivity]. apply Z.leb_le, H2; reflexivity.
Qed.

Lemma flag_fold (gp us : list string) : forall f, fold_left (fun f u => f && inb u gp) us f = true <->
  f = true /\ forall u, In u us -> In u gp.
Proof.
  induction us as [|u us IH]; intros f; cbn; [tauto|]. rewrite IH, andb_true_iff, inb_spec.
  split; [intros [[? ?] ?]|intros [? Hx]]; intuition; subst; auto.
Qed.

Lemma styles_loop_spec gp l : forall ids flag ids', styles_loop gp l ids flag = (ids', true) <->
  flag = true /\ ids' = fold_left (fun s x => set_add x s) (map bs_id l) ids /\
  forall s, In s l -> exists us, bs_gp_unit_ids s = Some us /\ forall u, In u us -> In u gp.
Proof.
  induction l as [|s l IH]; intros ids flag ids'; cbn [styles_loop map fold_left].
  - split; [intros [= -> ->]|intros (-> & -> & _)]; intuition. destruct H.
  - destruct (bs_gp_unit_ids s) as [us|] eqn:Hs.
    + rewrite IH, flag_fold. split.
      * intros ([Hf Hu] & He & Hl). split; [assumption|]. split; [assumption|].
        intros s' [<-|Hs']; [|auto]. exists us. auto.
      * intros (Hf & He & Hl). split; [split; [assumption|]|split; [assumption|]].
        -- destruct (Hl s) as (us' & E1 & E2); [left; reflexivity|]. rewrite Hs in E1. injection E1 as <-. exact E2.
        -- intros s' Hs'. apply Hl. right; assumption.
    + split; [discriminate|]. intros (_ & _ & Hl). destruct (Hl s) as (us & E1 & _); [left; reflexivity|].
      rewrite Hs in E1. discriminate.
Qed.

Lemma manifest_is_valid_iff m : manifest_is_valid m = true <->
  NoDup (map gu_id (mf_gp_units m)) /\ NoDup (map bs_id (mf_styles m)) /\
  NoDup (map pa_id (mf_parties m)) /\ NoDup (map ca_id (mf_candidates m)) /\
  NoDup (map cd_id (mf_contests m)) /\ NoDup (map cd_seq (mf_contests m)) /\
  (forall s, In s (mf_styles m) -> exists us, bs_gp_unit_ids s = Some us /\
     forall u, In u us -> In u (map gu_id (mf_gp_units m))) /\
  (forall c p, In c (mf_candidates m) -> ca_party_id c = Some p -> In p (map pa_id (mf_parties m))) /\
  (forall c, In c (mf_contests m) -> In (cd_district c) (map gu_id (mf_gp_units m))) /\
  (forall c ps p, In c (mf_contests m) -> cd_primary_party_ids c = Some ps -> In p ps ->
     In p (map pa_id (mf_parties m))) /\
  (forall c, In c (mf_contests m) -> good_contest c).
Proof.
  unfold manifest_is_valid.
  destruct (styles_loop (set_of (map gu_id (mf_gp_units m))) (mf_styles m) [] true) as [ids fl] eqn:Hsl.
  rewrite !andb_true_iff, !len_set_map, !forallb_forall.
  destruct fl.
  - apply styles_loop_spec in Hsl as (_ & -> & Hst).
    change (fold_left (fun s x => set_add x s) (map bs_id (mf_styles m)) []) with (set_of (map bs_id (mf_styles m))).
    rewrite (len_set_map bs_id (mf_styles m)).
    split.
    + intros [[[[H1 [H2 _]] H3] [H4 H5]] [[[[H6 H7] H8] H9] H10]].
      do 6 (split; [assumption|]). split.
      { intros s Hs. destruct (Hst s Hs) as (us & E1 & E2). exists us. split; [assumption|].
        intros u Hu. apply set_of_in, E2, Hu. }
      split.
      { intros c p Hc Hp. specialize (H5 c Hc). rewrite Hp in H5. apply set_of_in, inb_spec, H5. }
      split.
      { intros c Hc. apply set_of_in, inb_spec, H9, Hc. }
      split.
      { intros c ps p Hc Hps Hp. specialize (H10 c Hc). rewrite Hps, forallb_forall in H10.
        apply set_of_in, inb_spec, H10, Hp. }
      intros c Hc. apply contest_is_valid_iff, H8, Hc.
    + intros (H1 & H2 & H3 & H4 & H6 & H7 & _ & H5 & H9 & H10 & H8).
      assert (G5 : forall x, In x (mf_candidates m) ->
        match ca_party_id x with None => true | Some p => inb p (set_of (map pa_id (mf_parties m))) end = true).
      { intros c Hc. destruct (ca_party_id c) as [p|] eqn:Hp; [|reflexivity].
        apply inb_spec, set_of_in, (H5 c p Hc Hp). }
      assert (G8 : forall x, In x (mf_contests m) -> contest_is_valid x = true)
        by (intros c Hc; apply contest_is_valid_iff, H8, Hc).
      assert (G9 : forall x, In x (mf_contests m) -> inb (cd_district x) (set_of (map gu_id (mf_gp_units m))) = true)
        by (intros c Hc; apply inb_spec, set_of_in, H9, Hc).
      assert (G10 : forall x, In x (mf_contests m) -> match cd_primary_party_ids x with
         None => true | Some ps => forallb (fun p => inb p (set_of (map pa_id (mf_parties m)))) ps end = true).
      { intros c Hc. destruct (cd_primary_party_ids c) as [ps|] eqn:Hps; [|reflexivity].
        apply forallb_forall. intros p Hp. apply inb_spec, set_of_in, (H10 c ps p Hc Hps Hp). }
      repeat (split; try assumption).
  - split.
    + intros [[[[_ [_ Hf]] _] _] _]. discriminate.
    + intros (_ & _ & _ & _ & _ & _ & Hst & _).
      assert (Hx : styles_loop (set_of (map gu_id (mf_gp_units m))) (mf_styles m) [] true =
        (fold_left (fun s x => set_add x s) (map bs_id (mf_styles m)) [], true)).
      { apply styles_loop_spec. split; [reflexivity|]. split; [reflexivity|].
        intros s Hs. destruct (Hst s Hs) as (us & E1 & E2). exists us. split; [assumption|].
        intros u Hu. apply set_of_in, E2, Hu. }
      rewrite Hx in Hsl. discriminate.
Qed.

(** ** Placeholders *)
Lemma string_app_inj_l a b c : (a ++ b)%string = (a ++ c)%string -> b = c.
Proof. induction a; cbn; [auto|]. intros [= ?]; auto. Qed.
Lemma string_length_app a b : String.length (a ++ b) = (String.length a + String.length b)%nat.
Proof. induction a; cbn; auto. Qed.
Lemma string_app_inj_r : forall b a c, (b ++ a)%string = (c ++ a)%string -> b = c.
Proof.
  induction b as [|x b IH]; intros a c Hb.
  - destruct c as [|y c]; [reflexivity|]. exfalso.
    assert (Hl := f_equal String.length Hb). cbn in Hl. rewrite string_length_app in Hl. lia.
  - destruct c as [|y c].
    + exfalso. assert (Hl := f_equal String.length Hb). cbn in Hl. rewrite string_length_app in Hl. lia.
    + cbn in Hb. injection Hb as -> Hb. f_equal. eapply IH, Hb.
Qed.
Lemma string_app_assoc a b c : ((a ++ b) ++ c)%string = (a ++ (b ++ c))%string.
Proof. induction a; cbn; congruence. Qed.

Lemma placeholder_id_inj c a b : sd_id (placeholder_at c a) = sd_id (placeholder_at c b) -> a = b.
Proof.
  unfold placeholder_at; cbn. intros Hx. apply string_app_inj_r in Hx. apply string_app_inj_l in Hx.
  apply (string_app_inj_l "-"%string) in Hx. apply str_int_inj, Hx.
Qed.
Lemma placeholder_cand_inj c a b : sd_candidate_id (placeholder_at c a) = sd_candidate_id (placeholder_at c b) -> a = b.
Proof.
  unfold placeholder_at; cbn. intros Hx. apply string_app_inj_r in Hx. apply string_app_inj_l in Hx.
  apply (string_app_inj_l "-"%string) in Hx. apply str_int_inj, Hx.
Qed.

Lemma fold_max_ge l : forall a, a <= fold_left Z.max l a /\ forall x, In x l -> x <= fold_left Z.max l a.
Proof.
  induction l as [|y l IH]; intros a; cbn; [split; [lia|tauto]|].
  destruct (IH (Z.max a y)) as [I1 I2]. split; [lia|]. intros x [<-|Hx]; [lia|auto].
Qed.
Lemma fold_max_in l : forall a, In (fold_left Z.max l a) (a :: l).
Proof.
  induction l as [|y l IH]; intros a; cbn; [auto|].
  destruct (IH (Z.max a y)) as [E1|E1]; [|right; right; exact E1].
  rewrite <- E1. destruct (Z.max_spec a y) as [[_ ->]|[_ ->]]; auto.
Qed.
Lemma py_max_spec l m : py_max l = Ok m -> In m l /\ forall x, In x l -> x <= m.
Proof.
  destruct l as [|a l]; cbn [py_max]; [discriminate|]. intros [= <-].
  split; [apply fold_max_in|]. intros x [<-|Hx]; [apply (proj1 (fold_max_ge l a))|apply (proj2 (fold_max_ge l a)), Hx].
Qed.
Lemma zrange_in n i : In i (zrange n) <-> 0 <= i < n.
Proof.
  unfold zrange. rewrite in_map_iff. split.
  - intros (k & <- & Hk). apply in_seq in Hk. lia.
  - intros Hi. exists (Z.to_nat i). split; [lia|]. apply in_seq. lia.
Qed.
Lemma zrange_nodup n : NoDup (zrange n).
Proof. unfold zrange. apply FinFun.Injective_map_NoDup; [intros a b Hab; lia|apply seq_NoDup]. Qed.
Lemma zrange_len n : len (zrange n) = Z.max 0 n.
Proof. unfold zrange, len. rewrite map_length, seq_length. lia. Qed.

Lemma generate_placeholders_spec c count m : py_max (map sd_seq (cd_selections c)) = Ok m ->
  generate_placeholders c count = Ok (map (fun i => placeholder_at c (m + 1 + i)) (zrange count)).
Proof.
  intros Hm. unfold generate_placeholders. rewrite Hm. cbn [rbind].
  apply rmapM_total. intros i Hi. apply zrange_in in Hi. unfold generate_placeholder.
  apply py_max_spec in Hm as [_ Hm].
  destruct (inb (m + 1 + i) (map sd_seq (cd_selections c))) eqn:Hin; [|reflexivity].
  apply inb_spec in Hin. apply Hm in Hin. lia.
Qed.

Lemma NoDup_map_of {A B} (f : A -> B) l : NoDup l -> (forall a b, In a l -> In b l -> f a = f b -> a = b) -> NoDup (map f l).
Proof.
  induction 1 as [|x l Hx Hl IH]; intros Hi; cbn; constructor.
  - rewrite in_map_iff. intros (y & Hy & Hyl). apply Hx. rewrite (Hi x y); cbn; auto.
  - apply IH. intros; apply Hi; cbn; auto.
Qed.

Lemma generate_placeholders_ok c count ps : generate_placeholders c count = Ok ps ->
  len ps = Z.max 0 count /\
  NoDup (map sd_id ps) /\ NoDup (map sd_seq ps) /\ NoDup (map sd_candidate_id ps) /\
  (forall p s, In p ps -> In s (cd_selections c) -> sd_seq s < sd_seq p) /\
  (forall p, In p ps -> exists n, sd_id p = (cd_id c ++ "-" ++ str_int n ++ "-placeholder")%string).
Proof.
  intros Hg. assert (Hm : exists m, py_max (map sd_seq (cd_selections c)) = Ok m).
  { unfold generate_placeholders in Hg. destruct (py_max _); [eauto|discriminate]. }
  destruct Hm as [m Hm]. rewrite (generate_placeholders_spec c count m Hm) in Hg. injection Hg as <-.
  apply py_max_spec in Hm as [_ Hm].
  split; [rewrite len_map; apply zrange_len|]. rewrite !map_map.
  split; [apply NoDup_map_of; [apply zrange_nodup|]; intros a b _ _ Hab; apply placeholder_id_inj in Hab; lia|].
  split; [apply NoDup_map_of; [apply zrange_nodup|]; intros a b _ _ Hab; cbn in Hab; lia|].
  split; [apply NoDup_map_of; [apply zrange_nodup|]; intros a b _ _ Hab; apply placeholder_cand_inj in Hab; lia|].
  split.
  - intros p s Hp Hs. apply in_map_iff in Hp as (i & <- & Hi). apply zrange_in in Hi. cbn.
    specialize (Hm (sd_seq s) (in_map _ _ _ Hs)). lia.
  - intros p Hp. apply in_map_iff in Hp as (i & <- & Hi). exists (m + 1 + i). cbn.
    rewrite !string_app_assoc. reflexivity.
Qed.

Lemma generate_placeholders_total c count : (exists ps, generate_placeholders c count = Ok ps) <-> cd_selections c <> [].
Proof.
  split.
  - intros [ps Hp] Hn. unfold generate_placeholders in Hp. rewrite Hn in Hp. discriminate.
  - intros Hn. destruct (cd_selections c) as [|s l] eqn:Hs; [contradiction|].
    eexists. apply generate_placeholders_spec. rewrite Hs. reflexivity.
Qed.
Lemma generate_placeholders_empty c count : cd_selections c = [] -> generate_placeholders c count = Err ValueError.
Proof. intros Hn. unfold generate_placeholders. rewrite Hn. reflexivity. Qed.

(** the contests of an internal manifest *)
Lemma make_internal_spec E m im : make_internal E m = Ok im ->
  im_hash im = manifest_hash E m /\ im_styles im = mf_styles m /\ im_gp_units im = mf_gp_units m /\
  Forall2 (fun c d => generate_placeholders c (cd_number_elected c) = Ok (ph_placeholders d) /\
                      d = with_placeholders c (ph_placeholders d)) (mf_contests m) (im_contests im).
Proof.
  unfold make_internal. destruct (rmapM _ _) as [cs|] eqn:Hc; [|discriminate]. cbn.
  intros [= <-]. cbn. do 3 (split; [reflexivity|]). apply rmapM_iff in Hc.
  eapply Forall2_impl'; [|exact Hc]. intros c d _ _ Hcd. cbn in Hcd.
  destruct (generate_placeholders c (cd_number_elected c)) as [ps|]; [|discriminate]. cbn in Hcd.
  injection Hcd as <-. auto.
Qed.
Lemma make_internal_total E m : (forall c, In c (mf_contests m) -> cd_selections c <> []) ->
  exists im, make_internal E m = Ok im.
Proof.
  intros Hn. unfold make_internal.
  destruct (rmapM _ (mf_contests m)) as [cs|e] eqn:Hc; [eexists; reflexivity|exfalso].
  revert e Hc. induction (mf_contests m) as [|c l IH]; intros e; [discriminate|]. cbn [rmapM].
  destruct (proj2 (generate_placeholders_total c (cd_number_elected c))) as [ps Hps]; [apply Hn; left; reflexivity|].
  rewrite Hps. cbn [rbind]. destruct (rmapM _ l) as [|e'] eqn:Hl; cbn; [discriminate|]. intros _.
  apply (IH (fun c' Hc' => Hn c' (or_intror Hc')) e' eq_refl).
Qed.
Lemma with_placeholders_valid c ps : contest_ph_is_valid (with_placeholders c ps) = true <->
  good_contest c /\ len ps = cd_number_elected c.
Proof.
  unfold contest_ph_is_valid. cbn. rewrite andb_true_iff, Z.eqb_eq.
  change (contest_is_valid _) with (contest_is_valid c). rewrite contest_is_valid_iff. reflexivity.
Qed.

(** ** Plaintext contests *)
Lemma fold_count {A} (f : A -> bool) l : forall a,
  fold_left (fun p s => p + (if f s then 1 else 0)) l a = a + len (filter f l).
Proof.
  induction l as [|x l IH]; intros a; cbn [fold_left filter]; [unfold len; cbn; lia|].
  rewrite IH. destruct (f x); rewrite ?len_cons; lia.
Qed.
Lemma total_selected_marked c : total_selected c = marked c.
Proof. unfold total_selected, marked. rewrite fold_count. lia. Qed.
Lemma fold_sum {A} (f : A -> Z) l : forall a, fold_left (fun p s => p + f s) l a = a + sumZ (map f l).
Proof.
  unfold sumZ. induction l as [|x l IH]; intros a; cbn [fold_left map fold_right]; [lia|]. rewrite IH. lia.
Qed.
Lemma total_votes_given c : total_votes c = votes_given c.
Proof. unfold total_votes, votes_given. rewrite fold_sum. lia. Qed.

Lemma ph_valid_iff d : contest_ph_is_valid d = true <->
  good_contest (ph_desc d) /\ len (ph_placeholders d) = cd_number_elected (ph_desc d).
Proof. unfold contest_ph_is_valid. rewrite andb_true_iff, Z.eqb_eq, contest_is_valid_iff. reflexivity. Qed.

Lemma valid_matches c d :
  (negb (eqb (pc_id c) (cd_id (ph_desc d)))
   || (len (cd_selections (ph_desc d)) <? len (pc_selections c))
   || negb (contest_ph_is_valid d)) = false /\
  negb (forallb (fun s => inb (ps_id s) (map sd_id (cd_selections (ph_desc d)))) (pc_selections c)) = false
  <-> matches c d.
Proof.
  rewrite !orb_false_iff, !negb_false_iff, eqb_spec, Z.ltb_ge, ph_valid_iff, forallb_forall.
  unfold matches. split.
  - intros [[[H1 H2] [H3 H4]] H5]. do 4 (split; [assumption|]). intros s Hs. apply inb_spec, H5, Hs.
  - intros (H1 & H2 & H3 & H4 & H5). split; [split; [split; assumption|split; assumption]|].
    intros s Hs. apply inb_spec, H5, Hs.
Qed.

Lemma valid_cases c d :
  (~ matches c d /\ pt_contest_valid c d = CheckInvalid) \/
  (matches c d /\ marked c < 1 /\ pt_contest_valid c d = CheckNull) \/
  (matches c d /\ 1 <= marked c < cd_number_elected (ph_desc d) /\ pt_contest_valid c d = CheckUnder) \/
  (matches c d /\ 1 <= marked c /\ cd_number_elected (ph_desc d) < marked c /\
     pt_contest_valid c d = CheckOver (selected_ids c)) \/
  (matches c d /\ 1 <= marked c /\ marked c = cd_number_elected (ph_desc d) /\
     cd_votes_allowed (ph_desc d) = None /\ pt_contest_valid c d = CheckOk) \/
  (matches c d /\ 1 <= marked c /\ marked c = cd_number_elected (ph_desc d) /\
     exists va, cd_votes_allowed (ph_desc d) = Some va /\
     ((va < votes_given c /\ pt_contest_valid c d = CheckOver (selected_ids c)) \/
      (votes_given c <= va /\ marked c < va /\ pt_contest_valid c d = CheckInvalid) \/
      (votes_given c <= va /\ va <= marked c /\ pt_contest_valid c d = CheckOk))).
Proof.
  pose proof (valid_matches c d) as Hm. unfold pt_contest_valid.
  rewrite total_selected_marked, total_votes_given.
  destruct (_ || negb (contest_ph_is_valid d)) eqn:H1.
  { left. split; [|reflexivity]. rewrite <- Hm. intros [? _]. discriminate. }
  destruct (negb (forallb _ _)) eqn:H2.
  { left. split; [|reflexivity]. rewrite <- Hm. intros [_ ?]. discriminate. }
  assert (HM : matches c d) by (apply Hm; auto). right.
  destruct (Z.ltb_spec (marked c) 1); [left; auto|right].
  destruct (Z.ltb_spec (marked c) (cd_number_elected (ph_desc d))); [left; auto|right].
  destruct (Z.ltb_spec (cd_number_elected (ph_desc d)) (marked c)); [left; auto|right].
  assert (marked c = cd_number_elected (ph_desc d)) by lia.
  destruct (cd_votes_allowed (ph_desc d)) as [va|]; [right|left; auto].
  do 3 (split; [assumption|]). exists va. split; [reflexivity|].
  destruct (Z.ltb_spec va (votes_given c)); [left; auto|right].
  destruct (Z.ltb_spec (marked c) va); [left; auto|right; auto].
Qed.

Lemma is_valid_iff c i n e va : pt_contest_is_valid c i n e va = true <->
  pc_id c = i /\ len (pc_selections c) <= n /\ marked c <= e /\ (forall v, va = Some v -> votes_given c <= v).
Proof.
  unfold pt_contest_is_valid.
  assert (Hc : fold_left (fun n s => if 1 <=? ps_vote s then n + 1 else n) (pc_selections c) 0 = marked c).
  { rewrite <- total_selected_marked. unfold total_selected.
    enough (G : forall a, fold_left (fun n s => if 1 <=? ps_vote s then n + 1 else n) (pc_selections c) a =
      fold_left (fun prev s => prev + (if 0 <? ps_vote s then 1 else 0)) (pc_selections c) a) by apply G.
    induction (pc_selections c) as [|x l IH]; intros a; cbn [fold_left]; [reflexivity|].
    rewrite IH. f_equal. destruct (Z.leb_spec 1 (ps_vote x)), (Z.ltb_spec 0 (ps_vote x)); lia. }
  assert (Hv : fold_left (fun n s => n + ps_vote s) (pc_selections c) 0 = votes_given c)
    by (rewrite fold_sum; unfold votes_given; lia).
  rewrite Hc, Hv. eqb_cases (pc_id c) i; cbn [negb].
  2: { split; [discriminate|]. intros [? _]. contradiction. }
  destruct (Z.ltb_spec n (len (pc_selections c))).
  { split; [discriminate|]. intros (_ & ? & _). lia. }
  destruct (Z.ltb_spec e (marked c)).
  { split; [discriminate|]. intros (_ & _ & ? & _). lia. }
  destruct va as [v|].
  - destruct (Z.ltb_spec v (votes_given c)).
    + split; [discriminate|]. intros (_ & _ & _ & Hx). specialize (Hx v eq_refl). lia.
    + split; [|reflexivity]. intros _. do 3 (split; [assumption|]). intros v' [= <-]. assumption.
  - split; [|reflexivity]. intros _. do 3 (split; [assumption|]). discriminate.
Qed.

(** ** Closing lemmas for PropsManifest *)
Definition one_contest (styles : list ballot_style) (cs : list contest_desc) : manifest :=
  mkManifest "m" "v" "t" "s" "e" [mkGpUnit "u" "U" "city" None] []
    [mkCandidate "a" [] None None None] cs styles None None.
Lemma selection_candidate_unresolved :
  exists m c s, manifest_is_valid m = true /\ In c (mf_contests m) /\ In s (cd_selections c) /\
    ~ In (sd_candidate_id s) (map ca_id (mf_candidates m)).
Proof.
  pose (c := mkContest "c" 1 "u" "one_of_m" 1 None "C" [mkSel "x" 1 "a"; mkSel "y" 2 "nobody"] None None None).
  exists (one_contest [] [c]), c, (mkSel "y" 2 "nobody").
  split; [reflexivity|]. split; [left; reflexivity|]. split; [right; left; reflexivity|].
  cbn. intros [Hx|[]]. discriminate.
Qed.
Lemma style_party_unresolved :
  exists m s ps p, manifest_is_valid m = true /\ In s (mf_styles m) /\ bs_party_ids s = Some ps /\
    In p ps /\ ~ In p (map pa_id (mf_parties m)).
Proof.
  pose (s := mkStyle "s" (Some ["u"%string]) (Some ["ghost"%string]) None).
  exists (one_contest [s] []), s, ["ghost"%string], "ghost"%string.
  split; [reflexivity|]. split; [left; reflexivity|]. split; [reflexivity|].
  split; [left; reflexivity|]. cbn. tauto.
Qed.
Lemma selection_ids_shared :
  exists m c c' s s', manifest_is_valid m = true /\ In c (mf_contests m) /\ In c' (mf_contests m) /\
    cd_id c <> cd_id c' /\ In s (cd_selections c) /\ In s' (cd_selections c') /\ sd_id s = sd_id s'.
Proof.
  pose (c := mkContest "c" 1 "u" "one_of_m" 1 None "C" [mkSel "yes" 1 "a"] None None None).
  pose (c' := mkContest "c2" 2 "u" "one_of_m" 1 None "C" [mkSel "yes" 1 "a"] None None None).
  exists (one_contest [] [c; c']), c, c', (mkSel "yes" 1 "a"), (mkSel "yes" 1 "a").
  split; [reflexivity|]. split; [left; reflexivity|]. split; [right; left; reflexivity|].
  split; [discriminate|]. split; [left; reflexivity|]. split; [left; reflexivity|reflexivity].
Qed.

Lemma placeholders_fresh : forall c count ps, generate_placeholders c count = Ok ps ->
  len ps = Z.max 0 count /\
  NoDup (map sd_id ps) /\ NoDup (map sd_seq ps) /\ NoDup (map sd_candidate_id ps) /\
  (forall p s, In p ps -> In s (cd_selections c) -> sd_seq s < sd_seq p) /\
  ((forall s n, In s (cd_selections c) -> sd_id s <> (cd_id c ++ "-" ++ str_int n ++ "-placeholder")%string) ->
   forall p s, In p ps -> In s (cd_selections c) -> sd_id p <> sd_id s).
Proof.
  intros c count ps Hg. apply generate_placeholders_ok in Hg as (H1 & H2 & H3 & H4 & H5 & H6).
  do 5 (split; [assumption|]). intros Hf p s Hp Hs Heq. destruct (H6 p Hp) as [n Hn].
  apply (Hf s n Hs). congruence.
Qed.
Lemma placeholders_total : forall c count,
  ((exists ps, generate_placeholders c count = Ok ps) <-> cd_selections c <> []) /\
  (cd_selections c = [] -> generate_placeholders c count = Err ValueError).
Proof. intros c count. split; [apply generate_placeholders_total|apply generate_placeholders_empty]. Qed.
Lemma placeholder_clash :
  exists c ps p s, good_contest c /\ generate_placeholders c (cd_number_elected c) = Ok ps /\
    In p ps /\ In s (cd_selections c) /\ sd_id p = sd_id s.
Proof.
  pose (c := mkContest "c" 1 "u" "one_of_m" 1 None "C" [mkSel "c-3-placeholder" 1 "a"; mkSel "y" 2 "b"] None None None).
  exists c, [mkSel "c-3-placeholder" 3 "c-3-candidate"], (mkSel "c-3-placeholder" 3 "c-3-candidate"), (mkSel "c-3-placeholder" 1 "a").
  split; [apply contest_is_valid_iff; reflexivity|]. split; [reflexivity|].
  split; [left; reflexivity|]. split; [left; reflexivity|reflexivity].
Qed.
Lemma internal_manifest_contests : forall E m im, make_internal E m = Ok im ->
  im_hash im = manifest_hash E m /\
  Forall2 (fun c d => cd_id (ph_desc d) = cd_id c /\ cd_selections (ph_desc d) = cd_selections c /\
             cd_number_elected (ph_desc d) = cd_number_elected c /\ cd_seq (ph_desc d) = cd_seq c /\
             cd_district (ph_desc d) = cd_district c /\ contest_hash E (ph_desc d) = contest_hash E c /\
             len (ph_placeholders d) = Z.max 0 (cd_number_elected c) /\
             (good_contest c -> 0 <= cd_number_elected c -> contest_ph_is_valid d = true))
    (mf_contests m) (im_contests im).
Proof.
  intros E m im Hm. apply make_internal_spec in Hm as (H1 & _ & _ & H2). split; [assumption|].
  eapply Forall2_impl'; [|exact H2]. intros c d _ _ [Hg Hd].
  apply generate_placeholders_ok in Hg as (Hl & _). rewrite Hd.
  do 6 (split; [reflexivity|]). split; [exact Hl|].
  intros Hgc Hn. apply with_placeholders_valid. split; [assumption|]. cbn. lia.
Qed.

(** ** election context *)
Definition flat (x : helem) : Prop :=
  match x with HElem z => 0 <= z | HHash z => 0 <= z | HStr s => no_bar s = true | HInt _ => True | HNone => True | HList _ => False end.
Lemma flat_me E E' x : flat x -> hash_me E x = hash_me E' x.
Proof. destruct x; cbn; try reflexivity. tauto. Qed.
Lemma flat_no_bar E x : flat x -> no_bar (hash_me E x) = true.
Proof.
  destruct x; cbn; intros Hf; try (apply int_to_hex_no_bar; assumption); try assumption; try reflexivity.
  - apply str_int_no_bar.
  - destruct Hf.
Qed.
Lemma flat_text E E' l : Forall flat l -> hash_text E l = hash_text E' l.
Proof.
  intros Hl. unfold hash_text.
  enough (Hx : fold_right (fun x acc => (hash_me E x ++ "|" ++ acc)%string) EmptyString l
             = fold_right (fun x acc => (hash_me E' x ++ "|" ++ acc)%string) EmptyString l) by (rewrite Hx; reflexivity).
  induction Hl as [|x l Hx _ IH]; [reflexivity|].
  cbn [fold_right]. rewrite IH, (flat_me E E' x Hx). reflexivity.
Qed.
Lemma flat_text_inj E E' l l' : Forall flat l -> Forall flat l' -> hash_text E l = hash_text E' l' ->
  map (hash_me E) l = map (hash_me E) l'.
Proof.
  intros Hl Hl' Heq. rewrite (flat_text E' E l' Hl') in Heq.
  apply hash_text_map in Heq; [assumption| |].
  - eapply Forall_impl; [|exact Hl]. apply flat_no_bar.
  - eapply Forall_impl; [|exact Hl']. apply flat_no_bar.
Qed.

Lemma base_hash_binds : forall E E' n k K ch mh n' k' K' ch' mh',
  sha E = sha E' -> 0 < qq E -> 0 < qq E' -> 0 <= pp E -> 0 <= pp E' -> 0 <= gg E -> 0 <= gg E' ->
  0 <= ch -> 0 <= ch' -> 0 <= mh -> 0 <= mh' ->
  cx_ext_hash (make_context E n k K ch mh) = cx_ext_hash (make_context E' n' k' K' ch' mh') ->
  (n = n' /\ k = k' /\ ch = ch' /\ mh = mh' /\ pp E = pp E' /\ qq E = qq E' /\ gg E = gg E') \/
  exists s t, In s (context_texts E n k ch mh) /\ In t (context_texts E' n' k' ch' mh') /\
    s <> t /\ sha E s mod qq E = sha E' t mod qq E'.
Proof.
  intros E E' n k K ch mh n' k' K' ch' mh' Hsha Hq Hq' Hp Hp' Hg Hg' Hc Hc' Hm Hm' Heq.
  unfold make_context in Heq; cbn [cx_ext_hash] in Heq.
  set (b := hash_elems E [HElem (pp E); HElem (qq E); HElem (gg E); HInt n; HInt k; HElem mh]) in *.
  set (b' := hash_elems E' [HElem (pp E'); HElem (qq E'); HElem (gg E'); HInt n'; HInt k'; HElem mh']) in *.
  assert (Hb : 0 <= b) by (apply hash_elems_nonneg; assumption).
  assert (Hb' : 0 <= b') by (apply hash_elems_nonneg; assumption).
  assert (F2 : Forall flat [HElem b; HElem ch]) by (repeat constructor; cbn; assumption).
  assert (F2' : Forall flat [HElem b'; HElem ch']) by (repeat constructor; cbn; assumption).
  assert (F1 : Forall flat [HElem (pp E); HElem (qq E); HElem (gg E); HInt n; HInt k; HElem mh])
    by (repeat constructor; cbn; lia).
  assert (F1' : Forall flat [HElem (pp E'); HElem (qq E'); HElem (gg E'); HInt n'; HInt k'; HElem mh'])
    by (repeat constructor; cbn; lia).
  destruct (string_dec (hash_text E [HElem b; HElem ch]) (hash_text E' [HElem b'; HElem ch'])) as [Ht|Ht].
  - apply flat_text_inj in Ht; [|assumption|assumption]. cbn in Ht. injection Ht as Hbb Hcc.
    apply int_to_hex_inj in Hbb; [|assumption|assumption]. apply int_to_hex_inj in Hcc; [|assumption|assumption].
    destruct (string_dec (hash_text E [HElem (pp E); HElem (qq E); HElem (gg E); HInt n; HInt k; HElem mh])
      (hash_text E' [HElem (pp E'); HElem (qq E'); HElem (gg E'); HInt n'; HInt k'; HElem mh'])) as [Ht2|Ht2].
    + left. apply flat_text_inj in Ht2; [|assumption|assumption]. cbn in Ht2.
      injection Ht2 as A1 A2 A3 A4 A5 A6.
      apply int_to_hex_inj in A1; [|assumption|assumption].
      apply int_to_hex_inj in A2; [|lia|lia].
      apply int_to_hex_inj in A3; [|assumption|assumption].
      apply str_int_inj in A4. apply str_int_inj in A5.
      apply int_to_hex_inj in A6; [|assumption|assumption].
      intuition.
    + right. eexists _, _. split; [left; reflexivity|]. split; [left; reflexivity|].
      split; [exact Ht2|exact Hbb].
  - right. eexists _, _. split; [right; left; reflexivity|]. split; [right; left; reflexivity|].
    split; [exact Ht|exact Heq].
Qed.

(** ** exact outcomes of PlaintextBallotContest.valid *)
Ltac vc c d := destruct (valid_cases c d) as
  [[Hm Hv]|[[Hm [Hk Hv]]|[[Hm [Hk Hv]]|[[Hm [Hk [Hk2 Hv]]]|[[Hm [Hk [Hk2 [Hva Hv]]]]|
   [Hm [Hk [Hk2 [va [Hva [[Hg Hv]|[[Hg [Hg2 Hv]]|[Hg [Hg2 Hv]]]]]]]]]]]]]]; rewrite Hv.
Lemma valid_ok_iff : forall c d, pt_contest_valid c d = CheckOk <->
  matches c d /\ 1 <= marked c /\ marked c = cd_number_elected (ph_desc d) /\
  (forall va, cd_votes_allowed (ph_desc d) = Some va -> votes_given c <= va /\ va <= marked c).
Proof.
  intros c d. vc c d; split; try discriminate; try (intros (M & A & B & C); exfalso; (contradiction || lia)).
  - intros _. do 3 (split; [assumption|]). rewrite Hva. discriminate.
  - reflexivity.
  - intros (M & A & B & C). specialize (C va Hva). lia.
  - intros (M & A & B & C). specialize (C va Hva). lia.
  - intros _. do 3 (split; [assumption|]). intros va' Hva'. rewrite Hva in Hva'. injection Hva' as <-. auto.
  - reflexivity.
Qed.
Lemma valid_null_iff : forall c d, pt_contest_valid c d = CheckNull <-> matches c d /\ marked c < 1.
Proof. intros c d. vc c d; split; try discriminate; try (intros [M A]; exfalso; (contradiction || lia)); auto. Qed.
Lemma valid_under_iff : forall c d, pt_contest_valid c d = CheckUnder <->
  matches c d /\ 1 <= marked c < cd_number_elected (ph_desc d).
Proof. intros c d. vc c d; split; try discriminate; try (intros [M A]; exfalso; (contradiction || lia)); auto. Qed.
Lemma valid_over_iff : forall c d ids, pt_contest_valid c d = CheckOver ids <->
  matches c d /\ 1 <= marked c /\ ids = map ps_id (filter (fun s => 0 <? ps_vote s) (pc_selections c)) /\
  (cd_number_elected (ph_desc d) < marked c \/
   marked c = cd_number_elected (ph_desc d) /\
   exists va, cd_votes_allowed (ph_desc d) = Some va /\ va < votes_given c).
Proof.
  intros c d ids. vc c d; split; try discriminate;
    try (intros (M & A & B & [C|(C & va' & D & F)]); exfalso; (contradiction || lia || (rewrite Hva in D; discriminate) || (rewrite Hva in D; injection D as <-; lia))).
  - intros [= <-]. auto.
  - intros (M & A & -> & _). reflexivity.
  - intros [= <-]. do 3 (split; [assumption || reflexivity|]). right. eauto.
  - intros (M & A & -> & _). reflexivity.
Qed.
Lemma valid_invalid_iff : forall c d, pt_contest_valid c d = CheckInvalid <->
  ~ matches c d \/
  (matches c d /\ 1 <= marked c /\ marked c = cd_number_elected (ph_desc d) /\
   exists va, cd_votes_allowed (ph_desc d) = Some va /\ votes_given c <= va /\ marked c < va).
Proof.
  intros c d. vc c d; split; try discriminate; auto;
    try (intros [C|(M & A & B & va' & D & F)]; [contradiction|exfalso];
         (lia || (rewrite Hva in D; discriminate) || (rewrite Hva in D; injection D as <-; lia))).
  intros _. right. do 3 (split; [assumption|]). eauto.
Qed.
Lemma full_vote_rejected :
  exists c d, contest_ph_is_valid d = true /\ matches c d /\
    marked c = cd_number_elected (ph_desc d) /\ (forall s, In s (pc_selections c) -> ps_vote s = 1) /\
    pt_contest_valid c d = CheckInvalid.
Proof.
  pose (d := with_placeholders (mkContest "c" 1 "u" "n_of_m" 1 (Some 2) "C" [mkSel "x" 1 "a"; mkSel "y" 2 "b"] None None None)
     [mkSel "c-3-placeholder" 3 "c-3-candidate"]).
  pose (c := mkPcon "c" [mkPsel "x" 1 false None]).
  exists c, d. split; [reflexivity|]. split.
  - apply valid_matches. split; reflexivity.
  - split; [reflexivity|]. split; [|reflexivity]. intros s [<-|[]]. reflexivity.
Qed.

