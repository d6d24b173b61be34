(** * CliThms: what the e2e command prints and exports. *)
From Coq Require Import Permutation List Znumtheory Ascii.
From Verif Require Import Base Group Codec Hash DLog ElGamal ZK Poly Manifest Ballot Encrypt Box Tally Spec SpecElection SpecTally
  ListFacts GroupFacts ZKFacts CryptoThms ManifestThms EncryptFacts BallotFacts EncryptThms TallyFacts TallyThms TallyMore BoxFacts
  Ceremony SpecCeremony Shares SpecShares SharesFacts ShareRun SharesThms SharesMore Verify SpecVerify VerifyFacts SpecEndToEnd EndToEnd
  GuiDecrypt GuiDecPure GuiElection Report SpecReport ReportFacts ReportLink ReportPages Cli SpecCli CliDec CliRun CliPaths CliE2e CliFiles.
Local Open Scope Z_scope.
Local Open Scope list_scope.

Fixpoint last_char (s : string) : option ascii := match s with EmptyString => None | String c EmptyString => Some c | String _ s' => last_char s' end.
Lemma last_app s c r : last_char (s ++ String c r)%string = last_char (String c r).
Proof. induction s as [|x s IH]; [reflexivity|]. change (last_char (String x (s ++ String c r)%string) = last_char (String c r)). rewrite <- IH. destruct s; reflexivity. Qed.
Lemma zip_json a b : (a ++ ".zip")%string <> (b ++ ".json")%string.
Proof. intros H. apply (f_equal last_char) in H. rewrite !last_app in H. discriminate H. Qed.
Lemma join_json nm d : exists s, construct_path nm d = (s ++ ".json")%string.
Proof.
  unfold construct_path, os_join. destruct (nm ++ ".json")%string as [|c r] eqn:Hn; [destruct nm; discriminate Hn|]. destruct (Ascii.eqb c slash); [exists nm; auto|].
  destruct (String.eqb d "" || ends_slash d); rewrite <- Hn; [exists (d ++ nm)%string|exists (d ++ "/" ++ nm)%string]; rewrite !append_assoc; reflexivity.
Qed.
Lemma zip_key d g s : (s ++ ".zip")%string <> key_path d g.
Proof. unfold key_path. rewrite <- !append_assoc. apply zip_json. Qed.
Lemma rmapM_F2 {A B} (f : A -> res B) l : forall l', rmapM f l = Ok l' -> Forall2 (fun a b => f a = Ok b) l l'.
Proof.
  induction l as [|a l IH]; intros l' H; cbn [rmapM] in H; [injection H as <-; constructor|]. destruct (f a) as [b|] eqn:Hf; cbn [rbind] in H; [|discriminate].
  destruct (rmapM f l) as [l1|] eqn:Hl; cbn [rbind] in H; [|discriminate]. injection H as <-. constructor; auto.
Qed.
Lemma split_states (st : string -> bool) (bs : list pt_ballot) :
  Permutation (map (fun b => (pb_id b, if st (pb_id b) then SPOILED else CAST)) bs)
    (map (fun b => (pb_id b, CAST)) (filter (fun b => negb (st (pb_id b))) bs) ++ map (fun b => (pb_id b, SPOILED)) (filter (fun b => st (pb_id b)) bs)).
Proof.
  induction bs as [|b bs IH]; [reflexivity|]. cbn [map filter]. destruct (st (pb_id b)); cbn [negb map app]; [|constructor; exact IH]. rewrite <- Permutation_middle. constructor. exact IH.
Qed.
Definition zip_of (p : string) : string := (splitext p ++ ".zip")%string.

(** holders and their records *)
Section Holders.
  Context (E : env) (HE : valid_env E) (ss : list seat) (gs : list guardian) (Hn : NoDup (map st_id ss)) (HH : Forall2 (holder E) ss gs).
  Lemma holder_ids : map gr_id (map guardian_publish gs) = map st_id ss.
  Proof using HH. clear Hn. induction HH as [|s g ss' gs' [(H1 & _) _] HH' IH]; [reflexivity|]. cbn [map]. rewrite (IH HH'). f_equal. exact H1. Qed.
  Lemma holder_seats : map (fun r => (gr_id r, gr_seq r)) (map guardian_publish gs) = map (fun s => (st_id s, st_seq s)) ss.
  Proof using HH. clear Hn. induction HH as [|s g ss' gs' [(H1 & H2 & _) _] HH' IH]; [reflexivity|]. cbn [map]. rewrite (IH HH'). f_equal. rewrite <- H1, <- H2. reflexivity. Qed.
  Lemma holder_joint : (forall s, In s ss -> 0 <= st_secret s) -> gexp E (sumZ (map st_secret ss)) = prodZ (map gr_key (map guardian_publish gs)) mod pp E.
  Proof using HH.
    clear Hn. intros Hs. assert (Hk : map gr_key (map guardian_publish gs) = map (fun s => gexp E (st_secret s)) ss).
    { clear Hs. induction HH as [|s g ss' gs' [(_ & _ & H1 & _) _] HH' IH]; [reflexivity|]. cbn [map]. rewrite (IH HH'). f_equal. exact H1. }
    rewrite Hk. clear Hk HH. unfold gexp in *. induction ss as [|s l IH]; [reflexivity|].
    assert (Hl : 0 <= sumZ (map st_secret l)). { assert (Hl : forall x, In x l -> 0 <= st_secret x) by (intros x Hx; apply Hs; right; exact Hx). clear -Hl. induction l as [|x l IH]; [cbn; lia|]. change (sumZ (map st_secret (x :: l))) with (st_secret x + sumZ (map st_secret l)). pose proof (Hl x (or_introl eq_refl)). assert (0 <= sumZ (map st_secret l)) by (apply IH; intros y Hy; apply Hl; right; exact Hy). lia. }
    change (sumZ (map st_secret (s :: l))) with (st_secret s + sumZ (map st_secret l)). cbn [map]. change (prodZ ((gg E ^ st_secret s mod pp E) :: ?t)) with ((gg E ^ st_secret s mod pp E) * prodZ t).
    rewrite Z.pow_add_r by (try exact Hl; apply Hs; left; reflexivity). rewrite Zmult_mod, IH by (intros x Hx; apply Hs; right; exact Hx). apply Zmult_mod_idemp_r.
  Qed.
  Lemma holder_gd : map gd_id gs = map st_id ss.
  Proof using HH. rewrite <- holder_ids, map_map. apply map_ext. reflexivity. Qed.
  Lemma holder_keys : has_keys (record_keys (map guardian_publish gs)) gs.
  Proof using HH Hn.
    intros g Hg. eexists. split.
    - apply in_dget; [|unfold record_keys; apply in_map_iff; exists (guardian_publish g); split; [reflexivity|apply in_map, Hg]].
      assert (Hk : forall l, dkeys (record_keys l) = map gr_id l) by (intros l; unfold dkeys, record_keys; rewrite map_map; reflexivity). rewrite Hk, holder_ids. exact Hn.
    - reflexivity.
  Qed.
  Lemma holder_private g : In g gs -> gr_key (guardian_publish g) = gexp E (ek_secret (gd_keys g)).
  Proof using HH. intros Hg. destruct (Forall2_in_r _ _ _ _ HH Hg) as (s & _ & (_ & _ & H & _) & H2). rewrite H2. exact H. Qed.
End Holders.

Section Thms.
  Context (E : env) (HE : valid_env E) (Hh : hmac_32 E) (Hq : qq E <= 2 ^ 1024) (ch : chance) (HF : fair E ch) (n k : Z) (Hfit : seats_fit E n k).
  Context (m : manifest) (im : internal_manifest) (Hm : make_internal E m = Ok im) (Hdist : distinct_option_ids im).
  Context (mp bp : string) (sp : option string) (dk : disk) (Hp : proper_disk dk) (Hmf : dget mp (dk_files dk) = Some (JManifest m)).
  Context (bs : list pt_ballot) (Hbs : plain_ballots dk bp bs) (Hst : forall b, In b bs -> usable_style E im b) (Hvf : votes_fit E (len bs)).
  Notation ss := (seats_at ch n k).
  Notation good_end := (good_end E ch n k m im sp bs).
  Lemma seat_ids : map st_id ss = guardian_ids n.
  Proof. unfold seats_at, guardian_ids. rewrite map_map. reflexivity. Qed.
  Lemma seat_slash s : In s ss -> has_slash (st_id s) = false.
  Proof. intros H. apply in_map_iff in H as (i & <- & _). apply decimal_slash. Qed.
  Lemma seats_distinct : NoDup (map st_id ss).
  Proof using HF Hfit. apply (seats_good E ch HF n k Hfit). Qed.
  Lemma seat_secrets s : In s ss -> 0 <= st_secret s.
  Proof using HF Hfit. intros Hs. apply in_map_iff in Hs as (i & <- & _). unfold st_secret, st_secrets, seat_at. cbn [st_draws]. destruct (seq 0 (Z.to_nat k)) as [|j l]; [cbn; lia|]. cbn. apply (fa_draw E ch HF). Qed.
  Definition the_files (d : e2e_done) : list (content * string * string) :=
    record_files E temp_dir (ee_manifest d) (ee_context d) [ch_device ch] (ee_submitted d) (dvals (rs_spoiled (ee_result d)))
      (rs_ciphertext (ee_result d)) (rs_tally (ee_result d)) (map guardian_publish (ee_guardians d)) (rs_lagrange (ee_result d)).
  Lemma guardian_slash d g : good_end d -> In g (ee_guardians d) -> has_slash (gd_id g) = false.
  Proof.
    intros G Hg. destruct (Forall2_in_r _ _ _ _ (ge_guardians _ _ _ _ _ _ _ _ _ G) Hg) as (s & Hs & (H & _) & _). change (gd_id g) with (pk_owner (share_key g)). rewrite H. apply seat_slash, Hs.
  Qed.
  Lemma record_good d out : good_end d -> print_results m (ee_result d) = Ok out -> (forall b, In b bs -> has_slash (pb_id b) = false) ->
    exists tmp, to_files temp_disk (the_files d) = (tmp, Ok tt) /\
      good_record E m n k [ch_device ch] (cast_of sp bs) (spoiled_of sp bs) out (map guardian_publish (ee_guardians d)) (dk_files tmp).
  Proof using HE HF Hfit Hm.
    intros G Hout Hsl. pose proof (ge_ids _ _ _ _ _ _ _ _ _ G) as Hids. destruct (ge_subs _ _ _ _ _ _ _ _ _ G) as [_ Hsub]. pose proof (ge_guardians _ _ _ _ _ _ _ _ _ G) as HG.
    pose proof (ge_spoiled _ _ _ _ _ _ _ _ _ G) as Hspo. pose proof (ge_states _ _ _ _ _ _ _ _ _ G) as Hsts.
    assert (Hsp : forall q, In q (dvals (rs_spoiled (ee_result d))) -> has_slash (pt_id q) = false).
    { intros q Hi. apply (in_map pt_id) in Hi. rewrite Hspo in Hi. apply in_map_iff in Hi as (b & <- & Hb). apply filter_In in Hb as [Hb _]. apply Hsl, Hb. }
    assert (Hrec : forall r, In r (map guardian_publish (ee_guardians d)) -> has_slash (gr_id r) = false).
    { intros r Hi. apply in_map_iff in Hi as (g & <- & Hg). exact (guardian_slash d g G Hg). }
    assert (Hbal : forall b, In b (ee_submitted d) -> has_slash (sb_id b) = false).
    { intros b Hi. apply (in_map sb_id) in Hi. apply (Permutation_in _ Hsub) in Hi. apply in_map_iff in Hi as (b' & <- & Hb). apply Hsl, Hb. }
    destruct (record_written E (ee_manifest d) (ee_context d) [ch_device ch] (ee_submitted d) (dvals (rs_spoiled (ee_result d))) (rs_ciphertext (ee_result d)) (rs_tally (ee_result d))
      (map guardian_publish (ee_guardians d)) (rs_lagrange (ee_result d)) Hrec Hbal Hsp) as (tmp & Ht & Hfiles).
    - repeat constructor. intros [].
    - rewrite (holder_ids E ss _ HG). apply seats_distinct.
    - apply (Permutation_NoDup (Permutation_sym Hsub)), Hids.
    - rewrite Hspo. apply NoDup_map_filter, Hids.
    - exists tmp. split; [exact Ht|]. exists (ee_context d), (ee_submitted d), (dvals (rs_spoiled (ee_result d))), (rs_ciphertext (ee_result d)), (rs_tally (ee_result d)), (rs_lagrange (ee_result d)).
      rewrite (ge_manifest _ _ _ _ _ _ _ _ _ G) in Hfiles. split; [exact Hfiles|]. destruct (ge_context _ _ _ _ _ _ _ _ _ G) as (C1 & C2 & C3). split; [exact C1|]. split; [exact C2|]. split; [rewrite C3; apply (holder_joint E ss _ HG); apply seat_secrets|].
      split; [rewrite (holder_seats E ss _ HG); unfold seats_at, guardian_seats; rewrite map_map; reflexivity|]. split; [apply Forall_map; exact (ge_published _ _ _ _ _ _ _ _ _ G)|]. split; [|split; [rewrite Hspo; reflexivity|]].
      + set (st := fun i => match sp with Some j => String.eqb i j | None => false end). transitivity (map (fun i => (i, if st i then SPOILED else CAST)) (map sb_id (ee_submitted d))).
        * rewrite map_map. erewrite map_ext_in; [reflexivity|]. intros sb Hi. cbn beta. rewrite (Hsts sb Hi). reflexivity.
        * rewrite (Permutation_map _ Hsub), map_map. rewrite (split_states st bs). reflexivity.
      + destruct (ge_decryption _ _ _ _ _ _ _ _ _ G _ (holder_keys E ss _ seats_distinct HG)) as [K1 K2].
        split; [|split; [exact (ge_aggregation _ _ _ _ _ _ _ _ _ G)|split; [exact K1|split; [exact K2|]]]].
        * intros sb Hi. apply (accepted_verifies E _ m im); [exact Hm|]. pose proof (ge_ballots _ _ _ _ _ _ _ _ _ G) as Hpass. rewrite Forall_forall in Hpass. specialize (Hpass sb Hi). unfold passes in Hpass.
          destruct (ballot_valid_for_election E (sb_ballot sb) im (ee_context d) true) as [[|]|]; [reflexivity|discriminate..].
        * destruct (ge_printed _ _ _ _ _ _ _ _ _ G) as (out' & Ho & _ & Hsh). rewrite Hout in Ho. injection Ho as <-. unfold print_results in Hout.
          destruct (print_tally m (rs_tally (ee_result d))) as [a|]; cbn [rbind] in Hout; [|discriminate]. destruct (rmapM _ (rs_spoiled (ee_result d))) as [b|] eqn:Hb; cbn [rbind] in Hout; [|discriminate]. injection Hout as <-. cbn [po_tally po_spoiled] in *.
          split; [reflexivity|]. split; [|rewrite (holder_seats E ss _ HG); exact (ge_coefficients _ _ _ _ _ _ _ _ _ G)]. apply rmapM_F2 in Hb. assert (Hfst : map fst b = map pt_id (dvals (rs_spoiled (ee_result d)))).
          { rewrite Hspo. clear -Hsh. induction Hsh as [|x e l l' [H _] _ IH]; [reflexivity|]. cbn [map]. rewrite IH, H. reflexivity. }
          clear -Hb Hfst. unfold dvals in *. rewrite map_map in Hfst. induction Hb as [|kv e l l' H Hb IH]; [constructor|]. cbn [map] in *. injection Hfst as F1 F2. constructor; [|apply IH, F2].
          split; [congruence|]. destruct (print_tally m (snd kv)) as [x|]; cbn [rbind] in H; [|discriminate]. injection H as <-. reflexivity.
  Qed.
  (** the command, by what its election did *)
  Notation run := (e2e E ch n k mp bp sp).
  Lemma e2e_cases orec okeys : (exists e, run orec okeys dk = failed dk e) \/
    exists d out, e2e_election E ch n k mp bp sp dk = Ok d /\ manifest_is_valid m = true /\ good_end d /\ print_results m (ee_result d) = Ok out /\ shows_election m im (cast_of sp bs) (spoiled_of sp bs) out /\
      run orec okeys dk = let '(dk1, a) := export_archive dk (the_files d) orec in
        match a with Err e => mkOut dk1 (Some out) (Err e) | Ok _ => let '(dk2, a) := export_keys dk1 okeys (ee_guardians d) in mkOut dk2 (Some out) a end.
  Proof using HE Hh Hq HF Hfit Hm Hdist Hp Hmf Hbs Hst Hvf.
    unfold e2e. destruct (e2e_election E ch n k mp bp sp dk) as [d|e] eqn:He; [|left; eauto].
    destruct (election_sound E HE Hh Hq ch HF n k Hfit m im Hm Hdist mp bp sp dk Hp Hmf bs Hbs Hst Hvf d He) as [Hv G]. pose proof (ge_manifest _ _ _ _ _ _ _ _ _ G) as Hmm. destruct (ge_printed _ _ _ _ _ _ _ _ _ G) as (out & Ho & Hsh).
    right. exists d, out. split; [reflexivity|]. split; [exact Hv|]. split; [exact G|]. split; [exact Ho|]. split; [exact Hsh|]. rewrite Hmm at 1. rewrite Ho. unfold the_files. reflexivity.
  Qed.
  Lemma e2e_printed orec okeys out : oc_printed (run orec okeys dk) = Some out ->
    manifest_is_valid m = true /\ NoDup (map pb_id bs) /\ shows_election m im (cast_of sp bs) (spoiled_of sp bs) out.
  Proof using HE Hh Hq HF Hfit Hm Hdist Hp Hmf Hbs Hst Hvf.
    destruct (e2e_cases orec okeys) as [[e ->]|(d & out' & _ & Hv & G & Ho & Hsh & ->)]; [discriminate|]. intros H. split; [exact Hv|]. split; [exact (ge_ids _ _ _ _ _ _ _ _ _ G)|].
    destruct (export_archive dk _ orec) as [dk1 [u|e]]; [destruct (export_keys dk1 okeys _) as [dk2 a]|]; injection H as <-; exact Hsh.
  Qed.
  Lemma e2e_prints orec okeys : manifest_is_valid m = true -> (exists nm, get_name m = Ok nm) -> NoDup (map pb_id bs) -> (forall i b, In b bs -> can_encrypt E im b (ch_ballot ch i)) ->
    exists out, oc_printed (run orec okeys dk) = Some out /\ shows_election m im (cast_of sp bs) (spoiled_of sp bs) out.
  Proof using HE Hh Hq HF Hfit Hm Hdist Hp Hmf Hbs Hst Hvf.
    intros Hv Hnm Hids Hce. destruct (election_runs E HE Hh Hq ch HF n k Hfit m im Hm Hdist mp bp sp dk Hp Hmf bs Hbs Hst Hvf Hv Hnm Hids Hce) as [d He].
    destruct (e2e_cases orec okeys) as [[e He']|(d' & out & _ & _ & G & Ho & Hsh & ->)].
    - exfalso. destruct (election_sound E HE Hh Hq ch HF n k Hfit m im Hm Hdist mp bp sp dk Hp Hmf bs Hbs Hst Hvf d He) as [_ G]. pose proof (ge_manifest _ _ _ _ _ _ _ _ _ G) as Hmm. destruct (ge_printed _ _ _ _ _ _ _ _ _ G) as (out & Ho & _).
      unfold e2e in He'. rewrite He, Hmm, Ho in He'. destruct (export_archive _ _ _) as [dk1 [u|e1]]; [destruct (export_keys _ _ _) as [dk2 a]|]; discriminate.
    - exists out. split; [|exact Hsh]. destruct (export_archive dk _ orec) as [dk1 [u|e]]; [destruct (export_keys dk1 okeys _) as [dk2 a]|]; reflexivity.
  Qed.
  Lemma archive_slash d orec : good_end d -> (exists b, In b bs /\ has_slash (pb_id b) = true) -> exists e, export_archive dk (the_files d) orec = (dk, Err e).
  Proof.
    intros G (b & Hb & Hs). destruct (ge_subs _ _ _ _ _ _ _ _ _ G) as [_ Hsub]. apply (in_map pb_id) in Hb. apply (Permutation_in _ (Permutation_sym Hsub)) in Hb. apply in_map_iff in Hb as (sb & Hi & Hb).
    unfold export_archive. pose proof (record_slash E (ee_manifest d) (ee_context d) [ch_device ch] (ee_submitted d) (dvals (rs_spoiled (ee_result d))) (rs_ciphertext (ee_result d)) (rs_tally (ee_result d))
      (map guardian_publish (ee_guardians d)) (rs_lagrange (ee_result d)) sb Hb) as H. rewrite Hi in H. specialize (H Hs). unfold the_files. destruct (to_files temp_disk _) as [tmp [[]|e]]; [destruct H; reflexivity|eauto].
  Qed.
  Lemma slash_or : (exists b, In b bs /\ has_slash (pb_id b) = true) \/ forall b, In b bs -> has_slash (pb_id b) = false.
  Proof.
    destruct (existsb (fun b => has_slash (pb_id b)) bs) eqn:H; [left; apply existsb_exists in H; exact H|right]. intros b Hb. destruct (has_slash (pb_id b)) eqn:Hs; [|reflexivity].
    assert (He : existsb (fun b => has_slash (pb_id b)) bs = true) by (apply existsb_exists; eauto). congruence.
  Qed.
  Lemma e2e_slash orec okeys b : In b bs -> has_slash (pb_id b) = true -> oc_end (run orec okeys dk) <> Ok tt /\ oc_disk (run orec okeys dk) = dk.
  Proof using HE Hh Hq HF Hfit Hm Hdist Hp Hmf Hbs Hst Hvf.
    intros Hb Hs. destruct (e2e_cases orec okeys) as [[e ->]|(d & out' & _ & Hv & G & Ho & Hsh & ->)]; [split; [discriminate|reflexivity]|].
    destruct (archive_slash d orec G (ex_intro _ b (conj Hb Hs))) as [e ->]. split; [discriminate|reflexivity].
  Qed.
  (** the archive is written when the record is *)
  Lemma archived d out p : good_end d -> print_results m (ee_result d) = Ok out -> forall dk1 a, export_archive dk (the_files d) (Some p) = (dk1, a) ->
    match a with
    | Err _ => dk1 = dk
    | Ok _ => exists files, good_record E m n k [ch_device ch] (cast_of sp bs) (spoiled_of sp bs) out (map guardian_publish (ee_guardians d)) files /\ dk1 = mkDisk (dk_dirs dk) (dset (zip_of p) (JArchive files) (dk_files dk))
    end.
  Proof using HE HF Hfit Hm.
    intros G Ho dk1 a H. destruct slash_or as [Hs|Hs]; [destruct (archive_slash d (Some p) G Hs) as [e He]; rewrite He in H; injection H as <- <-; reflexivity|].
    destruct (record_good d out G Ho Hs) as (tmp & Ht & Hgood). unfold export_archive in H. rewrite Ht in H. unfold write_path in H. fold (zip_of p) in H. destruct (parent_exists dk (zip_of p) && negb (inb (zip_of p) (dk_dirs dk))); injection H as <- <-; [|reflexivity].
    exists (dk_files tmp). split; [exact Hgood|reflexivity].
  Qed.
  Lemma keys_keep_zip (gs : list guardian) d p dk1 dk2 a : to_files dk1 (key_files d gs) = (dk2, a) -> dget (zip_of p) (dk_files dk2) = dget (zip_of p) (dk_files dk1).
  Proof.
    unfold key_files. revert dk1. induction gs as [|g gs IH]; intros dk1 H; cbn [map to_files] in H; [injection H as <- _; reflexivity|].
    destruct (to_file dk1 _ _ d) as [dk3|] eqn:H3; [|injection H as <- _; reflexivity]. rewrite (IH dk3 H). clear IH H. unfold to_file in H3.
    assert (HK : forall x, write_path x (construct_path ("guardian_" ++ pr_id (export_private_data g)) d) (JPrivate (export_private_data g)) = Ok dk3 -> dget (zip_of p) (dk_files dk3) = dget (zip_of p) (dk_files x)).
    { intros x. unfold write_path. match goal with |- context [if ?b then _ else _] => destruct b end; [|discriminate]. intros [= <-]. cbn [dk_files]. apply dget_dset_other. match goal with |- context [construct_path ?a ?b] => destruct (join_json a b) as [s Hs]; rewrite Hs end. apply zip_json. }
    destruct (_ && _); cbn [rbind] in H3; [exact (HK _ H3)|]. unfold makedirs in H3. destruct (String.eqb d ""); cbn [rbind] in H3; [discriminate|]. exact (HK _ H3).
  Qed.
  Lemma e2e_record orec okeys : oc_end (run orec okeys dk) = Ok tt -> exists p out records files, orec = Some p /\ oc_printed (run orec okeys dk) = Some out /\
    shows_election m im (cast_of sp bs) (spoiled_of sp bs) out /\ dget (zip_of p) (dk_files (oc_disk (run orec okeys dk))) = Some (JArchive files) /\
    good_record E m n k [ch_device ch] (cast_of sp bs) (spoiled_of sp bs) out records files.
  Proof using HE Hh Hq HF Hfit Hm Hdist Hp Hmf Hbs Hst Hvf.
    destruct (e2e_cases orec okeys) as [[e ->]|(d & out & _ & Hv & G & Ho & Hsh & ->)]; [discriminate|].
    destruct orec as [p|]; [|unfold export_archive; destruct (to_files temp_disk _) as [tmp [u|e]]; discriminate].
    destruct (export_archive dk (the_files d) (Some p)) as [dk1 a] eqn:Hx. pose proof (archived d out p G Ho dk1 a Hx) as HA. destruct a as [u|e]; [|discriminate]. destruct HA as (files & Hg & ->).
    destruct (export_keys _ okeys (ee_guardians d)) as [dk2 a] eqn:Hk. cbn [oc_end oc_printed oc_disk]. intros ->. exists p, out, (map guardian_publish (ee_guardians d)), files. split; [reflexivity|]. split; [reflexivity|]. split; [exact Hsh|]. split; [|exact Hg].
    unfold export_keys in Hk. destruct okeys as [kd|]; [rewrite (keys_keep_zip _ _ p _ _ _ Hk)|injection Hk as <-]; apply dget_dset_same.
  Qed.
  Lemma e2e_completes p okeys : manifest_is_valid m = true -> (exists nm, get_name m = Ok nm) -> NoDup (map pb_id bs) -> (forall b, In b bs -> has_slash (pb_id b) = false) ->
    (forall i b, In b bs -> can_encrypt E im b (ch_ballot ch i)) -> parent_exists dk (zip_of p) = true -> ~ In (zip_of p) (dk_dirs dk) ->
    match okeys with None => True | Some d => d <> ""%string /\ ends_slash d = false /\ forall i, In i (guardian_ids n) -> ~ In (d ++ "/guardian_" ++ i ++ ".json")%string (dk_dirs dk) end ->
    exists out records files, let o := run (Some p) okeys dk in
      oc_end o = Ok tt /\ oc_printed o = Some out /\ shows_election m im (cast_of sp bs) (spoiled_of sp bs) out /\
      dget (zip_of p) (dk_files (oc_disk o)) = Some (JArchive files) /\ good_record E m n k [ch_device ch] (cast_of sp bs) (spoiled_of sp bs) out records files /\
      (forall d, okeys = Some d -> good_keys E (oc_disk o) d records) /\
      (forall q, q <> zip_of p -> (forall d i, okeys = Some d -> In i (guardian_ids n) -> q <> (d ++ "/guardian_" ++ i ++ ".json")%string) -> dget q (dk_files (oc_disk o)) = dget q (dk_files dk)).
  Proof using HE Hh Hq HF Hfit Hm Hdist Hp Hmf Hbs Hst Hvf.
    intros Hv Hnm Hids Hsl Hce Hpar Hzd Hkeys.
    destruct (election_runs E HE Hh Hq ch HF n k Hfit m im Hm Hdist mp bp sp dk Hp Hmf bs Hbs Hst Hvf Hv Hnm Hids Hce) as [d He].
    destruct (election_sound E HE Hh Hq ch HF n k Hfit m im Hm Hdist mp bp sp dk Hp Hmf bs Hbs Hst Hvf d He) as [_ G]. pose proof (ge_manifest _ _ _ _ _ _ _ _ _ G) as Hmm. destruct (ge_printed _ _ _ _ _ _ _ _ _ G) as (out & Ho & Hsh).
    destruct (record_good d out G Ho Hsl) as (tmp & Ht & Hgood). exists out, (map guardian_publish (ee_guardians d)), (dk_files tmp). cbv zeta.
    assert (Ho' : print_results (ee_manifest d) (ee_result d) = Ok out) by (rewrite Hmm; exact Ho). unfold e2e. rewrite He, Ho'. fold (the_files d). unfold export_archive. rewrite Ht. unfold write_path. fold (zip_of p).
    assert (Hin : inb (zip_of p) (dk_dirs dk) = false) by (apply inb_false; exact Hzd). rewrite Hpar, Hin. cbn [andb negb].
    pose proof (ge_guardians _ _ _ _ _ _ _ _ _ G) as HG. pose proof (holder_gd E ss _ HG) as Hgd. rewrite seat_ids in Hgd.
    unfold export_keys. destruct okeys as [kd|].
    - destruct Hkeys as (D1 & D2 & D3).
      destruct (keys_written (mkDisk (dk_dirs dk) (dset (zip_of p) (JArchive (dk_files tmp)) (dk_files dk))) kd (ee_guardians d) D1 D2) as (dk2 & K1 & K2 & K3 & _).
      + rewrite Hgd, <- seat_ids. apply seats_distinct.
      + intros g. apply (guardian_slash d g G).
      + intros g Hg. cbn [dk_dirs]. unfold key_path. apply D3. rewrite <- Hgd. apply in_map, Hg.
      + rewrite K1. cbn [oc_end oc_printed oc_disk]. split; [reflexivity|]. split; [reflexivity|]. split; [exact Hsh|]. split; [|split; [exact Hgood|split]].
        * rewrite (keys_keep_zip _ _ p _ _ _ K1). apply dget_dset_same.
        * intros d' [= <-] r Hr. apply in_map_iff in Hr as (g & <- & Hg). exists (export_private_data g). split; [exact (K2 g Hg)|]. split; [reflexivity|]. exact (holder_private E ss _ HG g Hg).
        * intros q Hqz Hqk. rewrite K3; [cbn [dk_files]; apply dget_dset_other; exact Hqz|]. intros g Hg. unfold key_path. apply (Hqk kd _ eq_refl). rewrite <- Hgd. apply in_map, Hg.
    - cbn [oc_end oc_printed oc_disk dk_files]. split; [reflexivity|]. split; [reflexivity|]. split; [exact Hsh|]. split; [apply dget_dset_same|]. split; [exact Hgood|]. split; [discriminate|].
      intros q Hqz _. apply dget_dset_other. exact Hqz.
  Qed.
End Thms.
Lemma e2e_without_record E ch n k mp bp sp okeys dk : oc_end (e2e E ch n k mp bp sp None okeys dk) <> Ok tt /\ oc_disk (e2e E ch n k mp bp sp None okeys dk) = dk.
Proof.
  unfold e2e. destruct (e2e_election _ _ _ _ _ _ _ _) as [d|e]; [|split; [discriminate|reflexivity]]. destruct (print_results _ _) as [out|e]; [|split; [discriminate|reflexivity]].
  unfold export_archive. destruct (to_files temp_disk _) as [tmp [u|e]]; (split; [discriminate|reflexivity]).
Qed.

(** ** too few guardians *)
Lemma dset_len {V} (key : string) (v : V) d : len (dset key v d) <= len d + 1.
Proof. unfold len. induction d as [|[a b] d IH]; cbn [dset length]; [lia|]. match goal with |- context [if ?x then _ else _] => destruct x end; cbn [length]; lia. Qed.
Lemma announced_len E up rnd t bs cx : forall gs md md', rfold (cli_announce E up rnd t bs cx) gs md = Ok md' -> dm_missing md = [] ->
  dm_context md' = dm_context md /\ dm_missing md' = [] /\ len (dm_available md') <= len (dm_available md) + len gs.
Proof.
  induction gs as [|[i g] gs IH]; intros md md' H Hm; cbn [rfold] in H; [injection H as <-; unfold len at 3; cbn; repeat split; [exact Hm|lia]|].
  destruct (cli_announce E up rnd t bs cx md (i, g)) as [m1|] eqn:H1; cbn [rbind] in H; [|discriminate]. unfold cli_announce in H1. destruct (get_optional _) as [sh|]; cbn [rbind] in H1; [|discriminate]. injection H1 as H1.
  assert (K : dm_context m1 = dm_context md /\ dm_missing m1 = [] /\ len (dm_available m1) <= len (dm_available md) + 1).
  { subst m1. unfold dm_announce. destruct (dmem _ _); [repeat split; [exact Hm|lia]|]. cbn [dm_context dm_missing dm_available]. rewrite Hm. repeat split. apply dset_len. }
  destruct K as (K1 & K2 & K3). destruct (IH _ _ H K2) as (I1 & I2 & I3). rewrite I1. split; [exact K1|]. split; [exact I2|]. unfold len in *. cbn [length]. lia.
Qed.
Lemma number_len {A} (l : list A) : len (number l) = len l.
Proof. unfold number, len. rewrite combine_length, seq_length. f_equal. apply Nat.min_id. Qed.
(** every guardian is needed *)
Lemma all_needed E ch t bs gs cx m r : cli_decrypt E ch t bs gs cx m = Ok r -> cx_quorum cx <= len gs /\ cx_guardians cx <= len gs.
Proof.
  unfold cli_decrypt. destruct (rfold _ _ _) as [md|] eqn:H1; cbn [rbind]; [|discriminate]. apply announced_len in H1 as (C & M & L); [|reflexivity]. rewrite number_len in L. cbn [dm_context dm_available new_dmediator] in C, L.
  destruct (lagrange_all _ _); cbn [rbind]; [|discriminate]. unfold dm_plaintext_tally. destruct (announcement_complete md) eqn:Ha; cbn [negb orb rbind get_optional]; [|discriminate]. intros _.
  unfold announcement_complete in Ha. rewrite C, M in Ha. apply andb_prop in Ha as [A1 A2]. apply Z.leb_le in A1. apply Z.eqb_eq in A2. unfold len at 2 in A2. cbn [length] in A2. change (len []) with 0 in L. lia.
Qed.
Lemma created_len E ch n k gs : create_guardians E ch n k = Ok gs -> len gs = Z.max 0 n.
Proof.
  intros H. apply (rmapM_keys _ (fun _ => tt) (fun _ => tt)) in H; [|reflexivity]. apply (f_equal (@length unit)) in H. rewrite !map_length, seq_length in H. unfold len. lia.
Qed.
Lemma ceremony_len E ch gs r : run_key_ceremony E ch gs = Ok r -> len (fst r) = len gs.
Proof.
  unfold run_key_ceremony. destruct gs as [|g gs]; [discriminate|]. destruct (full_ceremony E _ _ _) as [[gs' m']|] eqn:H; cbn [rbind]; [|discriminate]. destruct (get_optional _); cbn [rbind]; [|discriminate]. intros [= <-]. cbn [fst].
  apply ceremony_keys, (f_equal (@length key_pair)) in H. rewrite !map_length in H. unfold len. congruence.
Qed.
Lemma built_quorum E n k m j b : build_election E n k m j = Ok b -> cx_quorum (snd b) = k /\ cx_guardians (snd b) = n.
Proof.
  unfold build_election, builder_build. destruct (make_internal E m); cbn [rbind]; [|discriminate]. destruct (negb _); cbn [rbind get_optional]; [discriminate|]. intros [= <-]. split; reflexivity.
Qed.
Lemma e2e_quorum E ch n k mp bp sp orec okeys dk : n < k -> exists e, e2e E ch n k mp bp sp orec okeys dk = failed dk e.
Proof.
  intros Hnk. unfold e2e. destruct (e2e_election E ch n k mp bp sp dk) as [d|e] eqn:He; [exfalso|eauto]. unfold e2e_election in He.
  destruct (create_guardians E ch n k) as [gs|] eqn:H1; cbn [rbind] in He; [|discriminate]. destruct (get_manifest dk mp) as [m|]; cbn [rbind] in He; [|discriminate]. destruct (get_ballots_at _ _ _ _ _) as [bs|]; cbn [rbind] in He; [|discriminate].
  destruct (run_key_ceremony E ch gs) as [c|] eqn:H2; cbn [rbind] in He; [|discriminate]. destruct (build_election E n k m (snd c)) as [b|] eqn:H3; cbn [rbind] in He; [|discriminate].
  destruct (encrypt_votes _ _ _ _ _); cbn [rbind] in He; [|discriminate]. destruct (cast_and_spoil _ _ _ _); cbn [rbind] in He; [|discriminate]. destruct (cli_tally _ _ _ _ _); cbn [rbind] in He; [|discriminate].
  destruct (cli_decrypt _ _ _ _ _ _ _) eqn:H4; cbn [rbind] in He; [|discriminate]. apply all_needed in H4 as [H4 _]. apply built_quorum in H3 as [H3 _]. assert (Hrun := H2). apply ceremony_len in H2. apply created_len in H1. rewrite H3, H2, H1 in H4.
  destruct (Z.max_spec 0 n) as [[? Hx]|[? Hx]]; rewrite Hx in *; [lia|]. destruct gs as [|g gs]; [discriminate Hrun|unfold len in H1; cbn [length] in H1; lia].
Qed.
