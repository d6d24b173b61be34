(** * BoxTallyRefuted: concrete executions in which box and tally do not behave as one would wish. *)
From Verif Require Import Base Group Codec Hash DLog ElGamal ZK Manifest Ballot Encrypt Box Tally Spec SpecElection SpecTally Tiny Samples EncryptThms TallyThms TallySamples.
From Coq Require Import List.

Lemma demo_valid_env : valid_env medium. Proof. exact medium_valid. Qed.

(** C22: the stored copy of an accepted ballot fails the checks *)
Lemma stored_copy_invalid : exists E im cx b st, valid_env E /\
  ballot_valid_for_election E b im cx true = Ok true /\
  snd (box_submit E (mkBox im cx ds_new) b st) = Ok (Some (submit_ballot E b st)) /\
  ballot_valid_for_election E (sb_ballot (submit_ballot E b st)) im cx true = Ok false.
Proof.
  exists medium, (demo_im medium), demo_cx, unsorted_ballot, CAST. split; [exact medium_valid|]. split; [exact unsorted_valid|]. split.
  - unfold box_submit, submit_to_box. cbn [bx_manifest bx_context bx_store]. rewrite unsorted_valid.
    change (ds_get ds_new (cb_id unsorted_ballot)) with (@None sub_ballot). cbv iota zeta beta.
    unfold ds_get, ds_set. cbn [snd]. rewrite ListFacts.dget_dset_same. reflexivity.
  - vm_cast_no_check (eq_refl (Ok false : res bool)).
Qed.
(** C27: a ballot that lists a contest twice is valid and counted twice *)
Lemma duplicate_contest_counted_twice : exists E im cx id b o, valid_env E /\
  ballot_valid_for_election E (sb_ballot b) im cx true = Ok true /\ complete im (sb_ballot b) /\
  (forall c, In c (cb_contests (sb_ballot b)) -> exists pf, bc_proof c = Some pf /\ cc_constant pf = 1) /\
  let t := fst (append E all_up (new_tally E id im cx) b true) in
  ty_cast t = [sb_id b] /\ exists c, total_of t "mayor" o = Some c /\ elgamal_decrypt E c 77 = Ok 2.
Proof.
  exists medium, (demo_im medium), demo_cx, "t"%string, twice_cast, "mayor-ann"%string.
  assert (Hv : ballot_valid_for_election medium (sb_ballot twice_cast) (demo_im medium) demo_cx true = Ok true).
  { vm_cast_no_check (eq_refl (Ok true)). }
  split; [exact medium_valid|]. split; [exact Hv|]. split; [exact twice_complete|]. split.
  - intros c Hc. destruct Hc as [<-|[<-|[]]]; eexists; (split; [reflexivity|reflexivity]).
  - cbv zeta. unfold append. cbn [new_tally ty_manifest ty_context]. rewrite Hv. split; [vm_compute; reflexivity|].
    eexists. split; [vm_compute; reflexivity|vm_compute; reflexivity].
Qed.
(** C31: the refused ballot's first contest stays in the totals, and the call can be repeated *)
Lemma refused_ballot_counted : exists E im cx id b, valid_env E /\
  ballot_valid_for_election E (sb_ballot b) im cx true = Ok true /\
  let t0 := new_tally E id im cx in
  let t1 := fst (append E all_up t0 b true) in let t2 := fst (append E all_up t1 b true) in
  snd (append E all_up t0 b true) = Ok false /\ snd (append E all_up t1 b true) = Ok false /\
  ty_cast t2 = [] /\
  exists c1 c2, total_of t1 "mayor" "mayor-ann" = Some c1 /\ elgamal_decrypt E c1 77 = Ok 1 /\
                total_of t2 "mayor" "mayor-ann" = Some c2 /\ elgamal_decrypt E c2 77 = Ok 2.
Proof.
  exists medium, (demo_im medium), demo_cx, "t"%string, rogue_cast.
  assert (Hv : ballot_valid_for_election medium (sb_ballot rogue_cast) (demo_im medium) demo_cx true = Ok true).
  { vm_cast_no_check (eq_refl (Ok true)). }
  split; [exact medium_valid|]. split; [exact Hv|].
  assert (Ha : forall t, ty_manifest t = demo_im medium -> ty_context t = demo_cx -> ty_cast t = [] -> ty_spoiled t = [] ->
    append medium all_up t rogue_cast true = add_cast medium all_up t rogue_cast).
  { intros t H1 H2 H3 H4. unfold append, tally_contains. rewrite H1, H2, H3, H4, Hv. reflexivity. }
  cbv zeta. rewrite (Ha (new_tally _ _ _ _)) by reflexivity.
  rewrite (Ha (fst (add_cast _ _ _ _))) by (vm_compute; reflexivity).
  split; [vm_compute; reflexivity|]. split; [vm_compute; reflexivity|]. split; [vm_compute; reflexivity|].
  do 2 eexists. split; [vm_compute; reflexivity|]. split; [vm_compute; reflexivity|]. split; [vm_compute; reflexivity|vm_compute; reflexivity].
Qed.
(** C46: a pool that fails is not noticed: the ballot is reported as counted but no vote is added *)
Lemma failed_pool_unnoticed : exists E im cx id b up, valid_env E /\ complete im (sb_ballot b) /\
  let t0 := new_tally E id im cx in
  snd (append E up t0 b false) = Ok true /\ ty_cast (fst (append E up t0 b false)) = [sb_id b] /\
  ty_contests (fst (append E up t0 b false)) = ty_contests t0 /\
  exists c, total_of (fst (append E all_up t0 b false)) "mayor" "mayor-ann" = Some c /\ elgamal_decrypt E c 77 = Ok 1.
Proof.
  exists medium, (demo_im medium), demo_cx, "t"%string, ann_cast, (fun _ => false).
  split; [exact medium_valid|]. split; [apply completeb_ok; vm_compute; reflexivity|].
  cbv zeta. split; [vm_compute; reflexivity|]. split; [vm_compute; reflexivity|]. split; [vm_compute; reflexivity|].
  eexists. split; [vm_compute; reflexivity|vm_compute; reflexivity].
Qed.
(** C30: a second batch counts the same ballots again, where append refuses them *)
Lemma batch_counts_again : exists E im cx id b, valid_env E /\ complete im (sb_ballot b) /\ own_ids im (sb_ballot b) /\
  let t := fst (append E all_up (new_tally E id im cx) b false) in
  snd (append E all_up t b false) = Ok false /\ snd (batch_append E true false t [b] false) = Ok true /\
  exists c, total_of (fst (batch_append E true false t [b] false)) "mayor" "mayor-ann" = Some c /\ elgamal_decrypt E c 77 = Ok 2.
Proof.
  exists medium, (demo_im medium), demo_cx, "t"%string, ann_cast. split; [exact medium_valid|].
  split; [apply completeb_ok; vm_compute; reflexivity|]. split.
  - split.
    + vm_compute. repeat constructor; cbn; intuition discriminate.
    + intros c s d o Hc Hs Hd Ho Hid. destruct Hc as [<-|[]].
      rewrite <- demo_imv_eq in Hd. destruct Hd as [<-|[<-|[]]]; [reflexivity|exfalso].
      destruct Ho as [<-|[<-|[<-|[]]]]; destruct Hs as [<-|[<-|[<-|[]]]]; discriminate Hid.
  - cbv zeta. split; [vm_compute; reflexivity|]. split; [vm_compute; reflexivity|]. eexists. split; [vm_compute; reflexivity|vm_compute; reflexivity].
Qed.
(** ... and a CAST ballot that fails the checks is recorded as cast without being counted *)
Lemma batch_marks_invalid : exists E im cx id b, valid_env E /\
  ballot_valid_for_election E (sb_ballot b) im cx true = Ok false /\ sb_state b = CAST /\
  snd (batch_append E true false (new_tally E id im cx) [b] true) = Ok true /\
  ty_cast (fst (batch_append E true false (new_tally E id im cx) [b] true)) = [sb_id b] /\
  snd (append E all_up (new_tally E id im cx) b true) = Ok false.
Proof.
  exists medium, (demo_im medium), demo_cx, "t"%string, (mkSub (mkCbal "bad" "county-only" 0 0 [] 0 0 0 None) CAST).
  split; [exact medium_valid|]. split; [vm_compute; reflexivity|]. split; [reflexivity|].
  split; [vm_compute; reflexivity|]. split; [vm_compute; reflexivity|vm_compute; reflexivity].
Qed.
(** ... and a one-shot iterator leaves the ids of the counted ballots unrecorded *)
Lemma oneshot_unrecorded : exists E im cx id b, valid_env E /\ complete im (sb_ballot b) /\ sb_state b = CAST /\
  let t := fst (batch_append E true true (new_tally E id im cx) [b] false) in
  ty_cast t = [] /\ exists c, total_of t "mayor" "mayor-ann" = Some c /\ elgamal_decrypt E c 77 = Ok 1.
Proof.
  exists medium, (demo_im medium), demo_cx, "t"%string, ann_cast. split; [exact medium_valid|].
  split; [apply completeb_ok; vm_compute; reflexivity|]. split; [reflexivity|].
  cbv zeta. split; [vm_compute; reflexivity|]. eexists. split; [vm_compute; reflexivity|vm_compute; reflexivity].
Qed.
(** ... and a selection id used in two contests sends each contest's votes to both *)
Definition clash_contest (c : contest_desc) (i : string) (seq : Z) : contest_ph :=
  mkPh (mkContest i seq "county" "one_of_m" 1 (Some 1) i [mkSel "yes" 1 "yes"] None None None) [mkSel (i ++ "-1-placeholder") 2 "x"].
Definition clash_im : internal_manifest :=
  mkInternal [] [clash_contest mayor "first" 1; clash_contest mayor "second" 2] [mkStyle "county-only" (Some ["county"%string]) None None] 5.
Definition clash_sel (i : string) (v r : Z) : ct_selection := mk_sel (mkSel "yes" 1 "yes") i v r false.
Definition clash_ballot : sub_ballot := Eval vm_compute in
  mkSub (mkCbal "c" "county-only" 5 0
    [mkCcon "first" 1 (contest_hash medium (ph_desc (clash_contest mayor "first" 1))) [clash_sel "yes" 1 5; clash_sel "first-1-placeholder" 0 6] (mkCt 1 1) 0 None None None;
     mkCcon "second" 2 (contest_hash medium (ph_desc (clash_contest mayor "second" 2))) [clash_sel "yes" 0 7; clash_sel "second-1-placeholder" 1 8] (mkCt 1 1) 0 None None None] 0 0 0 None) CAST.
Lemma shared_selection_id : exists E im cx id b, valid_env E /\ NoDup (contest_ids im) /\ complete im (sb_ballot b) /\
  passes E im cx b false = true /\
  let t1 := fst (append E all_up (new_tally E id im cx) b false) in
  let t2 := fst (batch_append E true false (new_tally E id im cx) [b] false) in
  (exists c1 c2, total_of t1 "first" "yes" = Some c1 /\ elgamal_decrypt E c1 77 = Ok 1 /\ total_of t1 "second" "yes" = Some c2 /\ elgamal_decrypt E c2 77 = Ok 0) /\
  (exists c1 c2, total_of t2 "first" "yes" = Some c1 /\ elgamal_decrypt E c1 77 = Ok 0 /\ total_of t2 "second" "yes" = Some c2 /\ elgamal_decrypt E c2 77 = Ok 0).
Proof.
  exists medium, clash_im, demo_cx, "t"%string, clash_ballot. split; [exact medium_valid|].
  split; [vm_compute; repeat constructor; cbn; intuition discriminate|]. split; [apply completeb_ok; vm_compute; reflexivity|].
  split; [vm_compute; reflexivity|]. cbv zeta. split.
  - do 2 eexists. split; [vm_compute; reflexivity|]. split; [vm_compute; reflexivity|]. split; [vm_compute; reflexivity|vm_compute; reflexivity].
  - do 2 eexists. split; [vm_compute; reflexivity|]. split; [vm_compute; reflexivity|]. split; [vm_compute; reflexivity|vm_compute; reflexivity].
Qed.
Lemma bob_own_ids : own_ids (demo_im medium) (sb_ballot bob_cast).
Proof.
  split.
  - vm_compute. repeat constructor; cbn; intuition discriminate.
  - intros c s d o Hc Hs Hd Ho Hid. destruct Hc as [<-|[]].
    rewrite <- demo_imv_eq in Hd. destruct Hd as [<-|[<-|[]]]; [reflexivity|exfalso].
    destruct Ho as [<-|[<-|[<-|[]]]]; destruct Hs as [<-|[<-|[<-|[]]]]; discriminate Hid.
Qed.

Lemma ann_own_ids : own_ids (demo_im medium) (sb_ballot ann_cast).
Proof.
  split.
  - vm_compute. repeat constructor; cbn; intuition discriminate.
  - intros c s d o Hc Hs Hd Ho Hid. destruct Hc as [<-|[]].
    rewrite <- demo_imv_eq in Hd. destruct Hd as [<-|[<-|[]]]; [reflexivity|exfalso].
    destruct Ho as [<-|[<-|[<-|[]]]]; destruct Hs as [<-|[<-|[<-|[]]]]; discriminate Hid.
Qed.
Lemma ann_cast_valid : ballot_valid_for_election medium (sb_ballot ann_cast) (demo_im medium) demo_cx true = Ok true.
Proof. vm_cast_no_check (eq_refl (Ok true)). Qed.
