(** * PropsDispute: disputed backups in the key ceremony (C72). *)
From Verif Require Import Base Group Spec Tiny Codec Hash ElGamal ZK Poly Manifest Ballot Encrypt SpecElection EncryptThms Ceremony SpecCeremony CeremonyThms Dispute SpecDispute DisputeThms.
Import List.

(** ** C72: a backup is good exactly if the last word about it says so *)
(** after two honest rounds, whatever is reported about the backups, by whomever and in whatever order, true or not: all reports are in
    exactly if there is a word about every backup, the failed ones are those whose last word is bad, and the joint key is published
    exactly if the last word about every backup is good; if it is published it is the key of the honest ceremony *)
Theorem C72_last_word : forall E rnd k ss mid, valid_env E -> hmac_32 E -> qq E <= 2 ^ 1024 -> good_seats E k ss -> (forall a b, 0 <= rnd a b) ->
  (exists gs m0, two_rounds E rnd k ss mid gs m0) /\
  forall gs m0 h, two_rounds E rnd k ss mid gs m0 -> Forall (late_call (map st_id ss)) h ->
    let m := ceremony_run E m0 h in let st := get_verification_state m in
    (vs_all_sent st = true <-> forall o r, two_of (map st_id ss) o r -> last_word E h o r <> None) /\
    (forall o r, In (o, r) (vs_failed st) <-> vs_all_sent st = true /\ two_of (map st_id ss) o r /\ last_word E h o r = Some false) /\
    NoDup (vs_failed st) /\
    ((forall o r, two_of (map st_id ss) o r -> last_word E h o r = Some true) -> st = mkVstate true true [] /\ md_publish_joint_key E m = Some (honest_key E ss)) /\
    ((exists o r, two_of (map st_id ss) o r /\ last_word E h o r <> Some true) -> vs_all_verified st = false /\ md_publish_joint_key E m = None).
Proof.
  intros E rnd k ss mid HE Hm Hq Hg Hr. split; [eexists _, _; exact (two_rounds_ok E HE Hm Hq rnd Hr k ss Hg mid)|].
  intros gs m0 h H2 Hl. destruct (two_rounds_only E HE Hm Hq rnd Hr k ss Hg mid gs m0 H2) as [_ ->]. exact (dispute_state E HE rnd k ss Hg mid h Hl).
Qed.
Print Assumptions C72_last_word.
(** three guardians; bob first reports alice's backup as bad, and then as good *)
Example C72_last_word_ex : let say o r b := mkVerif o r r b in
  let h := [SendVerifications [say "alice" "bob" false; say "carol" "bob" true]%string; SendVerifications [say "alice" "carol" true; say "bob" "carol" true; say "bob" "alice" true; say "carol" "alice" true]%string] in
  exists gs m0, two_rounds medium (fun _ _ => 3) 2 demo_seats "m" gs m0 /\ Forall (late_call (map st_id demo_seats)) h /\
    get_verification_state (ceremony_run medium m0 h) = mkVstate true false [("alice", "bob")]%string /\
    md_publish_joint_key medium (ceremony_run medium m0 (h ++ [SendVerifications [say "alice" "bob" true]%string])) = Some (honest_key medium demo_seats).
Proof.
  cbv zeta. pose proof (two_rounds_ok medium medium_valid medium_hmac ltac:(vm_compute; discriminate) (fun _ _ => 3) ltac:(intros; lia) 2 demo_seats demo_seats_good "m") as H2.
  eexists _, _. split; [exact H2|].
  assert (HF : forall vs, (forall v, In v vs -> In (vf_owner v) (map st_id demo_seats) /\ In (vf_designated v) (map st_id demo_seats)) -> late_call (map st_id demo_seats) (SendVerifications vs)) by (intros; constructor; assumption).
  match goal with |- ?P /\ _ => assert (HL : P); [repeat (apply Forall_cons || apply Forall_nil); apply HF; intros v Hv; cbn in Hv |- *; intuition (subst; cbn; auto)|] end. split; [exact HL|].
  destruct (C72_last_word medium (fun _ _ => 3) 2 demo_seats "m" medium_valid medium_hmac ltac:(vm_compute; discriminate) demo_seats_good ltac:(intros; lia)) as [_ H].
  split.
  - destruct (H _ _ _ H2 HL) as (D1 & D2 & D3 & _ & D5). match type of D1 with vs_all_sent ?st = true <-> _ => set (s := st) in * end.
    assert (DS : vs_all_sent s = true). { apply D1. apply demo_pairs; vm_compute; discriminate. }
    assert (HW : forall o r, two_of (map st_id demo_seats) o r -> In (o, r) (vs_failed s) -> (o, r) = ("alice", "bob")%string).
    { intros o r HT. pattern o, r. revert o r HT. apply demo_pairs; cbv beta; intros Hin; apply D2 in Hin as (_ & _ & Hw); try reflexivity; vm_compute in Hw; discriminate. }
    assert (Hab : In ("alice", "bob")%string (vs_failed s)) by (apply D2; split; [exact DS|]; split; [repeat split; [cbn; auto|cbn; auto|discriminate]|reflexivity]).
    destruct D5 as [D5 _]; [exists "alice"%string, "bob"%string; split; [repeat split; [cbn; auto|cbn; auto|discriminate]|discriminate]|].
    assert (HW' : forall p, In p (vs_failed s) -> p = ("alice", "bob")%string) by (intros [o r] Hin; apply HW; [apply D2 in Hin; tauto|exact Hin]).
    clearbody s. destruct s as [x y l]. cbn in DS, D5, HW', Hab, D3. subst x y. f_equal. destruct l as [|p1 [|p2 l]]; [destruct Hab|rewrite (HW' p1) by (left; reflexivity); reflexivity|].
    exfalso. apply NoDup_cons_iff in D3 as [N1 _]. apply N1. left. rewrite (HW' p1), (HW' p2); cbn; auto.
  - match goal with |- md_publish_joint_key _ (ceremony_run _ _ ?h') = _ => destruct (H _ _ h' H2) as (_ & _ & _ & D4 & _) end; [apply Forall_app; split; [exact HL|]; repeat (apply Forall_cons || apply Forall_nil); apply HF; intros v Hv; cbn in Hv |- *; intuition (subst; cbn; auto)|].
    apply D4. apply demo_pairs; vm_compute; reflexivity.
Qed.

(** ** C72: a false alarm does not stop the ceremony *)
(** the owner of any backup can answer: the answer is the value of the announced polynomial for the designated guardian, and the mediator
    accepts it *)
Theorem C72_answer : forall E rnd k ss mid gs m0 o r, valid_env E -> hmac_32 E -> qq E <= 2 ^ 1024 -> good_seats E k ss -> (forall a b, 0 <= rnd a b) ->
  two_rounds E rnd k ss mid gs m0 -> two_of (map st_id ss) o r ->
  exists c, answer E gs (o, r) = Ok c /\ ch_owner c = o /\ ch_designated c = r /\
    (forall m, snd (md_verify_challenge E m c) = Ok (mkVerif o r (md_id m) true)) /\ says E (SendChallenge c) = [(o, r, true)] /\
    exists so sr, In so ss /\ In sr ss /\ st_id so = o /\ st_id sr = r /\ ch_commitments c = map (gexp E) (st_secrets so) /\ ch_value c = poly_at (st_secrets so) (st_seq sr) mod qq E.
Proof.
  intros E rnd k ss mid gs m0 o r HE Hm Hq Hg Hr H2 HT. destruct (two_rounds_only E HE Hm Hq rnd Hr k ss Hg mid gs m0 H2) as [-> _]. exact (answered E HE rnd k ss Hg mid o r HT).
Qed.
Print Assumptions C72_answer.
(** when all reports are in, answering some of the failed ones takes exactly these off the list, and answering all of them publishes the key
    of the honest ceremony *)
Theorem C72_resolved : forall E rnd k ss mid gs m0 h l, valid_env E -> hmac_32 E -> qq E <= 2 ^ 1024 -> good_seats E k ss -> (forall a b, 0 <= rnd a b) ->
  two_rounds E rnd k ss mid gs m0 -> Forall (late_call (map st_id ss)) h -> let st := get_verification_state (ceremony_run E m0 h) in vs_all_sent st = true -> incl l (vs_failed st) ->
  exists cs, rmapM (answer E gs) l = Ok cs /\ let m := ceremony_run E m0 (h ++ map SendChallenge cs) in
    vs_all_sent (get_verification_state m) = true /\ (forall p, In p (vs_failed (get_verification_state m)) <-> In p (vs_failed st) /\ ~ In p l) /\
    (incl (vs_failed st) l -> md_publish_joint_key E m = Some (honest_key E ss)).
Proof.
  intros E rnd k ss mid gs m0 h l HE Hm Hq Hg Hr H2 Hl. destruct (two_rounds_only E HE Hm Hq rnd Hr k ss Hg mid gs m0 H2) as [-> ->]. exact (resolved E HE rnd k ss Hg mid h l Hl).
Qed.
Print Assumptions C72_resolved.
Example C72_resolved_ex : let say o r b := mkVerif o r r b in
  let h := [SendVerifications [say "alice" "bob" false; say "carol" "bob" true]%string; SendVerifications [say "alice" "carol" true; say "bob" "carol" true; say "bob" "alice" true; say "carol" "alice" true]%string] in
  exists gs m0 c, two_rounds medium (fun _ _ => 3) 2 demo_seats "m" gs m0 /\ answer medium gs ("alice", "bob")%string = Ok c /\
    md_publish_joint_key medium (ceremony_run medium m0 (h ++ [SendChallenge c])) = Some (honest_key medium demo_seats).
Proof.
  destruct C72_last_word_ex as (gs & m0 & H2 & HL & HS & _).
  destruct (C72_resolved medium (fun _ _ => 3) 2 demo_seats "m" gs m0 _ [("alice", "bob")%string] medium_valid medium_hmac ltac:(vm_compute; discriminate) demo_seats_good ltac:(intros; lia) H2 HL) as (cs & R1 & _ & _ & R3); [rewrite HS; reflexivity|rewrite HS; apply incl_refl|].
  rewrite HS in R3. specialize (R3 (incl_refl _)). cbn [rmapM] in R1. destruct (answer medium gs ("alice", "bob")%string) as [c|] eqn:Hc; cbn [rbind] in R1; [|discriminate]. injection R1 as <-.
  exists gs, m0, c. split; [exact H2|]. split; [exact Hc|]. exact R3.
Qed.
(** the round of the orchestrator in which one check fails: exactly that one is reported, no key is published, and the answer of the first
    guardian gives the key after all *)
Theorem C72_fail_round_3 : forall E rnd k ss mid gs m0 a b rest, valid_env E -> hmac_32 E -> qq E <= 2 ^ 1024 -> good_seats E k ss -> (forall a b, 0 <= rnd a b) ->
  two_rounds E rnd k ss mid gs m0 -> ss = a :: b :: rest ->
  exists m c, fail_round_3 E gs m0 = Ok (m, (st_id a, st_id b)) /\ get_verification_state m = mkVstate true false [(st_id a, st_id b)] /\ md_publish_joint_key E m = None /\
    answer E gs (st_id a, st_id b) = Ok c /\ md_publish_joint_key E (fst (md_verify_challenge E m c)) = Some (honest_key E ss).
Proof.
  intros E rnd k ss mid gs m0 a b rest HE Hm Hq Hg Hr H2. destruct (two_rounds_only E HE Hm Hq rnd Hr k ss Hg mid gs m0 H2) as [-> ->]. exact (one_failed E HE Hm Hq rnd Hr k ss Hg mid a b rest).
Qed.
Print Assumptions C72_fail_round_3.
Example C72_fail_round_3_ex : exists gs m0 m c, two_rounds medium (fun _ _ => 3) 2 demo_seats "m" gs m0 /\ fail_round_3 medium gs m0 = Ok (m, ("alice", "bob")%string) /\
  get_verification_state m = mkVstate true false [("alice", "bob")%string] /\ answer medium gs ("alice", "bob")%string = Ok c /\ ch_value c = (7 + 5 * 2) mod qq medium /\
  md_publish_joint_key medium (fst (md_verify_challenge medium m c)) = Some (honest_key medium demo_seats).
Proof.
  pose proof (two_rounds_ok medium medium_valid medium_hmac ltac:(vm_compute; discriminate) (fun _ _ => 3) ltac:(intros; lia) 2 demo_seats demo_seats_good "m") as H2. eexists _, _.
  destruct (C72_fail_round_3 medium (fun _ _ => 3) 2 demo_seats "m" _ _ _ _ _ medium_valid medium_hmac ltac:(vm_compute; discriminate) demo_seats_good ltac:(intros; lia) H2 eq_refl) as (m & c & F1 & F2 & _ & F4 & F5).
  destruct (C72_answer medium (fun _ _ => 3) 2 demo_seats "m" _ _ "alice" "bob" medium_valid medium_hmac ltac:(vm_compute; discriminate) demo_seats_good ltac:(intros; lia) H2) as (c' & A1 & _ & _ & _ & _ & so & sr & S1 & S2 & S3 & S4 & _ & A3); [repeat split; [cbn; auto|cbn; auto|discriminate]|].
  exists m, c. split; [exact H2|]. split; [exact F1|]. split; [exact F2|]. split; [exact F4|]. split; [|exact F5]. change (st_id (mkSeat "alice" 1 [(7, 2); (5, 3)])) with "alice"%string in F4. change (st_id (mkSeat "bob" 2 [(11, 4); (3, 1)])) with "bob"%string in F4. rewrite F4 in A1. injection A1 as <-. rewrite A3.
  clear - S1 S2 S3 S4. cbn in S1, S2. destruct S1 as [<-|[<-|[<-|[]]]]; try discriminate S3. destruct S2 as [<-|[<-|[<-|[]]]]; try discriminate S4. reflexivity.
Qed.
