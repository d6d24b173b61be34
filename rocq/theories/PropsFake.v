(** * PropsFake: the single ballot that the test tools make at random (C63). *)
From Coq Require Import Permutation List Lia.
From Verif Require Import Base Group Codec Hash ElGamal Spec Tiny Manifest Ballot Encrypt SpecElection Samples TallySamples Cli CliThms Mark SpecMark MarkFacts MarkSamples FakeBallot.
Local Open Scope Z_scope.
Local Open Scope list_scope.

(** A single ballot made at random has the id that was asked for, the first style of the manifest and an entry for each contest of that
    style, in order.  Each contest is filled in within the rules, with at most as many marks as seats, and with at least one unless
    empty contests were allowed. *)
Theorem C63_fake_ballot : forall im id allow_null lk b, (forall j, shuffles (lk j)) -> get_fake_ballot im id allow_null lk = Ok b ->
  pb_id b = match id with Some i => i | None => "some-unique-ballot-id-123"%string end /\
  option_map bs_id (hd_error (im_styles im)) = Some (pb_style b) /\
  exists ds, get_contests_for im (pb_style b) = Ok ds /\
    Forall2 (fun d c => filled_in d c /\ (if allow_null then 0 else 1) <= SpecElection.marked c <= cd_number_elected (ph_desc d)) ds (pb_contests b).
Proof.
  intros im id an lk b HL H. unfold get_fake_ballot in H. destruct (im_styles im) as [|s ss]; [discriminate|]. cbn [rbind] in H.
  destruct (get_contests_for im (bs_id s)) as [ds|] eqn:Hd; [|discriminate]. cbn [rbind] in H. match type of H with rbind ?e _ = _ => destruct e as [cs|] eqn:Hc; [|discriminate] end. cbn [rbind] in H.
  injection H as <-. cbn [pb_id pb_style pb_contests hd_error option_map]. split; [destruct id; reflexivity|]. split; [reflexivity|]. exists ds. split; [exact Hd|].
  apply rmapM_F2 in Hc. revert Hc. generalize 0%nat. clear Hd. revert cs. induction ds as [|d ds IH]; intros cs k Hc; cbn [List.length seq combine] in Hc; inversion Hc as [|a c la lc H1 H2]; subst; [constructor|].
  constructor; [|exact (IH _ _ H2)]. cbn [fst snd] in H1. destruct (random_contest_marks _ _ _ _ _ (HL k) H1) as (_ & Hf & H3 & _ & H4 & _). split; [exact Hf|]. destruct an; [exact H3|]. specialize (H4 eq_refl eq_refl). lia.
Qed.
Print Assumptions C63_fake_ballot.
Example C63_fake_ballot_ex : exists b, get_fake_ballot demo_imv None false (fun _ => mkCluck (@rev selection_desc) 4 (fun _ => true) (@rev pt_selection)) = Ok b /\
  pb_style b = "full"%string /\ map SpecElection.marked (pb_contests b) = [1; 1].
Proof. eexists. split; [vm_compute; reflexivity|]. split; reflexivity. Qed.
