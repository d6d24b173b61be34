(** * FakeBallot: the single ballot that the test tools make at random.
    Models src/electionguard_tools/factories/ballot_factory.py:97-124 get_fake_ballot. *)
From Verif Require Import Base Group Codec Hash Manifest Ballot Encrypt Cli Mark.
From Coq Require Import List.
(** ballot_factory.py:97-124: the first style; [lk] is the luck of the new generator for each contest *)
Definition get_fake_ballot (im : internal_manifest) (ballot_id : option string) (allow_null_votes : bool) (lk : nat -> contest_luck) : res pt_ballot :=
  let bid := match ballot_id with None => "some-unique-ballot-id-123"%string | Some b => b end in
  do s <- match im_styles im with [] => Err IndexError | s :: _ => Ok s end;
  do ds <- get_contests_for im (bs_id s);
  do cs <- rmapM (fun jd => random_contest false allow_null_votes true (lk (fst jd)) (snd jd)) (combine (seq 0 (List.length ds)) ds);
  Ok (mkPbal bid (bs_id s) cs).
