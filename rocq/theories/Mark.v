(** * Mark: model of the mark-ballots command (electionguard_cli/mark_ballots, cli_steps/mark_ballots_step.py) and of the ballots it
    makes (electionguard_tools/factories/ballot_factory.py).  Definitions only. *)
From Coq Require Import List.
From Verif Require Import Base Group Codec Hash Manifest Ballot Encrypt Cli.
Local Open Scope Z_scope.
Local Open Scope list_scope.

(** random.randint(lo, hi) when the generator draws [r] *)
Definition randint (lo hi r : Z) : res Z := if hi <? lo then Err ValueError else Ok (lo + r mod (hi - lo + 1)).
(** the index at which l[0:c] ends and l[c:] starts *)
Definition slice_at {A} (c : Z) (l : list A) : nat := Z.to_nat (if c <? 0 then len l + c else c).
(** what the generators do for one contest: the order of the options, the draw for the number of marks, whether an unmarked option is
    written down, the order of the entries *)
Record contest_luck := mkCluck { cl_order : list selection_desc -> list selection_desc; cl_cut : Z; cl_false : nat -> bool; cl_mix : list pt_selection -> list pt_selection }.
(** ballot_factory.py:50-94 get_random_contest_from, for a contest of an internal manifest *)
Definition random_contest (unchecked allow_null_votes allow_under_votes : bool) (lk : contest_luck) (d : contest_ph) : res pt_contest :=
  let desc := ph_desc d in
  if negb unchecked && negb (contest_ph_is_valid d) then Err AssertionError
  else
    let shuffled := cl_order lk (cd_selections desc) in
    do cut <- (if allow_null_votes && negb allow_under_votes
               then Ok (if Z.even (cl_cut lk) then 0 else cd_number_elected desc)
               else let m0 := cd_number_elected desc in
                    let m1 := if allow_under_votes then 1 else m0 in
                    let m2 := if allow_null_votes then 0 else m1 in
                    randint m2 (cd_number_elected desc) (cl_cut lk));
    let marks := map (fun s => selection_from s false true) (firstn (slice_at cut shuffled) shuffled) in
    let rest := skipn (slice_at cut shuffled) shuffled in
    let falses := flat_map (fun js => if cl_false lk (fst js) then [selection_from (snd js) false false] else []) (combine (seq 0 (List.length rest)) rest) in
    Ok (mkPcon (cd_id desc) (cl_mix lk (marks ++ falses))).

(** what the generators do for the ballots: the draw for the style, the uuid, and each contest *)
Record luck := mkLuck { lk_style : nat -> Z; lk_uuid : nat -> string; lk_contest : nat -> nat -> contest_luck }.
(** ballot_factory.py:125-167 generate_fake_plaintext_ballots_for_election: ballot number [i] *)
Definition fake_ballot (im : internal_manifest) (style_id : option string) (allow_null_votes allow_under_votes : bool) (lk : luck) (i : nat) : res pt_ballot :=
  do s <- match style_id with
          | Some sid => get_ballot_style im sid
          | None => do x <- randint 0 (len (im_styles im) - 1) (lk_style lk i);
                    match nth_error (im_styles im) (Z.to_nat x) with Some s => Ok s | None => Err IndexError end
          end;
  do ds <- get_contests_for im (bs_id s);
  do cs <- rmapM (fun jd => random_contest false allow_null_votes allow_under_votes (lk_contest lk i (fst jd)) (snd jd)) (combine (seq 0 (List.length ds)) ds);
  Ok (mkPbal ("ballot-" ++ lk_uuid lk i) (bs_id s) cs).
Definition fake_ballots (im : internal_manifest) (n : Z) (style_id : option string) (allow_null_votes allow_under_votes : bool) (lk : luck) : res (list pt_ballot) :=
  rmapM (fake_ballot im style_id allow_null_votes allow_under_votes lk) (seq 0 (Z.to_nat n)).
(** mark_command.py:37-58, mark_ballots_input_retrieval_step.py:15-29, mark_ballots_election_builder_step.py:10-21,
    mark_ballots_step.py:15-33, mark_ballots_publish_step.py:11-22 *)
Definition mark_command (E : env) (lk : luck) (n : Z) (style_id : option string) (manifest_path context_path : string) (out_dir : option string) (dk : disk) : outcome :=
  match (do m <- get_manifest dk manifest_path;
         do cx <- get_context dk context_path;
         do b <- build_with_context E m cx;
         fake_ballots (fst b) n style_id false false lk) with
  | Err e => failed dk e
  | Ok bs =>
    match out_dir with
    | None => mkOut dk None (Ok tt)
    | Some d => let '(dk1, a) := to_files dk (map (fun b => (JPlain b, pb_id b, d)) bs) in mkOut dk1 None a
    end
  end.
