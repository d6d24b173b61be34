(** * SampleGen: model of the program that makes sample elections (electionguard_tools/scripts/sample_generator.py) and of the count of
    plaintext ballots that the tests compare with (electionguard_tools/helpers/tally_accumulate.py).  Definitions only. *)
From Coq Require Import List.
From Verif Require Import Base Group Codec Hash Manifest Ballot Encrypt Box Tally Ceremony Shares GuiDecrypt GuiElection Cli Mark.
Local Open Scope Z_scope.
Local Open Scope list_scope.

(** ** tally_accumulate.py:5-28 accumulate_plaintext_ballots: the votes of one entry *)
Definition count_entry (tally : dict string Z) (s : pt_selection) : res (dict string Z) :=
  if ps_placeholder s then Err AssertionError
  else let t := if dmem (ps_id s) tally then tally else dset (ps_id s) 0 tally in
       do n <- match dget (ps_id s) t with Some n => Ok n | None => Err KeyError end;
       Ok (dset (ps_id s) (n + ps_vote s) t).
Definition accumulate (bs : list pt_ballot) : res (dict string Z) :=
  rfold (fun t b => rfold (fun t c => rfold count_entry (pc_selections c) t) (pb_contests b) t) bs [].

(** ** election_factory.py:58-59 *)
Definition sample_guardians : Z := 5.
Definition sample_quorum : Z := 3.
(** sample_generator.py:106-112, each ballot is spoiled or cast; draw number [i] is for ballot number [i] *)
Fixpoint spoil_or_cast (E : env) (rate : Z) (draw : nat -> Z) (i : nat) (x : ballot_box) (ebs : list ct_ballot) : res (ballot_box * list sub_ballot) :=
  match ebs with
  | [] => Ok (x, [])
  | b :: ebs' =>
    do d <- randint 0 100 (draw i);
    let '(x', r) := box_submit E x b (if d <? rate then SPOILED else CAST) in
    do o <- r; do sb <- get_optional o;
    do y <- spoil_or_cast E rate draw (S i) x' ebs'; Ok (fst y, sb :: snd y)
  end.
(** what is written to the election record, and the private data; the files themselves are left out (export_record is in Cli.v) *)
Record sample := mkSample { sm_manifest : manifest; sm_context : context; sm_guardians : list guardian; sm_plain : list pt_ballot; sm_cipher : list ct_ballot;
  sm_submitted : list sub_ballot; sm_ciphertext : tally; sm_tally : plain_tally; sm_spoiled : list plain_tally; sm_lagrange : dict string Z }.
(** election_factory.py:115-157 get_sample_manifest_with_encryption_context, after the manifest is read *)
Definition sample_election (E : env) (ch : chance) (m : manifest) : res (list guardian * (internal_manifest * context)) :=
  do gs <- create_guardians E ch sample_guardians sample_quorum;
  do c <- full_ceremony E (ch_backup ch) gs (Ceremony.new_mediator "key-ceremony-mediator" (mkDetails sample_guardians sample_quorum));
  do j <- get_optional (md_publish_joint_key E (snd c));
  do b <- build_election E sample_guardians sample_quorum m j; Ok (fst c, b).
(** sample_generator.py:62-195 generate; [None] when the tally was not decrypted and nothing is exported *)
Definition generate (E : env) (ch : chance) (lk : luck) (draw : nat -> Z) (m : manifest) (n rate : Z) (all : bool) : res (option sample) :=
  do e <- sample_election E ch m;
  let '(gs, (im, cx)) := e in
  do bs <- fake_ballots im n None false true lk;
  do ebs <- encrypt_votes E ch bs im cx;
  do y <- spoil_or_cast E rate draw 0 (mkBox im cx ds_new) ebs;
  let store := bx_store (fst y) in
  let spoiled := dvals (get_ballots store (Some SPOILED)) in
  do o <- tally_ballots E (ch_up ch []) store im cx; do t <- get_optional o;
  let mediator := new_dmediator "sample-manifest-decrypter" cx in
  do md <- (if all then decryption_setup E (ch_up ch) (ch_share ch) gs mediator cx t spoiled
            else compensated_setup E (ch_up ch) (ch_share ch) (firstn (Z.to_nat sample_quorum) gs) (map share_key gs) mediator cx t spoiled);
  do p <- dm_plaintext_tally E md t m;
  do o <- dm_plaintext_ballots E md spoiled m; do ps <- get_optional o;
  match p with
  | None => Ok None
  | Some p => do l <- lagrange_all E (dvals (dm_available md)); Ok (Some (mkSample m cx gs bs ebs (snd y) t p (dvals ps) l))
  end.
