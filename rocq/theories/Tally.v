(** * Tally: model of the ciphertext side of tally.py.  Definitions only.

    A method that mutates an object returns the new object together with what it returns or raises,
    so that the state left behind by a failing call is visible. *)
From Verif Require Import Base Group Codec Hash DLog ElGamal ZK Manifest Ballot Box.

(** 41-70 CiphertextTallySelection *)
Record tally_selection := mkTsel { ts_id : string; ts_seq : Z; ts_hash : Z; ts_ct : ciphertext }.
Definition ts_with (t : tally_selection) (c : ciphertext) : tally_selection :=
  mkTsel (ts_id t) (ts_seq t) (ts_hash t) c.
(** 62-70 elgamal_accumulate *)
Definition elgamal_accumulate (E : env) (t : tally_selection) (c : ciphertext) : res ciphertext :=
  elgamal_add E [ts_ct t; c].
(** 82-97 CiphertextTallyContest *)
Record tally_contest := mkTcon {
  tc_id : string; tc_seq : Z; tc_hash : Z; tc_selections : dict string tally_selection }.
(** 149-168 _accumulate_selections, run in another process: only its result is used *)
Definition accumulate_task (E : env) (arg : string * tally_selection * list ct_selection)
  : res (string * option ciphertext) :=
  let '(key, t, sels) := arg in
  match find_first (fun s => eqb key (cs_id s)) sels with
  | None => Ok (key, None)
  | Some s => do c <- elgamal_accumulate E t (cs_ct s); Ok (key, Some c)
  end.
(** 142-147 the loop over the results *)
Fixpoint store_results (rs : list (string * option ciphertext)) (ss : dict string tally_selection)
  : dict string tally_selection * res bool :=
  match rs with
  | [] => (ss, Ok true)
  | (key, None) :: _ => (ss, Ok false)
  | (key, Some c) :: rs' =>
    match dget key ss with
    | None => (ss, Err KeyError)
    | Some t => store_results rs' (dset key (ts_with t c) ss)
    end
  end.
(** 99-147 accumulate_contest.  any(set) is about truth values, so an empty-string id does not count. *)
Definition accumulate_contest (E : env) (up : bool) (tc : tally_contest) (sels : list ct_selection)
  : tally_contest * res bool :=
  match sels with
  | [] => (tc, Ok false)
  | _ =>
    let selection_ids := set_of (map cs_id (filter (fun s => negb (cs_placeholder s)) sels)) in
    if existsb (fun k => negb (eqb k EmptyString))
               (filter (fun k => negb (inb k selection_ids)) (dkeys (tc_selections tc)))
    then (tc, Ok false)
    else
      let results := schedule up (accumulate_task E)
                       (map (fun kv => (fst kv, snd kv, sels)) (tc_selections tc)) in
      let '(ss, r) := store_results results (tc_selections tc) in
      (mkTcon (tc_id tc) (tc_seq tc) (tc_hash tc) ss, r)
  end.

(** 189-211 CiphertextTally *)
Record tally := mkTally {
  ty_id : string; ty_manifest : internal_manifest; ty_context : context;
  ty_cast : list string; ty_spoiled : list string; ty_contests : dict string tally_contest }.
(** 362-388 _build_tally_collection *)
Definition build_selections (E : env) (os : list selection_desc) : dict string tally_selection :=
  dict_of (map (fun o => (sd_id o, mkTsel (sd_id o) (sd_seq o) (selection_desc_hash E o) (mkCt 1 1))) os).
Definition build_collection (E : env) (im : internal_manifest) : dict string tally_contest :=
  dict_of (map (fun d => (cd_id (ph_desc d),
                          mkTcon (cd_id (ph_desc d)) (cd_seq (ph_desc d)) (contest_hash E (ph_desc d))
                                 (build_selections E (cd_selections (ph_desc d)))))
               (im_contests im)).
Definition new_tally (E : env) (id : string) (im : internal_manifest) (cx : context) : tally :=
  mkTally id im cx [] [] (build_collection E im).
Definition with_contests (t : tally) (cs : dict string tally_contest) : tally :=
  mkTally (ty_id t) (ty_manifest t) (ty_context t) (ty_cast t) (ty_spoiled t) cs.
Definition with_cast (t : tally) (i : string) : tally :=
  mkTally (ty_id t) (ty_manifest t) (ty_context t) (set_add i (ty_cast t)) (ty_spoiled t) (ty_contests t).
(** 353-360 _add_spoiled *)
Definition add_spoiled (t : tally) (b : sub_ballot) : tally :=
  mkTally (ty_id t) (ty_manifest t) (ty_context t) (ty_cast t) (set_add (sb_id b) (ty_spoiled t)) (ty_contests t).
(** 213-214 __len__, 304-314 cast, spoiled *)
Definition tally_len (t : tally) : Z := len (ty_cast t) + len (ty_spoiled t).
Definition tally_cast (t : tally) : Z := len (ty_cast t).
Definition tally_spoiled (t : tally) : Z := len (ty_spoiled t).
(** 216-226 __contains__ for a submitted ballot *)
Definition tally_contains (t : tally) (b : sub_ballot) : bool :=
  inb (sb_id b) (ty_cast t) || inb (sb_id b) (ty_spoiled t).

(** 328-351 _add_cast, the loop over the contests; [up i] tells whether the pool works for the i-th
    contest of the ballot *)
Fixpoint add_contests (E : env) (up : nat -> bool) (i : nat) (cs : list ct_contest)
    (d : dict string tally_contest) : dict string tally_contest * res bool :=
  match cs with
  | [] => (d, Ok true)
  | c :: cs' =>
    match dget (bc_id c) d with
    | None => (d, Ok false)
    | Some tc =>
      let '(tc', r) := accumulate_contest E (up i) tc (bc_selections c) in
      let d' := dset (bc_id c) tc' d in
      match r with
      | Ok true => add_contests E up (S i) cs' d'
      | _ => (d', r)
      end
    end
  end.
Definition add_cast (E : env) (up : nat -> bool) (t : tally) (b : sub_ballot) : tally * res bool :=
  let '(d, r) := add_contests E up 0 (cb_contests (sb_ballot b)) (ty_contests t) in
  match r with
  | Ok true => (with_cast (with_contests t d) (sb_id b), Ok true)
  | _ => (with_contests t d, r)
  end.
(** 228-257 append *)
Definition append (E : env) (up : nat -> bool) (t : tally) (b : sub_ballot) (should_validate : bool)
  : tally * res bool :=
  if box_state_eqb (sb_state b) UNKNOWN then (t, Ok false)
  else if tally_contains t b then (t, Ok false)
  else match ballot_valid_for_election E (sb_ballot b) (ty_manifest t) (ty_context t) should_validate with
       | Err e => (t, Err e)
       | Ok false => (t, Ok false)
       | Ok true =>
         match sb_state b with
         | CAST => add_cast E up t b
         | SPOILED => (add_spoiled t b, Ok true)
         | UNKNOWN => (t, Ok false)
         end
       end.

(** 271-289 the collection loop of batch_append.  [self.__contains__(ballot)] is given the (key, value)
    pair, which is not a SubmittedBallot, so it is always False. *)
Definition collect_one (ballot_id : string) (acc : dict string (dict string ciphertext)) (s : ct_selection)
  : dict string (dict string ciphertext) :=
  match dget (cs_id s) acc with
  | Some m => dset (cs_id s) (dset ballot_id (cs_ct s) m) acc
  | None => dset (cs_id s) [(ballot_id, cs_ct s)] acc     (* a fresh {} with the one entry *)
  end.
Definition collect_selections (b : sub_ballot) (acc : dict string (dict string ciphertext))
  : dict string (dict string ciphertext) :=
  fold_left (collect_one (sb_id b)) (flat_map bc_selections (cb_contests (sb_ballot b))) acc.
Fixpoint batch_collect (E : env) (validate : bool) (bs : list sub_ballot) (t : tally)
    (acc : dict string (dict string ciphertext)) : tally * res (dict string (dict string ciphertext)) :=
  match bs with
  | [] => (t, Ok acc)
  | b :: bs' =>
    match ballot_valid_for_election E (sb_ballot b) (ty_manifest t) (ty_context t) validate with
    | Err e => (t, Err e)
    | Ok false => batch_collect E validate bs' t acc
    | Ok true =>
      match sb_state b with
      | CAST => batch_collect E validate bs' t (collect_selections b acc)
      | SPOILED => batch_collect E validate bs' (add_spoiled t b) acc
      | UNKNOWN => batch_collect E validate bs' t acc
      end
    end
  end.
(** 319-326 _accumulate *)
Definition accumulate_ids (E : env) (arg : string * dict string ciphertext) : res (string * ciphertext) :=
  do c <- elgamal_add E (dvals (snd arg)); Ok (fst arg, c).
(** 390-421 _execute_accumulate; adding two ciphertexts never raises *)
Definition execute_accumulate (E : env) (up : bool) (acc : dict string (dict string ciphertext))
    (d : dict string tally_contest) : dict string tally_contest :=
  let result_dict := dict_of (schedule up (accumulate_ids E) acc) in
  map (fun '(k, tc) =>
         (k, mkTcon (tc_id tc) (tc_seq tc) (tc_hash tc)
               (map (fun '(s, t) => (s, match dget s result_dict with
                                        | Some c => ts_with t (ct_mul E (ts_ct t) c)
                                        | None => t end)) (tc_selections tc)))) d.
(** 259-302 batch_append of the second components of the items.  The items are iterated twice; a
    one-shot iterator ([oneshot]) is exhausted the second time. *)
Definition batch_append (E : env) (up : bool) (oneshot : bool) (t : tally) (bs : list sub_ballot)
    (should_validate : bool) : tally * res bool :=
  let '(t1, r) := batch_collect E should_validate bs t [] in
  match r with
  | Err e => (t1, Err e)
  | Ok acc =>
    let t2 := with_contests t1 (execute_accumulate E up acc (ty_contests t1)) in
    (fold_left (fun t b => if box_state_eqb (sb_state b) CAST then with_cast t (sb_id b) else t)
               (if oneshot then [] else bs) t2, Ok true)
  end.

(** 424-441 tally_ballot *)
Definition tally_ballot (E : env) (up : nat -> bool) (b : sub_ballot) (t : tally) : tally * res (option tally) :=
  if box_state_eqb (sb_state b) UNKNOWN then (t, Ok None)
  else let '(t', r) := append E up t b true in
       (t', do ok <- r; Ok (if ok : bool then Some t' else None)).
(** 444-459 tally_ballots *)
Definition tally_ballots (E : env) (up : bool) (s : ballot_store) (im : internal_manifest) (cx : context)
  : res (option tally) :=
  let '(t, r) := batch_append E up false (new_tally E "election-results" im cx) (map snd (ds_iter s)) true in
  do ok <- r; Ok (if ok : bool then Some t else None).
