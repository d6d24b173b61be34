(** * Compact: model of ballot_compact.py.  Definitions only. *)
From Verif Require Import Base Group Codec Hash DLog ElGamal ZK Manifest Ballot Encrypt Box.

(** 28-35 CompactPlaintextBallot *)
Record compact_plain := mkCompact { cp_id : string; cp_style : string; cp_selections : list bool; cp_write_ins : dict Z string }.
(** 38-47 CompactSubmittedBallot *)
Record compact_submitted := mkCompactSub {
  cm_plain : compact_plain; cm_timestamp : Z; cm_nonce : Z; cm_code_seed : Z; cm_code : Z; cm_state : box_state }.

(** 126-131 _get_compact_selections *)
Definition compact_selections (b : pt_ballot) : list bool :=
  map (fun s => ps_vote s =? 1) (flat_map pc_selections (pb_contests b)).
(** 134-142 _get_compact_write_ins: the index is increased before it is used; an empty text is not kept *)
Fixpoint collect_write_ins (index : Z) (ss : list pt_selection) (d : dict Z string) : dict Z string :=
  match ss with
  | [] => d
  | s :: ss' =>
    let index := index + 1 in
    collect_write_ins index ss' (match ps_write_in s with
                                 | Some w => if eqb w ""%string then d else dset index w d
                                 | None => d end)
  end.
Definition compact_write_ins (b : pt_ballot) : dict Z string :=
  collect_write_ins 0 (flat_map pc_selections (pb_contests b)) [].
(** 50-57 compress_plaintext_ballot *)
Definition compress_plain (b : pt_ballot) : compact_plain :=
  mkCompact (pb_id b) (pb_style b) (compact_selections b) (compact_write_ins b).
(** 60-74 compress_submitted_ballot *)
Definition compress_submitted (sb : sub_ballot) (b : pt_ballot) (nonce : Z) : compact_submitted :=
  let cb := sb_ballot sb in
  mkCompactSub (compress_plain b) (cb_timestamp cb) nonce (cb_code_seed cb) (cb_code cb) (sb_state sb).

(** 162-172 the loop over the options of a contest; compact_ballot.selections[index] raises IndexError *)
Fixpoint expand_selections (c : compact_plain) (in_style : bool) (index : nat) (os : list selection_desc) : res (list pt_selection) :=
  match os with
  | [] => Ok []
  | o :: os' =>
    do v <- match nth_error (cp_selections c) index with Some v => Ok v | None => Err IndexError end;
    do rest <- expand_selections c in_style (S index) os';
    Ok (mkPsel (sd_id o) (if v : bool then 1 else 0) (negb in_style) (dget (Z.of_nat index) (cp_write_ins c)) :: rest)
  end.
(** 155-175 the loop over the contests of the manifest; [style_ids]: the keys of _get_ballot_style_contests *)
Fixpoint expand_contests (c : compact_plain) (style_ids : list string) (index : nat) (ds : list contest_ph) : res (list pt_contest) :=
  match ds with
  | [] => Ok []
  | d :: ds' =>
    let os := sort_by sd_seq (cd_selections (ph_desc d)) in
    do ss <- expand_selections c (inb (cd_id (ph_desc d)) style_ids) index os;
    do rest <- expand_contests c style_ids (index + length os) ds';
    Ok (mkPcon (cd_id (ph_desc d)) ss :: rest)
  end.
(** 115-123 expand_compact_plaintext_ballot, with 145-175 _get_plaintext_contests and 178-182
    _get_ballot_style_contests *)
Definition expand_plain (c : compact_plain) (im : internal_manifest) : res pt_ballot :=
  do ds <- get_contests_for im (cp_style c);
  do cs <- expand_contests c (map (fun d => cd_id (ph_desc d)) ds) 0 (sort_by (fun d => cd_seq (ph_desc d)) (im_contests im));
  Ok (mkPbal (cp_id c) (cp_style c) cs).
(** 77-112 expand_compact_submitted_ballot; the clock is not read because the timestamp is given
    (a timestamp 0 is not None) *)
Definition expand_submitted (E : env) (c : compact_submitted) (im : internal_manifest) (cx : context) : res sub_ballot :=
  do b <- expand_plain (cm_plain c) im;
  let seed := ballot_nonce_seed E (im_hash im) (cp_id (cm_plain c)) (cm_nonce c) in
  do ds <- get_contests_for im (pb_style b);
  do r <- encrypt_contests E ds (pb_contests b) (cx_key cx) (cx_ext_hash cx) seed false;
  do cs <- get_optional r;
  Ok (make_submitted E (pb_id b) (pb_style b) (im_hash im) (Some (cm_code_seed c)) cs (Some (cm_code c)) (Some (cm_timestamp c)) (cm_state c) 0).
