(** * SpecElection: the vocabulary of the election-level property theorems, in terms of the plain data
    records only. *)
From Verif Require Import Base Group Hash ElGamal ZK Manifest Ballot Encrypt Spec.
From Coq Require Import Sorted List.

(** a contest description is internally consistent *)
Record good_contest (c : contest_desc) : Prop := {
  gc_seats : cd_number_elected c <= len (cd_selections c);
  gc_votes : forall va, cd_votes_allowed c = Some va -> cd_number_elected c <= va;
  gc_candidates : NoDup (map sd_candidate_id (cd_selections c));
  gc_ids : NoDup (map sd_id (cd_selections c));
  gc_seqs : NoDup (map sd_seq (cd_selections c));
  gc_variation : In (cd_vote_variation c)
    ["one_of_m"; "approval"; "majority"; "n_of_m"; "plurality"; "super_majority"]%string }.

(** what the voter marked, in plain arithmetic *)
Definition marked (c : pt_contest) : Z := len (filter (fun s => 0 <? ps_vote s) (pc_selections c)).
Definition votes_given (c : pt_contest) : Z := sumZ (map ps_vote (pc_selections c)).

(** the description matches: right contest, no more marks than options, known options only *)
Definition matches (c : pt_contest) (d : contest_ph) : Prop :=
  pc_id c = cd_id (ph_desc d) /\ len (pc_selections c) <= len (cd_selections (ph_desc d)) /\
  good_contest (ph_desc d) /\ len (ph_placeholders d) = cd_number_elected (ph_desc d) /\
  (forall s, In s (pc_selections c) -> In (ps_id s) (map sd_id (cd_selections (ph_desc d)))).

(** the two texts whose hashes make up the extended base hash Q' *)
Definition context_texts (E : env) (n k ch mh : Z) : list string :=
  [hash_text E [HElem (pp E); HElem (qq E); HElem (gg E); HInt n; HInt k; HElem mh];
   hash_text E [HElem (hash_elems E [HElem (pp E); HElem (qq E); HElem (gg E); HInt n; HInt k; HElem mh]); HElem ch]].

(** [s] is an encryption, under the key K, of the value v for the option o *)
Definition encrypts_option (E : env) (K : Z) (placeholder : bool) (o : selection_desc) (v : Z) (s : ct_selection) : Prop :=
  cs_id s = sd_id o /\ cs_seq s = sd_seq o /\ cs_desc_hash s = selection_desc_hash E o /\
  cs_placeholder s = placeholder /\
  exists r, cs_nonce s = Some r /\ 0 < r < qq E /\ is_encryption E K r v (ct_pad (cs_ct s)) (ct_data (cs_ct s)).

(** the voter marked too much: more options than seats, or all seats with more votes than allowed *)
Definition overvoted (c : pt_contest) (d : contest_ph) : bool :=
  (cd_number_elected (ph_desc d) <? marked c)
  || (marked c =? cd_number_elected (ph_desc d))
     && match cd_votes_allowed (ph_desc d) with Some va => va <? votes_given c | None => false end.
(** what the voter wrote for an option: the first entry with its id, otherwise 0 *)
Definition voter_choice (c : pt_contest) (o : selection_desc) : Z :=
  match find (fun s => String.eqb (ps_id s) (sd_id o)) (pc_selections c) with
  | Some s => ps_vote s | None => 0 end.
(** what should be recorded for it *)
Definition recorded_vote (c : pt_contest) (d : contest_ph) (o : selection_desc) : Z :=
  if (1 <=? marked c) && overvoted c d then 0 else voter_choice c o.
(** n ones followed by zeroes, of the length of the list *)
Fixpoint fill {A} (n : Z) (l : list A) : list Z :=
  match l with [] => [] | _ :: l' => (if 0 <? n then 1 else 0) :: fill (n - 1) l' end.
(** none of the values derived for the options of a contest from the seed is the (negligible) value 0 *)
Definition usable_nonces (E : env) (d : contest_ph) (seed : Z) : Prop :=
  let cn := nonce_at E (mk_nonces E (contest_hash E (ph_desc d)) [HElem seed]) (cd_seq (ph_desc d)) in
  forall o, In o (cd_selections (ph_desc d) ++ ph_placeholders d) ->
    let n := mk_nonces E (selection_desc_hash E o) [HElem cn] in
    nonce_at E n (sd_seq o) <> 0 /\
    nonce_at E (mk_nonces E (nonce_at E n 0) [HStr "disjoint-chaum-pedersen-proof"]) 0 <> 0.
(** all sequence orders of a contest are usable as indices *)
Definition seqs_nonneg (d : contest_ph) : Prop :=
  0 <= cd_seq (ph_desc d) /\ forall o, In o (cd_selections (ph_desc d) ++ ph_placeholders d) -> 0 <= sd_seq o.
(** the limit of a contest is small enough for its proof *)
Definition limit_fits (E : env) (L : Z) : Prop := L < qq E /\ L < 1000000000 /\ qq E * L <= pp E.
(** the voter's entry for a contest, or a blank one *)
Definition voter_contest (b : pt_ballot) (d : contest_ph) : pt_contest :=
  match find (fun c => String.eqb (pc_id c) (cd_id (ph_desc d))) (pb_contests b) with
  | Some c => c
  | None => mkPcon (cd_id (ph_desc d)) (map (fun s => mkPsel (sd_id s) 0 false None) (cd_selections (ph_desc d)))
  end.

(** HMAC-SHA256 gives 32 bytes. *)
Definition hmac_32 (E : env) : Prop :=
  forall k m, List.length (hmac256 E k m) = 32%nat /\ Forall (fun b => 0 <= b < 256) (hmac256 E k m).

(** a list of contests is in ballot order *)
Definition in_order (ds : list contest_ph) : Prop :=
  StronglySorted (fun a b => cd_seq (ph_desc a) <= cd_seq (ph_desc b)) ds.

(** a chain of ballot codes: each ballot takes the previous code as its seed, and its code is the hash
    of that seed, its timestamp and its own hash *)
Fixpoint chained (E : env) (seed : Z) (bs : list ct_ballot) (final : Z) : Prop :=
  match bs with
  | [] => final = seed
  | b :: bs' => cb_code_seed b = seed /\
      cb_code b = hash_elems E [HElem seed; HInt (cb_timestamp b); HElem (cb_hash b)] /\
      chained E (cb_code b) bs' final
  end.
(** the code reached from a seed by a history of (timestamp, ballot hash) pairs, and the texts hashed *)
Fixpoint chain_code (E : env) (seed : Z) (l : list (Z * Z)) : Z :=
  match l with
  | [] => seed
  | (t, h) :: l' => chain_code E (hash_elems E [HElem seed; HInt t; HElem h]) l'
  end.
Fixpoint chain_texts (E : env) (seed : Z) (l : list (Z * Z)) : list string :=
  match l with
  | [] => []
  | (t, h) :: l' => hash_text E [HElem seed; HInt t; HElem h]
                    :: chain_texts E (hash_elems E [HElem seed; HInt t; HElem h]) l'
  end.

(** the text hashed to give a device's hash *)
Definition device_text (E : env) (d : device) : string :=
  hash_text E [HInt (dv_id d); HInt (dv_session d); HInt (dv_launch d); HStr (dv_location d)].

(** the same ciphertext with two accepted proofs that start from the same commitments and answer
    different challenges (a rewound prover) *)
Definition forked_selection (s s' : ct_selection) : Prop :=
  cs_ct s = cs_ct s' /\
  exists a0 b0 a1 b1 c0 c1 c v0 v1 c0' c1' c' v0' v1',
    cs_proof s = Some (mkDisj a0 b0 a1 b1 c0 c1 c v0 v1) /\
    cs_proof s' = Some (mkDisj a0 b0 a1 b1 c0' c1' c' v0' v1') /\ c <> c'.
Definition forked_contest (L : Z) (x x' : ct_contest) : Prop :=
  Forall2 forked_selection (bc_selections x) (bc_selections x') /\
  exists a b c v c' v', bc_proof x = Some (mkConst a b c v L) /\ bc_proof x' = Some (mkConst a b c' v' L) /\ c <> c'.

(** what decrypting a contest must give: the recorded vote of each option, then (unless they are removed)
    the placeholders, which fill up the seats *)
Definition opened_contest (c : pt_contest) (d : contest_ph) (remove_placeholders : bool) : pt_contest :=
  let recorded := map (recorded_vote c d) (cd_selections (ph_desc d)) in
  mkPcon (cd_id (ph_desc d))
    (map (fun o => mkPsel (sd_id o) (recorded_vote c d o) false None) (cd_selections (ph_desc d)) ++
     if remove_placeholders then []
     else map (fun '(o, v) => mkPsel (sd_id o) v true None)
            (combine (ph_placeholders d) (fill (cd_number_elected (ph_desc d) - sumZ recorded) (ph_placeholders d)))).
Definition opened_ballot (b : pt_ballot) (ds : list contest_ph) (remove_placeholders : bool) : pt_ballot :=
  mkPbal (pb_id b) (pb_style b) (map (fun d => opened_contest (voter_contest b d) d remove_placeholders) ds).
(** all selection ids of a contest, placeholders included, are different *)
Definition distinct_ids (d : contest_ph) : Prop := NoDup (map sd_id (cd_selections (ph_desc d) ++ ph_placeholders d)).
