(** * SpecTally: the vocabulary of the ballot box and tally properties, over the plain data records. *)
From Verif Require Import Base Group Hash ElGamal ZK Manifest Ballot Box Tally Spec.
From Coq Require Import List.

(** the ciphertexts a ballot carries for an option of a contest: one for each of its contests with that
    id, namely that of the first selection with the option's id *)
Definition votes_for (b : ct_ballot) (cid oid : string) : list ciphertext :=
  flat_map (fun c => if String.eqb (bc_id c) cid
                     then match find (fun s => String.eqb oid (cs_id s)) (bc_selections c) with
                          | Some s => [cs_ct s] | None => [] end
                     else []) (cb_contests b).
(** the same for a list of contests *)
Definition votes_of (cs : list ct_contest) (cid oid : string) : list ciphertext :=
  flat_map (fun c => if String.eqb (bc_id c) cid
                     then match find (fun s => String.eqb oid (cs_id s)) (bc_selections c) with
                          | Some s => [cs_ct s] | None => [] end
                     else []) cs.
(** the elements of a list at the positions (counted from i) where [up] holds *)
Fixpoint kept {A} (up : nat -> bool) (i : nat) (l : list A) : list A :=
  match l with [] => [] | x :: l' => if up i then x :: kept up (S i) l' else kept up (S i) l' end.
(** componentwise product modulo p *)
Definition product (E : env) (cts : list ciphertext) : ciphertext :=
  mkCt (prodZ (map ct_pad cts) mod pp E) (prodZ (map ct_data cts) mod pp E).
(** what a tally holds for an option *)
Definition total_of (t : tally) (cid oid : string) : option ciphertext :=
  match dget cid (ty_contests t) with
  | Some tc => match dget oid (tc_selections tc) with Some ts => Some (ts_ct ts) | None => None end
  | None => None
  end.
(** a ballot passes the election's checks *)
Definition passes (E : env) (im : internal_manifest) (cx : context) (b : sub_ballot) (validate : bool) : bool :=
  match ballot_valid_for_election E (sb_ballot b) im cx validate with Ok true => true | _ => false end.
(** the ballots of a history of append calls that must be counted: those with a known state that pass
    the checks and whose id was not accepted before *)
Fixpoint accepted (ok : sub_ballot -> bool -> bool) (seen : list string) (h : list (sub_ballot * bool)) : list sub_ballot :=
  match h with
  | [] => []
  | (b, v) :: h' =>
    if negb (box_state_eqb (sb_state b) UNKNOWN) && negb (inb (sb_id b) seen) && ok b v
    then b :: accepted ok (sb_id b :: seen) h'
    else accepted ok seen h'
  end.
(** the answers those calls must give *)
Fixpoint answers (ok : sub_ballot -> bool -> bool) (seen : list string) (h : list (sub_ballot * bool)) : list bool :=
  match h with
  | [] => []
  | (b, v) :: h' =>
    if negb (box_state_eqb (sb_state b) UNKNOWN) && negb (inb (sb_id b) seen) && ok b v
    then true :: answers ok (sb_id b :: seen) h'
    else false :: answers ok seen h'
  end.
Definition said_yes (r : res bool) : bool := match r with Ok true => true | _ => false end.
Definition in_state (st : box_state) (bs : list sub_ballot) : list sub_ballot :=
  filter (fun b => box_state_eqb (sb_state b) st) bs.
(** every contest on the ballot belongs to the manifest and has an entry for each of its options *)
Definition complete (im : internal_manifest) (b : ct_ballot) : Prop :=
  forall c, In c (cb_contests b) -> exists d, In d (im_contests im) /\ cd_id (ph_desc d) = bc_id c /\
    bc_selections c <> [] /\
    forall o, In o (cd_selections (ph_desc d)) ->
      exists s, In s (bc_selections c) /\ cs_id s = sd_id o /\ cs_placeholder s = false.
(** a history of append calls, with the answers *)
Definition run_appends (E : env) (up : nat -> bool) (t : tally) (h : list (sub_ballot * bool))
  : tally * list (res bool) :=
  fold_left (fun '(t, rs) '(b, v) => let '(t', r) := append E up t b v in (t', rs ++ [r])) h (t, []).
(** always-working pools *)
Definition all_up : nat -> bool := fun _ => true.
(** every selection id occurs once on the ballot, and an id that names an option of the manifest occurs
    only in that option's contest *)
Definition own_ids (im : internal_manifest) (b : ct_ballot) : Prop :=
  NoDup (map cs_id (flat_map bc_selections (cb_contests b))) /\
  forall c s d o, In c (cb_contests b) -> In s (bc_selections c) -> In d (im_contests im) ->
    In o (cd_selections (ph_desc d)) -> cs_id s = sd_id o -> bc_id c = cd_id (ph_desc d).
(** a history of append calls in which any pool may fail at any time *)
Definition run_any (E : env) (t : tally) (h : list ((nat -> bool) * sub_ballot * bool)) : tally * list (res bool) :=
  fold_left (fun '(t, rs) '(up, b, v) => let '(t', r) := append E up t b v in (t', rs ++ [r])) h (t, []).
(** ** stores *)
(** calls that change a store, and the value a key has after a history of them (latest call first) *)
Inductive store_op (K V : Type) := OSet (k : K) (v : V) | OPop (k : K) | OClear.
Arguments OSet {K V} k v. Arguments OPop {K V} k. Arguments OClear {K V}.
Definition store_step {K V} `{EqB K} (s : store K V) (o : store_op K V) : store K V :=
  match o with OSet k v => ds_set s k v | OPop k => fst (ds_pop s k) | OClear => ds_clear s end.
Fixpoint latest {K V} `{EqB K} (rev_history : list (store_op K V)) (k : K) : option V :=
  match rev_history with
  | [] => None
  | OSet k' v :: h => if eqb k k' then Some v else latest h k
  | OPop k' :: h => if eqb k k' then None else latest h k
  | OClear :: _ => None
  end.
(** ** ballot boxes *)
(** the election's checks say yes *)
Definition valid_for (E : env) (im : internal_manifest) (cx : context) (b : ct_ballot) : bool :=
  match ballot_valid_for_election E b im cx true with Ok true => true | _ => false end.
(** a history of cast and spoil calls, with the answers *)
Definition run_box (E : env) (x : ballot_box) (h : list (ct_ballot * box_state)) : ballot_box * list (res (option sub_ballot)) :=
  fold_left (fun '(x, rs) '(b, st) => let '(x', r) := box_submit E x b st in (x', rs ++ [r])) h (x, []).
(** what a box must answer: the first valid ballot for each id is taken, all else is refused *)
Fixpoint box_answers (E : env) (valid : ct_ballot -> bool) (seen : list string) (h : list (ct_ballot * box_state)) : list (option sub_ballot) :=
  match h with
  | [] => []
  | (b, st) :: h' =>
    if valid b && negb (inb (cb_id b) seen)
    then Some (submit_ballot E b st) :: box_answers E valid (cb_id b :: seen) h'
    else None :: box_answers E valid seen h'
  end.
Definition answer_of (r : res (option sub_ballot)) : option sub_ballot := match r with Ok (Some b) => Some b | _ => None end.
Definition somes {A} (l : list (option A)) : list A := flat_map (fun x => match x with Some a => [a] | None => [] end) l.
(** a submitted ballot keeps no secret *)
Definition no_nonces (b : ct_ballot) : Prop :=
  cb_nonce b = None /\ forall c, In c (cb_contests b) -> bc_nonce c = None /\ forall s, In s (bc_selections c) -> cs_nonce s = None.
(** all selection ids of the manifest, placeholders included, are different *)
Definition distinct_option_ids (im : internal_manifest) : Prop :=
  NoDup (map sd_id (flat_map (fun d => cd_selections (ph_desc d) ++ ph_placeholders d) (im_contests im))).
