(** * Box: model of scheduler.py, data_store.py and ballot_box.py.  Definitions only. *)
From Verif Require Import Base Group Codec Hash DLog ElGamal ZK Manifest Ballot.

(** ** scheduler.py *)
(** 80-95 safe_starmap, the part done by the pool: the tasks are run in some order ([order] lists the
    positions of the arguments), each result is stored at its argument's position, and an exception in
    any task makes the whole call raise (multiprocessing.pool.MapResult).  Chunking and the number of
    workers only influence the order. *)
Fixpoint run_tasks {A B} (task : A -> res B) (args : list A) (order : list nat)
    (slots : nat -> option B) : res (nat -> option B) :=
  match order with
  | [] => Ok slots
  | i :: order' =>
    match nth_error args i with
    | None => run_tasks task args order' slots
    | Some a => do r <- task a;
                run_tasks task args order' (fun j => if Nat.eqb j i then Some r else slots j)
    end
  end.
Definition pool_starmap {A B} (task : A -> res B) (args : list A) (order : list nat) : res (list B) :=
  do slots <- run_tasks task args order (fun _ => None);
  Ok (flat_map (fun i => match slots i with Some r => [r] | None => [] end) (seq 0 (length args))).
(** 59-77 schedule, 80-95 safe_starmap: any exception is logged and turned into an empty result list.
    [up] is false when the pool itself raises (for instance because it was closed). *)
Definition schedule_in {A B} (order : list nat) (up : bool) (task : A -> res B) (args : list A) : list B :=
  if up then match pool_starmap task args order with Ok l => l | Err _ => [] end else [].
(** the same with the tasks run from left to right; [schedule_any_order] in BoxFacts shows that the
    order makes no difference *)
Definition schedule {A B} (up : bool) (task : A -> res B) (args : list A) : list B :=
  if up then match rmapM task args with Ok l => l | Err _ => [] end else [].

(** ** data_store.py:19-97 DataStore *)
Section Store.
  Context {K V : Type} `{EqB K}.
  Definition store := dict K V.
  Definition ds_new : store := [].                                             (* 28-29 __init__ *)
  Definition ds_iter (s : store) : list (K * V) := s.                          (* 31-32 __iter__ *)
  Definition ds_all (s : store) : list V := dvals s.                           (* 34-38 all *)
  Definition ds_clear (_ : store) : store := [].                               (* 40-44 clear *)
  Definition ds_get (s : store) (k : K) : option V := dget k s.                (* 46-52 get *)
  Definition ds_items (s : store) : list (K * V) := s.                         (* 54-59 items *)
  Definition ds_keys (s : store) : list K := dkeys s.                          (* 61-66 keys *)
  Definition ds_len (s : store) : Z := len s.                                  (* 68-73 __len__ *)
  Definition ds_pop (s : store) (k : K) : store * option V :=                  (* 75-82 pop *)
    if dmem k s then (dpop k s, dget k s) else (s, None).
  Definition ds_set (s : store) (k : K) (v : V) : store := dset k v s.         (* 84-90 set *)
  Definition ds_values (s : store) : list V := dvals s.                        (* 92-97 values *)

  (** data_store.py:100-120 ReadOnlyDataStore, a collections.abc.Mapping.  The inherited
      Mapping.__contains__ returns True unless __getitem__ raises KeyError, and Mapping.get returns
      its default only in that case; DataStore.get never raises. *)
  Definition ro_getitem (s : store) (k : K) : res (option V) := Ok (ds_get s k).   (* 108-109 *)
  Definition ro_len (s : store) : Z := ds_len s.                                   (* 111-112 *)
  Definition ro_iter (s : store) : list (K * V) := ds_items s.                     (* 114-115 *)
  Definition ro_contains (s : store) (k : K) : res bool :=
    match ro_getitem s k with Ok _ => Ok true | Err KeyError => Ok false | Err e => Err e end.
  Definition ro_get (s : store) (k : K) (default : option V) : res (option V) :=
    match ro_getitem s k with Ok v => Ok v | Err KeyError => Ok default | Err e => Err e end.
  (** 117-120 __eq__ between two read-only stores: calls itself with the same arguments *)
  Fixpoint ro_eq_calls (fuel : nat) (a b : store) : res bool :=
    match fuel with O => Err RecursionError | S n => ro_eq_calls n a b end.
  Definition ro_eq (a b : store) : res bool := ro_eq_calls 1000 a b.
End Store.
Arguments store K V : clear implicits.

(** ** ballot_box.py *)
Definition ballot_store := store string sub_ballot.
(** 91-107 submit_ballot; the clock is not read because the ballot has a timestamp *)
Definition submit_ballot (E : env) (b : ct_ballot) (state : box_state) : sub_ballot :=
  make_submitted E (cb_id b) (cb_style b) (cb_manifest_hash b) (Some (cb_code_seed b)) (cb_contests b)
                 (Some (cb_code b)) (Some (cb_timestamp b)) state 0.
Definition cast_ballot (E : env) (b : ct_ballot) : sub_ballot := submit_ballot E b CAST.       (* 110-118 *)
Definition spoil_ballot (E : env) (b : ct_ballot) : sub_ballot := submit_ballot E b SPOILED.   (* 121-129 *)
(** 47-77 submit_ballot_to_box: the new store and what the call returns or raises *)
Definition submit_to_box (E : env) (b : ct_ballot) (state : box_state) (im : internal_manifest)
    (cx : context) (s : ballot_store) : ballot_store * res (option sub_ballot) :=
  match ballot_valid_for_election E b im cx true with
  | Err e => (s, Err e)
  | Ok false => (s, Ok None)
  | Ok true =>
    match ds_get s (cb_id b) with
    | Some _ => (s, Ok None)
    | None => let sb := submit_ballot E b state in
              let s' := ds_set s (sb_id sb) sb in
              (s', Ok (ds_get s' (sb_id sb)))
    end
  end.
(** 18-44 BallotBox, cast and spoil *)
Record ballot_box := mkBox { bx_manifest : internal_manifest; bx_context : context; bx_store : ballot_store }.
Definition box_submit (E : env) (x : ballot_box) (b : ct_ballot) (state : box_state)
  : ballot_box * res (option sub_ballot) :=
  let '(s, r) := submit_to_box E b state (bx_manifest x) (bx_context x) (bx_store x) in
  (mkBox (bx_manifest x) (bx_context x) s, r).
Definition box_cast (E : env) (x : ballot_box) (b : ct_ballot) := box_submit E x b CAST.
Definition box_spoil (E : env) (x : ballot_box) (b : ct_ballot) := box_submit E x b SPOILED.
(** 80-88 get_ballots *)
Definition get_ballots (s : ballot_store) (state : option box_state) : dict string sub_ballot :=
  dict_of (filter (fun kv => match state with None => true | Some st => box_state_eqb (sb_state (snd kv)) st end)
                  (ds_items s)).
