(** * DLog: model of discrete_log.py: pure search, and the shared mutable cache. Definitions only. *)
From Verif Require Import Base Group.

(** ** Stateless meaning: search upwards from exponent 0 (what a fresh cache computes,
    discrete_log.py:35-59, 121-149 with cache {1: 0}).  Later modules decrypt through this function;
    DLogFacts.v proves that every reachable cache state answers identically when dmax < q. *)
Fixpoint dlog_search (E : env) (fuel : nat) (e cur x : Z) : res Z :=
  if cur =? x then Ok e
  else match fuel with
       | O => Err DiscreteLogExponentError
       | S k => dlog_search E k (e + 1) (mult_p E [gg E; cur]) x
       end.
Definition dlog (E : env) (x : Z) : res Z := dlog_search E (Z.to_nat (dmax E)) 0 1 x.

(** ** Stateful cache *)
Definition cache := dict Z Z.

(** discrete_log.py:143-149: while element != max_element ... Returns the mutated cache together
    with the outcome; the mutation survives an exception. [fuel] bounds the loop, which stops at
    max_exponent anyway (fuel max_exponent - exponent + 1 is never exhausted, DLogFacts.v). *)
Fixpoint cache_loop (E : env) (fuel : nat) (element max_element exponent maxe : Z) (c : cache)
  : cache * res unit :=
  if element =? max_element then (c, Ok tt)
  else
    let exponent := exponent + 1 in
    if maxe <? exponent then (c, Err DiscreteLogExponentError)
    else match fuel with
         | O => (c, Err RecursionError)       (* out of fuel: shown unreachable *)
         | S k => let max_element := mult_p E [gg E; max_element] in
                  cache_loop E k element max_element exponent maxe (dset max_element exponent c)
         end.

(** list(cache)[-1] *)
Definition last_key (c : cache) : option Z :=
  match rev c with [] => None | (k, _) :: _ => Some k end.

(** discrete_log.py:121-149 compute_discrete_log_cache, for a non-empty cache (the
    [if not cache] branch replaces an empty dict by the module-level one and is not reachable for the
    class-level cache, which always holds 1). *)
Definition compute_cache (E : env) (element : Z) (c : cache) (maxe : Z) : cache * res unit :=
  if dmax E <? maxe then (c, Err DiscreteLogExponentError)
  else match last_key c with
       | None => (c, Err IndexError)
       | Some max_element =>
         match dindex max_element c with
         | Err e => (c, Err e)
         | Ok exponent =>
           if maxe <? exponent then (c, Err DiscreteLogExponentError)
           else cache_loop E (Z.to_nat (maxe - exponent)) element max_element exponent maxe c
         end
       end.

(** discrete_log.py:35-59 compute_discrete_log; the async variant (62-90) takes a lock and repeats
    the membership test, and is atomic between awaits, so it has the same effect. *)
Definition compute_dlog (E : env) (element : Z) (c : cache) (maxe : Z) (lazy : bool)
  : cache * res Z :=
  match dget element c with
  | Some e => (c, Ok e)
  | None =>
    if negb lazy then (c, Err DiscreteLogNotFoundError)
    else match compute_cache E element c maxe with
         | (c', Ok _) => (c', dindex element c')
         | (c', Err e) => (c', Err e)
         end
  end.

(** discrete_log.py:114-116: for exponent in range(prev+1, max+1) *)
Fixpoint fill_loop (E : env) (fuel : nat) (cur exponent : Z) (c : cache) : cache :=
  match fuel with
  | O => c
  | S k => let cur := mult_p E [gg E; cur] in
           fill_loop E k cur (exponent + 1) (dset cur (exponent + 1) c)
  end.
(** discrete_log.py:93-118 precompute_discrete_log_cache with an explicit non-empty cache *)
Definition precompute (E : env) (maxe : Z) (c : cache) : cache * res unit :=
  if dmax E <? maxe then (c, Err DiscreteLogExponentError)
  else match last_key c with
       | None => (c, Err IndexError)
       | Some cur =>
         match dindex cur c with
         | Err e => (c, Err e)
         | Ok prev =>
           if maxe <=? prev then (c, Ok tt)
           else (fill_loop E (Z.to_nat (maxe - prev)) cur prev c, Ok tt)
         end
       end.

(** discrete_log.py:152-194 DiscreteLog: the cache is a class attribute shared by all instances;
    _max_exponent and _lazy_evaluation become instance attributes once set.  singleton.py:16-18 does
    not make DiscreteLog() return a common instance, so instances are numbered by the caller.
    [initial] is the module-level _INITIAL_CACHE (line 16), which precompute_cache_async fills
    instead of the class cache (line 182 passes no cache). *)
Record dl_state := { dl_cache : cache; dl_initial : cache; dl_settings : dict Z (Z * bool) }.
Definition dl_init : dl_state :=
  {| dl_cache := [(1, 0)]; dl_initial := [(1, 0)]; dl_settings := [] |}.
Definition settings_of (E : env) (s : dl_state) (i : Z) : Z * bool :=
  match dget i (dl_settings s) with Some x => x | None => (dmax E, true) end.

Inductive dl_op :=
| DSetMax (inst m : Z)                 (* set_max_exponent *)
| DSetLazy (inst : Z) (b : bool)       (* set_lazy_evaluation *)
| DPrecompute (inst n : Z)             (* precompute_cache *)
| DPrecomputeAsync (inst n : Z)        (* precompute_cache_async *)
| DLookup (inst x : Z).                (* discrete_log / discrete_log_async *)

Definition dl_step (E : env) (s : dl_state) (o : dl_op) : dl_state * res Z :=
  match o with
  | DSetMax i m =>
      let '(_, l) := settings_of E s i in
      ({| dl_cache := dl_cache s; dl_initial := dl_initial s;
          dl_settings := dset i (m, l) (dl_settings s) |}, Ok 0)
  | DSetLazy i b =>
      let '(m, _) := settings_of E s i in
      ({| dl_cache := dl_cache s; dl_initial := dl_initial s;
          dl_settings := dset i (m, b) (dl_settings s) |}, Ok 0)
  | DPrecompute i n =>
      let '(m, _) := settings_of E s i in
      let '(c, r) := precompute E (Z.min n m) (dl_cache s) in
      ({| dl_cache := c; dl_initial := dl_initial s; dl_settings := dl_settings s |}, rmap (fun _ => 0) r)
  | DPrecomputeAsync i n =>
      let '(m, _) := settings_of E s i in
      let '(c, r) := precompute E (Z.min n m) (dl_initial s) in
      ({| dl_cache := dl_cache s; dl_initial := c; dl_settings := dl_settings s |}, rmap (fun _ => 0) r)
  | DLookup i x =>
      let '(m, l) := settings_of E s i in
      let '(c, r) := compute_dlog E x (dl_cache s) m l in
      ({| dl_cache := c; dl_initial := dl_initial s; dl_settings := dl_settings s |}, r)
  end.
Definition dl_run (E : env) (s : dl_state) (ops : list dl_op) : dl_state :=
  fold_left (fun s o => fst (dl_step E s o)) ops s.
