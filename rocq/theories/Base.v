(** * Base: exceptions as values, Python dictionaries, small list helpers.

    Everything here models Python built-ins used by /repo/src/electionguard;
    no protocol logic lives in this file. *)
From Coq Require Export String Ascii ZArith Bool Lia List.
Export ListNotations.
Open Scope Z_scope.

(** Python exceptions raised by the modelled functions.
    OverflowError            group.py:28
    ZeroDivisionError        gmpy2.invert / powmod with exponent -1 (group.py:165,172,200)
    AssertionError           group.py:199, elgamal.py:285, chaum_pedersen.py:392, tally.py asserts
    TruncationError          byte_padding.py:15
    DiscreteLog*Error        discrete_log.py:19,28
    TypeError                nonces.py:44,58
    ValueError, KeyError, IndexError, AttributeError : raised by Python itself
    UnwrapNone               utils.py get_optional (assert-style unwrap of Optional)
    StopIteration            next() on an empty iterator
    PyException              [raise Exception(...)]  *)
Inductive exn :=
| OverflowError | ZeroDivisionError | AssertionError | TruncationError
| DiscreteLogExponentError | DiscreteLogNotFoundError
| TypeError | ValueError | KeyError | IndexError | AttributeError | UnwrapNone
| RecursionError | StopIteration | PyException.

(** A call either returns or raises. *)
Inductive res (A : Type) := Ok (a : A) | Err (e : exn).
Arguments Ok {A} a.
Arguments Err {A} e.

Definition rbind {A B} (x : res A) (f : A -> res B) : res B :=
  match x with Ok a => f a | Err e => Err e end.
Notation "'do' x <- e ; f" := (rbind e (fun x => f))
  (at level 60, x pattern, e at level 59, right associativity).
Definition rmap {A B} (f : A -> B) (x : res A) : res B :=
  match x with Ok a => Ok (f a) | Err e => Err e end.

(** utils.py:66-73 get_optional: unwrap or raise. *)
Definition get_optional {A} (o : option A) : res A :=
  match o with Some a => Ok a | None => Err UnwrapNone end.

(** Evaluate a list of calls left to right, stopping at the first exception
    (a Python list comprehension over a raising expression). *)
Fixpoint rmapM {A B} (f : A -> res B) (l : list A) : res (list B) :=
  match l with
  | [] => Ok []
  | x :: l' => do y <- f x; do ys <- rmapM f l'; Ok (y :: ys)
  end.

(** Left fold over raising steps (a Python for-loop over mutable locals). *)
Fixpoint rfold {A S} (f : S -> A -> res S) (l : list A) (s : S) : res S :=
  match l with
  | [] => Ok s
  | x :: l' => do s' <- f s x; rfold f l' s'
  end.

(** ** Decidable equality used for dictionary keys. *)
Class EqB (K : Type) := {
  eqb : K -> K -> bool;
  eqb_spec : forall a b, eqb a b = true <-> a = b
}.
#[export] Instance EqB_string : EqB string := {| eqb := String.eqb; eqb_spec := String.eqb_eq |}.
#[export] Instance EqB_Z : EqB Z := {| eqb := Z.eqb; eqb_spec := Z.eqb_eq |}.
#[export] Program Instance EqB_prod {A B} `{EqB A} `{EqB B} : EqB (A * B) :=
  {| eqb := fun x y => eqb (fst x) (fst y) && eqb (snd x) (snd y) |}.
Next Obligation.
  simpl. rewrite andb_true_iff, !eqb_spec. split; [intros [-> ->]; reflexivity|].
  intros Heq; inversion Heq; auto.
Defined.

(** ** Python dictionaries: insertion-ordered association lists.
    Assignment to an existing key keeps its position; a new key goes last. *)
Section Dict.
  Context {K V : Type} `{EqB K}.
  Definition dict := list (K * V).

  Fixpoint dget (k : K) (d : dict) : option V :=
    match d with
    | [] => None
    | (k', v) :: d' => if eqb k k' then Some v else dget k d'
    end.
  Fixpoint dset (k : K) (v : V) (d : dict) : dict :=
    match d with
    | [] => [(k, v)]
    | (k', v') :: d' => if eqb k k' then (k', v) :: d' else (k', v') :: dset k v d'
    end.
  Fixpoint dpop (k : K) (d : dict) : dict :=
    match d with
    | [] => []
    | (k', v') :: d' => if eqb k k' then d' else (k', v') :: dpop k d'
    end.
  Definition dmem (k : K) (d : dict) : bool :=
    match dget k d with Some _ => true | None => false end.
  Definition dkeys (d : dict) : list K := map fst d.
  Definition dvals (d : dict) : list V := map snd d.
  (** d[k] : KeyError when absent. *)
  Definition dindex (k : K) (d : dict) : res V :=
    match dget k d with Some v => Ok v | None => Err KeyError end.
  (** dict comprehension {k: v for ...}: later entries overwrite earlier ones in place. *)
  Definition dict_of (l : list (K * V)) : dict :=
    fold_left (fun d kv => dset (fst kv) (snd kv) d) l [].
End Dict.
Arguments dict K V : clear implicits.

(** membership test by the key equality ([x in xs]). *)
Fixpoint inb {K} `{EqB K} (k : K) (l : list K) : bool :=
  match l with [] => false | x :: l' => eqb k x || inb k l' end.

(** Python sets: duplicate-free lists up to membership. *)
Definition set_add {K} `{EqB K} (k : K) (s : list K) : list K :=
  if inb k s then s else s ++ [k].
Definition subsetb {K} `{EqB K} (a b : list K) : bool := forallb (fun x => inb x b) a.
Definition set_eqb {K} `{EqB K} (a b : list K) : bool := subsetb a b && subsetb b a.

Fixpoint find_first {A} (f : A -> bool) (l : list A) : option A :=
  match l with [] => None | x :: l' => if f x then Some x else find_first f l' end.

Definition option_eqb {A} (f : A -> A -> bool) (x y : option A) : bool :=
  match x, y with Some a, Some b => f a b | None, None => true | _, _ => false end.
Fixpoint list_eqb {A} (f : A -> A -> bool) (x y : list A) : bool :=
  match x, y with
  | [], [] => true
  | a :: x', b :: y' => f a b && list_eqb f x' y'
  | _, _ => false
  end.

(** election_object_base.py:30-32 sequence_order_sort: a stable sort by an integer key (Python's
    sorted is stable); elements with equal keys keep their order. *)
Fixpoint insert_by {A} (key : A -> Z) (x : A) (l : list A) : list A :=
  match l with
  | [] => [x]
  | y :: l' => if key x <=? key y then x :: y :: l' else y :: insert_by key x l'
  end.
Definition sort_by {A} (key : A -> Z) (l : list A) : list A := fold_right (insert_by key) [] l.

(** the set built by [s = set(); for x in l: s.add(x)] *)
Definition set_of {K} `{EqB K} (l : list K) : list K := fold_left (fun s x => set_add x s) l [].
(** number of list elements, as a Python int *)
Definition len {A} (l : list A) : Z := Z.of_nat (length l).

Definition sumZ (l : list Z) : Z := fold_right Z.add 0 l.
Definition prodZ (l : list Z) : Z := fold_right Z.mul 1 l.
