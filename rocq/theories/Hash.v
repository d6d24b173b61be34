(** * Hash: model of hash.py and nonces.py.  Definitions only. *)
From Verif Require Import Base Group Codec.
From Coq Require Import Decimal DecimalString DecimalZ.

(** Values hash_elems accepts (hash.py:50-58).  [HHash] is an object with crypto_hash(), represented
    by the value crypto_hash() returns. *)
Inductive helem :=
| HElem (z : Z)            (* ElementModP / ElementModQ *)
| HHash (z : Z)            (* CryptoHashable, with its crypto_hash() *)
| HStr (s : string)
| HInt (z : Z)
| HNone
| HList (l : list helem).

(** Python str(int) *)
Definition str_int (z : Z) : string := NilZero.string_of_int (Z.to_int z).

(** hash.py:61-103 hash_elems: the text fed to SHA-256, then the digest modulo q. *)
Fixpoint hash_me (E : env) (x : helem) : string :=
  match x with
  | HElem z => int_to_hex z
  | HHash z => int_to_hex z
  | HStr s => s
  | HInt z => str_int z
  | HNone => "null"
  | HList [] => "null"
  | HList l =>
      int_to_hex (sha E ("|" ++ (fix go (l : list helem) : string :=
         match l with [] => EmptyString | y :: l' => hash_me E y ++ "|" ++ go l' end) l)%string
         mod qq E)
  end.
Definition hash_text (E : env) (l : list helem) : string :=
  ("|" ++ fold_right (fun x acc => (hash_me E x ++ "|" ++ acc)%string) EmptyString l)%string.
Definition hash_elems (E : env) (l : list helem) : Z := sha E (hash_text E l) mod qq E.

(** nonces.py:20-24 Nonces.__init__: the stored seed. *)
Definition mk_nonces (E : env) (seed : Z) (headers : list helem) : Z :=
  match headers with [] => seed | _ => hash_elems E (HElem seed :: headers) end.

(** nonces.py:49-59 get_with_headers *)
Definition nonce_with_headers (E : env) (nseed : Z) (item : Z) (headers : list string) : res Z :=
  if item <? 0 then Err TypeError
  else Ok (hash_elems E (HElem nseed :: HInt item :: map HStr headers)).
(** nonces.py:38-39 __getitem__(int) *)
Definition nonce_get (E : env) (nseed : Z) (item : Z) : res Z := nonce_with_headers E nseed item [].
(** the value at a non-negative index, used where the code indexes with a literal *)
Definition nonce_at (E : env) (nseed : Z) (item : Z) : Z := hash_elems E [HElem nseed; HInt item].

(** Python range(start, stop, step) with step <> 0, by fuel (its exact length). *)
Fixpoint range_fuel (fuel : nat) (cur step : Z) : list Z :=
  match fuel with O => [] | S k => cur :: range_fuel k (cur + step) step end.
Definition py_range (start stop step : Z) : list Z :=
  let n := if 0 <? step then (stop - start + step - 1) / step
           else (start - stop - step - 1) / (- step) in
  range_fuel (Z.to_nat n) start step.

(** nonces.py:40-44 __getitem__(slice): [start or 0], int stop required, [step or 1]. *)
Definition nonce_slice (E : env) (nseed : Z) (start : option Z) (stop : option Z) (step : option Z)
  : res (list Z) :=
  match stop with
  | None => Err TypeError
  | Some stop =>
    let st := match start with Some s => s | None => 0 end in
    let sp := match step with Some 0 => 1 | Some s => s | None => 1 end in
    rmapM (nonce_get E nseed) (py_range st stop sp)
  end.
