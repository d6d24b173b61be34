(** * Tiny: concrete environments used in the non-vacuity examples, and primality by computation. *)
From Verif Require Import Base Group Spec.
From Coq Require Import Znumtheory.

Fixpoint no_divisor (fuel : nat) (d n : Z) : bool :=
  match fuel with
  | O => false
  | S k => if n <? d * d then true else negb (n mod d =? 0) && no_divisor k (d + 1) n
  end.
Definition primeb (n : Z) : bool := (1 <? n) && no_divisor (Z.to_nat (Z.sqrt n + 1)) 2 n.

Lemma no_divisor_spec fuel : forall d n, 2 <= d -> no_divisor fuel d n = true ->
  forall x, d <= x -> x * x <= n -> ~ (x | n).
Proof.
  induction fuel as [|k IH]; intros d n Hd; cbn [no_divisor]; [discriminate|].
  destruct (Z.ltb_spec n (d * d)) as [Hlt|Hge].
  - intros _ x Hx Hxx. nia.
  - rewrite andb_true_iff, negb_true_iff, Z.eqb_neq. intros [Hm Hrest] x Hx Hxx.
    destruct (Z.eq_dec x d) as [->|]; [intros Hdiv; apply Hm, Zdivide_mod, Hdiv|].
    apply (IH (d + 1) n); try lia; assumption.
Qed.

Lemma primeb_prime n : primeb n = true -> prime n.
Proof.
  unfold primeb. rewrite andb_true_iff, Z.ltb_lt. intros [H1 H2].
  pose proof (no_divisor_spec _ 2 n ltac:(lia) H2) as H.
  destruct (prime_dec n) as [|Hnp]; [assumption|exfalso].
  destruct (not_prime_divide n H1 Hnp) as [x [[Hx1 Hx2] Hdiv]].
  destruct (Z_le_gt_dec (x * x) n) as [Hle|Hgt].
  - apply (H x); try lia; assumption.
  - destruct Hdiv as [y Hy]. assert (1 < y) by nia. assert (y * y <= n) by nia.
    apply (H y); try lia. exists x. lia.
Qed.

(** a toy "SHA-256": polynomial hash of the text; any function would do *)
Definition toy_sha (s : string) : Z :=
  fold_left (fun acc c => (acc * 31 + Z.of_N (N_of_ascii c) + 7) mod 1000003) (list_ascii_of_string s) 17.
Definition toy_hmac (k m : list Z) : list Z :=
  let h := fold_left (fun acc b => (acc * 31 + b + 7) mod 1000003) (k ++ m) 17 in
  map (fun i => (h / (i + 1)) mod 256) (map Z.of_nat (seq 0 32)).

(** a toy JSON string literal (no escaping) and a parser that rejects everything unexpected *)
Definition toy_jstr (s : string) : string := (String (ascii_of_nat 34) s ++ String (ascii_of_nat 34) "")%string.
Definition toy_jcoord (bs : list Z) : res string := Err ValueError.

(** EXTRA_SMALL_TEST_CONSTANTS (constants.py:51) *)
Definition tiny : env := mkEnv 157 13 16 toy_sha toy_hmac 12 toy_jstr toy_jcoord.
(** the same group with another hash function *)
Definition tiny' : env := mkEnv 157 13 16 (fun s => toy_sha (String "x" s) + 5) toy_hmac 12 toy_jstr toy_jcoord.
Lemma tiny_valid : valid_env tiny.
Proof.
  constructor; cbn.
  - apply primeb_prime; reflexivity.
  - apply primeb_prime; reflexivity.
  - exists 12; reflexivity.
  - lia.
  - reflexivity.
Qed.

(** MEDIUM_TEST_CONSTANTS (constants.py:53): room for larger tallies *)
Definition medium : env := mkEnv 65267 32633 3 toy_sha toy_hmac 1000 toy_jstr toy_jcoord.
Lemma medium_valid : valid_env medium.
Proof.
  constructor; cbn [pp qq gg medium].
  - apply primeb_prime; vm_compute; reflexivity.
  - apply primeb_prime; vm_compute; reflexivity.
  - exists 2; reflexivity.
  - lia.
  - rewrite <- Zpow_facts.Zpow_mod_correct by lia. vm_compute; reflexivity.
Qed.
