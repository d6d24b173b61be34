(** * DecryptSecrets: model of decrypt_with_secrets.py.  Definitions only. *)
From Verif Require Import Base Group Codec Hash DLog ElGamal ZK Manifest Ballot Encrypt.

(** a loop that appends the results of [f] to a list and gives up at the first None *)
Fixpoint omapM {A B} (f : A -> res (option B)) (l : list A) : res (option (list B)) :=
  match l with
  | [] => Ok (Some [])
  | x :: l' => do o <- f x;
    match o with
    | None => Ok None
    | Some y => do r <- omapM f l'; Ok (option_map (cons y) r)
    end
  end.
(** 44-59 / 106-114: the plaintext selection made from a ciphertext selection and its vote; write-ins are
    not decrypted *)
Definition plain (s : ct_selection) (v : Z) : pt_selection := mkPsel (cs_id s) v (cs_placeholder s) None.
(** 26-59 decrypt_selection_with_secret *)
Definition selection_with_secret (E : env) (s : ct_selection) (d : selection_desc) (K secret Q : Z) (suppress : bool)
  : res (option pt_selection) :=
  if negb suppress && negb (selection_is_valid_encryption E s (selection_desc_hash E d) K Q) then Ok None
  else do v <- elgamal_decrypt E (cs_ct s) secret; Ok (Some (plain s v)).
(** 62-114 decrypt_selection_with_nonce *)
Definition selection_with_nonce (E : env) (s : ct_selection) (d : selection_desc) (K Q : Z) (nonce_seed : option Z) (suppress : bool)
  : res (option pt_selection) :=
  if negb suppress && negb (selection_is_valid_encryption E s (selection_desc_hash E d) K Q) then Ok None
  else
    do nonce <- match nonce_seed with
                | None => Ok (cs_nonce s)
                | Some seed => do n <- nonce_get E (mk_nonces E (selection_desc_hash E d) [HElem seed]) (sd_seq d); Ok (Some n)
                end;
    match nonce with
    | None => Ok None
    | Some n =>
      if match cs_nonce s with Some m => negb (n =? m) | None => false end then Ok None
      else do v <- decrypt_known_nonce E (cs_ct s) K n; Ok (Some (plain s v))
    end.
(** 146-167 / 217-238: the loop over the selections, where get_optional raises for an unknown id, and the
    placeholders are dropped from the result *)
Definition keep (remove_placeholders : bool) (ps : list pt_selection) : list pt_selection :=
  filter (fun p => negb remove_placeholders || negb (ps_placeholder p)) ps.
Definition selections_loop (f : ct_selection -> selection_desc -> res (option pt_selection)) (d : contest_ph)
    (ss : list ct_selection) : res (option (list pt_selection)) :=
  omapM (fun s => do o <- get_optional (selection_for d (cs_id s)); f s o) ss.
(** 117-167 decrypt_contest_with_secret *)
Definition contest_with_secret (E : env) (c : ct_contest) (d : contest_ph) (K secret Q : Z) (suppress remove : bool)
  : res (option pt_contest) :=
  do ok <- (if suppress then Ok true else contest_is_valid_encryption E c (contest_hash E (ph_desc d)) K Q);
  if negb ok then Ok None
  else do r <- selections_loop (fun s o => selection_with_secret E s o K secret Q suppress) d (bc_selections c);
       Ok (option_map (fun ps => mkPcon (bc_id c) (keep remove ps)) r).
(** 170-238 decrypt_contest_with_nonce *)
Definition contest_with_nonce (E : env) (c : ct_contest) (d : contest_ph) (K Q : Z) (nonce_seed : option Z) (suppress remove : bool)
  : res (option pt_contest) :=
  do ok <- (if suppress then Ok true else contest_is_valid_encryption E c (contest_hash E (ph_desc d)) K Q);
  if negb ok then Ok None
  else
    do nonce <- match nonce_seed with
                | None => Ok (bc_nonce c)
                | Some seed => do n <- nonce_get E (mk_nonces E (contest_hash E (ph_desc d)) [HElem seed]) (cd_seq (ph_desc d)); Ok (Some n)
                end;
    match nonce with
    | None => Ok None
    | Some n =>
      if match bc_nonce c with Some m => negb (n =? m) | None => false end then Ok None
      else do r <- selections_loop (fun s o => selection_with_nonce E s o K Q (Some n) suppress) d (bc_selections c);
           Ok (option_map (fun ps => mkPcon (bc_id c) (keep remove ps)) r)
    end.
(** 268-288 / 333-353: the loop over the contests *)
Definition contests_loop (f : ct_contest -> contest_ph -> res (option pt_contest)) (im : internal_manifest)
    (cs : list ct_contest) : res (option (list pt_contest)) :=
  omapM (fun c => do d <- get_optional (contest_for im (bc_id c)); f c d) cs.
(** 241-288 decrypt_ballot_with_secret *)
Definition ballot_with_secret (E : env) (b : ct_ballot) (im : internal_manifest) (Q K secret : Z) (suppress remove : bool)
  : res (option pt_ballot) :=
  do ok <- (if suppress then Ok true else ballot_is_valid_encryption E b (im_hash im) K Q);
  if negb ok then Ok None
  else do r <- contests_loop (fun c d => contest_with_secret E c d K secret Q suppress remove) im (cb_contests b);
       Ok (option_map (mkPbal (cb_id b) (cb_style b)) r).
(** 291-353 decrypt_ballot_with_nonce *)
Definition ballot_with_nonce (E : env) (b : ct_ballot) (im : internal_manifest) (Q K : Z) (nonce : option Z) (suppress remove : bool)
  : res (option pt_ballot) :=
  do ok <- (if suppress then Ok true else ballot_is_valid_encryption E b (im_hash im) K Q);
  if negb ok then Ok None
  else
    match (match nonce with None => hashed_ballot_nonce E b | Some n => Some (ballot_nonce_seed E (im_hash im) (cb_id b) n) end) with
    | None => Ok None
    | Some seed =>
      do r <- contests_loop (fun c d => contest_with_nonce E c d K Q (Some seed) suppress remove) im (cb_contests b);
      Ok (option_map (mkPbal (cb_id b) (cb_style b)) r)
    end.
