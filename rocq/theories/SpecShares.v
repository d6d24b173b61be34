(** * SpecShares: the plain vocabulary of the decryption share properties. *)
From Verif Require Import Base Group Codec Hash ElGamal ZK Poly Spec Manifest Ballot Box Tally Ceremony SpecCeremony Shares.
From Coq Require Import List.

(** the published key of a seat *)
Definition key_of (E : env) (s : seat) (k : public_key) : Prop :=
  pk_owner k = st_id s /\ pk_seq k = st_seq s /\ pk_key k = gexp E (st_secret s) /\ pk_commitments k = map (gexp E) (st_secrets s).
(** a guardian that holds its own secret and publishes its key *)
Definition holder (E : env) (s : seat) (g : guardian) : Prop := key_of E s (share_key g) /\ ek_secret (gd_keys g) = st_secret s.
(** a guardian that has been through the ceremony with the seats [ss]: it holds its own secret, everybody's
    key, and everybody else's backup, which decrypts to the value of their polynomial at its own order *)
Record ready_guardian (E : env) (ss : list seat) (s : seat) (g : guardian) : Prop := {
  rg_key : key_of E s (share_key g);
  rg_secret : ek_secret (gd_keys g) = st_secret s;
  rg_keys : forall r, In r ss -> exists k, dget (st_id r) (gd_pubkeys g) = Some k /\ key_of E r k;
  rg_backups : forall r, In r ss -> st_id r <> st_id s -> exists b bytes, dget (st_id r) (gd_backups g) = Some b
    /\ hashed_decrypt E (bk_coordinate b) (st_secret s) (get_backup_seed E (st_id s) (st_seq s)) = Ok (Some bytes)
    /\ coordinate_from_bytes E bytes = Ok (poly_at (st_secrets r) (st_seq s) mod qq E) }.

(** what is to be decrypted: contest id, option id, ciphertext *)
Definition option_entry := (string * string * ciphertext)%type.
Definition tally_options (t : tally) : list option_entry :=
  flat_map (fun c => map (fun s => (tc_id c, ts_id s, ts_ct s)) (dvals (tc_selections c))) (dvals (ty_contests t)).
Definition ballot_options (b : ct_ballot) : list option_entry :=
  flat_map (fun c => map (fun s => (bc_id c, cs_id s, cs_ct s)) (bc_selections c)) (cb_contests b).
(** contests have different ids, and so have all options, also those of different contests *)
Definition distinct_options (contests : list string) (l : list option_entry) : Prop :=
  NoDup contests /\ NoDup (map (fun o => snd (fst o)) l).
Definition tally_distinct (t : tally) : Prop := distinct_options (map tc_id (dvals (ty_contests t))) (tally_options t).
Definition ballot_distinct (b : ct_ballot) : Prop := distinct_options (map bc_id (cb_contests b)) (ballot_options b).
(** every entry encrypts the value [M contest option] under [K], and the value can be found again *)
Definition encrypts_all (E : env) (K : Z) (l : list option_entry) (M : string -> string -> Z) : Prop :=
  forall cid oid ct, In (cid, oid, ct) l ->
    (exists r, 0 <= r /\ is_encryption E K r (M cid oid) (ct_pad ct) (ct_data ct)) /\ 0 <= M cid oid < qq E /\ M cid oid <= dmax E.
(** the manifest has this option *)
Definition in_manifest (mf : manifest) (cid oid : string) : Prop :=
  exists d o, In d (mf_contests mf) /\ cd_id d = cid /\ In o (cd_selections d) /\ sd_id o = oid.
(** the decrypted value shown for an option *)
Definition count_of (p : plain_tally) (cid oid : string) : option Z :=
  match dget cid (pt_contests p) with
  | Some c => match dget oid (pn_selections c) with Some s => Some (pl_tally s) | None => None end
  | None => None
  end.
(** the result shows exactly the manifest's options among [l], each with its value *)
Definition shows (p : plain_tally) (mf : manifest) (l : list option_entry) (M : string -> string -> Z) : Prop :=
  forall cid oid v, count_of p cid oid = Some v <->
    (exists ct, In (cid, oid, ct) l) /\ in_manifest mf cid oid /\ v = M cid oid.

(** the mediator shows the tally and every ballot, with these values *)
Definition decrypts (E : env) (m : dmediator) (t : tally) (bs : list sub_ballot) (mf : manifest)
    (M : string -> string -> Z) (MB : string -> string -> string -> Z) : Prop :=
  (exists p, dm_plaintext_tally E m t mf = Ok (Some p) /\ pt_id p = ty_id t /\ shows p mf (tally_options t) M) /\
  (exists ps, dm_plaintext_ballots E m bs mf = Ok (Some ps) /\ dkeys ps = map sb_id bs /\
     forall b, In b bs -> exists p, dget (sb_id b) ps = Some p /\ pt_id p = sb_id b /\ shows p mf (ballot_options (sb_ballot b)) (MB (sb_id b))).

(** what a share says about an option *)
Definition share_value (sh : dec_share) (cid oid : string) : option Z :=
  match dget cid (sh_contests sh) with
  | Some c => match dget oid (dn_selections c) with Some d => Some (dc_share d) | None => None end
  | None => None
  end.
(** the share only the holder of the secret of [s] could have computed: A^secret for every ciphertext (A, B) *)
Definition right_share (E : env) (s : seat) (l : list option_entry) (sh : dec_share) : Prop :=
  sh_guardian sh = st_id s /\ sh_key sh = gexp E (st_secret s) /\
  forall cid oid ct, In (cid, oid, ct) l -> share_value sh cid oid = Some (ct_pad ct ^ st_secret s mod pp E).
(** the mediator has the right share of every seat for the tally and for every ballot *)
Definition has_all_shares (E : env) (ss : list seat) (m : dmediator) (t : tally) (bs : list sub_ballot) : Prop :=
  (forall s, In s ss -> exists sh, dget (st_id s) (dm_tally m) = Some sh /\ right_share E s (tally_options t) sh) /\
  (forall b s, In b bs -> In s ss -> exists shs sh, dget (sb_id b) (dm_ballots m) = Some shs /\ dget (st_id s) shs = Some sh
     /\ right_share E s (ballot_options (sb_ballot b)) sh).

(** a call of the decryption mediator that can change it *)
Inductive dm_call :=
| Present (k : public_key) (share : dec_share) (ballots : option (dict string (option dec_share)))
| Absent (k : public_key) | AbsentAmong (ks : list public_key)
| Compensate (s : comp_share) | CompensateBallots (d : dict string comp_share)
| Rebuild (t : tally) | RebuildBallots (bs : list sub_ballot).
Definition dm_step (E : env) (m : dmediator) (c : dm_call) : dmediator :=
  match c with
  | Present k s b => dm_announce m k s b
  | Absent k => dm_announce_missing m k
  | AbsentAmong ks => fst (dm_validate_missing m ks)
  | Compensate s => dm_receive_tally m s
  | CompensateBallots d => dm_receive_ballots m d
  | Rebuild t => fst (dm_reconstruct_tally E m t)
  | RebuildBallots bs => fst (dm_reconstruct_ballots E m bs)
  end.
Definition dm_run (E : env) (m : dmediator) (h : list dm_call) : dmediator := fold_left (dm_step E) h m.
(** the keys with which guardians announced themselves, and those said to be missing *)
Definition present_keys (h : list dm_call) : list public_key := flat_map (fun c => match c with Present k _ _ => [k] | _ => [] end) h.
Definition absent_keys (h : list dm_call) : list public_key :=
  flat_map (fun c => match c with Absent k => [k] | AbsentAmong ks => ks | _ => [] end) h.
Definition first_key (o : string) (l : list public_key) : option public_key := find (fun k => eqb (pk_owner k) o) l.
(** the guardians that announced themselves, and those called missing that never did *)
Definition present (h : list dm_call) (o : string) : Prop := In o (map pk_owner (present_keys h)).
Definition absent (h : list dm_call) (o : string) : Prop := In o (map pk_owner (absent_keys h)) /\ ~ present h o.
(** the tally share of the first announcement by [o] *)
Definition first_share (o : string) (h : list dm_call) : option dec_share :=
  match find (fun c => match c with Present k _ _ => eqb (pk_owner k) o | _ => false end) h with Some (Present _ s _) => Some s | _ => None end.

(** the entry of a share for an option, and that of a compensated share *)
Definition share_entry (sh : dec_share) (cid oid : string) : option dec_sel :=
  match dget cid (sh_contests sh) with Some c => dget oid (dn_selections c) | None => None end.
Definition comp_entry (sh : comp_share) (cid oid : string) : option comp_sel :=
  match dget cid (csh_contests sh) with Some c => dget oid (co_selections c) | None => None end.
Definition share_entries (sh : dec_share) : list dec_sel := flat_map (fun dn => dvals (dn_selections dn)) (dvals (sh_contests sh)).
(** an option shown by a plaintext *)
Definition shown (p : plain_tally) (cid oid : string) (ps : plain_sel) : Prop :=
  exists pc, dget cid (pt_contests p) = Some pc /\ dget oid (pn_selections pc) = Some ps.
(** both parts of every ciphertext lie in the subgroup *)
Definition subgroup_all (E : env) (l : list option_entry) : Prop := forall cid oid ct, In (cid, oid, ct) l -> in_subgroup E (ct_pad ct) /\ in_subgroup E (ct_data ct).

(** the Lagrange coefficient at zero of the point [x] among [x] and the points [others]: the product of z / (z - x) over the
    other points z, modulo q *)
Definition is_lagrange (E : env) (x : Z) (others : list Z) (w : Z) : Prop :=
  0 <= w < qq E /\ (w * prodZ (map (fun z => z - x) others)) mod qq E = prodZ others mod qq E.
