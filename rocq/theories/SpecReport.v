(** * SpecReport: the plain vocabulary of the pages that show results. *)
From Verif Require Import Base Group Hash ElGamal Manifest Ballot Tally Ceremony Shares SpecShares Report.
From Coq Require Import List QArith Permutation.
Local Open Scope Z_scope.

(** the candidate [c] is behind the option [oid] of the contest [cid] *)
Definition stands_for (m : manifest) (cid oid : string) (c : candidate) : Prop :=
  exists d o, In d (mf_contests m) /\ cd_id d = cid /\ In o (cd_selections d) /\ sd_id o = oid /\ In c (mf_candidates m) /\ ca_id c = sd_candidate_id o.
Definition writes_in (c : candidate) : bool := match ca_is_write_in c with Some true => true | _ => false end.
(** no two options of the manifest have the same id, in the same contest or in different ones *)
Definition own_option_ids (m : manifest) : Prop := NoDup (map sd_id (flat_map cd_selections (mf_contests m))).
(** the candidate of every option is one of the manifest's *)
Definition candidates_listed (m : manifest) : Prop :=
  forall d o, In d (mf_contests m) -> In o (cd_selections d) -> exists c, In c (mf_candidates m) /\ ca_id c = sd_candidate_id o.
(** a decrypted tally or ballot: contests and options of the manifest, with counts that are not negative *)
Definition of_manifest (m : manifest) (p : plain_tally) : Prop :=
  NoDup (map pn_id (dvals (pt_contests p))) /\
  forall c, In c (dvals (pt_contests p)) -> NoDup (map pl_id (dvals (pn_selections c))) /\
    (exists d, In d (mf_contests m) /\ cd_id d = pn_id c) /\
    forall s, In s (dvals (pn_selections c)) -> in_manifest m (pn_id c) (pl_id s) /\ 0 <= pl_tally s.
(** the English name of a candidate (its id if there is none), and the English name of its party *)
Definition english (t : i18n) (name : string) : Prop :=
  exists l l', t = l ++ mkLanguage name "en" :: l' /\ forall x, In x l -> la_language x <> "en"%string.
Definition called (c : candidate) (name : string) : Prop :=
  (english (ca_name c) name /\ name <> ""%string) \/ (name = ca_id c /\ forall n, english (ca_name c) n -> n = ""%string).
Definition member_of (m : manifest) (c : candidate) (name : string) : Prop :=
  match ca_party_id c with
  | None => name = ""%string
  | Some p => exists q, In q (mf_parties m) /\ pa_id q = p /\ (english (pa_name q) name \/ name = ""%string /\ forall n, ~ english (pa_name q) n)
  end.
(** one line shows one option: the candidate, the party, the count, and its part of the total (0 when there are no votes) *)
Definition right_line (m : manifest) (cid : string) (total : Z) (s : plain_sel) (l : rep_line) : Prop :=
  exists c, stands_for m cid (pl_id s) c /\ writes_in c = false /\ called c (rl_name l) /\ member_of m c (rl_party l) /\ rl_tally l = pl_tally s /\
    (0 <= rl_percent l <= 1 /\ rl_percent l * inject_Z total == inject_Z (pl_tally s))%Q /\ (pl_tally s = 0 -> (rl_percent l == 0)%Q).
(** one row shows one contest: the options that are not write-ins line by line, with their total, and the total of the write-ins if there are any *)
Definition right_row (m : manifest) (c : plain_con) (r : rep_row) : Prop :=
  (exists d, In d (mf_contests m) /\ cd_id d = pn_id c /\ rr_name r = cd_name d) /\
  exists named others, Permutation (dvals (pn_selections c)) (named ++ others) /\
    (forall s, In s others -> exists k, stands_for m (pn_id c) (pl_id s) k /\ writes_in k = true) /\
    rr_total r = sumZ (map pl_tally named) /\ Forall2 (right_line m (pn_id c) (rr_total r)) named (rr_lines r) /\
    rr_write_ins r = match others with [] => None | _ => Some (sumZ (map pl_tally others)) end.

(** A page shows the votes [votes] for the options [on] of the contests [ds] of the manifest: one row for each contest, one line
    for each option that is not a write-in, and the sum of the write-ins if there are any. *)
Definition shows_option (m : manifest) (total votes : Z) (o : selection_desc) (l : rep_line) : Prop :=
  exists c, In c (mf_candidates m) /\ ca_id c = sd_candidate_id o /\ writes_in c = false /\ called c (rl_name l) /\ member_of m c (rl_party l) /\ rl_tally l = votes /\
    (0 <= rl_percent l <= 1 /\ rl_percent l * inject_Z total == inject_Z votes)%Q.
Definition shows_contest (m : manifest) (on : string -> string -> Prop) (votes : string -> string -> Z) (d : contest_desc) (r : rep_row) : Prop :=
  rr_name r = cd_name d /\
  exists named others, NoDup (named ++ others) /\ (forall o, In o (named ++ others) <-> In o (cd_selections d) /\ on (cd_id d) (sd_id o)) /\
    (forall o, In o others -> exists c, In c (mf_candidates m) /\ ca_id c = sd_candidate_id o /\ writes_in c = true) /\
    Forall2 (fun o l => shows_option m (rr_total r) (votes (cd_id d) (sd_id o)) o l) named (rr_lines r) /\
    rr_total r = sumZ (map (fun o => votes (cd_id d) (sd_id o)) named) /\
    rr_write_ins r = match others with [] => None | _ => Some (sumZ (map (fun o => votes (cd_id d) (sd_id o)) others)) end.
Definition shows_page (m : manifest) (on : string -> string -> Prop) (votes : string -> string -> Z) (rows : list rep_row) : Prop :=
  exists ds, NoDup ds /\ incl ds (mf_contests m) /\ (forall d o, In d (mf_contests m) -> In o (cd_selections d) -> on (cd_id d) (sd_id o) -> In d ds) /\
    Forall2 (shows_contest m on votes) ds rows.
