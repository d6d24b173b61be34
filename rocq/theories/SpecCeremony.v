(** * SpecCeremony: the plain vocabulary of the key ceremony properties. *)
From Verif Require Import Base Group Codec Hash ElGamal ZK Poly Ceremony.

(** a call of the key ceremony mediator that can change it *)
Inductive ceremony_call :=
| Announce (k : public_key) | SendBackups (bs : list backup) | SendVerifications (vs : list verification)
| SendChallenge (c : challenge) | Restart (d : details).
Definition ceremony_step (E : env) (m : mediator) (c : ceremony_call) : mediator :=
  match c with
  | Announce k => md_announce m k
  | SendBackups bs => receive_backups m bs
  | SendVerifications vs => receive_verifications m vs
  | SendChallenge c => fst (md_verify_challenge E m c)
  | Restart d => md_reset m d
  end.
Definition ceremony_run (E : env) (m : mediator) (h : list ceremony_call) : mediator := fold_left (ceremony_step E) h m.

(** the details in force and the calls made since the last restart *)
Definition since_restart (d : details) (h : list ceremony_call) : details * list ceremony_call :=
  fold_left (fun dc c => match c with Restart d' => (d', []) | _ => (fst dc, snd dc ++ [c]) end) h (d, []).
Definition keys_sent (h : list ceremony_call) : list public_key := flat_map (fun c => match c with Announce k => [k] | _ => [] end) h.
Definition backups_sent (h : list ceremony_call) : list backup := flat_map (fun c => match c with SendBackups bs => bs | _ => [] end) h.
Definition verifications_sent (h : list ceremony_call) : list verification :=
  flat_map (fun c => match c with SendVerifications vs => vs | _ => [] end) h.
Definition challenges_sent (h : list ceremony_call) : list challenge := flat_map (fun c => match c with SendChallenge c => [c] | _ => [] end) h.

(** first occurrences, in order *)
Definition firsts (l : list string) : list string := set_of l.
(** the last element of [l] announced by [o] *)
Definition latest_key (o : string) (l : list public_key) : option public_key := find (fun k => eqb (pk_owner k) o) (rev l).

(** somebody reported a successful check of the backup of [o] for [r]: a verification message, or a
    challenge that checks out *)
Definition reported_good (E : env) (id : string) (h : list ceremony_call) (o r : string) : Prop :=
  (exists v, In v (verifications_sent h) /\ vf_owner v = o /\ vf_designated v = r /\ vf_verified v = true)
  \/ (exists c, In c (challenges_sent h) /\ ch_owner c = o /\ ch_designated c = r
                /\ verify_polynomial_coordinate E (ch_value c) (ch_seq c) (ch_commitments c) = Ok true).
Definition backup_sent (h : list ceremony_call) (o r : string) : Prop :=
  exists b, In b (backups_sent h) /\ bk_owner b = o /\ bk_designated b = r.

(** a guardian fresh from [from_nonce]: id, sequence order and one coefficient per quorum member *)
Record seat := mkSeat { st_id : string; st_seq : Z; st_draws : list (Z * Z) }.
Definition st_secrets (s : seat) : list Z := map fst (st_draws s).
(** the secret key *)
Definition st_secret (s : seat) : Z := match st_secrets s with a :: _ => a | [] => 0 end.

(** ids are non-empty and different, every polynomial has [k] >= 1 coefficients in [0, q), sequence
    orders lie in [0, q) and their powers stay below p (always so for the real parameters with small
    orders) *)
Record good_seats (E : env) (k : nat) (ss : list seat) : Prop := {
  gs_ids : NoDup (map st_id ss);
  gs_nonempty : Forall (fun s => st_id s <> EmptyString) ss;
  gs_k : (0 < k)%nat;
  gs_draws : Forall (fun s => length (st_draws s) = k /\ Forall (fun a => 0 <= a < qq E) (st_secrets s)) ss;
  gs_seq : Forall (fun s => 0 <= st_seq s < qq E /\ forall j, 0 <= j < Z.of_nat k -> st_seq s ^ j < pp E) ss }.

(** a call of a guardian that can change it; [MakeBackups] carries the draw for each receiver *)
Inductive guardian_call :=
| SaveKey (k : public_key) | SaveBackup (b : backup) | SaveVerification (v : verification)
| MakeBackups (rnd : string -> Z) | SetDetails (number quorum : Z).
Definition guardian_step (E : env) (g : guardian) (c : guardian_call) : guardian :=
  match c with
  | SaveKey k => save_guardian_key g k
  | SaveBackup b => gd_save_backup g b
  | SaveVerification v => gd_save_verification g v
  | MakeBackups rnd => fst (gd_generate_backups E rnd g)
  | SetDetails n q => set_ceremony_details g n q
  end.
Definition guardian_run (E : env) (g : guardian) (h : list guardian_call) : guardian := fold_left (guardian_step E) h g.
(** the three ways to make a guardian *)
Definition made_guardian (E : env) (g : guardian) : Prop :=
  (exists id seq n q draws, guardian_from_nonce E id seq n q draws = Ok g)
  \/ (exists n q k, g = guardian_from_public_key n q k)
  \/ (exists r n q, g = guardian_from_private_record r n q).
Definition keys_saved (h : list guardian_call) : list public_key := flat_map (fun c => match c with SaveKey k => [k] | _ => [] end) h.
Definition verifications_saved (h : list guardian_call) : list verification :=
  flat_map (fun c => match c with SaveVerification v => [v] | _ => [] end) h.
(** the last verification in [l] by receiver [r] *)
Definition latest_verification (r : string) (l : list verification) : option verification :=
  find (fun v => eqb (vf_designated v) r) (rev l).
