(** * SpecGuiDecrypt: the plain vocabulary of the decryption of the graphical application. *)
From Verif Require Import Base Group Hash ElGamal ZK Spec Manifest Ballot Encrypt SpecElection Box Tally SpecTally Ceremony SpecCeremony Shares SpecShares SpecEndToEnd
  GuiUpload SpecUpload GuiDecrypt.
From Coq Require Import List.

(** the election [e] with the manifest [m] was made for the guardians in the seats [ss], under their joint key; the database
    has no uploads yet, and the files on the guardians' machines are those of the seats *)
Record gui_election (E : env) (disk : string -> string -> option private_record) (w : gdb) (e : string) (m : manifest) (im : internal_manifest) (cx : context)
    (k : nat) (ss : list seat) : Prop := {
  ge_start : no_uploads w;
  ge_manifest : manifest_is_valid m = true;
  ge_internal : make_internal E m = Ok im;
  ge_options : distinct_option_ids im;
  ge_seats : good_seats E k ss;
  ge_orders : NoDup (map st_seq ss);
  ge_some : ss <> [];
  ge_hash : 0 <= cx_ext_hash cx < qq E;
  ge_number : cx_guardians cx = len ss;
  ge_quorum : cx_quorum cx <= len ss;
  ge_key : cx_key cx = gexp E (sumZ (map st_secret ss));
  ge_election : exists x, In x (db_elections w) /\ el_id x = e /\ el_context x = Some cx /\ el_manifest x = m /\
    el_records x = map (fun s => (st_id s, st_seq s)) ss /\ el_guardians x = len ss /\ el_ceremony x <> ""%string /\
    (forall s, In s ss -> disk (st_id s) (el_ceremony x) <> None) /\
    forall u r n q, disk u (el_ceremony x) = Some r -> exists s, In s ss /\ st_id s = u /\ holder E s (guardian_from_private_record r n q) }.
(** voters with different ballot ids, who cast or spoil their ballots; not more than can be counted *)
Record good_voters (E : env) (im : internal_manifest) (vs : list voter) : Prop := {
  gv_styles : forall v, In v vs -> usable_style E im (vr_ballot v);
  gv_ids : NoDup (map vr_id vs);
  gv_states : forall v, In v vs -> vr_state v <> UNKNOWN;
  gv_room : len (filter is_cast vs) < qq E;
  gv_table : len (filter is_cast vs) <= dmax E;
  gv_one : 1 <= dmax E }.
(** the stored file is the voter's encrypted ballot, cast or spoiled *)
Definition file_of (E : env) (parse : string -> option sub_ballot) (im : internal_manifest) (cx : context) (v : voter) (b : stored_ballot) : Prop :=
  exists eb, encrypted_as E im cx v eb /\ parse (so_contents b) = Some (submit_ballot E eb (vr_state v)).
(** every ballot stored for [e] is the file of one of the voters *)
Definition only_voters (E : env) (parse : string -> option sub_ballot) (im : internal_manifest) (cx : context) (vs : list voter) (w : gdb) (e : string) : Prop :=
  forall b, In b (stored w e) -> exists v, In v vs /\ file_of E parse im cx v b.

(** everything that happens, from a database without uploads and decryptions on *)
Definition after_all (E : env) (parse : string -> option sub_ballot) (device : string -> bool) (disk : string -> string -> option private_record) (w : gdb) (h : list dec_event) : dec_world :=
  dec_run E parse device disk (mkDecWorld (mkUpWorld w []) [] []) h.
(** no pool of worker processes fails *)
Definition pools_work (h : list dec_event) : Prop := forall i net up rnd, In (Step i net up rnd) h -> forall path, up path = true.
(** no reading of a ballot fails *)
Definition reads_work (h : list dec_event) : Prop := forall i net up rnd, In (Step i net up rnd) h -> net = true.
(** nothing is uploaded *)
Definition no_more_uploads (h : list dec_event) : Prop := forall ev, ~ In (Uploads ev) h.
(** during [h], which starts in [w], the call [ev] starts and comes to its end *)
Definition carried_out (E : env) (parse : string -> option sub_ballot) (device : string -> bool) (disk : string -> string -> option private_record) (w : dec_world) (h : list dec_event) (ev : dec_event) : Prop :=
  exists ha hb, h = ha ++ ev :: hb /\ exists ok, nth_error (dw_calls (dec_run E parse device disk w h)) (length (dw_calls (dec_run E parse device disk w ha))) = Some (Finished ok).
(** the number of times the i-th call was given a step *)
Definition steps_of (i : nat) (h : list dec_event) : nat := length (filter (fun ev => match ev with Step j _ _ _ => Nat.eqb i j | _ => false end) h).

(** the published counts: for exactly the options of the manifest, how many of the cast ballots of [counted] selected it *)
Definition right_counts (m : manifest) (im : internal_manifest) (counted : list voter) (r : dec_result) : Prop :=
  forall cid oid n, count_of (rs_tally r) cid oid = Some n <-> in_manifest m cid oid /\ n = cast_count im counted cid oid.
(** a published ballot is the one a voter of [counted] spoiled, with exactly the votes of the voter *)
Definition right_spoiled (im : internal_manifest) (counted : list voter) (r : dec_result) : Prop :=
  forall i p, In (i, p) (rs_spoiled r) -> exists v, In v counted /\ vr_id v = i /\ vr_state v = SPOILED /\
    forall cid oid n, count_of p cid oid = Some n <-> on_ballot im (vr_ballot v) cid oid /\ n = vote_for im (vr_ballot v) cid oid.
(** a proof in the tally share of one of the guardians has the response 0 (one chance in [qq E] for each proof) *)
Definition zero_proof (d : decryption) : Prop :=
  exists en s pf, In en (dy_shares d) /\ In s (share_entries (en_share en)) /\ dc_proof s = Some pf /\ cp_v pf = 0.
