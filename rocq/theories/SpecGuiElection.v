(** * SpecGuiElection: the plain vocabulary of the creation of elections in the graphical application. *)
From Verif Require Import Base Group Hash ElGamal ZK Poly Manifest Ballot Encrypt Box Tally Ceremony SpecCeremony GuiCeremony SpecGui GuiUpload GuiElection.
From Coq Require Import List.

(** the stored election belongs to the key ceremony [cer] as it stood in [d], and to the manifest [m] *)
Record right_election (E : env) (cer : string) (d : kc) (m : manifest) (x : election) : Prop := {
  re_valid : manifest_is_valid m = true;
  re_internal : exists im, make_internal E m = Ok im;
  re_manifest : el_manifest x = m;
  re_ceremony : el_ceremony x = cer;
  re_guardians : el_guardians x = kc_count d;
  re_quorum : el_quorum x = kc_quorum d;
  re_records : el_records x = map (fun k => (pk_owner k, pk_seq k)) (kc_keys d);
  re_uploads : el_uploads x = [];
  re_context : exists j cx, kc_joint d = Some j /\ el_context x = Some cx /\ cx_guardians cx = kc_count d /\ cx_quorum cx = kc_quorum d /\
    cx_key cx = jk_key j /\ cx_commitment_hash cx = jk_hash j /\ cx_manifest_hash cx = manifest_hash E m /\
    cx_base_hash cx = hash_elems E [HElem (pp E); HElem (qq E); HElem (gg E); HInt (kc_count d); HInt (kc_quorum d); HElem (manifest_hash E m)] /\
    cx_ext_hash cx = hash_elems E [HElem (cx_base_hash cx); HElem (jk_hash j)] }.
(** the ids that finished calls have given back *)
Definition answers (l : list create_call) : list string := flat_map (fun c => match c with Created (Some id) => [id] | _ => [] end) l.
(** an unpacked package is the one of the election *)
Definition package_of (x : named_election) (p : package) : Prop :=
  Some (pg_context p) = el_context (ne_election x) /\ pg_manifest p = el_manifest (ne_election x) /\ pg_records p = ne_records x.

(** calls made one after the other; each makes its first [n] steps and then stops (three are a whole call) *)
Record request := mkRequest { rq_name : string; rq_ceremony : string; rq_raw : string; rq_kcs : string -> option kc; rq_id : string; rq_steps : nat }.
Fixpoint create_calls (E : env) (parse : string -> option manifest) (kcs : string -> option kc) (id : string) (n : nat) (c : create_call) (s : setup) : create_call * setup :=
  match n with O => (c, s) | S n' => let '(c', s') := create_step E parse kcs id c s in create_calls E parse kcs id n' c' s' end.
Definition create_one (E : env) (parse : string -> option manifest) (s : setup) (r : request) : create_call * setup :=
  create_calls E parse (rq_kcs r) (rq_id r) (rq_steps r) (CreateName (rq_name r) (rq_ceremony r) (rq_raw r)) s.
Definition one_by_one (E : env) (parse : string -> option manifest) (h : list request) : setup :=
  fold_left (fun s r => snd (create_one E parse s r)) h (mkSetup [] []).

(** a key ceremony of [n] guardians with quorum [k], in which exactly the guardians needed join, each once; [h] is all that happens *)
Record fit_ceremony (E : env) (n : Z) (k : nat) (h : list event) : Prop := {
  fc_events : Forall (good_event E) h;
  fc_created : exists d, create_key_ceremony n (Z.of_nat k) = Some d;
  fc_quorum : (0 < k)%nat;
  fc_orders : n < qq E /\ forall j, 0 <= j < Z.of_nat k -> n ^ j < pp E;
  fc_once : NoDup (kc_joined (w_doc (gui_run E (gui_start n (Z.of_nat k)) h)));
  fc_named : ~ In ""%string (kc_joined (w_doc (gui_run E (gui_start n (Z.of_nat k)) h)));
  fc_number : len (kc_joined (w_doc (gui_run E (gui_start n (Z.of_nat k)) h))) = n }.
(** whenever an administrator's program reads the key ceremony [cer], it reads what the document is at some moment of [h] *)
Definition reads_ceremony (E : env) (cer : string) (n : Z) (k : nat) (h : list event) (hs : list create_event) : Prop :=
  forall i kcs id d, In (CreateStep i kcs id) hs -> kcs cer = Some d -> exists h1 h2, h = h1 ++ h2 /\ d = w_doc (gui_run E (gui_start n (Z.of_nat k)) h1).
(** the files of [cer] on the guardians' machines are those that the ceremony left there *)
Definition same_files (E : env) (disk : string -> string -> option private_record) (cer : string) (n : Z) (k : nat) (h : list event) : Prop :=
  forall u, disk u cer = dget u (w_files (gui_run E (gui_start n (Z.of_nat k)) h)).
