(** * GuiText: the document of a key ceremony as it lies in the database, with the numbers written as text, and
    the programs of GuiCeremony.v working on that document.  Definitions only.

    Simplifications.  A read of the document turns all its texts into values; the code does so for the keys at
    the read (key_ceremony_dto.py:30) and for the rest where it is used.  The texts of a proof are read as the
    numbers they stand for; the code leaves them as text (key_ceremony_dto.py:166-175), writes them again
    unchanged and never looks at them.  Every name of a field is there when it is read. *)
From Verif Require Import Base Group Codec Hash DLog ElGamal ZK Poly Manifest Ballot Encrypt Ceremony GuiCeremony.

(** ** the dictionaries, services/db_serialization_service.py *)
(** 16-25 *)
Record proof_text := mkPt { pt_key : string; pt_com : string; pt_chal : string; pt_resp : string; pt_usage : string }.
(** 10-27 *)
Record key_text := mkKt { kt_owner : string; kt_seq : Z; kt_key : string; kt_commitments : list string; kt_proofs : list proof_text }.
(** 30-41 *)
Record backup_text := mkBt { bt_owner : string; bt_designated : string; bt_seq : Z; bt_pad : string; bt_data : string; bt_mac : string }.
(** 55-61 *)
Record joint_text := mkJt { jt_key : string; jt_hash : string }.
(** str of an element (big_integer.py:46-54: an element is the text of its digits); str of the usage, an enumeration member
    (proof.py:8-13), is its name *)
Definition str_element (n : Z) : string := int_to_hex n.
(** 10-27 public_key_to_dict; every proof made is a ProofUsage.SecretValue (schnorr.py:24-31, 91) *)
Definition proof_to_dict (p : schnorr) : proof_text :=
  mkPt (str_element (s_key p)) (str_element (s_com p)) (str_element (s_chal p)) (str_element (s_resp p)) "ProofUsage.SecretValue".
Definition public_key_to_dict (k : public_key) : key_text :=
  mkKt (pk_owner k) (pk_seq k) (str_element (pk_key k)) (map str_element (pk_commitments k)) (map proof_to_dict (pk_proofs k)).
(** 30-41 backup_to_dict *)
Definition backup_to_dict (b : backup) : backup_text :=
  mkBt (bk_owner b) (bk_designated b) (bk_seq b) (str_element (h_pad (bk_coordinate b))) (h_data (bk_coordinate b)) (h_mac (bk_coordinate b)).
(** 55-61 joint_key_to_dict *)
Definition joint_key_to_dict (j : joint_key) : joint_text := mkJt (str_element (jk_key j)) (str_element (jk_hash j)).

(** ** the readers, models/key_ceremony_dto.py *)
(** group.py:23-30 BaseElement.__new__ on a text *)
Definition element_of (bound : Z) (s : string) : res Z :=
  do n <- hex_to_int s; if (0 <=? n) && (n <? bound) then Ok n else Err OverflowError.
(** 166-175 *)
Definition dict_to_proof (t : proof_text) : res schnorr :=
  do k <- hex_to_int (pt_key t); do c <- hex_to_int (pt_com t); do h <- hex_to_int (pt_chal t); do r <- hex_to_int (pt_resp t); Ok (mkSchnorr k c h r).
(** 162-183 _dict_to_election_public_key *)
Definition dict_to_public_key (E : env) (t : key_text) : res public_key :=
  do cs <- rmapM (element_of (pp E)) (kt_commitments t);
  do ps <- rmapM dict_to_proof (kt_proofs t);
  do k <- element_of (pp E) (kt_key t);
  Ok (mkPk (kt_owner t) (kt_seq t) k cs ps).
(** 149-159 _dict_to_backup *)
Definition dict_to_backup (E : env) (t : backup_text) : res backup :=
  do pad <- element_of (pp E) (bt_pad t);
  Ok (mkBackup (bt_owner t) (bt_designated t) (bt_seq t) (mkHct pad (bt_data t) (bt_mac t))).
(** 128-132 get_joint_key *)
Definition dict_to_joint_key (E : env) (t : joint_text) : res joint_key :=
  do k <- element_of (pp E) (jt_key t); do h <- element_of (qq E) (jt_hash t); Ok (mkJoint k h).

(** ** the document: key_ceremony_service.py:42-62; a verification has no numbers (44-53, 140-146) *)
Record kc_text := mkKcText { kx_count : Z; kx_quorum : Z; kx_joined : list string; kx_keys : list key_text;
  kx_other : list (string * list key_text); kx_backups : list backup_text; kx_shared : list (string * list backup_text);
  kx_verifs : list verification; kx_joint : option joint_text; kx_completed : bool }.
Definition text_create (count quorum : Z) : kc_text := mkKcText count quorum [] [] [] [] [] [] None false.
(** key_ceremony_dto.py:20-37, 99-132 *)
Definition dict_to_entry {T V} (f : T -> res V) (e : string * list T) : res (string * list V) := do l <- rmapM f (snd e); Ok (fst e, l).
Definition read_doc (E : env) (t : kc_text) : res kc :=
  do keys <- rmapM (dict_to_public_key E) (kx_keys t);
  do other <- rmapM (dict_to_entry (dict_to_public_key E)) (kx_other t);
  do backups <- rmapM (dict_to_backup E) (kx_backups t);
  do shared <- rmapM (dict_to_entry (dict_to_backup E)) (kx_shared t);
  do joint <- match kx_joint t with None => Ok None | Some j => do j <- dict_to_joint_key E j; Ok (Some j) end;
  Ok (mkKc (kx_count t) (kx_quorum t) (kx_joined t) keys other backups shared (kx_verifs t) joint (kx_completed t)).

(** the updates, key_ceremony_service.py:77-158; those of stages 2 and 4 get dictionaries
    (key_ceremony_s2_announce_service.py:46-50, key_ceremony_s4_share_backup_service.py:46) *)
Definition text_joined (u : string) (t : kc_text) : kc_text :=
  mkKcText (kx_count t) (kx_quorum t) (kx_joined t ++ [u]) (kx_keys t) (kx_other t) (kx_backups t) (kx_shared t) (kx_verifs t) (kx_joint t) (kx_completed t).
Definition text_key (k : public_key) (t : kc_text) : kc_text :=
  mkKcText (kx_count t) (kx_quorum t) (kx_joined t) (kx_keys t ++ [public_key_to_dict k]) (kx_other t) (kx_backups t) (kx_shared t) (kx_verifs t) (kx_joint t) (kx_completed t).
Definition text_other (l : list (string * list public_key)) (t : kc_text) : kc_text :=
  mkKcText (kx_count t) (kx_quorum t) (kx_joined t) (kx_keys t) (kx_other t ++ map (fun e => (fst e, map public_key_to_dict (snd e))) l) (kx_backups t) (kx_shared t) (kx_verifs t) (kx_joint t) (kx_completed t).
Definition text_backups (l : list backup) (t : kc_text) : kc_text :=
  mkKcText (kx_count t) (kx_quorum t) (kx_joined t) (kx_keys t) (kx_other t) (kx_backups t ++ map backup_to_dict l) (kx_shared t) (kx_verifs t) (kx_joint t) (kx_completed t).
Definition text_shared (l : list (string * list backup)) (t : kc_text) : kc_text :=
  mkKcText (kx_count t) (kx_quorum t) (kx_joined t) (kx_keys t) (kx_other t) (kx_backups t) (kx_shared t ++ map (fun e => (fst e, map backup_to_dict (snd e))) l) (kx_verifs t) (kx_joint t) (kx_completed t).
Definition text_verifs (l : list verification) (t : kc_text) : kc_text :=
  mkKcText (kx_count t) (kx_quorum t) (kx_joined t) (kx_keys t) (kx_other t) (kx_backups t) (kx_shared t) (kx_verifs t ++ l) (kx_joint t) (kx_completed t).
Definition text_joint (j : joint_key) (t : kc_text) : kc_text :=
  mkKcText (kx_count t) (kx_quorum t) (kx_joined t) (kx_keys t) (kx_other t) (kx_backups t) (kx_shared t) (kx_verifs t) (Some (joint_key_to_dict j)) (kx_completed t).
Definition text_complete (t : kc_text) : kc_text :=
  mkKcText (kx_count t) (kx_quorum t) (kx_joined t) (kx_keys t) (kx_other t) (kx_backups t) (kx_shared t) (kx_verifs t) (kx_joint t) true.

(** ** the programs of GuiCeremony.v; what they do is the same, but each read turns text into values and may
    raise, and each update writes text *)
Record text_world := mkTextWorld { x_doc : kc_text; x_files : dict string private_record; x_clients : dict string client }.
Definition text_phase (w : text_world) (c : string) (cl : client) (p : phase) : dict string client :=
  dset c (mkClient (cl_user cl) (cl_admin cl) p) (x_clients w).
Definition text_stage (E : env) (files : dict string private_record) (rnd : string -> Z) (u : string) (s : stage) (snap : kc) (t : kc_text) : res (kc_text * phase) :=
  match s with
  | S2Announce => do l <- s2_announce snap; Ok (text_other l t, Idle)
  | S3MakeBackup => do l <- s3_backups E files rnd u snap; Ok (text_backups l t, Idle)
  | S4ShareBackup => do l <- s4_share snap; Ok (text_shared l t, Idle)
  | S5VerifyBackup => do l <- s5_verify E files u snap; Ok (text_verifs l t, Idle)
  | S6PublishKey => do j <- s6_publish E snap; Ok (text_joint j t, Published)
  end.
Definition text_client_step (E : env) (w : text_world) (c : string) (cl : client) (e : event) : text_world :=
  match e, cl_phase cl with
  | Join _, Idle =>
    match cl_user cl with
    | None => w
    | Some u => mkTextWorld (text_joined u (x_doc w)) (x_files w) (text_phase w c cl JoinPushed)
    end
  | ReadNumber _, JoinPushed =>
    match cl_user cl with
    | None => w
    | Some u => match (do d <- read_doc E (x_doc w); get_guardian_number d u) with
                | Err _ => mkTextWorld (x_doc w) (x_files w) (text_phase w c cl Idle)
                | Ok n => mkTextWorld (x_doc w) (x_files w) (text_phase w c cl (JoinNumbered n))
                end
    end
  | MakeGuardian _ draw, JoinNumbered n =>
    match cl_user cl with
    | None => w
    | Some u => match (do d <- read_doc E (x_doc w); make_guardian E draw u n d) with
                | Err _ => mkTextWorld (x_doc w) (x_files w) (text_phase w c cl Idle)
                | Ok g => mkTextWorld (x_doc w) (dset u (export_private_data g) (x_files w)) (text_phase w c cl (JoinSaved (share_key g)))
                end
    end
  | PushKey _, JoinSaved k => mkTextWorld (text_key k (x_doc w)) (x_files w) (text_phase w c cl Idle)
  | Changed _, Idle =>
    match read_doc E (x_doc w) with
    | Err _ => w
    | Ok snap => match choose_stage (cl_user cl) (cl_admin cl) snap with
                 | Ok (Some s) => mkTextWorld (x_doc w) (x_files w) (text_phase w c cl (Running s snap))
                 | _ => w
                 end
    end
  | RunStage _ rnd, Running s snap =>
    match text_stage E (x_files w) rnd (match cl_user cl with Some u => u | None => EmptyString end) s snap (x_doc w) with
    | Err _ => mkTextWorld (x_doc w) (x_files w) (text_phase w c cl Idle)
    | Ok (t, p) => mkTextWorld t (x_files w) (text_phase w c cl p)
    end
  | MarkComplete _, Published => mkTextWorld (text_complete (x_doc w)) (x_files w) (text_phase w c cl Idle)
  | _, _ => w
  end.
Definition text_step (E : env) (w : text_world) (e : event) : text_world :=
  match e with
  | Open c user admin => mkTextWorld (x_doc w) (x_files w) (dset c (mkClient user admin Idle) (x_clients w))
  | _ => match dget (event_client e) (x_clients w) with
         | None => w
         | Some cl => text_client_step E w (event_client e) cl e
         end
  end.
Definition text_run (E : env) (w : text_world) (h : list event) : text_world := fold_left (text_step E) h w.
Definition text_start (count quorum : Z) : text_world := mkTextWorld (text_create count quorum) [] [].
