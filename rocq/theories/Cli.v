(** * Cli: model of the command line commands (electionguard_cli: e2e, setup, encrypt-ballots, submit-ballots, import-ballots
    and their steps), of the files they read and write (electionguard/serialize.py: to_file, from_file) and of the exported
    election record (electionguard_tools/helpers/export.py).  Definitions only.
    A file holds the object that was written: its JSON text and the way back are not modelled.  Progress messages are left out,
    only the results that are printed are kept. *)
From Verif Require Import Base Group Codec Hash ElGamal Manifest Ballot Encrypt Box Tally Ceremony Shares GuiUpload GuiDecrypt GuiElection Report.
From Coq Require Import List Ascii.
Local Open Scope string_scope.
Local Open Scope list_scope.

(** ** files *)
(** what a file holds; tally.py:189-191 PublishedCiphertextTally keeps the id and the contests of a tally *)
Inductive content :=
| JManifest (m : manifest) | JContext (cx : context) | JConstants (p q g : Z) | JCoefficients (d : dict string Z)
| JDevice (d : device) | JGuardian (r : guardian_record) | JPrivate (r : private_record)
| JPlain (b : pt_ballot) | JPlains (l : list pt_ballot) | JCipher (b : ct_ballot) | JSubmitted (b : sub_ballot)
| JTally (p : plain_tally) | JCipherTally (id : string) (cs : dict string tally_contest)
| JArchive (l : list (string * content)).
(** the existing directories and the files by path.  "." and "..", double or trailing "/", links and
    limits of the length of names are left out. *)
Record disk := mkDisk { dk_dirs : list string; dk_files : dict string content }.
Definition slash : ascii := "/"%char.
Fixpoint has_slash (s : string) : bool := match s with EmptyString => false | String c s' => Ascii.eqb c slash || has_slash s' end.
Fixpoint ends_slash (s : string) : bool := match s with EmptyString => false | String c EmptyString => Ascii.eqb c slash | String _ s' => ends_slash s' end.
(** os.path.join of two texts *)
Definition os_join (a b : string) : string :=
  match b with
  | String c _ => if Ascii.eqb c slash then b else if String.eqb a "" || ends_slash a then (a ++ b)%string else (a ++ "/" ++ b)%string
  | EmptyString => if String.eqb a "" || ends_slash a then a else (a ++ "/")%string
  end.
(** the directory and the name in it: the text before and after the last "/"; no directory: the working directory *)
Fixpoint split_path (s : string) : option string * string :=
  match s with
  | EmptyString => (None, "")
  | String c s' => match split_path s' with
                   | (Some d, f) => (Some (String c d), f)
                   | (None, f) => if Ascii.eqb c slash then (Some "", f) else (None, String c f)
                   end
  end.
Definition parent_exists (dk : disk) (p : string) : bool := match fst (split_path p) with None => true | Some d => inb d (dk_dirs dk) end.
(** os.makedirs: the directory and those above it *)
Fixpoint above (s : string) : list string :=
  match s with EmptyString => [] | String c s' => (if Ascii.eqb c slash then [""] else []) ++ map (String c) (above s') end.
Definition add_dir (l : list string) (d : string) : list string := if inb d l then l else l ++ [d].
Definition makedirs (dk : disk) (d : string) : res disk :=
  if String.eqb d "" then Err PyException else Ok (mkDisk (fold_left add_dir (above d ++ [d]) (dk_dirs dk)) (dk_files dk)).
(** serialize.py:63-71 construct_path *)
Definition construct_path (name dir : string) : string := os_join dir (name ++ ".json").
(** open for writing and the dump: the directory of the path must exist and the path must not be one *)
Definition write_path (dk : disk) (p : string) (x : content) : res disk :=
  if parent_exists dk p && negb (inb p (dk_dirs dk)) then Ok (mkDisk (dk_dirs dk) (dset p x (dk_files dk))) else Err PyException.
(** serialize.py:130-149 to_file; os.path.exists of the empty text is False *)
Definition to_file (dk : disk) (x : content) (name dir : string) : res disk :=
  do dk1 <- (if inb dir (dk_dirs dk) && negb (String.eqb dir "") then Ok dk else makedirs dk dir);
  write_path dk1 (construct_path name dir) x.
(** several files, one after the other: those before a failure stay *)
Fixpoint to_files (dk : disk) (l : list (content * string * string)) : disk * res unit :=
  match l with
  | [] => (dk, Ok tt)
  | (x, name, dir) :: l' => match to_file dk x name dir with Ok dk' => to_files dk' l' | Err e => (dk, Err e) end
  end.
(** serialize.py:105-110 from_file: the object in the file, or an exception when there is none *)
Definition from_file (dk : disk) (p : string) : res content := match dget p (dk_files dk) with Some x => Ok x | None => Err PyException end.
(** os.listdir: the names of the files and directories in a directory, in any order ([order]); the empty text is no directory for
    os.path.isdir, here it stands for the root *)
Definition names_in (d : string) (l : list string) : list string :=
  flat_map (fun p => match split_path p with (Some d', f) => if String.eqb d' d then [f] else [] | _ => [] end) l.
Definition is_dir (dk : disk) (d : string) : bool := inb d (dk_dirs dk) && negb (String.eqb d "").
Definition listdir (order : list string -> list string) (dk : disk) (d : string) : res (list string) :=
  if is_dir dk d then Ok (order (names_in d (dkeys (dk_files dk)) ++ names_in d (dk_dirs dk))) else Err PyException.
(** from_dict for the types that are read: an object of another type lacks fields, but a submitted ballot has those of a ciphertext ballot *)
Definition as_manifest (x : content) : res manifest := match x with JManifest m => Ok m | _ => Err ValueError end.
Definition as_context (x : content) : res context := match x with JContext c => Ok c | _ => Err ValueError end.
Definition as_device (x : content) : res device := match x with JDevice d => Ok d | _ => Err ValueError end.
Definition as_private (x : content) : res private_record := match x with JPrivate r => Ok r | _ => Err ValueError end.
Definition as_plain (x : content) : res pt_ballot := match x with JPlain b => Ok b | _ => Err ValueError end.
Definition as_plains (x : content) : res (list pt_ballot) := match x with JPlains l => Ok l | _ => Err ValueError end.
Definition as_cipher (x : content) : res ct_ballot := match x with JCipher b => Ok b | JSubmitted b => Ok (sb_ballot b) | _ => Err ValueError end.
Definition as_submitted (x : content) : res sub_ballot := match x with JSubmitted b => Ok b | _ => Err ValueError end.
(** every file of a directory (input_retrieval_step_base.py:53-58, import_ballots_input_retrieval_step.py:70-75) *)
Definition read_dir {A} (order : list string -> list string) (conv : content -> res A) (dk : disk) (d : string) : res (list A) :=
  do fs <- listdir order dk d; rmapM (fun f => do x <- from_file dk (os_join d f); conv x) fs.
(** input_retrieval_step_base.py:49-61 _get_ballots, with what it does for a file that holds a list *)
Definition get_ballots_at {A} (order : list string -> list string) (conv : content -> res A) (convs : content -> res (list A)) (dk : disk) (p : string) : res (list A) :=
  if dmem p (dk_files dk) then do x <- from_file dk p; convs x
  else if is_dir dk p then read_dir order conv dk p
  else Err ValueError.
(** 22-44 _get_manifest *)
Definition get_manifest (dk : disk) (p : string) : res manifest :=
  do x <- from_file dk p; do m <- as_manifest x; if manifest_is_valid m then do _ <- get_name m; Ok m else Err ValueError.
(** 46-47 _get_context *)
Definition get_context (dk : disk) (p : string) : res context := do x <- from_file dk p; as_context x.

(** ** chance: everything that is drawn, read from a clock or decided by the system during a command: the coefficients and nonces of the
    guardians' keys, the nonces of their backups, the id of the device, the nonce and time for each ballot, the process pools and the
    draws of the decryption (addressed by paths), and the order of directory listings *)
Record chance := mkChance { ch_draw : nat -> nat -> Z * Z; ch_backup : string -> string -> Z; ch_device : device; ch_ballot : nat -> Z * Z;
  ch_up : list nat -> bool; ch_share : list nat -> Z; ch_order : list string -> list string }.

(** ** the steps *)
(** key_ceremony_orchestrator.py:13-23 create_guardians; decimal is str() *)
Definition create_guardians (E : env) (ch : chance) (n k : Z) : res (list guardian) :=
  rmapM (fun i => let s := (Z.of_nat i + 1)%Z in guardian_from_nonce E (decimal s) s n k (map (ch_draw ch i) (seq 0 (Z.to_nat k)))) (seq 0 (Z.to_nat n)).
(** key_ceremony_step.py:18-28 run_key_ceremony; the guardians change *)
Definition run_key_ceremony (E : env) (ch : chance) (gs : list guardian) : res (list guardian * joint_key) :=
  match gs with
  | [] => Err IndexError
  | g :: _ => do r <- full_ceremony E (ch_backup ch) gs (Ceremony.new_mediator "mediator_1" (gd_details g));
              do j <- get_optional (md_publish_joint_key E (snd r));
              Ok (fst r, j)
  end.
(** encrypt_ballots_election_builder_step.py:10-21, and the same for submit and import; GuiElection.build_election is _build_election *)
Definition build_with_context (E : env) (m : manifest) (cx : context) : res (internal_manifest * context) :=
  build_election E (cx_guardians cx) (cx_quorum cx) m (mkJoint (cx_key cx) (cx_commitment_hash cx)).
(** encrypt_votes_step.py:59-68 _encrypt_ballots; [i] counts the ballots *)
Fixpoint encrypt_loop (E : env) (rnd : nat -> Z * Z) (i : nat) (em : enc_mediator) (bs : list pt_ballot) : res (list ct_ballot) :=
  match bs with
  | [] => Ok []
  | b :: bs' =>
    let '(em', r) := mediator_encrypt E em b (fst (rnd i)) (snd (rnd i)) in
    do o <- r; do eb <- get_optional o; do l <- encrypt_loop E rnd (S i) em' bs'; Ok (eb :: l)
  end.
(** 23-57 encrypt, _get_encrypter, _encrypt_votes *)
Definition encrypt_votes (E : env) (ch : chance) (bs : list pt_ballot) (im : internal_manifest) (cx : context) : res (list ct_ballot) :=
  encrypt_loop E (ch_ballot ch) 0 (Encrypt.new_mediator E im cx (ch_device ch)) bs.
(** submit_votes_step.py:38-58 _cast_and_spoil: a ballot that is refused ends the command *)
Fixpoint cast_and_spoil (E : env) (spoil_id : option string) (x : ballot_box) (ebs : list ct_ballot) : res ballot_box :=
  match ebs with
  | [] => Ok x
  | b :: ebs' =>
    let '(x', r) := box_submit E x b (if match spoil_id with Some i => String.eqb (cb_id b) i | None => false end then SPOILED else CAST) in
    do o <- r; do _ <- get_optional o; cast_and_spoil E spoil_id x' ebs'
  end.
(** submit_ballots_step.py:15-36 submit: what the box answers is ignored *)
Fixpoint submit_loop (E : env) (st : box_state) (x : ballot_box) (ebs : list ct_ballot) : res ballot_box :=
  match ebs with [] => Ok x | b :: ebs' => let '(x', r) := box_submit E x b st in do _ <- r; submit_loop E st x' ebs' end.
Definition submit_ballots (E : env) (im : internal_manifest) (cx : context) (cast spoil : list ct_ballot) : res (list sub_ballot) :=
  do x <- submit_loop E CAST (mkBox im cx ds_new) cast; do x <- submit_loop E SPOILED x spoil; Ok (ds_all (bx_store x)).
(** tally_step.py:36-49 _get_tally *)
Definition cli_tally (E : env) (up : bool) (im : internal_manifest) (cx : context) (bs : list sub_ballot) : res tally :=
  let '(t, r) := batch_append E up false (new_tally E "election-results" im cx) bs true in do _ <- r; Ok t.
(** decrypt_step.py:48-58 one guardian *)
Definition cli_announce (E : env) (up : list nat -> bool) (rnd : list nat -> Z) (t : tally) (bs : list sub_ballot) (cx : context)
    (m : dmediator) (ig : nat * guardian) : res dmediator :=
  let '(i, g) := ig in
  do share <- get_optional (gd_tally_share E (fun c => up [i; 0%nat; c]) (fun c s => rnd [i; 0%nat; c; s]) g t cx);
  Ok (dm_announce m (share_key g) share (Some (gd_ballot_shares E (fun b c => up [i; S b; c]) (fun b c s => rnd [i; S b; c; s]) g bs cx))).
(** 18-74 decrypt; the path of the pool of the tally is [[]] and is not used here *)
Definition cli_decrypt (E : env) (ch : chance) (t : tally) (spoiled : list sub_ballot) (gs : list guardian) (cx : context) (m : manifest) : res dec_result :=
  do med <- rfold (cli_announce E (ch_up ch) (ch_share ch) t spoiled cx) (number gs) (new_dmediator "decryption-mediator" cx);
  do l <- lagrange_all E (dvals (dm_available med));
  do o <- dm_plaintext_tally E med t m; do p <- get_optional o;
  do o <- dm_plaintext_ballots E med spoiled m; do ps <- get_optional o;
  Ok (mkResult p ps l t).
(** print_results_step.py:30-59: the tally, then each spoiled ballot with its id *)
Record printed := mkPrinted { po_tally : list (option string * list (string * Z)); po_spoiled : list (string * list (option string * list (string * Z))) }.
Definition print_results (m : manifest) (r : dec_result) : res printed :=
  do a <- print_tally m (rs_tally r);
  do b <- rmapM (fun kv => do x <- print_tally m (snd kv); Ok (fst kv, x)) (rs_spoiled r);
  Ok (mkPrinted a b).

(** ** export.py:49-103 export_record, the files in the order in which they are written; str() of a device id is decimal *)
Definition record_files (E : env) (dir : string) (m : manifest) (cx : context) (devices : list device) (submitted : list sub_ballot) (spoiled : list plain_tally)
    (t : tally) (p : plain_tally) (records : list guardian_record) (lagrange : dict string Z) : list (content * string * string) :=
  [(JManifest m, "manifest", dir); (JContext cx, "context", dir); (JConstants (pp E) (qq E) (gg E), "constants", dir); (JCoefficients lagrange, "coefficients", dir)]
  ++ map (fun d => (JDevice d, ("device_" ++ decimal (dv_id d))%string, os_join dir "encryption_devices")) devices
  ++ map (fun r => (JGuardian r, ("guardian_" ++ gr_id r)%string, os_join dir "guardians")) records
  ++ map (fun b => (JSubmitted b, ("submitted_ballot_" ++ sb_id b)%string, os_join dir "submitted_ballots")) submitted
  ++ map (fun q => (JTally q, ("spoiled_ballot_" ++ pt_id q)%string, os_join dir "spoiled_ballots")) spoiled
  ++ [(JCipherTally (ty_id t) (ty_contests t), "encrypted_tally", dir); (JTally p, "tally", dir)].
(** the temporary directory: a disk of its own *)
Definition temp_dir : string := "record".
Definition temp_disk : disk := mkDisk [temp_dir] [].
(** os.path.splitext(p)[0]: without the text from the last "." of the last part on, unless only dots come before it *)
Fixpoint cut_dot (s : string) : option string :=
  match s with
  | EmptyString => None
  | String c s' => match cut_dot s' with Some r => Some (String c r) | None => if Ascii.eqb c "."%char && negb (has_slash s') then Some "" else None end
  end.
Fixpoint only_dots (s : string) : bool := match s with EmptyString => true | String c s' => Ascii.eqb c "."%char && only_dots s' end.
Definition splitext (s : string) : string := match cut_dot s with Some r => if only_dots (snd (split_path r)) then s else r | None => s end.
(** e2e_publish_step.py:46-64 and import_ballots_publish_step.py:29-52: the record is exported to the temporary directory and made an
    archive beside [out]; the names in the archive keep the name of that directory here *)
Definition export_archive (dk : disk) (files : list (content * string * string)) (out : option string) : disk * res unit :=
  let '(tmp, r) := to_files temp_disk files in
  match r with
  | Err e => (dk, Err e)
  | Ok _ => match out with
            | None => (dk, Err TypeError)                    (* splitext(None) *)
            | Some p => match write_path dk (splitext p ++ ".zip") (JArchive (dk_files tmp)) with Ok dk' => (dk', Ok tt) | Err e => (dk, Err e) end
            end
  end.
(** output_step_base.py:16-31 _export_private_keys *)
Definition key_files (dir : string) (gs : list guardian) : list (content * string * string) :=
  map (fun g => let r := export_private_data g in (JPrivate r, ("guardian_" ++ pr_id r)%string, dir)) gs.
Definition export_keys (dk : disk) (dir : option string) (gs : list guardian) : disk * res unit :=
  match dir with None => (dk, Ok tt) | Some d => to_files dk (key_files d gs) end.

(** ** the commands: the disk afterwards, the results printed, and how the command ended *)
Record outcome := mkOut { oc_disk : disk; oc_printed : option printed; oc_end : res unit }.
Definition failed (dk : disk) (e : exn) : outcome := mkOut dk None (Err e).

(** e2e_command.py:77-137 up to the decryption; e2e_input_retrieval_step.py:20-49 *)
Record e2e_done := mkE2e { ee_guardians : list guardian; ee_manifest : manifest; ee_context : context; ee_submitted : list sub_ballot; ee_result : dec_result }.
Definition e2e_election (E : env) (ch : chance) (n k : Z) (manifest_path ballots : string) (spoil_id : option string) (dk : disk) : res e2e_done :=
  do gs0 <- create_guardians E ch n k;
  do m <- get_manifest dk manifest_path;
  do bs <- get_ballots_at (ch_order ch) as_plain as_plains dk ballots;
  do c <- run_key_ceremony E ch gs0;
  do b <- build_election E n k m (snd c);
  do ebs <- encrypt_votes E ch bs (fst b) (snd b);
  do x <- cast_and_spoil E spoil_id (mkBox (fst b) (snd b) ds_new) ebs;
  do t <- cli_tally E (ch_up ch []) (fst b) (snd b) (map snd (ds_items (bx_store x)));
  do r <- cli_decrypt E ch t (dvals (get_ballots (bx_store x) (Some SPOILED))) (fst c) (snd b) m;
  Ok (mkE2e (fst c) m (snd b) (ds_all (bx_store x)) r).
(** 121-137 the results and the record, e2e_publish_step.py:18-70: the keys are written after the record *)
Definition e2e (E : env) (ch : chance) (n k : Z) (manifest_path ballots : string) (spoil_id output_record output_keys : option string) (dk : disk) : outcome :=
  match e2e_election E ch n k manifest_path ballots spoil_id dk with
  | Err e => failed dk e
  | Ok d =>
    match print_results (ee_manifest d) (ee_result d) with
    | Err e => failed dk e
    | Ok out =>
      let r := ee_result d in
      let '(dk1, a) := export_archive dk (record_files E temp_dir (ee_manifest d) (ee_context d) [ch_device ch] (ee_submitted d) (dvals (rs_spoiled r))
                          (rs_ciphertext r) (rs_tally r) (map guardian_publish (ee_guardians d)) (rs_lagrange r)) output_record in
      match a with
      | Err e => mkOut dk1 (Some out) (Err e)
      | Ok _ => let '(dk2, a) := export_keys dk1 output_keys (ee_guardians d) in mkOut dk2 (Some out) a
      end
    end
  end.
(** setup_election_command.py:51-74 and output_setup_files_step.py:24-79; [confirm] is the answer when the directory of the keys exists *)
Definition setup_election (E : env) (ch : chance) (n k : Z) (manifest_path : string) (confirm : bool) (package_dir : string) (keys_dir : option string) (dk : disk) : outcome :=
  match (do gs0 <- create_guardians E ch n k;
         do m <- get_manifest dk manifest_path;
         do c <- run_key_ceremony E ch gs0;
         do b <- build_election E n k m (snd c);
         Ok (fst c, m, snd b)) with
  | Err e => failed dk e
  | Ok (gs, m, cx) =>
    let '(dk1, a) := to_files dk ([(JContext cx, "context", package_dir); (JConstants (pp E) (qq E) (gg E), "constants", package_dir); (JManifest m, "manifest", package_dir)]
                        ++ map (fun g => let r := guardian_publish g in (JGuardian r, ("guardian_" ++ gr_id r)%string, os_join package_dir "guardians")) gs) in
    match a with
    | Err e => mkOut dk1 None (Err e)
    | Ok _ => match keys_dir with
              | None => mkOut dk1 None (Ok tt)
              | Some d => if (inb d (dk_dirs dk1) || dmem d (dk_files dk1)) && negb confirm then mkOut dk1 None (Ok tt)
                          else let '(dk2, a) := export_keys dk1 (Some d) gs in mkOut dk2 None a
              end
    end
  end.
(** encrypt_command.py:35-54, encrypt_ballots_input_retrieval_step.py:15-33, encrypt_ballots_publish_step.py:12-26 *)
Definition encrypt_command (E : env) (ch : chance) (manifest_path context_path ballots_dir : string) (out_dir : option string) (dk : disk) : outcome :=
  match (do m <- get_manifest dk manifest_path;
         do cx <- get_context dk context_path;
         do bs <- get_ballots_at (ch_order ch) as_plain as_plains dk ballots_dir;
         do b <- build_with_context E m cx;
         encrypt_votes E ch bs (fst b) (snd b)) with
  | Err e => failed dk e
  | Ok ebs =>
    match out_dir with
    | None => mkOut dk None (Ok tt)
    | Some d => let '(dk1, a) := to_files dk ((JDevice (ch_device ch), "device", d) :: map (fun b => (JCipher b, cb_id b, d)) ebs) in mkOut dk1 None a
    end
  end.
(** submit_command.py:38-62, submit_ballots_input_retrieval_step.py:15-38, submit_ballots_publish_step.py:12-22.  A path that is a file
    would have to hold a list of ciphertext ballots, which no command writes *)
Definition no_list {A} (x : content) : res (list A) := Err ValueError.
Definition submit_command (E : env) (ch : chance) (manifest_path context_path cast_dir : string) (spoil_dir out_dir : option string) (dk : disk) : outcome :=
  match (do m <- get_manifest dk manifest_path;
         do cx <- get_context dk context_path;
         do cast <- get_ballots_at (ch_order ch) as_cipher no_list dk cast_dir;
         do spoil <- match spoil_dir with Some d => get_ballots_at (ch_order ch) as_cipher no_list dk d | None => Ok [] end;
         do b <- build_with_context E m cx;
         submit_ballots E (fst b) (snd b) cast spoil) with
  | Err e => failed dk e
  | Ok sbs =>
    match out_dir with
    | None => mkOut dk None (Ok tt)
    | Some d => let '(dk1, a) := to_files dk (map (fun b => (JSubmitted b, sb_id b, d)) sbs) in mkOut dk1 None a
    end
  end.
(** import_ballots_command.py:57-100 up to the decryption, import_ballots_input_retrieval_step.py:24-100, tally_step.py:15-26 get_from_ballots *)
Record import_done := mkImport { id_guardians : list guardian; id_manifest : manifest; id_context : context; id_devices : list device;
  id_submitted : list sub_ballot; id_result : dec_result }.
Definition import_election (E : env) (ch : chance) (manifest_path context_path ballots_dir keys_dir : string) (device_path : option string) (dk : disk) : res import_done :=
  do m <- get_manifest dk manifest_path;
  do cx <- get_context dk context_path;
  do rs <- read_dir (ch_order ch) as_private dk keys_dir;
  let gs := map (fun r => guardian_from_private_record r (cx_guardians cx) (cx_quorum cx)) rs in
  do devices <- match device_path with None => Ok [] | Some p => do x <- from_file dk p; do d <- as_device x; Ok [d] end;
  do sbs <- get_ballots_at (ch_order ch) as_submitted no_list dk ballots_dir;
  do b <- build_with_context E m cx;
  do t <- cli_tally E (ch_up ch []) (fst b) (snd b) sbs;
  do r <- cli_decrypt E ch t (spoiled_ballots sbs) gs (snd b) m;
  Ok (mkImport gs m (snd b) devices sbs r).
(** 102-107, import_ballots_publish_step.py:19-54 *)
Definition import_command (E : env) (ch : chance) (manifest_path context_path ballots_dir keys_dir : string) (device_path output_record : option string) (dk : disk) : outcome :=
  match import_election E ch manifest_path context_path ballots_dir keys_dir device_path dk with
  | Err e => failed dk e
  | Ok d =>
    match print_results (id_manifest d) (id_result d) with
    | Err e => failed dk e
    | Ok out =>
      match output_record with
      | None => mkOut dk (Some out) (Ok tt)
      | Some p =>
        let r := id_result d in
        let '(dk1, a) := export_archive dk (record_files E temp_dir (id_manifest d) (id_context d) (id_devices d) (id_submitted d) (dvals (rs_spoiled r))
                          (rs_ciphertext r) (rs_tally r) (map guardian_publish (id_guardians d)) (rs_lagrange r)) (Some p) in
        mkOut dk1 (Some out) a
      end
    end
  end.
