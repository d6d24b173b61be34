(** * Wizard: the upload wizard of the graphical application, which looks for a drive with ballots and uploads it.
    Models src/electionguard_gui/components/upload_ballots_component.py:121-222 and
    src/electionguard_gui/services/export_service.py:13-16; the database and the calls upload_ballot and
    create_ballot_upload are those of GuiUpload.v. *)
From Verif Require Import Base Group Hash ElGamal Manifest Ballot GuiUpload.
Local Open Scope string_scope.

(** ** the drives *)
(** what is found at a path: nothing, a plain file, or a folder with its names in the order of os.listdir and the
    texts of its files.  A name without a text is one whose open or decoding raises. *)
Inductive folder := Missing | PlainFile | Folder (names : list string) (text : string -> option string).
(** artifacts/encrypted_ballots and artifacts/devices of a drive *)
Record drive := mkDrive { dv_ballots : folder; dv_devices : folder }.
(** the drive behind a letter, if there is one.  Simplified: the drives do not change during a call. *)
Definition machine := string -> option drive.
Definition ballots_dir (m : machine) (d : string) : folder := match m d with Some v => dv_ballots v | None => Missing end.
Definition devices_dir (m : machine) (d : string) : folder := match m d with Some v => dv_devices v | None => Missing end.
(** os.path.exists, os.listdir, and open with read *)
Definition path_exists (f : folder) : bool := match f with Missing => false | _ => true end.
Definition listdir (f : folder) : res (list string) := match f with Folder names _ => Ok names | _ => Err PyException end.
Definition read_text (f : folder) (name : string) : res string :=
  match f with Folder _ text => match text name with Some s => Ok s | None => Err PyException end | _ => Err PyException end.

(** export_service.py:13-16 get_removable_drives, without the suffix ":\" *)
Definition drive_letters : list string :=
  ["D"; "E"; "F"; "G"; "H"; "I"; "J"; "K"; "L"; "M"; "N"; "O"; "P"; "Q"; "R"; "S"; "T"; "U"; "V"; "W"; "X"; "Y"; "Z"].
Definition get_removable_drives (m : machine) : list string :=
  filter (fun d => match m d with Some _ => true | None => false end) drive_letters.

(** ** the scan *)
(** upload_ballots_component.py:150-157.  Simplified: the paths are left out, they follow from the drive and the name. *)
Record drive_info := mkInfo { di_drive : string; di_ballots : Z; di_location : string; di_device_file : string }.
Section Wizard.
  (** from_file(EncryptionDevice, ...).location of a text, None if it raises; the two readings of GuiUpload.v *)
  Variable location_of : string -> option string.
  Variable parse : string -> option sub_ballot.
  Variable device : string -> bool.
  (** 137-157 parse_drive *)
  Definition parse_drive (m : machine) (d : string) : res drive_info :=
    do device_files <- listdir (devices_dir m d);
    do device_file_name <- match device_files with [] => Err StopIteration | name :: _ => Ok name end;
    do text <- read_text (devices_dir m d) device_file_name;
    do location <- match location_of text with Some l => Ok l | None => Err PyException end;
    do ballots <- listdir (ballots_dir m d);
    Ok (mkInfo d (len ballots) location device_file_name).
  (** 121-135 scan_drives; an exception stands for the answer of handle_error, which has no "result" *)
  Definition scan_drives (m : machine) : res (option drive_info) :=
    do candidate_drives <- rmapM (parse_drive m) (filter (fun d => path_exists (ballots_dir m d) && path_exists (devices_dir m d)) (get_removable_drives m));
    Ok (hd_error candidate_drives).

  (** ** the upload *)
  (** 177-196, the loop over the ballot files with 201-213 create_ballot_from_file; [ids] gives the ids of the inserted
      documents, [num] is "ballot_num" *)
  Fixpoint wizard_loop (ids : nat -> string) (e upload : string) (dir : folder) (names : list string) (num : nat) (count duplicates : Z) (w : gdb) : batch_answer * gdb :=
    match names with
    | [] => (BatchDone count duplicates, w)
    | name :: names' =>
      match read_text dir name with
      | Err _ => (BatchFailed, w)
      | Ok contents =>
        match call_whole parse device (ids num) (UploadBallot upload e contents) w with
        | (Stored dup, w') => wizard_loop ids e upload dir names' (S num) count (if dup then duplicates + 1 else duplicates) w'
        | (_, w') => (BatchFailed, w')
        end
      end
    end.
  (** 159-199 upload_ballots with 215-222 create_ballot_upload_from_file.  Without a drive, the "result" is missing or
      None, and the subscript raises. *)
  Definition run_wizard (m : machine) (ids : nat -> string) (e : string) (w : gdb) : batch_answer * gdb :=
    match scan_drives m with
    | Ok (Some i) =>
      match read_text (devices_dir m (di_drive i)) (di_device_file i) with
      | Err _ => (BatchFailed, w)
      | Ok contents =>
        match call_whole parse device (ids 0%nat) (CreateUpload e contents) w with
        | (Created u, w') =>
          match listdir (ballots_dir m (di_drive i)) with
          | Err _ => (BatchFailed, w')
          | Ok names => wizard_loop ids e u (ballots_dir m (di_drive i)) names 1 (len names) 0 w'
          end
        | (_, w') => (BatchFailed, w')
        end
      end
    | _ => (BatchFailed, w)
    end.
End Wizard.
