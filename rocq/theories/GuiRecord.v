(** * GuiRecord: exporting the election record from the graphical application. *)
From Verif Require Import Base Group Codec Hash ElGamal Manifest Ballot Encrypt Box Tally Ceremony Shares GuiUpload GuiDecrypt GuiElection Cli.
From Coq Require Import List.

(** models/election_dto.py:117-120 get_guardian_records: no records are an error.  The records are part of the election's document, which the
    creation of the election writes (GuiElection.v) and nothing changes later. *)
Definition stored_records (s : setup) (e : string) : res (list guardian_record) :=
  match find_first (fun x => String.eqb (el_id (ne_election x)) e) (su_elections s) with
  | None => Err PyException
  | Some x => match ne_records x with [] => Err PyException | r :: l => Ok (r :: l) end
  end.
(** election_dto.py:106-115 get_encryption_devices: one device for each upload of the election; [dev] gives the device that was stored with an upload *)
Definition stored_devices (dev : string -> device) (x : election) : list device := map (fun u => dev (fst u)) (el_uploads x).
(** components/export_election_record_component.py:51-87 export_election_record.  [ds] are the decryptions, [w] the database when the election is
    read and [w'] when the ballots are listed, [net] what the attempts to read a ballot meet, [dk] the disk.  decryption_dto.py:137-156: a decryption
    without a result has no plaintext tally, which is an error.  The values come back from the database as they went in. *)
Definition export_election_record (E : env) (parse : string -> option sub_ballot) (dev : string -> device) (s : setup) (ds : list decryption) (w : gdb)
    (net : doc_id -> nat -> option gdb) (w' : gdb) (id location : string) (dk : disk) : disk * res unit :=
  match (do d <- match find_decryption ds id with Some d => Ok d | None => Err PyException end;
         do x <- match find_election w (dy_election d) with Some x => Ok x | None => Err PyException end;
         do cx <- match el_context x with Some cx => Ok cx | None => Err PyException end;
         let ballots := gui_ballots parse net w' (el_id x) in
         do r <- match dy_result d with Some r => Ok r | None => Err ValueError end;
         do records <- stored_records s (el_id x);
         Ok (record_files E temp_dir (el_manifest x) cx (stored_devices dev x) ballots (dvals (rs_spoiled r)) (rs_ciphertext r) (rs_tally r) records (rs_lagrange r))) with
  | Err e => (dk, Err e)
  | Ok files => export_archive dk files (Some location)
  end.
