(** * Report: model of the pages that show a decrypted tally or spoiled ballot (electionguard_gui: plaintext_ballot_service,
    view_tally_component, view_spoiled_ballot_component) and of the results printed on the command line
    (electionguard_cli: print_results_step).  Definitions only. *)
From Verif Require Import Base Group Hash ElGamal Manifest Ballot Tally Ceremony Shares GuiUpload GuiDecrypt.
From Coq Require Import List QArith.
Local Open Scope Z_scope.

(** plaintext_ballot_service.py:126-133 one of "selections"; the percentage is the exact quotient instead of a float *)
Record rep_line := mkLine { rl_name : string; rl_tally : Z; rl_party : string; rl_percent : Q }.
(** 38-43 and 73-77 one contest: "name", "selections", "nonWriteInTotal", "writeInTotal" *)
Record rep_row := mkRow { rr_name : string; rr_lines : list rep_line; rr_total : Z; rr_write_ins : option Z }.
(** [d[k]] *)
Definition dict_at {V} (d : dict string V) (k : string) : res V := match dget k d with Some v => Ok v | None => Err KeyError end.
(** 96-97 and 113-115 the double loop over the contests and their selections *)
Definition all_options (m : manifest) : list selection_desc := flat_map cd_selections (mf_contests m).
(** 80-99 _get_selection_parties *)
Definition selection_parties (m : manifest) : res (dict string string) :=
  let parties := dict_of (map (fun p => (pa_id p, get_i8n_value (pa_name p) "en" "")) (mf_parties m)) in
  do candidates <- rfold (fun d c => match ca_party_id c with
                                     | None => Ok d
                                     | Some p => do n <- dict_at parties p; Ok (dset (ca_id c) n d)
                                     end) (mf_candidates m) [];
  Ok (fold_left (fun d s => dset (sd_id s) (match dget (sd_candidate_id s) candidates with Some p => p | None => ""%string end) d) (all_options m) []).
(** 102-117 _get_candidate_write_ins *)
Definition candidate_write_ins (m : manifest) : res (dict string bool) :=
  let candidates := dict_of (map (fun c => (ca_id c, match ca_is_write_in c with Some true => true | _ => false end)) (mf_candidates m)) in
  rfold (fun d s => do w <- dict_at candidates (sd_candidate_id s); Ok (dset (sd_id s) w d)) (all_options m) [].
(** 120-136 _get_selections_report *)
Definition selections_report (l : list plain_sel) (names parties : dict string string) (total : Z) : res (list rep_line) :=
  rmapM (fun s =>
    do n <- dict_at names (pl_id s);
    let party := match dget (pl_id s) parties with Some p => p | None => ""%string end in
    do percent <- (if pl_tally s =? 0 then Ok 0%Q else if total =? 0 then Err ZeroDivisionError else Ok (inject_Z (pl_tally s) / inject_Z total)%Q);
    Ok (mkLine n (pl_tally s) party percent)) l.
(** the comprehensions 55-59 and 66-70: [want] is what the filter asks of the write-in flag *)
Fixpoint with_flag (write_ins : dict string bool) (want : bool) (l : list plain_sel) : res (list plain_sel) :=
  match l with
  | [] => Ok []
  | s :: l' => do w <- dict_at write_ins (pl_id s); do r <- with_flag write_ins want l'; Ok (if Bool.eqb w want then s :: r else r)
  end.
(** 46-77 _get_contest_details, with the name of the contest (34-37) *)
Definition contest_details (name : string) (l : list plain_sel) (names : dict string string) (write_ins : dict string bool) (parties : dict string string) : res rep_row :=
  do non_write_in <- with_flag write_ins false l;
  let total := sumZ (map pl_tally non_write_in) in
  do lines <- selections_report non_write_in names parties total;
  do w <- with_flag write_ins true l;
  Ok (mkRow name lines total (if 0 <? len w then Some (sumZ (map pl_tally w)) else None)).
(** 8-43 get_plaintext_ballot_report and _get_tally_report *)
Definition get_plaintext_ballot_report (m : manifest) (p : plain_tally) : res (list rep_row) :=
  let names := get_selection_names m "en" in
  let contest_names := get_contest_names m in
  do write_ins <- candidate_write_ins m;
  do parties <- selection_parties m;
  rmapM (fun c => contest_details (match dget (pn_id c) contest_names with Some n => n | None => "n/a"%string end) (dvals (pn_selections c)) names write_ins parties)
    (dvals (pt_contests p)).

(** ** the pages; handle_error is the exception *)
(** view_tally_component.py:29-46 get_tally, decryption_dto.py:148-151 get_plaintext_tally *)
Definition view_tally (w : gdb) (ds : list decryption) (id : string) : res (list rep_row) :=
  match find_decryption ds id with
  | None => Err PyException
  | Some d =>
    match find_election w (dy_election d) with
    | None => Err PyException
    | Some x => match dy_result d with None => Err ValueError | Some r => get_plaintext_ballot_report (el_manifest x) (rs_tally r) end
    end
  end.
(** view_spoiled_ballot_component.py:57-63 get_spoiled_ballot_by_id *)
Definition spoiled_by_id (l : list plain_tally) (id : string) : res plain_tally :=
  match filter (fun p => String.eqb (pt_id p) id) l with [] => Err StopIteration | p :: _ => Ok p end.
(** 29-54 get_spoiled_ballot, decryption_dto.py:153-157 get_plaintext_spoiled_ballots *)
Definition view_spoiled_ballot (w : gdb) (ds : list decryption) (id ballot : string) : res (list rep_row) :=
  match find_decryption ds id with
  | None => Err PyException
  | Some d =>
    match find_election w (dy_election d) with
    | None => Err PyException
    | Some x => do p <- spoiled_by_id (match dy_result d with None => [] | Some r => dvals (rs_spoiled r) end) ballot; get_plaintext_ballot_report (el_manifest x) p
    end
  end.

(** ** the command line *)
(** print_results_step.py:15-31 _print_tally and the body of 33-45 _print_spoiled_ballots: the contest's name and the lines
    below it; nothing is shown when a name is missing, although the lines before it have been printed *)
Definition print_tally (m : manifest) (p : plain_tally) : res (list (option string * list (string * Z))) :=
  let names := get_selection_names m "en" in
  rmapM (fun c => do l <- rmapM (fun s => do n <- dict_at names (pl_id s); Ok (n, pl_tally s)) (dvals (pn_selections c)); Ok (dget (pn_id c) (get_contest_names m), l)) (dvals (pt_contests p)).
