(** * Encrypt: model of encrypt.py.  Definitions only.
    Random draws and clock readings are arguments. *)
From Verif Require Import Base Group Codec Hash DLog ElGamal ZK Manifest Ballot.

(** bytes of a Python str already in UTF-8 *)
Definition string_bytes (s : string) : list Z :=
  map (fun c => Z.of_N (N_of_ascii c)) (list_ascii_of_string s).
Definition comma_sep (l : list string) : string := String.concat ", " l.

(** encrypt.py:46-59 ContestData and its JSON text (serialize.py:84-87 to_raw: json.dumps with the
    default separators; string literals by [jstr]) *)
Definition json_opt {A} (f : A -> string) (o : option A) : string :=
  match o with Some a => f a | None => "null"%string end.
Definition contest_data_json (E : env) (error : option string) (error_data : option (list string))
    (wi : option (dict string string)) : string :=
  ("{" ++ jstr E "error" ++ ": " ++ json_opt (jstr E) error ++ ", "
   ++ jstr E "error_data" ++ ": "
   ++ json_opt (fun l => "[" ++ comma_sep (map (jstr E) l) ++ "]") error_data ++ ", "
   ++ jstr E "write_ins" ++ ": "
   ++ json_opt (fun d => "{" ++ comma_sep (map (fun kv => jstr E (fst kv) ++ ": " ++ jstr E (snd kv)) d) ++ "}") wi
   ++ "}")%string.
(** serialize.py:47-48 padded_encode to DataSize.Bytes_512 *)
Definition padded_encode (text : string) : res (list Z) := add_padding (string_bytes text) 512 false.

(** encrypt.py:140-160 selection_from *)
Definition selection_from (d : selection_desc) (placeholder affirmative : bool) : pt_selection :=
  mkPsel (sd_id d) (if affirmative then 1 else 0) placeholder None.
(** encrypt.py:163-177 contest_from *)
Definition contest_from (d : contest_desc) : pt_contest :=
  mkPcon (cd_id d) (map (fun s => selection_from s false false) (cd_selections d)).

(** encrypt.py:180-259 encrypt_selection *)
Definition encrypt_selection (E : env) (s : pt_selection) (d : selection_desc) (K Q nonce_seed : Z)
    (placeholder verify : bool) : res (option ct_selection) :=
  if negb (pt_selection_is_valid s (sd_id d)) then Ok None
  else
    let dh := selection_desc_hash E d in
    let ns := mk_nonces E dh [HElem nonce_seed] in
    do selection_nonce <- nonce_get E ns (sd_seq d);
    let proof_nonce := nonce_at E ns 0 in
    do enc <- elgamal_encrypt E (ps_vote s) selection_nonce K;
    match enc with
    | None => Ok None
    | Some c =>
      do es <- make_ct_selection E (ps_id s) (sd_seq d) dh c K Q proof_nonce (ps_vote s)
                 placeholder (Some selection_nonce);
      match cs_proof es with
      | None => Ok None
      | Some _ =>
        if negb verify then Ok (Some es)
        else if selection_is_valid_encryption E es dh K Q then Ok (Some es) else Ok None
      end
    end.

(** encrypt.py:317-359: the loop over the real options.  Returns the encrypted selections and the
    running selection_count, or None as soon as one option fails. *)
Fixpoint encrypt_options (E : env) (ds : list selection_desc) (sels : list pt_selection) (overvote : bool)
    (K Q contest_nonce : Z) (verify : bool) (count : Z) : res (option (list ct_selection * Z)) :=
  match ds with
  | [] => Ok (Some ([], count))
  | d :: ds' =>
    let chosen := if overvote then None
                  else find_first (fun s => eqb (ps_id s) (sd_id d)) sels in
    let '(s, count) := match chosen with
                       | Some s => (s, count + ps_vote s)
                       | None => (selection_from d false false, count)
                       end in
    do o <- encrypt_selection E s d K Q contest_nonce false verify;
    match o with
    | None => Ok None
    | Some es =>
      do r <- encrypt_options E ds' sels overvote K Q contest_nonce verify count;
      match r with
      | None => Ok None
      | Some (rest, n) => Ok (Some (es :: rest, n))
      end
    end
  end.

(** encrypt.py:366-390: the loop over the placeholders *)
Fixpoint encrypt_placeholders (E : env) (ds : list selection_desc) (number_elected : Z)
    (K Q contest_nonce : Z) (verify : bool) (count : Z) : res (option (list ct_selection)) :=
  match ds with
  | [] => Ok (Some [])
  | d :: ds' =>
    let select := count <? number_elected in
    let count := if select then count + 1 else count in
    do o <- encrypt_selection E (selection_from d true select) d K Q contest_nonce true verify;
    match o with
    | None => Ok None
    | Some es =>
      do r <- encrypt_placeholders E ds' number_elected K Q contest_nonce verify count;
      match r with None => Ok None | Some rest => Ok (Some (es :: rest)) end
    end
  end.

(** encrypt.py:287-300: the classification of the contest.  None means "return None". *)
Definition contest_error (c : contest_check) : option (option string * option (list string) * bool) :=
  match c with
  | CheckOk => Some (None, None, false)
  | CheckNull => Some (Some "nullvote"%string, None, false)
  | CheckUnder => Some (Some "undervote"%string, None, false)
  | CheckOver ids => Some (Some "overvote"%string, Some ids, true)
  | CheckInvalid => None
  end.

(** encrypt.py:262-423 encrypt_contest *)
Definition encrypt_contest (E : env) (c : pt_contest) (d : contest_ph) (K Q nonce_seed : Z) (verify : bool)
  : res (option ct_contest) :=
  match contest_error (pt_contest_valid c d) with
  | None => Ok None
  | Some (error, error_data, overvote) =>
    let desc := ph_desc d in
    let dh := contest_hash E desc in
    let ns := mk_nonces E dh [HElem nonce_seed] in
    do contest_nonce <- nonce_get E ns (cd_seq desc);
    let cp_nonce := nonce_at E ns 0 in
    do r <- encrypt_options E (cd_selections desc) (pc_selections c) overvote K Q contest_nonce verify 0;
    match r with
    | None => Ok None
    | Some (real, count) =>
      do ph <- encrypt_placeholders E (ph_placeholders d) (cd_number_elected desc) K Q contest_nonce verify count;
      match ph with
      | None => Ok None
      | Some ph =>
        do data <- padded_encode (contest_data_json E error error_data (write_ins c));
        do ext <- hashed_elgamal_encrypt E data
                    (nonce_at E (mk_nonces E contest_nonce [HStr "constant-extended-data"]) 0) K Q;
        do ec <- make_ct_contest E (pc_id c) (cd_seq desc) dh (real ++ ph) K Q cp_nonce
                   (cd_number_elected desc) (Some contest_nonce) (Some ext);
        if verify || match bc_proof ec with None => true | Some _ => false end then
          do v <- contest_is_valid_encryption E ec dh K Q;
          if v then Ok (Some ec) else Ok None
        else Ok (Some ec)
      end
    end
  end.

(** encrypt.py:516-550 encrypt_ballot_contests *)
Fixpoint encrypt_contests (E : env) (ds : list contest_ph) (cs : list pt_contest) (K Q nonce_seed : Z)
    (verify : bool) : res (option (list ct_contest)) :=
  match ds with
  | [] => Ok (Some [])
  | d :: ds' =>
    let use := match find_first (fun c => eqb (pc_id c) (cd_id (ph_desc d))) cs with
               | Some c => c | None => contest_from (ph_desc d) end in
    do o <- encrypt_contest E use d K Q nonce_seed verify;
    match o with
    | None => Ok None
    | Some ec =>
      do r <- encrypt_contests E ds' cs K Q nonce_seed verify;
      match r with None => Ok None | Some rest => Ok (Some (ec :: rest)) end
    end
  end.

(** encrypt.py:431-513 encrypt_ballot.  [rand] is the rand_q() draw used when no nonce is given and
    [now] the clock.  Line 500 ([if not code]) never fires: an ElementModQ is a non-empty hex string
    (big_integer.py:46-55). *)
Definition encrypt_ballot (E : env) (b : pt_ballot) (im : internal_manifest) (cx : context)
    (encryption_seed : Z) (nonce : option Z) (verify : bool) (rand now : Z) : res (option ct_ballot) :=
  do style <- get_ballot_style im (pb_style b);
  if negb (pt_ballot_is_valid b (bs_id style)) then Ok None
  else
    let master := match nonce with Some n => n | None => rand end in
    let seed := ballot_nonce_seed E (im_hash im) (pb_id b) master in
    do ds <- get_contests_for im (pb_style b);
    do r <- encrypt_contests E ds (pb_contests b) (cx_key cx) (cx_ext_hash cx) seed verify;
    match r with
    | None => Ok None
    | Some cs =>
      let eb := make_ct_ballot E (pb_id b) (pb_style b) (im_hash im) (Some encryption_seed) cs
                  (Some master) None None now in
      if negb verify then Ok (Some eb)
      else
        do v <- ballot_is_valid_encryption E eb (im_hash im) (cx_key cx) (cx_ext_hash cx);
        if v then Ok (Some eb) else Ok None
    end.

(** encrypt.py:62-94 EncryptionDevice *)
Record device := mkDevice {
  dv_id : Z; dv_session : Z; dv_launch : Z; dv_location : string }.
Definition device_hash (E : env) (d : device) : Z :=
  get_hash_for_device E (dv_id d) (dv_session d) (dv_launch d) (dv_location d).

(** encrypt.py:97-129 EncryptionMediator: its mutable state is the seed for the next ballot. *)
Record enc_mediator := mkEncMed { em_manifest : internal_manifest; em_context : context; em_seed : Z }.
Definition new_mediator (E : env) (im : internal_manifest) (cx : context) (d : device) : enc_mediator :=
  mkEncMed im cx (device_hash E d).
(** 118-129 encrypt; an exception leaves the seed unchanged *)
Definition mediator_encrypt (E : env) (m : enc_mediator) (b : pt_ballot) (rand now : Z)
  : enc_mediator * res (option ct_ballot) :=
  let r := encrypt_ballot E b (em_manifest m) (em_context m) (em_seed m) None false rand now in
  match r with
  | Ok (Some eb) => (mkEncMed (em_manifest m) (em_context m) (cb_code eb), r)
  | _ => (m, r)
  end.
