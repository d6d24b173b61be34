(** * GuiDecWatch: how the administrator's page of a decryption learns that a guardian joined
    (services/db_watcher_service.py, components/view_decryption_component.py,
    web/components/admin/view-decryption-admin-component.js).  Definitions only.

    In GuiDecrypt.v somebody looks at a decryption at any moment (event [StartView]).  Here the page looks when
    the code does: when it is opened, and for every message it receives.  The messages are the rows of the
    collection db_deltas, in the order of their insertion.
    Simplifications: the collection never overflows and the cursor stays alive; a program has one page; the
    guardians' pages only show the document and are left out; showing the page again after a message
    (refresh_decryption, which reads and changes nothing) is left out. *)
From Verif Require Import Base Group Hash ElGamal Manifest Ballot Tally Ceremony Shares GuiUpload GuiDecrypt.
From Coq Require Import List.

(** where view-decryption-admin-component.js:63-74 mounted stands *)
Inductive page_state :=
| PgNew                       (* before line 66, get_decryption(false) *)
| PgRunning (i : nat)         (* inside it: view_decryption_component.py:88 runs stage 2, which is the i-th call *)
| PgLooked (n : nat)          (* get_decryption has returned a decryption that is not completed; there were [n] messages when it was read *)
| PgWatching (k : nat)        (* inside watch_database: the first [k] messages are behind the cursor *)
| PgHandling (i k : nat)      (* the same, and on_decryption_changed runs stage 2, which is the i-th call *)
| PgDone                      (* the decryption was completed: nothing is watched (lines 69-73) *)
| PgFailed                    (* get_decryption answered with an error: nothing is watched (lines 69-73) *)
| PgClosed.                   (* 75-78 unmounted, or the program stopped *)
Record page := mkPage { pg_doc : string; pg_state : page_state }.
(** [dx_rows]: "changed_id" of the rows of db_deltas.  [dx_owes]: the calls that have made their last change and have not yet
    called notify_changed, with the id they are going to send (decryption_s1_join_service.py:57, decryption_s2_announce_service.py:90) *)
Record dx_world := mkDx { dx_dec : dec_world; dx_rows : list string; dx_owes : list (nat * string); dx_pages : list page }.

Inductive dx_event :=
| Do (ev : dec_event)         (* a step of GuiDecrypt.v *)
| Tell (i : nat)              (* notify_changed, at the end of the i-th call *)
| Stop (i : nat)              (* the program of the i-th call stops instead *)
| Row (s : string)            (* notify_changed of anything else, as decryption_service.py:66 *)
| OpenPage (id : string)
| Look (p : nat)              (* view_decryption_component.py:84-88: the page reads the document *)
| Back (p : nat)              (* stage 2 has come to its end: 89-91 the document is read again, or 70 *)
| Burn (p : nat)              (* db_watcher_service.py:38-43: open the cursor and skip the messages there are *)
| Deliver (p : nat)           (* 51-58: the next message *)
| Leave (p : nat).

Definition has_result (d : decryption) : bool := match dy_result d with Some _ => true | None => false end.
Definition is_owed (i : nat) (owes : list (nat * string)) : bool := existsb (fun x => Nat.eqb (fst x) i) owes.
(** the id that call [c] is going to send when its next database call is its last change *)
Definition last_change (c : dec_call) : option string := match c with JoinMark id _ | ViewSet id _ => Some id | _ => None end.
Definition set_page (p : nat) (s : page_state) (l : list page) : list page :=
  match nth_error l p with Some x => set_nth p (mkPage (pg_doc x) s) l | None => l end.
(** the two steps of a call that reads the document *)
Definition reading (i : nat) (id : string) : list dec_event := [StartView true id; Step i true (fun _ => true) (fun _ => 0)].
(** what the page does with the document it read: view_decryption_component.py:85-92 and
    view-decryption-admin-component.js:69-73; [i] is the number of the call, [n] the number of messages *)
Definition after_look (ds : list decryption) (id : string) (i n : nat) : page_state :=
  match find_decryption ds id with
  | None => PgFailed
  | Some d => if should_run true d then PgRunning i else if has_result d then PgDone else PgLooked n
  end.
(** view_decryption_component.py:60-70 on_decryption_changed: an error is shown, and the watching goes on *)
Definition after_message (ds : list decryption) (id : string) (i k : nat) : page_state :=
  match find_decryption ds id with Some d => if should_run true d then PgHandling i k else PgWatching k | None => PgWatching k end.

Section Watch.
  Variable E : env.
  Variable parse : string -> option sub_ballot.
  Variable device : string -> bool.
  Variable disk : string -> string -> option private_record.
  Notation run := (dec_run E parse device disk).
  (** the events of GuiDecrypt.v that [e] stands for *)
  Definition plain (w : dx_world) (e : dx_event) : list dec_event :=
    match e with
    | Do ev => [ev]
    | Look p => match nth_error (dx_pages w) p with Some (mkPage id PgNew) => reading (length (dw_calls (dx_dec w))) id | _ => [] end
    | Deliver p =>
      match nth_error (dx_pages w) p with
      | Some (mkPage id (PgWatching k)) =>
        match nth_error (dx_rows w) k with
        | Some s => if String.eqb s id then reading (length (dw_calls (dx_dec w))) id else []
        | None => []
        end
      | _ => []
      end
    | _ => []
    end.
  Definition owes_after (w : dec_world) (ev : dec_event) (owes : list (nat * string)) : list (nat * string) :=
    match ev with
    | Step i _ _ _ =>
      match nth_error (dw_calls w) i with
      | Some c => match last_change c with Some id => owes ++ [(i, id)] | None => owes end
      | None => owes
      end
    | _ => owes
    end.
  Definition dx_step (w : dx_world) (e : dx_event) : dx_world :=
    let '(mkDx d rows owes pages) := w in
    let d' := run d (plain w e) in
    let i0 := length (dw_calls d) in
    match e with
    | Do ev => mkDx d' rows (owes_after d ev owes) pages
    | Tell i =>
      mkDx d (rows ++ map snd (filter (fun x => Nat.eqb (fst x) i) owes)) (filter (fun x => negb (Nat.eqb (fst x) i)) owes) pages
    | Stop i => mkDx d rows (filter (fun x => negb (Nat.eqb (fst x) i)) owes) pages
    | Row s => mkDx d (rows ++ [s]) owes pages
    | OpenPage id => mkDx d rows owes (pages ++ [mkPage id PgNew])
    | Look p =>
      match nth_error pages p with
      | Some (mkPage id PgNew) => mkDx d' rows owes (set_page p (after_look (dw_docs d) id i0 (length rows)) pages)
      | _ => w
      end
    | Back p =>
      match nth_error pages p with
      | Some (mkPage id (PgRunning i)) =>
        match nth_error (dw_calls d) i with
        | Some (Finished true) => if is_owed i owes then w else
            mkDx d rows owes (set_page p (match find_decryption (dw_docs d) id with
                                          | None => PgFailed
                                          | Some x => if has_result x then PgDone else PgLooked (length rows)
                                          end) pages)
        | Some (Finished false) => mkDx d rows owes (set_page p PgFailed pages)
        | _ => w
        end
      | Some (mkPage id (PgHandling i k)) =>
        match nth_error (dw_calls d) i with
        | Some (Finished _) => if is_owed i owes then w else mkDx d rows owes (set_page p (PgWatching k) pages)
        | _ => w
        end
      | _ => w
      end
    | Burn p =>
      match nth_error pages p with
      | Some (mkPage id (PgLooked _)) => mkDx d rows owes (set_page p (PgWatching (length rows)) pages)
      | _ => w
      end
    | Deliver p =>
      match nth_error pages p with
      | Some (mkPage id (PgWatching k)) =>
        match nth_error rows k with
        | Some s => mkDx d' rows owes (set_page p (if String.eqb s id then after_message (dw_docs d) id i0 (S k) else PgWatching (S k)) pages)
        | None => w
        end
      | _ => w
      end
    | Leave p => mkDx d rows owes (set_page p PgClosed pages)
    end.
  Definition dx_run (w : dx_world) (h : list dx_event) : dx_world := fold_left dx_step h w.
  (** the events of GuiDecrypt.v of a whole history *)
  Fixpoint plains (w : dx_world) (h : list dx_event) : list dec_event :=
    match h with [] => [] | e :: h' => plain w e ++ plains (dx_step w e) h' end.
End Watch.
(** decryption_dto.py:88-93 get_status *)
Definition get_status (d : decryption) : string :=
  if len (dy_joined d) <? dy_guardians d then "waiting for all guardians to join"
  else match dy_result d with None => "performing decryption" | Some _ => "decryption complete" end.
