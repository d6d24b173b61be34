(** * GuiWatch: how the programs of the graphical application learn that a key ceremony changed
    (services/db_watcher_service.py, components/key_ceremony_details_component.py).

    GuiCeremony.v lets a program look at the document at any moment (event [Changed]).  Here a program looks only
    when the code does: once when the page of the ceremony is opened, and then for every message it receives.
    The messages are the rows of the collection db_deltas, in the order of their insertion; only the rows of this
    ceremony are counted, since the test of db_watcher_service.py:55 skips the others.
    Simplifications: the collection never overflows, the cursor stays alive, a page is left only by closing the
    program (event [Open] starts it again), and a program does not read a message while it joins. *)
From Verif Require Import Base Group Codec Hash ElGamal ZK Poly Ceremony GuiCeremony.
Import List.

(** where the call of key_ceremony_details_component.py:72-88 watch_key_ceremony stands *)
Inductive watching :=
| NotLooked              (* before line 76 *)
| Looked (n : Z)         (* line 76 is done; [n] messages had been sent when it read the document *)
| Watching (i : Z).      (* inside watch_database: the first [i] messages are behind the cursor *)
(** [wa_owes]: the program has changed the document and has not yet called notify_changed, the last line of every
    stage (s1_join_service.py:31, s2_announce_service.py:33, s3_make_backup_service.py:37,
    s4_share_backup_service.py:34, s5_verify_backup_service.py:50, s6_publish_key_service.py:42) *)
Record watch := mkWatch { wa_state : watching; wa_owes : bool }.
Record watch_world := mkWatchWorld { ww_world : world; ww_sent : Z; ww_watches : dict string watch }.

Inductive watch_event :=
| Step (e : event)       (* a step of GuiCeremony.v other than [Changed] *)
| FirstLook (c : string) (* key_ceremony_details_component.py:76: on_key_ceremony_changed before anything is watched *)
| Burn (c : string)      (* db_watcher_service.py:38-43: open the cursor and skip the messages there are *)
| Deliver (c : string)   (* 51-58: the next message, and the call of on_key_ceremony_changed *)
| Notify (c : string).   (* 28-31 notify_changed *)

Definition idle (w : world) (c : string) : bool :=
  match dget c (w_clients w) with Some cl => match cl_phase cl with Idle => true | _ => false end | None => false end.
(** does step [e] end with the last change of a stage, so that only notify_changed is left to do?  Stage 6 makes
    two changes and calls notify_changed after the second. *)
Definition changes (E : env) (w : world) (e : event) : bool :=
  match dget (event_client e) (w_clients w) with
  | None => false
  | Some cl =>
    match e, cl_phase cl with
    | PushKey _, JoinSaved _ => true
    | RunStage _ rnd, Running s snap =>
      match run_stage E (w_files w) rnd (match cl_user cl with Some u => u | None => EmptyString end) s snap (w_doc w) with
      | Ok (_, Idle) => true
      | _ => false
      end
    | MarkComplete _, Published => true
    | _, _ => false
    end
  end.

Definition watch_step (E : env) (w : watch_world) (we : watch_event) : watch_world :=
  let '(mkWatchWorld b sent ws) := w in
  match we with
  | Step (Open c u a) => mkWatchWorld (gui_step E b (Open c u a)) sent (dset c (mkWatch NotLooked false) ws)
  | Step (Changed _) => w
  | Step e =>
    match dget (event_client e) ws with
    | Some (mkWatch s false) => mkWatchWorld (gui_step E b e) sent (dset (event_client e) (mkWatch s (changes E b e)) ws)
    | _ => w
    end
  | FirstLook c =>
    match dget c ws with
    | Some (mkWatch NotLooked false) =>
      if idle b c then mkWatchWorld (gui_step E b (Changed c)) sent (dset c (mkWatch (Looked sent) false) ws) else w
    | _ => w
    end
  | Burn c =>
    match dget c ws with
    | Some (mkWatch (Looked _) false) => if idle b c then mkWatchWorld b sent (dset c (mkWatch (Watching sent) false) ws) else w
    | _ => w
    end
  | Deliver c =>
    match dget c ws with
    | Some (mkWatch (Watching i) false) =>
      if idle b c && (i <? sent) then mkWatchWorld (gui_step E b (Changed c)) sent (dset c (mkWatch (Watching (i + 1)) false) ws) else w
    | _ => w
    end
  | Notify c =>
    match dget c ws with
    | Some (mkWatch s true) => mkWatchWorld b (sent + 1) (dset c (mkWatch s false) ws)
    | _ => w
    end
  end.
Definition watch_run (E : env) (w : watch_world) (h : list watch_event) : watch_world := fold_left (watch_step E) h w.
Definition watch_start (n q : Z) : watch_world := mkWatchWorld (gui_start n q) 0 [].
