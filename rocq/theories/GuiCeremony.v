(** * GuiCeremony: model of the key ceremony of electionguard_gui: the document kept in the database, the six
    stages, and the programs that run them.  Definitions only.

    Many programs (of guardians and administrators) work on one database.  A database call is atomic; between
    two calls of one program any calls of the others may come.  A program may stop anywhere and be started
    again.  Only one key ceremony is looked at: every call names its document, and the private files are kept
    apart by its id.

    Simplifications.  The document holds the values themselves, not their dictionaries of hex digits
    (db_serialization_service.py and the reading functions of key_ceremony_dto.py); GuiText.v has the same programs
    on the dictionaries, and C66 shows that they do the same.
    Names, dates and log lines are left out.  Each user works on one machine, so a private file is found by
    the user id; reading or writing that file happens together with the neighbouring database call. *)
From Verif Require Import Base Group Codec Hash DLog ElGamal ZK Poly Manifest Ballot Encrypt Ceremony.

(** ** the document: key_ceremony_service.py:42-62, read by key_ceremony_dto.py:20-37 *)
Record kc := mkKc { kc_count : Z; kc_quorum : Z; kc_joined : list string; kc_keys : list public_key;
  kc_other : list (string * list public_key); kc_backups : list backup; kc_shared : list (string * list backup);
  kc_verifs : list verification; kc_joint : option joint_key; kc_completed : bool }.
(** key_ceremony_service.py:42-62 create *)
Definition kc_create (count quorum : Z) : kc := mkKc count quorum [] [] [] [] [] [] None false.
(** components/create_key_ceremony_component.py:27-56 create_key_ceremony, without the name check *)
Definition create_key_ceremony (count quorum : Z) : option kc :=
  if count <? quorum then None else Some (kc_create count quorum).

(** the updates, key_ceremony_service.py:77-158 *)
Definition append_guardian_joined (u : string) (d : kc) : kc :=
  mkKc (kc_count d) (kc_quorum d) (kc_joined d ++ [u]) (kc_keys d) (kc_other d) (kc_backups d) (kc_shared d) (kc_verifs d) (kc_joint d) (kc_completed d).
Definition append_key (k : public_key) (d : kc) : kc :=
  mkKc (kc_count d) (kc_quorum d) (kc_joined d) (kc_keys d ++ [k]) (kc_other d) (kc_backups d) (kc_shared d) (kc_verifs d) (kc_joint d) (kc_completed d).
Definition append_other_key (l : list (string * list public_key)) (d : kc) : kc :=
  mkKc (kc_count d) (kc_quorum d) (kc_joined d) (kc_keys d) (kc_other d ++ l) (kc_backups d) (kc_shared d) (kc_verifs d) (kc_joint d) (kc_completed d).
Definition append_backups (l : list backup) (d : kc) : kc :=
  mkKc (kc_count d) (kc_quorum d) (kc_joined d) (kc_keys d) (kc_other d) (kc_backups d ++ l) (kc_shared d) (kc_verifs d) (kc_joint d) (kc_completed d).
Definition append_shared_backups (l : list (string * list backup)) (d : kc) : kc :=
  mkKc (kc_count d) (kc_quorum d) (kc_joined d) (kc_keys d) (kc_other d) (kc_backups d) (kc_shared d ++ l) (kc_verifs d) (kc_joint d) (kc_completed d).
Definition append_verifications (l : list verification) (d : kc) : kc :=
  mkKc (kc_count d) (kc_quorum d) (kc_joined d) (kc_keys d) (kc_other d) (kc_backups d) (kc_shared d) (kc_verifs d ++ l) (kc_joint d) (kc_completed d).
Definition append_joint_key (j : joint_key) (d : kc) : kc :=
  mkKc (kc_count d) (kc_quorum d) (kc_joined d) (kc_keys d) (kc_other d) (kc_backups d) (kc_shared d) (kc_verifs d) (Some j) (kc_completed d).
Definition set_complete (d : kc) : kc :=
  mkKc (kc_count d) (kc_quorum d) (kc_joined d) (kc_keys d) (kc_other d) (kc_backups d) (kc_shared d) (kc_verifs d) (kc_joint d) true.

(** key_ceremony_service.py:173-182 get_guardian_number *)
Fixpoint guardian_number_from (n : Z) (u : string) (l : list string) : res Z :=
  match l with
  | [] => Err ValueError
  | g :: l' => if eqb g u then Ok n else guardian_number_from (n + 1) u l'
  end.
Definition get_guardian_number (d : kc) (u : string) : res Z := guardian_number_from 1 u (kc_joined d).

(** ** key_ceremony_state_service.py, models/key_ceremony_states.py *)
Inductive kc_state :=
| PendingGuardiansJoin | PendingAdminAnnounce | PendingGuardianBackups | PendingAdminToShareBackups
| PendingGuardiansVerifyBackups | PendingAdminToPublishJointKey | CeremonyComplete.
(** 16-48 get_key_ceremony_state *)
Definition get_key_ceremony_state (d : kc) : kc_state :=
  if len (kc_joined d) <? kc_count d then PendingGuardiansJoin
  else if len (kc_other d) =? 0 then PendingAdminAnnounce
  else if len (kc_backups d) <? kc_count d ^ 2 then PendingGuardianBackups
  else if len (kc_shared d) =? 0 then PendingAdminToShareBackups
  else if len (kc_verifs d) <? kc_count d ^ 2 - kc_count d then PendingGuardiansVerifyBackups
  else match kc_joint d with None => PendingAdminToPublishJointKey | Some _ => CeremonyComplete end.

(** ** key_ceremony_dto.py *)
(** 80-85 find_key *)
Definition find_key (d : kc) (u : string) : res public_key :=
  match find_first (fun k => eqb (pk_owner k) u) (kc_keys d) with Some k => Ok k | None => Err PyException end.
(** 87-89 get_backup_count_for_user *)
Definition backup_count_for (d : kc) (u : string) : Z := len (filter (fun b => eqb (bk_owner b) u) (kc_backups d)).
(** 91-98 get_verification_count_for_user *)
Definition verification_count_for (d : kc) (u : string) : Z := len (filter (fun v => eqb (vf_designated v) u) (kc_verifs d)).
(** 105-114 get_shared_backups_for_guardian, 119-127 find_other_keys_for_user *)
Definition find_entry {A} (l : list (string * list A)) (u : string) : res (list A) :=
  match find_first (fun e => eqb (fst e) u) l with Some e => Ok (snd e) | None => Err StopIteration end.
(** 138-142 set_can_join *)
Definition can_join (d : kc) (user : option string) (admin : bool) : bool :=
  negb (match user with Some u => inb u (kc_joined d) | None => false end) && negb admin.

(** ** guardian_service.py *)
(** 84-90 make_mediator *)
Definition make_mediator (d : kc) : mediator := new_mediator "mediator_1" (mkDetails (kc_count d) (kc_quorum d)).
(** 93-98 announce_guardians *)
Definition announce_guardians (d : kc) : res mediator :=
  rfold (fun m u => do k <- find_key d u; Ok (md_announce m k)) (kc_joined d) (make_mediator d).
(** 72-81 make_guardian; [draw] gives the two random numbers of each coefficient (election_polynomial.py:65-95
    draws as many as the quorum) *)
Definition make_guardian (E : env) (draw : nat -> Z * Z) (u : string) (number : Z) (d : kc) : res guardian :=
  guardian_from_nonce E u number (kc_count d) (kc_quorum d) (map draw (seq 0 (Z.to_nat (kc_quorum d)))).
(** 30-49, 61-69 load_guardian_from_key_ceremony: the private file, written by 22-29 save_guardian *)
Definition load_guardian (files : dict string private_record) (u : string) (d : kc) : res guardian :=
  match dget u files with
  | None => Err PyException
  | Some r => Ok (guardian_from_private_record r (kc_count d) (kc_quorum d))
  end.
(** 71-79 load_other_keys *)
Definition load_other_keys (d : kc) (u : string) (g : guardian) : res guardian :=
  do ks <- find_entry (kc_other d) u; Ok (fold_left save_guardian_key ks g).

(** ** the stages, services/key_ceremony_stages *)
Inductive stage := S2Announce | S3MakeBackup | S4ShareBackup | S5VerifyBackup | S6PublishKey.
(** key_ceremony_s2_announce_service.py:35-52 announce *)
Definition s2_announce (d : kc) : res (list (string * list public_key)) :=
  do m <- announce_guardians d;
  rmapM (fun u => do ks <- get_optional (share_announced m (Some u)); Ok (u, ks)) (kc_joined d).
(** key_ceremony_s3_make_backup_service.py:25-37 run, up to the push *)
Definition s3_backups (E : env) (files : dict string private_record) (rnd : string -> Z) (u : string) (d : kc) : res (list backup) :=
  do g <- load_guardian files u d;
  do g1 <- load_other_keys d u g;
  let '(g2, r) := gd_generate_backups E rnd g1 in
  do _ <- r;
  Ok (gd_share_backups g2).
(** key_ceremony_s4_share_backup_service.py:36-48 share_backups *)
Definition s4_share (d : kc) : res (list (string * list backup)) :=
  do m <- announce_guardians d;
  let m1 := receive_backups m (kc_backups d) in
  rmapM (fun u => do o <- share_backups m1 (Some u);
                  match o with None => Err PyException | Some bs => Ok (u, bs) end) (kc_joined d).
(** key_ceremony_s5_verify_backup_service.py:36-45: the loop of run *)
Fixpoint s5_loop (E : env) (bs : list backup) (g : guardian) : res (list verification) :=
  match bs with
  | [] => Ok []
  | b :: bs' => let g1 := gd_save_backup g b in
                do v <- gd_verify_backup E g1 (bk_owner b);
                do vs <- s5_loop E bs' g1; Ok (v :: vs)
  end.
(** 29-50 run, up to the push *)
Definition s5_verify (E : env) (files : dict string private_record) (u : string) (d : kc) : res (list verification) :=
  do bs <- find_entry (kc_shared d) u;
  do g <- load_guardian files u d;
  do g1 <- load_other_keys d u g;
  s5_loop E bs g1.
(** key_ceremony_s6_publish_key_service.py:25-39 run, up to the first update *)
Definition s6_publish (E : env) (d : kc) : res joint_key :=
  do m <- announce_guardians d;
  let m1 := receive_backups m (kc_backups d) in
  let m2 := receive_verifications m1 (kc_verifs d) in
  match md_publish_joint_key E m2 with None => Err PyException | Some j => Ok j end.

(** should_run of the stages in the order of components/key_ceremony_details_component.py:57-63, with the loop
    of 94-97 that stops at the first.  The second test asks for the user id (services/authorization_service.py:
    24-27) whatever the state. *)
Definition kc_state_eqb (a b : kc_state) : bool :=
  match a, b with
  | PendingGuardiansJoin, PendingGuardiansJoin | PendingAdminAnnounce, PendingAdminAnnounce
  | PendingGuardianBackups, PendingGuardianBackups | PendingAdminToShareBackups, PendingAdminToShareBackups
  | PendingGuardiansVerifyBackups, PendingGuardiansVerifyBackups
  | PendingAdminToPublishJointKey, PendingAdminToPublishJointKey | CeremonyComplete, CeremonyComplete => true
  | _, _ => false
  end.
Definition choose_stage (user : option string) (admin : bool) (d : kc) : res (option stage) :=
  let st := get_key_ceremony_state d in
  if admin && kc_state_eqb st PendingAdminAnnounce then Ok (Some S2Announce)
  else match user with
       | None => Err PyException
       | Some u =>
         if negb admin && kc_state_eqb st PendingGuardianBackups && negb (0 <? backup_count_for d u) then Ok (Some S3MakeBackup)
         else if admin && kc_state_eqb st PendingAdminToShareBackups then Ok (Some S4ShareBackup)
         else if negb admin && kc_state_eqb st PendingGuardiansVerifyBackups && negb (0 <? verification_count_for d u) then Ok (Some S5VerifyBackup)
         else if admin && kc_state_eqb st PendingAdminToPublishJointKey then Ok (Some S6PublishKey)
         else Ok None
       end.

(** ** the programs *)
(** where a program stands between two database calls *)
Inductive phase :=
| Idle
| JoinPushed                        (* s1_join_service.py:17 done *)
| JoinNumbered (n : Z)              (* 19-20 done *)
| JoinSaved (k : public_key)        (* 24-26 done *)
| Running (s : stage) (snap : kc)   (* key_ceremony_details_component.py:90-95: [snap] was read and the stage chosen *)
| Published.                        (* s6_publish_key_service.py:37-39 done *)
Record client := mkClient { cl_user : option string; cl_admin : bool; cl_phase : phase }.
Record world := mkWorld { w_doc : kc; w_files : dict string private_record; w_clients : dict string client }.
Definition set_phase (w : world) (c : string) (cl : client) (p : phase) : dict string client :=
  dset c (mkClient (cl_user cl) (cl_admin cl) p) (w_clients w).

(** the steps; a random draw is part of the step that uses it *)
Inductive event :=
| Open (c : string) (user : option string) (admin : bool)  (* start program [c], or start it again after it stopped *)
| Join (c : string)                                        (* join_key_ceremony: the first update *)
| ReadNumber (c : string)
| MakeGuardian (c : string) (draw : nat -> Z * Z)
| PushKey (c : string)
| Changed (c : string)                                     (* on_key_ceremony_changed: read and choose *)
| RunStage (c : string) (rnd : string -> Z)                (* compute and update; an exception is only logged *)
| MarkComplete (c : string).                               (* the second update of stage 6 *)

Definition run_stage (E : env) (files : dict string private_record) (rnd : string -> Z) (u : string) (s : stage) (snap : kc) (d : kc) : res (kc * phase) :=
  match s with
  | S2Announce => do l <- s2_announce snap; Ok (append_other_key l d, Idle)
  | S3MakeBackup => do l <- s3_backups E files rnd u snap; Ok (append_backups l d, Idle)
  | S4ShareBackup => do l <- s4_share snap; Ok (append_shared_backups l d, Idle)
  | S5VerifyBackup => do l <- s5_verify E files u snap; Ok (append_verifications l d, Idle)
  | S6PublishKey => do j <- s6_publish E snap; Ok (append_joint_key j d, Published)
  end.

(** what program [c], standing at [cl], does in one step *)
Definition client_step (E : env) (w : world) (c : string) (cl : client) (e : event) : world :=
  match e, cl_phase cl with
  | Join _, Idle =>
    match cl_user cl with
    | None => w
    | Some u => mkWorld (append_guardian_joined u (w_doc w)) (w_files w) (set_phase w c cl JoinPushed)
    end
  | ReadNumber _, JoinPushed =>
    match cl_user cl with
    | None => w
    | Some u => match get_guardian_number (w_doc w) u with
                | Err _ => mkWorld (w_doc w) (w_files w) (set_phase w c cl Idle)
                | Ok n => mkWorld (w_doc w) (w_files w) (set_phase w c cl (JoinNumbered n))
                end
    end
  | MakeGuardian _ draw, JoinNumbered n =>
    match cl_user cl with
    | None => w
    | Some u => match make_guardian E draw u n (w_doc w) with
                | Err _ => mkWorld (w_doc w) (w_files w) (set_phase w c cl Idle)
                | Ok g => mkWorld (w_doc w) (dset u (export_private_data g) (w_files w)) (set_phase w c cl (JoinSaved (share_key g)))
                end
    end
  | PushKey _, JoinSaved k => mkWorld (append_key k (w_doc w)) (w_files w) (set_phase w c cl Idle)
  | Changed _, Idle =>
    match choose_stage (cl_user cl) (cl_admin cl) (w_doc w) with
    | Ok (Some s) => mkWorld (w_doc w) (w_files w) (set_phase w c cl (Running s (w_doc w)))
    | _ => w
    end
  | RunStage _ rnd, Running s snap =>
    match run_stage E (w_files w) rnd (match cl_user cl with Some u => u | None => EmptyString end) s snap (w_doc w) with
    | Err _ => mkWorld (w_doc w) (w_files w) (set_phase w c cl Idle)
    | Ok (d, p) => mkWorld d (w_files w) (set_phase w c cl p)
    end
  | MarkComplete _, Published => mkWorld (set_complete (w_doc w)) (w_files w) (set_phase w c cl Idle)
  | _, _ => w
  end.
Definition event_client (e : event) : string :=
  match e with
  | Open c _ _ | Join c | ReadNumber c | MakeGuardian c _ | PushKey c | Changed c | RunStage c _ | MarkComplete c => c
  end.
Definition gui_step (E : env) (w : world) (e : event) : world :=
  match e with
  | Open c user admin => mkWorld (w_doc w) (w_files w) (dset c (mkClient user admin Idle) (w_clients w))
  | _ => match dget (event_client e) (w_clients w) with
         | None => w
         | Some cl => client_step E w (event_client e) cl e
         end
  end.
Definition gui_run (E : env) (w : world) (h : list event) : world := fold_left (gui_step E) h w.
(** a ceremony just created, no program running *)
Definition gui_start (count quorum : Z) : world := mkWorld (kc_create count quorum) [] [].
