(** * SpecGuiDecWatch: the administrator's page of a decryption, and the messages that reach it. *)
From Verif Require Import Base Group Hash ElGamal ZK Spec Manifest Ballot Encrypt SpecElection Box Tally SpecTally Ceremony SpecCeremony Shares SpecShares SpecEndToEnd
  GuiUpload SpecUpload GuiDecrypt SpecGuiDecrypt GuiDecWatch.
From Coq Require Import List.

(** everything that happens, from a database without uploads and decryptions on *)
Definition watched (E : env) (parse : string -> option sub_ballot) (device : string -> bool) (disk : string -> string -> option private_record) (w : gdb) (h : list dx_event) : dx_world :=
  dx_run E parse device disk (mkDx (mkDecWorld (mkUpWorld w []) [] []) [] [] []) h.
(** no pool of worker processes fails, no reading of a ballot fails, nothing is uploaded *)
Definition all_pools_work (h : list dx_event) : Prop := forall i net up rnd, In (Do (Step i net up rnd)) h -> forall path, up path = true.
Definition all_reads_work (h : list dx_event) : Prop := forall i net up rnd, In (Do (Step i net up rnd)) h -> net = true.
Definition nothing_uploaded (h : list dx_event) : Prop := forall ev, ~ In (Do (Uploads ev)) h.
(** during [h2], which follows [h1], guardian [user] starts to join the decryption [id], and comes to the end of it *)
Definition joins (E : env) (parse : string -> option sub_ballot) (device : string -> bool) (disk : string -> string -> option private_record) (w : gdb) (h1 h2 : list dx_event) (user id : string) : Prop :=
  let calls h := dw_calls (dx_dec (watched E parse device disk w (h1 ++ h))) in
  exists ha hb ok, h2 = ha ++ Do (StartJoin user id) :: hb /\ nth_error (calls h2) (List.length (calls ha)) = Some (Finished ok).
(** somebody has changed [id] and is going to send the message *)
Definition to_be_told (w : dx_world) (id : string) : Prop := exists i, In (i, id) (dx_owes w).
(** there is a message about [id] among those after the first [k] *)
Definition unread (w : dx_world) (id : string) (k : nat) : Prop := In id (skipn k (dx_rows w)).
(** the page [p] of [id] is going to look: it is not open yet or just opened, it has a message to read, or a message is
    going to be sent while it watches, or is going to *)
Definition will_hear (w : dx_world) (p : nat) (id : string) : Prop :=
  match nth_error (dx_pages w) p with
  | None => True
  | Some pg => match pg_state pg with
               | PgNew => True
               | PgLooked _ => to_be_told w id
               | PgWatching k | PgHandling _ k => to_be_told w id \/ unread w id k
               | _ => False
               end
  end.
(** no program stops between its change of [id] and the message, and no message about [id] arrives between the
    moment the page [p] reads the document and the moment it starts to watch *)
Fixpoint orderly (E : env) (parse : string -> option sub_ballot) (device : string -> bool) (disk : string -> string -> option private_record) (p : nat) (id : string)
    (w : dx_world) (h : list dx_event) : Prop :=
  match h with
  | [] => True
  | e :: h' =>
    match e with
    | Stop i => ~ In (i, id) (dx_owes w)
    | Burn q => q = p -> forall n, nth_error (dx_pages w) p = Some (mkPage id (PgLooked n)) -> ~ unread w id n
    | _ => True
    end /\ orderly E parse device disk p id (dx_step E parse device disk w e) h'
  end.
(** the page [p] shows the decryption [id] and has nothing left to do, and there is no message about it to come *)
Definition at_rest (w : dx_world) (p : nat) (id : string) : Prop :=
  exists s, nth_error (dx_pages w) p = Some (mkPage id s) /\
    match s with PgWatching k => ~ unread w id k /\ ~ to_be_told w id | PgDone | PgFailed => True | _ => False end.
(** nobody opens or leaves a page, joins or creates anything *)
Definition by_itself (e : dx_event) : Prop :=
  match e with Do (Step _ _ _ _) | Tell _ | Look _ | Back _ | Burn _ | Deliver _ => True | _ => False end.
