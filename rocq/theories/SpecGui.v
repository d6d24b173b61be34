(** * SpecGui: the plain vocabulary of the properties of the graphical application. *)
From Verif Require Import Base Group Codec Hash ElGamal ZK Poly Ceremony SpecCeremony GuiCeremony.

(** [l] is the beginning of [l'] *)
Definition prefix {A} (l l' : list A) : Prop := exists t, l' = l ++ t.

(** the key of [u] in the document: the first one published under that id *)
Definition key_in (d : kc) (u : string) (k : public_key) : Prop :=
  exists l1 l2, kc_keys d = l1 ++ k :: l2 /\ pk_owner k = u /\ forall x, In x l1 -> pk_owner x <> u.

(** how far the ceremony has come *)
Definition progress (s : kc_state) : Z :=
  match s with
  | PendingGuardiansJoin => 0 | PendingAdminAnnounce => 1 | PendingGuardianBackups => 2 | PendingAdminToShareBackups => 3
  | PendingGuardiansVerifyBackups => 4 | PendingAdminToPublishJointKey => 5 | CeremonyComplete => 6
  end.

(** the random numbers drawn in the event are in range *)
Definition good_event (E : env) (e : event) : Prop :=
  match e with
  | MakeGuardian _ draw => forall i, 0 <= fst (draw i) < qq E
  | RunStage _ rnd => forall u, 0 <= rnd u
  | _ => True
  end.

(** the programs in use: a name, the user logged in, and whether that user is an administrator *)
Definition program := (string * (option string * bool))%type.
(** every program has one identity, and every guardian uses one program *)
Definition one_each (ps : list program) : Prop :=
  NoDup (map fst ps) /\ forall c c' u, In (c, (Some u, false)) ps -> In (c', (Some u, false)) ps -> c = c'.
(** a program is started, or started again, only with its own identity *)
Definition of_programs (ps : list program) (e : event) : Prop :=
  match e with Open c user admin => In (c, (user, admin)) ps | _ => True end.
(** program [c] finishes what it is doing, looks at the document, and does what is to do *)
Definition wake (c : string) (r1 r2 : string -> Z) : list event := [RunStage c r1; MarkComplete c; Changed c; RunStage c r2; MarkComplete c].
(** a stretch of the history in which every program is woken at least once, whatever else happens *)
Definition round (ps : list program) (l : list event) : Prop :=
  forall c, In c (map fst ps) -> exists l1 l2 r1 r2, l = l1 ++ wake c r1 r2 ++ l2.
(** exactly the guardians needed have joined, each once and each with its key in the document; every program
    runs, every guardian has one, and so does an administrator *)
Record ready (ps : list program) (w : world) : Prop := {
  rd_number : len (kc_joined (w_doc w)) = kc_count (w_doc w);
  rd_once : NoDup (kc_joined (w_doc w));
  rd_named : ~ In EmptyString (kc_joined (w_doc w));
  rd_keys : forall u, In u (kc_joined (w_doc w)) -> exists key, In key (kc_keys (w_doc w)) /\ pk_owner key = u;
  rd_open : forall c, In c (map fst ps) -> exists cl, dget c (w_clients w) = Some cl;
  rd_guardians : forall u, In u (kc_joined (w_doc w)) -> exists c, In (c, (Some u, false)) ps;
  rd_admin : exists c u, In (c, (Some u, true)) ps }.
(** the button "join" is pressed only where it is shown *)
Fixpoint offered (E : env) (w : world) (h : list event) : Prop :=
  match h with
  | [] => True
  | e :: h' => match e with
               | Join c => match dget c (w_clients w) with Some cl => can_join (w_doc w) (cl_user cl) (cl_admin cl) = true | None => True end
               | _ => True
               end /\ offered E (gui_step E w e) h'
  end.
