(** * SpecWizard: the plain vocabulary of the upload wizard's properties. *)
From Verif Require Import Base Group Hash ElGamal Manifest Ballot GuiUpload SpecUpload Wizard.
From Coq Require Import List Ascii.

(** the letters D to Z *)
Definition letters : list string := map (fun n => String (ascii_of_nat n) EmptyString) (seq 68 23).
(** a drive has the two places of an encryption package *)
Definition has_package (v : drive) : Prop := dv_ballots v <> Missing /\ dv_devices v <> Missing.
(** the places are folders; the first device file has the name [file], the text [text] and names [location]; the names of the ballot files are
    [ballots] and their texts are given by [texts] *)
Definition package (location_of : string -> option string) (v : drive) (file text location : string) (ballots : list string) (texts : string -> option string) : Prop :=
  exists others read, dv_devices v = Folder (file :: others) read /\ read file = Some text /\ location_of text = Some location /\ dv_ballots v = Folder ballots texts.
Definition legible (location_of : string -> option string) (v : drive) : Prop :=
  exists file text location ballots texts, package location_of v file text location ballots texts.
(** the drives of a machine *)
Definition plugged (m : machine) (l : string) (v : drive) : Prop := In l letters /\ m l = Some v.
(** [v], behind the letter [l], is the first drive that has a package *)
Definition first_package (m : machine) (l : string) (v : drive) : Prop :=
  m l = Some v /\ has_package v /\ exists before later, letters = before ++ l :: later /\ forall l' v', In l' before -> m l' = Some v' -> ~ has_package v'.
(** the ids are new: different from each other and from those in the database *)
Definition fresh (w : gdb) (ids : nat -> string) (n : nat) : Prop :=
  (forall i j, i < n -> j < n -> ids i = ids j -> i = j)%nat /\ forall i d, (i < n)%nat -> In d (db_uploads w) -> ud_id d <> Oid (ids i).
(** all ballot files can be read, and are ballots for the manifest with hash [q] *)
Definition all_ballots_of (parse : string -> option sub_ballot) (q : Z) (ballots : list string) (texts : string -> option string) : Prop :=
  forall name, In name ballots -> exists s b, texts name = Some s /\ parse s = Some b /\ cb_manifest_hash (sb_ballot b) = q.
(** the stored ballot [b] has the contents of one of the files, and that ballot's id *)
Definition from_file_of (parse : string -> option sub_ballot) (ballots : list string) (texts : string -> option string) (b : stored_ballot) : Prop :=
  exists name sb, In name ballots /\ texts name = Some (so_contents b) /\ parse (so_contents b) = Some sb /\ sb_id sb = so_object b.
