(** * UploadSamples: a small database, and histories of uploads that go wrong. *)
From Verif Require Import Base Group Hash ElGamal Manifest Ballot GuiUpload SpecUpload Samples.
From Coq Require Import List.
Local Open Scope string_scope.

(** a toy reading of the files: "{x..." is a ballot with object id "x", for the manifest 7 or (with "!") another one *)
Definition toy_parse (s : string) : option sub_ballot :=
  if String.prefix "{" s
  then Some (mkSub (mkCbal (substring 1 1 s) "style" (if String.eqb (substring 2 1 s) "!" then 8 else 7) 0 [] 0 0 0 None) CAST)
  else None.
Definition toy_device (s : string) : bool := String.prefix "{" s.
Definition toy_context : context := mkContext 3 2 5 6 7 8 9.
Definition toy_db : gdb := mkGdb [mkElection "primary" "keys" 3 2 (Some toy_context) demo_manifest [("g1", 1); ("g2", 2)] [];
                                  mkElection "runoff" "keys" 3 2 (Some toy_context) demo_manifest [("g1", 1); ("g2", 2)] []] [].
Lemma toy_start : no_uploads toy_db.
Proof.
  constructor; [|reflexivity|].
  - repeat constructor; cbn; intuition discriminate.
  - intros x [<-|[<-|[]]]; reflexivity.
Qed.
(** [n] steps of the i-th call *)
Definition steps (i : nat) (news : list string) : list up_event := map (Next i) news.
(** an upload is created, a ballot is stored, the same ballot comes again, and one for another manifest is refused *)
Definition plain_history : list up_event :=
  StartCreate "primary" "{}" :: steps 0 ["-"; "u1"; "-"] ++
  StartUpload "u1" "primary" "{a}" :: steps 1 ["-"; "-"; "d1"; "-"; "-"] ++
  StartUpload "u1" "primary" "{a }" :: steps 2 ["-"; "-"] ++
  StartUpload "u1" "primary" "{b!}" :: steps 3 ["-"].
(** two programs upload the same ballot at once *)
Definition race_history : list up_event :=
  StartCreate "primary" "{}" :: steps 0 ["-"; "u1"; "-"] ++
  [StartUpload "u1" "primary" "{a}"; StartUpload "u1" "primary" "{a}"] ++
  steps 1 ["-"; "-"] ++ steps 2 ["-"; "-"; "d2"; "-"; "-"] ++ steps 1 ["d1"; "-"; "-"].
(** a program stops after storing the ballot and before counting it; then the file is uploaded again *)
Definition lost_count : list (request * string * nat) :=
  [(RCreate "primary" "{}", "u1", 5%nat); (RUpload "u1" "primary" "{a}", "d1", 3%nat); (RUpload "u1" "primary" "{a}", "d2", 5%nat)].
(** a ballot file with a line end after the closing brace *)
Definition line_end : string := String "010"%char "".
Definition newline_history : list up_event :=
  StartCreate "primary" "{}" :: steps 0 ["-"; "u1"; "-"] ++
  StartUpload "u1" "primary" "{a}" :: steps 1 ["-"; "-"; "d1"; "-"; "-"] ++
  StartUpload "u1" "primary" ("{b}" ++ line_end) :: steps 2 ["-"; "-"; "d2"; "-"; "-"].
