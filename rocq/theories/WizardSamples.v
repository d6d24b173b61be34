(** * WizardSamples: a few drives. *)
From Verif Require Import Base Group Hash ElGamal Manifest Ballot GuiUpload SpecUpload Wizard UploadSamples.
From Coq Require Import List Ascii.
Local Open Scope string_scope.
(** the device file "{x" names the location "x" *)
Definition toy_location (s : string) : option string := if String.prefix "{" s then Some (substring 1 (String.length s - 1) s) else None.
Definition toy_ids (n : nat) : string := String "n" (String (ascii_of_nat (48 + n)) EmptyString).
Definition texts_of (l : list (string * string)) (name : string) : option string := option_map snd (find (fun x => String.eqb (fst x) name) l).
Definition good_texts : string -> option string := texts_of [("1", "{a"); ("2", "{b"); ("3", "{c")].
Definition half_texts : string -> option string := texts_of [("1", "{a"); ("3", "{c")].
Definition good_devices : folder := Folder ["dev.json"; "old.json"] (texts_of [("dev.json", "{hall"); ("old.json", "broken")]).
Definition good_stick : drive := mkDrive (Folder ["1"; "2"; "3"] good_texts) good_devices.
Definition empty_stick : drive := mkDrive (Folder [] (texts_of [])) (Folder [] (texts_of [])).
Definition photo_stick : drive := mkDrive Missing Missing.
Definition other_stick : drive := mkDrive (Folder ["x"] (texts_of [("x", "{d")])) (Folder ["dev"] (texts_of [("dev", "{school")])).
Definition one_stick (texts : string -> option string) : machine := fun l => if String.eqb l "F" then Some (mkDrive (Folder ["1"; "2"; "3"] texts) good_devices) else None.
Definition two_sticks : machine := fun l => if String.eqb l "D" then Some photo_stick else if String.eqb l "E" then Some good_stick else if String.eqb l "G" then Some other_stick else None.
Definition spoiled : machine := fun l => if String.eqb l "E" then Some good_stick else if String.eqb l "G" then Some empty_stick else None.
