(** * Samples: a small concrete election used in the non-vacuity examples. *)
From Verif Require Import Base Group Codec Hash DLog ElGamal ZK Manifest Ballot Encrypt Spec Tiny.
Local Open Scope string_scope.

Definition txt (s : string) : i18n := [mkLanguage s "en"].
Definition mayor : contest_desc := mkContest "mayor" 1 "county" "one_of_m" 1 (Some 1) "Mayor"
  [mkSel "mayor-ann" 1 "ann"; mkSel "mayor-bob" 2 "bob"] (Some (txt "Mayor")) None (Some ["blue"]).
Definition council : contest_desc := mkContest "council" 2 "town" "n_of_m" 2 None "Council"
  [mkSel "council-cy" 3 "cy"; mkSel "council-di" 1 "di"; mkSel "council-ed" 2 "ed"] None None None.
Definition demo_manifest : manifest := mkManifest "demo" "v0.95" "primary"
  "2020-03-01T08:00:00Z" "2020-03-01T20:00:00Z"
  [mkGpUnit "county" "The County" "county" (Some (mkContact (Some ["1 Main St"]) (Some [mkAnnotated "press" "a@b"]) None (Some "Clerk")));
   mkGpUnit "town" "The Town" "city" None]
  [mkParty "blue" (txt "Blue") (Some "BLU") None None]
  [mkCandidate "ann" (txt "Ann") (Some "blue") None None; mkCandidate "bob" (txt "Bob") None None (Some false);
   mkCandidate "cy" (txt "Cy") None None None; mkCandidate "di" (txt "Di") None None None;
   mkCandidate "ed" (txt "Ed") None None (Some true)]
  [mayor; council]
  [mkStyle "full" (Some ["county"; "town"]) None None; mkStyle "county-only" (Some ["county"]) None None]
  (Some (txt "Demo election")) None.

Definition demo_im (E : env) : internal_manifest :=
  match make_internal E demo_manifest with Ok im => im | Err _ => mkInternal [] [] [] 0 end.
Definition ph_of (c : contest_desc) : contest_ph :=
  match generate_placeholders c (cd_number_elected c) with
  | Ok ps => with_placeholders c ps | Err _ => mkPh c [] end.

(** a voter who picks Bob for mayor and only Di for council (an undervote) *)
Definition demo_ballot : pt_ballot := mkPbal "ballot-1" "full"
  [mkPcon "mayor" [mkPsel "mayor-ann" 0 false None; mkPsel "mayor-bob" 1 false None];
   mkPcon "council" [mkPsel "council-di" 1 false (Some "Diana")]].
(** a voter who overvotes for mayor and skips the council *)
Definition over_ballot : pt_ballot := mkPbal "ballot-2" "full"
  [mkPcon "mayor" [mkPsel "mayor-ann" 1 false None; mkPsel "mayor-bob" 1 false None]].

(** an election with the demo manifest, 3 guardians, quorum 2 and the joint secret 77 *)
Definition demo_cx : context := make_context medium 3 2 (gexp medium 77) 17 (im_hash (demo_im medium)).
Definition get_ballot (r : res (option ct_ballot)) : ct_ballot :=
  match r with Ok (Some b) => b | _ => mkCbal "" "" 0 0 [] 0 0 0 None end.
(** not evaluated here: the checker's kernel is slow on the 512-byte hashed ElGamal text *)
Definition demo_eb : ct_ballot :=
  get_ballot (encrypt_ballot medium demo_ballot (demo_im medium) demo_cx 5 (Some 11) true 0 100).
