(** * SpecGuiRecord: the plain vocabulary of the record exported by the graphical application. *)
From Coq Require Import List Permutation.
From Verif Require Import Base Group Codec Hash ElGamal Manifest Ballot Encrypt Box Tally Spec SpecElection SpecTally Ceremony SpecCeremony Shares SpecShares Verify SpecVerify SpecEndToEnd
  GuiUpload GuiDecrypt GuiElection Cli SpecCli.

(** the ids of the uploads that the election lists *)
Definition upload_ids (w : gdb) (e : string) : list string := match find_election w e with Some x => map fst (el_uploads x) | None => [] end.
(** the ballots of the record that belong to voters of [counted] *)
Definition ballots_of (counted : list voter) (subs : list sub_ballot) : list sub_ballot := filter (fun sb => inb (sb_id sb) (map vr_id counted)) subs.
(** the Lagrange coefficient of every guardian, by its order, and nothing else *)
Definition good_lagrange (E : env) (records : list guardian_record) (lagrange : dict string Z) : Prop :=
  NoDup (dkeys lagrange) /\ (forall i, In i (dkeys lagrange) <-> In i (map (fun r => decimal (gr_seq r)) records)) /\
  forall r, In r records -> exists w, dget (decimal (gr_seq r)) lagrange = Some w /\ is_lagrange E (gr_seq r) (filter (fun z => negb (z =? gr_seq r)) (map gr_seq records)) w.
(** the record has the joint key of its guardians, the devices of the uploads, the ballots of the voters [kept] with their states, and the plaintexts of the ballots
    that voters of [counted] spoiled.  All ballots, the sum of the ballots cast by [counted], and the decryptions verify with the keys in the record.  The tally has the
    votes of [counted], and every plaintext the votes of its voter. *)
Definition gui_record (E : env) (m : manifest) (im : internal_manifest) (cx : context) (n k : Z) (guardians : list string) (devices : list device) (kept counted : list voter)
    (files : list (string * content)) : Prop :=
  exists records devs subs decrypted t p lagrange,
    files_are files (record_of E m cx devs records subs decrypted t p lagrange) /\
    cx_guardians cx = n /\ cx_quorum cx = k /\ cx_key cx = prodZ (map gr_key records) mod pp E /\ Permutation (map gr_id records) guardians /\
    (forall d, In d devs <-> In d devices) /\
    Permutation (map (fun sb => (sb_id sb, sb_state sb)) subs) (map (fun v => (vr_id v, vr_state v)) kept) /\
    (forall sb, In sb subs -> exists v eb, In v kept /\ encrypted_as E im cx v eb /\ sb = submit_ballot E eb (vr_state v)) /\
    Permutation (map pt_id decrypted) (map vr_id (filter is_spoiled counted)) /\
    (forall sb, In sb subs -> verify_ballot E (sb_ballot sb) m cx = Ok verified) /\
    verify_aggregation E (fun _ => all_up) (ballots_of counted subs) t m cx = Ok verified /\
    verify_decryption E p (record_keys records) cx = Ok verified /\
    (forall q, In q decrypted -> verify_decryption E q (record_keys records) cx = Ok verified) /\
    (forall cid oid c, count_of p cid oid = Some c <-> in_manifest m cid oid /\ c = cast_count im counted cid oid) /\
    (forall q, In q decrypted -> exists v, In v counted /\ vr_id v = pt_id q /\ vr_state v = SPOILED /\
       forall cid oid c, count_of q cid oid = Some c <-> on_ballot im (vr_ballot v) cid oid /\ c = vote_for im (vr_ballot v) cid oid) /\
    good_lagrange E records lagrange.
