(** * Dispute: model of the third round of a key ceremony in which one check is reported as failed
    (electionguard_tools/helpers/key_ceremony_orchestrator.py).  Definitions only. *)
From Verif Require Import Base Group Codec Hash ElGamal ZK Poly Ceremony.
Import List.

(** 82-111 fail_round_3; [is] and [is not] between two ids are modelled as equality and inequality of the ids *)
Definition fail_round_3 (E : env) (gs : list guardian) (m : mediator) : res (mediator * (string * string)) :=
  match gs with
  | a :: b :: _ =>
    do m' <- rfold (fun m g =>
      rfold (fun m o =>
        do vs <- (if eqb (gd_id g) (gd_id o) then Ok []
                  else do v <- gd_verify_backup E g (gd_id o);
                       Ok [if eqb (vf_owner v) (gd_id a) && eqb (vf_designated v) (gd_id b) then mkVerif (gd_id a) (gd_id b) (gd_id b) false else v]);
        Ok (receive_verifications m vs)) gs m) gs m;
    Ok (m', (gd_id a, gd_id b))
  | _ => Err IndexError
  end.
