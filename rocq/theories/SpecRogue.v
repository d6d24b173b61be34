(** * SpecRogue: a guardian that announces a key made from the keys of the others. *)
From Verif Require Import Base Group Codec Hash ElGamal ZK Poly Ceremony SpecCeremony.

(** the key that turns the product with [keys] into g to the [a]; whoever knows [keys] can compute it *)
Definition cancelling (E : env) (a : Z) (keys : list Z) : res Z :=
  do i <- mult_inv_p E (mult_p E keys); Ok (mult_p E [g_pow_p E a; i]).
(** a guardian like [g], but with the public key [K] *)
Definition publishing (K : Z) (g : guardian) : guardian :=
  new_guardian (mkKeys (gd_id g) (gd_seq g) {| kp_secret := ek_secret (gd_keys g); kp_public := K |} (ek_poly (gd_keys g))) (gd_details g) [] [] [] [].
(** every guardian reports that the backup of every other one is right *)
Definition all_approve (ids : list string) : list verification :=
  flat_map (fun i => map (fun o => mkVerif o i i true) (filter (fun o => negb (eqb o i)) ids)) ids.
