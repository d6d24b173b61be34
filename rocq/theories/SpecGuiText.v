(** * SpecGuiText: the document of a key ceremony and its text. *)
From Verif Require Import Base Group Codec Hash DLog ElGamal ZK Poly Ceremony GuiCeremony GuiText.

(** the document in the database when the values are those of [d] *)
Definition text_of (d : kc) : kc_text :=
  mkKcText (kc_count d) (kc_quorum d) (kc_joined d) (map public_key_to_dict (kc_keys d))
    (map (fun e => (fst e, map public_key_to_dict (snd e))) (kc_other d)) (map backup_to_dict (kc_backups d))
    (map (fun e => (fst e, map backup_to_dict (snd e))) (kc_shared d)) (kc_verifs d)
    (match kc_joint d with None => None | Some j => Some (joint_key_to_dict j) end) (kc_completed d).
Definition text_world_of (w : world) : text_world := mkTextWorld (text_of (w_doc w)) (w_files w) (w_clients w).

(** every number of the document is one of the group it is meant for *)
Definition key_in_range (E : env) (k : public_key) : Prop := 0 <= pk_key k < pp E /\ Forall (fun c => 0 <= c < pp E) (pk_commitments k).
Definition backup_in_range (E : env) (b : backup) : Prop := 0 <= h_pad (bk_coordinate b) < pp E.
Definition joint_in_range (E : env) (j : joint_key) : Prop := 0 <= jk_key j < pp E /\ 0 <= jk_hash j < qq E.
Record doc_in_range (E : env) (d : kc) : Prop := {
  dr_keys : forall k, In k (kc_keys d) -> key_in_range E k;
  dr_other : forall u ks k, In (u, ks) (kc_other d) -> In k ks -> key_in_range E k;
  dr_backups : forall b, In b (kc_backups d) -> backup_in_range E b;
  dr_shared : forall u bs b, In (u, bs) (kc_shared d) -> In b bs -> backup_in_range E b;
  dr_joint : forall j, kc_joint d = Some j -> joint_in_range E j }.
