(** * PropsGuiText: the key ceremony of the graphical application on the text in the database (C66).
    Only theorems and non-vacuity examples; the vocabulary is in SpecGuiText.v. *)
From Verif Require Import Base Group Spec Tiny SpecElection Codec Hash DLog ElGamal ZK Poly EncryptThms Ceremony SpecGui GuiCeremony GuiLive GuiStuck GuiDemo PropsGui GuiText SpecGuiText GuiTextFacts.
Import List.

(** ** C66: what is read from the database is what was written *)
(** In every history of every number of programs, the programs that write the keys, backups and the joint key as text and turn the text back into numbers at each read do exactly what they would
    do on the values themselves: the document is the text of the same values, reading it never fails and gives those values back, and the private files and the states of the programs are the
    same.  So the theorems on the values (C51 to C60) hold of the document in the database. *)
Theorem C66_text : forall E n q h, valid_env E ->
  let w := gui_run E (gui_start n q) h in let x := text_run E (text_start n q) h in
  x_doc x = text_of (w_doc w) /\ read_doc E (x_doc x) = Ok (w_doc w) /\ x_files x = w_files w /\ x_clients x = w_clients w /\ doc_in_range E (w_doc w).
Proof. intros E n q h HE. exact (text_ceremony E HE n q h). Qed.
Print Assumptions C66_text.
(** two guardians joined; and a ceremony that came to its end *)
Example C66_example : map (fun k => (kt_owner k, kt_key k)) (kx_keys (x_doc (text_run tiny (text_start 2 2) C51_history))) = [("bob"%string, "0E"%string); ("alice"%string, "43"%string)].
Proof. vm_compute. reflexivity. Qed.
Example C66_complete : valid_env medium /\ exists j, kx_joint (x_doc (text_run medium (text_start 2 2) (demo_joined ++ concat demo_rounds))) = Some (joint_key_to_dict j).
Proof.
  split; [exact medium_valid|]. destruct C53_example as (j & Hj & _). exists j. destruct (C66_text medium 2 2 (demo_joined ++ concat demo_rounds) medium_valid) as [H _].
  cbn zeta in H. rewrite H. unfold text_of. cbn [kx_joint]. rewrite Hj. reflexivity.
Qed.

(** Whatever lies in the database, a read that succeeds gives numbers within the group bounds only. *)
Theorem C66_read_in_range : forall E t d, read_doc E t = Ok d -> doc_in_range E d.
Proof. exact read_in_range. Qed.
Print Assumptions C66_read_in_range.
(** texts that are refused, and one that is read *)
Example C66_read_example : dict_to_joint_key tiny (mkJt "0 4" "01") = Err ValueError /\ dict_to_joint_key tiny (mkJt "004" "1") = Err ValueError
  /\ dict_to_joint_key tiny (mkJt "004" "01") = Ok (mkJoint 4 1) /\ dict_to_joint_key tiny (mkJt "FF" "01") = Err OverflowError.
Proof. vm_compute. repeat split. Qed.
