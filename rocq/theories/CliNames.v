(** * CliNames: the name of the archive, and setup when the directory for the private keys exists. *)
From Coq Require Import List Permutation Ascii.
From Verif Require Import Base Group Codec Hash ElGamal ZK Spec ListFacts Manifest Ballot Encrypt Box Tally SpecTally Ceremony Shares SpecShares Verify SpecVerify SpecEndToEnd GuiUpload GuiDecrypt GuiElection Report SpecReport Cli SpecCli.
Local Open Scope string_scope.
Local Open Scope list_scope.

(** ** os.path.splitext *)
Lemma lacks_cons c x s : lacks c (String x s) -> x <> c /\ lacks c s.
Proof.
  intros H. split; [intros ->; exact (H "" s eq_refl)|]. intros a b ->. exact (H (String x a) b eq_refl).
Qed.
Lemma lacks_slash s : lacks slash s -> has_slash s = false /\ split_path s = (None, s).
Proof.
  induction s as [|c s IH]; intros H; [split; reflexivity|]. apply lacks_cons in H as [Hc H]. destruct (IH H) as [I1 I2]. cbn [has_slash split_path]. rewrite I1, I2. apply Ascii.eqb_neq in Hc. rewrite Hc. split; reflexivity.
Qed.
Lemma lacks_dot s : lacks "."%char s -> cut_dot s = None.
Proof.
  induction s as [|c s IH]; intros H; [reflexivity|]. apply lacks_cons in H as [Hc H]. cbn [cut_dot]. rewrite (IH H). apply Ascii.eqb_neq in Hc. rewrite Hc. reflexivity.
Qed.
Lemma cut_last a e : lacks "."%char e -> lacks slash e -> cut_dot (a ++ String "." e) = Some a.
Proof.
  intros H1 H2. induction a as [|c a IH].
  - cbn [String.append cut_dot]. rewrite (lacks_dot e H1), (proj1 (lacks_slash e H2)). reflexivity.
  - cbn [String.append cut_dot]. rewrite IH. reflexivity.
Qed.
Lemma last_part x s : exists u, snd (split_path (x ++ s)) = (u ++ snd (split_path s))%string.
Proof.
  induction x as [|c x [u IH]]; [exists ""; reflexivity|]. cbn [String.append split_path]. destruct (split_path (x ++ s)) as [[d|] f] eqn:Hp; cbn [snd] in *; [exists u; exact IH|].
  destruct (Ascii.eqb c slash); cbn [snd]; [exists u; exact IH|]. exists (String c u). rewrite IH. reflexivity.
Qed.
Lemma not_dots u c y : c <> "."%char -> only_dots (u ++ String c y) = false.
Proof.
  intros H. induction u as [|x u IH]; cbn [String.append only_dots].
  - apply Ascii.eqb_neq in H. rewrite H. reflexivity.
  - rewrite IH. apply Bool.andb_false_r.
Qed.
Lemma has_slash_app a b : has_slash (a ++ b) = has_slash a || has_slash b.
Proof. induction a as [|c a IH]; [reflexivity|]. cbn [String.append has_slash]. rewrite IH. apply Bool.orb_assoc. Qed.
Lemma splitext_cuts a e : lacks "."%char e -> lacks slash e -> (exists x c y, a = (x ++ String c y)%string /\ c <> "."%char /\ c <> slash /\ lacks slash y) -> splitext (a ++ "." ++ e) = a.
Proof.
  intros H1 H2 (x & c & y & -> & Hc & Hs & Hy). change (("." ++ e)%string) with (String "." e). unfold splitext. rewrite (cut_last _ e H1 H2).
  destruct (last_part x (String c y)) as [u Hu]. rewrite Hu. cbn [split_path]. rewrite (proj2 (lacks_slash y Hy)). apply Ascii.eqb_neq in Hs. rewrite Hs. cbn [snd]. rewrite not_dots by exact Hc. reflexivity.
Qed.
Lemma splitext_plain d f : lacks "."%char f -> splitext f = f /\ splitext (d ++ "/" ++ f) = (d ++ "/" ++ f)%string.
Proof.
  intros H. unfold splitext. rewrite (lacks_dot f H). split; [reflexivity|].
  assert (Hn : cut_dot (d ++ "/" ++ f) = None); [|rewrite Hn; reflexivity]. induction d as [|c d IH].
  - cbn [String.append cut_dot]. rewrite (lacks_dot f H). reflexivity.
  - cbn [String.append cut_dot] in *. rewrite IH. replace (has_slash (d ++ String "/" f)) with true; [rewrite Bool.andb_false_r; reflexivity|].
    rewrite has_slash_app. cbn [has_slash]. rewrite Bool.orb_true_r. reflexivity.
Qed.
Lemma splitext_hidden d e : lacks "."%char e -> lacks slash e -> splitext ("." ++ e) = ("." ++ e)%string /\ splitext (d ++ "/" ++ "." ++ e) = (d ++ "/" ++ "." ++ e)%string.
Proof.
  intros H1 H2. unfold splitext. split.
  - change ("." ++ e)%string with ("" ++ String "." e)%string. rewrite (cut_last "" e H1 H2). reflexivity.
  - assert (Hn : cut_dot (d ++ "/" ++ "." ++ e) = Some (d ++ "/")%string).
    { induction d as [|c d IH]; [apply (cut_last "/" e H1 H2)|]. cbn [String.append cut_dot] in *. rewrite IH. reflexivity. }
    rewrite Hn. assert (Hp : snd (split_path (d ++ "/")) = ""); [|rewrite Hp; reflexivity].
    clear. induction d as [|c d IH]; [reflexivity|]. cbn [String.append split_path]. destruct (split_path (d ++ "/")) as [[x|] f] eqn:Hs; cbn [snd] in *; [exact IH|].
    exfalso. assert (Hh : has_slash (d ++ "/") = true) by (rewrite has_slash_app; cbn [has_slash]; apply Bool.orb_true_r). clear IH. revert f Hs Hh. generalize (d ++ "/")%string. clear. intros s.
    induction s as [|c s IH]; intros f Hs Hh; [discriminate Hh|]. cbn [split_path has_slash] in *. destruct (split_path s) as [[x|] g]; [discriminate|]. destruct (Ascii.eqb c slash); [discriminate|]. exact (IH g eq_refl Hh).
Qed.

(** ** setup when the directory for the keys exists *)
Lemma add_dirs_keep l : forall ds y, In y ds -> In y (fold_left add_dir l ds).
Proof.
  induction l as [|d l IH]; intros ds y H; [exact H|]. cbn [fold_left]. apply IH. unfold add_dir. destruct (inb d ds); [exact H|]. apply in_or_app. left. exact H.
Qed.
Lemma to_file_keep dk x nm d dk' : to_file dk x nm d = Ok dk' ->
  (forall y, In y (dk_dirs dk) -> In y (dk_dirs dk')) /\ (forall p, dget p (dk_files dk') = dget p (dk_files dk) \/ dget p (dk_files dk') = Some x) /\ (forall p, dget p (dk_files dk) <> None -> dget p (dk_files dk') <> None).
Proof.
  unfold to_file. intros H. destruct (if inb d (dk_dirs dk) && negb (String.eqb d "") then Ok dk else makedirs dk d) as [dk1|] eqn:H1; [|discriminate]; cbn beta iota delta [rbind] in H.
  assert (K : (forall y, In y (dk_dirs dk) -> In y (dk_dirs dk1)) /\ dk_files dk1 = dk_files dk).
  { destruct (inb d (dk_dirs dk) && negb (String.eqb d "")); [injection H1 as <-; auto|]. unfold makedirs in H1. destruct (String.eqb d ""); [discriminate|]. injection H1 as <-. cbn [dk_dirs dk_files]. split; [|reflexivity]. apply add_dirs_keep. }
  destruct K as [K1 K2]. unfold write_path in H. match type of H with (if ?b then _ else _) = _ => destruct b; [|discriminate] end. injection H as <-. cbn [dk_dirs dk_files]. split; [exact K1|]. rewrite K2.
  assert (G : forall p, dget p (dset (construct_path nm d) x (dk_files dk)) = dget p (dk_files dk) \/ dget p (dset (construct_path nm d) x (dk_files dk)) = Some x).
  { intros p. destruct (String.eqb p (construct_path nm d)) eqn:Hp; [apply String.eqb_eq in Hp as ->; right; apply dget_dset_same|left; apply dget_dset_other; apply String.eqb_neq in Hp; congruence]. }
  split; [exact G|]. intros p Hn. destruct (G p) as [->| ->]; [exact Hn|discriminate].
Qed.
Lemma to_files_keep l : forall dk dk' a, to_files dk l = (dk', a) ->
  (forall y, In y (dk_dirs dk) -> In y (dk_dirs dk')) /\ (forall p, dget p (dk_files dk') = dget p (dk_files dk) \/ exists e, In e l /\ dget p (dk_files dk') = Some (fst (fst e))) /\
  (forall p, dget p (dk_files dk) <> None -> dget p (dk_files dk') <> None).
Proof.
  induction l as [|[[x nm] d] l IH]; intros dk dk' a H; cbn [to_files] in H; [injection H as <- _; auto|].
  destruct (to_file dk x nm d) as [dk1|] eqn:H1; [|injection H as <- _; auto]. destruct (to_file_keep _ _ _ _ _ H1) as (A1 & A2 & A3). destruct (IH _ _ _ H) as (B1 & B2 & B3).
  split; [auto|]. split; [|auto]. intros p. destruct (B2 p) as [->|(e & E1 & E2)]; [|right; exists e; split; [right; exact E1|exact E2]].
  destruct (A2 p) as [->| ->]; [left; reflexivity|right]. exists (x, nm, d). split; [left; reflexivity|reflexivity].
Qed.
Lemma setup_unconfirmed E ch n k mp pd d dk : In d (dk_dirs dk) \/ dget d (dk_files dk) <> None ->
  let o := setup_election E ch n k mp false pd (Some d) dk in o = setup_election E ch n k mp false pd None dk /\
  forall p x, dget p (dk_files (oc_disk o)) = Some (JPrivate x) -> dget p (dk_files dk) = Some (JPrivate x).
Proof.
  intros Hd. cbv zeta. unfold setup_election. destruct (rbind _ _) as [[[gs m] cx]|e]; [|split; [reflexivity|intros p x H; exact H]].
  destruct (to_files dk _) as [dk1 a] eqn:Ht. destruct (to_files_keep _ _ _ _ Ht) as (K1 & K2 & K3).
  assert (Hp : forall p x, dget p (dk_files dk1) = Some (JPrivate x) -> dget p (dk_files dk) = Some (JPrivate x)).
  { intros p x Hx. destruct (K2 p) as [H|(e & E1 & E2)]; [congruence|exfalso]. rewrite E2 in Hx. injection Hx as Hx. apply in_app_or in E1 as [E1|E1].
    - destruct E1 as [<-|[<-|[<-|[]]]]; discriminate Hx.
    - apply in_map_iff in E1 as (g & <- & _). discriminate Hx. }
  destruct a as [[]|e]; [|split; [reflexivity|exact Hp]].
  assert (Hi : inb d (dk_dirs dk1) || dmem d (dk_files dk1) = true).
  { apply Bool.orb_true_iff. destruct Hd as [Hd|Hd]; [left; apply inb_spec, K1, Hd|right]. specialize (K3 d Hd). unfold dmem. destruct (dget d (dk_files dk1)); [reflexivity|congruence]. }
  rewrite Hi. cbn [andb negb]. split; [reflexivity|exact Hp].
Qed.
