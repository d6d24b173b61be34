(** * CliPaths: paths, and what writing several files does. *)
From Coq Require Import Permutation List Ascii String.
From Verif Require Import Base ListFacts GuiDecrypt Cli SpecCli.
Local Open Scope list_scope.

Lemma split_none s : split_path s = (None, s) <-> has_slash s = false.
Proof.
  induction s as [|c s IH]; [split; reflexivity|]. cbn [split_path has_slash]. destruct (split_path s) as [[d|] f].
  - split; [discriminate|]. intros H. apply Bool.orb_false_iff in H as [_ H]. apply IH in H. discriminate.
  - destruct (Ascii.eqb_spec c slash) as [->|Hc]; cbn [orb]; [split; discriminate|]. split.
    + intros [= ->]. apply IH. reflexivity.
    + intros H. apply IH in H. congruence.
Qed.
Lemma split_join d f : has_slash f = false -> split_path (d ++ "/" ++ f)%string = (Some d, f).
Proof.
  intros Hf. induction d as [|c d IH].
  - cbn. apply split_none in Hf. rewrite Hf. reflexivity.
  - cbn [append split_path]. cbn [append] in IH. rewrite IH. reflexivity.
Qed.
Lemma split_some p d f : split_path p = (Some d, f) -> p = (d ++ "/" ++ f)%string /\ has_slash f = false.
Proof.
  revert d f. induction p as [|c p IH]; intros d f; cbn [split_path]; [discriminate|]. destruct (split_path p) as [[d'|] f'] eqn:Hp.
  - intros [= <- <-]. destruct (IH _ _ eq_refl) as [-> H]. split; [reflexivity|exact H].
  - destruct (Ascii.eqb_spec c slash) as [->|Hc]; [|discriminate]. intros [= <- <-]. assert (Hf : has_slash p = false).
    { clear IH. revert f' Hp. induction p as [|a p IH]; intros f'; [reflexivity|]. cbn [split_path has_slash]. destruct (split_path p) as [[d|] f]; [discriminate|].
      destruct (Ascii.eqb_spec a slash); [discriminate|]. intros _. cbn [orb]. apply (IH f). reflexivity. }
    pose proof (proj2 (split_none p) Hf) as Hn. assert (f' = p) by congruence. subst f'. split; [reflexivity|exact Hf].
Qed.
Lemma joined_inj d f d' f' : has_slash f = false -> has_slash f' = false -> (d ++ "/" ++ f)%string = (d' ++ "/" ++ f')%string -> d = d' /\ f = f'.
Proof. intros H1 H2 H. apply (f_equal split_path) in H. rewrite !split_join in H by assumption. injection H as <- <-. auto. Qed.
Lemma append_nil s : (s ++ "")%string = s.
Proof. induction s as [|c s IH]; [reflexivity|]. cbn [append]. rewrite IH. reflexivity. Qed.
Lemma append_assoc a b c : ((a ++ b) ++ c)%string = (a ++ (b ++ c))%string.
Proof. induction a as [|x a IH]; [reflexivity|]. cbn [append]. rewrite IH. reflexivity. Qed.
Lemma append_inj_r a b s : (a ++ s)%string = (b ++ s)%string -> a = b.
Proof.
  assert (Hl : forall x y : string, String.length (x ++ y) = (String.length x + String.length y)%nat) by (intros x y; induction x as [|c x IH]; [reflexivity|cbn; rewrite IH; reflexivity]).
  revert b. induction a as [|c a IH]; intros b H.
  - destruct b as [|c b]; [reflexivity|]. apply (f_equal String.length) in H. cbn [append String.length] in H. rewrite Hl in H. exfalso. revert H. generalize (String.length s), (String.length b). intros. Lia.lia.
  - destruct b as [|c' b]; [apply (f_equal String.length) in H; cbn [append String.length] in H; rewrite Hl in H; exfalso; revert H; generalize (String.length s), (String.length a); intros; Lia.lia|].
    cbn [append] in H. injection H as -> H. f_equal. apply IH, H.
Qed.
Lemma append_inj_l s a b : (s ++ a)%string = (s ++ b)%string -> a = b.
Proof. induction s as [|c s IH]; cbn [append]; [auto|]. intros H. injection H as H. auto. Qed.
Lemma slash_app a b : has_slash (a ++ b) = has_slash a || has_slash b.
Proof. induction a as [|c a IH]; [reflexivity|]. cbn [append has_slash]. rewrite IH. destruct (Ascii.eqb c slash); reflexivity. Qed.
Lemma os_join_plain d f : d <> ""%string -> ends_slash d = false -> has_slash f = false -> os_join d f = (d ++ "/" ++ f)%string.
Proof.
  intros Hd He Hf. unfold os_join. apply String.eqb_neq in Hd. rewrite Hd, He. cbn [orb]. destruct f as [|c f]; [reflexivity|]. cbn [has_slash] in Hf. apply Bool.orb_false_iff in Hf as [-> _]. reflexivity.
Qed.
Lemma path_of name d : d <> ""%string -> ends_slash d = false -> has_slash name = false -> construct_path name d = (d ++ "/" ++ (name ++ ".json"))%string.
Proof. intros H1 H2 H3. unfold construct_path. apply os_join_plain; [assumption..|]. rewrite slash_app, H3. reflexivity. Qed.
Lemma name_slash name : has_slash name = false -> has_slash (name ++ ".json") = false.
Proof. intros H. rewrite slash_app, H. reflexivity. Qed.
(** a path is longer than every directory above it *)
Lemma above_len : forall s d, In d (above s) -> (String.length d < String.length s)%nat.
Proof.
  induction s as [|c s IH]; intros d; cbn [above]; [intros []|]. intros H. apply in_app_iff in H as [H|H].
  - destruct (Ascii.eqb c slash); [destruct H as [<-|[]]; cbn; apply PeanoNat.Nat.lt_0_succ|destruct H].
  - apply in_map_iff in H as (d' & <- & H). cbn [String.length]. apply (proj1 (PeanoNat.Nat.succ_lt_mono _ _)), IH, H.
Qed.
Lemma add_dirs_in l : forall ds d, In d (fold_left add_dir l ds) <-> In d ds \/ In d l.
Proof.
  induction l as [|x l IH]; intros ds d; cbn [fold_left In]; [tauto|]. rewrite IH. unfold add_dir. destruct (inb x ds) eqn:Hx.
  - apply inb_spec in Hx. split; [tauto|]. intros [H|[<-|H]]; auto.
  - rewrite in_app_iff. cbn [In]. tauto.
Qed.
(** decimal numbers *)
Lemma decimal_slash n : has_slash (decimal n) = false.
Proof.
  unfold decimal. assert (H : forall u, has_slash (DecimalString.NilEmpty.string_of_uint u) = false) by (induction u; cbn; auto).
  destruct (Z.to_int n) as [u|u]; cbn; apply H.
Qed.

(** ** writing several files *)
Definition all_dirs (dk : disk) (l : list (content * string * string)) : list string := dk_dirs dk ++ flat_map (fun e => above (snd e) ++ [snd e]) l.
Definition entry_path (e : content * string * string) : string := construct_path (snd (fst e)) (snd e).
Definition entry_fine (dirs : list string) (e : content * string * string) : Prop :=
  snd e <> ""%string /\ ends_slash (snd e) = false /\ has_slash (snd (fst e)) = false /\ ~ In (entry_path e) dirs.
Lemma to_file_fine dk x name d : d <> ""%string -> ends_slash d = false -> has_slash name = false -> ~ In (construct_path name d) (dk_dirs dk ++ above d ++ [d]) ->
  exists ds, to_file dk x name d = Ok (mkDisk ds (dset (construct_path name d) x (dk_files dk))) /\ forall y, In y ds <-> In y (dk_dirs dk) \/ (~ In d (dk_dirs dk) /\ In y (above d ++ [d])).
Proof.
  intros H1 H2 H3 H4. unfold to_file. apply String.eqb_neq in H1 as H1'.
  assert (Hp : forall ds fs, In d ds -> ~ In (construct_path name d) ds -> write_path (mkDisk ds fs) (construct_path name d) x = Ok (mkDisk ds (dset (construct_path name d) x fs))).
  { intros ds fs Hd Hn. unfold write_path, parent_exists. cbn [dk_dirs dk_files]. rewrite (path_of name d H1 H2 H3) in *. rewrite split_join by apply name_slash, H3. cbn [fst].
    apply inb_spec in Hd. rewrite Hd. match goal with |- context [inb ?p ds] => destruct (inb p ds) eqn:Hi end; [exfalso; apply inb_spec in Hi; exact (Hn Hi)|]. reflexivity. }
  destruct (inb d (dk_dirs dk)) eqn:Hd.
  - rewrite H1'. cbn [negb andb rbind]. destruct dk as [ds fs]. cbn [dk_dirs dk_files] in *. exists ds. apply inb_spec in Hd. split; [|intros y; tauto]. apply Hp; [exact Hd|]. intros Hi. apply H4, in_or_app. left. exact Hi.
  - cbn [andb]. unfold makedirs. rewrite H1'. cbn [rbind]. exists (fold_left add_dir (above d ++ [d]) (dk_dirs dk)). split.
    + apply Hp; [apply add_dirs_in; right; apply in_or_app; right; left; reflexivity|]. intros Hi. apply add_dirs_in in Hi. apply H4, in_or_app. exact Hi.
    + intros y. rewrite add_dirs_in. destruct (inb d (dk_dirs dk)) eqn:Hd'; [discriminate|]. split; [|tauto]. intros [Hy|Hy]; [left; exact Hy|right]. split; [|exact Hy]. intros Hi. apply inb_spec in Hi. congruence.
Qed.
Lemma to_files_fine l : forall dk, Forall (entry_fine (all_dirs dk l)) l -> exists ds,
  to_files dk l = (mkDisk ds (fold_left (fun fs e => dset (entry_path e) (fst (fst e)) fs) l (dk_files dk)), Ok tt) /\
  (forall y, In y (dk_dirs dk) -> In y ds) /\ (forall y, In y ds -> In y (all_dirs dk l)) /\ (forall e, In e l -> In (snd e) ds).
Proof.
  induction l as [|[[x name] d] l IH]; intros dk HF.
  - exists (dk_dirs dk). destruct dk. split; [reflexivity|]. split; [auto|]. split; [|intros e []]. intros y Hy. unfold all_dirs. cbn [flat_map]. rewrite app_nil_r. exact Hy.
  - apply Forall_cons_iff in HF as [(H1 & H2 & H3 & H4) HF]. cbn [fst snd entry_path] in *. cbn [to_files].
    destruct (to_file_fine dk x name d H1 H2 H3) as (ds & T & D).
    { intros Hi. apply H4. unfold all_dirs, entry_path. cbn [flat_map snd fst]. apply in_app_iff in Hi as [Hi|Hi]; apply in_or_app; [left; exact Hi|right; apply in_or_app; left; exact Hi]. }
    rewrite T.
    assert (Hsub : forall y, In y (all_dirs (mkDisk ds (dset (construct_path name d) x (dk_files dk))) l) -> In y (all_dirs dk ((x, name, d) :: l))).
    { intros y. unfold all_dirs. cbn [dk_dirs flat_map snd]. rewrite !in_app_iff, D, in_app_iff. tauto. }
    destruct (IH (mkDisk ds (dset (construct_path name d) x (dk_files dk)))) as (ds' & T' & D1 & D2 & D3).
    { eapply Forall_impl; [|exact HF]. intros e (E1 & E2 & E3 & E4). split; [exact E1|]. split; [exact E2|]. split; [exact E3|]. intros Hi. apply E4, Hsub, Hi. }
    exists ds'. rewrite T'. cbn [dk_files]. split; [reflexivity|]. cbn [dk_dirs] in D1. split; [intros y Hy; apply D1, D; left; exact Hy|]. split; [intros y Hy; apply Hsub, D2, Hy|].
    intros e [<-|He]; [|apply D3, He]. cbn [snd]. apply D1, D. destruct (in_dec string_dec d (dk_dirs dk)) as [Hi|Hi]; [left; exact Hi|right; split; [exact Hi|apply in_or_app; right; left; reflexivity]].
Qed.
Lemma written_get l : forall (fs : dict string content), NoDup (map entry_path l) ->
  (forall e, In e l -> dget (entry_path e) (fold_left (fun fs e => dset (entry_path e) (fst (fst e)) fs) l fs) = Some (fst (fst e))) /\
  (forall p, ~ In p (map entry_path l) -> dget p (fold_left (fun fs e => dset (entry_path e) (fst (fst e)) fs) l fs) = dget p fs).
Proof.
  induction l as [|e l IH]; intros fs Hn; [split; [intros e []|reflexivity]|]. cbn [map] in Hn. inversion Hn as [|? ? Hi Hn']; subst. cbn [fold_left]. destruct (IH (dset (entry_path e) (fst (fst e)) fs) Hn') as [I1 I2]. split.
  - intros e' [<-|He]; [|apply I1, He]. rewrite I2 by exact Hi. apply dget_dset_same.
  - intros p Hp. cbn [map In] in Hp. rewrite I2 by tauto. apply dget_dset_other. intros ->. apply Hp. left. reflexivity.
Qed.
(** ** reading a directory *)
Lemma names_spec d l f : In f (names_in d l) <-> exists p, In p l /\ split_path p = (Some d, f).
Proof.
  unfold names_in. rewrite in_flat_map. split.
  - intros (p & Hp & H). exists p. split; [exact Hp|]. destruct (split_path p) as [[d'|] f']; [|destruct H]. destruct (String.eqb_spec d' d) as [->|]; [|destruct H]. destruct H as [->|[]]. reflexivity.
  - intros (p & Hp & H). exists p. split; [exact Hp|]. rewrite H, String.eqb_refl. left. reflexivity.
Qed.
Lemma names_nodup d l : NoDup l -> NoDup (names_in d l).
Proof.
  induction l as [|p l IH]; intros Hn; [constructor|]. inversion Hn as [|? ? Hp Hn']; subst. unfold names_in. cbn [flat_map]. fold (names_in d l).
  destruct (split_path p) as [[d'|] f] eqn:Hs; [|apply IH, Hn']. destruct (String.eqb_spec d' d) as [->|]; [|apply IH, Hn']. cbn [app]. constructor; [|apply IH, Hn'].
  intros Hi. apply names_spec in Hi as (p' & Hp' & Hs'). apply split_some in Hs as [-> _], Hs' as [-> _]. contradiction.
Qed.
Lemma names_map_file dk d l : directory dk d l -> NoDup (dkeys (dk_files dk)) -> Permutation (names_in d (dkeys (dk_files dk)) ++ names_in d (dk_dirs dk)) (map fst l).
Proof.
  intros (_ & _ & _ & Hl & Hf & Hs) Hn. assert (Hnil : names_in d (dk_dirs dk) = []).
  { destruct (names_in d (dk_dirs dk)) as [|f r] eqn:Hd; [reflexivity|]. exfalso. assert (Hi : In f (names_in d (dk_dirs dk))) by (rewrite Hd; left; reflexivity).
    apply names_spec in Hi as (p & Hp & Hsp). apply split_some in Hsp as [-> Hsl]. exact (Hs f Hsl Hp). }
  rewrite Hnil, app_nil_r. apply NoDup_Permutation; [apply names_nodup, Hn|exact Hl|]. intros f. rewrite names_spec. split.
  - intros (p & Hp & Hsp). apply split_some in Hsp as [-> Hsl]. apply dget_some_key in Hp as [x Hx]. apply in_map_iff. exists (f, x). split; [reflexivity|]. apply Hf. split; assumption.
  - intros H. apply in_map_iff in H as ([f' x] & <- & H). cbn [fst]. apply Hf in H as [Hsl Hx]. exists (d ++ "/" ++ f')%string. split; [apply dget_some_key; eauto|]. apply split_join, Hsl.
Qed.
