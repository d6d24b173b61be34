(** * ReportFacts: the rows of the report are right. *)
From Coq Require Import List QArith Permutation.
From Verif Require Import Base Group Hash ElGamal ListFacts Manifest Ballot Tally Ceremony Shares SpecShares TallyFacts UploadFacts Report SpecReport.
Local Open Scope Z_scope.

Lemma value_english t def : let v := get_i8n_value t "en" def in (english t v /\ v <> ""%string) \/ (v = def /\ (english t ""%string \/ forall n, ~ english t n)).
Proof.
  cbv zeta. unfold get_i8n_value. assert (H : match find_first (fun a => eqb (la_language a) "en"%string) t with Some a => english t (la_value a) | None => forall n, ~ english t n end).
  { induction t as [|x t IH]; cbn [find_first]; [intros n (l & l' & H & _); destruct l; discriminate|].
    eqb_cases (la_language x) "en"%string.
    - exists [], t. split; [destruct x; cbn in *; subst; reflexivity|intros y []].
    - destruct (find_first _ t) as [a|].
      + destruct IH as (l & l' & -> & Hl). exists (x :: l), l'. split; [reflexivity|]. intros y [<-|Hy]; [exact Heq|apply Hl, Hy].
      + intros n (l & l' & Hl & Hn). destruct l as [|y l]; cbn in Hl; injection Hl as -> Hl; [apply Heq; reflexivity|]. apply (IH n). exists l, l'. split; [exact Hl|]. intros z Hz. apply Hn. right. exact Hz. }
  destruct (find_first _ t) as [a|]; [|right; auto]. destruct (String.eqb_spec (la_value a) "") as [E|E]; [right; rewrite E in H; auto|left; auto].
Qed.
Lemma english_once t n n' : english t n -> english t n' -> n = n'.
Proof.
  intros (l & l' & -> & H) (k & k' & E & K). revert k E K. induction l as [|x l IH]; intros [|y k] E K; cbn in E; injection E as E1 E2.
  - exact E1.
  - destruct (K y (or_introl eq_refl)). rewrite <- E1. reflexivity.
  - destruct (H x (or_introl eq_refl)). rewrite E1. reflexivity.
  - subst y. apply (IH (fun z Hz => H z (or_intror Hz)) k E2). intros z Hz. apply K. right. exact Hz.
Qed.

Lemma rfold_dset {A V} (k : A -> string) (f : A -> res V) (g : A -> V) l : (forall x, In x l -> f x = Ok (g x)) ->
  forall acc, rfold (fun d x => do w <- f x; Ok (dset (k x) w d)) l acc = Ok (fold_left (fun d x => dset (k x) (g x) d) l acc).
Proof.
  induction l as [|x l IH]; intros H acc; [reflexivity|]. cbn [rfold fold_left]. rewrite (H x (or_introl eq_refl)). cbn [rbind]. apply IH. intros y Hy. apply H. right. exact Hy.
Qed.
Lemma fold_dict_of {A V} (k : A -> string) (g : A -> V) l : fold_left (fun d x => dset (k x) (g x) d) l [] = dict_of (map (fun x => (k x, g x)) l).
Proof. unfold dict_of. generalize (@nil (string * V)). induction l as [|x l IH]; intros acc; [reflexivity|]. cbn [fold_left map fst snd]. apply IH. Qed.
Lemma dict_of_get {A V} (k : A -> string) (g : A -> V) l x : NoDup (map k l) -> In x l -> dget (k x) (dict_of (map (fun x => (k x, g x)) l)) = Some (g x).
Proof.
  intros Hn Hx. rewrite dict_of_distinct by (rewrite map_map; exact Hn). apply in_dget; [unfold dkeys; rewrite map_map; exact Hn|]. apply (in_map (fun x => (k x, g x)) _ _ Hx).
Qed.
Lemma dict_of_none {A V} (k : A -> string) (g : A -> V) l x : ~ In x (map k l) -> dget x (dict_of (map (fun x => (k x, g x)) l)) = None.
Proof.
  intros Hx. destruct (dget x _) as [v|] eqn:D; [|reflexivity]. apply dget_in in D. apply dict_of_in in D. apply in_map_iff in D as (a & Ha & Hi). injection Ha as <- _. destruct Hx. apply in_map, Hi.
Qed.

Section Rows.
  Variable m : manifest.
  Hypothesis (Hv : manifest_is_valid m = true) (Ho : own_option_ids m).
  Lemma valid_ids : NoDup (map pa_id (mf_parties m)) /\ NoDup (map ca_id (mf_candidates m)) /\ NoDup (map cd_id (mf_contests m)) /\
    forall c p, In c (mf_candidates m) -> ca_party_id c = Some p -> In p (map pa_id (mf_parties m)).
  Proof.
    unfold manifest_is_valid in Hv. destruct (styles_loop _ _ _ _) as [si sg]. repeat rewrite Bool.andb_true_iff in Hv. destruct Hv as ((((_ & _) & Hp) & (Hc & Hcp)) & ((((Hk & _) & _) & _) & _)).
    rewrite Z.eqb_eq in Hp, Hc, Hk. assert (L : forall {A B} (f : A -> B) l, len (map f l) = len l) by (intros; unfold len; rewrite map_length; reflexivity).
    split; [|split; [|split]].
    - apply set_of_len_iff. rewrite L. exact Hp.
    - apply set_of_len_iff. rewrite L. exact Hc.
    - apply set_of_len_iff. rewrite L. exact Hk.
    - intros c p Hi Hcp'. rewrite forallb_forall in Hcp. specialize (Hcp c Hi). rewrite Hcp' in Hcp. apply inb_spec in Hcp. exact (proj1 (set_of_in _ _) Hcp).
  Qed.
  Lemma contest_name c : (exists d, In d (mf_contests m) /\ cd_id d = c) -> exists d, In d (mf_contests m) /\ cd_id d = c /\ dget c (get_contest_names m) = Some (cd_name d).
  Proof.
    intros (d & Hd & <-). exists d. split; [exact Hd|]. split; [reflexivity|]. unfold get_contest_names. apply (dict_of_get cd_id cd_name (mf_contests m) d); [apply valid_ids|exact Hd].
  Qed.
  (** ** the names *)
  Lemma option_in oid cid : in_manifest m cid oid -> exists o, In o (all_options m) /\ sd_id o = oid /\ forall c, In c (mf_candidates m) -> ca_id c = sd_candidate_id o -> stands_for m cid oid c.
  Proof.
    intros (d & o & Hd & Hc & Hi & Hs). exists o. split; [apply in_flat_map; eauto|]. split; [exact Hs|]. intros c H1 H2. exists d, o. auto 10.
  Qed.
  Lemma names_get o : In o (all_options m) -> dget (sd_id o) (get_selection_names m "en") =
    Some (match dget (sd_candidate_id o) (candidate_names m "en") with Some n => n | None => sd_candidate_id o end).
  Proof.
    intros Hi. unfold get_selection_names. set (f := fun kv : string * string => _).
    assert (E : flat_map (fun c => map (fun s => (sd_id s, sd_candidate_id s)) (cd_selections c)) (mf_contests m) = map (fun s => (sd_id s, sd_candidate_id s)) (all_options m)).
    { unfold all_options. induction (mf_contests m) as [|c l IH]; [reflexivity|]. cbn [flat_map]. rewrite map_app, IH. reflexivity. }
    rewrite E, dict_of_distinct by (rewrite map_map; exact Ho). rewrite map_map. apply in_dget.
    - unfold dkeys. rewrite map_map. exact Ho.
    - apply in_map_iff. exists o. split; [reflexivity|exact Hi].
  Qed.
  Lemma names_candidate c : In c (mf_candidates m) -> dget (ca_id c) (candidate_names m "en") = Some (candidate_name "en" c).
  Proof. intros Hc. apply (dict_of_get ca_id (candidate_name "en") _ c); [apply valid_ids|exact Hc]. Qed.
  Lemma candidate_called c : writes_in c = false -> called c (candidate_name "en" c).
  Proof.
    intros Hw. assert (E : candidate_name "en" c = get_i8n_value (ca_name c) "en" (ca_id c)) by (unfold candidate_name; unfold writes_in in Hw; destruct (ca_is_write_in c) as [[]|]; [discriminate|reflexivity..]).
    rewrite E. destruct (value_english (ca_name c) (ca_id c)) as [[H1 H2]|[H1 H2]]; [left; auto|right]. split; [exact H1|]. intros n Hn. destruct H2 as [H2|H2]; [apply (english_once _ _ _ Hn H2)|destruct (H2 n Hn)].
  Qed.
  (** ** the parties *)
  Definition party_names : dict string string := dict_of (map (fun p => (pa_id p, get_i8n_value (pa_name p) "en" "")) (mf_parties m)).
  Lemma party_get p : In p (mf_parties m) -> dget (pa_id p) party_names = Some (get_i8n_value (pa_name p) "en" "").
  Proof. intros Hp. apply (dict_of_get pa_id (fun p => get_i8n_value (pa_name p) "en" "") _ p); [apply valid_ids|exact Hp]. Qed.
  Lemma candidates_fold l : incl l (mf_candidates m) -> NoDup (map ca_id l) -> forall acc, exists d,
    rfold (fun d c => match ca_party_id c with None => Ok d | Some p => do n <- dict_at party_names p; Ok (dset (ca_id c) n d) end) l acc = Ok d /\
    (forall c, In c l -> dget (ca_id c) acc = None -> match ca_party_id c with None => dget (ca_id c) d = None | Some p => dget (ca_id c) d = dget p party_names /\ In p (map pa_id (mf_parties m)) end) /\
    forall k, ~ In k (map ca_id l) -> dget k d = dget k acc.
  Proof.
    induction l as [|c l IH]; intros Hl Hn acc; [exists acc; split; [reflexivity|]; split; [intros c []|reflexivity]|].
    inversion_clear Hn as [|? ? Hc Hn']. specialize (IH (fun x Hx => Hl x (or_intror Hx)) Hn'). cbn [rfold].
    destruct (ca_party_id c) as [p|] eqn:Ep.
    - assert (Hp := proj2 (proj2 (proj2 valid_ids)) c p (Hl c (or_introl eq_refl)) Ep). apply in_map_iff in Hp as (q & <- & Hq).
      unfold dict_at at 1. rewrite (party_get q Hq). cbn [rbind]. destruct (IH (dset (ca_id c) (get_i8n_value (pa_name q) "en" "") acc)) as (d & D1 & D2 & D3).
      exists d. split; [exact D1|]. split.
      + intros c' [<-|Hc'] Ha.
        * rewrite Ep. split; [|apply in_map, Hq]. rewrite (D3 _ Hc), dget_dset_same, (party_get q Hq). reflexivity.
        * apply D2; [exact Hc'|]. rewrite dget_dset_other; [exact Ha|]. intros E. apply Hc. rewrite <- E. apply in_map, Hc'.
      + intros k Hk. rewrite D3 by (intros H; apply Hk; right; exact H). apply dget_dset_other. intros E. apply Hk. left. symmetry. exact E.
    - cbn [rbind]. destruct (IH acc) as (d & D1 & D2 & D3). exists d. split; [exact D1|]. split.
      + intros c' [<-|Hc'] Ha; [rewrite Ep, (D3 _ Hc); exact Ha|apply D2; assumption].
      + intros k Hk. apply D3. intros H. apply Hk. right. exact H.
  Qed.
  Lemma parties_get : exists d, selection_parties m = Ok d /\
    forall o c, In o (all_options m) -> In c (mf_candidates m) -> ca_id c = sd_candidate_id o -> exists n, dget (sd_id o) d = Some n /\ member_of m c n.
  Proof.
    unfold selection_parties. fold party_names. destruct (candidates_fold (mf_candidates m) (incl_refl _) (proj1 (proj2 valid_ids)) []) as (cs & -> & C2 & _). cbn [rbind].
    eexists. split; [reflexivity|]. intros o c Hi Hc E. rewrite fold_dict_of.
    rewrite (dict_of_get sd_id (fun s => match dget (sd_candidate_id s) cs with Some p => p | None => ""%string end) (all_options m) o Ho Hi).
    eexists. split; [reflexivity|]. rewrite <- E. specialize (C2 c Hc eq_refl). unfold member_of. destruct (ca_party_id c) as [p|].
    - destruct C2 as [-> Hp]. apply in_map_iff in Hp as (q & <- & Hq). rewrite (party_get q Hq). exists q. split; [exact Hq|]. split; [reflexivity|].
      destruct (value_english (pa_name q) "") as [[H1 H2]|[H1 H2]]; [left; exact H1|]. rewrite H1. destruct H2 as [H2|H2]; auto.
    - rewrite C2. reflexivity.
  Qed.
  (** ** the write-ins *)
  Hypothesis Hl : candidates_listed m.
  Lemma all_listed o : In o (all_options m) -> exists c, In c (mf_candidates m) /\ ca_id c = sd_candidate_id o.
  Proof. intros H. apply in_flat_map in H as (d & Hd & Hi). exact (Hl d o Hd Hi). Qed.
  Lemma write_ins_get : exists d, candidate_write_ins m = Ok d /\
    forall o c, In o (all_options m) -> In c (mf_candidates m) -> ca_id c = sd_candidate_id o -> dget (sd_id o) d = Some (writes_in c).
  Proof.
    set (cs := dict_of (map (fun c => (ca_id c, match ca_is_write_in c with Some true => true | _ => false end)) (mf_candidates m))).
    assert (G : forall c, In c (mf_candidates m) -> dget (ca_id c) cs = Some (writes_in c)) by (intros c Hc; apply (dict_of_get ca_id writes_in _ c); [apply valid_ids|exact Hc]).
    exists (fold_left (fun d s => dset (sd_id s) (match dget (sd_candidate_id s) cs with Some w => w | None => false end) d) (all_options m) []).
    split.
    - unfold candidate_write_ins. fold cs. apply (rfold_dset sd_id (fun s => dict_at cs (sd_candidate_id s)) (fun s => match dget (sd_candidate_id s) cs with Some w => w | None => false end)).
      intros o Hi. destruct (all_listed o Hi) as (c & Hc & E). unfold dict_at. rewrite <- E, (G c Hc). reflexivity.
    - intros o c Hi Hc E. rewrite fold_dict_of. rewrite (dict_of_get sd_id (fun s => match dget (sd_candidate_id s) cs with Some w => w | None => false end) _ o Ho Hi). rewrite <- E, (G c Hc). reflexivity.
  Qed.
End Rows.

(** ** a contest *)
Lemma with_flag_ok (ws : dict string bool) (flag : plain_sel -> bool) want l : (forall s, In s l -> dget (pl_id s) ws = Some (flag s)) ->
  with_flag ws want l = Ok (filter (fun s => Bool.eqb (flag s) want) l).
Proof.
  induction l as [|s l IH]; intros H; [reflexivity|]. cbn [with_flag filter]. unfold dict_at. rewrite (H s (or_introl eq_refl)). cbn [rbind]. rewrite IH by (intros x Hx; apply H; right; exact Hx). reflexivity.
Qed.
Lemma split_flag {A} (flag : A -> bool) l : Permutation l (filter (fun s => Bool.eqb (flag s) false) l ++ filter (fun s => Bool.eqb (flag s) true) l).
Proof.
  induction l as [|s l IH]; [constructor|]. cbn [filter]. destruct (flag s); cbn [Bool.eqb]; [|cbn; constructor; exact IH]. apply Permutation_cons_app, IH.
Qed.
Lemma sumZ_nonneg l : (forall x, In x l -> 0 <= x) -> 0 <= sumZ l /\ forall x, In x l -> x <= sumZ l.
Proof.
  induction l as [|x l IH]; intros H; [split; [cbn; lia|intros x []]|]. destruct (IH (fun y Hy => H y (or_intror Hy))) as [I1 I2]. specialize (H x (or_introl eq_refl)).
  cbn [sumZ fold_right]. change (fold_right Z.add 0 l) with (sumZ l). split; [lia|]. intros y [<-|Hy]; [lia|specialize (I2 y Hy); lia].
Qed.
Lemma percent_right t total : 0 <= t -> t <= total -> exists q, (if t =? 0 then Ok 0%Q else if total =? 0 then Err ZeroDivisionError else Ok (inject_Z t / inject_Z total)%Q) = Ok q /\
  (0 <= q <= 1 /\ q * inject_Z total == inject_Z t)%Q /\ (t = 0 -> (q == 0)%Q).
Proof.
  intros H1 H2. destruct (Z.eqb_spec t 0) as [->|N].
  - exists 0%Q. split; [reflexivity|]. split; [|reflexivity]. split; [split; [apply Qle_refl|discriminate]|]. ring.
  - destruct (Z.eqb_spec total 0) as [E|N']; [lia|]. eexists. split; [reflexivity|]. assert (Hpos : (0 < inject_Z total)%Q) by (change 0%Q with (inject_Z 0); rewrite <- Zlt_Qlt; lia).
    split; [|lia]. split; [split|].
    + apply Qle_shift_div_l; [exact Hpos|]. rewrite Qmult_0_l. change 0%Q with (inject_Z 0). rewrite <- Zle_Qle. lia.
    + apply Qle_shift_div_r; [exact Hpos|]. rewrite Qmult_1_l. rewrite <- Zle_Qle. lia.
    + field. intros E. apply N'. apply (proj1 (inject_Z_injective total 0)) in E. exact E.
Qed.
(** ** the report *)
Section Report.
  Variable m : manifest.
  Hypothesis (Hv : manifest_is_valid m = true) (Ho : own_option_ids m) (Hl : candidates_listed m).
  (** the options of a contest, with their candidates *)
  Lemma option_candidate cid oid : in_manifest m cid oid -> exists o c, In o (all_options m) /\ sd_id o = oid /\ In c (mf_candidates m) /\ ca_id c = sd_candidate_id o /\ stands_for m cid oid c.
  Proof.
    intros H. destruct (option_in m oid cid H) as (o & H1 & H2 & H3). destruct (all_listed m Hl o H1) as (c & H4 & H5). exists o, c. auto 10.
  Qed.
  Definition flag_of (ws : dict string bool) (s : plain_sel) : bool := match dget (pl_id s) ws with Some w => w | None => false end.
  Lemma report_right p : of_manifest m p -> exists rows, get_plaintext_ballot_report m p = Ok rows /\ Forall2 (right_row m) (dvals (pt_contests p)) rows.
  Proof.
    intros [_ Hp]. unfold get_plaintext_ballot_report. destruct (write_ins_get m Hv Ho Hl) as (ws & -> & Hws). destruct (parties_get m Hv Ho) as (ps & -> & Hps). cbn [rbind].
    induction (dvals (pt_contests p)) as [|c l IH]; [exists []; split; [reflexivity|constructor]|].
    destruct (IH (fun x Hx => Hp x (or_intror Hx))) as (rows & R1 & R2). clear IH. destruct (Hp c (or_introl eq_refl)) as (_ & Hc & Hs). clear Hp.
    destruct (contest_name m Hv (pn_id c) Hc) as (d & D1 & D2 & D3). cbn [rmapM]. rewrite D3, R1.
    assert (Hfl : forall s, In s (dvals (pn_selections c)) -> dget (pl_id s) ws = Some (flag_of ws s) /\ exists k, stands_for m (pn_id c) (pl_id s) k /\ writes_in k = flag_of ws s /\
       dget (pl_id s) (get_selection_names m "en") = Some (candidate_name "en" k) /\ exists n, dget (pl_id s) ps = Some n /\ member_of m k n).
    { intros s Hi. destruct (option_candidate _ _ (proj1 (Hs s Hi))) as (o & k & K1 & K2 & K3 & K4 & K5). assert (E := Hws o k K1 K3 K4). rewrite K2 in E. unfold flag_of. rewrite E. split; [reflexivity|].
      exists k. split; [exact K5|]. split; [reflexivity|]. split.
      - rewrite <- K2, (names_get m Ho o K1), <- K4, (names_candidate m Hv k K3). reflexivity.
      - rewrite <- K2. apply Hps; assumption. }
    unfold contest_details. rewrite !(with_flag_ok ws (flag_of ws)) by (intros s Hi; apply Hfl, Hi). cbn [rbind].
    set (named := filter (fun s => Bool.eqb (flag_of ws s) false) (dvals (pn_selections c))). set (others := filter (fun s => Bool.eqb (flag_of ws s) true) (dvals (pn_selections c))).
    set (total := sumZ (map pl_tally named)).
    assert (Ht : 0 <= total /\ forall s, In s named -> pl_tally s <= total).
    { destruct (sumZ_nonneg (map pl_tally named)) as [N1 N2].
      - intros x Hx. apply in_map_iff in Hx as (s & <- & Hx). apply filter_In in Hx as [Hx _]. apply Hs, Hx.
      - split; [exact N1|]. intros s Hx. apply N2, in_map, Hx. }
    assert (Hlines : exists lines, selections_report named (get_selection_names m "en") ps total = Ok lines /\ Forall2 (right_line m (pn_id c) total) named lines).
    { assert (Hn : forall s, In s named -> In s (dvals (pn_selections c)) /\ flag_of ws s = false /\ pl_tally s <= total).
      { intros s Hx. split; [apply filter_In in Hx; apply Hx|]. split; [|apply Ht, Hx]. apply filter_In in Hx as [_ Hx]. destruct (flag_of ws s); [discriminate|reflexivity]. }
      clear -Hn Hfl Hs. clearbody total. unfold selections_report. induction named as [|s l IH]; [exists []; split; [reflexivity|constructor]|].
      destruct (IH (fun x Hx => Hn x (or_intror Hx))) as (lines & L1 & L2). destruct (Hn s (or_introl eq_refl)) as (N1 & N2 & N3). destruct (Hfl s N1) as (_ & k & K1 & K2 & K3 & n & K4 & K5). 
      destruct (percent_right (pl_tally s) total (proj2 (Hs s N1)) N3) as (q & Q1 & Q2 & Q3).
      cbn [rmapM]. unfold dict_at at 1. rewrite K3, K4. cbn [rbind]. rewrite Q1. cbn [rbind]. rewrite L1. cbn [rbind]. eexists. split; [reflexivity|]. constructor; [|exact L2].
      exists k. split; [exact K1|]. split; [congruence|]. split; [apply candidate_called; congruence|]. split; [exact K5|]. split; [reflexivity|]. split; [exact Q2|exact Q3]. }
    destruct Hlines as (lines & L1 & L2). rewrite L1. cbn [rbind]. eexists. split; [reflexivity|]. constructor; [|exact R2].
    split; [exists d; auto|]. exists named, others. split; [apply split_flag|]. split.
    - intros s Hx. apply filter_In in Hx as [Hx Hf]. destruct (Hfl s Hx) as (_ & k & K1 & K2 & _). exists k. split; [exact K1|]. destruct (flag_of ws s); [exact K2|discriminate].
    - split; [reflexivity|]. split; [exact L2|]. cbn [rr_write_ins]. destruct others as [|s l']; [reflexivity|]. assert (E : 0 <? len (s :: l') = true) by (apply Z.ltb_lt; unfold len; cbn [length]; lia). rewrite E. reflexivity.
  Qed.
End Report.
(** what is shown adds up, whatever the manifest *)
Lemma with_flag_split ws l : forall a b, with_flag ws false l = Ok a -> with_flag ws true l = Ok b -> sumZ (map pl_tally l) = sumZ (map pl_tally a) + sumZ (map pl_tally b) /\ (forall s, In s a -> In s l).
Proof.
  induction l as [|s l IH]; intros a b; cbn [with_flag]; [intros [= <-] [= <-]; split; [reflexivity|intros s []]|].
  destruct (dict_at ws (pl_id s)) as [w|]; cbn [rbind]; [|discriminate]. destruct (with_flag ws false l) as [a'|]; cbn [rbind]; [|discriminate]. destruct (with_flag ws true l) as [b'|]; cbn [rbind]; [|discriminate].
  intros [= <-] [= <-]. destruct (IH a' b' eq_refl eq_refl) as [I1 I2].
  assert (Hs : forall x y, sumZ (x :: y) = x + sumZ y) by reflexivity. destruct w; cbn [Bool.eqb map]; rewrite !Hs; (split; [lia|]); intros x Hx; [right; apply I2, Hx|]. destruct Hx as [<-|Hx]; [left; reflexivity|right; apply I2, Hx].
Qed.
Lemma report_adds_up m p rows : get_plaintext_ballot_report m p = Ok rows ->
  Forall2 (fun c r => rr_total r + match rr_write_ins r with Some w => w | None => 0 end = sumZ (map pl_tally (dvals (pn_selections c))) /\
                      rr_total r = sumZ (map rl_tally (rr_lines r))) (dvals (pt_contests p)) rows.
Proof.
  unfold get_plaintext_ballot_report. destruct (candidate_write_ins m) as [ws|]; cbn [rbind]; [|discriminate]. destruct (selection_parties m) as [ps|]; cbn [rbind]; [|discriminate].
  revert rows. induction (dvals (pt_contests p)) as [|c l IH]; intros rows; cbn [rmapM]; [intros [= <-]; constructor|].
  unfold contest_details at 1. destruct (with_flag ws false _) as [a|] eqn:A; cbn [rbind]; [|discriminate].
  destruct (selections_report a _ ps _) as [lines|] eqn:L; cbn [rbind]; [|discriminate]. destruct (with_flag ws true _) as [b|] eqn:B; cbn [rbind]; [|discriminate].
  destruct (rmapM _ l) as [rows'|] eqn:R; cbn [rbind]; [|discriminate]. intros [= <-]. constructor; [|apply IH; reflexivity].
  destruct (with_flag_split _ _ _ _ A B) as [S1 _]. cbn [rr_total rr_write_ins rr_lines]. split.
  - rewrite S1. destruct b as [|x b]; [reflexivity|]. assert (E : 0 <? len (x :: b) = true) by (apply Z.ltb_lt; unfold len; cbn [length]; lia). rewrite E. reflexivity.
  - f_equal. clear -L. set (t := sumZ (map pl_tally a)) in L. clearbody t. revert lines L. unfold selections_report. induction a as [|s a IH]; intros lines; cbn [rmapM]; [intros [= <-]; reflexivity|].
    destruct (dict_at _ _) as [n|]; cbn [rbind]; [|discriminate]. destruct (if pl_tally s =? 0 then _ else _) as [q|]; cbn [rbind]; [|discriminate]. destruct (rmapM _ a) as [ls|]; cbn [rbind]; [|discriminate].
    intros [= <-]. cbn [map rl_tally]. f_equal. apply IH. reflexivity.
Qed.
(** the percentages of a row with votes make up the whole *)
Lemma percents_whole m cid total : forall named lines, Forall2 (right_line m cid total) named lines -> (fold_right Qplus 0 (map rl_percent lines) * inject_Z total == inject_Z (sumZ (map pl_tally named)))%Q.
Proof.
  intros named lines H. induction H as [|s l named lines (c & _ & _ & _ & _ & _ & [_ Q] & _) H IH]; [cbn; ring|].
  assert (Hs : forall x y, sumZ (x :: y) = x + sumZ y) by reflexivity. cbn [map fold_right]. rewrite Hs, inject_Z_plus, Qmult_plus_distr_l, IH, Q. reflexivity.
Qed.
Lemma row_whole m c r : right_row m c r -> rr_total r <> 0 -> (fold_right Qplus 0 (map rl_percent (rr_lines r)) == 1)%Q.
Proof.
  intros (_ & named & others & _ & _ & T & L & _) N. assert (H := percents_whole _ _ _ _ _ L). rewrite <- T in H.
  assert (N' : ~ (inject_Z (rr_total r) == 0)%Q) by (intros E; apply N, (proj1 (inject_Z_injective _ 0)), E). apply (Qmult_inj_r _ _ _ N'). rewrite H. ring.
Qed.
(** ** the printed results *)
Lemma printed_right m p : manifest_is_valid m = true -> own_option_ids m -> of_manifest m p -> exists out, print_tally m p = Ok out /\
  Forall2 (fun c r => (exists d, In d (mf_contests m) /\ cd_id d = pn_id c /\ fst r = Some (cd_name d)) /\
    Forall2 (fun s l => snd l = pl_tally s /\ exists o, In o (all_options m) /\ sd_id o = pl_id s /\
       ((exists c, In c (mf_candidates m) /\ ca_id c = sd_candidate_id o /\ if writes_in c then fst l = "Write-In"%string else called c (fst l)) \/
        (fst l = sd_candidate_id o /\ forall c, In c (mf_candidates m) -> ca_id c <> sd_candidate_id o))) (dvals (pn_selections c)) (snd r)) (dvals (pt_contests p)) out.
Proof.
  intros Hv Ho [_ Hp]. unfold print_tally. induction (dvals (pt_contests p)) as [|c l IH]; [exists []; split; [reflexivity|constructor]|].
  destruct (IH (fun x Hx => Hp x (or_intror Hx))) as (rows & R1 & R2). clear IH. destruct (Hp c (or_introl eq_refl)) as (_ & Hc & Hs). clear Hp.
  destruct (contest_name m Hv (pn_id c) Hc) as (d & D1 & D2 & D3). cbn [rmapM]. rewrite D3, R1. clear R1.
  match goal with |- exists out, (do y <- (do l <- rmapM ?f ?l0; _); _) = _ /\ _ => assert (HH : exists out, rmapM f l0 = Ok out /\ 
    Forall2 (fun s l => snd l = pl_tally s /\ exists o, In o (all_options m) /\ sd_id o = pl_id s /\
       ((exists c, In c (mf_candidates m) /\ ca_id c = sd_candidate_id o /\ if writes_in c then fst l = "Write-In"%string else called c (fst l)) \/
        (fst l = sd_candidate_id o /\ forall c, In c (mf_candidates m) -> ca_id c <> sd_candidate_id o))) l0 out) end.
  { clear R2. induction (dvals (pn_selections c)) as [|s l' IH]; [exists []; split; [reflexivity|constructor]|].
    destruct (IH (fun x Hx => Hs x (or_intror Hx))) as (out & O1 & O2). destruct (Hs s (or_introl eq_refl)) as [Hi _]. destruct (option_in m _ _ Hi) as (o & I1 & I2 & _).
    cbn [rmapM]. rewrite O1. unfold dict_at at 1. rewrite <- I2, (names_get m Ho o I1). cbn [rbind]. eexists. split; [reflexivity|]. constructor; [|exact O2]. split; [reflexivity|]. exists o. split; [exact I1|]. split; [exact I2|]. cbn [fst].
    destruct (in_dec string_dec (sd_candidate_id o) (map ca_id (mf_candidates m))) as [Hk|Hk].
    - apply in_map_iff in Hk as (k & K1 & K2). left. exists k. split; [exact K2|]. split; [exact K1|]. rewrite <- K1, (names_candidate m Hv k K2). destruct (writes_in k) eqn:W; [|apply candidate_called, W].
      unfold candidate_name. unfold writes_in in W. destruct (ca_is_write_in k) as [[]|]; [reflexivity|discriminate..].
    - right. unfold candidate_names. rewrite (dict_of_none ca_id (candidate_name "en") _ _ Hk). split; [reflexivity|]. intros k K1 K2. apply Hk. rewrite <- K2. apply in_map, K1. }
  destruct HH as (out & -> & HF). cbn [rbind]. eexists. split; [reflexivity|]. constructor; [|exact R2]. split; [exists d; auto|exact HF].
Qed.
Lemma report_whole m p rows r : manifest_is_valid m = true -> own_option_ids m -> candidates_listed m -> of_manifest m p ->
  get_plaintext_ballot_report m p = Ok rows -> In r rows -> rr_total r <> 0 -> (fold_right Qplus 0 (map rl_percent (rr_lines r)) == 1)%Q.
Proof.
  intros Hv Ho Hc Hp Hr Hi Ht. destruct (report_right m Hv Ho Hc p Hp) as (rows' & R1 & R2). rewrite Hr in R1. injection R1 as <-. destruct (Forall2_in_r _ _ _ _ R2 Hi) as (c & _ & Hrow). exact (row_whole m c r Hrow Ht).
Qed.
