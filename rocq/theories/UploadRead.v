(** * UploadRead: reading the ballots back, and uploading a whole drive. *)
From Verif Require Import Base Group Hash ElGamal Manifest Ballot GuiUpload SpecUpload ListFacts UploadFacts UploadCounts.
From Coq Require Import List.

Section Read.
  Variable parse : string -> option sub_ballot.
  Variable device : string -> bool.
  Variable w0 : gdb.
  Context (H0 : no_uploads w0).
  Notation after := (after parse device w0).

  (** ** documents stay *)
  Lemma step_keeps new c w c' w' : all_oid w -> call_step parse device new c w = (c', w') -> exists l, db_uploads w' = db_uploads w ++ l.
  Proof.
    intros Ho. destruct c as [e s|e s|e u s|u e s|u e s o|u e s o|u e|u e|a]; cbn [call_step].
    - destruct (find_election w e); intros [= <- <-]; exists []; rewrite app_nil_r; reflexivity.
    - destruct (insert_doc _ _) eqn:Hi; intros [= <- <-]; [apply insert_ok in Hi as (_ & -> & _); eauto|exists []; rewrite app_nil_r; reflexivity].
    - destruct (append_ballot_upload _ _ _ _ _) eqn:Hi; intros [= <- <-]; [apply append_fixed in Hi as (_ & _ & ->)|]; exists []; rewrite app_nil_r; reflexivity.
    - assert (Hw : forall b : call, (b, w) = (c', w') -> exists l, db_uploads w' = db_uploads w ++ l) by (intros b [= _ <-]; exists []; rewrite app_nil_r; reflexivity).
      destruct (parse s) as [b|]; [|apply Hw]. destruct (find_election w e) as [x|]; [|apply Hw]. destruct (el_context x); [|apply Hw]. destruct (_ =? _); apply Hw.
    - destruct (any_ballot_exists w e o); intros [= <- <-]; exists []; rewrite app_nil_r; reflexivity.
    - destruct (insert_doc _ _) eqn:Hi; intros [= <- <-]; [apply insert_ok in Hi as (_ & -> & _); eauto|exists []; rewrite app_nil_r; reflexivity].
    - intros [= <- <-]. rewrite inc_noop by exact Ho. exists []; rewrite app_nil_r; reflexivity.
    - intros [= <- <-]. exists []; rewrite app_nil_r; reflexivity.
    - intros [= <- <-]. exists []; rewrite app_nil_r; reflexivity.
  Qed.
  Lemma run_keeps h : forall w, good_up parse w0 w -> exists l, db_uploads (uw_db (up_run parse device w h)) = db_uploads (uw_db w) ++ l.
  Proof.
    unfold up_run. induction h as [|ev h IH]; cbn [fold_left]; intros w Hw; [exists []; rewrite app_nil_r; reflexivity|].
    destruct (IH _ (up_step_good parse device w0 w ev Hw)) as [l ->].
    assert (H : exists l', db_uploads (uw_db (up_step parse device w ev)) = db_uploads (uw_db w) ++ l').
    { destruct ev as [e s|u e s|i new]; cbn [up_step]; [exists []; rewrite app_nil_r; reflexivity..|].
      destruct (nth_error (uw_calls w) i) as [c|]; [|exists []; rewrite app_nil_r; reflexivity].
      destruct (call_step parse device new c (uw_db w)) as [c' d'] eqn:Hs. apply step_keeps in Hs; [exact Hs|apply (gw_oid _ _ _ (proj1 Hw))]. }
    destruct H as [l' ->]. exists (l' ++ l). rewrite app_assoc. reflexivity.
  Qed.
  Lemma after_keeps h h' : exists l, db_uploads (after (h ++ h')) = db_uploads (after h) ++ l.
  Proof.
    unfold SpecUpload.after, up_run. rewrite fold_left_app. apply run_keeps. apply up_run_good. split; [apply good_start, H0|constructor].
  Qed.
  Lemma find_doc l d : NoDup (map ud_id l) -> In d l -> find_first (fun x => doc_id_eqb (ud_id x) (ud_id d)) l = Some d.
  Proof.
    induction l as [|x l IH]; cbn; intros Hn Hd; [destruct Hd|]. inversion Hn as [|? ? Hx Hn']; subst. destruct (doc_id_eqb (ud_id x) (ud_id d)) eqn:He.
    - apply doc_id_eqb_spec in He. destruct Hd as [->|Hd]; [reflexivity|]. exfalso. apply Hx. rewrite He. apply in_map, Hd.
    - destruct Hd as [->|Hd]; [rewrite (proj2 (doc_id_eqb_spec _ _) eq_refl) in He; discriminate|]. apply IH; assumption.
  Qed.

  (** ** get_ballots *)
  Lemma attempt h net d u o s k b : from_then_on parse device w0 h net -> In d (db_uploads (after h)) -> ud_body d = BallotDoc u o s -> parse s = Some b ->
    get_submitted_ballot parse (net (ud_id d) k) (ud_id d) = match net (ud_id d) k with
      | None => Again | Some _ => match last_char s with None => Broken | Some c => if Ascii.eqb c "}"%char then Got b else Again end end.
  Proof.
    intros Hn Hd Hb Hp. unfold get_submitted_ballot. destruct (net (ud_id d) k) as [w'|] eqn:Hk; [|reflexivity]. destruct (Hn _ _ _ Hk) as [h' ->].
    rewrite find_doc; [|apply (gw_ids _ _ _ (after_good parse device w0 H0 (h ++ h')))|destruct (after_keeps h h') as [l ->]; apply in_or_app; left; exact Hd].
    rewrite Hb, Hp. reflexivity.
  Qed.
  Lemma retried h net d u o s b : from_then_on parse device w0 h net -> In d (db_uploads (after h)) -> ud_body d = BallotDoc u o s -> parse s = Some b ->
    with_retry parse (net (ud_id d)) 0 3 (ud_id d) = if closed s && reached net (mkStored (ud_id d) u o s) then Some b else None.
  Proof.
    intros Hn Hd Hb Hp. cbn [with_retry]. rewrite !(attempt h net d u o s _ b Hn Hd Hb Hp). unfold closed, reached. cbn [so_doc existsb].
    destruct (net (ud_id d) 0%nat), (net (ud_id d) 1%nat), (net (ud_id d) 2%nat); destruct (last_char s) as [c|]; try reflexivity; destruct (Ascii.eqb c "}"%char); reflexivity.
  Qed.
  Lemma read_back h net e : from_then_on parse device w0 h net ->
    Forall2 (fun b sb => parse (so_contents b) = Some sb /\ sb_id sb = so_object b)
      (filter (fun b => closed (so_contents b) && reached net b) (stored (after h) e)) (gui_ballots parse net (after h) e).
  Proof.
    intros Hn. pose proof (gw_ballots _ _ _ (after_good parse device w0 H0 h) e) as Hg.
    unfold gui_ballots, ballot_ids. unfold stored in *. assert (Hd : forall d, In d (db_uploads (after h)) -> In d (db_uploads (after h))) by auto.
    revert Hg Hd. generalize (db_uploads (after h)) at 1 2 4 5 as l. induction l as [|d l IH]; intros Hg Hd; [constructor|].
    cbn [flat_map filter]. cbn [flat_map] in Hg. unfold has_contents at 1. destruct (ud_body d) as [n|u o s] eqn:Eb; cbn [has_count negb].
    - rewrite andb_false_r. cbn [app]. apply IH; [exact Hg|intros x Hx; apply Hd; right; exact Hx].
    - rewrite andb_true_r. destruct (String.eqb (ud_election d) e).
      + cbn [app map flat_map filter] in *. destruct (Hg _ (or_introl eq_refl)) as (b & B1 & B2 & _). cbn in B1, B2. cbn [so_contents].
        rewrite (retried h net d u o s b Hn (Hd d (or_introl eq_refl)) Eb B1).
        assert (HF : Forall2 (fun b sb => parse (so_contents b) = Some sb /\ sb_id sb = so_object b) (filter (fun b => closed (so_contents b) && reached net b)
           (flat_map (fun d0 => match ud_body d0 with UploadDoc _ => [] | BallotDoc u0 o0 s0 => if String.eqb (ud_election d0) e then [mkStored (ud_id d0) u0 o0 s0] else [] end) l))
           (flat_map (fun id => match with_retry parse (net id) 0 3 id with Some b => [b] | None => [] end) (map ud_id (filter (fun d => String.eqb (ud_election d) e && has_contents d) l))))
          by (apply IH; [intros x Hx; apply Hg; right; exact Hx|intros x Hx; apply Hd; right; exact Hx]).
        destruct (closed s && reached net _); cbn [app]; [constructor; [split; assumption|exact HF]|exact HF].
      + cbn [app]. apply IH; [exact Hg|intros x Hx; apply Hd; right; exact Hx].
  Qed.

  (** ** one whole upload *)
  Lemma whole_upload new u e s w a w' : all_oid w -> call_whole parse device new (UploadBallot u e s) w = (a, w') ->
    (a = Failed /\ w' = w) \/ exists b, parse s = Some b /\
     ((a = Stored true /\ w' = w /\ any_ballot_exists w e (sb_id b) = true) \/
      (a = Stored false /\ any_ballot_exists w e (sb_id b) = false /\ exists w1, insert_doc w (mkUpDoc (Oid new) e (BallotDoc u (sb_id b) s)) = Ok w1 /\ w' = increment_upload_count w1 e u)).
  Proof.
    intros Ho. unfold call_whole. cbn [call_run call_step].
    destruct (parse s) as [b|]; [|cbn; intros [= <- <-]; auto]. destruct (find_election w e) as [x|]; [|cbn; intros [= <- <-]; auto].
    destruct (el_context x) as [cx|]; [|cbn; intros [= <- <-]; auto]. destruct (_ =? _); [|cbn; intros [= <- <-]; auto]. cbn [call_step].
    destruct (any_ballot_exists w e (sb_id b)) eqn:Hx; [cbn; intros [= <- <-]; right; exists b; auto|]. cbn [call_step].
    destruct (insert_doc w _) as [w1|] eqn:Hi; [|cbn; intros [= <- <-]; auto]. cbn [call_step]. intros [= <- <-].
    assert (Ho1 : all_oid w1) by (apply insert_ok in Hi as (_ & Hi & _); intros y; rewrite Hi; intros Hy; apply in_app_or in Hy as [Hy|[<-|[]]]; [apply Ho, Hy|exists new; reflexivity]).
    right. exists b. split; [reflexivity|]. right. split; [reflexivity|]. split; [first [reflexivity|exact Hx]|]. exists w1. split; [first [reflexivity|exact Hi]|]. rewrite inc_noop by exact Ho1. reflexivity.
  Qed.
  Lemma any_exists_inb w e o : any_ballot_exists w e o = inb o (map so_object (stored w e)).
  Proof.
    destruct (any_ballot_exists w e o) eqn:Hx.
    - symmetry. apply inb_spec. apply existsb_exists in Hx as (d & Hd & Hx). unfold is_ballot in Hx. apply andb_true_iff in Hx as [H1 H2].
      destruct (ud_body d) as [|u o' s] eqn:Eb; [discriminate|]. apply String.eqb_eq in H2. subst o'. apply in_map_iff. exists (mkStored (ud_id d) u o s). split; [reflexivity|].
      unfold stored. apply in_flat_map. exists d. split; [exact Hd|]. rewrite Eb, H1. left. reflexivity.
    - destruct (inb o _) eqn:Hi; [|reflexivity]. exfalso. apply inb_spec in Hi. exact (exists_ballot _ _ _ Hx Hi).
  Qed.
  (** the entry of [u] in the election [e]: exactly one, showing [n] *)
  Definition shows_one (w : gdb) (e u : string) (n : Z) : Prop :=
    NoDup (map el_id (db_elections w)) /\ exists x l1 l2, In x (db_elections w) /\ el_id x = e /\ el_uploads x = l1 ++ (u, n) :: l2 /\ forall m, ~ In (u, m) l1.
  Lemma update_keeps_other {A} (f : A -> string) (p : A -> bool) g l x : In x l -> p x = false -> In x (update_first p g l).
  Proof. clear. induction l as [|y l IH]; cbn; intros Hx Hp; [destruct Hx|]. destruct Hx as [->|Hx]; [rewrite Hp; left; reflexivity|]. destruct (p y); [right; exact Hx|right; apply IH; assumption]. Qed.
  Lemma update_hits (p : election -> bool) g l x : In x l -> p x = true -> (forall y, In y l -> p y = true -> y = x) -> In (g x) (update_first p g l).
  Proof.
    clear. induction l as [|y l IH]; cbn; intros Hx Hp H; [destruct Hx|]. destruct (p y) eqn:Hy; [left; f_equal; apply H; auto|].
    destruct Hx as [->|Hx]; [congruence|]. right. apply IH; auto.
  Qed.
  Lemma update_entry (l1 l2 : list (string * Z)) u n : (forall m, ~ In (u, m) l1) ->
    update_first (fun v => String.eqb (fst v) u) (fun v => (fst v, snd v + 1)) (l1 ++ (u, n) :: l2) = l1 ++ (u, n + 1) :: l2.
  Proof.
    clear. intros H. induction l1 as [|[v m] l1 IH]; cbn; [rewrite String.eqb_refl; reflexivity|].
    destruct (String.eqb_spec v u) as [->|]; [exfalso; apply (H m); left; reflexivity|]. rewrite IH; [reflexivity|]. intros k Hk. apply (H k). right. exact Hk.
  Qed.
  Lemma increment_shows w e u n : shows_one w e u n -> shows_one (increment_upload_count w e u) e u (n + 1).
  Proof.
    intros [Hn (x & l1 & l2 & X1 & X2 & X3 & X4)]. destruct (increment_fixed w e u) as [A1 _]. split; [rewrite (fixed_ids _ _ A1); exact Hn|].
    exists (with_uploads x (l1 ++ (u, n + 1) :: l2)), l1, l2. split; [|split; [exact X2|split; [reflexivity|exact X4]]].
    cbn [increment_upload_count update_election db_elections]. rewrite <- (update_entry l1 l2 u n X4), <- X3.
    apply (update_hits _ (fun x => with_uploads x (update_first (fun u0 => String.eqb (fst u0) u) (fun u0 => (fst u0, snd u0 + 1)) (el_uploads x)))); [exact X1| |].
    - rewrite X2, String.eqb_refl, X3. apply existsb_exists. exists (u, n). split; [apply in_or_app; right; left; reflexivity|apply String.eqb_refl].
    - intros y Hy He. apply andb_true_iff in He as [He _]. apply String.eqb_eq in He. apply (in_split_by el_id _ x X1 Hn y Hy). congruence.
  Qed.
  (** ** the loop over the files *)
  Lemma inb_last (x o : string) m : inb x (m ++ [o]) = inb x (o :: m).
  Proof.
    clear. induction m as [|y m IH]; [reflexivity|]. change (inb x ((y :: m) ++ [o])) with (eqb x y || inb x (m ++ [o])). rewrite IH.
    change (inb x (o :: y :: m)) with (eqb x o || (eqb x y || inb x m)). change (inb x (o :: m)) with (eqb x o || inb x m). rewrite !orb_assoc, (orb_comm (eqb x y)). reflexivity.
  Qed.
  Lemma new_ballots_ext u seen seen' files : (forall x, inb x seen = inb x seen') -> new_ballots parse u seen files = new_ballots parse u seen' files.
  Proof.
    clear. revert seen seen'. induction files as [|[id s] files IH]; intros seen seen' H; cbn [new_ballots]; [reflexivity|].
    destruct (parse s) as [b|]; [|reflexivity]. rewrite H. destruct (inb (sb_id b) seen'); [apply IH, H|]. f_equal. apply IH. intros x. cbn. rewrite H. reflexivity.
  Qed.
  Lemma batch_effect e u files : forall count dups n w a w', all_oid w -> shows_one w e u n -> batch_loop parse device e u files count dups w = (a, w') ->
    exists l, stored w' e = stored w e ++ l /\ (forall e', e' <> e -> stored w' e' = stored w e') /\ shows_one w' e u (n + len l) /\ Forall (fun b => so_upload b = u) l /\
      match a with
      | BatchFailed => True
      | BatchDone c d => l = new_ballots parse u (map so_object (stored w e)) files /\ c = count /\ d = dups + (len files - len l) /\
          (forall id s, In (id, s) files -> exists b, parse s = Some b /\ In (sb_id b) (map so_object (stored w' e)))
      end.
  Proof.
    clear H0. induction files as [|[id s] files IH]; intros count dups n w a w' Ho Hs Hb; cbn [batch_loop] in Hb.
    - injection Hb as <- <-. exists []. rewrite app_nil_r, Z.add_0_r. split; [reflexivity|]. split; [reflexivity|]. split; [exact Hs|]. split; [constructor|]. cbn [new_ballots]. split; [reflexivity|]. split; [reflexivity|]. split; [unfold len; cbn [length]; lia|]. intros ? ? [].
    - destruct (call_whole parse device id (UploadBallot u e s) w) as [a1 w1] eqn:Hc. apply whole_upload in Hc; [|exact Ho].
      destruct Hc as [[-> ->]|(b & Hp & [(-> & -> & Hx)|(-> & Hx & w2 & Hi & ->)])].
      + injection Hb as <- <-. exists []. rewrite app_nil_r, Z.add_0_r. auto.
      + destruct (IH _ _ _ _ _ _ Ho Hs Hb) as (l & L1 & L2 & L3 & L4 & L5). exists l. repeat (split; [assumption|]). rewrite any_exists_inb in Hx. destruct a as [|c d]; [exact I|].
        cbn [new_ballots]. rewrite Hp, Hx. destruct L5 as (M1 & M2 & M3 & M4). split; [exact M1|]. split; [exact M2|]. split; [unfold len in *; cbn [length]; lia|].
        intros id' s' [[= -> ->]|Hin]; [|apply (M4 id' s' Hin)]. exists b. split; [exact Hp|]. rewrite L1, map_app. apply in_or_app. left. apply inb_spec, Hx.
      + assert (Ho2 : all_oid (increment_upload_count w2 e u)).
        { apply insert_ok in Hi as (_ & Hi & _). intros y. cbn [increment_upload_count update_election db_uploads]. rewrite Hi. intros Hy. apply in_app_or in Hy as [Hy|[<-|[]]]; [apply Ho, Hy|exists id; reflexivity]. }
        assert (Hs2 : shows_one w2 e u n) by (destruct (insert_ok _ _ _ Hi) as (I1 & _); destruct Hs as [S1 S2]; split; rewrite I1; assumption).
        destruct (IH _ _ _ _ _ _ Ho2 (increment_shows _ _ _ _ Hs2) Hb) as (l & L1 & L2 & L3 & L4 & L5).
        assert (Hst : forall e', stored (increment_upload_count w2 e u) e' = stored w e' ++ (if String.eqb e e' then [mkStored (Oid id) u (sb_id b) s] else [])).
        { intros e'. change (stored (increment_upload_count w2 e u) e') with (stored w2 e'). apply (stored_insert_ballot _ _ _ _ _ _ _ e' Hi). }
        rewrite Hst, String.eqb_refl, <- app_assoc in L1. cbn [app] in L1.
        exists (mkStored (Oid id) u (sb_id b) s :: l). split; [exact L1|]. split; [|split; [|split; [constructor; [reflexivity|exact L4]|]]].
        * intros e' He. rewrite L2, Hst by exact He. destruct (String.eqb_spec e e'); [congruence|]. apply app_nil_r.
        * replace (n + len (mkStored (Oid id) u (sb_id b) s :: l)) with (n + 1 + len l) by (unfold len; cbn [length]; lia). exact L3.
        * destruct a as [|c d]; [exact I|]. destruct L5 as (M1 & M2 & M3 & M4). rewrite any_exists_inb in Hx. cbn [new_ballots]. rewrite Hp, Hx. split; [|split; [exact M2|split]].
          -- f_equal. rewrite M1. apply new_ballots_ext. intros x. rewrite Hst, String.eqb_refl, map_app. cbn [map so_object]. apply inb_last.
          -- unfold len in *; cbn [length]; lia.
          -- intros id' s' [[= -> ->]|Hin]; [|apply (M4 id' s' Hin)]. exists b. split; [exact Hp|]. rewrite L1, map_app. apply in_or_app. right. left. reflexivity.
  Qed.
  Lemma drive_uploaded h e new dev files a w' : upload_ballots parse device e new dev files (after h) = (a, w') ->
    exists l, stored w' e = stored (after h) e ++ l /\ (forall e', e' <> e -> stored w' e' = stored (after h) e') /\ Forall (fun b => so_upload b = new) l /\
      (l <> [] -> shown_count w' e new (len l)) /\
      match a with
      | BatchFailed => True
      | BatchDone c d => l = new_ballots parse new (map so_object (stored (after h) e)) files /\ c = len files /\ d = c - len l /\ shown_count w' e new (len l) /\
          (forall id s, In (id, s) files -> exists b, parse s = Some b /\ In (sb_id b) (map so_object (stored w' e)))
      end.
  Proof.
    unfold upload_ballots. destruct (call_whole parse device new (CreateUpload e dev) (after h)) as [a1 w1] eqn:Hc. intros Hb.
    pose proof (after_good parse device w0 H0 h) as Hg. set (w := after h) in *.
    assert (Hc' : (a1 = Failed /\ (w1 = w \/ insert_doc w (mkUpDoc (Oid new) e (UploadDoc 0)) = Ok w1)) \/
      exists w2, a1 = Created new /\ find_election w e <> None /\ insert_doc w (mkUpDoc (Oid new) e (UploadDoc 0)) = Ok w2 /\ append_ballot_upload device w2 e new dev = Ok w1).
    { unfold call_whole in Hc. cbn [call_run call_step] in Hc. destruct (find_election w e) as [x|]; [|cbn in Hc; injection Hc as <- <-; auto]. cbn [call_step] in Hc.
      destruct (insert_doc w _) as [w2|] eqn:Hi; [|cbn in Hc; injection Hc as <- <-; auto]. cbn [call_step] in Hc.
      destruct (append_ballot_upload device w2 e new dev) as [w3|] eqn:Ha; cbn in Hc; injection Hc as <- <-; [|auto]. right. exists w2. repeat split; auto. discriminate. }
    clear Hc. destruct Hc' as [[-> Hw]|(w2 & -> & Hf & Hi & Ha)].
    - injection Hb as <- <-. exists []. rewrite app_nil_r.
      assert (Hs : forall e', stored w1 e' = stored w e') by (intros e'; destruct Hw as [->|Hi]; [reflexivity|apply (stored_insert_upload _ _ _ _ _ e' Hi)]).
      split; [apply Hs|]. split; [intros e' _; apply Hs|]. split; [constructor|]. split; [congruence|exact I].
    - destruct (insert_ok _ _ _ Hi) as (I1 & I2 & I3). destruct (append_fixed _ _ _ _ _ _ Ha) as (_ & A1 & A2).
      assert (Hst : forall e', stored w1 e' = stored w e') by (intros e'; rewrite (stored_docs _ _ e' A2); apply (stored_insert_upload _ _ _ _ _ e' Hi)).
      assert (Ho : all_oid w1). { intros y. rewrite A2, I2. intros Hy. apply in_app_or in Hy as [Hy|[<-|[]]]; [apply (gw_oid _ _ _ Hg y Hy)|exists new; reflexivity]. }
      assert (Hn : NoDup (map el_id (db_elections w))) by (rewrite (fixed_ids w w0 (gw_fixed _ _ _ Hg)); apply (nu_ids w0 H0)).
      assert (Hs : shows_one w1 e new 0).
      { split; [rewrite (fixed_ids _ _ A1), I1; exact Hn|]. unfold append_ballot_upload in Ha. destruct (device dev); [|discriminate]. injection Ha as <-.
        destruct (find_election w e) as [x|] eqn:Hx; [|congruence]. apply find_first_some in Hx as [X1 X2]. pose proof X2 as X2'. apply String.eqb_eq in X2'.
        exists (with_uploads x (el_uploads x ++ [(new, 0)])), (el_uploads x), []. split; [|split; [exact X2'|split; [reflexivity|]]].
        - cbn [update_election db_elections]. rewrite I1. apply (update_hits _ (fun x => with_uploads x (el_uploads x ++ [(new, 0)]))); [exact X1|exact X2|].
          intros y Hy He. apply String.eqb_eq in He. apply (in_split_by el_id _ x X1 Hn y Hy). congruence.
        - intros m Hm. pose proof (once_run parse device w0 h _ (ck_good _ _ _ (counts_start parse w0 H0)) (once_start w0 H0) new) as [_ O2].
          fold w in O2. assert (Hin : In (Oid new) (map ud_id (db_uploads w))).
          { apply O2. unfold listing. fold w. assert (0 <= sumZ (map (to_list new) (uw_calls (up_run parse device (mkUpWorld w0 []) h)))) by (apply sumZ_pos; intros y Hy; apply in_map_iff in Hy as (c & <- & _); destruct c; cbn; try lia; apply one_pos).
            assert (Hp : forall l', 0 <= sumZ (map (fun v : string * Z => one (String.eqb (fst v) new)) l')) by (intros l'; apply sumZ_pos; intros y Hy; apply in_map_iff in Hy as (c & <- & _); apply one_pos).
            assert (1 <= listings w new); [|unfold w, SpecUpload.after in *; lia].
            unfold listings. apply in_split in X1 as (e1 & e2 & ->). rewrite map_app, sumZ_app'. cbn [map]. rewrite sumZ_cons. apply in_split in Hm as (m1 & m2 & ->). rewrite map_app, sumZ_app'. cbn [map]. rewrite sumZ_cons. cbn [fst]. rewrite String.eqb_refl. cbn [one].
            pose proof (Hp m1). pose proof (Hp m2).
            assert (Hq : forall l', 0 <= sumZ (map (fun x => sumZ (map (fun v : string * Z => one (String.eqb (fst v) new)) (el_uploads x))) l')) by (intros l'; apply sumZ_pos; intros y Hy; apply in_map_iff in Hy as (c & <- & _); apply Hp).
            pose proof (Hq e1). pose proof (Hq e2). lia. }
          apply in_map_iff in Hin as (y & Hy & Hin). apply (I3 y Hin Hy). }
      destruct (batch_effect e new files _ _ _ _ _ _ Ho Hs Hb) as (l & L1 & L2 & L3 & L4 & L5). exists l. rewrite Hst in L1.
      assert (Hsh : shown_count w' e new (len l)). { destruct L3 as [_ (x & l1 & l2 & X1 & X2 & X3 & _)]. exists x. split; [exact X1|]. split; [exact X2|]. rewrite X3. apply in_or_app. right. left. reflexivity. }
      split; [exact L1|]. split; [intros e' He; rewrite L2, Hst by exact He; reflexivity|]. split; [exact L4|]. split; [intros _; exact Hsh|].
      destruct a as [|c d]; [exact I|]. destruct L5 as (M1 & M2 & M3 & M4). rewrite Hst in M1. split; [exact M1|]. split; [exact M2|]. split; [lia|]. split; [exact Hsh|exact M4].
  Qed.
End Read.
