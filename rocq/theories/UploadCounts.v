(** * UploadCounts: the ballot counts shown by an election. *)
From Verif Require Import Base Group Hash ElGamal Manifest Ballot GuiUpload SpecUpload ListFacts UploadFacts.
From Coq Require Import List.

Definition one (b : bool) : Z := if b then 1 else 0.
Lemma one_pos b : 0 <= one b. Proof. destruct b; cbn; lia. Qed.
Lemma sumZ_cons a l : sumZ (a :: l) = a + sumZ l. Proof. reflexivity. Qed.
Lemma sumZ_app' a b : sumZ (a ++ b) = sumZ a + sumZ b.
Proof. induction a as [|x a IH]; [reflexivity|]. cbn [app]. rewrite !sumZ_cons, IH. lia. Qed.
Lemma sumZ_set_nth {A} (f : A -> Z) i (a c : A) l : nth_error l i = Some c -> sumZ (map f (set_nth i a l)) = sumZ (map f l) - f c + f a.
Proof.
  revert i; induction l as [|x l IH]; intros [|i]; cbn [nth_error set_nth map]; try discriminate.
  - intros [= ->]. rewrite !sumZ_cons. lia.
  - intros H. rewrite !sumZ_cons, (IH i H). lia.
Qed.
Lemma sumZ_pos l : (forall x, In x l -> 0 <= x) -> 0 <= sumZ l.
Proof. induction l as [|x l IH]; intros H; [cbn; lia|]. rewrite sumZ_cons. pose proof (H x (or_introl eq_refl)). assert (0 <= sumZ l) by (apply IH; intros; apply H; right; assumption). lia. Qed.
Lemma sumZ_update {A} (f : A -> Z) (p : A -> bool) (g : A -> A) (k : Z) l : (forall x, In x l -> p x = true -> f (g x) = f x + k) ->
  sumZ (map f (update_first p g l)) = sumZ (map f l) + (if existsb p l then k else 0).
Proof.
  induction l as [|x l IH]; cbn [update_first map existsb]; intros H; [reflexivity|]. destruct (p x) eqn:Hx; cbn [map orb]; rewrite !sumZ_cons.
  - rewrite H by (cbn; auto). lia.
  - rewrite IH by (intros y Hy; apply H; right; exact Hy). lia.
Qed.
Lemma in_split_by {A} (f : A -> string) l x : In x l -> NoDup (map f l) -> forall y, In y l -> f y = f x -> y = x.
Proof.
  induction l as [|z l IH]; cbn; intros Hx Hn y Hy He; [destruct Hx|]. inversion Hn as [|? ? Hz Hn']; subst.
  destruct Hx as [->|Hx], Hy as [->|Hy]; [reflexivity| | |apply IH; assumption].
  - exfalso. apply Hz. rewrite <- He. apply in_map, Hy.
  - exfalso. apply Hz. rewrite He. apply in_map, Hx.
Qed.
(** an update of the only matching element *)
Lemma update_first_members {A} (f : A -> string) (p : A -> bool) g l x' : NoDup (map f l) -> (forall x y, In x l -> p x = true -> p y = true -> f x = f y) ->
  (forall x, f (g x) = f x) -> In x' (update_first p g l) ->
  exists x, In x l /\ f x = f x' /\ x' = (if p x then g x else x).
Proof.
  intros Hn Hp Hg. induction l as [|x l IH]; cbn; [intros []|]. inversion Hn as [|? ? Hx Hn']; subst. destruct (p x) eqn:Ex; cbn; intros [<-|H].
  - exists x. rewrite Ex, Hg. auto.
  - exists x'. split; [auto|]. split; [reflexivity|]. destruct (p x') eqn:Ey; [|reflexivity]. exfalso. apply Hx. rewrite (Hp x x') by (cbn; auto). apply in_map, H.
  - exists x. rewrite Ex. auto.
  - destruct (IH Hn') as (y & Y1 & Y2 & Y3); [intros a b Ha; apply Hp; right; exact Ha|exact H|]. exists y. auto.
Qed.

Section Counts.
  Variable parse : string -> option sub_ballot.
  Variable device : string -> bool.
  Notation step := (call_step parse device).
  Implicit Type P : string -> bool.
  (** shown, under way, stored *)
  Definition shown_sum (x : election) P : Z := sumZ (map (fun e => if P (fst e) then snd e else 0) (el_uploads x)).
  Definition owes (e : string) P (c : call) : Z :=
    match c with UploadInc u e' | UploadIncElection u e' => one (String.eqb e' e && P u) | _ => 0 end.
  Definition owed (calls : list call) e P : Z := sumZ (map (owes e P) calls).
  Definition stored_sum (w : gdb) e P : Z := sumZ (map (fun b => one (P (so_upload b))) (stored w e)).
  Definition missing (w : gdb) (calls : list call) (x : election) P : Z := stored_sum w (el_id x) P - shown_sum x P - owed calls (el_id x) P.
  Definition listed (w : gdb) e u : Prop := exists n, shown_count w e u n.

  Lemma owed_set i c c' calls e P : nth_error calls i = Some c -> owed (set_nth i c' calls) e P = owed calls e P - owes e P c + owes e P c'.
  Proof. apply sumZ_set_nth. Qed.
  Lemma shown_sum_append x u P : shown_sum (with_uploads x (el_uploads x ++ [(u, 0)])) P = shown_sum x P.
  Proof. unfold shown_sum. cbn [with_uploads el_uploads]. rewrite map_app, sumZ_app'. cbn. destruct (P u); lia. Qed.
  Lemma shown_sum_inc x u P : existsb (fun e => String.eqb (fst e) u) (el_uploads x) = true ->
    shown_sum (with_uploads x (update_first (fun e => String.eqb (fst e) u) (fun e => (fst e, snd e + 1)) (el_uploads x))) P = shown_sum x P + one (P u).
  Proof.
    intros Hx. unfold shown_sum. cbn [with_uploads el_uploads]. rewrite (sumZ_update _ _ _ (one (P u))); [rewrite Hx; reflexivity|].
    intros [v n] _ Hv. cbn in *. apply String.eqb_eq in Hv. subst v. destruct (P u); cbn; lia.
  Qed.
  Lemma listed_exists w e u x : NoDup (map el_id (db_elections w)) -> listed w e u -> In x (db_elections w) -> el_id x = e ->
    existsb (fun v => String.eqb (fst v) u) (el_uploads x) = true.
  Proof.
    intros Hn (n & y & Hy & He & Hu) Hx Hi. rewrite (in_split_by el_id (db_elections w) y Hy Hn x Hx) by congruence.
    apply existsb_exists. exists (u, n). split; [exact Hu|apply String.eqb_refl].
  Qed.
  (** one step *)
  Lemma step_missing new c w c' w' i calls P : all_oid w -> NoDup (map el_id (db_elections w)) -> nth_error calls i = Some c -> step new c w = (c', w') ->
    forall x', In x' (db_elections w') -> exists x, In x (db_elections w) /\ el_id x = el_id x' /\
      missing w calls x P <= missing w' (set_nth i c' calls) x' P /\
      ((forall u e, c = UploadIncElection u e -> listed w e u) -> missing w' (set_nth i c' calls) x' P = missing w calls x P).
  Proof.
    intros Ho Hn Hi Hs x' Hx'. unfold missing.
    assert (Hsame : forall d, w' = w -> (forall e, owes e P c' = owes e P c) -> d = x' -> exists x, In x (db_elections w) /\ el_id x = el_id x' /\
      stored_sum w (el_id x) P - shown_sum x P - owed calls (el_id x) P <= stored_sum w' (el_id x') P - shown_sum x' P - owed (set_nth i c' calls) (el_id x') P /\
      ((forall u e, c = UploadIncElection u e -> listed w e u) ->
        stored_sum w' (el_id x') P - shown_sum x' P - owed (set_nth i c' calls) (el_id x') P = stored_sum w (el_id x) P - shown_sum x P - owed calls (el_id x) P)).
    { intros d -> Hw _. exists x'. split; [exact Hx'|]. split; [reflexivity|]. rewrite (owed_set i c c' calls _ P Hi), Hw. split; [lia|intros; lia]. }
    destruct c as [e s|e s|e u s|u e s|u e s o|u e s o|u e|u e|a]; cbn [call_step] in Hs.
    - destruct (find_election w e); injection Hs as <- <-; apply (Hsame x'); reflexivity.
    - destruct (insert_doc _ _) as [w1|] eqn:Hd; injection Hs as <- <-; [|apply (Hsame x'); reflexivity].
      destruct (insert_ok _ _ _ Hd) as (I1 & _ & _). rewrite I1 in Hx'. exists x'. split; [exact Hx'|]. split; [reflexivity|].
      unfold stored_sum. rewrite (stored_insert_upload _ _ _ _ _ (el_id x') Hd), (owed_set i _ _ calls _ P Hi). cbn [owes]. split; [lia|intros; lia].
    - destruct (append_ballot_upload _ _ _ _ _) as [w1|] eqn:Hd; injection Hs as <- <-; [|apply (Hsame x'); reflexivity].
      destruct (append_fixed _ _ _ _ _ _ Hd) as (_ & _ & A2). unfold append_ballot_upload in Hd. destruct (device s); [|discriminate]. injection Hd as <-. cbn [update_election db_elections] in Hx'.
      apply (update_first_members el_id) in Hx' as (x & X1 & X2 & X3); [|exact Hn|intros y z _; rewrite !String.eqb_eq; congruence|reflexivity].
      exists x. split; [exact X1|]. split; [exact X2|]. unfold stored_sum. rewrite (stored_docs _ _ _ A2). rewrite X2, (owed_set i _ _ calls _ P Hi). cbn [owes].
      assert (shown_sum x' P = shown_sum x P) by (rewrite X3; destruct (String.eqb _ _); [apply shown_sum_append|reflexivity]). split; [lia|intros; lia].
    - destruct (parse s) as [b|]; [|injection Hs as <- <-; apply (Hsame x'); reflexivity].
      destruct (find_election w e) as [x|]; [|injection Hs as <- <-; apply (Hsame x'); reflexivity].
      destruct (el_context x) as [cx|]; [|injection Hs as <- <-; apply (Hsame x'); reflexivity].
      destruct (_ =? _); injection Hs as <- <-; apply (Hsame x'); reflexivity.
    - destruct (any_ballot_exists w e o); injection Hs as <- <-; apply (Hsame x'); reflexivity.
    - destruct (insert_doc _ _) as [w1|] eqn:Hd; injection Hs as <- <-; [|apply (Hsame x'); reflexivity].
      destruct (insert_ok _ _ _ Hd) as (I1 & _ & _). rewrite I1 in Hx'. exists x'. split; [exact Hx'|]. split; [reflexivity|].
      unfold stored_sum. rewrite (stored_insert_ballot _ _ _ _ _ _ _ (el_id x') Hd), (owed_set i _ _ calls _ P Hi), map_app, sumZ_app'. cbn [owes].
      assert (sumZ (map (fun b => one (P (so_upload b))) (if String.eqb e (el_id x') then [mkStored (Oid new) u o s] else [])) = one (String.eqb e (el_id x') && P u))
        by (destruct (String.eqb e (el_id x')); cbn; [lia|reflexivity]).
      split; [lia|intros; lia].
    - injection Hs as <- <-. rewrite inc_noop in * by exact Ho. apply (Hsame x'); reflexivity.
    - injection Hs as <- <-. destruct (increment_fixed w e u) as [_ A2]. cbn [increment_upload_count update_election db_elections] in Hx'.
      apply (update_first_members el_id) in Hx' as (x & X1 & X2 & X3); [|exact Hn|intros y z _; rewrite !andb_true_iff, !String.eqb_eq; intros [-> _] [-> _]; reflexivity|reflexivity].
      exists x. split; [exact X1|]. split; [exact X2|]. unfold stored_sum. rewrite (stored_docs _ _ _ A2). rewrite X2, (owed_set i _ _ calls _ P Hi). cbn [owes].
      rewrite <- X2. destruct (String.eqb_spec (el_id x) e) as [He|He]; cbn [andb] in X3.
      + subst e. rewrite String.eqb_refl. cbn [andb].
        destruct (existsb (fun v => String.eqb (fst v) u) (el_uploads x)) eqn:Hx.
        * rewrite X3, (shown_sum_inc x u P Hx). split; [lia|intros; lia].
        * subst x'. split; [unfold one; destruct (P u); lia|]. intros Hl. specialize (Hl u (el_id x) eq_refl).
          rewrite (listed_exists w (el_id x) u x Hn Hl X1 eq_refl) in Hx. discriminate.
      + subst x'. destruct (String.eqb_spec e (el_id x)) as [->|_]; [congruence|]. cbn [andb one]. split; [lia|intros; lia].
    - injection Hs as <- <-. apply (Hsame x'); reflexivity.
  Qed.

  (** ** what has been listed stays listed *)
  Lemma step_listed new c w c' w' e u : all_oid w -> step new c w = (c', w') -> listed w e u -> listed w' e u.
  Proof.
    intros Ho Hs (n & x & X1 & X2 & X3). destruct c as [e1 s|e1 s|e1 u1 s|u1 e1 s|u1 e1 s o|u1 e1 s o|u1 e1|u1 e1|a]; cbn [call_step] in Hs.
    - destruct (find_election w e1); injection Hs as <- <-; exists n, x; auto.
    - destruct (insert_doc _ _) as [w1|] eqn:Hd; injection Hs as <- <-; [|exists n, x; auto]. destruct (insert_ok _ _ _ Hd) as (I1 & _). exists n, x. rewrite I1. auto.
    - destruct (append_ballot_upload _ _ _ _ _) as [w1|] eqn:Hd; injection Hs as <- <-; [|exists n, x; auto].
      unfold append_ballot_upload in Hd. destruct (device s); [|discriminate]. injection Hd as <-. unfold listed, shown_count. cbn [update_election db_elections].
      clear Ho. revert X1. induction (db_elections w) as [|y l IH]; cbn [update_first]; intros X1; [destruct X1|].
      destruct (String.eqb (el_id y) e1); cbn.
      + destruct X1 as [->|X1]; [exists n, (with_uploads x (el_uploads x ++ [(u1, 0)])); cbn; split; [auto|]; split; [auto|apply in_or_app; auto]|exists n, x; auto].
      + destruct X1 as [->|X1]; [exists n, x; auto|]. destruct (IH X1) as (m & z & Z1 & Z2 & Z3). exists m, z. auto.
    - destruct (parse s) as [b|]; [|injection Hs as <- <-; exists n, x; auto].
      destruct (find_election w e1) as [y|]; [|injection Hs as <- <-; exists n, x; auto].
      destruct (el_context y) as [cx|]; [|injection Hs as <- <-; exists n, x; auto].
      destruct (_ =? _); injection Hs as <- <-; exists n, x; auto.
    - destruct (any_ballot_exists w e1 o); injection Hs as <- <-; exists n, x; auto.
    - destruct (insert_doc _ _) as [w1|] eqn:Hd; injection Hs as <- <-; [|exists n, x; auto]. destruct (insert_ok _ _ _ Hd) as (I1 & _). exists n, x. rewrite I1. auto.
    - injection Hs as <- <-. rewrite inc_noop by exact Ho. exists n, x. auto.
    - injection Hs as <- <-. unfold listed, shown_count. cbn [increment_upload_count update_election db_elections].
      clear Ho. revert X1. induction (db_elections w) as [|y l IH]; cbn [update_first]; intros X1; [destruct X1|].
      destruct (String.eqb (el_id y) e1 && _); cbn.
      + destruct X1 as [->|X1]; [|exists n, x; auto]. revert X3. generalize (el_uploads x). clear - X2. intros l0 X3.
        assert (Hz : exists m, In (u, m) (update_first (fun v => String.eqb (fst v) u1) (fun v => (fst v, snd v + 1)) l0)).
        { induction l0 as [|[v m] l0 IH]; cbn in *; [destruct X3|]. destruct (String.eqb v u1); destruct X3 as [E|X3].
          - injection E as -> ->. exists (n + 1). cbn. auto.
          - exists n. cbn. auto.
          - injection E as -> ->. exists n. cbn. auto.
          - destruct (IH X3) as [k Hk]. exists k. cbn. auto. }
        destruct Hz as [m Hm]. exists m, (with_uploads x (update_first (fun v => String.eqb (fst v) u1) (fun v => (fst v, snd v + 1)) l0)). auto.
      + destruct X1 as [->|X1]; [exists n, x; auto|]. destruct (IH X1) as (m & z & Z1 & Z2 & Z3). exists m, z. auto.
    - injection Hs as <- <-. exists n, x. auto.
  Qed.
  Definition names (c : call) : option (string * string) :=
    match c with
    | UploadBallot u e _ | UploadCheck u e _ _ | UploadInsert u e _ _ | UploadInc u e | UploadIncElection u e => Some (e, u)
    | _ => None
    end.
  Definition call_listed (w : gdb) (c : call) : Prop := forall e u, names c = Some (e, u) -> listed w e u.
  Lemma step_names new c w c' w' : step new c w = (c', w') -> names c' = None \/ names c' = names c.
  Proof.
    destruct c as [e s|e s|e u s|u e s|u e s o|u e s o|u e|u e|a]; cbn [call_step].
    - destruct (find_election w e); intros [= <- <-]; auto.
    - destruct (insert_doc _ _); intros [= <- <-]; auto.
    - destruct (append_ballot_upload _ _ _ _ _); intros [= <- <-]; auto.
    - destruct (parse s) as [b|]; [|intros [= <- <-]; auto]. destruct (find_election w e) as [x|]; [|intros [= <- <-]; auto].
      destruct (el_context x); [|intros [= <- <-]; auto]. destruct (_ =? _); intros [= <- <-]; auto.
    - destruct (any_ballot_exists w e o); intros [= <- <-]; auto.
    - destruct (insert_doc _ _); intros [= <- <-]; auto.
    - intros [= <- <-]; auto.
    - intros [= <- <-]; auto.
    - intros [= <- <-]; auto.
  Qed.

  (** ** whole histories *)
  Variable w0 : gdb.
  Context (H0 : no_uploads w0).
  Record counts_ok (w : up_world) : Prop := {
    ck_good : good_up parse w0 w;
    ck_ids : NoDup (map el_id (db_elections (uw_db w)));
    ck_low : forall x P, In x (db_elections (uw_db w)) -> 0 <= missing (uw_db w) (uw_calls w) x P }.
  Lemma counts_step w ev : counts_ok w -> counts_ok (up_step parse device w ev).
  Proof.
    intros [G N L]. pose proof (up_step_good parse device w0 w ev G) as G'. split; [exact G'| |].
    - rewrite (fixed_ids _ w0); [apply (nu_ids w0 H0)|apply (gw_fixed parse w0 _ (proj1 G'))].
    - destruct ev as [e s|u e s|i new]; cbn [up_step]; [intros x P Hx; cbn [uw_db uw_calls] in *; specialize (L x P Hx); unfold missing, owed in *; rewrite map_app, sumZ_app'; cbn; lia..|].
      destruct (nth_error (uw_calls w) i) as [c|] eqn:Hi; [|exact L]. destruct (step new c (uw_db w)) as [c' d'] eqn:Hs. cbn [uw_db uw_calls].
      intros x' P Hx'. destruct (step_missing new c (uw_db w) c' d' i (uw_calls w) P (gw_oid _ _ _ (proj1 G)) N Hi Hs x' Hx') as (x & X1 & X2 & X3 & _).
      specialize (L x P X1). lia.
  Qed.
  Lemma counts_start : counts_ok (mkUpWorld w0 []).
  Proof.
    split; [split; [apply good_start, H0|constructor]|apply (nu_ids w0 H0)|]. intros x P Hx. cbn [uw_db uw_calls] in *.
    unfold missing, stored_sum, shown_sum, owed, stored. rewrite (nu_docs w0 H0), (nu_lists w0 H0 x Hx). cbn. lia.
  Qed.
  Lemma counts_run h : forall w, counts_ok w -> counts_ok (up_run parse device w h).
  Proof. unfold up_run. induction h as [|ev h IH]; cbn; intros w Hw; [exact Hw|]. apply IH, counts_step, Hw. Qed.
  Record counts_exact (w : up_world) : Prop := {
    ce_listed : Forall (call_listed (uw_db w)) (uw_calls w);
    ce_zero : forall x P, In x (db_elections (uw_db w)) -> missing (uw_db w) (uw_calls w) x P = 0 }.
  Lemma exact_step w ev : counts_ok w -> counts_exact w -> match ev with StartUpload u e _ => listed (uw_db w) e u | _ => True end -> counts_exact (up_step parse device w ev).
  Proof.
    intros [G N _] [C Z] Hev. destruct ev as [e s|u e s|i new]; cbn [up_step].
    - split; cbn [uw_db uw_calls].
      + apply Forall_app. split; [exact C|]. repeat constructor. intros e1 u1 H. discriminate H.
      + intros x P Hx. specialize (Z x P Hx). unfold missing, owed in *. rewrite map_app, sumZ_app'. cbn. lia.
    - split; cbn [uw_db uw_calls].
      + apply Forall_app. split; [exact C|]. repeat constructor. intros e1 u1 H. injection H as <- <-. exact Hev.
      + intros x P Hx. specialize (Z x P Hx). unfold missing, owed in *. rewrite map_app, sumZ_app'. cbn. lia.
    - destruct (nth_error (uw_calls w) i) as [c|] eqn:Hi; [|split; assumption]. destruct (step new c (uw_db w)) as [c' d'] eqn:Hs.
      assert (Hc : call_listed (uw_db w) c) by (rewrite Forall_forall in C; apply C; eapply nth_error_In; exact Hi).
      pose proof (gw_oid _ _ _ (proj1 G)) as Ho. split; cbn [uw_db uw_calls].
      + apply Forall_forall. intros x Hx e u Hnm. apply (step_listed new c (uw_db w) c' d' e u Ho Hs). apply set_nth_in in Hx as [->|Hx].
        * apply Hc. destruct (step_names _ _ _ _ _ Hs); congruence.
        * rewrite Forall_forall in C. apply (C x Hx e u Hnm).
      + intros x' P Hx'. destruct (step_missing new c (uw_db w) c' d' i (uw_calls w) P Ho N Hi Hs x' Hx') as (x & X1 & X2 & _ & X4).
        rewrite X4; [apply Z, X1|]. intros u e ->. apply Hc. reflexivity.
  Qed.
  Lemma exact_run h : forall w, counts_ok w -> counts_exact w -> orderly parse device w h -> counts_exact (up_run parse device w h).
  Proof.
    unfold up_run. induction h as [|ev h IH]; cbn; intros w Hw He Ho; [exact He|]. destruct Ho as [O1 O2]. apply IH; [apply counts_step, Hw| |exact O2].
    apply exact_step; assumption.
  Qed.
  Lemma exact_start : counts_exact (mkUpWorld w0 []).
  Proof.
    split; [constructor|]. intros x P Hx. cbn [uw_db uw_calls] in *.
    unfold missing, stored_sum, shown_sum, owed, stored. rewrite (nu_docs w0 H0), (nu_lists w0 H0 x Hx). cbn. lia.
  Qed.

  (** ** every upload is listed once *)
  Definition listings (w : gdb) (u : string) : Z :=
    sumZ (map (fun x => sumZ (map (fun e => one (String.eqb (fst e) u)) (el_uploads x))) (db_elections w)).
  Definition to_list (u : string) (c : call) : Z := match c with CreateAppend _ u' _ => one (String.eqb u' u) | _ => 0 end.
  Definition listing (w : up_world) (u : string) : Z := listings (uw_db w) u + sumZ (map (to_list u) (uw_calls w)).
  Definition once_listed (w : up_world) : Prop := forall u, listing w u <= 1 /\ (0 < listing w u -> In (Oid u) (map ud_id (db_uploads (uw_db w)))).
  Lemma listings_same w w' u : map el_uploads (db_elections w') = map el_uploads (db_elections w) -> listings w' u = listings w u.
  Proof.
    intros H. unfold listings. apply (f_equal (map (fun l => sumZ (map (fun e : string * Z => one (String.eqb (fst e) u)) l)))) in H. rewrite !map_map in H. rewrite H. reflexivity.
  Qed.
  Lemma once_step w ev : good_up parse w0 w -> once_listed w -> once_listed (up_step parse device w ev).
  Proof.
    intros [Hg _] Ho. destruct ev as [e s|u e s|i new]; cbn [up_step];
      [intros v; destruct (Ho v) as [O1 O2]; unfold listing in *; cbn [uw_db uw_calls] in *; rewrite map_app, sumZ_app'; cbn [map to_list sumZ fold_right]; rewrite !Z.add_0_r; auto..|].
    destruct (nth_error (uw_calls w) i) as [c|] eqn:Hi; [|exact Ho]. destruct (step new c (uw_db w)) as [c' d'] eqn:Hs.
    intros v. destruct (Ho v) as [O1 O2]. unfold listing in *. cbn [uw_db uw_calls] in *. rewrite (sumZ_set_nth (to_list v) i c' c _ Hi).
    assert (Hsame : d' = uw_db w -> to_list v c' = 0 -> 0 <= to_list v c -> (listings d' v + (sumZ (map (to_list v) (uw_calls w)) - to_list v c + to_list v c') <= 1) /\
      (0 < listings d' v + (sumZ (map (to_list v) (uw_calls w)) - to_list v c + to_list v c') -> In (Oid v) (map ud_id (db_uploads d')))).
    { intros -> H1 H2. split; [lia|]. intros H. apply O2. lia. }
    destruct c as [e s|e s|e u s|u e s|u e s o|u e s o|u e|u e|a]; cbn [call_step] in Hs.
    - destruct (find_election (uw_db w) e); injection Hs as <- <-; apply Hsame; cbn; lia || reflexivity.
    - destruct (insert_doc _ _) as [w1|] eqn:Hd; injection Hs as <- <-; [|apply Hsame; cbn; lia || reflexivity].
      destruct (insert_ok _ _ _ Hd) as (I1 & I2 & I3). cbn [to_list]. rewrite (listings_same (uw_db w) w1) by (rewrite I1; reflexivity). rewrite I2, map_app. cbn [map ud_id].
      destruct (String.eqb_spec new v) as [->|Hnv]; cbn [one].
      + assert (~ In (Oid v) (map ud_id (db_uploads (uw_db w)))) by (intros H; apply in_map_iff in H as (y & Hy & H); apply (I3 y H Hy)).
        assert (~ 0 < listings (uw_db w) v + sumZ (map (to_list v) (uw_calls w))) by (intros H1; apply H, O2, H1). split; [lia|]. intros _. apply in_or_app. right. left. reflexivity.
      + split; [lia|]. intros H. apply in_or_app. left. apply O2. lia.
    - destruct (append_ballot_upload _ _ _ _ _) as [w1|] eqn:Hd; injection Hs as <- <-; [|apply Hsame; cbn; unfold one; destruct (String.eqb u v); lia || reflexivity].
      destruct (append_fixed _ _ _ _ _ _ Hd) as (_ & _ & A2). rewrite A2. unfold append_ballot_upload in Hd. destruct (device s); [|discriminate]. injection Hd as <-.
      set (p := fun x : election => String.eqb (el_id x) e). set (g := fun x : election => with_uploads x (el_uploads x ++ [(u, 0)])).
      assert (Hl : listings (update_election (uw_db w) p g) v = listings (uw_db w) v + (if existsb p (db_elections (uw_db w)) then one (String.eqb u v) else 0)).
      { unfold listings. cbn [update_election db_elections]. apply sumZ_update. intros x _ _. unfold g. cbn [with_uploads el_uploads]. rewrite map_app, sumZ_app'. cbn. lia. }
      rewrite Hl. cbn [to_list] in *.
      clear Hsame Hl A2. destruct (existsb _ _); (split; [|intros H; apply O2]); unfold one in *; destruct (String.eqb u v); lia.
    - assert (Hx : d' = uw_db w /\ to_list v c' = 0); [|destruct Hx; apply Hsame; cbn; try assumption; lia].
      destruct (parse s) as [b|]; [|injection Hs as <- <-; auto]. destruct (find_election _ e) as [x|]; [|injection Hs as <- <-; auto].
      destruct (el_context x) as [cx|]; [|injection Hs as <- <-; auto]. destruct (_ =? _); injection Hs as <- <-; auto.
    - destruct (any_ballot_exists (uw_db w) e o); injection Hs as <- <-; apply Hsame; cbn; lia || reflexivity.
    - destruct (insert_doc _ _) as [w1|] eqn:Hd; injection Hs as <- <-; [|apply Hsame; cbn; lia || reflexivity].
      destruct (insert_ok _ _ _ Hd) as (I1 & I2 & I3). cbn [to_list]. rewrite (listings_same (uw_db w) w1) by (rewrite I1; reflexivity). rewrite I2, map_app.
      split; [lia|]. intros H. apply in_or_app. left. apply O2. lia.
    - injection Hs as <- <-. rewrite inc_noop in * by apply (gw_oid _ _ _ Hg). apply Hsame; cbn; lia || reflexivity.
    - injection Hs as <- <-. cbn [to_list]. assert (Hl : listings (increment_upload_count (uw_db w) e u) v = listings (uw_db w) v).
      { unfold listings. cbn [increment_upload_count update_election db_elections]. rewrite (sumZ_update _ _ _ 0); [destruct (existsb _ _); lia|].
        intros x _ _. cbn [with_uploads el_uploads]. rewrite (sumZ_update _ _ _ 0); [destruct (existsb _ _); lia|]. intros y _ _. cbn. lia. }
      rewrite Hl. cbn [increment_upload_count update_election db_uploads]. split; [lia|]. intros H. apply O2. lia.
    - injection Hs as <- <-. apply Hsame; cbn; lia || reflexivity.
  Qed.
  Lemma once_run h : forall w, good_up parse w0 w -> once_listed w -> once_listed (up_run parse device w h).
  Proof. unfold up_run. induction h as [|ev h IH]; cbn; intros w Hg Hw; [exact Hw|]. apply IH; [apply up_step_good, Hg|apply once_step; assumption]. Qed.
  Lemma once_start : once_listed (mkUpWorld w0 []).
  Proof.
    intros u. unfold listing, listings. cbn [uw_db uw_calls map]. assert (H : sumZ (map (fun x => sumZ (map (fun e : string * Z => one (String.eqb (fst e) u)) (el_uploads x))) (db_elections w0)) = 0).
    { pose proof (nu_lists w0 H0) as H. induction (db_elections w0) as [|x l IH]; [reflexivity|]. cbn [map]. rewrite sumZ_cons, (H x) by (cbn; auto). cbn [map].
      rewrite IH by (intros y Hy; apply H; right; exact Hy). reflexivity. }
    rewrite H. cbn. lia.
  Qed.
  Lemma entries_unique (l : list (string * Z)) u : sumZ (map (fun e => one (String.eqb (fst e) u)) l) <= 1 -> forall n, In (u, n) l ->
    sumZ (map (fun e => if String.eqb u (fst e) then snd e else 0) l) = n.
  Proof.
    induction l as [|[v m] l IH]; cbn [map]; intros H n Hn; [destruct Hn|]. rewrite !sumZ_cons in *. cbn [fst snd] in *.
    assert (Hp : 0 <= sumZ (map (fun e => one (String.eqb (fst e) u)) l)) by (apply sumZ_pos; intros x Hx; apply in_map_iff in Hx as (y & <- & _); apply one_pos).
    destruct (String.eqb_spec v u) as [->|Hv]; cbn [one] in H.
    - rewrite String.eqb_refl. assert (Hz : sumZ (map (fun e => one (String.eqb (fst e) u)) l) = 0) by lia.
      assert (Hno : forall k, ~ In (u, k) l).
      { intros k Hk. apply in_split in Hk as (l1 & l2 & ->). rewrite map_app, sumZ_app' in Hz. cbn [map] in Hz. rewrite sumZ_cons in Hz. cbn [fst] in Hz. rewrite String.eqb_refl in Hz. cbn [one] in Hz.
        assert (Hq : forall l', 0 <= sumZ (map (fun e : string * Z => one (String.eqb (fst e) u)) l')) by (intros l'; apply sumZ_pos; intros x Hx; apply in_map_iff in Hx as (y & <- & _); apply one_pos).
        pose proof (Hq l1). pose proof (Hq l2). lia. }
      destruct Hn as [Hn|Hn]; [injection Hn as ->|exfalso; apply (Hno n Hn)].
      assert (Hs : sumZ (map (fun e => if String.eqb u (fst e) then snd e else 0) l) = 0); [|lia]. clear - Hno. induction l as [|[v m] l IH]; [reflexivity|]. cbn [map]. rewrite sumZ_cons. cbn [fst snd].
      rewrite IH by (intros k Hk; apply (Hno k); right; exact Hk). destruct (String.eqb_spec u v) as [->|]; [exfalso; apply (Hno m); left; reflexivity|reflexivity].
    - destruct Hn as [Hn|Hn]; [injection Hn as -> _; congruence|]. destruct (String.eqb_spec u v); [congruence|]. rewrite (IH ltac:(lia) n Hn). lia.
  Qed.

  (** ** the statements *)
  Lemma stored_sum_len w e P : stored_sum w e P = len (filter (fun b => P (so_upload b)) (stored w e)).
  Proof.
    unfold stored_sum, len. induction (stored w e) as [|b l IH]; [reflexivity|]. cbn [map filter]. rewrite sumZ_cons, IH. destruct (P (so_upload b)); cbn [one length]; lia.
  Qed.
  Lemma shown_sum_all x : shown_sum x (fun _ => true) = sum_ballots x. Proof. reflexivity. Qed.
  Lemma stored_all w e : stored_sum w e (fun _ => true) = len (stored w e).
  Proof. rewrite stored_sum_len. f_equal. induction (stored w e) as [|b l IH]; [reflexivity|]. cbn. rewrite IH. reflexivity. Qed.
  Lemma owed_nonneg calls e P : 0 <= owed calls e P.
  Proof. apply sumZ_pos. intros x Hx. apply in_map_iff in Hx as (c & <- & _). destruct c; cbn; try lia; apply one_pos. Qed.
  Lemma answered_owed w e P : all_answered w -> owed (uw_calls w) e P = 0.
  Proof.
    intros H. unfold owed. unfold all_answered in H. induction (uw_calls w) as [|c l IH]; [reflexivity|]. cbn [map]. rewrite sumZ_cons, IH by (intros x Hx; apply H; right; exact Hx).
    destruct (H c (or_introl eq_refl)) as [a ->]. reflexivity.
  Qed.
  Lemma count_bounded h x : In x (db_elections (after parse device w0 h)) -> sum_ballots x <= len (stored (after parse device w0 h) (el_id x)).
  Proof.
    intros Hx. pose proof (counts_run h _ counts_start) as [_ _ L]. specialize (L x (fun _ => true) Hx). unfold missing in L.
    pose proof (owed_nonneg (uw_calls (up_run parse device (mkUpWorld w0 []) h)) (el_id x) (fun _ => true)).
    unfold after in *. rewrite stored_all, shown_sum_all in L. lia.
  Qed.
  Lemma count_exact h : orderly parse device (mkUpWorld w0 []) h -> all_answered (up_run parse device (mkUpWorld w0 []) h) ->
    let w := after parse device w0 h in
    (forall x, In x (db_elections w) -> sum_ballots x = len (stored w (el_id x))) /\
    (forall e u n, shown_count w e u n -> n = len (filter (of_upload u) (stored w e))).
  Proof.
    intros Ho Ha. cbv zeta. unfold after. pose proof (exact_run h _ counts_start exact_start Ho) as [_ Zr].
    set (w := up_run parse device (mkUpWorld w0 []) h) in *. split.
    - intros x Hx. specialize (Zr x (fun _ => true) Hx). unfold missing in Zr. rewrite stored_all, shown_sum_all, answered_owed in Zr by exact Ha. lia.
    - intros e u n (x & X1 & <- & X3). specialize (Zr x (String.eqb u) X1). unfold missing in Zr. rewrite answered_owed in Zr by exact Ha.
      rewrite stored_sum_len in Zr. assert (Hs : shown_sum x (String.eqb u) = n).
      { apply entries_unique; [|exact X3]. destruct (once_run h _ (ck_good _ counts_start) once_start u) as [O1 _]. fold w in O1. unfold listing in O1.
        assert (0 <= sumZ (map (to_list u) (uw_calls w))) by (apply sumZ_pos; intros y Hy; apply in_map_iff in Hy as (c & <- & _); destruct c; cbn; try lia; apply one_pos).
        assert (Hle : sumZ (map (fun e => one (String.eqb (fst e) u)) (el_uploads x)) <= listings (uw_db w) u); [|lia]. unfold listings.
        assert (Hp : forall l', 0 <= sumZ (map (fun e : string * Z => one (String.eqb (fst e) u)) l')) by (intros l'; apply sumZ_pos; intros y Hy; apply in_map_iff in Hy as (c & <- & _); apply one_pos).
        clear - X1 Hp. induction (db_elections (uw_db w)) as [|y l IH]; [destruct X1|]. cbn [map]. rewrite sumZ_cons. destruct X1 as [->|X1].
        - assert (0 <= sumZ (map (fun x => sumZ (map (fun e : string * Z => one (String.eqb (fst e) u)) (el_uploads x))) l)); [|lia].
          apply sumZ_pos. intros z Hz. apply in_map_iff in Hz as (c & <- & _). apply Hp.
        - specialize (IH X1). pose proof (Hp (el_uploads y)). lia. }
      rewrite Hs in Zr. unfold of_upload. assert (He : filter (fun b => String.eqb (so_upload b) u) (stored (uw_db w) (el_id x)) = filter (fun b => String.eqb u (so_upload b)) (stored (uw_db w) (el_id x))).
      { apply filter_ext. intros b. apply String.eqb_sym. }
      rewrite He. lia.
  Qed.
End Counts.
