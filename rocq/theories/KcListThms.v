(** * KcListThms: proofs about the lists of key ceremonies and their names. *)
From Verif Require Import Base Group Hash HashFacts GuiUpload UploadFacts GuiDecRun KcList.
From Coq Require Import List Lia.
Local Open Scope list_scope.

Lemma NoDup_app_one {A} (l : list A) x : NoDup l -> ~ In x l -> NoDup (l ++ [x]).
Proof. intros H Hx. apply (NoDup_Add (a := x) (l := l)); [|auto]. pose proof (Add_app x l []) as Ha. rewrite app_nil_r in Ha. exact Ha. Qed.
Definition made (c : k_call) (id : string) : Prop := kc_at c = KNotify id \/ kc_at c = KAnswered (KCreated id).
Definition of_call (c : k_call) (id : string) (d : k_doc) : Prop := kd_id d = id /\ kd_name d = kc_name c /\ kd_count d = kc_count c /\ kd_quorum d = kc_quorum c.
Record k_inv (h : list k_event) (W : k_world) : Prop := {
  ki_ids : NoDup (map kd_id (kw_db W));
  ki_ins : forall c, In c (kw_calls W) -> kc_at c = KInsert -> kc_quorum c <= kc_count c;
  ki_made : forall c id, In c (kw_calls W) -> made c id -> kc_quorum c <= kc_count c /\ exists d, In d (kw_db W) /\ of_call c id d;
  ki_docs : forall d, In d (kw_db W) -> exists c, In c (kw_calls W) /\ made c (kd_id d) /\ kd_name d = kc_name c;
  ki_compl : forall d, In d (kw_db W) -> kd_completed d = true -> In (KComplete (kd_id d)) h }.

Lemma set_complete_ids w id : map kd_id (set_complete w id) = map kd_id w.
Proof. apply update_first_map. reflexivity. Qed.
Definition later (d d' : k_doc) : Prop := kd_id d' = kd_id d /\ kd_name d' = kd_name d /\ kd_count d' = kd_count d /\ kd_quorum d' = kd_quorum d /\ (kd_completed d = true -> kd_completed d' = true).
Lemma later_refl d : later d d.
Proof. repeat split; auto. Qed.
Lemma set_complete_later w id d : In d w -> exists d', In d' (set_complete w id) /\ later d d'.
Proof. intros H. apply (update_first_grows later); [apply later_refl| |exact H]. intros x. repeat split; auto. Qed.
Lemma set_complete_back w id d' : In d' (set_complete w id) -> exists d, In d w /\ later d d' /\ (kd_completed d' = true -> kd_completed d = true \/ kd_id d = id).
Proof.
  intros H. apply update_first_in in H as [H|(x & Hx & Hp & ->)]; [exists d'; split; [exact H|]; split; [apply later_refl|auto]|].
  exists x. split; [exact Hx|]. split; [repeat split; auto|]. intros _. right. apply String.eqb_eq. exact Hp.
Qed.
Lemma set_complete_hits w id : In id (map kd_id w) -> exists d, In d (set_complete w id) /\ kd_id d = id /\ kd_completed d = true.
Proof.
  unfold set_complete. induction w as [|x w IH]; cbn [map update_first]; [intros []|]. intros H. destruct (String.eqb_spec (kd_id x) id) as [He|He].
  - eexists. split; [left; reflexivity|]. auto.
  - destruct H as [H|H]; [contradiction|]. destruct (IH H) as (d & D1 & D2). exists d. split; [right; exact D1|exact D2].
Qed.
Lemma later_trans a b c : later a b -> later b c -> later a c.
Proof. intros (A1 & A2 & A3 & A4 & A5) (B1 & B2 & B3 & B4 & B5). repeat split; try congruence. auto. Qed.
Lemma insert_ok w d w' : kc_insert w d = Ok w' -> w' = w ++ [d] /\ ~ In (kd_id d) (map kd_id w).
Proof.
  unfold kc_insert. destruct (existsb _ w) eqn:H; [discriminate|]. intros [= <-]. split; [reflexivity|]. intros Hin. apply in_map_iff in Hin as (x & Hx & Hi).
  assert (existsb (fun x => String.eqb (kd_id x) (kd_id d)) w = true); [|congruence]. apply existsb_exists. exists x. split; [exact Hi|]. apply String.eqb_eq. exact Hx.
Qed.
(** what one step does *)
Lemma step_cases new c w s w' : k_step new c w = (s, w') ->
  (w' = w /\ ((s = KInsert /\ kc_at c = KCheck /\ kc_quorum c <= kc_count c) \/ s = KAnswered KRefused \/ (exists id, kc_at c = KNotify id /\ s = KAnswered (KCreated id)) \/ s = kc_at c) /\ (forall id, made c id -> made (at_stage c s) id)) \/
  (kc_at c = KInsert /\ s = KNotify new /\ w' = w ++ [mkKDoc new (kc_name c) (kc_count c) (kc_quorum c) false] /\ ~ In new (map kd_id w)).
Proof.
  unfold k_step, made. destruct (kc_at c) as [| |id|a] eqn:Ha.
  - destruct (Z.ltb_spec (kc_count c) (kc_quorum c)).
    + intros [= <- <-]. left. split; [reflexivity|]. split; [auto|]. intros id [H1|H1]; discriminate.
    + destruct (kc_exists w (kc_name c)); intros [= <- <-]; left; (split; [reflexivity|]); (split; [auto|]); intros id [H1|H1]; discriminate.
  - destruct (kc_insert w _) as [w1|] eqn:Hi; intros [= <- <-].
    + right. apply insert_ok in Hi as [-> Hi]. auto.
    + left. split; [reflexivity|]. split; [auto|]. intros id [H1|H1]; discriminate.
  - intros [= <- <-]. left. split; [reflexivity|]. split; [right; right; left; exists id; auto|]. intros i [H1|H1]; [|discriminate]. injection H1 as ->. right. reflexivity.
  - intros [= <- <-]. left. split; [reflexivity|]. split; [auto|]. intros id H. exact H.
Qed.
Lemma next_inv h W ev : k_inv h W -> k_inv (h ++ [ev]) (k_next W ev).
Proof.
  intros [I1 I2 I3 I4 I5].
  assert (I5' : forall d, In d (kw_db W) -> kd_completed d = true -> In (KComplete (kd_id d)) (h ++ [ev])) by (intros d H1 H2; apply in_or_app; left; auto).
  destruct ev as [n c q|i new|id]; cbn [k_next].
  - split; cbn [kw_db kw_calls]; auto.
    + intros x Hx Hs. apply in_app_or in Hx as [Hx|[<-|[]]]; [auto|discriminate].
    + intros x id Hx Hm. apply in_app_or in Hx as [Hx|[<-|[]]]; [auto|]. destruct Hm as [Hm|Hm]; discriminate.
    + intros d Hd. destruct (I4 d Hd) as (x & X1 & X2). exists x. split; [apply in_or_app; left; exact X1|exact X2].
  - destruct (nth_error (kw_calls W) i) as [c|] eqn:Hc; [|split; auto]. pose proof (nth_error_In _ _ Hc) as Hin.
    destruct (k_step new c (kw_db W)) as [s w'] eqn:Hs. apply step_cases in Hs.
    assert (Hkeep : forall x id, In x (kw_calls W) -> made x id -> (made c id -> made (at_stage c s) id) -> exists y, In y (set_nth i (at_stage c s) (kw_calls W)) /\ made y id /\ kc_name y = kc_name x).
    { intros x id Hx Hm Hk. destruct (set_nth_keeps i (at_stage c s) c x _ Hx Hc) as [->|Hx']; [|exists x; auto]. exists (at_stage c s). split; [exact (set_nth_has _ _ _ _ Hc)|]. split; [apply Hk; exact Hm|reflexivity]. }
    destruct Hs as [(-> & Hs & Hk)|(Ha & -> & -> & Hf)].
    + split; cbn [kw_db kw_calls]; auto.
      * intros x Hx Hs'. apply set_nth_in in Hx as [->|Hx]; [|auto]. cbn in Hs'. cbn. destruct Hs as [(_ & _ & Hs)|[Hs|[(id & _ & Hs)|Hs]]]; try congruence. apply I2; [exact Hin|congruence].
      * intros x id Hx Hm. apply set_nth_in in Hx as [->|Hx]; [|auto]. apply (I3 c id Hin). unfold made in *. cbn in Hm. destruct Hs as [(Hs & _)|[Hs|[(j & Hj & Hs)|Hs]]]; rewrite Hs in Hm; destruct Hm as [Hm|Hm]; try discriminate; auto. left. congruence.
      * intros d Hd. destruct (I4 d Hd) as (x & X1 & X2 & X3). destruct (Hkeep x _ X1 X2 (Hk _)) as (y & Y1 & Y2 & Y3). exists y. split; [exact Y1|]. split; [exact Y2|congruence].
    + split; cbn [kw_db kw_calls].
      * rewrite map_app. cbn. apply NoDup_app_one; auto.
      * intros x Hx Hs'. apply set_nth_in in Hx as [->|Hx]; [discriminate|auto].
      * intros x id Hx Hm. apply set_nth_in in Hx as [->|Hx].
        -- split; [apply (I2 c Hin Ha)|]. eexists. split; [apply in_or_app; right; left; reflexivity|]. destruct Hm as [Hm|Hm]; cbn in Hm; [|discriminate]. injection Hm as <-. repeat split.
        -- destruct (I3 x id Hx Hm) as (H1 & d & D1 & D2). split; [exact H1|]. exists d. split; [apply in_or_app; left; exact D1|exact D2].
      * intros d Hd. apply in_app_or in Hd as [Hd|[<-|[]]].
        -- destruct (I4 d Hd) as (x & X1 & X2 & X3). destruct (Hkeep x _ X1 X2) as (y & Y1 & Y2 & Y3); [intros [H|H]; congruence|]. exists y. split; [exact Y1|]. split; [exact Y2|congruence].
        -- exists (at_stage c (KNotify new)). split; [exact (set_nth_has _ _ _ _ Hc)|]. split; [left; reflexivity|reflexivity].
      * intros d Hd Hcd. apply in_app_or in Hd as [Hd|[<-|[]]]; [auto|discriminate].
  - split; cbn [kw_db kw_calls].
    + rewrite set_complete_ids. exact I1.
    + exact I2.
    + intros c x Hx Hm. destruct (I3 c x Hx Hm) as (H1 & d & D1 & D2 & D3 & D4 & D5). split; [exact H1|]. destruct (set_complete_later _ id d D1) as (d' & E1 & E2 & E3 & E4 & E5 & _). exists d'. split; [exact E1|]. repeat split; congruence.
    + intros d' Hd. apply set_complete_back in Hd as (d & D1 & (E1 & E2 & _) & _). destruct (I4 d D1) as (c & C1 & C2 & C3). exists c. rewrite E1, E2. auto.
    + intros d' Hd Hc. apply set_complete_back in Hd as (d & D1 & (E1 & _) & D3). rewrite E1. destruct (D3 Hc) as [H| ->]; [auto|]. apply in_or_app. right. left. reflexivity.
Qed.
Lemma history_snoc h ev : k_history (h ++ [ev]) = k_next (k_history h) ev.
Proof. unfold k_history. rewrite fold_left_app. reflexivity. Qed.
Lemma history_inv h : k_inv h (k_history h).
Proof.
  induction h as [|ev h IH] using rev_ind; [|rewrite history_snoc; apply next_inv; exact IH]. split; cbn; try (intros ? []); try constructor; intros; contradiction.
Qed.
Lemma next_later W ev d : In d (kw_db W) -> exists d', In d' (kw_db (k_next W ev)) /\ later d d'.
Proof.
  intros H. destruct ev as [n c q|i new|id]; cbn [k_next].
  - exists d. split; [exact H|apply later_refl].
  - destruct (nth_error (kw_calls W) i) as [c|]; [|exists d; split; [exact H|apply later_refl]]. destruct (k_step new c (kw_db W)) as [s w'] eqn:Hs. apply step_cases in Hs. exists d. split; [|apply later_refl].
    cbn. destruct Hs as [(-> & _)|(_ & _ & -> & _)]; [exact H|apply in_or_app; left; exact H].
  - apply set_complete_later. exact H.
Qed.
Lemma history_later h' : forall W d, In d (kw_db W) -> exists d', In d' (kw_db (fold_left k_next h' W)) /\ later d d'.
Proof.
  induction h' as [|ev h' IH]; intros W d H; cbn [fold_left]; [exists d; split; [exact H|apply later_refl]|]. destruct (next_later W ev d H) as (d1 & D1 & D2). destruct (IH _ d1 D1) as (d2 & E1 & E2). exists d2. split; [exact E1|exact (later_trans _ _ _ D2 E2)].
Qed.
Lemma same_doc W h d d' : k_inv h W -> In d (kw_db W) -> In d' (kw_db W) -> kd_id d = kd_id d' -> d = d'.
Proof.
  intros [I _ _ _ _]. revert I. generalize (kw_db W). intros l. induction l as [|x l IH]; cbn [map]; [intros _ []|]. intros Hn H H' He. apply NoDup_cons_iff in Hn as [Hx Hn].
  destruct H as [<-|H], H' as [<-|H']; [reflexivity| | |auto]; exfalso; apply Hx; [rewrite He|rewrite <- He]; apply in_map; assumption.
Qed.
Lemma in_active w p : In p (get_key_ceremonies w) <-> exists d, In d w /\ kd_completed d = false /\ id_name d = p.
Proof.
  unfold get_key_ceremonies. rewrite in_map_iff. split; intros (d & H); exists d.
  - destruct H as (<- & H). apply filter_In in H as [H1 H2]. destruct (kd_completed d); [discriminate|auto].
  - destruct H as (H1 & H2 & H3). split; [exact H3|]. apply filter_In. rewrite H2. auto.
Qed.
Lemma in_keys w p : In p (get_keys w) <-> exists d, In d w /\ kd_completed d = true /\ id_name d = p.
Proof.
  unfold get_keys. rewrite in_map_iff. split; intros (d & H); exists d.
  - destruct H as (<- & H). apply filter_In in H as [H1 H2]. auto.
  - destruct H as (H1 & H2 & H3). split; [exact H3|]. apply filter_In. auto.
Qed.
Lemma nodup_lists w : NoDup (map kd_id w) -> NoDup (map fst (get_key_ceremonies w ++ get_keys w)).
Proof.
  unfold get_key_ceremonies, get_keys. rewrite map_app, !map_map. cbn [id_name fst]. induction w as [|x w IH]; cbn [map filter]; [constructor|]. intros H. apply NoDup_cons_iff in H as [Hx H]. specialize (IH H).
  assert (Hn : ~ In (kd_id x) (map (fun d => kd_id d) (filter (fun d => negb (kd_completed d)) w) ++ map (fun d => kd_id d) (filter kd_completed w))).
  { intros Hi. apply Hx. apply in_app_or in Hi as [Hi|Hi]; apply in_map_iff in Hi as (d & <- & Hd); apply filter_In in Hd as [Hd _]; apply in_map; exact Hd. }
  destruct (kd_completed x); cbn [negb map app].
  - apply NoDup_Add with (a := kd_id x) (l := map (fun d => kd_id d) (filter (fun d => negb (kd_completed d)) w) ++ map (fun d => kd_id d) (filter kd_completed w)); [apply Add_app|]. auto.
  - constructor; auto.
Qed.
Lemma shown_thm h c id : In c (kw_calls (k_history h)) -> made c id -> let w := kw_db (k_history h) in
  kc_quorum c <= kc_count c /\
  (~ In (KComplete id) h -> In (id, kc_name c) (get_key_ceremonies w) /\ forall n, ~ In (id, n) (get_keys w)) /\
  forall h', let w' := kw_db (k_history (h ++ KComplete id :: h')) in In (id, kc_name c) (get_keys w') /\ forall n, ~ In (id, n) (get_key_ceremonies w').
Proof.
  intros Hc Hm. cbv zeta. pose proof (history_inv h) as Hi. destruct (ki_made _ _ Hi c id Hc Hm) as (H1 & d & D1 & D2 & D3 & _). split; [exact H1|]. split.
  - intros Hn. split.
    + apply in_active. exists d. split; [exact D1|]. split; [|unfold id_name; congruence]. destruct (kd_completed d) eqn:Hd; [|reflexivity]. exfalso. apply Hn. rewrite <- D2. exact (ki_compl _ _ Hi d D1 Hd).
    + intros n Hin. apply in_keys in Hin as (x & X1 & X2 & [= X3 _]). apply Hn. rewrite <- X3. exact (ki_compl _ _ Hi x X1 X2).
  - intros h'. set (W := k_next (k_history h) (KComplete id)).
    assert (HW : k_history (h ++ KComplete id :: h') = fold_left k_next h' W) by (unfold k_history, W; rewrite fold_left_app; reflexivity).
    assert (Hd : exists d1, In d1 (kw_db W) /\ kd_id d1 = id /\ kd_name d1 = kc_name c /\ kd_completed d1 = true).
    { destruct (set_complete_hits (kw_db (k_history h)) id) as (d1 & E1 & E2 & E3); [rewrite <- D2; apply in_map; exact D1|]. exists d1. split; [exact E1|]. split; [exact E2|]. split; [|exact E3].
      destruct (set_complete_later _ id d D1) as (d2 & F1 & F2 & F3 & _). assert (d1 = d2) as ->; [|congruence].
      assert (HiW : k_inv (h ++ [KComplete id]) W) by (apply next_inv; exact Hi). apply (same_doc W _ d1 d2 HiW E1 F1). congruence. }
    destruct Hd as (d1 & E1 & E2 & E3 & E4). destruct (history_later h' W d1 E1) as (d2 & F1 & G1 & G2 & _ & _ & G3). rewrite HW. split.
    + apply in_keys. exists d2. split; [exact F1|]. split; [auto|unfold id_name; congruence].
    + intros n Hin. apply in_active in Hin as (x & X1 & X2 & [= X3 _]). pose proof (history_inv (h ++ KComplete id :: h')) as Hi'. rewrite HW in Hi'. assert (x = d2) as ->; [apply (same_doc _ _ x d2 Hi' X1 F1); congruence|]. rewrite (G3 E4) in X2. discriminate.
Qed.
Lemma only_thm h : let w := kw_db (k_history h) in
  NoDup (map fst (get_key_ceremonies w ++ get_keys w)) /\
  forall id n, In (id, n) (get_key_ceremonies w ++ get_keys w) -> exists c, In c (kw_calls (k_history h)) /\ kc_name c = n /\ made c id.
Proof.
  cbv zeta. pose proof (history_inv h) as Hi. split; [apply nodup_lists; exact (ki_ids _ _ Hi)|]. intros id n Hin.
  assert (Hd : exists d, In d (kw_db (k_history h)) /\ id_name d = (id, n)) by (apply in_app_or in Hin as [Hin|Hin]; [apply in_active in Hin|apply in_keys in Hin]; destruct Hin as (d & H1 & _ & H2); exists d; auto).
  destruct Hd as (d & D1 & [= D2 D3]). destruct (ki_docs _ _ Hi d D1) as (c & C1 & C2 & C3). exists c. split; [exact C1|]. split; [congruence|]. rewrite <- D2. exact C2.
Qed.
(** ** calls one after the other *)
Lemma exists_in w name : kc_exists w name = true <-> In name (map kd_name w).
Proof.
  unfold kc_exists. rewrite existsb_exists, in_map_iff. split; intros (d & H1 & H2); exists d; [apply String.eqb_eq in H2; auto|]. split; [exact H2|]. apply String.eqb_eq. exact H1.
Qed.
Lemma run_thm name c q new w : ~ In new (map kd_id w) ->
  (q <= c /\ ~ In name (map kd_name w) -> k_run 3 new (mkKCall name c q KCheck) w = (KAnswered (KCreated new), w ++ [mkKDoc new name c q false])) /\
  (c < q \/ In name (map kd_name w) -> k_run 3 new (mkKCall name c q KCheck) w = (KAnswered KRefused, w)).
Proof.
  intros Hf. split.
  - intros [Hq Hn]. cbn. destruct (Z.ltb_spec c q); [lia|]. destruct (kc_exists w name) eqn:He; [apply exists_in in He; contradiction|]. cbn. unfold kc_insert.
    destruct (existsb (fun x => String.eqb (kd_id x) (kd_id (mkKDoc new name c q false))) w) eqn:Hx; [|reflexivity]. exfalso. apply Hf. apply existsb_exists in Hx as (x & X1 & X2). apply String.eqb_eq in X2. cbn in X2. rewrite <- X2. apply in_map. exact X1.
  - intros H. cbn. destruct (Z.ltb_spec c q); [reflexivity|]. destruct H as [H|H]; [lia|]. apply exists_in in H. rewrite H. reflexivity.
Qed.
Lemma run_names n new name c q w : NoDup (map kd_name w) -> NoDup (map kd_name (snd (k_run n new (mkKCall name c q KCheck) w))).
Proof.
  intros H. assert (Ha : forall n x, match kc_at x with KNotify _ | KAnswered _ => True | _ => False end -> forall w, snd (k_run n new x w) = w).
  { clear. induction n as [|n IH]; intros x Hx w; [reflexivity|]. cbn [k_run]. unfold k_step. destruct (kc_at x); try destruct Hx; apply IH; exact I. }
  destruct n as [|n]; [exact H|]. cbn [k_run]. unfold k_step. cbn [kc_at kc_count kc_quorum kc_name]. destruct (Z.ltb c q); [rewrite Ha; [exact H|exact I]|]. destruct (kc_exists w name) eqn:He; [rewrite Ha; [exact H|exact I]|].
  destruct n as [|n]; [exact H|]. cbn [k_run]. unfold k_step. cbn [kc_at kc_count kc_quorum kc_name at_stage]. destruct (kc_insert w _) as [w1|] eqn:Hi; rewrite Ha; try exact I; [|exact H].
  apply insert_ok in Hi as [-> _]. rewrite map_app. cbn. apply NoDup_app_one; [exact H|]. intros Hin. apply exists_in in Hin. congruence.
Qed.
Lemma in_turn_names_thm h : NoDup (map kd_name (k_in_turn h)).
Proof.
  unfold k_in_turn. assert (Hg : forall w, NoDup (map kd_name w) -> NoDup (map kd_name (fold_left (fun w '(name, c, q, new, n) => snd (k_run n new (mkKCall name c q KCheck) w)) h w))); [|apply Hg; constructor].
  induction h as [|[[[[name c] q] new] n] h IH]; intros w H; [exact H|]. cbn [fold_left]. apply IH, run_names, H.
Qed.
