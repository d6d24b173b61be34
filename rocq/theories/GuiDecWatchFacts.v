(** * GuiDecWatchFacts: facts about the administrator's page of a decryption. *)
From Coq Require Import List.
From Verif Require Import Base Group Hash ElGamal ZK Spec ListFacts Manifest Ballot Encrypt SpecElection Box Tally SpecTally Ceremony SpecCeremony Shares SpecShares SpecEndToEnd
  GuiUpload SpecUpload GuiDecrypt SpecGuiDecrypt GuiDecRun GuiDecThms GuiDecWatch SpecGuiDecWatch.

Lemma nth_set_page q s l p : nth_error (set_page q s l) p =
  if Nat.eqb p q then option_map (fun x => mkPage (pg_doc x) s) (nth_error l p) else nth_error l p.
Proof.
  unfold set_page. destruct (Nat.eqb_spec p q) as [->|Hn].
  - destruct (nth_error l q) as [x|] eqn:Hx; [|rewrite Hx; reflexivity]. cbn. revert q Hx. induction l as [|y l IH]; intros [|q] Hx; try discriminate; [reflexivity|]. apply IH, Hx.
  - destruct (nth_error l q) as [x|]; [|reflexivity]. generalize (mkPage (pg_doc x) s). intros y. revert p q Hn. induction l as [|z l IH]; intros [|p] [|q] Hn; try reflexivity; [lia|]. apply IH. lia.
Qed.
Lemma skipn_more {A} k (l r : list A) x : In x (skipn k l) -> In x (skipn k (l ++ r)).
Proof. rewrite skipn_app. intros H. apply in_or_app. auto. Qed.
Lemma skipn_new {A} k (l r : list A) x : (k <= length l)%nat -> In x r -> In x (skipn k (l ++ r)).
Proof. intros Hk Hx. rewrite skipn_app. replace (k - length l)%nat with 0%nat by lia. apply in_or_app. auto. Qed.

Section Facts.
  Variable E : env.
  Variable parse : string -> option sub_ballot.
  Variable device : string -> bool.
  Variable disk : string -> string -> option private_record.
  Notation run := (dec_run E parse device disk).
  Notation step := (dx_step E parse device disk).
  Notation xrun := (dx_run E parse device disk).
  Notation pls := (plains E parse device disk).

  Lemma dec_of_step w e : dx_dec (step w e) = run (dx_dec w) (plain w e).
  Proof.
    destruct w as [d rows owes pages]. destruct e as [ev|i|i|s|id|p|p|p|p|p]; cbn [dx_step plain dx_dec dx_pages dx_rows]; try reflexivity.
    - destruct (nth_error pages p) as [[id []]|]; reflexivity.
    - destruct (nth_error pages p) as [[id []]|]; try reflexivity;
        destruct (nth_error (dw_calls d) i) as [[]|]; try reflexivity; repeat match goal with |- context [if ?b then _ else _] => destruct b end; reflexivity.
    - destruct (nth_error pages p) as [[id []]|]; reflexivity.
    - destruct (nth_error pages p) as [[id []]|]; try reflexivity. destruct (nth_error rows k) as [s|]; reflexivity.
  Qed.
  Lemma dec_of_run h : forall w, dx_dec (xrun w h) = run (dx_dec w) (pls w h).
  Proof.
    induction h as [|e h IH]; intros w; [reflexivity|]. unfold dx_run. cbn [fold_left plains]. fold (xrun (step w e) h).
    rewrite IH, dec_of_step. symmetry. apply run_app.
  Qed.
  Lemma xrun_app w h1 h2 : xrun w (h1 ++ h2) = xrun (xrun w h1) h2.
  Proof. apply fold_left_app. Qed.
  Lemma plains_app h1 : forall w h2, pls w (h1 ++ h2) = pls w h1 ++ pls (xrun w h1) h2.
  Proof.
    induction h1 as [|e h1 IH]; intros w h2; [reflexivity|]. cbn [app plains]. rewrite IH, app_assoc. reflexivity.
  Qed.
  Lemma reading_step i0 id i net up rnd : In (Step i net up rnd) (reading i0 id) -> net = true /\ forall path, up path = true.
  Proof. intros [H|[H|[]]]; [discriminate|]. injection H as <- <- <- <-. auto. Qed.
  Lemma plain_step w e i net up rnd : In (Step i net up rnd) (plain w e) -> e = Do (Step i net up rnd) \/ net = true /\ forall path, up path = true.
  Proof.
    destruct e as [ev|j|j|s|id|p|p|p|p|p]; cbn [plain]; try (intros []; fail).
    - intros [->|[]]. auto.
    - destruct (nth_error (dx_pages w) p) as [[id []]|]; try (intros []; fail). intros H. right. eapply reading_step, H.
    - destruct (nth_error (dx_pages w) p) as [[id []]|]; try (intros []; fail). destruct (nth_error (dx_rows w) k) as [s|]; [|intros []]. destruct (String.eqb s id); [|intros []].
      intros H. right. eapply reading_step, H.
  Qed.
  Lemma plains_step h : forall w i net up rnd, In (Step i net up rnd) (pls w h) -> In (Do (Step i net up rnd)) h \/ net = true /\ forall path, up path = true.
  Proof.
    induction h as [|e h IH]; intros w i net up rnd H; [destruct H|]. cbn [plains] in H. apply in_app_or in H as [H|H].
    - destruct (plain_step _ _ _ _ _ _ H) as [->|H']; [left; left; reflexivity|auto].
    - destruct (IH _ _ _ _ _ H) as [H'|H']; [left; right; exact H'|auto].
  Qed.
  Lemma plains_uploads h : forall w ev, In (Uploads ev) (pls w h) -> In (Do (Uploads ev)) h.
  Proof.
    induction h as [|e h IH]; intros w ev H; [destruct H|]. cbn [plains] in H. apply in_app_or in H as [H|H]; [left|right; eapply IH, H].
    destruct e as [ev'|j|j|s|id|p|p|p|p|p]; cbn [plain] in H; try (destruct H; fail).
    - destruct H as [->|[]]. reflexivity.
    - destruct (nth_error (dx_pages w) p) as [[id []]|]; try (destruct H; fail). destruct H as [H|[H|[]]]; discriminate H.
    - destruct (nth_error (dx_pages w) p) as [[id []]|]; try (destruct H; fail). destruct (nth_error (dx_rows w) k) as [s|]; [|destruct H]. destruct (String.eqb s id); [|destruct H].
      destruct H as [H|[H|[]]]; discriminate H.
  Qed.

  (** a finished call stays finished *)
  Lemma set_nth_other {A} (l : list A) : forall i j x, i <> j -> nth_error (set_nth j x l) i = nth_error l i.
  Proof. induction l as [|y l IH]; intros [|i] [|j] x H; try reflexivity; [lia|]. apply IH. lia. Qed.
  Lemma set_nth_same {A} (l : list A) : forall i x y, nth_error l i = Some y -> nth_error (set_nth i x l) i = Some x.
  Proof. induction l as [|z l IH]; intros [|i] x y H; try discriminate; [reflexivity|]. eapply IH, H. Qed.
  Lemma finished_step W ev i ok : nth_error (dw_calls W) i = Some (Finished ok) -> nth_error (dw_calls (dec_event_step E parse device disk W ev)) i = Some (Finished ok).
  Proof.
    intros H. destruct ev as [u|id e|u id|a id|j net up rnd]; cbn [dec_event_step dw_calls]; try exact H; try (rewrite nth_error_app1; [exact H|apply nth_error_Some; congruence]).
    destruct (nth_error (dw_calls W) j) as [c|] eqn:Hc; [|exact H]. destruct (Nat.eqb_spec i j) as [->|Hn].
    - rewrite Hc in H. injection H as ->. cbn [dec_step dw_calls]. eapply set_nth_same, Hc.
    - destruct (dec_step _ _ _ _ _ _ c _ _) as [c' ds']. cbn [dw_calls]. rewrite set_nth_other by exact Hn. exact H.
  Qed.
  Lemma finished_run l : forall W i ok, nth_error (dw_calls W) i = Some (Finished ok) -> nth_error (dw_calls (run W l)) i = Some (Finished ok).
  Proof. induction l as [|ev l IH]; intros W i ok H; [exact H|]. apply IH, finished_step, H. Qed.

  (** reading the document *)
  Lemma reading_run d id : let i := length (dw_calls d) in
    nth_error (dw_calls (run d (reading i id))) i = Some (match find_decryption (dw_docs d) id with
      | None => Finished false | Some x => if should_run true x then ViewElection x else Finished true end).
  Proof.
    cbv zeta. unfold reading, dec_run. cbn [fold_left dec_event_step dw_calls dw_docs].
    rewrite nth_error_app2, Nat.sub_diag by lia. cbn [nth_error dec_step]. unfold dw_db. cbn [dw_docs dw_up].
    assert (Hs : nth_error (dw_calls d ++ [ViewStart true id]) (length (dw_calls d)) = Some (ViewStart true id)) by (rewrite nth_error_app2, Nat.sub_diag by lia; reflexivity).
    destruct (find_decryption (dw_docs d) id) as [x|]; [destruct (should_run true x)|]; cbn [dw_calls]; eapply set_nth_same, Hs.
  Qed.

  (** no cursor is beyond the end *)
  Definition behind (rows : list string) (pg : page) : Prop :=
    match pg_state pg with PgLooked k | PgWatching k | PgHandling _ k => (k <= length rows)%nat | _ => True end.
  Definition cursors (w : dx_world) : Prop := Forall (behind (dx_rows w)) (dx_pages w).
  Lemma behind_more rows r pg : behind rows pg -> behind (rows ++ r) pg.
  Proof. unfold behind. rewrite app_length. destruct (pg_state pg); lia. Qed.
  Lemma Forall_set_page (P : page -> Prop) q s l : Forall P l -> (forall x, nth_error l q = Some x -> P (mkPage (pg_doc x) s)) -> Forall P (set_page q s l).
  Proof.
    intros H Hx. apply Forall_forall. intros y Hy. apply In_nth_error in Hy as [n Hp]. rewrite nth_set_page in Hp. destruct (Nat.eqb_spec n q) as [Hn|Hn].
    - subst n. destruct (nth_error l q) as [x|] eqn:Hq; [|discriminate]. injection Hp as <-. apply Hx. reflexivity.
    - apply nth_error_In in Hp. rewrite Forall_forall in H. auto.
  Qed.
  Lemma cursors_step w e : cursors w -> cursors (step w e).
  Proof.
    unfold cursors. destruct w as [d rows owes pages]. intros H. cbn [dx_rows dx_pages] in H.
    assert (Hm : forall r, Forall (behind (rows ++ r)) pages) by (intros r; eapply Forall_impl; [|exact H]; intros a; apply behind_more).
    assert (Hp : forall p x, nth_error pages p = Some x -> behind rows x) by (intros p x Hx; apply nth_error_In in Hx; rewrite Forall_forall in H; auto).
    destruct e as [ev|i|i|s|id|p|p|p|p|p]; cbn [dx_step]; try (exact H); try (apply Hm).
    - cbn [dx_rows dx_pages]. apply Forall_app. split; [exact H|]. constructor; [exact Logic.I|constructor].
    - destruct (nth_error pages p) as [[id []]|]; try exact H. cbn [dx_rows dx_pages]. apply Forall_set_page; [exact H|]. intros x _. unfold after_look, behind. cbn [pg_state].
      destruct (find_decryption _ _) as [y|]; [|exact Logic.I]. destruct (should_run true y); [exact Logic.I|]. destruct (has_result y); [exact Logic.I|]. lia.
    - destruct (nth_error pages p) as [[id []]|] eqn:Hx; try exact H; apply Hp in Hx; unfold behind in Hx; cbn [pg_state] in Hx.
      + destruct (nth_error (dw_calls d) i) as [[| | | | | | | | | | |[]]|]; try exact H.
        * destruct (is_owed i owes); [exact H|]. cbn [dx_rows dx_pages]. apply Forall_set_page; [exact H|]. intros x _. unfold behind. cbn [pg_state].
          destruct (find_decryption _ _) as [y|]; [|exact Logic.I]. destruct (has_result y); [exact Logic.I|]. lia.
        * cbn [dx_rows dx_pages]. apply Forall_set_page; [exact H|]. intros x _. exact Logic.I.
      + destruct (nth_error (dw_calls d) i) as [[]|]; try exact H. destruct (is_owed i owes); [exact H|]. cbn [dx_rows dx_pages]. apply Forall_set_page; [exact H|]. intros x _. exact Hx.
    - destruct (nth_error pages p) as [[id []]|]; try exact H. cbn [dx_rows dx_pages]. apply Forall_set_page; [exact H|]. intros x _. unfold behind. cbn. lia.
    - destruct (nth_error pages p) as [[id []]|] eqn:Hx; try exact H. destruct (nth_error rows k) as [s|] eqn:Hk; [|exact H]. cbn [dx_rows dx_pages]. apply Forall_set_page; [exact H|]. intros x _.
      assert (k < length rows)%nat by (apply nth_error_Some; congruence). unfold behind. cbn [pg_state]. destruct (String.eqb s id); [|lia]. unfold after_message.
      destruct (find_decryption _ _) as [y|]; [|lia]. destruct (should_run true y); lia.
    - cbn [dx_rows dx_pages]. apply Forall_set_page; [exact H|]. intros x _. exact Logic.I.
  Qed.
  Lemma cursors_run h : forall w, cursors w -> cursors (xrun w h).
  Proof. induction h as [|e h IH]; intros w H; [exact H|]. apply IH, cursors_step, H. Qed.

  (** ** the page hears of it *)
  Section Page.
    Variable p : nat.
    Variable id : string.
    Variable w0 : dx_world.
    (** since [w0] the page started a call that looked at the document, and is busy with it, or it is finished *)
    Definition looked (w : dx_world) (l : list dec_event) : Prop := exists la lb, l = la ++ StartView true id :: lb /\
      let i := length (dw_calls (run (dx_dec w0) la)) in
      (exists ok, nth_error (dw_calls (dx_dec w)) i = Some (Finished ok)) \/
      (exists s, nth_error (dx_pages w) p = Some (mkPage id s) /\ match s with PgRunning j | PgHandling j _ => j = i | PgClosed => True | _ => False end).
    Definition hears (w : dx_world) (l : list dec_event) : Prop :=
      looked w l \/ will_hear w p id \/
      match nth_error (dx_pages w) p with Some pg => pg_doc pg <> id \/ pg_state pg = PgClosed \/ (exists n, pg_state pg = PgLooked n /\ unread w id n) | None => False end.

    Lemma to_be_told_step w e : to_be_told w id -> match e with Stop i => ~ In (i, id) (dx_owes w) | _ => True end ->
      to_be_told (step w e) id \/ exists r, dx_rows (step w e) = dx_rows w ++ r /\ In id r.
    Proof.
      destruct w as [d rows owes pages]. intros [i Hi] Hs. cbn [dx_owes] in Hi, Hs. unfold to_be_told. destruct e as [ev|j|j|s|id'|q|q|q|q|q]; cbn [dx_step].
      - left. exists i. cbn [dx_owes]. unfold owes_after. destruct ev as [| | | |k net up rnd]; auto. destruct (nth_error (dw_calls d) k) as [c|]; auto. destruct (last_change c); auto. apply in_or_app. auto.
      - destruct (Nat.eqb_spec i j) as [<-|Hn].
        + right. cbn [dx_rows]. eexists. split; [reflexivity|]. apply in_map_iff. exists (i, id). split; [reflexivity|]. apply filter_In. split; [exact Hi|]. apply Nat.eqb_refl.
        + left. exists i. cbn [dx_owes]. apply filter_In. split; [exact Hi|]. cbn [fst]. apply Nat.eqb_neq in Hn. rewrite Hn. reflexivity.
      - left. exists i. cbn [dx_owes]. apply filter_In. split; [exact Hi|]. cbn [fst]. destruct (Nat.eqb_spec i j) as [<-|]; [destruct (Hs Hi)|reflexivity].
      - left. exists i. exact Hi.
      - left. exists i. exact Hi.
      - left. exists i. destruct (nth_error pages q) as [[? []]|]; exact Hi.
      - left. exists i. destruct (nth_error pages q) as [[? []]|]; try exact Hi; destruct (nth_error (dw_calls d) _) as [[| | | | | | | | | | |[]]|]; try exact Hi; destruct (is_owed _ _); exact Hi.
      - left. exists i. destruct (nth_error pages q) as [[? []]|]; exact Hi.
      - left. exists i. destruct (nth_error pages q) as [[? []]|]; try exact Hi. destruct (nth_error rows k); exact Hi.
      - left. exists i. exact Hi.
    Qed.
    Lemma rows_step w e : exists r, dx_rows (step w e) = dx_rows w ++ r.
    Proof.
      destruct w as [d rows owes pages]. destruct e as [ev|j|j|s|id'|q|q|q|q|q]; cbn [dx_step]; try (exists []; symmetry; apply app_nil_r); try (eexists; reflexivity).
      - exists []. rewrite app_nil_r. destruct (nth_error pages q) as [[? []]|]; reflexivity.
      - exists []. rewrite app_nil_r. destruct (nth_error pages q) as [[? []]|]; try reflexivity; destruct (nth_error (dw_calls d) _) as [[| | | | | | | | | | |[]]|]; try reflexivity; destruct (is_owed _ _); reflexivity.
      - exists []. rewrite app_nil_r. destruct (nth_error pages q) as [[? []]|]; reflexivity.
      - exists []. rewrite app_nil_r. destruct (nth_error pages q) as [[? []]|]; try reflexivity. destruct (nth_error rows k); reflexivity.
    Qed.
    (** events that leave the page alone *)
    Definition touches (e : dx_event) : bool := match e with Look q | Back q | Burn q | Deliver q | Leave q => Nat.eqb p q | _ => false end.
    Lemma untouched w e pg : touches e = false -> nth_error (dx_pages w) p = Some pg -> nth_error (dx_pages (step w e)) p = Some pg.
    Proof.
      destruct w as [d rows owes pages]. cbn [dx_pages]. intros Ht H. destruct e as [ev|j|j|s|id'|q|q|q|q|q]; cbn [touches] in Ht; cbn [dx_step]; try exact H.
      - cbn [dx_pages]. rewrite nth_error_app1; [exact H|]. apply nth_error_Some. congruence.
      - destruct (nth_error pages q) as [[? []]|]; try exact H. cbn [dx_pages]. rewrite nth_set_page, Ht. exact H.
      - destruct (nth_error pages q) as [[? []]|]; try exact H; destruct (nth_error (dw_calls d) _) as [[| | | | | | | | | | |[]]|]; try exact H; try (destruct (is_owed _ _); try exact H); cbn [dx_pages]; rewrite nth_set_page, Ht; exact H.
      - destruct (nth_error pages q) as [[? []]|]; try exact H. cbn [dx_pages]. rewrite nth_set_page, Ht. exact H.
      - destruct (nth_error pages q) as [[? []]|]; try exact H. destruct (nth_error rows k); [|exact H]. cbn [dx_pages]. rewrite nth_set_page, Ht. exact H.
      - cbn [dx_pages]. rewrite nth_set_page, Ht. exact H.
    Qed.
    Lemma looked_more w e l : dx_dec w = run (dx_dec w0) l -> looked w l -> looked (step w e) (l ++ plain w e).
    Proof.
      intros Hw (la & lb & Hl & H). cbv zeta in H. exists la, (lb ++ plain w e). split; [rewrite Hl, <- app_assoc; reflexivity|]. cbv zeta.
      set (i := length (dw_calls (run (dx_dec w0) la))) in *.
      destruct H as [[ok Hok]|(s & Hp & Hs)].
      - left. exists ok. rewrite dec_of_step. apply finished_run, Hok.
      - destruct (touches e) eqn:Ht; [|right; exists s; split; [apply untouched; assumption|exact Hs]].
        destruct w as [d rows owes pages]. cbn [dx_pages dx_dec] in *.
        destruct e as [ev|j|j|x|id'|q|q|q|q|q]; try discriminate; cbn [touches] in Ht; apply Nat.eqb_eq in Ht; subst q; cbn [dx_step]; rewrite ?Hp.
        + destruct s; try (destruct Hs; fail); right; eexists; (split; [exact Hp|exact Hs]).
        + destruct s as [|j| | |j k| | |]; try (destruct Hs; fail).
          * subst j. destruct (nth_error (dw_calls d) i) as [c|] eqn:Hc; [|right; eexists; split; [exact Hp|reflexivity]].
            destruct c as [| | | | | | | | | | |[]]; try (right; eexists; split; [exact Hp|reflexivity]).
            -- destruct (is_owed i owes); [right; eexists; split; [exact Hp|reflexivity]|]. left. exists true. exact Hc.
            -- left. exists false. exact Hc.
          * subst j. destruct (nth_error (dw_calls d) i) as [c|] eqn:Hc; [|right; eexists; split; [exact Hp|reflexivity]].
            destruct c as [| | | | | | | | | | |ok]; try (right; eexists; split; [exact Hp|reflexivity]).
            destruct (is_owed i owes); [right; eexists; split; [exact Hp|reflexivity]|]. left. exists ok. exact Hc.
          * right. eexists. split; [exact Hp|exact Logic.I].
        + destruct s; try (destruct Hs; fail); right; eexists; (split; [exact Hp|exact Hs]).
        + destruct s; try (destruct Hs; fail); right; eexists; (split; [exact Hp|exact Hs]).
        + right. exists PgClosed. split; [|exact Logic.I]. cbn [dx_pages]. rewrite nth_set_page, Nat.eqb_refl, Hp. reflexivity.
    Qed.
    (** a look at the document *)
    Lemma look_now d rows owes pages s l : d = run (dx_dec w0) l ->
      nth_error pages p = Some (mkPage id s) ->
      match find_decryption (dw_docs d) id with
      | Some x => if should_run true x then match s with PgRunning j | PgHandling j _ => j = length (dw_calls d) | _ => False end else True
      | None => True end ->
      looked (mkDx (run d (reading (length (dw_calls d)) id)) rows owes pages) (l ++ reading (length (dw_calls d)) id).
    Proof.
      intros Hd Hp Hs. exists l, [Step (length (dw_calls d)) true (fun _ => true) (fun _ => 0)]. split; [reflexivity|]. cbv zeta. rewrite <- Hd. cbn [dx_dec dx_pages].
      rewrite reading_run. destruct (find_decryption (dw_docs d) id) as [x|]; [|left; exists false; reflexivity].
      destruct (should_run true x); [|left; exists true; reflexivity]. right. exists s. split; [exact Hp|]. destruct s; try exact Hs; exact Logic.I.
    Qed.
    Definition careful (w : dx_world) (e : dx_event) : Prop :=
      match e with
      | Stop i => ~ In (i, id) (dx_owes w)
      | Burn q => q = p -> forall n, nth_error (dx_pages w) p = Some (mkPage id (PgLooked n)) -> ~ unread w id n
      | _ => True
      end.
    Lemma hears_step w e l : cursors w -> dx_dec w = run (dx_dec w0) l -> careful w e -> hears w l -> hears (step w e) (l ++ plain w e).
    Proof.
      intros Hcu Hw Hc [H|H]; [left; apply looked_more; assumption|].
      destruct (nth_error (dx_pages w) p) as [[id' s]|] eqn:Hp.
      2:{ right. left. unfold will_hear. destruct w as [d rows owes pages]. cbn [dx_pages] in Hp.
          destruct e as [ev|j|j|x|id'|q|q|q|q|q]; cbn [dx_step]; cbn [dx_pages]; rewrite ?Hp; try exact Logic.I.
          - destruct (Nat.eqb_spec p (length pages)) as [->|Hn].
            + rewrite nth_error_app2, Nat.sub_diag by lia. exact Logic.I.
            + apply nth_error_None in Hp. replace (nth_error (pages ++ [mkPage id' PgNew]) p) with (@None page); [exact Logic.I|]. symmetry. apply nth_error_None. rewrite app_length. cbn. lia.
          - destruct (nth_error pages q) as [[? []]|]; cbn [dx_pages]; rewrite ?nth_set_page, ?Hp; try destruct (Nat.eqb p q); exact Logic.I.
          - destruct (nth_error pages q) as [[? []]|]; cbn [dx_pages]; rewrite ?Hp; try exact Logic.I; destruct (nth_error (dw_calls d) _) as [[| | | | | | | | | | |[]]|]; try (destruct (is_owed _ _));
              cbn [dx_pages]; rewrite ?nth_set_page, ?Hp; try destruct (Nat.eqb p q); exact Logic.I.
          - destruct (nth_error pages q) as [[? []]|]; cbn [dx_pages]; rewrite ?nth_set_page, ?Hp; try destruct (Nat.eqb p q); exact Logic.I.
          - destruct (nth_error pages q) as [[? []]|]; cbn [dx_pages]; rewrite ?Hp; try exact Logic.I. destruct (nth_error rows k); cbn [dx_pages]; rewrite ?nth_set_page, ?Hp; try destruct (Nat.eqb p q); exact Logic.I.
          - rewrite nth_set_page, Hp. destruct (Nat.eqb p q); exact Logic.I. }
      destruct (String.eqb_spec id' id) as [->|Hid].
      2:{ right. right. assert (Hd : exists s', nth_error (dx_pages (step w e)) p = Some (mkPage id' s')).
          { destruct (touches e) eqn:Ht; [|exists s; apply untouched; assumption]. destruct w as [d rows owes pages]. cbn [dx_pages] in Hp.
            destruct e as [ev|j|j|x|y|q|q|q|q|q]; try discriminate; cbn [touches] in Ht; apply Nat.eqb_eq in Ht; subst q; cbn [dx_step]; rewrite ?Hp; cbn [dx_pages].
            - destruct s; cbn [dx_pages]; rewrite ?nth_set_page, ?Nat.eqb_refl, Hp; eexists; reflexivity.
            - destruct s; cbn [dx_pages]; rewrite ?Hp; try (eexists; reflexivity); destruct (nth_error (dw_calls d) _) as [[| | | | | | | | | | |[]]|]; try (destruct (is_owed _ _));
                cbn [dx_pages]; rewrite ?nth_set_page, ?Nat.eqb_refl, Hp; eexists; reflexivity.
            - destruct s; cbn [dx_pages]; rewrite ?nth_set_page, ?Nat.eqb_refl, Hp; eexists; reflexivity.
            - destruct s; cbn [dx_pages]; rewrite ?Hp; try (eexists; reflexivity). destruct (nth_error rows k); cbn [dx_pages]; rewrite ?nth_set_page, ?Nat.eqb_refl, Hp; eexists; reflexivity.
            - rewrite nth_set_page, Nat.eqb_refl, Hp. eexists; reflexivity. }
          destruct Hd as [s' ->]. left. exact Hid. }
      assert (Hk : match s with PgLooked k | PgWatching k | PgHandling _ k => (k <= length (dx_rows w))%nat | _ => True end).
      { unfold cursors in Hcu. rewrite Forall_forall in Hcu. exact (Hcu _ (nth_error_In _ _ Hp)). }
      destruct (rows_step w e) as [r Hr].
      assert (Hun : forall k, unread w id k -> unread (step w e) id k) by (intros k Hu; unfold unread in *; rewrite Hr; apply skipn_more, Hu).
      assert (Htl : to_be_told w id -> forall k, (k <= length (dx_rows w))%nat -> to_be_told (step w e) id \/ unread (step w e) id k).
      { intros Ht k Hle. destruct (to_be_told_step w e Ht) as [H'|(r' & Hr' & Hi)]; [destruct e; try exact Logic.I; exact Hc|left; exact H'|].
        right. unfold unread. rewrite Hr'. apply skipn_new; assumption. }
      destruct (touches e) eqn:Ht.
      - unfold will_hear in H. rewrite Hp in H. cbn [pg_state pg_doc] in H. destruct w as [d rows owes pages]. cbn [dx_pages dx_rows dx_dec] in *.
        destruct e as [ev|j|j|x|y|q|q|q|q|q]; try discriminate; cbn [touches] in Ht; apply Nat.eqb_eq in Ht; subst q.
        + (* Look *) destruct s as [|i|n|k|i k| | |].
          * left. cbn [plain dx_step dx_pages dx_dec] in *. rewrite Hp. eapply look_now; [exact Hw|rewrite nth_set_page, Nat.eqb_refl, Hp; reflexivity|].
            unfold after_look. destruct (find_decryption (dw_docs d) id) as [x|]; [|exact Logic.I]. destruct (should_run true x); [reflexivity|exact Logic.I].
          * destruct H as [[]|[[]|[H|(n & H & _)]]]; [congruence|discriminate|discriminate].
          * right. cbn [dx_step] in *. rewrite Hp in *. unfold will_hear. cbn [dx_pages]. rewrite Hp. exact H.
          * right. cbn [dx_step] in *. rewrite Hp in *. unfold will_hear. cbn [dx_pages]. rewrite Hp. exact H.
          * right. cbn [dx_step] in *. rewrite Hp in *. unfold will_hear. cbn [dx_pages]. rewrite Hp. exact H.
          * destruct H as [[]|[[]|[H|(n & H & _)]]]; [congruence|discriminate|discriminate].
          * destruct H as [[]|[[]|[H|(n & H & _)]]]; [congruence|discriminate|discriminate].
          * right. cbn [dx_step] in *. rewrite Hp in *. unfold will_hear. cbn [dx_pages]. rewrite Hp. exact H.
        + (* Back *) destruct s as [|i|n|k|i k| | |]; try (right; cbn [dx_step] in *; rewrite Hp in *; unfold will_hear; cbn [dx_pages]; rewrite Hp; exact H).
          * destruct H as [[]|[[]|[H|(n & H & _)]]]; [congruence|discriminate|discriminate].
          * right. cbn [dx_step] in *. rewrite Hp in *. destruct (nth_error (dw_calls d) i) as [[]|]; try (unfold will_hear; cbn [dx_pages]; rewrite Hp; exact H).
            destruct (is_owed i owes); [unfold will_hear; cbn [dx_pages]; rewrite Hp; exact H|]. left. unfold will_hear. cbn [dx_pages]. rewrite nth_set_page, Nat.eqb_refl, Hp. cbn [option_map pg_state].
            destruct H as [H|[[]|[H|(n & H & _)]]]; [exact H|congruence|discriminate|discriminate].
        + (* Burn *) destruct s as [|i|n|k|i k| | |]; try (right; cbn [dx_step] in *; rewrite Hp in *; unfold will_hear; cbn [dx_pages]; rewrite Hp; exact H).
          assert (Hnu := Hc eq_refl n Hp). destruct H as [H|[[]|[H|(n' & H & Hu)]]]; [|congruence|discriminate|injection H as <-; destruct (Hnu Hu)].
          right. left. cbn [dx_step]. rewrite Hp. unfold will_hear. cbn [dx_pages]. rewrite nth_set_page, Nat.eqb_refl, Hp. cbn [option_map pg_state]. left. exact H.
        + (* Deliver *) destruct s as [|i|n|k|i k| | |]; try (right; cbn [dx_step] in *; rewrite Hp in *; unfold will_hear; cbn [dx_pages]; rewrite Hp; exact H).
          assert (H' : to_be_told (mkDx d rows owes pages) id \/ unread (mkDx d rows owes pages) id k) by (destruct H as [H|[[]|[H|(n & H & _)]]]; [exact H|congruence|discriminate|discriminate]). clear H.
          cbn [plain dx_pages dx_rows dx_dec dx_step] in *. rewrite Hp in *.
          destruct (nth_error rows k) as [x|] eqn:Hx.
          * destruct (String.eqb_spec x id) as [->|Hne].
            -- left. eapply look_now; [exact Hw|rewrite nth_set_page, Nat.eqb_refl, Hp; reflexivity|].
               unfold after_message. destruct (find_decryption (dw_docs d) id) as [y|]; [|exact Logic.I]. destruct (should_run true y); [reflexivity|exact Logic.I].
            -- right. left. unfold will_hear. cbn [dx_pages]. rewrite nth_set_page, Nat.eqb_refl, Hp. cbn [option_map pg_state]. destruct H' as [H'|H']; [left; exact H'|right].
               unfold unread in *. cbn [dx_rows] in *. clear -H' Hx Hne. revert k H' Hx. induction rows as [|y rows IH]; intros [|k] H' Hx; try discriminate.
               ++ injection Hx as ->. destruct H' as [->|H']; [congruence|]. exact H'.
               ++ cbn [nth_error] in Hx. cbn [skipn] in *. exact (IH k H' Hx).
          * right. left. unfold will_hear. cbn [dx_pages]. rewrite Hp. exact H'.
        + right. right. cbn [dx_step dx_pages]. rewrite nth_set_page, Nat.eqb_refl, Hp. cbn. auto.
      - assert (Hp' := untouched w e _ Ht Hp). right. unfold will_hear in *. rewrite Hp' . rewrite Hp in H. cbn [pg_doc pg_state] in *.
        destruct H as [H|[H|[H|(n & H & Hu)]]]; [|right; auto|right; auto|right; right; right; exists n; auto].
        destruct s as [|i|n|k|i k| | |]; try (left; exact H).
        + destruct (Htl H n Hk) as [H'|H']; [left; exact H'|right; right; right; exists n; auto].
        + left. destruct H as [H|H]; [apply (Htl H k Hk)|auto].
        + left. destruct H as [H|H]; [apply (Htl H k Hk)|auto].
    Qed.
    Lemma hears_run h : forall w l, cursors w -> dx_dec w = run (dx_dec w0) l -> orderly E parse device disk p id w h -> hears w l -> hears (xrun w h) (l ++ pls w h).
    Proof.
      induction h as [|e h IH]; intros w l Hcu Hw Ho H; [cbn [plains]; rewrite app_nil_r; exact H|].
      cbn [orderly] in Ho. destruct Ho as [Hc Ho]. cbn [plains]. rewrite app_assoc. unfold dx_run. cbn [fold_left]. apply IH.
      - apply cursors_step, Hcu.
      - rewrite dec_of_step, Hw. symmetry. apply run_app.
      - exact Ho.
      - apply hears_step; auto.
    Qed.
  End Page.
End Facts.
