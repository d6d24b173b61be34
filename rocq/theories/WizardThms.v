(** * WizardThms: proofs about the upload wizard. *)
From Verif Require Import Base Group Hash ElGamal Manifest Ballot GuiUpload SpecUpload UploadFacts UploadCounts UploadRead Wizard SpecWizard ListFacts.
From Coq Require Import List Lia.

(** ** the scan *)
Section Scan.
  Variable location_of : string -> option string.
  Lemma letters_eq : drive_letters = letters.
  Proof. reflexivity. Qed.
  Definition packaged (m : machine) (d : string) : bool := path_exists (ballots_dir m d) && path_exists (devices_dir m d).
  Lemma packaged_spec m d : packaged m d = true <-> exists v, m d = Some v /\ has_package v.
  Proof.
    unfold packaged, ballots_dir, devices_dir, has_package. destruct (m d) as [[b v]|]; cbn.
    - rewrite andb_true_iff. split.
      + intros [H1 H2]. eexists. split; [reflexivity|]. cbn. destruct b, v; try discriminate; split; discriminate.
      + intros (x & [= <-] & H1 & H2). cbn in *. destruct b, v; try congruence; auto.
    - split; [discriminate|]. intros (x & H & _). discriminate.
  Qed.
  Lemma candidates m : filter (fun d => path_exists (ballots_dir m d) && path_exists (devices_dir m d)) (get_removable_drives m) = filter (packaged m) letters.
  Proof.
    unfold get_removable_drives. rewrite letters_eq. generalize letters. intros l. induction l as [|d l IH]; cbn [filter]; [reflexivity|].
    destruct (m d) as [v|] eqn:Hm; cbn [filter]; rewrite IH; [reflexivity|].
    replace (packaged m d) with false; [reflexivity|]. unfold packaged, ballots_dir. rewrite Hm. reflexivity.
  Qed.
  Lemma parse_drive_ok m d v i : m d = Some v -> (parse_drive location_of m d = Ok i <-> di_drive i = d /\ exists text ballots texts, package location_of v (di_device_file i) text (di_location i) ballots texts /\ di_ballots i = len ballots).
  Proof.
    intros Hm. unfold parse_drive, devices_dir, ballots_dir. rewrite Hm. destruct v as [bs ds]. cbn. unfold package. cbn. split.
    - destruct ds as [| |names read]; cbn; try discriminate. destruct names as [|name names]; cbn; [discriminate|]. destruct (read name) as [text|] eqn:Hr; cbn; [|discriminate].
      destruct (location_of text) as [loc|] eqn:Hl; cbn; [|discriminate]. destruct bs as [| |ballots texts]; cbn; try discriminate. intros [= <-]. cbn. split; [reflexivity|].
      exists text, ballots, texts. split; [|reflexivity]. exists names, read. auto.
    - intros (Hd & text & ballots & texts & (others & read & H1 & H2 & H3 & H4) & H5). subst. cbn. rewrite H2. cbn. rewrite H3. cbn. destruct i; cbn in *. subst. reflexivity.
  Qed.
  Lemma parse_drive_legible m d v : m d = Some v -> ((exists i, parse_drive location_of m d = Ok i) <-> legible location_of v).
  Proof.
    intros Hm. split.
    - intros [i Hi]. apply (parse_drive_ok m d v i Hm) in Hi as (_ & text & ballots & texts & H & _). exists (di_device_file i), text, (di_location i), ballots, texts. exact H.
    - intros (f & t & l & b & ts & H). exists (mkInfo d (len b) l f). apply (parse_drive_ok m d v _ Hm). split; [reflexivity|]. exists t, b, ts. auto.
  Qed.
  Lemma rmapM_ok {A B} (f : A -> res B) l : (exists r, rmapM f l = Ok r) <-> forall x, In x l -> exists y, f x = Ok y.
  Proof.
    induction l as [|x l IH]; cbn; [split; [intros _ ? []|eexists; reflexivity]|]. split.
    - intros [r H] y [<-|Hy]; destruct (f x) as [z|] eqn:Hf; cbn in H; try discriminate; [eauto|]. destruct (rmapM f l) as [zs|]; [|discriminate]. apply (proj1 IH); [eauto|exact Hy].
    - intros H. destruct (H x (or_introl eq_refl)) as [z ->]. cbn. destruct (proj2 IH) as [zs ->]; [auto|]. cbn. eauto.
  Qed.
  Lemma rmapM_hd {A B} (f : A -> res B) l r : rmapM f l = Ok r -> match l with [] => r = [] | x :: _ => exists y ys, f x = Ok y /\ r = y :: ys end.
  Proof. destruct l as [|x l]; cbn; [intros [= <-]; reflexivity|]. destruct (f x) as [y|]; cbn; [|discriminate]. destruct (rmapM f l) as [ys|]; cbn; [|discriminate]. intros [= <-]. eauto. Qed.
  Lemma all_legible m : (exists r, rmapM (parse_drive location_of m) (filter (packaged m) letters) = Ok r) <-> forall l v, plugged m l v -> has_package v -> legible location_of v.
  Proof.
    rewrite rmapM_ok. split.
    - intros H l v [Hl Hm] Hp. apply (parse_drive_legible m l v Hm), H. apply filter_In. split; [exact Hl|]. apply packaged_spec. eauto.
    - intros H l Hl. apply filter_In in Hl as [Hl Hp]. apply packaged_spec in Hp as (v & Hm & Hp). apply (parse_drive_legible m l v Hm). exact (H l v (conj Hl Hm) Hp).
  Qed.
  Lemma filter_hd {A} (f : A -> bool) l x r : filter f l = x :: r -> f x = true /\ exists before later, l = before ++ x :: later /\ forall y, In y before -> f y = false.
  Proof.
    induction l as [|y l IH]; cbn; [discriminate|]. destruct (f y) eqn:Hy.
    - intros [= -> _]. split; [exact Hy|]. exists [], l. split; [reflexivity|]. intros ? [].
    - intros H. destruct (IH H) as (H1 & b & t & -> & H2). split; [exact H1|]. exists (y :: b), t. split; [reflexivity|]. intros z [<-|Hz]; auto.
  Qed.
  Lemma filter_first {A} (f : A -> bool) before x later : f x = true -> (forall y, In y before -> f y = false) -> filter f (before ++ x :: later) = x :: filter f later.
  Proof. intros Hx H. induction before as [|y b IH]; cbn; [rewrite Hx; reflexivity|]. rewrite (H y) by (left; reflexivity). apply IH. intros z Hz. apply H. right. exact Hz. Qed.
  Lemma first_filter m l : (exists r, filter (packaged m) letters = l :: r) <-> exists v, first_package m l v.
  Proof.
    split.
    - intros [r H]. apply filter_hd in H as (H1 & b & t & Hb & H2). apply packaged_spec in H1 as (v & Hm & Hp). exists v. split; [exact Hm|]. split; [exact Hp|]. exists b, t. split; [exact Hb|].
      intros l' v' Hl Hm' Hp'. assert (Ht : packaged m l' = true) by (apply packaged_spec; eauto). rewrite (H2 l' Hl) in Ht. discriminate.
    - intros (v & Hm & Hp & b & t & -> & H). eexists. apply filter_first; [apply packaged_spec; eauto|]. intros y Hy. destruct (packaged m y) eqn:He; [|reflexivity].
      exfalso. apply packaged_spec in He as (v' & Hm' & Hp'). exact (H y v' Hy Hm' Hp').
  Qed.
  Lemma scan_eq m : scan_drives location_of m = (do r <- rmapM (parse_drive location_of m) (filter (packaged m) letters); Ok (hd_error r)).
  Proof. unfold scan_drives. rewrite candidates. reflexivity. Qed.
  Lemma scan_some m i : scan_drives location_of m = Ok (Some i) <->
    (exists v text ballots texts, first_package m (di_drive i) v /\ package location_of v (di_device_file i) text (di_location i) ballots texts /\ di_ballots i = len ballots) /\
    forall l v, plugged m l v -> has_package v -> legible location_of v.
  Proof.
    rewrite scan_eq, <- all_legible. destruct (rmapM _ _) as [r|x] eqn:Hr; cbn.
    - pose proof (rmapM_hd _ _ _ Hr) as Hh. destruct (filter (packaged m) letters) as [|l rest] eqn:Hf.
      + subst r. cbn. split; [discriminate|]. intros [(v & t & b & ts & Hp & _) _]. exfalso. destruct (proj2 (first_filter m (di_drive i))) as [r Hr']; [eauto|]. congruence.
      + destruct Hh as (y & ys & Hy & ->). cbn. destruct (proj1 (first_filter m l)) as [v Hv]; [eauto|]. split.
        * intros [= ->]. split; [|eauto]. pose proof Hv as (Hm & _). apply (parse_drive_ok m l v i Hm) in Hy as (<- & text & ballots & texts & H1 & H2). exists v, text, ballots, texts. auto.
        * intros [(v' & t & b & ts & Hp & Hk & Hn) _]. destruct (proj2 (first_filter m (di_drive i))) as [r Hr']; [eauto|]. rewrite Hf in Hr'. injection Hr' as -> ->.
          pose proof Hp as (Hm & _). rewrite (proj2 (parse_drive_ok m (di_drive i) v' i Hm)) in Hy; [congruence|]. split; [reflexivity|]. exists t, b, ts. auto.
    - split; [discriminate|]. intros [_ [r H]]. discriminate.
  Qed.
  Lemma scan_none m : scan_drives location_of m = Ok None <-> forall l v, plugged m l v -> ~ has_package v.
  Proof.
    rewrite scan_eq. split.
    - destruct (rmapM _ _) as [r|x] eqn:Hr; cbn; [|discriminate]. intros H l v [Hl Hm] Hp. apply rmapM_hd in Hr. assert (Hin : In l (filter (packaged m) letters)) by (apply filter_In; split; [exact Hl|apply packaged_spec; eauto]).
      destruct (filter (packaged m) letters) as [|l' rest]; [destruct Hin|]. destruct Hr as (y & ys & _ & ->). discriminate.
    - intros H. replace (filter (packaged m) letters) with (@nil string); [reflexivity|]. symmetry. destruct (filter (packaged m) letters) as [|l rest] eqn:Hf; [reflexivity|]. exfalso.
      assert (Hin : In l (filter (packaged m) letters)) by (rewrite Hf; left; reflexivity). apply filter_In in Hin as [Hl Hp]. apply packaged_spec in Hp as (v & Hm & Hp). exact (H l v (conj Hl Hm) Hp).
  Qed.
  Lemma scan_fails m l v : plugged m l v -> has_package v -> ~ legible location_of v -> exists x, scan_drives location_of m = Err x.
  Proof.
    intros Hl Hp Hn. rewrite scan_eq. destruct (rmapM _ _) as [r|x] eqn:Hr; cbn; [|eauto]. exfalso. apply Hn. apply (proj1 (all_legible m)) with (l := l); eauto.
  Qed.
End Scan.

(** ** the upload *)
Section Upload.
  Variable location_of : string -> option string.
  Variable parse : string -> option sub_ballot.
  Variable device : string -> bool.
  (** the files up to the first one that cannot be read, and whether these are all *)
  Fixpoint readable (ids : nat -> string) (dir : folder) (names : list string) (num : nat) : list (string * string) * bool :=
    match names with
    | [] => ([], true)
    | name :: names' =>
      match read_text dir name with
      | Err _ => ([], false)
      | Ok s => ((ids num, s) :: fst (readable ids dir names' (S num)), snd (readable ids dir names' (S num)))
      end
    end.
  Lemma readable_len ids dir names : forall num, snd (readable ids dir names num) = true -> len (fst (readable ids dir names num)) = len names.
  Proof.
    induction names as [|name names IH]; intros num; cbn; [reflexivity|]. destruct (read_text dir name); cbn; [|discriminate]. intros H. specialize (IH _ H). unfold len in *. cbn [length]. lia.
  Qed.
  Lemma readable_all ids ballots texts names : forall num, snd (readable ids (Folder ballots texts) names num) = true -> forall name, In name names -> exists s j, texts name = Some s /\ In (ids j, s) (fst (readable ids (Folder ballots texts) names num)).
  Proof.
    induction names as [|n names IH]; intros num; cbn; [intros _ ? []|]. destruct (texts n) as [s|] eqn:Hs; cbn; [|discriminate]. intros H name [<-|Hn]; [exists s, num; auto|].
    destruct (IH _ H name Hn) as (s' & j & H1 & H2). exists s', j. auto.
  Qed.
  Lemma readable_from ids ballots texts names : forall num id s, In (id, s) (fst (readable ids (Folder ballots texts) names num)) -> exists name, In name names /\ texts name = Some s.
  Proof.
    induction names as [|n names IH]; intros num id s; cbn; [intros []|]. destruct (texts n) as [t|] eqn:Ht; cbn; [|intros []]. intros [[= _ <-]|H]; [exists n; auto|].
    destruct (IH _ _ _ H) as (name & H1 & H2). exists name. auto.
  Qed.
  Definition cut (ok : bool) (r : batch_answer * gdb) : batch_answer * gdb := if ok then r else (BatchFailed, snd r).
  Lemma cut_failed ok w : cut ok (BatchFailed, w) = (BatchFailed, w).
  Proof. destruct ok; reflexivity. Qed.
  Lemma loop_batch ids e u dir names : forall num count count' dups w, (snd (readable ids dir names num) = true -> count' = count) ->
    wizard_loop parse device ids e u dir names num count dups w = cut (snd (readable ids dir names num)) (batch_loop parse device e u (fst (readable ids dir names num)) count' dups w).
  Proof.
    induction names as [|name names IH]; intros num count count' dups w Hc; cbn [wizard_loop readable]; [cbn in *; rewrite Hc by reflexivity; reflexivity|]. cbn [readable] in Hc.
    destruct (read_text dir name) as [s|]; [|reflexivity]. cbn [fst snd batch_loop] in *. destruct (call_whole parse device (ids num) (UploadBallot u e s) w) as [[| |dup] w1]; try (rewrite cut_failed; reflexivity).
    apply IH, Hc.
  Qed.
  Lemma run_upload m ids e w i v text ballots texts : scan_drives location_of m = Ok (Some i) -> m (di_drive i) = Some v -> package location_of v (di_device_file i) text (di_location i) ballots texts ->
    run_wizard location_of parse device m ids e w = cut (snd (readable ids (Folder ballots texts) ballots 1)) (upload_ballots parse device e (ids 0%nat) text (fst (readable ids (Folder ballots texts) ballots 1)) w).
  Proof.
    intros Hs Hm (others & read & H1 & H2 & H3 & H4). unfold run_wizard. rewrite Hs. unfold devices_dir, ballots_dir. rewrite Hm, H1, H4. cbn [read_text listdir]. rewrite H2. unfold upload_ballots.
    destruct (call_whole parse device (ids 0%nat) (CreateUpload e text) w) as [[|u|dup] w1]; try (rewrite cut_failed; reflexivity).
    apply loop_batch. apply readable_len.
  Qed.

  (** what a loop adds *)
  Lemma batch_new e u files : forall count dups w a w', all_oid w -> batch_loop parse device e u files count dups w = (a, w') ->
    exists l, stored w' e = stored w e ++ l /\ NoDup (map so_object l) /\ forall b, In b l -> ~ In (so_object b) (map so_object (stored w e)) /\ exists id sb, In (id, so_contents b) files /\ parse (so_contents b) = Some sb /\ sb_id sb = so_object b.
  Proof.
    induction files as [|[id s] files IH]; intros count dups w a w' Ho Hb; cbn [batch_loop] in Hb.
    - injection Hb as <- <-. exists []. rewrite app_nil_r. split; [reflexivity|]. split; [constructor|]. intros ? [].
    - destruct (call_whole parse device id (UploadBallot u e s) w) as [a1 w1] eqn:Hc. apply whole_upload in Hc; [|exact Ho].
      destruct Hc as [[-> ->]|(b & Hp & [(-> & -> & Hx)|(-> & Hx & w2 & Hi & ->)])].
      + injection Hb as <- <-. exists []. rewrite app_nil_r. split; [reflexivity|]. split; [constructor|]. intros ? [].
      + destruct (IH _ _ _ _ _ Ho Hb) as (l & L1 & L2 & L3). exists l. split; [exact L1|]. split; [exact L2|]. intros x Hx'. destruct (L3 x Hx') as (M1 & id' & sb & M2 & M3). split; [exact M1|]. exists id', sb. split; [right; exact M2|exact M3].
      + assert (Ho2 : all_oid (increment_upload_count w2 e u)).
        { apply insert_ok in Hi as (_ & Hi & _). intros y. cbn [increment_upload_count update_election db_uploads]. rewrite Hi. intros Hy. apply in_app_or in Hy as [Hy|[<-|[]]]; [apply Ho, Hy|exists id; reflexivity]. }
        destruct (IH _ _ _ _ _ Ho2 Hb) as (l & L1 & L2 & L3).
        assert (Hst : stored (increment_upload_count w2 e u) e = stored w e ++ [mkStored (Oid id) u (sb_id b) s]).
        { change (stored (increment_upload_count w2 e u) e) with (stored w2 e). rewrite (stored_insert_ballot _ _ _ _ _ _ _ e Hi), String.eqb_refl. reflexivity. }
        rewrite Hst in L1, L3. rewrite <- app_assoc in L1. cbn [app] in L1. exists (mkStored (Oid id) u (sb_id b) s :: l). split; [exact L1|]. split.
        * cbn [map so_object]. constructor; [|exact L2]. intros Hin. apply in_map_iff in Hin as (x & Hx1 & Hx2). destruct (L3 x Hx2) as (M1 & _). apply M1. rewrite map_app. apply in_or_app. right. left. symmetry. exact Hx1.
        * intros x [<-|Hx']; cbn [so_object so_contents].
          -- split; [exact (exists_ballot _ _ _ Hx)|]. exists id, b. split; [left; reflexivity|auto].
          -- destruct (L3 x Hx') as (M1 & id' & sb & M2 & M3). split; [intros Hin; apply M1; rewrite map_app; apply in_or_app; left; exact Hin|]. exists id', sb. split; [right; exact M2|exact M3].
  Qed.

  (** ** a run of the wizard is one of the histories *)
  Lemma set_nth_same {A} i (a : A) : forall l, (i < length l)%nat -> nth_error (set_nth i a l) i = Some a.
  Proof. induction i as [|i IH]; intros [|x l]; cbn; intros H; try lia; [reflexivity|]. apply IH. lia. Qed.
  Lemma steps_run i new n : forall c w, nth_error (uw_calls w) i = Some c ->
    uw_db (up_run parse device w (repeat (Next i new) n)) = snd (call_run parse device n new c (uw_db w)).
  Proof.
    induction n as [|n IH]; intros c w Hc; [reflexivity|]. cbn [repeat call_run up_run fold_left up_step]. rewrite Hc.
    destruct (call_step parse device new c (uw_db w)) as [c' d'] eqn:Hs. change (fold_left (up_step parse device) ?h ?x) with (up_run parse device x h). apply IH. cbn [uw_calls]. apply set_nth_same. apply nth_error_Some. congruence.
  Qed.
  Lemma call_whole_snd new c w : snd (call_whole parse device new c w) = snd (call_run parse device 5 new c w).
  Proof. unfold call_whole. destruct (call_run parse device 5 new c w) as [[| | | | | | | |a] w']; reflexivity. Qed.
  Definition leads (w w' : gdb) : Prop := forall x, uw_db x = w -> exists h, uw_db (up_run parse device x h) = w'.
  Lemma leads_refl w : leads w w.
  Proof. intros x <-. exists []. reflexivity. Qed.
  Lemma leads_trans w1 w2 w3 : leads w1 w2 -> leads w2 w3 -> leads w1 w3.
  Proof. intros H1 H2 x Hx. destruct (H1 x Hx) as [h1 Hh1]. destruct (H2 _ Hh1) as [h2 Hh2]. exists (h1 ++ h2). unfold up_run in *. rewrite fold_left_app. exact Hh2. Qed.
  Lemma leads_call new r w : leads w (snd (call_whole parse device new (begin r) w)).
  Proof.
    intros x <-. set (ev := match r with RCreate e s => StartCreate e s | RUpload u e s => StartUpload u e s end). exists (ev :: repeat (Next (length (uw_calls x)) new) 5).
    rewrite call_whole_snd. change (up_run parse device x (ev :: ?h)) with (up_run parse device (up_step parse device x ev) h). rewrite (steps_run _ _ _ (begin r)).
    - destruct r; reflexivity.
    - destruct r; cbn [ev up_step uw_calls begin]; rewrite nth_error_app2, Nat.sub_diag by lia; reflexivity.
  Qed.
  Lemma leads_loop ids e u dir names : forall num count dups w, leads w (snd (wizard_loop parse device ids e u dir names num count dups w)).
  Proof.
    induction names as [|name names IH]; intros num count dups w; cbn [wizard_loop]; [apply leads_refl|]. destruct (read_text dir name) as [s|]; [|apply leads_refl].
    pose proof (leads_call (ids num) (RUpload u e s) w) as H. cbn [begin] in H. destruct (call_whole parse device (ids num) (UploadBallot u e s) w) as [[| |dup] w1]; try exact H.
    exact (leads_trans _ _ _ H (IH _ _ _ _)).
  Qed.
  Lemma leads_wizard m ids e w : leads w (snd (run_wizard location_of parse device m ids e w)).
  Proof.
    unfold run_wizard. destruct (scan_drives location_of m) as [[i|]|]; try apply leads_refl. destruct (read_text _ _) as [s|]; [|apply leads_refl].
    pose proof (leads_call (ids 0%nat) (RCreate e s) w) as H. cbn [begin] in H. destruct (call_whole parse device (ids 0%nat) (CreateUpload e s) w) as [[|u|dup] w1]; try exact H.
    destruct (listdir _) as [names|]; [|exact H]. exact (leads_trans _ _ _ H (leads_loop _ _ _ _ _ _ _ _ _)).
  Qed.
  Lemma wizard_history m ids e w0 h : exists h', snd (run_wizard location_of parse device m ids e (after parse device w0 h)) = after parse device w0 (h ++ h').
  Proof.
    destruct (leads_wizard m ids e (after parse device w0 h) (up_run parse device (mkUpWorld w0 []) h) eq_refl) as [h' H]. exists h'. rewrite <- H. unfold after, up_run. rewrite fold_left_app. reflexivity.
  Qed.
End Upload.

(** ** what a run adds, and when it succeeds *)
Section Effect.
  Variable location_of : string -> option string.
  Variable parse : string -> option sub_ballot.
  Variable device : string -> bool.
  Lemma whole_create new e s w a w' : call_whole parse device new (CreateUpload e s) w = (a, w') ->
    (a = Failed /\ (w' = w \/ insert_doc w (mkUpDoc (Oid new) e (UploadDoc 0)) = Ok w')) \/
    exists w2, a = Created new /\ find_election w e <> None /\ insert_doc w (mkUpDoc (Oid new) e (UploadDoc 0)) = Ok w2 /\ append_ballot_upload device w2 e new s = Ok w'.
  Proof.
    intros Hc. unfold call_whole in Hc. cbn [call_run call_step] in Hc. destruct (find_election w e) as [x|]; [|cbn in Hc; injection Hc as <- <-; auto]. cbn [call_step] in Hc.
    destruct (insert_doc w _) as [w2|] eqn:Hi; [|cbn in Hc; injection Hc as <- <-; auto]. cbn [call_step] in Hc.
    destruct (append_ballot_upload device w2 e new s) as [w3|] eqn:Ha; cbn in Hc; injection Hc as <- <-; [|auto]. right. exists w2. repeat split; auto. discriminate.
  Qed.
  Lemma upload_new e new s files w a w' : all_oid w -> upload_ballots parse device e new s files w = (a, w') ->
    exists l, stored w' e = stored w e ++ l /\ NoDup (map so_object l) /\ forall b, In b l -> ~ In (so_object b) (map so_object (stored w e)) /\ exists id sb, In (id, so_contents b) files /\ parse (so_contents b) = Some sb /\ sb_id sb = so_object b.
  Proof.
    intros Ho. unfold upload_ballots. destruct (call_whole parse device new (CreateUpload e s) w) as [a1 w1] eqn:Hc. intros Hb. apply whole_create in Hc as [[-> Hw]|(w2 & -> & _ & Hi & Ha)].
    - injection Hb as <- <-. exists []. rewrite app_nil_r. split; [destruct Hw as [->|Hi]; [reflexivity|apply (stored_insert_upload _ _ _ _ _ e Hi)]|]. split; [constructor|]. intros ? [].
    - destruct (append_fixed _ _ _ _ _ _ Ha) as (_ & _ & A2). destruct (insert_ok _ _ _ Hi) as (_ & I2 & _).
      assert (Ho1 : all_oid w1). { intros y. rewrite A2, I2. intros Hy. apply in_app_or in Hy as [Hy|[<-|[]]]; [apply Ho, Hy|exists new; reflexivity]. }
      assert (Hst : stored w1 e = stored w e) by (rewrite (stored_docs _ _ e A2); apply (stored_insert_upload _ _ _ _ _ e Hi)).
      destruct (batch_new parse device e new files _ _ _ _ _ Ho1 Hb) as (l & L1 & L2 & L3). rewrite Hst in L1, L3. exists l. auto.
  Qed.
  Lemma wizard_effect w0 h m ids e i v text ballots texts a w' : no_uploads w0 ->
    scan_drives location_of m = Ok (Some i) -> m (di_drive i) = Some v -> package location_of v (di_device_file i) text (di_location i) ballots texts ->
    run_wizard location_of parse device m ids e (after parse device w0 h) = (a, w') ->
    exists l, stored w' e = stored (after parse device w0 h) e ++ l /\ (forall e', e' <> e -> stored w' e' = stored (after parse device w0 h) e') /\
      Forall (fun b => so_upload b = ids 0%nat /\ from_file_of parse ballots texts b /\ ~ In (so_object b) (map so_object (stored (after parse device w0 h) e))) l /\ NoDup (map so_object l) /\
      (l <> [] -> shown_count w' e (ids 0%nat) (len l)) /\
      match a with
      | BatchFailed => True
      | BatchDone count duplicates => count = di_ballots i /\ duplicates = count - len l /\ shown_count w' e (ids 0%nat) (len l) /\
          forall name, In name ballots -> exists s b, texts name = Some s /\ parse s = Some b /\ In (sb_id b) (map so_object (stored w' e))
      end.
  Proof.
    intros H0 Hs Hm Hp. rewrite (run_upload _ _ _ _ _ _ _ _ _ _ _ _ Hs Hm Hp). set (w := after parse device w0 h). set (files := fst _). set (ok := snd _).
    destruct (upload_ballots parse device e (ids 0%nat) text files w) as [a1 w1] eqn:Hu. pose proof (after_good parse device w0 H0 h) as Hg.
    destruct (upload_new _ _ _ _ _ _ _ (gw_oid _ _ _ Hg) Hu) as (l' & M1 & M2 & M3). destruct (drive_uploaded parse device w0 H0 h e (ids 0%nat) text files a1 w1 Hu) as (l & L1 & L2 & L3 & L4 & L5).
    assert (l' = l) by (rewrite L1 in M1; apply app_inv_head in M1; congruence). subst l'. intros Hr. assert (w' = w1) by (destruct ok; cbn in Hr; congruence). subst w'.
    exists l. split; [exact L1|]. split; [exact L2|]. split; [|split; [exact M2|split; [exact L4|]]].
    - rewrite Forall_forall in *. intros b Hb. split; [exact (L3 b Hb)|]. destruct (M3 b Hb) as (N1 & id & sb & N2 & N3 & N4). split; [|exact N1]. destruct (readable_from _ _ _ _ _ _ _ N2) as (name & N5 & N6). exists name, sb. auto.
    - destruct a as [|c d]; [exact I|]. destruct ok eqn:Hok; cbn in Hr; [|discriminate]. injection Hr as ->. destruct L5 as (_ & K1 & K2 & K3 & K4).
      pose proof (proj1 (scan_some location_of m i) Hs) as [(v' & t & b & ts & (Hm' & _) & Hp' & Hn) _]. assert (v' = v) by congruence. subst v'.
      assert (b = ballots) by (destruct Hp as (? & ? & _ & _ & _ & E1); destruct Hp' as (? & ? & _ & _ & _ & E2); congruence). subst b.
      split; [rewrite K1, Hn; apply readable_len; exact Hok|]. split; [exact K2|]. split; [exact K3|]. intros name Hname. destruct (readable_all _ _ _ _ _ Hok name Hname) as (s & j & N1 & N2).
      destruct (K4 _ _ N2) as (sb & N3 & N4). exists s, sb. auto.
  Qed.

  (** ** success *)
  Definition ready (w : gdb) (e : string) (q : Z) : Prop := NoDup (map el_id (db_elections w)) /\ election_manifest w e q /\ all_oid w.
  Lemma ready_find w e q : ready w e q -> exists x cx, find_election w e = Some x /\ el_context x = Some cx /\ cx_manifest_hash cx = q.
  Proof.
    intros (Hn & (x & cx & H1 & H2 & H3 & H4) & _). destruct (find_election w e) as [y|] eqn:Hf.
    - apply find_first_some in Hf as [Hy He]. apply String.eqb_eq in He. assert (y = x) by (apply (in_split_by el_id _ x H1 Hn y Hy); congruence). subst y. exists x, cx. auto.
    - apply (proj1 (find_first_none _ _)) with (x := x) in Hf; [|exact H1]. cbn in Hf. rewrite H2, String.eqb_refl in Hf. discriminate.
  Qed.
  Lemma insert_fresh w d : (forall x, In x (db_uploads w) -> ud_id x <> ud_id d) -> exists w', insert_doc w d = Ok w'.
  Proof.
    intros H. unfold insert_doc. destruct (existsb _ _) eqn:Hx; [|eauto]. exfalso. apply existsb_exists in Hx as (x & H1 & H2). apply doc_id_eqb_spec in H2. exact (H x H1 H2).
  Qed.
  Lemma upload_not_failed new u e s q b w : ready w e q -> parse s = Some b -> cb_manifest_hash (sb_ballot b) = q -> (forall d, In d (db_uploads w) -> ud_id d <> Oid new) ->
    fst (call_whole parse device new (UploadBallot u e s) w) <> Failed.
  Proof.
    intros Hr Hp Hq Hf. destruct (ready_find _ _ _ Hr) as (x & cx & H1 & H2 & H3). unfold call_whole. cbn [call_run call_step]. rewrite Hp, H1, H2, H3, Hq, Z.eqb_refl. cbn [call_step].
    destruct (any_ballot_exists w e (sb_id b)); [discriminate|]. cbn [call_step]. destruct (insert_fresh w (mkUpDoc (Oid new) e (BallotDoc u (sb_id b) s)) Hf) as [w1 ->]. cbn. discriminate.
  Qed.
  Lemma upload_ready new u e s q w a w' : ready w e q -> call_whole parse device new (UploadBallot u e s) w = (a, w') -> ready w' e q /\ forall d, In d (db_uploads w') -> In d (db_uploads w) \/ ud_id d = Oid new.
  Proof.
    intros Hr Hc. pose proof Hr as (R1 & R2 & R3). apply whole_upload in Hc; [|exact R3]. destruct Hc as [[_ ->]|(b & _ & [(_ & -> & _)|(_ & _ & w1 & Hi & ->)])]; try (split; [exact Hr|auto]; fail).
    destruct (insert_ok _ _ _ Hi) as (I1 & I2 & _). destruct (increment_fixed w1 e u) as [A1 A2]. rewrite I1 in A1.
    assert (Hd : forall d, In d (db_uploads (increment_upload_count w1 e u)) -> In d (db_uploads w) \/ ud_id d = Oid new). { intros d. rewrite A2, I2. intros Hd. apply in_app_or in Hd as [Hd|[<-|[]]]; auto. }
    split; [|exact Hd]. split; [rewrite (fixed_ids _ _ A1); exact R1|]. split; [exact (fixed_manifest _ _ _ _ (eq_sym A1) R2)|]. intros d Hd'. destruct (Hd d Hd') as [H|H]; [exact (R3 d H)|eauto].
  Qed.
  Lemma loop_succeeds ids e u ballots texts q N : (forall i j, i < N -> j < N -> ids i = ids j -> i = j)%nat -> forall names num count dups w, ready w e q -> (num + length names <= N)%nat ->
    (forall name, In name names -> exists s b, texts name = Some s /\ parse s = Some b /\ cb_manifest_hash (sb_ballot b) = q) ->
    (forall k d, (num <= k < N)%nat -> In d (db_uploads w) -> ud_id d <> Oid (ids k)) ->
    exists d, fst (wizard_loop parse device ids e u (Folder ballots texts) names num count dups w) = BatchDone count d.
  Proof.
    intros Hinj. induction names as [|name names IH]; intros num count dups w Hr HN Hall Hf; cbn [wizard_loop]; [eexists; reflexivity|]. cbn [length] in HN.
    destruct (Hall name (or_introl eq_refl)) as (s & b & Hs & Hp & Hq). cbn [read_text]. rewrite Hs.
    pose proof (upload_not_failed (ids num) u e s q b w Hr Hp Hq (fun d => Hf num d ltac:(lia))) as Hn. destruct (call_whole parse device (ids num) (UploadBallot u e s) w) as [a1 w1] eqn:Hc.
    destruct (upload_ready _ _ _ _ _ _ _ _ Hr Hc) as [Hr1 Hd1]. pose proof Hc as Hc'. apply whole_upload in Hc'; [|apply Hr].
    assert (Hk : forall k d, (S num <= k < N)%nat -> In d (db_uploads w1) -> ud_id d <> Oid (ids k)).
    { intros k d Hk Hd. destruct (Hd1 d Hd) as [H|H]; [apply Hf; [lia|exact H]|]. rewrite H. intros [= E]. apply Hinj in E; lia. }
    destruct Hc' as [[-> _]|(b' & _ & [(-> & _)|(-> & _)])]; [cbn in Hn; congruence| |]; (apply IH; [exact Hr1|lia|intros n' Hn'; apply Hall; right; exact Hn'|exact Hk]).
  Qed.
  Lemma create_whole new e text w w1 w2 x : find_election w e = Some x -> insert_doc w (mkUpDoc (Oid new) e (UploadDoc 0)) = Ok w1 -> append_ballot_upload device w1 e new text = Ok w2 ->
    call_whole parse device new (CreateUpload e text) w = (Created new, w2).
  Proof. intros X1 Hi Ha. unfold call_whole. cbn [call_run call_step]. rewrite X1. cbn [call_step]. rewrite Hi. cbn [call_step]. rewrite Ha. reflexivity. Qed.
  Lemma wizard_succeeds w0 h m ids e i v text ballots texts q : no_uploads w0 ->
    scan_drives location_of m = Ok (Some i) -> m (di_drive i) = Some v -> package location_of v (di_device_file i) text (di_location i) ballots texts ->
    device text = true -> election_manifest (after parse device w0 h) e q -> all_ballots_of parse q ballots texts -> fresh (after parse device w0 h) ids (S (length ballots)) ->
    exists d, fst (run_wizard location_of parse device m ids e (after parse device w0 h)) = BatchDone (di_ballots i) d.
  Proof.
    intros H0 Hs Hm Hp Hd He Hb [Hf1 Hf2]. set (w := after parse device w0 h) in *. pose proof (after_good parse device w0 H0 h) as Hg. fold w in Hg.
    assert (Hr : ready w e q). { split; [rewrite (fixed_ids w w0 (gw_fixed _ _ _ Hg)); apply (nu_ids w0 H0)|]. split; [exact He|exact (gw_oid _ _ _ Hg)]. }
    pose proof (proj1 (scan_some location_of m i) Hs) as [(v' & t & b & ts & (Hm' & _) & Hp' & Hn) _]. assert (v' = v) by congruence. subst v'.
    assert (b = ballots) by (destruct Hp as (? & ? & _ & _ & _ & E1); destruct Hp' as (? & ? & _ & _ & _ & E2); congruence). subst b. rewrite Hn. clear Hp' Hm' Hn t ts.
    destruct Hp as (others & read & H1 & H2 & H3 & H4). unfold run_wizard. rewrite Hs. unfold devices_dir, ballots_dir. rewrite Hm, H1, H4. cbn [read_text listdir]. rewrite H2.
    destruct (ready_find _ _ _ Hr) as (x & cx & X1 & _). destruct (insert_fresh w (mkUpDoc (Oid (ids 0%nat)) e (UploadDoc 0))) as [w1 Hi]; [intros d Hd'; apply Hf2; [lia|exact Hd']|].
    assert (Ha : exists w2, append_ballot_upload device w1 e (ids 0%nat) text = Ok w2) by (unfold append_ballot_upload; rewrite Hd; eauto). destruct Ha as [w2 Ha].
    rewrite (create_whole _ _ _ _ _ _ _ X1 Hi Ha).
    destruct (insert_ok _ _ _ Hi) as (I1 & I2 & _). destruct (append_fixed _ _ _ _ _ _ Ha) as (_ & A1 & A2). rewrite I1 in A1. rewrite I2 in A2. destruct Hr as (R1 & R2 & R3).
    apply (loop_succeeds ids e _ ballots texts q (S (length ballots)) Hf1); [|cbn; lia|exact Hb|].
    - split; [rewrite (fixed_ids _ _ A1); exact R1|]. split; [exact (fixed_manifest _ _ _ _ (eq_sym A1) R2)|]. intros d. rewrite A2. intros Hd'. apply in_app_or in Hd' as [Hd'|[<-|[]]]; [exact (R3 d Hd')|exists (ids 0%nat); reflexivity].
    - intros k d Hk. rewrite A2. intros Hd'. apply in_app_or in Hd' as [Hd'|[<-|[]]]; [apply Hf2; [lia|exact Hd']|]. cbn [ud_id]. intros [= E]. apply Hf1 in E; lia.
  Qed.
  Lemma no_drive m ids e w : (forall i, scan_drives location_of m <> Ok (Some i)) -> run_wizard location_of parse device m ids e w = (BatchFailed, w).
  Proof. intros H. unfold run_wizard. destruct (scan_drives location_of m) as [[i|]|x]; [destruct (H i eq_refl)|reflexivity|reflexivity]. Qed.
  Lemma wizard_again w0 h m ids e c d w1 ids2 c2 d2 w2 : no_uploads w0 ->
    run_wizard location_of parse device m ids e (after parse device w0 h) = (BatchDone c d, w1) -> run_wizard location_of parse device m ids2 e w1 = (BatchDone c2 d2, w2) ->
    c2 = c /\ d2 = c /\ forall e', stored w2 e' = stored w1 e'.
  Proof.
    intros H0 Hr1 Hr2. destruct (wizard_history location_of parse device m ids e w0 h) as [h' Hh]. rewrite Hr1 in Hh. cbn [snd] in Hh. subst w1.
    assert (Hs : exists i, scan_drives location_of m = Ok (Some i)).
    { destruct (scan_drives location_of m) as [[i|]|x] eqn:Hs; [eauto| |]; rewrite no_drive in Hr1 by (intros i; rewrite Hs; discriminate); discriminate Hr1. }
    destruct Hs as [i Hs]. pose proof (proj1 (scan_some location_of m i) Hs) as [(v & text & ballots & texts & (Hm & _) & Hp & _) _].
    pose proof (wizard_effect _ _ _ _ _ _ _ _ _ _ _ _ H0 Hs Hm Hp Hr1) as (l1 & _ & _ & _ & _ & _ & K1 & _ & _ & K).
    pose proof (wizard_effect _ _ _ _ _ _ _ _ _ _ _ _ H0 Hs Hm Hp Hr2) as (l2 & L1 & L2 & L3 & _ & _ & K2 & K3 & _ & _).
    clear Hr1 Hr2. revert K L1 L2 L3. generalize (after parse device w0 (h ++ h')). clear - K1 K2 K3. intros w1 K L1 L2 L3.
    assert (l2 = []). { destruct l2 as [|b l2]; [reflexivity|]. exfalso. apply Forall_inv in L3. destruct L3 as (_ & (name & sb & N1 & N2 & N3 & N4) & N5). apply N5. rewrite <- N4. destruct (K name N1) as (s & sb' & E1 & E2 & E3). assert (s = so_contents b) by congruence. subst s. assert (sb' = sb) by congruence. subst sb'. exact E3. }
    subst l2. split; [congruence|]. split; [change (len (@nil stored_ballot)) with 0 in K3; lia|]. intros e'. destruct (String.eqb_spec e' e) as [->|He]; [rewrite L1, app_nil_r; reflexivity|apply L2, He].
  Qed.
End Effect.
