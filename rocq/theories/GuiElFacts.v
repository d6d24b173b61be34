(** * GuiElFacts: creating elections in the graphical application. *)
From Coq Require Import List Permutation.
From Verif Require Import Base Group Spec GroupFacts Codec Hash DLog ElGamal ElGamalFacts ZK ZKFacts Poly ListFacts Manifest Ballot Encrypt SpecElection
  Box Tally Ceremony SpecCeremony MediatorFacts CeremonyFacts Shares SpecShares GuiCeremony SpecGui GuiFacts GuiJoin GuiLive GuiThms GuiUpload SpecUpload UploadFacts
  GuiElection SpecGuiElection GuiDecrypt SpecGuiDecrypt.

Section Create.
  Context (E : env) (parse : string -> option manifest).
  Definition prepared (h : list create_event) (cer : string) (p : package) : Prop :=
    exists i kcs id d raw, In (CreateStep i kcs id) h /\ kcs cer = Some d /\ prepare E parse raw d = Ok p.
  (** asked name cer raw: there is such a call *)
  Definition from_call (h : list create_event) (name cer : string) (p : package) : Prop :=
    exists i kcs id d raw, In (NewElection name cer raw) h /\ In (CreateStep i kcs id) h /\ kcs cer = Some d /\ prepare E parse raw d = Ok p.
  Definition call_from (h : list create_event) (c : create_call) : Prop :=
    match c with
    | CreateName name cer raw | CreateRead name cer raw => In (NewElection name cer raw) h
    | CreateStore name cer p => from_call h name cer p
    | Created _ => True
    end.
  Definition stored_from (h : list create_event) (x : named_election) : Prop :=
    exists name cer p id, from_call h name cer p /\ x = new_election id name cer p.
  Record traced (h : list create_event) (w : setup * list create_call) : Prop := {
    tr_calls : Forall (call_from h) (snd w);
    tr_elections : Forall (stored_from h) (su_elections (fst w));
    tr_ids : NoDup (map (fun x => el_id (ne_election x)) (su_elections (fst w)));
    tr_answers : Permutation (answers (snd w)) (map (fun x => el_id (ne_election x)) (su_elections (fst w))) }.
  Lemma from_mono h h' name cer p : incl h h' -> from_call h name cer p -> from_call h' name cer p.
  Proof. intros Hi (i & kcs & id & d & raw & H1 & H2 & H3). exists i, kcs, id, d, raw. auto. Qed.
  Lemma call_mono h h' c : incl h h' -> call_from h c -> call_from h' c.
  Proof. intros Hi. destruct c; cbn; auto. apply from_mono; assumption. Qed.
  Lemma stored_mono h h' x : incl h h' -> stored_from h x -> stored_from h' x.
  Proof. intros Hi (n & c & p & i & H & ->). exists n, c, p, i. split; [eapply from_mono; eassumption|reflexivity]. Qed.
  Lemma set_nth_split {A} (l : list A) : forall i x y, nth_error l i = Some x -> exists l1 l2, l = l1 ++ x :: l2 /\ set_nth i y l = l1 ++ y :: l2.
  Proof.
    induction l as [|a l IH]; intros [|i] x y H; cbn in H; try discriminate.
    - injection H as ->. exists [], l. auto.
    - destruct (IH i x y H) as (l1 & l2 & -> & H2). exists (a :: l1), l2. split; [reflexivity|]. cbn. rewrite H2. reflexivity.
  Qed.
  Lemma answers_app a b : answers (a ++ b) = answers a ++ answers b.
  Proof. apply flat_map_app. Qed.
  Lemma traced_step h w e : traced h w -> traced (h ++ [e]) (create_event_step E parse w e).
  Proof.
    intros [C S I A]. assert (Hi : incl h (h ++ [e])) by (intros x Hx; apply in_app_iff; auto).
    assert (C' : Forall (call_from (h ++ [e])) (snd w)) by (eapply Forall_impl; [|exact C]; intros c; apply call_mono; exact Hi).
    assert (S' : Forall (stored_from (h ++ [e])) (su_elections (fst w))) by (eapply Forall_impl; [|exact S]; intros c; apply stored_mono; exact Hi).
    destruct e as [name cer raw|i kcs id]; cbn [create_event_step].
    - constructor; cbn [fst snd]; auto.
      + apply Forall_app. split; [assumption|]. constructor; [|constructor]. cbn. apply in_app_iff. right. left. reflexivity.
      + rewrite answers_app. cbn. rewrite app_nil_r. exact A.
    - destruct (nth_error (snd w) i) as [c|] eqn:Hc; [|constructor; auto].
      assert (Hcf : call_from (h ++ [CreateStep i kcs id]) c) by (rewrite Forall_forall in C'; apply C'; eapply nth_error_In; eassumption).
      destruct c as [name cer raw|name cer raw|name cer p|r]; cbn [create_step].
      + destruct (set_nth_split _ _ _ (if existsb (fun x => String.eqb (ne_name x) name) (su_elections (fst w)) then Created None else CreateRead name cer raw) Hc) as (l1 & l2 & Hl & Hl').
        constructor; cbn [fst snd]; auto; rewrite Hl'; rewrite Hl in C', A.
        * rewrite Forall_app in *. destruct C' as [C1 C2]. split; [assumption|]. inversion C2; subst. constructor; [|assumption]. destruct (existsb _ _); [exact I0|assumption] || (destruct (existsb _ _); [exact Logic.I|assumption]).
        * rewrite answers_app in *. cbn in A |- *. destruct (existsb _ _); exact A.
      + destruct (kcs cer) as [d|] eqn:Hk.
        * destruct (prepare E parse raw d) as [p|ex] eqn:Hp.
          -- destruct (set_nth_split _ _ _ (CreateStore name cer p) Hc) as (l1 & l2 & Hl & Hl').
             constructor; cbn [fst snd su_elections]; auto; rewrite Hl'; rewrite Hl in C', A.
             ++ rewrite Forall_app in *. destruct C' as [C1 C2]. split; [assumption|]. inversion C2; subst. constructor; [|assumption].
                exists i, kcs, id, d, raw. cbn in Hcf. split; [exact Hcf|]. split; [apply in_app_iff; right; left; reflexivity|]. auto.
             ++ rewrite answers_app in *. exact A.
          -- destruct (set_nth_split _ _ _ (Created None) Hc) as (l1 & l2 & Hl & Hl').
             constructor; cbn [fst snd su_elections]; auto; rewrite Hl'; rewrite Hl in C', A.
             ++ rewrite Forall_app in *. destruct C' as [C1 C2]. split; [assumption|]. inversion C2; subst. constructor; [exact Logic.I|assumption].
             ++ rewrite answers_app in *. exact A.
        * destruct (set_nth_split _ _ _ (Created None) Hc) as (l1 & l2 & Hl & Hl').
          constructor; cbn [fst snd su_elections]; auto; rewrite Hl'; rewrite Hl in C', A.
          -- rewrite Forall_app in *. destruct C' as [C1 C2]. split; [assumption|]. inversion C2; subst. constructor; [exact Logic.I|assumption].
          -- rewrite answers_app in *. exact A.
      + destruct (existsb _ _) eqn:Hx.
        * destruct (set_nth_split _ _ _ (Created None) Hc) as (l1 & l2 & Hl & Hl').
          constructor; cbn [fst snd su_elections]; auto; rewrite Hl'; rewrite Hl in C', A.
          -- rewrite Forall_app in *. destruct C' as [C1 C2]. split; [assumption|]. inversion C2; subst. constructor; [exact Logic.I|assumption].
          -- rewrite answers_app in *. exact A.
        * destruct (set_nth_split _ _ _ (Created (Some id)) Hc) as (l1 & l2 & Hl & Hl').
          constructor; cbn [fst snd su_elections].
          -- rewrite Hl'. rewrite Hl in C'. rewrite Forall_app in *. destruct C' as [C1 C2]. split; [assumption|]. inversion C2; subst. constructor; [exact Logic.I|assumption].
          -- apply Forall_app. split; [assumption|]. constructor; [|constructor]. exists name, cer, p, id. split; [exact Hcf|reflexivity].
          -- rewrite map_app. cbn [map]. apply nodup_snoc; [assumption|]. intros Hin. apply in_map_iff in Hin as [x [Hx1 Hx2]]. cbn in Hx1.
             assert (Ht : existsb (fun x => String.eqb (el_id (ne_election x)) id) (su_elections (fst w)) = true) by (apply existsb_exists; exists x; split; [assumption|apply String.eqb_eq; assumption]).
             congruence.
          -- rewrite Hl', map_app, answers_app. rewrite Hl, answers_app in A. cbn in A |- *. etransitivity; [apply Permutation_app_head, Permutation_cons_append|].
             rewrite app_assoc. apply Permutation_app; [exact A|reflexivity].
      + destruct (set_nth_split _ _ _ (Created r) Hc) as (l1 & l2 & Hl & Hl').
        constructor; cbn [fst snd su_elections]; auto; rewrite Hl', <- Hl; auto.
  Qed.
  Lemma traced_run h : traced h (create_run E parse h).
  Proof.
    induction h as [|e h IH] using rev_ind; [repeat constructor|]. unfold create_run. rewrite fold_left_app. cbn [fold_left]. apply traced_step. exact IH.
  Qed.

  Lemma prepare_ok raw d p : prepare E parse raw d = Ok p -> exists m im j, parse raw = Some m /\ manifest_is_valid m = true /\ make_internal E m = Ok im /\ kc_joint d = Some j /\
    p = mkPackage (make_context E (kc_count d) (kc_quorum d) (jk_key j) (jk_hash j) (manifest_hash E m)) m (map (fun k => mkRecord (pk_owner k) (pk_seq k) (pk_key k) [] []) (kc_keys d)).
  Proof.
    unfold prepare, get_manifest_raw, get_joint_key, build_election, builder_build. destruct (parse raw) as [m|]; cbn [rbind]; [|discriminate].
    destruct (manifest_is_valid m) eqn:Hv; cbn [rbind]; [|discriminate]. destruct (get_name m) as [nm|]; cbn [rbind]; [|discriminate].
    destruct (kc_joint d) as [j|]; cbn [rbind]; [|discriminate]. destruct (make_internal E m) as [im|] eqn:Him; cbn [rbind]; [|discriminate].
    rewrite Hv. cbn. intros H. injection H as <-. exists m, im, j. do 4 (split; [reflexivity || assumption|]). f_equal. rewrite map_map. apply map_ext. intros k. reflexivity.
  Qed.
  Lemma prepare_accepts raw d m im j nm : parse raw = Some m -> manifest_is_valid m = true -> make_internal E m = Ok im -> get_name m = Ok nm -> kc_joint d = Some j ->
    exists p, prepare E parse raw d = Ok p.
  Proof.
    intros H1 H2 H3 H4 H5. unfold prepare, get_manifest_raw, get_joint_key, build_election, builder_build. rewrite H1. cbn [rbind]. rewrite H2, H4. cbn [rbind]. rewrite H5. cbn [rbind]. rewrite H3. cbn [rbind]. rewrite H2. cbn. eauto.
  Qed.
  Lemma right_made id name cer raw d p : prepare E parse raw d = Ok p -> exists m, parse raw = Some m /\ right_election E cer d m (ne_election (new_election id name cer p)).
  Proof.
    intros H. destruct (prepare_ok _ _ _ H) as (m & im & j & H1 & H2 & H3 & H4 & ->). exists m. split; [assumption|]. constructor; cbn; auto; [eauto|rewrite map_map; reflexivity|].
    exists j, (make_context E (kc_count d) (kc_quorum d) (jk_key j) (jk_hash j) (manifest_hash E m)). cbn. repeat split; auto.
  Qed.
  Lemma elections_right h x : In x (su_elections (fst (create_run E parse h))) ->
    exists i kcs id raw d m, In (NewElection (ne_name x) (el_ceremony (ne_election x)) raw) h /\ In (CreateStep i kcs id) h /\ kcs (el_ceremony (ne_election x)) = Some d /\
      parse raw = Some m /\ right_election E (el_ceremony (ne_election x)) d m (ne_election x).
  Proof.
    intros Hx. pose proof (tr_elections _ _ (traced_run h)) as T. rewrite Forall_forall in T. destruct (T x Hx) as (name & cer & p & id0 & (i & kcs & id & d & raw & H1 & H2 & H3 & H4) & ->).
    destruct (right_made id0 name cer raw d p H4) as (m & M1 & M2). exists i, kcs, id, raw, d, m. cbn [new_election ne_name ne_election el_ceremony] in *. auto.
  Qed.
  Lemma elections_right_records h x : In x (su_elections (fst (create_run E parse h))) ->
    exists i kcs id raw d m, In (NewElection (ne_name x) (el_ceremony (ne_election x)) raw) h /\ In (CreateStep i kcs id) h /\ kcs (el_ceremony (ne_election x)) = Some d /\
      parse raw = Some m /\ right_election E (el_ceremony (ne_election x)) d m (ne_election x) /\ ne_records x = map (fun k => mkRecord (pk_owner k) (pk_seq k) (pk_key k) [] []) (kc_keys d).
  Proof.
    intros Hx. pose proof (tr_elections _ _ (traced_run h)) as T. rewrite Forall_forall in T. destruct (T x Hx) as (name & cer & p & id0 & (i & kcs & id & d & raw & H1 & H2 & H3 & H4) & ->).
    destruct (right_made id0 name cer raw d p H4) as (m & M1 & M2). exists i, kcs, id, raw, d, m. destruct (prepare_ok _ _ _ H4) as (? & ? & ? & _ & _ & _ & _ & ->). cbn [new_election ne_name ne_election el_ceremony ne_records pg_records] in *. auto 8.
  Qed.
  Lemma records_bare h x : In x (su_elections (fst (create_run E parse h))) -> Forall (fun r => gr_commitments r = [] /\ gr_proofs r = []) (ne_records x).
  Proof.
    intros Hx. pose proof (tr_elections _ _ (traced_run h)) as T. rewrite Forall_forall in T. destruct (T x Hx) as (name & cer & p & id0 & (i & kcs & id & d & raw & H1 & H2 & H3 & H4) & ->).
    destruct (prepare_ok _ _ _ H4) as (m & im & j & _ & _ & _ & _ & ->). cbn. rewrite Forall_map, Forall_forall. intros k _. cbn. auto.
  Qed.
End Create.
