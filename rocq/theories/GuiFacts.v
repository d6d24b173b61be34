(** * GuiFacts: what holds in every history of the key ceremony in the graphical application. *)
From Verif Require Import Base Group Spec GroupFacts Codec Hash DLog ElGamal ZK Poly ListFacts Manifest Ballot Encrypt
  Ceremony SpecCeremony MediatorFacts GuiCeremony SpecGui.
Import List.

Lemma prefix_refl {A} (l : list A) : prefix l l.
Proof. exists []. rewrite app_nil_r. reflexivity. Qed.
Lemma prefix_trans {A} (a b c : list A) : prefix a b -> prefix b c -> prefix a c.
Proof. intros [x ->] [y ->]. exists (x ++ y). rewrite app_assoc. reflexivity. Qed.
Lemma prefix_app {A} (l t : list A) : prefix l (l ++ t).
Proof. exists t. reflexivity. Qed.
Lemma prefix_in {A} (l l' : list A) x : prefix l l' -> In x l -> In x l'.
Proof. intros [t ->] Hx. apply in_app_iff. auto. Qed.
Lemma prefix_len {A} (l l' : list A) : prefix l l' -> len l <= len l'.
Proof. intros [t ->]. rewrite len_app. pose proof (len_nonneg t). lia. Qed.
Lemma prefix_len_eq {A} (l l' : list A) : prefix l l' -> len l = len l' -> l = l'.
Proof. intros [t ->]. rewrite len_app. intros H. destruct t; [rewrite app_nil_r; reflexivity|]. rewrite len_cons in H. pose proof (len_nonneg t). lia. Qed.
Lemma prefix_comparable {A} (a b c : list A) : prefix a c -> prefix b c -> prefix a b \/ prefix b a.
Proof.
  revert b c. induction a as [|x a IH]; intros b c Ha Hb; [left; exists b; reflexivity|].
  destruct b as [|y b]; [right; exists (x :: a); reflexivity|]. destruct Ha as [t ->], Hb as [t' Hb]. cbn in Hb. injection Hb as <- Hb.
  destruct (IH b (a ++ t)) as [[s Hs]|[s Hs]]; [exists t; reflexivity|exists t'; exact Hb| |].
  - left. exists s. cbn. rewrite Hs. reflexivity.
  - right. exists s. cbn. rewrite Hs. reflexivity.
Qed.

(** the order on documents *)
Record kc_le (d d' : kc) : Prop := {
  le_count : kc_count d = kc_count d'; le_quorum : kc_quorum d = kc_quorum d';
  le_joined : prefix (kc_joined d) (kc_joined d'); le_keys : prefix (kc_keys d) (kc_keys d');
  le_other : prefix (kc_other d) (kc_other d'); le_backups : prefix (kc_backups d) (kc_backups d');
  le_shared : prefix (kc_shared d) (kc_shared d'); le_verifs : prefix (kc_verifs d) (kc_verifs d');
  le_joint : kc_joint d <> None -> kc_joint d' <> None;
  le_completed : kc_completed d = true -> kc_completed d' = true }.
Lemma kc_le_refl d : kc_le d d.
Proof. constructor; auto using prefix_refl. Qed.
Lemma kc_le_trans a b c : kc_le a b -> kc_le b c -> kc_le a c.
Proof.
  intros [] []. constructor; try congruence; eauto using prefix_trans.
Qed.
Ltac le_step := constructor; cbn; auto using prefix_refl, prefix_app; try congruence; try discriminate.

Lemma step_cases E w e : gui_step E w e = w \/
  (exists c user admin, e = Open c user admin /\ gui_step E w e = mkWorld (w_doc w) (w_files w) (dset c (mkClient user admin Idle) (w_clients w)))
  \/ (exists cl, dget (event_client e) (w_clients w) = Some cl /\ gui_step E w e = client_step E w (event_client e) cl e).
Proof.
  destruct e as [c user admin| | | | | | |];
    [right; left; exists c, user, admin; auto| | | | | | |];
    (cbn [gui_step event_client]; match goal with |- context [dget ?x ?y] => destruct (dget x y) as [cl|] eqn:Hd end;
     [right; right; exists cl; auto|left; reflexivity]).
Qed.
Lemma client_step_le E w c cl e : kc_le (w_doc w) (w_doc (client_step E w c cl e)).
Proof.
  destruct cl as [user admin ph]. destruct e, ph; cbn [client_step cl_phase cl_user cl_admin]; try apply kc_le_refl.
  - destruct user; [|apply kc_le_refl]. le_step.
  - destruct user; [|apply kc_le_refl]. destruct (get_guardian_number _ _); apply kc_le_refl.
  - destruct user; [|apply kc_le_refl]. destruct (make_guardian _ _ _ _ _); apply kc_le_refl.
  - le_step.
  - destruct (choose_stage _ _ _) as [[s|]|]; apply kc_le_refl.
  - destruct s; cbn [run_stage].
    + destruct (s2_announce _); cbn [rbind w_doc]; [le_step|apply kc_le_refl].
    + destruct (s3_backups _ _ _ _ _); cbn [rbind w_doc]; [le_step|apply kc_le_refl].
    + destruct (s4_share _); cbn [rbind w_doc]; [le_step|apply kc_le_refl].
    + destruct (s5_verify _ _ _ _); cbn [rbind w_doc]; [le_step|apply kc_le_refl].
    + destruct (s6_publish _ _); cbn [rbind w_doc]; [le_step|apply kc_le_refl].
  - le_step.
Qed.
Lemma step_le E w e : kc_le (w_doc w) (w_doc (gui_step E w e)).
Proof.
  destruct (step_cases E w e) as [->|[(c & u & a & -> & ->)|(cl & Hd & ->)]]; [apply kc_le_refl|apply kc_le_refl|apply client_step_le].
Qed.
Lemma run_le E h : forall w, kc_le (w_doc w) (w_doc (gui_run E w h)).
Proof. induction h as [|e h IH]; intros w; [apply kc_le_refl|]. cbn [gui_run fold_left]. eapply kc_le_trans; [apply step_le|apply IH]. Qed.
Lemma run_app E w h h' : gui_run E w (h ++ h') = gui_run E (gui_run E w h) h'.
Proof. apply fold_left_app. Qed.

Lemma progress_mono d d' : kc_le d d' -> progress (get_key_ceremony_state d) <= progress (get_key_ceremony_state d').
Proof.
  intros [Hc Hq Hj Hk Ho Hb Hs Hv Hjt _]. apply prefix_len in Hj, Ho, Hb, Hs, Hv. unfold get_key_ceremony_state. rewrite Hc.
  pose proof (len_nonneg (kc_other d)). pose proof (len_nonneg (kc_shared d)).
  repeat match goal with |- context [if ?a <? ?b then _ else _] => destruct (Z.ltb_spec a b) | |- context [if ?a =? ?b then _ else _] => destruct (Z.eqb_spec a b) end;
    try (cbn; lia); destruct (kc_joint d) eqn:Jd, (kc_joint d') eqn:Jd'; cbn; try lia.
  exfalso. apply Hjt; congruence.
Qed.

(** ** the announced keys *)
Lemma find_first_prefix {A} (f : A -> bool) l l' x : prefix l l' -> find_first f l = Some x -> find_first f l' = Some x.
Proof. intros [t ->]. induction l as [|a l IH]; cbn; [discriminate|]. destruct (f a); auto. Qed.
Lemma find_key_mono d d' u k : kc_le d d' -> find_key d u = Ok k -> find_key d' u = Ok k.
Proof.
  intros Hle. unfold find_key. destruct (find_first _ (kc_keys d)) as [k'|] eqn:Hf; [|discriminate]. intros [= ->].
  rewrite (find_first_prefix _ _ _ _ (le_keys _ _ Hle) Hf). reflexivity.
Qed.
Lemma find_key_owner d u k : find_key d u = Ok k -> pk_owner k = u /\ In k (kc_keys d).
Proof.
  unfold find_key. destruct (find_first _ _) as [k'|] eqn:Hf; [|discriminate]. intros [= ->]. apply find_first_some in Hf as [Hin Ho].
  apply eqb_spec in Ho. auto.
Qed.
Lemma find_key_in d u k : find_key d u = Ok k <-> key_in d u k.
Proof.
  unfold find_key, key_in. generalize (kc_keys d). intros l. split.
  - intros H. assert (Hf : find_first (fun k => eqb (pk_owner k) u) l = Some k) by (destruct (find_first _ _); [injection H as ->; reflexivity|discriminate]).
    clear H. induction l as [|a l IH]; cbn in Hf; [discriminate|]. destruct (String.eqb (pk_owner a) u) eqn:Ha.
    + injection Hf as ->. exists [], l. split; [reflexivity|]. split; [apply String.eqb_eq; exact Ha|]. intros x [].
    + destruct (IH Hf) as (l1 & l2 & -> & Ho & Hl). exists (a :: l1), l2. split; [reflexivity|]. split; [assumption|].
      intros x [<-|Hx]; [apply String.eqb_neq; exact Ha|auto].
  - intros (l1 & l2 & -> & Ho & Hl). assert (Hf : find_first (fun k0 => eqb (pk_owner k0) u) (l1 ++ k :: l2) = Some k); [|rewrite Hf; reflexivity].
    induction l1 as [|a l1 IH].
    + cbn. rewrite Ho, String.eqb_refl. reflexivity.
    + cbn. assert (Ha : pk_owner a <> u) by (apply Hl; left; reflexivity). apply String.eqb_neq in Ha. rewrite Ha. apply IH. intros; apply Hl; right; assumption.
Qed.

Lemma announce_as_run (E : env) d m : announce_guardians d = Ok m ->
  exists ks, Forall2 (fun u k => find_key d u = Ok k) (kc_joined d) ks
    /\ m = ceremony_run E (new_mediator "mediator_1" (mkDetails (kc_count d) (kc_quorum d))) (map Announce ks)
    /\ md_keys m = fold_left (fun dk k => dset (pk_owner k) k dk) ks [].
Proof.
  unfold announce_guardians, make_mediator. unfold ceremony_run.
  assert (G : forall l m0, rfold (fun m u => do k <- find_key d u; Ok (md_announce m k)) l m0 = Ok m ->
    exists ks, Forall2 (fun u k => find_key d u = Ok k) l ks /\ m = fold_left (ceremony_step E) (map Announce ks) m0
      /\ md_keys m = fold_left (fun dk k => dset (pk_owner k) k dk) ks (md_keys m0)).
  { induction l as [|u l IH]; intros m0; cbn [rfold].
    - intros [= ->]. exists []. repeat split. constructor.
    - destruct (find_key d u) as [k|] eqn:Hk; cbn [rbind]; [|discriminate]. intros H. apply IH in H as (ks & H1 & H2 & H3).
      exists (k :: ks). split; [constructor; assumption|]. split; [exact H2|exact H3]. }
  intros H. apply G in H as (ks & H1 & H2 & H3). exists ks. auto.
Qed.

(** [mk]: the keys that some administrator announced, or could have announced, on a document read earlier *)
Definition announced (d : kc) (mk : dict string public_key) : Prop :=
  exists snap m, kc_le snap d /\ announce_guardians snap = Ok m /\ md_keys m = mk /\ len mk = kc_count d.

Lemma set_of_prefix {K} `{EqB K} (l l' : list K) : prefix l l' -> prefix (set_of l) (set_of l').
Proof.
  intros [t ->]. unfold set_of. rewrite fold_left_app. generalize (fold_left (fun s x => set_add x s) l []).
  induction t as [|x t IH]; intros s; cbn [fold_left]; [apply prefix_refl|]. eapply prefix_trans; [|apply IH].
  unfold set_add. destruct (inb x s); [apply prefix_refl|apply prefix_app].
Qed.
Lemma announce_keys (E : env) d m : announce_guardians d = Ok m ->
  md_id m = "mediator_1"%string /\ md_details m = mkDetails (kc_count d) (kc_quorum d) /\ md_backups m = [] /\ md_verifs m = []
  /\ dkeys (md_keys m) = firsts (kc_joined d) /\ (forall u k, In (u, k) (md_keys m) -> find_key d u = Ok k /\ pk_owner k = u).
Proof.
  intros H. destruct (announce_as_run E d m H) as (ks & H1 & H2 & H3).
  assert (Ho : map pk_owner ks = kc_joined d).
  { clear - H1. induction H1 as [|u k l ks Hk _ IH]; [reflexivity|]. cbn. rewrite IH. f_equal. apply find_key_owner in Hk. tauto. }
  destruct (keys_held ks) as [K1 K2]. cbn zeta in K1, K2. rewrite <- H3 in K1, K2. rewrite Ho in K1.
  assert (Hr : forall m0, md_id (fold_left (ceremony_step E) (map Announce ks) m0) = md_id m0
    /\ md_details (fold_left (ceremony_step E) (map Announce ks) m0) = md_details m0
    /\ md_backups (fold_left (ceremony_step E) (map Announce ks) m0) = md_backups m0
    /\ md_verifs (fold_left (ceremony_step E) (map Announce ks) m0) = md_verifs m0).
  { clear. induction ks as [|k ks IH]; intros m0; [auto|]. cbn [map fold_left]. destruct (IH (ceremony_step E m0 (Announce k))) as (A&B&C&D).
    rewrite A, B, C, D. auto. }
  destruct (Hr (new_mediator "mediator_1" (mkDetails (kc_count d) (kc_quorum d)))) as (A&B&C&D). unfold ceremony_run in H2. rewrite <- H2 in A, B, C, D.
  do 4 (split; [assumption|]). split; [assumption|]. intros u k Hin. destruct (K2 _ _ Hin) as [Hu Hl]. split; [|assumption].
  unfold latest_key in Hl. apply find_some in Hl as [Hl _]. apply in_rev in Hl. apply (Forall2_in_r _ _ _ _ H1) in Hl as [u' [_ Hk]].
  destruct (find_key_owner _ _ _ Hk) as [He _]. congruence.
Qed.

Lemma dict_ext {V} (a b : dict string V) : dkeys a = dkeys b -> NoDup (dkeys a) ->
  (forall u x y, In (u, x) a -> In (u, y) b -> x = y) -> a = b.
Proof.
  revert b. induction a as [|[u x] a IH]; intros [|[u' y] b]; cbn; intros Hk Hn Hv; try discriminate; [reflexivity|].
  injection Hk as <- Hk. inversion Hn as [|? ? Hu Hn']; subst. f_equal; [f_equal; apply (Hv u); auto|].
  apply IH; [assumption|assumption|]. intros v x' y' H1 H2. apply (Hv v); auto.
Qed.
Lemma announced_nodup (E : env) d mk : announced d mk -> NoDup (dkeys mk).
Proof. intros (snap & m & _ & Ha & <- & _). destruct (announce_keys E _ _ Ha) as (_&_&_&_&->&_). apply set_of_nodup. Qed.
Lemma announced_unique (E : env) d mk mk' : announced d mk -> announced d mk' -> mk = mk'.
Proof.
  intros Hmk Hmk'. pose proof (announced_nodup E _ _ Hmk) as Hnd.
  destruct Hmk as (s & m & Hle & Ha & <- & Hl). destruct Hmk' as (s' & m' & Hle' & Ha' & <- & Hl').
  destruct (announce_keys E _ _ Ha) as (_&_&_&_&K1&K2). destruct (announce_keys E _ _ Ha') as (_&_&_&_&K1'&K2').
  apply dict_ext; [|assumption|].
  - rewrite K1, K1'. assert (Hlen : len (firsts (kc_joined s)) = len (firsts (kc_joined s'))).
    { rewrite <- K1, <- K1'. unfold dkeys. rewrite !len_map. lia. }
    destruct (prefix_comparable _ _ _ (le_joined _ _ Hle) (le_joined _ _ Hle')) as [Hp|Hp]; apply set_of_prefix in Hp.
    + apply prefix_len_eq; assumption.
    + symmetry. apply prefix_len_eq; [assumption|]. symmetry. exact Hlen.
  - intros u x y Hx Hy. destruct (K2 _ _ Hx) as [Hx' _]. destruct (K2' _ _ Hy) as [Hy' _].
    apply (find_key_mono _ _ _ _ Hle) in Hx'. apply (find_key_mono _ _ _ _ Hle') in Hy'. congruence.
Qed.
Lemma announced_mono d d' mk : kc_le d d' -> announced d mk -> announced d' mk.
Proof.
  intros Hle (s & m & Hs & Ha & Hm & Hl). exists s, m. split; [eapply kc_le_trans; eassumption|]. rewrite <- (le_count _ _ Hle). auto.
Qed.
Lemma announced_facts (E : env) d mk : announced d mk ->
  (forall u, In u (dkeys mk) -> In u (kc_joined d)) /\ (forall u k, In (u, k) mk -> find_key d u = Ok k /\ pk_owner k = u)
  /\ len mk = kc_count d.
Proof.
  intros (s & m & Hle & Ha & <- & Hl). destruct (announce_keys E _ _ Ha) as (_&_&_&_&K1&K2). split; [|split; [|assumption]].
  - intros u Hu. rewrite K1 in Hu. unfold firsts in Hu. rewrite set_of_in in Hu. eapply prefix_in; [apply (le_joined _ _ Hle)|exact Hu].
  - intros u k Hin. destruct (K2 _ _ Hin) as [Hk Ho]. split; [|assumption]. eapply find_key_mono; eassumption.
Qed.
Lemma announced_here d m : announce_guardians d = Ok m -> all_guardians_announced m = true -> announced d (md_keys m).
Proof.
  intros Ha Hall. exists d, m. split; [apply kc_le_refl|]. split; [assumption|]. split; [reflexivity|].
  unfold all_guardians_announced in Hall. apply Z.eqb_eq in Hall.
  assert (Hd : dt_number (md_details m) = kc_count d); [|congruence].
  revert Ha. unfold announce_guardians. assert (G : forall l m0, rfold (fun m u => do k <- find_key d u; Ok (md_announce m k)) l m0 = Ok m -> md_details m = md_details m0).
  { induction l as [|u l IH]; intros m0; cbn [rfold]; [intros [= ->]; reflexivity|]. destruct (find_key d u); cbn [rbind]; [|discriminate].
    intros H. apply IH in H. exact H. }
  intros H. apply G in H. rewrite H. reflexivity.
Qed.

(** ** guardian numbers *)
Lemma number_from_spec u l : forall n x, guardian_number_from n u l = Ok x <->
  exists l1 l2, l = l1 ++ u :: l2 /\ ~ In u l1 /\ x = n + len l1.
Proof.
  induction l as [|g l IH]; intros n x; cbn [guardian_number_from].
  - split; [discriminate|]. intros (l1 & l2 & H & _). destruct l1; discriminate.
  - eqb_cases g u.
    + subst g. split.
      * intros [= <-]. exists [], l. split; [reflexivity|]. split; [tauto|]. cbn. lia.
      * intros (l1 & l2 & H & Hn & ->). destruct l1 as [|a l1]; [cbn; f_equal; lia|]. injection H as <- _. exfalso. apply Hn. left. reflexivity.
    + rewrite IH. split.
      * intros (l1 & l2 & -> & Hn & ->). exists (g :: l1), l2. split; [reflexivity|]. split; [intros [?|?]; congruence || contradiction|]. rewrite len_cons. lia.
      * intros (l1 & l2 & H & Hn & ->). destruct l1 as [|a l1]; [injection H as -> _; congruence|]. injection H as <- H.
        exists l1, l2. split; [assumption|]. split; [intros Hx; apply Hn; right; assumption|]. rewrite len_cons. lia.
Qed.
Lemma number_mono d d' u n : kc_le d d' -> get_guardian_number d u = Ok n -> get_guardian_number d' u = Ok n.
Proof.
  intros Hle. unfold get_guardian_number. rewrite !number_from_spec. intros (l1 & l2 & H & Hn & ->).
  destruct (le_joined _ _ Hle) as [t Ht]. exists l1, (l2 ++ t). rewrite Ht, H, <- app_assoc. auto.
Qed.
Lemma number_inj d u v n : get_guardian_number d u = Ok n -> get_guardian_number d v = Ok n -> u = v.
Proof.
  unfold get_guardian_number. rewrite !number_from_spec. intros (l1 & l2 & -> & _ & Hn) (r1 & r2 & Heq & _ & Hm).
  assert (Hlen : length l1 = length r1) by (unfold len in *; lia). clear Hn Hm. revert r1 Heq Hlen. induction l1 as [|a l1 IH]; intros [|b r1] Heq Hlen; try discriminate.
  - injection Heq as <- _. reflexivity.
  - injection Heq as <- Heq. apply (IH r1); [assumption|]. cbn in Hlen. lia.
Qed.

(** ** the invariant *)
Section Inv.
  Context (E : env).

  Record doc_ok (d : kc) : Prop := {
    do_keys : forall k, In k (kc_keys d) -> get_guardian_number d (pk_owner k) = Ok (pk_seq k);
    do_other : forall u ks, In (u, ks) (kc_other d) -> exists mk, announced d mk /\ In u (dkeys mk)
      /\ ks = map snd (filter (fun kv => negb (eqb (fst kv) u)) mk);
    do_backups : forall b, In b (kc_backups d) -> exists mk, announced d mk /\ In (bk_owner b) (dkeys mk) /\ In (bk_designated b) (dkeys mk);
    do_shared : forall u bs b, In (u, bs) (kc_shared d) -> In b bs ->
      In b (kc_backups d) /\ bk_owner b <> bk_designated b /\ (u = EmptyString \/ bk_designated b = u);
    do_verifs : forall v, In v (kc_verifs d) ->
      In (vf_verifier v) (kc_joined d) /\ exists b mk, announced d mk /\ In b (kc_backups d) /\ vf_owner v = bk_owner b /\ vf_designated v = bk_designated b
      /\ (vf_verifier v = EmptyString \/ vf_verifier v = bk_designated b /\ exists k kp, dget (bk_owner b) mk = Some k
           /\ ek_owner kp = vf_verifier v /\ verify_backup E (vf_verifier v) b k kp = Ok v);
    do_joint : forall j, kc_joint d = Some j -> exists snap, kc_le snap d /\ s6_publish E snap = Ok j }.

  Definition file_ok (u : string) (r : private_record) : Prop :=
    ek_owner (pr_keys r) = u /\ pr_pubkeys r = [(u, share_keys (pr_keys r))] /\ pr_backups r = [] /\ pr_to_share r = [].
  Definition client_ok (d : kc) (cl : client) : Prop :=
    match cl_phase cl with
    | JoinNumbered n => exists u, cl_user cl = Some u /\ get_guardian_number d u = Ok n
    | JoinSaved k => cl_user cl = Some (pk_owner k) /\ get_guardian_number d (pk_owner k) = Ok (pk_seq k)
    | Running s snap => kc_le snap d /\ doc_ok snap /\ choose_stage (cl_user cl) (cl_admin cl) snap = Ok (Some s)
    | _ => True
    end.
  Record world_ok (w : world) : Prop := {
    wo_doc : doc_ok (w_doc w);
    wo_files : forall u r, dget u (w_files w) = Some r -> file_ok u r;
    wo_clients : forall c cl, dget c (w_clients w) = Some cl -> client_ok (w_doc w) cl }.

  Lemma client_ok_mono d d' cl : kc_le d d' -> client_ok d cl -> client_ok d' cl.
  Proof.
    intros Hle. unfold client_ok. destruct (cl_phase cl); auto.
    - intros (u & Hu & Hn). exists u. split; [assumption|]. eapply number_mono; eassumption.
    - intros [H1 H2]. split; [assumption|]. eapply number_mono; eassumption.
    - intros [H1 H2]. split; [|assumption]. eapply kc_le_trans; eassumption.
  Qed.
  (** the parts of [doc_ok] when the document grows *)
  Lemma doc_grow d d' : doc_ok d -> kc_le d d' ->
    (forall k, In k (kc_keys d') -> In k (kc_keys d) \/ get_guardian_number d' (pk_owner k) = Ok (pk_seq k)) ->
    (forall u ks, In (u, ks) (kc_other d') -> In (u, ks) (kc_other d) \/ exists mk, announced d' mk /\ In u (dkeys mk)
      /\ ks = map snd (filter (fun kv => negb (eqb (fst kv) u)) mk)) ->
    (forall b, In b (kc_backups d') -> In b (kc_backups d) \/ exists mk, announced d' mk /\ In (bk_owner b) (dkeys mk) /\ In (bk_designated b) (dkeys mk)) ->
    (forall u bs b, In (u, bs) (kc_shared d') -> In b bs -> In (u, bs) (kc_shared d) \/
      In b (kc_backups d') /\ bk_owner b <> bk_designated b /\ (u = EmptyString \/ bk_designated b = u)) ->
    (forall v, In v (kc_verifs d') -> In v (kc_verifs d) \/
      In (vf_verifier v) (kc_joined d') /\ exists b mk, announced d' mk /\ In b (kc_backups d') /\ vf_owner v = bk_owner b /\ vf_designated v = bk_designated b
      /\ (vf_verifier v = EmptyString \/ vf_verifier v = bk_designated b /\ exists k kp, dget (bk_owner b) mk = Some k
           /\ ek_owner kp = vf_verifier v /\ verify_backup E (vf_verifier v) b k kp = Ok v)) ->
    (forall j, kc_joint d' = Some j -> kc_joint d = Some j \/ exists snap, kc_le snap d' /\ s6_publish E snap = Ok j) ->
    doc_ok d'.
  Proof.
    intros [K O B S V J] Hle HK HO HB HS HV HJ. constructor.
    - intros k Hk. destruct (HK k Hk) as [Hk'|Hk']; [|assumption]. eapply number_mono; [eassumption|]. apply K; assumption.
    - intros u ks Hin. destruct (HO _ _ Hin) as [Hin'|Hin']; [|assumption]. destruct (O _ _ Hin') as (mk & H1 & H2). exists mk. split; [eapply announced_mono; eassumption|assumption].
    - intros b Hin. destruct (HB _ Hin) as [Hin'|Hin']; [|assumption]. destruct (B _ Hin') as (mk & H1 & H2). exists mk. split; [eapply announced_mono; eassumption|assumption].
    - intros u bs b Hin Hb. destruct (HS _ _ _ Hin Hb) as [Hin'|Hin']; [|assumption]. destruct (S _ _ _ Hin' Hb) as (H1 & H2).
      split; [|assumption]. eapply prefix_in; [apply (le_backups _ _ Hle)|assumption].
    - intros v Hin. destruct (HV _ Hin) as [Hin'|Hin']; [|assumption]. destruct (V _ Hin') as (H0 & b & mk & H1 & H2 & H3).
      split; [eapply prefix_in; [apply (le_joined _ _ Hle)|assumption]|]. exists b, mk. split; [eapply announced_mono; eassumption|]. split; [|assumption].
      eapply prefix_in; [apply (le_backups _ _ Hle)|assumption].
    - intros j Hj. destruct (HJ _ Hj) as [Hj'|Hj']; [|assumption]. destruct (J _ Hj') as (s & Hs & Hp). exists s. split; [eapply kc_le_trans; eassumption|assumption].
  Qed.

  (** what the stages produce *)
  Lemma s2_spec snap l : s2_announce snap = Ok l -> forall u ks, In (u, ks) l -> exists mk, announced snap mk /\ In u (dkeys mk)
      /\ ks = map snd (filter (fun kv => negb (eqb (fst kv) u)) mk).
  Proof.
    unfold s2_announce. destruct (announce_guardians snap) as [m|] eqn:Ha; cbn [rbind]; [|discriminate]. intros H u ks Hin.
    apply rmapM_iff in H. apply (Forall2_in_r _ _ _ _ H) in Hin as [u' [Hu' Heq]].
    destruct (share_announced m (Some u')) as [ks'|] eqn:Hs; cbn [get_optional rbind] in Heq; [|discriminate]. injection Heq as <- <-.
    unfold share_announced in Hs. destruct (all_guardians_announced m) eqn:Hall; cbn [negb] in Hs; [|discriminate]. injection Hs as <-.
    exists (md_keys m). split; [apply announced_here; assumption|]. destruct (announce_keys E _ _ Ha) as (_&_&_&_&K1&_).
    split; [|reflexivity]. rewrite K1. unfold firsts. rewrite set_of_in. assumption.
  Qed.
  Lemma find_entry_in {A} (l : list (string * list A)) u x : find_entry l u = Ok x -> In (u, x) l.
  Proof.
    unfold find_entry. destruct (find_first _ l) as [[u' x']|] eqn:Hf; [|discriminate]. intros [= <-]. apply find_first_some in Hf as [Hin He].
    apply eqb_spec in He. cbn in He. subst. assumption.
  Qed.
  Lemma fold_save_fields ks : forall g, gd_keys (fold_left save_guardian_key ks g) = gd_keys g
    /\ gd_to_share (fold_left save_guardian_key ks g) = gd_to_share g /\ gd_backups (fold_left save_guardian_key ks g) = gd_backups g
    /\ gd_pubkeys (fold_left save_guardian_key ks g) = fold_left (fun dk k => dset (pk_owner k) k dk) ks (gd_pubkeys g).
  Proof. induction ks as [|k ks IH]; intros g; [auto|]. cbn [fold_left]. destruct (IH (save_guardian_key g k)) as (A&B&C&D). rewrite A, B, C, D. auto. Qed.
  Lemma fold_keys_in (ks : list public_key) : forall dk, let dk' := fold_left (fun dk k => dset (pk_owner k) k dk) ks dk in
    (forall o k, In (o, k) dk' -> In (o, k) dk \/ (In k ks /\ pk_owner k = o))
    /\ (NoDup (dkeys dk) -> NoDup (dkeys dk'))
    /\ (forall o, ~ In o (map pk_owner ks) -> dget o dk' = dget o dk).
  Proof.
    induction ks as [|k ks IH]; intros dk; cbn [fold_left]; [auto|]. destruct (IH (dset (pk_owner k) k dk)) as (A & B & C). cbn zeta in *. split; [|split].
    - intros o k' Hin. destruct (A _ _ Hin) as [Hd|[Hd Ho]]; [|right; split; [right; assumption|assumption]].
      apply MediatorFacts.dset_in in Hd as [[-> ->]|Hd]; [right; split; [left; reflexivity|reflexivity]|auto].
    - intros Hn. apply B, dset_nodup, Hn.
    - intros o Hn. cbn in Hn. rewrite C by tauto. apply dget_dset_other. intros ->. apply Hn. auto.
  Qed.
  (** the guardian of [u] with the other keys loaded *)
  Lemma loaded files u snap g g1 : (forall u r, dget u files = Some r -> file_ok u r) -> doc_ok snap ->
    load_guardian files u snap = Ok g -> load_other_keys snap u g = Ok g1 ->
    gd_id g1 = u /\ gd_backups g1 = [] /\ gd_to_share g1 = [] /\ exists mk, announced snap mk /\ In u (dkeys mk)
      /\ (forall o k, dget o (gd_pubkeys g1) = Some k -> In o (dkeys mk) /\ pk_owner k = o /\ (o <> u -> dget o mk = Some k)).
  Proof.
    intros Hf Hd Hg Ho. unfold load_guardian in Hg. destruct (dget u files) as [r|] eqn:Hr; [|discriminate]. injection Hg as <-.
    destruct (Hf _ _ Hr) as (F1 & F2 & F3 & F4). unfold load_other_keys in Ho. destruct (find_entry _ u) as [ks|] eqn:Hks; cbn [rbind] in Ho; [|discriminate].
    injection Ho as <-. apply find_entry_in in Hks. destruct (do_other _ Hd _ _ Hks) as (mk & A1 & A2 & A3).
    destruct (fold_save_fields ks (guardian_from_private_record r (kc_count snap) (kc_quorum snap))) as (E1 & E2 & E3 & E4).
    split; [unfold gd_id; rewrite E1; exact F1|]. split; [rewrite E3; exact F3|]. split; [rewrite E2; exact F4|].
    exists mk. split; [assumption|]. split; [assumption|]. intros o k Hget. rewrite E4 in Hget.
    assert (H0 : gd_pubkeys (guardian_from_private_record r (kc_count snap) (kc_quorum snap)) = [(u, share_keys (pr_keys r))]).
    { cbn. rewrite F2, F1. cbn. rewrite String.eqb_refl. reflexivity. }
    rewrite H0 in Hget. apply dget_in in Hget. destruct (fold_keys_in ks [(u, share_keys (pr_keys r))]) as (P & _ & _).
    destruct (P _ _ Hget) as [[Heq|[]]|[Hin Hown]].
    - injection Heq as <- <-. split; [assumption|]. split; [exact F1|]. congruence.
    - rewrite A3 in Hin. apply in_map_iff in Hin as [[o' k'] [<- Hin]]. apply filter_In in Hin as [Hin Hne].
      destruct (announced_facts E _ _ A1) as (_ & Hk & _). destruct (Hk _ _ Hin) as [_ Ho']. cbn [snd] in *. rewrite Hown in Ho'. rewrite <- Ho' in Hin.
      split; [apply (in_map fst) in Hin; exact Hin|]. split; [assumption|]. intros _. apply in_dget; [eapply announced_nodup; eassumption|assumption].
  Qed.
  Lemma backup_ids sender pl k nonce b : generate_backup E sender pl k nonce = Ok b -> bk_owner b = sender /\ bk_designated b = pk_owner k.
  Proof.
    unfold generate_backup. destruct (compute_polynomial_coordinate _ _ _); cbn [rbind]; [|discriminate].
    destruct (coordinate_to_bytes _); cbn [rbind]; [|discriminate]. destruct (hashed_elgamal_encrypt _ _ _ _ _); cbn [rbind]; [|discriminate].
    intros [= <-]. auto.
  Qed.
  Lemma loop_backups rnd ks : forall g g' r, generate_backups_loop E rnd ks g = (g', r) ->
    forall o b, In (o, b) (gd_to_share g') -> In (o, b) (gd_to_share g) \/ (bk_owner b = gd_id g /\ bk_designated b = o /\ In o (map pk_owner ks)).
  Proof.
    induction ks as [|k ks IH]; intros g g' r; cbn [generate_backups_loop]; [intros [= <- _]; auto|].
    destruct (generate_backup _ _ _ _ _) as [b0|] eqn:Hb; [|intros [= <- _]; auto]. intros H o b Hin.
    destruct (IH _ _ _ H _ _ Hin) as [Hx|(H1 & H2 & H3)]; [|right; split; [exact H1|]; split; [assumption|right; assumption]].
    cbn [gd_with_to_share gd_to_share] in Hx. apply MediatorFacts.dset_in in Hx as [[-> ->]|Hx]; [|auto].
    apply backup_ids in Hb as [B1 B2]. right. split; [assumption|]. split; [assumption|left; reflexivity].
  Qed.
  Lemma s3_spec files rnd u snap l : (forall u r, dget u files = Some r -> file_ok u r) -> doc_ok snap ->
    s3_backups E files rnd u snap = Ok l -> forall b, In b l -> exists mk, announced snap mk /\ In (bk_owner b) (dkeys mk) /\ In (bk_designated b) (dkeys mk).
  Proof.
    intros Hf Hd. unfold s3_backups. destruct (load_guardian files u snap) as [g|] eqn:Hg; cbn [rbind]; [|discriminate].
    destruct (load_other_keys snap u g) as [g1|] eqn:Hg1; cbn [rbind]; [|discriminate].
    destruct (loaded _ _ _ _ _ Hf Hd Hg Hg1) as (I1 & I2 & I3 & mk & A1 & A2 & A3).
    destruct (gd_generate_backups E rnd g1) as [g2 r] eqn:Hgen. destruct r; cbn [rbind]; [|discriminate]. intros [= <-] b Hin.
    unfold gd_share_backups, dvals in Hin. apply in_map_iff in Hin as [[o b'] [<- Hin]]. cbn [snd].
    destruct (loop_backups _ _ _ _ _ Hgen _ _ Hin) as [Hx|(H1 & H2 & H3)]; [rewrite I3 in Hx; destruct Hx|].
    exists mk. split; [assumption|]. rewrite H1, I1. split; [assumption|]. rewrite H2. apply in_map_iff in H3 as [k [<- Hk]].
    unfold dvals in Hk. apply in_map_iff in Hk as [[o' k'] [<- Hk]]. cbn [snd].
    assert (Hnd : NoDup (dkeys (gd_pubkeys g1))).
    { unfold load_guardian in Hg. destruct (dget u files) as [rr|] eqn:Hr; [|discriminate]. injection Hg as <-. destruct (Hf _ _ Hr) as (F1 & F2 & _).
      unfold load_other_keys in Hg1. destruct (find_entry _ u) as [ks|]; cbn [rbind] in Hg1; [|discriminate]. injection Hg1 as <-.
      destruct (fold_save_fields ks (guardian_from_private_record rr (kc_count snap) (kc_quorum snap))) as (_ & _ & _ & E4). rewrite E4.
      apply fold_keys_in. cbn. rewrite F2, F1. cbn. rewrite String.eqb_refl. cbn. repeat constructor. tauto. }
    apply (in_dget _ _ _ Hnd) in Hk. destruct (A3 _ _ Hk) as (Hin' & Hown & _). rewrite Hown. assumption.
  Qed.
  Lemma s4_spec snap l : s4_share snap = Ok l -> forall u bs b, In (u, bs) l -> In b bs ->
    In b (kc_backups snap) /\ bk_owner b <> bk_designated b /\ (u = EmptyString \/ bk_designated b = u).
  Proof.
    unfold s4_share. destruct (announce_guardians snap) as [m|] eqn:Ha; cbn [rbind]; [|discriminate]. intros H u bs b Hin Hb.
    apply rmapM_iff in H. apply (Forall2_in_r _ _ _ _ H) in Hin as [u' [_ Heq]].
    destruct (announce_keys E _ _ Ha) as (_ & _ & K3 & _ & _ & _).
    set (m1 := receive_backups m (kc_backups snap)) in *.
    assert (Hm1 : forall o r x, In ((o, r), x) (md_backups m1) -> o <> r /\ bk_owner x = o /\ bk_designated x = r /\ In x (kc_backups snap)).
    { intros o r x Hx. unfold m1, receive_backups in Hx. destruct (negb _); [rewrite K3 in Hx; destruct Hx|].
      destruct (fold_backups (kc_backups snap) m) as (_&_&_&_&_&F). destruct (F _ _ _ Hx) as [Hy|Hy]; [rewrite K3 in Hy; destruct Hy|assumption]. }
    destruct (share_backups m1 (Some u')) as [o|] eqn:Hs; cbn [rbind] in Heq; [|discriminate]. destruct o as [bs'|]; [|discriminate]. injection Heq as <- <-.
    destruct u' as [|c s].
    - unfold share_backups in Hs. destruct (negb _); [discriminate|]. injection Hs as <-. unfold dvals in Hb. apply in_map_iff in Hb as [[[o r] x] [<- Hx]].
      destruct (Hm1 _ _ _ Hx) as (H1 & H2 & H3 & H4). cbn [snd]. split; [assumption|]. split; [congruence|auto].
    - apply share_backups_spec in Hs; [|discriminate]. apply (Forall2_in_r _ _ _ _ Hs) in Hb as [o [Ho Hget]]. apply dget_in in Hget.
      destruct (Hm1 _ _ _ Hget) as (H1 & H2 & H3 & H4). split; [assumption|]. split; [congruence|auto].
  Qed.
  Lemma s5_loop_spec bs : forall g vs, s5_loop E bs g = Ok vs -> forall v, In v vs -> exists b k, In b bs
    /\ dget (bk_owner b) (gd_pubkeys g) = Some k /\ verify_backup E (gd_id g) b k (gd_keys g) = Ok v.
  Proof.
    induction bs as [|b bs IH]; intros g vs; cbn [s5_loop]; [intros [= <-] v []|].
    destruct (gd_verify_backup E (gd_save_backup g b) (bk_owner b)) as [v0|] eqn:Hv; cbn [rbind]; [|discriminate].
    destruct (s5_loop E bs (gd_save_backup g b)) as [vs'|] eqn:Hvs; cbn [rbind]; [|discriminate]. intros [= <-] v [<-|Hin].
    - unfold gd_verify_backup in Hv. cbn [gd_save_backup gd_backups gd_pubkeys gd_keys] in Hv. rewrite dget_dset_same in Hv.
      destruct (dget (bk_owner b) (gd_pubkeys g)) as [k|] eqn:Hk; [|discriminate]. exists b, k. split; [left; reflexivity|]. auto.
    - destruct (IH _ _ Hvs _ Hin) as (b' & k & H1 & H2 & H3). exists b', k. split; [right; assumption|]. auto.
  Qed.
  Lemma verify_backup_ids me b k kp v : verify_backup E me b k kp = Ok v -> vf_owner v = bk_owner b /\ vf_designated v = bk_designated b /\ vf_verifier v = me.
  Proof.
    unfold verify_backup. destruct (hashed_decrypt _ _ _ _) as [o|]; cbn [rbind]; [|discriminate]. destruct o; cbn [get_optional rbind]; [|discriminate].
    destruct (coordinate_from_bytes _ _); cbn [rbind]; [|discriminate]. destruct (verify_polynomial_coordinate _ _ _ _); cbn [rbind]; [|discriminate].
    intros [= <-]. auto.
  Qed.
  Lemma s5_spec files u snap l : (forall u r, dget u files = Some r -> file_ok u r) -> doc_ok snap -> s5_verify E files u snap = Ok l ->
    forall v, In v l -> In (vf_verifier v) (kc_joined snap) /\ exists b mk, announced snap mk /\ In b (kc_backups snap) /\ vf_owner v = bk_owner b /\ vf_designated v = bk_designated b
      /\ (vf_verifier v = EmptyString \/ vf_verifier v = bk_designated b /\ exists k kp, dget (bk_owner b) mk = Some k
           /\ ek_owner kp = vf_verifier v /\ verify_backup E (vf_verifier v) b k kp = Ok v).
  Proof.
    intros Hf Hd. unfold s5_verify. destruct (find_entry _ u) as [bs|] eqn:Hbs; cbn [rbind]; [|discriminate].
    destruct (load_guardian files u snap) as [g|] eqn:Hg; cbn [rbind]; [|discriminate].
    destruct (load_other_keys snap u g) as [g1|] eqn:Hg1; cbn [rbind]; [|discriminate].
    destruct (loaded _ _ _ _ _ Hf Hd Hg Hg1) as (I1 & I2 & I3 & mk & A1 & A2 & A3). intros Hl v Hin.
    destruct (s5_loop_spec _ _ _ Hl _ Hin) as (b & k & Hb & Hk & Hv). destruct (verify_backup_ids _ _ _ _ _ Hv) as (V1 & V2 & V3).
    rewrite I1 in V3, Hv. split; [rewrite V3; apply (announced_facts E _ _ A1); assumption|].
    apply find_entry_in in Hbs. destruct (do_shared _ Hd _ _ _ Hbs Hb) as (S1 & S2 & S3). exists b, mk. do 4 (split; [assumption|]).
    rewrite V3. destruct S3 as [S3|S3]; [left; assumption|]. right. split; [auto|]. exists k, (gd_keys g1). split; [|auto].
    apply A3; [assumption|]. congruence.
  Qed.


  Lemma set_phase_get w c cl p c' cl' : dget c' (set_phase w c cl p) = Some cl' ->
    (c' = c /\ cl' = mkClient (cl_user cl) (cl_admin cl) p) \/ (c' <> c /\ dget c' (w_clients w) = Some cl').
  Proof.
    unfold set_phase. rewrite dget_dset. eqb_cases c' c; [intros [= <-]; auto|auto].
  Qed.
  Lemma set_phase_ok w c cl p d f : world_ok w -> kc_le (w_doc w) d -> doc_ok d -> (forall u r, dget u f = Some r -> file_ok u r) ->
    client_ok d (mkClient (cl_user cl) (cl_admin cl) p) -> world_ok (mkWorld d f (set_phase w c cl p)).
  Proof.
    intros [Wd Wf Wc] Hle Hd Hf Hc. constructor; cbn; [assumption|assumption|]. intros c' cl' Hg.
    apply set_phase_get in Hg as [[-> ->]|[_ Hg]]; [assumption|]. eapply client_ok_mono; [eassumption|]. eapply Wc; eassumption.
  Qed.
  Lemma number_joined d u n : get_guardian_number d u = Ok n -> In u (kc_joined d).
  Proof. unfold get_guardian_number. rewrite number_from_spec. intros (l1 & l2 & -> & _). apply in_app_iff. right. left. reflexivity. Qed.
  Lemma made_guardian draw u n d g : make_guardian E draw u n d = Ok g ->
    file_ok u (export_private_data g) /\ pk_owner (share_key g) = u /\ pk_seq (share_key g) = n.
  Proof.
    unfold make_guardian, guardian_from_nonce. destruct (generate_election_key_pair _ _ _ _) as [kp|] eqn:Hk; cbn [rbind]; [|discriminate].
    unfold generate_election_key_pair in Hk. destruct (generate_polynomial _ _) as [|c0 pl]; [discriminate|]. injection Hk as <-. intros [= <-]. unfold file_ok. cbn. auto 10.
  Qed.
  Lemma client_step_ok w c cl e : world_ok w -> dget c (w_clients w) = Some cl -> world_ok (client_step E w c cl e).
  Proof.
    intros W Hc. pose proof (wo_clients _ W _ _ Hc) as Hcl. pose proof (wo_doc _ W) as Hd. pose proof (wo_files _ W) as Hf.
    assert (Hle := client_step_le E w c cl e).
    destruct cl as [user admin ph]. destruct e, ph; cbn [client_step cl_phase cl_user cl_admin client_ok] in *; try exact W.
    - destruct user as [u|]; [|exact W]. apply set_phase_ok; [exact W|exact Hle| |exact Hf|exact I].
      apply (doc_grow _ _ Hd Hle); cbn; auto.
    - destruct user as [u|]; [|exact W]. destruct (get_guardian_number _ _) as [n|] eqn:Hn; (apply set_phase_ok; [exact W|exact Hle|exact Hd|exact Hf|]).
      + exists u. auto.
      + exact I.
    - destruct user as [u|]; [|exact W]. destruct (make_guardian _ _ _ _ _) as [g|] eqn:Hg; (apply set_phase_ok; [exact W|exact Hle|exact Hd| |]).
      + apply made_guardian in Hg as (Hg & _). intros u' r. rewrite dget_dset. eqb_cases u' u; [intros [= <-]; subst; assumption|apply Hf].
      + apply made_guardian in Hg as (_ & G1 & G2). destruct Hcl as (u' & [= <-] & Hn). unfold client_ok. cbn [cl_phase cl_user]. rewrite G1, G2. auto.
      + exact Hf.
      + exact I.
    - apply set_phase_ok; [exact W|exact Hle| |exact Hf|exact I]. apply (doc_grow _ _ Hd Hle); cbn; auto.
      intros k' Hk'. apply in_app_iff in Hk' as [Hk'|[<-|[]]]; [auto|]. right. destruct Hcl as [_ Hcl]. exact Hcl.
    - destruct (choose_stage _ _ _) as [[s|]|] eqn:Hs; try exact W. apply set_phase_ok; [exact W|exact Hle|exact Hd|exact Hf|].
      cbn. auto using kc_le_refl.
    - destruct Hcl as (Hsn & Hds & Hch). destruct s; cbn [run_stage] in *.
      + destruct (s2_announce snap) as [l|] eqn:Hl; cbn [rbind] in *; (apply set_phase_ok; [exact W|exact Hle| |exact Hf|exact I]); [|exact Hd].
        apply (doc_grow _ _ Hd Hle); cbn; auto. intros u ks Hin. apply in_app_iff in Hin as [Hin|Hin]; [auto|]. right.
        destruct (s2_spec _ _ Hl _ _ Hin) as (mk & A1 & A2). exists mk. split; [|assumption]. eapply announced_mono; [|exact A1].
        eapply kc_le_trans; eassumption.
      + set (u := match user with Some u => u | None => EmptyString end) in *.
        destruct (s3_backups _ _ _ _ _) as [l|] eqn:Hl; cbn [rbind] in *; (apply set_phase_ok; [exact W|exact Hle| |exact Hf|exact I]); [|exact Hd].
        apply (doc_grow _ _ Hd Hle); cbn; auto.
        * intros b Hin. apply in_app_iff in Hin as [Hin|Hin]; [auto|]. right.
          destruct (s3_spec _ _ _ _ _ Hf Hds Hl _ Hin) as (mk & A1 & A2). exists mk. split; [|assumption]. eapply announced_mono; [|exact A1].
          eapply kc_le_trans; eassumption.
      + destruct (s4_share snap) as [l|] eqn:Hl; cbn [rbind] in *; (apply set_phase_ok; [exact W|exact Hle| |exact Hf|exact I]); [|exact Hd].
        apply (doc_grow _ _ Hd Hle); cbn; auto. intros u bs b Hin Hb. apply in_app_iff in Hin as [Hin|Hin]; [auto|]. right.
        destruct (s4_spec _ _ Hl _ _ _ Hin Hb) as (A1 & A2). split; [|assumption]. eapply prefix_in; [apply (le_backups _ _ Hsn)|exact A1].
      + set (u := match user with Some u => u | None => EmptyString end) in *.
        destruct (s5_verify _ _ _ _) as [l|] eqn:Hl; cbn [rbind] in *; (apply set_phase_ok; [exact W|exact Hle| |exact Hf|exact I]); [|exact Hd].
        apply (doc_grow _ _ Hd Hle); cbn; auto.
        intros v Hin. apply in_app_iff in Hin as [Hin|Hin]; [auto|]. right.
        destruct (s5_spec _ _ _ _ Hf Hds Hl _ Hin) as (A0 & b & mk & A1 & A2 & A3). split; [eapply prefix_in; [apply (le_joined _ _ Hsn)|exact A0]|].
        exists b, mk. split; [eapply announced_mono; [|exact A1]; eapply kc_le_trans; eassumption|]. split; [|assumption].
        eapply prefix_in; [apply (le_backups _ _ Hsn)|exact A2].
      + destruct (s6_publish E snap) as [j|] eqn:Hl; cbn [rbind] in *; (apply set_phase_ok; [exact W|exact Hle| |exact Hf|exact I]); [|exact Hd].
        apply (doc_grow _ _ Hd Hle); cbn; auto. intros j' [= <-]. right. exists snap. split; [eapply kc_le_trans; eassumption|assumption].
    - apply set_phase_ok; [exact W|exact Hle| |exact Hf|exact I]. apply (doc_grow _ _ Hd Hle); cbn; auto.
  Qed.
  Lemma step_ok w e : world_ok w -> world_ok (gui_step E w e).
  Proof.
    intros W. destruct (step_cases E w e) as [->|[(c & u & a & -> & ->)|(cl & Hd & ->)]]; [exact W| |apply client_step_ok; assumption].
    destruct W as [Wd Wf Wc]. constructor; cbn; [assumption|assumption|]. intros c' cl' Hg. rewrite dget_dset in Hg. revert Hg. eqb_cases c' c; [intros [= <-]; exact I|apply Wc].
  Qed.
  Lemma start_ok n q : world_ok (gui_start n q).
  Proof. constructor; cbn; [|discriminate|discriminate]. constructor; cbn; try (intros; contradiction). discriminate. Qed.
  Lemma run_ok h : forall w, world_ok w -> world_ok (gui_run E w h).
  Proof. induction h as [|e h IH]; intros w W; [exact W|]. cbn [gui_run fold_left]. apply IH, step_ok, W. Qed.

  (** ** the joint key *)
  Lemma s6_spec snap j : s6_publish E snap = Ok j -> exists mk, announced snap mk /\ j = combine_keys E (dvals mk).
  Proof.
    unfold s6_publish. destruct (announce_guardians snap) as [m|] eqn:Ha; cbn [rbind]; [|discriminate].
    set (m1 := receive_backups m (kc_backups snap)). set (m2 := receive_verifications m1 (kc_verifs snap)).
    assert (Hk : md_keys m2 = md_keys m /\ md_details m2 = md_details m).
    { assert (H1 : md_keys m1 = md_keys m /\ md_details m1 = md_details m).
      { unfold m1, receive_backups. destruct (negb _); [auto|]. destruct (fold_backups (kc_backups snap) m) as (A&B&C&_). auto. }
      destruct H1 as [<- <-]. unfold m2, receive_verifications. destruct (negb _); [auto|].
      destruct (fold_verifs (kc_verifs snap) m1) as (A&B&C&_). auto. }
    destruct Hk as [Hk Hd]. destruct (md_publish_joint_key E m2) as [j'|] eqn:Hj; [|discriminate]. intros [= ->].
    unfold md_publish_joint_key in Hj. destruct (md_all_verified m2) eqn:Hv; cbn [negb] in Hj; [|discriminate]. injection Hj as <-.
    exists (md_keys m). split; [|rewrite Hk; reflexivity]. apply announced_here; [assumption|].
    unfold md_all_verified, get_verification_state, all_backups_available in Hv. unfold all_guardians_announced in *. rewrite Hk, Hd in Hv.
    destruct (_ =? _); [reflexivity|discriminate].
  Qed.
  Lemma joint_of_announced d j : doc_ok d -> kc_joint d = Some j -> exists mk, announced d mk /\ j = combine_keys E (dvals mk).
  Proof.
    intros Hd Hj. destruct (do_joint _ Hd _ Hj) as (s & Hs & Hp). destruct (s6_spec _ _ Hp) as (mk & Ha & ->). exists mk. split; [|reflexivity].
    eapply announced_mono; eassumption.
  Qed.
  Lemma joint_stable w h j : world_ok w -> kc_joint (w_doc w) = Some j -> kc_joint (w_doc (gui_run E w h)) = Some j.
  Proof.
    intros W Hj. pose proof (run_le E h w) as Hle. pose proof (wo_doc _ (run_ok h w W)) as Hd'. pose proof (wo_doc _ W) as Hd.
    destruct (kc_joint (w_doc (gui_run E w h))) as [j'|] eqn:Hj'; [|exfalso; apply (le_joint _ _ Hle); congruence].
    destruct (joint_of_announced _ _ Hd Hj) as (mk & A & ->). destruct (joint_of_announced _ _ Hd' Hj') as (mk' & A' & ->).
    apply (announced_mono _ _ _ Hle) in A. rewrite (announced_unique E _ _ _ A A'). reflexivity.
  Qed.

  Lemma keys_announce ks l : keys_sent (map Announce ks ++ l) = ks ++ keys_sent l.
  Proof. unfold keys_sent. rewrite flat_map_app. f_equal. induction ks as [|k ks IH]; cbn; [reflexivity|]. f_equal. exact IH. Qed.
  Lemma backups_announce ks l : backups_sent (map Announce ks ++ l) = backups_sent l.
  Proof. unfold backups_sent. rewrite flat_map_app. induction ks as [|k ks IH]; cbn in *; [reflexivity|]. exact IH. Qed.
  Lemma verifs_announce ks l : verifications_sent (map Announce ks ++ l) = verifications_sent l.
  Proof. unfold verifications_sent. rewrite flat_map_app. induction ks as [|k ks IH]; cbn in *; [reflexivity|]. exact IH. Qed.
  Lemma challenges_announce ks l : challenges_sent (map Announce ks ++ l) = challenges_sent l.
  Proof. unfold challenges_sent. rewrite flat_map_app. induction ks as [|k ks IH]; cbn in *; [reflexivity|]. exact IH. Qed.
  Lemma since_none d h : Forall (fun c => match c with Restart _ => False | _ => True end) h -> since_restart d h = (d, h).
  Proof.
    unfold since_restart. intros H.
    assert (G : forall l, fold_left (fun dc c => match c with Restart d' => (d', []) | _ => (fst dc, snd dc ++ [c]) end) h (d, l) = (d, l ++ h)).
    { induction H as [|c h Hc _ IH]; intros l; cbn [fold_left].
      - rewrite app_nil_r. reflexivity.
      - destruct c; try contradiction; cbn [fst snd]; rewrite IH, <- app_assoc; reflexivity. }
    exact (G []).
  Qed.

  Lemma published_pairs d j (HE : valid_env E) : doc_ok d -> ~ In EmptyString (kc_joined d) -> kc_joint d = Some j ->
    exists us ks, prefix us (firsts (kc_joined d)) /\ len us = kc_count d /\ Forall2 (key_in d) us ks
      /\ jk_key j = prodZ (map pk_key ks) mod pp E /\ jk_hash j = hash_elems E [HList (map HElem (flat_map pk_commitments ks))]
      /\ forall o r, In o us -> In r us -> o <> r -> exists b v ko kp, In b (kc_backups d) /\ In v (kc_verifs d)
           /\ bk_owner b = o /\ bk_designated b = r /\ key_in d o ko /\ ek_owner kp = r /\ verify_backup E r b ko kp = Ok v /\ vf_verified v = true.
  Proof.
    intros Hd Hne Hj. destruct (do_joint _ Hd _ Hj) as (s & Hle & Hp). pose proof Hp as Hp6. unfold s6_publish in Hp.
    destruct (announce_guardians s) as [m|] eqn:Ha; cbn [rbind] in Hp; [|discriminate].
    destruct (announce_as_run E _ _ Ha) as (ks0 & K1 & K2 & K3).
    destruct (md_publish_joint_key E _) as [j'|] eqn:Hpub; [|discriminate]. injection Hp as ->.
    set (h := map Announce ks0 ++ [SendBackups (kc_backups s); SendVerifications (kc_verifs s)]).
    assert (Hrun : receive_verifications (receive_backups m (kc_backups s)) (kc_verifs s)
      = ceremony_run E (new_mediator "mediator_1" (mkDetails (kc_count s) (kc_quorum s))) h).
    { unfold h, ceremony_run. rewrite fold_left_app. unfold ceremony_run in K2. rewrite <- K2. reflexivity. }
    rewrite Hrun in Hpub. assert (Hs : since_restart (mkDetails (kc_count s) (kc_quorum s)) h = (mkDetails (kc_count s) (kc_quorum s), h)).
    { apply since_none. unfold h. apply Forall_app. split; [|repeat constructor]. clear. induction ks0; cbn; constructor; auto. }
    destruct (s6_spec _ _ Hp6) as (mk & Hmk & ->). destruct (announced_facts E _ _ Hmk) as (M1 & M2 & M3).
    assert (Hmk' : announced d mk) by (eapply announced_mono; eassumption).
    assert (Ks : keys_sent h = ks0) by (unfold h; rewrite keys_announce; cbn; apply app_nil_r).
    assert (Bs : backups_sent h = kc_backups s) by (unfold h; rewrite backups_announce; cbn; apply app_nil_r).
    assert (Vs : verifications_sent h = kc_verifs s) by (unfold h; rewrite verifs_announce; cbn; apply app_nil_r).
    assert (Cs : challenges_sent h = []) by (unfold h; rewrite challenges_announce; reflexivity).
    assert (Ow : map pk_owner ks0 = kc_joined s).
    { clear - K1. induction K1 as [|u k l ks Hk _ IH]; [reflexivity|]. cbn. rewrite IH. f_equal. apply find_key_owner in Hk. tauto. }
    assert (Dk : dkeys mk = firsts (kc_joined s)).
    { assert (Hm' : announced d (md_keys m)); [|rewrite (announced_unique E _ _ _ Hmk' Hm'); apply (announce_keys E _ _ Ha)].
      exists s, m. split; [assumption|]. split; [assumption|]. split; [reflexivity|]. rewrite <- (le_count _ _ Hle).
      destruct (announce_keys E _ _ Ha) as (_&_&_&_&D&_). 
      assert (Hx : len (dkeys (md_keys m)) = len (md_keys m)) by apply len_map. rewrite <- Hx, D, <- Ow.
      destruct (joint_key_published E HE _ _ _ _ Hpub) as (ks1 & Q1 & _ & Q3 & _). rewrite Hs in Q1, Q3. cbn [snd fst] in Q1, Q3. rewrite Ks in Q1.
      rewrite <- Q1, len_map. exact Q3. }
    assert (Ufd : forall x, In x (kc_joined s) -> In x (kc_joined d)) by (intros x; apply prefix_in, (le_joined _ _ Hle)).
    exists (dkeys mk), (dvals mk). split; [rewrite Dk; apply set_of_prefix, (le_joined _ _ Hle)|].
    split; [unfold dkeys; rewrite len_map, M3; apply (le_count _ _ Hle)|]. split.
    { destruct (announced_facts E _ _ Hmk') as (_ & N & _). unfold dkeys, dvals. rewrite Forall2_map_l, Forall2_map_r.
      assert (G : forall l, (forall e, In e l -> In e mk) -> Forall2 (fun a b => key_in d (fst a) (snd b)) l l).
      { induction l as [|[u k] l IH]; intros Hl; constructor; [|apply IH; intros; apply Hl; right; assumption].
        cbn. apply find_key_in. apply N. apply Hl. left. reflexivity. }
      apply G. auto. }
    destruct (joint_key_published E HE _ _ _ _ Hpub) as (ks1 & Q1 & Q2 & Q3 & Q4 & Q5 & _). rewrite Hs in Q1, Q2. cbn [snd] in Q1, Q2. rewrite Ks in Q1, Q2.
    assert (Hks1 : ks1 = dvals mk).
    { assert (H1 : map pk_owner ks1 = map pk_owner (dvals mk)).
      { rewrite Q1, Ow, <- Dk. unfold dkeys, dvals. rewrite map_map. apply map_ext_in. intros [u k] Hin. cbn. symmetry. apply (M2 _ _ Hin). }
      assert (H2 : forall k, In k ks1 -> find_key s (pk_owner k) = Ok k).
      { intros k Hk. rewrite Forall_forall in Q2. specialize (Q2 _ Hk). unfold latest_key in Q2. apply find_some in Q2 as [Hin _]. apply in_rev in Hin.
        apply (Forall2_in_r _ _ _ _ K1) in Hin as [u [_ Hu]]. destruct (find_key_owner _ _ _ Hu) as [<- _]. assumption. }
      assert (H3 : forall k, In k (dvals mk) -> find_key s (pk_owner k) = Ok k).
      { intros k Hk. unfold dvals in Hk. apply in_map_iff in Hk as [[u k'] [<- Hin]]. destruct (M2 _ _ Hin) as [Hf Ho]. cbn. rewrite Ho. assumption. }
      clear - H1 H2 H3. revert H1 H2 H3. generalize (dvals mk). induction ks1 as [|k ks IH]; intros [|k' l] H1 H2 H3; try discriminate; [reflexivity|].
      cbn in H1. injection H1 as He H1. f_equal.
      - assert (A := H2 k (or_introl eq_refl)). assert (B := H3 k' (or_introl eq_refl)). congruence.
      - apply IH; [assumption|intros; apply H2; right; assumption|intros; apply H3; right; assumption]. }
    subst ks1. split; [assumption|]. split; [assumption|].
    intros o r Ho Hr Hor. rewrite Dk in Ho, Hr. unfold firsts in Ho, Hr. rewrite set_of_in in Ho, Hr.
    pose proof (joint_key_all_pairs E HE _ _ _ _ Hpub) as Hall. rewrite Hs in Hall. cbn [snd] in Hall. rewrite Ks, Ow, Bs, Vs, Cs in Hall.
    assert (Inj : forall x, In x (dkeys mk) -> In x (kc_joined s)) by (intros x; rewrite Dk; unfold firsts; rewrite set_of_in; auto).
    destruct (Hall) with (o := o) (r := r) as [_ Hgood]; auto.
    { intros b Hb. destruct (do_backups _ Hd b) as (mk' & B1 & B2 & B3); [eapply prefix_in; [apply (le_backups _ _ Hle)|assumption]|].
      rewrite (announced_unique E _ _ _ B1 Hmk') in B2, B3. auto. }
    { intros v Hv. destruct (do_verifs _ Hd v) as (_ & b & mk' & B1 & B2 & B3 & B4 & _); [eapply prefix_in; [apply (le_verifs _ _ Hle)|assumption]|].
      destruct (do_backups _ Hd b B2) as (mk2 & C1 & C2 & C3). rewrite (announced_unique E _ _ _ C1 Hmk') in C2, C3. rewrite B3, B4. auto. }
    { intros c []. }
    destruct Hgood as [(v & Hv & Vo & Vd & Vv)|(c & Hc & _)]; [|rewrite Cs in Hc; destruct Hc]. rewrite Vs in Hv.
    assert (Hvd : In v (kc_verifs d)) by (eapply prefix_in; [apply (le_verifs _ _ Hle)|assumption]).
    destruct (do_verifs _ Hd v Hvd) as (Jv & b & mk' & B1 & B2 & B3 & B4 & B5).
    destruct B5 as [B5|(B5 & k & kp & B6 & B7 & B8)]; [exfalso; apply Hne; congruence|].
    exists b, v, k, kp. split; [assumption|]. split; [assumption|]. split; [congruence|]. split; [congruence|].
    split; [|split; [congruence|split; [|assumption]]].
    - apply find_key_in. destruct (announced_facts E _ _ B1) as (_ & N & _). apply dget_in in B6. destruct (N _ _ B6) as [N1 _]. congruence.
    - replace r with (vf_verifier v) by congruence. assumption.
  Qed.
End Inv.
