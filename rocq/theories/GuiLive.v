(** * GuiLive: the key ceremony of the graphical application finishes. *)
From Verif Require Import Base Group Spec GroupFacts Codec Hash DLog ElGamal ZK Poly ListFacts Manifest Ballot Encrypt SpecElection
  Ceremony SpecCeremony MediatorFacts CeremonyFacts GuiCeremony SpecGui GuiFacts GuiJoin.
Import List.

Lemma NoDup_app' {A} (a b : list A) : NoDup a -> NoDup b -> (forall x, In x a -> In x b -> False) -> NoDup (a ++ b).
Proof.
  intros Ha Hb Hd. induction Ha as [|x a Hx Ha IH]; [assumption|]. cbn. constructor.
  - rewrite in_app_iff. intros [H|H]; [contradiction|]. apply (Hd x); [left; reflexivity|assumption].
  - apply IH. intros y Hy. apply Hd. right. assumption.
Qed.

Section Live.
  Context (E : env) (HE : valid_env E) (Hmac : hmac_32 E) (Hq : qq E <= 2 ^ 1024).
  Context (k : nat) (ss : list seat) (Hok : forall s, In s ss -> seat_ok E k s) (Hnd : NoDup (map st_id ss)).
  Let oth := others ss.
  Let n := len ss.
  Definition draws := (string -> string -> Z)%type.
  Definition file_of (s : seat) : private_record := mkPrivate (st_id s) (keys_of E s) [] [(st_id s, pk_of E s)] [] [].
  Definition table : list (string * list public_key) := map (fun s => (st_id s, map (pk_of E) (oth s))) ss.
  Definition block (p : seat * draws) : list backup := map (bk E (snd p) (fst p)) (fst p :: oth (fst p)).
  Definition vblock (i : seat) : list verification := map (fun j => good_verif j i) (oth i).
  Definition good_backup (j s : seat) (b : backup) : Prop := exists rnd : draws, (forall x y, 0 <= rnd x y) /\ b = bk E rnd j s.

  Lemma seat_inj s s' : In s ss -> In s' ss -> st_id s = st_id s' -> s = s'.
  Proof.
    clear - Hnd. induction ss as [|a l IH]; cbn in *; [intros []|]. inversion Hnd as [|? ? Ha Hl]; subst.
    intros [<-|Hs] [<-|Hs'] He; auto.
    - exfalso. apply Ha. rewrite He. apply in_map. assumption.
    - exfalso. apply Ha. rewrite <- He. apply in_map. assumption.
  Qed.

  (** what never changes: the seats are those of the guardians that join *)
  Record stat (d : kc) : Prop := {
    st_count : kc_count d = n;
    st_joined : prefix (kc_joined d) (map st_id ss);
    st_keys : forall key, In key (kc_keys d) -> exists s, In s ss /\ key = pk_of E s }.
  Definition full (d : kc) : Prop := kc_joined d = map st_id ss /\ forall s, In s ss -> In (pk_of E s) (kc_keys d).
  (** the shape of the rest *)
  Record live_doc (d : kc) : Prop := {
    ld_stat : stat d;
    ld_other : forall u ks, In (u, ks) (kc_other d) -> exists s, In s ss /\ st_id s = u /\ ks = map (pk_of E) (oth s);
    ld_other_all : kc_other d <> [] -> full d /\ forall s, In s ss -> exists ks, In (st_id s, ks) (kc_other d);
    ld_backups : exists posted : list (seat * draws), NoDup (map (fun p => st_id (fst p)) posted)
      /\ (forall p, In p posted -> In (fst p) ss /\ forall x y, 0 <= snd p x y) /\ kc_backups d = flat_map block posted;
    ld_shared : forall u bs, In (u, bs) (kc_shared d) -> exists s, In s ss /\ st_id s = u /\ Forall2 (fun j b => good_backup j s b) (oth s) bs;
    ld_shared_all : kc_shared d <> [] -> forall s, In s ss -> exists bs, In (st_id s, bs) (kc_shared d);
    ld_verifs : exists posted, NoDup (map st_id posted) /\ (forall s, In s posted -> In s ss) /\ kc_verifs d = flat_map vblock posted }.

  Lemma prefix_full d : stat d -> n <= len (kc_joined d) -> kc_joined d = map st_id ss.
  Proof.
    intros [_ Hp _] Hl. apply prefix_len_eq; [assumption|]. apply prefix_len in Hp. rewrite len_map in *. unfold n in *. lia.
  Qed.
  Lemma find_key_live d s : stat d -> In s ss -> In (pk_of E s) (kc_keys d) -> find_key d (st_id s) = Ok (pk_of E s).
  Proof.
    intros [_ _ Hk] Hs Hin. unfold find_key.
    destruct (find_first _ (kc_keys d)) as [key|] eqn:Hf.
    - apply find_first_some in Hf as [Hkin Ho]. apply eqb_spec in Ho. destruct (Hk _ Hkin) as (s' & Hs' & ->). do 2 f_equal. apply seat_inj; assumption.
    - pose proof (proj1 (find_first_none _ _) Hf _ Hin) as Hx. cbn in Hx. rewrite String.eqb_refl in Hx. discriminate.
  Qed.
  Lemma announce_full d : stat d -> full d ->
    announce_guardians d = Ok (m1 E ss (mkDetails (kc_count d) (kc_quorum d)) "mediator_1").
  Proof.
    intros Hst [Hj Hk]. unfold announce_guardians. rewrite Hj.
    assert (G : forall l pre, ss = pre ++ l -> rfold (fun m u => do key <- find_key d u; Ok (md_announce m key)) (map st_id l)
        (mkMediator "mediator_1" (mkDetails (kc_count d) (kc_quorum d)) (map (key_entry E) pre) [] [])
      = Ok (mkMediator "mediator_1" (mkDetails (kc_count d) (kc_quorum d)) (map (key_entry E) ss) [] [])).
    { induction l as [|s l IH]; intros pre Hss; [rewrite app_nil_r in Hss; subst pre; reflexivity|]. cbn [map rfold].
      assert (Hs : In s ss) by (rewrite Hss, in_app_iff; cbn; auto).
      rewrite (find_key_live d s Hst Hs (Hk s Hs)). cbn [rbind]. unfold md_announce. cbn [md_id md_details md_keys md_backups md_verifs].
      change (pk_owner (pk_of E s)) with (st_id s). rewrite dset_new.
      - specialize (IH (pre ++ [s])). rewrite map_app in IH. cbn [map] in IH. apply IH. rewrite <- app_assoc. exact Hss.
      - unfold dkeys. rewrite key_entry_fst. rewrite Hss, map_app in Hnd. cbn in Hnd. apply NoDup_remove_2 in Hnd. intros Hin. apply Hnd, in_app_iff. auto. }
    exact (G ss [] eq_refl).
  Qed.
  Lemma announce_needs d m : stat d -> n <= len (kc_joined d) -> announce_guardians d = Ok m -> full d.
  Proof.
    intros Hst Hl Ha. pose proof (prefix_full d Hst Hl) as Hj. split; [assumption|]. intros s Hs.
    destruct (announce_as_run E _ _ Ha) as (ks & K1 & _). assert (Hin : In (st_id s) (kc_joined d)) by (rewrite Hj; apply in_map; assumption).
    apply (Forall2_in_l _ _ _ _ K1) in Hin as [key [_ Hf]]. apply find_key_owner in Hf as [Ho Hin].
    destruct (st_keys _ Hst _ Hin) as (s' & Hs' & ->). assert (s' = s) by (apply seat_inj; assumption). congruence.
  Qed.
  Lemma details_number d : stat d -> dt_number (mkDetails (kc_count d) (kc_quorum d)) = len ss.
  Proof. intros Hst. cbn. apply (st_count _ Hst). Qed.

  (** ** the stages in closed form *)
  Lemma s2_full d : stat d -> full d -> s2_announce d = Ok table.
  Proof.
    intros Hst Hf. unfold s2_announce. rewrite announce_full by assumption. cbn [rbind]. destruct Hf as [Hj _]. rewrite Hj. unfold table.
    apply rmapM_iff. apply Forall2_map_l, Forall2_map_r, Forall2_diag. intros s Hs.
    unfold share_announced. rewrite (m1_announced E ss _ (details_number d Hst)) by reflexivity. cbn [negb get_optional rbind]. do 2 f_equal.
    cbn [md_keys m1]. rewrite filter_map_swap, map_map. reflexivity.
  Qed.
  Lemma find_other d s : live_doc d -> kc_other d <> [] -> In s ss -> find_entry (kc_other d) (st_id s) = Ok (map (pk_of E) (oth s)).
  Proof.
    intros Hd Hne Hs. destruct (ld_other_all _ Hd Hne) as [_ Hall]. destruct (Hall s Hs) as [ks Hin]. unfold find_entry.
    destruct (find_first _ (kc_other d)) as [[u ks']|] eqn:Hf.
    - apply find_first_some in Hf as [Hin' Ho]. apply eqb_spec in Ho. cbn in Ho. destruct (ld_other _ Hd _ _ Hin') as (s' & Hs' & Hu & ->).
      assert (s' = s) by (apply seat_inj; congruence). subst s'. reflexivity.
    - pose proof (proj1 (find_first_none _ _) Hf _ Hin) as Hx. cbn in Hx. rewrite String.eqb_refl in Hx. discriminate.
  Qed.
  Lemma load_full d files s : live_doc d -> kc_other d <> [] -> In s ss -> dget (st_id s) files = Some (file_of s) ->
    exists g, load_guardian files (st_id s) d = Ok g /\ load_other_keys d (st_id s) g = Ok (g1 E ss (mkDetails (kc_count d) (kc_quorum d)) s).
  Proof.
    intros Hd Hne Hs Hf. unfold load_guardian. rewrite Hf. eexists. split; [reflexivity|]. unfold load_other_keys. rewrite find_other by assumption. cbn [rbind].
    rewrite fold_save_keys. f_equal. unfold g1. cbn [guardian_from_private_record new_guardian save_guardian_key file_of pr_keys pr_pubkeys pr_backups pr_to_share pr_verifs
      gd_keys gd_details gd_to_share gd_pubkeys gd_backups gd_verifs]. f_equal. change (pk_owner (share_keys (keys_of E s))) with (st_id s).
    cbn [dset]. rewrite eqb_refl'. fold (pk_of E s). change [(st_id s, pk_of E s)] with (map (key_entry E) [s]).
    rewrite dict_fold_distinct; [reflexivity|rewrite key_entry_fst; apply others_nodup; assumption|].
    intros x Hx. rewrite key_entry_fst in Hx. apply in_map_iff in Hx as [r [<- Hr]]. apply others_in in Hr. cbn. intuition.
  Qed.
  Lemma s3_full d files rnd s : live_doc d -> kc_other d <> [] -> In s ss -> dget (st_id s) files = Some (file_of s) -> (forall u, 0 <= rnd u) ->
    s3_backups E files rnd (st_id s) d = Ok (block (s, fun _ => rnd)).
  Proof.
    intros Hd Hne Hs Hf Hr. unfold s3_backups. destruct (load_full d files s Hd Hne Hs Hf) as (g & -> & Hg). cbn [rbind]. rewrite Hg. cbn [rbind].
    rewrite (generate_all E HE Hmac Hq (fun _ => rnd) (fun _ => Hr) k ss Hok Hnd _ s Hs). cbn [rbind].
    unfold gd_share_backups, block, dvals. cbn [gd_to_share g2 fst snd]. unfold outbox. rewrite map_map. reflexivity.
  Qed.

  Definition rows (l : list (seat * draws)) : dict (string * string) backup :=
    flat_map (fun p => map (fun r => ((st_id (fst p), st_id r), bk E (snd p) (fst p) r)) (oth (fst p))) l.
  Lemma rows_owner l o r : In (o, r) (dkeys (rows l)) -> exists p, In p l /\ st_id (fst p) = o.
  Proof.
    unfold dkeys. intros Hin. apply in_map_iff in Hin as [[x b] [Heq Hin]]. cbn in Heq. subst x. unfold rows in Hin.
    apply in_flat_map in Hin as [p [Hp Hin]]. apply in_map_iff in Hin as [j [Heq _]]. exists p. inversion Heq; auto.
  Qed.
  Lemma receive_posted D l : dt_number D = len ss -> NoDup (map (fun p => st_id (fst p)) l) -> (forall p : seat * draws, In p l -> In (fst p) ss) ->
    receive_backups (m1 E ss D "mediator_1") (flat_map block l) = mkMediator "mediator_1" D (map (key_entry E) ss) (rows l) [].
  Proof.
    intros HD Hn Hin.
    assert (G : forall l pre, NoDup (map (fun p => st_id (fst p)) (pre ++ l)) -> (forall p : seat * draws, In p l -> In (fst p) ss) ->
      receive_backups (mkMediator "mediator_1" D (map (key_entry E) ss) (rows pre) []) (flat_map block l)
      = mkMediator "mediator_1" D (map (key_entry E) ss) (rows (pre ++ l)) []).
    { clear l Hn Hin. induction l as [|p l IH]; intros pre Hn Hin.
      - rewrite app_nil_r. unfold receive_backups. rewrite (m1_announced E ss D HD) by reflexivity. reflexivity.
      - cbn [flat_map]. unfold receive_backups. rewrite (m1_announced E ss D HD) by reflexivity. cbn [negb]. rewrite fold_left_app.
        pose proof (receive_own_backups E (snd p) ss Hnd D HD (fst p) (mkMediator "mediator_1" D (map (key_entry E) ss) (rows pre) [])
          (Hin p (or_introl eq_refl)) eq_refl eq_refl) as Hb.
        unfold receive_backups in Hb. rewrite (m1_announced E ss D HD) in Hb by reflexivity. cbn [negb] in Hb. unfold block at 2, oth. rewrite Hb.
        + cbn [md_id md_details md_keys md_backups md_verifs].
          specialize (IH (pre ++ [p])). rewrite <- app_assoc in IH. cbn [app] in IH. specialize (IH Hn (fun q Hq' => Hin q (or_intror Hq'))).
          unfold receive_backups in IH. rewrite (m1_announced E ss D HD) in IH by reflexivity. cbn [negb] in IH.
          assert (Hrows : rows (pre ++ [p]) = rows pre ++ map (fun r => ((st_id (fst p), st_id r), bk E (snd p) (fst p) r)) (others ss (fst p)))
            by (unfold rows; rewrite flat_map_app; cbn [flat_map]; rewrite app_nil_r; reflexivity).
          rewrite Hrows in IH. exact IH.
        + cbn [md_backups]. intros o r Ho. apply rows_owner in Ho as (p' & Hp' & <-). rewrite map_app in Hn. cbn in Hn. apply NoDup_remove_2 in Hn.
          intros He. apply Hn. apply in_app_iff. left. apply in_map_iff. exists p'. auto. }
    exact (G l [] Hn Hin).
  Qed.
  Lemma rows_len l : (forall p : seat * draws, In p l -> In (fst p) ss) -> len (rows l) = len l * (n - 1).
  Proof. intros Hin. unfold rows. apply flat_map_len. intros p Hp. rewrite len_map. unfold oth. apply others_len; auto. Qed.
  Lemma blocks_len l : (forall p : seat * draws, In p l -> In (fst p) ss) -> len (flat_map block l) = len l * n.
  Proof.
    intros Hin. apply flat_map_len. intros p Hp. unfold block. rewrite len_map, len_cons. unfold oth. rewrite others_len by auto. unfold n. lia.
  Qed.
  Lemma vblocks_len l : (forall p, In p l -> In p ss) -> len (flat_map vblock l) = len l * (n - 1).
  Proof. intros Hin. apply flat_map_len. intros p Hp. unfold vblock. rewrite len_map. unfold oth. apply others_len; auto. Qed.
  Lemma rows_nodup l : NoDup (map (fun p => st_id (fst p)) l) -> NoDup (dkeys (rows l)).
  Proof.
    induction l as [|p l IH]; intros Hl; [constructor|]. cbn in Hl. inversion Hl as [|? ? Hi Hl']; subst.
    cbn [rows flat_map]. unfold dkeys. rewrite map_app. fold (rows l). apply NoDup_app'.
    - rewrite map_map. cbn [fst]. rewrite <- (map_map st_id (fun r => (st_id (fst p), r))). apply FinFun.Injective_map_NoDup; [|apply others_nodup; assumption].
      intros a b Hab. congruence.
    - apply IH. assumption.
    - intros [o r] Hx Hy. rewrite map_map in Hx. apply in_map_iff in Hx as [r' [Heq _]]. inversion Heq; subst.
      apply rows_owner in Hy as (p' & Hp' & He). apply Hi. apply in_map_iff. exists p'. auto.
  Qed.

  Lemma nodup_le (l : list string) : NoDup l -> (forall x, In x l -> In x (map st_id ss)) -> len l <= n.
  Proof.
    intros Hl Hin. pose proof (NoDup_incl_length Hl Hin) as H. rewrite map_length in H. unfold n, len. lia.
  Qed.
  Lemma all_in (l : list string) : NoDup l -> (forall x, In x l -> In x (map st_id ss)) -> n <= len l -> forall s, In s ss -> In (st_id s) l.
  Proof.
    intros Hl Hin Hlen s Hs. refine (NoDup_length_incl Hl _ Hin _ (in_map st_id _ _ Hs)). rewrite map_length. unfold n, len in Hlen. lia.
  Qed.
  Lemma posted_all d (posted : list (seat * draws)) : 0 < n -> NoDup (map (fun p => st_id (fst p)) posted) -> (forall p, In p posted -> In (fst p) ss) ->
    kc_backups d = flat_map block posted -> n ^ 2 <= len (kc_backups d) -> len posted = n /\ forall s, In s ss -> exists rnd, In (s, rnd) posted.
  Proof.
    intros Hn Hpn Hin Hb Hl. rewrite Hb, blocks_len in Hl by assumption.
    assert (Hincl : forall x, In x (map (fun p : seat * draws => st_id (fst p)) posted) -> In x (map st_id ss)).
    { intros x Hx. apply in_map_iff in Hx as [p [<- Hp]]. apply in_map. auto. }
    pose proof (nodup_le _ Hpn Hincl) as Hle. rewrite len_map in Hle. assert (Hge : n <= len posted) by nia.
    split; [lia|]. intros s Hs. pose proof (all_in _ Hpn Hincl) as Ha. rewrite len_map in Ha. specialize (Ha Hge s Hs).
    apply in_map_iff in Ha as [[s' rnd] [He Hp]]. exists rnd. assert (s' = s) by (apply seat_inj; [apply (Hin _ Hp)|assumption|exact He]). congruence.
  Qed.
  Lemma s4_full d : live_doc d -> full d -> 0 < n -> n ^ 2 <= len (kc_backups d) ->
    exists l, s4_share d = Ok l /\ Forall2 (fun s e => fst e = st_id s /\ Forall2 (fun j b => good_backup j s b) (oth s) (snd e)) ss l.
  Proof.
    intros Hd Hf Hn Hl. pose proof (ld_stat _ Hd) as Hst. destruct (ld_backups _ Hd) as (posted & P1 & P2 & P3).
    destruct (posted_all d posted Hn P1 (fun p Hp => proj1 (P2 p Hp)) P3 Hl) as [Plen Pall].
    unfold s4_share. rewrite announce_full by assumption. cbn [rbind]. rewrite P3, receive_posted; [|apply details_number; assumption|assumption|intros p Hp; apply (P2 p Hp)].
    set (m := mkMediator _ _ _ _ _). destruct Hf as [Hj _]. rewrite Hj.
    assert (G : forall s, In s ss -> exists bs, share_backups m (Some (st_id s)) = Ok (Some bs) /\ Forall2 (fun j b => good_backup j s b) (oth s) bs).
    { intros s Hs. destruct (Hok s Hs) as (_ & Hne & _). unfold share_backups. rewrite (m1_announced E ss _ (details_number d Hst)) by reflexivity. cbn [negb].
      assert (Hget : forall j, In j (oth s) -> exists rnd, In (j, rnd) posted /\ dget (st_id j, st_id s) (rows posted) = Some (bk E rnd j s)).
      { intros j Hjo. apply others_in in Hjo as [Hjs Hjne]. destruct (Pall j Hjs) as [rnd Hr]. exists rnd. split; [assumption|].
        apply in_dget; [apply rows_nodup; assumption|]. unfold rows. apply in_flat_map. exists (j, rnd). split; [assumption|]. apply in_map_iff. exists s.
        split; [reflexivity|]. apply others_in. auto. }
      assert (Hto : exists bs, backups_to_guardian m (st_id s) = Ok bs /\ Forall2 (fun j b => good_backup j s b) (oth s) bs).
      { unfold backups_to_guardian. cbn [md_keys md_backups m]. unfold dkeys. rewrite key_entry_fst, filter_map_swap.
        replace (filter (fun x => negb (eqb (st_id s) (st_id x))) ss) with (oth s) by (unfold oth, others; apply filter_ext; intros; rewrite eqb_sym'; reflexivity).
        revert Hget. generalize (oth s). induction l as [|j l IH]; intros Hget; [exists []; split; [reflexivity|constructor]|].
        destruct IH as (bs & B1 & B2); [intros; apply Hget; right; assumption|]. destruct (Hget j (or_introl eq_refl)) as (rnd & R1 & R2).
        exists (bk E rnd j s :: bs). cbn [map rmapM]. unfold dindex at 1. rewrite R2. cbn [rbind]. rewrite B1. cbn [rbind]. split; [reflexivity|].
        constructor; [|assumption]. exists rnd. split; [apply (P2 _ R1)|reflexivity]. }
      destruct Hto as (bs & B1 & B2). exists bs. split; [|assumption]. destruct (st_id s) as [|c rest] eqn:Hid; [congruence|]. rewrite B1. reflexivity. }
    clear - G. assert (G' : forall l, (forall s, In s l -> In s ss) -> exists r, rmapM (fun u => do o <- share_backups m (Some u); match o with None => Err PyException | Some bs => Ok (u, bs) end) (map st_id l) = Ok r
      /\ Forall2 (fun s e => fst e = st_id s /\ Forall2 (fun j b => good_backup j s b) (oth s) (snd e)) l r).
    { induction l as [|s l IH]; intros Hl; [exists []; split; [reflexivity|constructor]|]. destruct IH as (r & R1 & R2); [intros; apply Hl; right; assumption|].
      destruct (G s (Hl s (or_introl eq_refl))) as (bs & B1 & B2). exists ((st_id s, bs) :: r). cbn [map rmapM]. rewrite B1. cbn [rbind]. rewrite R1. cbn [rbind].
      split; [reflexivity|]. constructor; [split; [reflexivity|assumption]|assumption]. }
    apply G'. auto.
  Qed.
  Lemma s5_loop_ok s l bs : In s ss -> (forall j, In j l -> In j (oth s)) -> Forall2 (fun j b => good_backup j s b) l bs -> forall g, gd_keys g = keys_of E s ->
    (forall j, In j (oth s) -> dget (st_id j) (gd_pubkeys g) = Some (pk_of E j)) ->
    s5_loop E bs g = Ok (map (fun j => good_verif j s) l).
  Proof.
    intros Hs Hl H. induction H as [|j b l bs Hb H IH]; intros g Hg Hp; [reflexivity|]. cbn [s5_loop map].
    destruct Hb as (rnd & Hr & ->). assert (Hj : In j (oth s)) by (apply Hl; left; reflexivity). pose proof Hj as Hj'. apply others_in in Hj' as [Hjs _].
    unfold gd_verify_backup. cbn [gd_save_backup gd_backups gd_pubkeys gd_keys]. change (bk_owner (bk E rnd j s)) with (st_id j). rewrite dget_dset_same, (Hp j Hj).
    unfold gd_id. cbn [gd_save_backup gd_keys]. rewrite Hg. change (ek_owner (keys_of E s)) with (st_id s).
    rewrite (bk_verifies E HE Hmac Hq rnd Hr k j s (Hok j Hjs) (Hok s Hs)). cbn [rbind].
    rewrite IH; [reflexivity|intros; apply Hl; right; assumption|exact Hg|exact Hp].
  Qed.
  Lemma s5_full d files s : live_doc d -> kc_other d <> [] -> kc_shared d <> [] -> In s ss -> dget (st_id s) files = Some (file_of s) ->
    s5_verify E files (st_id s) d = Ok (vblock s).
  Proof.
    intros Hd Hne Hsh Hs Hf. unfold s5_verify.
    assert (Hfe : exists bs, find_entry (kc_shared d) (st_id s) = Ok bs /\ Forall2 (fun j b => good_backup j s b) (oth s) bs).
    { destruct (ld_shared_all _ Hd Hsh s Hs) as [bs0 Hin]. unfold find_entry. destruct (find_first _ (kc_shared d)) as [[u bs]|] eqn:Hff.
      - apply find_first_some in Hff as [Hin' Ho]. apply eqb_spec in Ho. cbn in Ho. destruct (ld_shared _ Hd _ _ Hin') as (s' & Hs' & Hu & HF).
        assert (s' = s) by (apply seat_inj; congruence). subst s'. exists bs. auto.
      - pose proof (proj1 (find_first_none _ _) Hff _ Hin) as Hx. cbn in Hx. rewrite String.eqb_refl in Hx. discriminate. }
    destruct Hfe as (bs & -> & HF). cbn [rbind]. destruct (load_full d files s Hd Hne Hs Hf) as (g & -> & Hg). cbn [rbind]. rewrite Hg. cbn [rbind].
    unfold vblock. apply s5_loop_ok; auto. intros j Hj. cbn [gd_pubkeys g1].
    apply in_dget; [unfold dkeys, pubs; rewrite key_entry_fst; apply self_others_nodup; assumption|].
    unfold pubs. apply in_map_iff. exists j. split; [reflexivity|]. right. assumption.
  Qed.

  Definition vrows (l : list seat) : dict (string * string) verification :=
    flat_map (fun i => map (fun j => ((st_id j, st_id i), good_verif j i)) (oth i)) l.
  Lemma receive_vblocks l : forall m, NoDup (map st_id l) -> (forall o r, In (o, r) (dkeys (md_verifs m)) -> ~ In r (map st_id l)) ->
    fold_left md_receive_verification (flat_map vblock l) m = mkMediator (md_id m) (md_details m) (md_keys m) (md_backups m) (md_verifs m ++ vrows l).
  Proof.
    induction l as [|i l IH]; intros m Hl Hm; [cbn; rewrite app_nil_r; destruct m; reflexivity|]. cbn in Hl. inversion Hl as [|? ? Hi Hl']; subst.
    cbn [flat_map vrows]. rewrite fold_left_app. fold (vrows l).
    assert (Hrow : fold_left md_receive_verification (vblock i) m
      = mkMediator (md_id m) (md_details m) (md_keys m) (md_backups m) (md_verifs m ++ map (fun j => ((st_id j, st_id i), good_verif j i)) (oth i))).
    { rewrite <- (dict_fold_distinct (map (fun j => ((st_id j, st_id i), good_verif j i)) (oth i))).
      - unfold vblock. assert (Hin : forall j, In j (oth i) -> st_id j <> st_id i) by (intros j Hj; apply others_in in Hj; tauto).
        revert Hin. clear. generalize (oth i). intros l. revert m. induction l as [|j l IH]; intros m Hin; [destruct m; reflexivity|].
        cbn [map fold_left]. rewrite IH by (intros; apply Hin; right; assumption). unfold md_receive_verification. cbn [vf_owner vf_designated good_verif].
        assert (Hne : eqb (st_id j) (st_id i) = false) by (apply eqb_neq; apply Hin; left; reflexivity). rewrite Hne. reflexivity.
      - rewrite map_map. cbn [fst]. rewrite <- (map_map st_id (fun r => (r, st_id i))). apply FinFun.Injective_map_NoDup; [|apply others_nodup; assumption].
        intros a b Hab. congruence.
      - intros x Hx. rewrite map_map in Hx. apply in_map_iff in Hx as [j [<- _]]. cbn [fst]. intros Hc. apply (Hm _ _ Hc). left. reflexivity. }
    rewrite Hrow, IH; [cbn [md_id md_details md_keys md_backups md_verifs]; rewrite <- app_assoc; reflexivity|assumption|].
    cbn [md_verifs]. intros o r Hin. unfold dkeys in Hin. rewrite map_app, in_app_iff in Hin. destruct Hin as [Hin|Hin].
    - intros Hr. apply (Hm _ _ Hin). right. assumption.
    - rewrite map_map in Hin. apply in_map_iff in Hin as [j [Heq _]]. cbn in Heq. inversion Heq; subst. exact Hi.
  Qed.
  Lemma s6_full d : live_doc d -> full d -> 0 < n -> n ^ 2 <= len (kc_backups d) -> n ^ 2 - n <= len (kc_verifs d) -> exists j, s6_publish E d = Ok j.
  Proof.
    intros Hd Hf Hn Hl Hlv. pose proof (ld_stat _ Hd) as Hst. destruct (ld_backups _ Hd) as (posted & P1 & P2 & P3).
    destruct (posted_all d posted Hn P1 (fun p Hp => proj1 (P2 p Hp)) P3 Hl) as [Plen Pall]. destruct (ld_verifs _ Hd) as (vp & V1 & V2 & V3).
    unfold s6_publish. rewrite announce_full by assumption. cbn [rbind]. rewrite P3, receive_posted; [|apply details_number; assumption|assumption|intros p Hp; apply (P2 p Hp)].
    set (m := mkMediator _ _ _ _ _).
    assert (Hav : forall vs, all_backups_available (mkMediator (md_id m) (md_details m) (md_keys m) (md_backups m) vs) = true).
    { intros vs. unfold all_backups_available. rewrite (m1_announced E ss _ (details_number d Hst)) by reflexivity. cbn [andb md_backups md_details m].
      rewrite rows_len by (intros p Hp; apply (P2 p Hp)). rewrite Plen, details_number by assumption. apply Z.eqb_eq. unfold n. lia. }
    assert (Hm : all_backups_available m = true) by exact (Hav []). unfold receive_verifications. rewrite Hm. cbn [negb]. rewrite V3, receive_vblocks; [|assumption|intros o r []].
    unfold md_publish_joint_key, md_all_verified, get_verification_state. rewrite Hav. cbn [negb orb].
    assert (Hvlen : len (vrows vp) = (n - 1) * n).
    { unfold vrows. rewrite (flat_map_len _ _ (n - 1)); [|intros i Hi; rewrite len_map; unfold oth; apply others_len; auto].
      assert (Hle : len vp <= n). { rewrite <- (len_map st_id). apply nodup_le; [assumption|]. intros x Hx. apply in_map_iff in Hx as [s [<- Hs]]. apply in_map. auto. }
      rewrite V3, vblocks_len in Hlv by assumption. nia. }
    assert (Hall : all_verifications_received (mkMediator (md_id m) (md_details m) (md_keys m) (md_backups m) (md_verifs m ++ vrows vp)) = true).
    { unfold all_verifications_received. cbn [md_verifs md_details m app]. rewrite Hvlen, details_number by assumption. apply Z.eqb_eq. reflexivity. }
    rewrite Hall. cbn [negb orb]. cbn [md_verifs m app vs_all_verified].
    assert (Hff : filter (fun v => negb (vf_verified v)) (dvals (vrows vp)) = []).
    { assert (Hv : forall v, In v (dvals (vrows vp)) -> vf_verified v = true).
      { intros v Hin. unfold dvals in Hin. apply in_map_iff in Hin as [[p v'] [<- Hin]]. unfold vrows in Hin.
        apply in_flat_map in Hin as [i [_ Hin]]. apply in_map_iff in Hin as [j [Heq _]]. inversion Heq. reflexivity. }
      induction (dvals (vrows vp)) as [|v l IH]; [reflexivity|]. cbn [filter]. rewrite (Hv v) by (left; reflexivity). cbn [negb].
      apply IH. intros; apply Hv; right; assumption. }
    rewrite Hff. cbn. eexists. reflexivity.
  Qed.
End Live.
