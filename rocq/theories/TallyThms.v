(** * TallyThms: histories of tally operations. *)
From Verif Require Import Base Group Codec Hash DLog ElGamal ZK Manifest Ballot Box Tally Spec GroupFacts ListFacts SpecTally BallotFacts CryptoThms TallyFacts.
From Coq Require Import Permutation List.

(** ** the empty tally *)
Lemma build_selections_keys E os k : In k (dkeys (build_selections E os)) <-> In k (map sd_id os).
Proof. unfold build_selections. rewrite dict_of_keys, map_map. reflexivity. Qed.
Lemma build_selections_nodup E os : NoDup (dkeys (build_selections E os)).
Proof. apply dict_of_nodup. Qed.
Definition contest_ids (im : internal_manifest) : list string := map (fun d => cd_id (ph_desc d)) (im_contests im).
Lemma build_eq E im : NoDup (contest_ids im) -> build_collection E im =
  map (fun d => (cd_id (ph_desc d), mkTcon (cd_id (ph_desc d)) (cd_seq (ph_desc d)) (contest_hash E (ph_desc d))
                                 (build_selections E (cd_selections (ph_desc d))))) (im_contests im).
Proof. intros H. unfold build_collection. apply dict_of_distinct. rewrite map_map. exact H. Qed.
Lemma build_get E im d : NoDup (contest_ids im) -> In d (im_contests im) ->
  dget (cd_id (ph_desc d)) (build_collection E im) =
  Some (mkTcon (cd_id (ph_desc d)) (cd_seq (ph_desc d)) (contest_hash E (ph_desc d)) (build_selections E (cd_selections (ph_desc d)))).
Proof.
  intros Hn Hd. apply in_dget; [apply dict_of_nodup|]. rewrite build_eq by assumption.
  apply (in_map (fun d => (cd_id (ph_desc d), mkTcon (cd_id (ph_desc d)) (cd_seq (ph_desc d)) (contest_hash E (ph_desc d))
                                 (build_selections E (cd_selections (ph_desc d)))))). exact Hd.
Qed.
Lemma build_get_inv E im k tc : dget k (build_collection E im) = Some tc ->
  exists d, In d (im_contests im) /\ cd_id (ph_desc d) = k /\ tc_selections tc = build_selections E (cd_selections (ph_desc d)).
Proof.
  intros H. apply dget_in, dict_of_in in H. apply in_map_iff in H as [d [Heq Hd]]. injection Heq as <- <-. exists d. auto.
Qed.
Lemma build_dwf E im : dwf (build_collection E im).
Proof.
  split; [apply dict_of_nodup|]. intros k tc H. apply build_get_inv in H as (d & _ & _ & ->). apply build_selections_nodup.
Qed.
Lemma complete_fits E im b : NoDup (contest_ids im) -> complete im b ->
  forall c, In c (cb_contests b) -> fits_d (build_collection E im) c.
Proof.
  intros Hn Hc c Hin. destruct (Hc c Hin) as (d & Hd & Hid & Hne & Hall).
  eexists. rewrite <- Hid. split; [apply build_get; assumption|]. cbn [tc_selections]. split; [exact Hne|].
  intros k Hk. apply build_selections_keys, in_map_iff in Hk as [o [<- Ho]]. apply Hall, Ho.
Qed.

(** ** the closed form of a history *)
Section Hist.
  Context (E : env) (im : internal_manifest) (cx : context) (Hn : NoDup (contest_ids im)).
  Notation ok := (passes E im cx).
  Definition casts (bs : list sub_ballot) : string -> string -> list ciphertext :=
    fun k s => flat_map (fun b => votes_for (sb_ballot b) k s) (in_state CAST bs).
  Lemma casts_app l1 l2 k s : casts (l1 ++ l2) k s = casts l1 k s ++ casts l2 k s.
  Proof. unfold casts, in_state. rewrite filter_app, flat_map_app. reflexivity. Qed.
  Definition state_of (id : string) (cs ss : list string) (vf : string -> string -> list ciphertext) : tally :=
    mkTally id im cx cs ss (upd E vf (build_collection E im)).

  Lemma add_cast_ok id cs ss vf b : complete im (sb_ballot b) -> ~ In (sb_id b) cs ->
    add_cast E all_up (state_of id cs ss vf) b =
    (state_of id (cs ++ [sb_id b]) ss (fun k s => vf k s ++ votes_for (sb_ballot b) k s), Ok true).
  Proof.
    intros Hc Hi. unfold add_cast, state_of. cbn [ty_contests].
    rewrite add_contests_ok.
    - rewrite upd_upd. unfold with_cast, with_contests; cbn [ty_id ty_manifest ty_context ty_cast ty_spoiled ty_contests].
      unfold set_add. apply inb_false in Hi. rewrite Hi. reflexivity.
    - apply dwf_upd, build_dwf.
    - intros c Hin. apply fits_upd. apply (complete_fits E im (sb_ballot b)); assumption.
  Qed.

  Definition seen_ok (seen cs ss : list string) : Prop := forall i, In i seen <-> In i cs \/ In i ss.
  Lemma run_form id : forall h cs ss vf rs seen, seen_ok seen cs ss ->
    Forall (fun '(b, _) => complete im (sb_ballot b)) h ->
    exists cs' ss' rs', fold_left (fun '(t, rs) '(b, v) => let '(t', r) := append E all_up t b v in (t', rs ++ [r])) h (state_of id cs ss vf, rs)
      = (state_of id cs' ss' (fun k s => vf k s ++ casts (accepted ok seen h) k s), rs ++ rs') /\
      cs' = cs ++ map sb_id (in_state CAST (accepted ok seen h)) /\
      ss' = ss ++ map sb_id (in_state SPOILED (accepted ok seen h)) /\
      map said_yes rs' = answers ok seen h.
  Proof.
    induction h as [|[b v] h IH]; intros cs ss vf rs seen Hs HF; cbn [fold_left].
    - exists cs, ss, []. rewrite !app_nil_r. split; [|auto]. f_equal. unfold state_of. f_equal. apply upd_ext.
      intros k s. cbn. rewrite app_nil_r. reflexivity.
    - inversion HF as [|? ? Hc HF']; subst. cbn [accepted answers].
      assert (Hcont : tally_contains (state_of id cs ss vf) b = inb (sb_id b) seen).
      { unfold tally_contains, state_of. cbn [ty_cast ty_spoiled]. apply eq_iff_eq_true.
        rewrite orb_true_iff, !inb_spec. symmetry. apply Hs. }
      unfold append at 2. rewrite Hcont. cbn [state_of ty_manifest ty_context].
      assert (Hno : forall r, said_yes r = false -> exists cs' ss' rs',
         fold_left (fun '(t, rs) '(b, v) => let '(t', r) := append E all_up t b v in (t', rs ++ [r])) h (state_of id cs ss vf, rs ++ [r])
         = (state_of id cs' ss' (fun k s => vf k s ++ casts (accepted ok seen h) k s), rs ++ rs') /\
         cs' = cs ++ map sb_id (in_state CAST (accepted ok seen h)) /\
         ss' = ss ++ map sb_id (in_state SPOILED (accepted ok seen h)) /\
         map said_yes rs' = false :: answers ok seen h).
      { intros r Hr. destruct (IH cs ss vf (rs ++ [r]) seen Hs HF') as (cs' & ss' & rs' & H1 & H2 & H3 & H4).
        exists cs', ss', (r :: rs'). rewrite H1, <- app_assoc. cbn [map app]. rewrite Hr, H4. auto. }
      destruct (box_state_eqb (sb_state b) UNKNOWN) eqn:Hu; cbn [negb andb]; [apply Hno; reflexivity|].
      destruct (inb (sb_id b) seen) eqn:Hin; cbn [negb andb]; [apply Hno; reflexivity|].
      assert (Hp : ok b v = match ballot_valid_for_election E (sb_ballot b) im cx v with Ok true => true | _ => false end) by reflexivity.
      rewrite Hp. clear Hp.
      destruct (ballot_valid_for_election E (sb_ballot b) im cx v) as [[|]|e]; [|apply Hno; reflexivity|apply Hno; reflexivity].
      apply inb_false in Hin.
      assert (Hs1 : ~ In (sb_id b) cs /\ ~ In (sb_id b) ss) by (split; intros H; apply Hin, Hs; auto).
      destruct (sb_state b) eqn:Hst; [| |discriminate].
      + rewrite add_cast_ok; [|exact Hc|apply Hs1].
        destruct (IH (cs ++ [sb_id b]) ss (fun k s => vf k s ++ votes_for (sb_ballot b) k s) (rs ++ [Ok true]) (sb_id b :: seen)) as (cs' & ss' & rs' & H1 & H2 & H3 & H4).
        { intros i. rewrite in_app_iff. cbn [In]. rewrite (Hs i). tauto. }
        { exact HF'. }
        exists cs', ss', (Ok true :: rs'). rewrite H1. unfold in_state in *. cbn [filter]. rewrite Hst. cbn [box_state_eqb map app said_yes].
        split; [|split; [rewrite H2, <- app_assoc; reflexivity|split; [exact H3|rewrite H4; reflexivity]]].
        rewrite <- app_assoc. f_equal. unfold state_of. f_equal. apply upd_ext. intros k s.
        unfold casts, in_state. cbn [filter]. rewrite Hst. cbn [box_state_eqb flat_map]. rewrite app_assoc. reflexivity.
      + assert (Hsp : add_spoiled (state_of id cs ss vf) b = state_of id cs (ss ++ [sb_id b]) vf).
        { unfold add_spoiled, state_of, set_add; cbn [ty_id ty_manifest ty_context ty_cast ty_spoiled ty_contests].
            destruct Hs1 as [_ Hs2]. apply inb_false in Hs2. rewrite Hs2. reflexivity. }
        change (mkTally id im cx cs ss (upd E vf (build_collection E im))) with (state_of id cs ss vf). rewrite Hsp.
        destruct (IH cs (ss ++ [sb_id b]) vf (rs ++ [Ok true]) (sb_id b :: seen)) as (cs' & ss' & rs' & H1 & H2 & H3 & H4).
        { intros i. rewrite in_app_iff. cbn [In]. rewrite (Hs i). tauto. }
        { exact HF'. }
        exists cs', ss', (Ok true :: rs'). rewrite H1. unfold in_state in *. cbn [filter]. rewrite Hst. cbn [box_state_eqb map app said_yes].
        split; [|split; [exact H2|split; [rewrite H3, <- app_assoc; reflexivity|rewrite H4; reflexivity]]].
        rewrite <- app_assoc. f_equal. unfold state_of. f_equal. apply upd_ext. intros k s.
        unfold casts, in_state. cbn [filter]. rewrite Hst. reflexivity.
  Qed.

  Lemma new_tally_state id : new_tally E id im cx = state_of id [] [] (fun _ _ => []).
  Proof. unfold new_tally, state_of. rewrite upd_nil. reflexivity. Qed.

  Lemma run_appends_form id h : Forall (fun '(b, _) => complete im (sb_ballot b)) h ->
    fst (run_appends E all_up (new_tally E id im cx) h) =
      state_of id (map sb_id (in_state CAST (accepted ok [] h))) (map sb_id (in_state SPOILED (accepted ok [] h))) (casts (accepted ok [] h)) /\
    map said_yes (snd (run_appends E all_up (new_tally E id im cx) h)) = answers ok [] h.
  Proof.
    intros HF. unfold run_appends. rewrite new_tally_state.
    destruct (run_form id h [] [] (fun _ _ => []) [] []) as (cs' & ss' & rs' & H1 & H2 & H3 & H4).
    - intros i. cbn. tauto.
    - exact HF.
    - rewrite H1. cbn [fst snd app] in *. subst cs' ss'. split; [reflexivity|exact H4].
  Qed.
End Hist.

(** ** what the totals are *)
Lemma fold_ct_product E (HE : valid_env E) l : fold_left (ct_mul E) l (mkCt 1 1) = product E l.
Proof.
  assert (Hp : 1 < pp E) by (destruct (ve_p E HE); assumption).
  assert (H : forall l a, 0 <= ct_pad a < pp E -> 0 <= ct_data a < pp E ->
    fold_left (ct_mul E) l a = mkCt ((ct_pad a * prodZ (map ct_pad l)) mod pp E) ((ct_data a * prodZ (map ct_data l)) mod pp E)).
  { clear l. induction l as [|x l IH]; intros a H1 H2; cbn [fold_left map prodZ fold_right].
    - rewrite !Z.mul_1_r, !Z.mod_small by lia. destruct a; reflexivity.
    - rewrite IH; unfold ct_mul; cbn [ct_pad ct_data]; rewrite ?(mult2 E HE); try (apply Z.mod_pos_bound; lia).
      rewrite !Zmult_mod_idemp_l. fold (prodZ (map ct_pad l)) (prodZ (map ct_data l)). f_equal; f_equal; ring. }
  rewrite H by (cbn; lia). cbn [ct_pad ct_data]. rewrite !Z.mul_1_l. reflexivity.
Qed.
Lemma total_of_state E im cx id cs ss vf d o : valid_env E -> NoDup (contest_ids im) ->
  In d (im_contests im) -> In o (cd_selections (ph_desc d)) ->
  total_of (state_of E im cx id cs ss vf) (cd_id (ph_desc d)) (sd_id o) = Some (product E (vf (cd_id (ph_desc d)) (sd_id o))).
Proof.
  intros HE Hn Hd Ho. unfold total_of, state_of. cbn [ty_contests]. rewrite dget_upd, build_get by assumption.
  cbn [option_map tc_selections]. rewrite dget_upd_sel.
  assert (Hk : In (sd_id o) (dkeys (build_selections E (cd_selections (ph_desc d))))).
  { apply build_selections_keys, in_map, Ho. }
  apply dget_some_key in Hk as [t Ht]. rewrite Ht. cbn [option_map ts_with ts_ct].
  assert (Hct : ts_ct t = mkCt 1 1).
  { apply dget_in, dict_of_in, in_map_iff in Ht as [o' [Heq _]]. injection Heq as _ <-. reflexivity. }
  rewrite Hct, (fold_ct_product E HE). reflexivity.
Qed.

Theorem tally_history E im cx id h : valid_env E -> NoDup (contest_ids im) ->
  Forall (fun '(b, _) => complete im (sb_ballot b)) h ->
  let t := fst (run_appends E all_up (new_tally E id im cx) h) in
  let acc := accepted (passes E im cx) [] h in
  (forall d o, In d (im_contests im) -> In o (cd_selections (ph_desc d)) ->
     total_of t (cd_id (ph_desc d)) (sd_id o) =
     Some (product E (flat_map (fun b => votes_for (sb_ballot b) (cd_id (ph_desc d)) (sd_id o)) (in_state CAST acc)))) /\
  ty_cast t = map sb_id (in_state CAST acc) /\ ty_spoiled t = map sb_id (in_state SPOILED acc) /\
  map said_yes (snd (run_appends E all_up (new_tally E id im cx) h)) = answers (passes E im cx) [] h.
Proof.
  intros HE Hn HF. destruct (run_appends_form E im cx Hn id h HF) as [H1 H2]. cbv zeta. rewrite H1.
  split; [|split; [reflexivity|split; [reflexivity|exact H2]]].
  intros d o Hd Ho. rewrite total_of_state by assumption. reflexivity.
Qed.

(** at most one ciphertext per ballot and option when its contests are distinct *)
Lemma votes_for_at_most_one b cid oid : NoDup (map bc_id (cb_contests b)) -> (List.length (votes_for b cid oid) <= 1)%nat.
Proof.
  unfold votes_for. induction (cb_contests b) as [|c cs IH]; intros Hn; cbn [flat_map List.length map] in *; [lia|].
  inversion Hn as [|? ? Hni Hn']; subst. rewrite app_length. destruct (String.eqb_spec (bc_id c) cid) as [Hc|Hc].
  - assert (Hz : forall l, ~ In cid (map bc_id l) -> flat_map (fun c => if String.eqb (bc_id c) cid
                     then match find (fun s => String.eqb oid (cs_id s)) (bc_selections c) with
                          | Some s => [cs_ct s] | None => [] end else []) l = []).
    { induction l as [|x l IHl]; intros H; [reflexivity|]. cbn [flat_map map In] in *.
      destruct (String.eqb_spec (bc_id x) cid) as [Hx|_]; [exfalso; apply H; left; exact Hx|]. apply IHl. tauto. }
    rewrite Hc in Hni. rewrite (Hz cs Hni). destruct (find _ (bc_selections c)); cbn; lia.
  - cbn [List.length]. specialize (IH Hn'). lia.
Qed.

Lemma product_encrypts E (HE : valid_env E) K : in_subgroup E K ->
  forall (l : list (ciphertext * Z * Z)), Forall (fun '(c, r, m) => 0 <= r /\ 0 <= m /\ is_encryption E K r m (ct_pad c) (ct_data c)) l ->
  is_encryption E K (sumZ (map (fun '(_, r, _) => r) l)) (sumZ (map (fun '(_, _, m) => m) l))
     (ct_pad (product E (map (fun '(c, _, _) => c) l))) (ct_data (product E (map (fun '(c, _, _) => c) l))).
Proof.
  intros HK l HF. assert (Hp : 1 < pp E) by (destruct (ve_p E HE); assumption).
  assert (H1 : is_encryption E K 0 0 1 1).
  { split; cbn; rewrite Z.mod_small; lia. }
  destruct (add_encryptions E HE K ((mkCt 1 1, 0, 0) :: l) HK) as [c [Hc Henc]]; [discriminate| |].
  - constructor; [split; [lia|split; [lia|exact H1]]|exact HF].
  - cbn [map elgamal_add] in Hc. rewrite (fold_ct_product E HE) in Hc. injection Hc as <-.
    cbn [map sumZ fold_right] in Henc. rewrite !Z.add_0_l in Henc. exact Henc.
Qed.

(** if each counted ballot encrypts a value for an option, the total encrypts the sum *)
Lemma tally_encrypts_sum E im cx id h K : valid_env E -> NoDup (contest_ids im) -> in_subgroup E K ->
  Forall (fun '(b, _) => complete im (sb_ballot b)) h ->
  let t := fst (run_appends E all_up (new_tally E id im cx) h) in
  let counted := in_state CAST (accepted (passes E im cx) [] h) in
  forall d o (value : sub_ballot -> Z), In d (im_contests im) -> In o (cd_selections (ph_desc d)) ->
    (forall b, In b counted ->
       (votes_for (sb_ballot b) (cd_id (ph_desc d)) (sd_id o) = [] /\ value b = 0) \/
       exists c r, votes_for (sb_ballot b) (cd_id (ph_desc d)) (sd_id o) = [c] /\ 0 <= r /\ 0 <= value b /\
                   is_encryption E K r (value b) (ct_pad c) (ct_data c)) ->
    exists c r, total_of t (cd_id (ph_desc d)) (sd_id o) = Some c /\ 0 <= r /\
      is_encryption E K r (sumZ (map value counted)) (ct_pad c) (ct_data c).
Proof.
  intros HE Hn HK HF t counted d o value Hd Ho Hval.
  destruct (tally_history E im cx id h HE Hn HF) as [H1 _]. specialize (H1 d o Hd Ho). fold t counted in H1.
  assert (Hl : forall bs, (forall b, In b bs -> In b counted) -> exists l : list (ciphertext * Z * Z),
     flat_map (fun b => votes_for (sb_ballot b) (cd_id (ph_desc d)) (sd_id o)) bs = map (fun '(c, _, _) => c) l /\
     sumZ (map value bs) = sumZ (map (fun '(_, _, m) => m) l) /\
     Forall (fun '(c, r, m) => 0 <= r /\ 0 <= m /\ is_encryption E K r m (ct_pad c) (ct_data c)) l).
  { induction bs as [|b bs IH]; intros Hb; [exists []; cbn; auto|].
    destruct IH as (l & L1 & L2 & L3); [intros; apply Hb; right; assumption|].
    destruct (Hval b (Hb b (or_introl eq_refl))) as [[V1 V2]|(c & r & V1 & V2 & V3 & V4)].
    - exists l. cbn [flat_map map sumZ fold_right]. rewrite V1, V2. cbn [app]. split; [exact L1|]. split; [|exact L3].
      fold (sumZ (map value bs)). lia.
    - exists ((c, r, value b) :: l). cbn [flat_map map sumZ fold_right]. rewrite V1, L1. cbn [app]. split; [reflexivity|]. split; [|constructor; auto].
      fold (sumZ (map value bs)). rewrite L2. reflexivity. }
  destruct (Hl counted (fun b H => H)) as (l & L1 & L2 & L3).
  exists (product E (map (fun '(c, _, _) => c) l)), (sumZ (map (fun '(_, r, _) => r) l)).
  rewrite H1, L1. split; [reflexivity|]. split.
  - apply sumZ_nonneg. apply Forall_forall. intros x Hx. apply in_map_iff in Hx as [[[c r] m] [<- Hx]].
    rewrite Forall_forall in L3. specialize (L3 _ Hx). cbn in L3. tauto.
  - rewrite L2. apply product_encrypts; assumption.
Qed.
