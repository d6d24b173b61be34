(** * CliVotes: the commands encrypt-ballots, submit-ballots and import-ballots. *)
From Coq Require Import Permutation List Znumtheory Ascii.
From Verif Require Import Base Group Codec Hash DLog ElGamal ZK Poly Manifest Ballot Encrypt Box Tally Spec SpecElection SpecTally
  ListFacts GroupFacts ZKFacts CryptoThms ManifestThms EncryptFacts BallotFacts EncryptThms TallyFacts TallyThms TallyMore BoxFacts
  Ceremony SpecCeremony Shares SpecShares SharesFacts ShareRun SharesThms SharesMore Verify SpecVerify VerifyFacts SpecEndToEnd EndToEnd
  GuiDecrypt GuiDecPure GuiElection Report SpecReport ReportFacts ReportLink ReportPages Cli SpecCli CliDec CliRun CliPaths CliE2e CliFiles CliThms CliPipe.
Local Open Scope Z_scope.
Local Open Scope list_scope.

Section Votes.
  Context (E : env) (HE : valid_env E) (m : manifest) (im : internal_manifest) (Hm : make_internal E m = Ok im) (Hv : manifest_is_valid m = true) (nm : string) (Hnm : get_name m = Ok nm) (Hdist : distinct_option_ids im).
  Context (n k key h : Z).
  Notation cx := (make_context E n k key h (im_hash im)).
  Context (HK : in_subgroup E key).
  (** the ciphertext of a ballot *)
  Definition cipher_of (b : pt_ballot) (eb : ct_ballot) : Prop := exists v, vr_ballot v = b /\ encrypted_as E im cx v eb.
  Lemma cipher_id b eb : usable_style E im b -> cipher_of b eb -> cb_id eb = pb_id b.
  Proof using HE HK. intros Hst (v & <- & He). destruct (voter_contests E im cx HE HK v eb He Hst) as (_ & _ & H & _). exact H. Qed.
  Lemma cipher_valid b eb : usable_style E im b -> cipher_of b eb -> ballot_valid_for_election E eb im cx true = Ok true.
  Proof using HE HK Hv Hm.
    intros Hst (v & <- & He). destruct (voter_contests E im cx HE HK v eb He Hst) as (ds & H1 & H2 & _ & H3 & H4 & H5).
    destruct (encrypted_ballot_valid E m im cx (vr_ballot v) _ _ _ _ _ eb ds HE Hv Hm HK H1 H3 H4 H5 He) as (_ & H & _). exact H.
  Qed.
  (** *** encrypt-ballots *)
  Section Encrypt.
    Context (ch : chance) (HF : fair E ch) (mp cp bp ed : string) (dk : disk) (Hp : proper_disk dk) (Hmf : dget mp (dk_files dk) = Some (JManifest m)) (Hcf : dget cp (dk_files dk) = Some (JContext cx)).
    Context (bs : list pt_ballot) (Hbs : plain_ballots dk bp bs) (Hst : forall b, In b bs -> usable_style E im b) (Hed : plain_dir ed) (Hids : file_ids bs).
    Notation run := (encrypt_command E ch mp cp bp (Some ed) dk).
    Definition enc_entries (ebs : list ct_ballot) : list (content * string) := (JDevice (ch_device ch), "device"%string) :: map (fun b => (JCipher b, cb_id b)) ebs.
    Lemma encrypt_run : exists bs', Permutation bs' bs /\
      run = match encrypt_votes E ch bs' im cx with Err e => failed dk e | Ok ebs => let '(dk1, a) := to_files dk (map (fun e : content * string => (fst e, snd e, ed)) (enc_entries ebs)) in mkOut dk1 None a end.
    Proof using Hnm Hm Hv HF Hp Hmf Hcf Hbs.
      destruct (plain_read (ch_order ch) dk bp bs (fa_order E ch HF) Hp Hbs) as (bs' & HP & HR). exists bs'. split; [exact HP|]. unfold encrypt_command. rewrite (manifest_gets dk mp m nm Hmf Hv Hnm). cbn [rbind].
      rewrite (context_read dk cp _ Hcf). cbn [rbind]. rewrite HR. cbn [rbind]. rewrite (rebuilt E n k key h m im Hm Hv). cbn [rbind fst snd]. destruct (encrypt_votes E ch bs' im cx); [|reflexivity]. unfold enc_entries. cbn [map]. rewrite map_map. reflexivity.
    Qed.
    Lemma encrypted_pairs bs' ebs : Permutation bs' bs -> encrypt_votes E ch bs' im cx = Ok ebs -> Forall2 cipher_of bs' ebs /\ map cb_id ebs = map pb_id bs'.
    Proof using HE HK Hst.
      intros HP He. destruct (encrypt_loop_sound E (fun _ => CAST) _ _ _ _ _ _ _ He) as (vs & V1 & V2). assert (HC : Forall2 cipher_of bs' ebs).
      { clear -V1 V2. revert ebs V2. induction V1 as [|v b vs bs [H1 H2] V1 IH]; intros ebs V2; inversion V2 as [|? eb ? ebs' He V2']; subst; constructor; [exists v; split; [reflexivity|exact He]|apply IH, V2']. }
      split; [exact HC|]. assert (Hst' : forall b, In b bs' -> usable_style E im b) by (intros b Hb; apply Hst, (Permutation_in _ HP), Hb). clear V1 V2 He HP. induction HC as [|b eb bs' ebs H HC IH]; [reflexivity|].
      cbn [map]. rewrite IH by (intros x Hx; apply Hst'; right; exact Hx). rewrite (cipher_id b eb (Hst' b (or_introl eq_refl)) H). reflexivity.
    Qed.
    Lemma entries_fine bs' ebs : Permutation bs' bs -> map cb_id ebs = map pb_id bs' -> NoDup (map snd (enc_entries ebs)) /\ forall e, In e (enc_entries ebs) -> has_slash (snd e) = false.
    Proof using Hids.
      intros HP Hi. destruct Hids as [I1 I2]. assert (Hm' : map snd (enc_entries ebs) = "device"%string :: map pb_id bs') by (unfold enc_entries; cbn [map snd]; rewrite map_map, <- Hi; reflexivity). rewrite Hm'. split.
      - constructor; [|apply (Permutation_NoDup (Permutation_sym (Permutation_map pb_id HP))), I1]. intros H. apply in_map_iff in H as (b & Hb & Hin). destruct (I2 b (Permutation_in _ HP Hin)) as [_ Hd]. exact (Hd Hb).
      - intros e [<-|He]; [reflexivity|]. apply in_map_iff in He as (b & <- & Hb). cbn [snd]. apply (in_map cb_id) in Hb. rewrite Hi in Hb. apply in_map_iff in Hb as (b' & <- & Hb'). apply (I2 b' (Permutation_in _ HP Hb')).
    Qed.
    Lemma encrypt_done : oc_end run = Ok tt -> (forall b, In b bs -> exists eb, cipher_of b eb /\ dget (file_named ed (pb_id b)) (dk_files (oc_disk run)) = Some (JCipher eb)) /\
      dget (file_named ed "device") (dk_files (oc_disk run)) = Some (JDevice (ch_device ch)).
    Proof using HE HK Hnm Hm Hv HF Hp Hmf Hcf Hbs Hst Hed Hids.
      destruct encrypt_run as (bs' & HP & ->). destruct (encrypt_votes E ch bs' im cx) as [ebs|] eqn:He; [|discriminate]. destruct (encrypted_pairs bs' ebs HP He) as [HC Hi]. destruct (entries_fine bs' ebs HP Hi) as [F1 F2].
      destruct (to_files dk _) as [dk1 a] eqn:Ht. cbn [oc_end oc_disk]. intros ->. destruct (dir_read ed Hed _ F1 F2 _ _ Ht) as [R1 _]. split.
      - intros b Hb. apply (Permutation_in _ (Permutation_sym HP)) in Hb. destruct (Forall2_in_l _ _ _ _ HC Hb) as (eb & Heb & Hc). exists eb. split; [exact Hc|].
        specialize (R1 (JCipher eb, cb_id eb)). cbn [fst snd] in R1. rewrite (cipher_id b eb) in R1; [|apply Hst, (Permutation_in _ HP), Hb|exact Hc]. apply R1. right. apply in_map_iff. exists eb. split; [|exact Heb].
        rewrite (cipher_id b eb); [reflexivity|apply Hst, (Permutation_in _ HP), Hb|exact Hc].
      - apply (R1 (JDevice (ch_device ch), "device"%string)). left. reflexivity.
    Qed.
    Lemma encrypt_ends : (forall i b, In b bs -> can_encrypt E im b (ch_ballot ch i)) -> writable dk ed ("device"%string :: map pb_id bs) -> oc_end run = Ok tt.
    Proof using HE HK Hnm Hm Hv HF Hp Hmf Hcf Hbs Hst Hed Hids.
      intros Hce Hw. destruct encrypt_run as (bs' & HP & ->). destruct (encrypt_loop_runs E (ch_ballot ch) im cx HK bs' 0 (device_hash E (ch_device ch))) as [ebs He]; [intros i b Hb; apply Hce, (Permutation_in _ HP), Hb|].
      assert (He' : encrypt_votes E ch bs' im cx = Ok ebs) by exact He. rewrite He'. destruct (encrypted_pairs bs' ebs HP He') as [HC Hi]. destruct (entries_fine bs' ebs HP Hi) as [F1 F2].
      destruct (dir_writes ed Hed _ F2 dk) as (dk' & -> & _); [|reflexivity]. intros f Hf. apply Hw. assert (Hm' : map snd (enc_entries ebs) = "device"%string :: map pb_id bs') by (unfold enc_entries; cbn [map snd]; rewrite map_map, <- Hi; reflexivity). rewrite Hm' in Hf. destruct Hf as [<-|Hf]; [left; reflexivity|right].
      apply (Permutation_in _ (Permutation_map pb_id HP)), Hf.
    Qed.
  End Encrypt.
  (** *** submit-ballots *)
  (** the file of a submitted ballot *)
  Definition sub_of (it : pt_ballot * box_state) (sb : sub_ballot) : Prop := exists eb, cipher_of (fst it) eb /\ sb = submit_ballot E eb (snd it).
  Section Submit.
    Context (ch : chance) (HF : fair E ch) (mp cp cd : string) (sd : option string) (td : string) (dk from : disk) (Hp : proper_disk dk) (Hmf : dget mp (dk_files dk) = Some (JManifest m)) (Hcf : dget cp (dk_files dk) = Some (JContext cx)).
    Context (cast spoiled : list pt_ballot) (file : pt_ballot -> string) (Hst : forall b, In b (cast ++ spoiled) -> usable_style E im b) (Htd : plain_dir td) (Hids : NoDup (map pb_id (cast ++ spoiled))).
    Context (Hfiles : forall b, In b (cast ++ spoiled) -> exists eb, cipher_of b eb /\ dget (file b) (dk_files from) = Some (JCipher eb)).
    Context (Hcd : copies dk cd from (map file cast)) (Hsd : match sd with Some d => copies dk d from (map file spoiled) | None => spoiled = [] end) (Hsl : forall b, In b (cast ++ spoiled) -> has_slash (pb_id b) = false).
    Notation run := (submit_command E ch mp cp cd sd (Some td) dk).
    Definition items : list (pt_ballot * box_state) := map (fun b => (b, CAST)) cast ++ map (fun b => (b, SPOILED)) spoiled.
    Lemma ciphers_of l : incl l (cast ++ spoiled) -> exists ebs, Forall2 cipher_of l ebs /\ Forall2 (fun p v => dget p (dk_files from) = Some (JCipher v)) (map file l) ebs.
    Proof using Hfiles.
      induction l as [|b l IH]; intros Hi; [exists []; split; constructor|]. destruct (Hfiles b (Hi b (or_introl eq_refl))) as (eb & H1 & H2). destruct IH as (ebs & I1 & I2); [intros x Hx; apply Hi; right; exact Hx|].
      exists (eb :: ebs). split; [constructor; assumption|]. cbn [map]. constructor; assumption.
    Qed.
    Lemma cipher_ids l ebs : incl l (cast ++ spoiled) -> Forall2 cipher_of l ebs -> map cb_id ebs = map pb_id l.
    Proof using HE HK Hst. intros Hi HC. induction HC as [|b eb l ebs H HC IH]; [reflexivity|]. cbn [map]. rewrite IH by (intros x Hx; apply Hi; right; exact Hx). rewrite (cipher_id b eb); [reflexivity|apply Hst, Hi; left; reflexivity|exact H]. Qed.
    Lemma submit_run : exists c' s' ec es, Permutation c' cast /\ Permutation s' spoiled /\ Forall2 cipher_of c' ec /\ Forall2 cipher_of s' es /\
      let sbs := map (fun b => submit_ballot E b CAST) ec ++ map (fun b => submit_ballot E b SPOILED) es in
      map sb_id sbs = map pb_id (c' ++ s') /\ run = let '(dk1, a) := to_files dk (map (fun e : content * string => (fst e, snd e, td)) (map (fun b => (JSubmitted b, sb_id b)) sbs)) in mkOut dk1 None a.
    Proof using HE HK Hnm Hm Hv HF Hp Hmf Hcf Hst Hids Hfiles Hcd Hsd Hsl.
      assert (Ic : incl cast (cast ++ spoiled)) by (intros x Hx; apply in_or_app; left; exact Hx). assert (Is : incl spoiled (cast ++ spoiled)) by (intros x Hx; apply in_or_app; right; exact Hx).
      destruct (ciphers_of cast Ic) as (ec0 & C1 & C2). destruct (ciphers_of spoiled Is) as (es0 & S1 & S2).
      destruct (copies_read JCipher (ch_order ch) as_cipher dk cd from _ ec0 (fa_order E ch HF) Hp (fun _ => eq_refl) Hcd C2) as (ec & P1 & _ & R1).
      assert (HS : exists es, Permutation es es0 /\ match sd with Some d => get_ballots_at (ch_order ch) as_cipher no_list dk d | None => Ok [] end = Ok es).
      { destruct sd as [d|]; [destruct (copies_read JCipher (ch_order ch) as_cipher dk d from _ es0 (fa_order E ch HF) Hp (fun _ => eq_refl) Hsd S2) as (es & P2 & _ & R2); exists es; auto|].
        subst spoiled. inversion S1; subst. exists []. auto. }
      destruct HS as (es & P2 & R2). assert (F : forall a b, Forall2 cipher_of a b -> Forall2 (fun y x => cipher_of x y) b a) by (intros a b H; induction H; constructor; auto). assert (F' : forall a b, Forall2 (fun y x => cipher_of x y) b a -> Forall2 cipher_of a b) by (intros a b H; induction H; constructor; auto).
      destruct (permuted_F2 _ _ _ P1 _ (F _ _ C1)) as (c' & C3 & C4). destruct (permuted_F2 _ _ _ P2 _ (F _ _ S1)) as (s' & S3 & S4). apply F' in C3, S3. exists c', s', ec, es. split; [exact C4|]. split; [exact S4|]. split; [exact C3|]. split; [exact S3|].
      assert (Ic' : incl c' (cast ++ spoiled)) by (intros x Hx; apply Ic, (Permutation_in _ C4), Hx). assert (Is' : incl s' (cast ++ spoiled)) by (intros x Hx; apply Is, (Permutation_in _ S4), Hx).
      assert (Hid : map cb_id (ec ++ es) = map pb_id (c' ++ s')) by (rewrite !map_app, (cipher_ids c' ec Ic' C3), (cipher_ids s' es Is' S3); reflexivity).
      cbv zeta. split; [rewrite <- Hid, !map_app, !map_map; reflexivity|]. unfold submit_command. rewrite (manifest_gets dk mp m nm Hmf Hv Hnm). cbn [rbind]. rewrite (context_read dk cp _ Hcf). cbn [rbind].
      rewrite R1. cbn [rbind]. rewrite R2. cbn [rbind]. rewrite (rebuilt E n k key h m im Hm Hv). cbn [rbind fst snd]. rewrite submitted_all.
      - rewrite !map_map. reflexivity.
      - assert (G : forall l ebs, incl l (cast ++ spoiled) -> Forall2 cipher_of l ebs -> Forall (fun b => ballot_valid_for_election E b im cx true = Ok true) ebs).
        { intros l ebs Hi HC. induction HC as [|b eb l ebs H HC IH]; constructor; [apply (cipher_valid b eb); [apply Hst, Hi; left; reflexivity|exact H]|apply IH; intros x Hx; apply Hi; right; exact Hx]. }
        apply Forall_app. split; [apply (G c'); assumption|apply (G s'); assumption].
      - rewrite Hid. apply (Permutation_NoDup (l := map pb_id (cast ++ spoiled))); [|exact Hids]. apply Permutation_map. rewrite C4, S4. reflexivity.
    Qed.
    Lemma submit_names c' s' (sbs : list sub_ballot) : Permutation c' cast -> Permutation s' spoiled -> map sb_id sbs = map pb_id (c' ++ s') ->
      let l := map (fun b => (JSubmitted b, sb_id b)) sbs in NoDup (map snd l) /\ (forall e, In e l -> has_slash (snd e) = false) /\ incl (map snd l) (map pb_id (cast ++ spoiled)).
    Proof using Hids Hsl.
      intros P1 P2 Hi. cbv zeta. assert (Hm' : map snd (map (fun b => (JSubmitted b, sb_id b)) sbs) = map pb_id (c' ++ s')) by (rewrite map_map; exact Hi).
      assert (HP : Permutation (map pb_id (c' ++ s')) (map pb_id (cast ++ spoiled))) by (apply Permutation_map; rewrite P1, P2; reflexivity). rewrite Hm'. split; [apply (Permutation_NoDup (Permutation_sym HP)), Hids|]. split.
      - intros e He. apply (in_map snd) in He. rewrite Hm' in He. apply (Permutation_in _ HP) in He. apply in_map_iff in He as (b & <- & Hb). apply Hsl, Hb.
      - intros x Hx. apply (Permutation_in _ HP), Hx.
    Qed.
    Lemma submit_done : oc_end run = Ok tt -> Forall (fun it => exists sb, sub_of it sb /\ dget (file_named td (pb_id (fst it))) (dk_files (oc_disk run)) = Some (JSubmitted sb)) items.
    Proof using HE HK Hnm Hm Hv HF Hp Hmf Hcf Hst Hids Hfiles Hcd Hsd Htd Hsl.
      destruct submit_run as (c' & s' & ec & es & P1 & P2 & C & S & Hid & ->). set (sbs := map (fun b => submit_ballot E b CAST) ec ++ map (fun b => submit_ballot E b SPOILED) es) in *. destruct (submit_names c' s' sbs P1 P2 Hid) as (N1 & N2 & _).
      destruct (to_files dk _) as [dk1 a] eqn:Ht. cbn [oc_end oc_disk]. intros ->. destruct (dir_read td Htd _ N1 N2 _ _ Ht) as [R1 _].
      assert (G : forall b st, (exists eb, cipher_of b eb /\ In (submit_ballot E eb st) sbs) -> usable_style E im b -> exists sb, sub_of (b, st) sb /\ dget (file_named td (pb_id b)) (dk_files dk1) = Some (JSubmitted sb)).
      { intros b st (eb & Hc & Hin) Hu. exists (submit_ballot E eb st). split; [exists eb; auto|]. rewrite <- (cipher_id b eb Hu Hc). apply (R1 (JSubmitted (submit_ballot E eb st), sb_id (submit_ballot E eb st))). apply (in_map (fun b => (JSubmitted b, sb_id b))), Hin. }
      unfold items. apply Forall_app. split; apply Forall_map, Forall_forall; intros b Hb; cbn [fst].
      - apply G; [|apply Hst, in_or_app; left; exact Hb]. destruct (Forall2_in_l _ _ _ _ C (Permutation_in _ (Permutation_sym P1) Hb)) as (eb & Hi & Hc). exists eb. split; [exact Hc|]. apply in_or_app. left. apply (in_map (fun b => submit_ballot E b CAST)), Hi.
      - apply G; [|apply Hst, in_or_app; right; exact Hb]. destruct (Forall2_in_l _ _ _ _ S (Permutation_in _ (Permutation_sym P2) Hb)) as (eb & Hi & Hc). exists eb. split; [exact Hc|]. apply in_or_app. right. apply (in_map (fun b => submit_ballot E b SPOILED)), Hi.
    Qed.
    Lemma submit_ends : writable dk td (map pb_id (cast ++ spoiled)) -> oc_end run = Ok tt.
    Proof using HE HK Hnm Hm Hv HF Hp Hmf Hcf Hst Hids Hfiles Hcd Hsd Htd Hsl.
      intros Hw. destruct submit_run as (c' & s' & ec & es & P1 & P2 & C & S & Hid & ->). set (sbs := map (fun b => submit_ballot E b CAST) ec ++ map (fun b => submit_ballot E b SPOILED) es) in *. destruct (submit_names c' s' sbs P1 P2 Hid) as (N1 & N2 & N3).
      destruct (dir_writes td Htd _ N2 dk) as (dk' & -> & _); [|reflexivity]. intros f Hf. apply Hw, N3, Hf.
    Qed.
  End Submit.
End Votes.

(** ** import-ballots *)
Definition kind (v : voter) : pt_ballot * box_state := (vr_ballot v, vr_state v).
Lemma kinds_filter g vs : map kind (filter (fun v => g (kind v)) vs) = filter g (map kind vs).
Proof. induction vs as [|v vs IH]; [reflexivity|]. cbn [map filter]. destruct (g (kind v)); cbn [map]; rewrite IH; reflexivity. Qed.
Lemma items_filter g cast spoiled : filter g (items cast spoiled) = map (fun b => (b, CAST)) (filter (fun b => g (b, CAST)) cast) ++ map (fun b => (b, SPOILED)) (filter (fun b => g (b, SPOILED)) spoiled).
Proof.
  unfold items. rewrite filter_app. f_equal; [induction cast as [|b l IH]|induction spoiled as [|b l IH]]; try reflexivity; cbn [map filter]; destruct (g _); cbn [map]; rewrite IH; reflexivity.
Qed.
Lemma filter_none {A} (l : list A) : filter (fun _ => false) l = [].
Proof. induction l; auto. Qed.
Lemma filter_every {A} (l : list A) : filter (fun _ => true) l = l.
Proof. induction l as [|x l IH]; [reflexivity|]. cbn [filter]. rewrite IH. reflexivity. Qed.
Section Kinds.
  Context (im : internal_manifest) (vs : list voter) (cast spoiled : list pt_ballot) (HP : Permutation (map kind vs) (items cast spoiled)).
  Lemma kinds_count cid oid : cast_count im vs cid oid = marked im cast cid oid.
  Proof using HP.
    unfold cast_count, marked, len. f_equal. set (g := fun it : pt_ballot * box_state => box_state_eqb (snd it) CAST && (vote_for im (fst it) cid oid =? 1)).
    transitivity (List.length (filter g (map kind vs))); [rewrite <- kinds_filter, map_length; reflexivity|]. rewrite (Permutation_length (permuted_filter g _ _ HP)), items_filter, app_length, !map_length. unfold g. cbn [fst snd box_state_eqb andb].
    rewrite filter_none. cbn [List.length]. lia.
  Qed.
  Lemma kinds_cast : len (filter is_cast vs) = len cast.
  Proof using HP.
    unfold len. f_equal. set (g := fun it : pt_ballot * box_state => box_state_eqb (snd it) CAST). transitivity (List.length (filter g (map kind vs))); [rewrite <- kinds_filter, map_length; reflexivity|].
    rewrite (Permutation_length (permuted_filter g _ _ HP)), items_filter, app_length, !map_length. unfold g. cbn [fst snd box_state_eqb]. rewrite filter_none, filter_every. cbn [List.length]. lia.
  Qed.
  Lemma kinds_spoiled : Permutation (map vr_ballot (filter is_spoiled vs)) spoiled.
  Proof using HP.
    set (g := fun it : pt_ballot * box_state => box_state_eqb (snd it) SPOILED). transitivity (map fst (filter g (map kind vs))); [rewrite <- kinds_filter, map_map; reflexivity|].
    rewrite (permuted_filter g _ _ HP), items_filter. unfold g. cbn [fst snd box_state_eqb]. rewrite filter_none, filter_every. cbn [map app]. rewrite map_map. cbn [fst]. rewrite map_id. reflexivity.
  Qed.
  Lemma kinds_ids : Permutation (map vr_id vs) (map pb_id (cast ++ spoiled)).
  Proof using HP.
    transitivity (map (fun it => pb_id (fst it)) (map kind vs)); [rewrite map_map; reflexivity|]. rewrite HP. unfold items. rewrite !map_app, !map_map. reflexivity.
  Qed.
  Lemma kinds_in v : In v vs -> In (vr_ballot v) (cast ++ spoiled) /\ vr_state v <> UNKNOWN.
  Proof using HP.
    intros Hv. apply (in_map kind) in Hv. apply (Permutation_in _ HP) in Hv. unfold items in Hv. apply in_app_iff in Hv as [H|H]; apply in_map_iff in H as (b & He & Hb); injection He as E1 E2; rewrite <- E1, <- E2, in_app_iff; split; auto; discriminate.
  Qed.
End Kinds.

Section Import.
  Context (E : env) (HE : valid_env E) (ch0 : chance) (HF0 : fair E ch0) (n k : Z) (Hfit : seats_fit E n k).
  Context (m : manifest) (im : internal_manifest) (Hm : make_internal E m = Ok im) (Hv : manifest_is_valid m = true) (nm : string) (Hnm : get_name m = Ok nm) (Hdist : distinct_option_ids im) (h : Z).
  Notation ss := (seats_at ch0 n k).
  Notation key := (gexp E (sumZ (map st_secret ss))).
  Notation cx := (make_context E n k key h (im_hash im)).
  Context (gs0 : list guardian) (HG : Forall2 (holder E) ss gs0) (HPub : Forall (fun g => good_published E k (guardian_publish g)) gs0).
  Context (ch : chance) (HF : fair E ch) (mp cp vd kd : string) (dev : option string) (dk fk fv : disk) (Hp : proper_disk dk) (Hmf : dget mp (dk_files dk) = Some (JManifest m)) (Hcf : dget cp (dk_files dk) = Some (JContext cx)).
  Context (kf : guardian -> string) (Hkd : copies dk kd fk (map kf gs0)) (Hkf : forall g, In g gs0 -> dget (kf g) (dk_files fk) = Some (JPrivate (export_private_data g))).
  Context (cast spoiled : list pt_ballot) (vf : pt_ballot * box_state -> string) (Hvd : copies dk vd fv (map vf (items cast spoiled))).
  Context (Hvf : Forall (fun it => exists sb, sub_of E im n k key h it sb /\ dget (vf it) (dk_files fv) = Some (JSubmitted sb)) (items cast spoiled)).
  Context (Hst : forall b, In b (cast ++ spoiled) -> usable_style E im b) (Hids : NoDup (map pb_id (cast ++ spoiled))) (Hfits : votes_fit E (len cast)).
  Context (devs : list device) (Hdev : match dev with None => devs = [] | Some p => exists d, dget p (dk_files dk) = Some (JDevice d) /\ devs = [d] end).
  Lemma import_votes : exists vs ebs, Permutation (map kind vs) (items cast spoiled) /\ Forall2 (encrypted_as E im cx) vs ebs /\ get_ballots_at (ch_order ch) as_submitted no_list dk vd = Ok (subs E vs ebs).
  Proof using HF Hp Hvd Hvf.
    assert (H1 : forall its, Forall (fun it => exists sb, sub_of E im n k key h it sb /\ dget (vf it) (dk_files fv) = Some (JSubmitted sb)) its ->
      exists sbs, Forall2 (sub_of E im n k key h) its sbs /\ Forall2 (fun p v => dget p (dk_files fv) = Some (JSubmitted v)) (map vf its) sbs).
    { intros its H. induction H as [|it its (sb & H1 & H2) H IH]; [exists []; split; constructor|]. destruct IH as (sbs & I1 & I2). exists (sb :: sbs). split; [|cbn [map]]; constructor; assumption. }
    destruct (H1 _ Hvf) as (sbs & S1 & S2). destruct (copies_read JSubmitted (ch_order ch) as_submitted dk vd fv _ sbs (fa_order E ch HF) Hp (fun _ => eq_refl) Hvd S2) as (sbs' & P1 & _ & R1).
    assert (S3 : Forall2 (fun sb it => sub_of E im n k key h it sb) sbs (items cast spoiled)) by (clear -S1; induction S1; constructor; auto). destruct (permuted_F2 _ _ _ P1 _ S3) as (its' & F1 & P2).
    assert (G : forall l its, Forall2 (fun sb it => sub_of E im n k key h it sb) l its -> exists vs ebs, map kind vs = its /\ Forall2 (encrypted_as E im cx) vs ebs /\ subs E vs ebs = l).
    { clear. intros l its H. induction H as [|sb [b st] l its (eb & (v & Hb & He) & ->) H IH]; [exists [], []; split; [reflexivity|]; split; [constructor|reflexivity]|]. cbn [fst snd] in *. subst b. destruct IH as (vs & ebs & I1 & I2 & I3).
      exists (mkVoter (vr_ballot v) st (vr_seed v) (vr_nonce v) (vr_verify v) (vr_rand v) (vr_now v) :: vs), (eb :: ebs). cbn [map]. rewrite I1. split; [reflexivity|]. split; [constructor; [exact He|exact I2]|].
      unfold subs, history in *. cbn [map combine fst snd]. rewrite I3. reflexivity. }
    destruct (G _ _ F1) as (vs & ebs & V1 & V2 & V3). exists vs, ebs. rewrite V1, V3. split; [exact P2|]. split; [exact V2|apply R1].
  Qed.
  Lemma import_keys : exists av rs, Permutation av ss /\ read_dir (ch_order ch) as_private dk kd = Ok rs /\ let gs := map (fun r => guardian_from_private_record r n k) rs in
    Forall2 (holder E) av gs /\ Forall (fun g => good_published E k (guardian_publish g)) gs.
  Proof using HF Hp HG HPub Hkd Hkf.
    assert (S1 : Forall2 (fun p v => dget p (dk_files fk) = Some (JPrivate v)) (map kf gs0) (map export_private_data gs0)). { clear -Hkf. induction gs0 as [|g l IH]; cbn [map]; constructor; [apply Hkf; left; reflexivity|apply IH; intros x Hx; apply Hkf; right; exact Hx]. }
    destruct (copies_read JPrivate (ch_order ch) as_private dk kd fk _ _ (fa_order E ch HF) Hp (fun _ => eq_refl) Hkd S1) as (rs & P1 & R1 & _).
    set (R := fun (r : private_record) (s : seat) => let g := guardian_from_private_record r n k in holder E s g /\ good_published E k (guardian_publish g)).
    assert (S2 : Forall2 R (map export_private_data gs0) ss). { clear -HG HPub. revert HG HPub. generalize ss gs0. intros l0 l1 HG'. induction HG' as [|s g l l' H _ IH]; intros HP; [constructor|]. apply Forall_cons_iff in HP as [H1 HP]. cbn [map]. constructor; [split; [exact H|exact H1]|apply IH, HP]. }
    destruct (permuted_F2 _ _ _ P1 _ S2) as (av & A1 & A2). exists av, rs. split; [exact A2|]. split; [exact R1|]. cbv zeta. clear -A1. induction A1 as [|r s l l' [H1 H2] _ [I1 I2]]; cbn [map]; split; constructor; assumption.
  Qed.
  Notation files d := (record_files E temp_dir (id_manifest d) (id_context d) (id_devices d) (id_submitted d) (dvals (rs_spoiled (id_result d))) (rs_ciphertext (id_result d)) (rs_tally (id_result d)) (map guardian_publish (id_guardians d)) (rs_lagrange (id_result d))).
  Lemma import_good : exists d out spoiled', import_election E ch mp cp vd kd dev dk = Ok d /\ print_results (id_manifest d) (id_result d) = Ok out /\ Permutation spoiled' spoiled /\ shows_election m im cast spoiled' out /\
    ((forall b, In b (cast ++ spoiled) -> has_slash (pb_id b) = false) -> exists tmp, to_files temp_disk (files d) = (tmp, Ok tt) /\ good_record E m n k devs cast spoiled' out (map guardian_publish (id_guardians d)) (dk_files tmp)).
  Proof using HE HF0 Hfit Hm Hv Hnm Hdist HG HPub HF Hp Hmf Hcf Hkd Hkf Hvd Hvf Hst Hids Hfits Hdev.
    destruct import_votes as (vs & ebs & V1 & V2 & V3). destruct import_keys as (av & rs & A1 & A2 & A3 & A4). cbv zeta in A3, A4. set (gs := map (fun r => guardian_from_private_record r n k) rs) in *.
    pose proof (seats_good E ch0 HF0 n k Hfit) as Hseats. pose proof (seats_some E ch0 n k Hfit) as Hne. pose proof (seats_quorum E ch0 n k Hfit) as Hkq. pose proof (seats_orders E ch0 n k Hfit) as Hord. pose proof (seats_len E ch0 n k Hfit) as Hlen.
    assert (HQ : 0 <= cx_ext_hash cx < qq E) by apply (ZKFacts.hash_range E HE). assert (HK : in_subgroup E (cx_key cx)) by apply (joint_subgroup E HE _ ss Hseats).
    assert (Hst' : forall v, In v vs -> usable_style E im (vr_ballot v)) by (intros v Hi; apply Hst, (kinds_in vs cast spoiled V1 v Hi)). assert (Hun : forall v, In v vs -> vr_state v <> UNKNOWN) by (intros v Hi; apply (kinds_in vs cast spoiled V1 v Hi)).
    assert (Hidv : NoDup (map vr_id vs)) by (apply (Permutation_NoDup (Permutation_sym (kinds_ids vs cast spoiled V1))), Hids). destruct Hfits as (F1 & F2 & F3). pose proof (kinds_cast vs cast spoiled V1) as Hcn.
    assert (Hq' : len (filter is_cast vs) < qq E) by lia. assert (Hd' : len (filter is_cast vs) <= dmax E) by lia. assert (Hgn : cx_guardians cx = len ss) by (rewrite Hlen; reflexivity).
    assert (Hcq : cx_quorum cx <= len ss) by (rewrite Hlen; cbn [cx_quorum make_context]; destruct Hfit; lia).
    pose proof (subs_tallied E HE _ ss Hseats m im Hv Hm Hdist cx HQ eq_refl vs ebs V2 Hst' Hidv Hun) as HT.
    pose proof (box_aggregated E HE _ ss Hseats m im Hv Hm Hdist cx eq_refl vs ebs V2 Hst' Hidv Hun) as HA.
    destruct (subs_counted E HE _ ss Hseats Hne Hkq Hord m im Hv Hm Hdist cx HQ Hgn Hcq eq_refl vs ebs V2 Hst' Hidv Hun Hq' Hd' F3 ch (fa_up E ch HF) av gs A1 A3) as (r & out & R1 & R2 & R3 & R4 & R5 & R6 & R7 & R8 & R9 & R10).
    exists (mkImport gs m cx devs (subs E vs ebs) r), out, (map vr_ballot (filter is_spoiled vs)). cbn [id_manifest id_result id_guardians id_context id_devices id_submitted].
    assert (Hdv : match dev with None => Ok [] | Some p => do x <- from_file dk p; do d <- as_device x; Ok [d] end = Ok devs).
    { destruct dev as [p|]; [destruct Hdev as (d & D1 & ->); unfold from_file; rewrite D1; reflexivity|rewrite Hdev; reflexivity]. }
    assert (Hshow : shows_election m im cast (map vr_ballot (filter is_spoiled vs)) out).
    { split; [|apply Forall2_map_l; exact R5]. assert (G : forall f g, (forall c o, f c o = g c o) -> forall on l, shows_print m on f l -> shows_print m on g l).
      { intros f g Hfg on l (ds & S1 & S2 & S3 & S4). exists ds. split; [exact S1|]. split; [exact S2|]. split; [exact S3|]. eapply F2_impl; [|exact S4]. intros d rr (P1 & os & P2 & P3 & P4).
        split; [exact P1|]. exists os. split; [exact P2|]. split; [exact P3|]. eapply F2_impl; [|exact P4]. cbn beta. intros o ll. unfold print_line. rewrite Hfg. auto. }
      apply (G (cast_count im vs)); [|exact R4]. apply (kinds_count im vs cast spoiled V1). }
    pose proof (kinds_spoiled vs cast spoiled V1) as Hsp. split; [|split; [exact R2|split; [exact Hsp|split; [exact Hshow|]]]].
    - unfold import_election. rewrite (manifest_gets dk mp m nm Hmf Hv Hnm). cbn [rbind]. rewrite (context_read dk cp _ Hcf). cbn [rbind]. rewrite A2. cbn [rbind]. rewrite Hdv. cbn [rbind]. rewrite V3. cbn [rbind]. rewrite (rebuilt E n k key h m im Hm Hv). cbn [rbind fst snd].
      rewrite (fa_up E ch HF), HT. cbn [rbind]. change (spoiled_ballots (subs E vs ebs)) with (in_state SPOILED (subs E vs ebs)). change (map (fun r => guardian_from_private_record r (cx_guardians cx) (cx_quorum cx)) rs) with gs. rewrite R1. reflexivity.
    - intros Hsl. pose proof (subs_ids E im cx HE HK vs ebs V2 Hst') as Hsid. pose proof (kinds_ids vs cast spoiled V1) as Hki. pose proof (vals_ids _ _ R6 R7) as Hspo.
      assert (Hsl' : forall i, In i (map pb_id (cast ++ spoiled)) -> has_slash i = false) by (intros i Hi; apply in_map_iff in Hi as (b & <- & Hb); apply Hsl, Hb).
      assert (Hav : NoDup (map st_id av)) by (apply (Permutation_NoDup (Permutation_map st_id (Permutation_sym A1))), (seats_distinct E ch0 HF0 n k Hfit)).
      destruct (record_written E m cx devs (subs E vs ebs) (dvals (rs_spoiled r)) (rs_ciphertext r) (rs_tally r) (map guardian_publish gs) (rs_lagrange r)) as (tmp & Ht & Hfiles).
      + intros x Hx. apply (in_map gr_id) in Hx. rewrite (holder_ids E av gs A3) in Hx. apply in_map_iff in Hx as (s & <- & Hs). apply (seat_slash ch0 n k s), (Permutation_in _ A1), Hs.
      + intros x Hx. apply Hsl', (Permutation_in _ Hki). rewrite <- Hsid. apply in_map, Hx.
      + intros x Hx. apply Hsl'. apply (in_map pt_id) in Hx. rewrite Hspo in Hx. apply (Permutation_in _ Hki). apply in_map_iff in Hx as (v & <- & Hi). apply filter_In in Hi as [Hi _]. apply in_map, Hi.
      + destruct dev as [p|]; [destruct Hdev as (d & _ & ->); repeat constructor; intros []|rewrite Hdev; constructor].
      + rewrite (holder_ids E av gs A3). exact Hav.
      + rewrite Hsid. exact Hidv.
      + rewrite Hspo. apply NoDup_map_filter, Hidv.
      + exists tmp. split; [exact Ht|]. exists cx, (subs E vs ebs), (dvals (rs_spoiled r)), (rs_ciphertext r), (rs_tally r), (rs_lagrange r). split; [exact Hfiles|]. split; [reflexivity|]. split; [reflexivity|]. split.
        { cbn [cx_key make_context]. rewrite <- (holder_joint E av gs A3); [|intros s Hs; apply (seat_secrets E ch0 HF0 n k Hfit), (Permutation_in _ A1), Hs]. rewrite (ElGamalFacts.sumZ_perm _ _ (Permutation_map st_secret A1)). reflexivity. }
        split; [rewrite (holder_seats E av gs A3), (Permutation_map _ A1); unfold seats_at, guardian_seats; rewrite map_map; reflexivity|]. split; [apply Forall_map; exact A4|]. split; [|split].
        * transitivity (map (fun it => (pb_id (fst it), snd it)) (map kind vs)); [|etransitivity; [|apply Permutation_app_head, Permutation_map, Permutation_sym, Hsp]; rewrite V1; unfold items; rewrite map_app, !map_map; reflexivity]. match goal with |- Permutation ?a ?b => cut (a = b); [intros ->; reflexivity|] end. rewrite map_map.
          assert (Hcb : Forall2 (fun v eb => cb_id eb = vr_id v) vs ebs). { eapply Forall2_impl'; [|exact V2]. cbn beta. intros v eb Hi _ He. destruct (voter_contests E im cx HE HK v eb He (Hst' v Hi)) as (_ & _ & H & _). exact H. }
          clear -Hcb. unfold subs, history. induction Hcb as [|v eb vs ebs H _ IH]; [reflexivity|]. cbn [map combine fst snd]. rewrite IH. f_equal. unfold kind. cbn [fst snd]. change (cb_id eb, vr_state v) with (cb_id eb, vr_state v). f_equal. exact H.
        * rewrite Hspo. transitivity (map pb_id (map vr_ballot (filter is_spoiled vs))); [rewrite map_map; reflexivity|]. reflexivity.
        * destruct (R9 _ (holder_keys E av gs Hav A3)) as [K1 K2]. split; [|split; [rewrite R3; exact HA|split; [exact K1|split]]].
          -- intros sb Hi. apply (accepted_verifies E _ m im); [exact Hm|]. pose proof (subs_good E m im cx HE Hv Hm HK Hdist vs ebs V2 Hst' Hun) as Hpass. rewrite Forall_forall in Hpass. destruct (Hpass sb Hi) as [Hps _]. unfold passes in Hps.
             destruct (ballot_valid_for_election E (sb_ballot sb) im cx true) as [[|]|]; [reflexivity|discriminate..].
          -- intros q Hi. unfold dvals in Hi. apply in_map_iff in Hi as ([i q'] & <- & Hi). apply (K2 i q' Hi).
          -- destruct Hshow as [_ Hsh]. unfold print_results in R2. destruct (print_tally m (rs_tally r)) as [a|]; cbn [rbind] in R2; [|discriminate]. destruct (rmapM _ (rs_spoiled r)) as [b|] eqn:Hb; cbn [rbind] in R2; [|discriminate]. injection R2 as <-. cbn [po_tally po_spoiled] in *.
             split; [reflexivity|]. split; [|rewrite (holder_seats E av gs A3); exact R10]. apply rmapM_F2 in Hb. assert (Hfst : map fst b = map pt_id (dvals (rs_spoiled r))).
             { rewrite Hspo. clear -R5. induction R5 as [|x e l l' [H _] _ IH]; [reflexivity|]. cbn [map]. rewrite IH, H. reflexivity. }
             clear -Hb Hfst. unfold dvals in *. rewrite map_map in Hfst. induction Hb as [|kv e l l' H Hb IH]; [constructor|]. cbn [map] in *. injection Hfst as G1 G2. constructor; [|apply IH, G2].
             split; [congruence|]. destruct (print_tally m (snd kv)) as [x|]; cbn [rbind] in H; [|discriminate]. injection H as <-. reflexivity.
  Qed.
End Import.
