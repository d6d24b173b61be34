(** * PropsMark: the mark-ballots command and the ballots made at random (C63). *)
From Coq Require Import Permutation List.
From Verif Require Import Base Group Codec Hash ElGamal Spec Tiny Manifest Ballot Encrypt SpecElection Samples TallySamples SpecEndToEnd EncryptThms
  Cli SpecCli CliSamples CliPipeSamples Mark SpecMark MarkFacts MarkThms MarkSamples.
Local Open Scope Z_scope.
Local Open Scope list_scope.

(** ** C63: ballots made at random *)
(** a contest filled in at random is within the rules: entries for its own options only, none twice, and never more marks than seats;
    the two flags say whether it may be left empty and whether it may have fewer marks than seats *)
Theorem C63_contest : forall allow_null allow_under lk d c, shuffles lk -> random_contest false allow_null allow_under lk d = Ok c ->
  contest_ph_is_valid d = true /\ filled_in d c /\
  let seats := cd_number_elected (ph_desc d) in let marks := SpecElection.marked c in
  0 <= marks <= seats /\ (allow_null = false -> allow_under = false -> marks = seats) /\ (allow_null = false -> allow_under = true -> 1 <= marks) /\
  (allow_null = true -> allow_under = false -> marks = 0 \/ marks = seats).
Proof. exact random_contest_marks. Qed.
Print Assumptions C63_contest.
Example C63_contest_ex : exists lk c, shuffles lk /\ random_contest false false true lk (ph_of council) = Ok c /\ SpecElection.marked c = 1 /\ len (pc_selections c) = 3.
Proof.
  exists (mkCluck (@rev selection_desc) 4 (fun _ => true) (@rev pt_selection)). eexists. split; [split; intros l; apply Permutation_sym, Permutation_rev|]. split; [vm_compute; reflexivity|]. split; reflexivity.
Qed.

(** mark-ballots writes one file for each ballot, with an entry for every contest of a style of the manifest (the one asked for, if one
    was) and as many marks in each as there are seats, and changes no other file *)
Theorem C63_files : forall E lk n style mp cp d dk m im cx,
  honest_luck lk -> dget mp (dk_files dk) = Some (JManifest m) -> dget cp (dk_files dk) = Some (JContext cx) -> make_internal E m = Ok im -> plain_dir d -> fresh_ids lk n ->
  let o := mark_command E lk n style mp cp (Some d) dk in oc_end o = Ok tt ->
  exists bs, map pb_id bs = map (fun i => "ballot-" ++ lk_uuid lk i)%string (seq 0 (Z.to_nat n)) /\ file_ids bs /\
    (forall b, In b bs -> match style with Some s => pb_style b = s | None => In (pb_style b) (map bs_id (im_styles im)) end /\ full_ballot im b) /\
    (forall b, In b bs -> dget (file_named d (pb_id b)) (dk_files (oc_disk o)) = Some (JPlain b)) /\
    (forall p, (forall b, In b bs -> p <> file_named d (pb_id b)) -> dget p (dk_files (oc_disk o)) = dget p (dk_files dk)) /\
    (forall dk' d', copies dk' d' (oc_disk o) (map (fun b => file_named d (pb_id b)) bs) -> plain_ballots dk' d' bs).
Proof.
  intros E lk n style mp cp d dk m im cx HL Hm Hc Hi Hd Hu o Ho. destruct (mark_done E lk HL n style mp cp d dk m im cx Hm Hc Hi Hd Hu Ho) as (bs & H1 & H2 & H3 & H4 & H5).
  exists bs. split; [exact H1|]. split; [exact H2|]. split; [exact H3|]. split; [exact H4|]. split; [exact H5|]. intros dk' d'. exact (marked_copies dk' d' _ bs d H4).
Qed.
Print Assumptions C63_files.
(** it does so for every valid manifest with a name whose contests have no negative number of seats *)
Theorem C63_completes : forall E lk n style mp cp d dk m im cx,
  honest_luck lk -> dget mp (dk_files dk) = Some (JManifest m) -> dget cp (dk_files dk) = Some (JContext cx) -> make_internal E m = Ok im -> plain_dir d -> fresh_ids lk n ->
  manifest_is_valid m = true -> (exists nm, get_name m = Ok nm) -> (forall c, In c (mf_contests m) -> 0 <= cd_number_elected c) ->
  match style with Some s => In s (map bs_id (mf_styles m)) | None => mf_styles m <> [] end ->
  writable dk d (map (fun i => "ballot-" ++ lk_uuid lk i)%string (seq 0 (Z.to_nat n))) ->
  oc_end (mark_command E lk n style mp cp (Some d) dk) = Ok tt.
Proof. intros E lk n style mp cp d dk m im cx HL Hm Hc Hi Hd Hu Hv [nm Hn]. exact (mark_ends E lk HL n style mp cp d dk m im cx Hm Hc Hi Hd Hu nm Hv Hn). Qed.
Print Assumptions C63_completes.
(** three ballots of the two styles, in turn *)
Example C63_files_ex :
  (honest_luck demo_luck /\ dget "in/manifest.json"%string (dk_files (shelf shelf_mark)) = Some (JManifest demo_manifest) /\
   dget "in/context.json"%string (dk_files (shelf shelf_mark)) = Some (JContext mark_cx) /\ make_internal medium demo_manifest = Ok (demo_im medium) /\ plain_dir "plain" /\ fresh_ids demo_luck 3) /\
  oc_end (mark_command medium demo_luck 3 None "in/manifest.json" "in/context.json" (Some "plain"%string) (shelf shelf_mark)) = Ok tt /\
  map pb_style demo_marked = ["county-only"; "full"; "county-only"]%string /\
  dget "plain/ballot-u1.json"%string (dk_files (oc_disk (mark_command medium demo_luck 3 None "in/manifest.json" "in/context.json" (Some "plain"%string) (shelf shelf_mark)))) = option_map JPlain (nth_error demo_marked 1) /\
  option_map (fun b => map SpecElection.marked (pb_contests b)) (nth_error demo_marked 1) = Some [1; 2].
Proof.
  destruct demo_setup as (D1 & D2 & _). destruct cli_name as [nm Hn]. assert (P : plain_dir "plain") by (split; [discriminate|reflexivity]).
  assert (Ho : oc_end (mark_command medium demo_luck 3 None "in/manifest.json" "in/context.json" (Some "plain"%string) (shelf shelf_mark)) = Ok tt).
  { apply (C63_completes medium demo_luck 3 None _ _ _ _ demo_manifest (demo_im medium) mark_cx demo_honest mark_manifest mark_context D2 P demo_fresh D1 cli_name); [|discriminate|exact demo_writable].
    intros c [<-|[<-|[]]]; discriminate. }
  split; [split; [exact demo_honest|split; [exact mark_manifest|split; [exact mark_context|split; [exact D2|split; [exact P|exact demo_fresh]]]]]|]. split; [exact Ho|]. split; [reflexivity|]. split; [|reflexivity].
  revert Ho. rewrite (mark_run medium demo_luck 3 None "in/manifest.json" "in/context.json" "plain" (shelf shelf_mark) demo_manifest (demo_im medium) mark_cx mark_manifest mark_context D2 nm D1 Hn), demo_makes.
  destruct (CliPipe.dir_writes "plain" P (mark_entries demo_marked)) with (dk := shelf shelf_mark) as (dk' & Ht & _).
  - intros e He. cbn in He. repeat destruct He as [<-|He]; try contradiction; reflexivity.
  - exact demo_writable.
  - rewrite Ht. intros _. cbn [oc_disk]. destruct (CliPipe.dir_read "plain" P (mark_entries demo_marked)) with (dk := shelf shelf_mark) (dk' := dk') as [R _].
    + vm_compute. repeat constructor; cbn; intuition discriminate.
    + intros e He. cbn in He. repeat destruct He as [<-|He]; try contradiction; reflexivity.
    + exact Ht.
    + refine (R (JPlain (nth 1 demo_marked (mkPbal "" "" [])), "ballot-u1"%string) _). right. left. reflexivity.
Qed.

(** such ballots can be encrypted when each contest of the style allows as many votes as it has seats *)
Theorem C63_encryptable : forall E m im b ds r, valid_env E -> hmac_32 E -> short_texts E -> manifest_is_valid m = true -> make_internal E m = Ok im ->
  full_ballot im b -> get_contests_for im (pb_style b) = Ok ds ->
  (forall d, In d ds -> limit_fits E (cd_number_elected (ph_desc d)) /\ seqs_nonneg d /\ usable_nonces E d (hash_elems E [HElem (im_hash im); HStr (pb_id b); HElem (fst r)]) /\
     cd_selections (ph_desc d) <> [] /\ (cd_votes_allowed (ph_desc d) = None \/ cd_votes_allowed (ph_desc d) = Some (cd_number_elected (ph_desc d)))) ->
  can_encrypt E im b r.
Proof. intros E m im b ds r HE H32 HS Hv Hm. exact (full_can_encrypt E m im Hv Hm b ds r HE H32 HS). Qed.
Print Assumptions C63_encryptable.
Example C63_encryptable_ex : forall b i, In b demo_marked -> can_encrypt medium (demo_im medium) b (ch_ballot cli_chance i).
Proof.
  intros b i Hb. destruct demo_setup as (D1 & D2 & _ & _ & _ & D6). destruct (demo_marked_ds b Hb) as (ds & Hds & Hi).
  apply (C63_encryptable medium demo_manifest (demo_im medium) b ds _ medium_valid medium_hmac medium_short D1 D2 (demo_marked_full b Hb) Hds). intros d Hd. specialize (Hi d Hd). split; [apply D6, Hi|].
  split; [apply (proj1 demo_succeeds_hyps d Hi)|]. split; [apply (demo_marked_nonces b Hb d Hi)|]. destruct Hi as [<-|[<-|[]]]; (split; [discriminate|]); [right|left]; reflexivity.
Qed.

(** and then the numbers of the results add up: in each contest the marks on all options are the seats times the ballots with that contest *)
Theorem C63_totals : forall E m im bs c, manifest_is_valid m = true -> make_internal E m = Ok im -> (forall b, In b bs -> full_ballot im b) -> In c (mf_contests m) ->
  sumZ (map (fun o => SpecCli.marked im bs (cd_id c) (sd_id o)) (cd_selections c)) = cd_number_elected c * len (filter (has_contest im (cd_id c)) bs).
Proof. intros E m im bs c Hv Hm. exact (marks_total E m im Hv Hm bs c). Qed.
Print Assumptions C63_totals.
Example C63_totals_ex : (forall b, In b demo_marked -> full_ballot (demo_im medium) b) /\
  map (fun c => (len (filter (has_contest (demo_im medium) (cd_id c)) demo_marked), map (fun o => SpecCli.marked (demo_im medium) demo_marked (cd_id c) (sd_id o)) (cd_selections c))) (mf_contests demo_manifest)
  = [(3, [0; 3]); (1, [0; 1; 1])].
Proof. split; [exact demo_marked_full|]. rewrite <- demo_imv_eq. vm_compute. reflexivity. Qed.

(** a contest that allows more votes than it has seats is valid, but encrypt-ballots always fails on what mark-ballots makes of it *)
Theorem C63_more_votes_than_seats : forall E m im n k key h ch mp cp bp ed dk bs b ds d va,
  make_internal E m = Ok im -> fair E ch -> proper_disk dk -> dget mp (dk_files dk) = Some (JManifest m) -> dget cp (dk_files dk) = Some (JContext (make_context E n k key h (im_hash im))) ->
  plain_ballots dk bp bs -> In b bs -> full_ballot im b -> get_contests_for im (pb_style b) = Ok ds -> In d ds ->
  1 <= cd_number_elected (ph_desc d) -> cd_votes_allowed (ph_desc d) = Some va -> cd_number_elected (ph_desc d) < va ->
  exists e, encrypt_command E ch mp cp bp (Some ed) dk = mkOut dk None (Err e).
Proof. exact encrypt_refuses. Qed.
Print Assumptions C63_more_votes_than_seats.
Example C63_more_votes_ex : manifest_is_valid loose_manifest = true /\ fake_ballots loose_im 1 (Some "full"%string) false false demo_luck = Ok loose_marked /\
  exists e, encrypt_command medium cli_chance "in/manifest.json" "in/context.json" "plain" (Some "cipher"%string) (shelf shelf_loose) = mkOut (shelf shelf_loose) None (Err e).
Proof.
  split; [exact loose_valid|]. split; [exact loose_makes|].
  apply (C63_more_votes_than_seats medium loose_manifest loose_im 3 2 (gexp medium 77) 5 cli_chance "in/manifest.json" "in/context.json" "plain" "cipher" (shelf shelf_loose) loose_marked (hd (mkPbal "" "" []) loose_marked) (im_contests loose_im) (hd (ph_of mayor) (im_contests loose_im)) 2 loose_internal cli_fair (shelf_proper _ good_loose)).
  - apply (shelf_get shelf_loose "in" [("manifest.json"%string, JManifest loose_manifest); ("context.json"%string, JContext loose_cx)] "manifest.json" _ good_loose); left; reflexivity.
  - apply (shelf_get shelf_loose "in" [("manifest.json"%string, JManifest loose_manifest); ("context.json"%string, JContext loose_cx)] "context.json" _ good_loose); [left; reflexivity|right; left; reflexivity].
  - right. split; [apply shelf_none; reflexivity|]. exists (map (fun b => ("a.json"%string, JPlain b)) loose_marked). split; [apply (shelf_dir shelf_loose "plain" _ good_loose); right; left; reflexivity|reflexivity].
  - left. reflexivity.
  - apply (fake_ballots_full _ _ _ _ _ demo_honest loose_makes). left. reflexivity.
  - vm_compute. reflexivity.
  - left. reflexivity.
  - vm_compute. discriminate.
  - reflexivity.
  - vm_compute. reflexivity.
Qed.
(** an unknown style is an error, and nothing is written *)
Theorem C63_unknown_style : forall E lk n s mp cp d dk m im cx,
  dget mp (dk_files dk) = Some (JManifest m) -> dget cp (dk_files dk) = Some (JContext cx) -> make_internal E m = Ok im -> ~ In s (map bs_id (mf_styles m)) -> 0 < n ->
  exists e, mark_command E lk n (Some s) mp cp (Some d) dk = mkOut dk None (Err e).
Proof. intros E lk n s mp cp d dk m im cx Hm Hc Hi. exact (mark_unknown E lk n (Some s) mp cp d dk m im cx Hm Hc Hi s eq_refl). Qed.
Print Assumptions C63_unknown_style.
Example C63_unknown_style_ex : exists e, mark_command medium demo_luck 3 (Some "city"%string) "in/manifest.json" "in/context.json" (Some "plain"%string) (shelf shelf_mark) = mkOut (shelf shelf_mark) None (Err e).
Proof.
  destruct demo_setup as (_ & D2 & _). apply (C63_unknown_style medium demo_luck 3 "city" _ _ "plain" _ demo_manifest (demo_im medium) mark_cx mark_manifest mark_context D2); [|reflexivity]. cbn. intuition discriminate.
Qed.
