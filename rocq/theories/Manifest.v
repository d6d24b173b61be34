(** * Manifest: model of manifest.py.  Definitions only.
    Enumerations are represented by the name of their member; datetimes by the text
    to_iso_date_string gives (utils.py:145-157), which is all the modelled code uses of them. *)
From Verif Require Import Base Group Codec Hash.

Definition hopt {A} (f : A -> helem) (o : option A) : helem :=
  match o with Some a => f a | None => HNone end.
Definition hstrs (l : list string) : helem := HList (map HStr l).

(** manifest.py:100-124 AnnotatedString *)
Record annotated := mkAnnotated { an_annotation : string; an_value : string }.
Definition annotated_hash (E : env) (a : annotated) : Z :=
  hash_elems E [HStr (an_annotation a); HStr (an_value a)].
(** manifest.py:128-153 Language *)
Record language := mkLanguage { la_value : string; la_language : string }.
Definition language_hash (E : env) (a : language) : Z :=
  hash_elems E [HStr (la_value a); HStr (la_language a)].
(** manifest.py:157-179 InternationalizedText *)
Definition i18n := list language.
Definition i18n_hash (E : env) (t : i18n) : Z :=
  hash_elems E [HList (map (fun a => HHash (language_hash E a)) t)].
(** manifest.py:183-214 ContactInformation *)
Record contact := mkContact {
  co_address : option (list string); co_email : option (list annotated);
  co_phone : option (list annotated); co_name : option string }.
Definition contact_hash (E : env) (c : contact) : Z :=
  hash_elems E [hopt HStr (co_name c); hopt hstrs (co_address c);
    hopt (fun l => HList (map (fun a => HHash (annotated_hash E a)) l)) (co_email c);
    hopt (fun l => HList (map (fun a => HHash (annotated_hash E a)) l)) (co_phone c)].
(** manifest.py:218-236 GeopoliticalUnit *)
Record gp_unit := mkGpUnit {
  gu_id : string; gu_name : string; gu_type : string; gu_contact : option contact }.
Definition gp_unit_hash (E : env) (u : gp_unit) : Z :=
  hash_elems E [HStr (gu_id u); HStr (gu_name u); HStr (gu_type u);
    hopt (fun c => HHash (contact_hash E c)) (gu_contact u)].
(** manifest.py:240-256 BallotStyle *)
Record ballot_style := mkStyle {
  bs_id : string; bs_gp_unit_ids : option (list string);
  bs_party_ids : option (list string); bs_image_uri : option string }.
Definition ballot_style_hash (E : env) (s : ballot_style) : Z :=
  hash_elems E [HStr (bs_id s); hopt hstrs (bs_gp_unit_ids s); hopt hstrs (bs_party_ids s);
    hopt HStr (bs_image_uri s)].
(** manifest.py:260-288 Party *)
Record party := mkParty {
  pa_id : string; pa_name : i18n; pa_abbreviation : option string;
  pa_color : option string; pa_logo_uri : option string }.
Definition party_hash (E : env) (p : party) : Z :=
  hash_elems E [HStr (pa_id p); HHash (i18n_hash E (pa_name p)); hopt HStr (pa_abbreviation p);
    hopt HStr (pa_color p); hopt HStr (pa_logo_uri p)].
(** manifest.py:292-319 Candidate; is_write_in is not part of the hash *)
Record candidate := mkCandidate {
  ca_id : string; ca_name : i18n; ca_party_id : option string;
  ca_image_uri : option string; ca_is_write_in : option bool }.
Definition candidate_hash (E : env) (c : candidate) : Z :=
  hash_elems E [HStr (ca_id c); HHash (i18n_hash E (ca_name c)); hopt HStr (ca_party_id c);
    hopt HStr (ca_image_uri c)].
(** manifest.py:323-344 SelectionDescription *)
Record selection_desc := mkSel { sd_id : string; sd_seq : Z; sd_candidate_id : string }.
Definition selection_desc_hash (E : env) (s : selection_desc) : Z :=
  hash_elems E [HStr (sd_id s); HInt (sd_seq s); HStr (sd_candidate_id s)].

(** manifest.py:348-384 ContestDescription, and 495-512 its subclasses: [cd_primary_party_ids] is
    [Some l] for a CandidateContestDescription whose primary_party_ids is l, and [None] otherwise. *)
Record contest_desc := mkContest {
  cd_id : string; cd_seq : Z; cd_district : string; cd_vote_variation : string;
  cd_number_elected : Z; cd_votes_allowed : option Z; cd_name : string;
  cd_selections : list selection_desc;
  cd_title : option i18n; cd_subtitle : option i18n;
  cd_primary_party_ids : option (list string) }.

(** manifest.py:400-420 crypto_hash *)
Definition contest_hash (E : env) (c : contest_desc) : Z :=
  hash_elems E [HStr (cd_id c); HInt (cd_seq c); HStr (cd_district c); HStr (cd_vote_variation c);
    hopt (fun t => HHash (i18n_hash E t)) (cd_title c);
    hopt (fun t => HHash (i18n_hash E t)) (cd_subtitle c);
    HStr (cd_name c); HInt (cd_number_elected c); hopt HInt (cd_votes_allowed c);
    HList (map (fun s => HHash (selection_desc_hash E s)) (cd_selections c))].

(** manifest.py:88-95 SUPPORTED_VOTE_VARIATIONS *)
Definition supported_vote_variations : list string :=
  ["one_of_m"; "approval"; "majority"; "n_of_m"; "plurality"; "super_majority"]%string.

(** manifest.py:422-491 ContestDescription.is_valid *)
Definition contest_is_valid (c : contest_desc) : bool :=
  let n := len (cd_selections c) in
  (cd_number_elected c <=? n)
  && match cd_votes_allowed c with None => true | Some va => cd_number_elected c <=? va end
  && (len (set_of (map sd_candidate_id (cd_selections c))) =? n)
  && (len (set_of (map sd_id (cd_selections c))) =? n)
  && (len (set_of (map sd_seq (cd_selections c))) =? n)
  && inb (cd_vote_variation c) supported_vote_variations.

(** manifest.py:516-535 ContestDescriptionWithPlaceholders *)
Record contest_ph := mkPh { ph_desc : contest_desc; ph_placeholders : list selection_desc }.
(** 527-538 is_valid *)
Definition contest_ph_is_valid (c : contest_ph) : bool :=
  contest_is_valid (ph_desc c)
  && (len (ph_placeholders c) =? cd_number_elected (ph_desc c)).
(** 540-545 is_placeholder *)
Definition is_placeholder (c : contest_ph) (s : selection_desc) : bool :=
  existsb (fun x => eqb (sd_id x) (sd_id s) && (sd_seq x =? sd_seq s)
                    && eqb (sd_candidate_id x) (sd_candidate_id s)) (ph_placeholders c).
(** 547-566 selection_for *)
Definition selection_for (c : contest_ph) (sid : string) : option selection_desc :=
  match find_first (fun s => eqb (sd_id s) sid) (cd_selections (ph_desc c)) with
  | Some s => Some s
  | None => find_first (fun s => eqb (sd_id s) sid) (ph_placeholders c)
  end.

(** manifest.py:577-633 Manifest *)
Record manifest := mkManifest {
  mf_scope_id : string; mf_spec_version : string; mf_type : string;
  mf_start : string; mf_end : string;
  mf_gp_units : list gp_unit; mf_parties : list party; mf_candidates : list candidate;
  mf_contests : list contest_desc; mf_styles : list ballot_style;
  mf_name : option i18n; mf_contact : option contact }.

(** manifest.py:651-667 crypto_hash *)
Definition manifest_hash (E : env) (m : manifest) : Z :=
  hash_elems E [HStr (mf_scope_id m); HStr (mf_type m); HStr (mf_start m); HStr (mf_end m);
    hopt (fun t => HHash (i18n_hash E t)) (mf_name m);
    hopt (fun c => HHash (contact_hash E c)) (mf_contact m);
    HList (map (fun u => HHash (gp_unit_hash E u)) (mf_gp_units m));
    HList (map (fun p => HHash (party_hash E p)) (mf_parties m));
    HList (map (fun c => HHash (contest_hash E c)) (mf_contests m));
    HList (map (fun s => HHash (ballot_style_hash E s)) (mf_styles m))].

(** manifest.py:690-700: the loop over ballot styles, which stops at the first style without
    geopolitical units.  State: (collected style ids, flag). *)
Fixpoint styles_loop (gp : list string) (l : list ballot_style) (ids : list string) (flag : bool)
  : list string * bool :=
  match l with
  | [] => (ids, flag)
  | s :: l' =>
    let ids := set_add (bs_id s) ids in
    match bs_gp_unit_ids s with
    | None => (ids, false)
    | Some us => styles_loop gp l' ids (fold_left (fun f u => f && inb u gp) us flag)
    end
  end.

(** manifest.py:669-809 Manifest.is_valid *)
Definition manifest_is_valid (m : manifest) : bool :=
  let gp := set_of (map gu_id (mf_gp_units m)) in
  let '(style_ids, styles_gp) := styles_loop gp (mf_styles m) [] true in
  let parties := set_of (map pa_id (mf_parties m)) in
  let candidates := set_of (map ca_id (mf_candidates m)) in
  (len gp =? len (mf_gp_units m))
  && ((len style_ids =? len (mf_styles m)) && styles_gp)
  && (len parties =? len (mf_parties m))
  && ((len candidates =? len (mf_candidates m))
      && forallb (fun c => match ca_party_id c with None => true | Some p => inb p parties end)
                 (mf_candidates m))
  && ((len (set_of (map cd_id (mf_contests m))) =? len (mf_contests m))
      && (len (set_of (map cd_seq (mf_contests m))) =? len (mf_contests m))
      && forallb contest_is_valid (mf_contests m)
      && forallb (fun c => inb (cd_district c) gp) (mf_contests m)
      && forallb (fun c => match cd_primary_party_ids c with
                           | None => true
                           | Some ps => forallb (fun p => inb p parties) ps
                           end) (mf_contests m)).

(** manifest.py:1027-1030 get_i8n_value *)
Definition get_i8n_value (t : i18n) (lang default : string) : string :=
  match find_first (fun a => eqb (la_language a) lang) t with
  | Some a => if String.eqb (la_value a) "" then default else la_value a
  | None => default
  end.
(** manifest.py:811-820 _get_candidate_names *)
Definition candidate_name (lang : string) (c : candidate) : string :=
  match ca_is_write_in c with
  | Some true => "Write-In"%string
  | _ => get_i8n_value (ca_name c) lang (ca_id c)
  end.
Definition candidate_names (m : manifest) (lang : string) : dict string string :=
  dict_of (map (fun c => (ca_id c, candidate_name lang c)) (mf_candidates m)).
(** manifest.py:822-845 get_selection_names *)
Definition get_selection_names (m : manifest) (lang : string) : dict string string :=
  let cands := candidate_names m lang in
  let sels := dict_of (flat_map (fun c => map (fun s => (sd_id s, sd_candidate_id s)) (cd_selections c))
                                (mf_contests m)) in
  map (fun kv => (fst kv, match dget (snd kv) cands with Some n => n | None => snd kv end)) sels.
(** manifest.py:847-853 get_contest_names *)
Definition get_contest_names (m : manifest) : dict string string :=
  dict_of (map (fun c => (cd_id c, cd_name c)) (mf_contests m)).
(** manifest.py:855-859 get_name: text[0] of an empty text raises IndexError *)
Definition get_name (m : manifest) : res string :=
  match mf_name m with
  | None => Ok ""%string
  | Some [] => Err IndexError
  | Some (t :: _) => Ok (la_value t)
  end.

(** manifest.py:977-1001 generate_placeholder_selection_from with an explicit sequence id *)
Definition placeholder_at (c : contest_desc) (seq : Z) : selection_desc :=
  let base := (cd_id c ++ "-" ++ str_int seq)%string in
  mkSel (base ++ "-placeholder") seq (base ++ "-candidate").
(** max(list) for a non-empty list; ValueError on the empty one *)
Definition py_max (l : list Z) : res Z :=
  match l with [] => Err ValueError | x :: l' => Ok (fold_left Z.max l' x) end.
(** max( *l ): with one element Python receives a bare int and raises TypeError *)
Definition py_max_star (l : list Z) : res Z :=
  match l with [] => Err TypeError | [_] => Err TypeError | _ => py_max l end.
Definition generate_placeholder (c : contest_desc) (use : option Z) : res (option selection_desc) :=
  let seqs := map sd_seq (cd_selections c) in
  match use with
  | None => do m <- py_max_star seqs; Ok (Some (placeholder_at c (m + 1)))
  | Some s => if inb s seqs then Ok None else Ok (Some (placeholder_at c s))
  end.
(** range(count) *)
Definition zrange (count : Z) : list Z := map Z.of_nat (seq 0 (Z.to_nat count)).
(** manifest.py:1004-1024 generate_placeholder_selections_from *)
Definition generate_placeholders (c : contest_desc) (count : Z) : res (list selection_desc) :=
  do m <- py_max (map sd_seq (cd_selections c));
  rmapM (fun i => do o <- generate_placeholder c (Some (m + 1 + i)); get_optional o) (zrange count).

(** manifest.py:953-974 contest_description_with_placeholders_from: the party list of a
    CandidateContestDescription is not carried over *)
Definition with_placeholders (c : contest_desc) (ps : list selection_desc) : contest_ph :=
  mkPh {| cd_id := cd_id c; cd_seq := cd_seq c; cd_district := cd_district c;
          cd_vote_variation := cd_vote_variation c; cd_number_elected := cd_number_elected c;
          cd_votes_allowed := cd_votes_allowed c; cd_name := cd_name c;
          cd_selections := cd_selections c; cd_title := cd_title c; cd_subtitle := cd_subtitle c;
          cd_primary_party_ids := None |} ps.

(** manifest.py:862-886 InternalManifest *)
Record internal_manifest := mkInternal {
  im_gp_units : list gp_unit; im_contests : list contest_ph;
  im_styles : list ballot_style; im_hash : Z }.
(** 880-886 __post_init__, 931-950 _generate_contests_with_placeholders *)
Definition make_internal (E : env) (m : manifest) : res internal_manifest :=
  do cs <- rmapM (fun c => do ps <- generate_placeholders c (cd_number_elected c);
                           Ok (with_placeholders c ps)) (mf_contests m);
  Ok (mkInternal (mf_gp_units m) cs (mf_styles m) (manifest_hash E m)).
(** 888-902 contest_for *)
Definition contest_for (im : internal_manifest) (cid : string) : option contest_ph :=
  find_first (fun c => eqb (cd_id (ph_desc c)) cid) (im_contests im).
(** 904-911 get_ballot_style *)
Definition get_ballot_style (im : internal_manifest) (sid : string) : res ballot_style :=
  match find_first (fun s => eqb (bs_id s) sid) (im_styles im) with
  | Some s => Ok s | None => Err IndexError end.
(** 913-929 get_contests_for *)
Definition get_contests_for (im : internal_manifest) (sid : string) : res (list contest_ph) :=
  do s <- get_ballot_style im sid;
  match bs_gp_unit_ids s with
  | None => Ok []
  | Some us => Ok (filter (fun c => inb (cd_district (ph_desc c)) us) (im_contests im))
  end.
