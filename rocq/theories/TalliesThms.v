(** * TalliesThms: proofs about tallies, their names and the lists of the elections. *)
From Verif Require Import Base Group Hash HashFacts GuiUpload UploadFacts GuiTallies SpecTallies.
From Coq Require Import List Lia DecimalString Ascii.
Local Open Scope string_scope.
Local Open Scope list_scope.

(** ** counting *)
Definition cnt {A} (p : A -> bool) (l : list A) : nat := List.length (filter p l).
Lemma cnt_app {A} (p : A -> bool) l l' : cnt p (l ++ l') = (cnt p l + cnt p l')%nat.
Proof. unfold cnt. rewrite filter_app, app_length. reflexivity. Qed.
Lemma cnt_one {A} (p : A -> bool) x : cnt p [x] = (if p x then 1 else 0)%nat.
Proof. unfold cnt. cbn. destruct (p x); reflexivity. Qed.
Lemma cnt_cons {A} (p : A -> bool) x l : cnt p (x :: l) = ((if p x then 1 else 0) + cnt p l)%nat.
Proof. unfold cnt. cbn. destruct (p x); reflexivity. Qed.
Lemma cnt_set {A} (p : A -> bool) c' : forall l i c, nth_error l i = Some c -> (cnt p (set_nth i c' l) + (if p c then 1 else 0) = cnt p l + (if p c' then 1 else 0))%nat.
Proof.
  induction l as [|x l IH]; intros [|i] c; cbn [nth_error]; try discriminate.
  - intros [= ->]. cbn [set_nth]. rewrite !cnt_cons. lia.
  - intros H. cbn [set_nth]. rewrite !cnt_cons. specialize (IH i c H). lia.
Qed.
Lemma cnt_in {A} (p : A -> bool) l : (0 < cnt p l)%nat -> exists x, In x l /\ p x = true.
Proof. unfold cnt. destruct (filter p l) as [|x r] eqn:H; cbn; [lia|]. intros _. exists x. apply filter_In. rewrite H. left. reflexivity. Qed.
Lemma cnt_pos {A} (p : A -> bool) l x : In x l -> p x = true -> (0 < cnt p l)%nat.
Proof. intros H1 H2. unfold cnt. destruct (filter p l) eqn:H; cbn; [|lia]. exfalso. assert (Hi : In x (filter p l)) by (apply filter_In; auto). rewrite H in Hi. destruct Hi. Qed.
Lemma cnt_nodup {A} (f : A -> string) l id : NoDup (map f l) -> (cnt (fun x => String.eqb (f x) id) l <= 1)%nat.
Proof.
  induction l as [|x l IH]; cbn [map]; intros H; [cbn; lia|]. apply NoDup_cons_iff in H as [Hx Hn]. rewrite cnt_cons. specialize (IH Hn). destruct (String.eqb_spec (f x) id) as [He|]; [|lia].
  assert (cnt (fun x => String.eqb (f x) id) l = 0)%nat; [|lia]. destruct (cnt _ l) eqn:Hc; [reflexivity|]. exfalso. destruct (cnt_in (fun x => String.eqb (f x) id) l) as (y & Hy & Hy'); [lia|]. apply String.eqb_eq in Hy'. apply Hx. rewrite He, <- Hy'. apply in_map, Hy.
Qed.

(** ** the invariant of every history *)
Definition who (x : t_election) : string * string := (te_id x, te_name x).
Definition key (d : t_doc) : string * string * string := (td_id d, td_election d, td_name d).
Definition pends (id : string) (c : t_call) : bool := match c with TAppend _ i _ => String.eqb i id | _ => false end.
Definition call_ok (w : tdb) (c : t_call) : Prop :=
  match c with
  | TCheck e _ | TInsert e _ => In e (map te_id (tb_elections w))
  | TAppend e id n => In e (map te_id (tb_elections w)) /\ tally_of w e id n
  | _ => True
  end.
Record t_inv (w0 : tdb) (W : t_world) : Prop := {
  ti_who : map who (tb_elections (tw_db W)) = map who (tb_elections w0);
  ti_ids : NoDup (map td_id (tb_docs (tw_db W)));
  ti_listed : forall x id n, In x (tb_elections (tw_db W)) -> In (id, n) (te_decryptions x) -> tally_of (tw_db W) (te_id x) id n;
  ti_calls : forall c, In c (tw_calls W) -> call_ok (tw_db W) c;
  ti_count : forall id, (times_listed (tw_db W) id + cnt (pends id) (tw_calls W) = cnt (fun d => String.eqb (td_id d) id) (tb_docs (tw_db W)))%nat }.
Lemma tally_of_key w e id n : tally_of w e id n <-> In (id, e, n) (map key (tb_docs w)).
Proof.
  unfold tally_of, key. rewrite in_map_iff. split; intros (d & H); exists d; [destruct H as (H & <- & <- & <-); auto|]. destruct H as ([= <- <- <-] & H). auto.
Qed.
Lemma inv_start w0 : no_tallies w0 -> t_inv w0 (mkTWorld w0 []).
Proof.
  intros [H1 H2 H3]. split; cbn [tw_db tw_calls]; [reflexivity|rewrite H2; constructor| | intros ? []|].
  - intros x id n Hx Hl. rewrite (H3 x Hx) in Hl. destruct Hl.
  - intros id. unfold times_listed. rewrite H2. replace (flat_map te_decryptions (tb_elections w0)) with (@nil (string * string)); [reflexivity|].
    symmetry. revert H3. generalize (tb_elections w0). intros l. induction l as [|x l IH]; intros H; cbn; [reflexivity|]. rewrite (H x) by (left; reflexivity). apply IH. intros y Hy. apply H. right. exact Hy.
Qed.
Lemma map_who_ids l l' : map who l = map who l' -> map te_id l = map te_id l'.
Proof. intros H. apply (f_equal (map fst)) in H. rewrite !map_map in H. exact H. Qed.
Lemma append_who w e id n : map who (tb_elections (append_decryption w e id n)) = map who (tb_elections w).
Proof. cbn [append_decryption tb_elections]. apply update_first_map. reflexivity. Qed.
Lemma append_listed w e id n j : In e (map te_id (tb_elections w)) -> times_listed (append_decryption w e id n) j = (times_listed w j + (if String.eqb id j then 1 else 0))%nat.
Proof.
  unfold times_listed. cbn [append_decryption tb_elections]. change (List.length (filter ?p ?l)) with (cnt p l). generalize (tb_elections w). intros l. induction l as [|x l IH]; cbn [map]; [intros []|]. intros Hin. cbn [update_first].
  destruct (String.eqb_spec (te_id x) e) as [He|He]; cbn [flat_map te_decryptions]; rewrite !cnt_app.
  - rewrite cnt_one. cbn [fst]. lia.
  - destruct Hin as [Hin|Hin]; [contradiction|]. rewrite (IH Hin). lia.
Qed.
Lemma complete_keys w id : map key (tb_docs (t_complete w id)) = map key (tb_docs w).
Proof. cbn [t_complete tb_docs]. apply update_first_map. reflexivity. Qed.
Lemma keys_ids w w' : map key (tb_docs w) = map key (tb_docs w') -> map td_id (tb_docs w) = map td_id (tb_docs w').
Proof. intros H. apply (f_equal (map (fun x => fst (fst x)))) in H. rewrite !map_map in H. exact H. Qed.
Lemma cnt_ids id l : cnt (fun d => String.eqb (td_id d) id) l = cnt (fun x => String.eqb x id) (map td_id l).
Proof. induction l as [|d l IH]; [reflexivity|]. cbn [map]. rewrite !cnt_cons, IH. reflexivity. Qed.
Lemma call_ok_ext w w' c : map te_id (tb_elections w') = map te_id (tb_elections w) -> (forall k, In k (map key (tb_docs w)) -> In k (map key (tb_docs w'))) -> call_ok w c -> call_ok w' c.
Proof. intros H1 H2. destruct c; cbn; rewrite ?H1; auto. rewrite !tally_of_key. intros [A B]. auto. Qed.
Lemma t_insert_ok w d w' : t_insert w d = Ok w' -> tb_elections w' = tb_elections w /\ tb_docs w' = tb_docs w ++ [d] /\ ~ In (td_id d) (map td_id (tb_docs w)).
Proof.
  unfold t_insert. destruct (existsb _ _) eqn:Hx; [discriminate|]. intros [= <-]. repeat split. intros Hin. apply in_map_iff in Hin as (x & H1 & H2).
  assert (Ht : existsb (fun x => String.eqb (td_id x) (td_id d)) (tb_docs w) = true) by (apply existsb_exists; exists x; rewrite H1, String.eqb_refl; auto). congruence.
Qed.
Lemma t_find_some w e x : t_find w e = Some x -> In x (tb_elections w) /\ te_id x = e.
Proof. intros H. apply find_first_some in H as [H1 H2]. apply String.eqb_eq in H2. auto. Qed.
Lemma in_set {A} i (a : A) l x : In x (set_nth i a l) -> x = a \/ In x l.
Proof. revert i. induction l as [|y l IH]; intros [|i]; cbn; intros H; [destruct H|destruct H| |]; [destruct H as [<-|H]; auto|]. destruct H as [<-|H]; [auto|]. destruct (IH _ H); auto. Qed.
Lemma inv_next w0 W ev : t_inv w0 W -> t_inv w0 (t_next W ev).
Proof.
  intros HI. pose proof HI as [I1 I2 I3 I4 I5]. destruct ev as [e n|i new|id]; cbn [t_next].
  - split; cbn [tw_db tw_calls]; auto.
    + intros c Hc. apply in_app_or in Hc as [Hc|[<-|[]]]; [exact (I4 c Hc)|exact I].
    + intros id. rewrite cnt_app, cnt_one. cbn [pends]. rewrite Nat.add_0_r. apply I5.
  - destruct (nth_error (tw_calls W) i) as [c|] eqn:Hc; [|exact HI]. pose proof (I4 c (nth_error_In _ _ Hc)) as Hok.
    destruct c as [e n|e n|e n|e id n|a]; cbn [t_step].
    + assert (Hg : forall c', call_ok (tw_db W) c' -> (forall id, pends id c' = false) -> t_inv w0 (mkTWorld (tw_db W) (set_nth i c' (tw_calls W)))).
      { intros c' H1 H2. split; cbn [tw_db tw_calls]; auto; [intros y Hy; apply in_set in Hy as [->|Hy]; auto|]. intros id. pose proof (cnt_set (pends id) c' _ _ _ Hc) as H. rewrite H2 in H. cbn [pends] in H. specialize (I5 id). lia. }
      destruct (t_find (tw_db W) e) as [x|] eqn:Hf; apply Hg; try reflexivity; try exact I. cbn. apply t_find_some in Hf as [Hf <-]. apply in_map, Hf.
    + assert (Hg : forall c', call_ok (tw_db W) c' -> (forall id, pends id c' = false) -> t_inv w0 (mkTWorld (tw_db W) (set_nth i c' (tw_calls W)))).
      { intros c' H1 H2. split; cbn [tw_db tw_calls]; auto; [intros y Hy; apply in_set in Hy as [->|Hy]; auto|]. intros id. pose proof (cnt_set (pends id) c' _ _ _ Hc) as H. rewrite H2 in H. cbn [pends] in H. specialize (I5 id). lia. }
      destruct (name_exists (tw_db W) n); apply Hg; try reflexivity; try exact I. exact Hok.
    + destruct (t_insert (tw_db W) (mkTDoc new e n false)) as [w'|] eqn:Hi.
      * apply t_insert_ok in Hi as (A1 & A2 & A3). cbn [td_id] in A3. split; cbn [tw_db tw_calls].
        -- rewrite A1. exact I1.
        -- rewrite A2, map_app. apply NoDup_app_intro; [exact I2|repeat constructor; intros []|]. intros y Hy [<-|[]]. exact (A3 Hy).
        -- intros x id m. rewrite A1. intros Hx Hl. apply tally_of_key. rewrite A2, map_app. apply in_or_app. left. apply tally_of_key. exact (I3 x id m Hx Hl).
        -- intros y Hy. apply in_set in Hy as [->|Hy].
           ++ cbn. rewrite A1. split; [exact Hok|]. exists (mkTDoc new e n false). rewrite A2. split; [apply in_or_app; right; left; reflexivity|auto].
           ++ apply (call_ok_ext (tw_db W)); [rewrite A1; reflexivity| |exact (I4 y Hy)]. intros k Hk. rewrite A2, map_app. apply in_or_app. left. exact Hk.
        -- intros id. pose proof (cnt_set (pends id) (TAppend e new n) _ _ _ Hc) as H. cbn [pends] in H. specialize (I5 id). unfold times_listed in *. rewrite A1, A2, cnt_app, cnt_one. cbn [td_id]. lia.
      * split; cbn [tw_db tw_calls]; auto; [intros y Hy; apply in_set in Hy as [->|Hy]; [exact I|auto]|]. intros id. pose proof (cnt_set (pends id) (TAnswered TFailed) _ _ _ Hc) as H. cbn [pends] in H. specialize (I5 id). lia.
    + destruct Hok as [Hin Ht]. pose proof (append_who (tw_db W) e id n) as Hw. split; cbn [tw_db tw_calls].
      * rewrite Hw. exact I1.
      * exact I2.
      * intros x j m Hx Hl. change (tally_of (tw_db W) (te_id x) j m). cbn [append_decryption tb_elections] in Hx. apply update_first_in in Hx as [Hx|(y & Hy & Hp & ->)]; [exact (I3 x j m Hx Hl)|]. cbn [te_id te_decryptions] in *.
        apply String.eqb_eq in Hp. apply in_app_or in Hl as [Hl|[[= <- <-]|[]]]; [exact (I3 y j m Hy Hl)|]. rewrite Hp. exact Ht.
      * intros y Hy. apply in_set in Hy as [->|Hy]; [exact I|]. apply (call_ok_ext (tw_db W)); [apply map_who_ids, Hw|auto|exact (I4 y Hy)].
      * intros j. pose proof (cnt_set (pends j) (TAnswered (TCreated id)) _ _ _ Hc) as H. cbn [pends] in H. specialize (I5 j). rewrite append_listed by exact Hin. cbn [append_decryption tb_docs]. lia.
    + split; cbn [tw_db tw_calls]; auto; [intros y Hy; apply in_set in Hy as [->|Hy]; [exact I|auto]|]. intros id. pose proof (cnt_set (pends id) (TAnswered a) _ _ _ Hc) as H. cbn [pends] in H. specialize (I5 id). lia.
  - pose proof (complete_keys (tw_db W) id) as Hk. split; cbn [tw_db tw_calls].
    + exact I1.
    + rewrite (keys_ids _ _ Hk). exact I2.
    + intros x j m Hx Hl. apply tally_of_key. rewrite Hk. apply tally_of_key. exact (I3 x j m Hx Hl).
    + intros c Hc. apply (call_ok_ext (tw_db W)); [reflexivity| |exact (I4 c Hc)]. intros k. rewrite Hk. auto.
    + intros j. specialize (I5 j). rewrite cnt_ids, (keys_ids _ _ Hk), <- cnt_ids. exact I5.
Qed.
Lemma inv_history w0 h : no_tallies w0 -> t_inv w0 (t_history (mkTWorld w0 []) h).
Proof.
  intros H. apply inv_start in H. revert H. generalize (mkTWorld w0 []). unfold t_history. induction h as [|ev h IH]; intros W HI; cbn [fold_left]; [exact HI|]. apply IH, inv_next, HI.
Qed.
Lemma key_unique w d d' : NoDup (map td_id (tb_docs w)) -> In d (tb_docs w) -> In d' (tb_docs w) -> td_id d = td_id d' -> d = d'.
Proof.
  generalize (tb_docs w). intros l. induction l as [|x l IH]; cbn [map]; [intros _ []|]. intros Hn. apply NoDup_cons_iff in Hn as [Hx Hn]. intros [->|H1] [->|H2] He; auto.
  - exfalso. apply Hx. rewrite He. apply in_map, H2.
  - exfalso. apply Hx. rewrite <- He. apply in_map, H1.
Qed.
Lemma listed_thm w0 h : no_tallies w0 -> let w := tally_db w0 h in
  (forall x id n, In x (tb_elections w) -> In (id, n) (te_decryptions x) -> tally_of w (te_id x) id n) /\
  (forall id, times_listed w id <= 1)%nat /\
  (all_done (t_history (mkTWorld w0 []) h) -> forall e id n, tally_of w e id n -> times_listed w id = 1%nat /\ exists x, In x (tb_elections w) /\ te_id x = e /\ In (id, n) (te_decryptions x)).
Proof.
  intros H0 w. destruct (inv_history w0 h H0) as [I1 I2 I3 I4 I5]. unfold w, tally_db in *. set (W := t_history _ h) in *. split; [exact I3|]. split.
  - intros id. specialize (I5 id). pose proof (cnt_nodup td_id (tb_docs (tw_db W)) id I2). lia.
  - intros Hd e id n (d & D1 & D2 & D3 & D4). assert (Ht : times_listed (tw_db W) id = 1%nat).
    { specialize (I5 id). pose proof (cnt_nodup td_id (tb_docs (tw_db W)) id I2). pose proof (cnt_pos (fun d => String.eqb (td_id d) id) _ d D1). cbn in H1. rewrite D2, String.eqb_refl in H1. specialize (H1 eq_refl).
      assert (Hz : cnt (pends id) (tw_calls W) = 0%nat). { destruct (cnt (pends id) (tw_calls W)) eqn:Hz; [reflexivity|]. exfalso. destruct (cnt_in (pends id) (tw_calls W)) as (c & C1 & C2); [lia|]. destruct (Hd c C1) as [a ->]. discriminate. } lia. }
    split; [exact Ht|]. unfold times_listed in Ht. change (List.length (filter ?p ?l)) with (cnt p l) in Ht. match type of Ht with cnt ?p ?l = _ => destruct (cnt_in p l) as ([j m] & C1 & C2); [lia|] end.
    cbn [fst] in C2. apply String.eqb_eq in C2. subst j. apply in_flat_map in C1 as (x & X1 & X2). destruct (I3 x id m X1 X2) as (d' & E1 & E2 & E3 & E4).
    assert (d' = d) by (apply (key_unique (tw_db W)); auto; congruence). subst d'. exists x. split; [exact X1|]. split; [congruence|]. rewrite <- D4, E4. exact X2.
Qed.

(** ** names *)
Lemma run_cases n new e name w : snd (t_run n new (TCreate e name) w) = w \/
  exists x w1, t_find w e = Some x /\ name_exists w name = false /\ t_insert w (mkTDoc new e name false) = Ok w1 /\
    (snd (t_run n new (TCreate e name) w) = w1 \/ snd (t_run n new (TCreate e name) w) = append_decryption w1 e new name).
Proof.
  assert (Ha : forall k a w', snd (t_run k new (TAnswered a) w') = w') by (induction k as [|k IH]; intros a w'; cbn; auto).
  destruct n as [|n]; [left; reflexivity|]. cbn [t_run t_step]. destruct (t_find w e) as [x|] eqn:Hf; [|left; apply Ha].
  destruct n as [|n]; [left; reflexivity|]. cbn [t_run t_step]. destruct (name_exists w name) eqn:Hx; [left; apply Ha|].
  destruct n as [|n]; [left; reflexivity|]. cbn [t_run t_step]. destruct (t_insert w (mkTDoc new e name false)) as [w1|] eqn:Hi; [|left; apply Ha].
  right. exists x, w1. repeat (split; [reflexivity|]). destruct n as [|n]; [left; reflexivity|]. cbn [t_run t_step]. right. apply Ha.
Qed.
Lemma name_free w name : name_exists w name = false <-> ~ In name (map td_name (tb_docs w)).
Proof.
  unfold name_exists. split.
  - intros H Hin. apply in_map_iff in Hin as (d & H1 & H2). assert (Ht : existsb (fun d => String.eqb (td_name d) name) (tb_docs w) = true) by (apply existsb_exists; exists d; rewrite H1, String.eqb_refl; auto). congruence.
  - intros H. destruct (existsb _ _) eqn:Hx; [|reflexivity]. exfalso. apply existsb_exists in Hx as (d & H1 & H2). apply String.eqb_eq in H2. apply H. rewrite <- H2. apply in_map, H1.
Qed.
Lemma in_turn_names h : forall w, NoDup (map td_name (tb_docs w)) -> NoDup (map td_name (tb_docs (in_turn w h))).
Proof.
  unfold in_turn. induction h as [|[[[e name] new] n] h IH]; intros w Hw; cbn [fold_left]; [exact Hw|]. apply IH.
  destruct (run_cases n new e name w) as [->|(x & w1 & _ & Hx & Hi & Hr)]; [exact Hw|].
  apply t_insert_ok in Hi as (_ & Hi & _). apply name_free in Hx. assert (Hd : tb_docs (snd (t_run n new (TCreate e name) w)) = tb_docs w ++ [mkTDoc new e name false]) by (destruct Hr as [Hr | Hr]; rewrite Hr; exact Hi).
  rewrite Hd, map_app. apply NoDup_app_intro; [exact Hw|repeat constructor; intros []|]. intros y Hy [<-|[]]. exact (Hx Hy).
Qed.
(** the number can be read back from a suggested name *)
Definition no_hash (s : string) : bool := forallb (fun c => negb (Ascii.eqb c "#"%char)) (list_ascii_of_string s).
Lemma uint_no_hash d : no_hash (NilEmpty.string_of_uint d) = true.
Proof. unfold no_hash. induction d; cbn; auto. Qed.
Lemma nz_no_hash d : no_hash (NilZero.string_of_uint d) = true.
Proof. destruct d; cbn; auto; try apply (uint_no_hash d). Qed.
Lemma int_no_hash z : no_hash (str_int z) = true.
Proof. unfold str_int. destruct (Z.to_int z) as [d|d]; cbn [NilZero.string_of_int]; [apply nz_no_hash|]. pose proof (nz_no_hash d) as H. unfold no_hash in *. cbn. exact H. Qed.
Lemma hash_in a s : no_hash (a ++ String "#" s) = false.
Proof. unfold no_hash. induction a as [|c a IH]; cbn; [reflexivity|]. destruct (Ascii.eqb c "#"); cbn; auto. Qed.
Lemma split_hash a : forall b s t, no_hash s = true -> no_hash t = true -> (a ++ String "#" s)%string = (b ++ String "#" t)%string -> a = b /\ s = t.
Proof.
  induction a as [|c a IH]; intros [|c' b] s t Hs Ht; cbn; intros H.
  - injection H as H. auto.
  - injection H as H1 H2. subst s. rewrite hash_in in Hs. discriminate.
  - injection H as H1 H2. subst t. rewrite hash_in in Ht. discriminate.
  - injection H as H1 H2. destruct (IH b s t Hs Ht H2) as [-> ->]. subst. auto.
Qed.
Lemma cancel_r s : forall a b, (a ++ s)%string = (b ++ s)%string -> a = b.
Proof.
  assert (Hl : forall a, String.length (a ++ s) = (String.length a + String.length s)%nat) by (induction a as [|c a IH]; cbn; auto).
  induction a as [|c a IH]; intros [|c' b] H; [reflexivity| | |].
  - apply (f_equal String.length) in H. rewrite !Hl in H. cbn in H. lia.
  - apply (f_equal String.length) in H. rewrite !Hl in H. cbn in H. lia.
  - cbn in H. injection H as -> H. f_equal. apply IH, H.
Qed.
Definition numbered (name : string) (k : Z) : string := (name ++ " Tally #" ++ str_int k)%string.
Lemma str_assoc a b c : ((a ++ b) ++ c)%string = (a ++ (b ++ c))%string.
Proof. induction a as [|x a IH]; cbn; [reflexivity|]. rewrite IH. reflexivity. Qed.
Lemma numbered_inj a b k m : numbered a k = numbered b m -> a = b /\ k = m.
Proof.
  unfold numbered. change (" Tally #" ++ str_int k)%string with (" Tally " ++ String "#" (str_int k))%string. change (" Tally #" ++ str_int m)%string with (" Tally " ++ String "#" (str_int m))%string.
  rewrite <- !str_assoc. intros H. apply split_hash in H as [H1 H2]; [|apply int_no_hash|apply int_no_hash]. split; [exact (cancel_r _ _ _ H1)|exact (str_int_inj _ _ H2)].
Qed.
(** ** names as suggested *)
Definition sug_inv (w0 w : tdb) : Prop := map who (tb_elections w) = map who (tb_elections w0) /\
  forall d, In d (tb_docs w) -> exists x k, In x (tb_elections w) /\ te_id x = td_election d /\ td_name d = numbered (te_name x) k /\ k <= get_decryption_count w (td_election d).
Lemma who_in w w' x : map who (tb_elections w') = map who (tb_elections w) -> In x (tb_elections w) -> exists y, In y (tb_elections w') /\ te_id y = te_id x /\ te_name y = te_name x.
Proof. intros H Hx. assert (Hi : In (who x) (map who (tb_elections w'))) by (rewrite H; apply in_map, Hx). apply in_map_iff in Hi as (y & Hy & Hi). injection Hy as H1 H2. eauto. Qed.
Lemma sug_step w0 w e new n name : sug_inv w0 w -> suggested_name w e = Ok name -> sug_inv w0 (snd (t_run n new (TCreate e name) w)).
Proof.
  intros [S1 S2] Hs. destruct (run_cases n new e name w) as [->|(x & w1 & Hf & _ & Hi & Hr)]; [split; assumption|].
  unfold suggested_name in Hs. rewrite Hf in Hs. injection Hs as <-. apply t_find_some in Hf as [Hf He]. apply t_insert_ok in Hi as (A1 & A2 & _).
  set (w' := snd _) in *. assert (Hd : tb_docs w' = tb_docs w1) by (destruct Hr as [Hr | Hr]; rewrite Hr; reflexivity). rewrite A2 in Hd.
  assert (Hw : map who (tb_elections w') = map who (tb_elections w)) by (rewrite <- A1; destruct Hr as [Hr | Hr]; rewrite Hr; first [reflexivity|apply append_who]).
  split; [congruence|]. intros d. rewrite Hd. intros Hin.
  assert (Hc : forall e', get_decryption_count w' e' = get_decryption_count w e' + (if String.eqb e e' then 1 else 0)).
  { intros e'. unfold get_decryption_count, len. rewrite Hd, filter_app, app_length. cbn [filter td_election]. destruct (String.eqb e e'); cbn [List.length]; lia. }
  rewrite Hc. apply in_app_or in Hin as [Hin|[<-|[]]].
  - destruct (S2 d Hin) as (y & k & Y1 & Y2 & Y3 & Y4). destruct (who_in _ _ _ Hw Y1) as (z & Z1 & Z2 & Z3). exists z, k. split; [exact Z1|]. split; [congruence|]. split; [congruence|]. destruct (String.eqb e (td_election d)); lia.
  - destruct (who_in _ _ _ Hw Hf) as (z & Z1 & Z2 & Z3). exists z, (get_decryption_count w e + 1). cbn [td_election td_name]. split; [exact Z1|]. split; [congruence|]. rewrite Z3, String.eqb_refl. split; [reflexivity|lia].
Qed.
Lemma cnt_election e l : len (filter (fun d => String.eqb (td_election d) e) l) = len (filter (fun k => String.eqb (snd (fst k)) e) (map key l)).
Proof. unfold len. f_equal. induction l as [|d l IH]; cbn; [reflexivity|]. destruct (String.eqb (td_election d) e); cbn; rewrite IH; reflexivity. Qed.
Lemma sug_complete w0 w id : sug_inv w0 w -> sug_inv w0 (t_complete w id).
Proof.
  intros [S1 S2]. split; [exact S1|]. intros d Hd. pose proof (complete_keys w id) as Hk. assert (Hi : In (key d) (map key (tb_docs w))) by (rewrite <- Hk; apply in_map, Hd).
  apply in_map_iff in Hi as (d' & Hd1 & Hd2). destruct (S2 d' Hd2) as (x & k & X1 & X2 & X3 & X4). unfold key in Hd1. injection Hd1 as E1 E2 E3. exists x, k. split; [exact X1|]. split; [congruence|]. split; [congruence|].
  rewrite <- E2. unfold get_decryption_count in *. rewrite cnt_election, Hk, <- cnt_election. exact X4.
Qed.
Lemma sug_history w0 h : no_tallies w0 -> sug_inv w0 (as_suggested w0 h).
Proof.
  intros [_ H2 _]. assert (H : sug_inv w0 w0) by (split; [reflexivity|rewrite H2; intros ? []]). unfold as_suggested. revert H. generalize w0 at 2 4. induction h as [|[e new n|id] h IH]; intros w Hw; cbn [fold_left]; [exact Hw| |]; apply IH.
  - destruct (suggested_name w e) as [name|] eqn:Hs; [|exact Hw]. exact (sug_step _ _ _ _ _ _ Hw Hs).
  - exact (sug_complete _ _ _ Hw).
Qed.
Lemma find_there w e : In e (map te_id (tb_elections w)) -> exists x, t_find w e = Some x.
Proof.
  intros H. destruct (t_find w e) eqn:Hf; [eauto|]. exfalso. apply in_map_iff in H as (x & H1 & H2). apply (proj1 (find_first_none _ _)) with (x := x) in Hf; [|exact H2]. cbn in Hf. rewrite H1, String.eqb_refl in Hf. discriminate.
Qed.
Lemma suggested_thm w0 h e new : no_tallies w0 -> NoDup (map te_name (tb_elections w0)) -> In e (map te_id (tb_elections w0)) -> let w := as_suggested w0 h in unused w new ->
  exists name, suggested_name w e = Ok name /\ fst (t_run 4 new (TCreate e name) w) = TAnswered (TCreated new).
Proof.
  intros H0 Hn He w Hu. destruct (sug_history w0 h H0) as [S1 S2]. fold w in S1, S2. rewrite <- (map_who_ids _ _ S1) in He. destruct (find_there w e He) as [x Hx].
  assert (Hn' : NoDup (map te_name (tb_elections w))). { replace (map te_name (tb_elections w)) with (map te_name (tb_elections w0)); [exact Hn|]. apply (f_equal (map snd)) in S1. rewrite !map_map in S1. symmetry. exact S1. }
  pose proof (t_find_some _ _ _ Hx) as [X1 X2]. exists (numbered (te_name x) (get_decryption_count w e + 1)). split; [unfold suggested_name; rewrite Hx; reflexivity|].
  set (name := numbered _ _). assert (Hfree : name_exists w name = false).
  { apply name_free. intros Hin. apply in_map_iff in Hin as (d & D1 & D2). destruct (S2 d D2) as (y & k & Y1 & Y2 & Y3 & Y4). rewrite Y3 in D1. apply numbered_inj in D1 as [D3 D4].
    assert (y = x). { clear - Hn' Y1 X1 D3. revert Hn' Y1 X1. generalize (tb_elections w). intros l. induction l as [|z l IH]; cbn [map]; [intros _ []|]. intros Hn. apply NoDup_cons_iff in Hn as [Hz Hn]. intros [->|H1] [->|H2]; auto; exfalso; apply Hz; [rewrite D3|rewrite <- D3]; apply in_map; assumption. }
    subst y. rewrite <- Y2, X2 in Y4. lia. }
  assert (Hi : exists w1, t_insert w (mkTDoc new e name false) = Ok w1).
  { unfold t_insert. destruct (existsb _ _) eqn:Hb; [|eauto]. exfalso. apply existsb_exists in Hb as (d & D1 & D2). apply String.eqb_eq in D2. exact (Hu d D1 D2). }
  destruct Hi as [w1 Hi]. cbn [t_run t_step]. rewrite Hx. cbn [t_run t_step]. rewrite Hfree. cbn [t_run t_step]. rewrite Hi. reflexivity.
Qed.
(** a name that is taken stays taken *)
Lemma name_stays W ev n : name_exists (tw_db W) n = true -> name_exists (tw_db (t_next W ev)) n = true.
Proof.
  intros H. assert (Hin : In n (map td_name (tb_docs (tw_db W)))). { destruct (name_exists (tw_db W) n) eqn:Hx; [|discriminate]. destruct (in_dec string_dec n (map td_name (tb_docs (tw_db W)))) as [Hi|Hi]; [exact Hi|]. apply name_free in Hi. congruence. }
  assert (Hout : In n (map td_name (tb_docs (tw_db (t_next W ev))))); [|destruct (name_exists (tw_db (t_next W ev)) n) eqn:Hx; [reflexivity|]; apply name_free in Hx; contradiction].
  destruct ev as [e m|i new|id]; cbn [t_next]; [exact Hin| |].
  - destruct (nth_error (tw_calls W) i) as [c|]; [|exact Hin]. destruct c as [e m|e m|e m|e id m|a]; cbn [t_step]; try exact Hin.
    + destruct (t_find (tw_db W) e); exact Hin.
    + destruct (name_exists (tw_db W) m); exact Hin.
    + destruct (t_insert (tw_db W) (mkTDoc new e m false)) as [w'|] eqn:Hi; [|exact Hin]. apply t_insert_ok in Hi as (_ & Hi & _). cbn [tw_db]. rewrite Hi, map_app. apply in_or_app. left. exact Hin.
  - cbn [tw_db]. pose proof (complete_keys (tw_db W) id) as Hk. apply (f_equal (map snd)) in Hk. rewrite !map_map in Hk. cbn [key snd] in Hk. cbn in Hk |- *. change (fun d => td_name d) with td_name in Hk. rewrite Hk. exact Hin.
Qed.
Lemma name_stays_history h : forall W n, name_exists (tw_db W) n = true -> name_exists (tw_db (t_history W h)) n = true.
Proof. unfold t_history. induction h as [|ev h IH]; intros W n H; cbn [fold_left]; [exact H|]. apply IH, name_stays, H. Qed.

(** ** which tallies the guardians see *)
Lemma next_docs W ev d : In d (tb_docs (tw_db (t_next W ev))) -> In d (tb_docs (tw_db W)) \/
  (td_completed d = false /\ ~ In (td_id d) (map td_id (tb_docs (tw_db W)))) \/ (ev = TComplete (td_id d) /\ In (key d) (map key (tb_docs (tw_db W)))).
Proof.
  destruct ev as [e m|i new|id]; cbn [t_next]; [auto| |].
  - destruct (nth_error (tw_calls W) i) as [c|]; [|auto]. destruct c as [e m|e m|e m|e id m|a]; cbn [t_step]; auto.
    + destruct (t_find (tw_db W) e); auto.
    + destruct (name_exists (tw_db W) m); auto.
    + destruct (t_insert (tw_db W) (mkTDoc new e m false)) as [w'|] eqn:Hi; [|auto]. apply t_insert_ok in Hi as (_ & Hi & Hn). cbn [tw_db]. rewrite Hi. intros H. apply in_app_or in H as [H|[<-|[]]]; auto.
  - cbn [tw_db t_complete tb_docs]. intros H. apply update_first_in in H as [H|(x & H1 & H2 & ->)]; [auto|]. right. right. apply String.eqb_eq in H2. cbn [td_id]. split; [congruence|]. exact (in_map key _ _ H1).
Qed.
Lemma completed_by h : forall W, (forall d, In d (tb_docs (tw_db W)) -> td_completed d = false) -> forall d, In d (tb_docs (tw_db (t_history W h))) -> td_completed d = true -> In (TComplete (td_id d)) h.
Proof.
  intros W HW. induction h as [|ev h IH] using rev_ind; [intros d Hd Hc; cbn in Hd; rewrite (HW d Hd) in Hc; discriminate|]. intros d. unfold t_history. rewrite fold_left_app. cbn [fold_left]. intros Hd Hc. apply in_or_app.
  apply next_docs in Hd as [Hd|[[Hf _]|[-> _]]]; [left; exact (IH d Hd Hc)|congruence|right; left; reflexivity].
Qed.
Lemma active_spec w id n : In (id, n) (get_active w) <-> exists d, In d (tb_docs w) /\ td_id d = id /\ td_name d = n /\ td_completed d = false.
Proof.
  unfold get_active. rewrite in_map_iff. split; intros (d & H); exists d.
  - destruct H as [[= <- <-] H]. apply filter_In in H as [H1 H2]. destruct (td_completed d); [discriminate|auto].
  - destruct H as (H1 & <- & <- & H2). split; [reflexivity|]. apply filter_In. rewrite H2. auto.
Qed.
Definition gone (id : string) (w : tdb) : Prop := In id (map td_id (tb_docs w)) /\ forall d, In d (tb_docs w) -> td_id d = id -> td_completed d = true.
Lemma ids_stay W ev id : In id (map td_id (tb_docs (tw_db W))) -> In id (map td_id (tb_docs (tw_db (t_next W ev)))).
Proof.
  intros Hin. destruct ev as [e m|i new|j]; cbn [t_next]; [exact Hin| |].
  - destruct (nth_error (tw_calls W) i) as [c|]; [|exact Hin]. destruct c as [e m|e m|e m|e j m|a]; cbn [t_step]; try exact Hin.
    + destruct (t_find (tw_db W) e); exact Hin.
    + destruct (name_exists (tw_db W) m); exact Hin.
    + destruct (t_insert (tw_db W) (mkTDoc new e m false)) as [w'|] eqn:Hi; [|exact Hin]. apply t_insert_ok in Hi as (_ & Hi & _). cbn [tw_db]. rewrite Hi, map_app. apply in_or_app. left. exact Hin.
  - cbn [tw_db]. rewrite (keys_ids _ _ (complete_keys (tw_db W) j)). exact Hin.
Qed.
Lemma gone_stays id W ev : gone id (tw_db W) -> gone id (tw_db (t_next W ev)).
Proof.
  intros [G1 G2]. split; [exact (ids_stay W ev id G1)|]. intros d Hd He. apply next_docs in Hd as Hd'. destruct Hd' as [H|[[_ H]|[-> _]]]; [exact (G2 d H He)|rewrite He in H; contradiction|].
  cbn [t_next tw_db t_complete tb_docs] in Hd. apply update_first_in in Hd as [H|(x & _ & _ & ->)]; [exact (G2 d H He)|reflexivity].
Qed.
Lemma complete_gone w id : NoDup (map td_id (tb_docs w)) -> In id (map td_id (tb_docs w)) -> gone id (t_complete w id).
Proof.
  intros Hn Hin. split; [rewrite (keys_ids _ _ (complete_keys w id)); exact Hin|]. cbn [t_complete tb_docs]. revert Hn Hin. generalize (tb_docs w). intros l. induction l as [|x l IH]; cbn [map]; [intros _ []|]. intros Hn Hin d. apply NoDup_cons_iff in Hn as [Hx Hn].
  cbn [update_first]. destruct (String.eqb_spec (td_id x) id) as [He|He].
  - intros [<-|Hd] Hi; [reflexivity|]. exfalso. apply Hx. rewrite He, <- Hi. apply in_map, Hd.
  - intros [<-|Hd] Hi; [contradiction|]. destruct Hin as [Hin|Hin]; [contradiction|]. exact (IH Hn Hin d Hd Hi).
Qed.
Lemma active_thm w0 h e id n : no_tallies w0 -> tally_of (tally_db w0 h) e id n ->
  (~ In (TComplete id) h -> In (id, n) (get_active (tally_db w0 h))) /\ forall h' n', ~ In (id, n') (get_active (tally_db w0 (h ++ TComplete id :: h'))).
Proof.
  intros H0 (d & D1 & D2 & D3 & D4). split.
  - intros Hc. apply active_spec. exists d. split; [exact D1|]. split; [exact D2|]. split; [exact D4|]. destruct (td_completed d) eqn:Hd; [|reflexivity]. exfalso. apply Hc. rewrite <- D2.
    apply (completed_by h (mkTWorld w0 [])); auto. cbn [tw_db]. rewrite (nt_docs w0 H0). intros ? [].
  - intros h' n' Hin. assert (Hg : gone id (tally_db w0 (h ++ TComplete id :: h'))).
    { unfold tally_db, t_history. rewrite fold_left_app. cbn [fold_left]. pose proof (inv_history w0 h H0) as [_ I2 _ _ _]. unfold t_history in I2. unfold tally_db, t_history in D1.
      assert (G : gone id (tw_db (t_next (fold_left t_next h (mkTWorld w0 [])) (TComplete id)))) by (apply complete_gone; [exact I2|rewrite <- D2; apply in_map, D1]).
      revert G. generalize (t_next (fold_left t_next h (mkTWorld w0 [])) (TComplete id)). clear. induction h' as [|ev h' IH]; intros W G; cbn [fold_left]; [exact G|]. apply IH, gone_stays, G. }
    apply active_spec in Hin as (d' & E1 & E2 & _ & E4). rewrite (proj2 Hg d' E1 E2) in E4. discriminate.
Qed.
