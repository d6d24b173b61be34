(** * Lemmas about hash.py and nonces.py. *)
From Verif Require Import Base Group GroupFacts Codec CodecFacts Hash.
From Coq Require Import Decimal DecimalString DecimalZ DecimalFacts.

(** ** strings without the separator *)
Definition no_bar (s : string) : bool :=
  forallb (fun c => negb (Ascii.eqb c "|"%char)) (list_ascii_of_string s).

Lemma no_bar_split a : forall b r r', no_bar a = true -> no_bar b = true ->
  (a ++ "|" ++ r = b ++ "|" ++ r')%string -> a = b /\ r = r'.
Proof.
  induction a as [|c a IH]; intros [|d b] r r' Ha Hb Heq.
  - cbn in Heq. inversion Heq; auto.
  - cbn in Heq. inversion Heq; subst d. cbn in Hb. discriminate.
  - cbn in Heq. inversion Heq; subst c. cbn in Ha. discriminate.
  - cbn in Heq. inversion Heq; subst d. unfold no_bar in Ha, Hb. cbn in Ha, Hb.
    apply andb_true_iff in Ha. apply andb_true_iff in Hb.
    destruct (IH b r r') as [-> ->]; auto; try tauto; unfold no_bar; tauto.
Qed.

Lemma upper_hex_no_bar s : forallb is_upper_hex (list_ascii_of_string s) = true -> no_bar s = true.
Proof.
  unfold no_bar. rewrite !forallb_forall. intros H c Hc. specialize (H c Hc).
  destruct (Ascii.eqb_spec c "|"%char) as [->|]; [discriminate|reflexivity].
Qed.
Lemma int_to_hex_no_bar n : 0 <= n -> no_bar (int_to_hex n) = true.
Proof. intros. apply upper_hex_no_bar. apply (int_to_hex_shape n H). Qed.
Lemma int_to_hex_not_null n : 0 <= n -> int_to_hex n <> "null"%string.
Proof.
  intros Hn Heq. pose proof (int_to_hex_shape n Hn) as (_ & _ & H). rewrite Heq in H. discriminate.
Qed.

Lemma string_of_uint_no_bar d : no_bar (NilEmpty.string_of_uint d) = true.
Proof. unfold no_bar. induction d; cbn; auto. Qed.
Lemma nz_uint_no_bar d : no_bar (NilZero.string_of_uint d) = true.
Proof. destruct d; cbn; auto; try apply (string_of_uint_no_bar d). Qed.
Lemma str_int_no_bar z : no_bar (str_int z) = true.
Proof.
  unfold str_int. destruct (Z.to_int z) as [d|d]; cbn [NilZero.string_of_int].
  - apply nz_uint_no_bar.
  - pose proof (nz_uint_no_bar d) as H. unfold no_bar in *. cbn. exact H.
Qed.
Lemma str_int_inj a b : str_int a = str_int b -> a = b.
Proof.
  intros H. unfold str_int in H.
  assert (Hne : forall z, Z.to_int z <> Pos Nil /\ Z.to_int z <> Neg Nil).
  { intros [|p|p]; cbn; split; try discriminate; intros [= Hp];
    apply (f_equal Pos.of_uint) in Hp; unfold Pos.to_uint in Hp.
    - change (Pos.of_uint (Pos.to_uint p) = Pos.of_uint Nil) in Hp.
      rewrite DecimalPos.Unsigned.of_to in Hp. discriminate.
    - change (Pos.of_uint (Pos.to_uint p) = Pos.of_uint Nil) in Hp.
      rewrite DecimalPos.Unsigned.of_to in Hp. discriminate. }
  apply (f_equal NilZero.int_of_string) in H.
  rewrite !NilZero.isi in H by apply Hne.
  injection H as H. apply to_int_inj; assumption.
Qed.

(** ** the hashed text *)
Lemma hash_me_list E x l : hash_me E (HList (x :: l)) = int_to_hex (hash_elems E (x :: l)).
Proof.
  reflexivity.
Qed.

Section helem_ind.
  Variable P : helem -> Prop.
  Hypothesis He : forall z, P (HElem z).
  Hypothesis Hh : forall z, P (HHash z).
  Hypothesis Hs : forall s, P (HStr s).
  Hypothesis Hi : forall z, P (HInt z).
  Hypothesis Hn : P HNone.
  Hypothesis Hl : forall l, Forall P l -> P (HList l).
  Fixpoint helem_ind' (x : helem) : P x :=
    match x with
    | HElem z => He z | HHash z => Hh z | HStr s => Hs s | HInt z => Hi z | HNone => Hn
    | HList l => Hl l ((fix go (l : list helem) : Forall P l :=
                          match l with
                          | [] => Forall_nil P
                          | y :: l' => Forall_cons y (helem_ind' y) (go l')
                          end) l)
    end.
End helem_ind.

(** ** typed positions: the protocol always hashes a fixed pattern of kinds *)
Inductive hty := TElem | THash | TStr | TInt | TNone | TOptElem | TOptHash | TList (t : hty).

Fixpoint has_ty (t : hty) (x : helem) {struct x} : bool :=
  match x, t with
  | HElem z, TElem | HElem z, TOptElem => 0 <=? z
  | HHash z, THash | HHash z, TOptHash => 0 <=? z
  | HStr s, TStr => no_bar s
  | HInt _, TInt => true
  | HNone, TNone | HNone, TOptElem | HNone, TOptHash => true
  | HList l, TList t => forallb (has_ty t) l
  | _, _ => false
  end.

(** every text that is fed to SHA-256 while hashing [x] as a nested list *)
Fixpoint texts_of (E : env) (x : helem) : list string :=
  match x with
  | HList l => hash_text E l :: flat_map (texts_of E) l
  | _ => []
  end.
Definition texts (E : env) (l : list helem) : list string := texts_of E (HList l).

Definition collide (E : env) (s t : string) : Prop := s <> t /\ sha E s mod qq E = sha E t mod qq E.

Section Inj.
  Variable E : env.
  Hypothesis Hq : 0 < qq E.

  Lemma hash_elems_nonneg l : 0 <= hash_elems E l.
  Proof. unfold hash_elems. apply Z.mod_pos_bound; assumption. Qed.

  Lemma hash_me_no_bar x : forall t, has_ty t x = true -> no_bar (hash_me E x) = true.
  Proof.
    destruct x as [z|z|s|z| |l]; intros t Ht.
    - apply int_to_hex_no_bar. destruct t; cbn in Ht; try discriminate; lia.
    - apply int_to_hex_no_bar. destruct t; cbn in Ht; try discriminate; lia.
    - destruct t; cbn in Ht; try discriminate; assumption.
    - apply str_int_no_bar.
    - reflexivity.
    - destruct l as [|y l]; [reflexivity|]. rewrite hash_me_list.
      apply int_to_hex_no_bar, hash_elems_nonneg.
  Qed.

  Lemma fold_text_inj l1 : forall l2,
    Forall (fun x => no_bar (hash_me E x) = true) l1 ->
    Forall (fun x => no_bar (hash_me E x) = true) l2 ->
    fold_right (fun x acc => (hash_me E x ++ "|" ++ acc)%string) EmptyString l1 =
    fold_right (fun x acc => (hash_me E x ++ "|" ++ acc)%string) EmptyString l2 ->
    map (hash_me E) l1 = map (hash_me E) l2.
  Proof.
    induction l1 as [|x l1 IH]; intros [|y l2] H1 H2 Heq; cbn [fold_right map] in *.
    - reflexivity.
    - exfalso. destruct (hash_me E y); discriminate.
    - exfalso. destruct (hash_me E x); discriminate.
    - inversion H1; inversion H2; subst.
      apply no_bar_split in Heq; [|assumption|assumption]. destruct Heq as [-> Heq].
      f_equal. apply IH; assumption.
  Qed.

  Lemma hash_text_map l1 l2 :
    Forall (fun x => no_bar (hash_me E x) = true) l1 ->
    Forall (fun x => no_bar (hash_me E x) = true) l2 ->
    hash_text E l1 = hash_text E l2 -> map (hash_me E) l1 = map (hash_me E) l2.
  Proof.
    intros H1 H2 Heq. unfold hash_text in Heq. cbn in Heq. injection Heq as Heq.
    apply fold_text_inj; assumption.
  Qed.

  Definition found (a b : list string) : Prop :=
    exists s t, In s a /\ In t b /\ collide E s t.

  Lemma hash_list_inj_aux l1 (IH : Forall (fun x1 => forall t x2, has_ty t x1 = true -> has_ty t x2 = true ->
       hash_me E x1 = hash_me E x2 -> x1 = x2 \/ found (texts_of E x1) (texts_of E x2)) l1) :
    forall ts l2, Forall2 (fun t x => has_ty t x = true) ts l1 ->
      Forall2 (fun t x => has_ty t x = true) ts l2 ->
      map (hash_me E) l1 = map (hash_me E) l2 ->
      l1 = l2 \/ found (flat_map (texts_of E) l1) (flat_map (texts_of E) l2).
  Proof.
    induction l1 as [|x l1 IHl]; intros ts [|y l2] H1 H2 Heq; cbn [map] in Heq; try discriminate.
    - left; reflexivity.
    - injection Heq as Hx Hl. inversion IH as [|? ? IHx IHl1]; subst.
      inversion H1 as [|t ? ts' ? Ht1 H1']; subst. inversion H2 as [|? ? ? ? Ht2 H2']; subst.
      destruct (IHx t y Ht1 Ht2 Hx) as [->|(s & u & Hs & Hu & Hc)].
      + destruct (IHl IHl1 ts' l2 H1' H2' Hl) as [->|(s & u & Hs & Hu & Hc)]; [left; reflexivity|].
        right. exists s, u. cbn [flat_map]. split; [apply in_or_app; tauto|].
        split; [apply in_or_app; tauto|assumption].
      + right. exists s, u. cbn [flat_map]. split; [apply in_or_app; tauto|].
        split; [apply in_or_app; tauto|assumption].
  Qed.

  Lemma forall2_repeat t l : forallb (has_ty t) l = true ->
    Forall2 (fun t x => has_ty t x = true) (repeat t (length l)) l.
  Proof.
    induction l as [|x l IH]; cbn; [constructor|]. rewrite andb_true_iff. intros [Hx Hl].
    constructor; auto.
  Qed.

  Lemma typed_no_bar ts l : Forall2 (fun t x => has_ty t x = true) ts l ->
    Forall (fun x => no_bar (hash_me E x) = true) l.
  Proof.
    induction 1; constructor; auto. eapply hash_me_no_bar; eassumption.
  Qed.

  Lemma hash_me_inj x1 : forall t x2, has_ty t x1 = true -> has_ty t x2 = true ->
    hash_me E x1 = hash_me E x2 -> x1 = x2 \/ found (texts_of E x1) (texts_of E x2).
  Proof.
    induction x1 as [z|z|s|z| |l IHl] using helem_ind'; intros t x2 H1 H2 Heq.
    - destruct t; cbn in H1; try discriminate; destruct x2; cbn in H2; try discriminate; left.
      + f_equal. apply int_to_hex_inj; [lia|lia|exact Heq].
      + f_equal. apply int_to_hex_inj; [lia|lia|exact Heq].
      + exfalso. apply (int_to_hex_not_null z); [lia|exact Heq].
    - destruct t; cbn in H1; try discriminate; destruct x2; cbn in H2; try discriminate; left.
      + f_equal. apply int_to_hex_inj; [lia|lia|exact Heq].
      + f_equal. apply int_to_hex_inj; [lia|lia|exact Heq].
      + exfalso. apply (int_to_hex_not_null z); [lia|exact Heq].
    - destruct t; cbn in H1; try discriminate; destruct x2; cbn in H2; try discriminate; left.
      f_equal; exact Heq.
    - destruct t; cbn in H1; try discriminate; destruct x2; cbn in H2; try discriminate; left.
      f_equal. apply str_int_inj; exact Heq.
    - destruct t; cbn in H1; try discriminate; destruct x2; cbn in H2; try discriminate; left;
        try reflexivity; exfalso; eapply int_to_hex_not_null; try (symmetry; exact Heq); lia.
    - destruct t; try discriminate. destruct x2 as [| | | | |l2]; try discriminate.
      cbn [has_ty] in H1, H2.
      destruct l as [|x l], l2 as [|y l2].
      + left; reflexivity.
      + exfalso. rewrite hash_me_list in Heq. symmetry in Heq.
        eapply int_to_hex_not_null; [|exact Heq]. apply hash_elems_nonneg.
      + exfalso. rewrite hash_me_list in Heq.
        eapply int_to_hex_not_null; [|exact Heq]. apply hash_elems_nonneg.
      + rewrite !hash_me_list in Heq. apply int_to_hex_inj in Heq; try apply hash_elems_nonneg.
        destruct (string_dec (hash_text E (x :: l)) (hash_text E (y :: l2))) as [Ht|Ht].
        * pose proof (forall2_repeat t _ H1) as F1. pose proof (forall2_repeat t _ H2) as F2.
          apply hash_text_map in Ht; [|eapply typed_no_bar; eassumption|eapply typed_no_bar; eassumption].
          assert (Hlen : length (x :: l) = length (y :: l2)).
          { apply (f_equal (@length _)) in Ht. rewrite !map_length in Ht. exact Ht. }
          rewrite <- Hlen in F2.
          destruct (hash_list_inj_aux (x :: l) IHl _ _ F1 F2 Ht) as [->|(s & u & Hs & Hu & Hc)];
            [left; reflexivity|right].
          exists s, u. cbn [texts_of]. split; [right; exact Hs|]. split; [right; exact Hu|exact Hc].
        * right. exists (hash_text E (x :: l)), (hash_text E (y :: l2)).
          cbn [texts_of]. split; [left; reflexivity|]. split; [left; reflexivity|].
          split; [assumption|exact Heq].
  Qed.

  (** equal hashes of two sequences of the same kinds: equal sequences, or a collision between two
      of the texts that were actually hashed *)
  Lemma hash_elems_inj ts l1 l2 :
    Forall2 (fun t x => has_ty t x = true) ts l1 ->
    Forall2 (fun t x => has_ty t x = true) ts l2 ->
    hash_elems E l1 = hash_elems E l2 ->
    l1 = l2 \/ found (texts E l1) (texts E l2).
  Proof.
    intros F1 F2 Heq.
    destruct (string_dec (hash_text E l1) (hash_text E l2)) as [Ht|Ht].
    - apply hash_text_map in Ht; [|eapply typed_no_bar; eassumption|eapply typed_no_bar; eassumption].
      destruct (hash_list_inj_aux l1) with (ts := ts) (l2 := l2) as [->|(s & u & Hs & Hu & Hc)]; auto.
      + apply Forall_forall. intros x1 _. apply hash_me_inj.
      + right. exists s, u. unfold texts. cbn [texts_of].
        split; [right; exact Hs|]. split; [right; exact Hu|exact Hc].
    - right. exists (hash_text E l1), (hash_text E l2). unfold texts. cbn [texts_of].
      split; [left; reflexivity|]. split; [left; reflexivity|]. split; assumption.
  Qed.
End Inj.

(** ** nonces *)
Lemma range_fuel_nth n : forall cur step i, (i < n)%nat ->
  nth_error (range_fuel n cur step) i = Some (cur + Z.of_nat i * step).
Proof.
  induction n as [|n IH]; intros cur step i Hi; [lia|].
  destruct i as [|i]; cbn [range_fuel nth_error]; [f_equal; lia|].
  rewrite IH by lia. f_equal; lia.
Qed.
Lemma range_fuel_length n : forall cur step, length (range_fuel n cur step) = n.
Proof. induction n; intros; cbn; auto. Qed.

Lemma rmapM_ok {A B} (f : A -> res B) (g : A -> B) l :
  (forall x, In x l -> f x = Ok (g x)) -> rmapM f l = Ok (map g l).
Proof.
  induction l as [|x l IH]; intros H; [reflexivity|].
  cbn [rmapM map]. rewrite H by (left; reflexivity). cbn [rbind].
  rewrite IH by (intros; apply H; right; assumption). reflexivity.
Qed.
Lemma rmapM_err {A B} (f : A -> res B) l e :
  rmapM f l = Err e -> exists x, In x l /\ f x = Err e.
Proof.
  induction l as [|x l IH]; cbn [rmapM]; [discriminate|].
  destruct (f x) as [y|e'] eqn:Hf; cbn [rbind].
  - destruct (rmapM f l) as [ys|e'']; cbn [rbind]; [discriminate|]. intros [= ->].
    destruct IH as [z [Hz Hfz]]; [reflexivity|]. exists z; split; [right; assumption|assumption].
  - intros [= ->]. exists x; split; [left; reflexivity|assumption].
Qed.
Lemma rmapM_spec {A B} (f : A -> res B) l ys :
  rmapM f l = Ok ys -> Forall2 (fun x y => f x = Ok y) l ys.
Proof.
  revert ys. induction l as [|x l IH]; intros ys; cbn [rmapM]; [intros [= <-]; constructor|].
  destruct (f x) as [y|e'] eqn:Hf; cbn [rbind]; [|discriminate].
  destruct (rmapM f l) as [ys'|e'']; cbn [rbind]; [|discriminate]. intros [= <-].
  constructor; auto.
Qed.
Lemma Forall2_rmapM {A B} (f : A -> res B) l ys :
  Forall2 (fun x y => f x = Ok y) l ys -> rmapM f l = Ok ys.
Proof.
  induction 1 as [|x y l ys Hf H IH]; [reflexivity|]. cbn [rmapM]. rewrite Hf. cbn [rbind]. rewrite IH. reflexivity.
Qed.

Lemma nonce_get_ok E s i : 0 <= i -> nonce_get E s i = Ok (nonce_at E s i).
Proof.
  intros Hi. unfold nonce_get, nonce_with_headers. destruct (Z.ltb_spec i 0); [lia|]. reflexivity.
Qed.
Lemma py_range_in start stop step z : step <> 0 ->
  In z (py_range start stop step) -> exists i, 0 <= i /\ z = start + i * step.
Proof.
  intros Hs Hin. unfold py_range in Hin. apply In_nth_error in Hin. destruct Hin as [i Hi].
  set (n := Z.to_nat _) in Hi.
  assert (Hlt : (i < length (range_fuel n start step))%nat)
    by (apply nth_error_Some; rewrite Hi; discriminate).
  rewrite range_fuel_length in Hlt. rewrite range_fuel_nth in Hi by assumption.
  injection Hi as <-. exists (Z.of_nat i). split; [lia|reflexivity].
Qed.
