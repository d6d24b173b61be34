(** * EqualityFacts: sorting by id, and what the comparisons decide. *)
From Coq Require Import List QArith Permutation Bool.
From Verif Require Import Base Group Codec Hash ElGamal ZK Manifest Ballot ListFacts Equality SpecEquality.
Local Open Scope list_scope.
Local Open Scope Z_scope.

(** ** The order of texts *)
Lemma cmp_refl c : Ascii.compare c c = Eq.
Proof. unfold Ascii.compare. apply N.compare_refl. Qed.
Lemma sleb_cons a s b t :
  String.leb (String a s) (String b t) = true <->
  (N_of_ascii a < N_of_ascii b)%N \/ (a = b /\ String.leb s t = true).
Proof.
  unfold String.leb. simpl. unfold Ascii.compare.
  destruct (N.compare_spec (N_of_ascii a) (N_of_ascii b)) as [H|H|H].
  - assert (a = b) as -> by (rewrite <- (ascii_N_embedding a), H; apply ascii_N_embedding).
    split; [intro; right; auto|intros [L|[_ L]]; [exfalso; eapply N.lt_irrefl; exact L|exact L]].
  - split; auto.
  - split; [discriminate|].
    intros [L|[-> _]]; [exfalso; eapply N.lt_irrefl; eapply N.lt_trans; eassumption|exfalso; eapply N.lt_irrefl; eassumption].
Qed.
Lemma sleb_trans : forall s t u, String.leb s t = true -> String.leb t u = true -> String.leb s u = true.
Proof.
  induction s as [|a s IH]; intros t u H K; [destruct u; reflexivity|].
  destruct t as [|b t]; [discriminate|]. destruct u as [|c u]; [discriminate|].
  rewrite sleb_cons in *. destruct H as [H|[-> H]], K as [K|[-> K]].
  - left. eapply N.lt_trans; eassumption.
  - left. exact H.
  - left. exact K.
  - right. split; [reflexivity|eauto].
Qed.
Lemma sleb_total s t : String.leb s t = false -> String.leb t s = true.
Proof. intro H. destruct (String.leb_total s t) as [K|K]; [congruence|exact K]. Qed.

(** ** The sort *)
Section Sort.
  Context {A : Type} (key : A -> string).
  Inductive sorted_id : list A -> Prop :=
  | sorted_nil : sorted_id []
  | sorted_cons x l : (forall y, In y l -> String.leb (key x) (key y) = true) -> sorted_id l -> sorted_id (x :: l).

  Lemma insert_id_perm x l : Permutation (x :: l) (insert_id key x l).
  Proof.
    induction l as [|y l IH]; simpl; [reflexivity|].
    destruct (String.leb _ _); [reflexivity|].
    rewrite perm_swap. constructor. exact IH.
  Qed.
  Lemma sort_id_perm l : Permutation l (sort_id key l).
  Proof.
    induction l as [|x l IH]; [reflexivity|]. simpl.
    rewrite <- insert_id_perm. constructor. exact IH.
  Qed.
  Lemma insert_id_sorted x l : sorted_id l -> sorted_id (insert_id key x l).
  Proof.
    induction 1 as [|y l Hy Hs IH]; simpl.
    - constructor; [intros ? []|constructor].
    - destruct (String.leb (key x) (key y)) eqn:L.
      + constructor; [|constructor; assumption].
        intros z [<-|Hz]; [exact L|eapply sleb_trans; [exact L|auto]].
      + constructor; [|exact IH]. intros z Hz.
        apply (Permutation_in _ (Permutation_sym (insert_id_perm x l))) in Hz.
        destruct Hz as [<-|Hz]; [apply sleb_total, L|auto].
  Qed.
  Lemma sort_id_sorted l : sorted_id (sort_id key l).
  Proof. induction l; simpl; [constructor|apply insert_id_sorted; assumption]. Qed.

  Lemma sorted_unique : forall l l', sorted_id l -> sorted_id l' -> Permutation l l' -> NoDup (map key l) -> l = l'.
  Proof.
    induction l as [|x l IH]; intros l' S S' P N.
    - apply Permutation_nil in P. congruence.
    - destruct l' as [|y l']; [symmetry in P; apply Permutation_nil in P; discriminate|].
      inversion S as [|? ? Hx Sl]; subst. inversion S' as [|? ? Hy Sl']; subst.
      simpl in N. apply NoDup_cons_iff in N as [Nx N].
      assert (x = y) as ->.
      { assert (Hin : In x (y :: l')) by (eapply Permutation_in; [exact P|left; reflexivity]).
        destruct Hin as [E|Hin]; [congruence|].
        assert (Hin' : In y (x :: l)) by (eapply Permutation_in; [symmetry; exact P|left; reflexivity]).
        destruct Hin' as [E|Hin']; [congruence|].
        exfalso. apply Nx. rewrite in_map_iff. exists y. split; [|exact Hin'].
        apply String.leb_antisym; [apply Hy, Hin|apply Hx, Hin']. }
      f_equal. apply IH; try assumption. eapply Permutation_cons_inv. exact P.
  Qed.
  Lemma sort_id_unique l l' : Permutation l l' -> NoDup (map key l) -> sort_id key l = sort_id key l'.
  Proof.
    intros P N. apply sorted_unique; try apply sort_id_sorted.
    - rewrite <- (sort_id_perm l), <- (sort_id_perm l'). exact P.
    - eapply Permutation_NoDup; [apply Permutation_map, sort_id_perm|exact N].
  Qed.
  Lemma insert_id_f2 (R : A -> A -> Prop) x y l k :
    (forall a b, R a b -> key a = key b) -> R x y -> Forall2 R l k -> Forall2 R (insert_id key x l) (insert_id key y k).
  Proof.
    intros K Rxy F. induction F as [|a b l k Rab F IH]; simpl; [repeat constructor; assumption|].
    rewrite <- (K _ _ Rxy), <- (K _ _ Rab). destruct (String.leb _ _); repeat constructor; assumption.
  Qed.
  Lemma sort_id_f2 (R : A -> A -> Prop) l k :
    (forall a b, R a b -> key a = key b) -> Forall2 R l k -> Forall2 R (sort_id key l) (sort_id key k).
  Proof. intros K F. induction F; simpl; [constructor|apply insert_id_f2; assumption]. Qed.
End Sort.

Lemma list_eqb_f2 {A} (f : A -> A -> bool) : forall l k, list_eqb f l k = true <-> Forall2 (fun a b => f a b = true) l k.
Proof.
  induction l as [|a l IH]; intros [|b k]; simpl; split; intro H; try constructor; try discriminate; try (inversion H; fail).
  - apply andb_true_iff in H. tauto.
  - apply andb_true_iff in H. apply IH. tauto.
  - inversion H; subst. apply andb_true_iff. split; [assumption|apply IH; assumption].
Qed.

Lemma pairs_up_mono {A} (R S : A -> A -> Prop) l k : (forall a b, R a b -> S a b) -> pairs_up R l k -> pairs_up S l k.
Proof.
  intros H (m & P & F). exists m. split; [exact P|].
  clear P. induction F; constructor; auto.
Qed.
Lemma f2_impl {A} (R S : A -> A -> Prop) : (forall a b, R a b -> S a b) -> forall l k, Forall2 R l k -> Forall2 S l k.
Proof. intros H l k F. induction F; constructor; auto. Qed.
Lemma f2_eq {A} (l k : list A) : Forall2 eq l k -> l = k.
Proof. induction 1; congruence. Qed.
Lemma pairs_up_eq {A} (l k : list A) : pairs_up eq l k <-> Permutation l k.
Proof.
  split.
  - intros (m & P & F). apply f2_eq in F as ->. symmetry. exact P.
  - intro P. exists l. split; [symmetry; exact P|]. clear. induction l; constructor; auto.
Qed.

Section ListEq.
  Context {A : Type} (key : A -> string) (same : A -> A -> bool).
  Lemma list_eq_pairs l l' : list_eq key same l l' = true -> pairs_up (fun a b => same a b = true) l l'.
  Proof.
    unfold list_eq. rewrite list_eqb_f2. intro F.
    destruct (Permutation_Forall2 (Permutation_sym (sort_id_perm key l)) F) as (k & P & G).
    exists k. split; [|exact G]. rewrite (sort_id_perm key l'). exact P.
  Qed.
  Lemma pairs_list_eq (R : A -> A -> Prop) l l' :
    (forall a b, R a b -> key a = key b) -> (forall a b, R a b -> In a l -> same a b = true) -> NoDup (map key l) ->
    pairs_up R l l' -> list_eq key same l l' = true.
  Proof.
    intros K S N (k & P & F). unfold list_eq. rewrite list_eqb_f2.
    assert (M : map key l = map key k) by (clear - K F; induction F; simpl; [reflexivity|f_equal; auto]).
    rewrite (sort_id_unique key l' k P).
    2:{ eapply Permutation_NoDup; [apply Permutation_map; symmetry; exact P|]. rewrite <- M. exact N. }
    assert (F' : Forall2 (fun a b => R a b /\ In a l) l k).
    { clear - F. assert (G : forall a, In a l -> In a l) by auto. revert G.
      generalize l at 2 3. induction F; intros m G; constructor.
      - split; [assumption|apply G; left; reflexivity].
      - apply IHF. intros a H'. apply G. right. exact H'. }
    apply (sort_id_f2 key) in F'; [|intros a b [H _]; auto].
    revert F'. apply f2_impl. intros a b [H I']. auto.
  Qed.
  Lemma list_eq_refl l : (forall a, In a l -> same a a = true) -> list_eq key same l l = true.
  Proof.
    intro H. unfold list_eq. rewrite list_eqb_f2.
    assert (G : forall a, In a (sort_id key l) -> same a a = true)
      by (intros a Ha; apply H; eapply Permutation_in; [symmetry; apply sort_id_perm|exact Ha]).
    clear H. induction (sort_id key l); constructor; [apply G; left; reflexivity|apply IHl0; intros; apply G; right; assumption].
  Qed.
  Lemma list_eq_sym l k : (forall a b, same a b = same b a) -> list_eq key same l k = list_eq key same k l.
  Proof.
    intro S. unfold list_eq. generalize (sort_id key l) (sort_id key k).
    induction l0 as [|a x IH]; intros [|b y]; simpl; try reflexivity. rewrite S, IH. reflexivity.
  Qed.
  Lemma list_eq_trans l k m :
    (forall a b c, In a l -> In b k -> In c m -> same a b = true -> same b c = true -> same a c = true) ->
    list_eq key same l k = true -> list_eq key same k m = true -> list_eq key same l m = true.
  Proof.
    intros S. unfold list_eq. rewrite !list_eqb_f2.
    assert (S' : forall a b c, In a (sort_id key l) -> In b (sort_id key k) -> In c (sort_id key m) ->
                   same a b = true -> same b c = true -> same a c = true).
    { intros a b c Ha Hb Hc. apply S; (eapply Permutation_in; [symmetry; apply sort_id_perm|eassumption]). }
    clear S. revert S'. generalize (sort_id key l) (sort_id key k) (sort_id key m).
    intros x y z S F. revert z S. induction F as [|a b x y Hab F IH]; intros z S G; inversion G; subst; constructor.
    - eapply S; [left; reflexivity|left; reflexivity|left; reflexivity|eassumption|eassumption].
    - apply IH; [|assumption]. intros a' b' c' Ha Hb Hc. apply S; right; assumption.
  Qed.
End ListEq.

(** ** The generated comparisons *)
Lemma opt_eqb_iff {A} (f : A -> A -> bool) : (forall a b, f a b = true <-> a = b) -> forall a b, opt_eqb f a b = true <-> a = b.
Proof. intros H [a|] [b|]; simpl; rewrite ?H; split; congruence. Qed.
Lemma list_eqb_iff {A} (f : A -> A -> bool) : (forall a b, f a b = true <-> a = b) -> forall a b, list_eqb f a b = true <-> a = b.
Proof.
  intros H. induction a as [|x a IH]; intros [|y b]; simpl; rewrite ?andb_true_iff, ?H, ?IH; split; try congruence.
  - intros [-> ->]. reflexivity.
  - intro E. injection E as -> ->. auto.
Qed.
Lemma str_iff (a b : string) : eqb a b = true <-> a = b.
Proof. eqb_cases a b; split; congruence. Qed.
Lemma strs_iff a b : strs_eqb a b = true <-> a = b.
Proof. apply list_eqb_iff, str_iff. Qed.
Lemma bool_iff a b : Bool.eqb a b = true <-> a = b.
Proof. apply Bool.eqb_true_iff. Qed.

Ltac field_eq :=
  let a := fresh in let b := fresh in intros a b; destruct a, b; cbn -[eqb]; rewrite ?andb_true_iff;
  rewrite ?str_iff, ?Z.eqb_eq, ?bool_iff, ?strs_iff, ?(opt_eqb_iff _ str_iff), ?(opt_eqb_iff _ strs_iff),
    ?(opt_eqb_iff _ bool_iff), ?(opt_eqb_iff _ Z.eqb_eq).
Ltac close_eq := split; [intuition (subst; reflexivity)|let H := fresh in intro H; injection H; intros; subst; intuition reflexivity].

Lemma annotated_iff : forall a b, annotated_eq a b = true <-> a = b.
Proof. unfold annotated_eq. field_eq. close_eq. Qed.
Lemma language_iff : forall a b, language_eq a b = true <-> a = b.
Proof. unfold language_eq. field_eq. close_eq. Qed.
Lemma i18n_iff : forall a b, i18n_eq a b = true <-> a = b.
Proof. apply list_eqb_iff, language_iff. Qed.
Lemma contact_iff : forall a b, contact_eq a b = true <-> a = b.
Proof. unfold contact_eq. field_eq. rewrite !(opt_eqb_iff _ (list_eqb_iff _ annotated_iff)). close_eq. Qed.
Lemma gp_unit_iff : forall a b, gp_unit_eq a b = true <-> a = b.
Proof. unfold gp_unit_eq. field_eq. rewrite !(opt_eqb_iff _ contact_iff). close_eq. Qed.
Lemma style_iff : forall a b, style_eq a b = true <-> a = b.
Proof. unfold style_eq. field_eq. close_eq. Qed.
Lemma party_iff : forall a b, party_eq a b = true <-> a = b.
Proof. unfold party_eq. field_eq. rewrite !i18n_iff. close_eq. Qed.
Lemma candidate_iff : forall a b, candidate_eq a b = true <-> a = b.
Proof. unfold candidate_eq. field_eq. rewrite !i18n_iff. close_eq. Qed.
Lemma sel_iff : forall a b, sel_eq a b = true <-> a = b.
Proof. unfold sel_eq. field_eq. close_eq. Qed.
Lemma pt_selection_iff : forall a b, pt_selection_eq a b = true <-> a = b.
Proof. unfold pt_selection_eq. field_eq. close_eq. Qed.
Lemma ct_iff : forall a b, ct_eqb a b = true <-> a = b.
Proof. unfold ct_eqb. field_eq. close_eq. Qed.
Lemma disj_iff : forall a b, disj_eq a b = true <-> a = b.
Proof. unfold disj_eq. field_eq. close_eq. Qed.
Lemma const_iff : forall a b, const_eq a b = true <-> a = b.
Proof. unfold const_eq. field_eq. close_eq. Qed.
Lemma ct_selection_iff : forall a b, ct_selection_eq a b = true <-> a = b.
Proof. unfold ct_selection_eq. field_eq. rewrite !(opt_eqb_iff _ disj_iff), ct_iff. close_eq. Qed.
Lemma state_iff a b : box_state_eqb a b = true <-> a = b.
Proof. destruct a, b; simpl; split; congruence. Qed.
