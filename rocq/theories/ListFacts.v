(** * ListFacts: lemmas about the Python built-ins of Base.v. *)
From Verif Require Import Base.
From Coq Require Import Permutation Sorted.

Lemma eqb_refl' {K} `{EqB K} (k : K) : eqb k k = true.
Proof. apply eqb_spec; reflexivity. Qed.
Lemma eqb_neq {K} `{EqB K} (a b : K) : eqb a b = false <-> a <> b.
Proof.
  split.
  - intros Hf ->. rewrite eqb_refl' in Hf. discriminate.
  - intros Hn. destruct (eqb a b) eqn:Ee; [|reflexivity]. apply eqb_spec in Ee. contradiction.
Qed.
Lemma eqb_sym' {K} `{EqB K} (a b : K) : eqb a b = eqb b a.
Proof.
  destruct (eqb a b) eqn:Ea; symmetry.
  - apply eqb_spec in Ea. subst. apply eqb_refl'.
  - apply eqb_neq. apply eqb_neq in Ea. congruence.
Qed.
Ltac eqb_cases a b :=
  let H := fresh "Heq" in destruct (eqb a b) eqn:H; [apply eqb_spec in H|apply eqb_neq in H].

Lemma inb_spec {K} `{EqB K} (k : K) l : inb k l = true <-> In k l.
Proof.
  induction l as [|x l IH]; cbn; [split; [discriminate|tauto]|].
  rewrite orb_true_iff, eqb_spec, IH. split; intros [?|?]; auto.
Qed.
Lemma inb_false {K} `{EqB K} (k : K) l : inb k l = false <-> ~ In k l.
Proof. rewrite <- inb_spec. destruct (inb k l); split; congruence. Qed.

(** ** sets *)
Lemma set_add_in {K} `{EqB K} (k x : K) s : In x (set_add k s) <-> x = k \/ In x s.
Proof.
  unfold set_add. destruct (inb k s) eqn:Hk.
  - apply inb_spec in Hk. split; [auto|]. intros [->|?]; assumption.
  - rewrite in_app_iff. cbn. split; intros [?|?]; intuition.
Qed.
Lemma set_add_nodup {K} `{EqB K} (k : K) s : NoDup s -> NoDup (set_add k s).
Proof.
  intros Hs. unfold set_add. destruct (inb k s) eqn:Hk; [assumption|].
  apply inb_false in Hk. apply Permutation_NoDup with (l := k :: s).
  - apply Permutation_cons_append.
  - constructor; assumption.
Qed.
Lemma set_fold_in {K} `{EqB K} (l : list K) : forall s x,
  In x (fold_left (fun s x => set_add x s) l s) <-> In x l \/ In x s.
Proof.
  induction l as [|a l IH]; intros s x; cbn; [tauto|].
  rewrite IH, set_add_in. intuition.
Qed.
Lemma set_of_in {K} `{EqB K} (l : list K) x : In x (set_of l) <-> In x l.
Proof. unfold set_of. rewrite set_fold_in. cbn. tauto. Qed.
Lemma set_fold_nodup {K} `{EqB K} (l : list K) : forall s, NoDup s ->
  NoDup (fold_left (fun s x => set_add x s) l s).
Proof. induction l as [|a l IH]; intros s Hs; cbn; [assumption|]. apply IH, set_add_nodup, Hs. Qed.
Lemma set_of_nodup {K} `{EqB K} (l : list K) : NoDup (set_of l).
Proof. apply set_fold_nodup. constructor. Qed.
Lemma set_fold_len {K} `{EqB K} (l : list K) : forall s,
  (length (fold_left (fun s x => set_add x s) l s) <= length l + length s)%nat.
Proof.
  induction l as [|a l IH]; intros s; cbn; [lia|].
  specialize (IH (set_add a s)). unfold set_add in *. destruct (inb a s); [lia|].
  rewrite app_length in IH. cbn in IH. lia.
Qed.
Lemma set_of_len_iff {K} `{EqB K} (l : list K) : len (set_of l) = len l <-> NoDup l.
Proof.
  unfold len, set_of.
  enough (G : forall s, NoDup s ->
    (length (fold_left (fun s x => set_add x s) l s) = length l + length s)%nat <->
    NoDup l /\ forall x, In x l -> ~ In x s).
  { specialize (G [] (NoDup_nil _)). cbn in G. split.
    - intros Hl. apply G. lia.
    - intros Hl. assert (length (fold_left (fun s x => set_add x s) l []) = length l + 0)%nat by (apply G; auto). lia. }
  induction l as [|a l IH]; intros s Hs; cbn.
  - split; [intros _; split; [constructor|tauto]|reflexivity].
  - destruct (inb a s) eqn:Ha.
    + assert (E1 : set_add a s = s) by (unfold set_add; rewrite Ha; reflexivity).
      rewrite E1. apply inb_spec in Ha. split.
      * intros Hl. pose proof (set_fold_len l s). lia.
      * intros [_ Hn]. exfalso. apply (Hn a); auto.
    + assert (E1 : set_add a s = s ++ [a]) by (unfold set_add; rewrite Ha; reflexivity).
      specialize (IH (set_add a s) (set_add_nodup a s Hs)). apply inb_false in Ha.
      assert (E2 : length (set_add a s) = S (length s)) by (rewrite E1, app_length; cbn; lia).
      rewrite E2 in IH. split.
      * intros Hl. destruct IH as [IH _]. destruct IH as [Hn Hd]; [lia|].
        split.
        -- constructor; [|assumption]. intros Hin. apply (Hd a Hin). apply set_add_in; auto.
        -- intros x [->|Hx]; [assumption|]. intros Hxs. apply (Hd x Hx). apply set_add_in; auto.
      * intros [Hn Hd]. inversion Hn; subst. destruct IH as [_ IH].
        rewrite IH; [lia|]. split; [assumption|]. intros x Hx Hin.
        apply set_add_in in Hin as [->|Hin]; [contradiction|]. apply (Hd x); auto.
Qed.

(** ** find_first *)
Lemma find_first_some {A} (f : A -> bool) l x : find_first f l = Some x -> In x l /\ f x = true.
Proof.
  induction l as [|a l IH]; cbn; [discriminate|]. destruct (f a) eqn:Ha.
  - intros [= ->]. auto.
  - intros Hx. destruct (IH Hx). auto.
Qed.
Lemma find_first_none {A} (f : A -> bool) l : find_first f l = None <-> forall x, In x l -> f x = false.
Proof.
  induction l as [|a l IH]; cbn; [split; [tauto|reflexivity]|]. destruct (f a) eqn:Ha.
  - split; [discriminate|]. intros Hx. rewrite (Hx a) in Ha; [discriminate|auto].
  - rewrite IH. split.
    + intros Hx y [<-|Hy]; auto.
    + intros Hx y Hy. auto.
Qed.
Lemma find_first_ext {A} (f g : A -> bool) l : (forall x, In x l -> f x = g x) -> find_first f l = find_first g l.
Proof.
  induction l as [|a l IH]; intros Hx; cbn; [reflexivity|].
  rewrite (Hx a) by (left; reflexivity). rewrite IH by (intros; apply Hx; right; assumption). reflexivity.
Qed.
(** with distinct keys the first match is the only match *)
Lemma find_first_unique {A K} `{EqB K} (key : A -> K) l x :
  NoDup (map key l) -> In x l -> find_first (fun y => eqb (key y) (key x)) l = Some x.
Proof.
  induction l as [|a l IH]; intros Hn Hx; cbn in *; [tauto|]. inversion Hn as [|? ? Hna Hnl]; subst.
  destruct Hx as [->|Hx]; [rewrite eqb_refl'; reflexivity|].
  eqb_cases (key a) (key x).
  - exfalso. apply Hna. rewrite Heq. apply in_map, Hx.
  - apply IH; assumption.
Qed.

(** ** dictionaries *)
Section DictFacts.
  Context {K V : Type} `{EqB K}.
  Implicit Types d : dict K V.
  Lemma dget_dset k k' (v : V) d : dget k (dset k' v d) = if eqb k k' then Some v else dget k d.
  Proof.
    induction d as [|[k0 v0] d IH]; cbn [dset dget]; [reflexivity|].
    eqb_cases k' k0.
    - subst k0. cbn [dget]. destruct (eqb k k') eqn:E2; reflexivity.
    - cbn [dget]. eqb_cases k k0.
      + subst k0. eqb_cases k k'; [congruence|reflexivity].
      + exact IH.
  Qed.
  Lemma dget_dset_same k (v : V) d : dget k (dset k v d) = Some v.
  Proof. rewrite dget_dset, eqb_refl'. reflexivity. Qed.
  Lemma dget_dset_other k k' (v : V) d : k <> k' -> dget k (dset k' v d) = dget k d.
  Proof. intros Hn. rewrite dget_dset. apply eqb_neq in Hn. rewrite Hn. reflexivity. Qed.
  Lemma dget_in k (v : V) d : dget k d = Some v -> In (k, v) d.
  Proof.
    induction d as [|[k0 v0] d IH]; cbn; [discriminate|]. eqb_cases k k0.
    - intros [= ->]. subst; auto.
    - auto.
  Qed.
  Lemma dget_none k d : dget k d = None <-> ~ In k (dkeys d).
  Proof.
    induction d as [|[k0 v0] d IH]; cbn; [tauto|]. eqb_cases k k0.
    - split; [discriminate|]. intros Hn. exfalso. apply Hn. auto.
    - rewrite IH. cbn. split; [intros Hn [?|?]; congruence || contradiction|tauto].
  Qed.
  Lemma dget_some_key k d : (exists v : V, dget k d = Some v) <-> In k (dkeys d).
  Proof.
    destruct (dget k d) as [v|] eqn:Hd.
    - split; [|eauto]. intros _. apply dget_in in Hd. apply (in_map fst) in Hd. exact Hd.
    - apply dget_none in Hd. split; [intros [? ?]; discriminate|contradiction].
  Qed.
  Lemma in_dget k (v : V) d : NoDup (dkeys d) -> In (k, v) d -> dget k d = Some v.
  Proof.
    induction d as [|[k0 v0] d IH]; cbn; [tauto|]. intros Hn. inversion Hn as [|? ? Hna Hnl]; subst.
    intros [[= -> ->]|Hin]; [rewrite eqb_refl'; reflexivity|].
    eqb_cases k k0; [|auto]. subst k0. exfalso. apply Hna. apply (in_map fst) in Hin. exact Hin.
  Qed.
  Lemma dmem_spec k d : dmem k d = true <-> In k (dkeys d).
  Proof.
    unfold dmem. rewrite <- dget_some_key. destruct (dget k d); split; eauto; try discriminate.
    intros [? ?]; discriminate.
  Qed.
  Lemma dkeys_dset k (v : V) d : dkeys (dset k v d) = if inb k (dkeys d) then dkeys d else dkeys d ++ [k].
  Proof.
    induction d as [|[k0 v0] d IH]; cbn; [reflexivity|]. eqb_cases k k0; cbn.
    - reflexivity.
    - unfold dkeys in *. cbn. rewrite IH. destruct (inb k (map fst d)); reflexivity.
  Qed.
  Lemma dkeys_dset_in k k' (v : V) d : In k' (dkeys (dset k v d)) <-> k' = k \/ In k' (dkeys d).
  Proof.
    rewrite dkeys_dset. destruct (inb k (dkeys d)) eqn:Hi.
    - apply inb_spec in Hi. split; [auto|intros [->|?]; assumption].
    - rewrite in_app_iff. cbn. intuition.
  Qed.
  Lemma dset_nodup k (v : V) d : NoDup (dkeys d) -> NoDup (dkeys (dset k v d)).
  Proof.
    intros Hn. rewrite dkeys_dset. destruct (inb k (dkeys d)) eqn:Hi; [assumption|].
    apply inb_false in Hi. apply Permutation_NoDup with (l := k :: dkeys d).
    - apply Permutation_cons_append.
    - constructor; assumption.
  Qed.
  Lemma dset_keys_same k (v : V) d : In k (dkeys d) -> dkeys (dset k v d) = dkeys d.
  Proof. intros Hi. rewrite dkeys_dset. apply inb_spec in Hi. rewrite Hi. reflexivity. Qed.
  Lemma dset_new k (v : V) d : ~ In k (dkeys d) -> dset k v d = d ++ [(k, v)].
  Proof.
    induction d as [|[k0 v0] d IH]; cbn; [reflexivity|]. intros Hn.
    eqb_cases k k0; [subst; exfalso; apply Hn; auto|]. rewrite IH; [reflexivity|tauto].
  Qed.
  Lemma dget_dpop k k' d : NoDup (dkeys d) ->
    dget k (dpop k' d) = if eqb k k' then None else dget k d.
  Proof.
    induction d as [|[k0 v0] d IH]; cbn; [destruct (eqb k k'); reflexivity|].
    intros Hn. inversion Hn as [|? ? Hna Hnl]; subst. eqb_cases k' k0.
    - subst k0. eqb_cases k k'; [subst; apply dget_none; exact Hna|reflexivity].
    - cbn. eqb_cases k k0.
      + subst k0. eqb_cases k k'; [congruence|reflexivity].
      + apply IH, Hnl.
  Qed.
  Lemma dkeys_dpop_in k k' d : In k (dkeys (dpop k' d)) -> In k (dkeys d).
  Proof.
    induction d as [|[k0 v0] d IH]; cbn; [tauto|]. eqb_cases k' k0; cbn; [auto|].
    intros [?|?]; auto.
  Qed.
  Lemma dpop_nodup k d : NoDup (dkeys d) -> NoDup (dkeys (dpop k d)).
  Proof.
    induction d as [|[k0 v0] d IH]; cbn; [constructor|]. intros Hn. inversion Hn as [|? ? Hna Hnl]; subst.
    eqb_cases k k0; [assumption|]. cbn. constructor; [|auto].
    intros Hin. apply Hna. eapply dkeys_dpop_in, Hin.
  Qed.
  Lemma dict_fold_nodup (l : list (K * V)) : forall d, NoDup (dkeys d) ->
    NoDup (dkeys (fold_left (fun d kv => dset (fst kv) (snd kv) d) l d)).
  Proof. induction l as [|[k v] l IH]; intros d Hn; cbn; [assumption|]. apply IH, dset_nodup, Hn. Qed.
  Lemma dict_of_nodup (l : list (K * V)) : NoDup (dkeys (dict_of l)).
  Proof. apply dict_fold_nodup. constructor. Qed.
  Lemma dict_fold_keys (l : list (K * V)) : forall d k,
    In k (dkeys (fold_left (fun d kv => dset (fst kv) (snd kv) d) l d)) <-> In k (map fst l) \/ In k (dkeys d).
  Proof.
    induction l as [|[k0 v0] l IH]; intros d k; cbn [fold_left map fst snd]; [cbn; tauto|]. rewrite IH, dkeys_dset_in. cbn. intuition.
  Qed.
  Lemma dict_of_keys (l : list (K * V)) k : In k (dkeys (dict_of l)) <-> In k (map fst l).
  Proof. unfold dict_of. rewrite dict_fold_keys. cbn. tauto. Qed.
  (** a list with distinct keys is its own dictionary *)
  Lemma dict_fold_distinct (l : list (K * V)) : forall d, NoDup (map fst l) ->
    (forall k, In k (map fst l) -> ~ In k (dkeys d)) ->
    fold_left (fun d kv => dset (fst kv) (snd kv) d) l d = d ++ l.
  Proof.
    induction l as [|[k v] l IH]; intros d Hn Hd; cbn in *; [rewrite app_nil_r; reflexivity|].
    inversion Hn as [|? ? Hna Hnl]; subst. rewrite dset_new by (apply Hd; auto).
    rewrite IH.
    - rewrite <- app_assoc. reflexivity.
    - assumption.
    - intros k' Hk'. unfold dkeys. rewrite map_app, in_app_iff. cbn. intros [Hin|[<-|[]]].
      + apply (Hd k'); auto.
      + contradiction.
  Qed.
  Lemma dict_of_distinct (l : list (K * V)) : NoDup (map fst l) -> dict_of l = l.
  Proof. intros Hn. unfold dict_of. rewrite dict_fold_distinct; [reflexivity|assumption|cbn; tauto]. Qed.
End DictFacts.

(** ** raising maps *)
Lemma Forall2_len {A B} (P : A -> B -> Prop) l l' : Forall2 P l l' -> length l = length l'.
Proof. induction 1; cbn; congruence. Qed.
Lemma rmapM_iff {A B} (f : A -> res B) l ys : rmapM f l = Ok ys <-> Forall2 (fun x y => f x = Ok y) l ys.
Proof.
  revert ys. induction l as [|x l IH]; intros ys; cbn.
  - split; [intros [= <-]; constructor|inversion 1; reflexivity].
  - destruct (f x) as [y|e] eqn:Hx; cbn.
    + destruct (rmapM f l) as [zs|e] eqn:Hl; cbn.
      * split.
        -- intros [= <-]. constructor; [assumption|]. apply IH; reflexivity.
        -- inversion 1; subst. apply IH in H4. congruence.
      * split; [discriminate|]. inversion 1; subst. apply IH in H4. discriminate.
    + split; [discriminate|]. inversion 1; subst. congruence.
Qed.
Lemma rmapM_length {A B} (f : A -> res B) l ys : rmapM f l = Ok ys -> length ys = length l.
Proof. intros Hm. apply rmapM_iff in Hm. symmetry. eapply Forall2_len, Hm. Qed.
Lemma rmapM_ext {A B} (f g : A -> res B) l : (forall x, In x l -> f x = g x) -> rmapM f l = rmapM g l.
Proof.
  induction l as [|x l IH]; intros Hx; cbn; [reflexivity|].
  rewrite (Hx x) by (left; reflexivity). rewrite IH by (intros; apply Hx; right; assumption). reflexivity.
Qed.
Lemma rmapM_total {A B} (f : A -> res B) (g : A -> B) l : (forall x, In x l -> f x = Ok (g x)) -> rmapM f l = Ok (map g l).
Proof.
  induction l as [|x l IH]; intros Hx; cbn; [reflexivity|].
  rewrite (Hx x) by (left; reflexivity). cbn. rewrite IH by (intros; apply Hx; right; assumption). reflexivity.
Qed.

(** ** stable sort *)
Lemma insert_by_perm {A} (key : A -> Z) x l : Permutation (x :: l) (insert_by key x l).
Proof.
  induction l as [|y l IH]; cbn; [reflexivity|]. destruct (key x <=? key y); [reflexivity|].
  transitivity (y :: x :: l); [constructor|]. apply perm_skip, IH.
Qed.
Lemma sort_by_cons {A} (key : A -> Z) x l : sort_by key (x :: l) = insert_by key x (sort_by key l).
Proof. reflexivity. Qed.
Lemma sort_by_perm {A} (key : A -> Z) l : Permutation l (sort_by key l).
Proof.
  induction l as [|x l IH]; cbn; [constructor|]. rewrite <- insert_by_perm. apply perm_skip, IH.
Qed.
Definition sorted_by {A} (key : A -> Z) (l : list A) : Prop := StronglySorted (fun a b => key a <= key b) l.
Lemma insert_by_sorted {A} (key : A -> Z) x l : sorted_by key l -> sorted_by key (insert_by key x l).
Proof.
  unfold sorted_by. induction 1 as [|y l Hl IH Hy]; cbn.
  - constructor; constructor.
  - destruct (Z.leb_spec (key x) (key y)) as [Hle|Hgt].
    + constructor; [constructor; assumption|]. constructor; [assumption|].
      eapply Forall_impl; [|exact Hy]. cbn. intros; lia.
    + constructor; [assumption|].
      assert (Hp := insert_by_perm key x l). eapply Permutation_Forall; [exact Hp|].
      constructor; [lia|assumption].
Qed.
Lemma sort_by_sorted {A} (key : A -> Z) l : sorted_by key (sort_by key l).
Proof. induction l; cbn; [constructor|]. apply insert_by_sorted, IHl. Qed.
Lemma sort_by_id {A} (key : A -> Z) l : sorted_by key l -> sort_by key l = l.
Proof.
  induction 1 as [|y l Hl IH Hy]; [reflexivity|]. rewrite sort_by_cons, IH.
  destruct l as [|z l]; cbn; [reflexivity|]. inversion Hy; subst.
  destruct (Z.leb_spec (key y) (key z)); [reflexivity|lia].
Qed.
(** sorting only looks at the keys *)
Lemma insert_by_map {A B} (key : A -> Z) (key' : B -> Z) (f : A -> B) x l :
  (forall a, key' (f a) = key a) -> insert_by key' (f x) (map f l) = map f (insert_by key x l).
Proof.
  intros Hk. induction l as [|y l IH]; cbn; [reflexivity|]. rewrite !Hk.
  destruct (key x <=? key y); cbn; [reflexivity|]. rewrite IH. reflexivity.
Qed.
Lemma sort_by_map {A B} (key : A -> Z) (key' : B -> Z) (f : A -> B) l :
  (forall a, key' (f a) = key a) -> sort_by key' (map f l) = map f (sort_by key l).
Proof.
  intros Hk. induction l as [|y l IH]; [reflexivity|]. cbn [map]. rewrite !sort_by_cons, IH. apply insert_by_map, Hk.
Qed.

(** ** Forall2 and lists *)
Lemma Forall2_in_l {A B} (P : A -> B -> Prop) l l' x : Forall2 P l l' -> In x l -> exists y, In y l' /\ P x y.
Proof.
  induction 1; cbn; [tauto|]. intros [<-|Hx]; [eauto|]. destruct (IHForall2 Hx) as (?&?&?). eauto.
Qed.
Lemma Forall2_in_r {A B} (P : A -> B -> Prop) l l' y : Forall2 P l l' -> In y l' -> exists x, In x l /\ P x y.
Proof.
  induction 1; cbn; [tauto|]. intros [<-|Hx]; [eauto|]. destruct (IHForall2 Hx) as (?&?&?). eauto.
Qed.
Lemma Forall2_impl' {A B} (P Q : A -> B -> Prop) l l' :
  (forall x y, In x l -> In y l' -> P x y -> Q x y) -> Forall2 P l l' -> Forall2 Q l l'.
Proof. intros Hi Hf. induction Hf; constructor; [apply Hi; cbn; auto|]. apply IHHf. intros. apply Hi; cbn; auto. Qed.
Lemma Forall2_map_l {A B C} (P : B -> C -> Prop) (f : A -> B) l l' :
  Forall2 P (map f l) l' <-> Forall2 (fun x y => P (f x) y) l l'.
Proof.
  split.
  - revert l'. induction l; intros l' Hf; inversion Hf; subst; constructor; auto.
  - induction 1; cbn; constructor; auto.
Qed.
Lemma Forall2_map_r {A B C} (P : A -> C -> Prop) (f : B -> C) l l' :
  Forall2 P l (map f l') <-> Forall2 (fun x y => P x (f y)) l l'.
Proof.
  split.
  - revert l. induction l'; intros l0 Hf; inversion Hf; subst; constructor; auto.
  - induction 1; cbn; constructor; auto.
Qed.
Lemma Forall2_map_eq {A B C} (f : A -> C) (g : B -> C) l l' :
  Forall2 (fun x y => f x = g y) l l' -> map f l = map g l'.
Proof. induction 1; cbn; congruence. Qed.
Lemma len_nonneg {A} (l : list A) : 0 <= len l.
Proof. unfold len; lia. Qed.
Lemma len_app {A} (a b : list A) : len (a ++ b) = len a + len b.
Proof. unfold len. rewrite app_length. lia. Qed.
Lemma len_cons {A} (x : A) l : len (x :: l) = 1 + len l.
Proof. unfold len. cbn [length]. lia. Qed.
Lemma len_map {A B} (f : A -> B) l : len (map f l) = len l.
Proof. unfold len. rewrite map_length. reflexivity. Qed.
Lemma sumZ_app a b : sumZ (a ++ b) = sumZ a + sumZ b.
Proof. unfold sumZ. induction a; cbn [app fold_right]; lia. Qed.
Lemma forallb_In {A} (f : A -> bool) l x : forallb f l = true -> In x l -> f x = true.
Proof. intros Hf Hx. rewrite forallb_forall in Hf. auto. Qed.
Lemma NoDup_map_filter {A B} (f : A -> B) (p : A -> bool) l : NoDup (map f l) -> NoDup (map f (filter p l)).
Proof.
  induction l as [|x l IH]; intros Hnd; cbn [filter map] in *; [constructor|]. inversion Hnd; subst.
  destruct (p x); [|apply IH; assumption]. cbn [map]. constructor; [|apply IH; assumption].
  intros Hin. apply H1. apply in_map_iff in Hin as [y [<- Hy]]. apply filter_In in Hy as [Hy _]. apply in_map; assumption.
Qed.
Lemma sumZ_nonneg l : Forall (fun x => 0 <= x) l -> 0 <= sumZ l.
Proof. unfold sumZ. induction 1 as [|x l Hx _ IH]; cbn [fold_right]; lia. Qed.

Lemma In_firstn {A} (x : A) n l : In x (firstn n l) -> In x l.
Proof. rewrite <- (firstn_skipn n l) at 2. intros H. apply in_or_app. left; exact H. Qed.
Lemma In_skipn {A} (x : A) n l : In x (skipn n l) -> In x l.
Proof. rewrite <- (firstn_skipn n l) at 2. intros H. apply in_or_app. right; exact H. Qed.

Lemma rev_case {A} (l : list A) : l = [] \/ exists x l0, l = l0 ++ [x].
Proof. destruct l using rev_ind; [left; reflexivity|right; eauto]. Qed.
