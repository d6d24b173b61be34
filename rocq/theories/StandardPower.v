(** * StandardPower: a checked computation with 4096-bit numbers, for the generator of the standard set.
    Numbers are lists of 31-bit limbs, lowest first, in the machine integers of the kernel; this is the only file that
    uses them, and what rests on it has the axioms of Coq.Numbers.Cyclic.Int63 about them in its assumptions. *)
From Coq Require Import Bool List ZArith Lia Znumtheory Zpow_facts Uint63.
From Verif Require Import Constants.
Import ListNotations.
Local Open Scope bool_scope.
Local Open Scope Z_scope.

Definition base : Z := 2 ^ 31.
Notation toZ := Uint63.to_Z.
Fixpoint val (l : list int) : Z := match l with [] => 0 | x :: l' => toZ x + base * val l' end.
Definition small (x : int) : Prop := toZ x < base.
Definition ok (l : list int) : Prop := Forall small l.

Definition mask : int := 2147483647%uint63.
Definition low (t : int) : int := Uint63.land t mask.
Definition high (t : int) : int := Uint63.lsr t 31%uint63.

(** without the zeros at the end *)
Fixpoint trim (l : list int) : list int :=
  match l with
  | [] => []
  | x :: l' => match trim l' with [] => if Uint63.eqb x 0%uint63 then [] else [x] | t => x :: t end
  end.
(** acc + c *)
Fixpoint carry (acc : list int) (c : int) : list int :=
  match acc with
  | [] => [c]
  | y :: acc' => let t := Uint63.add y c in low t :: carry acc' (high t)
  end.
(** acc + a * l + c *)
Fixpoint mac (a : int) (l acc : list int) (c : int) : list int :=
  match l with
  | [] => carry acc c
  | x :: l' =>
    match acc with
    | [] => let t := Uint63.add (Uint63.mul a x) c in low t :: mac a l' [] (high t)
    | y :: acc' => let t := Uint63.add (Uint63.add (Uint63.mul a x) y) c in low t :: mac a l' acc' (high t)
    end
  end.
Fixpoint mul (l m : list int) : list int :=
  match l with [] => [] | x :: l' => mac x m (0%uint63 :: mul l' m) 0%uint63 end.
Definition add (l m : list int) : list int := mac 1%uint63 l m 0%uint63.
Definition zero (l : list int) : bool := forallb (fun x => Uint63.eqb x 0%uint63) l.
Fixpoint same (l m : list int) : bool :=
  match l, m with
  | [], _ => zero m
  | _, [] => zero l
  | x :: l', y :: m' => Uint63.eqb x y && same l' m'
  end.

Lemma toZ_range x : 0 <= toZ x < 2 ^ 63.
Proof. exact (Uint63.to_Z_bounded x). Qed.
Lemma low_val t : toZ (low t) = toZ t mod base.
Proof.
  unfold low. rewrite Uint63.land_spec'. change (toZ mask) with (Z.ones 31).
  rewrite Z.land_ones by lia. reflexivity.
Qed.
Lemma high_val t : toZ (high t) = toZ t / base.
Proof. unfold high. rewrite Uint63.lsr_spec. reflexivity. Qed.
Lemma low_small t : small (low t).
Proof. unfold small. rewrite low_val. apply Z.mod_pos_bound. reflexivity. Qed.
Lemma split_val t : toZ (low t) + base * toZ (high t) = toZ t.
Proof. rewrite low_val, high_val. pose proof (Z.div_mod (toZ t) base ltac:(discriminate)). lia. Qed.
Lemma add_val x y : toZ x + toZ y < 2 ^ 63 -> toZ (Uint63.add x y) = toZ x + toZ y.
Proof.
  intro H. rewrite Uint63.add_spec. apply Z.mod_small. pose proof (toZ_range x). pose proof (toZ_range y).
  change Uint63.wB with (2 ^ 63). lia.
Qed.
Lemma mul_val x y : small x -> small y -> toZ (Uint63.mul x y) = toZ x * toZ y /\ toZ x * toZ y <= (base - 1) * (base - 1).
Proof.
  unfold small. intros Hx Hy. pose proof (toZ_range x) as [Ax _]. pose proof (toZ_range y) as [Ay _].
  assert (B : toZ x * toZ y <= (base - 1) * (base - 1)) by (apply Z.mul_le_mono_nonneg; lia).
  split; [|exact B]. rewrite Uint63.mul_spec. apply Z.mod_small. split; [nia|].
  eapply Z.le_lt_trans; [exact B|reflexivity].
Qed.
Lemma high_small t : toZ t < base * base -> small (high t).
Proof. unfold small. rewrite high_val. intro H. apply Z.div_lt_upper_bound; [reflexivity|exact H]. Qed.

Lemma carry_ok : forall acc c, ok acc -> small c -> ok (carry acc c) /\ val (carry acc c) = val acc + toZ c.
Proof.
  induction acc as [|y acc IH]; intros c Ha Hc; cbn [carry val]; cbv zeta.
  - split; [repeat constructor; exact Hc|lia].
  - inversion Ha as [|? ? Hy Ha']; subst. unfold small in *.
    assert (T : toZ (Uint63.add y c) = toZ y + toZ c) by (apply add_val; unfold base in *; lia).
    assert (S : small (high (Uint63.add y c))) by (apply high_small; rewrite T; unfold base in *; lia).
    destruct (IH (high (Uint63.add y c)) Ha' S) as [O V].
    split; [constructor; [apply low_small|exact O]|].
    rewrite V. pose proof (split_val (Uint63.add y c)). lia.
Qed.
Lemma mac_ok a : small a -> forall l acc c, ok l -> ok acc -> small c ->
  ok (mac a l acc c) /\ val (mac a l acc c) = val acc + toZ a * val l + toZ c.
Proof.
  intros Ha. induction l as [|x l IH]; intros acc c Hl Hacc Hc; cbn [mac val]; cbv zeta.
  - destruct (carry_ok acc c Hacc Hc) as [O V]. split; [exact O|lia].
  - inversion Hl as [|? ? Hx Hl']; subst. destruct (mul_val a x Ha Hx) as [M B].
    destruct acc as [|y acc].
    + assert (T : toZ (Uint63.add (Uint63.mul a x) c) = toZ a * toZ x + toZ c).
      { rewrite add_val; rewrite M; [reflexivity|]. unfold small, base in *. lia. }
      assert (S : small (high (Uint63.add (Uint63.mul a x) c))).
      { apply high_small. rewrite T. unfold small, base in *. lia. }
      destruct (IH [] _ Hl' (Forall_nil _) S) as [O V].
      split; [constructor; [apply low_small|exact O]|].
      cbn [val] in *. rewrite V. pose proof (split_val (Uint63.add (Uint63.mul a x) c)). cbn [val] in *. lia.
    + inversion Hacc as [|? ? Hy Hacc']; subst.
      assert (T1 : toZ (Uint63.add (Uint63.mul a x) y) = toZ a * toZ x + toZ y).
      { rewrite add_val; rewrite M; [reflexivity|]. unfold small, base in *. lia. }
      assert (T : toZ (Uint63.add (Uint63.add (Uint63.mul a x) y) c) = toZ a * toZ x + toZ y + toZ c).
      { rewrite add_val; rewrite T1; [reflexivity|]. unfold small, base in *. lia. }
      assert (S : small (high (Uint63.add (Uint63.add (Uint63.mul a x) y) c))).
      { apply high_small. rewrite T. unfold small, base in *. lia. }
      destruct (IH acc _ Hl' Hacc' S) as [O V].
      split; [constructor; [apply low_small|exact O]|].
      cbn [val] in *. rewrite V. pose proof (split_val (Uint63.add (Uint63.add (Uint63.mul a x) y) c)). cbn [val] in *. lia.
Qed.
Lemma mul_ok : forall l m, ok l -> ok m -> ok (mul l m) /\ val (mul l m) = val l * val m.
Proof.
  induction l as [|x l IH]; intros m Hl Hm; cbn [mul val]; [split; [constructor|reflexivity]|].
  inversion Hl as [|? ? Hx Hl']; subst. destruct (IH m Hl' Hm) as [O V].
  assert (Z0 : small 0%uint63) by reflexivity.
  destruct (mac_ok x Hx m (0%uint63 :: mul l m) 0%uint63 Hm (Forall_cons _ Z0 O) Z0) as [O' V'].
  split; [exact O'|]. rewrite V'. cbn [val]. rewrite V. change (toZ 0%uint63) with 0. lia.
Qed.
Lemma add_ok l m : ok l -> ok m -> ok (add l m) /\ val (add l m) = val l + val m.
Proof.
  intros Hl Hm. destruct (mac_ok 1%uint63 eq_refl l m 0%uint63 Hl Hm eq_refl) as [O V].
  split; [exact O|]. unfold add. rewrite V. change (toZ 0%uint63) with 0. change (toZ 1%uint63) with 1. lia.
Qed.
Lemma zero_val l : zero l = true -> val l = 0.
Proof.
  induction l as [|x l IH]; cbn [zero forallb val]; [reflexivity|]. intro H. apply andb_prop in H as [H1 H2].
  apply Uint63.eqb_correct in H1. subst. rewrite (IH H2). change (toZ 0%uint63) with 0. lia.
Qed.
Lemma same_val : forall l m, same l m = true -> val l = val m.
Proof.
  induction l as [|x l IH]; intros m H.
  - simpl in H. rewrite (zero_val m); [reflexivity|]. exact H.
  - destruct m as [|y m]; [rewrite (zero_val _ H); reflexivity|]. simpl in H. apply andb_prop in H as [H1 H2].
    apply Uint63.eqb_correct in H1. subst. cbn [val]. rewrite (IH m H2). reflexivity.
Qed.
Lemma val_app l m : val (l ++ m) = val l + base ^ Z.of_nat (length l) * val m.
Proof.
  induction l as [|x l IH]; [cbn [app val length]; change (Z.of_nat 0) with 0; rewrite Z.pow_0_r; lia|]. cbn [app val length]. rewrite IH, Nat2Z.inj_succ, Z.pow_succ_r by lia. lia.
Qed.
Lemma ok_trim l : ok l -> ok (trim l).
Proof.
  induction 1 as [|x l Hx Hl IH]; [constructor|]. cbn [trim].
  destruct (trim l); [destruct (Uint63.eqb x 0%uint63)|]; repeat constructor; try assumption; inversion IH; assumption.
Qed.
Lemma trim_val l : val (trim l) = val l.
Proof.
  induction l as [|x l IH]; [reflexivity|]. cbn [trim val]. rewrite <- IH. destruct (trim l) as [|y t]; [|reflexivity].
  destruct (Uint63.eqb x 0%uint63) eqn:E; [|reflexivity]. apply Uint63.eqb_correct in E. subst x.
  change (toZ 0%uint63) with 0. cbn [val]. lia.
Qed.

(** ** The multiplication of Montgomery, for a p whose lowest limb is base - 1: adding the lowest limb of t, times p,
    makes it vanish.  That it does need not be known: the limb is looked at. *)
Definition N : nat := 133.
Definition R : Z := base ^ 133.
Lemma N_Z : Z.of_nat N = 133.
Proof. reflexivity. Qed.
Local Opaque N.
Section Mont.
  Variable p : list int.
  Fixpoint reduce (n : nat) (t : list int) : option (list int) :=
    match n with
    | O => Some (trim t)
    | S n' =>
      match t with
      | [] => None
      | t0 :: _ =>
        match mac t0 p t 0%uint63 with
        | z :: t' => if Uint63.eqb z 0%uint63 then reduce n' t' else None
        | [] => None
        end
      end
    end.
  Definition mmul (a b : list int) : option (list int) := reduce N (mul a b).
  Lemma reduce_ok : ok p -> forall n t z, ok t -> reduce n t = Some z ->
    ok z /\ exists k, val z * base ^ Z.of_nat n = val t + k * val p.
  Proof.
    intros Hp. induction n as [|n IH]; intros t z Ht Hr; cbn [reduce] in Hr.
    - injection Hr as <-. split; [apply ok_trim, Ht|]. exists 0. rewrite trim_val. change (Z.of_nat 0) with 0. rewrite Z.pow_0_r. lia.
    - destruct t as [|t0 t]; [discriminate|]. inversion Ht as [|? ? H0 _]; subst.
      destruct (mac_ok t0 H0 p (t0 :: t) 0%uint63 Hp Ht eq_refl) as [Om Vm].
      destruct (mac t0 p (t0 :: t) 0%uint63) as [|y t']; [discriminate|].
      destruct (Uint63.eqb y 0%uint63) eqn:E; [|discriminate]. apply Uint63.eqb_correct in E. subst y.
      inversion Om as [|? ? _ Ot]; subst. destruct (IH t' z Ot Hr) as (Oz & k & Vz). split; [exact Oz|].
      exists (toZ t0 + base * k). change (toZ 0%uint63) with 0 in Vm. cbn [val] in Vm |- *.
      change (toZ 0%uint63) with 0 in Vm. rewrite Nat2Z.inj_succ, Z.pow_succ_r by lia.
      replace (val z * (base * base ^ Z.of_nat n)) with (base * (val z * base ^ Z.of_nat n)) by ring. rewrite Vz. lia.
  Qed.
  Lemma mmul_ok a b z : ok p -> ok a -> ok b -> mmul a b = Some z ->
    ok z /\ exists k, val z * R = val a * val b + k * val p.
  Proof.
    intros Hp Ha Hb M. unfold mmul in M. destruct (mul_ok a b Ha Hb) as [Ot Vt].
    destruct (reduce_ok Hp N _ z Ot M) as (Oz & k & Vz). rewrite N_Z, Vt in Vz. fold R in Vz. eauto.
  Qed.

  (** a chain of multiplications: every step multiplies two of the numbers made so far, newest first; along with
      each number its exponent *)
  Fixpoint chain (ops : list (nat * nat)) (made : list (Z * list int)) : option (list (Z * list int)) :=
    match ops with
    | [] => Some made
    | (i, j) :: ops' =>
      match nth_error made i, nth_error made j with
      | Some (ei, xi), Some (ej, xj) =>
        match mmul xi xj with Some z => chain ops' ((ei + ej, z) :: made) | None => None end
      | _, _ => None
      end
    end.
  Variable g : Z.
  (** [x] stands for g^e *)
  Definition stands (ex : Z * list int) : Prop :=
    0 <= fst ex /\ ok (snd ex) /\ exists k, val (snd ex) = g ^ fst ex * R + k * val p.
  Hypothesis Hodd : rel_prime R (val p).
  Lemma mmul_stands e1 x1 e2 x2 z : ok p -> stands (e1, x1) -> stands (e2, x2) -> mmul x1 x2 = Some z -> stands (e1 + e2, z).
  Proof.
    intros Hp (P1 & O1 & k1 & V1) (P2 & O2 & k2 & V2) M. cbn [fst snd] in *.
    destruct (mmul_ok x1 x2 z Hp O1 O2 M) as (Oz & k & Vz).
    split; [cbn; lia|]. split; [exact Oz|]. cbn [fst snd].
    assert (D : (val p | R * (val z - g ^ (e1 + e2) * R))).
    { rewrite Z.pow_add_r by assumption.
      exists (g ^ e1 * R * k2 + k1 * g ^ e2 * R + k1 * k2 * val p + k).
      replace (R * (val z - g ^ e1 * g ^ e2 * R)) with (val z * R - g ^ e1 * g ^ e2 * R * R) by ring.
      rewrite Vz, V1, V2. ring. }
    apply Gauss in D; [|apply rel_prime_sym, Hodd]. destruct D as [u D]. exists u. lia.
  Qed.
  Lemma chain_stands : ok p -> forall ops made made', Forall stands made -> chain ops made = Some made' -> Forall stands made'.
  Proof.
    intros Hp. induction ops as [|[i j] ops IH]; intros made made' F C; simpl in C; [injection C as <-; exact F|].
    destruct (nth_error made i) as [[ei xi]|] eqn:Ei; [|discriminate].
    destruct (nth_error made j) as [[ej xj]|] eqn:Ej; [|discriminate].
    destruct (mmul xi xj) as [z|] eqn:M; [|discriminate].
    apply IH in C; [exact C|]. constructor; [|exact F]. rewrite Forall_forall in F.
    eapply mmul_stands; try eassumption; apply F; eapply nth_error_In; eassumption.
  Qed.
End Mont.

(** the last number of a chain stands for g^q, and is 1 *)
Definition right (p : list int) (q : Z) (made : option (list (Z * list int))) : bool :=
  match made with
  | Some ((e, z) :: _) =>
    (e =? q) && match mmul p z [1%uint63] with Some w => same w [1%uint63] | None => false end
  | _ => false
  end.
Definition okb (l : list int) : bool := forallb (fun x => Uint63.ltb x 2147483648%uint63) l.
Lemma okb_ok l : okb l = true -> ok l.
Proof.
  unfold okb, ok. rewrite forallb_forall, Forall_forall. intros H x Hx. specialize (H x Hx).
  apply Uint63.ltb_spec in H. exact H.
Qed.
Lemma repeat_zero n : val (repeat 0%uint63 n) = 0.
Proof. induction n as [|n IH]; cbn [repeat val]; [reflexivity|]. rewrite IH. change (toZ 0%uint63) with 0. lia. Qed.
Theorem chain_power (P g q : Z) (p x0 k gl : list int) (ops : list (nat * nat)) :
  1 < P -> rel_prime R P -> val p = P -> val gl = g ->
  okb p = true -> okb x0 = true -> okb k = true ->
  same (add x0 (mul k p)) (repeat 0%uint63 N ++ gl) = true ->
  right p q (chain p ops [(1, x0)]) = true -> g ^ q mod P = 1.
Proof.
  intros HP Hodd Vp Vg Op Ox Ok' Hs A. apply okb_ok in Op, Ox, Ok'. subst P.
  assert (S0 : stands p g (1, x0)).
  { split; [cbn [fst]; lia|]. split; [exact Ox|]. exists (- val k). cbn [fst snd].
    pose proof (same_val _ _ Hs) as H. destruct (mul_ok k p Ok' Op) as [Om Vm].
    destruct (add_ok x0 (mul k p) Ox Om) as [_ Va]. rewrite Va, Vm, val_app, repeat_zero, repeat_length, N_Z, Vg in H.
    fold R in H. rewrite Z.pow_1_r. lia. }
  pose proof (chain_stands p g Hodd Op ops [(1, x0)]) as CS.
  revert A CS. generalize (chain p ops [(1, x0)]). intros made A CS.
  destruct made as [[|[e z] rest]|]; try discriminate. unfold right in A.
  apply andb_prop in A as [Ae A]. apply Z.eqb_eq in Ae. subst e.
  destruct (mmul p z [1%uint63]) as [w|] eqn:M; [|discriminate].
  pose proof (CS _ (Forall_cons _ S0 (Forall_nil _)) eq_refl) as C.
  inversion C as [|? ? (_ & Oz & u & Vz) _]; subst. cbn [fst snd] in Oz, Vz.
  assert (O1 : ok [1%uint63]) by (apply okb_ok; reflexivity).
  destruct (mmul_ok p z [1%uint63] w Op Oz O1 M) as (_ & k' & Vw).
  apply same_val in A. rewrite A in Vw. change (val [1%uint63]) with 1 in Vw.
  assert (D : (val p | R * (val gl ^ q - 1))).
  { exists (- (u + k')). rewrite Vz in Vw. lia. }
  apply Gauss in D; [|apply rel_prime_sym, Hodd]. destruct D as [v D].
  replace (val gl ^ q) with (1 + v * val p) by lia.
  rewrite Z.mod_add by lia. apply Z.mod_small. lia.
Qed.
Local Transparent N.

(** ** The numbers *)
Definition p_limbs : list int :=
  ([2147483647; 2147483647; 2147483647; 2147483647; 2147483647; 2147483647; 2147483647; 2147483647; 1381395199; 1000908404; 1181150011; 1313871489;
    64240943; 1424722168; 1783627488; 1120640956; 67581098; 132760667; 1531168228; 357824013; 628722610; 358042599; 86422540; 1953235377; 1360736997;
    111302240; 1309094586; 1967264689; 941315923; 1165607604; 353085404; 756391027; 314528290; 121217141; 117871161; 856251332; 989351355; 2137326307;
    1930380749; 1761272820; 198379354; 1179963139; 586099706; 1923156483; 1713265702; 304486132; 776977742; 1610727308; 591534076; 1659216300; 1932633975;
    462224611; 789127519; 1689011318; 2087458710; 661820542; 997189973; 22889353; 566282215; 1299793026; 121953127; 1488602906; 331798960; 1888418081;
    1378061708; 2024449541; 1337448465; 1651270264; 1141633796; 1309241227; 2080453411; 552770610; 1390417959; 1706464220; 1017648630; 1435908644;
    1704051503; 2118474365; 1180069920; 1441162457; 965308362; 848480624; 1619529109; 592023158; 1569040317; 1104996412; 1763655545; 745800371; 529515142;
    482856353; 1993686940; 510779218; 1767986218; 397162728; 396013756; 1094499217; 1053278833; 1281355976; 1250404471; 901628798; 1084050571; 322262465;
    632575390; 630941637; 1740584981; 229533623; 2061624114; 1568625350; 879181172; 1799429255; 732187780; 736659499; 483090960; 1641914569; 1743261351;
    2112647770; 1934035375; 52527227; 247306032; 726722406; 16863947; 1235451007; 234275614; 2090738495; 2147483647; 2147483647; 2147483647; 2147483647;
    2147483647; 2147483647; 2147483647; 2147483647; 15])%uint63.
(** g * R mod p, and the quotient *)
Definition x0_limbs : list int :=
  ([1569084397; 1658194264; 160253021; 1769631707; 520282838; 527654337; 208028714; 357128384; 111622751; 1247264810; 1686393263; 279771809; 1892824463;
    1989025907; 1387274978; 1451436732; 1061814398; 924237429; 241647491; 1311553367; 580807779; 998009784; 14252749; 1623039551; 1892083061; 807765566;
    1223412091; 1640138592; 1505366456; 613582482; 454759938; 3083613; 1208259255; 284490949; 1510976503; 1705576208; 2143304135; 910202023; 162881323;
    1329785724; 1727937103; 78033515; 522556142; 2049649336; 1550493440; 253449906; 297218016; 2101995361; 2030909123; 537346370; 1310335489; 668161574;
    206603402; 455789454; 2071392256; 1929345849; 1632183294; 1596649478; 569281057; 80393888; 1424518882; 1345871776; 1148024122; 446738977; 976448149;
    732072577; 1372453696; 360502887; 1571757108; 555920281; 739534201; 1086538481; 574749636; 1023480987; 1109492393; 73914464; 608912955; 128279743;
    916719538; 222441292; 1103042925; 1560814817; 585962279; 822810143; 1516116109; 1650033799; 729084680; 1698707507; 1206629156; 1269701127; 21381621;
    334355812; 129792449; 1259110256; 1579033813; 1502744293; 1089838995; 191564599; 1809460274; 734700485; 1186332645; 1605939467; 1656165112; 798073065;
    1511081522; 1205187421; 1530288264; 1840467190; 804972911; 1096690904; 1020269397; 544596246; 1295516190; 535708630; 156653132; 1032590999;
    1745504659; 621432974; 1181771860; 1831931141; 2089746168; 216440526; 1449401538; 168240075; 178870265; 1672631967; 123642779; 232909581; 452684394;
    1834208016; 704803684; 218301534; 13])%uint63.
Definition k_limbs : list int :=
  ([1569084397; 1658194264; 160253021; 1769631707; 520282838; 527654337; 208028714; 357128384; 1197033823; 2110418880; 884564020; 1072947391; 496361054;
    570302111; 1455333938; 449476840; 2091570017; 36809970; 1730285478; 645841370; 810438214; 660179543; 1029412842; 482634759; 838717308; 21545503;
    1737537791; 612268319; 1867631953; 998633374; 739114229; 1979114616; 1207571108; 2111947465; 2144999825; 1303480628; 1482888637; 822440873;
    1382614765; 1956756002; 961791843; 1604638514; 375137983; 1901921101; 79636668; 1615144224; 2131186079; 386531455; 674613999; 523594003; 1750652980;
    684833247; 694602623; 1815555494; 1053939281; 1437922013; 57655650; 676642773; 1810117343; 426348182; 843593204; 839778188; 604342711; 648258694;
    458898525; 44307491; 915298417; 1076757318; 1304879933; 1665207261; 1491546824; 129785190; 1104235648; 981018613; 227035389; 884356455; 279816627;
    710095556; 1665584350; 383479641; 2127211721; 200393118; 1982897764; 110563136; 1946944272; 502335445; 29278098; 428432535; 1385606047; 1650204838;
    617089696; 103090336; 1351957961; 1781828900; 1810968534; 56508461; 826676511; 966741937; 179154705; 193832799; 539180637; 695650325; 771835731;
    412496710; 318035424; 112861974; 1882019307; 1500612810; 377160111; 1528755363; 1718940506; 1235704173; 1635084323; 1227139501; 447103567; 434878403;
    777154277; 1009431822; 198375529; 1500114501; 1974452173; 1123281941; 1892922388; 471008784; 204631346; 1531143986; 975629623; 1292451584; 593572966;
    1254133066; 1574836412; 299861370; 245428814])%uint63.
Definition g_limbs : list int :=
  ([1001240967; 1725808689; 39591109; 639845836; 160947236; 1382577979; 941280756; 94165069; 1438456839; 609400088; 1704407755; 343262022; 369564896;
    2133133872; 671719903; 1391557103; 1288000759; 1574326588; 1454707656; 741098021; 810008092; 103883065; 871570043; 340881013; 1761580094; 1800560057;
    246163996; 1750829647; 1128007911; 1836064112; 78661744; 1630247107; 47274929; 296995048; 1213221797; 603687812; 1664812353; 1792536178; 98151914;
    775279506; 1785556408; 1068275974; 2142943228; 850714012; 1167381732; 1124865829; 1159491437; 1704973945; 973959155; 314719130; 245803261; 1638836258;
    238000245; 1111469448; 300593317; 232868806; 990706058; 1627418132; 1608900256; 1388838824; 1588415623; 1064334743; 1104377453; 1326058001;
    2061412363; 1245334281; 519363280; 289497325; 1835474001; 359050810; 766987364; 1014081367; 405057973; 2038163137; 2035863848; 870460300; 1773844190;
    829128379; 620066731; 2117383353; 448395710; 611181878; 1013410609; 517126026; 447490932; 664743113; 1805670773; 418042879; 1393514951; 710279601;
    1974431803; 995767317; 202801498; 1476994655; 1107106372; 1844641001; 1590189196; 608375474; 1884096912; 1166737843; 1496961312; 2026238961;
    1738859646; 1718180507; 873044027; 1093683258; 1134537399; 389946220; 1975960031; 629427709; 827820978; 1793068027; 199063469; 985620600; 1505463994;
    1336054248; 2089355404; 2039204167; 633173072; 804621553; 435399598; 537739373; 825250083; 1120132675; 875983649; 577688443; 1351872519; 907232873;
    738776228; 1575062473; 502814635; 1779377378; 1])%uint63.
Definition power_ops : list (nat * nat) :=
  [(0, 0); (0, 1); (0, 0); (0, 3); (0, 0); (0, 0); (0, 0); (0, 3); (0, 0); (0, 9); (0, 0); (0, 0); (0, 0); (0, 0); (0, 0); (0, 0); (0, 0); (0, 7); (0,
    0); (0, 19); (0, 0); (0, 0); (0, 0); (0, 0); (0, 0); (0, 0); (0, 0); (0, 0); (0, 0); (0, 0); (0, 0); (0, 0); (0, 0); (0, 0); (0, 0); (0, 15); (0, 0);
    (0, 37); (0, 0); (0, 0); (0, 0); (0, 0); (0, 0); (0, 0); (0, 0); (0, 0); (0, 0); (0, 0); (0, 0); (0, 0); (0, 0); (0, 0); (0, 0); (0, 0); (0, 0); (0,
    0); (0, 0); (0, 0); (0, 0); (0, 0); (0, 0); (0, 0); (0, 0); (0, 0); (0, 0); (0, 0); (0, 0); (0, 0); (0, 0); (0, 31); (0, 0); (0, 0); (0, 0); (0, 0);
    (0, 0); (0, 0); (0, 0); (0, 0); (0, 0); (0, 0); (0, 0); (0, 0); (0, 0); (0, 0); (0, 0); (0, 0); (0, 0); (0, 0); (0, 0); (0, 0); (0, 0); (0, 0); (0,
    0); (0, 0); (0, 0); (0, 0); (0, 0); (0, 0); (0, 0); (0, 0); (0, 0); (0, 0); (0, 0); (0, 0); (0, 0); (0, 0); (0, 0); (0, 0); (0, 0); (0, 0); (0, 0);
    (0, 0); (0, 0); (0, 0); (0, 0); (0, 0); (0, 0); (0, 0); (0, 0); (0, 0); (0, 0); (0, 0); (0, 0); (0, 0); (0, 0); (0, 0); (0, 0); (0, 0); (0, 0); (0,
    0); (0, 0); (0, 0); (0, 62); (0, 0); (0, 0); (0, 0); (0, 0); (0, 0); (0, 0); (0, 0); (0, 0); (0, 0); (0, 0); (0, 0); (0, 0); (0, 0); (0, 0); (0, 0);
    (0, 0); (0, 0); (0, 0); (0, 0); (0, 0); (0, 0); (0, 0); (0, 0); (0, 0); (0, 0); (0, 0); (0, 0); (0, 0); (0, 0); (0, 0); (0, 0); (0, 0); (0, 0); (0,
    0); (0, 0); (0, 0); (0, 0); (0, 0); (0, 0); (0, 0); (0, 0); (0, 0); (0, 0); (0, 0); (0, 0); (0, 0); (0, 0); (0, 0); (0, 0); (0, 0); (0, 0); (0, 0);
    (0, 0); (0, 0); (0, 0); (0, 0); (0, 0); (0, 0); (0, 0); (0, 0); (0, 0); (0, 0); (0, 0); (0, 0); (0, 0); (0, 0); (0, 0); (0, 0); (0, 0); (0, 0); (0,
    0); (0, 0); (0, 0); (0, 0); (0, 0); (0, 0); (0, 0); (0, 0); (0, 0); (0, 0); (0, 0); (0, 0); (0, 0); (0, 0); (0, 0); (0, 0); (0, 0); (0, 0); (0, 0);
    (0, 0); (0, 0); (0, 0); (0, 0); (0, 0); (0, 0); (0, 0); (0, 0); (0, 0); (0, 0); (0, 0); (0, 0); (0, 0); (0, 0); (0, 0); (0, 0); (0, 0); (0, 0); (0,
    0); (0, 0); (0, 0); (0, 0); (0, 0); (0, 0); (0, 0); (0, 0); (0, 0); (0, 0); (0, 0); (0, 0); (0, 0); (0, 0); (0, 0); (0, 0); (0, 0); (0, 124); (0, 0);
    (0, 0); (0, 260); (0, 0); (0, 0); (0, 0); (0, 0); (0, 0); (0, 266); (0, 0); (0, 268)]%nat.

Lemma p_val : val p_limbs = standard_p.
Proof. vm_compute. reflexivity. Qed.
Lemma g_val : val g_limbs = standard_g.
Proof. vm_compute. reflexivity. Qed.
Lemma start_same : same (add x0_limbs (mul k_limbs p_limbs)) (repeat 0%uint63 N ++ g_limbs) = true.
Proof. vm_compute. reflexivity. Qed.
Lemma answer_true : right p_limbs standard_q (chain p_limbs power_ops [(1, x0_limbs)]) = true.
Proof. vm_compute. reflexivity. Qed.

Lemma p_odd : rel_prime R standard_p.
Proof.
  unfold R, base. rewrite <- Z.pow_mul_r by lia. apply rel_prime_sym, Zpow_facts.rel_prime_Zpower_r; [lia|].
  apply rel_prime_sym, bezout_rel_prime. apply (Bezout_intro 2 standard_p 1 (- (standard_p / 2)) 1). vm_compute. reflexivity.
Qed.
Theorem standard_g_order : standard_g ^ standard_q mod standard_p = 1.
Proof.
  refine (chain_power standard_p standard_g standard_q p_limbs x0_limbs k_limbs g_limbs power_ops
            _ p_odd p_val g_val _ _ _ start_same answer_true); vm_compute; reflexivity.
Qed.
