(** * Lemmas about the codecs of big_integer.py and byte_padding.py. *)
From Verif Require Import Base Group Codec.

Lemma zlen_nonneg {A} (l : list A) : 0 <= zlen l.
Proof. unfold zlen; lia. Qed.
Lemma zlen_app {A} (a b : list A) : zlen (a ++ b) = zlen a + zlen b.
Proof. unfold zlen; rewrite app_length; lia. Qed.
Lemma zlen_cons {A} (a : A) (b : list A) : zlen (a :: b) = 1 + zlen b.
Proof. unfold zlen; cbn [length]; lia. Qed.

(** ** positional notation *)
Section Digits.
  Variable b : Z.
  Hypothesis Hb : 1 < b.

  Definition of_le (l : list Z) : Z := fold_right (fun d acc => d + b * acc) 0 l.

  Lemma of_digits_be_app l1 l2 : forall a,
    fold_left (fun acc d => acc * b + d) (l1 ++ l2) a
    = fold_left (fun acc d => acc * b + d) l2 (fold_left (fun acc d => acc * b + d) l1 a).
  Proof. intros; apply fold_left_app. Qed.

  Lemma of_digits_be_rev l : of_digits_be b (rev l) = of_le l.
  Proof.
    unfold of_digits_be. induction l as [|x l IH]; [reflexivity|].
    cbn [rev of_le fold_right]. rewrite fold_left_app. cbn [fold_left]. rewrite IH.
    unfold of_le. lia.
  Qed.

  Lemma digits_le_value fuel : forall n, 0 <= n < 2 ^ Z.of_nat fuel -> of_le (digits_le_fuel fuel b n) = n.
  Proof.
    induction fuel as [|k IH]; intros n Hn.
    - cbn in *. lia.
    - cbn [digits_le_fuel]. destruct (Z.leb_spec n 0); [cbn; lia|].
      cbn [of_le fold_right]. fold (of_le (digits_le_fuel k b (n / b))).
      rewrite IH; [pose proof (Z.div_mod n b ltac:(lia)); lia|].
      split; [apply Z.div_pos; lia|].
      rewrite Nat2Z.inj_succ, Z.pow_succ_r in Hn by lia.
      apply Z.div_lt_upper_bound; [lia|]. nia.
  Qed.

  Lemma digits_le_range fuel : forall n, Forall (fun d => 0 <= d < b) (digits_le_fuel fuel b n).
  Proof.
    induction fuel as [|k IH]; intros n; cbn [digits_le_fuel]; [constructor|].
    destruct (n <=? 0); constructor; [apply Z.mod_pos_bound; lia|apply IH].
  Qed.

  Lemma digits_be_value n : 0 <= n -> of_digits_be b (digits_be b n) = n.
  Proof.
    intros Hn. unfold digits_be. rewrite of_digits_be_rev. apply digits_le_value.
    split; [assumption|]. destruct (Z.eq_dec n 0) as [->|]; [apply Z.pow_pos_nonneg; lia|].
    rewrite Z2Nat.id by (pose proof (Z.log2_nonneg n); lia).
    pose proof (Z.log2_spec n ltac:(lia)). replace (Z.log2 n + 1) with (Z.succ (Z.log2 n)) by lia. lia.
  Qed.

  Lemma digits_be_range n : Forall (fun d => 0 <= d < b) (digits_be b n).
  Proof. unfold digits_be. apply Forall_rev, digits_le_range. Qed.

  Lemma of_digits_be_cons x l : of_digits_be b (x :: l) = x * b ^ zlen l + of_digits_be b l.
  Proof.
    unfold of_digits_be. cbn [fold_left]. rewrite Z.mul_0_l, Z.add_0_l.
    revert x. induction l as [|y l IH]; intros x; cbn [fold_left].
    - unfold zlen; cbn. lia.
    - rewrite IH. rewrite (IH (0 * b + y)). rewrite zlen_cons.
      rewrite Z.pow_add_r, Z.pow_1_r by (try lia; apply zlen_nonneg). lia.
  Qed.

  Lemma of_digits_be_bound l : Forall (fun d => 0 <= d < b) l -> 0 <= of_digits_be b l < b ^ zlen l.
  Proof.
    induction l as [|x l IH]; intros H; [unfold of_digits_be, zlen; cbn; lia|].
    inversion H as [|? ? Hx Hl]; subst. rewrite of_digits_be_cons, zlen_cons.
    rewrite Z.pow_add_r, Z.pow_1_r by (try lia; apply zlen_nonneg). specialize (IH Hl).
    assert (0 < b ^ zlen l) by (apply Z.pow_pos_nonneg; [lia|apply zlen_nonneg]). nia.
  Qed.

  (** fixed-length big-endian notation is injective *)
  Lemma of_digits_be_inj l1 : forall l2, length l1 = length l2 ->
    Forall (fun d => 0 <= d < b) l1 -> Forall (fun d => 0 <= d < b) l2 ->
    of_digits_be b l1 = of_digits_be b l2 -> l1 = l2.
  Proof.
    induction l1 as [|x l1 IH]; intros [|y l2] Hlen H1 H2 Heq; try (cbn in Hlen; lia); [reflexivity|].
    inversion H1 as [|? ? Hx Hl1]; inversion H2 as [|? ? Hy Hl2]; subst.
    rewrite !of_digits_be_cons in Heq.
    assert (Hz : zlen l1 = zlen l2) by (unfold zlen; cbn in Hlen; lia). rewrite Hz in Heq.
    pose proof (of_digits_be_bound l1 Hl1) as B1. pose proof (of_digits_be_bound l2 Hl2) as B2.
    rewrite Hz in B1.
    assert (0 < b ^ zlen l2) by (apply Z.pow_pos_nonneg; [lia|apply zlen_nonneg]).
    assert (x = y) by nia. subst y. f_equal. apply IH; auto; cbn in Hlen; lia.
  Qed.

  Lemma digits_le_nonnil fuel n : 0 < n -> (0 < fuel)%nat -> digits_le_fuel fuel b n <> [].
  Proof. intros Hn Hf. destruct fuel; [lia|]. cbn. destruct (Z.leb_spec n 0); [lia|discriminate]. Qed.

  (** no leading zero *)
  Lemma digits_le_last fuel : forall n, 0 <= n < 2 ^ Z.of_nat fuel ->
    forall x l, rev (digits_le_fuel fuel b n) = x :: l -> x <> 0.
  Proof.
    induction fuel as [|k IH]; intros n Hn x l; cbn [digits_le_fuel rev]; [discriminate|].
    destruct (Z.leb_spec n 0); [discriminate|]. cbn [rev].
    assert (Hn' : 0 <= n / b < 2 ^ Z.of_nat k).
    { split; [apply Z.div_pos; lia|].
      rewrite Nat2Z.inj_succ, Z.pow_succ_r in Hn by lia.
      apply Z.div_lt_upper_bound; [lia|]. nia. }
    destruct (rev (digits_le_fuel k b (n / b))) as [|y l'] eqn:Hr.
    - cbn [app]. intros [= <- <-].
      assert (Hd : digits_le_fuel k b (n / b) = []) by (rewrite <- (rev_involutive (digits_le_fuel k b (n/b))), Hr; reflexivity).
      destruct (Z.eq_dec (n / b) 0) as [H0|H0].
      + apply Z.div_small_iff in H0; [|lia]. rewrite Z.mod_small; lia.
      + exfalso. apply (digits_le_nonnil k (n / b)); [lia| |assumption].
        destruct k; [cbn in Hn'; lia|lia].
    - cbn [app]. intros [= <- _]. apply (IH (n / b) Hn' y l' Hr).
  Qed.

  Lemma digits_be_head n x l : 0 <= n -> digits_be b n = x :: l -> x <> 0.
  Proof.
    intros Hn. unfold digits_be. apply digits_le_last.
    split; [assumption|]. destruct (Z.eq_dec n 0) as [->|]; [apply Z.pow_pos_nonneg; lia|].
    rewrite Z2Nat.id by (pose proof (Z.log2_nonneg n); lia).
    pose proof (Z.log2_spec n ltac:(lia)). replace (Z.log2 n + 1) with (Z.succ (Z.log2 n)) by lia. lia.
  Qed.

  (** canonical: digit strings without a leading zero are determined by their value *)
  Lemma digits_be_unique l : Forall (fun d => 0 <= d < b) l -> (forall x l', l = x :: l' -> x <> 0) ->
    digits_be b (of_digits_be b l) = l.
  Proof.
    intros Hl Hhd.
    pose proof (of_digits_be_bound l Hl) as Bl.
    set (n := of_digits_be b l) in *.
    pose proof (digits_be_range n) as Hr. pose proof (digits_be_value n ltac:(lia)) as Hv.
    assert (Hlen : length (digits_be b n) = length l).
    { assert (Hlow : forall m, Forall (fun d => 0 <= d < b) m -> (forall x l', m = x :: l' -> x <> 0) ->
                m = [] \/ b ^ (zlen m - 1) <= of_digits_be b m).
      { intros [|x m] Hm Hh; [left; reflexivity|right].
        inversion Hm as [|? ? Hx Hm']; subst.
        rewrite of_digits_be_cons, zlen_cons. replace (1 + zlen m - 1) with (zlen m) by lia.
        specialize (Hh x m eq_refl). pose proof (of_digits_be_bound m Hm').
        assert (0 < b ^ zlen m) by (apply Z.pow_pos_nonneg; [lia|apply zlen_nonneg]). nia. }
      pose proof (of_digits_be_bound _ Hr) as Bd. rewrite Hv in Bd.
      assert (L1 := Hlow l Hl Hhd). fold n in L1.
      assert (L2 := Hlow (digits_be b n) Hr (fun x l' => digits_be_head n x l' ltac:(lia))). rewrite Hv in L2.
      assert (Hcmp : forall u w, b ^ (u - 1) <= n -> n < b ^ w -> 0 <= w -> u <= w).
      { intros u w H1 H2 Hw. destruct (Z_le_gt_dec u w); [assumption|exfalso].
        assert (b ^ w <= b ^ (u - 1)) by (apply Z.pow_le_mono_r; lia). lia. }
      pose proof (zlen_nonneg l). pose proof (zlen_nonneg (digits_be b n)).
      assert (zlen (digits_be b n) = zlen l).
      { apply Z.le_antisymm.
        - destruct L2 as [->|L2]; [change (zlen (@nil Z)) with 0; assumption|]. apply Hcmp; [exact L2|apply Bl|assumption].
        - destruct L1 as [L1|L1]; [rewrite L1; change (zlen (@nil Z)) with 0; assumption|]. apply Hcmp; [exact L1|apply Bd|assumption]. }
      unfold zlen in *; lia. }
    apply of_digits_be_inj; assumption.
  Qed.
End Digits.

(** ** hexadecimal characters *)
Lemma hex_char_val d : 0 <= d < 16 -> hex_val (hex_char d) = Some d.
Proof.
  intros H. assert (Hd : In d (map Z.of_nat (seq 0 16))).
  { apply in_map_iff. exists (Z.to_nat d). split; [lia|]. apply in_seq; lia. }
  cbn in Hd. repeat (destruct Hd as [<-|Hd]; [reflexivity|]). destruct Hd.
Qed.
Definition is_upper_hex (c : ascii) : bool :=
  let n := Z.of_N (N_of_ascii c) in
  ((48 <=? n) && (n <=? 57)) || ((65 <=? n) && (n <=? 70)).
Lemma hex_char_upper d : 0 <= d < 16 -> is_upper_hex (hex_char d) = true.
Proof.
  intros H. assert (Hd : In d (map Z.of_nat (seq 0 16))).
  { apply in_map_iff. exists (Z.to_nat d). split; [lia|]. apply in_seq; lia. }
  cbn in Hd. repeat (destruct Hd as [<-|Hd]; [reflexivity|]). destruct Hd.
Qed.
Lemma hex_char_not_space d : 0 <= d < 16 -> is_ascii_space (hex_char d) = false.
Proof.
  intros H. assert (Hd : In d (map Z.of_nat (seq 0 16))).
  { apply in_map_iff. exists (Z.to_nat d). split; [lia|]. apply in_seq; lia. }
  cbn in Hd. repeat (destruct Hd as [<-|Hd]; [reflexivity|]). destruct Hd.
Qed.

(** pairs of hexadecimal digits as bytes *)
Fixpoint pair_up (l : list Z) : list Z :=
  match l with h :: lo :: l' => (16 * h + lo) :: pair_up l' | _ => [] end.

Lemma list_ind2 {A} (P : list A -> Prop) :
  P [] -> (forall x, P [x]) -> (forall x y l, P l -> P (x :: y :: l)) -> forall l, P l.
Proof.
  intros H0 H1 H2. fix IH 1. intros [|x [|y l]]; [apply H0|apply H1|apply H2, IH].
Qed.

Lemma fromhex_digits l : Forall (fun d => 0 <= d < 16) l -> Nat.odd (length l) = false ->
  fromhex_chars (map hex_char l) = Ok (pair_up l).
Proof.
  induction l as [|x|x y l IH] using list_ind2; intros Hl Hodd; [reflexivity|discriminate|].
  inversion Hl as [|? ? Hx Hl']; inversion Hl' as [|? ? Hy Hl'']; subst.
  cbn [map fromhex_chars pair_up]. rewrite hex_char_not_space, !hex_char_val by assumption.
  rewrite IH; [reflexivity|assumption|]. exact Hodd.
Qed.

Lemma pair_up_value l : Nat.odd (length l) = false ->
  of_digits_be 256 (pair_up l) = of_digits_be 16 l.
Proof.
  induction l as [|x|x y l IH] using list_ind2; intros Hodd; [reflexivity|discriminate|].
  cbn [pair_up]. rewrite !of_digits_be_cons by lia. rewrite IH by exact Hodd.
  assert (Hz : zlen l = 2 * zlen (pair_up l)).
  { clear - Hodd. change (Nat.odd (length l) = false) in Hodd. revert Hodd.
    induction l as [|a|a b l IH] using list_ind2; intros Hodd; [reflexivity|discriminate|].
    cbn [pair_up]. rewrite !zlen_cons, IH by exact Hodd. lia. }
  rewrite zlen_cons. rewrite Z.pow_add_r, Z.pow_1_r by (try lia; apply zlen_nonneg).
  rewrite Hz. rewrite Z.pow_mul_r by (try lia; apply zlen_nonneg). change (16 ^ 2) with 256. lia.
Qed.

(** the digit list behind int_to_hex *)
Definition hex_digits (n : Z) : list Z :=
  let ds := if n =? 0 then [0] else digits_be 16 n in
  if (length ds <? 2)%nat then 0 :: ds else if Nat.odd (length ds) then 0 :: ds else ds.

Lemma int_to_hex_digits n : 0 <= n -> int_to_hex_chars n = map hex_char (hex_digits n).
Proof.
  intros Hn. unfold int_to_hex_chars, format_02X, hex_digits.
  rewrite Z.abs_eq by assumption. destruct (Z.ltb_spec n 0) as [|_]; [lia|].
  set (ds := if n =? 0 then [0] else digits_be 16 n).
  rewrite !map_length.
  destruct (Nat.ltb_spec (length ds) 2) as [H2|H2].
  - assert (Hl : length ds = 1%nat).
    { destruct ds as [|x [|y ds']] eqn:Hds; cbn in H2; try lia; [|reflexivity].
      exfalso. subst ds. destruct (Z.eqb_spec n 0); [discriminate|].
      pose proof (digits_be_value 16 ltac:(lia) n Hn) as Hv. rewrite Hds in Hv. cbn in Hv. lia. }
    cbn [length]. rewrite map_length, Hl. reflexivity.
  - rewrite map_length. destruct (Nat.odd (length ds)); reflexivity.
Qed.

Lemma hex_digits_range n : Forall (fun d => 0 <= d < 16) (hex_digits n).
Proof.
  unfold hex_digits.
  assert (H : Forall (fun d => 0 <= d < 16) (if n =? 0 then [0] else digits_be 16 n)).
  { destruct (n =? 0); [repeat constructor; lia|apply digits_be_range; lia]. }
  destruct (_ <? _)%nat; [constructor; [lia|exact H]|].
  destruct (Nat.odd _); [constructor; [lia|exact H]|exact H].
Qed.

Lemma hex_digits_even n : 0 <= n -> Nat.odd (length (hex_digits n)) = false.
Proof.
  intros Hn. unfold hex_digits. set (ds := if n =? 0 then [0] else digits_be 16 n).
  destruct (Nat.ltb_spec (length ds) 2) as [H2|H2].
  - destruct ds as [|x [|y ds']] eqn:Hds; cbn in H2; try lia; [|reflexivity].
    exfalso. subst ds. destruct (Z.eqb_spec n 0); [discriminate|].
    pose proof (digits_be_value 16 ltac:(lia) n Hn) as Hv. rewrite Hds in Hv. cbn in Hv. lia.
  - destruct (Nat.odd (length ds)) eqn:Ho; [|assumption].
    cbn [length]. rewrite Nat.odd_succ, <- Nat.negb_odd, Ho. reflexivity.
Qed.

Lemma hex_digits_value n : 0 <= n -> of_digits_be 16 (hex_digits n) = n.
Proof.
  intros Hn. unfold hex_digits. set (ds := if n =? 0 then [0] else digits_be 16 n).
  assert (Hv : of_digits_be 16 ds = n).
  { subst ds. destruct (Z.eqb_spec n 0) as [->|]; [reflexivity|]. apply digits_be_value; lia. }
  destruct (_ <? _)%nat; [rewrite of_digits_be_cons by lia; lia|].
  destruct (Nat.odd _); [rewrite of_digits_be_cons by lia; lia|assumption].
Qed.

Lemma hex_digits_nonnil n : 0 <= n -> hex_digits n <> [].
Proof.
  intros Hn H. unfold hex_digits in H.
  destruct (Nat.ltb_spec (length (if n =? 0 then [0] else digits_be 16 n)) 2); [discriminate|].
  destruct (Nat.odd _); [discriminate|]. rewrite H in *. cbn in *; lia.
Qed.

Lemma list_ascii_int_to_hex n : list_ascii_of_string (int_to_hex n) = int_to_hex_chars n.
Proof. unfold int_to_hex. apply list_ascii_of_string_of_list_ascii. Qed.

Lemma fromhex_int_to_hex n : 0 <= n -> fromhex (int_to_hex n) = Ok (pair_up (hex_digits n)).
Proof.
  intros Hn. unfold fromhex. rewrite list_ascii_int_to_hex, int_to_hex_digits by assumption.
  apply fromhex_digits; [apply hex_digits_range|apply hex_digits_even; assumption].
Qed.

Lemma hex_roundtrip n : 0 <= n -> hex_to_int (int_to_hex n) = Ok n.
Proof.
  intros Hn. unfold hex_to_int. rewrite list_ascii_int_to_hex, int_to_hex_digits by assumption.
  rewrite map_length, hex_digits_even by assumption.
  replace (match map hex_char (hex_digits n) with
           | [] => map hex_char (hex_digits n)
           | c :: l' => if false && Ascii.eqb c "0" then l' else map hex_char (hex_digits n)
           end) with (map hex_char (hex_digits n))
    by (destruct (map hex_char (hex_digits n)); reflexivity).
  rewrite fromhex_digits by (try apply hex_digits_range; apply hex_digits_even; assumption).
  cbn [rbind]. unfold int_from_bytes. rewrite pair_up_value by (apply hex_digits_even; assumption).
  rewrite hex_digits_value by assumption. reflexivity.
Qed.

Lemma int_to_hex_inj a b : 0 <= a -> 0 <= b -> int_to_hex a = int_to_hex b -> a = b.
Proof.
  intros Ha Hb Heq. pose proof (hex_roundtrip a Ha) as H. rewrite Heq, hex_roundtrip in H by assumption.
  inversion H; reflexivity.
Qed.

Lemma int_to_hex_shape n : 0 <= n ->
  let l := list_ascii_of_string (int_to_hex n) in
  Nat.even (length l) = true /\ (2 <= length l)%nat /\ forallb is_upper_hex l = true.
Proof.
  intros Hn l. subst l. rewrite list_ascii_int_to_hex, int_to_hex_digits by assumption.
  rewrite map_length. repeat split.
  - rewrite <- Nat.negb_odd, hex_digits_even by assumption. reflexivity.
  - pose proof (hex_digits_nonnil n Hn). pose proof (hex_digits_even n Hn).
    destruct (hex_digits n) as [|x [|y l]]; cbn in *; try congruence; lia.
  - rewrite forallb_forall. intros c Hc. apply in_map_iff in Hc. destruct Hc as [d [<- Hd]].
    apply hex_char_upper. pose proof (hex_digits_range n) as Hr. rewrite Forall_forall in Hr. auto.
Qed.

(** ** bytes *)
Lemma pair_up_range l : Forall (fun d => 0 <= d < 16) l -> Forall (fun d => 0 <= d < 256) (pair_up l).
Proof.
  induction l as [|x|x y l IH] using list_ind2; intros H; cbn [pair_up]; try constructor.
  - inversion H as [|? ? Hx H1]; inversion H1; subst. lia.
  - inversion H as [|? ? Hx H1]; inversion H1; subst. auto.
Qed.
Lemma pair_up_length l : Nat.odd (length l) = false -> length l = (2 * length (pair_up l))%nat.
Proof.
  induction l as [|x|x y l IH] using list_ind2; intros Ho; [reflexivity|discriminate|].
  cbn [pair_up length]. rewrite (IH Ho). lia.
Qed.

(** to_hex_bytes is what fromhex gives on to_hex *)
Lemma to_hex_bytes_spec n : 0 <= n -> fromhex (int_to_hex n) = Ok (to_hex_bytes n).
Proof.
  intros Hn. rewrite fromhex_int_to_hex by assumption. f_equal. unfold to_hex_bytes.
  destruct (Z.eqb_spec n 0) as [->|Hne]; [reflexivity|].
  rewrite <- (hex_digits_value n Hn) at 2.
  rewrite <- pair_up_value by (apply hex_digits_even; assumption).
  symmetry. apply digits_be_unique; [lia|apply pair_up_range, hex_digits_range|].
  intros x l Hpu ->.
  (* leading byte zero: both leading nibbles zero *)
  pose proof (hex_digits_value n Hn) as Hv.
  unfold hex_digits in *.
  destruct (Z.eqb_spec n 0); [contradiction|].
  destruct (digits_be 16 n) as [|d ds] eqn:Hd; [cbn in Hv; lia|].
  pose proof (digits_be_head 16 ltac:(lia) n d ds Hn Hd) as Hd0.
  pose proof (digits_be_range 16 ltac:(lia) n) as Hr. rewrite Hd in Hr.
  inversion Hr as [|? ? Hdr Hr']; subst.
  destruct ((length (d :: ds) <? 2)%nat); [cbn [pair_up] in Hpu; injection Hpu; lia|].
  destruct (Nat.odd (length (d :: ds))) eqn:Ho.
  - cbn [pair_up] in Hpu. injection Hpu; lia.
  - destruct ds as [|e ds]; [discriminate|]. cbn [pair_up] in Hpu. inversion Hr' as [|? ? He ?]; subst.
    assert (H1 : 16 * d + e = 0) by congruence. lia.
Qed.

Lemma to_hex_bytes_value n : 0 <= n -> int_from_bytes (to_hex_bytes n) = n.
Proof.
  intros Hn. unfold to_hex_bytes, int_from_bytes. destruct (Z.eqb_spec n 0) as [->|]; [reflexivity|].
  apply digits_be_value; lia.
Qed.

(** ** padding *)
Lemma to_bytes_le_raw_value len : forall n, 0 <= n < 256 ^ Z.of_nat len ->
  of_le 256 (to_bytes_le_raw len n) = n.
Proof.
  induction len as [|k IH]; intros n Hn; cbn [to_bytes_le_raw of_le fold_right].
  - cbn in Hn; lia.
  - fold (of_le 256 (to_bytes_le_raw k (n / 256))).
    rewrite Nat2Z.inj_succ, Z.pow_succ_r in Hn by lia.
    rewrite IH; [pose proof (Z.div_mod n 256); lia|].
    split; [apply Z.div_pos; lia|apply Z.div_lt_upper_bound; lia].
Qed.
Lemma to_bytes_le_raw_length len : forall n, length (to_bytes_le_raw len n) = len.
Proof. induction len; intros; cbn; auto. Qed.

Lemma to_bytes_be_spec len n b : to_bytes_be len n = Ok b ->
  length b = len /\ int_from_bytes b = n.
Proof.
  unfold to_bytes_be, to_bytes_le. destruct (_ && _) eqn:Hb; [|discriminate].
  cbn [rmap]. intros [= <-]. apply andb_true_iff in Hb. rewrite Z.leb_le, Z.ltb_lt in Hb.
  rewrite rev_length, to_bytes_le_raw_length. split; [reflexivity|].
  unfold int_from_bytes. rewrite of_digits_be_rev. apply to_bytes_le_raw_value; assumption.
Qed.

Lemma firstn_app_exact {A} (a b : list A) n : n = length a -> firstn n (a ++ b) = a.
Proof. intros ->. rewrite firstn_app, Nat.sub_diag, firstn_all. cbn. apply app_nil_r. Qed.
Lemma skipn_app_exact {A} (a b : list A) n : n = length a -> skipn n (a ++ b) = b.
Proof. intros ->. rewrite skipn_app, Nat.sub_diag, skipn_all. reflexivity. Qed.

Lemma py_slice_prefix {A} (l : list A) j : 0 <= j <= zlen l -> py_slice l 0 j = firstn (Z.to_nat j) l.
Proof.
  intros Hj. unfold py_slice, py_norm. unfold zlen in Hj.
  replace (0 <? 0) with false by reflexivity.
  replace (j <? 0) with false by (symmetry; apply Z.ltb_ge; lia).
  rewrite Z.min_l by lia. replace (Z.min 0 (Z.of_nat (length l))) with 0 by lia.
  cbn [Z.to_nat skipn]. rewrite Nat.sub_0_r. reflexivity.
Qed.

Lemma zeros_length n : 0 <= n -> zlen (zeros n) = n.
Proof. intros; unfold zlen, zeros. rewrite repeat_length. lia. Qed.

Lemma padding_truncated m size msg p :
  0 <= size ->
  add_padding m size true = Ok p -> msg = py_slice m 0 (Z.min (zlen m) (size - 2)) -> 2 <= size ->
  remove_padding p size = msg /\ zlen p = size.
Proof.
  intros Hsz. unfold add_padding. intros Hadd -> H2.
  pose proof (zlen_nonneg m) as Hm0.
  assert (Hml : exists ml, (if size - 2 <? zlen m then Ok (size - 2) else Ok (zlen m)) = Ok ml
            /\ ml = Z.min (zlen m) (size - 2)).
  { destruct (Z.ltb_spec (size - 2) (zlen m)); eexists; (split; [reflexivity|lia]). }
  destruct Hml as [ml [Hml Hmin]]. cbv zeta in Hadd. rewrite Hml in Hadd. cbn [rbind] in Hadd.
  destruct (to_bytes_be 2 (size - 2 - ml)) as [b|e] eqn:Hb; [|discriminate].
  cbn [rbind] in Hadd. injection Hadd as <-.
  destruct (to_bytes_be_spec _ _ _ Hb) as [Hbl Hbv].
  rewrite <- Hmin. rewrite py_slice_prefix by lia.
  assert (Hfl : length (firstn (Z.to_nat ml) m) = Z.to_nat ml) by (rewrite firstn_length; unfold zlen in *; lia).
  assert (Hpl : zlen (b ++ firstn (Z.to_nat ml) m ++ zeros (size - 2 - ml)) = size).
  { rewrite !zlen_app, zeros_length by lia. unfold zlen. rewrite Hfl, Hbl. lia. }
  split; [|assumption].
  unfold remove_padding.
  rewrite (py_slice_prefix _ 2) by lia.
  rewrite firstn_app_exact by (rewrite Hbl; reflexivity). rewrite Hbv.
  unfold py_slice, py_norm. unfold zlen in Hpl. rewrite Hpl.
  replace (size - (size - 2 - ml)) with (ml + 2) by lia.
  replace (ml + 2 <? 0) with false by (symmetry; apply Z.ltb_ge; lia).
  replace (2 <? 0) with false by reflexivity.
  rewrite !Z.min_l by lia.
  rewrite skipn_app_exact by (rewrite Hbl; reflexivity).
  apply firstn_app_exact. rewrite Hfl. lia.
Qed.

Lemma padding_ok m size allow : 2 <= size <= 65537 -> zlen m <= size - 2 ->
  exists p, add_padding m size allow = Ok p /\ zlen p = size /\ remove_padding p size = m.
Proof.
  intros Hs Hm. pose proof (zlen_nonneg m) as Hm0.
  assert (Hb : exists b, to_bytes_be 2 (size - 2 - zlen m) = Ok b).
  { unfold to_bytes_be, to_bytes_le.
    replace (_ && _) with true; [eexists; reflexivity|].
    symmetry. apply andb_true_iff. rewrite Z.leb_le, Z.ltb_lt. change (256 ^ Z.of_nat 2) with 65536. lia. }
  destruct Hb as [b Hb].
  assert (Hadd : add_padding m size allow = add_padding m size true).
  { unfold add_padding. destruct (Z.ltb_spec (size - 2) (zlen m)); [lia|reflexivity]. }
  rewrite Hadd.
  assert (Hok : exists p, add_padding m size true = Ok p).
  { unfold add_padding. destruct (Z.ltb_spec (size - 2) (zlen m)); [lia|]. cbn [rbind]. rewrite Hb. cbn [rbind].
    eexists; reflexivity. }
  destruct Hok as [p Hp]. exists p. split; [assumption|].
  destruct (padding_truncated m size m p) as [H1 H2]; try lia; try assumption; [|split; assumption].
  rewrite Z.min_l by lia. rewrite py_slice_prefix by lia. unfold zlen. rewrite Nat2Z.id. symmetry; apply firstn_all.
Qed.

Lemma padding_too_long m size : 2 <= size -> size - 2 < zlen m -> add_padding m size false = Err TruncationError.
Proof. intros Hs Hm. unfold add_padding. destruct (Z.ltb_spec (size - 2) (zlen m)); [reflexivity|lia]. Qed.

(** ** parsing arbitrary hexadecimal text *)
Fixpoint all_hex (l : list ascii) : option (list Z) :=
  match l with
  | [] => Some []
  | c :: l' => match hex_val c, all_hex l' with Some d, Some ds => Some (d :: ds) | _, _ => None end
  end.
Lemma hex_val_not_space c d : hex_val c = Some d -> is_ascii_space c = false /\ 0 <= d < 16.
Proof.
  unfold hex_val, is_ascii_space. set (n := Z.of_N (N_of_ascii c)).
  destruct (Z.leb_spec 48 n), (Z.leb_spec n 57); cbn [andb]; 
  destruct (Z.leb_spec 65 n), (Z.leb_spec n 70); cbn [andb];
  destruct (Z.leb_spec 97 n), (Z.leb_spec n 102); cbn [andb]; intros Heq; try discriminate; injection Heq as <-;
  (split; [|lia]); apply orb_false_iff; split; try (apply Z.eqb_neq; lia); apply andb_false_iff; right; apply Z.leb_gt; lia.
Qed.
Lemma all_hex_length l : forall ds, all_hex l = Some ds -> length ds = length l.
Proof.
  induction l as [|c l IH]; intros ds; cbn [all_hex]; [intros [= <-]; reflexivity|].
  destruct (hex_val c); [|discriminate]. destruct (all_hex l) as [ds'|]; [|discriminate].
  intros [= <-]. cbn. f_equal. apply IH; reflexivity.
Qed.
Lemma fromhex_all_hex l : forall ds, all_hex l = Some ds ->
  fromhex_chars l = if Nat.odd (length l) then Err ValueError else Ok (pair_up ds).
Proof.
  induction l as [|c|c d l IH] using list_ind2; intros ds; cbn [all_hex].
  - intros [= <-]. reflexivity.
  - destruct (hex_val c) as [h|] eqn:Hc; [|discriminate]. intros [= <-].
    cbn. rewrite (proj1 (hex_val_not_space c h Hc)). reflexivity.
  - destruct (hex_val c) as [h|] eqn:Hc; [|discriminate].
    destruct (hex_val d) as [lo|] eqn:Hd; [|discriminate].
    destruct (all_hex l) as [ds'|] eqn:Hl; [|discriminate]. intros [= <-].
    cbn [fromhex_chars]. rewrite (proj1 (hex_val_not_space c h Hc)), Hc, Hd.
    rewrite (IH ds' eq_refl). cbn [length]. rewrite Nat.odd_succ_succ.
    destruct (Nat.odd (length l)); reflexivity.
Qed.
Lemma hex_to_int_parse s ds : all_hex (list_ascii_of_string s) = Some ds ->
  hex_to_int s =
    if Nat.odd (length ds) && negb (match ds with 0 :: _ => true | _ => false end)
    then Err ValueError else Ok (of_digits_be 16 ds).
Proof.
  unfold hex_to_int. intros H. pose proof (all_hex_length _ _ H) as Hlen.
  destruct (list_ascii_of_string s) as [|c l] eqn:Hs.
  - cbn in H. injection H as <-. reflexivity.
  - cbn [all_hex] in H. destruct (hex_val c) as [d|] eqn:Hc; [|discriminate].
    destruct (all_hex l) as [ds'|] eqn:Hl; [|discriminate]. injection H as <-.
    rewrite Hlen. cbn [andb].
    assert (Hzero : d = 0 <-> c = "0"%char).
    { split.
      - intros ->. destruct c as [[] [] [] [] [] [] [] []]; cbn in Hc; try discriminate Hc; reflexivity.
      - intros ->. cbn in Hc. congruence. }
    destruct (Nat.odd (length (c :: l))) eqn:Ho; cbn [andb].
    + destruct (Ascii.eqb_spec c "0"%char) as [Hc0|Hc0].
      * apply Hzero in Hc0. subst d. cbn [negb].
        rewrite (fromhex_all_hex l ds' Hl).
        cbn [length] in Ho. rewrite Nat.odd_succ, <- Nat.negb_odd in Ho. apply negb_true_iff in Ho. rewrite Ho.
        cbn [rbind]. unfold int_from_bytes. rewrite pair_up_value by (rewrite (all_hex_length l ds' Hl); exact Ho).
        rewrite of_digits_be_cons by lia. reflexivity.
      * assert (Hd : d <> 0) by (intros Hd0; apply Hc0, Hzero, Hd0).
        replace (negb match d with 0 => true | _ => false end) with true by (destruct d; [contradiction|reflexivity|reflexivity]).
        rewrite (fromhex_all_hex (c :: l) (d :: ds')) by (cbn [all_hex]; rewrite Hc, Hl; reflexivity).
        rewrite Ho. reflexivity.
    + rewrite (fromhex_all_hex (c :: l) (d :: ds')) by (cbn [all_hex]; rewrite Hc, Hl; reflexivity).
      rewrite Ho. cbn [rbind]. unfold int_from_bytes. rewrite pair_up_value; [reflexivity|].
      rewrite Hlen. exact Ho.
Qed.
