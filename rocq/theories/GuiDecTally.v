(** * GuiDecTally: the tally of a list of ballots that may hold a ballot twice. *)
From Verif Require Import Base Group Codec Hash ElGamal Manifest Ballot Encrypt Box Tally SpecElection SpecTally ListFacts GroupFacts ManifestThms EncryptThms TallyFacts TallyThms TallyMore
  Shares SpecShares SpecEndToEnd EndToEnd Ceremony GuiUpload GuiDecrypt.
From Coq Require Import List.

(** ** the first occurrences *)
Section Firsts.
  Context {A : Type} (f : A -> string).
  Fixpoint firsts (seen : list string) (l : list A) : list A :=
    match l with [] => [] | x :: l' => if inb (f x) seen then firsts seen l' else x :: firsts (f x :: seen) l' end.
  Lemma firsts_ext l : forall s s', (forall k, inb k s = inb k s') -> firsts s l = firsts s' l.
  Proof.
    induction l as [|x l IH]; intros s s' H; [reflexivity|]. cbn [firsts]. rewrite (H (f x)). destruct (inb (f x) s'); [apply IH, H|].
    f_equal. apply IH. intros k. cbn [inb]. change (eqb k (f x) || inb k s = eqb k (f x) || inb k s'). rewrite H. reflexivity.
  Qed.
  Lemma firsts_in l : forall s x, In x (firsts s l) -> In x l /\ ~ In (f x) s.
  Proof.
    induction l as [|y l IH]; intros s x; [intros []|]. cbn [firsts]. destruct (inb (f y) s) eqn:Hy.
    - intros H. apply IH in H as [H1 H2]. split; [right; exact H1|exact H2].
    - intros [<-|H]; [split; [left; reflexivity|apply inb_false, Hy]|]. apply IH in H as [H1 H2]. split; [right; exact H1|]. intros H. apply H2. right. exact H.
  Qed.
  Lemma firsts_nodup l : forall s, NoDup (map f (firsts s l)).
  Proof.
    induction l as [|y l IH]; intros s; cbn [firsts]; [constructor|]. destruct (inb (f y) s); [apply IH|]. cbn [map]. constructor; [|apply IH].
    intros H. apply in_map_iff in H as [x [Hx H]]. apply firsts_in in H as [_ H]. apply H. left. symmetry. exact Hx.
  Qed.
  Lemma firsts_cover l : forall s x, In x l -> ~ In (f x) s -> exists y, In y (firsts s l) /\ f y = f x.
  Proof.
    induction l as [|y l IH]; intros s x; [intros []|]; intros [<-|Hx] Hs; cbn [firsts].
    - apply inb_false in Hs. rewrite Hs. exists y. split; [left; reflexivity|reflexivity].
    - destruct (inb (f y) s) eqn:Hy; [apply IH; assumption|]. destruct (String.eqb_spec (f x) (f y)) as [He|He]; [exists y; split; [left; reflexivity|congruence]|].
      destruct (IH (f y :: s) x Hx) as (z & Hz & Hf); [intros [H|H]; [congruence|contradiction]|]. exists z. split; [right; exact Hz|exact Hf].
  Qed.
  Lemma firsts_same l : forall s, NoDup (map f l) -> (forall x, In x l -> ~ In (f x) s) -> firsts s l = l.
  Proof.
    induction l as [|y l IH]; intros s Hn Hs; [reflexivity|]. cbn [map] in Hn. inversion Hn as [|? ? Hy Hn']; subst. cbn [firsts].
    pose proof (Hs y (or_introl eq_refl)) as H. apply inb_false in H. rewrite H. f_equal. apply IH; [exact Hn'|]. intros x Hx [He|He]; [|apply (Hs x (or_intror Hx) He)].
    apply Hy. rewrite He. apply in_map, Hx.
  Qed.
End Firsts.

Section Dups.
  Context (E : env) (im : internal_manifest) (cx : context).
  Definition noted (b : sub_ballot) (acc : dict string (dict string ciphertext)) : Prop :=
    forall s, In s (flat_map bc_selections (cb_contests (sb_ballot b))) -> exists m, dget (cs_id s) acc = Some m /\ dget (sb_id b) m = Some (cs_ct s).
  Lemma collect_one_noted i acc s : exists m, dget (cs_id s) (collect_one i acc s) = Some m /\ dget i m = Some (cs_ct s).
  Proof.
    unfold collect_one. destruct (dget (cs_id s) acc) as [m|]; rewrite dget_dset_same; eexists; (split; [reflexivity|]).
    - apply dget_dset_same.
    - apply (dget_dset_same i (cs_ct s) []).
  Qed.
  Lemma collect_one_keeps i acc s k j c m : dget k acc = Some m -> dget j m = Some c -> j <> i \/ k <> cs_id s ->
    exists m', dget k (collect_one i acc s) = Some m' /\ dget j m' = Some c.
  Proof.
    intros H1 H2 H. unfold collect_one. destruct (String.eqb_spec k (cs_id s)) as [->|Hk].
    - rewrite H1, dget_dset_same. eexists. split; [reflexivity|]. destruct H as [H|H]; [|congruence]. rewrite dget_dset_other by exact H. exact H2.
    - destruct (dget (cs_id s) acc); rewrite dget_dset_other by exact Hk; exists m; auto.
  Qed.
  Lemma collect_fold_keeps i ss : forall acc k j c m, dget k acc = Some m -> dget j m = Some c -> j <> i \/ ~ In k (map cs_id ss) ->
    exists m', dget k (fold_left (collect_one i) ss acc) = Some m' /\ dget j m' = Some c.
  Proof.
    induction ss as [|s ss IH]; intros acc k j c m H1 H2 H; [exists m; auto|]. cbn [fold_left map] in *.
    destruct (collect_one_keeps i acc s k j c m H1 H2) as (m' & M1 & M2); [destruct H as [H|H]; [left; exact H|right; intros ->; apply H; left; reflexivity]|].
    apply (IH _ k j c m' M1 M2). destruct H as [H|H]; [left; exact H|right; intros H'; apply H; right; exact H'].
  Qed.
  Lemma collect_fold_notes i ss : NoDup (map cs_id ss) -> forall acc s, In s ss -> exists m, dget (cs_id s) (fold_left (collect_one i) ss acc) = Some m /\ dget i m = Some (cs_ct s).
  Proof.
    induction ss as [|x ss IH]; intros Hn acc s; [intros []|]. cbn [map] in Hn. inversion Hn as [|? ? Hx Hn']; subst. cbn [fold_left]. intros [<-|Hs]; [|apply IH; assumption].
    destruct (collect_one_noted i acc x) as (m & M1 & M2). apply (collect_fold_keeps i ss _ _ i _ m M1 M2). right. exact Hx.
  Qed.
  Lemma collect_fold_again i ss : forall acc, (forall s, In s ss -> exists m, dget (cs_id s) acc = Some m /\ dget i m = Some (cs_ct s)) -> fold_left (collect_one i) ss acc = acc.
  Proof.
    induction ss as [|x ss IH]; intros acc H; [reflexivity|]. cbn [fold_left]. destruct (H x (or_introl eq_refl)) as (m & M1 & M2).
    replace (collect_one i acc x) with acc; [apply IH; intros; apply H; right; assumption|]. unfold collect_one. rewrite M1, (dset_same_dict i _ m M2), (dset_same_dict _ m acc M1). reflexivity.
  Qed.
  Definition settled (seen : list sub_ballot) (t : tally) (acc : dict string (dict string ciphertext)) : Prop :=
    forall b, In b seen -> (sb_state b = CAST -> noted b acc) /\ (sb_state b = SPOILED -> In (sb_id b) (ty_spoiled t)).
  Lemma batch_collect_dups v : forall bl seen t acc, ty_manifest t = im -> ty_context t = cx ->
    Forall (fun b => passes E im cx b v = true /\ own_ids im (sb_ballot b)) bl ->
    (forall b b', In b bl -> In b' (seen ++ bl) -> sb_id b = sb_id b' -> b = b') -> settled seen t acc ->
    batch_collect E v bl t acc = batch_collect E v (firsts sb_id (map sb_id seen) bl) t acc.
  Proof.
    induction bl as [|b bl IH]; intros seen t acc Ht Hc HF Hs Hset; [reflexivity|]. inversion HF as [|? ? [Hp Hown] HF']; subst. cbn [firsts batch_collect].
    unfold passes in Hp. destruct (ballot_valid_for_election E (sb_ballot b) (ty_manifest t) (ty_context t) v) as [[|]|] eqn:Hval; try discriminate.
    destruct (inb (sb_id b) (map sb_id seen)) eqn:Hin.
    - apply inb_spec, in_map_iff in Hin as [b' [Hid Hb']]. assert (b = b') by (apply Hs; [left; reflexivity|apply in_or_app; left; exact Hb'|congruence]). subst b'.
      destruct (Hset b Hb') as [S1 S2].
      assert (IH' : batch_collect E v bl t acc = batch_collect E v (firsts sb_id (map sb_id seen) bl) t acc).
      { apply IH; try reflexivity; [exact HF'| |exact Hset]. intros x y Hx Hy. apply Hs; [right; exact Hx|]. apply in_app_iff in Hy. apply in_app_iff. destruct Hy; [left; assumption|right; right; assumption]. }
      rewrite <- IH'. destruct (sb_state b).
      + unfold collect_selections. rewrite collect_fold_again by (apply S1; reflexivity). reflexivity.
      + replace (add_spoiled t b) with t; [reflexivity|]. unfold add_spoiled, set_add. specialize (S2 eq_refl). apply inb_spec in S2. rewrite S2. destruct t; reflexivity.
      + reflexivity.
    - cbn [batch_collect]. rewrite Hval. apply inb_false in Hin.
      assert (Hsp : forall x y, In x bl -> In y ((b :: seen) ++ bl) -> sb_id x = sb_id y -> x = y).
      { intros x y Hx Hy. apply Hs; [right; exact Hx|]. apply in_app_iff. destruct Hy as [<-|Hy]; [right; left; reflexivity|]. apply in_app_iff in Hy. destruct Hy; [left; assumption|right; right; assumption]. }
      change (sb_id b :: map sb_id seen) with (map sb_id (b :: seen)).
      assert (Hother : forall b', In b' seen -> sb_id b' <> sb_id b) by (intros b' Hb' He; apply Hin; rewrite <- He; apply in_map, Hb').
      destruct (sb_state b) eqn:Hst.
      + apply IH; try reflexivity; [exact HF'|exact Hsp|]. intros b' [<-|Hb'].
        * split; [|congruence]. intros _ s Hsel. unfold collect_selections. apply collect_fold_notes; [apply Hown|exact Hsel].
        * destruct (Hset b' Hb') as [S1 S2]. split; [|exact S2]. intros Hc s Hsel. destruct (S1 Hc s Hsel) as (m & M1 & M2).
          unfold collect_selections. apply (collect_fold_keeps _ _ _ _ _ _ m M1 M2). left. apply Hother, Hb'.
      + apply IH; try reflexivity; [exact HF'|exact Hsp|]. intros b' [<-|Hb'].
        * split; [congruence|]. intros _. unfold add_spoiled; cbn [ty_spoiled]. unfold set_add. destruct (inb (sb_id b) (ty_spoiled t)) eqn:Hi; [apply inb_spec, Hi|]. apply in_or_app. right. left. reflexivity.
        * destruct (Hset b' Hb') as [S1 S2]. split; [exact S1|]. intros Hx. unfold add_spoiled; cbn [ty_spoiled]. unfold set_add. destruct (inb (sb_id b) (ty_spoiled t)); [apply S2, Hx|].
          apply in_or_app. left. apply S2, Hx.
      + apply IH; try reflexivity; [exact HF'|exact Hsp|]. intros b' [<-|Hb']; [split; congruence|apply Hset, Hb'].
  Qed.
  Notation mark := (fold_left (fun t b => if box_state_eqb (sb_state b) CAST then with_cast t (sb_id b) else t)).
  Lemma mark_dups : forall bl seen t, (forall b b', In b bl -> In b' (seen ++ bl) -> sb_id b = sb_id b' -> b = b') ->
    (forall b, In b seen -> sb_state b = CAST -> In (sb_id b) (ty_cast t)) -> mark bl t = mark (firsts sb_id (map sb_id seen) bl) t.
  Proof.
    induction bl as [|b bl IH]; intros seen t Hs Hset; [reflexivity|]. cbn [firsts fold_left].
    destruct (inb (sb_id b) (map sb_id seen)) eqn:Hin.
    - apply inb_spec, in_map_iff in Hin as [b' [Hid Hb']]. assert (b = b') by (apply Hs; [left; reflexivity|apply in_or_app; left; exact Hb'|congruence]). subst b'.
      rewrite <- IH; [|intros x y Hx Hy; apply Hs; [right; exact Hx|]; apply in_app_iff in Hy; apply in_app_iff; destruct Hy; [left; assumption|right; right; assumption]|exact Hset].
      destruct (box_state_eqb (sb_state b) CAST) eqn:Hc; [|reflexivity]. f_equal. unfold with_cast, set_add.
      assert (Hi : In (sb_id b) (ty_cast t)) by (apply Hset; [exact Hb'|destruct (sb_state b); [reflexivity|discriminate|discriminate]]). apply inb_spec in Hi. rewrite Hi. destruct t; reflexivity.
    - cbn [fold_left]. change (sb_id b :: map sb_id seen) with (map sb_id (b :: seen)). apply IH.
      + intros x y Hx Hy. apply Hs; [right; exact Hx|]. apply in_app_iff. destruct Hy as [<-|Hy]; [right; left; reflexivity|]. apply in_app_iff in Hy. destruct Hy; [left; assumption|right; right; assumption].
      + assert (Hkeep : forall i, In i (ty_cast t) -> In i (ty_cast (if box_state_eqb (sb_state b) CAST then with_cast t (sb_id b) else t))).
        { intros i Hi. destruct (box_state_eqb (sb_state b) CAST); [|exact Hi]. unfold with_cast, set_add; cbn [ty_cast]. destruct (inb (sb_id b) (ty_cast t)); [exact Hi|apply in_or_app; left; exact Hi]. }
        intros b' [<-|Hb'] Hc; [|apply Hkeep, Hset; assumption]. rewrite Hc. cbn [box_state_eqb]. unfold with_cast, set_add; cbn [ty_cast].
        destruct (inb (sb_id b) (ty_cast t)) eqn:Hi; [apply inb_spec, Hi|apply in_or_app; right; left; reflexivity].
  Qed.
  Lemma batch_dups t bl v : ty_manifest t = im -> ty_context t = cx -> Forall (fun b => passes E im cx b v = true /\ own_ids im (sb_ballot b)) bl ->
    (forall b b', In b bl -> In b' bl -> sb_id b = sb_id b' -> b = b') ->
    batch_append E true false t bl v = batch_append E true false t (firsts sb_id [] bl) v.
  Proof.
    intros Ht Hc HF Hs. unfold batch_append. rewrite (batch_collect_dups v bl [] t []) by (try assumption; intros b []). cbn [map].
    destruct (batch_collect E v (firsts sb_id [] bl) t []) as [t1 [acc|e]]; [|reflexivity]. f_equal. apply (mark_dups bl []); [exact Hs|intros b []].
  Qed.
End Dups.
