(** * FloatLaws: what the signs of binary64 results follow from the signs of the operands.

    Not part of the model.  A double is non-negative-or-nan ([nn]) when it does not compare below zero, and
    non-positive-or-nan ([np]) when zero does not compare below it; these are the comparisons the code makes. *)
From Coq Require Import ZArith Bool Lia Reals Lra.
From Flocq Require Import Core BinarySingleNaN PrimFloat.
From Coq Require Import Floats SpecFloat.
Local Open Scope float_scope.

Definition nn (x : float) : Prop := (x <? 0) = false.
Definition np (x : float) : Prop := (0 <? x) = false.

(** ** Signs *)
Definition sg (s : bool) (x : spec_float) : Prop :=
  match x with S754_nan => True | S754_zero _ => True | S754_infinity b => b = s | S754_finite b _ _ => b = s end.

Lemma nn_sg x : nn x <-> sg false (Prim2SF x).
Proof.
  unfold nn. rewrite ltb_spec. change (Prim2SF 0) with (S754_zero false). destruct (Prim2SF x) as [b|b| |b m e]; cbn; try (destruct b); split; try tauto; discriminate.
Qed.
Lemma np_sg x : np x <-> sg true (Prim2SF x).
Proof.
  unfold np. rewrite ltb_spec. change (Prim2SF 0) with (S754_zero false). destruct (Prim2SF x) as [b|b| |b m e]; cbn; try (destruct b); split; try tauto; discriminate.
Qed.

Lemma round_aux_sg s m e l : sg s (binary_round_aux prec emax s m e l).
Proof. unfold binary_round_aux. destruct (shr_fexp _ _ m e l) as [a b]. destruct (shr_fexp _ _ _ b _) as [a' b']. destruct (shr_m a') as [|q|q]; cbn; try exact I. destruct (_ <=? _)%Z; reflexivity. Qed.
Lemma round_sg s m e : sg s (binary_round prec emax s m e).
Proof. unfold binary_round. destruct (shl_align _ _ _) as [a b]. apply round_aux_sg. Qed.
Lemma normalize_sg (s z : bool) m e : (if s then m <= 0 else 0 <= m)%Z -> sg s (binary_normalize prec emax m e z).
Proof. intros H. destruct m as [|q|q]; [exact I|..]; destruct s; cbn; try (apply round_sg); lia. Qed.

Lemma add_sg s x y : sg s x -> sg s y -> sg s (SFadd prec emax x y).
Proof.
  destruct x as [a|a| |a m e], y as [b|b| |b m' e']; cbn; try tauto; try (intros -> ->); try (destruct (Bool.eqb a b); cbn; tauto).
  - rewrite eqb_reflx. reflexivity.
  - apply normalize_sg. destruct s; cbn; lia.
Qed.
Lemma opp_sg s x : sg s x -> sg (negb s) (SFopp x).
Proof. destruct x; cbn; congruence. Qed.
Lemma sub_sg s x y : sg s x -> sg (negb s) y -> sg s (SFsub prec emax x y).
Proof.
  intros Hx Hy. destruct x as [a|a| |a m e], y as [b|b| |b m' e']; cbn in Hx, Hy; cbn; subst; rewrite ?negb_involutive, ?eqb_reflx; try exact I; try reflexivity.
  - destruct (Bool.eqb a (negb b)); exact I.
  - apply normalize_sg. destruct s; cbn; lia.
Qed.
Lemma mul_sg s s' x y : sg s x -> sg s' y -> sg (xorb s s') (SFmul prec emax x y).
Proof.
  destruct x as [a|a| |a m e], y as [b|b| |b m' e']; cbn; try tauto; try (intros -> ->); try reflexivity. apply round_aux_sg.
Qed.
Lemma div_sg s s' x y : sg s x -> sg s' y -> SFeqb y (S754_zero false) = false -> sg (xorb s s') (SFdiv prec emax x y).
Proof.
  destruct x as [a|a| |a m e], y as [b|b| |b m' e']; cbn; try tauto; try (intros -> ->); try discriminate; try reflexivity; intros _.
  destruct (SFdiv_core_binary _ _ _ _ _ _) as [[? ?] ?]. apply round_aux_sg.
Qed.

Lemma nn_add x y : nn x -> nn y -> nn (x + y).
Proof. rewrite !nn_sg, add_spec. apply add_sg. Qed.
Lemma np_add x y : np x -> np y -> np (x + y).
Proof. rewrite !np_sg, add_spec. apply add_sg. Qed.
Lemma np_sub x y : np x -> nn y -> np (x - y).
Proof. rewrite !np_sg, nn_sg, sub_spec. apply (sub_sg true). Qed.
Lemma nn_mul x y : nn x -> nn y -> nn (x * y).
Proof. rewrite !nn_sg, mul_spec. apply (mul_sg false false). Qed.
Lemma np_mul x y : nn x -> np y -> np (x * y).
Proof. rewrite !np_sg, nn_sg, mul_spec. apply (mul_sg false true). Qed.
Lemma np_mul_l x y : np x -> nn y -> np (x * y).
Proof. rewrite !np_sg, nn_sg, mul_spec. apply (mul_sg true false). Qed.
Lemma nn_div x y : nn x -> nn y -> (y =? 0) = false -> nn (x / y).
Proof. rewrite !nn_sg, div_spec, eqb_spec. apply (div_sg false false). Qed.
Lemma np_div x y : np x -> nn y -> (y =? 0) = false -> np (x / y).
Proof. rewrite !np_sg, nn_sg, div_spec, eqb_spec. apply (div_sg true false). Qed.
Lemma mul_comm x y : x * y = y * x.
Proof.
  apply Prim2SF_inj. rewrite !mul_spec. destruct (Prim2SF x) as [a|a| |a m e], (Prim2SF y) as [b|b| |b m' e']; cbn; try reflexivity; rewrite (xorb_comm b a); try reflexivity.
  rewrite (Pos.mul_comm m'), (Z.add_comm e'). reflexivity.
Qed.

(** ** Order *)
Lemma lt_nn x : (0 <? x) = true -> nn x.
Proof. unfold nn. rewrite !ltb_spec. change (Prim2SF 0) with (S754_zero false). destruct (Prim2SF x) as [b|b| |b m e]; cbn; try (destruct b); trivial; discriminate. Qed.
Lemma ltb_irrefl x : (x <? x) = false.
Proof.
  rewrite ltb_spec. destruct (Prim2SF x) as [b|b| |b m e]; try (destruct b); try reflexivity; unfold SFltb, SFcompare; rewrite Z.compare_refl, Pos.compare_cont_refl; reflexivity.
Qed.

(** a double as a real, when it is finite *)
Notation BF := (binary_float FloatOps.prec FloatOps.emax).
Notation finite := BinarySingleNaN.is_finite.
#[local] Existing Instance Hprec.
#[local] Existing Instance Hmax.
Lemma Bltb_cases (x y : BF) : Bltb x y = true ->
  (finite x = true /\ finite y = true /\ (B2R x < B2R y)%R) \/ x = B754_infinity true \/ y = B754_infinity false.
Proof.
  intros H. destruct (finite x) eqn:Fx; [destruct (finite y) eqn:Fy|].
  - left. repeat split; trivial. rewrite Bltb_correct in H by assumption. revert H. case Rlt_bool_spec; [trivial|discriminate].
  - right. destruct y as [b|[]| |b m' e' Hy]; try discriminate Fy; [|right; reflexivity|]; destruct x as [a|a| |a m e Hx]; try discriminate Fx; destruct a; discriminate H.
  - right. destruct x as [a|[]| |a m e Hx]; try discriminate Fx; [left; reflexivity|..]; destruct y as [b|[]| |b m' e' Hy]; discriminate H.
Qed.
Lemma sign_R (x : BF) : if Bsign x then (B2R x <= 0)%R else (0 <= B2R x)%R.
Proof.
  destruct x as [[]|[]| |[] m e H]; cbn; try lra.
  - apply F2R_le_0. cbn. lia.
  - apply F2R_ge_0. cbn. lia.
Qed.
Lemma sign_sg (x : BF) s : Bsign x = s -> sg s (B2SF x).
Proof. destruct x; cbn; auto. Qed.

Lemma Bminus_lt (x y : BF) : Bltb x y = true -> sg true (B2SF (Bminus mode_NE x y)) /\ sg false (B2SF (Bminus mode_NE y x)).
Proof.
  intros H. destruct (Bltb_cases _ _ H) as [(Fx & Fy & L)|[E|E]].
  - pose proof (sign_R x) as Sx. pose proof (sign_R y) as Sy. split.
    + pose proof (Bminus_correct prec emax Hprec Hmax mode_NE _ _ Fx Fy) as C. destruct (Rlt_bool _ _).
      * destruct C as (_ & _ & S). rewrite Rcompare_Lt in S by lra. apply sign_sg. exact S.
      * destruct C as (S & Sg). rewrite S. cbn. destruct (Bsign x); [reflexivity|]. destruct (Bsign y); [lra|discriminate Sg].
    + pose proof (Bminus_correct prec emax Hprec Hmax mode_NE _ _ Fy Fx) as C. destruct (Rlt_bool _ _).
      * destruct C as (_ & _ & S). rewrite Rcompare_Gt in S by lra. apply sign_sg. exact S.
      * destruct C as (S & Sg). rewrite S. cbn. destruct (Bsign y); [|reflexivity]. destruct (Bsign x); [discriminate Sg|lra].
  - subst. destruct y as [[]|[]| |[] m e Hy]; cbn; auto.
  - subst. destruct x as [[]|[]| |[] m e Hy]; cbn; auto.
Qed.
(** a difference has the sign of the order *)
Lemma sub_lt x y : (x <? y) = true -> np (x - y) /\ nn (y - x).
Proof. rewrite ltb_equiv, np_sg, nn_sg. rewrite <- !B2SF_Prim2B, !sub_equiv. apply Bminus_lt. Qed.

(** adding something non-positive does not increase *)
Lemma add_np_le x y : np x -> (y <? (x + y)) = false.
Proof.
  rewrite np_sg, <- B2SF_Prim2B, ltb_equiv, add_equiv. generalize (Prim2B x) (Prim2B y). clear x y. intros x y Hx.
  destruct (finite x) eqn:Fx; [destruct (finite y) eqn:Fy|].
  - assert (Lx : (B2R x <= 0)%R).
    { destruct x as [a|a| |a m e H]; try discriminate; cbn in Hx |- *; [lra|]. subst. apply F2R_le_0. cbn. lia. }
    pose proof (Bplus_correct prec emax Hprec Hmax mode_NE _ _ Fx Fy) as C.
    assert (G : generic_format radix2 (SpecFloat.fexp prec emax) (B2R y)) by apply generic_format_B2R.
    destruct (Rlt_bool _ _) eqn:O.
    + destruct C as (E & F & _). rewrite Bltb_correct by assumption. apply Rlt_bool_false. rewrite E.
      rewrite <- (round_generic radix2 (SpecFloat.fexp prec emax) (round_mode mode_NE) (B2R y)) at 2 by exact G.
      apply round_le; [apply fexp_correct; exact Hprec|apply valid_rnd_round_mode|lra].
    + destruct C as (E & S). destruct (Bplus mode_NE x y) as [a|a| |a m e H]; try discriminate E. cbn in E. injection E as ->.
      destruct (Bsign x) eqn:Sx; [destruct y as [[]|[]| |[] m e H]; reflexivity|].
      (* x is a positive zero: no overflow *)
      assert (E0 : B2R x = 0%R) by (pose proof (sign_R x) as K; rewrite Sx in K; lra). rewrite E0, Rplus_0_l in O.
      rewrite round_generic in O by (try apply valid_rnd_round_mode; exact G). pose proof (abs_B2R_lt_emax prec emax y) as B. rewrite Rlt_bool_true in O by exact B. discriminate O.
  - destruct y as [a|[]| |a m e H]; try discriminate Fy; destruct x as [b|[]| |b m' e' H']; try discriminate Fx; reflexivity.
  - destruct x as [b|[]| |b m' e' H']; try discriminate Fx; try discriminate Hx; [|destruct y as [a|[]| |a m e H]; reflexivity].
    destruct y as [a|[]| |a m e H]; try reflexivity; destruct a; reflexivity.
Qed.

Lemma lt_zero_trans x t : (x <? 0) = true -> (0 <=? t) = true -> (x <? t) = true.
Proof.
  rewrite !ltb_spec, leb_spec. change (Prim2SF 0) with (S754_zero false).
  destruct (Prim2SF x) as [a|[]| |[] m e], (Prim2SF t) as [b|[]| |[] m' e']; cbn; trivial; discriminate.
Qed.

Lemma ltb_asym x y : (x <? y) = true -> (y <? x) = false.
Proof.
  rewrite !ltb_equiv. generalize (Prim2B x) (Prim2B y). clear x y. intros x y H. destruct (Bltb y x) eqn:K; [|reflexivity].
  destruct (Bltb_cases _ _ H) as [(_ & _ & L)|[E|E]]; destruct (Bltb_cases _ _ K) as [(_ & _ & L')|[E'|E']]; subst; try lra; try discriminate;
    try (destruct x as [[]|[]| |[] ? ? ?]; discriminate); try (destruct y as [[]|[]| |[] ? ? ?]; discriminate).
Qed.

Lemma np_le_nonneg x t : finite (Prim2B x) = true -> (B2R (Prim2B x) <= 0)%R -> (0 <=? t) = true -> (x <=? t) = true.
Proof.
  rewrite !leb_equiv. generalize (Prim2B x). clear x. change (Prim2B 0) with (B754_zero (prec:=prec) (emax:=emax) false). intros x Fx Lx H.
  destruct (finite (Prim2B t)) eqn:Ft.
  - rewrite Bleb_correct in H |- * by (assumption || reflexivity). revert H. case Rle_bool_spec; [|discriminate]. cbn. intros H _. apply Rle_bool_true. lra.
  - destruct (Prim2B t) as [|[]| |]; try discriminate Ft; [discriminate H| |discriminate H]. destruct x as [[]|[]| |[] ? ? ?]; try discriminate Fx; reflexivity.
Qed.

(** a negative times a positive number is not above anything non-negative (and is not nan) *)
Lemma mul_neg_pos x y t : (x <? 0) = true -> (0 <? y) = true -> (0 <=? t) = true -> (x * y <=? t) = true.
Proof.
  intros Hx Hy Ht.
  assert (Sx : match Prim2B x with B754_infinity true | B754_finite true _ _ _ => True | _ => False end).
  { rewrite ltb_equiv in Hx. change (Prim2B 0) with (B754_zero (prec:=prec) (emax:=emax) false) in Hx. destruct (Prim2B x) as [[]|[]| |[] ? ? ?]; try discriminate Hx; exact I. }
  assert (Sy : match Prim2B y with B754_infinity false | B754_finite false _ _ _ => True | _ => False end).
  { rewrite ltb_equiv in Hy. change (Prim2B 0) with (B754_zero (prec:=prec) (emax:=emax) false) in Hy. destruct (Prim2B y) as [[]|[]| |[] ? ? ?]; try discriminate Hy; exact I. }
  assert (I : Prim2B (x * y) = B754_infinity true \/ finite (Prim2B (x * y)) = true /\ (B2R (Prim2B (x * y)) <= 0)%R).
  { rewrite mul_equiv. pose proof (sign_R (Prim2B x)) as Rx. pose proof (sign_R (Prim2B y)) as Ry.
    destruct (Prim2B x) as [[]|[]| |[] mx ex Bx] eqn:Ex; try contradiction; destruct (Prim2B y) as [[]|[]| |[] my ey By] eqn:Ey; try contradiction; try (left; reflexivity).
    pose proof (Bmult_correct prec emax Hprec Hmax mode_NE (B754_finite true mx ex Bx) (B754_finite false my ey By)) as C.
    destruct (Rlt_bool _ _).
    - right. destruct C as (E & F & _). split; [exact F|]. rewrite E. rewrite <- (round_0 radix2 (SpecFloat.fexp prec emax) (round_mode mode_NE)).
      apply round_le; [apply fexp_correct; exact Hprec|apply valid_rnd_round_mode|]. cbn [Bsign] in Rx, Ry. nra.
    - left. cbn [Bsign xorb binary_overflow] in C. destruct (Bmult _ _ _) as [|a| |]; try discriminate C. cbn in C. injection C as ->. reflexivity. }
  destruct I as [E|(F & L)]; [|apply np_le_nonneg; assumption].
  rewrite leb_equiv, E. rewrite leb_equiv in Ht. destruct (Prim2B t) as [[]|[]| |[] ? ? ?]; try reflexivity; discriminate Ht.
Qed.

Lemma le_np x : (x <=? 0) = true -> np x.
Proof. unfold np. rewrite leb_spec, ltb_spec. change (Prim2SF 0) with (S754_zero false). destruct (Prim2SF x) as [b|b| |b m e]; cbn; try (destruct b); trivial; discriminate. Qed.
