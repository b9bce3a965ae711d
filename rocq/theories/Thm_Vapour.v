(** * Saturation vapour pressure in closed form (C33), and ice against water (used by C97).  Over the reals. *)
From Coq Require Import Reals ZArith Bool Lia Lra List.
From Verif Require Import Num Real Constants Functions Libsnobal Phys.
Open Scope R_scope.

(** ** Specification: the Goff-Gratch formulas, in Pa; [t] in Kelvin.  (273.16 K ice point, 373.15 K boiling point.) *)
Definition over_ice (t : R) : R :=
  61071/100 * Rpower (t / (27316/100)) (356654/100000)
  * Rpower 10 (- (909718/100000) * (27316/100/t - 1) + 876793/1000000 * (1 - t/(27316/100))).
Definition over_water (t : R) : R :=
  1013246/10 * Rpower (37315/100 / t) (502808/100000)
  * Rpower 10 (- (790298/100000) * (37315/100/t - 1)
               - 13816/100000000000 * (Rpower 10 (11344/1000 * (1 - t/(37315/100))) - 1)
               + 81328/10000000 * (Rpower 10 (- (349149/100000) * (37315/100/t - 1)) - 1)).

Lemma rpower10_ln x a : 0 < x -> Rpower x a = Rpower 10 (a * (ln x / ln 10)).
Proof. intros Hx. unfold Rpower. f_equal. field. pose proof ln10_gt_1. lra. Qed.

Theorem C33_formulas t : 0 < t ->
  satw t = Ok (over_water t) /\ sati t = Ok (if Rlt_dec (27316/100) t then over_water t else over_ice t).
Proof.
  intros Ht.
  assert (W : satw t = Ok (over_water t)).
  { rewrite satw_eq by assumption. f_equal. unfold over_water, satw_exponent.
    rewrite (rpower10_ln (37315/100/t)) by (apply Rdiv_lt_0_compat; lra).
    rewrite <- (Rpower10_log (1013246/10)) at 2 by lra.
    rewrite <- !Rpower_plus. f_equal.
    replace (- (349149/100000)) with (-349149/100000) by lra. replace (- (790298/100000)) with (-790298/100000) by lra. unfold Rdiv. ring. }
  split; [exact W|]. destruct (Rlt_dec (27316/100) t) as [H|H].
  - rewrite sati_warm by assumption. exact W.
  - rewrite sati_ice_eq by lra. f_equal. unfold over_ice, sati_exponent.
    assert (Hq : 0 < t / (27316/100)) by (apply Rdiv_lt_0_compat; lra).
    rewrite (rpower10_ln (t / (27316/100))) by assumption.
    assert (L : ln (27316/100/t) = - ln (t / (27316/100))).
    { rewrite <- ln_Rinv by assumption. f_equal. field. lra. }
    rewrite L. replace (- (909718/100000)) with (-909718/100000) by lra.
    replace (61071/100) with (100 * Rpower 10 (ln (61071/10000) / ln 10)) by (rewrite Rpower10_log by lra; lra).
    rewrite !Rmult_assoc, <- !Rpower_plus. do 2 f_equal. unfold Rdiv. ring.
Qed.

(** ** Over ice at most 25 Pa above the formula over water *)
Lemma ln_le_ x y : 0 < x -> x <= y -> ln x <= ln y.
Proof. intros Hx [H| ->]; [left; apply ln_increasing; assumption|right; reflexivity]. Qed.
Lemma ln_pow_ x n : 0 < x -> ln (x ^ n) = INR n * ln x.
Proof. intros Hx. rewrite <- Rpower_pow by assumption. unfold Rpower. apply ln_exp. Qed.
Lemma ln10_lt : ln 10 < 5/2.
Proof.
  assert (H : ln 10 < ln ((9/8) ^ 20)) by (apply ln_increasing; lra).
  rewrite ln_pow_ in H by lra. pose proof (ln_le_sub1 (9/8) ltac:(lra)) as X.
  rewrite INR_IZR_INZ in H. cbn [Z.of_nat Pos.of_succ_nat Pos.succ] in H. lra.
Qed.
(** 10^p <= x^q: the decimal logarithm of x is at least p/q *)
Lemma log_ge x p q : 0 < x -> (0 < q)%nat -> 10 ^ p <= x ^ q -> INR p / INR q <= ln x / ln 10.
Proof.
  intros Hx Hq H. pose proof ln10_gt_1 as L. apply lt_0_INR in Hq.
  assert (X : ln (10 ^ p) <= ln (x ^ q)) by (apply ln_le_; [apply pow_lt; lra|exact H]).
  rewrite !ln_pow_ in X by lra.
  apply (Rmult_le_reg_r (INR q * ln 10)); [nra|].
  replace (INR p / INR q * (INR q * ln 10)) with (INR p * ln 10) by (field; lra).
  replace (ln x / ln 10 * (INR q * ln 10)) with (INR q * ln x) by (field; lra). exact X.
Qed.
Lemma log_le x p q : 0 < x -> (0 < q)%nat -> x ^ q <= 10 ^ p -> ln x / ln 10 <= INR p / INR q.
Proof.
  intros Hx Hq H. pose proof ln10_gt_1 as L. apply lt_0_INR in Hq.
  assert (X : ln (x ^ q) <= ln (10 ^ p)) by (apply ln_le_; [apply pow_lt; lra|exact H]).
  rewrite !ln_pow_ in X by lra.
  apply (Rmult_le_reg_r (INR q * ln 10)); [nra|].
  replace (INR p / INR q * (INR q * ln 10)) with (INR p * ln 10) by (field; lra).
  replace (ln x / ln 10 * (INR q * ln 10)) with (INR q * ln x) by (field; lra). exact X.
Qed.
Lemma rpower10_le a b : a <= b -> Rpower 10 a <= Rpower 10 b.
Proof. intros [H|H]; [left; apply Rpower10_incr; exact H|right; rewrite H; reflexivity]. Qed.
Lemma rpower10_le_of a x : 0 < x -> a <= ln x / ln 10 -> Rpower 10 a <= x.
Proof. intros Hx H. rewrite <- (Rpower10_log x) by assumption. apply rpower10_le. exact H. Qed.

Ltac inr := rewrite !INR_IZR_INZ in *; cbn [Z.of_nat Pos.of_succ_nat Pos.succ] in *.

(** 1 - t/273.16 <= 5/2 log10 (273.16/t) *)
Lemma log_quotient t : 0 < t -> t <= 27316/100 -> 2/5 * (1 - t/(27316/100)) <= ln (27316/100/t) / ln 10.
Proof.
  intros Ht Hf. pose proof ln10_gt_1 as L1. pose proof ln10_lt as L2.
  assert (Hq : 0 < t / (27316/100)) by (apply Rdiv_lt_0_compat; lra).
  assert (E : ln (27316/100/t) = - ln (t / (27316/100))) by (rewrite <- ln_Rinv by assumption; f_equal; field; lra).
  pose proof (ln_le_sub1 _ Hq) as X.
  assert (Y : t / (27316/100) <= 1) by (apply (Rmult_le_reg_r (27316/100)); [lra|]; replace (t / (27316/100) * (27316/100)) with t by field; lra).
  rewrite E. apply (Rmult_le_reg_r (ln 10)); [lra|]. replace (- ln (t / (27316/100)) / ln 10 * ln 10) with (- ln (t / (27316/100))) by (field; lra).
  nra.
Qed.

Lemma water_over_ice t : 235 <= t <= 27316/100 -> 2 + sati_exponent t - 157/10000 <= satw_exponent t.
Proof.
  intros (T1 & T2). pose proof ln10_gt_1 as L1. pose proof ln10_lt as L2. pose proof (log_quotient t ltac:(lra) T2) as Q.
  unfold satw_exponent, sati_exponent.
  pose proof (log_ge (37315/27316) 2 15 ltac:(lra) ltac:(lia) ltac:(lra)) as A.
  pose proof (log_ge (1013246/10 / (61071/10000)) 97 23 ltac:(lra) ltac:(lia) ltac:(lra)) as C.
  assert (P1 : Rpower 10 (11344/1000 * (1 - t/(37315/100))) <= 18000).
  { apply rpower10_le_of; [lra|]. pose proof (log_ge 18000 17 4 ltac:(lra) ltac:(lia) ltac:(lra)) as X. inr. lra. }
  assert (P3 : 0 < Rpower 10 (-349149/100000 * (37315/100/t - 1))) by apply exp_pos.
  assert (EB : ln (37315/100/t) = ln (37315/27316) + ln (27316/100/t)).
  { rewrite <- ln_mult by (try apply Rdiv_lt_0_compat; lra). f_equal. field. lra. }
  assert (EC : ln (1013246/10 / (61071/10000)) = ln (1013246/10) - ln (61071/10000)) by (apply ln_div; lra).
  rewrite EC in C. rewrite EB.
  set (q := 27316/100/t) in *. assert (Eq : 37315/100/t = 37315/27316 * q) by (unfold q; field; lra).
  assert (Hq1 : q * t = 27316/100) by (unfold q; field; lra).
  assert (Hy : q - 1 <= 11624/10000 * (1 - t/(27316/100))).
  { assert (Hqb : q <= 11624/10000) by (apply (Rmult_le_reg_r t); [lra|]; lra).
    replace (1 - t/(27316/100)) with ((27316/100 - t) / (27316/100)) by field. rewrite <- Hq1.
    assert (q - 1 = q * ((q * t - t) / (q * t))) by (field; split; [lra|]; intros X; rewrite X in Hq1; lra).
    assert (0 <= (q * t - t) / (q * t)). { rewrite Hq1. apply Rmult_le_pos; [lra|]. left. apply Rinv_0_lt_compat. lra. }
    nra. }
  set (a := ln (37315/27316)) in *. set (b := ln q) in *. set (L := ln 10) in *. set (y := 1 - t/(27316/100)) in *.
  assert (Hy0 : 0 <= y). { unfold y. apply (Rmult_le_reg_r (27316/100)); [lra|]. replace ((1 - t/(27316/100)) * (27316/100)) with (27316/100 - t) by field. lra. }
  rewrite Eq in *. set (p1 := Rpower 10 (11344/1000 * _)) in *. set (p2 := Rpower 10 (-349149/100000 * _)) in *.
  set (c1 := ln (1013246/10)) in *. set (c2 := ln (61071/10000)) in *. inr.
  replace (502808/100000 * (a + b) / L) with (502808/100000 * (a / L) + 502808/100000 * (b / L)) by (unfold Rdiv; ring).
  replace (356654/100000 * b / L) with (356654/100000 * (b / L)) by (unfold Rdiv; ring).
  replace ((c1 - c2) / L) with (c1 / L - c2 / L) in C by (unfold Rdiv; ring).
  lra.
Qed.

Lemma ice_cold t : 0 < t -> t <= 235 -> forall e, sati t = Ok e -> e <= 25.
Proof.
  intros Ht Hc e He.
  assert (X : forall e', sati 235 = Ok e' -> e' <= 25).
  { intros e' H'. rewrite sati_ice_eq in H' by lra. injection H' as <-.
    assert (P : Rpower 10 (sati_exponent 235) <= 1/4); [|lra].
    assert (Q : sati_exponent 235 <= -7/10).
    { unfold sati_exponent. pose proof (log_quotient 235 ltac:(lra) ltac:(lra)) as Q.
      pose proof (log_le (61071/10000) 4 5 ltac:(lra) ltac:(lia) ltac:(lra)) as Y. inr.
      replace (356654/100000 * ln (27316/100/235) / ln 10) with (356654/100000 * (ln (27316/100/235) / ln 10)) by (unfold Rdiv; ring). lra. }
    apply Rle_trans with (Rpower 10 (-7/10)); [apply rpower10_le; exact Q|].
    replace (-7/10) with (- (7/10)) by lra. rewrite Rpower_Ropp.
    assert (Y : 4 <= Rpower 10 (7/10)).
    { pose proof (log_le 4 7 10 ltac:(lra) ltac:(lia) ltac:(lra)) as Y. inr.
      rewrite <- (Rpower10_log 4) by lra. apply rpower10_le. lra. }
    replace (1/4) with (/ 4) by lra. apply Rinv_le_contravar; lra. }
  destruct Hc as [Hc|Hc]; [|subst t; apply X; exact He].
  destruct (sati_incr t 235) as (a & b & Ha & Hb & H); [lra|lra|lra|]. pose proof (X b Hb). assert (a = e) by congruence. lra.
Qed.

Theorem C33_ice_within_tolerance t e w : sati t = Ok e -> satw t = Ok w -> e - 25 <= w.
Proof.
  intros He Hw. pose proof (sati_ok_pos _ _ He) as Ht. pose proof (satw_pos _ _ Hw) as Wp.
  destruct (Rlt_dec (27316/100) t) as [H|H].
  { rewrite sati_warm in He by assumption. assert (e = w) by congruence. lra. }
  destruct (Rle_dec t 235) as [C|C]; [pose proof (ice_cold t Ht C e He); lra|].
  pose proof (water_over_ice t ltac:(lra)) as X. rewrite satw_eq in Hw by assumption. injection Hw as <-.
  assert (Fe : e <= 61071/100).
  { destruct (Req_dec t (27316/100)) as [->|N]; [rewrite sati_at_freezing in He; injection He as <-; lra|].
    destruct (sati_incr t (27316/100)) as (a & b & Ha & Hb & Y); [lra|lra|lra|]. rewrite sati_at_freezing in Hb. injection Hb as <-.
    assert (a = e) by congruence. lra. }
  rewrite sati_ice_eq in He by lra. injection He as He.
  assert (G : Rpower 10 (2 + sati_exponent t - 157/10000) = e * Rpower 10 (- (157/10000))).
  { rewrite <- He. replace (2 + sati_exponent t - 157/10000) with (2 + (sati_exponent t + - (157/10000))) by ring. rewrite !Rpower_plus.
    replace (Rpower 10 2) with 100; [ring|]. change 2 with (INR 2). rewrite Rpower_pow by lra. lra. }
  pose proof (rpower10_le _ _ X) as Y. rewrite G in Y.
  pose proof ln10_gt_1 as L1. pose proof ln10_lt as L2.
  assert (E : 1 - 157/10000 * ln 10 <= Rpower 10 (- (157/10000))).
  { unfold Rpower. pose proof (exp_ineq1_le (- (157/10000) * ln 10)) as Z. lra. }
  assert (Ep : 0 < e) by (rewrite <- He; apply Rmult_lt_0_compat; [lra|apply exp_pos]).
  nra.
Qed.

Print Assumptions C33_formulas.
Print Assumptions C33_ice_within_tolerance.
