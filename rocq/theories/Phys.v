(** * Closed-form physics over the reals (C12-C14, C33-C37). *)
From Coq Require Import Reals String ZArith Bool Lia Lra List.
Import ListNotations.
From Verif Require Import Num Real Constants Functions Libsnobal Input SnowState Snobal.
Open Scope R_scope.

(** ** Elementary facts *)
Lemma exp_1_gt_0 : 0 < exp 1. Proof. apply exp_pos. Qed.
Lemma ln10_gt_1 : 1 < ln 10.
Proof.
  rewrite <- (ln_exp 1). apply ln_increasing; [apply exp_pos|].
  pose proof exp_le_3. lra.
Qed.
Lemma LOG_10_R : (LOG_10 : R) = ln 10. Proof. reflexivity. Qed.
Lemma Rpower_pos x y : 0 < Rpower x y. Proof. apply exp_pos. Qed.
Lemma Rpower10_incr x y : x < y -> Rpower 10 x < Rpower 10 y.
Proof. intros H. apply Rpower_lt; lra. Qed.
Lemma Rpower10_log x : 0 < x -> Rpower 10 (ln x / ln 10) = x.
Proof.
  intros Hx. unfold Rpower. pose proof ln10_gt_1.
  replace (ln x / ln 10 * ln 10) with (ln x) by (field; lra). apply exp_ln; assumption.
Qed.
Lemma ln_le_mono x y : 0 < x -> x <= y -> ln x <= ln y.
Proof. intros Hx [H| ->]; [left; apply ln_increasing; assumption|right; reflexivity]. Qed.
Lemma ln_le_sub1 x : 0 < x -> ln x <= x - 1.
Proof.
  intros Hx. destruct (Req_dec x 1) as [->|Hn]; [rewrite ln_1; lra|].
  rewrite <- (ln_exp (x - 1)). apply ln_le_mono; [assumption|].
  pose proof (exp_ineq1_le (x - 1)). lra.
Qed.
Lemma ln_div x y : 0 < x -> 0 < y -> ln (x / y) = ln x - ln y.
Proof. intros Hx Hy. unfold Rdiv. rewrite ln_mult by (try apply Rinv_0_lt_compat; assumption). rewrite ln_Rinv by assumption. ring. Qed.
(** ln b2 - ln b1 <= (b2 - b1)/b1 *)
Lemma ln_diff_le a b : 0 < a -> a <= b -> ln b - ln a <= (b - a) / a.
Proof.
  intros Ha Hab. rewrite <- ln_div by lra.
  eapply Rle_trans; [apply ln_le_sub1|]. { apply Rdiv_lt_0_compat; lra. }
  right. field. lra.
Qed.
Lemma ln_diff_pos a b : 0 < a -> a < b -> 0 < ln b - ln a.
Proof. intros Ha Hab. pose proof (ln_increasing a b Ha Hab). lra. Qed.

(** ** Saturation vapour pressure (C33) *)
Definition satw_exponent (t : R) : R :=
  -790298/100000 * (37315/100/t - 1) + 502808/100000 * ln (37315/100/t) / ln 10
  - 13816/100000000000 * (Rpower 10 (11344/1000 * (1 - t/(37315/100))) - 1)
  + 81328/10000000 * (Rpower 10 (-349149/100000 * (37315/100/t - 1)) - 1)
  + ln (1013246/10) / ln 10.

Lemma satw_eq t : 0 < t -> satw t = Ok (Rpower 10 (satw_exponent t)).
Proof.
  intros Ht. unfold satw. consts. destruct (Rltb_spec t 0); [lra|].
  rewrite pdiv_R_ok by lra. cbn [bind].
  rewrite plog_R_ok by (apply Rdiv_lt_0_compat; lra). cbn [bind]. reflexivity.
Qed.

Definition sati_exponent (t : R) : R :=
  -909718/100000 * (27316/100/t - 1) - 356654/100000 * ln (27316/100/t) / ln 10
  + 876793/1000000 * (1 - t/(27316/100)) + ln (61071/10000) / ln 10.

Lemma sati_ice_eq t : 0 < t -> t <= 27316/100 -> sati t = Ok (100 * Rpower 10 (sati_exponent t)).
Proof.
  intros Ht Hf. unfold sati. consts. destruct (Rltb_spec t 0); [lra|].
  destruct (Rltb_spec (27316/100) t); [lra|].
  rewrite pdiv_R_ok by lra. cbn [bind].
  rewrite plog_R_ok by (apply Rdiv_lt_0_compat; lra). cbn [bind]. reflexivity.
Qed.

Lemma sati_warm t : 27316/100 < t -> sati t = satw t.
Proof.
  intros Hf. unfold sati. consts. destruct (Rltb_spec t 0); [lra|].
  destruct (Rltb_spec (27316/100) t); [reflexivity|lra].
Qed.

Lemma sati_defined t : 0 < t -> exists e, sati t = Ok e /\ 0 < e.
Proof.
  intros Ht. destruct (Rle_dec t (27316/100)).
  - exists (100 * Rpower 10 (sati_exponent t)). split; [apply sati_ice_eq; assumption|].
    pose proof (Rpower_pos 10 (sati_exponent t)). lra.
  - rewrite sati_warm, satw_eq by lra. eexists. split; [reflexivity|apply Rpower_pos].
Qed.
Lemma satw_defined t : 0 < t -> exists e, satw t = Ok e /\ 0 < e.
Proof. intros Ht. rewrite satw_eq by assumption. eexists. split; [reflexivity|apply Rpower_pos]. Qed.

Lemma satw_nonpos t : t <= 0 -> exists e, satw t = Err e.
Proof.
  intros Ht. unfold satw. rn. destruct (Rltb_spec t 0); [eauto|].
  unfold pdiv. rn. destruct (Reqb_spec t 0); [cbn; eauto|lra].
Qed.
Lemma sati_nonpos t : t <= 0 -> exists e, sati t = Err e.
Proof.
  intros Ht. unfold sati. consts. destruct (Rltb_spec t 0); [eauto|].
  destruct (Rltb_spec (27316/100) t); [lra|].
  unfold pdiv. rn. destruct (Reqb_spec t 0); [cbn; eauto|lra].
Qed.
Lemma sati_ok_pos t e : sati t = Ok e -> 0 < t.
Proof. intros H. destruct (Rle_dec t 0) as [Hn|Hn]; [|lra]. apply sati_nonpos in Hn. destruct Hn; congruence. Qed.
Lemma sati_pos t e : sati t = Ok e -> 0 < e.
Proof. intros H. pose proof (sati_ok_pos _ _ H) as Ht. destruct (sati_defined _ Ht) as (e' & He & Hp). congruence. Qed.
Lemma satw_ok_pos t e : satw t = Ok e -> 0 < t.
Proof. intros H. destruct (Rle_dec t 0) as [Hn|Hn]; [|lra]. apply satw_nonpos in Hn. destruct Hn; congruence. Qed.
Lemma satw_pos t e : satw t = Ok e -> 0 < e.
Proof. intros H. pose proof (satw_ok_pos _ _ H) as Ht. destruct (satw_defined _ Ht) as (e' & He & Hp). congruence. Qed.

Lemma div_decr K a b : 0 < K -> 0 < a -> a < b -> K / b < K / a.
Proof.
  intros HK Ha Hab. apply Rmult_lt_compat_l; [assumption|]. apply Rinv_lt_contravar; [nra|assumption].
Qed.

Lemma sati_incr a b : 0 < a -> a < b -> b <= 27316/100 ->
  exists ea eb, sati a = Ok ea /\ sati b = Ok eb /\ ea < eb.
Proof.
  intros Ha Hab Hb. rewrite !sati_ice_eq by lra. do 2 eexists. split; [reflexivity|]. split; [reflexivity|].
  apply Rmult_lt_compat_l; [lra|]. apply Rpower10_incr. unfold sati_exponent.
  set (F := 27316/100) in *. assert (HF : 0 < F) by (unfold F; lra).
  assert (Hx : F / b < F / a) by (apply div_decr; lra).
  assert (Hl : ln (F / b) < ln (F / a)).
  { apply ln_increasing; [apply Rdiv_lt_0_compat; lra|assumption]. }
  pose proof ln10_gt_1 as H10.
  assert (Hl2 : 356654/100000 * ln (F/b) / ln 10 < 356654/100000 * ln (F/a) / ln 10).
  { unfold Rdiv at 1 3. apply Rmult_lt_compat_r; [apply Rinv_0_lt_compat; lra|]. lra. }
  (* (b - a)/F <= F/a - F/b because a b <= F^2 *)
  assert (Hq : b / F - a / F <= F / a - F / b).
  { replace (b / F - a / F) with ((b - a) * / F) by (field; lra).
    replace (F / a - F / b) with ((b - a) * (F / (a * b))) by (field; lra).
    apply Rmult_le_compat_l; [lra|].
    apply Rmult_le_reg_r with (F * (a * b)); [apply Rmult_lt_0_compat; [lra|apply Rmult_lt_0_compat; lra]|].
    replace (/ F * (F * (a * b))) with (a * b) by (field; lra).
    replace (F / (a * b) * (F * (a * b))) with (F * F) by (field; lra).
    assert (a * b <= F * b) by (apply Rmult_le_compat_r; lra).
    assert (F * b <= F * F) by (apply Rmult_le_compat_l; lra). lra. }
  lra.
Qed.

Lemma satw_incr a b : 0 < a -> a < b -> b <= 37315/100 ->
  exists ea eb, satw a = Ok ea /\ satw b = Ok eb /\ ea < eb.
Proof.
  intros Ha Hab Hb. rewrite !satw_eq by lra. do 2 eexists. split; [reflexivity|]. split; [reflexivity|].
  apply Rpower10_incr. unfold satw_exponent.
  set (B := 37315/100) in *. assert (HB : 0 < B) by (unfold B; lra).
  assert (Hx : B / b < B / a) by (apply div_decr; lra).
  assert (Hx1 : 1 <= B / b).
  { apply Rmult_le_reg_r with b; [lra|]. unfold Rdiv. rewrite Rmult_assoc, Rinv_l by lra. lra. }
  pose proof ln10_gt_1 as H10.
  assert (Hl : ln (B / a) / ln 10 - ln (B / b) / ln 10 <= B / a - B / b).
  { replace (ln (B / a) / ln 10 - ln (B / b) / ln 10) with ((ln (B/a) - ln (B/b)) * / ln 10) by (field; lra).
    assert (Hd : ln (B / a) - ln (B / b) <= B / a - B / b).
    { eapply Rle_trans; [apply ln_diff_le; lra|].
      unfold Rdiv at 1. rewrite <- (Rmult_1_r (B / a - B / b)) at 2.
      apply Rmult_le_compat_l; [lra|]. rewrite <- Rinv_1. apply Rinv_le_contravar; lra. }
    assert (0 < ln (B / a) - ln (B / b)) by (apply ln_diff_pos; lra).
    assert (/ ln 10 <= 1) by (rewrite <- Rinv_1; apply Rinv_le_contravar; lra).
    assert (0 < / ln 10) by (apply Rinv_0_lt_compat; lra).
    nra. }
  assert (Hp1 : Rpower 10 (11344/1000 * (1 - b / B)) < Rpower 10 (11344/1000 * (1 - a / B))).
  { apply Rpower10_incr. assert (a / B < b / B); [|lra].
    unfold Rdiv. apply Rmult_lt_compat_r; [apply Rinv_0_lt_compat; lra|assumption]. }
  assert (Hp2 : Rpower 10 (-349149/100000 * (B / a - 1)) < Rpower 10 (-349149/100000 * (B / b - 1))).
  { apply Rpower10_incr. lra. }
  replace (502808/100000 * ln (B / a) / ln 10) with (502808/100000 * (ln (B / a) / ln 10)) by (unfold Rdiv; ring).
  replace (502808/100000 * ln (B / b) / ln 10) with (502808/100000 * (ln (B / b) / ln 10)) by (unfold Rdiv; ring).
  lra.
Qed.

Lemma sati_at_freezing : sati (27316/100) = Ok (61071/100).
Proof.
  rewrite sati_ice_eq by lra. f_equal. unfold sati_exponent.
  replace (27316/100/(27316/100)) with 1 by field. rewrite ln_1.
  replace (-909718 / 100000 * (1 - 1) - 356654 / 100000 * 0 / ln 10 +
           876793 / 1000000 * (1 - 1) + ln (61071 / 10000) / ln 10)
    with (ln (61071 / 10000) / ln 10) by (unfold Rdiv; ring).
  rewrite Rpower10_log by lra. field.
Qed.

Lemma satw_at_boiling : satw (37315/100) = Ok (1013246/10).
Proof.
  rewrite satw_eq by lra. f_equal. unfold satw_exponent.
  replace (37315/100/(37315/100)) with 1 by field. rewrite ln_1.
  replace (11344 / 1000 * (1 - 1)) with 0 by ring.
  replace (-349149 / 100000 * (1 - 1)) with 0 by ring. rewrite Rpower_O by lra.
  replace (-790298 / 100000 * (1 - 1) + 502808 / 100000 * 0 / ln 10 -
   13816 / 100000000000 * (1 - 1) + 81328 / 10000000 * (1 - 1) + ln (1013246 / 10) / ln 10)
   with (ln (1013246/10) / ln 10) by (unfold Rdiv; ring).
  apply Rpower10_log. lra.
Qed.

(** ** Air pressure (C34) *)
Definition site_pressure (elev_m : R) : result R :=
  hysat SEA_LEVEL STD_AIRTMP STD_LAPSE (elev_m / 1000) GRAVITY MOL_AIR.

Lemma site_pressure_eq z : z < 288000 / (65/10) ->
  site_pressure z = Ok (1013246/10 *
    Rpower (288 / (288 - 65/10 * (z/1000))) (- (980665/100000 * (289644/10000)) / (831432/100 * (65/10) * (1/1000)))).
Proof.
  intros Hz. unfold site_pressure, hysat. consts.
  destruct (Reqb_spec (-65/10) 0); [lra|].
  assert (Hd : 0 < 288 - 65/10 * (z/1000)).
  { apply Rmult_lt_compat_r with (r := 65/10) in Hz; [|lra].
    replace (288000 / (65/10) * (65/10)) with 288000 in Hz by field. lra. }
  replace (288 + -65/10 * (z/1000)) with (288 - 65/10 * (z/1000)) by field.
  rewrite pdiv_R_ok by lra. cbn [bind].
  rewrite pdiv_R_ok by lra. cbn [bind].
  destruct (Rltb_spec 0 (288 / (288 - 65/10 * (z/1000)))) as [_|Hn].
  - f_equal. f_equal. f_equal. field.
  - exfalso. apply Hn. apply Rdiv_lt_0_compat; lra.
Qed.

Lemma site_pressure_sea : site_pressure 0 = Ok (1013246/10).
Proof.
  rewrite site_pressure_eq by lra. f_equal.
  replace (288 / (288 - 65/10 * (0/1000))) with 1 by field.
  unfold Rpower. rewrite ln_1, Rmult_0_r, exp_0. ring.
Qed.

Lemma site_pressure_pos z p : site_pressure z = Ok p -> z < 288000 / (65/10) -> 0 < p.
Proof.
  intros H Hz. rewrite site_pressure_eq in H by assumption. injection H as <-.
  apply Rmult_lt_0_compat; [lra|apply Rpower_pos].
Qed.

Lemma site_pressure_decr a b : a < b -> b < 288000 / (65/10) ->
  exists pa pb, site_pressure a = Ok pa /\ site_pressure b = Ok pb /\ pb < pa.
Proof.
  intros Hab Hb. rewrite !site_pressure_eq by lra. do 2 eexists. split; [reflexivity|]. split; [reflexivity|].
  apply Rmult_lt_compat_l; [lra|].
  assert (Hd : 0 < 288 - 65/10 * (b/1000)).
  { apply Rmult_lt_compat_r with (r := 65/10) in Hb; [|lra].
    replace (288000 / (65/10) * (65/10)) with 288000 in Hb by field. lra. }
  unfold Rpower. apply exp_increasing.
  assert (Hl : ln (288 / (288 - 65/10 * (a/1000))) < ln (288 / (288 - 65/10 * (b/1000)))).
  { apply ln_increasing; [apply Rdiv_lt_0_compat; lra|]. apply div_decr; lra. }
  set (k := - (980665 / 100000 * (289644 / 10000)) / (831432 / 100 * (65 / 10) * (1 / 1000))).
  assert (k < 0) by (unfold k; lra). nra.
Qed.

Lemma site_pressure_too_high z : 288000 / (65/10) <= z -> exists e, site_pressure z = Err e.
Proof.
  intros Hz. unfold site_pressure, hysat. consts.
  destruct (Reqb_spec (-65/10) 0); [lra|].
  assert (Hd : 288 + -65/10 * (z/1000) <= 0).
  { apply Rmult_le_compat_r with (r := 65/10) in Hz; [|lra].
    replace (288000 / (65/10) * (65/10)) with 288000 in Hz by field. lra. }
  unfold pdiv at 1. rn. destruct (Reqb_spec (288 + -65/10 * (z/1000)) 0) as [E|E]; [cbn; eauto|].
  cbn [bind]. rewrite pdiv_R_ok by lra. cbn [bind].
  destruct (Rltb_spec 0 (288 / (288 + -65/10 * (z/1000)))) as [Hp|_]; [|eauto].
  exfalso. assert (/ (288 + -65/10 * (z/1000)) < 0) by (apply Rinv_lt_0_compat; lra).
  unfold Rdiv in Hp. nra.
Qed.

(** ** Conduction between layers (C35) *)
Lemma ssxfr_eq k1 k2 t1 t2 d1 d2 : 0 < k1 -> 0 < k2 -> 0 < d1 -> 0 < d2 ->
  ssxfr k1 k2 t1 t2 d1 d2 = Ok (2 * (k1 * k2 * (t2 - t1)) / (k2 * d1 + k1 * d2)).
Proof. intros. unfold ssxfr. rn. apply pdiv_R_ok. nra. Qed.

Lemma ssxfr_facts k1 k2 t1 t2 d1 d2 : 0 < k1 -> 0 < k2 -> 0 < d1 -> 0 < d2 ->
  exists q, ssxfr k1 k2 t1 t2 d1 d2 = Ok q /\
    ssxfr k2 k1 t2 t1 d2 d1 = Ok (- q) /\
    (t1 < t2 -> 0 < q) /\ (t1 = t2 -> q = 0) /\ (t2 < t1 -> q < 0) /\
    Rabs q <= k1 * Rabs (t2 - t1) / (d1 / 2) /\ Rabs q <= k2 * Rabs (t2 - t1) / (d2 / 2).
Proof.
  intros Hk1 Hk2 Hd1 Hd2. rewrite !ssxfr_eq by assumption.
  assert (HA : 0 < k2 * d1) by nra. assert (HB : 0 < k1 * d2) by nra.
  set (D := k2 * d1 + k1 * d2). assert (HD : 0 < D) by (unfold D; lra).
  set (C := 2 * (k1 * k2) / D).
  assert (HC : 0 < C). { unfold C. apply Rdiv_lt_0_compat; nra. }
  exists (2 * (k1 * k2 * (t2 - t1)) / D).
  assert (E : 2 * (k1 * k2 * (t2 - t1)) / D = C * (t2 - t1)) by (unfold C; field; lra).
  split; [reflexivity|]. split.
  { f_equal. unfold D. field. nra. }
  rewrite E. split; [nra|]. split; [intros ->; ring|]. split; [nra|].
  rewrite Rabs_mult, (Rabs_pos_eq C) by lra. pose proof (Rabs_pos (t2 - t1)) as Ha.
  split.
  - replace (k1 * Rabs (t2 - t1) / (d1 / 2)) with ((2 * k1 / d1) * Rabs (t2 - t1)) by (field; lra).
    apply Rmult_le_compat_r; [assumption|].
    unfold C. apply Rmult_le_reg_r with (D * d1); [nra|].
    replace (2 * (k1 * k2) / D * (D * d1)) with (2 * k1 * (k2 * d1)) by (field; lra).
    replace (2 * k1 / d1 * (D * d1)) with (2 * k1 * D) by (field; lra).
    apply Rmult_le_compat_l; [lra|unfold D; lra].
  - replace (k2 * Rabs (t2 - t1) / (d2 / 2)) with ((2 * k2 / d2) * Rabs (t2 - t1)) by (field; lra).
    apply Rmult_le_compat_r; [assumption|].
    unfold C. apply Rmult_le_reg_r with (D * d2); [nra|].
    replace (2 * (k1 * k2) / D * (D * d2)) with (2 * k2 * (k1 * d2)) by (field; lra).
    replace (2 * k2 / d2 * (D * d2)) with (2 * k2 * D) by (field; lra).
    apply Rmult_le_compat_l; [lra|unfold D; lra].
Qed.

(** ** Effective conductivity (C36) *)
Lemma npown_pos x n : 0 < x -> 0 < npown x n.
Proof.
  intros Hx. destruct n as [|n]; [cbn; rn; lra|]. induction n as [|n IH]; [exact Hx|].
  change (npown x (S (S n))) with (x * npown x (S n)). nra.
Qed.

Lemma npown_pow (x : R) n : n <> O -> npown x n = x ^ n.
Proof.
  intros Hn. destruct n as [|n]; [congruence|]. clear Hn. induction n as [|n IH]; [cbn; rn; ring|].
  change (npown x (S (S n))) with (x * npown x (S n)). rewrite IH. reflexivity.
Qed.

Lemma efcon_given k t p e : 0 < t -> t <= 27316/100 + 60 -> 0 < e -> e < p ->
  exists kk, efcon k t p (Some e) = Ok kk /\ k < kk.
Proof.
  intros Ht Hh He Hp. unfold efcon, diffusion_coef, mix_ratio. consts.
  rewrite pdiv_R_ok by lra. cbn [bind]. rewrite pdiv_R_ok by lra. cbn [bind].
  eexists. split; [reflexivity|].
  set (lh := if Rltb (27316/100) t then _ else _).
  assert (Hlh : 0 < lh).
  { subst lh. unfold lh_sub, lh_vap, lh_fus. consts.
    destruct (Rltb_spec (27316/100) t); [lra|]. destruct (Reqb_spec t (27316/100)); lra. }
  assert (Hn : 0 < npown (t / (27316/100)) 14). { apply npown_pos. apply Rdiv_lt_0_compat; lra. }
  change (@npown R RNum) with (fun x n => @npown R RNum x n). 
  set (N14 := npown _ 14) in *.
  assert (Hr : 0 < 1013246/10/p) by (apply Rdiv_lt_0_compat; lra).
  assert (Hq : 0 < 180153/10000/(289644/10000)*e/(p-e)). { apply Rdiv_lt_0_compat; lra. }
  assert (Hde : 0 < 65/100*(1013246/10/p)*N14*(1/100*(1/100))).
  { repeat apply Rmult_lt_0_compat; lra. }
  assert (0 < lh * (65/100*(1013246/10/p)*N14*(1/100*(1/100))) * (180153/10000/(289644/10000)*e/(p-e))).
  { apply Rmult_lt_0_compat; [apply Rmult_lt_0_compat; assumption|assumption]. }
  lra.
Qed.

Lemma efcon_computed k t p : 0 < t -> t <= 27316/100 + 60 ->
  (forall e, sati t = Ok e -> e < p) ->
  exists kk, efcon k t p None = Ok kk /\ k < kk.
Proof.
  intros Ht Hh Hp. destruct (sati_defined t Ht) as (e & He & Hpos).
  destruct (efcon_given k t p e Ht Hh Hpos (Hp e He)) as (kk & Hk & Hlt).
  exists kk. split; [|assumption]. rewrite <- Hk. unfold efcon. rewrite He. reflexivity.
Qed.

(** ** Specific humidity and virtual temperature (C37) *)
Lemma spec_hum_eq e p : 0 < e -> e < p ->
  spec_hum e p = Ok (e * (180153/10000) / (289644/10000 * (p - e) + e * (180153/10000))).
Proof.
  intros He Hp. unfold spec_hum. consts. rewrite pdiv_R_ok by lra. f_equal. f_equal. ring.
Qed.
Lemma spec_hum_facts e p : 0 < e -> e < p -> exists q, spec_hum e p = Ok q /\ 0 < q < 1.
Proof.
  intros He Hp. rewrite spec_hum_eq by assumption. eexists. split; [reflexivity|]. split.
  - apply Rdiv_lt_0_compat; lra.
  - apply Rmult_lt_reg_r with (289644/10000 * (p - e) + e * (180153/10000)); [lra|].
    unfold Rdiv at 1. rewrite Rmult_assoc, Rinv_l by lra. lra.
Qed.
Lemma spec_hum_incr e1 e2 p : 0 < e1 -> e1 < e2 -> e2 < p ->
  exists q1 q2, spec_hum e1 p = Ok q1 /\ spec_hum e2 p = Ok q2 /\ q1 < q2.
Proof.
  intros H1 H12 H2. rewrite !spec_hum_eq by lra. do 2 eexists. split; [reflexivity|]. split; [reflexivity|].
  set (A := 289644/10000) in *. set (W := 180153/10000) in *.
  assert (0 < A) by (unfold A; lra). assert (0 < W) by (unfold W; lra).
  assert (D1 : 0 < A * (p - e1) + e1 * W) by nra.
  assert (D2 : 0 < A * (p - e2) + e2 * W) by nra.
  apply Rmult_lt_reg_r with ((A * (p - e1) + e1 * W) * (A * (p - e2) + e2 * W)); [nra|].
  replace (e1 * W / (A * (p - e1) + e1 * W) * ((A * (p - e1) + e1 * W) * (A * (p - e2) + e2 * W)))
    with (e1 * W * (A * (p - e2) + e2 * W)) by (field; lra).
  replace (e2 * W / (A * (p - e2) + e2 * W) * ((A * (p - e1) + e1 * W) * (A * (p - e2) + e2 * W)))
    with (e2 * W * (A * (p - e1) + e1 * W)) by (field; lra).
  assert (0 < W * A * p * (e2 - e1)) by (repeat apply Rmult_lt_0_compat; lra).
  nra.
Qed.
Lemma virtual_temperature_ge t e p : 0 < t -> 0 <= e -> e <= p -> 0 < p ->
  exists tv, virtual_temperature t e p = Ok tv /\ t <= tv.
Proof.
  intros Ht He Hep Hp. unfold virtual_temperature. consts.
  rewrite pdiv_R_ok by lra. cbn [bind].
  assert (Hr0 : 0 <= e / p). { apply Rmult_le_pos; [assumption|]. left. apply Rinv_0_lt_compat; assumption. }
  assert (Hr1 : e / p <= 1).
  { apply Rmult_le_reg_r with p; [assumption|]. unfold Rdiv. rewrite Rmult_assoc, Rinv_l by lra. lra. }
  set (r := e / p) in *.
  set (D := 1 - (1 - 180153/10000/(289644/10000)) * r).
  assert (HD : 0 < D <= 1) by (unfold D; lra).
  rewrite pdiv_R_ok by lra. eexists. split; [reflexivity|].
  apply Rmult_le_reg_r with D; [lra|]. unfold Rdiv. rewrite Rmult_assoc, Rinv_l by lra. nra.
Qed.

(** ** Precipitation phase (C12, C13) *)
Lemma input_data_error {T} {N : Num T} (r : RawInput T) e :
  input_data r = Err e <->
  e = ValueError "rho_snow is <= 0.0 with percent_snow > 0.0" /\
  nltb (nofZ 0) (r_m_pp r) = true /\
  nltb (nofZ 0) (nmul (r_m_pp r) (r_percent_snow r)) = true /\
  nltb (nofZ 0) (r_rho_snow r) = false.
Proof.
  unfold input_data.
  destruct (nltb (nofZ 0) (r_m_pp r)); [|split; [discriminate|intuition discriminate]].
  destruct (nltb (nofZ 0) (nmul (r_m_pp r) (r_percent_snow r))).
  - destruct (nltb (nofZ 0) (r_rho_snow r)); cbn [bind].
    + split; [|intuition discriminate]. cbn [andb].
      destruct (nltb _ (nsub _ _)); cbn [andb]; [discriminate|].
      destruct (nltb _ _); discriminate.
    + split; [intros H; injection H as <-; auto|intros (-> & _); reflexivity].
  - cbn [bind andb]. destruct (nltb _ (nsub _ _)); split; try discriminate; intuition discriminate.
Qed.

Lemma input_data_phase r i : input_data r = Ok i -> 0 < r_m_pp r ->
  i_precip_now i = true /\
  i_m_pp i = r_m_pp r /\ i_m_snow i = r_m_pp r * r_percent_snow r /\
  i_m_snow i + i_m_rain i = r_m_pp r /\
  (0 <= r_percent_snow r <= 1 -> 0 <= i_m_snow i /\ 0 <= i_m_rain i) /\
  (0 < i_m_rain i -> i_t_rain i = Rmax (r_t_pp r) (27316/100)) /\
  (0 < i_m_snow i -> i_t_snow i <= 27316/100) /\
  (0 < i_m_snow i -> 0 < i_m_rain i -> i_t_snow i = 27316/100 /\ i_h2o_sat_snow i = 1) /\
  (0 < i_m_snow i -> i_m_rain i <= 0 -> 27316/100 <= r_t_pp r -> i_t_snow i = 27316/100 /\ i_h2o_sat_snow i = 1) /\
  (0 < i_m_snow i -> i_m_rain i <= 0 -> r_t_pp r < 27316/100 -> i_t_snow i = r_t_pp r /\ i_h2o_sat_snow i = 0) /\
  (i_m_snow i <= 0 -> i_h2o_sat_snow i = 0) /\
  (0 <= i_m_snow i -> i_z_snow i * i_rho_snow i = i_m_snow i) /\
  0 <= i_z_snow i.
Proof.
  intros H Hp. unfold input_data in H. consts.
  destruct (Rltb_spec 0 (r_m_pp r)) as [_|Hn]; [|lra].
  set (ms := r_m_pp r * r_percent_snow r) in *. set (mr := r_m_pp r - ms) in *.
  assert (Hmax : (if (if Rltb 0 mr then Rltb (r_t_pp r) (27316/100) else false) then 27316/100 else r_t_pp r) =
     (if Rltb 0 mr then Rmax (r_t_pp r) (27316/100) else r_t_pp r)).
  { destruct (Rltb 0 mr); [|reflexivity]. unfold Rmax.
    destruct (Rltb_spec (r_t_pp r) (27316/100)); destruct (Rle_dec (r_t_pp r) (27316/100)); lra. }
  change (Rltb 0 mr && Rltb (r_t_pp r) (27316/100)) with (if Rltb 0 mr then Rltb (r_t_pp r) (27316/100) else false) in H.
  rewrite Hmax in H. clear Hmax.
  assert (Hmono : 0 <= r_percent_snow r <= 1 -> 0 <= ms /\ 0 <= mr).
  { intros [Ha Hb]. unfold mr, ms. split; nra. }
  destruct (Rltb_spec 0 ms) as [Hs|Hs]; cbn [bind andb] in H.
  - destruct (Rltb_spec 0 (r_rho_snow r)) as [Hr|Hr]; cbn [bind] in H; [|discriminate].
    assert (Hz : 0 <= ms / r_rho_snow r) by (left; apply Rdiv_lt_0_compat; lra).
    assert (Hz2 : ms / r_rho_snow r * r_rho_snow r = ms) by (field; lra).
    destruct (Rltb_spec 0 mr) as [Hm|Hm]; cbn [andb] in H.
    + injection H as <-. cbn. repeat split; try tauto; try lra; unfold mr; lra.
    + destruct (Rltb_spec (r_t_pp r) (27316/100)) as [Hc|Hc]; injection H as <-; cbn;
        repeat split; try tauto; try lra; unfold mr in *; lra.
  - destruct (Rltb_spec 0 mr) as [Hm|Hm]; injection H as <-; cbn; repeat split; try tauto; try lra; unfold mr in *; lra.
Qed.

Lemma input_data_dry r i : input_data r = Ok i -> r_m_pp r <= 0 ->
  i_precip_now i = false /\ i_z_snow i = 0.
Proof.
  intros H Hp. unfold input_data in H. rn. destruct (Rltb_spec 0 (r_m_pp r)); [lra|].
  injection H as <-. cbn. auto.
Qed.

(** ** Layer partition (C14) *)
Lemma calc_layers_cases (s : SnowState R) :
  let s' := calc_layers s in
  (m_s s <= small_threshold s -> z_s s' = 0 /\ z_s_0 s' = 0 /\ z_s_l s' = 0 /\ layer_count s' = 0%nat) /\
  (small_threshold s < m_s s ->
     z_s s' = z_s s /\ z_s s' = z_s_0 s' + z_s_l s' /\
     let two := max_z_s_0 s < z_s s /\ small_threshold s <= (z_s s - max_z_s_0 s) * rho s in
     (two -> z_s_0 s' = max_z_s_0 s /\ z_s_l s' = z_s s - max_z_s_0 s) /\
     (0 <= small_threshold s -> (z_s s <= max_z_s_0 s \/ (z_s s - max_z_s_0 s) * rho s < small_threshold s) ->
        z_s_0 s' = z_s s /\ z_s_l s' = 0)).
Proof.
  unfold calc_layers. rn. cbv zeta.
  destruct (Rleb_spec (m_s s) (small_threshold s)) as [H|H].
  - split; [|lra]. intros _. cbn. unfold layer_count. cbn. rn.
    rewrite Rplus_0_r. repeat split. destruct (Rltb_spec 0 0); [lra|reflexivity].
  - split; [lra|]. intros _.
    set (zl := z_s s - max_z_s_0 s).
    destruct (Rltb_spec 0 zl) as [Hl|Hl].
    + destruct (Rltb_spec (zl * rho s) (small_threshold s)) as [Hm|Hm]; cbn.
      * unfold zl in *. repeat split; try lra.
      * unfold zl in *. repeat split; try lra.
    + rewrite Rmult_0_l. destruct (Rltb_spec 0 (small_threshold s)) as [Hm|Hm]; cbn; unfold zl in *; repeat split; try lra.
Qed.
