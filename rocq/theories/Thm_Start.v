(** * Theorem C81: what a run starts from *)
From Coq Require Import Reals String ZArith Bool Lia Lra List.
Import ListNotations.
From Verif Require Import Num Real Constants Functions Libsnobal Input SnowState Snobal PySnobal
  SchedSpec Sched Frame SchedProps Spec Averages Forcing Phys Mass MassEnd RunMass Run Progress Progress2 Thm_Schedule Thm_Api Thm_Init Thm_Progress.
Open Scope R_scope.
Implicit Types s : SnowState R.

(** ** Specification *)
(** energy per m2 needed to bring [m] kg/m2 of snow at [t] K to melting (J/m2, negative): specific heat of ice
    at [t] times mass times degrees below freezing *)
Definition cold (t m : R) : R :=
  if Rlt_dec t (27316/100) then 4186798188/1000000 * (24928/1000000 + 176/100000 * t) * m * (t - 27316/100) else 0.
(** density of the ice matrix if a fraction [vol] of the pack's volume is water *)
Definition matrix_density (rho vol : R) : R := (rho - vol * (99987/100)) / (1 - vol * (99987/100) / 917).

(** depth of the lower layer: what lies below the active layer, unless that is lighter than the threshold *)
Definition lower_depth (p : Params R) (cfg : ModelCfg R) (ic : InitSnow R) : R :=
  if Rlt_dec (p_max_z_s_0 p) (is_z_s ic) then
    if Rlt_dec ((is_z_s ic - p_max_z_s_0 p) * is_rho ic) (cfg_small_thr cfg) then 0 else is_z_s ic - p_max_z_s_0 p
  else 0.

(** the configured pack *)
Record configured_pack p cfg ic s : Prop := {
  cp_depth : z_s s = is_z_s ic; cp_density : rho s = is_rho ic; cp_mass : m_s s = is_rho ic * is_z_s ic;
  cp_lower : z_s_l s = lower_depth p cfg ic; cp_upper : z_s_0 s = is_z_s ic - lower_depth p cfg ic;
  cp_mass_0 : m_s_0 s = is_rho ic * z_s_0 s; cp_mass_l : m_s_l s = is_rho ic * z_s_l s;
  cp_count : layer_count s = (if Rlt_dec 0 (lower_depth p cfg ic) then 2%nat else 1%nat);
  cp_temp : t_s s = is_t_s ic; cp_temp_0 : t_s_0 s = is_t_s_0 ic;
  (* the lower layer has no configured temperature: it starts at 0 K *)
  cp_temp_l : t_s_l s = (if Rlt_dec 0 (lower_depth p cfg ic) then 0 else 27316/100 - 75);
  cp_cold_0 : cc_s_0 s = cold (is_t_s_0 ic) (m_s_0 s);
  cp_cold_l : cc_s_l s = (if Rlt_dec 0 (lower_depth p cfg ic) then cold 0 (m_s_l s) else 0);
  cp_saturation : h2o_sat s = is_h2o_sat ic; cp_volume : h2o_vol s = is_h2o_sat ic * p_max_h2o_vol p;
  cp_capacity : h2o_max s = p_max_h2o_vol p * is_z_s ic * (99987/100)
    * (917 - matrix_density (is_rho ic) (is_h2o_sat ic * p_max_h2o_vol p)) / 917;
  cp_water : h2o s = is_h2o_sat ic * h2o_max s
}.

(** bare ground *)
Record bare_start s : Prop := {
  bs_count : layer_count s = 0%nat; bs_mass : m_s s = 0 /\ m_s_0 s = 0 /\ m_s_l s = 0;
  bs_depth : z_s s = 0 /\ z_s_0 s = 0 /\ z_s_l s = 0; bs_density : rho s = 0;
  bs_temp : t_s s = 27316/100 - 75 /\ t_s_0 s = 27316/100 - 75 /\ t_s_l s = 27316/100 - 75;
  bs_cold : cc_s_0 s = 0 /\ cc_s_l s = 0;
  bs_water : h2o s = 0 /\ h2o_max s = 0 /\ h2o_sat s = 0 /\ h2o_vol s = 0
}.

Lemma cold_eq t m : cold_content t m = cold t m.
Proof.
  unfold cold_content, cold, heat_stor, cp_ice. consts.
  destruct (Rltb_spec t (27316/100)), (Rlt_dec t (27316/100)); try lra.
Qed.

Theorem C81_a_run_starts_from_the_configured_pack p cfg info ic mh m env c :
  valid_setup p cfg ic -> parse_time_steps cfg = Ok info -> snobal_init p info ic mh m = Ok (env, c) ->
  (0 < is_z_s ic -> cfg_small_thr cfg < is_rho ic * is_z_s ic -> configured_pack p cfg ic (c_ss c)) /\
  (is_rho ic * is_z_s ic <= cfg_small_thr cfg -> bare_start (c_ss c)) /\
  z_0 (c_ss c) = is_z_0 ic /\ c_datetime c = p_start_date p /\ c_outputs c = [].
Proof.
  intros Hv Hp H. unfold snobal_init in H.
  inv_bind H as pa Hpa. inv_bind H as s Hs. inv_bind H as s1 Hs1. injection H as <- <-. cbn [c_ss c_datetime c_outputs].
  destruct (parse_eq _ _ Hp) as (_ & ->). unfold create_snow_state in Hs.
  change (Z.to_nat SMALL_TSTEP) with 2%nat in Hs. cbn [nth_error ts_threshold] in Hs. ok_inj Hs.
  assert (E1 : rho s = is_rho ic) by (subst s; reflexivity). assert (E2 : z_s s = is_z_s ic) by (subst s; reflexivity).
  assert (E3 : small_threshold s = cfg_small_thr cfg) by (subst s; reflexivity).
  assert (E4 : max_z_s_0 s = p_max_z_s_0 p) by (subst s; reflexivity).
  assert (E5 : t_s_0 s = is_t_s_0 ic) by (subst s; reflexivity). assert (E6 : t_s_l s = 0) by (subst s; reflexivity).
  assert (E7 : t_s s = is_t_s ic) by (subst s; reflexivity). assert (E8 : h2o_sat s = is_h2o_sat ic) by (subst s; reflexivity).
  assert (E9 : max_h2o_vol s = p_max_h2o_vol p) by (subst s; reflexivity). assert (E10 : z_0 s = is_z_0 ic) by (subst s; reflexivity).
  clear Hs. pose proof (vs_thr _ _ _ Hv) as Ht. pose proof (vs_mz _ _ _ Hv) as Hmz.
  assert (HP : params_ok s).
  { destruct Hv. split; rewrite ?E3, ?E4, ?E9; assumption. }
  destruct (init_snow_frame _ _ Hs1) as ((Pz & _) & _).
  split; [|split; [|split; [congruence|split; reflexivity]]].
  - intros Hz Hm. unfold init_snow in Hs1. set (s0 := set_m_s (rho s * z_s s)%num s) in Hs1.
    assert (Hld : 0 <= lower_depth p cfg ic /\ 0 < is_z_s ic - lower_depth p cfg ic).
    { unfold lower_depth. destruct (Rlt_dec _ _); [destruct (Rlt_dec _ _)|]; lra. }
    destruct Hld as (Hl0 & Hl1).
    assert (Hc : exists z, z = is_z_s ic - lower_depth p cfg ic /\
       calc_layers s0 = set_z_s_l (lower_depth p cfg ic) (set_z_s_0 z (set_z_s (z + lower_depth p cfg ic) s0))).
    { unfold calc_layers, lower_depth. change (m_s s0) with (rho s * z_s s). change (small_threshold s0) with (small_threshold s).
      change (z_s s0) with (z_s s). change (max_z_s_0 s0) with (max_z_s_0 s). change (rho s0) with (rho s).
      rewrite E1, E2, E3, E4. rn. destruct (Rleb_spec (is_rho ic * is_z_s ic) (cfg_small_thr cfg)); [lra|].
      destruct (Rlt_dec (p_max_z_s_0 p) (is_z_s ic)) as [A|A].
      - destruct (Rltb_spec 0 (is_z_s ic - p_max_z_s_0 p)); [|lra].
        destruct (Rlt_dec ((is_z_s ic - p_max_z_s_0 p) * is_rho ic) (cfg_small_thr cfg)) as [B|B];
          destruct (Rltb_spec ((is_z_s ic - p_max_z_s_0 p) * is_rho ic) (cfg_small_thr cfg)); try lra;
          eexists; (split; [|reflexivity]); ring.
      - destruct (Rltb_spec 0 (is_z_s ic - p_max_z_s_0 p)); [lra|].
        destruct (Rltb_spec (0 * is_rho ic) (cfg_small_thr cfg)); eexists; (split; [|reflexivity]); ring. }
    destruct Hc as (z & Ez & Ec). rewrite Ec in Hs1. clear Ec.
    remember (lower_depth p cfg ic) as zl eqn:Ezl.
    set (s2 := set_z_s_l zl (set_z_s_0 z (set_z_s (z + zl) s0))) in Hs1.
    assert (Hlc : forall w, z_s_0 w = z -> z_s_l w = zl -> layer_count w = if Rlt_dec 0 zl then 2%nat else 1%nat).
    { intros w W1 W2. unfold layer_count. rn. rewrite W1, W2. destruct (Rltb_spec 0 z); [|lra].
      destruct (Rltb_spec 0 zl), (Rlt_dec 0 zl); lra || reflexivity. }
    assert (En : (layer_count s2 =? 0)%nat = false) by (rewrite (Hlc s2 eq_refl eq_refl); destruct (Rlt_dec 0 zl); reflexivity).
    rewrite En in Hs1. set (s3 := set_cc_s_0 _ (layer_mass s2)) in Hs1.
    set (s4 := if (layer_count s3 =? 2)%nat then _ else _) in Hs1. set (s5 := set_h2o_vol _ s4) in Hs1.
    inv_bind Hs1 as dry Hd. ok_inj Hs1.
    assert (F : forall A (f : SnowState R -> A), (forall a w, f (set_cc_s_l a w) = f w) -> (forall a w, f (set_t_s_l a w) = f w) -> f s4 = f s3).
    { intros A f F1 F2. unfold s4. destruct (_ =? 2)%nat; rewrite ?F1, ?F2; reflexivity. }
    assert (Hdry : dry = matrix_density (is_rho ic) (is_h2o_sat ic * p_max_h2o_vol p)).
    { unfold dry_snow_density in Hd. apply pdiv_R in Hd. destruct Hd as (_ & ->).
      assert (V : h2o_vol s5 = is_h2o_sat ic * p_max_h2o_vol p).
      { change (h2o_vol s5) with (h2o_sat s4 * max_h2o_vol s4). rewrite !F by reflexivity. change (h2o_sat s * max_h2o_vol s = is_h2o_sat ic * p_max_h2o_vol p). congruence. }
      assert (V2 : rho s5 = is_rho ic).
      { change (rho s5) with (rho s4). rewrite F by reflexivity. exact E1. }
      rewrite V, V2. unfold matrix_density. consts. reflexivity. }
    assert (Hzz : z + zl = is_z_s ic) by lra.
    assert (L3 : layer_count s3 = if Rlt_dec 0 zl then 2%nat else 1%nat) by (apply Hlc; reflexivity).
    assert (M0 : m_s_0 s3 = is_rho ic * z) by (change (rho s * z = is_rho ic * z); congruence).
    assert (Ml : m_s_l s3 = is_rho ic * zl) by (change (rho s * zl = is_rho ic * zl); congruence).
    subst s1. split; rewrite <- ?Ezl.
    + change (z_s s4 = is_z_s ic). rewrite F by reflexivity. exact Hzz.
    + change (rho s4 = is_rho ic). rewrite F by reflexivity. exact E1.
    + change (m_s s4 = is_rho ic * is_z_s ic). rewrite F by reflexivity. change (rho s * z_s s = is_rho ic * is_z_s ic). congruence.
    + change (z_s_l s4 = zl). rewrite F by reflexivity. reflexivity.
    + change (z_s_0 s4 = is_z_s ic - zl). rewrite F by reflexivity. exact Ez.
    + change (m_s_0 s4 = is_rho ic * z_s_0 s4). rewrite !F by reflexivity. exact M0.
    + change (m_s_l s4 = is_rho ic * z_s_l s4). rewrite !F by reflexivity. exact Ml.
    + apply Hlc; [change (z_s_0 s4 = z)|change (z_s_l s4 = zl)]; rewrite F by reflexivity; reflexivity.
    + change (t_s s4 = is_t_s ic). rewrite F by reflexivity. exact E7.
    + change (t_s_0 s4 = is_t_s_0 ic). rewrite F by reflexivity. exact E5.
    + change (t_s_l s4 = if Rlt_dec 0 zl then 0 else 27316/100 - 75). unfold s4. rewrite L3.
      destruct (Rlt_dec 0 zl); cbn [Nat.eqb]; [exact E6|]. change (NO_SNOW_TEMP (T:=R) = 27316/100 - 75). consts. lra.
    + change (cc_s_0 s4 = cold (is_t_s_0 ic) (m_s_0 s4)). rewrite !F by reflexivity. rewrite M0.
      change (cc_s_0 s3) with (cold_content (t_s_0 s) (m_s_0 s3)). rewrite M0, E5. apply cold_eq.
    + change (cc_s_l s4 = if Rlt_dec 0 zl then cold 0 (m_s_l s4) else 0). rewrite (F _ m_s_l) by reflexivity. unfold s4. rewrite L3.
      destruct (Rlt_dec 0 zl); cbn [Nat.eqb]; [|reflexivity]. change (cold_content (t_s_l s) (m_s_l s3) = cold 0 (m_s_l s3)). rewrite E6. apply cold_eq.
    + change (h2o_sat s4 = is_h2o_sat ic). rewrite F by reflexivity. exact E8.
    + change (h2o_sat s4 * max_h2o_vol s4 = is_h2o_sat ic * p_max_h2o_vol p). rewrite !F by reflexivity. change (h2o_sat s * max_h2o_vol s = is_h2o_sat ic * p_max_h2o_vol p). congruence.
    + match goal with |- ?x = _ => change x with (h2o_left (z_s s4) dry (max_h2o_vol s4)) end. rewrite !F by reflexivity.
      change (h2o_left (z + zl) dry (max_h2o_vol s) = p_max_h2o_vol p * is_z_s ic * (99987/100)
        * (917 - matrix_density (is_rho ic) (is_h2o_sat ic * p_max_h2o_vol p)) / 917). rewrite Hzz, E9, Hdry.
      generalize (matrix_density (is_rho ic) (is_h2o_sat ic * p_max_h2o_vol p)). intros q. unfold h2o_left. consts. reflexivity.
    + match goal with |- h2o ?w = _ => change (h2o_sat s4 * h2o_max w = is_h2o_sat ic * h2o_max w) end. rewrite F by reflexivity.
      change (h2o_sat s3) with (h2o_sat s). rewrite E8. reflexivity.
  - intros Hm. destruct (init_snow_spec s s1 HP Hs1) as [K|(K & _ & Ez)].
    { exfalso. pose proof (fr_thr _ _ K). rewrite E1, E2, E3 in *. lra. }
    rewrite E1, E2, E3 in Ez. destruct (Rleb_spec (is_rho ic * is_z_s ic) (cfg_small_thr cfg)); [|lra].
    pose proof (gn_bare _ _ _ K) as B. assert (N : NO_SNOW_TEMP (T:=R) = 27316/100 - 75) by (consts; lra).
    split.
    + apply bare_count; exact B.
    + split; [apply (br_m _ B)|]. split; [apply (br_m0 _ B)|apply (br_ml _ B)].
    + split; [exact Ez|]. split; [rewrite <- (br_z _ B); exact Ez|apply (br_zl _ B)].
    + apply (br_rho _ B).
    + rewrite <- N. split; [apply (br_t _ B)|]. split; [apply (br_t0 _ B)|apply (br_tl _ B)].
    + split; [apply (br_cc0 _ B)|apply (br_ccl _ B)].
    + split; [apply (gn_h2o _ _ _ K)|]. split; [apply (br_max _ B)|]. split; [apply (br_sat _ B)|apply (br_vol _ B)].
Qed.

(** ** The initial pack of the run of Thm_Init's [deep_pack]: 50 cm at 200 kg/m3, half saturated, 268 K: two layers
    of 25 cm, 50 kg/m2 each, and the lower one at 0 K *)
Definition dp : Params R := mkParams 0 0%Z (1/100) (1/4) true.
Definition dcfg : ModelCfg R := mkCfg 60 15 1 60 10 1.
Definition dic : InitSnow R := mkInitSnow (1/2) 200 268 268 (1/2) (1/100).
Example C81_witness mh m : exists info env c, valid_setup dp dcfg dic /\ parse_time_steps dcfg = Ok info /\ snobal_init dp info dic mh m = Ok (env, c) /\
  layer_count (c_ss c) = 2%nat /\ m_s_0 (c_ss c) = 50 /\ m_s_l (c_ss c) = 50 /\ t_s_l (c_ss c) = 0 /\ h2o_vol (c_ss c) = 1/200 /\ h2o_sat (c_ss c) = 1/2.
Proof.
  assert (Hv : valid_setup dp dcfg dic) by (split; cbn; try lra; unfold ordered_steps; cbn; lia).
  assert (Hi : exists info, parse_time_steps dcfg = Ok info) by (eexists; reflexivity). destruct Hi as (info & Hi).
  destruct (init_defined dp dcfg info dic mh m Hv Hi ltac:(cbn; lra)) as (env & c & H). exists info, env, c.
  split; [exact Hv|]. split; [exact Hi|]. split; [exact H|].
  destruct (C81_a_run_starts_from_the_configured_pack _ _ _ _ _ _ _ _ Hv Hi H) as (A & _). destruct A as [A1 A2 A3 A4 A5 A6 A7 A8 A9 A10 A11 A12 A13 A14 A15 A16 A17]; [cbn; lra|cbn; lra|].
  assert (L : lower_depth dp dcfg dic = 1/4).
  { unfold lower_depth. change (p_max_z_s_0 dp) with (1/4). change (is_z_s dic) with (1/2). change (is_rho dic) with 200. change (cfg_small_thr dcfg) with 1. destruct (Rlt_dec (1/4) (1/2)); [|lra]. destruct (Rlt_dec ((1/2 - 1/4) * 200) 1); lra. }
  rewrite L in *. destruct (Rlt_dec 0 (1/4)); [|lra]. rewrite A4 in A7. rewrite A5 in A6. cbn in A6, A7, A14, A15.
  repeat split; lra || assumption.
Qed.

Print Assumptions C81_a_run_starts_from_the_configured_pack.
