(** * The run of Witness.v continued: an hour of still, dry air over the new snow.  The pack
    persists; nothing melts; a little vapour is deposited.  Shows that the hypotheses of C16,
    C54, C55, C56 and C57 are met. *)
From Coq Require Import Reals String ZArith Bool Lia Lra List.
Import ListNotations.
From Verif Require Import Num Real Constants Functions Libsnobal Input SnowState Snobal PySnobal
  SchedSpec Sched Frame SchedProps Spec Averages Forcing Phys Turb Mass MassEnd RunMass Run
  Thm_Mass Thm_Phys Thm_Forcing Thm_Turb Thm_Pack Progress Progress2 Thm_Progress MeltEnergy Thm_Energy Witness.
Open Scope R_scope.

Lemma log_height_ge z : 2 <= z -> 1 <= log_height z (1/100).
Proof.
  intros Hz. unfold log_height. set (x := (z - 2 * (735/100) * (1/100) / 3) / (1/100)).
  assert (Hx : 3 <= x) by (unfold x; lra).
  rewrite <- (ln_exp 1). destruct (Req_dec (exp 1) x) as [->|Hne]; [lra|]. left. apply ln_increasing; [apply exp_pos|].
  pose proof exp_le_3. lra.
Qed.

Section W.
Variable mz : R.
Hypothesis Hmz : mz = 1/4 \/ mz = 1.
Lemma w_second : exists env c2 e1 e2,
  model_run wQ (wpz mz) wcfg wic wmh false env c2 /\ c_trace c2 = [e1; e2] /\ ev_P_a env = 1013246/10 /\
  layer_count (e_before e2) <> 0%nat /\ m_s (e_before e2) = 60 /\ t_s (e_before e2) = 270 /\
  cc_s_0 (e_before e2) <= 0 /\ cc_s_l (e_before e2) <= 0 /\ rho (e_before e2) = 100 /\
  t_s_0 (e_before e2) <= 27316/100 /\ (layer_count (e_before e2) = 2%nat -> t_s_l (e_before e2) <= 27316/100) /\
  i_t_g (e_input e2) = 270 /\ i_precip_now (e_input e2) = false /\ h2o (e_before e2) = 0 /\ z_s (e_before e2) = 6/10 /\
  delta_Q_0 (en (e_after e2)) < 0 /\ e_kept e2 = true /\ melt (e_after e2) = 0 /\ 60 <= m_s (e_after e2) + swi (e_after e2).
Proof.
  destruct (w_first mz Hmz) as (env & c1 & e1 & i2 & Hi2 & HP & Hmh & Hrel & Hr1 & Htr & Hl0 & Hn & Hss & Em & Et & Et0 & Etl & Eh & Ez & Hinit & Ez0).
  assert (He1 : In e1 (c_trace c1)) by (rewrite Htr; left; reflexivity).
  destruct (event_facts wQ (wpz mz) wcfg wic wmh false env c1 wQ_valid (w_setup mz Hmz) Hr1 e1 He1)
    as (_ & [Hpo1 _ _] & _ & _ & _ & (Cm & Cth & Cv)).
  pose proof (np_packed _ _ Hn) as Hk1.
  assert (Hrho : rho (e_after e1) = 100). { destruct Hk1 as [_ M]. rewrite Em, Ez in M. lra. }
  destruct Hss as (b1 & mm & ee & ww & Hss).
  assert (Hcold : cold (e_after e1)).
  { apply (np_cold _ _ Hn). destruct (np_t _ _ Hn) as (X & _). rewrite Et in X. lra. }
  assert (Hsp : sane_pack (c_ss c1)).
  { rewrite Hss. split; cbn; rewrite ?Em, ?Et, ?Et0, ?Eh, ?Cv; cbn [wpz p_max_h2o_vol]; try lra.
    - apply snowpack_packed. split; [destruct Hk1 as [[] ?]; split; [split|]; assumption|destruct Hpo1; split; assumption].
  }
  pose proof (input_data_raw _ _ Hi2) as (_ & Ilw & Ia & Ie & Iu & Ig & _). cbn [w_calm w_wind r_I_lw r_t_a r_e_a r_u r_t_g] in Ilw, Ia, Ie, Iu, Ig.
  pose proof (input_data_raw _ _ Hi2) as (Isn & _). cbn [w_calm w_wind r_S_n] in Isn.
  destruct (input_data_dry _ _ Hi2 ltac:(cbn; lra)) as (Ip & _).
  destruct w_info as (info & Hp).
  destruct (reach_standard _ _ _ _ _ _ _ _ Hr1) as (Hp' & _ & _).
  pose proof (run_time_since_out _ _ _ _ _ _ _ _ Hr1) as Ht0.
  destruct (deltas_exist wcfg _ w_calm i2 i2 (vs_steps _ _ _ (w_setup mz Hmz)) Hp' Hi2) as (ds & d & Hds & Hd & Hld).
  destruct satw_280 as (w & Hw & Hwr).
  assert (Hsat : sati (i_t_a i2) = Ok w) by (rewrite Ia, sati_warm by lra; exact Hw).
  assert (H270 : snow_temp 270) by (split; lra).
  destruct (sati_snow 270 H270) as (es & Hes & Hesr).
  set (s := c_ss c1) in *.
  assert (Fs : z_s s = 6/10 /\ t_s_0 s = 270 /\ t_s s = 270 /\ z_0 s = 1/100 /\ h2o s = 0 /\ m_s s = 60 /\ rho s = 100)
    by (rewrite Hss; repeat split; assumption).
  destruct Fs as (F1 & F2 & F3 & F4 & F5 & F6 & F7).
  assert (Hmean : Thm_Turb.meaningful (ev_P_a env) (i_t_a i2) (t_s_0 s) (mh_z_t (ev_heights env) - z_s s) (Rmin (i_e_a i2) w) es
     (mh_z_t (ev_heights env) - z_s s) (i_u i2) (mh_z_u (ev_heights env) - z_s s) (z_0 s) w).
  { rewrite HP, Hmh, Ia, Ie, Iu, F1, F2, F4. cbn [wmh mh_z_t mh_z_u].
    split; try lra; try assumption.
    - split; [apply Rmin_glb_lt; lra|]. pose proof (Rmin_l 650 w). lra.
    - pose proof (Rmin_r 650 w). lra. }
  assert (Hst : t_s_0 s < Thm_Turb.potential_temperature (i_t_a i2) (mh_z_t (ev_heights env) - z_s s)).
  { rewrite Hmh, Ia, F1, F2. unfold potential_temperature. cbn [wmh mh_z_t]. lra. }
  assert (Hsite : sane_site (ev_P_a env) (mh_z_g (ev_heights env)) i2).
  { rewrite HP, Hmh. split; cbn [wmh mh_z_g]; rewrite ?Ig; try lra. intros e He. rewrite Hes in He. injection He as <-. lra. }
  assert (Hsoil : soil_warm i2 s).
  { unfold soil_warm. rewrite Ig, F3, F2. repeat split; try lra. intros Z. rewrite Hss in *. cbn in Z |- *. rewrite (Etl Z). lra. }
  set (t0 := mkTStep 0 (cfg_norm_thr wcfg) (60 * cfg_norm wcfg) (cfg_norm wcfg) 1 1).
  destruct (C51_calm_dry_run_steps_return env ds t0 c1 i2 d w es w) as ((cx & ix) & Hstep); try assumption.
  { reflexivity. }
  { left; assumption. }
  { rewrite Ia. exact Hw. }
  { fold s. rewrite F2. exact Hes. }
  { rewrite Ie. lra. }
  { lra. }
  { lra. }
  { rewrite Hinit. discriminate. }
  { rewrite Hinit. discriminate. }
  apply do_tstep_inv in Hstep. destruct Hstep as (d' & s1 & icx & init & s2 & k & s3 & Hd' & He & Hmb & _).
  change (deltas_at ds 0 = Ok d') in Hd'. rewrite Hd in Hd'. injection Hd' as <-.
  cbv zeta in He. rewrite Ip in He. change (ts_time_step t0) with (60 * cfg_norm wcfg)%Z in *.
  assert (Hth : below_thold (cfg_norm_thr wcfg) (c_ss c1) = false).
  { unfold below_thold. fold s. rewrite Hss. cbn [cfg_norm_thr wcfg].
    destruct Hk1 as [L M]. change (layer_count (set_bar b1 (set_melt_sum mm (set_E_s_sum ee (set_swi_sum ww (e_after e1)))))) with (layer_count (e_after e1)).
    destruct (layered_count _ L) as [[Zl Lc]|[Zl Lc]]; rewrite Lc; cbn [Nat.eqb].
    - cbn. change (Rltb (m_s (e_after e1)) 20 = false). destruct (Rltb_spec (m_s (e_after e1)) 20); [lra|reflexivity].
    - pose proof (ly_two _ L Zl) as Z0. rewrite Cm in Z0. cbn [wpz p_max_z_s_0] in Z0.
      pose proof (ly_z _ L). pose proof (ly_m0 _ L) as M0. pose proof (ly_ml _ L) as ML. rewrite Hrho in *.
      change (Rltb (m_s_0 (e_after e1)) 20 || Rltb (m_s_l (e_after e1)) 20 = false)%bool.
      destruct (Rltb_spec (m_s_0 (e_after e1)) 20); [lra|]. destruct (Rltb_spec (m_s_l (e_after e1)) 20); [lra|reflexivity]. }
  assert (He' : energy_balance env (60 * cfg_norm wcfg) (c_hle1_init c1) (if i_precip_now i2 then update_precip_deltas i2 d else i2) (set_h2o_total 0 (c_ss c1)) = Ok (s1, icx, init))
    by (rewrite Ip; exact He).
  destruct (single_data_step wcfg env c1 i2 i2 ds d s1 icx init s2 k Hp' Ht0 Hds Hd Hth He' Hmb)
    as (c2 & e2 & Hd2 & Htr2 & B1 & B2 & B3 & B4 & _ & B6 & _).
  assert (Hr2 : model_run wQ (wpz mz) wcfg wic wmh false env c2).
  { destruct Hr1 as (info1 & c0 & X1 & X2 & X3). exists info1, c0. split; [assumption|]. split; [assumption|].
    eapply reach_step; [exact X3| |exact Hd2]. exists w_calm. split; [right; exists (1/100000); split; [lra|reflexivity]|assumption]. }
  rewrite Htr in Htr2. cbn [app] in Htr2.
  assert (Hin2 : In e2 (c_trace c2)) by (rewrite Htr2; right; left; reflexivity).
  rewrite Ip in B4.
  assert (Hlc : layer_count (e_before e2) <> 0%nat).
  { rewrite B1. fold s. rewrite Hss. intros X. change (layer_count (e_after e1) = 0%nat) in X.
    destruct (layered_count _ (proj1 Hk1)) as [[_ Y]|[_ Y]]; congruence. }
  (* energy *)
  destruct (C57_energy_terms wQ (wpz mz) wcfg wic wmh false env c2 wQ_valid (w_setup mz Hmz) Hr2 e2 Hin2 Hlc) as (Rn & Mm & Q0 & _ & G1 & G2).
  assert (Hfr : en (e_after e2) = en s1).
  { rewrite B2. pose proof (mass_balance_frame _ _ _ _ _ _ Hmb) as (_ & X & _). exact X. }
  rewrite B4, Ip in Mm. rewrite B4, B1, Ilw, Isn in Rn. fold s in Rn. rewrite F2 in Rn.
  assert (HL : H_ (en s1) + L_v_E (en s1) < 50 /\ 0 <= E_flux s1).
  { unfold energy_balance in He. change (has_snow _) with (has_snow s) in He.
    assert (Hns : has_snow s = true) by (destruct Hsp as [X _ _ _ _ _ _]; apply snowpack_packed in X; apply layered_has_snow, X).
    rewrite Hns in He. inv_bind He as [[[[h lve] ef] i3] init3] Hh. inv_bind He as [g g0] Hg. inv_bind He as m Hm.
    ok_inj He. injection He as <- <- <-. cbn [en set_E_flux set_en H_ L_v_E E_flux].
    unfold h_le in Hh. rewrite Hsat in Hh. cbn [bind] in Hh.
    set (jx := if nltb w (i_e_a i2) then set_e_a w i2 else i2) in Hh.
    assert (Ei : i_t_a jx = i_t_a i2 /\ i_u jx = i_u i2 /\ i_e_a jx = Rmin (i_e_a i2) w).
    { unfold jx. change (nltb w (i_e_a i2)) with (Rltb w (i_e_a i2)). destruct (Rltb_spec w (i_e_a i2)); cbn.
      - rewrite Rmin_right by lra. auto.
      - rewrite Rmin_left by lra. auto. }
    destruct Ei as (Ei1 & Ei2 & Ei3). rewrite Ei1, Ei2, Ei3, Hrel, Hinit in Hh.
    fold s in Hh.     change (t_s_0 (set_h2o_total (nofZ 0) s)) with (t_s_0 s) in Hh. change (z_s (set_h2o_total (nofZ 0) s)) with (z_s s) in Hh.
    change (z_0 (set_h2o_total (nofZ 0) s)) with (z_0 s) in Hh.
    assert (Hes2 : sati (t_s_0 s) = Ok es) by (rewrite F2; exact Hes). rewrite Hes2 in Hh. cbn [bind fst snd] in Hh.
    inv_bind Hh as r Hr. destruct (negb _); [discriminate|]. ok_inj Hh; injection Hh as <- <- <- _ _.
    change (hle1 (ev_P_a env) (i_t_a i2) (t_s_0 s) (mh_z_t (ev_heights env) - z_s s) (Rmin (i_e_a i2) w) es
      (mh_z_t (ev_heights env) - z_s s) (i_u i2) (mh_z_u (ev_heights env) - z_s s) (z_0 s) None None = Ok r) in Hr.
    destruct (C48_stable_fluxes_stay_below_neutral _ _ _ _ _ _ _ _ _ _ _ None None _ Hmean Hst
      ltac:(apply Rmin_glb; rewrite ?Ie; lra) ltac:(lra) ltac:(discriminate) ltac:(discriminate) Hr)
      as (dens & qa & qs & (vt & _ & Hgd & Hdb) & Hqa & Hqs & _ & BH & BE).
    assert (Eq : hr_le r = (lh_vap (t_s_0 s) + lh_fus (t_s_0 s)) * hr_e r).
    { apply hle1_inv in Hr. destruct Hr as (_ & _ & _ & _ & _ & ->). rewrite F2.
      change (nleb 270 FREEZE) with (Rleb 270 (27316/100)). destruct (Rleb_spec 270 (27316/100)); [reflexivity|lra]. }
    rewrite Eq, F2. unfold lh_vap, lh_fus. consts. rewrite HP, Hmh, Ia, Iu, F1, F2, F4 in *. cbn [wmh mh_z_t mh_z_u] in *.
    assert (Hd1 : dens <= 2).
    { eapply Rle_trans; [exact Hdb|]. set (q := sqrt _). assert (270 <= q).
      { unfold q. apply Rle_trans with (sqrt (270 * 270)); [rewrite sqrt_square; lra|]. apply sqrt_le_1; nra. }
      apply Rmult_le_reg_r with (831432/100 * q); [nra|]. unfold Rdiv at 1. rewrite Rmult_assoc, Rinv_l by nra. nra. }
    assert (Hd0 : 0 < dens /\ 0 <= hr_e r).
    { destruct (C32_stable_air _ _ _ _ _ _ _ _ _ _ _ None None Hmean Hst ltac:(apply Rmin_glb; rewrite ?Ie; lra) ltac:(lra) ltac:(discriminate) ltac:(discriminate))
        as (r' & Hr' & A & A' & _). assert (Hrr : Ok r = Ok r') by (exact (eq_trans (eq_sym Hr) Hr')). injection Hrr as <-.
      split; [|exact A']. clear A'. pose proof (Rlt_trans _ _ _ A BH) as X. unfold neutral_heat, neutral_ustar, potential_temperature in X.
      pose proof (log_height_ge (5 - 6/10) ltac:(lra)) as L1. set (lg := log_height (5 - 6/10) (1/100)) in *.
      destruct (Rlt_dec 0 dens) as [?|Hneg]; [assumption|exfalso].
      assert (0 < / lg) by (apply Rinv_0_lt_compat; lra).
      set (a := 41/100 * (1/100000) / lg) in *. assert (0 < a) by (unfold a, Rdiv; nra).
      set (b := 280 + 980665/100000/1005 * (5 - 6/10) - 270) in *. assert (0 < b) by (unfold b; lra).
      assert (Y : dens * (1005 * (41/100) * a * b * / lg) <= 0).
      { assert (0 <= 1005 * (41/100) * a * b * / lg) by (repeat apply Rmult_le_pos; lra). nra. }
      unfold Rdiv in X. lra. }
    pose proof (log_height_ge (5 - 6/10) ltac:(lra)) as L1.
    destruct Hd0 as (Hd0 & HE0).
    assert (Hq1 : qa - qs <= 1).
    { pose proof (Rmin_l (i_e_a i2) w). rewrite Ie in *.
      destruct (spec_hum_facts (Rmin 650 w) (1013246/10)) as (q1 & X1 & Y1); [apply Rmin_glb_lt; lra|lra|].
      destruct (spec_hum_facts es (1013246/10)) as (q2 & X2 & Y2); [lra|lra|].
      
      rewrite (Rmin_left (Rmin 650 w) w) in Hqa by apply Rmin_r.
      pose proof (eq_trans (eq_sym Hqa) X1) as Z1. injection Z1 as ->.
      pose proof (eq_trans (eq_sym Hqs) X2) as Z2. injection Z2 as ->. lra. }
    assert (Hlg : 0 < / log_height (5 - 6/10) (1/100) <= 1).
    { split; [apply Rinv_0_lt_compat; lra|]. apply Rle_trans with (/ 1); [apply Rinv_le_contravar; lra|rewrite Rinv_1; lra]. }
    unfold neutral_heat, neutral_vapour, neutral_ustar, potential_temperature, Rdiv in BH, BE.
    set (y := / log_height (5 - 6 * / 10) (1 * / 100)) in *.
    assert (Hy : 0 < y <= 1) by exact Hlg. clearbody y. clear Hlg.
    assert (Hyy : 0 < y * y <= 1) by nra.
    assert (Hdy : 0 < dens * y * y <= 2) by (rewrite Rmult_assoc; set (yy := y * y) in *; clearbody yy; nra).
    assert (BH1 : hr_h r < 1).
    { eapply Rlt_le_trans; [exact BH|].
      match goal with |- ?X <= 1 => replace X with (dens * y * y * (1005 * (41/100) * (41/100) * (1/100000) * (280 + 980665/100000/1005 * (5 - 6/10) - 270))) by (unfold Rdiv; ring) end.
      nra. }
    assert (BE1 : hr_e r < 1/100000).
    { eapply Rle_lt_trans; [exact BE|].
      match goal with |- ?X < _ => replace X with (dens * y * y * (41/100 * (41/100) * (1/100000)) * (qa - qs)) by (unfold Rdiv; ring) end.
      assert (0 < dens * y * y * (41/100 * (41/100) * (1/100000)) <= 4/1000000) by nra.
      destruct (Rle_dec (qa - qs) 0); nra. }
    split; [nra|exact HE0]. }
  destruct HL as (HL & HE0).
  assert (Hti : ts_time_step (e_tstep e2) = 3600%Z) by (rewrite B6; reflexivity).
  assert (Hsec : seconds e2 = 3600) by (unfold seconds; rewrite Hti; reflexivity).
  assert (Tl2 : layer_count (e_before e2) = 2%nat -> t_s_l (e_before e2) = 270).
  { rewrite B1. fold s. rewrite Hss. intros X. apply Etl. change (layer_count (e_after e1) = 2%nat) in X.
    destruct (layered_count _ (proj1 Hk1)) as [[Zl Y]|[Zl Y]]; [congruence|assumption]. }
  assert (T02 : t_s_0 (e_before e2) = 270) by (rewrite B1; exact F2).
  assert (Ht2 : t_s (e_before e2) = 270) by (rewrite B1; exact F3).
  assert (Hm2 : m_s (e_before e2) = 60) by (rewrite B1; exact F6).
  assert (Hrho2 : rho (e_before e2) = 100) by (rewrite B1; exact F7).
  assert (Hcold2 : cold (e_before e2)) by (rewrite B1; fold s; rewrite Hss; exact Hcold).
  destruct Hcold2 as (Hc0 & Hcl).
  assert (Hg2 : i_t_g (e_input e2) = 270) by (rewrite B4; exact Ig).
  destruct (C57_conduction_goes_from_warm_to_cold wQ (wpz mz) wcfg wic wmh false env c2 wQ_valid (w_setup mz Hmz) Hr2 e2 Hin2 Hlc) as (_ & _ & Gz & _).
  { lra. } { intros X. rewrite (Tl2 X). lra. } { lra. } { cbn [wmh mh_z_g]. lra. } { lra. } { rewrite HP. lra. }
  { rewrite Hg2, HP. intros e X. rewrite Hes in X. injection X as <-. lra. }
  assert (HG : G_ (en (e_after e2)) = 0).
  { apply Gz. rewrite Hg2. destruct (Nat.eqb_spec (layer_count (e_before e2)) 1) as [X|X]; [exact T02|].
    apply Tl2. rewrite B1 in *. fold s in X, Hlc |- *. rewrite Hss in *.
    change (layer_count (e_after e1) <> 0%nat) in Hlc. change (layer_count (e_after e1) <> 1%nat) in X.
    change (layer_count (e_after e1) = 2%nat).
    destruct (layered_count _ (proj1 Hk1)) as [[_ Y]|[_ Y]]; congruence. }
  assert (HG0 : G_0 (en (e_after e2)) = 0).
  { destruct (Nat.eq_dec (layer_count (e_before e2)) 1) as [X|X]; [rewrite <- (G1 X); exact HG|].
    assert (Y : layer_count (e_before e2) = 2%nat).
    { rewrite B1 in *. fold s in X, Hlc |- *. rewrite Hss in *.
      change (layer_count (e_after e1) <> 0%nat) in Hlc. change (layer_count (e_after e1) <> 1%nat) in X.
      change (layer_count (e_after e1) = 2%nat).
      destruct (layered_count _ (proj1 Hk1)) as [[_ Y]|[_ Y]]; congruence. }
    apply G2; [exact Y|]. rewrite (Tl2 Y). exact T02. }
  assert (HQ0 : delta_Q_0 (en (e_after e2)) < 0).
  { rewrite Q0, HG0, Mm, Rn, Hfr. lra. }
  assert (Hmelt : melt (e_after e2) = 0).
  { apply (C55_cold_snow_does_not_melt wQ (wpz mz) wcfg wic wmh false env c2 wQ_valid (w_setup mz Hmz) Hr2 e2 Hin2 Hlc); try lra.
    rewrite Hsec. nra. }
  assert (Hpr : precip e2 = 0) by (unfold precip; rewrite B4; unfold precip_of; rewrite Ip; reflexivity).
  assert (HEs : 0 <= E_s (e_after e2)).
  { destruct (Req_dec (E_s (e_after e2)) 0) as [->|Hne]; [lra|].
    destruct (C56_vapour_exchange wQ (wpz mz) wcfg wic wmh false env c2 wQ_valid (w_setup mz Hmz) Hr2 e2 Hin2 Hlc (or_intror Hne) ltac:(lra) Hc0 Hcl)
      as (t & e3 & e4 & Ht3 & X1 & X2 & ->).
    assert (t = 270).
    { destruct Ht3 as [->|[->|(Zl & ->)]]; try assumption. apply Tl2.
      rewrite B1 in *. fold s in Zl |- *. rewrite Hss in *. change (0 < z_s_l (e_after e1)) in Zl. 
      change (layer_count (e_after e1) = 2%nat).
      destruct (layered_count _ (proj1 Hk1)) as [[Z Y]|[_ Y]]; [lra|assumption]. }
    subst t. rewrite Hg2 in *. rewrite X1 in X2. injection X2 as <-. unfold Rdiv at 3.
    rewrite Rminus_eq_0, Rmult_0_l, Rmult_0_r, Rmult_0_l, Rplus_0_r, Hsec.
    assert (Ee : E_flux (e_after e2) = E_flux s1).
    { rewrite B2. pose proof (mass_balance_frame _ _ _ _ _ _ Hmb) as (_ & _ & _ & X & _). exact X. }
    rewrite Ee. lra. }
  destruct (C54_packs_stay wQ (wpz mz) wcfg wic wmh false env c2 wQ_valid (w_setup mz Hmz) Hr2 e2 Hin2 Hlc) as (Hkept & _ & Hmass).
  { cbn [wcfg cfg_small_thr]. lra. } { cbn [wcfg cfg_small_thr]. lra. } { lra. }
  exists env, c2, e1, e2. repeat (split; [solve [assumption|lra]|]). 
  split; [intros X; rewrite (Tl2 X); lra|].
  split; [assumption|]. split; [rewrite B4; exact Ip|].
  split; [rewrite B1; fold s; rewrite Hss; exact Eh|]. split; [rewrite B1; fold s; rewrite Hss; exact Ez|]. split; [assumption|]. split; [assumption|]. split; [assumption|]. lra.
Qed.
End W.
Print Assumptions w_second.
