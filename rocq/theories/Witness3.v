(** * The run of Witness.v continued with an hour of dry air and any wind [u] over the new
    snow: the hypotheses of C58 ([u = 0]) and C59 ([u > 0]) are met. *)
From Coq Require Import Reals String ZArith Bool Lia Lra List.
Import ListNotations.
From Verif Require Import Num Real Constants Functions Libsnobal Input SnowState Snobal PySnobal
  SchedSpec Sched Frame SchedProps Spec Averages Forcing Phys Turb Mass MassEnd RunMass Run
  Thm_Mass Thm_Phys Thm_Forcing Thm_Turb Thm_Pack Progress Progress2 Thm_Progress MeltEnergy Thm_Energy Turb2 Thm_Turb2 Witness.
Open Scope R_scope.

(** in either output mode [m] *)
Lemma w_windy_mode m mz (Hmz : mz = 1/4 \/ mz = 1) u : 0 <= u -> exists env c0 info i1 i2 c1 c2 e1 e2 w es, parse_time_steps wcfg = Ok info /\
  snobal_init (wpz mz) info wic wmh m = Ok (env, c0) /\ input_data w_snowfall = Ok i1 /\ input_data (w_wind u) = Ok i2 /\
  do_data_tstep env c0 i1 i2 = Ok c1 /\ do_data_tstep env c1 i2 i2 = Ok c2 /\
  model_run wQ (wpz mz) wcfg wic wmh m env c2 /\ c_trace c2 = [e1; e2] /\
  has_snow (e_before e2) = true /\ i_u (e_input e2) = u /\
  sati (i_t_a (e_input e2)) = Ok w /\ sati (t_s_0 (e_before e2)) = Ok es /\
  stable_air (ev_P_a env) (i_t_a (e_input e2)) (t_s_0 (e_before e2)) (mh_z_t wmh - z_s (e_before e2))
    (Rmin (i_e_a (e_input e2)) w) es (i_u (e_input e2)) (mh_z_u wmh - z_s (e_before e2)) (z_0 (e_before e2)) w /\
  es < i_e_a (e_input e2) /\ es < w /\
  ev_P_a env = 1013246/10 /\ i_precip_now (e_input e2) = false /\ i_t_g (e_input e2) = 270 /\
  layer_count (e_before e2) <> 0%nat /\ z_s (e_before e2) = 6/10 /\ rho (e_before e2) = 100 /\
  t_s (e_before e2) = 270 /\ t_s_0 (e_before e2) = 270 /\ (0 < z_s_l (e_before e2) -> t_s_l (e_before e2) = 270) /\
  layer_count (e_before e1) = 0%nat /\ layer_count (e_after e1) <> 0%nat /\
  m_s (e_before e2) = 60 /\ h2o (e_before e2) = 0 /\ cc_s_0 (e_before e2) <= 0 /\ cc_s_l (e_before e2) <= 0 /\
  seconds e2 = 3600 /\ i_S_n (e_input e2) = r_S_n (w_wind u) /\ i_I_lw (e_input e2) = r_I_lw (w_wind u).
Proof.
  intros Hu.
  destruct (input_data_dec (w_wind u)) as [(i2 & Hi2)|(er & Her)].
  2:{ apply input_data_error in Her. destruct Her as (_ & H & _). change (Rltb 0 0 = true) in H. destruct (Rltb_spec 0 0); [lra|discriminate]. }
  destruct (w_first_mode mz Hmz m i2) as (env & c0 & info & i1 & c1 & e1 & Hinfo & Hin0 & Hi1 & Hdat1 & HP & Hmh & Hrel & Hr1 & Htr & Hl0 & Hn & Hss & Em & Et & Et0 & Etl & Eh & Ez & Hinit & Ez0).
  assert (He1 : In e1 (c_trace c1)) by (rewrite Htr; left; reflexivity).
  destruct (event_facts wQ (wpz mz) wcfg wic wmh m env c1 wQ_valid (w_setup mz Hmz) Hr1 e1 He1)
    as (_ & [Hpo1 _ _] & _ & _ & _ & (Cm & Cth & Cv)).
  pose proof (np_packed _ _ Hn) as Hk1.
  assert (Hrho : rho (e_after e1) = 100). { destruct Hk1 as [_ M]. rewrite Em, Ez in M. lra. }
  destruct Hss as (b1 & mm & ee & ww & Hss).
  assert (Hcold : cold (e_after e1)).
  { apply (np_cold _ _ Hn). destruct (np_t _ _ Hn) as (X & _). rewrite Et in X. lra. }
  assert (Hsp : sane_pack (c_ss c1)).
  { rewrite Hss. split; cbn; rewrite ?Em, ?Et, ?Et0, ?Eh, ?Cv; cbn [wpz p_max_h2o_vol]; try lra.
    - apply snowpack_packed. split; [destruct Hk1 as [[] ?]; split; [split|]; assumption|destruct Hpo1; split; assumption].
  }
  pose proof (input_data_raw _ _ Hi2) as (_ & Ilw & Ia & Ie & Iu & Ig & _). cbn [w_wind r_I_lw r_t_a r_e_a r_u r_t_g] in Ilw, Ia, Ie, Iu, Ig.
  pose proof (input_data_raw _ _ Hi2) as (Isn & _). cbn [w_wind r_S_n] in Isn.
  destruct (input_data_dry _ _ Hi2 ltac:(cbn; lra)) as (Ip & _).
    destruct (reach_standard _ _ _ _ _ _ _ _ Hr1) as (Hp' & _ & _).
  pose proof (run_time_since_out _ _ _ _ _ _ _ _ Hr1) as Ht0.
  destruct (deltas_exist wcfg _ (w_wind u) i2 i2 (vs_steps _ _ _ (w_setup mz Hmz)) Hp' Hi2) as (ds & d & Hds & Hd & Hld).
  destruct satw_280 as (w & Hw & Hwr).
  assert (Hsat : sati (i_t_a i2) = Ok w) by (rewrite Ia, sati_warm by lra; exact Hw).
  assert (H270 : snow_temp 270) by (split; lra).
  destruct (sati_snow 270 H270) as (es & Hes & Hesr).
  set (s := c_ss c1) in *.
  assert (Fs : z_s s = 6/10 /\ t_s_0 s = 270 /\ t_s s = 270 /\ z_0 s = 1/100 /\ h2o s = 0 /\ m_s s = 60 /\ rho s = 100)
    by (rewrite Hss; repeat split; assumption).
  destruct Fs as (F1 & F2 & F3 & F4 & F5 & F6 & F7).
  assert (Hmean : stable_air (ev_P_a env) (i_t_a i2) (t_s_0 s) (mh_z_t (ev_heights env) - z_s s) (Rmin (i_e_a i2) w) es
     (i_u i2) (mh_z_u (ev_heights env) - z_s s) (z_0 s) w).
  { rewrite HP, Hmh, Ia, Ie, Iu, F1, F2, F4. cbn [wmh mh_z_t mh_z_u].
    split; try lra; try assumption.
    - apply Rmin_glb; lra.
    - pose proof (Rmin_l 650 w). lra.
    - pose proof (Rmin_r 650 w). lra.
    - unfold potential_temperature. lra. }
  assert (Hsite : sane_site (ev_P_a env) (mh_z_g (ev_heights env)) i2).
  { rewrite HP, Hmh. split; cbn [wmh mh_z_g]; rewrite ?Ig; try lra. intros e He. rewrite Hes in He. injection He as <-. lra. }
  assert (Hsoil : soil_warm i2 s).
  { unfold soil_warm. rewrite Ig, F3, F2. repeat split; try lra. intros Z. rewrite Hss in *. cbn in Z |- *. rewrite (Etl Z). lra. }
  set (t0 := mkTStep 0 (cfg_norm_thr wcfg) (60 * cfg_norm wcfg) (cfg_norm wcfg) 1 1).
  rewrite Hmh in Hsite, Hmean.
  destruct (C51_stable_dry_run_steps_return wQ (wpz mz) wcfg wic wmh m env c1 Hr1 ds t0 i2 d w es w) as ((cx & ix) & Hstep); try assumption.
  { reflexivity. }
  { left; assumption. }
  { fold s. rewrite F2. exact Hes. }
  apply do_tstep_inv in Hstep. destruct Hstep as (d' & s1 & icx & init & s2 & k & s3 & Hd' & He & Hmb & _).
  change (deltas_at ds 0 = Ok d') in Hd'. rewrite Hd in Hd'. injection Hd' as <-.
  cbv zeta in He. rewrite Ip in He. change (ts_time_step t0) with (60 * cfg_norm wcfg)%Z in *.
  assert (Hth : below_thold (cfg_norm_thr wcfg) (c_ss c1) = false).
  { unfold below_thold. fold s. rewrite Hss. cbn [cfg_norm_thr wcfg].
    destruct Hk1 as [L M]. change (layer_count (set_bar b1 (set_melt_sum mm (set_E_s_sum ee (set_swi_sum ww (e_after e1)))))) with (layer_count (e_after e1)).
    destruct (layered_count _ L) as [[Zl Lc]|[Zl Lc]]; rewrite Lc; cbn [Nat.eqb].
    - cbn. change (Rltb (m_s (e_after e1)) 20 = false). destruct (Rltb_spec (m_s (e_after e1)) 20); [lra|reflexivity].
    - pose proof (ly_two _ L Zl) as Z0. rewrite Cm in Z0. cbn [wpz p_max_z_s_0] in Z0.
      pose proof (ly_z _ L). pose proof (ly_m0 _ L) as M0. pose proof (ly_ml _ L) as ML. rewrite Hrho in *.
      change (Rltb (m_s_0 (e_after e1)) 20 || Rltb (m_s_l (e_after e1)) 20 = false)%bool.
      destruct (Rltb_spec (m_s_0 (e_after e1)) 20); [lra|]. destruct (Rltb_spec (m_s_l (e_after e1)) 20); [lra|reflexivity]. }
  assert (He' : energy_balance env (60 * cfg_norm wcfg) (c_hle1_init c1) (if i_precip_now i2 then update_precip_deltas i2 d else i2) (set_h2o_total 0 (c_ss c1)) = Ok (s1, icx, init))
    by (rewrite Ip; exact He).
  destruct (single_data_step wcfg env c1 i2 i2 ds d s1 icx init s2 k Hp' Ht0 Hds Hd Hth He' Hmb)
    as (c2 & e2 & Hd2 & Htr2 & B1 & B2 & B3 & B4 & _ & B6 & _).
  assert (Hr2 : model_run wQ (wpz mz) wcfg wic wmh m env c2).
  { destruct Hr1 as (info1 & c00 & X1 & X2 & X3). exists info1, c00. split; [assumption|]. split; [assumption|].
    eapply reach_step; [exact X3| |exact Hd2]. exists (w_wind u). split; [right; exists u; split; [assumption|reflexivity]|assumption]. }
  rewrite Htr in Htr2. cbn [app] in Htr2.
  assert (Hin2 : In e2 (c_trace c2)) by (rewrite Htr2; right; left; reflexivity).
  rewrite Ip in B4.
  assert (Hlc : layer_count (e_before e2) <> 0%nat).
  { rewrite B1. fold s. rewrite Hss. intros X. change (layer_count (e_after e1) = 0%nat) in X.
    destruct (layered_count _ (proj1 Hk1)) as [[_ Y]|[_ Y]]; congruence. }
  assert (Hns : has_snow s = true) by (destruct Hsp as [X _ _ _ _ _ _]; apply snowpack_packed in X; apply layered_has_snow, X).
  exists env, c0, info, i1, i2, c1, c2, e1, e2, w, es. do 6 (split; [assumption|]). rewrite B1, B4. fold s. rewrite F2, Ie.
  split; [assumption|]. split; [assumption|]. split; [assumption|]. split; [assumption|]. split; [assumption|].
  split; [assumption|]. rewrite F2, Ie in Hmean. split; [exact Hmean|].
  split; [lra|]. split; [lra|]. split; [assumption|]. split; [assumption|]. split; [assumption|].
  split; [rewrite B1 in Hlc; exact Hlc|]. do 4 (split; [solve [assumption|reflexivity]|]).
  split; [intros Zl; rewrite Hss in Zl |- *; exact (Etl Zl)|]. split; [assumption|].
  split. { intros X. destruct (layered_count _ (proj1 Hk1)) as [[_ Y]|[_ Y]]; congruence. }
  split; [assumption|]. split; [assumption|].
  destruct Hcold as (Hc0 & Hcl). split; [rewrite Hss; exact Hc0|]. split; [rewrite Hss; exact Hcl|].
  split; [unfold seconds; rewrite B6; reflexivity|]. split; [exact Isn|exact Ilw].
Qed.
Lemma w_windy_mz mz (Hmz : mz = 1/4 \/ mz = 1) u : 0 <= u -> exists env c2 e1 e2 w es,
  model_run wQ (wpz mz) wcfg wic wmh false env c2 /\ c_trace c2 = [e1; e2] /\
  has_snow (e_before e2) = true /\ i_u (e_input e2) = u /\
  sati (i_t_a (e_input e2)) = Ok w /\ sati (t_s_0 (e_before e2)) = Ok es /\
  stable_air (ev_P_a env) (i_t_a (e_input e2)) (t_s_0 (e_before e2)) (mh_z_t wmh - z_s (e_before e2))
    (Rmin (i_e_a (e_input e2)) w) es (i_u (e_input e2)) (mh_z_u wmh - z_s (e_before e2)) (z_0 (e_before e2)) w /\
  es < i_e_a (e_input e2) /\ es < w /\
  ev_P_a env = 1013246/10 /\ i_precip_now (e_input e2) = false /\ i_t_g (e_input e2) = 270 /\
  layer_count (e_before e2) <> 0%nat /\ z_s (e_before e2) = 6/10 /\ rho (e_before e2) = 100 /\
  t_s (e_before e2) = 270 /\ t_s_0 (e_before e2) = 270 /\ (0 < z_s_l (e_before e2) -> t_s_l (e_before e2) = 270) /\
  layer_count (e_before e1) = 0%nat /\ layer_count (e_after e1) <> 0%nat /\
  m_s (e_before e2) = 60 /\ h2o (e_before e2) = 0 /\ cc_s_0 (e_before e2) <= 0 /\ cc_s_l (e_before e2) <= 0 /\
  seconds e2 = 3600 /\ i_S_n (e_input e2) = r_S_n (w_wind u) /\ i_I_lw (e_input e2) = r_I_lw (w_wind u).
Proof.
  intros Hu. destruct (w_windy_mode false mz Hmz u Hu) as (env & c0 & info & i1 & i2 & c1 & c2 & e1 & e2 & w & es & _ & _ & _ & _ & _ & _ & X).
  exists env, c2, e1, e2, w, es. exact X.
Qed.
Lemma w_windy u : 0 <= u -> exists env c2 e1 e2 w es,
  model_run wQ wp wcfg wic wmh false env c2 /\ c_trace c2 = [e1; e2] /\
  has_snow (e_before e2) = true /\ i_u (e_input e2) = u /\
  sati (i_t_a (e_input e2)) = Ok w /\ sati (t_s_0 (e_before e2)) = Ok es /\
  stable_air (ev_P_a env) (i_t_a (e_input e2)) (t_s_0 (e_before e2)) (mh_z_t wmh - z_s (e_before e2))
    (Rmin (i_e_a (e_input e2)) w) es (i_u (e_input e2)) (mh_z_u wmh - z_s (e_before e2)) (z_0 (e_before e2)) w /\
  es < i_e_a (e_input e2) /\ es < w /\
  ev_P_a env = 1013246/10 /\ i_precip_now (e_input e2) = false /\ i_t_g (e_input e2) = 270 /\
  layer_count (e_before e2) <> 0%nat /\ z_s (e_before e2) = 6/10 /\ rho (e_before e2) = 100 /\
  t_s (e_before e2) = 270 /\ t_s_0 (e_before e2) = 270 /\ (0 < z_s_l (e_before e2) -> t_s_l (e_before e2) = 270) /\
  layer_count (e_before e1) = 0%nat /\ layer_count (e_after e1) <> 0%nat.
Proof.
  intros Hu. destruct (w_windy_mz (1/4) w_quarter u Hu) as (env & c2 & e1 & e2 & w & es & X).
  exists env, c2, e1, e2, w, es. unfold wp. repeat (split; [apply X|]). apply X.
Qed.

(** C59 applied: a wind of 2 m/s brings heat and vapour to the snow *)
Example C59_witness : exists env c2 e1 e2, model_run wQ wp wcfg wic wmh false env c2 /\ c_trace c2 = [e1; e2] /\
  0 < H_ (en (e_after e2)) /\ 0 < E_flux (e_after e2).
Proof.
  destruct (w_windy 2) as (env & c2 & e1 & e2 & w & es & Hr & Ht & Hs & Hu & H1 & H2 & H3 & H4 & H5 & _); [lra|].
  exists env, c2, e1, e2. split; [assumption|]. split; [assumption|].
  destruct (C59_stable_air _ _ _ _ _ _ _ _ Hr e2 w es w ltac:(rewrite Ht; right; left; reflexivity) Hs H1 H2 H3 ltac:(lra))
    as (A & _ & _ & B & _). split; [assumption|]. apply B; assumption.
Qed.
(** C58 applied: none at all without wind *)
Example C58_witness : exists env c2 e1 e2, model_run wQ wp wcfg wic wmh false env c2 /\ c_trace c2 = [e1; e2] /\
  has_snow (e_before e2) = true /\ i_u (e_input e2) = 0 /\ H_ (en (e_after e2)) = 0.
Proof.
  destruct (w_windy 0) as (env & c2 & e1 & e2 & w & es & Hr & Ht & Hs & Hu & _); [lra|].
  exists env, c2, e1, e2. repeat (split; [assumption|]).
  apply (C58_still_air _ _ _ _ _ _ _ _ Hr e2); [rewrite Ht; right; left; reflexivity|assumption].
Qed.
