(** * A complete run over the reals: snow falls on bare ground, then a calm warm hour.
    Shows that the hypotheses of the theorems about runs (C06-C11, C15-C27, C51) are met. *)
From Coq Require Import Reals String ZArith Bool Lia Lra List.
Import ListNotations.
From Verif Require Import Num Real Constants Functions Libsnobal Input SnowState Snobal PySnobal
  SchedSpec Sched Frame SchedProps Spec Averages Forcing Phys Turb Mass MassEnd RunMass Run
  Thm_Mass Thm_Phys Thm_Forcing Thm_Turb Thm_Pack Progress Progress2 Thm_Progress.
Open Scope R_scope.

(** ** saturation over water at 280 K exceeds 611 Pa *)
Lemma ln10_lt : ln 10 <= 2.6.
Proof.
  assert (H : forall a b, 0 < a -> a < b -> ln b - ln a <= (b - a) / a).
  { intros. apply ln_diff_le; lra. }
  pose proof (H 1 (5/4) ltac:(lra) ltac:(lra)). pose proof (H (5/4) (25/16) ltac:(lra) ltac:(lra)).
  assert (ln (25/16) = 2 * ln (5/4)).
  { replace (25/16) with (5/4 * (5/4)) by lra. rewrite ln_mult by lra. ring. }
  assert (Hk : ln 10 <= 10 * (1/4) + (10 / 9.3 - 1) * 1 /\ 0 = 0).
  { split; [|reflexivity].
    assert (E8 : ln (390625/65536 * (25/16)) = 10 * ln (5/4)).
    { replace (390625/65536 * (25/16)) with ((5/4)*(5/4)*(5/4)*(5/4)*(5/4)*(5/4)*(5/4)*(5/4)*(5/4)*(5/4)) by lra.
      rewrite !ln_mult by lra. ring. }
    rewrite ln_1 in *.
    assert (Hl : ln 10 <= ln (390625/65536 * (25/16)) + (10 / 9.3 - 1)).
    { pose proof (ln_diff_le (390625/65536 * (25/16)) 10 ltac:(lra) ltac:(lra)). lra. }
    lra. }
  lra.
Qed.
Lemma ln10_pos : 0 < ln 10.
Proof. rewrite <- ln_1. apply ln_increasing; lra. Qed.
Lemma satw_280 : exists w, satw 280 = Ok w /\ 611 < w < 1013246/10.
Proof.
  rewrite satw_eq by lra. eexists. split; [reflexivity|].
  pose proof ln10_lt as Hu. pose proof ln10_pos as Hl.
  assert (C1 : 280/(37315/100) = 28000/37315) by field.
  assert (C2 : 37315/100/280 = 37315/28000) by field.
  assert (Hb : 1 - 280/(37315/100) <= ln (37315/100/280)).
  { pose proof (ln_le_sub1 (280/(37315/100)) ltac:(lra)) as H.
    replace (37315/100/280) with (/ (280/(37315/100))) by field. rewrite ln_Rinv by lra. lra. }
  assert (H1 : (1 - 280/(37315/100)) / 2.6 <= ln (37315/100/280) / ln 10).
  { apply Rle_trans with ((1 - 280/(37315/100)) / ln 10).
    - unfold Rdiv at 1 4. apply Rmult_le_compat_l; [lra|]. apply Rinv_le_contravar; lra.
    - unfold Rdiv at 1 4. apply Rmult_le_compat_r; [apply Rlt_le, Rinv_0_lt_compat; lra|assumption]. }
  assert (H2 : Rpower 10 (11344/1000 * (1 - 280/(37315/100))) <= 1000).
  { apply Rle_trans with (Rpower 10 3).
    - apply Rle_Rpower; [lra|]. rewrite C1. lra.
    - replace 3 with (INR 3) by (cbn; lra). rewrite Rpower_pow by lra. cbn. lra. }
  assert (H3 : 0 < Rpower 10 (-349149/100000 * (37315/100/280 - 1))) by apply exp_pos.
  assert (H4 : 5 <= ln (1013246/10) / ln 10).
  { apply Rmult_le_reg_r with (ln 10); [assumption|]. unfold Rdiv. rewrite (Rmult_assoc (ln _)), Rinv_l by lra.
    rewrite Rmult_1_r. assert (E : 5 * ln 10 = ln 100000).
    { replace 100000 with (10*10*10*10*10) by lra. rewrite !ln_mult by lra. ring. }
    rewrite E. apply ln_le_mono; lra. }
  split.
  - apply Rlt_le_trans with (Rpower 10 (14/5)).
    + apply Rnot_le_lt. intros Hn.
      assert (Hx : Rpower (Rpower 10 (14/5)) 5 <= Rpower 611 5).
      { apply Rle_Rpower_l; [lra|]. split; [apply exp_pos|assumption]. }
      rewrite Rpower_mult in Hx. replace (14/5*5) with 14 in Hx by lra.
      replace 14 with (INR 14) in Hx by (cbn; lra). replace 5 with (INR 5) in Hx by (cbn; lra). rewrite !Rpower_pow in Hx by lra. cbn in Hx. lra.
    + apply Rle_Rpower; [lra|]. unfold satw_exponent.
      replace (502808/100000 * ln (37315/100/280) / ln 10) with (502808/100000 * (ln (37315/100/280) / ln 10)) by (unfold Rdiv; ring).
      rewrite C1, C2 in *. lra.
  - destruct (satw_incr 280 (37315/100)) as (a & b & Ha & Hb' & Hab); [lra|lra|lra|].
    rewrite satw_eq in Ha by lra. injection Ha as <-. rewrite satw_at_boiling in Hb'. injection Hb' as <-. assumption.
Qed.

(** ** the run *)
(** [mz]: depth of the surface layer *)
Definition wpz (mz : R) : Params R := mkParams 0 0%Z (1/100) mz false.
Definition wp : Params R := wpz (1/4).
Lemma w_quarter : 1/4 = 1/4 \/ 1/4 = 1. Proof. left; reflexivity. Qed.
Definition wcfg : ModelCfg R := mkCfg 60 15 1 20 10 1.
Definition wic : InitSnow R := mkInitSnow 0 0 270 270 0 (1/100).
Definition wmh : Heights R := mkHeights 5 5 (1/2).
Definition w_snowfall : RawInput R := mkRaw 0 200 280 650 2 270 60 1 100 270.
Definition w_wind (u : R) : RawInput R := mkRaw 0 200 280 650 u 270 0 0 0 270.
Definition w_calm : RawInput R := w_wind (1/100000).
Definition wQ (r : RawInput R) : Prop := r = w_snowfall \/ exists u, 0 <= u /\ r = w_wind u.

Lemma wQ_valid r : wQ r -> valid_record r.
Proof. intros [->|(u & Hu & ->)]; split; cbn; intros; lra. Qed.
Section W.
Variable mz : R.
Hypothesis Hmz : mz = 1/4 \/ mz = 1.
Lemma w_setup : valid_setup (wpz mz) wcfg wic.
Proof.
  split; cbn [wcfg cfg_small_thr wpz p_max_z_s_0 p_max_h2o_vol wic is_rho is_h2o_sat]; try lra.
  unfold ordered_steps, wcfg. cbn. lia.
Qed.
Lemma w_info : exists info, parse_time_steps wcfg = Ok info. Proof. eexists. reflexivity. Qed.
Lemma w_inputs : exists i1 i2, input_data w_snowfall = Ok i1 /\ input_data w_calm = Ok i2.
Proof.
  destruct (input_data_dec w_snowfall) as [(i1 & H1)|(e & He)].
  2:{ apply input_data_error in He. destruct He as (_ & _ & _ & H).
      change (Rltb 0 100 = false) in H. destruct (Rltb_spec 0 100); [discriminate|lra]. }
  destruct (input_data_dec w_calm) as [(i2 & H2)|(e & He)]; [eauto|].
  apply input_data_error in He. destruct He as (_ & H & _).
  change (Rltb 0 0 = true) in H. destruct (Rltb_spec 0 0); [lra|discriminate].
Qed.

Lemma init_z_0 (p : Params R) info ic mh m env c0 : snobal_init p info ic mh m = Ok (env, c0) -> z_0 (c_ss c0) = is_z_0 ic.
Proof.
  intros H. unfold snobal_init in H. inv_bind H as pa Hpa. inv_bind H as s Hs. inv_bind H as s1 Hs1. injection H as <- <-. cbn [c_ss].
  destruct (init_snow_frame _ _ Hs1) as ((-> & _) & _).
  unfold create_snow_state in Hs. destruct (nth_error info (Z.to_nat SMALL_TSTEP)); [|discriminate]. injection Hs as <-. reflexivity.
Qed.

(** after the first data step: 60 kg/m2 of dry snow at 270 K; in either output mode [m], whatever the next record [i2] *)
Lemma w_first_mode m i2 : exists env c0 info i1 c1 e1, parse_time_steps wcfg = Ok info /\
  snobal_init (wpz mz) info wic wmh m = Ok (env, c0) /\ input_data w_snowfall = Ok i1 /\ do_data_tstep env c0 i1 i2 = Ok c1 /\
  ev_P_a env = 1013246/10 /\ ev_heights env = wmh /\
  ev_relative_hts env = false /\
  model_run wQ (wpz mz) wcfg wic wmh m env c1 /\ c_trace c1 = [e1] /\ layer_count (e_before e1) = 0%nat /\
  new_pack (e_input e1) (e_after e1) /\ same_snow (e_after e1) (c_ss c1) /\
  m_s (e_after e1) = 60 /\ t_s (e_after e1) = 270 /\ t_s_0 (e_after e1) = 270 /\
  (0 < z_s_l (e_after e1) -> t_s_l (e_after e1) = 270) /\ h2o (e_after e1) = 0 /\ z_s (e_after e1) = 6/10 /\
  c_hle1_init c1 = (None, None) /\ z_0 (e_after e1) = 1/100.
Proof.
  destruct w_info as (info & Hp). destruct w_inputs as (i1 & _ & Hi1 & _).
  destruct (init_defined (wpz mz) wcfg info wic wmh m w_setup Hp ltac:(cbn; lra)) as (env & c0 & Hi).
  destruct (init_bare _ _ _ _ _ _ _ _ w_setup Hp eq_refl Hi) as (Hl & Hh).
  destruct (init_tso _ _ _ _ _ _ _ Hi) as (_ & _ & _ & Tr0 & Ei & Eo & Eh & Er & E0).
  assert (Hr0 : model_run wQ (wpz mz) wcfg wic wmh m env c0) by (exists info, c0; split; [assumption|]; split; [assumption|constructor]).
  pose proof (run_time_since_out _ _ _ _ _ _ _ _ Hr0) as Ht0.
  destruct (init_sound _ _ _ _ _ _ _ _ w_setup Hp Hi) as (Hs0 & _).
  assert (Hp' : parse_time_steps wcfg = Ok (ev_tstep_info env)) by congruence.
  destruct (bare_data_step_ok wcfg env c0 w_snowfall i1 i2 (vs_steps _ _ _ w_setup) Hp' Ht0 Hs0 Hl (wQ_valid _ (or_introl eq_refl)) Hi1)
    as (c1 & e1 & Hd & Htr & Hb & Hper & Hin & d & Hld & Hei).
  assert (Hr1 : model_run wQ (wpz mz) wcfg wic wmh m env c1).
  { exists info, c0. split; [assumption|]. split; [assumption|]. eapply reach_step; [constructor| |exact Hd].
    exists w_snowfall. split; [left; reflexivity|assumption]. }
  rewrite Tr0 in Htr. cbn [app] in Htr.
  exists env, c0, info, i1, c1, e1. do 4 (split; [assumption|]). split.
  { apply init_pressure in Hi. cbn [wpz p_elevation] in Hi. rewrite site_pressure_sea in Hi. injection Hi as <-. reflexivity. }
  split; [assumption|]. split; [assumption|]. split; [assumption|]. split; [assumption|].
  split; [rewrite Hb; assumption|].
  assert (He : In e1 (c_trace c1)) by (rewrite Htr; left; reflexivity).
  destruct (event_facts wQ (wpz mz) wcfg wic wmh m env c1 wQ_valid w_setup Hr1 e1 He)
    as (_ & _ & O & _ & (_ & Hthr & _) & _).
  destruct (input_data_phase _ _ Hi1 ltac:(cbn; lra)) as (En1 & _ & Em1 & _ & _ & _ & _ & _ & _ & Et1 & _).
  cbn [w_snowfall r_m_pp r_percent_snow r_t_pp] in Em1, Et1.
  pose proof (input_data_raw _ _ Hi1) as (_ & _ & _ & _ & _ & _ & _ & _ & _ & _ & Emr & Ez1 & _).
  cbn [w_snowfall r_m_pp r_percent_snow r_rho_snow] in Emr, Ez1.
  assert (Ez2 : i_z_snow i1 = 6/10).
  { rewrite Ez1. destruct (Rltb_spec 0 60); [|lra]. destruct (Rltb_spec 0 (60 * 1)); [|lra]. cbn [andb]. lra. }
  destruct Et1 as (Et1 & Eh1); [lra|lra|lra|].
  rewrite En1 in Hei.
  pose proof (fun x => precip_share w_snowfall i1 i2 1 d x Hi1 En1 ltac:(lia) Hld) as Hsh.
  assert (Em : i_m_snow (e_input e1) = 60).
  { rewrite Hei. change (i_m_snow (update_precip_deltas i1 d)) with (i_m_snow d).
    rewrite (Hsh i_m_snow) by (cbn; tauto). rewrite Em1. lra. }
  assert (Ez : i_z_snow (e_input e1) = 6/10).
  { rewrite Hei. change (i_z_snow (update_precip_deltas i1 d)) with (i_z_snow d).
    rewrite (Hsh i_z_snow) by (cbn; tauto). rewrite Ez2. lra. }
  assert (En : i_precip_now (e_input e1) = true) by (rewrite Hei; exact En1).
  assert (Et : i_t_snow (e_input e1) = 270) by (rewrite Hei; exact Et1).
  assert (Eh2 : i_h2o_sat_snow (e_input e1) = 0) by (rewrite Hei; exact Eh1).
  destruct O as [(Hk & _)|(Hbb & Hf & He0 & Hm & HE & _ & Hc)].
  { exfalso. rewrite <- Hb in Hl. destruct (layered_count _ (proj1 Hk)) as [[_ E]|[_ E]]; congruence. }
  destruct Hc as [(_ & _ & _ & _ & Hs)|[(_ & _ & _ & _ & _ & Hs)|(Hn & _)]].
  { specialize (Hs En). lra. }
  { rewrite Hthr in Hs. cbn [wcfg cfg_small_thr] in Hs. lra. }
  split; [assumption|]. split.
  { destruct (parse_standard _ _ Hp') as (t0 & t1 & t2 & Hstd).
    destruct (data_step_clock _ _ _ _ _ _ _ _ Hstd Hd) as (evs & Hev & _ & Hch & _).
    unfold steps_between in Hev. rewrite Htr, Tr0 in Hev. cbn [app] in Hev. subst evs.
    destruct (chain_last _ _ _ _ _ Hch ltac:(discriminate)) as (e' & [<-|[]] & H). exact H. }
  destruct (np_t _ _ Hn) as (T1 & T2 & T3). rewrite Et in *.
  assert (Hz0 : z_0 (e_after e1) = 1/100).
  { pose proof (outcome_params e1) as Hpe. destruct Hpe as (-> & _).
    { destruct (event_facts wQ (wpz mz) wcfg wic wmh m env c1 wQ_valid w_setup Hr1 e1 He) as (_ & _ & O & _). exact O. }
    rewrite Hb. exact (init_z_0 _ _ _ _ _ _ _ Hi). }
  rewrite (np_m _ _ Hn), (np_h2o_eq _ _ Hn), Eh2, (np_z _ _ Hn). repeat split; try assumption; try lra.
  congruence.
Qed.
(** the same in normal mode *)
Lemma w_first : exists env c1 e1 i2, input_data w_calm = Ok i2 /\ ev_P_a env = 1013246/10 /\ ev_heights env = wmh /\
  ev_relative_hts env = false /\
  model_run wQ (wpz mz) wcfg wic wmh false env c1 /\ c_trace c1 = [e1] /\ layer_count (e_before e1) = 0%nat /\
  new_pack (e_input e1) (e_after e1) /\ same_snow (e_after e1) (c_ss c1) /\
  m_s (e_after e1) = 60 /\ t_s (e_after e1) = 270 /\ t_s_0 (e_after e1) = 270 /\
  (0 < z_s_l (e_after e1) -> t_s_l (e_after e1) = 270) /\ h2o (e_after e1) = 0 /\ z_s (e_after e1) = 6/10 /\
  c_hle1_init c1 = (None, None) /\ z_0 (e_after e1) = 1/100.
Proof.
  destruct w_inputs as (_ & i2 & _ & Hi2).
  destruct (w_first_mode false i2) as (env & c0 & info & i1 & c1 & e1 & _ & _ & _ & _ & X).
  exists env, c1, e1, i2. split; [assumption|exact X].
Qed.
End W.
