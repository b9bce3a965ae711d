(** * Theorem C38: initial packs in the documented unit *)
From Coq Require Import Reals String ZArith Bool Lia Lra List.
Import ListNotations.
From Verif Require Import Num Real Constants Functions Libsnobal Input SnowState Snobal PySnobal
  SchedSpec Sched Frame SchedProps Spec Averages Forcing Phys Mass MassEnd RunMass Run Thm_Schedule Thm_Api.
Open Scope R_scope.
Implicit Types s : SnowState R.

(** the initial pack is a snow cover: heavier than the smallest mass threshold *)
Definition initial_pack (cfg : ModelCfg R) (ic : InitSnow R) : Prop :=
  0 < is_z_s ic /\ cfg_small_thr cfg < is_rho ic * is_z_s ic.
(** ... and its part below the active layer weighs at least that threshold *)
Definition initial_two_layers (p : Params R) (cfg : ModelCfg R) (ic : InitSnow R) : Prop :=
  p_max_z_s_0 p < is_z_s ic /\ cfg_small_thr cfg <= (is_z_s ic - p_max_z_s_0 p) * is_rho ic.

Lemma sati_nonpositive t : t <= 0 -> forall e, sati t <> Ok e.
Proof.
  intros Ht e. unfold sati. rn. destruct (Rltb_spec t 0) as [H|H]; [discriminate|].
  assert (t = 0) as -> by lra. consts. destruct (Rltb_spec (27316/100) 0) as [H0|H0]; [lra|].
  unfold pdiv. rn. destruct (Reqb_spec 0 0); [cbn; discriminate|lra].
Qed.

Lemma init_state p cfg info ic mh m env c : valid_setup p cfg ic -> initial_pack cfg ic ->
  parse_time_steps cfg = Ok info -> snobal_init p info ic mh m = Ok (env, c) ->
  has_snow (c_ss c) = true /\ t_s_0 (c_ss c) = is_t_s_0 ic /\
  (initial_two_layers p cfg ic -> layer_count (c_ss c) = 2%nat /\ t_s_l (c_ss c) = 0).
Proof.
  intros Hv (Hz & Hm) Hp H. unfold snobal_init in H.
  inv_bind H as pa Hpa. inv_bind H as s Hs. inv_bind H as s1 Hs1. injection H as <- <-. cbn [c_ss].
  destruct (parse_eq _ _ Hp) as (_ & ->). unfold create_snow_state in Hs.
  change (Z.to_nat SMALL_TSTEP) with 2%nat in Hs. cbn [nth_error ts_threshold] in Hs. ok_inj Hs.
  assert (E1 : rho s = is_rho ic) by (subst s; reflexivity). assert (E2 : z_s s = is_z_s ic) by (subst s; reflexivity).
  assert (E3 : small_threshold s = cfg_small_thr cfg) by (subst s; reflexivity).
  assert (E4 : max_z_s_0 s = p_max_z_s_0 p) by (subst s; reflexivity).
  assert (E5 : t_s_0 s = is_t_s_0 ic) by (subst s; reflexivity). assert (E6 : t_s_l s = 0) by (subst s; reflexivity).
  clear Hs. pose proof (vs_thr _ _ _ Hv) as Ht. pose proof (vs_mz _ _ _ Hv) as Hmz.
  unfold init_snow in Hs1. set (s0 := set_m_s (rho s * z_s s)%num s) in Hs1.
  assert (Hc : exists z0 zl, calc_layers s0 = set_z_s_l zl (set_z_s_0 z0 (set_z_s (z0 + zl) s0)) /\ 0 < z0 /\
             (initial_two_layers p cfg ic -> 0 < zl)).
  { unfold calc_layers. change (m_s s0) with (rho s * z_s s). change (small_threshold s0) with (small_threshold s).
    change (z_s s0) with (z_s s). change (max_z_s_0 s0) with (max_z_s_0 s). change (rho s0) with (rho s).
    rewrite E1, E2, E3, E4. rn. destruct (Rleb_spec (is_rho ic * is_z_s ic) (cfg_small_thr cfg)); [lra|].
    destruct (Rltb_spec 0 (is_z_s ic - p_max_z_s_0 p)).
    - destruct (Rltb_spec ((is_z_s ic - p_max_z_s_0 p) * is_rho ic) (cfg_small_thr cfg)); eexists _, _;
        (split; [reflexivity|]); split; try lra; unfold initial_two_layers; intros; lra.
    - destruct (Rltb_spec (0 * is_rho ic) (cfg_small_thr cfg)); eexists _, _;
        (split; [reflexivity|]); split; try lra; unfold initial_two_layers; intros; lra. }
  destruct Hc as (z0 & zl & Ec & Hz0 & Hzl). rewrite Ec in Hs1. clear Ec.
  set (s2 := set_z_s_l zl (set_z_s_0 z0 (set_z_s (z0 + zl) s0))) in Hs1.
  assert (Hlc2 : forall w, z_s_0 w = z0 -> z_s_l w = zl -> (layer_count w <> 0)%nat /\ (0 < zl -> layer_count w = 2%nat)).
  { intros w W1 W2. unfold layer_count. rn. rewrite W1, W2. destruct (Rltb_spec 0 z0); [|lra].
    destruct (Rltb_spec 0 zl); split; try discriminate; intros; [reflexivity|lra]. }
  destruct (Hlc2 s2 eq_refl eq_refl) as (Hn & Hl2).
  destruct (layer_count s2 =? 0)%nat eqn:En; [apply Nat.eqb_eq in En; contradiction|].
  assert (Hdl : forall w, z_s_0 w = z0 -> z_s_l w = zl -> (layer_count w =? 2)%nat = true \/ (layer_count w =? 2)%nat = false /\ ~ 0 < zl).
  { intros w W1 W2. destruct (Hlc2 w W1 W2) as (_ & W). destruct (layer_count w =? 2)%nat eqn:E; [auto|].
    right. split; [reflexivity|]. intros Hp0. rewrite (W Hp0) in E. discriminate. }
  set (s3 := set_cc_s_0 _ (layer_mass s2)) in Hs1.
  assert (A : forall f, z_s_0 (f s3) = z0 -> z_s_l (f s3) = zl -> t_s_0 (f s3) = t_s_0 s -> (0 < zl -> t_s_l (f s3) = t_s_l s) ->
    (let* dry := dry_snow_density (f s3) in Ok (set_h2o (h2o_sat (f s3) * h2o_max (set_h2o_max (h2o_left (z_s (f s3)) dry (max_h2o_vol (f s3))) (f s3)))%num
          (set_h2o_max (h2o_left (z_s (f s3)) dry (max_h2o_vol (f s3))) (f s3)))) = Ok s1 ->
    has_snow s1 = true /\ t_s_0 s1 = is_t_s_0 ic /\ (initial_two_layers p cfg ic -> layer_count s1 = 2%nat /\ t_s_l s1 = 0)).
  { intros f F1 F2 F3 F4 HH. inv_bind HH as dry Hd. ok_inj HH.
    assert (G1 : z_s_0 s1 = z0) by (subst s1; exact F1). assert (G2 : z_s_l s1 = zl) by (subst s1; exact F2).
    assert (G3 : t_s_0 s1 = t_s_0 s) by (subst s1; exact F3). assert (G4 : 0 < zl -> t_s_l s1 = t_s_l s) by (subst s1; exact F4).
    destruct (Hlc2 s1 G1 G2) as (W1 & W2). split; [|split].
    - unfold has_snow. apply Nat.ltb_lt. lia.
    - congruence.
    - intros Htl. specialize (Hzl Htl). split; [auto|]. rewrite G4 by assumption. assumption. }
  destruct (Hdl s3 eq_refl eq_refl) as [E|(E & Hnp)]; rewrite E in Hs1.
  - apply (A (fun w => set_h2o_vol (h2o_sat (set_cc_s_l (cold_content (t_s_l w) (m_s_l w)) w) * max_h2o_vol (set_cc_s_l (cold_content (t_s_l w) (m_s_l w)) w))%num (set_cc_s_l (cold_content (t_s_l w) (m_s_l w)) w)));
      [reflexivity|reflexivity|reflexivity|reflexivity|exact Hs1].
  - apply (A (fun w => set_h2o_vol (h2o_sat (set_cc_s_l 0 (set_t_s_l NO_SNOW_TEMP w)) * max_h2o_vol (set_cc_s_l 0 (set_t_s_l NO_SNOW_TEMP w)))%num (set_cc_s_l 0 (set_t_s_l NO_SNOW_TEMP w))));
      [reflexivity|reflexivity|reflexivity|intros; contradiction|exact Hs1].
Qed.

Lemma cold_layer_stops env ds ts c i r : has_snow (c_ss c) = true ->
  t_s_0 (c_ss c) <= 0 \/ (layer_count (c_ss c) = 2%nat /\ t_s_l (c_ss c) = 0) ->
  do_tstep env ds ts c i <> Ok r.
Proof.
  intros Hs Hc H. destruct r as (c', i'). apply do_tstep_inv in H.
  destruct H as (d & s1 & ii & init & s2 & kept & s3 & Hd & He & _).
  unfold energy_balance in He. change (has_snow (set_h2o_total _ (c_ss c))) with (has_snow (c_ss c)) in He. rewrite Hs in He.
  inv_bind He as x Hx. destruct x as ((((h, lve), e), ix), ini).
  destruct Hc as [Ht|(Hl & Ht)].
  - unfold h_le in Hx. inv_bind Hx as sv Hsv. inv_bind Hx as es Hes. cbn in Hes. eapply sati_nonpositive; [exact Ht|exact Hes].
  - inv_bind He as y Hy. unfold heat_transfer in Hy.
    change (layer_count (set_h2o_total _ (c_ss c))) with (layer_count (c_ss c)) in Hy. rewrite Hl in Hy. cbn [Nat.eqb] in Hy.
    inv_bind Hy as g Hg. unfold g_soil in Hg. inv_bind Hg as es Hes. cbn in Hes.
    eapply sati_nonpositive; [|exact Hes]. rewrite Ht. lra.
Qed.

(** A run from an initial pack whose surface temperature is given in Celsius (at or below
    zero), or that is deep enough for two layers, never completes: the first data step
    raises, whatever the records. *)
Theorem C38_initial_pack_stops_the_run p cfg ic mh all_mode end_date rows :
  valid_setup p cfg ic -> initial_pack cfg ic ->
  is_t_s_0 ic <= 0 \/ initial_two_layers p cfg ic ->
  (exists err, pysnobal_run p end_date cfg ic mh all_mode rows = Err err) /\
  (forall info env c0 i1 i2, parse_time_steps cfg = Ok info -> snobal_init p info ic mh all_mode = Ok (env, c0) ->
     exists err, do_data_tstep env c0 i1 i2 = Err err).
Proof.
  intros Hv Hpk Hbad.
  assert (Hstep : forall info env c0 i1 i2, parse_time_steps cfg = Ok info -> snobal_init p info ic mh all_mode = Ok (env, c0) ->
     exists err, do_data_tstep env c0 i1 i2 = Err err).
  { intros info env c0 i1 i2 Hinfo Hinit. destruct (do_data_tstep env c0 i1 i2) as [c'|err] eqn:E; [exfalso|eauto].
    destruct (init_state _ _ _ _ _ _ _ _ Hv Hpk Hinfo Hinit) as (Hs & Ht & H2).
    destruct (init_tso _ _ _ _ _ _ _ Hinit) as (_ & _ & _ & _ & Ei & _).
    assert (Hcfg : parse_time_steps cfg = Ok (ev_tstep_info env)) by (rewrite Ei; assumption).
    destruct (data_step_exec _ _ _ _ _ _ _ _ (configured_standard _ _ Hcfg) E) as (ds & l & c1 & i' & _ & Hex & _ & _ & Ho).
    destruct (exec_chain _ _ _ _ _ _ _ Hex) as (evs & Hev & Hl & _).
    assert (evs <> []).
    { eapply data_step_nonempty; [apply (vs_steps _ _ _ Hv)|exact Hcfg|exact E|].
      unfold steps_between in *. rewrite <- Hev. destruct (ev_output_divided env); [subst; reflexivity|].
      apply output_inv in Ho. tauto. }
    destruct Hex as [c i j Hm|ts l c i c1 i1' c2 i2' Hdo _ _]; [destruct evs; [congruence|discriminate]|].
    eapply cold_layer_stops; [exact Hs| |exact Hdo].
    destruct Hbad as [Hb|Hb]; [left; rewrite Ht; assumption|right; apply H2; assumption]. }
  split; [|assumption].
  destruct (pysnobal_run p end_date cfg ic mh all_mode rows) as [out|err] eqn:E; [exfalso|eauto].
  destruct (pysnobal_run_inv _ _ _ _ _ _ _ _ E)
    as (info & used & i1 & r0 & rest & env & c0 & c & Hi & Hu & Eu & Hnd & Hi1 & Hinit & Hrun & Hno & _).
  destruct rest as [|r1 rest].
  - cbn in Hrun. injection Hrun as <-. apply init_tso in Hinit. tauto.
  - cbn [map run_steps] in Hrun. inv_bind Hrun as i2 Hi2. inv_bind Hrun as c1 Hc1.
    destruct (Hstep _ _ _ i1 i2 Hi Hinit) as (err & Herr). congruence.
Qed.

(** 10 cm of snow at -5 C; and half a metre at 268 K *)
Example celsius_pack : valid_setup (mkParams 0 0%Z (1/100) (1/4) true) (mkCfg 60 15 1 60 10 1) (mkInitSnow (1/10) 200 (-5) (-5) 0 (1/100)) /\
  initial_pack (mkCfg 60 15 1 60 10 1) (mkInitSnow (1/10) 200 (-5) (-5) 0 (1/100)).
Proof. split; [split; cbn; try lra; unfold ordered_steps; cbn; lia|split; cbn; lra]. Qed.
Example deep_pack : valid_setup (mkParams 0 0%Z (1/100) (1/4) true) (mkCfg 60 15 1 60 10 1) (mkInitSnow (1/2) 200 268 268 0 (1/100)) /\
  initial_pack (mkCfg 60 15 1 60 10 1) (mkInitSnow (1/2) 200 268 268 0 (1/100)) /\
  initial_two_layers (mkParams 0 0%Z (1/100) (1/4) true) (mkCfg 60 15 1 60 10 1) (mkInitSnow (1/2) 200 268 268 0 (1/100)).
Proof. split; [split; cbn; try lra; unfold ordered_steps; cbn; lia|split; split; cbn; lra]. Qed.

Print Assumptions C38_initial_pack_stops_the_run.
