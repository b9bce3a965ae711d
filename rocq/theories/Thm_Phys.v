(** * Theorems C12-C14, C33-C37: records, layer partition, core functions.  Over the reals.
    Constants written out: 273.16 K = 0 C, 917 kg/m3 ice, 610.71 Pa, 101324.6 Pa. *)
From Coq Require Import Reals String ZArith Bool Lia Lra List.
Import ListNotations.
From Verif Require Import Num Real Constants Functions Libsnobal Input SnowState Snobal PySnobal
  SchedSpec Sched Frame SchedProps Spec Averages Forcing Phys Mass.
Open Scope R_scope.

Notation freezing := (27316/100).

(** ** C12 *)
Theorem C12_precipitation_phase r i : input_data r = Ok i -> 0 < r_m_pp r ->
  i_m_pp i = r_m_pp r /\ i_m_snow i = r_m_pp r * r_percent_snow r /\
  i_m_snow i + i_m_rain i = r_m_pp r /\
  (0 <= r_percent_snow r <= 1 -> 0 <= i_m_snow i /\ 0 <= i_m_rain i) /\
  (0 < i_m_rain i -> freezing <= i_t_rain i /\ (freezing <= r_t_pp r -> i_t_rain i = r_t_pp r)) /\
  (0 < i_m_snow i -> i_t_snow i <= freezing) /\
  (0 < i_m_snow i -> 0 < i_m_rain i \/ freezing <= r_t_pp r -> i_t_snow i = freezing /\ i_h2o_sat_snow i = 1) /\
  (0 < i_m_snow i -> i_m_rain i <= 0 -> r_t_pp r < freezing -> i_t_snow i = r_t_pp r /\ i_h2o_sat_snow i = 0) /\
  (0 < i_m_snow i -> 0 < i_rho_snow i /\ i_rho_snow i = r_rho_snow r /\ i_z_snow i * i_rho_snow i = i_m_snow i) /\
  (i_m_snow i <= 0 -> i_z_snow i = 0).
Proof.
  intros H Hp. destruct (input_data_phase _ _ H Hp) as (_ & E1 & E2 & E3 & E4 & E5 & E6 & E7 & E8 & E9 & E10 & E11 & E12).
  destruct (input_data_raw _ _ H) as (_ & _ & _ & _ & _ & _ & _ & _ & Er & _).
  do 4 (split; [assumption|]). split.
  { intros Hr. rewrite (E5 Hr). split; [apply Rmax_r|]. intros. apply Rmax_left. assumption. }
  split; [assumption|]. split.
  { intros Hs [Hr|Ht]; [auto|]. destruct (Rlt_dec 0 (i_m_rain i)); [auto|]. apply E8; lra. }
  split; [assumption|]. split.
  - intros Hs. split; [|split; [assumption|apply E11; lra]].
    rewrite Er. destruct (Rlt_dec 0 (r_rho_snow r)) as [|Hn]; [assumption|exfalso].
    assert (Hx : input_data r = Err (ValueError "rho_snow is <= 0.0 with percent_snow > 0.0")).
    { apply input_data_error. split; [reflexivity|]. rn. split; [apply Rltb_true; assumption|].
      split; [apply Rltb_true; lra|apply Rltb_false; lra]. }
    congruence.
  - intros Hs. unfold input_data in H. consts. rn. destruct (Rltb_spec 0 (r_m_pp r)); [|lra].
    destruct (Rltb_spec 0 (r_m_pp r * r_percent_snow r)); [lra|]. cbn [bind] in H.
    repeat match type of H with context [if ?b then _ else _] => destruct b end; injection H as <-; reflexivity.
Qed.

(** C13, for every number type (so also for binary64 with NaN): when construction fails it is
    with that ValueError and exactly in this case; otherwise it succeeds *)
Theorem C13_only_snow_without_density_is_rejected {T} {N : Num T} (r : RawInput T) :
  let rejected := nltb (nofZ 0) (r_m_pp r) = true /\
    nltb (nofZ 0) (nmul (r_m_pp r) (r_percent_snow r)) = true /\ nltb (nofZ 0) (r_rho_snow r) = false in
  (rejected -> input_data r = Err (ValueError "rho_snow is <= 0.0 with percent_snow > 0.0")) /\
  (~ rejected -> exists i, input_data r = Ok i).
Proof.
  cbv zeta. split; [intros H; apply input_data_error; auto|].
  intros Hn. destruct (input_data r) as [i|e] eqn:E; [eauto|]. apply input_data_error in E. exfalso. tauto.
Qed.

(** the same over the reals *)
Corollary C13_over_the_reals (r : RawInput R) :
  (exists e, input_data r = Err e) <-> (0 < r_m_pp r /\ 0 < r_percent_snow r /\ r_rho_snow r <= 0).
Proof.
  split.
  - intros (e & H). apply input_data_error in H. destruct H as (_ & H1 & H2 & H3). rn. rbool.
    repeat split; try assumption; try lra. apply Rmult_lt_reg_l with (r_m_pp r); lra.
  - intros (H1 & H2 & H3). eexists. apply input_data_error. split; [reflexivity|]. rn.
    split; [apply Rltb_true; assumption|]. split; [apply Rltb_true, Rmult_lt_0_compat; assumption|apply Rltb_false; lra].
Qed.

(** ** C14.  [max_z_s_0] is the configured depth of the surface layer, [small_threshold] the
    smallest mass threshold. *)
Theorem C14_layer_partition (s : SnowState R) : 0 < max_z_s_0 s -> 0 <= small_threshold s ->
  let s' := calc_layers s in let two := max_z_s_0 s < z_s s /\ small_threshold s <= (z_s s - max_z_s_0 s) * rho s in
  z_s s' = z_s_0 s' + z_s_l s' /\
  (m_s s <= small_threshold s -> z_s s' = 0 /\ z_s_0 s' = 0 /\ z_s_l s' = 0 /\ layer_count s' = 0%nat) /\
  (small_threshold s < m_s s -> z_s s' = z_s s) /\
  (small_threshold s < m_s s -> two -> z_s_0 s' = max_z_s_0 s /\ z_s_l s' = z_s s - max_z_s_0 s /\ layer_count s' = 2%nat) /\
  (small_threshold s < m_s s -> ~ two -> z_s_0 s' = z_s s /\ z_s_l s' = 0 /\ (0 < z_s s -> layer_count s' = 1%nat)).
Proof.
  intros Hm Ht. cbv zeta. pose proof (calc_layers_cases s) as H. cbv zeta in H. destruct H as [H1 H2].
  assert (Hc : forall s : SnowState R, layer_count s = ((if Rltb 0 (z_s_0 s) then 1 else 0) + (if Rltb 0 (z_s_l s) then 1 else 0))%nat)
    by reflexivity.
  split.
  { destruct (Rle_dec (m_s s) (small_threshold s)); [destruct (H1 ltac:(assumption)) as (-> & -> & -> & _); lra|].
    destruct (H2 ltac:(lra)) as (_ & E & _). exact E. }
  split; [assumption|]. split; [intros X; apply (H2 X)|]. split.
  - intros X T. destruct (H2 X) as (_ & _ & E & _). destruct (E T) as (E1 & E2). split; [assumption|]. split; [assumption|].
    rewrite Hc, E1, E2. rewrite (proj2 (Rltb_true 0 (max_z_s_0 s))) by assumption.
    rewrite (proj2 (Rltb_true 0 (z_s s - max_z_s_0 s))) by lra. reflexivity.
  - intros X T. destruct (H2 X) as (_ & _ & _ & E). destruct (E Ht) as (E1 & E2).
    { destruct (Rle_dec (z_s s) (max_z_s_0 s)); [left; assumption|]. right.
      destruct (Rlt_dec ((z_s s - max_z_s_0 s) * rho s) (small_threshold s)); [assumption|exfalso; apply T; lra]. }
    split; [assumption|]. split; [assumption|]. intros Hz.
    rewrite Hc, E1, E2. rewrite (proj2 (Rltb_true 0 (z_s s))) by assumption.
    rewrite (proj2 (Rltb_false 0 0)) by lra. reflexivity.
Qed.

(** ** C33 *)
Theorem C33_saturation_vapour_pressure :
  (forall t, 0 < t -> (exists e, sati t = Ok e /\ 0 < e) /\ (exists e, satw t = Ok e /\ 0 < e)) /\
  (forall t, t <= 0 -> (exists e, sati t = Err e) /\ (exists e, satw t = Err e)) /\
  (forall a b, 0 < a -> a < b -> b <= freezing -> exists ea eb, sati a = Ok ea /\ sati b = Ok eb /\ ea < eb) /\
  (forall a b, 0 < a -> a < b -> b <= 37315/100 -> exists ea eb, satw a = Ok ea /\ satw b = Ok eb /\ ea < eb) /\
  (forall t, freezing < t -> sati t = satw t) /\
  sati freezing = Ok (61071/100) /\ satw (37315/100) = Ok (1013246/10).
Proof.
  split; [intros t Ht; split; [apply sati_defined|apply satw_defined]; assumption|].
  split; [intros t Ht; split; [apply sati_nonpos|apply satw_nonpos]; assumption|].
  split; [exact sati_incr|]. split; [exact satw_incr|]. split; [exact sati_warm|].
  split; [exact sati_at_freezing|exact satw_at_boiling].
Qed.

(** ** C34.  The pressure the model uses at the configured elevation [m]. *)
Lemma init_pressure p info ic mh m env c : snobal_init (T:=R) p info ic mh m = Ok (env, c) ->
  site_pressure (p_elevation p) = Ok (ev_P_a env).
Proof.
  unfold snobal_init. intros H. inv_bind H as pa Hpa. inv_bind H as s Hs. inv_bind H as s2 Hs2.
  injection H as <- <-. exact Hpa.
Qed.

Theorem C34_air_pressure :
  (forall p info ic mh m env c, snobal_init p info ic mh m = Ok (env, c) ->
     0 < ev_P_a env /\ (p_elevation p = 0 -> ev_P_a env = 1013246/10) /\ p_elevation p < 288000/(65/10)) /\
  (forall p1 p2 i1 i2 ic1 ic2 mh1 mh2 m1 m2 e1 e2 c1 c2,
     snobal_init p1 i1 ic1 mh1 m1 = Ok (e1, c1) -> snobal_init p2 i2 ic2 mh2 m2 = Ok (e2, c2) ->
     p_elevation p1 < p_elevation p2 -> ev_P_a e2 < ev_P_a e1).
Proof.
  assert (Hlow : forall z p, site_pressure z = Ok p -> z < 288000/(65/10)).
  { intros z p H. destruct (Rlt_dec z (288000/(65/10))); [assumption|].
    destruct (site_pressure_too_high z ltac:(lra)) as (e & He). congruence. }
  split.
  - intros p info ic mh m env c H. apply init_pressure in H. pose proof (Hlow _ _ H) as Hl.
    split; [eapply site_pressure_pos; eassumption|]. split; [|assumption].
    intros E. rewrite E in H. rewrite site_pressure_sea in H. injection H as <-. reflexivity.
  - intros p1 p2 i1 i2 ic1 ic2 mh1 mh2 m1 m2 e1 e2 c1 c2 H1 H2 Hlt.
    apply init_pressure in H1. apply init_pressure in H2.
    destruct (site_pressure_decr _ _ Hlt (Hlow _ _ H2)) as (pa & pb & E1 & E2 & L). congruence.
Qed.

(** ** C35.  [q] is the heat flux into the first layer. *)
Theorem C35_conduction_goes_from_warm_to_cold k1 k2 t1 t2 d1 d2 : 0 < k1 -> 0 < k2 -> 0 < d1 -> 0 < d2 ->
  exists q, ssxfr k1 k2 t1 t2 d1 d2 = Ok q /\
    (t1 < t2 -> 0 < q) /\ (t1 = t2 -> q = 0) /\ (t2 < t1 -> q < 0) /\
    ssxfr k2 k1 t2 t1 d2 d1 = Ok (- q) /\
    Rabs q <= k1 * Rabs (t2 - t1) / (d1 / 2) /\ Rabs q <= k2 * Rabs (t2 - t1) / (d2 / 2).
Proof.
  intros H1 H2 H3 H4. destruct (ssxfr_facts k1 k2 t1 t2 d1 d2 H1 H2 H3 H4) as (q & A & B & C & D & E & F & G).
  exists q. auto 9.
Qed.

(** ** C36 *)
Theorem C36_vapour_diffusion_adds_conductivity k t p : 0 < t -> t <= freezing + 60 ->
  (forall e, 0 < e -> e < p -> exists kk, efcon k t p (Some e) = Ok kk /\ k < kk) /\
  ((forall e, sati t = Ok e -> e < p) -> exists kk, efcon k t p None = Ok kk /\ k < kk).
Proof. intros H1 H2. split; [intros; apply efcon_given; assumption|intros; apply efcon_computed; assumption]. Qed.

(** The same as a formula: latent heat x diffusion coefficient x mixing ratio, with the latent heat of
    vaporisation above freezing, that of sublimation below it, and their mean exactly at freezing. *)
Definition vaporisation_heat (t : R) : R := 2500000 - 295573/100 * (t - freezing).
Definition sublimation_heat (t : R) : R := vaporisation_heat t + (333600 + 16667/100 * (freezing - t)).

Theorem C36_formula k t p e L : 0 < p -> e <> p ->
  (freezing < t -> L = vaporisation_heat t) ->
  (t = freezing -> L = (vaporisation_heat t + sublimation_heat t) / 2) ->
  (t < freezing -> L = sublimation_heat t) ->
  efcon k t p (Some e) = Ok (k + L * (65/100 * (1013246/10 / p) * (t / freezing) ^ 14 / 10000)
                                   * (180153/10000 / (289644/10000) * e / (p - e))).
Proof.
  intros Hp He H1 H2 H3. unfold efcon, diffusion_coef, mix_ratio. consts.
  rewrite pdiv_R_ok by lra. cbn [bind]. rewrite pdiv_R_ok by lra. cbn [bind].
  f_equal. f_equal. rewrite npown_pow by (intros Hx; discriminate). f_equal. f_equal; [|field; lra].
  unfold lh_sub, lh_vap, lh_fus. consts. unfold sublimation_heat, vaporisation_heat in *.
  destruct (Rltb_spec (27316/100) t) as [Ha|Ha]; [rewrite H1 by lra; reflexivity|].
  destruct (Reqb_spec t (27316/100)) as [Hb|Hb]; [rewrite H2 by lra|rewrite H3 by lra]; lra.
Qed.

Example C36_formula_at_freezing : exists kk, efcon (3/10) freezing 80000 (Some (6107/10)) = Ok kk /\ 3/10 < kk /\
  kk = 3/10 + (vaporisation_heat freezing + 333600 / 2)
              * (65/100 * (1013246/10 / 80000) / 10000) * (180153/10000 / (289644/10000) * (6107/10) / (80000 - 6107/10)).
Proof.
  eexists. split; [apply C36_formula with (L := vaporisation_heat freezing + 333600/2); try lra|].
  - unfold sublimation_heat. lra.
  - replace (freezing / freezing) with 1 by lra. rewrite pow1. unfold vaporisation_heat. split; [lra|f_equal; f_equal; lra].
Qed.

(** ** C37 *)
Theorem C37_specific_humidity_and_virtual_temperature p : 
  (forall e, 0 < e -> e < p -> exists q, spec_hum e p = Ok q /\ 0 < q < 1) /\
  (forall e1 e2, 0 < e1 -> e1 < e2 -> e2 < p ->
     exists q1 q2, spec_hum e1 p = Ok q1 /\ spec_hum e2 p = Ok q2 /\ q1 < q2) /\
  (forall t e, 0 < t -> 0 <= e -> e <= p -> 0 < p -> exists tv, virtual_temperature t e p = Ok tv /\ t <= tv).
Proof.
  split; [intros; apply spec_hum_facts; assumption|]. split; [intros; apply spec_hum_incr; assumption|].
  intros; apply virtual_temperature_ge; assumption.
Qed.

(** ** The hypotheses are met *)
Example C12_mixed : exists i, input_data (mkRaw 0 0 275 500 1 270 10 (4/10) 100 274) = Ok i /\
  i_m_snow i = 4 /\ i_m_rain i = 6 /\ i_t_snow i = freezing /\ i_t_rain i = 274 /\ i_z_snow i = 4/100.
Proof.
  destruct (proj2 (C13_only_snow_without_density_is_rejected (T:=R) (mkRaw 0 0 275 500 1 270 10 (4/10) 100 274))) as (i & Hi).
  { intros (_ & _ & H). rn. cbn [r_rho_snow] in H. rbool. lra. }
  exists i. split; [assumption|].
  destruct (C12_precipitation_phase _ _ Hi ltac:(cbn; lra)) as (E1 & E2 & E3 & E4 & E5 & E6 & E7 & E8 & E9 & E10).
  cbn [r_m_pp r_percent_snow r_t_pp r_rho_snow] in *. destruct E9 as (E9 & E11 & E12); [lra|].
  destruct E5 as (_ & E5); [lra|]. destruct E7 as (E7 & _); [lra|lra|].
  rewrite E11 in E12. repeat split; try assumption; try lra.
Qed.
Example C13_rejects : exists e, input_data (mkRaw 0 0 275 500 1 270 10 (4/10) 0 (274:R)) = Err e.
Proof. apply C13_over_the_reals. cbn. lra. Qed.

Print Assumptions C12_precipitation_phase.
Print Assumptions C13_only_snow_without_density_is_rejected.
Print Assumptions C13_over_the_reals.
Print Assumptions C14_layer_partition.
Print Assumptions C33_saturation_vapour_pressure.
Print Assumptions C34_air_pressure.
Print Assumptions C35_conduction_goes_from_warm_to_cold.
Print Assumptions C36_vapour_diffusion_adds_conductivity.
Print Assumptions C36_formula.
Print Assumptions C37_specific_humidity_and_virtual_temperature.
