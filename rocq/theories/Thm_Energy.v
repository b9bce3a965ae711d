(** * Theorems C55-C57: the energy of every run step.

    About runs over the real numbers, as in Thm_Mass.v: [c_trace c] lists every run step
    executed so far, with the forcing it used and the snow state before and after it; the
    energy terms of the step are in [en] of the state after it.  Units: J, kg, m, K, s.
    333600 J/kg is the latent heat of fusion, 273.16 K is freezing.

    Hypotheses met: Witness.v and Witness2.v carry out a run (snow falls on bare ground, then an
    hour of still air over the new snow) that satisfies them. *)
From Coq Require Import Reals String ZArith Bool Lia Lra List.
Import ListNotations.
From Verif Require Import Num Real Constants Functions Libsnobal Input SnowState Snobal PySnobal
  SchedSpec Sched Frame SchedProps Spec Averages Forcing Phys Mass MassEnd RunMass Run Progress Progress2
  MeltEnergy Thm_Mass Thm_Forcing.
Open Scope R_scope.
Implicit Types s : SnowState R.

(** length of a run step [s] *)
Definition seconds (e : Event R) : R := IZR (ts_time_step (e_tstep e)).

Lemma g_snow_sign P s : 61071/100 < P -> rho s <> 0 -> snow_temp (t_s_0 s) -> snow_temp (t_s_l s) ->
  0 < z_s_0 s -> 0 < z_s_l s -> exists g, g_snow P s = Ok g /\
    (t_s_0 s < t_s_l s -> 0 < g) /\ (t_s_l s < t_s_0 s -> g < 0).
Proof.
  intros HP Hr T0 Tl Z0 Zl. unfold g_snow. change (neqb _ _) with (Reqb (t_s_0 s) (t_s_l s)).
  destruct (Reqb_spec (t_s_0 s) (t_s_l s)) as [E|E].
  { exists 0. split; [reflexivity|]. lra. }
  destruct (sati_snow _ T0) as (e0 & -> & He0). cbn [bind].
  destruct (efcon_given (kts s) (t_s_0 s) P e0) as (k1 & -> & Hk1); [apply T0|destruct T0; lra|lra|lra|]. cbn [bind].
  destruct (sati_snow _ Tl) as (el & -> & Hel). cbn [bind].
  destruct (efcon_given (kts s) (t_s_l s) P el) as (k2 & -> & Hk2); [apply Tl|destruct Tl; lra|lra|lra|]. cbn [bind].
  pose proof (kts_pos s Hr).
  destruct (ssxfr_facts k1 k2 (t_s_0 s) (t_s_l s) (z_s_0 s) (z_s_l s)) as (q & Hq & _ & Q1 & Q2 & Q3 & _); [lra|lra|lra|lra|].
  exists q. split; [exact Hq|]. auto.
Qed.

Section Runs.
Variable Q : RawInput R -> Prop.
Variables (p : Params R) (cfg : ModelCfg R) (ic : InitSnow R) (mh : Heights R) (all_mode : bool)
  (env : Env R) (c : Core R).
Hypothesis HQ : forall r, Q r -> valid_record r.
Hypothesis Hv : valid_setup p cfg ic.
Hypothesis Hrun : model_run Q p cfg ic mh all_mode env c.

(** what a run step over snow does, from the code's two halves *)
Lemma snow_step e : In e (c_trace c) -> layer_count (e_before e) <> 0%nat ->
  0 < t_s (e_before e) -> cc_s_0 (e_before e) <= 0 -> cc_s_l (e_before e) <= 0 ->
  exists s1 i1, packed (e_before e) /\ params_ok (e_before e) /\ (0 < ts_time_step (e_tstep e))%Z /\
    (i1 = e_input e \/ exists v, i1 = set_e_a v (e_input e)) /\
    s1 = set_E_flux (E_flux (e_after e)) (set_en (en (e_after e)) (set_h2o_total 0 (e_before e))) /\
    exists m0 ml r0, energy_used (ts_time_step (e_tstep e)) s1 (e_after e) (e_kept e) m0 ml r0 /\
    (e_kept e = true \/ E_s (e_after e) <> 0 -> exists s3 El, soil_evap (ev_P_a env) (mh_z_g (ev_heights env)) (ts_time_step (e_tstep e)) i1 s3 = Ok El /\
       layered s3 /\ same_temps s1 s3 /\ E_s (e_after e) = E_flux s1 * seconds e + El).
Proof using HQ Hv Hrun.
  intros He Hl Ht Hc0 Hcl.
  pose proof (run_executes _ _ _ _ _ _ _ _ Hrun) as Hx. rewrite Forall_forall in Hx.
  destruct (Hx e He) as (init & s1 & i1 & init1 & Heb & Hmb).
  destruct (event_facts Q p cfg ic mh all_mode env c HQ Hv Hrun e He) as ([Hp Hh Hpk] & _ & _ & (r & Hq & i0 & _ & _ & _ & Hts & _) & _).
  destruct Hpk as [Hk|Hb]; [|exfalso; apply Hl; apply bare_count; assumption].
  rewrite (layered_has_snow _ (proj1 Hk)) in Hmb.
  pose proof (energy_balance_frame _ _ _ _ _ _ _ _ Heb) as (Es1 & Hic).
  assert (Hk0 : packed (set_h2o_total (nofZ 0) (e_before e))) by (destruct Hk as [[] ?]; split; [split|]; assumption).
  destruct (energy_temps _ _ _ _ _ _ _ _ Heb (proj1 Hk0)) as (T0 & Tl).
  pose proof (mass_balance_frame _ _ _ _ _ _ Hmb) as (_ & Hfe & _ & Hfx & _). cbn [fst] in Hfe, Hfx.
  assert (E1 : s1 = set_E_flux (E_flux (e_after e)) (set_en (en (e_after e)) (set_h2o_total 0 (e_before e)))).
  { rewrite Hfe, Hfx. exact Es1. }
  exists s1, i1. split; [assumption|]. split; [assumption|]. split; [assumption|]. split; [exact Hic|]. split; [exact E1|].
  assert (Hvi : input_valid i1).
  { pose proof (event_input Q p cfg ic mh all_mode env c HQ Hv Hrun e He) as V.
    destruct Hic as [->|[v ->]]; [assumption|]. intros Hn. destruct (V Hn). split; assumption. }
  assert (Hp1 : params_ok s1) by (rewrite E1; destruct Hp; split; assumption).
  assert (Hk1 : packed s1) by (rewrite E1; destruct Hk as [[] ?]; split; [split|]; assumption).
  assert (HT1 : Tpos s1) by (rewrite E1; exact (conj Ht (conj T0 Tl))).
  assert (HC1 : cold s1) by (rewrite E1; exact (conj Hc0 Hcl)).
  exact (mass_balance_energy _ _ _ _ s1 _ _ Hts Hvi Hp1 Hk1 ltac:(rewrite E1; exact Hh) ltac:(rewrite E1; reflexivity) HT1 HC1 Hmb).
Qed.

(** ** C55 *)
(** Melt is paid for: what melts in the surface layer is at most what the energy of the step
    leaves after its cold content is used up, and (if the pack was above the smallest
    threshold) no less; what melts in the lower layer is at most the heat that enters it.  If
    the pack stays, the surface layer's cold content changes by exactly the energy of the step,
    less melt, plus refreezing; a layer that melts has no cold content left. *)
Theorem C55_melt_is_paid_for e : In e (c_trace c) -> layer_count (e_before e) <> 0%nat ->
  0 < t_s (e_before e) -> cc_s_0 (e_before e) <= 0 -> cc_s_l (e_before e) <= 0 ->
  let q0 := delta_Q_0 (en (e_after e)) * seconds e in
  let ql := (G_ (en (e_after e)) - G_0 (en (e_after e))) * seconds e in
  exists melt0 meltl refrozen0, 0 <= melt0 /\ 0 <= meltl /\ 0 <= refrozen0 /\
    melt (e_after e) = melt0 + meltl /\
    333600 * melt0 <= Rmax 0 (cc_s_0 (e_before e) + q0) /\
    333600 * meltl <= Rmax 0 ql /\
    (cfg_small_thr cfg < m_s (e_before e) -> cc_s_0 (e_before e) + q0 <= 333600 * melt0) /\
    (e_kept e = true ->
       cc_s_0 (e_after e) = cc_s_0 (e_before e) + q0 - 333600 * melt0 + 333600 * refrozen0 /\
       (0 < melt0 -> cc_s_0 (e_after e) = 0 /\ refrozen0 = 0)).
Proof using HQ Hv Hrun.
  intros He Hl Ht Hc0 Hcl q0 ql.
  destruct (snow_step e He Hl Ht Hc0 Hcl) as (s1 & i1 & Hk & Hp & Hts & Hi & E1 & m0 & ml & r0 & U & _).
  destruct (event_facts Q p cfg ic mh all_mode env c HQ Hv Hrun e He) as (_ & _ & _ & _ & (_ & Hthr & _) & _).
  destruct U as [U1 U2 U3 U4 U5 U6 U7 U8]. rewrite LF_val in *. rewrite E1 in U5, U6, U7, U8.
  exists m0, ml, r0. do 6 (split; [assumption|]). split; [|assumption].
  intros Hm. apply U7. cbn. rn. rewrite Hthr. assumption.
Qed.

(** so snow whose cold content exceeds the energy that reaches it does not melt *)
Theorem C55_cold_snow_does_not_melt e : In e (c_trace c) -> layer_count (e_before e) <> 0%nat ->
  0 < t_s (e_before e) -> cc_s_0 (e_before e) <= 0 -> cc_s_l (e_before e) <= 0 ->
  cc_s_0 (e_before e) + delta_Q_0 (en (e_after e)) * seconds e <= 0 ->
  G_ (en (e_after e)) <= G_0 (en (e_after e)) -> melt (e_after e) = 0.
Proof using HQ Hv Hrun.
  intros He Hl Ht Hc0 Hcl H1 H2.
  destruct (C55_melt_is_paid_for e He Hl Ht Hc0 Hcl) as (m0 & ml & r0 & A1 & A2 & _ & -> & A3 & A4 & _).
  destruct (event_facts Q p cfg ic mh all_mode env c HQ Hv Hrun e He) as (_ & _ & _ & (r & Hq & i0 & _ & _ & _ & Hts & _) & _).
  apply IZR_lt in Hts. rewrite Rmax_left in A3 by assumption. rewrite Rmax_left in A4 by (unfold seconds; nra). lra.
Qed.

(** ** C56 *)
(** specific humidity of air at pressure [P] with vapour pressure [e] (molecular weights of
    water and air), density of air, and diffusivity of water vapour *)
Definition humidity (P e : R) : R := e * (180153/10000) / (289644/10000 * P + e * (180153/10000 - 289644/10000)).
Definition air_density (P t : R) : R := P * (289644/10000) / (831432/100 * t).
Definition diffusivity (P t : R) : R := 65/100 * (1013246/10 / P) * (t / (27316/100)) ^ 14 * (1/100 * (1/100)).

(** Vapour exchange of a step over a pack that stays, or that reports any: the surface flux over the step, plus what
    diffuses between the soil and the bottom layer at temperature [t] *)
Theorem C56_vapour_exchange e : In e (c_trace c) -> layer_count (e_before e) <> 0%nat -> e_kept e = true \/ E_s (e_after e) <> 0 ->
  0 < t_s (e_before e) -> cc_s_0 (e_before e) <= 0 -> cc_s_l (e_before e) <= 0 ->
  let P := ev_P_a env in let tg := i_t_g (e_input e) in
  exists t esnow esoil, (t = t_s (e_before e) \/ t = t_s_0 (e_before e) \/ (0 < z_s_l (e_before e) /\ t = t_s_l (e_before e))) /\
    sati t = Ok esnow /\ sati tg = Ok esoil /\
    E_s (e_after e) = E_flux (e_after e) * seconds e +
      air_density P ((tg + t) / 2) * diffusivity P ((tg + t) / 2) *
        ((humidity P esoil - humidity P esnow) / mh_z_g mh) * seconds e.
Proof using HQ Hv Hrun.
  intros He Hl Hkept Ht Hc0 Hcl P tg.
  destruct (snow_step e He Hl Ht Hc0 Hcl) as (s1 & i1 & Hk & Hp & Hts & Hi & E1 & m0 & ml & r0 & _ & U).
  destruct (U Hkept) as (s3 & El & HEl & L3 & (T1 & T2 & T3) & HE). rewrite E1 in T1, T2, T3, HE.
  assert (Hg : i_t_g i1 = tg) by (destruct Hi as [->|(v & ->)]; reflexivity).
  assert (Hmh : ev_heights env = mh).
  { destruct (reach_standard _ _ _ _ _ _ _ _ Hrun) as (_ & _ & c0 & _ & _ & _ & _ & X). exact X. }
  rewrite Hmh in HEl.
  assert (G : exists t, (t = t_s (e_before e) \/ t = t_s_0 (e_before e) \/ (0 < z_s_l (e_before e) /\ t = t_s_l (e_before e))) /\
    (let* '(e_s, t_bar) := (let* e := sati t in Ok (e, (tg + t) / 2)) in
     let* q_s_l := spec_hum e_s P in
     let* e_g := sati tg in
     let* q_g := spec_hum e_g P in
     let* rho_air := gas_density P MOL_AIR t_bar in
     let* k := diffusion_coef P t_bar in
     let* E_l := vapor_flux rho_air k (q_g - q_s_l) (mh_z_g mh) in
     Ok (E_l * seconds e)) = Ok El).
  { unfold soil_evap in HEl. rewrite Hg in HEl.
    destruct (layered_count s3 L3) as [[Zl Lc]|[Zl Lc]]; rewrite Lc in HEl; cbn [Nat.eqb] in HEl.
    - exists (t_s_0 s3). split; [right; left; exact T2|exact HEl].
    - exists (t_s_l s3). split; [|exact HEl]. destruct (T3 Zl) as [(A & B)|B]; [right; right; split; [exact A|exact B]|left; exact B]. }
  destruct G as (t & Ht2 & G). clear HEl.
  inv_bind G as [es tb] G1. inv_bind G1 as es' Hes. ok_inj G1. injection G1 as <- <-.
  inv_bind G as qs Hqs. inv_bind G as eg Heg. inv_bind G as qg Hqg. inv_bind G as ra Hra. inv_bind G as k Hkk. inv_bind G as f Hf.
  ok_inj G. subst El. exists t, es', eg. split; [assumption|]. split; [assumption|]. split; [assumption|].
  rewrite HE. f_equal. f_equal.
  unfold vapor_flux in Hf. inv_bind Hf as q Hq. ok_inj Hf. subst f. apply pdiv_R in Hq. destruct Hq as (_ & ->).
  unfold diffusion_coef in Hkk. inv_bind Hkk as q Hq. ok_inj Hkk. subst k. apply pdiv_R in Hq. destruct Hq as (_ & ->).
  unfold gas_density in Hra. apply pdiv_R in Hra. destruct Hra as (_ & ->).
  unfold spec_hum in Hqs, Hqg. apply pdiv_R in Hqs, Hqg. destruct Hqs as (_ & ->), Hqg as (_ & ->).
  unfold air_density, diffusivity, humidity. consts. cbn [npown pow].
  rn. rewrite ?Rmult_1_r. reflexivity.
Qed.

(** ** C57 *)
(** specific heats of water and ice [J/kg/K] at temperature [t] *)
Definition c_water (t : R) : R := 42177/10 - 255/100 * (t - 27316/100).
Definition c_ice (t : R) : R := 4186798188/1000000000 * (24928/1000000 + 176/100000 * t) * 1000.

(** The energy terms of a step over snow: net radiation is solar plus emissivity 0.98 times
    (thermal minus black-body radiation of the surface); advected heat is that of the step's
    rain and snow relative to the surface, per second; the sums are the sums of the terms; a
    single layer exchanges heat with the soil only. *)
Theorem C57_energy_terms e : In e (c_trace c) -> layer_count (e_before e) <> 0%nat ->
  let i := e_input e in let t0 := t_s_0 (e_before e) in let x := en (e_after e) in
  R_n x = i_S_n i + 98/100 * (i_I_lw i - 567032/10000000000000 * t0 ^ 4) /\
  M_ x = (if i_precip_now i then
            (c_water (i_t_rain i) * i_m_rain i * (i_t_rain i - t0) + c_ice (i_t_snow i) * i_m_snow i * (i_t_snow i - t0)) / seconds e
          else 0) /\
  delta_Q_0 x = R_n x + H_ x + L_v_E x + G_0 x + M_ x /\
  delta_Q x = R_n x + H_ x + L_v_E x + G_ x + M_ x /\
  (layer_count (e_before e) = 1%nat -> G_ x = G_0 x) /\
  (layer_count (e_before e) = 2%nat -> t0 = t_s_l (e_before e) -> G_0 x = 0).
Proof using HQ Hv Hrun.
  intros He Hl i t0 x.
  pose proof (run_executes _ _ _ _ _ _ _ _ Hrun) as Hx. rewrite Forall_forall in Hx.
  destruct (Hx e He) as (init & s1 & i1 & init1 & Heb & Hmb).
  pose proof (mass_balance_frame _ _ _ _ _ _ Hmb) as (_ & Hfe & _). cbn [fst] in Hfe.
  unfold x. rewrite Hfe. unfold energy_balance in Heb.
  change (has_snow (set_h2o_total 0 (e_before e))) with (0 <? layer_count (e_before e))%nat in Heb.
  rewrite (proj2 (Nat.ltb_lt 0 _)) in Heb by lia.
  inv_bind Heb as [[[[h lve] ef] i2] init2] Hh. inv_bind Heb as [g g0] Hg. inv_bind Heb as m Hm.
  ok_inj Heb. injection Heb as <- <- <-. cbn [en set_E_flux set_en R_n H_ L_v_E G_ G_0 M_ delta_Q delta_Q_0].
  assert (Hc : i2 = i \/ exists v, i2 = set_e_a v i).
  { apply h_le_clip in Hh. destruct Hh as (sat & _ & [(_ & ->)|(_ & ->)]); eauto. }
  split; [unfold net_radiation; consts; cbn [npown pow]; rn; unfold t0, i; cbn; ring|].
  split.
  { unfold advec in Hm. assert (En : i_precip_now i2 = i_precip_now i) by (destruct Hc as [->|(v & ->)]; reflexivity).
    rewrite En in Hm. destruct (i_precip_now i); [|ok_inj Hm; subst m; reflexivity].
    assert (E : i_t_rain i2 = i_t_rain i /\ i_m_rain i2 = i_m_rain i /\ i_t_snow i2 = i_t_snow i /\ i_m_snow i2 = i_m_snow i)
      by (destruct Hc as [->|(v & ->)]; repeat split; reflexivity).
    destruct E as (E1 & E2 & E3 & E4). rewrite E1, E2, E3, E4 in Hm. apply pdiv_R in Hm. destruct Hm as (Hnz & ->).
    unfold seconds, c_water, c_ice, t0. unfold heat_stor, cp_water, cp_ice. consts. rn. cbn [t_s_0 set_h2o_total].
    change (@nofZ R RNum) with IZR in *. field. exact Hnz. }
  split; [rn; ring|]. split; [rn; ring|].
  unfold heat_transfer in Hg. change (layer_count (set_h2o_total 0 (e_before e))) with (layer_count (e_before e)) in Hg.
  split; intros Hlc; rewrite Hlc in Hg; cbn [Nat.eqb] in Hg.
  - inv_bind Hg as g1 Hg1. ok_inj Hg. injection Hg as <- <-. reflexivity.
  - intros Et. inv_bind Hg as g1 Hg1. inv_bind Hg as g2 Hg2. ok_inj Hg. injection Hg as <- <-.
    unfold g_snow in Hg2. change (neqb _ _) with (Reqb t0 (t_s_l (e_before e))) in Hg2.
    destruct (Reqb_spec t0 (t_s_l (e_before e))); [|contradiction]. ok_inj Hg2. symmetry. exact Hg2.
Qed.

(** Conduction in a run step goes from warm to cold: into the bottom layer (the only layer, or
    the lower of two) if the soil is warmer than it, out of it if colder; between two layers
    from the warmer to the colder.  For snow not above freezing, soil up to 60 C and an air
    pressure above the saturation pressures. *)
Theorem C57_conduction_goes_from_warm_to_cold e : In e (c_trace c) -> layer_count (e_before e) <> 0%nat ->
  let s := e_before e in let P := ev_P_a env in let tg := i_t_g (e_input e) in let x := en (e_after e) in
  t_s_0 s <= 27316/100 -> (layer_count s = 2%nat -> t_s_l s <= 27316/100) -> rho s <> 0 -> 0 < mh_z_g mh ->
  0 < tg <= 33316/100 -> 61071/100 < P -> (forall esoil, sati tg = Ok esoil -> esoil < P) ->
  let bottom := if (layer_count s =? 1)%nat then t_s_0 s else t_s_l s in
  (bottom < tg -> 0 < G_ x) /\ (tg < bottom -> G_ x < 0) /\ (bottom = tg -> G_ x = 0) /\
  (layer_count s = 2%nat -> (t_s_0 s < t_s_l s -> 0 < G_0 x) /\ (t_s_l s < t_s_0 s -> G_0 x < 0)).
Proof using HQ Hv Hrun.
  intros He Hl s P tg x T0 Tl Hr Hzg Htg HP Hsoil bottom.
  pose proof (run_executes _ _ _ _ _ _ _ _ Hrun) as Hx. rewrite Forall_forall in Hx.
  destruct (Hx e He) as (init & s1 & i1 & init1 & Heb & Hmb).
  destruct (event_facts Q p cfg ic mh all_mode env c HQ Hv Hrun e He) as ([_ _ Hpk] & _).
  destruct Hpk as [Hk|Hb]; [|exfalso; apply Hl; apply bare_count; assumption].
  assert (Hmh : ev_heights env = mh).
  { destruct (reach_standard _ _ _ _ _ _ _ _ Hrun) as (_ & _ & c0 & _ & _ & _ & _ & X). exact X. }
  rewrite Hmh in *.
  assert (Hk0 : packed (set_h2o_total (nofZ 0) (e_before e))) by (destruct Hk as [[] ?]; split; [split|]; assumption).
  destruct (energy_temps _ _ _ _ _ _ _ _ Heb (proj1 Hk0)) as (Tp0 & Tpl).
  change (0 < t_s_0 s) in Tp0. change (0 < z_s_l s -> 0 < t_s_l s) in Tpl. change (packed s) in Hk.
  pose proof (mass_balance_frame _ _ _ _ _ _ Hmb) as (_ & Hfe & _). cbn [fst] in Hfe.
  unfold x. rewrite Hfe. unfold energy_balance in Heb.
  change (has_snow (set_h2o_total 0 (e_before e))) with (0 <? layer_count s)%nat in Heb.
  rewrite (proj2 (Nat.ltb_lt 0 _)) in Heb by (fold s in Hl; lia).
  inv_bind Heb as [[[[h lve] ef] i2] init2] Hh. inv_bind Heb as [g g0] Hg. inv_bind Heb as m Hm.
  ok_inj Heb. injection Heb as <- <- <-. cbn [en set_E_flux set_en G_ G_0].
  assert (Hc : i_t_g i2 = tg).
  { apply h_le_clip in Hh. destruct Hh as (sat & _ & [(_ & ->)|(_ & ->)]); reflexivity. }
  assert (Ha : air_ok P i2) by (split; rewrite ?Hc; assumption).
  rewrite Hmh in Hg.
  unfold heat_transfer in Hg. change (layer_count (set_h2o_total 0 (e_before e))) with (layer_count s) in Hg.
  destruct (layered_count s (proj1 Hk)) as [[Zl Lc]|[Zl Lc]]; unfold bottom; rewrite Lc in *; cbn [Nat.eqb] in *; try specialize (Tl eq_refl).
  - inv_bind Hg as g1 Hg1. ok_inj Hg. injection Hg as <- <-.
    destruct (g_soil_ok P (mh_z_g mh) true i2 s Ha Hzg Hr (conj Tp0 T0) (ly_z0 _ (proj1 Hk))) as (g' & Hg' & A & B & C).
    change (g_soil P (mh_z_g mh) true i2 s = Ok g1) in Hg1. rewrite Hg' in Hg1. injection Hg1 as <-. rewrite Hc in *.
    repeat split; try assumption; discriminate.
  - inv_bind Hg as g1 Hg1. inv_bind Hg as g2 Hg2. ok_inj Hg. injection Hg as <- <-.
    destruct (g_soil_ok P (mh_z_g mh) false i2 s Ha Hzg Hr (conj (Tpl Zl) Tl) Zl) as (g' & Hg' & A & B & C).
    change (g_soil P (mh_z_g mh) false i2 s = Ok g1) in Hg1. rewrite Hg' in Hg1. injection Hg1 as <-. rewrite Hc in *.
    split; [assumption|]. split; [assumption|]. split; [assumption|]. intros _.
    destruct (g_snow_sign P s HP Hr (conj Tp0 T0) (conj (Tpl Zl) Tl) (ly_z0 _ (proj1 Hk)) Zl) as (g3 & Hg3 & D1 & D2).
    change (g_snow P s = Ok g2) in Hg2. rewrite Hg3 in Hg2. injection Hg2 as <-. auto.
Qed.
End Runs.

Print Assumptions C55_melt_is_paid_for.
Print Assumptions C55_cold_snow_does_not_melt.
Print Assumptions C56_vapour_exchange.
Print Assumptions C57_energy_terms.
Print Assumptions C57_conduction_goes_from_warm_to_cold.
