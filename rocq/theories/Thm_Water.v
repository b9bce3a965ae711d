(** * Theorems C60-C62: water and temperature of a pack that a run step leaves.

    About runs over the real numbers, as in Thm_Mass.v: [c_trace c] lists every run step
    executed so far, with the forcing it used and the snow state before and after it.
    [e_kept e = true]: there was snow during the whole step.  Units: J, kg, m, K, s.
    333600 J/kg is the latent heat of fusion, 273.16 K is freezing, 999.87 and 917 kg/m3 are the
    densities of water and ice. *)
From Coq Require Import Reals String ZArith Bool Lia Lra List.
Import ListNotations.
From Verif Require Import Num Real Constants Functions Libsnobal Input SnowState Snobal PySnobal
  SchedSpec Sched Frame SchedProps Spec Averages Forcing Phys Mass MassEnd RunMass Run Progress Progress2
  MeltEnergy Kept Thm_Mass Thm_Forcing Thm_Energy Witness Witness2.
Open Scope R_scope.
Implicit Types s : SnowState R.

(** the liquid water [kg/m2] that a pack of depth [z] and dry mass [dry] can hold, when water may fill
    the fraction [v] of its pores *)
Definition holds (v z dry : R) : R := v * z * (99987/100) * (1 - dry / z / 917).

Section Runs.
Variable Q : RawInput R -> Prop.
Variables (p : Params R) (cfg : ModelCfg R) (ic : InitSnow R) (mh : Heights R) (all_mode : bool)
  (env : Env R) (c : Core R).
Hypothesis HQ : forall r, Q r -> valid_record r.
Hypothesis Hv : valid_setup p cfg ic.
Hypothesis Hrun : model_run Q p cfg ic mh all_mode env c.

Lemma kept_step e : In e (c_trace c) -> e_kept e = true -> layer_count (e_before e) <> 0%nat ->
  0 < t_s (e_before e) -> cc_s_0 (e_before e) <= 0 -> cc_s_l (e_before e) <= 0 ->
  exists s1 i1 s5 s6, s1 = set_E_flux (E_flux (e_after e)) (set_en (en (e_after e)) (set_h2o_total 0 (e_before e))) /\
    (i1 = e_input e \/ exists v, i1 = set_e_a v (e_input e)) /\
    kept_end (ts_time_step (e_tstep e)) i1 s1 (e_after e) s5 s6.
Proof using HQ Hv Hrun.
  intros He Hkk Hl Ht Hc0 Hcl.
  pose proof (run_executes _ _ _ _ _ _ _ _ Hrun) as Hx. rewrite Forall_forall in Hx.
  destruct (Hx e He) as (init & s1 & i1 & init1 & Heb & Hmb).
  destruct (event_facts Q p cfg ic mh all_mode env c HQ Hv Hrun e He) as ([Hp Hh Hpk] & _ & _ & (r & Hq & i0 & _ & _ & _ & Hts & _) & _).
  destruct Hpk as [Hk|Hb]; [|exfalso; apply Hl; apply bare_count; assumption].
  rewrite (layered_has_snow _ (proj1 Hk)) in Hmb.
  pose proof (energy_balance_frame _ _ _ _ _ _ _ _ Heb) as (Es1 & Hic).
  assert (Hk0 : packed (set_h2o_total (nofZ 0) (e_before e))) by (destruct Hk as [[] ?]; split; [split|]; assumption).
  destruct (energy_temps _ _ _ _ _ _ _ _ Heb (proj1 Hk0)) as (T0 & Tl).
  pose proof (mass_balance_frame _ _ _ _ _ _ Hmb) as (_ & Hfe & _ & Hfx & _). cbn [fst] in Hfe, Hfx.
  assert (E1 : s1 = set_E_flux (E_flux (e_after e)) (set_en (en (e_after e)) (set_h2o_total 0 (e_before e)))).
  { rewrite Hfe, Hfx. exact Es1. }
  assert (Hvi : input_valid i1).
  { pose proof (event_input Q p cfg ic mh all_mode env c HQ Hv Hrun e He) as V.
    destruct Hic as [->|[v ->]]; [assumption|]. intros Hn. destruct (V Hn). split; assumption. }
  assert (Hp1 : params_ok s1) by (rewrite E1; destruct Hp; split; assumption).
  assert (Hk1 : packed s1) by (rewrite E1; destruct Hk as [[] ?]; split; [split|]; assumption).
  assert (HT1 : Tpos s1) by (rewrite E1; exact (conj Ht (conj T0 Tl))).
  assert (HC1 : cold s1) by (rewrite E1; exact (conj Hc0 Hcl)).
  rewrite Hkk in Hmb.
  destruct (mass_balance_kept _ _ _ _ s1 _ Hts Hvi Hp1 Hk1 ltac:(rewrite E1; exact Hh) ltac:(rewrite E1; reflexivity) HT1 HC1 Hmb) as (s5 & s6 & K).
  exists s1, i1, s5, s6. auto.
Qed.

(** ** C60 *)
(** Water leaves a pack only when the pack is full: after a step the pack holds no more liquid than
    its pores can, the reported saturation is the liquid over that capacity, the reported liquid
    volume fraction is the saturation times the configured maximum, and if anything ran off the pack is saturated. *)
Theorem C60_runoff_only_from_a_saturated_pack e :
  In e (c_trace c) -> e_kept e = true -> layer_count (e_before e) <> 0%nat ->
  0 < t_s (e_before e) -> cc_s_0 (e_before e) <= 0 -> cc_s_l (e_before e) <= 0 ->
  let s := e_after e in
  h2o_max s = holds (p_max_h2o_vol p) (z_s s) (m_s s - h2o s) /\
  0 <= h2o s <= h2o_max s /\ h2o s = h2o_sat s * h2o_max s /\ h2o_vol s = h2o_sat s * p_max_h2o_vol p /\
  (0 < swi s -> h2o s = h2o_max s /\ h2o_sat s = 1).
Proof using HQ Hv Hrun.
  intros He Hkk Hl Ht Hc0 Hcl s.
  destruct (kept_step e He Hkk Hl Ht Hc0 Hcl) as (s1 & i1 & s5 & s6 & E1 & Hic & K).
  destruct K as [Pk5 Pp5 R5 W5 D Room At T6 C6 Sm Pe _ _ _].
  destruct (event_facts Q p cfg ic mh all_mode env c HQ Hv Hrun e He) as (_ & _ & _ & _ & _ & (Cm & Cth & Cv)).
  destruct (adjust_layer_temps_spec s6 _ (dr_packed _ _ _ D) At) as ((a & b & d & E7) & _).
  assert (Ev : max_h2o_vol s5 = p_max_h2o_vol p).
  { rewrite <- Cv, E7. destruct (dr_params _ _ _ D) as (_ & _ & _ & X). symmetry. exact X. }
  pose proof (packed_z_pos _ Pk5) as Hz.
  pose proof (capacity_nonneg s5 Pp5 Pk5 W5 R5) as Hcap.
  assert (X : h2o s = h2o s6 /\ h2o_max s = h2o_max s6 /\ h2o_sat s = h2o_sat s6 /\ h2o_vol s = h2o_vol s6 /\
              swi s = swi s6 /\ m_s s = m_s s6 /\ z_s s = z_s s6) by (unfold s; rewrite E7; repeat split).
  destruct X as (-> & -> & -> & -> & -> & -> & ->).
  rewrite (dr_h2o _ _ _ D), (dr_max _ _ _ D), (dr_vol _ _ _ D), (dr_m _ _ _ D), (dr_swi _ _ _ D), Ev, (proj1 (dr_z _ _ _ D)), (dr_sat _ _ _ D).
  split.
  - replace (m_s s5 - Rmax 0 (h2o_total s5 - capacity s5) - Rmin (h2o_total s5) (capacity s5)) with (m_s s5 - h2o_total s5).
    + unfold capacity, holds, h2o_left. rewrite Ev. consts. field. lra.
    + destruct (Rle_dec (h2o_total s5) (capacity s5)); [rewrite Rmax_left, Rmin_left by lra|rewrite Rmax_right, Rmin_right by lra]; lra.
  - destruct (Rltb_spec (capacity s5) (h2o_total s5)) as [A|A].
    + rewrite Rmin_right, Rmax_right by lra. repeat split; lra.
    + rewrite Rmin_left, Rmax_left by lra. specialize (Room ltac:(lra)). split; [lra|]. split; [field; lra|]. split; [reflexivity|lra].
Qed.

(** ** C61 *)
Definition dry s : Prop := h2o s = 0 /\ swi s = 0 /\ h2o_sat s = 0 /\ h2o_vol s = 0.
Lemma drained_dry s5 s6 s' a b d : drained s5 s6 -> h2o_total s5 = 0 -> 0 <= capacity s5 ->
  s' = set_t_s a (set_t_s_l b (set_t_s_0 d s6)) -> dry s'.
Proof using.
  intros D E Hc ->. unfold dry. cbn [h2o swi h2o_sat h2o_vol set_t_s set_t_s_l set_t_s_0].
  rewrite (dr_h2o _ _ _ D), (dr_swi _ _ _ D), (dr_vol _ _ _ D), (dr_sat _ _ _ D), E.
  rewrite Rmin_left, Rmax_left by lra. destruct (Rltb_spec (capacity s5) 0); [lra|]. unfold Rdiv. rewrite !Rmult_0_l. auto.
Qed.

(** Cold snow is dry.  A pack no deeper than one surface layer, without precipitation: if its
    cold content is still negative after the step, all its liquid has refrozen and nothing runs off. *)
Theorem C61_cold_shallow_pack_is_dry e :
  In e (c_trace c) -> e_kept e = true -> layer_count (e_before e) <> 0%nat ->
  0 < t_s (e_before e) -> cc_s_0 (e_before e) <= 0 -> cc_s_l (e_before e) <= 0 ->
  i_precip_now (e_input e) = false -> z_s (e_before e) <= p_max_z_s_0 p ->
  cc_s_0 (e_after e) < 0 -> dry (e_after e).
Proof using HQ Hv Hrun.
  intros He Hkk Hl Ht Hc0 Hcl Hn Hz Hc.
  destruct (kept_step e He Hkk Hl Ht Hc0 Hcl) as (s1 & i1 & s5 & s6 & E1 & Hic & K).
  destruct K as [Pk5 Pp5 R5 W5 D Room At T6 C6 Sm Pe Sh _ _].
  destruct (event_facts Q p cfg ic mh all_mode env c HQ Hv Hrun e He) as (_ & _ & _ & _ & (Cm & Cth & Cv) & _).
  destruct (adjust_layer_temps_spec s6 _ (dr_packed _ _ _ D) At) as ((a & b & d & E7) & _).
  pose proof (capacity_nonneg s5 Pp5 Pk5 W5 R5) as Hcap.
  apply (drained_dry s5 s6 _ a b d D); [|assumption|assumption].
  apply Sh.
  - destruct Hic as [->|(v & ->)]; exact Hn.
  - rewrite E1. change (z_s (e_before e) <= max_z_s_0 (e_before e)). rewrite Cm. assumption.
  - rewrite E7 in Hc. exact Hc.
Qed.

(** A pack of two layers, without rain or melt: if both layers are below freezing after the step,
    all its liquid has refrozen and nothing runs off. *)
Theorem C61_cold_deep_pack_is_dry e :
  In e (c_trace c) -> e_kept e = true -> layer_count (e_before e) <> 0%nat ->
  0 < t_s (e_before e) -> cc_s_0 (e_before e) <= 0 -> cc_s_l (e_before e) <= 0 ->
  (i_precip_now (e_input e) = true -> i_m_rain (e_input e) = 0) -> melt (e_after e) = 0 ->
  layer_count (e_after e) = 2%nat -> cc_s_0 (e_after e) < 0 -> cc_s_l (e_after e) < 0 -> dry (e_after e).
Proof using HQ Hv Hrun.
  intros He Hkk Hl Ht Hc0 Hcl Hn Hm Hlc Hc Hc2.
  destruct (kept_step e He Hkk Hl Ht Hc0 Hcl) as (s1 & i1 & s5 & s6 & E1 & Hic & K).
  destruct K as [Pk5 Pp5 R5 W5 D Room At T6 C6 Sm Pe _ Dp _].
  destruct (adjust_layer_temps_spec s6 _ (dr_packed _ _ _ D) At) as ((a & b & d & E7) & Pk7 & _).
  pose proof (capacity_nonneg s5 Pp5 Pk5 W5 R5) as Hcap.
  apply (drained_dry s5 s6 _ a b d D); [|assumption|assumption].
  apply Dp; try assumption.
  - destruct Hic as [->|(v & ->)]; exact Hn.
  - destruct (layered_count _ (proj1 Pk7)) as [[_ X]|[X _]]; [congruence|]. rewrite E7 in X. exact X.
  - rewrite E7 in Hc. exact Hc.
  - rewrite E7 in Hc2. exact Hc2.
Qed.

(** What refreezes in the surface layer is at most the liquid there: [liquid] is the water of the
    step's rain and snow.  So a dry pack without precipitation or melt changes its cold content by exactly the
    energy it receives. *)
Theorem C61_dry_pack_stores_the_energy e :
  In e (c_trace c) -> e_kept e = true -> layer_count (e_before e) <> 0%nat ->
  0 < t_s (e_before e) -> cc_s_0 (e_before e) <= 0 -> cc_s_l (e_before e) <= 0 ->
  i_precip_now (e_input e) = false ->
  (exists m0 r0, 0 <= m0 <= melt (e_after e) /\ 0 <= r0 <= h2o (e_before e) + melt (e_after e) /\
     cc_s_0 (e_after e) = cc_s_0 (e_before e) + delta_Q_0 (en (e_after e)) * seconds e - 333600 * m0 + 333600 * r0) /\
  (h2o (e_before e) = 0 -> melt (e_after e) = 0 ->
     cc_s_0 (e_after e) = cc_s_0 (e_before e) + delta_Q_0 (en (e_after e)) * seconds e).
Proof using HQ Hv Hrun.
  intros He Hkk Hl Ht Hc0 Hcl Hn.
  destruct (kept_step e He Hkk Hl Ht Hc0 Hcl) as (s1 & i1 & s5 & s6 & E1 & Hic & K).
  destruct K as [Pk5 Pp5 R5 W5 D Room At T6 C6 Sm Pe _ _ (m0 & r0 & A1 & A2 & A3)].
  destruct (adjust_layer_temps_spec s6 _ (dr_packed _ _ _ D) At) as ((a & b & d & E7) & Pk7 & _).
  assert (X : cc_s_0 s6 = cc_s_0 (e_after e)) by (rewrite E7; reflexivity). rewrite X, LF_val in A3.
  assert (Hl0 : liquid_in i1 s1 = 0).
  { unfold liquid_in. destruct Hic as [->|(v & ->)]; [|change (i_precip_now (set_e_a v (e_input e))) with (i_precip_now (e_input e))]; rewrite Hn; reflexivity. }
  rewrite Hl0, Rplus_0_r in A2. rewrite E1 in A2, A3.
  change (h2o (set_E_flux _ _)) with (h2o (e_before e)) in A2.
  change (cc_s_0 (set_E_flux _ _)) with (cc_s_0 (e_before e)) in A3.
  change (en (set_E_flux _ _)) with (en (e_after e)) in A3.
  change (IZR (ts_time_step (e_tstep e))) with (seconds e) in A3.
  split; [exists m0, r0; auto|].
  intros H0 M0. rewrite H0, M0 in A2. rewrite M0 in A1. rewrite A3. lra.
Qed.

(** ** C62 *)
(** the temperature of [m] kg of ice that lacks [-cc] J to be at freezing (specific heat at the
    temperature [t] it had before) *)
Definition temp_of (t m cc : R) : R := 27316/100 + cc / (m * c_ice t).

Lemma temp_of_cases t m cc : 0 < t -> 0 < m -> (temp_of t m cc < 27316/100 <-> cc < 0) /\ (temp_of t m cc = 27316/100 <-> cc = 0).
Proof using.
  intros Ht Hm. assert (Hp : 0 < m * c_ice t). { apply Rmult_lt_0_compat; [assumption|]. unfold c_ice. nra. }
  unfold temp_of. set (k := m * c_ice t) in *. assert (Hi : 0 < / k) by (apply Rinv_0_lt_compat; assumption).
  assert (E : cc = cc / k * k) by (field; lra). unfold Rdiv. set (q := cc * / k) in *. change (cc / k) with q in E. clearbody q.
  split; split; intros H; nra.
Qed.
Lemma cp_ice_c (t : R) : cp_ice t = c_ice t.
Proof using. unfold c_ice, cp_ice. consts. field. Qed.

(** After a step the temperatures are those of the cold contents: the surface layer's from its
    cold content, mass and earlier temperature; the whole pack's is the surface layer's if there is
    one layer; with two layers likewise from the lower layer's cold content and from the sum of
    the two (a lower layer that appears in the step starts at the temperature of the whole pack). *)
Theorem C62_temperatures_follow_cold_content e :
  In e (c_trace c) -> e_kept e = true -> layer_count (e_before e) <> 0%nat ->
  0 < t_s (e_before e) -> cc_s_0 (e_before e) <= 0 -> cc_s_l (e_before e) <= 0 ->
  let s := e_before e in let s' := e_after e in
  t_s_0 s' = temp_of (t_s_0 s) (m_s_0 s') (cc_s_0 s') /\
  (layer_count s' = 1%nat -> t_s s' = t_s_0 s') /\
  (layer_count s' = 2%nat ->
     (t_s_l s' = temp_of (t_s_l s) (m_s_l s') (cc_s_l s') \/ t_s_l s' = temp_of (t_s s) (m_s_l s') (cc_s_l s')) /\
     t_s s' = temp_of (t_s s) (m_s s') (cc_s_0 s' + cc_s_l s')).
Proof using HQ Hv Hrun.
  intros He Hkk Hl Ht Hc0 Hcl s s'.
  destruct (kept_step e He Hkk Hl Ht Hc0 Hcl) as (s1 & i1 & s5 & s6 & E1 & Hic & K).
  destruct K as [Pk5 Pp5 R5 W5 D Room At T6 C6 (Sm & Sm0 & Sml) Pe _ _ _].
  pose proof (dr_packed _ _ _ D) as Pk6.
  destruct (adjust_layer_temps_spec s6 _ Pk6 At) as ((a & b & d & E7) & Pk7 & _).
  destruct (adjust_values s6 _ Pk6 C6 At) as (V0 & V1 & V2). fold s' in V0, V1, V2.
  rewrite E1 in Sm, Sm0, Sml. change (t_s s6 = t_s s) in Sm. change (t_s_0 s6 = t_s_0 s) in Sm0.
  rewrite Sm, Sm0, !cp_ice_c in *.
  assert (X : cc_s_0 s' = cc_s_0 s6 /\ cc_s_l s' = cc_s_l s6 /\ m_s_0 s' = m_s_0 s6 /\ m_s_l s' = m_s_l s6 /\ m_s s' = m_s s6 /\ z_s_l s' = z_s_l s6)
    by (unfold s'; rewrite E7; repeat split).
  destruct X as (X1 & X2 & X3 & X4 & X5 & X6). rewrite X1, X2, X3, X4, X5.
  split; [exact V0|]. destruct (layered_count _ (proj1 Pk7)) as [[Zl Lc]|[Zl Lc]]; fold s' in Zl, Lc |- *; rewrite Lc, X6 in *.
  - split; [|discriminate]. intros _. apply (V1 Zl).
  - split; [discriminate|]. intros _. destruct (V2 Zl) as (V3 & V4). split; [|exact V4].
    destruct (Sml Zl) as [(_ & Y)|Y]; [left|right]; unfold temp_of; rewrite V3; [change (t_s_l s6 = t_s_l s) in Y|change (t_s_l s6 = t_s s) in Y]; rewrite Y; reflexivity.
Qed.

(** So a layer is below freezing exactly if its cold content is negative, and at freezing exactly
    if that is zero; a pack is below freezing exactly if one of its layers is. *)
Theorem C62_below_freezing_iff_cold e :
  In e (c_trace c) -> e_kept e = true -> layer_count (e_before e) <> 0%nat ->
  0 < t_s (e_before e) -> cc_s_0 (e_before e) <= 0 -> cc_s_l (e_before e) <= 0 -> 0 < m_s (e_after e) ->
  let s' := e_after e in
  (t_s_0 s' < 27316/100 <-> cc_s_0 s' < 0) /\ (t_s_0 s' = 27316/100 <-> cc_s_0 s' = 0) /\
  (layer_count s' = 2%nat ->
     (t_s_l s' < 27316/100 <-> cc_s_l s' < 0) /\ (t_s_l s' = 27316/100 <-> cc_s_l s' = 0)) /\
  (t_s s' < 27316/100 <-> t_s_0 s' < 27316/100 \/ (layer_count s' = 2%nat /\ t_s_l s' < 27316/100)).
Proof using HQ Hv Hrun.
  intros He Hkk Hl Ht Hc0 Hcl Hm s'.
  destruct (kept_step e He Hkk Hl Ht Hc0 Hcl) as (s1 & i1 & s5 & s6 & E1 & Hic & K).
  destruct K as [Pk5 Pp5 R5 W5 D Room At T6 C6 (Sm & Sm0 & Sml) Pe _ _ _].
  pose proof (dr_packed _ _ _ D) as Pk6.
  destruct (adjust_layer_temps_spec s6 _ Pk6 At) as ((a & b & d & E7) & Pk7 & _).
  destruct (adjust_values s6 _ Pk6 C6 At) as (V0 & V1 & V2). fold s' in V0, V1, V2, E7, Pk7.
  rewrite !cp_ice_c in *. destruct T6 as (T6 & T60 & T6l).
  assert (X : cc_s_0 s' = cc_s_0 s6 /\ cc_s_l s' = cc_s_l s6 /\ z_s_l s' = z_s_l s6) by (rewrite E7; repeat split).
  assert (Hm6 : 0 < m_s s6) by (fold s' in Hm; rewrite E7 in Hm; exact Hm).
  destruct X as (X1 & X2 & X6). rewrite X1, X2.
  destruct C6 as (C0 & Cl).
  assert (Hm0 : 0 < m_s_0 s6 /\ (0 < z_s_l s6 -> 0 < m_s_l s6)).
  { pose proof (packed_z_pos _ Pk6). destruct Pk6 as [[L0 Ll Lz Lm0 Lml L2 L1] M]. assert (0 < rho s6) by (rewrite M in Hm6; nra).
    rewrite Lm0, Lml. split; [nra|intros; nra]. }
  destruct Hm0 as (Hm0 & Hml).
  fold (temp_of (t_s_0 s6) (m_s_0 s6) (cc_s_0 s6)) in V0.
  pose proof (temp_of_cases (t_s_0 s6) (m_s_0 s6) (cc_s_0 s6) T60 Hm0) as (A1 & A2). rewrite <- V0 in A1, A2.
  split; [exact A1|]. split; [exact A2|].
  destruct (layered_count _ (proj1 Pk7)) as [[Zl Lc]|[Zl Lc]]; rewrite Lc, X6 in *.
  - split; [discriminate|]. destruct (V1 Zl) as (-> & _). split; [auto|intros [A|(A & _)]; [assumption|discriminate]].
  - destruct (V2 Zl) as (V3 & V4).
    fold (temp_of (t_s_l s6) (m_s_l s6) (cc_s_l s6)) in V3. fold (temp_of (t_s s6) (m_s s6) (cc_s_0 s6 + cc_s_l s6)) in V4.
    pose proof (temp_of_cases (t_s_l s6) (m_s_l s6) (cc_s_l s6) (T6l Zl) (Hml Zl)) as (B1 & B2). rewrite <- V3 in B1, B2.
    pose proof (temp_of_cases (t_s s6) (m_s s6) (cc_s_0 s6 + cc_s_l s6) T6 Hm6) as (D1 & _). rewrite <- V4 in D1.
    split; [auto|]. rewrite D1, A1, B1. split; [|lra]. intros Hs. destruct (Rlt_dec (cc_s_0 s6) 0); [left; assumption|right; split; [reflexivity|lra]].
Qed.
End Runs.

(** ** Hypotheses met *)
(** The run of Witness2.v: 60 kg/m2 of snow at 270 K, 0.6 m deep, in an hour of still air, with a surface
    layer of 1 m.  Its second step meets all the hypotheses of C60, C61 (shallow pack, and stored energy) and
    C62, including the negative cold content at its end. *)
Theorem C60_C61_C62_witness : exists env c e, model_run wQ (wpz 1) wcfg wic wmh false env c /\ In e (c_trace c) /\
  e_kept e = true /\ layer_count (e_before e) <> 0%nat /\ 0 < t_s (e_before e) /\
  cc_s_0 (e_before e) <= 0 /\ cc_s_l (e_before e) <= 0 /\ i_precip_now (e_input e) = false /\ melt (e_after e) = 0 /\
  h2o (e_before e) = 0 /\ z_s (e_before e) <= p_max_z_s_0 (wpz 1) /\
  cc_s_0 (e_after e) < 0 /\ dry (e_after e) /\ 60 <= m_s (e_after e).
Proof.
  assert (Hmz : 1 = 1/4 \/ 1 = 1) by (right; reflexivity).
  destruct (w_second 1 Hmz) as (env & c2 & e1 & e2 & Hr & Htr & _ & Hl & _ & Ht & Hc & Hcl & _ & _ & _ & _ & Hp & Hh & Hz & Hq & Hk & Hm & Hms).
  assert (He : In e2 (c_trace c2)) by (rewrite Htr; right; left; reflexivity).
  assert (Hzz : z_s (e_before e2) <= p_max_z_s_0 (wpz 1)) by (cbn; lra).
  assert (Ht0 : 0 < t_s (e_before e2)) by lra.
  destruct (C61_dry_pack_stores_the_energy wQ (wpz 1) wcfg wic wmh false env c2 wQ_valid (w_setup 1 Hmz) Hr e2 He Hk Hl Ht0 Hc Hcl Hp) as (_ & X).
  specialize (X Hh Hm).
  assert (Hs : 0 < seconds e2).
  { destruct (event_facts wQ (wpz 1) wcfg wic wmh false env c2 wQ_valid (w_setup 1 Hmz) Hr e2 He) as (_ & _ & _ & (r & Hq1 & i0 & _ & _ & _ & Hts & _) & _).
    apply IZR_lt. exact Hts. }
  assert (Hcc : cc_s_0 (e_after e2) < 0) by nra.
  pose proof (C61_cold_shallow_pack_is_dry wQ (wpz 1) wcfg wic wmh false env c2 wQ_valid (w_setup 1 Hmz) Hr e2 He Hk Hl Ht0 Hc Hcl Hp Hzz Hcc) as Hd.
  exists env, c2, e2. repeat (split; [assumption|]). destruct Hd as (_ & Hd & _). lra.
Qed.

Print Assumptions C60_runoff_only_from_a_saturated_pack.
Print Assumptions C61_cold_shallow_pack_is_dry.
Print Assumptions C61_cold_deep_pack_is_dry.
Print Assumptions C61_dry_pack_stores_the_energy.
Print Assumptions C62_temperatures_follow_cold_content.
Print Assumptions C62_below_freezing_iff_cold.
