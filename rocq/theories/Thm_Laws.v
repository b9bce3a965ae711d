(** * Theorem C71: the law of depth, density and mass of a run step.

    Specification in Laws.v: [settled] (ageing), [fallen_on], [melted], [exchanged], [wetted], and
    [step_law] which composes them.  About runs over the real numbers, as in Thm_Mass.v. *)
From Coq Require Import Reals String ZArith Bool Lia Lra List.
Import ListNotations.
From Verif Require Import Num Real Constants Functions Libsnobal Input SnowState Snobal PySnobal
  SchedSpec Sched Frame SchedProps Spec Averages Forcing Phys Mass MassEnd RunMass Run Progress Progress2
  MeltEnergy Kept Depth Laws Thm_Mass Thm_Forcing Thm_Energy Thm_Water Thm_Turb2 Witness Witness2 Witness3 Thm_Depth.
Open Scope R_scope.
Implicit Types s : SnowState R.

Section Runs.
Variable Q : RawInput R -> Prop.
Variables (p : Params R) (cfg : ModelCfg R) (ic : InitSnow R) (mh : Heights R) (all_mode : bool)
  (env : Env R) (c : Core R).
Hypothesis HQ : forall r, Q r -> valid_record r.
Hypothesis Hv : valid_setup p cfg ic.
Hypothesis Hrun : model_run Q p cfg ic mh all_mode env c.

(** A run step that keeps its pack: mass and depth after it follow from mass, density and temperature
    before it, the precipitation, the reported melt, the reported evaporation (from the air it is the
    reported flux times the length of the step, the rest is exchanged with the soil), and the liquid
    water [h] present after melting and refreezing, of which what evaporation leaves stays in the pack
    or runs off; [h] is the water that was there, fell or melted, less what refroze. *)
Theorem C71_law_of_a_run_step e : In e (c_trace c) -> layer_count (e_before e) <> 0%nat -> e_kept e = true ->
  0 < rho (e_before e) <= 600 ->
  exists h, 0 <= h /\ step_law (seconds e) (e_input e) (e_before e) (e_after e) (E_flux (e_after e) * seconds e) h /\
    water_law (i_precip_now (e_input e) = true) (z_s (e_before e) <= p_max_z_s_0 p)
      (cc_s_0 (e_before e)) (delta_Q_0 (en (e_after e)) * seconds e)
      (h2o (e_before e)) (rain_and_wet_snow p e) (melt (e_after e)) h.
Proof using HQ Hv Hrun.
  intros He Hl Ek Hr.
  pose proof (run_executes _ _ _ _ _ _ _ _ Hrun) as Hx. rewrite Forall_forall in Hx.
  destruct (Hx e He) as (init & s1 & i1 & init1 & Heb & Hmb).
  destruct (event_facts Q p cfg ic mh all_mode env c HQ Hv Hrun e He) as ([Hp Hh Hpk] & _ & O & (rr & Hq & i0 & _ & _ & _ & Hts & _) & (Hmz & _ & Hvol) & _).
  destruct Hpk as [Hk|Hb]; [|exfalso; apply Hl; apply bare_count; assumption].
  pose proof (event_input Q p cfg ic mh all_mode env c HQ Hv Hrun e He) as V.
  rewrite (layered_has_snow _ (proj1 Hk)) in Hmb. rewrite Ek in Hmb.
  pose proof (energy_balance_frame _ _ _ _ _ _ _ _ Heb) as (Es1 & Hic).
  pose proof (mass_balance_frame _ _ _ _ _ _ Hmb) as (_ & Hfe & _ & Hfx & _). cbn [fst] in Hfe, Hfx.
  assert (E1 : s1 = set_E_flux (E_flux (e_after e)) (set_en (en (e_after e)) (set_h2o_total 0 (e_before e)))).
  { rewrite Hfe, Hfx. exact Es1. }
  assert (Hvi : input_valid i1).
  { destruct Hic as [->|[v ->]]; [assumption|]. intros Hn. destruct (V Hn). split; assumption. }
  assert (Hp1 : params_ok s1) by (rewrite E1; destruct Hp; split; assumption).
  assert (Hk1 : packed s1) by (rewrite E1; destruct Hk as [[] ?]; split; [split|]; assumption).
  destruct (mass_balance_law _ _ _ _ s1 _ Hts Hvi Hp1 Hk1 ltac:(rewrite E1; exact Hh) ltac:(rewrite E1; reflexivity)
       ltac:(rewrite E1; exact Hr) Hmb) as (h & Hh0 & [L1 L2 L3] & L4).
  exists h. split; [exact Hh0|]. split.
  2:{ assert (El : liquid_in i1 s1 = rain_and_wet_snow p e).
      { rewrite <- (liquid_eq p e) by assumption. rewrite E1. unfold liquid_in, snow_water. destruct Hic as [->|[v ->]]; reflexivity. }
      rewrite El, E1 in L4. cbn [z_s max_z_s_0 cc_s_0 en h2o set_E_flux set_en set_h2o_total] in L4. rewrite Hmz in L4.
      destruct Hic as [->|[v ->]]; exact L4. } rewrite Hfx. unfold seconds.
  rewrite E1 in L2, L3. cbn [m_s t_s rho set_E_flux set_en set_h2o_total] in L2, L3.
  split; [exact L1| |]; destruct Hic as [->|[v ->]]; assumption.
Qed.

(** So in a step without precipitation, melt, vapour exchange or runoff the mass stays and the density
    is what ageing makes of it, at most 600. *)
Theorem C71_quiet_step e : In e (c_trace c) -> layer_count (e_before e) <> 0%nat -> e_kept e = true ->
  0 < rho (e_before e) <= 600 ->
  i_precip_now (e_input e) = false -> melt (e_after e) = 0 -> E_flux (e_after e) = 0 -> E_s (e_after e) = 0 -> swi (e_after e) = 0 ->
  let s := e_before e in
  m_s (e_after e) = m_s s /\
  rho (e_after e) = Rmin 600 (settled (seconds e) (m_s s) (t_s s) (rho s)).
Proof using HQ Hv Hrun.
  intros He Hl Ek Hr Hn Hm HE HEs Hsw s.
  destruct (C71_law_of_a_run_step e He Hl Ek Hr) as (h & Hh & [L1 L2 L3] & _). cbv zeta in L3.
  destruct (event_facts Q p cfg ic mh all_mode env c HQ Hv Hrun e He) as ([_ _ Hpk0] & [_ _ Hpk] & O & (rr & Hq & i0 & _ & _ & _ & Hts & _) & _).
  assert (Hw : h2o (e_after e) + swi (e_after e) = h).
  { rewrite L1, HE, HEs. unfold water_left.
    replace (h + 0 * seconds e * (2501/2835)) with h by ring.
    destruct (Rlt_dec 0 h); [|destruct (Rlt_dec 0 h); [lra|reflexivity]].
    rewrite Rmax_right by lra. destruct (Rlt_dec 0 h); [|lra].
    replace (h + (0 - 0 * seconds e) * (2501/2835)) with h by ring. apply Rmax_right. lra. }
  fold s in L2, L3. rewrite Hn, HEs, Hsw in L2. assert (Hms : m_s (e_after e) = m_s s) by lra. split; [exact Hms|].
  rewrite Hn, HEs, Hm, Hw in L3. unfold fallen_on, melted, exchanged in L3. rewrite Hn in L3.
  destruct (Rlt_dec 0 0); [lra|].
  assert (Hk : packed s). { destruct Hpk0 as [Hk|Hb]; [exact Hk|exfalso; apply Hl; apply bare_count; assumption]. }
  pose proof (packed_z_pos _ Hk) as Hz.
  assert (Hmp : 0 < m_s s). { destruct Hk as [_ M]. rewrite M. apply Rmult_lt_0_compat; [unfold s; lra|assumption]. }
  assert (Hpk' : packed (e_after e)).
  { destruct Hpk as [X|X]; [exact X|]. exfalso. destruct O as [(_ & _ & _ & [(_ & K)|(X1 & _)])|(Hb & _)]; [|congruence|].
    - destruct K as [K _ _ _ _ _ _ _ _ _ _ _]. pose proof (packed_z_pos _ K). destruct X. lra.
    - apply Hl; apply bare_count; assumption. }
  pose proof (packed_z_pos _ Hpk') as Hz'.
  set (r1 := settled (seconds e) (m_s s) (t_s s) (rho s)) in *.
  replace (m_s s + 0 + 0) with (m_s s) in L3 by ring. rewrite !Rplus_0_r in L3.
  replace (0 + h - h) with 0 in L3 by ring. unfold Rdiv at 4 5 in L3. rewrite !Rmult_0_l, Rplus_0_r in L3.
  set (z1 := m_s s / r1) in *. unfold capped in L3. set (Z := Rmax z1 (m_s s / 600)) in *.
  assert (HZ : z_s (e_after e) = Z).
  { rewrite L3. unfold wetted. assert (0 / m_s s = 0) as -> by (unfold Rdiv; ring).
    assert (m_s s / 600 <= Z) by apply Rmax_r. assert (0 < Z) by lra.
    destruct (Rlt_dec 550 (m_s s / Z)); [field; lra|]. destruct (Rlt_dec (1/1000000) 0); [lra|]. field. lra. }
  assert (Hr1 : 0 < r1).
  { assert (rho s <= r1); [|unfold s in *; lra]. apply settled_ge; [|lra|unfold s; lra]. unfold seconds. apply IZR_lt in Hts. lra. }
  assert (Hrho : rho (e_after e) = m_s s / Z). { rewrite <- Hms, <- HZ. destruct Hpk' as [_ ->]. field. lra. }
  rewrite Hrho. unfold Z, z1. destruct (Rle_dec r1 600) as [Hc|Hc].
  - rewrite (Rmin_right 600 r1) by lra. rewrite Rmax_left; [field; lra|].
    apply Rmult_le_compat_l; [lra|]. apply Rinv_le_contravar; lra.
  - rewrite (Rmin_left 600 r1) by lra. rewrite Rmax_right; [field; lra|].
    apply Rmult_le_compat_l; [lra|]. apply Rinv_le_contravar; lra.
Qed.
End Runs.

(** ** The hypotheses are met: the second hour of the run of Witness.v, without wind, is quiet *)
Example C71_witness : exists env c2 e1 e2, model_run wQ (wpz 1) wcfg wic wmh false env c2 /\ c_trace c2 = [e1; e2] /\
  layer_count (e_before e2) <> 0%nat /\ rho (e_before e2) = 100 /\ m_s (e_before e2) = 60 /\ h2o (e_before e2) = 0 /\ e_kept e2 = true /\
  i_precip_now (e_input e2) = false /\ melt (e_after e2) = 0 /\ E_flux (e_after e2) = 0 /\ E_s (e_after e2) = 0 /\ swi (e_after e2) = 0.
Proof.
  assert (Hmz : 1 = 1/4 \/ 1 = 1) by (right; reflexivity).
  destruct (w_windy_mz 1 Hmz 0) as (env & c2 & e1 & e2 & w & es & Hr & Htr & Hs & Hu & _ & Hes & _ & _ & _ & HP & Hn & Hg & Hl & Hz & Hrho & Ht & Ht0 & Htl & _ & _ & Hm & Hh & Hc0 & Hcl & Hsec & Hsn & Hlw); [lra|].
  assert (He : In e2 (c_trace c2)) by (rewrite Htr; right; left; reflexivity).
  pose proof (w_setup 1 Hmz) as Hset.
  destruct (event_facts wQ (wpz 1) wcfg wic wmh false env c2 wQ_valid Hset Hr e2 He) as ([_ _ Hpk] & _).
  assert (Hk : packed (e_before e2)) by (destruct Hpk as [X|X]; [exact X|exfalso; apply Hl; apply bare_count; assumption]).
  destruct (C58_still_air _ _ _ _ _ _ _ _ Hr e2 He Hu) as (EH & EL & EE).
  assert (Tl2 : layer_count (e_before e2) = 2%nat -> t_s_l (e_before e2) = 270).
  { intros X. apply Htl. destruct (layered_count _ (proj1 Hk)) as [[Zl Y]|[Zl Y]]; [congruence|assumption]. }
  destruct (C57_energy_terms wQ (wpz 1) wcfg wic wmh false env c2 wQ_valid Hset Hr e2 He Hl) as (Rn & Mm & Q0 & _ & G1 & G2).
  destruct (C57_conduction_goes_from_warm_to_cold wQ (wpz 1) wcfg wic wmh false env c2 wQ_valid Hset Hr e2 He Hl) as (_ & _ & Gz & _).
  { lra. } { intros X. rewrite (Tl2 X). lra. } { lra. } { cbn [wmh mh_z_g]. lra. } { lra. } { rewrite HP. lra. }
  { rewrite Hg, HP. intros e X. destruct (sati_snow 270 ltac:(split; lra)) as (es2 & Hes2 & Hesr).
    rewrite Hes2 in X. injection X as <-. lra. }
  assert (HG : G_ (en (e_after e2)) = 0).
  { apply Gz. rewrite Hg. destruct (Nat.eqb_spec (layer_count (e_before e2)) 1) as [X|X]; [exact Ht0|].
    apply Tl2. destruct (layered_count _ (proj1 Hk)) as [[_ Y]|[_ Y]]; congruence. }
  assert (HG0 : G_0 (en (e_after e2)) = 0).
  { destruct (Nat.eq_dec (layer_count (e_before e2)) 1) as [X|X]; [rewrite <- (G1 X); exact HG|].
    assert (Y : layer_count (e_before e2) = 2%nat) by (destruct (layered_count _ (proj1 Hk)) as [[_ Y]|[_ Y]]; congruence).
    apply G2; [exact Y|]. rewrite (Tl2 Y). exact Ht0. }
  assert (HQ0 : delta_Q_0 (en (e_after e2)) < 0).
  { rewrite Hn in Mm. rewrite Hsn, Hlw, Ht0 in Rn. cbn [w_wind r_S_n r_I_lw] in Rn. rewrite Q0, HG0, Mm, Rn, EH, EL. lra. }
  assert (Hmelt : melt (e_after e2) = 0).
  { apply (C55_cold_snow_does_not_melt wQ (wpz 1) wcfg wic wmh false env c2 wQ_valid Hset Hr e2 He Hl); try lra.
    rewrite Hsec. nra. }
  assert (HEs : E_s (e_after e2) = 0).
  { destruct (Req_dec (E_s (e_after e2)) 0) as [|Hne]; [assumption|exfalso]. apply Hne.
    destruct (C56_vapour_exchange wQ (wpz 1) wcfg wic wmh false env c2 wQ_valid Hset Hr e2 He Hl (or_intror Hne) ltac:(lra) Hc0 Hcl)
      as (t & e3 & e4 & Ht3 & X1 & X2 & X3). rewrite X3.
    assert (t = 270). { destruct Ht3 as [->|[->|(Zl & ->)]]; try assumption. apply Htl. exact Zl. }
    subst t. rewrite Hg in *. rewrite X1 in X2. injection X2 as <-. unfold Rdiv at 3.
    rewrite EE, Rminus_eq_0. ring. }
  assert (Hpr : precip e2 = 0) by (unfold precip, precip_of; rewrite Hn; reflexivity).
  destruct (C54_packs_stay wQ (wpz 1) wcfg wic wmh false env c2 wQ_valid Hset Hr e2 He Hl) as (Hkept & _ & _).
  { cbn [wcfg cfg_small_thr]. lra. } { cbn [wcfg cfg_small_thr]. lra. } { lra. }
  destruct (C61_dry_pack_stores_the_energy wQ (wpz 1) wcfg wic wmh false env c2 wQ_valid Hset Hr e2 He Hkept Hl ltac:(lra) Hc0 Hcl Hn) as (_ & X).
  specialize (X Hh Hmelt).
  assert (Hcc : cc_s_0 (e_after e2) < 0) by (rewrite Hsec in X; nra).
  pose proof (C61_cold_shallow_pack_is_dry wQ (wpz 1) wcfg wic wmh false env c2 wQ_valid Hset Hr e2 He Hkept Hl ltac:(lra) Hc0 Hcl Hn ltac:(cbn; lra) Hcc) as (_ & Hd & _).
  exists env, c2, e1, e2. repeat (split; [assumption|]). assumption.
Qed.

Print Assumptions C71_law_of_a_run_step.
Print Assumptions C71_quiet_step.
