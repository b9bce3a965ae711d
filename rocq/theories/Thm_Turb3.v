(** * Theorem C70: the turbulent fluxes satisfy the flux-profile relations.

    Specification in Turb3.v ([Air], [profile], [obukhov_length], [close]).  C70_fluxes is about
    every call of the flux routine over the real numbers, C70_fluxes_of_a_run_step about every run
    step over snow of every run, as in Thm_Mass.v. *)
From Coq Require Import Reals String ZArith Bool Lia Lra List.
Import ListNotations.
From Verif Require Import Num Real Constants Functions Libsnobal Input SnowState Snobal PySnobal
  SchedSpec Sched Frame SchedProps Spec Averages Forcing Phys Turb Mass MassEnd RunMass Run Progress Progress2 Turb2 Turb3
  Thm_Forcing Thm_Turb Thm_Progress Thm_Turb2 Witness Witness2 Witness3.
Open Scope R_scope.

(** Whatever warm start it is given, a call that returns reports fluxes that satisfy the
    flux-profile relations for one Obukhov length [L], the length of an earlier approximation
    of the fluxes; the vapour pressure of the air is limited to saturation over water.  If the
    iteration passed its convergence test, the fluxes that gave [L] satisfy the relations for a
    length within 1e-5, absolutely and relatively, of [L]: the fluxes are self-consistent. *)
Theorem C70_fluxes P ta ts za ea es zq u zu z0 init_ustar init_factor r :
  hle1 P ta ts za ea es zq u zu z0 init_ustar init_factor = Ok r ->
  exists w L, satw ta = Ok w /\
    let a := air_over_snow P ta ts za (Rmin ea w) es zq u zu z0 in
    profile a L (hr_ustar r) (hr_h r) (hr_e r) /\ hr_le r = latent_heat ts * hr_e r /\
    hr_factor r = 41/100 * hr_ustar r * a_dens a /\
    exists ustar' h' e', obukhov_length a ustar' h' e' L /\
      (hr_conv r = true -> exists l l', L = Some l' /\ profile a (Some l) ustar' h' e' /\ close l l').
Proof. apply hle1_profile. Qed.

Section Runs.
Variable Q : RawInput R -> Prop.
Variables (p : Params R) (cfg : ModelCfg R) (ic : InitSnow R) (mh : Heights R) (all_mode : bool)
  (env : Env R) (c : Core R).
Hypothesis Hrun : model_run Q p cfg ic mh all_mode env c.

(** sensors are at fixed heights above the ground, so their height above the snow is less by its
    depth; the snow surface is saturated over ice; the air is limited to saturation, over ice below
    freezing ([sat]) *)
Theorem C70_fluxes_of_a_run_step e : In e (c_trace c) -> layer_count (e_before e) <> 0%nat ->
  let i := e_input e in let s := e_before e in
  let za := mh_z_t mh - z_s s in let zu := mh_z_u mh - z_s s in
  exists sat w es L ustar, sati (i_t_a i) = Ok sat /\ satw (i_t_a i) = Ok w /\ sati (t_s_0 s) = Ok es /\
    profile (air_over_snow (ev_P_a env) (i_t_a i) (t_s_0 s) za (Rmin (Rmin (i_e_a i) sat) w) es za (i_u i) zu (z_0 s))
      L ustar (H_ (en (e_after e))) (E_flux (e_after e)) /\
    L_v_E (en (e_after e)) = latent_heat (t_s_0 s) * E_flux (e_after e).
Proof using Hrun.
  intros He Hl i s za zu.
  assert (Hs : has_snow (e_before e) = true).
  { unfold has_snow. destruct (layer_count (e_before e)); [congruence|reflexivity]. }
  destruct (run_flux _ _ _ _ _ _ _ _ Hrun e He Hs) as (init & sat & es & r & _ & Hsat & Hes & Hr & -> & -> & ->).
  destruct (C70_fluxes _ _ _ _ _ _ _ _ _ _ _ _ _ Hr) as (w & L & Hw & Pr & Le & _).
  exists sat, w, es, L, (hr_ustar r). auto.
Qed.
End Runs.

(** ** The hypotheses are met *)
Example C70_witness : exists env c2 e1 e2, model_run wQ wp wcfg wic wmh false env c2 /\ c_trace c2 = [e1; e2] /\
  layer_count (e_before e2) <> 0%nat /\ i_u (e_input e2) = 3.
Proof.
  destruct (w_windy 3) as (env & c2 & e1 & e2 & w & es & Hr & Htr & Hs & Hu & _ & _ & _ & _ & _ & HP & Hn & Hg & Hl & _); [lra|].
  exists env, c2, e1, e2. auto.
Qed.

(** calls that converge exist; computed with binary64 numbers: stable air, wind 3 m/s *)
From Coq Require Import PrimFloat.
From Verif Require Import FloatNum.
Example C70_converging_call : exists r : hle1_res float,
  hle1 80000 275 270 5 400 400 5 3 5 0.0078125 None None = Ok r /\ hr_conv r = true.
Proof. eexists. split; [vm_compute; reflexivity|reflexivity]. Qed.

Print Assumptions C70_fluxes.
Print Assumptions C70_fluxes_of_a_run_step.
