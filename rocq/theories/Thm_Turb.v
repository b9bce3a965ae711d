(** * Theorems C29-C32, C48: the turbulent-flux routine. *)
From Coq Require Import Reals String ZArith Bool Lia Lra List.
Import ListNotations.
From Verif Require Import Num Real Constants Functions Libsnobal Input SnowState Snobal PySnobal
  SchedSpec Sched Frame SchedProps Spec Averages Forcing Phys Turb Mass MassEnd RunMass Run Thm_Forcing FloatNum.
Open Scope R_scope.

(** ** C29, for every number type *)
Theorem C29_status_is_always_zero {T} {N : Num T} press ta ts za ea es zq u zu z0 iu ifc (r : hle1_res T) :
  hle1 press ta ts za ea es zq u zu z0 iu ifc = Ok r -> hr_ier r = 0%Z.
Proof. intros H. apply hle1_inv in H. apply H. Qed.

Theorem C29_not_converged_is_never_raised {T} {N : Num T} P mh rel init i (s : SnowState T) :
  h_le P mh rel init i s <> Err NotConverged.
Proof. apply h_le_never_not_converged. Qed.

(** ** C30 *)
(** heights are given above the snow; [z0] is the roughness length; 9.80665/1005 K/m is the
    dry-adiabatic lapse rate *)
Definition potential_temperature (ta za : R) : R := ta + 980665/100000/1005 * za.

(** the inputs of a call: instruments more than 5.9 roughness lengths above the snow,
    temperatures in Kelvin, vapour pressures between 0 and the air pressure and not more than
    25 Pa above saturation over water ([w]), and some wind *)
Definition meaningful := turb_valid.

Theorem C30_neutral_stability_raises press ta ts za ea es zq u zu z0 w iu ifc :
  meaningful press ta ts za ea es zq u zu z0 w -> potential_temperature ta za = ts ->
  hle1 press ta ts za ea es zq u zu z0 iu ifc = Err UnboundLocal.
Proof. apply hle1_neutral. Qed.

(** ** C31 *)
Theorem C31_guards press ta ts za ea es zq u zu z0 iu ifc :
  (z0 <= 0 \/ zq <= z0 \/ zu <= z0 \/ za <= z0 \/ ta <= 0 \/ ts <= 0 \/
   ea <= 0 \/ es <= 0 \/ press <= ea \/ press <= es) ->
  exists m, hle1 press ta ts za ea es zq u zu z0 iu ifc = Err (ValueError m).
Proof. apply hle1_guards. Qed.

(** in the model: any run step over snow whose surface is within the roughness length of a
    sensor raises ValueError, whatever the weather *)
Theorem C31_buried_sensor_raises env ds ts c i d :
  deltas_at ds (ts_level ts) = Ok d -> ev_relative_hts env = false ->
  has_snow (c_ss c) = true -> 0 < i_t_a i -> 0 < t_s_0 (c_ss c) ->
  mh_z_u (ev_heights env) - z_s (c_ss c) <= z_0 (c_ss c) \/ mh_z_t (ev_heights env) - z_s (c_ss c) <= z_0 (c_ss c) ->
  exists m, do_tstep env ds ts c i = Err (ValueError m).
Proof.
  intros Hd Hrel Hs Hta Hts0 Hz. unfold do_tstep. rewrite Hd. cbn [bind].
  set (iu := if i_precip_now i then update_precip_deltas i d else i).
  assert (Ea : i_t_a iu = i_t_a i) by (unfold iu; destruct (i_precip_now i); reflexivity).
  unfold energy_balance. change (has_snow (set_h2o_total (nofZ 0) (c_ss c))) with (has_snow (c_ss c)). rewrite Hs.
  unfold h_le. rewrite Hrel, Ea.
  destruct (sati_defined (i_t_a i) Hta) as (sat & Hsat & _). rewrite Hsat. cbn [bind].
  change (t_s_0 (set_h2o_total (nofZ 0) (c_ss c))) with (t_s_0 (c_ss c)).
  change (z_s (set_h2o_total (nofZ 0) (c_ss c))) with (z_s (c_ss c)).
  change (z_0 (set_h2o_total (nofZ 0) (c_ss c))) with (z_0 (c_ss c)).
  destruct (sati_defined (t_s_0 (c_ss c)) Hts0) as (es & Hes & _). rewrite Hes. cbn [bind].
  match goal with |- context [hle1 ?a ?b ?c ?d ?e ?f ?g ?h ?i ?j ?k ?l] =>
    destruct (hle1_guards a b c d e f g h i j k l) as (m & Hm) end.
  { rn. tauto. }
  rewrite Hm. cbn [bind]. eauto.
Qed.

(** ** C32.  Stable air at least as humid as the surface: the call returns, heat and vapour go
    to the surface. *)
Theorem C32_stable_air press ta ts za ea es zq u zu z0 w iu ifc :
  meaningful press ta ts za ea es zq u zu z0 w ->
  ts < potential_temperature ta za -> es <= ea -> es <= w ->
  (forall v, iu = Some v -> 0 < v) -> (forall v, ifc = Some v -> 0 < v) ->
  exists r, hle1 press ta ts za ea es zq u zu z0 iu ifc = Ok r /\
    0 < hr_h r /\ 0 <= hr_e r /\ (es < ea -> es < w -> 0 < hr_e r) /\ 0 < hr_ustar r /\ 0 < hr_factor r.
Proof.
  intros V H1 H2 H3 H4 H5.
  destruct (hle1_stable _ _ _ _ _ _ _ _ _ _ _ iu ifc V H1 ltac:(apply Rmin_glb; assumption) H4 H5)
    as (r & Hr & A & B & C & _ & D & E & _).
  exists r. repeat split; try assumption. intros. apply C. apply Rmin_glb_lt; assumption.
Qed.

Theorem C32_latent_heat_has_the_sign_of_the_vapour_flux press ta ts za ea es zq u zu z0 iu ifc r :
  hle1 press ta ts za ea es zq u zu z0 iu ifc = Ok r -> ts <= 27316/100 + 60 ->
  (0 < hr_e r -> 0 < hr_le r) /\ (hr_e r < 0 -> hr_le r < 0) /\ (hr_e r = 0 -> hr_le r = 0).
Proof.
  intros H Ht. destruct (latent_sign _ _ _ _ _ _ _ _ _ _ _ _ _ H Ht) as (k & Hk & ->).
  repeat split; intros; nra.
Qed.

(** the warm-start values the model passes on are positive, so C32 applies again *)
Theorem C32_in_the_model P mh init i s w es sat :
  satw (i_t_a i) = Ok w -> sati (i_t_a i) = Ok sat -> sati (t_s_0 s) = Ok es ->
  meaningful P (i_t_a i) (t_s_0 s) (mh_z_t mh - z_s s) (Rmin (i_e_a i) sat) es (mh_z_t mh - z_s s) (i_u i)
    (mh_z_u mh - z_s s) (z_0 s) w ->
  t_s_0 s < potential_temperature (i_t_a i) (mh_z_t mh - z_s s) ->
  es <= i_e_a i -> es <= sat -> es <= w -> t_s_0 s <= 27316/100 ->
  (forall v, fst init = Some v -> 0 < v) -> (forall v, snd init = Some v -> 0 < v) ->
  exists h lve e i' ustar factor, h_le P mh false init i s = Ok (h, lve, e, i', (Some ustar, Some factor)) /\
    0 < h /\ 0 <= e /\ 0 <= lve /\ 0 < ustar /\ 0 < factor.
Proof.
  intros Hw Hsat Hes V Hst H1 H2 H3 HT I1 I2. unfold h_le. rewrite Hsat. cbn [bind]. rewrite Hes. cbn [bind].
  set (i' := if nltb sat (i_e_a i) then set_e_a sat i else i).
  assert (E : i_t_a i' = i_t_a i /\ i_u i' = i_u i /\ i_e_a i' = Rmin (i_e_a i) sat).
  { unfold i'. change (nltb sat (i_e_a i)) with (Rltb sat (i_e_a i)). destruct (Rltb_spec sat (i_e_a i)); cbn.
    - rewrite Rmin_right by lra. auto.
    - rewrite Rmin_left by lra. auto. }
  destruct E as (-> & -> & ->).
  destruct (C32_stable_air _ _ _ _ _ _ _ _ _ _ _ (fst init) (snd init) V Hst ltac:(apply Rmin_glb; assumption) H3 I1 I2)
    as (r & Hr & A & B & _ & D & F). rn. rewrite Hr. cbn [bind].
  rewrite (C29_status_is_always_zero _ _ _ _ _ _ _ _ _ _ _ _ _ Hr). cbn [Z.eqb negb].
  do 6 eexists. split; [reflexivity|]. repeat split; try assumption.
  destruct (latent_sign _ _ _ _ _ _ _ _ _ _ _ _ _ Hr ltac:(lra)) as (k & Hk & ->). apply Rmult_le_pos; lra.
Qed.

(** ** C48: the neutral closed form is an upper bound in stable air.  [log_height z z0] is
    ln((z - d0)/z0) with d0 = 2*7.35*z0/3; 0.41 is von Karman's constant, 1005 the heat capacity
    of air. *)
Definition neutral_ustar (u zu z0 : R) : R := 41/100 * u / log_height zu z0.
Definition neutral_heat (dens u ta ts za zu z0 : R) : R :=
  dens * 1005 * (41/100) * neutral_ustar u zu z0 * (potential_temperature ta za - ts) / log_height za z0.
Definition neutral_vapour (dens u qa qs zq zu z0 : R) : R :=
  dens * (41/100) * neutral_ustar u zu z0 * (qa - qs) / log_height zq z0.

Theorem C48_stable_fluxes_stay_below_neutral press ta ts za ea es zq u zu z0 w iu ifc r :
  meaningful press ta ts za ea es zq u zu z0 w ->
  ts < potential_temperature ta za -> es <= ea -> es <= w ->
  (forall v, iu = Some v -> 0 < v) -> (forall v, ifc = Some v -> 0 < v) ->
  hle1 press ta ts za ea es zq u zu z0 iu ifc = Ok r ->
  exists dens qa qs, mean_density press ta ts za ea es w dens /\
    spec_hum (Rmin ea w) press = Ok qa /\ spec_hum es press = Ok qs /\
    hr_ustar r < neutral_ustar u zu z0 /\ hr_h r < neutral_heat dens u ta ts za zu z0 /\
    hr_e r <= neutral_vapour dens u qa qs zq zu z0.
Proof.
  intros V H1 H2 H3 H4 H5 Hr.
  destruct (hle1_stable _ _ _ _ _ _ _ _ _ _ _ iu ifc V H1 ltac:(apply Rmin_glb; assumption) H4 H5)
    as (r' & Hr' & _ & _ & _ & _ & _ & _ & dens & qa & qs & D & _ & Qa & Qs & B1 & B2 & B3).
  rewrite Hr in Hr'. injection Hr' as <-. exists dens, qa, qs.
  split; [assumption|]. split; [assumption|]. split; [assumption|]. unfold neutral_heat, neutral_vapour, neutral_ustar.
  split; [assumption|]. unfold potential_temperature in *. split.
  - eapply Rlt_le_trans; [exact B2|]. right. unfold Rdiv. ring.
  - eapply Rle_trans; [exact B3|]. right. unfold Rdiv. ring.
Qed.

(** ** The hypotheses are met: 5 m sensors over a cold snow surface *)
Lemma w_meaningful ts : 0 < ts -> exists w, meaningful 80000 274 ts 5 (w/2) (w/4) 5 2 5 (1/100) w.
Proof.
  intros Hts. destruct (satw_incr 274 (37315/100)) as (w & b & Hw & Hb & Hlt); [lra|lra|lra|].
  rewrite satw_at_boiling in Hb. injection Hb as <-. pose proof (satw_pos _ _ Hw) as Hpos.
  exists w. split; try lra. assumption.
Qed.
Example C30_witness : exists ts w, meaningful 80000 274 ts 5 (w/2) (w/4) 5 2 5 (1/100) w /\
  potential_temperature 274 5 = ts.
Proof.
  destruct (w_meaningful (potential_temperature 274 5)) as (w & Hw); [unfold potential_temperature; lra|eauto].
Qed.
Example C32_C48_witness : exists w r, meaningful 80000 274 270 5 (w/2) (w/4) 5 2 5 (1/100) w /\
  270 < potential_temperature 274 5 /\ w/4 <= w/2 /\ w/4 <= w /\
  hle1 80000 274 270 5 (w/2) (w/4) 5 2 5 (1/100) None None = Ok r.
Proof.
  destruct (w_meaningful 270) as (w & Hw); [lra|]. pose proof (satw_pos _ _ (tv_w _ _ _ _ _ _ _ _ _ _ _ Hw)) as Hpos.
  assert (Hst : 270 < potential_temperature 274 5) by (unfold potential_temperature; lra).
  destruct (C32_stable_air _ _ _ _ _ _ _ _ _ _ _ None None Hw Hst) as (r & Hr & _); try lra; try discriminate.
  exists w, r. split; [assumption|]. split; [assumption|]. split; [lra|]. split; [lra|assumption].
Qed.

(** ** C29, C49 on binary64: fifty iterations can end without convergence, and what is then
    returned with status 0 can have the wrong direction and size *)
Section Float.
Import Floats.
Open Scope float_scope.
(** air 20 K colder and drier than the surface, light wind *)
Definition w_unstable := hle1 (T:=float) 80000 250 270 5 100 400 5 0.5 5 0.0078125 None None.

Theorem C29_unconverged_calls_return_normally :
  exists r, w_unstable = Ok r /\ hr_conv r = false /\ hr_ier r = 0%Z.
Proof. eexists. split; [vm_compute; reflexivity|]. split; reflexivity. Qed.

(** more than 5000 W/m2 towards the warmer surface, and vapour towards the more humid one *)
Theorem C49_unconverged_fluxes_can_go_the_wrong_way :
  exists (press ta ts za ea es zq u zu z0 : float) r,
    hle1 press ta ts za ea es zq u zu z0 None None = Ok r /\ hr_ier r = 0%Z /\
    (ta + DALR * za <? ts) = true /\ (ea <? es) = true /\ (5000 <? hr_h r) = true /\ (0 <? hr_e r) = true.
Proof.
  exists 80000, 250, 270, 5, 100, 400, 5, 0.5, 5, 0.0078125.
  eexists. split; [vm_compute; reflexivity|]. repeat split.
Qed.
End Float.
Print Assumptions C29_unconverged_calls_return_normally.
Print Assumptions C49_unconverged_fluxes_can_go_the_wrong_way.
Print Assumptions C29_status_is_always_zero.
Print Assumptions C29_not_converged_is_never_raised.
Print Assumptions C30_neutral_stability_raises.
Print Assumptions C31_guards.
Print Assumptions C31_buried_sensor_raises.
Print Assumptions C32_stable_air.
Print Assumptions C32_latent_heat_has_the_sign_of_the_vapour_flux.
Print Assumptions C32_in_the_model.
Print Assumptions C48_stable_fluxes_stay_below_neutral.
