(** * Theorem C57, conduction as formulas.

    About runs over the real numbers, as in Thm_Mass.v.  Units: W/m2, W/m/K, K, m, Pa. *)
From Coq Require Import Reals String ZArith Bool Lia Lra List.
Import ListNotations.
From Verif Require Import Num Real Constants Functions Libsnobal Input SnowState Snobal PySnobal
  SchedSpec Sched Frame SchedProps Spec Averages Forcing Phys Mass MassEnd RunMass Run Progress Progress2
  MeltEnergy Kept Thm_Mass Thm_Phys Thm_Forcing Thm_Energy Witness Witness2.
Open Scope R_scope.

(** latent heat that moves with vapour inside a layer: of vaporisation above freezing, of sublimation
    below it, their mean at freezing *)
Definition layer_latent_heat (t : R) : R :=
  if Rlt_dec freezing t then vaporisation_heat t
  else if Req_EM_T t freezing then (vaporisation_heat t + sublimation_heat t) / 2
  else sublimation_heat t.
(** conductivity of a layer at temperature [t] that conducts [k] when dry, and in which vapour at
    pressure [e] diffuses; [P] is the air pressure *)
Definition conductivity (k t P e : R) : R :=
  k + layer_latent_heat t * (65/100 * (1013246/10 / P) * (t / freezing) ^ 14 / 10000) * (180153/10000 / (289644/10000) * e / (P - e)).
(** dry snow of density [r] (Yen) *)
Definition conductivity_snow (r : R) : R := 4186798188/1000000000 * (77/10000) * (r / 1000) ^ 2.
(** heat flow from layer 2 to layer 1 between their midpoints: conductivities, temperatures, depths *)
Definition conduction (k1 k2 t1 t2 d1 d2 : R) : R := 2 * k1 * k2 * (t2 - t1) / (k2 * d1 + k1 * d2).

Lemma efcon_formula k t P e r : efcon k t P (Some e) = Ok r -> P <> 0 /\ r = conductivity k t P e.
Proof.
  unfold efcon, diffusion_coef, mix_ratio. consts. intros H.
  inv_bind H as de Hde. inv_bind Hde as q0 Hq0. inv_bind H as ee Hee. ok_inj Hee. subst ee. inv_bind H as q Hq. ok_inj H. ok_inj Hde. subst r de.
  apply pdiv_R in Hq0. destruct Hq0 as (HP & ->). apply pdiv_R in Hq. destruct Hq as (HPe & ->).
  split; [exact HP|]. rewrite npown_pow by (intros Hx; discriminate). unfold conductivity, layer_latent_heat.
  unfold lh_sub, lh_vap, lh_fus. consts. unfold sublimation_heat, vaporisation_heat in *. f_equal. f_equal. f_equal.
  - destruct (Rltb_spec (27316/100) t), (Rlt_dec freezing t); try lra.
    destruct (Reqb_spec t (27316/100)), (Req_EM_T t freezing); lra.
  - rn. set (x := (_ ^ 14)%R). field. exact HP.
Qed.

Section Runs.
Variable Q : RawInput R -> Prop.
Variables (p : Params R) (cfg : ModelCfg R) (ic : InitSnow R) (mh : Heights R) (all_mode : bool)
  (env : Env R) (c : Core R).
Hypothesis Hrun : model_run Q p cfg ic mh all_mode env c.

(** In every run step over snow, heat from the soil is conducted over half the bottom layer (the only
    one, or the lower of two; not taken to be warmer than freezing) and half the depth [mh_z_g] of soil,
    moist sand that conducts 1.65; heat from the lower to the surface layer over half of each. *)
Theorem C57_conduction_formulas e : In e (c_trace c) -> layer_count (e_before e) <> 0%nat ->
  let s := e_before e in let P := ev_P_a env in let x := en (e_after e) in
  let tg := i_t_g (e_input e) in let k := conductivity_snow (rho s) in
  let one := (layer_count s =? 1)%nat in
  let t := if one then t_s_0 s else t_s_l s in let d := if one then z_s_0 s else z_s_l s in
  (exists esnow esoil, sati t = Ok esnow /\ sati tg = Ok esoil /\
     G_ x = conduction (conductivity k (Rmin t freezing) P esnow) (conductivity (165/100) tg P esoil) (Rmin t freezing) tg d (mh_z_g mh)) /\
  (one = true -> G_0 x = G_ x) /\
  (one = false -> t_s_0 s = t_s_l s -> G_0 x = 0) /\
  (one = false -> t_s_0 s <> t_s_l s -> exists e0 el, sati (t_s_0 s) = Ok e0 /\ sati (t_s_l s) = Ok el /\
     G_0 x = conduction (conductivity k (t_s_0 s) P e0) (conductivity k (t_s_l s) P el) (t_s_0 s) (t_s_l s) (z_s_0 s) (z_s_l s)).
Proof using Hrun.
  intros He Hl s P x tg k one t d.
  pose proof (run_executes _ _ _ _ _ _ _ _ Hrun) as Hx. rewrite Forall_forall in Hx.
  destruct (Hx e He) as (init & s1 & i1 & init1 & Heb & Hmb).
  assert (Hmh : ev_heights env = mh).
  { destruct (reach_standard _ _ _ _ _ _ _ _ Hrun) as (_ & _ & c0 & _ & _ & _ & _ & X). exact X. }
  pose proof (mass_balance_frame _ _ _ _ _ _ Hmb) as (_ & Hfe & _). cbn [fst] in Hfe.
  unfold x. rewrite Hfe. unfold energy_balance in Heb.
  change (has_snow (set_h2o_total 0 (e_before e))) with (0 <? layer_count (e_before e))%nat in Heb.
  rewrite (proj2 (Nat.ltb_lt 0 _)) in Heb by lia.
  inv_bind Heb as [[[[h lve] ef] i2] init2] Hh. inv_bind Heb as [g g0] Hg. inv_bind Heb as m Hm.
  ok_inj Heb. injection Heb as <- <- <-. cbn [en set_E_flux set_en G_ G_0]. clear Hm Hmb Hfe.
  assert (Hc : i_t_g i2 = tg).
  { apply h_le_clip in Hh. destruct Hh as (sat & _ & [(_ & ->)|(_ & ->)]); reflexivity. }
  rewrite Hmh in Hg. unfold heat_transfer in Hg.
  change (layer_count (set_h2o_total 0 (e_before e))) with (layer_count s) in Hg. fold one in Hg.
  assert (HK : forall s0 : SnowState R, rho s0 = rho s -> @kts R RNum s0 = k).
  { intros s0 E. unfold kts. rewrite E. unfold k, conductivity_snow. consts. rn. field. }
  assert (HS : forall b r, g_soil P (mh_z_g mh) b i2 (set_h2o_total (nofZ 0) (e_before e)) = Ok r ->
     let t := if b then t_s_0 s else t_s_l s in let d := if b then z_s_0 s else z_s_l s in
     exists esnow esoil, sati t = Ok esnow /\ sati tg = Ok esoil /\
     r = conduction (conductivity k (Rmin t freezing) P esnow) (conductivity (165/100) tg P esoil) (Rmin t freezing) tg d (mh_z_g mh)).
  { intros b r Hs. unfold g_soil in Hs. rewrite Hc in Hs.
    change (t_s_0 (set_h2o_total _ _)) with (t_s_0 s) in Hs. change (t_s_l (set_h2o_total _ _)) with (t_s_l s) in Hs.
    change (z_s_0 (set_h2o_total _ _)) with (z_s_0 s) in Hs. change (z_s_l (set_h2o_total _ _)) with (z_s_l s) in Hs.
    rewrite HK in Hs by reflexivity. cbv zeta. set (tt := if b then t_s_0 s else t_s_l s) in *. set (dd := if b then z_s_0 s else z_s_l s) in *.
    inv_bind Hs as es Hes. cbv zeta in Hs.
    assert (Em : (if nltb FREEZE tt then FREEZE else tt) = Rmin tt freezing).
    { consts. destruct (Rltb_spec freezing tt); [rewrite Rmin_right by lra|rewrite Rmin_left by lra]; reflexivity. }
    rewrite Em in Hs. inv_bind Hs as eg Heg. inv_bind Hs as kg Hkg. inv_bind Hs as ks Hks.
    apply efcon_formula in Hkg. apply efcon_formula in Hks. destruct Hkg as (_ & ->), Hks as (_ & ->).
    exists es, eg. split; [exact Hes|]. split; [exact Heg|].
    unfold ssxfr in Hs. apply pdiv_R in Hs. destruct Hs as (Hne & ->). unfold conduction. consts.
    f_equal. ring. }
  destruct one eqn:E1; cbn [Nat.eqb] in Hg.
  - inv_bind Hg as g1 Hg1. ok_inj Hg. injection Hg as <- <-.
    split; [exact (HS true _ Hg1)|]. split; [reflexivity|]. split; discriminate.
  - inv_bind Hg as g1 Hg1. inv_bind Hg as g2 Hg2. ok_inj Hg. injection Hg as <- <-.
    split; [exact (HS false _ Hg1)|]. split; [discriminate|].
    unfold g_snow in Hg2. change (neqb _ _) with (Reqb (t_s_0 s) (t_s_l s)) in Hg2.
    change (t_s_0 (set_h2o_total _ _)) with (t_s_0 s) in Hg2. change (t_s_l (set_h2o_total _ _)) with (t_s_l s) in Hg2.
    change (z_s_0 (set_h2o_total _ _)) with (z_s_0 s) in Hg2. change (z_s_l (set_h2o_total _ _)) with (z_s_l s) in Hg2.
    rewrite HK in Hg2 by reflexivity.
    destruct (Reqb_spec (t_s_0 s) (t_s_l s)) as [Et|Et].
    + ok_inj Hg2. split; [intros _ _; symmetry; exact Hg2|]. intros _ X. contradiction.
    + split; [intros _ X; contradiction|]. intros _ _.
      inv_bind Hg2 as e0 He0. inv_bind Hg2 as k1 Hk1. inv_bind Hg2 as el Hel. inv_bind Hg2 as k2 Hk2.
      apply efcon_formula in Hk1. apply efcon_formula in Hk2. destruct Hk1 as (_ & ->), Hk2 as (_ & ->).
      exists e0, el. split; [exact He0|]. split; [exact Hel|].
      unfold ssxfr in Hg2. apply pdiv_R in Hg2. destruct Hg2 as (Hne & ->). unfold conduction. consts. f_equal. fold P. ring.
Qed.
End Runs.

(** ** The hypotheses are met: two layers over soil *)
Example C57_formulas_witness : exists env c e, model_run wQ wp wcfg wic wmh false env c /\ In e (c_trace c) /\
  layer_count (e_before e) <> 0%nat /\ i_t_g (e_input e) = 270 /\ rho (e_before e) = 100.
Proof.
  destruct (w_second (1/4) w_quarter) as (env & c2 & e1 & e2 & Hr & Htr & _ & Hl & _ & _ & _ & _ & Hrho & _ & _ & Hg & _).
  exists env, c2, e2. split; [exact Hr|]. split; [rewrite Htr; right; left; reflexivity|]. auto.
Qed.

Print Assumptions C57_conduction_formulas.
