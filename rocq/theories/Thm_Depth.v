(** * Theorems C68, C69: the depth of the snow, and what a new pack is made of.

    About runs over the real numbers, as in Thm_Mass.v: [c_trace c] lists every run step executed so
    far, with the forcing it used and the snow state before and after it.  Units: m, kg/m2, kg/m3, K, s.
    600 kg/m3 is the largest density the model lets snow have. *)
From Coq Require Import Reals String ZArith Bool Lia Lra List.
Import ListNotations.
From Verif Require Import Num Real Constants Functions Libsnobal Input SnowState Snobal PySnobal
  SchedSpec Sched Frame SchedProps Spec Averages Forcing Phys Mass MassEnd RunMass Run Progress Progress2
  MeltEnergy Kept Depth Thm_Mass Thm_Forcing Thm_Energy Thm_Water Thm_Turb2 Witness Witness2 Witness3.
Open Scope R_scope.
Implicit Types s : SnowState R.

(** new snow of a run step [m] and rain of a run step [kg/m2] *)
Definition new_snow (e : Event R) : R := if i_precip_now (e_input e) then i_z_snow (e_input e) else 0.
Definition rain (e : Event R) : R := if i_precip_now (e_input e) then i_m_rain (e_input e) else 0.

Lemma soil_evap_nonpos P zg ts i s t E : 0 < zg -> 61071/100 < P -> (0 < ts)%Z -> layered s ->
  (layer_count s = 1%nat -> t = t_s_0 s) -> (layer_count s = 2%nat -> t = t_s_l s) ->
  i_t_g i <= t <= 27316/100 -> soil_evap P zg ts i s = Ok E -> E <= 0.
Proof.
  intros Hzg HP Hts L H1 H2 (Hg & Hf) H. apply IZR_lt in Hts. unfold soil_evap in H.
  assert (G : (let* '(e_s, t_bar) := (let* e := sati t in Ok (e, (i_t_g i + t) / 2)) in
     let* q_s_l := spec_hum e_s P in
     let* e_g := sati (i_t_g i) in
     let* q_g := spec_hum e_g P in
     let* rho_air := gas_density P MOL_AIR t_bar in
     let* k := diffusion_coef P t_bar in
     let* E_l := vapor_flux rho_air k (q_g - q_s_l) zg in
     Ok (E_l * IZR ts)) = Ok E).
  { destruct (layered_count s L) as [[_ Lc]|[_ Lc]]; rewrite Lc in H; cbn [Nat.eqb] in H;
      [rewrite (H1 Lc)|rewrite (H2 Lc)]; exact H. }
  clear H. inv_bind G as [es tb] G1. inv_bind G1 as es' Hes. ok_inj G1. injection G1 as <- <-.
  inv_bind G as qs Hqs. inv_bind G as eg Heg. inv_bind G as qg Hqg. inv_bind G as ra Hra. inv_bind G as k Hkk. inv_bind G as f Hf'.
  ok_inj G. subst E.
  pose proof (sati_ok_pos _ _ Heg) as Pg. pose proof (sati_ok_pos _ _ Hes) as Pt.
  destruct (sati_snow t (conj Pt Hf)) as (es2 & Hes2 & Hr2). rewrite Hes in Hes2. injection Hes2 as <-.
  pose proof (sati_pos _ _ Heg) as Peg.
  assert (Hle : eg <= es').
  { destruct (Req_dec (i_t_g i) t) as [E|E].
    - rewrite E in Heg. rewrite Heg in Hes. injection Hes as ->. lra.
    - destruct (sati_incr (i_t_g i) t Pg ltac:(lra) Hf) as (a & b & Ha & Hb & Hab).
      rewrite Heg in Ha. rewrite Hes in Hb. injection Ha as <-. injection Hb as <-. lra. }
  assert (Hq : qg <= qs).
  { destruct (Req_dec eg es') as [E|E]; [rewrite E in Hqg; rewrite Hqg in Hqs; injection Hqs as ->; lra|].
    destruct (spec_hum_incr eg es' P Peg ltac:(lra) ltac:(lra)) as (a & b & Ha & Hb & Hab).
    rewrite Hqg in Ha. rewrite Hqs in Hb. injection Ha as <-. injection Hb as <-. lra. }
  unfold vapor_flux in Hf'. inv_bind Hf' as q Hqq. ok_inj Hf'. subst f. apply pdiv_R in Hqq. destruct Hqq as (_ & ->).
  unfold diffusion_coef in Hkk. inv_bind Hkk as q Hqq. ok_inj Hkk. subst k. apply pdiv_R in Hqq. destruct Hqq as (_ & ->).
  unfold gas_density in Hra. apply pdiv_R in Hra. destruct Hra as (_ & ->).
  set (tb := (i_t_g i + t) / 2). assert (Htb : 0 < tb) by (unfold tb; lra). consts.
  assert (Hn : 0 < npown (tb / (27316/100)) 14). { apply npown_pos. apply Rdiv_lt_0_compat; lra. }
  set (A := npown _ 14) in *.
  assert (X : (qg - qs) / zg <= 0).
  { assert (0 < / zg) by (apply Rinv_0_lt_compat; assumption). unfold Rdiv. nra. }
  set (x := (qg - qs) / zg) in *. clearbody x A.
  assert (Y1 : 0 < P * (289644/10000) / (831432/100 * tb)) by (apply Rdiv_lt_0_compat; nra).
  assert (Y2 : 0 < 65/100 * (1013246/10/P) * A * (1/100*(1/100))).
  { assert (0 < 1013246/10/P) by (apply Rdiv_lt_0_compat; lra). repeat apply Rmult_lt_0_compat; lra. }
  match goal with |- ?a * ?b * _ * _ <= 0 => set (u := a) in *; set (v := b) in * end.
  assert (0 < u * v) by (apply Rmult_lt_0_compat; assumption).
  assert (u * v * x <= 0) by nra. nra.
Qed.

Section Runs.
Variable Q : RawInput R -> Prop.
Variables (p : Params R) (cfg : ModelCfg R) (ic : InitSnow R) (mh : Heights R) (all_mode : bool)
  (env : Env R) (c : Core R).
Hypothesis HQ : forall r, Q r -> valid_record r.
Hypothesis Hv : valid_setup p cfg ic.
Hypothesis Hrun : model_run Q p cfg ic mh all_mode env c.

(** ** C68 *)
(** Over snow, the depth grows at most by the new snow, by 1 m for each 600 kg/m2 of rain, and by the
    vapour deposited from the air and from the soil at the density of the snow. *)
Lemma depth_step e r : In e (c_trace c) -> layer_count (e_before e) <> 0%nat ->
  0 < r <= rho (e_before e) -> rho (e_before e) <= 600 ->
  (i_precip_now (e_input e) = true -> 0 < i_m_snow (e_input e) -> r <= i_rho_snow (e_input e) <= 600) ->
  exists air soil, E_s (e_after e) = air + soil /\
    z_s (e_after e) <= z_s (e_before e) + new_snow e + rain e / 600 + (Rmax 0 air + Rmax 0 soil) / r /\
    (e_kept e = true -> air = E_flux (e_after e) * seconds e /\
       exists i1 s3, (i1 = e_input e \/ exists v, i1 = set_e_a v (e_input e)) /\
         soil_evap (ev_P_a env) (mh_z_g mh) (ts_time_step (e_tstep e)) i1 s3 = Ok soil /\
         layered s3 /\ same_temps (e_before e) s3) /\
    (e_kept e = false -> z_s (e_after e) <= new_snow e).
Proof using HQ Hv Hrun.
  intros He Hl Hr H600 Hpp.
  pose proof (run_executes _ _ _ _ _ _ _ _ Hrun) as Hx. rewrite Forall_forall in Hx.
  destruct (Hx e He) as (init & s1 & i1 & init1 & Heb & Hmb).
  destruct (event_facts Q p cfg ic mh all_mode env c HQ Hv Hrun e He) as ([Hp Hh Hpk] & _ & O & (rr & Hq & i0 & _ & _ & _ & Hts & _) & _).
  destruct Hpk as [Hk|Hb]; [|exfalso; apply Hl; apply bare_count; assumption].
  pose proof (event_input Q p cfg ic mh all_mode env c HQ Hv Hrun e He) as V.
  pose proof (packed_z_pos _ Hk) as Hz.
  assert (Hns : 0 <= new_snow e /\ 0 <= rain e / 600).
  { unfold new_snow, rain. destruct (i_precip_now (e_input e)) eqn:En; [destruct (V En)|]; split; lra. }
  destruct (e_kept e) eqn:Ek.
  - rewrite (layered_has_snow _ (proj1 Hk)) in Hmb.
    pose proof (energy_balance_frame _ _ _ _ _ _ _ _ Heb) as (Es1 & Hic).
    pose proof (mass_balance_frame _ _ _ _ _ _ Hmb) as (_ & Hfe & _ & Hfx & _). cbn [fst] in Hfe, Hfx.
    assert (E1 : s1 = set_E_flux (E_flux (e_after e)) (set_en (en (e_after e)) (set_h2o_total 0 (e_before e)))).
    { rewrite Hfe, Hfx. exact Es1. }
    assert (Hvi : input_valid i1).
    { destruct Hic as [->|[v ->]]; [assumption|]. intros Hn. destruct (V Hn). split; assumption. }
    assert (Hp1 : params_ok s1) by (rewrite E1; destruct Hp; split; assumption).
    assert (Hk1 : packed s1) by (rewrite E1; destruct Hk as [[] ?]; split; [split|]; assumption).
    assert (Hpp1 : i_precip_now i1 = true -> 0 < i_m_snow i1 -> r <= i_rho_snow i1 <= 600).
    { destruct Hic as [->|[v ->]]; exact Hpp. }
    assert (Hfd : fall_depth i1 = new_snow e + rain e / 600).
    { unfold fall_depth, new_snow, rain. destruct Hic as [->|[v ->]]; cbn [set_e_a i_precip_now i_z_snow i_m_rain];
        destruct (i_precip_now (e_input e)); lra. }
    assert (Hmh : ev_heights env = mh).
    { destruct (reach_standard _ _ _ _ _ _ _ _ Hrun) as (_ & _ & c0 & _ & _ & _ & _ & X). exact X. }
    rewrite Hmh in Hmb.
    destruct (mass_balance_depth _ _ _ _ s1 _ r Hts Hvi Hp1 Hk1 ltac:(rewrite E1; exact Hh) ltac:(rewrite E1; reflexivity)
       ltac:(rewrite E1; exact H600) ltac:(rewrite E1; exact Hr) Hpp1 Hmb) as (s3 & El & HEl & L3 & TT & HE & HZ).
    rewrite E1 in HE, HZ, TT. cbn [E_flux set_E_flux z_s set_en set_h2o_total] in HE, HZ.
    exists (E_flux (e_after e) * seconds e), El. split; [exact HE|]. split; [rewrite Hfd in HZ; unfold seconds; lra|].
    split; [|discriminate]. intros _. split; [reflexivity|]. exists i1, s3. auto.
  - exists (E_s (e_after e)), 0. split; [lra|].
    assert (Hend : z_s (e_after e) <= new_snow e).
    { destruct O as [(_ & _ & _ & [(A & _)|(_ & mc & w & K)])|(Hb & _)]; [congruence| |].
      - destruct (cl_end _ _ _ _ _ K) as [(_ & _ & _ & [A|(A & _)])|(Hn & _)]; [lra|lra|].
        rewrite (np_z _ _ Hn). destruct (np_precip _ _ Hn) as (En & _). unfold new_snow. rewrite En. lra.
      - exfalso. apply Hl. apply bare_count; assumption. }
    split; [|split; [discriminate|intros _; exact Hend]].
    assert (0 <= (Rmax 0 (E_s (e_after e)) + Rmax 0 0) / r).
    { pose proof (Rmax_l 0 (E_s (e_after e))). pose proof (Rmax_l 0 0).
      apply Rmult_le_pos; [lra|apply Rlt_le, Rinv_0_lt_compat; lra]. }
    lra.
Qed.

Theorem C68_depth_grows_only_by_what_is_added e r : In e (c_trace c) -> layer_count (e_before e) <> 0%nat ->
  0 < r <= rho (e_before e) -> rho (e_before e) <= 600 ->
  (i_precip_now (e_input e) = true -> 0 < i_m_snow (e_input e) -> r <= i_rho_snow (e_input e) <= 600) ->
  exists air soil, E_s (e_after e) = air + soil /\
    (e_kept e = true -> air = E_flux (e_after e) * seconds e) /\
    z_s (e_after e) <= z_s (e_before e) + new_snow e + rain e / 600 + (Rmax 0 air + Rmax 0 soil) / r.
Proof using HQ Hv Hrun.
  intros He Hl Hr H600 Hpp. destruct (depth_step e r He Hl Hr H600 Hpp) as (a & b & A & B & C & _).
  exists a, b. split; [exact A|]. split; [intros X; apply C; exact X|exact B].
Qed.

(** a run step that adds nothing: no precipitation, no vapour from the air, soil no warmer than the snow *)
Definition adds_nothing (e : Event R) : Prop :=
  i_precip_now (e_input e) = false /\
  (layer_count (e_before e) <> 0%nat -> 0 < rho (e_before e) <= 600 /\ E_flux (e_after e) <= 0 /\
     forall t, t = t_s (e_before e) \/ t = t_s_0 (e_before e) \/ (0 < z_s_l (e_before e) /\ t = t_s_l (e_before e)) ->
       i_t_g (e_input e) <= t <= 27316/100).

Lemma dry_step e : 0 < mh_z_g mh -> 61071/100 < ev_P_a env -> In e (c_trace c) -> adds_nothing e ->
  z_s (e_after e) <= z_s (e_before e).
Proof using HQ Hv Hrun.
  intros Hzg HP He (Hn & Hs).
  destruct (event_facts Q p cfg ic mh all_mode env c HQ Hv Hrun e He) as ([Hp Hh Hpk] & _ & O & (rr & Hq & i0 & _ & _ & _ & Hts & _) & _).
  destruct (Nat.eq_dec (layer_count (e_before e)) 0) as [Hl|Hl].
  - destruct O as [(Hk & _)|(Hb & Hf & He0 & Hm & HE & _ & Hc)].
    + exfalso. destruct (layered_count _ (proj1 Hk)) as [[_ E]|[_ E]]; congruence.
    + destruct Hc as [(Hb' & A & B & Z & _)|[(Hb' & A & B & Z & Hn' & _)|(Hnew & Hw)]]; [lra|congruence|].
      destruct (np_precip _ _ Hnew). congruence.
  - destruct (Hs Hl) as (Hr & HE & Ht). destruct Hpk as [Hk|Hb]; [|exfalso; apply Hl; apply bare_count; assumption].
    pose proof (packed_z_pos _ Hk) as Hz.
    destruct (depth_step e (rho (e_before e)) He Hl ltac:(lra) ltac:(lra) ltac:(congruence)) as (air & soil & A & B & C & D).
    unfold new_snow, rain in *. rewrite Hn in *. destruct (e_kept e) eqn:Ek; [|specialize (D eq_refl); lra].
    destruct (C eq_refl) as (Ea & i1 & s3 & Hi & Hse & L3 & (T1 & T2 & T3)).
    assert (Hg : i_t_g i1 = i_t_g (e_input e)) by (destruct Hi as [->|(v & ->)]; reflexivity).
    assert (Hsoil : soil <= 0).
    { destruct (layered_count s3 L3) as [[Zl Lc]|[Zl Lc]].
      - refine (soil_evap_nonpos _ _ _ _ s3 (t_s_0 s3) _ Hzg HP Hts L3 _ _ _ Hse); [reflexivity|congruence|].
        rewrite Hg. apply Ht. right; left. exact T2.
      - refine (soil_evap_nonpos _ _ _ _ s3 (t_s_l s3) _ Hzg HP Hts L3 _ _ _ Hse); [congruence|reflexivity|].
        rewrite Hg. apply Ht. destruct (T3 Zl) as [X|X]; [right; right; exact X|left; exact X]. }
    assert (Hair : air <= 0). { rewrite Ea. unfold seconds. apply IZR_lt in Hts. nra. }
    rewrite !Rmax_left in B by assumption. unfold Rdiv in B. rewrite !Rplus_0_l, !Rmult_0_l in B. lra.
Qed.

(** In any spell of consecutive run steps that add nothing, the depth never increases. *)
Theorem C68_depth_never_grows_in_a_dry_spell before spell after first last :
  0 < mh_z_g mh -> 61071/100 < ev_P_a env ->
  c_trace c = before ++ spell ++ after -> Forall adds_nothing spell ->
  hd_error spell = Some first -> hd_error (rev spell) = Some last ->
  z_s (e_after last) <= z_s (e_before first).
Proof using HQ Hv Hrun.
  intros Hzg HP Htr Hf Hh Hl.
  assert (Hch : exists s t s' t', chain s t (before ++ spell ++ after) s' t').
  { destruct Hrun as (info & c0 & Hp & Hi & Hr).
    destruct (run_has_facts _ _ _ _ _ _ _ _ _ _ HQ Hv Hp Hi Hr) as [Hch _ _ _]. rewrite Htr in Hch. eauto. }
  destruct Hch as (s & t & s' & t' & Hch).
  assert (Hsp : forall l1 l2 s t s' t', chain (T:=R) s t (l1 ++ l2) s' t' -> exists s1 t1, chain s1 t1 l2 s' t').
  { clear. induction l1 as [|e l1 IH]; intros l2 s t s' t' H; [eauto|]. inversion H; subst. eauto. }
  destruct (Hsp _ _ _ _ _ _ Hch) as (s1 & t1 & Hch1). clear Hch Hsp.
  assert (Hin : forall e, In e spell -> z_s (e_after e) <= z_s (e_before e)).
  { intros e He. apply dry_step; try assumption.
    - rewrite Htr. apply in_or_app. right. apply in_or_app. left. exact He.
    - rewrite Forall_forall in Hf. auto. }
  clear Htr Hf before. revert s1 t1 first Hch1 Hh Hin Hl.
  induction spell as [|e l IH]; intros s1 t1 first Hch1 Hh Hin Hl; [discriminate|]. injection Hh as <-.
  inversion Hch1 as [|e' evs s2 s'' t'' Hss Hc2]; subst.
  destruct l as [|e2 l].
  - injection Hl as <-. apply Hin. left; reflexivity.
  - assert (Hl2 : hd_error (rev (e2 :: l)) = Some last).
    { cbn [rev] in Hl |- *. destruct (rev l ++ [e2]) as [|x y] eqn:E; [destruct (rev l); discriminate|exact Hl]. }
    apply Rle_trans with (z_s (e_before e2)).
    + exact (IH _ _ e2 Hc2 eq_refl (fun e He => Hin e (or_intror He)) Hl2).
    + pose proof (Hin e (or_introl eq_refl)). inversion Hc2; subst.
      destruct Hss as (b1 & m1 & e1 & w1 & ->). exact H.
Qed.

(** ** C69 *)
(** Heat that [m] kg/m2 of ice at [t] K need to reach the melting point, as a negative number [J/m2]. *)
Definition cold_of (t m : R) : R := c_ice t * m * (t - 27316/100).
(** Density of snow of density [rho] without its liquid water, if [w] kg/m3 are the water in the pore space of
    the snow and the pore space is what ice of density 917 kg/m3 leaves free. *)
Definition dry_of (rho w : R) : R := (rho - w) / (1 - w / 917).

(** A pack that appears in a run step on bare ground is made of that step's snowfall: its depth, density
    and mass are the snowfall's, its temperatures the snow's, its saturation that of the falling snow;
    its cold content is that of ice of its mass at that temperature, layer by layer; the water it can
    hold is the configured share of its pores, and it holds the snowfall's share of that. *)
Theorem C69_a_new_pack_is_the_snowfall e : In e (c_trace c) ->
  layer_count (e_before e) = 0%nat -> layer_count (e_after e) <> 0%nat ->
  let i := e_input e in let s := e_after e in
  i_precip_now i = true /\ 0 < i_m_snow i /\
  z_s s = i_z_snow i /\ rho s = i_rho_snow i /\ m_s s = i_m_snow i /\
  t_s s = i_t_snow i /\ t_s_0 s = i_t_snow i /\ (0 < z_s_l s -> t_s_l s = i_t_snow i) /\
  i_t_snow i <= 27316/100 /\
  cc_s_0 s = cold_of (i_t_snow i) (m_s_0 s) /\ cc_s_l s = cold_of (i_t_snow i) (m_s_l s) /\
  h2o_max s = p_max_h2o_vol p * z_s s * (99987/100) *
                (1 - dry_of (rho s) (h2o_sat s * p_max_h2o_vol p * (99987/100)) / 917) /\
  h2o_sat s = i_h2o_sat_snow i /\ h2o s = i_h2o_sat_snow i * h2o_max s /\
  cfg_small_thr cfg < m_s s /\
  melt s = 0 /\ E_s s = 0 /\ e_kept e = false.
Proof using HQ Hv Hrun.
  intros He H1 H2 i s. destruct (event_facts Q p cfg ic mh all_mode env c HQ Hv Hrun e He) as (_ & So & O & _ & _ & Cf).
  assert (H21 : 0 < m_s s -> t_s s <= 27316/100).
  { intros Hm. apply (C21_snow_is_never_warmer_than_freezing _ _ _ _ _ _ _ _ HQ Hv Hrun e He); [intros; congruence|exact Hm]. }
  destruct O as [(Hk & _)|(Hb & Hf & He0 & Hm & HE & _ & Hc)].
  - exfalso. destruct (layered_count _ (proj1 Hk)) as [[_ E]|[_ E]]; congruence.
  - destruct Hc as [(Hb' & _)|[(Hb' & _)|([N1 (N2 & N2b) N3 N4 N5 (N6 & N6b & N6c) N7 N8 N9 N10 N11 (N12 & N12l) (dry & D1 & D2)] & Hw)]];
      [exfalso; apply H2; apply bare_count; assumption|exfalso; apply H2; apply bare_count; assumption|].
    fold s in H21, So, Cf, N1, N3, N4, N5, N6, N6b, N6c, N8, N9, N10, N11, N12, N12l, D1, D2 |- *. fold i in N2, N2b, N3, N4, N5, N6, N6b, N6c, N8, N10, N12, N12l, D1, D2 |- *.
    assert (Ht : i_t_snow i <= 27316/100) by (rewrite <- N6; apply H21; lra).
    assert (Hcc : forall m, cold_content (i_t_snow i) m = cold_of (i_t_snow i) m).
    { intros m. unfold cold_content, cold_of. rewrite cp_ice_c. unfold heat_stor. consts. rn.
      destruct (Rltb_spec (i_t_snow i) (27316/100)); [reflexivity|].
      replace (i_t_snow i - 27316/100) with 0 by lra. ring. }
    destruct Cf as (Cf1 & Cf2 & Cf3). destruct (so_params _ So) as [Q1 Q2 Q3 Q4].
    destruct (event_input Q p cfg ic mh all_mode env c HQ Hv Hrun e He N2) as [_ _ _ _ _ V6 _ _]. fold i in V6.
    assert (Hcap : h2o_max s = p_max_h2o_vol p * z_s s * (99987/100) *
                (1 - dry_of (rho s) (h2o_sat s * p_max_h2o_vol p * (99987/100)) / 917)).
    { rewrite <- Cf3, N8, N4, N5. rewrite D2. unfold h2o_left. consts. rn.
      set (w := i_h2o_sat_snow i * max_h2o_vol s * (99987/100)) in *.
      assert (Hw1 : w < 917) by (unfold w; nra).
      assert (Ed : dry = dry_of (i_rho_snow i) w).
      { unfold dry_of. rewrite <- D1. field. lra. }
      rewrite <- Ed. field. }
    assert (Hccl : cc_s_l s = cold_of (i_t_snow i) (m_s_l s)).
    { rewrite N12l. destruct (Rlt_dec 0 (z_s_l s)) as [Zl|Zl]; [apply Hcc|].
      destruct N1 as [[L0 Ll Lz Lm0 Lml _ _] _]. rewrite Lml. replace (z_s_l s) with 0 by lra. unfold cold_of. ring. }
    rewrite N12, Hcc. rewrite Cf2 in N11. auto 25.
Qed.
End Runs.

(** ** The hypotheses are met: the second hour of the run of Witness.v, without wind *)
Example C68_witness : exists env c2 e1 e2, model_run wQ wp wcfg wic wmh false env c2 /\ c_trace c2 = [e1; e2] /\
  layer_count (e_before e2) <> 0%nat /\ z_s (e_before e2) = 6/10 /\ adds_nothing e2 /\ z_s (e_after e2) <= 6/10.
Proof.
  destruct (w_windy 0) as (env & c2 & e1 & e2 & w & es & Hr & Htr & Hs & Hu & _ & _ & _ & _ & _ & HP & Hn & Hg & Hl & Hz & Hrho & Ht & Ht0 & Htl & _); [lra|].
  exists env, c2, e1, e2. split; [exact Hr|]. split; [exact Htr|]. split; [exact Hl|]. split; [exact Hz|].
  assert (Hin : In e2 (c_trace c2)) by (rewrite Htr; right; left; reflexivity).
  assert (Ha : adds_nothing e2).
  { split; [exact Hn|]. intros _. split; [lra|].
    split; [destruct (C58_still_air _ _ _ _ _ _ _ _ Hr e2 Hin Hu) as (_ & _ & ->); lra|].
    intros t [->|[->|(Zl & ->)]]; [lra|lra|rewrite (Htl Zl); lra]. }
  split; [exact Ha|]. rewrite <- Hz.
  apply (C68_depth_never_grows_in_a_dry_spell wQ wp wcfg wic wmh false env c2 wQ_valid (w_setup (1/4) w_quarter) Hr [e1] [e2] [] e2 e2).
  - cbn [wmh mh_z_g]. lra.
  - rewrite HP. lra.
  - exact Htr.
  - constructor; [exact Ha|constructor].
  - reflexivity.
  - reflexivity.
Qed.

(** ... and its first hour, in which the pack forms *)
Example C69_witness : exists env c2 e1 e2, model_run wQ wp wcfg wic wmh false env c2 /\ c_trace c2 = [e1; e2] /\
  layer_count (e_before e1) = 0%nat /\ layer_count (e_after e1) <> 0%nat.
Proof.
  destruct (w_windy 0) as (env & c2 & e1 & e2 & w & es & Hr & Htr & _ & _ & _ & _ & _ & _ & _ & _ & _ & _ & _ & _ & _ & _ & _ & _ & A & B); [lra|].
  exists env, c2, e1, e2. auto.
Qed.

Print Assumptions C68_depth_grows_only_by_what_is_added.
Print Assumptions C68_depth_never_grows_in_a_dry_spell.
Print Assumptions C69_a_new_pack_is_the_snowfall.
