(** * Theorems C58, C59 (and C51 again): the turbulent fluxes of every run step.

    About runs over the real numbers, as in Thm_Mass.v: [c_trace c] lists every run step
    executed so far, with the forcing it used and the snow state before and after it; the
    energy terms of the step are in [en] of the state after it ([H_] sensible heat, [L_v_E]
    latent heat, both W/m2; [E_flux] vapour flux, kg/m2/s), positive towards the snow. *)
From Coq Require Import Reals String ZArith Bool Lia Lra List.
Import ListNotations.
From Verif Require Import Num Real Constants Functions Libsnobal Input SnowState Snobal PySnobal
  SchedSpec Sched Frame SchedProps Spec Averages Forcing Phys Turb Mass MassEnd RunMass Run Progress Progress2 Turb2
  Thm_Forcing Thm_Turb Thm_Progress.
Open Scope R_scope.
Implicit Types s : SnowState R.

(** stable dry-adiabatic stratification over a snow surface at temperature [ts] with vapour
    pressure [es], the air (vapour pressure [ea], saturation over water [w]) at least as humid;
    sensors more than 5.9 roughness lengths above the snow; any wind, also none *)
Record stable_air (P ta ts za ea es u zu z0 w : R) : Prop := {
  st_z0 : 0 < z0; st_za : 59/10 * z0 < za; st_zu : 59/10 * z0 < zu;
  st_ta : 0 < ta; st_ts : 0 < ts <= 27316/100;
  st_es : 0 < es; st_ea : es <= ea; st_P : ea < P;
  st_w : satw ta = Ok w; st_sat : ea <= w + 25; st_esw : es <= w;
  st_u : 0 <= u; st_stable : ts < potential_temperature ta za
}.

Lemma stable_valid P ta ts za ea es u zu z0 w u' : 0 < u' -> stable_air P ta ts za ea es u zu z0 w ->
  turb_valid P ta ts za ea es za u' zu z0 w.
Proof. intros Hu []. split; try assumption; lra. Qed.

Lemma h_le_stable P mh init i s w es sat :
  sati (i_t_a i) = Ok sat -> sati (t_s_0 s) = Ok es -> warm init ->
  stable_air P (i_t_a i) (t_s_0 s) (mh_z_t mh - z_s s) (Rmin (i_e_a i) sat) es (i_u i) (mh_z_u mh - z_s s) (z_0 s) w ->
  exists r i' ustar factor, h_le P mh false init i s = Ok (hr_h r, hr_le r, hr_e r, i', (Some ustar, Some factor)) /\
    hle1 P (i_t_a i) (t_s_0 s) (mh_z_t mh - z_s s) (Rmin (i_e_a i) sat) es (mh_z_t mh - z_s s) (i_u i) (mh_z_u mh - z_s s) (z_0 s)
      (fst init) (snd init) = Ok r /\ 0 <= hr_h r /\ 0 <= hr_e r /\ 0 <= hr_le r.
Proof.
  intros Hsat Hes Hw V.
  assert (Hm : es <= Rmin (Rmin (i_e_a i) sat) w) by (apply Rmin_glb; apply V).
  assert (Hr : exists r, hle1 P (i_t_a i) (t_s_0 s) (mh_z_t mh - z_s s) (Rmin (i_e_a i) sat) es (mh_z_t mh - z_s s) (i_u i) (mh_z_u mh - z_s s) (z_0 s)
      (fst init) (snd init) = Ok r /\ 0 <= hr_h r /\ 0 <= hr_e r).
  { destruct (Rle_lt_or_eq_dec _ _ (st_u _ _ _ _ _ _ _ _ _ _ V)) as [Hu|Hu].
    - pose proof (stable_valid _ _ _ _ _ _ _ _ _ _ _ Hu V) as V'.
      destruct (hle1_stable_warm _ _ _ _ _ _ _ _ _ _ _ init V' (st_stable _ _ _ _ _ _ _ _ _ _ V) Hm Hw) as (r & Hr & A & B & _).
      exists r. split; [assumption|]. split; lra.
    - pose proof (stable_valid _ _ _ _ _ _ _ _ _ _ 1 ltac:(lra) V) as V'.
      destruct (hle1_still_ok _ _ _ _ _ _ _ _ _ _ _ init V' (st_stable _ _ _ _ _ _ _ _ _ _ V) Hm Hw) as (r & Hr).
      destruct (hle1_still _ _ _ _ _ _ _ _ _ _ _ _ Hr) as (A & _ & B & _).
      exists r. rewrite <- Hu. split; [exact Hr|]. split; lra. }
  destruct Hr as (r & Hr & A & B).
  assert (L : 0 <= hr_le r).
  { destruct (latent_sign _ _ _ _ _ _ _ _ _ _ _ _ _ Hr) as (k & Hk & ->); [|apply Rmult_le_pos; lra].
    destruct (st_ts _ _ _ _ _ _ _ _ _ _ V). lra. }
  unfold h_le. rewrite Hsat. cbn [bind]. rewrite Hes. cbn [bind].
  set (i' := if nltb sat (i_e_a i) then set_e_a sat i else i).
  assert (E : i_t_a i' = i_t_a i /\ i_u i' = i_u i /\ i_e_a i' = Rmin (i_e_a i) sat).
  { unfold i'. change (nltb sat (i_e_a i)) with (Rltb sat (i_e_a i)). destruct (Rltb_spec sat (i_e_a i)); cbn.
    - rewrite Rmin_right by lra. auto.
    - rewrite Rmin_left by lra. auto. }
  destruct E as (-> & -> & ->).
  exists r, i', (hr_ustar r), (hr_factor r). split; [|auto].
  change (nsub ?a ?b) with (a - b). rewrite Hr. cbn [bind].
  rewrite (C29_status_is_always_zero _ _ _ _ _ _ _ _ _ _ _ _ _ Hr). reflexivity.
Qed.

Section Runs.
Variable Q : RawInput R -> Prop.
Variables (p : Params R) (cfg : ModelCfg R) (ic : InitSnow R) (mh : Heights R) (all_mode : bool)
  (env : Env R) (c : Core R).
Hypothesis Hrun : model_run Q p cfg ic mh all_mode env c.

Lemma run_warm : warm (c_hle1_init c) /\ Forall (executes_warm env) (c_trace c) /\
  ev_relative_hts env = false /\ ev_heights env = mh.
Proof using Hrun.
  destruct Hrun as (info & c0 & Hp & Hi & Hr).
  destruct (init_tso _ _ _ _ _ _ _ Hi) as (T0 & _ & O0 & Tr0 & Ei & Em & _).
  rewrite <- Ei in Hp. destruct (parse_standard _ _ Hp) as (t0 & t1 & t2 & Hstd).
  assert (H0 : warm (c_hle1_init c0) /\ ev_relative_hts env = false /\ ev_heights env = mh).
  { unfold snobal_init in Hi. inv_bind Hi as pa Hpa. inv_bind Hi as s Hs. inv_bind Hi as s2 Hs2. injection Hi as <- <-.
    split; [left|]; auto. }
  destruct H0 as (W0 & Hrel). clear Hi Em.
  assert (G : warm (c_hle1_init c) /\ Forall (executes_warm env) (c_trace c)); [|tauto].
  clear Hrun. induction Hr as [|c i1 i2 c' Hr IH Hok Hd]; [split; [assumption|rewrite Tr0; constructor]|].
  destruct IH as (W & F). destruct (data_step_warm _ _ _ _ _ _ _ _ Hstd Hd W) as (W' & evs & Hev & Hf).
  split; [assumption|]. unfold steps_between in Hev. rewrite Hev. apply Forall_app. auto.
Qed.

(** the flux call of a run step over snow *)
Lemma run_flux e : In e (c_trace c) -> has_snow (e_before e) = true ->
  exists init sat es r, warm init /\
    sati (i_t_a (e_input e)) = Ok sat /\ sati (t_s_0 (e_before e)) = Ok es /\
    hle1 (ev_P_a env) (i_t_a (e_input e)) (t_s_0 (e_before e)) (mh_z_t mh - z_s (e_before e))
      (Rmin (i_e_a (e_input e)) sat) es (mh_z_t mh - z_s (e_before e))
      (i_u (e_input e)) (mh_z_u mh - z_s (e_before e)) (z_0 (e_before e)) (fst init) (snd init) = Ok r /\
    H_ (en (e_after e)) = hr_h r /\ L_v_E (en (e_after e)) = hr_le r /\ E_flux (e_after e) = hr_e r.
Proof using Hrun.
  intros Hin Hs. destruct run_warm as (_ & Hf & Hrel & Hmh). rewrite Forall_forall in Hf.
  destruct (Hf e Hin) as (init & s1 & ic' & init1 & Hw & He & Hm).
  apply mass_balance_frame in Hm. destruct Hm as (_ & F1 & _ & F3 & _). cbn [fst] in F1, F3. rewrite F1, F3. clear F1 F3.
  unfold energy_balance in He. change (has_snow (set_h2o_total 0 (e_before e))) with (has_snow (e_before e)) in He.
  rewrite Hs in He. inv_bind He as [[[[h lve] ef] i3] init2] Hh. inv_bind He as [g g0] Hg. inv_bind He as mm Hmm.
  injection He as <- _ _. cbn [en E_flux set_E_flux set_en H_ L_v_E].
  unfold h_le in Hh. rewrite Hrel, Hmh in Hh. inv_bind Hh as sat Hsat. inv_bind Hh as es Hes. inv_bind Hh as r Hr.
  destruct (negb _); [discriminate|]. injection Hh as <- <- <- _ _.
  exists init, sat, es, r. split; [assumption|]. split; [assumption|]. split; [exact Hes|]. split; [|auto].
  change (z_s (set_h2o_total 0 (e_before e))) with (z_s (e_before e)) in Hr.
  change (z_0 (set_h2o_total 0 (e_before e))) with (z_0 (e_before e)) in Hr.
  change (t_s_0 (set_h2o_total 0 (e_before e))) with (t_s_0 (e_before e)) in Hr.
  rewrite <- Hr. change (nltb sat (i_e_a (e_input e))) with (Rltb sat (i_e_a (e_input e))).
  destruct (Rltb_spec sat (i_e_a (e_input e))); cbn [set_e_a i_t_a i_e_a i_u].
  - rewrite Rmin_right by lra. reflexivity.
  - rewrite Rmin_left by lra. reflexivity.
Qed.

(** ** C58: no wind, no turbulent exchange, whatever the stability and whatever came before *)
Theorem C58_still_air e : In e (c_trace c) -> i_u (e_input e) = 0 ->
  H_ (en (e_after e)) = 0 /\ L_v_E (en (e_after e)) = 0 /\ E_flux (e_after e) = 0.
Proof using Hrun.
  intros Hin Hu. destruct (has_snow (e_before e)) eqn:Hs.
  - destruct (run_flux e Hin Hs) as (init & sat & es & r & _ & _ & _ & Hr & -> & -> & ->).
    rewrite Hu in Hr. destruct (hle1_still _ _ _ _ _ _ _ _ _ _ _ _ Hr) as (A & B & C & _). auto.
  - pose proof (run_executes _ _ _ _ _ _ _ _ Hrun) as Hf. rewrite Forall_forall in Hf.
    destruct (Hf e Hin) as (init & s1 & ic' & init1 & He & Hm).
    apply mass_balance_frame in Hm. destruct Hm as (_ & F1 & _ & F3 & _). cbn [fst] in F1, F3. rewrite F1, F3.
    unfold energy_balance in He. change (has_snow (set_h2o_total 0 (e_before e))) with (has_snow (e_before e)) in He.
    rewrite Hs in He. injection He as <- _ _. auto.
Qed.

(** ** C59: in stable, humid air, heat and vapour go to the snow, and less than in neutral
    stratification, whatever the warm start left by the history of the run *)
Theorem C59_stable_air e w es sat : In e (c_trace c) -> has_snow (e_before e) = true ->
  let i := e_input e in let s := e_before e in
  let za := mh_z_t mh - z_s s in let zu := mh_z_u mh - z_s s in
  sati (i_t_a i) = Ok sat -> sati (t_s_0 s) = Ok es ->
  stable_air (ev_P_a env) (i_t_a i) (t_s_0 s) za (Rmin (i_e_a i) sat) es (i_u i) zu (z_0 s) w -> 0 < i_u i ->
  0 < H_ (en (e_after e)) /\ 0 <= L_v_E (en (e_after e)) /\ 0 <= E_flux (e_after e) /\
  (es < i_e_a i -> es < sat -> es < w -> 0 < L_v_E (en (e_after e)) /\ 0 < E_flux (e_after e)) /\
  exists dens qa qs, mean_density (ev_P_a env) (i_t_a i) (t_s_0 s) za (Rmin (i_e_a i) sat) es w dens /\
    spec_hum (Rmin (Rmin (i_e_a i) sat) w) (ev_P_a env) = Ok qa /\ spec_hum es (ev_P_a env) = Ok qs /\
    H_ (en (e_after e)) < neutral_heat dens (i_u i) (i_t_a i) (t_s_0 s) za zu (z_0 s) /\
    E_flux (e_after e) <= neutral_vapour dens (i_u i) qa qs za zu (z_0 s).
Proof using Hrun.
  intros Hin Hs i s za zu Hsat Hes V Hu.
  destruct (run_flux e Hin Hs) as (init & sat' & es' & r & Hw & Hsat' & Hes' & Hr & -> & -> & ->).
  fold i in Hsat', Hr. fold s in Hes', Hr. fold za zu in Hr.
  rewrite Hsat in Hsat'. injection Hsat' as <-. rewrite Hes in Hes'. injection Hes' as <-.
  assert (Hm : es <= Rmin (Rmin (i_e_a i) sat) w) by (apply Rmin_glb; apply V).
  pose proof (stable_valid _ _ _ _ _ _ _ _ _ _ _ Hu V) as V'.
  destruct (hle1_stable_warm _ _ _ _ _ _ _ _ _ _ _ init V' (st_stable _ _ _ _ _ _ _ _ _ _ V) Hm Hw)
    as (r' & Hr' & A & B & B1 & _ & _ & _ & dens & qa & qs & D & _ & Qa & Qs & _ & N1 & N2).
  rewrite Hr in Hr'. injection Hr' as <-.
  destruct (latent_sign _ _ _ _ _ _ _ _ _ _ _ _ _ Hr) as (k & Hk & ->).
  { destruct (st_ts _ _ _ _ _ _ _ _ _ _ V). lra. }
  split; [assumption|]. split; [apply Rmult_le_pos; lra|]. split; [assumption|]. split.
  { intros H1 H2 H3. assert (0 < hr_e r). { apply B1. repeat apply Rmin_glb_lt; assumption. } split; [|assumption].
    apply Rmult_lt_0_compat; assumption. }
  exists dens, qa, qs. do 3 (split; [assumption|]). unfold neutral_heat, neutral_vapour, neutral_ustar, potential_temperature. split.
  - eapply Rlt_le_trans; [exact N1|]. right. unfold Rdiv. ring.
  - eapply Rle_trans; [exact N2|]. right. unfold Rdiv. ring.
Qed.

(** ** C51: at any point of any run, a run step over dry snow in stable air returns *)
Theorem C51_stable_dry_run_steps_return ds ts i d w es sat :
  deltas_at ds (ts_level ts) = Ok d -> (0 < ts_time_step ts)%Z -> averages_started c ->
  sane_pack (c_ss c) -> sane_site (ev_P_a env) (mh_z_g mh) i ->
  i_precip_now i = false -> h2o (c_ss c) = 0 -> soil_warm i (c_ss c) ->
  let s := c_ss c in
  sati (i_t_a i) = Ok sat -> sati (t_s_0 s) = Ok es ->
  stable_air (ev_P_a env) (i_t_a i) (t_s_0 s) (mh_z_t mh - z_s s) (Rmin (i_e_a i) sat) es (i_u i) (mh_z_u mh - z_s s) (z_0 s) w ->
  exists r, do_tstep env ds ts c i = Ok r.
Proof using Hrun.
  intros Hd Hts Hav Hsp Hsite Hnp Hh Hsw s Hsat Hes V.
  destruct run_warm as (Hw & _ & Hrel & Hmh). rewrite <- Hmh in Hsite, V.
  assert (Hused : (if i_precip_now i then update_precip_deltas i d else i) = i) by (rewrite Hnp; reflexivity).
  pose proof (C51_what_stops_a_run_step env ds ts c i d Hd Hts Hav Hsp) as H. cbv zeta in H. rewrite Hused in H.
  destruct (h_le_stable (ev_P_a env) (ev_heights env) (c_hle1_init c) i (set_h2o_total 0 s) w es sat Hsat Hes Hw V)
    as (r & i1 & us & fa & E & _ & _ & Hpos & _).
  destruct H as [H|[(err & H & _)|(h & lve & e & i' & init & H & _ & Hex)]]; [assumption| |assumption| |].
  - intros En. congruence.
  - exfalso. rewrite Hrel in H. unfold s in E. congruence.
  - exfalso. rewrite Hrel in H. unfold s in E. rewrite E in H. injection H as <- <- <- <- <-.
    assert (Hclip : i1 = i \/ exists v, i1 = set_e_a v i).
    { apply h_le_clip in E. destruct E as (sat' & _ & [(_ & ->)|(_ & ->)]); eauto. }
    revert Hex. apply not_exhausted; try assumption.
    + destruct Hclip as [->|(v & ->)]; assumption.
    + apply (sa_mass _ Hsp).
    + destruct Hclip as [->|(v & ->)]; assumption.
Qed.
End Runs.
Print Assumptions C58_still_air.
Print Assumptions C59_stable_air.
Print Assumptions C51_stable_dry_run_steps_return.
