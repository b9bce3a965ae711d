(** * Turbulent fluxes along a run: warm starts, still air (C58, C59) *)
From Coq Require Import Reals String ZArith Bool Lia Lra List.
Import ListNotations.
From Verif Require Import Num Real Constants Functions Libsnobal Input SnowState Snobal
  SchedSpec Sched Frame SchedProps Spec Averages Forcing Phys Turb Mass.
Open Scope R_scope.

(** ** Still air: every flux is zero, whatever the warm start *)
Definition dead_iter (s : flux_iter R) : Prop :=
  fi_ustar s = 0 /\ fi_factor s = 0 /\ fi_e s = 0 /\ fi_h s = 0.

Lemma pdiv_R_inv (a b q : R) : pdiv a b = Ok q -> b <> 0 /\ q = a / b.
Proof.
  unfold pdiv. rn. destruct (Reqb_spec b 0); [discriminate|]. intros H. injection H as H. subst. split; [assumption|reflexivity].
Qed.

Lemma flux_body_still c s s' b : fc_wind c = 0 -> flux_body c s = Ok (s', b) -> dead_iter s'.
Proof.
  intros Hw H. unfold flux_body in H. cbv zeta in H.
  inv_bind H as lo Hlo. inv_bind H as pm Hpm. inv_bind H as us Hus. inv_bind H as pv Hpv. inv_bind H as e He.
  inv_bind H as ph Hph. inv_bind H as h Hh. inv_bind H as st Hst. injection H as <- _.
  apply pdiv_R_inv in Hus. destruct Hus as (_ & Hus). rewrite Hw in Hus.
  assert (E0 : us = 0) by (rewrite Hus; rn; unfold Rdiv; ring). clear Hus. subst us.
  apply pdiv_R_inv in He. apply pdiv_R_inv in Hh. destruct He as (_ & ->). destruct Hh as (_ & ->).
  unfold dead_iter. cbn [fi_ustar fi_factor fi_e fi_h]. consts. unfold Rdiv. repeat split; ring.
Qed.

Lemma flux_loop_still c n : fc_wind c = 0 -> forall it s it' s' b,
  flux_loop c n it s = Ok (it', s', b) -> dead_iter s'.
Proof.
  intros Hw. induction n as [|n IH]; intros it s it' s' b H; [discriminate|].
  cbn [flux_loop] in H. inv_bind H as [s1 stop] Hb. apply flux_body_still in Hb; [|assumption]. destruct stop.
  - injection H as _ <- _. assumption.
  - destruct n as [|n]; [injection H as _ <- _; assumption|]. eapply IH. exact H.
Qed.

Lemma hle1_still press ta ts za ea es zq zu z0 iu ifc r :
  hle1 press ta ts za ea es zq 0 zu z0 iu ifc = Ok r ->
  hr_h r = 0 /\ hr_le r = 0 /\ hr_e r = 0 /\ hr_ustar r = 0 /\ hr_factor r = 0.
Proof.
  intros H. unfold hle1 in H. destruct (_ || _ || _ || _); [discriminate|].
  destruct (_ || _); [discriminate|]. destruct (_ || _ || _ || _ || _); [discriminate|].
  inv_bind H as w Hw. destruct (nltb w _); [discriminate|].
  inv_bind H as l1 Hl1. inv_bind H as l2 Hl2. inv_bind H as l3 Hl3.
  inv_bind H as qa Hqa. inv_bind H as qs Hqs. inv_bind H as st Hst. inv_bind H as se Hse.
  inv_bind H as vt Hvt. inv_bind H as dn Hdn.
  destruct (neqb _ ts).
  - inv_bind H as us Hus. inv_bind H as x1 Hx1. inv_bind H as x2 Hx2. discriminate.
  - inv_bind H as us Hus. inv_bind H as e0 He0. inv_bind H as h0 Hh0. inv_bind H as [[it s] cv] Hl.
    apply flux_loop_still in Hl; [|reflexivity]. destruct Hl as (D1 & D2 & D3 & D4).
    injection H as <-. cbn [hr_h hr_le hr_e hr_ustar hr_factor]. rewrite D3. rn. repeat split; try assumption. ring.
Qed.

(** in still air the call succeeds when the air is stable or it is the first call *)
Definition warm (init : option R * option R) : Prop :=
  init = (None, None) \/ exists a k, 0 < k /\ init = (Some a, Some (k * a)).

(** ** Every call leaves a consistent pair for the next one *)
Lemma hle1_leaves_warm press ta ts za ea es zq u zu z0 iu ifc r :
  hle1 press ta ts za ea es zq u zu z0 iu ifc = Ok r ->
  exists k, 0 < k /\ hr_factor r = k * hr_ustar r.
Proof.
  intros H. unfold hle1 in H. rn.
  destruct (Rleb_spec z0 0); [discriminate|]. destruct (Rleb_spec zq z0); [discriminate|].
  destruct (Rleb_spec zu z0); [discriminate|]. destruct (Rleb_spec za z0); [discriminate|]. cbn [orb] in H.
  destruct (Rleb_spec ta 0); [discriminate|]. destruct (Rleb_spec ts 0); [discriminate|]. cbn [orb] in H.
  destruct (Rleb_spec ea 0); [discriminate|]. destruct (Rleb_spec es 0); [discriminate|].
  destruct (Rleb_spec press 0); [discriminate|]. destruct (Rleb_spec press ea); [discriminate|].
  destruct (Rleb_spec press es); [discriminate|]. cbn [orb] in H.
  inv_bind H as w Hw. pose proof (satw_pos _ _ Hw) as Hwp. destruct (Rltb w _); [discriminate|].
  set (ea' := if Rltb w ea then w else ea) in *.
  assert (Hea : 0 < ea' < press) by (unfold ea'; destruct (Rltb_spec w ea); lra). clearbody ea'.
  inv_bind H as l1 Hl1. inv_bind H as l2 Hl2. inv_bind H as l3 Hl3.
  inv_bind H as qa Hqa. inv_bind H as qs Hqs.
  set (at' := ta + _) in *.
  assert (Hat : 0 < at'). { unfold at'. consts. lra. } clearbody at'.
  rewrite psqrt_R_ok in H by (left; apply Rmult_lt_0_compat; lra). cbn [bind] in H.
  rewrite psqrt_R_ok in H by (left; apply Rmult_lt_0_compat; lra). cbn [bind] in H.
  inv_bind H as vt Hvt. inv_bind H as dn Hdn.
  assert (Hd : 0 < dn).
  { destruct (virtual_temperature_ge (sqrt (at' * ts)) (sqrt (ea' * es)) press) as (vt' & Hvt' & Hge).
    - apply sqrt_lt_R0. apply Rmult_lt_0_compat; lra.
    - apply sqrt_pos.
    - rewrite <- (sqrt_square press) by lra. apply sqrt_le_1_alt. nra.
    - lra.
    - pose proof (eq_trans (eq_sym Hvt) Hvt') as Hx. apply Ok_inj in Hx. subst vt'.
      assert (0 < sqrt (at' * ts)) by (apply sqrt_lt_R0; apply Rmult_lt_0_compat; lra).
      unfold gas_density in Hdn. consts. rewrite pdiv_R_ok in Hdn by lra. apply Ok_inj in Hdn. subst dn.
      apply Rdiv_lt_0_compat; lra. }
  destruct (Reqb at' ts).
  - inv_bind H as us Hus. inv_bind H as x1 Hx1. inv_bind H as x2 Hx2. discriminate.
  - inv_bind H as us Hus. inv_bind H as e0 He0. inv_bind H as h0 Hh0. inv_bind H as [[it s] cv] Hl.
    injection H as <-. cbn [hr_factor hr_ustar].
    assert (Hb : forall n it s it' s' b, flux_loop (mkFctx dn at' u zu zq za l1 l3 l2 (qa - qs) (at' - ts)) n it s = Ok (it', s', b) ->
      fi_factor s' = 41/100 * dn * fi_ustar s').
    { clear. induction n as [|n IH]; intros it s it' s' b H; [discriminate|].
      cbn [flux_loop] in H. inv_bind H as [s1 stop] Hb.
      assert (E : fi_factor s1 = 41/100 * dn * fi_ustar s1).
      { unfold flux_body in Hb. inv_bind Hb as lo Hlo. inv_bind Hb as pm Hpm. inv_bind Hb as us Hus. inv_bind Hb as pv Hpv.
        inv_bind Hb as e He. inv_bind Hb as ph Hph. inv_bind Hb as h Hh. inv_bind Hb as st Hst. injection Hb as <- _.
        cbn [fi_factor fi_ustar fc_dens]. consts. ring. }
      destruct stop; [injection H as _ <- _; assumption|].
      destruct n as [|n]; [injection H as _ <- _; assumption|]. eapply IH. exact H. }
    exists (41/100 * dn). split; [lra|]. eapply Hb. exact Hl.
Qed.

Lemma h_le_warm P mh rel init i s h lve e i' init' :
  h_le P mh rel init i s = Ok (h, lve, e, i', init') -> warm init'.
Proof.
  unfold h_le. intros H. inv_bind H as sat Hsat. inv_bind H as es Hes. inv_bind H as r Hr.
  destruct (negb _); [discriminate|]. injection H as _ _ _ _ <-.
  destruct (hle1_leaves_warm _ _ _ _ _ _ _ _ _ _ _ _ _ Hr) as (k & Hk & ->). right. eauto.
Qed.

Lemma energy_balance_warm env ts init i s s1 ic init1 :
  warm init -> energy_balance env ts init i s = Ok (s1, ic, init1) -> warm init1.
Proof.
  intros Hw H. unfold energy_balance in H. destruct (has_snow s).
  - inv_bind H as [[[[h lve] ef] i3] init2] Hh. inv_bind H as [g g0] Hg. inv_bind H as mm Hmm. injection H as _ _ <-.
    eapply h_le_warm. exact Hh.
  - injection H as _ _ <-. assumption.
Qed.

(** ** Lift to runs *)
Definition executes_warm (env : Env R) (e : Event R) : Prop :=
  exists init s1 ic init1, warm init /\
    energy_balance env (ts_time_step (e_tstep e)) init (e_input e) (set_h2o_total 0 (e_before e)) = Ok (s1, ic, init1) /\
    mass_balance (ev_P_a env) (mh_z_g (ev_heights env)) (ts_time_step (e_tstep e)) ic
      (s1, has_snow (e_before e)) = Ok (e_after e, e_kept e).

Lemma exec_executes_warm env ds l c i c' i' : exec env ds l c i c' i' -> warm (c_hle1_init c) ->
  warm (c_hle1_init c') /\ exists evs, steps_between c c' evs /\ Forall (executes_warm env) evs.
Proof.
  induction 1 as [c i j|ts l c i c1 ix c2 iy Hstep Hp H IH]; intros Hw.
  - split; [assumption|]. exists []. split; [symmetry; apply app_nil_r|constructor].
  - apply do_tstep_inv in Hstep.
    destruct Hstep as (d & s1 & ic & init & s2 & kept & s3 & Hd & He & Hmb & Ha & Hc & Hi).
    set (iu := if i_precip_now i then update_precip_deltas i d else i) in *.
    set (e := mkEvent ts (c_datetime c) iu (c_ss c) s2 kept) in *.
    assert (Htr : c_trace c1 = c_trace c ++ [e] /\ c_hle1_init c1 = init).
    { destruct (ev_output_divided env); [apply output_inv in Hc; cbn in Hc; tauto|subst c1; auto]. }
    destruct Htr as (Htr & Hin).
    destruct IH as (W & evs & Hev & Hv).
    { rewrite Hin. eapply energy_balance_warm; eassumption. }
    split; [assumption|]. exists (e :: evs). split.
    + unfold steps_between in *. rewrite Hev, Htr, <- app_assoc. reflexivity.
    + constructor; [|assumption]. exists (c_hle1_init c), s1, ic, init. auto.
Qed.

Lemma data_step_warm env t0 t1 t2 c i1 i2 c' :
  standard_info (ev_tstep_info env) t0 t1 t2 -> do_data_tstep env c i1 i2 = Ok c' -> warm (c_hle1_init c) ->
  warm (c_hle1_init c') /\ exists evs, steps_between c c' evs /\ Forall (executes_warm env) evs.
Proof.
  intros Hstd H Hw.
  destruct (data_step_exec _ _ _ _ _ _ _ _ Hstd H) as (ds & l & c1 & i' & Hds & Hex & Hs & _ & Ho).
  destruct (exec_executes_warm _ _ _ _ _ _ _ Hex Hw) as (W & evs & Hev & Hf).
  destruct (ev_output_divided env); [subst c'; eauto|].
  apply output_inv in Ho. destruct Ho as (_ & _ & _ & _ & I & Tr). rewrite I. split; [assumption|].
  exists evs. split; [|assumption]. unfold steps_between in *. congruence.
Qed.

(** ** Stable air, from any consistent warm start *)
Definition neg_iter (s : flux_iter R) : flux_iter R :=
  mkFlux (fi_lo s) (- fi_ustar s) (- fi_factor s) (- fi_e s) (- fi_h s).

Lemma obukhov_neg c s : 0 < fc_air_temp c -> obukhov c (neg_iter s) = obukhov c s.
Proof.
  intros Ha. unfold obukhov, neg_iter. cbn [fi_h fi_e fi_ustar]. consts.
  rewrite !pdiv_R_ok by lra. cbn [bind].
  set (K := 41/100 * (980665/100000)). assert (HK : 0 < K) by (unfold K; lra). clearbody K.
  set (q := fi_h s / (fc_air_temp c * 1005)).
  replace (- fi_h s / (fc_air_temp c * 1005)) with (- q) by (unfold q; field; lra).
  replace (K * (- q + 61/100 * - fi_e s)) with (- (K * (q + 61/100 * fi_e s))) by ring.
  destruct (Reqb_spec (- (K * (q + 61/100 * fi_e s))) 0), (Reqb_spec (K * (q + 61/100 * fi_e s)) 0); try lra; [reflexivity|].
  f_equal. f_equal. set (D := K * (q + 61/100 * fi_e s)) in *. clearbody D. field. lra.
Qed.

Lemma flux_body_neg c s : 0 < fc_air_temp c -> flux_body c (neg_iter s) = flux_body c s.
Proof. intros Ha. unfold flux_body. rewrite obukhov_neg by assumption. reflexivity. Qed.

Lemma flux_body_zero c s : stable_ctx c -> fi_ustar s = 0 -> fi_e s = 0 -> fi_h s = 0 ->
  exists s', flux_body c s = Ok (s', false) /\ stable_iter s'.
Proof.
  intros (Hd & Ha & Hw & Hzu & Hzq & Hza & Hm & Hv & Hh & Hq & Ht) U E H.
  unfold flux_body, obukhov. cbv zeta. consts. rewrite U, E, H.
  rewrite pdiv_R_ok by lra. cbn [bind].
  match goal with |- context [Reqb ?x 0] => replace x with 0 by (field; lra) end.
  destruct (Reqb_spec 0 0); [|lra]. cbn [bind psi_over]. rn.
  rewrite pdiv_R_ok by lra. cbn [bind].
  rewrite pdiv_R_ok by lra. cbn [bind]. rewrite pdiv_R_ok by lra. cbn [bind].
  assert (Hcv : converged (fi_lo s) (@None R) = Ok false) by (unfold converged; destruct (fi_lo s); reflexivity).
  match goal with |- context [bind ?m _] => change m with (@converged R RNum (fi_lo s) None) end. rewrite Hcv. cbn [bind].
  eexists. split; [reflexivity|]. unfold stable_iter. cbn [fi_ustar fi_e fi_h].
  assert (0 < 41/100 * fc_wind c / (fc_ltsm c - 0)) by (apply Rdiv_lt_0_compat; lra).
  set (nu := 41/100 * fc_wind c / (fc_ltsm c - 0)) in *. clearbody nu.
  split; [assumption|]. split.
  - apply Rdiv_le_0_compat_; [|lra]. repeat apply Rmult_le_pos; lra.
  - apply Rdiv_lt_0_compat; [|lra]. repeat apply Rmult_lt_0_compat; lra.
Qed.

Definition consistent_iter (s : flux_iter R) : Prop :=
  stable_iter s \/ stable_iter (neg_iter s) \/ (fi_ustar s = 0 /\ fi_e s = 0 /\ fi_h s = 0).

Lemma flux_loop_warm c n : stable_ctx c -> forall it s, consistent_iter s ->
  exists it' s' b, flux_loop c (S (S n)) it s = Ok (it', s', b) /\ stable_iter s' /\
    0 < fi_factor s' /\ (fc_qdiff c = 0 -> fi_e s' = 0) /\ (0 < fc_qdiff c -> 0 < fi_e s') /\ below_neutral c s'.
Proof.
  intros Hc it s [Hs|[Hs|(U & E & H)]].
  - apply flux_loop_stable; assumption.
  - pose proof (flux_loop_stable c (S n) Hc it _ Hs) as X. cbn [flux_loop] in X |- *.
    rewrite flux_body_neg in X by apply Hc. exact X.
  - destruct (flux_body_zero c s Hc U E H) as (s1 & Hb & Hs1). remember (S n) as m eqn:Em. cbn [flux_loop].
    rewrite Hb. cbn [bind]. subst m. apply flux_loop_stable; assumption.
Qed.

Lemma hle1_stable_warm press ta ts za ea es zq u zu z0 w init :
  turb_valid press ta ts za ea es zq u zu z0 w ->
  ts < ta + 980665/100000/1005 * za -> es <= Rmin ea w -> warm init ->
  exists r, hle1 press ta ts za ea es zq u zu z0 (fst init) (snd init) = Ok r /\
    0 < hr_h r /\ 0 <= hr_e r /\ (es < Rmin ea w -> 0 < hr_e r) /\ (es = Rmin ea w -> hr_e r = 0) /\
    0 < hr_ustar r /\ 0 < hr_factor r /\
    exists dens qa qs, mean_density press ta ts za ea es w dens /\ 0 < dens /\
      spec_hum (Rmin ea w) press = Ok qa /\ spec_hum es press = Ok qs /\
      hr_ustar r < 41/100 * u / log_height zu z0 /\
      hr_h r < (ta + 980665/100000/1005 * za - ts) * (41/100 * (41/100 * u / log_height zu z0) * dens) * 1005 / log_height za z0 /\
      hr_e r <= (qa - qs) * (41/100 * (41/100 * u / log_height zu z0) * dens) / log_height zq z0.
Proof.
  intros V E Hes [->|(a & k & Hk & ->)]; cbn [fst snd].
  { apply hle1_stable; try assumption; discriminate. }
  destruct (hle1_prefix _ _ _ _ _ _ _ _ _ _ _ (Some a) (Some (k * a)) V)
    as (dens & lm & lh & lv & qa & qs & Hd & Hm & Hh & Hv & Hqa & Hqs & Em & Eh & Ev & Hmd & ->).
  set (at' := ta + 980665/100000/1005 * za) in *.
  destruct (Reqb_spec at' ts); [lra|].
  assert (Hq : 0 <= qa - qs /\ (es < Rmin ea w -> 0 < qa - qs) /\ (es = Rmin ea w -> qa - qs = 0)).
  { destruct V as [V0 Va Vq Vu Ta Ts Ea Es W Sat U].
    destruct (Rle_lt_or_eq_dec _ _ Hes) as [Hlt|Heq].
    - destruct (spec_hum_incr es (Rmin ea w) press) as (q1 & q2 & H1 & H2 & H3); [lra|lra| |].
      { eapply Rle_lt_trans; [apply Rmin_l|lra]. }
      rewrite Hqs in H1. rewrite Hqa in H2. injection H1 as <-. injection H2 as <-. lra.
    - rewrite <- Heq in Hqa. rewrite Hqs in Hqa. injection Hqa as <-. lra. }
  destruct Hq as (Hq0 & Hq1 & Hq2).
  pose proof (tv_u _ _ _ _ _ _ _ _ _ _ _ V) as U. pose proof (tv_ta _ _ _ _ _ _ _ _ _ _ _ V) as Ta.
  pose proof (tv_z0 _ _ _ _ _ _ _ _ _ _ _ V) as V0. pose proof (tv_za _ _ _ _ _ _ _ _ _ _ _ V) as Va.
  pose proof (tv_zq _ _ _ _ _ _ _ _ _ _ _ V) as Vq. pose proof (tv_zu _ _ _ _ _ _ _ _ _ _ _ V) as Vu.
  cbv zeta. set (cx := mkFctx _ _ _ _ _ _ _ _ _ _ _).
  assert (Hc : stable_ctx cx).
  { unfold stable_ctx, cx. cbn [fc_dens fc_air_temp fc_wind fc_zu fc_zq fc_za fc_ltsm fc_ltsv fc_ltsh fc_qdiff fc_tdiff].
    assert (0 < at') by (unfold at'; lra). repeat split; lra. }
  set (s0 := mkFlux _ _ _ _ _).
  assert (Hs0 : consistent_iter s0).
  { unfold consistent_iter, stable_iter, s0, neg_iter. cbn [fi_ustar fi_e fi_h fi_factor fi_lo].
    destruct (Rtotal_order a 0) as [Ha|[Ha|Ha]].
    - right. left. split; [lra|]. split.
      + replace (- ((qa - qs) * (k * a) * 1 / lv)) with ((qa - qs) * (k * - a) / lv) by (field; lra).
        apply Rdiv_le_0_compat_; [|lra]. apply Rmult_le_pos; [lra|]. apply Rmult_le_pos; lra.
      + replace (- ((at' - ts) * (k * a) * 1005 * 1 / lh)) with ((at' - ts) * (k * - a) * 1005 / lh) by (field; lra).
        apply Rdiv_lt_0_compat; [|lra]. repeat apply Rmult_lt_0_compat; lra.
    - right. right. subst a. unfold Rdiv. repeat split; ring.
    - left. split; [lra|]. split.
      + apply Rdiv_le_0_compat_; [|lra]. rewrite Rmult_1_r. apply Rmult_le_pos; [lra|]. apply Rmult_le_pos; lra.
      + apply Rdiv_lt_0_compat; [|lra]. repeat apply Rmult_lt_0_compat; lra. }
  destruct (flux_loop_warm cx 48 Hc 0%Z s0 Hs0) as (it & s' & b & Hl & (I1 & I2 & I3) & I4 & I5 & I6 & I7 & _ & I8 & I9).
  unfold ITMAX at 1. rewrite Hl. cbn [bind]. eexists. split; [reflexivity|].
  cbn [hr_h hr_e hr_ustar hr_factor]. change (fc_qdiff cx) with (qa - qs) in I5, I6, I9.
  cbn [cx fc_wind fc_ltsm fc_tdiff fc_dens fc_ltsh fc_ltsv] in I7, I8, I9. rewrite <- Em, <- Eh, <- Ev.
  repeat (split; [tauto|]). exists dens, qa, qs. tauto.
Qed.

(** ** Still air over stable stratification returns *)
Lemma flux_body_still_ok c s : 0 < fc_dens c -> 0 < fc_air_temp c -> fc_wind c = 0 ->
  0 < fc_zu c -> 0 < fc_zq c -> 0 < fc_za c -> 0 < fc_ltsm c -> 0 < fc_ltsv c -> 0 < fc_ltsh c ->
  (obukhov c s = Ok None \/ exists lo, 0 < lo /\ obukhov c s = Ok (Some lo)) ->
  exists s' b, flux_body c s = Ok (s', b).
Proof.
  intros Hd Ha Hw Hzu Hzq Hza Hm Hv Hh Hlo. unfold flux_body. cbv zeta.
  destruct Hlo as [->|(lo & Hlo & ->)]; cbn [bind psi_over]; rn.
  - do 3 (rewrite pdiv_R_ok by lra; cbn [bind]).
    assert (Hcv : converged (fi_lo s) (@None R) = Ok false) by (unfold converged; destruct (fi_lo s); reflexivity).
    match goal with |- context [bind ?m _] => change m with (@converged R RNum (fi_lo s) None) end. rewrite Hcv. cbn [bind]. eauto.
  - assert (Hpos : forall z, 0 < z -> 0 < z / lo) by (intros; apply Rdiv_lt_0_compat; assumption).
    assert (Hmin : forall z, 0 < z -> 0 < Rmin (z / lo) 1).
    { intros z Hz. apply Rmin_glb_lt; [auto|lra]. }
    pose proof (Hmin _ Hzu) as Mu. pose proof (Hmin _ Hzq) as Mq. pose proof (Hmin _ Hza) as Ma.
    rewrite !pdiv_R_ok by lra. cbn [bind]. 
    change (@psi R _) with (@psi R RNum). rewrite !psi_stable by auto. cbn [bind].
    rewrite pdiv_R_ok by lra. cbn [bind]. rewrite pdiv_R_ok by lra. cbn [bind]. rewrite pdiv_R_ok by lra. cbn [bind].
    assert (Hcv : exists b, converged (fi_lo s) (Some lo) = Ok b).
    { unfold converged. destruct (fi_lo s); [|eauto]. rn.
      destruct (Rltb _ _); [|eauto]. rewrite pdiv_R_ok by lra. cbn [bind]. eauto. }
    destruct Hcv as (b & Hb). match goal with |- context [bind ?m _] => change m with (@converged R RNum (fi_lo s) (Some lo)) end.
    rewrite Hb. cbn [bind]. eauto.
Qed.

Lemma obukhov_dead c s : 0 < fc_air_temp c -> dead_iter s -> obukhov c s = Ok None.
Proof.
  intros Ha (_ & _ & E & H). unfold obukhov. consts. rewrite E, H. rewrite pdiv_R_ok by lra. cbn [bind].
  match goal with |- context [Reqb ?x 0] => replace x with 0 by (field; lra) end.
  destruct (Reqb_spec 0 0); [reflexivity|lra].
Qed.

Lemma flux_loop_still_ok c n : 0 < fc_dens c -> 0 < fc_air_temp c -> fc_wind c = 0 ->
  0 < fc_zu c -> 0 < fc_zq c -> 0 < fc_za c -> 0 < fc_ltsm c -> 0 < fc_ltsv c -> 0 < fc_ltsh c ->
  forall it s, (obukhov c s = Ok None \/ exists lo, 0 < lo /\ obukhov c s = Ok (Some lo)) ->
  exists x, flux_loop c (S n) it s = Ok x.
Proof.
  intros Hd Ha Hw Hzu Hzq Hza Hm Hv Hh. induction n as [|n IH]; intros it s Hlo.
  - destruct (flux_body_still_ok c s) as (s' & b & Hb); try assumption. cbn [flux_loop]. rewrite Hb. cbn [bind].
    destruct b; eauto.
  - destruct (flux_body_still_ok c s) as (s' & b & Hb); try assumption. remember (S n) as m eqn:Em. cbn [flux_loop].
    rewrite Hb. cbn [bind]. destruct b; [eauto|]. subst m. apply IH. left. apply obukhov_dead; [assumption|].
    eapply flux_body_still; eassumption.
Qed.

Lemma hle1_still_ok press ta ts za ea es zq u' zu z0 w init :
  turb_valid press ta ts za ea es zq u' zu z0 w ->
  ts < ta + 980665/100000/1005 * za -> es <= Rmin ea w -> warm init ->
  exists r, hle1 press ta ts za ea es zq 0 zu z0 (fst init) (snd init) = Ok r.
Proof.
  intros V E Hes Hwarm.
  destruct (hle1_prefix_any _ _ _ _ _ _ _ _ 0 _ _ _ (fst init) (snd init) V)
    as (dens & lm & lh & lv & qa & qs & Hd & Hm & Hh & Hv & Hqa & Hqs & Em & Eh & Ev & Hmd & ->).
  set (at' := ta + 980665/100000/1005 * za) in *.
  destruct (Reqb_spec at' ts); [lra|]. cbv zeta.
  assert (Hq : 0 <= qa - qs).
  { destruct V as [V0 Va Vq Vu Ta Ts Ea Es W Sat U].
    destruct (Rle_lt_or_eq_dec _ _ Hes) as [Hlt|Heq].
    - destruct (spec_hum_incr es (Rmin ea w) press) as (q1 & q2 & H1 & H2 & H3); [lra|lra| |].
      { eapply Rle_lt_trans; [apply Rmin_l|lra]. }
      rewrite Hqs in H1. rewrite Hqa in H2. injection H1 as <-. injection H2 as <-. lra.
    - rewrite <- Heq in Hqa. rewrite Hqs in Hqa. injection Hqa as <-. lra. }
  destruct V as [V0 Va Vq Vu Ta Ts Ea Es W Sat U].
  assert (Hat : 0 < at') by (unfold at'; lra).
  set (cx := mkFctx _ _ _ _ _ _ _ _ _ _ _). set (s0 := mkFlux _ _ _ _ _).
  assert (Hob : obukhov cx s0 = Ok None \/ exists lo, 0 < lo /\ obukhov cx s0 = Ok (Some lo)).
  { destruct Hwarm as [->|(a & k & Hk & ->)]; cbn [fst snd] in s0.
    - left. apply obukhov_dead; [exact Hat|]. unfold dead_iter, s0. cbn [fi_ustar fi_factor fi_e fi_h].
      unfold Rdiv. repeat split; ring.
    - unfold obukhov, s0, cx. cbn [fi_ustar fi_factor fi_e fi_h fc_air_temp fc_dens]. consts. rewrite pdiv_R_ok by lra. cbn [bind].
      set (D := (at' - ts) * k * 1005 / lh / (at' * 1005) + 61/100 * ((qa - qs) * k / lv)).
      assert (HD : 0 < D).
      { unfold D. apply Rplus_lt_le_0_compat.
        - apply Rdiv_lt_0_compat; [|lra]. apply Rdiv_lt_0_compat; [|lra]. repeat apply Rmult_lt_0_compat; lra.
        - apply Rmult_le_pos; [lra|]. apply Rdiv_le_0_compat_; [|lra]. apply Rmult_le_pos; lra. }
      match goal with |- context [Reqb ?x 0] => replace x with (41/100 * (980665/100000) * (a * D)) by (unfold D; field; lra) end.
      clearbody D. destruct (Reqb_spec (41/100 * (980665/100000) * (a * D)) 0) as [Z|Z]; [left; reflexivity|right].
      eexists. split; [|reflexivity].
      assert (Ha : a <> 0) by (intros ->; apply Z; ring).
      replace (a * a * a * dens / (41/100 * (980665/100000) * (a * D))) with ((a * a) * dens / (41/100 * (980665/100000) * D)) by (field; lra).
      apply Rdiv_lt_0_compat; [|lra]. apply Rmult_lt_0_compat; [|assumption].
      destruct (Rtotal_order a 0) as [?|[?|?]]; nra. }
  destruct (flux_loop_still_ok cx 49 Hd Hat eq_refl ltac:(cbn; lra) ltac:(cbn; lra) ltac:(cbn; lra) Hm Hv Hh 0%Z s0 Hob) as ([[it s'] b] & Hl).
  unfold ITMAX at 1. rewrite Hl. cbn [bind]. eauto.
Qed.
