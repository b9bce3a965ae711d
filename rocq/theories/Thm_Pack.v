(** * Theorems C23, C26, C45, C50: compaction, melt and layer changes inside a run step.  Over the reals. *)
From Coq Require Import Reals String ZArith Bool Lia Lra List.
Import ListNotations.
From Verif Require Import Num Real Constants Functions Libsnobal Input SnowState Snobal PySnobal
  SchedSpec Sched Frame SchedProps Spec Averages Forcing Phys Mass MassEnd.
Open Scope R_scope.
Implicit Types s : SnowState R.

(** a snowpack as every run step leaves it (C15): one or two layers, depths and masses consistent,
    nothing in the lower layer when there is only one; and sane parameters *)
Record snowpack s : Prop := {
  sp_z0 : 0 < z_s_0 s; sp_zl : 0 <= z_s_l s; sp_z : z_s s = z_s_0 s + z_s_l s;
  sp_m0 : m_s_0 s = rho s * z_s_0 s; sp_ml : m_s_l s = rho s * z_s_l s; sp_m : m_s s = rho s * z_s s;
  sp_two : 0 < z_s_l s -> z_s_0 s = max_z_s_0 s;
  sp_one : z_s_l s = 0 -> cc_s_l s = 0 /\ t_s_l s = 19816/100;
  sp_thr : 0 <= small_threshold s; sp_max : 0 < max_z_s_0 s;
  sp_vol : 0 <= max_h2o_vol s /\ max_h2o_vol s * (99987/100) < 917
}.
Lemma no_snow_temp_R : (NO_SNOW_TEMP : R) = 19816/100.
Proof. unfold NO_SNOW_TEMP; consts; lra. Qed.
Lemma snowpack_packed s : snowpack s <-> packed s /\ params_ok s.
Proof.
  split.
  - intros []. split; [split; [split|]|split]; try assumption; try apply sp_vol0.
    rewrite no_snow_temp_R. assumption.
  - intros [[[] M] []]. rewrite no_snow_temp_R in *. split; auto.
Qed.

(** ** C23 *)
(** ageing over [ts] seconds *)
Theorem C23_ageing ts s s' c' : snowpack s -> (0 < ts)%Z -> time_compact ts (s, true) = Ok (s', c') ->
  (c' = true /\ snowpack s' /\ m_s s' = m_s s /\ rho s <= rho s' /\ z_s s' <= z_s s /\
     (rho s < 550 -> rho s < rho s') /\ (550 <= rho s -> s' = s)) \/
  (c' = false /\ m_s s <= small_threshold s).
Proof.
  intros Hs Ht H. destruct (proj1 (snowpack_packed s) Hs) as (Hk & Hp).
  destruct (time_compact_spec _ _ _ _ Hp Hk Ht H) as [(-> & K & Hm & H1 & H2)|(-> & _ & Hm & _)]; [left|right; auto].
  split; [reflexivity|]. split.
  { apply snowpack_packed. split; [apply K|]. destruct (kp_params _ _ K) as (P1 & P2 & P3 & P4).
    destruct Hp. split; rewrite ?P2, ?P3, ?P4; assumption. }
  split; [assumption|]. destruct (Rlt_dec (rho s) 550) as [Hl|Hl].
  - destruct (H2 Hl) as (_ & A & B). repeat split; intros; lra.
  - rewrite H1 by lra. repeat split; intros; lra.
Qed.

(** densification by liquid water *)
Theorem C23_liquid_water i s s' c' : snowpack s -> 0 <= melt s -> (i_precip_now i = true -> 0 <= i_m_rain i) ->
  h2o_compact i (s, true) = Ok (s', c') ->
  (c' = true /\ snowpack s' /\ m_s s' = m_s s /\ rho s <= rho s' /\ (rho s <= 550 -> rho s' <= 550) /\ (550 < rho s -> s' = s)) \/
  (c' = false /\ m_s s <= small_threshold s).
Proof.
  intros Hs Hm0 Hr H. destruct (proj1 (snowpack_packed s) Hs) as (Hk & Hp).
  destruct (h2o_compact_spec _ _ _ _ Hp Hk Hm0 Hr H) as [(-> & K & Hm & H1 & H2 & H3)|(-> & _ & Hm & _)]; [left|right; auto].
  split; [reflexivity|]. split; [|auto 8].
  apply snowpack_packed. split; [apply K|]. destruct (kp_params _ _ K) as (P1 & P2 & P3 & P4).
  destruct Hp. split; rewrite ?P2, ?P3, ?P4; assumption.
Qed.

(** ** C26.  333600 J/kg is the latent heat of fusion at 0 C. *)
(** energy bookkeeping of a layer: cold content [cc] before, [cc'] after, energy [Q] in [J/m2],
    [m] melted, [r] refrozen [kg/m2] *)
Definition layer_energy (cc Q m r cc' : R) : Prop :=
  cc' = cc + Q - 333600 * m + 333600 * r /\ 0 <= m /\ 0 <= r /\ cc' <= 0 /\ (0 < m -> cc' = 0 /\ r = 0).

Theorem C26_melt_and_refreezing_conserve_energy ts s s' c' :
  snowpack s -> 0 <= h2o_total s -> snowmelt ts (s, true) = Ok (s', c') ->
  exists m0 r0 ml rl cc0 ccl,
    layer_energy (cc_s_0 s) (delta_Q_0 (en s) * IZR ts) m0 r0 cc0 /\
    (0 < z_s_l s -> layer_energy (cc_s_l s) ((G_ (en s) - G_0 (en s)) * IZR ts) ml rl ccl) /\
    (z_s_l s = 0 -> ml = 0 /\ rl = 0) /\
    (** melt and refrozen mass: what melted is reported, what refroze was liquid *)
    melt s' = m0 + ml /\ r0 + rl <= h2o_total s + melt s' /\
    (** the pack that remains has these cold contents *)
    (c' = true -> cc_s_0 s' = cc0 /\ (0 < z_s_l s' -> 0 < z_s_l s -> cc_s_l s' = ccl) /\
       m_s s' = m_s s /\
       (h2o_total s' = h2o_total s + melt s' - (r0 + rl) \/
        (h2o_total s' = 0 /\ h2o_total s + melt s' - (r0 + rl) <= 1/100000000))).
Proof.
  intros Hs Ht H. destruct (proj1 (snowpack_packed s) Hs) as (Hk & Hp).
  destruct (snowmelt_core _ _ _ _ Hk Ht H) as (m0 & r0 & cc0 & ml & rl & ccl & ht & Hmo & Hml & Hres).
  pose proof (melt_state_packed _ _ _ _ _ _ _ _ _ Hk Hmo) as Hk1.
  destruct Hmo as ((B1 & B2 & B3 & B4 & B5) & Hl2 & Hl1 & Hle & Hht). rewrite LF_val in *.
  exists m0, r0, ml, rl, cc0, ccl.
  split; [unfold layer_energy; repeat split; try assumption; try lra; apply B5; assumption|]. split.
  { intros Zl. destruct (Hl2 Zl) as (C1 & C2 & C3 & C4 & C5). rewrite LF_val in *.
    unfold layer_energy. repeat split; try assumption; try lra; apply C5; assumption. }
  split; [intros Zl; destruct (Hl1 Zl) as (? & ? & _); auto|].
  set (s1 := melt_state s m0 cc0 ml ccl ht) in *. cbv zeta in Hres.
  assert (Hp1 : params_ok s1) by (destruct Hp; split; assumption).
  destruct Hres as [(E0 & -> & ->)|(Hpos & Hr & Ha)].
  - change (melt s1) with (m0 + ml). split; [reflexivity|]. split; [assumption|]. intros _.
    change (cc_s_0 s1) with cc0. change (cc_s_l s1) with ccl. change (h2o_total s1) with ht. change (m_s s1) with (m_s s).
    repeat split. lra.
  - destruct (adj_snow_spec _ _ _ _ _ _ Hp1 Hk1 Ha) as [(-> & K & Em & _)|(-> & G & _)].
    + destruct (kp_water _ _ K) as (_ & _ & _ & _ & W1 & W2 & _). destruct (kp_surface _ _ K) as (_ & _ & S3).
      change (melt s1) with (m0 + ml) in W2. rewrite W2. split; [reflexivity|]. split; [assumption|]. intros _.
      rewrite S3, W1, Em. change (cc_s_0 s1) with cc0. change (h2o_total s1) with ht. change (m_s s1) with (m_s s).
      split; [reflexivity|]. split; [|split; [ring|lra]]. intros Z1 Z2.
      destruct (kp_lower _ _ K) as [(E & _)|[(_ & _ & E & _)|(_ & E & _)]]; [lra|exact E|].
      change (z_s_l s1) with (z_s_l s) in E. lra.
    + rewrite (gn_melt _ _ _ G). change (melt s1) with (m0 + ml). split; [reflexivity|]. split; [assumption|discriminate].
Qed.

(** ** C45.  [compaction_increment ts s] is the relative density increase by ageing over [ts] seconds. *)
Theorem C45_ageing_increment s : 0 <= m_s s ->
  (forall ts, (0 < ts)%Z -> exists d, compaction_increment ts s = Ok d /\ 0 < d) /\
  (m_s s < 2000 -> exists per_second, forall ts, (0 < ts)%Z ->
     compaction_increment ts s = Ok (IZR ts * per_second)) /\
  (2000 <= m_s s -> exists d, forall ts, compaction_increment ts s = Ok d).
Proof.
  intros Hm.
  set (A := 1/100 * (if Rltb (rho s) 100 then 1 else exp (-46/1000 * (rho s - 100))) * exp (-4/100 * (27316/100 - t_s s))).
  set (B := 26/1000 * exp (-8/100 * (27316/100 - t_s s)) * m_s s * exp (-21 * (rho s / (99987/100)))).
  assert (Hsmall : m_s s < 2000 -> forall ts, (0 < ts)%Z -> compaction_increment ts s =
     Ok (IZR ts * ((A + B) / (3600 * (235/10 * cos (PI * m_s s / 2000) + 245/10))))).
  { intros Hl ts Ht. apply IZR_lt in Ht. unfold compaction_increment, compaction_rate. consts.
    destruct (Rleb_spec 2000 (m_s s)); [lra|].
    pose proof (COS_bound (PI * m_s s / 2000)) as [Hc _].
    rewrite pdiv_R_ok by lra. cbn [bind].
    assert (0 < (235/10 * cos (PI * m_s s / 2000) + 245/10) / (IZR ts / 3600)).
    { apply Rdiv_lt_0_compat; [lra|]. apply Rdiv_lt_0_compat; lra. }
    rewrite !pdiv_R_ok by lra. cbn [bind]. f_equal. fold A. fold B. fold B. field. repeat split; lra. }
  assert (Hbig : 2000 <= m_s s -> forall ts, compaction_increment ts s = Ok (A / 1 + B / 1)).
  { intros Hl ts. unfold compaction_increment, compaction_rate. consts.
    destruct (Rleb_spec 2000 (m_s s)); [|lra]. cbn [bind]. rewrite !pdiv_R_ok by lra. reflexivity. }
  split; [|split; [intros; eexists; eauto|intros; eexists; eauto]].
  intros ts Ht.
  assert (He : exists d, compaction_increment ts s = Ok d).
  { destruct (Rlt_dec (m_s s) 2000) as [Hl|Hl]; [rewrite (Hsmall Hl ts Ht)|rewrite (Hbig ltac:(lra) ts)]; eauto. }
  destruct He as (d & Hd). exists d. split; [assumption|]. eapply compaction_pos; eassumption.
Qed.

(** so the ageing routine does the same to a heavy pack whatever the step length ... *)
Theorem C45_heavy_packs_age_per_step s ts1 ts2 : 2000 <= m_s s ->
  time_compact ts1 (s, true) = time_compact ts2 (s, true).
Proof.
  intros Hm. destruct (C45_ageing_increment s ltac:(lra)) as (_ & _ & H). destruct (H Hm) as (d & Hd).
  unfold time_compact. rewrite !Hd. reflexivity.
Qed.

(** ... and two half steps age it more than one step *)
Theorem C45_subdivision_ages_heavy_packs_more s ts ts' s1 s2 s2' :
  snowpack s -> 2000 <= m_s s -> (0 < ts)%Z -> (0 < ts')%Z -> small_threshold s < m_s s ->
  time_compact ts (s, true) = Ok (s1, true) ->
  time_compact ts' (s, true) = Ok (s2, true) -> time_compact ts' (s2, true) = Ok (s2', true) ->
  rho s1 < 550 -> rho s1 < rho s2'.
Proof.
  intros Hs Hm Ht Ht' Hthr H1 H2 H3 Hr.
  rewrite (C45_heavy_packs_age_per_step s ts ts' Hm) in H1. rewrite H1 in H2. injection H2 as <-.
  destruct (C23_ageing _ _ _ _ Hs Ht' H1) as [(_ & Hs1 & _)|(E & _)]; [|discriminate].
  destruct (C23_ageing _ _ _ _ Hs1 Ht' H3) as [(_ & _ & _ & _ & _ & Hlt & _)|(E & _)]; [auto|discriminate].
Qed.

(** ** C50.  A pack that becomes deeper or shallower keeps the surface layer's cold content; the lower layer's
    is kept while there are two layers, discarded when the pack becomes one layer, and made up from the pack
    temperature when a second layer appears. *)
(** cold content [J/m2] of [m] kg/m2 of ice at [t] K *)
Definition ice_cold_content (t m : R) : R :=
  if Rlt_dec t (27316/100) then 4186798188/1000000000 * (24928/1000000 + 176/100000 * t) / (1/1000) * m * (t - 27316/100) else 0.
Definition total_cold_content s : R := cc_s_0 s + cc_s_l s.
Definition lower_layer_rule s s' : Prop :=
  cc_s_0 s' = cc_s_0 s /\
  (0 < z_s_l s -> 0 < z_s_l s' -> total_cold_content s' = total_cold_content s) /\
  (0 < z_s_l s -> z_s_l s' = 0 -> total_cold_content s' = total_cold_content s - cc_s_l s) /\
  (z_s_l s = 0 -> 0 < z_s_l s' ->
     total_cold_content s' = total_cold_content s + ice_cold_content (t_s s) (m_s_l s')) /\
  (z_s_l s = 0 -> z_s_l s' = 0 -> total_cold_content s' = total_cold_content s).
Lemma cold_content_ice t m : cold_content t m = ice_cold_content t m.
Proof.
  unfold cold_content, ice_cold_content, heat_stor, cp_ice. consts.
  destruct (Rltb_spec t (27316/100)); destruct (Rlt_dec t (27316/100)); try lra; reflexivity.
Qed.
Lemma kept_lower_rule s s' : snowpack s -> kept s s' -> lower_layer_rule s s'.
Proof.
  intros Hs K. unfold lower_layer_rule, total_cold_content. destruct (kp_surface _ _ K) as (_ & _ & S3).
  pose proof (sp_zl _ Hs). rewrite S3.
  split; [reflexivity|].
  destruct (kp_lower _ _ K) as [(E1 & E2 & E3)|[(E0 & E1 & E2 & E3)|(E0 & E1 & E2 & E3 & E4)]];
    rewrite ?E2, ?E4, ?cold_content_ice; repeat split; intros; try lra.
  destruct (sp_one _ Hs ltac:(assumption)) as (-> & _); lra.
  destruct (sp_one _ Hs ltac:(assumption)) as (-> & _); lra.
Qed.
Theorem C50_layer_changes_and_cold_content s : snowpack s ->
  (forall ts s', (0 < ts)%Z -> time_compact ts (s, true) = Ok (s', true) -> lower_layer_rule s s') /\
  (forall dz dm s', adj_snow dz dm (s, true) = (s', true) -> lower_layer_rule s s').
Proof.
  intros Hs. destruct (proj1 (snowpack_packed s) Hs) as (Hk & Hp). split.
  - intros ts s' Ht H. destruct (time_compact_spec _ _ _ _ Hp Hk Ht H) as [(_ & K & _)|(E & _)]; [|discriminate].
    apply kept_lower_rule; assumption.
  - intros dz dm s' H. destruct (adj_snow_spec _ _ _ _ _ _ Hp Hk H) as [(_ & K & _)|(E & _)]; [|discriminate].
    apply kept_lower_rule; assumption.
Qed.

(** ** The hypotheses are met *)
(** 0.5 m of snow of density 300 in two layers at 270 K, with the default parameters *)
Definition a_pack (z0 zl ccl tl r : R) : SnowState R :=
  set_m_s (r * (z0 + zl)) (set_m_s_0 (r * z0) (set_m_s_l (r * zl) (set_rho r (set_z_s (z0 + zl) (set_z_s_0 z0 (set_z_s_l zl
   (set_t_s 270 (set_t_s_0 270 (set_t_s_l tl (set_cc_s_0 (-1000) (set_cc_s_l ccl
   (set_max_h2o_vol (1/100) (snow_state_init (1/4) 10))))))))))))).
Example two_layers : snowpack (a_pack (1/4) (1/4) (-500000) 270 300).
Proof. split; cbn; rn; try split; try lra. Qed.
Example one_layer : snowpack (a_pack (1/4) 0 0 (19816/100) 300).
Proof. split; cbn; rn; try split; try lra. Qed.
Example heavy : snowpack (a_pack (1/4) (39/4) (-500000) 270 300) /\ 2000 <= m_s (a_pack (1/4) (39/4) (-500000) 270 300).
Proof. split; [split; cbn; rn; try split; try lra|cbn; rn; lra]. Qed.

(** a pack no deeper than the active layer is left without a lower layer *)
Lemma adj_layers_thin s c : 0 <= small_threshold s -> z_s s <= max_z_s_0 s -> z_s_l (fst (adj_layers (s, c))) = 0.
Proof.
  intros Ht Hz. unfold adj_layers.
  assert (Hc : z_s_l (calc_layers s) = 0).
  { unfold calc_layers. rn. destruct (Rleb (m_s s) (small_threshold s)); [reflexivity|].
    destruct (Rltb_spec 0 (z_s s - max_z_s_0 s)); [lra|]. destruct (Rltb (0 * rho s) (small_threshold s)); reflexivity. }
  revert Hc. generalize (calc_layers s). intros s1 Hc. destruct (layer_count s1 =? 0)%nat.
  - destruct (_ <? _)%num; destruct (layer_count s =? 2)%nat; exact Hc.
  - assert (z_s_l (layer_mass s1) = 0) as Hm by (unfold layer_mass; destruct (layer_count s1) as [|[|]]; exact Hc).
    revert Hm. generalize (layer_mass s1). intros s2 Hm.
    destruct ((layer_count s =? 1)%nat && _)%bool; [exact Hm|]. destruct ((layer_count s =? 2)%nat && _)%bool; exact Hm.
Qed.

(** removing 0.25 m of the two-layer pack leaves one layer and forgets the cold content of the lower one *)
Theorem C50_merging_forgets : exists s', adj_snow (-1/4) (-75) (a_pack (1/4) (1/4) (-500000) 270 300, true) = (s', true) /\
  total_cold_content s' = total_cold_content (a_pack (1/4) (1/4) (-500000) 270 300) + 500000.
Proof.
  pose proof two_layers as Hs. destruct (proj1 (snowpack_packed _) Hs) as (Hk & Hp).
  pose proof (C50_layer_changes_and_cold_content _ Hs) as (_ & Hall).
  set (s := a_pack (1/4) (1/4) (-500000) 270 300) in *.
  destruct (adj_snow (-1/4) (-75) (s, true)) as (s', c') eqn:H.
  assert (E1 : z_s s = 1/4 + 1/4) by reflexivity. assert (E2 : m_s s = 300 * (1/4 + 1/4)) by reflexivity.
  assert (E3 : small_threshold s = 10) by reflexivity. assert (E4 : max_z_s_0 s = 1/4) by reflexivity.
  assert (E5 : z_s_l s = 1/4) by reflexivity. assert (E6 : cc_s_l s = -500000) by reflexivity.
  clearbody s. clear Hs.
  assert (Hl : z_s_l s' = 0).
  { replace s' with (fst (adj_snow (-1/4) (-75) (s, true))) by (rewrite H; reflexivity).
    pose proof adj_layers_thin as HF. revert HF. unfold adj_snow. generalize (@adj_layers R RNum). intros F HF. rn.
    assert (En : forall (b : bool) (v : RbaseSymbolsImpl.R), z_s_l (fst (F (if b then set_rho v (set_m_s (m_s s + -75) (set_z_s (z_s s + -1 / 4) s)) else set_rho 0 (set_m_s (m_s s + -75) (set_z_s (z_s s + -1 / 4) s)), true))) = 0).
    { intros b v. apply HF; destruct b; cbn; lra. }
    destruct (Rltb _ _) eqn:Ed.
    - exfalso. revert Ed. cbn. rewrite E1, E2. consts.
      destruct (Reqb_spec (1 / 4 + 1 / 4 + -1 / 4) 0) as [X|X]; [lra|]. cbn.
      replace ((300 * (1 / 4 + 1 / 4) + -75) / (1 / 4 + 1 / 4 + -1 / 4)) with 300 by field.
      destruct (Rltb_spec 600 300); [lra|discriminate].
    - destruct (Reqb_spec (-1/4) 0) as [X|X]; [lra|]. cbn [negb]. apply En. }
  destruct (adj_snow_spec _ _ _ _ _ _ Hp Hk H) as [(Ec & _)|(_ & _ & [(G & _)|(_ & G & _)])].
  - subst c'. exists s'. split; [reflexivity|].
    destruct (Hall _ _ _ H) as (_ & _ & E & _). rewrite E by lra. lra.
  - lra.
  - lra.
Qed.

Print Assumptions C23_ageing.
Print Assumptions C23_liquid_water.
Print Assumptions C26_melt_and_refreezing_conserve_energy.
Print Assumptions C45_ageing_increment.
Print Assumptions C45_heavy_packs_age_per_step.
Print Assumptions C45_subdivision_ages_heavy_packs_more.
Print Assumptions C50_layer_changes_and_cold_content.
