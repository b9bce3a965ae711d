(** * Energy in a whole run step over snow: where melt comes from, and what happens to the cold
    content of the surface layer.  Proofs for Thm_Energy.v. *)
From Coq Require Import Reals String ZArith Bool Lia Lra List.
Import ListNotations.
From Verif Require Import Num Real Constants Functions Libsnobal Input SnowState Snobal PySnobal
  SchedSpec Sched Frame Spec Phys Mass MassEnd Progress.
Open Scope R_scope.
Implicit Types s : SnowState R.

(** [m0], [ml]: melted in the surface and the lower layer; [r0]: refrozen in the surface layer *)
Record energy_used (ts : Z) s s' (kept : bool) (m0 ml r0 : R) : Prop := {
  eu_m0 : 0 <= m0; eu_ml : 0 <= ml; eu_r0 : 0 <= r0;
  eu_melt : melt s' = m0 + ml;
  eu_surface : LF * m0 <= Rmax 0 (cc_s_0 s + delta_Q_0 (en s) * IZR ts);
  eu_lower : LF * ml <= Rmax 0 ((G_ (en s) - G_0 (en s)) * IZR ts);
  eu_all : small_threshold s < m_s s -> cc_s_0 s + delta_Q_0 (en s) * IZR ts <= LF * m0;
  eu_cc : kept = true -> cc_s_0 s' = cc_s_0 s + delta_Q_0 (en s) * IZR ts - LF * m0 + LF * r0 /\
    (0 < m0 -> cc_s_0 s' = 0 /\ r0 = 0)
}.

Lemma LF_pos : 0 < LF. Proof. rewrite LF_val. lra. Qed.
Lemma energy_none ts s s' k : melt s' = 0 -> k = false ->
  ~ small_threshold s < m_s s -> energy_used ts s s' k 0 0 0.
Proof.
  intros Hm -> Ht. split; rewrite ?Rmult_0_r; try lra; try discriminate; try apply Rmax_l; tauto.
Qed.

(** the temperatures of the pack after ageing, precipitation and melt *)
Definition same_temps s s3 : Prop :=
  t_s s3 = t_s s /\ t_s_0 s3 = t_s_0 s /\
  (0 < z_s_l s3 -> (0 < z_s_l s /\ t_s_l s3 = t_s_l s) \/ t_s_l s3 = t_s s).
Lemma same_temps_refl s : same_temps s s. Proof. repeat split. auto. Qed.
Lemma same_temps_kept a b s3 : same_temps a b -> kept b s3 -> same_temps a s3.
Proof.
  intros (T & T0 & Tl) K. destruct (kp_surface _ _ K) as (S & S0 & _). split; [congruence|]. split; [congruence|].
  intros Z. destruct (kp_lower _ _ K) as [(Z1 & _)|[(_ & Z2 & _ & E)|(_ & _ & E & _)]]; [lra| |right; congruence].
  destruct (Tl Z2) as [(A & B)|B]; [left|right]; [split|]; congruence.
Qed.

Lemma evap_cond_E P zg ts i s s' c' : params_ok s -> packed s -> evap_cond P zg ts i (s, true) = Ok (s', c') ->
  exists El, soil_evap P zg ts i s = Ok El /\ E_s s' = E_flux s * IZR ts + El.
Proof.
  intros Hp Hk H. destruct (soil_evap P zg ts i s) as [El|err] eqn:HE.
  2:{ exfalso. unfold evap_cond in H. cbn [negb] in H.
      match type of H with context [soil_evap P zg ts i (set_h2o_total ?h s)] =>
        change (soil_evap P zg ts i (set_h2o_total h s)) with (soil_evap P zg ts i s) in H end.
      rewrite HE in H. discriminate H. }
  exists El. split; [reflexivity|].
  assert (Hr : rho s <> 0).
  { unfold evap_cond in H. revert H. generalize (@adj_snow R RNum). intros F H. cbn [negb] in H.
    match type of H with context [soil_evap P zg ts i (set_h2o_total ?h s)] =>
      change (soil_evap P zg ts i (set_h2o_total h s)) with (soil_evap P zg ts i s) in H end.
    rewrite HE in H. cbn [bind] in H.
    assert (Hlc : (layer_count s =? 0)%nat = false) by (destruct (layered_count s (proj1 Hk)) as [[_ ->]|[_ ->]]; reflexivity).
    match type of H with context [layer_count (set_h2o_total ?h s)] =>
      change (layer_count (set_h2o_total h s)) with (layer_count s) in H end. rewrite Hlc in H.
    match type of H with context [has_snow ?x] => change (has_snow x) with (has_snow s) in H end.
    rewrite (layered_has_snow _ (proj1 Hk)) in H. inv_bind H as q Hq. apply pdiv_R in Hq. exact (proj1 Hq). }
  destruct (evap_cond_ok P zg ts i s El Hk Hr HE) as (s1 & c1 & H1 & h & dz & H2 & _).
  rewrite H in H1. ok_inj H1. injection H1 as <- <-. symmetry in H2.
  match type of H2 with adj_snow _ _ (?x, _) = _ => set (sx := x) in * end.
  assert (Hkx : packed sx) by (destruct Hk as [[] ?]; split; [split|]; assumption).
  assert (Hpx : params_ok sx) by (destruct Hp; split; assumption).
  destruct (adj_snow_spec _ _ _ _ _ _ Hpx Hkx H2) as [(_ & K & _)|(_ & G & _)].
  - destruct (kp_water _ _ K) as (_ & _ & _ & _ & _ & _ & W & _). exact W.
  - exact (gn_E _ _ _ G).
Qed.

Lemma mass_balance_energy P zg ts i s s' c' : (0 < ts)%Z -> input_valid i ->
  params_ok s -> packed s -> 0 <= h2o s -> h2o_total s = 0 -> Tpos s -> cold s ->
  mass_balance P zg ts i (s, true) = Ok (s', c') ->
  exists m0 ml r0, energy_used ts s s' c' m0 ml r0 /\
    (c' = true \/ E_s s' <> 0 -> exists s3 El, soil_evap P zg ts i s3 = Ok El /\ layered s3 /\ same_temps s s3 /\
       E_s s' = E_flux s * IZR ts + El).
Proof.
  intros Hts Hv Hp Hk Hh Ht0 HT HC H. unfold mass_balance in H. pose proof HC as (HC0 & _).
  inv_bind H as [s1 c1] H1.
  destruct (time_compact_spec ts s s1 c1 Hp Hk Hts H1) as [(-> & K1 & M1 & _ & D1)|(-> & G1 & M1 & Z1)].
  2:{ exists 0, 0, 0.
    assert (Hb : mass_balance P zg ts i (s1, false) = Ok (s', c')) by (unfold mass_balance; rewrite tc_bare; exact H).
    destruct G1 as [B1 B2 B3 B4 B5 B6 B7].
    assert (Hp1 : params_ok s1) by (eapply params_eq_ok; eassumption).
    destruct (bare_end _ _ _ _ _ _ _ Hp1 B1 ltac:(lra) Hv Hb) as (-> & E1 & E2 & _).
    split; [apply energy_none; auto; lra|intros [X|X]; [discriminate|tauto]]. }
  assert (Hp1 : params_ok s1) by (eapply kept_params_ok; eassumption).
  assert (Pk1 : packed s1) by (apply (kp_packed _ _ K1)).
  pose proof (time_compact_frame _ _ _ H1) as (_ & En1).
  inv_bind H as [s2 c2] H2. inv_bind H as [s3 c3] H3. inv_bind H as [s4 c4] H4. inv_bind H as [s5 c5] H5. inv_bind H as [s6 c6] H6.
  pose proof (precip_event_frame _ _ _ H2) as (_ & En2). pose proof (snowmelt_frame _ _ _ H3) as (_ & En3). cbn [fst] in En1, En2, En3.
  assert (Hst2 : (c2 = true /\ params_ok s2 /\ packed s2 /\ 0 <= h2o_total s2 /\ Tpos s2 /\ cold s2 /\ cc_s_0 s2 = cc_s_0 s /\ same_temps s s2) \/
                 (c2 = false /\ ~ small_threshold s < m_s s)).
  { pose proof (kp_water _ _ K1) as (_ & W1 & _ & _ & W2 & _).
    pose proof (kept_Tpos _ _ K1 HT) as T1. pose proof (kept_cold _ _ K1 HT HC) as C1.
    destruct (kp_surface _ _ K1) as (_ & _ & S1).
    destruct (precip_cover_spec i s1 s2 c2 Hp1 Pk1 H2) as [(Hn & -> & ->)|[(Hn & -> & s1b & A1 & A2 & A3 & ->)|(Hn & -> & s1b & A1 & A2 & ->)]].
    - left. split; [reflexivity|]. split; [destruct Hp1; split; assumption|].
      split; [destruct Pk1 as [[] ?]; split; [split|]; assumption|]. cbn. rewrite W1, W2, Ht0.
      split; [rn; lra|]. split; [exact T1|]. split; [exact C1|]. split; [assumption|]. exact (same_temps_kept _ _ _ (same_temps_refl s) K1).
    - left. split; [reflexivity|].
      pose proof (Hv Hn) as V. pose proof (snow_water_nonneg i s1 Hp1 V) as Hsw.
      pose proof (kept_params_ok _ _ A1 Hp1) as Hpb. destruct (kp_surface _ _ A1) as (_ & _ & S2).
      split; [destruct Hpb; split; assumption|].
      split; [pose proof (kp_packed _ _ A1) as [[] ?]; split; [split|]; assumption|].
      split; [cbn [h2o_total set_h2o_total]; rewrite W1, W2, Ht0; destruct V; lra|].
      split; [exact (kept_Tpos _ _ A1 T1)|]. split; [exact (kept_cold _ _ A1 T1 C1)|]. split; [exact (eq_trans S2 S1)|].
      exact (same_temps_kept _ _ _ (same_temps_kept _ _ _ (same_temps_refl s) K1) A1).
    - right. split; [reflexivity|]. pose proof (Hv Hn) as V. rewrite M1 in A2.
      pose proof (kp_params _ _ K1) as (_ & _ & Eth & _). rewrite Eth in A2.
      pose proof (packed_z_pos _ Pk1). destruct V. destruct A2 as [(A2 & _)|(_ & A2 & _)]; lra. }
  clear H2. destruct Hst2 as [(-> & Hp2 & Pk2 & Hht & T2 & C2 & S2 & TT2)|(-> & Hthr)].
  2:{ exists 0, 0, 0. rewrite sm_bare in H3. ok_inj H3. injection H3 as <- <-.
    rewrite ec_bare in H4. ok_inj H4. injection H4 as <- <-.
    rewrite hc_bare in H5. ok_inj H5. injection H5 as <- <-.
    rewrite ro_bare in H6. ok_inj H6. injection H6 as <- <-.
    cbn [snd] in H. ok_inj H. injection H as <- <-.
    split; [apply energy_none; auto|intros [X|X]; [discriminate|exfalso; apply X; reflexivity]]. }
  destruct (snowmelt_core ts s2 s3 c3 Pk2 Hht H3) as (m0 & r0 & cc0 & ml & rl & ccl & ht3 & HM & Hml & Hc3). cbv zeta in Hc3.
  clear H3. pose proof (melt_state_packed _ _ _ _ _ _ _ _ _ Pk2 HM) as Pk3.
  pose proof (melt_out_total _ _ _ _ _ _ _ _ _ HM) as Hht3.
  assert (En : en s2 = en s).
  { destruct En1 as (En1 & _). destruct En2 as (En2 & _). congruence. }
  pose proof LF_pos as HL.
  assert (B : 0 <= m0 /\ 0 <= r0 /\ 0 <= rl /\ LF * m0 <= Rmax 0 (cc_s_0 s + delta_Q_0 (en s) * IZR ts) /\
    LF * ml <= Rmax 0 ((G_ (en s) - G_0 (en s)) * IZR ts) /\ cc_s_0 s + delta_Q_0 (en s) * IZR ts <= LF * m0 /\
    cc0 = cc_s_0 s + delta_Q_0 (en s) * IZR ts - LF * m0 + LF * r0 /\ (0 < m0 -> cc0 = 0 /\ r0 = 0)).
  { destruct HM as ((A1 & A2 & A3 & A4 & A5) & Hl2 & Hl1 & _). rewrite En, S2 in *.
    assert (0 <= LF * r0) by (apply Rmult_le_pos; lra).
    assert (X : 0 <= rl /\ LF * ml <= Rmax 0 ((G_ (en s) - G_0 (en s)) * IZR ts)).
    { destruct (Rle_lt_or_eq_dec _ _ (ly_zl _ (proj1 Pk2))) as [Zl|Zl].
      - destruct (Hl2 Zl) as (L1 & L2 & L3 & L4 & L5). split; [assumption|].
        destruct (Rle_lt_or_eq_dec _ _ L1) as [Lp|<-]; [|rewrite Rmult_0_r; apply Rmax_l].
        destruct (L5 Lp) as (E1 & E2). rewrite E1, E2 in L4. destruct C2 as (_ & C2).
        pose proof (Rmax_r 0 ((G_ (en s) - G_0 (en s)) * IZR ts)). lra.
      - destruct (Hl1 (eq_sym Zl)) as (-> & -> & _). split; [lra|]. rewrite Rmult_0_r. apply Rmax_l. }
    destruct X as (X1 & X2).
    repeat split; try assumption; try lra; try (apply A5; assumption).
    destruct (Rle_lt_or_eq_dec _ _ A1) as [Lp|<-]; [|rewrite Rmult_0_r; apply Rmax_l].
    destruct (A5 Lp) as (E1 & E2). rewrite E1, E2 in A4.
    pose proof (Rmax_r 0 (cc_s_0 s + delta_Q_0 (en s) * IZR ts)). lra. }
  destruct B as (B1 & B2 & B2l & B3 & B4 & B5 & B6 & B7).
  exists m0, ml, r0.
  assert (Fin : melt s' = m0 + ml -> (c' = true -> cc_s_0 s' = cc0) -> energy_used ts s s' c' m0 ml r0).
  { intros F1 F2. split; try assumption; [intros _; assumption|]. intros Hc. rewrite (F2 Hc). auto. }
  enough (X : melt s' = m0 + ml /\ (c' = true -> cc_s_0 s' = cc0) /\
    (c' = true \/ E_s s' <> 0 -> exists s3 El, soil_evap P zg ts i s3 = Ok El /\ layered s3 /\ same_temps s s3 /\
       E_s s' = E_flux s * IZR ts + El)) by (split; [apply Fin; apply X|apply X]). clear Fin.
  set (s2m := melt_state s2 m0 cc0 ml ccl ht3) in *.
  assert (Hp2m : params_ok s2m) by (destruct Hp2; split; assumption).
  assert (Hst3 : (c3 = true /\ kept s2m s3) \/ (c3 = false /\ melt s3 = m0 + ml))
    by (destruct Hc3 as [(_ & -> & ->)|(Hmp & Hr & Ha)];
        [left; split; [reflexivity|apply kept_refl; assumption]|
         destruct (adj_snow_spec _ _ s2m _ _ _ Hp2m Pk3 Ha) as [(-> & A1 & _)|(-> & A1 & _)];
         [left; auto|right; split; [reflexivity|rewrite (gn_melt _ _ _ A1); reflexivity]]]); clear Hc3.
  destruct Hst3 as [(-> & K3)|(-> & G3)];
    [|rewrite ec_bare in H4; ok_inj H4; injection H4 as <- <-;
      rewrite hc_bare in H5; ok_inj H5; injection H5 as <- <-;
      rewrite ro_bare in H6; ok_inj H6; injection H6 as <- <-;
      cbn [snd] in H; ok_inj H; injection H as <- <-; split; [exact G3|split; [discriminate|intros [X|X]; [discriminate|exfalso; apply X; reflexivity]]]].
  assert (Hp3 : params_ok s3) by (exact (kept_params_ok _ _ K3 Hp2m)).
  pose proof (kp_packed _ _ K3) as Pk3'.
  destruct (kp_water _ _ K3) as (_ & _ & _ & _ & W3 & W3m & _); change (h2o_total s3 = ht3) in W3; change (melt s3 = m0 + ml) in W3m.
  destruct (kp_surface _ _ K3) as (_ & _ & S3); change (cc_s_0 s3 = cc0) in S3.
  destruct (evap_cond_E P zg ts i s3 s4 c4 Hp3 Pk3' H4) as (El & HEl & HE4).
  assert (HF : exists s3 El, soil_evap P zg ts i s3 = Ok El /\ layered s3 /\ same_temps s s3 /\
       E_s s4 = E_flux s * IZR ts + El).
  { exists s3, El. split; [assumption|]. split; [exact (proj1 Pk3')|]. split.
    + exact (same_temps_kept _ _ _ (TT2 : same_temps s s2m) K3).
    + rewrite HE4. f_equal. f_equal.
      destruct En1 as (_ & _ & En1 & _). destruct En2 as (_ & _ & En2 & _). destruct En3 as (_ & _ & En3 & _). congruence. }
  destruct (evap_cond_spec P zg ts i s3 s4 c4 Hp3 Pk3' ltac:(lra) H4) as (E & h & Hhn & _ & _ & Hc4); clear H4.
  destruct Hc4 as [(-> & K4 & M4 & R4 & _)|(-> & G4 & _)];
    [|rewrite hc_bare in H5; ok_inj H5; injection H5 as <- <-;
      rewrite ro_bare in H6; ok_inj H6; injection H6 as <- <-;
      cbn [snd] in H; ok_inj H; injection H as <- <-;
      split; [cbn [melt set_swi]; rewrite (gn_melt _ _ _ G4); exact W3m|split; [discriminate|intros _; exact HF]]].
  assert (Hp4 : params_ok s4) by (apply (kept_params_ok _ _ K4); destruct Hp3; split; assumption).
  pose proof (kp_packed _ _ K4) as Pk4.
  destruct (kp_water _ _ K4) as (_ & _ & _ & _ & W4 & W4m & W4E & _); change (h2o_total s4 = h) in W4; change (melt s4 = melt s3) in W4m.
  destruct (kp_surface _ _ K4) as (_ & _ & S4); change (cc_s_0 s4 = cc_s_0 s3) in S4.
  destruct (h2o_compact_spec i s4 s5 c5 Hp4 Pk4 ltac:(lra) ltac:(intros X; apply (Hv X)) H5)
    as [(-> & K5 & M5 & R5 & R5b & R5c)|(-> & G5 & _)]; clear H5;
    [|rewrite ro_bare in H6; ok_inj H6; injection H6 as <- <-;
      cbn [snd] in H; ok_inj H; injection H as <- <-;
      split; [cbn [melt set_swi]; rewrite (gn_melt _ _ _ G5); congruence|split; [discriminate|intros _; cbn [E_s set_swi]; rewrite (gn_E _ _ _ G5); exact HF]]].
  pose proof (kept_params_ok _ _ K5 Hp4) as Hp5; pose proof (kp_packed _ _ K5) as Pk5.
  destruct (kp_water _ _ K5) as (_ & _ & _ & _ & W5 & W5m & W5E & _); destruct (kp_surface _ _ K5) as (_ & _ & S5).
  assert (R5d : rho s5 <= 600)
    by (destruct (Rlt_dec 550 (rho s4)) as [A|A]; [rewrite (R5c A); assumption|assert (rho s5 <= 550) by (apply R5b; lra); lra]).
  destruct (runoff_spec s5 s6 c6 Hp5 Pk5 ltac:(lra) R5d H6) as (-> & D6 & _); clear H6.
  cbn [snd fst] in H; inv_bind H as s7 H7; ok_inj H; injection H as <- <-.
  destruct (adjust_layer_temps_spec s6 s7 (dr_packed _ _ _ D6) H7) as ((a & b & d & ->) & _).
  cbn [cc_s_0 melt set_t_s set_t_s_l set_t_s_0].
  cbn [E_s set_t_s set_t_s_l set_t_s_0].
  split; [rewrite (dr_melt _ _ _ D6); congruence|]. split; intros _.
  - rewrite (proj1 (dr_cc _ _ _ D6)). congruence.
  - rewrite (dr_E _ _ _ D6), W5E. exact HF.
Qed.
