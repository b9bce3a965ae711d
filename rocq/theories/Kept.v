(** * A run step that keeps its pack: water and temperature at its end.  Proofs for Thm_Water.v. *)
From Coq Require Import Reals String ZArith Bool Lia Lra List.
Import ListNotations.
From Verif Require Import Num Real Constants Functions Libsnobal Input SnowState Snobal PySnobal
  SchedSpec Sched Frame Spec Phys Mass MassEnd Progress MeltEnergy.
Open Scope R_scope.
Implicit Types s : SnowState R.

(** ** A stage on bare ground leaves it bare *)
Lemma tc_c ts s c s' : time_compact ts (s, c) = Ok (s', true) -> c = true.
Proof. destruct c; [reflexivity|]. rewrite tc_bare. intros H. ok_inj H. discriminate. Qed.
Lemma sm_c ts s c s' : snowmelt ts (s, c) = Ok (s', true) -> c = true.
Proof. destruct c; [reflexivity|]. rewrite sm_bare. intros H. ok_inj H. discriminate. Qed.
Lemma ec_c P z ts i s c s' : evap_cond P z ts i (s, c) = Ok (s', true) -> c = true.
Proof. destruct c; [reflexivity|]. rewrite ec_bare. intros H. ok_inj H. discriminate. Qed.
Lemma hc_c i s c s' : h2o_compact i (s, c) = Ok (s', true) -> c = true.
Proof. destruct c; [reflexivity|]. rewrite hc_bare. intros H. ok_inj H. discriminate. Qed.
Lemma ro_c s c s' : runoff (s, c) = Ok (s', true) -> c = true.
Proof. destruct c; [reflexivity|]. rewrite ro_bare. intros H. ok_inj H. discriminate. Qed.
Lemma pe_c i s c s' : params_ok s -> precip_event i (s, c) = Ok (s', true) -> c = true.
Proof. destruct c; [reflexivity|]. intros Hp H. destruct (precip_bare_spec i s s' true Hp H). discriminate. Qed.

Lemma h2o_compact_none i s s' c' : melt s = 0 -> (i_precip_now i = true -> i_m_rain i = 0) ->
  h2o_compact i (s, true) = Ok (s', c') -> s' = s.
Proof.
  intros Hm Hr H. unfold h2o_compact in H. revert H. generalize (@adj_layers R RNum). intros F H.
  cbn [negb orb] in H. consts. destruct (Rltb_spec 550 (rho s)) as [Hb|Hb].
  - ok_inj H. injection H as <- <-. reflexivity.
  - inv_bind H as a Ha.
    assert (E : a = 0).
    { destruct (i_precip_now i); apply pdiv_R in Ha; destruct Ha as [Hne ->]; rewrite Hm; [rewrite (Hr eq_refl)|]; field; assumption. }
    rewrite E in H. destruct (Rltb_spec (1/1000000) 0); [lra|]. ok_inj H. injection H as <- <-. reflexivity.
Qed.

(** ** The end of a step that keeps the pack *)
(** [s5]: before water drains; [s6]: before the temperatures are brought up to date *)
Record kept_end (ts : Z) (i : InputData R) s s' s5 s6 : Prop := {
  ke_packed : packed s5; ke_params : params_ok s5; ke_rho : rho s5 <= 600;
  ke_total : 0 <= h2o_total s5;
  ke_drained : drained s5 s6;
  ke_room : h2o_total s5 <= capacity s5 -> 0 < capacity s5;
  ke_temps : adjust_layer_temps s6 = Ok s';
  ke_T : Tpos s6; ke_cold : cold s6; ke_same : same_temps s s6;
  ke_params_eq : params_eq s s';
  ke_shallow : i_precip_now i = false -> z_s s <= max_z_s_0 s -> cc_s_0 s6 < 0 -> h2o_total s5 = 0;
  ke_deep : melt s' = 0 -> (i_precip_now i = true -> i_m_rain i = 0) -> 0 < z_s_l s6 ->
    cc_s_0 s6 < 0 -> cc_s_l s6 < 0 -> h2o_total s5 = 0;
  ke_refreeze : exists m0 r0, 0 <= m0 <= melt s' /\ 0 <= r0 <= h2o s + liquid_in i s + melt s' /\
    cc_s_0 s6 = cc_s_0 s + delta_Q_0 (en s) * IZR ts - LF * m0 + LF * r0
}.

Lemma mass_balance_kept P zg ts i s s' : (0 < ts)%Z -> input_valid i ->
  params_ok s -> packed s -> 0 <= h2o s -> h2o_total s = 0 -> Tpos s -> cold s ->
  mass_balance P zg ts i (s, true) = Ok (s', true) ->
  exists s5 s6, kept_end ts i s s' s5 s6.
Proof.
  intros Hts Hv Hp Hk Hh Ht0 HT HC H. unfold mass_balance in H.
  inv_bind H as [s1 c1] H1. inv_bind H as [s2 c2] H2. inv_bind H as [s3 c3] H3.
  inv_bind H as [s4 c4] H4. inv_bind H as [s5 c5] H5. inv_bind H as [s6 c6] H6.
  assert (c6 = true). { cbn [snd fst] in H. destruct c6; [reflexivity|]. ok_inj H. discriminate. } subst c6.
  pose proof (ro_c _ _ _ H6). subst c5. pose proof (hc_c _ _ _ _ H5). subst c4.
  pose proof (ec_c _ _ _ _ _ _ _ H4). subst c3. pose proof (sm_c _ _ _ _ H3). subst c2.
  cbn [snd fst] in H. inv_bind H as s7 H7. ok_inj H. injection H as <-.
  destruct (time_compact_spec ts s s1 c1 Hp Hk Hts H1) as [(-> & K1 & M1 & E1 & D1)|(-> & G1 & _)].
  2:{ exfalso. assert (Hp1 : params_ok s1) by (eapply params_eq_ok; [apply (gn_params _ _ _ G1)|assumption]).
      discriminate (pe_c _ _ _ _ Hp1 H2). }
  assert (Hp1 : params_ok s1) by (eapply kept_params_ok; eassumption).
  assert (Pk1 : packed s1) by (apply (kp_packed _ _ K1)).
  pose proof (kp_water _ _ K1) as (_ & W1 & _ & _ & W2 & _).
  pose proof (kept_Tpos _ _ K1 HT) as T1. pose proof (kept_cold _ _ K1 HT HC) as C1.
  assert (Z1 : z_s s1 <= z_s s).
  { destruct (Rle_dec 550 (rho s)) as [A|A]; [rewrite (E1 A); lra|]. destruct D1 as (_ & _ & D1); lra. }
  pose proof (same_temps_kept _ _ _ (same_temps_refl s) K1) as TT1.
  assert (X2 : params_ok s2 /\ packed s2 /\ 0 <= h2o_total s2 /\ Tpos s2 /\ cold s2 /\ same_temps s s2 /\ params_eq s s2 /\
     (i_precip_now i = false -> z_s s2 = z_s s1) /\ h2o_total s2 = h2o s + liquid_in i s /\ cc_s_0 s2 = cc_s_0 s).
  { unfold liquid_in. assert (Esw : snow_water i s1 = snow_water i s).
    { unfold snow_water. destruct (kp_params _ _ K1) as (_ & _ & _ & ->). reflexivity. }
    destruct (kp_surface _ _ K1) as (_ & _ & S1).
    destruct (precip_cover_spec i s1 s2 true Hp1 Pk1 H2) as [(Hn & _ & ->)|[(Hn & _ & s1b & A1 & A2 & A3 & ->)|(Hn & A & _)]]; [| |discriminate].
    - split; [destruct Hp1; split; assumption|]. split; [destruct Pk1 as [[] ?]; split; [split|]; assumption|].
      cbn [h2o_total set_h2o_total]. rewrite W1, W2, Ht0. split; [lra|].
      split; [exact T1|]. split; [exact C1|]. split; [exact TT1|]. split; [exact (kp_params _ _ K1)|]. split; [reflexivity|]. rewrite Hn. split; [lra|exact S1].
    - pose proof (Hv Hn) as V. pose proof (snow_water_nonneg i s1 Hp1 V) as Hsw.
      pose proof (kept_params_ok _ _ A1 Hp1) as Hpb.
      split; [destruct Hpb; split; assumption|].
      split; [pose proof (kp_packed _ _ A1) as [[] ?]; split; [split|]; assumption|].
      split; [cbn [h2o_total set_h2o_total]; rewrite W1, W2, Ht0; destruct V; lra|].
      split; [exact (kept_Tpos _ _ A1 T1)|]. split; [exact (kept_cold _ _ A1 T1 C1)|].
      split; [exact (same_temps_kept _ _ _ TT1 A1)|].
      split; [exact (params_trans _ _ _ (kp_params _ _ K1) (kp_params _ _ A1))|]. split; [congruence|]. rewrite Hn. cbn [h2o_total set_h2o_total]. rewrite W1, W2, Ht0, Esw.
      split; [lra|]. destruct (kp_surface _ _ A1) as (_ & _ & S2). exact (eq_trans S2 S1). }
  destruct X2 as (Hp2 & Pk2 & Hht & T2 & C2 & TT2 & Pe2 & Z2 & Wt2 & S2).
  pose proof (time_compact_frame _ _ _ H1) as (_ & En1 & _). pose proof (precip_event_frame _ _ _ H2) as (_ & En2 & _).
  cbn [fst] in En1, En2. assert (En : en s2 = en s) by congruence. clear H2 En1 En2.
  destruct (snowmelt_core ts s2 s3 true Pk2 Hht H3) as (m0 & r0 & cc0 & ml & rl & ccl & ht3 & HM & Hml & Hc3). cbv zeta in Hc3.
  clear H3. pose proof (melt_state_packed _ _ _ _ _ _ _ _ _ Pk2 HM) as Pk2m.
  pose proof (melt_out_total _ _ _ _ _ _ _ _ _ HM) as Hht3.
  assert (Hm0 : 0 <= m0) by (destruct HM as ((A & _) & _); exact A).
  assert (Cold3 : cold (melt_state s2 m0 cc0 ml ccl ht3)).
  { destruct HM as ((_ & _ & A & _) & A2 & A3 & _). split; [exact A|]. cbn.
    destruct (Rle_lt_or_eq_dec _ _ (ly_zl _ (proj1 Pk2))) as [Zl|Zl].
    - destruct (A2 Zl) as (_ & _ & B2 & _). assumption.
    - destruct (A3 (eq_sym Zl)) as (_ & _ & ->). destruct (ly_one _ (proj1 Pk2) (eq_sym Zl)) as (-> & _). lra. }
  assert (Hdry : cc0 < 0 -> (0 < z_s_l s2 -> ccl < 0) -> ht3 = 0) by (destruct HM as (_ & _ & _ & _ & _ & A); exact A).
  assert (Href : exists m0' r0', 0 <= m0' <= m0 + ml /\ 0 <= r0' <= h2o s + liquid_in i s + (m0 + ml) /\
    cc0 = cc_s_0 s + delta_Q_0 (en s) * IZR ts - LF * m0' + LF * r0').
  { destruct HM as ((A1 & A2 & _ & A4 & _) & B2 & B3 & B4 & _). exists m0, r0. rewrite Wt2 in B4. rewrite En, S2 in A4.
    split; [lra|]. split; [|lra]. split; [lra|].
    destruct (Rle_lt_or_eq_dec _ _ (ly_zl _ (proj1 Pk2))) as [Zl|Zl].
    - destruct (B2 Zl) as (_ & B & _). lra.
    - destruct (B3 (eq_sym Zl)) as (_ & -> & _). lra. }
  set (s2m := melt_state s2 m0 cc0 ml ccl ht3) in *.
  assert (Hp2m : params_ok s2m) by (destruct Hp2; split; assumption).
  assert (K3 : kept s2m s3).
  { destruct Hc3 as [(_ & -> & _)|(Hmp & Hr & Ha)]; [apply kept_refl; assumption|].
    destruct (adj_snow_spec _ _ s2m _ _ _ Hp2m Pk2m Ha) as [(_ & A1 & _)|(A & _)]; [exact A1|discriminate]. }
  assert (E3 : m0 + ml = 0 -> s3 = s2m).
  { intros A. destruct Hc3 as [(_ & -> & _)|(Hmp & _)]; [reflexivity|lra]. } clear Hc3.
  assert (Hp3 : params_ok s3) by (exact (kept_params_ok _ _ K3 Hp2m)).
  pose proof (kp_packed _ _ K3) as Pk3.
  destruct (kp_water _ _ K3) as (_ & _ & _ & _ & W3 & W3m & _). change (h2o_total s3 = ht3) in W3. change (melt s3 = m0 + ml) in W3m.
  destruct (kp_surface _ _ K3) as (_ & _ & S3). change (cc_s_0 s3 = cc0) in S3.
  assert (T3 : Tpos s3) by (exact (kept_Tpos _ _ K3 (T2 : Tpos s2m))).
  assert (C3 : cold s3) by (exact (kept_cold _ _ K3 (T2 : Tpos s2m) Cold3)).
  assert (TT3 : same_temps s s3) by (exact (same_temps_kept _ _ _ (TT2 : same_temps s s2m) K3)).
  assert (Pe3 : params_eq s s3) by (exact (params_trans _ _ _ (Pe2 : params_eq s s2m) (kp_params _ _ K3))).
  destruct (evap_cond_spec P zg ts i s3 s4 true Hp3 Pk3 ltac:(lra) H4) as (E & h & Hhn & Hh0 & _ & Hc4). clear H4.
  destruct Hc4 as [(_ & K4 & M4 & R4 & _)|(A & _)]; [|discriminate].
  set (s3e := set_E_s E (set_h2o_total h s3)) in *.
  assert (Hp4 : params_ok s4) by (apply (kept_params_ok _ _ K4); destruct Hp3; split; assumption).
  pose proof (kp_packed _ _ K4) as Pk4.
  destruct (kp_water _ _ K4) as (_ & _ & _ & _ & W4 & W4m & _). change (h2o_total s4 = h) in W4. change (melt s4 = melt s3) in W4m.
  destruct (kp_surface _ _ K4) as (_ & _ & S4). change (cc_s_0 s4 = cc_s_0 s3) in S4.
  assert (T4 : Tpos s4) by (exact (kept_Tpos _ _ K4 (T3 : Tpos s3e))).
  assert (C4 : cold s4) by (exact (kept_cold _ _ K4 (T3 : Tpos s3e) C3)).
  assert (TT4 : same_temps s s4) by (exact (same_temps_kept _ _ _ (TT3 : same_temps s s3e) K4)).
  assert (Pe4 : params_eq s s4) by (exact (params_trans _ _ _ (Pe3 : params_eq s s3e) (kp_params _ _ K4))).
  pose proof (h2o_compact_none i s4 s5 true) as Hnone.
  destruct (h2o_compact_spec i s4 s5 true Hp4 Pk4 ltac:(lra) ltac:(intros X; apply (Hv X)) H5)
    as [(_ & K5 & M5 & R5 & R5b & R5c)|(A & _)]; [|discriminate].
  pose proof (kept_params_ok _ _ K5 Hp4) as Hp5. pose proof (kp_packed _ _ K5) as Pk5.
  destruct (kp_water _ _ K5) as (_ & _ & _ & _ & W5 & W5m & _). destruct (kp_surface _ _ K5) as (_ & _ & S5).
  assert (R5d : rho s5 <= 600)
    by (destruct (Rlt_dec 550 (rho s4)) as [A|A]; [rewrite (R5c A); assumption|assert (rho s5 <= 550) by (apply R5b; lra); lra]).
  pose proof (kept_Tpos _ _ K5 T4) as T5. pose proof (kept_cold _ _ K5 T4 C4) as C5.
  pose proof (same_temps_kept _ _ _ TT4 K5) as TT5.
  pose proof (params_trans _ _ _ Pe4 (kp_params _ _ K5)) as Pe5.
  destruct (runoff_spec s5 s6 true Hp5 Pk5 ltac:(lra) R5d H6) as (_ & D6 & Room).
  destruct (dr_temps _ _ _ D6) as (F1 & F2 & F3). destruct (dr_cc _ _ _ D6) as (F4 & F5). destruct (dr_z _ _ _ D6) as (F6 & F7 & F8).
  destruct (adjust_layer_temps_spec s6 s7 (dr_packed _ _ _ D6) H7) as ((a & b & d & E7) & _).
  exists s5, s6. split; try assumption; try lra.
  - unfold Tpos. rewrite F1, F2, F3, F8. exact T5.
  - unfold cold. rewrite F4, F5. exact C5.
  - unfold same_temps. rewrite F1, F2, F3, F8. exact TT5.
  - pose proof (params_trans _ _ _ Pe5 (dr_params _ _ _ D6)) as X. rewrite E7. exact X.
  - intros Hn Hs. rewrite F4, S5, S4, S3. intros Hc. rewrite W5, W4. apply Hh0. rewrite W3. apply Hdry; [assumption|].
    intros Zl. exfalso. pose proof (ly_two _ (proj1 Pk2) Zl) as A. pose proof (ly_z _ (proj1 Pk2)) as B. specialize (Z2 Hn).
    pose proof Pe2 as (_ & Emx & _). lra.
  - intros Hm Hr Zl Hc Hcl. assert (Hmm : melt s4 = 0).
    { rewrite E7 in Hm. cbn [melt set_t_s set_t_s_l set_t_s_0] in Hm. rewrite (dr_melt _ _ _ D6) in Hm. congruence. }
    specialize (Hnone Hmm Hr H5). specialize (E3 ltac:(lra)).
    rewrite W5, W4. apply Hh0. rewrite W3. rewrite F4, S5, S4, S3 in Hc. apply Hdry; [assumption|]. intros Zl2.
    rewrite F5, Hnone in Hcl. rewrite F8, Hnone in Zl.
    assert (Z3 : z_s_l s3e = z_s_l s2) by (change (z_s_l s3 = z_s_l s2); rewrite E3; reflexivity).
    assert (Q3 : cc_s_l s3e = ccl) by (change (cc_s_l s3 = ccl); rewrite E3; reflexivity).
    destruct (kp_lower _ _ K4) as [(A & _)|[(_ & _ & A & _)|(_ & A & _)]]; [lra|congruence|lra].
  - assert (Hm7 : melt s7 = m0 + ml).
    { rewrite E7. cbn [melt set_t_s set_t_s_l set_t_s_0]. rewrite (dr_melt _ _ _ D6). congruence. }
    rewrite Hm7, F4, S5, S4, S3. exact Href.
Qed.

(** ** Temperatures from cold contents *)
Lemma new_tsno_val m t0 cc t : new_tsno m t0 cc = Ok t -> m * cp_ice t0 <> 0 /\ t = 27316/100 + cc / (m * cp_ice t0).
Proof.
  intros H. unfold new_tsno in H. inv_bind H as d Hd. apply pdiv_R in Hd. destruct Hd as [Hne ->].
  ok_inj H. subst t. split; [assumption|]. consts. lra.
Qed.

Lemma adjust_values s s' : packed s -> cold s -> adjust_layer_temps s = Ok s' ->
  t_s_0 s' = 27316/100 + cc_s_0 s / (m_s_0 s * cp_ice (t_s_0 s)) /\
  (z_s_l s = 0 -> t_s s' = t_s_0 s' /\ t_s_l s' = t_s_l s) /\
  (0 < z_s_l s -> t_s_l s' = 27316/100 + cc_s_l s / (m_s_l s * cp_ice (t_s_l s)) /\
     t_s s' = 27316/100 + (cc_s_0 s + cc_s_l s) / (m_s s * cp_ice (t_s s))).
Proof.
  intros Hk (C0 & Cl) H. unfold adjust_layer_temps in H.
  destruct (layered_count s (proj1 Hk)) as [[Zl Lc]|[Zl Lc]]; rewrite Lc in H; cbn [Nat.eqb] in H.
  - inv_bind H as t Ht. ok_inj H. subst s'. destruct (new_tsno_val _ _ _ _ Ht) as (_ & E).
    cbn [t_s t_s_0 t_s_l set_t_s set_t_s_0]. split; [exact E|]. split; [auto|lra].
  - destruct (isothermal s) eqn:Ei.
    + ok_inj H. subst s'. unfold isothermal, cc_s in Ei. rn. destruct (Reqb_spec (cc_s_0 s + cc_s_l s) 0) as [A|A]; [|discriminate].
      assert (A0 : cc_s_0 s = 0) by lra. assert (Al : cc_s_l s = 0) by lra. rewrite A, A0, Al.
      unfold Rdiv. rewrite !Rmult_0_l.
      cbn [t_s t_s_0 t_s_l set_t_s set_t_s_0 set_t_s_l]. consts. split; [lra|]. split; [lra|]. intros _. split; lra.
    + inv_bind H as t0 Ht0. inv_bind H as tl Htl. inv_bind H as t Ht. ok_inj H. subst s'.
      destruct (new_tsno_val _ _ _ _ Ht0) as (_ & E0). destruct (new_tsno_val _ _ _ _ Htl) as (_ & El).
      destruct (new_tsno_val _ _ _ _ Ht) as (_ & E).
      cbn [t_s t_s_0 t_s_l set_t_s set_t_s_0 set_t_s_l]. split; [exact E0|]. split; [lra|]. intros _. split; [exact El|exact E].
Qed.
