(** * The density laws (C71): specification and proofs *)
From Coq Require Import Reals String ZArith Bool Lia Lra List.
Import ListNotations.
From Verif Require Import Num Real Constants Functions Libsnobal Input SnowState Snobal PySnobal
  SchedSpec Sched Frame Spec Phys Mass MassEnd Progress MeltEnergy Kept Depth.
Open Scope R_scope.
Implicit Types s : SnowState R.

(** Specification.  Relative growth of the density of snow of density [r], mass [m] and
    temperature [t] by destructive metamorphism and by its own weight (Anderson); 999.87 is the
    density of water *)
Definition metamorphism (t r : R) : R :=
  1/100 * (if Rlt_dec r 100 then 1 else exp (- (46/1000) * (r - 100))) * exp (- (4/100) * (27316/100 - t)).
Definition overburden (m t r : R) : R := 26/1000 * exp (- (8/100) * (27316/100 - t)) * m * exp (- 21 * (r / (99987/100))).
(** over [secs] seconds.  The growth per hour of a pack lighter than 2000 kg/m2 is divided by a
    factor between 48 and 1; a heavier pack grows by the undivided amount per step, however long *)
Definition growth (secs m t r : R) : R :=
  if Rlt_dec m 2000
  then (metamorphism t r + overburden m t r) / (235/10 * cos (PI * m / 2000) + 245/10) * (secs / 3600)
  else metamorphism t r + overburden m t r.
(** snow of 550 kg/m3 and more does not settle *)
Definition settled (secs m t r : R) : R := if Rlt_dec r 550 then r + growth secs m t r * r else r.

(** wetting by melt and rain [w] kg/m2 moves the density of a pack of mass [m] towards 550 *)
Definition wetted (w m r : R) : R :=
  if Rlt_dec 550 r then r
  else if Rlt_dec (1/1000000) (w / m) then r + (550 - r) / (1 + 4/10 / (w / m)) else r.

Lemma compaction_exact ts s d : (0 < ts)%Z -> compaction_increment ts s = Ok d -> d = growth (IZR ts) (m_s s) (t_s s) (rho s).
Proof.
  intros Ht H. apply IZR_lt in Ht. unfold compaction_increment in H. inv_bind H as rate Hrate. inv_bind H as d1 Hd1. inv_bind H as d2 Hd2.
  ok_inj H. subst d. apply pdiv_R in Hd1. apply pdiv_R in Hd2. destruct Hd1 as (Hr & ->), Hd2 as (_ & ->). consts. rn.
  unfold growth.
  assert (E1 : 1 / 100 * (if Rltb (rho s) 100 then 1 else exp (-46 / 1000 * (rho s - 100))) * exp (-4 / 100 * (27316 / 100 - t_s s)) = metamorphism (t_s s) (rho s)).
  { unfold metamorphism. destruct (Rltb_spec (rho s) 100), (Rlt_dec (rho s) 100); try lra;
      repeat (f_equal; try lra). }
  assert (E2 : 26 / 1000 * exp (-8 / 100 * (27316 / 100 - t_s s)) * m_s s * exp (-21 * (rho s / (99987 / 100))) = overburden (m_s s) (t_s s) (rho s)).
  { unfold overburden. repeat (f_equal; try lra). }
  rewrite E1, E2. unfold compaction_rate in Hrate. consts. rn.
  destruct (Rleb_spec 2000 (m_s s)) as [A|A]; destruct (Rlt_dec (m_s s) 2000); try lra.
  - ok_inj Hrate. subst rate. lra.
  - apply pdiv_R in Hrate. destruct Hrate as (_ & ->).
    assert (Hc : 235/10 * cos (PI * m_s s / 2000) + 245/10 <> 0).
    { intros X. apply Hr. rewrite X. unfold Rdiv. ring. }
    field. repeat split; try lra; exact Hc.
Qed.

Lemma time_compact_exact ts s s' : params_ok s -> packed s -> (0 < ts)%Z -> time_compact ts (s, true) = Ok (s', true) ->
  rho s' = settled (IZR ts) (m_s s) (t_s s) (rho s).
Proof.
  intros Hp Hk Ht H. pose proof (packed_z_pos s Hk) as Hz. unfold time_compact in H.
  pose proof adj_layers_spec as HF. revert HF H. generalize (@adj_layers R RNum). intros F HF H.
  cbn [negb orb] in H. consts. unfold settled. destruct (Rleb_spec 550 (rho s)) as [Hb|Hb].
  - pose proof (f_equal (fun q => match q with Ok (x, _) => rho x | Err _ => 0 end) H) as E. cbn in E.
    destruct (Rlt_dec (rho s) 550); [lra|]. symmetry. exact E.
  - destruct (Rlt_dec (rho s) 550); [|lra].
    inv_bind H as d Hd. inv_bind H as z Hzz. ok_inj H. cbn in Hzz.
    rewrite <- (compaction_exact ts s d Ht Hd).
    apply pdiv_R in Hzz. destruct Hzz as [Hr ->]. cbn [m_s set_rho rho] in H.
    set (r1 := rho s + d * rho s) in *.
    assert (Hpo : params_ok (set_z_s (m_s s / r1) (set_rho r1 s))) by (destruct Hp; split; assumption).
    assert (Haj : adjustable (set_z_s (m_s s / r1) (set_rho r1 s))).
    { destruct (layered_adjustable _ (proj1 Hk)). split; assumption. }
    destruct (HF _ _ _ _ Hpo Haj ltac:(cbn; intros; field; assumption) H)
      as [(K0 & K1 & K2 & K3 & K4 & K5)|(K0 & K1 & K2 & K3)]; [|discriminate]. exact K3.
Qed.

(** ** The whole step *)
(** no snow is denser than 600 kg/m3: depth of mass [m] after its depth is set to [z] *)
Definition capped (z m : R) : R := Rmax z (m / 600).
(** depth after snowfall and rain on snow of depth [z] and mass [m] *)
Definition fallen_on (i : InputData R) (z m : R) : R :=
  if i_precip_now i then capped (z + i_z_snow i) (m + i_m_pp i) else z.
(** melt [w] takes away its share of the depth but not of the mass *)
Definition melted (w z m : R) : R := if Rlt_dec 0 w then capped (z - w / (m / z)) m else z.
(** liquid water [h] left after vapour [v] is exchanged at the surface (v < 0: evaporation, in the
    ratio of the latent heats of vaporization and sublimation) *)
Definition water_left (h v : R) : R := if Rlt_dec 0 h then Rmax 0 (h + v * (2501 / 2835)) else h.
(** ice exchanged as vapour changes the depth by half its share; liquid does not *)
Definition exchanged (v h h' z m : R) : R := capped (z + (v + h - h') / (m / z) / 2) (m + v).

Record step_law (secs : R) (i : InputData R) s s' (air h : R) : Prop := {
  sl_soil_water : h2o s' + swi s' = water_left (water_left h air) (E_s s' - air);
  sl_mass : m_s s' = m_s s + (if i_precip_now i then i_m_pp i else 0) + E_s s' - swi s';
  sl_depth :
    let z1 := m_s s / settled secs (m_s s) (t_s s) (rho s) in
    let z2 := fallen_on i z1 (m_s s) in
    let m2 := m_s s + (if i_precip_now i then i_m_pp i else 0) in
    let z3 := melted (melt s') z2 m2 in
    let z4 := exchanged (E_s s') h (h2o s' + swi s') z3 m2 in
    let m4 := m2 + E_s s' in
    let wet := melt s' + (if i_precip_now i then i_m_rain i else 0) in
    z_s s' = m4 / wetted wet m4 (m4 / z4)
}.

(** where the liquid water [h] comes from: what was there, what fell as liquid ([liq]) and what melted,
    less what refreezes; the surface layer refreezes at most what its cold content [cc] and the energy [q]
    of the step (a negative sum) pay for at 333600 J/kg; a remainder of at most 1e-8 kg/m2 is dropped *)
Definition water_law (precip one_layer : Prop) (cc q h0 liq melted h : R) : Prop :=
  exists r0 rl, 0 <= r0 /\ 0 <= rl /\ 333600 * r0 <= Rmax 0 (- (cc + q)) /\ (one_layer -> ~ precip -> rl = 0) /\
    let w := h0 + liq + melted - (r0 + rl) in
    0 <= w /\ h = (if Rle_dec w (1/100000000) then 0 else w).

Lemma adj_snow_depth dz dm s s' : params_ok s -> packed s -> adj_snow dz dm (s, true) = (s', true) ->
  z_s s' = capped (z_s s + dz) (m_s s + dm).
Proof.
  intros Hp Hk H. unfold capped.
  destruct (adj_snow_spec dz dm s true s' true Hp Hk H) as [(_ & Kk & Km & Kr & _)|(A & _)]; [|discriminate].
  pose proof (packed_z_pos _ (kp_packed _ _ Kk)) as Hz'. pose proof (packed_z_pos s Hk) as Hz.
  assert (Hc : (z_s s' = z_s s + dz /\ (m_s s + dm) <= 600 * z_s s') \/
               (z_s s' = (m_s s + dm) / 600 /\ z_s s + dz <> 0 /\ 600 < (m_s s + dm) / (z_s s + dz))).
  { destruct Hk as [L M]. unfold adj_snow in H.
    pose proof adj_layers_spec as HF. revert HF H. generalize (@adj_layers R RNum). intros F HF H.
    consts. cbn in H.
    set (m' := m_s s + dm) in *. set (z' := z_s s + dz) in *.
    set (s1 := if negb (Reqb z' 0) then _ else _) in H.
    assert (Hs1 : exists r, s1 = set_rho r (set_m_s m' (set_z_s z' s)) /\ (z' <> 0 -> r = m' / z') /\ (z' = 0 -> r = 0)).
    { unfold s1. destruct (Reqb_spec z' 0) as [E|E]; cbn [negb].
      - exists 0. repeat split; lra.
      - exists (m' / z'). split; [reflexivity|]. split; [reflexivity|lra]. }
    destruct Hs1 as (r1 & E1 & Hr1 & Hr0). rewrite E1 in H. clear s1 E1.
    assert (Hadj : forall r1 z1, params_ok (set_rho r1 (set_m_s m' (set_z_s z1 s))) /\
                            adjustable (set_rho r1 (set_m_s m' (set_z_s z1 s)))).
    { intros. split; [destruct Hp; split; assumption|]. apply layered_adjustable in L. destruct L; split; assumption. }
    cbn [rho set_rho set_m_s set_z_s] in H.
    assert (Hz0 : z' <> 0 -> r1 * z' = m') by (intros X; rewrite (Hr1 X); field; assumption).
    destruct (Rltb_spec 600 r1) as [Hbig|Hbig].
    - change (F (set_rho 600 (set_m_s m' (set_z_s (m'/600) s)), true) = (s', true)) in H.
      destruct (Hadj 600 (m'/600)) as (A1 & A2).
      destruct (HF _ _ _ _ A1 A2 ltac:(cbn; intros; field) H)
        as [(K0 & K1 & K2 & K3 & K4 & K5)|(K0 & _)]; [|discriminate]. right. split; [exact K4|].
      assert (z' <> 0) by (intros X; rewrite (Hr0 X) in Hbig; lra). split; [assumption|]. rewrite <- (Hr1 H0). exact Hbig.
    - left. destruct (Reqb_spec dz 0) as [Ed|Ed]; cbn [negb] in H.
      + injection H as <-. change (0 < z') in Hz'. change (z' = z' /\ m' <= 600 * z'). clearbody z' m'. split; [reflexivity|].
        rewrite <- Hz0 by lra. nra.
      + destruct (Hadj r1 z') as (A1 & A2).
        destruct (HF _ _ _ _ A1 A2 ltac:(cbn; intros; symmetry; apply Hz0; lra) H)
          as [(K0 & K1 & K2 & K3 & K4 & K5)|(K0 & _)]; [|discriminate]. split; [exact K4|].
        change (z_s s' = z') in K4. rewrite K4 in Hz' |- *. clearbody z' m'. rewrite <- Hz0 by lra. nra. }
  destruct Hc as [(E & Hle)|(E & Hn & Hlt)].
  - rewrite Rmax_left; [assumption|]. lra.
  - assert (Hm : 0 < m_s s + dm) by lra.
    assert (Hpos : 0 < z_s s + dz).
    { destruct (Rlt_dec 0 (z_s s + dz)) as [|Hq]; [assumption|exfalso].
      assert (/ (z_s s + dz) < 0) by (apply Rinv_lt_0_compat; lra). unfold Rdiv in Hlt. nra. }
    rewrite Rmax_right; [assumption|].
    apply (Rmult_lt_compat_r (z_s s + dz)) in Hlt; [|assumption].
    replace ((m_s s + dm) / (z_s s + dz) * (z_s s + dz)) with (m_s s + dm) in Hlt by (field; lra). lra.
Qed.

Lemma evap_h2o_left h v : evap_h2o h v = water_left h v.
Proof.
  unfold evap_h2o, water_left. consts. destruct (Rltb_spec 0 h), (Rlt_dec 0 h); try lra.
  replace (2501 / 1000 / (2835 / 1000)) with (2501 / 2835) by field.
  destruct (Rleb_spec (h + v * (2501 / 2835)) 0); [rewrite Rmax_left by lra|rewrite Rmax_right by lra]; reflexivity.
Qed.

Lemma h2o_compact_exact i s s' : params_ok s -> packed s -> h2o_compact i (s, true) = Ok (s', true) ->
  rho s <> 0 /\ rho s' = wetted (melt s + (if i_precip_now i then i_m_rain i else 0)) (m_s s) (rho s).
Proof.
  intros Hp Hk H. pose proof (packed_z_pos s Hk) as Hz. unfold h2o_compact in H.
  pose proof adj_layers_spec as HF. revert HF H. generalize (@adj_layers R RNum). intros F HF H.
  cbn [negb orb] in H. consts. unfold wetted. destruct (Rltb_spec 550 (rho s)) as [Hb|Hb]; destruct (Rlt_dec 550 (rho s)); try lra.
  - ok_inj H. split; [lra|]. exact (eq_sym (f_equal (fun q => rho (fst q)) H)).
  - inv_bind H as a Ha.
    assert (Ha' : m_s s <> 0 /\ a = (melt s + (if i_precip_now i then i_m_rain i else 0)) / m_s s).
    { destruct (i_precip_now i); apply pdiv_R in Ha; destruct Ha as [Hne ->]; (split; [assumption|]); [reflexivity|].
      rewrite Rplus_0_r. reflexivity. }
    destruct Ha' as (Hne & E). rewrite <- E. clear Ha.
    split. { intros X. apply Hne. destruct Hk as [_ M]. rewrite M, X. ring. }
    destruct (Rltb_spec (1/1000000) a) as [Hbig|Hbig]; destruct (Rlt_dec (1/1000000) a); try lra.
    + inv_bind H as z Hzz. ok_inj H. cbn [m_s rho set_rho] in Hzz, H.
      set (r1 := rho s + (550 - rho s) / (1 + 4/10 / a)) in *.
      apply pdiv_R in Hzz. destruct Hzz as [Hr ->].
      assert (Hpo : params_ok (set_z_s (m_s s / r1) (set_rho r1 s))) by (destruct Hp; split; assumption).
      assert (Haj : adjustable (set_z_s (m_s s / r1) (set_rho r1 s))).
      { destruct (layered_adjustable _ (proj1 Hk)). split; assumption. }
      destruct (HF _ _ _ _ Hpo Haj ltac:(cbn; intros; field; assumption) H)
        as [(K0 & K1 & K2 & K3 & K4 & K5)|(K0 & K1 & K2 & K3)]; [|discriminate]. exact K3.
    + ok_inj H. exact (eq_sym (f_equal (fun q => rho (fst q)) H)).
Qed.

Lemma mass_balance_law P zg ts i s s' : (0 < ts)%Z -> input_valid i ->
  params_ok s -> packed s -> 0 <= h2o s -> h2o_total s = 0 -> 0 < rho s <= 600 ->
  mass_balance P zg ts i (s, true) = Ok (s', true) ->
  exists h, 0 <= h /\ step_law (IZR ts) i s s' (E_flux s * IZR ts) h /\
    water_law (i_precip_now i = true) (z_s s <= max_z_s_0 s) (cc_s_0 s) (delta_Q_0 (en s) * IZR ts) (h2o s) (liquid_in i s) (melt s') h.
Proof.
  intros Hts Hv Hp Hk Hh Ht0 Hr H. unfold mass_balance in H.
  inv_bind H as [s1 c1] H1. inv_bind H as [s2 c2] H2. inv_bind H as [s3 c3] H3.
  inv_bind H as [s4 c4] H4. inv_bind H as [s5 c5] H5. inv_bind H as [s6 c6] H6.
  assert (c6 = true). { cbn [snd fst] in H. destruct c6; [reflexivity|]. ok_inj H. discriminate. } subst c6.
  pose proof (ro_c _ _ _ H6). subst c5. pose proof (hc_c _ _ _ _ H5). subst c4.
  pose proof (ec_c _ _ _ _ _ _ _ H4). subst c3. pose proof (sm_c _ _ _ _ H3). subst c2.
  cbn [snd fst] in H. inv_bind H as s7 H7. ok_inj H. injection H as <-.
  pose proof (packed_z_pos s Hk) as Hz.
  (* ageing *)
  destruct (time_compact_spec ts s s1 c1 Hp Hk Hts H1) as [(-> & K1 & M1 & E1 & D1)|(-> & G1 & _)].
  2:{ exfalso. assert (Hp1 : params_ok s1) by (eapply params_eq_ok; [apply (gn_params _ _ _ G1)|assumption]).
      discriminate (pe_c _ _ _ _ Hp1 H2). }
  assert (Hp1 : params_ok s1) by (eapply kept_params_ok; eassumption).
  assert (Pk1 : packed s1) by (apply (kp_packed _ _ K1)).
  pose proof (kp_water _ _ K1) as (_ & W1 & _ & _ & W2 & _).
  pose proof (time_compact_exact ts s s1 Hp Hk Hts H1) as R1.
  pose proof (packed_z_pos s1 Pk1) as Hz1.
  assert (Hm : 0 < m_s s) by (destruct Hk as [_ ->]; nra).
  assert (Z1 : z_s s1 = m_s s / settled (IZR ts) (m_s s) (t_s s) (rho s)).
  { rewrite <- R1, <- M1. destruct Pk1 as [_ M]. rewrite M. field. intros X. rewrite X, M1 in M. lra. }
  set (z1 := m_s s / settled (IZR ts) (m_s s) (t_s s) (rho s)) in *.
  set (m2 := m_s s + (if i_precip_now i then i_m_pp i else 0)).
  (* precipitation *)
  assert (X2 : params_ok s2 /\ packed s2 /\ 0 <= h2o_total s2 /\ z_s s2 = fallen_on i z1 (m_s s) /\ m_s s2 = m2 /\
     h2o_total s2 = h2o s + liquid_in i s /\ cc_s_0 s2 = cc_s_0 s /\ params_eq s s2 /\ (i_precip_now i = false -> z_s s2 = z_s s1)).
  { pose proof H2 as H2'. unfold fallen_on, m2, liquid_in. assert (Esw : snow_water i s1 = snow_water i s).
    { unfold snow_water. destruct (kp_params _ _ K1) as (_ & _ & _ & ->). reflexivity. }
    destruct (kp_surface _ _ K1) as (_ & _ & S1).
    destruct (precip_cover_spec i s1 s2 true Hp1 Pk1 H2) as [(Hn & _ & ->)|[(Hn & _ & s1b & A1 & A2 & A3 & ->)|(Hn & A & _)]]; [| |discriminate]; rewrite Hn.
    - split; [destruct Hp1; split; assumption|]. split; [destruct Pk1 as [[] ?]; split; [split|]; assumption|].
      cbn [h2o_total z_s m_s set_h2o_total]. rewrite W1, W2, Ht0. split; [lra|]. split; [exact Z1|]. rewrite Rplus_0_r. split; [exact M1|].
      split; [lra|]. split; [exact S1|]. split; [exact (kp_params _ _ K1)|reflexivity].
    - pose proof (Hv Hn) as V. pose proof (snow_water_nonneg i s1 Hp1 V) as Hsw.
      pose proof (kept_params_ok _ _ A1 Hp1) as Hpb.
      split; [destruct Hpb; split; assumption|].
      split; [pose proof (kp_packed _ _ A1) as [[] ?]; split; [split|]; assumption|].
      split; [cbn [h2o_total set_h2o_total]; rewrite W1, W2, Ht0; destruct V; lra|].
      unfold precip_event in H2'. rewrite Hn in H2'.
      destruct (adj_snow (i_z_snow i) (i_m_pp i) (s1, true)) as [sa ca] eqn:Ea. cbn [bind] in H2'. ok_inj H2'.
      pose proof (f_equal snd H2') as Hc. cbn [snd] in Hc. subst ca.
      pose proof (f_equal (fun q => z_s (fst q)) H2') as F1. clear H2'.
      change (z_s sa = z_s s1b) in F1.
      pose proof (adj_snow_depth _ _ _ _ Hp1 Pk1 Ea) as Ed.
      change (z_s (set_h2o_total _ (set_h2o _ s1b))) with (z_s s1b).
      change (m_s (set_h2o_total _ (set_h2o _ s1b))) with (m_s s1b).
      rewrite <- F1, Ed, A2, Z1, M1. split; [reflexivity|]. split; [reflexivity|].
      split; [cbn [h2o_total set_h2o_total]; rewrite W1, W2, Ht0, Esw; lra|]. destruct (kp_surface _ _ A1) as (_ & _ & S2).
      split; [exact (eq_trans S2 S1)|]. split; [exact (params_trans _ _ _ (kp_params _ _ K1) (kp_params _ _ A1))|congruence]. }
  destruct X2 as (Hp2 & Pk2 & Hht & Z2 & M2 & Wt2 & Sf2 & Pe2 & Zd2). set (z2 := fallen_on i z1 (m_s s)) in *.
  pose proof (time_compact_frame _ _ _ H1) as (_ & En1 & _ & X1 & _). pose proof (precip_event_frame _ _ _ H2) as (_ & En2 & _ & X2 & _).
  pose proof (snowmelt_frame _ _ _ H3) as (_ & _ & _ & X3 & _).
  cbn [fst] in X1, X2, X3, En1, En2. clear H2. assert (En : en s2 = en s) by congruence. clear En1 En2.
  (* melt *)
  destruct (snowmelt_core ts s2 s3 true Pk2 Hht H3) as (m0 & r0 & cc0 & ml & rl & ccl & ht3 & HM & Hml & Hc3). cbv zeta in Hc3.
  clear H3. pose proof (melt_state_packed _ _ _ _ _ _ _ _ _ Pk2 HM) as Pk2m.
  pose proof (melt_out_total _ _ _ _ _ _ _ _ _ HM) as Hht3.
  assert (Z1le : z_s s1 <= z_s s).
  { destruct (Rle_dec 550 (rho s)) as [A|A]; [rewrite (E1 A); lra|]. destruct D1 as (_ & _ & D1); lra. }
  assert (HW : water_law (i_precip_now i = true) (z_s s <= max_z_s_0 s) (cc_s_0 s) (delta_Q_0 (en s) * IZR ts) (h2o s) (liquid_in i s) (m0 + ml) ht3).
  { destruct HM as ((A1 & A2 & A3 & A4 & A5) & B2 & B3 & B4 & B5 & _). rewrite En, Sf2 in A4. rewrite Wt2 in B4, B5.
    exists r0, rl. split; [assumption|]. split.
    { destruct (Rle_lt_or_eq_dec _ _ (ly_zl _ (proj1 Pk2))) as [Zl|Zl]; [destruct (B2 Zl) as (_ & B & _); exact B|].
      destruct (B3 (eq_sym Zl)) as (_ & -> & _). lra. }
    rewrite LF_val in A4. split.
    { destruct (Rle_lt_or_eq_dec _ _ A1) as [Hp0|Hp0].
      - destruct (A5 Hp0) as (_ & ->). rewrite Rmult_0_r. apply Rmax_l.
      - eapply Rle_trans; [|apply Rmax_r]. subst m0. lra. }
    split.
    { intros Hs Hn. apply not_true_iff_false in Hn. destruct (Rle_lt_or_eq_dec _ _ (ly_zl _ (proj1 Pk2))) as [Zl|Zl].
      - exfalso. pose proof (ly_two _ (proj1 Pk2) Zl) as A. pose proof (ly_z _ (proj1 Pk2)) as B. specialize (Zd2 Hn).
        pose proof Pe2 as (_ & Emx & _). lra.
      - destruct (B3 (eq_sym Zl)) as (_ & -> & _). reflexivity. }
    cbv zeta. split; [lra|]. destruct (Rle_dec _ _); lra. }
  set (s2m := melt_state s2 m0 cc0 ml ccl ht3) in *.
  assert (Hp2m : params_ok s2m) by (destruct Hp2; split; assumption).
  assert (Hm0 : 0 <= m0) by (destruct HM as ((A & _) & _); exact A).
  pose proof (packed_z_pos _ Pk2) as Hz2.
  assert (Rho2 : rho s2 = m2 / z2). { rewrite <- M2, <- Z2. destruct Pk2 as [_ ->]. field. lra. }
  assert (K3 : kept s2m s3 /\ z_s s3 = melted (m0 + ml) z2 m2 /\ m_s s3 = m2).
  { unfold melted. destruct Hc3 as [(Hmz & -> & _)|(Hmp & Hrn & Ha)].
    - destruct (Rlt_dec 0 (m0 + ml)); [lra|]. split; [apply kept_refl; assumption|]. split; [exact Z2|exact M2].
    - destruct (Rlt_dec 0 (m0 + ml)); [|lra].
      destruct (adj_snow_spec _ _ s2m _ _ _ Hp2m Pk2m Ha) as [(_ & A1 & A2 & _)|(A & _)]; [|discriminate].
      split; [exact A1|]. pose proof (adj_snow_depth _ _ _ _ Hp2m Pk2m Ha) as Ed.
      change (z_s s2m) with (z_s s2) in Ed. change (m_s s2m) with (m_s s2) in Ed, A2.
      rewrite Ed, A2, M2, Z2, Rho2. split; [|lra]. f_equal; [|lra]. unfold Rdiv. ring. }
  destruct K3 as (K3 & Z3 & M3). clear Hc3. set (z3 := melted (m0 + ml) z2 m2) in *.
  assert (Hp3 : params_ok s3) by (exact (kept_params_ok _ _ K3 Hp2m)).
  pose proof (kp_packed _ _ K3) as Pk3. pose proof (packed_z_pos _ Pk3) as Hz3.
  assert (Rho3 : rho s3 = m2 / z3). { rewrite <- M3, <- Z3. destruct Pk3 as [_ ->]. field. lra. }
  destruct (kp_water _ _ K3) as (_ & _ & _ & _ & W3 & W3m & _). change (h2o_total s3 = ht3) in W3. change (melt s3 = m0 + ml) in W3m.
  (* vapour *)
  destruct (evap_cond_spec P zg ts i s3 s4 true Hp3 Pk3 ltac:(lra) H4) as (E & h & Hhn & Hh0 & _ & Hc4).
  destruct Hc4 as [(_ & K4 & M4 & R4 & _)|(A & _)]; [|discriminate].
  assert (Hp4 : params_ok s4) by (apply (kept_params_ok _ _ K4); destruct Hp3; split; assumption).
  pose proof (kp_packed _ _ K4) as Pk4.
  destruct (kp_water _ _ K4) as (_ & _ & _ & _ & W4 & W4m & WE4 & _). change (h2o_total s4 = h) in W4. change (melt s4 = melt s3) in W4m. change (E_s s4 = E) in WE4.
  assert (EF : E_flux s3 = E_flux s) by congruence.
  assert (X4 : h = water_left (water_left ht3 (E_flux s * IZR ts)) (E_s s4 - E_flux s * IZR ts) /\
               z_s s4 = exchanged (E_s s4) ht3 h z3 m2).
  { assert (Hs : has_snow s3 = true) by (apply layered_has_snow; apply Pk3).
    assert (Hlc : (layer_count s3 =? 0)%nat = false) by (destruct (layered_count s3 (proj1 Pk3)) as [[_ ->]|[_ ->]]; reflexivity).
    pose proof H4 as H4'. unfold evap_cond in H4'. cbn [negb] in H4'.
    change (nmul (E_flux s3) (nofZ ts)) with (E_flux s3 * IZR ts) in H4'. rewrite EF, W3 in H4'.
    set (E0 := E_flux s * IZR ts) in *. set (h1 := evap_h2o ht3 E0) in *.
    inv_bind H4' as El HEl.
    change (layer_count (set_h2o_total h1 s3)) with (layer_count s3) in H4'. rewrite Hlc in H4'.
    change (h2o_total (set_h2o_total h1 s3)) with h1 in H4'.
    change (has_snow _) with (has_snow s3) in H4'. rewrite Hs in H4'.
    inv_bind H4' as q Hq. ok_inj H4'.
    set (h2 := evap_h2o h1 El) in *.
    set (s3e := set_E_s (nadd E0 El) (set_h2o_total h2 (set_h2o_total h1 s3))) in *.
    assert (Hp3e : params_ok s3e) by (destruct Hp3; split; assumption).
    assert (Pk3e : packed s3e) by (destruct Pk3 as [[] ?]; split; [split|]; assumption).
    change (adj_snow (q / 2) (E0 + El) (s3e, true) = (s4, true)) in H4'.
    change (pdiv (E0 + El + ht3 - h2) (rho s3) = Ok q) in Hq.
    apply pdiv_R in Hq. destruct Hq as [Hrne ->].
    pose proof (adj_snow_depth _ _ _ _ Hp3e Pk3e H4') as Ed.
    change (z_s s3e) with (z_s s3) in Ed. change (m_s s3e) with (m_s s3) in Ed.
    destruct (adj_snow_spec _ _ s3e _ _ _ Hp3e Pk3e H4') as [(_ & A1 & _ & _ & Hthr)|(A & _)]; [|discriminate].
    destruct (kp_water _ _ A1) as (_ & _ & _ & _ & WH & _ & WE & _).
    change (h2o_total s4 = h2) in WH. change (E_s s4 = E0 + El) in WE.
    assert (Eh : h = h2) by congruence. rewrite WE. split.
    - replace (E0 + El - E0) with El by ring. rewrite Eh. unfold h2, h1. rewrite !evap_h2o_left. reflexivity.
    - unfold exchanged. rewrite Ed, Z3, M3, Rho3, Eh. reflexivity. }
  destruct X4 as (Hleft & Z4). exists ht3. split; [lra|].
  (* compaction by water *)
  destruct (h2o_compact_spec i s4 s5 true Hp4 Pk4 ltac:(lra) ltac:(intros X; apply (Hv X)) H5)
    as [(_ & K5 & M5 & R5 & R5b & R5c)|(A & _)]; [|discriminate].
  destruct (h2o_compact_exact i s4 s5 Hp4 Pk4 H5) as (Hn4 & Rho5).
  destruct (kp_water _ _ K5) as (_ & _ & _ & _ & W5 & WM5 & WE5 & _).
  pose proof (kp_packed _ _ K5) as Pk5. pose proof (packed_z_pos _ Pk4) as Hz4. pose proof (packed_z_pos _ Pk5) as Hz5.
  destruct (runoff_spec s5 s6 true (kept_params_ok _ _ K5 Hp4) Pk5 ltac:(lra) ltac:(destruct (Rle_dec (rho s4) 550) as [Hq|Hq]; [specialize (R5b Hq); lra|rewrite R5c by lra; exact R4]) H6) as (_ & D & _).
  destruct (adjust_layer_temps_spec s6 _ (dr_packed _ _ _ D) H7) as ((a & b & d & E7) & _).
  assert (Es : E_s s7 = E_s s4 /\ melt s7 = m0 + ml /\ swi s7 = swi s6 /\ h2o s7 = h2o s6 /\ z_s s7 = z_s s5 /\ m_s s7 = m_s s6).
  { rewrite E7. cbn [E_s z_s melt swi h2o m_s set_t_s set_t_s_l set_t_s_0].
    rewrite (proj1 (dr_z _ _ _ D)), (dr_E _ _ _ D), (dr_melt _ _ _ D), WE5, WM5, W4m, W3m. auto 10. }
  destruct Es as (Q1 & Q2 & Q3 & Q4 & Q5 & Q6).
  assert (Hwat : h2o s7 + swi s7 = h).
  { rewrite Q3, Q4, (dr_swi _ _ _ D), (dr_h2o _ _ _ D), W5, W4. generalize (capacity s5). intros K.
    destruct (Rle_dec h K); [rewrite Rmin_left, Rmax_left by lra|rewrite Rmin_right, Rmax_right by lra]; lra. }
  assert (M4' : m_s s4 = m2 + E_s s4) by lra.
  split; [|rewrite Q2; exact HW]. split.
  - rewrite Hwat, Q1. exact Hleft.
  - fold m2. rewrite Q6, Q3, Q1, (dr_m _ _ _ D), M5, M4'. ring.
  - cbv zeta. fold m2. fold z1. fold z2. rewrite Q2. fold z3. rewrite Hwat, Q1, <- Z4, Q5, <- M4'.
    assert (R4' : m_s s4 / z_s s4 = rho s4). { destruct Pk4 as [_ ->]. field. lra. }
    rewrite R4'. rewrite W4m, W3m in Rho5. rewrite <- Rho5, <- M5. destruct Pk5 as [_ M5']. rewrite M5'.
    assert (rho s5 <> 0).
    { intros X. rewrite X, M5 in M5'. apply Hn4. destruct Pk4 as [_ M4'']. rewrite M4'', Rmult_0_l in M5'.
      apply Rmult_integral in M5'. destruct M5'; [assumption|lra]. }
    field. assumption.
Qed.

Lemma settled_ge secs m t r : 0 <= secs -> 0 <= m -> 0 < r -> r <= settled secs m t r.
Proof.
  intros Hs Hm Hr. unfold settled. destruct (Rlt_dec r 550); [|lra].
  assert (0 <= growth secs m t r); [|nra]. unfold growth.
  assert (0 <= metamorphism t r).
  { unfold metamorphism. pose proof (exp_pos (- (46/1000) * (r - 100))). pose proof (exp_pos (- (4/100) * (27316/100 - t))).
    apply Rmult_le_pos; [|lra]. apply Rmult_le_pos; [lra|]. destruct (Rlt_dec r 100); lra. }
  assert (0 <= overburden m t r).
  { unfold overburden. pose proof (exp_pos (- (8/100) * (27316/100 - t))). pose proof (exp_pos (- 21 * (r / (99987/100)))).
    apply Rmult_le_pos; [|lra]. apply Rmult_le_pos; [|lra]. apply Rmult_le_pos; lra. }
  destruct (Rlt_dec m 2000); [|lra]. pose proof (COS_bound (PI * m / 2000)).
  apply Rmult_le_pos; [|lra]. apply Rmult_le_pos; [lra|]. apply Rlt_le, Rinv_0_lt_compat. lra.
Qed.
