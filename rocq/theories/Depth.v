(** * How deep a pack can be after a run step.  Proofs for Thm_Depth.v. *)
From Coq Require Import Reals String ZArith Bool Lia Lra List.
Import ListNotations.
From Verif Require Import Num Real Constants Functions Libsnobal Input SnowState Snobal PySnobal
  SchedSpec Sched Frame Spec Phys Mass MassEnd Progress MeltEnergy Kept.
Open Scope R_scope.
Implicit Types s : SnowState R.

(** depth at most [Z], mass between [r] times the depth and 600 times [Z] *)
Definition within (r Z : R) s : Prop := z_s s <= Z /\ r * z_s s <= m_s s /\ m_s s <= 600 * Z.

Lemma adj_snow_within r Z dz dm s s' : params_ok s -> packed s -> adj_snow dz dm (s, true) = (s', true) ->
  0 <= r <= 600 -> z_s s + dz <= Z -> m_s s + dm <= 600 * Z ->
  z_s s' <= Z /\ (r * (z_s s + dz) <= m_s s + dm -> within r Z s').
Proof.
  intros Hp Hk H Hr H2 H3. unfold within.
  destruct (adj_snow_spec dz dm s true s' true Hp Hk H) as [(_ & Kk & Km & Kr & _)|(A & _)]; [|discriminate].
  pose proof (packed_z_pos _ (kp_packed _ _ Kk)) as Hz'. pose proof (packed_z_pos s Hk) as Hz.
  assert (Hc : z_s s' = z_s s + dz \/ z_s s' = (m_s s + dm) / 600).
  { destruct Hk as [L M]. unfold adj_snow in H.
    pose proof adj_layers_spec as HF. revert HF H. generalize (@adj_layers R RNum). intros F HF H.
    consts. cbn in H.
    set (m' := m_s s + dm) in *. set (z' := z_s s + dz) in *.
    set (s1 := if negb (Reqb z' 0) then _ else _) in H.
    assert (Hs1 : exists r, s1 = set_rho r (set_m_s m' (set_z_s z' s)) /\ (z' <> 0 -> m' = r * z') /\ (z' = 0 -> r = 0)).
    { unfold s1. destruct (Reqb_spec z' 0) as [E|E]; cbn [negb].
      - exists 0. repeat split; lra.
      - exists (m' / z'). split; [reflexivity|]. split; [intros; field; assumption|lra]. }
    destruct Hs1 as (r1 & E1 & Hr1 & Hr0). rewrite E1 in H. clear s1 E1.
    assert (Hadj : forall r1 z1, params_ok (set_rho r1 (set_m_s m' (set_z_s z1 s))) /\
                            adjustable (set_rho r1 (set_m_s m' (set_z_s z1 s)))).
    { intros. split; [destruct Hp; split; assumption|]. apply layered_adjustable in L. destruct L; split; assumption. }
    cbn [rho set_rho set_m_s set_z_s] in H.
    destruct (Rltb_spec 600 r1) as [Hbig|Hbig].
    - change (F (set_rho 600 (set_m_s m' (set_z_s (m'/600) s)), true) = (s', true)) in H.
      destruct (Hadj 600 (m'/600)) as (A1 & A2).
      destruct (HF _ _ _ _ A1 A2 ltac:(cbn; intros; field) H)
        as [(K0 & K1 & K2 & K3 & K4 & K5)|(K0 & _)]; [|discriminate]. right. exact K4.
    - destruct (Reqb_spec dz 0) as [Ed|Ed]; cbn [negb] in H.
      + injection H as <-. left. reflexivity.
      + destruct (Hadj r1 z') as (A1 & A2).
        destruct (HF _ _ _ _ A1 A2 ltac:(cbn; intros; apply Hr1; lra) H)
          as [(K0 & K1 & K2 & K3 & K4 & K5)|(K0 & _)]; [|discriminate]. left. exact K4. }
  rewrite Km. destruct Hc as [->|Hc]; [repeat split; lra|].
  assert (Hm : m_s s + dm = 600 * z_s s') by lra. repeat split; [lra|lra| |lra]. rewrite Hm. nra.
Qed.

(** depth that precipitation can add: the new snow, and 1 m for 600 kg/m2 of rain on the densest snow *)
Definition fall_depth (i : InputData R) : R := if i_precip_now i then i_z_snow i + i_m_rain i / 600 else 0.

Lemma evap_one h E : 0 <= h -> 0 <= evap_h2o h E /\ E + h - evap_h2o h E <= Rmax 0 E.
Proof.
  intros Hh. split; [apply evap_h2o_nonneg; assumption|].
  pose proof (Rmax_l 0 E). pose proof (Rmax_r 0 E). unfold evap_h2o.
  assert (HV : 0 < VAP_SUB < 1) by (consts; lra). set (V := (VAP_SUB : R)) in *. clearbody V. rn.
  destruct (Rltb_spec 0 h); [|lra]. destruct (Rleb_spec (h + E * V) 0); [|].
  - destruct (Rle_dec 0 E); nra.
  - destruct (Rle_dec 0 E); nra.
Qed.

(** the depth after a step that keeps the pack; [El] is what the soil gives to it *)
Lemma mass_balance_depth P zg ts i s s' r : (0 < ts)%Z -> input_valid i ->
  params_ok s -> packed s -> 0 <= h2o s -> h2o_total s = 0 -> rho s <= 600 -> 0 < r <= rho s ->
  (i_precip_now i = true -> 0 < i_m_snow i -> r <= i_rho_snow i <= 600) ->
  mass_balance P zg ts i (s, true) = Ok (s', true) ->
  exists s3 El, soil_evap P zg ts i s3 = Ok El /\ layered s3 /\ same_temps s s3 /\
    E_s s' = E_flux s * IZR ts + El /\
    z_s s' <= z_s s + fall_depth i + (Rmax 0 (E_flux s * IZR ts) + Rmax 0 El) / r.
Proof.
  intros Hts Hv Hp Hk Hh Ht0 Hr600 Hr Hpp H. unfold mass_balance in H.
  inv_bind H as [s1 c1] H1. inv_bind H as [s2 c2] H2. inv_bind H as [s3 c3] H3.
  inv_bind H as [s4 c4] H4. inv_bind H as [s5 c5] H5. inv_bind H as [s6 c6] H6.
  assert (c6 = true). { cbn [snd fst] in H. destruct c6; [reflexivity|]. ok_inj H. discriminate. } subst c6.
  pose proof (ro_c _ _ _ H6). subst c5. pose proof (hc_c _ _ _ _ H5). subst c4.
  pose proof (ec_c _ _ _ _ _ _ _ H4). subst c3. pose proof (sm_c _ _ _ _ H3). subst c2.
  cbn [snd fst] in H. inv_bind H as s7 H7. ok_inj H. injection H as <-.
  pose proof (packed_z_pos s Hk) as Hz.
  assert (W0 : within r (z_s s) s). { destruct Hk as [L M]. unfold within. rewrite M. repeat split; nra. }
  (* ageing *)
  destruct (time_compact_spec ts s s1 c1 Hp Hk Hts H1) as [(-> & K1 & M1 & E1 & D1)|(-> & G1 & _)].
  2:{ exfalso. assert (Hp1 : params_ok s1) by (eapply params_eq_ok; [apply (gn_params _ _ _ G1)|assumption]).
      discriminate (pe_c _ _ _ _ Hp1 H2). }
  assert (Hp1 : params_ok s1) by (eapply kept_params_ok; eassumption).
  assert (Pk1 : packed s1) by (apply (kp_packed _ _ K1)).
  pose proof (kp_water _ _ K1) as (_ & W1 & _ & _ & W2 & _).
  assert (Z1 : z_s s1 <= z_s s).
  { destruct (Rle_dec 550 (rho s)) as [A|A]; [rewrite (E1 A); lra|]. destruct D1 as (_ & _ & D1); lra. }
  assert (B1 : within r (z_s s) s1).
  { destruct W0 as (A & B & C). unfold within. rewrite M1. repeat split; [lra| |lra]. nra. }
  pose proof (same_temps_kept _ _ _ (same_temps_refl s) K1) as TT1.
  (* precipitation *)
  assert (X2 : params_ok s2 /\ packed s2 /\ 0 <= h2o_total s2 /\ same_temps s s2 /\ within r (z_s s + fall_depth i) s2).
  { pose proof H2 as H2'. unfold fall_depth.
    destruct (precip_cover_spec i s1 s2 true Hp1 Pk1 H2) as [(Hn & _ & ->)|[(Hn & _ & s1b & A1 & A2 & A3 & ->)|(Hn & A & _)]]; [| |discriminate]; rewrite Hn.
    - split; [destruct Hp1; split; assumption|]. split; [destruct Pk1 as [[] ?]; split; [split|]; assumption|].
      cbn [h2o_total set_h2o_total]. rewrite W1, W2, Ht0. split; [lra|]. split; [exact TT1|]. rewrite Rplus_0_r. exact B1.
    - pose proof (Hv Hn) as V. pose proof (snow_water_nonneg i s1 Hp1 V) as Hsw.
      pose proof (kept_params_ok _ _ A1 Hp1) as Hpb.
      split; [destruct Hpb; split; assumption|].
      split; [pose proof (kp_packed _ _ A1) as [[] ?]; split; [split|]; assumption|].
      split; [cbn [h2o_total set_h2o_total]; rewrite W1, W2, Ht0; destruct V; lra|].
      split; [exact (same_temps_kept _ _ _ TT1 A1)|].
      unfold precip_event in H2'. rewrite Hn in H2'.
      destruct (adj_snow (i_z_snow i) (i_m_pp i) (s1, true)) as [sa ca] eqn:Ea. cbn [bind] in H2'. ok_inj H2'.
      pose proof (f_equal snd H2') as Hc. cbn [snd] in Hc. subst ca.
      pose proof (f_equal (fun q => z_s (fst q)) H2') as F1. pose proof (f_equal (fun q => m_s (fst q)) H2') as F2. clear H2'.
      change (z_s sa = z_s s1b) in F1. change (m_s sa = m_s s1b) in F2.
      assert (Ez : within r (z_s s + (i_z_snow i + i_m_rain i / 600)) sa).
      { destruct V as [V1 V2 V3 V4 V5 V6 V7 V8]. destruct B1 as (C1 & C2 & C3).
        assert (Hrho : r * i_z_snow i <= i_m_snow i <= 600 * i_z_snow i).
        { destruct (Rle_lt_or_eq_dec _ _ V2) as [Hs0|Hs0].
          - destruct (Hpp Hn Hs0). rewrite V5. split; apply Rmult_le_compat_r; lra.
          - rewrite <- Hs0, (V8 (eq_sym Hs0)). lra. }
        apply (adj_snow_within r _ _ _ _ _ Hp1 Pk1 Ea); [lra|lra|lra|]. rewrite V3. nra. }
      unfold within in *. change (z_s (set_h2o_total _ (set_h2o _ s1b))) with (z_s s1b).
      change (m_s (set_h2o_total _ (set_h2o _ s1b))) with (m_s s1b).
      rewrite <- F1, <- F2. exact Ez. }
  destruct X2 as (Hp2 & Pk2 & Hht & TT2 & B2). set (Z2 := z_s s + fall_depth i) in *.
  pose proof (time_compact_frame _ _ _ H1) as (_ & _ & _ & X1 & _). pose proof (precip_event_frame _ _ _ H2) as (_ & _ & _ & X2 & _).
  pose proof (snowmelt_frame _ _ _ H3) as (_ & _ & _ & X3 & _).
  cbn [fst] in X1, X2, X3. clear H2.
  (* melt *)
  destruct (snowmelt_core ts s2 s3 true Pk2 Hht H3) as (m0 & r0 & cc0 & ml & rl & ccl & ht3 & HM & Hml & Hc3). cbv zeta in Hc3.
  clear H3. pose proof (melt_state_packed _ _ _ _ _ _ _ _ _ Pk2 HM) as Pk2m.
  pose proof (melt_out_total _ _ _ _ _ _ _ _ _ HM) as Hht3.
  set (s2m := melt_state s2 m0 cc0 ml ccl ht3) in *.
  assert (Hp2m : params_ok s2m) by (destruct Hp2; split; assumption).
  assert (K3 : kept s2m s3 /\ within r Z2 s3).
  { destruct Hc3 as [(_ & -> & _)|(Hmp & Hrn & Ha)]; [split; [apply kept_refl; assumption|exact B2]|].
    destruct (adj_snow_spec _ _ s2m _ _ _ Hp2m Pk2m Ha) as [(_ & A1 & _)|(A & _)]; [|discriminate].
    split; [exact A1|]. destruct B2 as (C1 & C2 & C3).
    pose proof (packed_z_pos _ Pk2) as Hz2.
    assert (Hr2 : r <= rho s2). { destruct Pk2 as [_ M]. rewrite M in C2. apply Rmult_le_reg_r with (z_s s2); assumption. }
    assert (Hd : - (m0 + ml) / rho s2 < 0).
    { unfold Rdiv. apply Ropp_lt_cancel. rewrite Ropp_0, <- Ropp_mult_distr_l, Ropp_involutive.
      apply Rmult_lt_0_compat; [lra|apply Rinv_0_lt_compat; lra]. }
    apply (adj_snow_within r _ _ _ _ _ Hp2m Pk2m Ha); [lra| | |]; change (z_s s2m) with (z_s s2); change (m_s s2m) with (m_s s2).
    - lra.
    - lra.
    - nra. }
  destruct K3 as (K3 & B3). clear Hc3.
  assert (Hp3 : params_ok s3) by (exact (kept_params_ok _ _ K3 Hp2m)).
  pose proof (kp_packed _ _ K3) as Pk3.
  destruct (kp_water _ _ K3) as (_ & _ & _ & _ & W3 & W3m & _). change (h2o_total s3 = ht3) in W3. change (melt s3 = m0 + ml) in W3m.
  assert (TT3 : same_temps s s3) by (exact (same_temps_kept _ _ _ (TT2 : same_temps s s2m) K3)).
  assert (Hm0 : 0 <= m0) by (destruct HM as ((A & _) & _); exact A).
  (* vapour *)
  destruct (evap_cond_spec P zg ts i s3 s4 true Hp3 Pk3 ltac:(lra) H4) as (E & h & Hhn & Hh0 & _ & Hc4).
  destruct Hc4 as [(_ & K4 & M4 & R4 & _)|(A & _)]; [|discriminate].
  assert (X4 : exists El, soil_evap P zg ts i (set_h2o_total (evap_h2o (h2o_total s3) (E_flux s3 * IZR ts)) s3) = Ok El /\
    E_s s4 = E_flux s3 * IZR ts + El /\ z_s s4 <= Z2 + (Rmax 0 (E_flux s3 * IZR ts) + Rmax 0 El) / r).
  { assert (Hs : has_snow s3 = true) by (apply layered_has_snow; apply Pk3).
    assert (Hlc : (layer_count s3 =? 0)%nat = false) by (destruct (layered_count s3 (proj1 Pk3)) as [[_ ->]|[_ ->]]; reflexivity).
    pose proof H4 as H4'. unfold evap_cond in H4'. cbn [negb] in H4'.
    change (nmul (E_flux s3) (nofZ ts)) with (E_flux s3 * IZR ts) in H4'.
    set (E0 := E_flux s3 * IZR ts) in *. set (h1 := evap_h2o (h2o_total s3) E0) in *.
    inv_bind H4' as El HEl. exists El. split; [exact HEl|].
    change (layer_count (set_h2o_total h1 s3)) with (layer_count s3) in H4'. rewrite Hlc in H4'.
    change (h2o_total (set_h2o_total h1 s3)) with h1 in H4'.
    change (has_snow _) with (has_snow s3) in H4'. rewrite Hs in H4'.
    inv_bind H4' as q Hq. ok_inj H4'.
    set (h2 := evap_h2o h1 El) in *.
    set (s3e := set_E_s (nadd E0 El) (set_h2o_total h2 (set_h2o_total h1 s3))) in *.
    assert (Hp3e : params_ok s3e) by (destruct Hp3; split; assumption).
    assert (Pk3e : packed s3e) by (destruct Pk3 as [[] ?]; split; [split|]; assumption).
    change (adj_snow (q / 2) (E0 + El) (s3e, true) = (s4, true)) in H4'.
    change (pdiv (E0 + El + h2o_total s3 - h2) (rho s3) = Ok q) in Hq.
    apply pdiv_R in Hq. destruct Hq as [Hrne ->].
    destruct (adj_snow_spec _ _ s3e _ _ _ Hp3e Pk3e H4') as [(_ & A1 & _ & _ & Hthr)|(A & _)]; [|discriminate].
    split. { destruct (kp_water _ _ A1) as (_ & _ & _ & _ & _ & _ & WE & _). exact WE. }
    destruct B3 as (C1 & C2 & C3). pose proof (packed_z_pos _ Pk3) as Hz3.
    assert (Hr3 : r <= rho s3). { destruct Pk3 as [_ M]. rewrite M in C2. apply Rmult_le_reg_r with (z_s s3); assumption. }
    destruct (evap_one (h2o_total s3) E0 ltac:(lra)) as (U1 & U2). fold h1 in U1, U2.
    destruct (evap_one h1 El U1) as (U3 & U4). fold h2 in U3, U4.
    pose proof (Rmax_l 0 E0) as Q1. pose proof (Rmax_r 0 E0) as Q2. pose proof (Rmax_l 0 El) as Q3. pose proof (Rmax_r 0 El) as Q4.
    set (D := Rmax 0 E0 + Rmax 0 El) in *.
    set (x := E0 + El + h2o_total s3 - h2) in *.
    assert (Hx : x <= D) by (unfold x, D; lra).
    assert (HxD : x / rho s3 / 2 <= D / r).
    { destruct (Rle_dec x 0) as [Hx0|Hx0].
      - apply Rle_trans with 0.
        + assert (0 < / rho s3) by (apply Rinv_0_lt_compat; lra). unfold Rdiv. nra.
        + apply Rmult_le_pos; [unfold D; lra|]. apply Rlt_le, Rinv_0_lt_compat. lra.
      - apply Rle_trans with (x / r).
        + apply Rle_trans with (x / rho s3).
          * assert (0 < x / rho s3) by (apply Rdiv_lt_0_compat; lra). lra.
          * apply Rmult_le_compat_l; [lra|]. apply Rinv_le_contravar; lra.
        + apply Rmult_le_compat_r; [apply Rlt_le, Rinv_0_lt_compat; lra|assumption]. }
    assert (HD : 600 * (D / r) >= D).
    { assert (0 <= D) by (unfold D; lra).
      replace D with (r * (D / r)) at 2 by (field; lra).
      assert (0 <= D / r) by (apply Rmult_le_pos; [assumption|apply Rlt_le, Rinv_0_lt_compat; lra]). nra. }
    refine (proj1 (adj_snow_within 0 _ _ _ _ _ Hp3e Pk3e H4' _ _ _)); change (z_s s3e) with (z_s s3); change (m_s s3e) with (m_s s3); [lra| |].
    { lra. } unfold D in HD |- *. lra. }
  destruct X4 as (El & HEl & HE & B4).
  exists (set_h2o_total (evap_h2o (h2o_total s3) (E_flux s3 * IZR ts)) s3), El.
  split; [exact HEl|]. split; [destruct Pk3 as [[] _]; split; assumption|]. split; [exact TT3|].
  assert (EF : E_flux s3 = E_flux s) by congruence. rewrite EF in *.
  assert (Hp4 : params_ok s4) by (apply (kept_params_ok _ _ K4); destruct Hp3; split; assumption).
  pose proof (kp_packed _ _ K4) as Pk4.
  destruct (kp_water _ _ K4) as (_ & _ & _ & _ & W4 & W4m & _). change (h2o_total s4 = h) in W4. change (melt s4 = melt s3) in W4m.
  (* compaction by water *)
  destruct (h2o_compact_spec i s4 s5 true Hp4 Pk4 ltac:(lra) ltac:(intros X; apply (Hv X)) H5)
    as [(_ & K5 & M5 & R5 & R5b & R5c)|(A & _)]; [|discriminate].
  destruct (kp_water _ _ K5) as (_ & _ & _ & _ & W5 & _ & WE5 & _).
  pose proof (kp_packed _ _ K5) as Pk5. pose proof (packed_z_pos _ Pk4) as Hz4. pose proof (packed_z_pos _ Pk5) as Hz5.
  assert (Z5 : z_s s5 <= z_s s4).
  { destruct (Rlt_dec 0 (m_s s4)) as [Hm4|Hm4].
    - destruct Pk4 as [_ Q4]. destruct Pk5 as [_ Q5]. rewrite Q4, Q5 in *.
      destruct (Rle_dec (z_s s5) (z_s s4)) as [|Hn]; [assumption|exfalso].
      assert (0 < rho s4). { destruct (Rlt_dec 0 (rho s4)) as [|Hn2]; [assumption|exfalso]. nra. } nra.
    - assert (X : s5 = s4); [|rewrite X; lra]. unfold h2o_compact in H5. revert H5. generalize (@adj_layers R RNum). intros F H5. cbn [negb orb] in H5. consts.
      assert (Hr4 : rho s4 <= 0). { destruct Pk4 as [_ Q4]. rewrite Q4 in Hm4. destruct (Rle_dec (rho s4) 0); [assumption|exfalso; nra]. }
      destruct (Rltb_spec 550 (rho s4)); [lra|].
      inv_bind H5 as a Ha.
      assert (Ha' : a <= 0).
      { destruct (i_precip_now i) eqn:En; apply pdiv_R in Ha; destruct Ha as [Hne ->].
        - destruct (Hv En). assert (/ m_s s4 < 0) by (apply Rinv_lt_0_compat; lra). unfold Rdiv. nra.
        - assert (/ m_s s4 < 0) by (apply Rinv_lt_0_compat; lra). unfold Rdiv. nra. }
      destruct (Rltb_spec (1/1000000) a); [lra|]. ok_inj H5. injection H5 as <-. reflexivity. }
  destruct (runoff_spec s5 s6 true (kept_params_ok _ _ K5 Hp4) Pk5 ltac:(lra) ltac:(destruct (Rle_dec (rho s4) 550) as [Hq|Hq]; [specialize (R5b Hq); lra|rewrite R5c by lra; exact R4]) H6) as (_ & D & _).
  destruct (adjust_layer_temps_spec s6 _ (dr_packed _ _ _ D) H7) as ((a & b & d & E7) & _).
  rewrite E7. cbn [E_s z_s set_t_s set_t_s_l set_t_s_0]. rewrite (proj1 (dr_z _ _ _ D)), (dr_E _ _ _ D), WE5, HE.
  split; [reflexivity|]. unfold Z2 in *. lra.
Qed.
