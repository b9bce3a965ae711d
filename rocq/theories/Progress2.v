(** * Progress of whole data steps over the reals (C25, C48), and when the energy balance is defined. *)
From Coq Require Import Reals String ZArith Bool Lia Lra List.
Import ListNotations.
From Verif Require Import Num Real Constants Functions Libsnobal Input SnowState Snobal PySnobal
  SchedSpec Sched Frame SchedProps Spec Averages Forcing Phys Turb Mass MassEnd RunMass Run Progress.
Open Scope R_scope.
Implicit Types s : SnowState R.

Lemma input_data_dec r : (exists i, input_data (T:=R) r = Ok i) \/ (exists e, input_data r = Err e).
Proof. destruct (input_data r); eauto. Qed.

Lemma level_deltas_ok r i1 i2 n : input_data r = Ok i1 -> (0 < n)%Z -> exists d, level_deltas i1 i2 n = Ok d.
Proof.
  intros Hi Hn. apply IZR_lt in Hn. unfold level_deltas. cbv zeta. change (@nofZ R RNum n) with (IZR n).
  rewrite !pdiv_R_ok by lra. cbn [bind].
  match goal with |- context [input_data ?x] => set (r' := x) end.
  destruct (input_data_dec r') as [?|(e & He)]; [assumption|exfalso].
  apply input_data_error in He. destruct He as (_ & H1 & H2 & H3).
  assert (Hx : exists e, input_data r = Err e).
  { exists (ValueError "rho_snow is <= 0.0 with percent_snow > 0.0"). apply input_data_error. split; [reflexivity|].
    destruct (input_data_raw _ _ Hi) as (_ & _ & _ & _ & _ & _ & E1 & E2 & E3 & _).
    unfold r' in *. cbn [r_m_pp r_percent_snow r_rho_snow] in *. rewrite E1, E2, E3 in *. rn. rbool.
    assert (Hm : 0 < r_m_pp r).
    { apply (Rmult_lt_compat_r (IZR n)) in H1; [|assumption]. unfold Rdiv in H1.
      rewrite Rmult_assoc, Rinv_l in H1 by lra. lra. }
    split; [apply Rltb_true; assumption|]. split; [|apply Rltb_false; assumption].
    apply Rltb_true. apply (Rmult_lt_compat_r (IZR n)) in H2; [|assumption].
    replace (r_m_pp r / IZR n * r_percent_snow r * IZR n) with (r_m_pp r * r_percent_snow r) in H2 by (field; lra). lra. }
  destruct Hx as (e' & Hx). congruence.
Qed.

Lemma deltas_exist cfg info r i1 i2 : ordered_steps cfg -> parse_time_steps cfg = Ok info -> input_data r = Ok i1 ->
  exists ds d, input_deltas i1 i2 info = Ok ds /\ deltas_at ds 0 = Ok d /\ level_deltas i1 i2 1 = Ok d.
Proof.
  intros (S1 & S2 & S3) Hp Hi. destruct (parse_eq _ _ Hp) as (_ & ->). cbn [input_deltas ts_per_timestep ts_level].
  destruct (level_deltas_ok r i1 i2 1 Hi) as (d0 & ->); [lia|]. cbn [bind].
  destruct (level_deltas_ok r i1 i2 (cfg_norm cfg ÷ cfg_medium cfg) Hi) as (d1 & ->).
  { assert (1 <= cfg_norm cfg ÷ cfg_medium cfg)%Z; [|lia].
    rewrite Z.quot_div_nonneg by lia. apply Z.div_le_lower_bound; lia. }
  cbn [bind].
  destruct (level_deltas_ok r i1 i2 (cfg_norm cfg ÷ cfg_small cfg) Hi) as (d2 & ->).
  { assert (1 <= cfg_norm cfg ÷ cfg_small cfg)%Z; [|lia].
    rewrite Z.quot_div_nonneg by lia. apply Z.div_le_lower_bound; lia. }
  cbn [bind]. do 2 eexists. split; [reflexivity|]. split; reflexivity.
Qed.

(** a run step whose energy and mass balance are defined does not raise *)
Lemma do_tstep_intro env ds ts c i d s1 ic init s2 k :
  deltas_at ds (ts_level ts) = Ok d -> c_time_since_out c = 0%Z ->
  let iu := if i_precip_now i then update_precip_deltas i d else i in
  energy_balance env (ts_time_step ts) (c_hle1_init c) iu (set_h2o_total 0 (c_ss c)) = Ok (s1, ic, init) ->
  mass_balance (ev_P_a env) (mh_z_g (ev_heights env)) (ts_time_step ts) ic (s1, has_snow (c_ss c)) = Ok (s2, k) ->
  exists c', do_tstep env ds ts c i = Ok (c', add_deltas ic d) /\
    c_trace c' = c_trace c ++ [mkEvent ts (c_datetime c) iu (c_ss c) s2 k] /\
    c_ss c' = value_to_bar s2 /\ c_hle1_init c' = init.
Proof.
  intros Hd Ht iu He Hm. unfold do_tstep. rewrite Hd. cbn [bind]. fold iu.
  change (has_snow (set_h2o_total (nofZ 0) (c_ss c))) with (has_snow (c_ss c)).
  change (@nofZ R RNum 0) with 0.
  match goal with |- context [bind ?m _] => change m with (energy_balance env (ts_time_step ts) (c_hle1_init c) iu (set_h2o_total 0 (c_ss c))) end.
  rewrite He. cbn [bind]. rewrite Hm. cbn [bind]. rewrite Ht. cbn [Z.ltb Z.compare bind].
  unfold output. cbn [c_ss swi_sum value_to_bar set_swi_sum].
  destruct (ev_output_divided env); cbn [bind]; eexists; (split; [reflexivity|]); repeat split; reflexivity.
Qed.

(** a data step on a pack that is not thin (or absent) is one run step of normal length *)
Lemma single_data_step cfg env c i1 i2 ds d s1 ic init s2 k :
  parse_time_steps cfg = Ok (ev_tstep_info env) -> c_time_since_out c = 0%Z ->
  input_deltas i1 i2 (ev_tstep_info env) = Ok ds -> deltas_at ds 0 = Ok d ->
  below_thold (cfg_norm_thr cfg) (c_ss c) = false ->
  let iu := if i_precip_now i1 then update_precip_deltas i1 d else i1 in
  energy_balance env (60 * cfg_norm cfg) (c_hle1_init c) iu (set_h2o_total 0 (c_ss c)) = Ok (s1, ic, init) ->
  mass_balance (ev_P_a env) (mh_z_g (ev_heights env)) (60 * cfg_norm cfg) ic (s1, has_snow (c_ss c)) = Ok (s2, k) ->
  exists c' e, do_data_tstep env c i1 i2 = Ok c' /\ c_trace c' = c_trace c ++ [e] /\
    e_before e = c_ss c /\ e_after e = s2 /\ e_kept e = k /\ e_input e = iu /\ c_ss c' = value_to_bar s2 /\
    e_tstep e = mkTStep 0 (cfg_norm_thr cfg) (60 * cfg_norm cfg) (cfg_norm cfg) 1 1 /\ c_hle1_init c' = init.
Proof.
  intros Hp Ht Hds Hd Hth iu He Hm. destruct (parse_eq _ _ Hp) as (_ & Hinfo).
  set (t0 := mkTStep 0 (cfg_norm_thr cfg) (60 * cfg_norm cfg) (cfg_norm cfg) 1 1) in *.
  destruct (do_tstep_intro env ds t0 c i1 d s1 ic init s2 k Hd Ht He Hm) as (c' & Hs & Htr & Hss & Hin).
  unfold do_data_tstep. rewrite Hds. cbn [bind]. 
  assert (Hat : tstep_at env 0 = Ok t0) by (unfold tstep_at; rewrite Hinfo; reflexivity).
  cbn [divide_tstep]. cbn [d_level d_input d_core]. unfold NORMAL_TSTEP. rewrite Hat. cbn [bind].
  change (1 <? ts_level t0)%Z with false. rewrite andb_false_r. cbn [bind].
  change (Z.to_nat (ts_intervals t0)) with 1%nat. cbn [iter_res]. cbn [d_core d_level d_input].
  change (negb (0 =? SMALL_TSTEP)%Z) with true. cbn [andb].
  change (ts_threshold t0) with (cfg_norm_thr cfg). rewrite Hth.
  rewrite Hs. cbn [bind d_core d_level d_input]. change (0 =? 0)%Z with true.
  destruct (ev_output_divided env); cbn [negb andb bind].
  - do 2 eexists. split; [reflexivity|]. cbn [d_core]. split; [exact Htr|]. cbn. auto 9.
  - unfold output. rewrite Hss. cbn [swi_sum value_to_bar set_swi_sum bind d_core].
    do 2 eexists. split; [reflexivity|]. cbn [c_trace]. split; [exact Htr|]. cbn. auto 9.
Qed.

(** ** Bare ground never raises *)
Lemma bare_data_step_ok cfg env c r i1 i2 :
  ordered_steps cfg -> parse_time_steps cfg = Ok (ev_tstep_info env) -> c_time_since_out c = 0%Z ->
  sound (c_ss c) -> layer_count (c_ss c) = 0%nat -> valid_record r -> input_data r = Ok i1 ->
  exists c' e, do_data_tstep env c i1 i2 = Ok c' /\ c_trace c' = c_trace c ++ [e] /\ e_before e = c_ss c /\
    ts_per_timestep (e_tstep e) = 1%Z /\ c_hle1_init c' = c_hle1_init c /\
    exists d, level_deltas i1 i2 1 = Ok d /\ e_input e = (if i_precip_now i1 then update_precip_deltas i1 d else i1).
Proof.
  intros Ho Hp Ht [Hpk Hh Hs] Hl Hv Hi.
  destruct (deltas_exist cfg _ r i1 i2 Ho Hp Hi) as (ds & d & Hds & Hd & Hld).
  set (iu := if i_precip_now i1 then update_precip_deltas i1 d else i1).
  assert (Hiu : input_valid iu) by (eapply valid_share; try eassumption; [lia|apply const_refl]).
  assert (Hns : has_snow (c_ss c) = false) by (unfold has_snow; rewrite Hl; reflexivity).
  set (s0 := set_h2o_total 0 (c_ss c)).
  assert (He : energy_balance env (60 * cfg_norm cfg) (c_hle1_init c) iu s0
     = Ok (set_E_flux 0 (set_en zero_energy s0), iu, c_hle1_init c)).
  { unfold energy_balance. change (has_snow s0) with (has_snow (c_ss c)). rewrite Hns. reflexivity. }
  destruct (mass_balance_bare_ok (ev_P_a env) (mh_z_g (ev_heights env)) (60 * cfg_norm cfg) iu
    (set_E_flux 0 (set_en zero_energy s0))) as (s2 & Hm); [destruct Hpk; split; assumption|assumption|].
  rewrite <- Hns in Hm.
  destruct (single_data_step cfg env c i1 i2 ds d _ _ _ _ _ Hp Ht Hds Hd
    ltac:(unfold below_thold; rewrite Hl; reflexivity) He Hm) as (c' & e & A & B & D & _ & _ & G & _ & E & F).
  exists c', e. rewrite E. repeat (split; [assumption || reflexivity|]). exists d. auto.
Qed.

(** ** When the energy balance over snow is defined *)
Lemma kts_pos s : rho s <> 0 -> 0 < kts s.
Proof.
  intros H. unfold kts. consts. assert (0 < (rho s / 1000) * (rho s / 1000)).
  { apply Rsqr_pos_lt. intros E. apply H. lra. } lra.
Qed.

Lemma KT_pos : 0 < KT_MOISTSAND. Proof. consts. lra. Qed.

(** [surface] uses the surface layer, otherwise the lower one *)
Lemma g_soil_ok P zg (b : bool) (i : InputData R) s : air_ok P i -> 0 < zg -> rho s <> 0 ->
  let t := if b then t_s_0 s else t_s_l s in let d := if b then z_s_0 s else z_s_l s in
  snow_temp t -> 0 < d ->
  exists g, g_soil P zg b i s = Ok g /\ (t = i_t_g i -> g = 0) /\ (t < i_t_g i -> 0 < g) /\ (i_t_g i < t -> g < 0).
Proof.
  intros [HP Htg Heg] Hzg Hr t d Ht Hd. unfold g_soil. fold t d.
  destruct (sati_snow t Ht) as (e & Hee & He). rewrite Hee. cbn [bind].
  replace (if nltb FREEZE t then FREEZE else t) with t.
  2:{ destruct Ht as (_ & Ht). change (nltb FREEZE t) with (Rltb (27316/100) t). destruct (Rltb_spec (27316/100) t); [lra|reflexivity]. }
  destruct (sati_defined (i_t_g i)) as (eg & Hg & Hgp); [lra|]. rewrite Hg. cbn [bind].
  pose proof (Heg _ Hg) as Hgl.
  destruct (efcon_given KT_MOISTSAND (i_t_g i) P eg) as (kg & -> & Hkg); [lra|lra|lra|lra|]. cbn [bind].
  destruct (efcon_given (kts s) t P e) as (ks & -> & Hks); [apply Ht|destruct Ht; lra|lra|lra|]. cbn [bind].
  pose proof (kts_pos s Hr). pose proof KT_pos.
  destruct (ssxfr_facts ks kg t (i_t_g i) d zg) as (q & Hq & _ & Q1 & Q2 & Q3 & _); [lra|lra|lra|lra|].
  exists q. split; [exact Hq|]. auto.
Qed.

Lemma g_snow_ok P s : 61071/100 < P -> rho s <> 0 -> snow_temp (t_s_0 s) -> snow_temp (t_s_l s) ->
  0 < z_s_0 s -> 0 < z_s_l s -> exists g, g_snow P s = Ok g.
Proof.
  intros HP Hr T0 Tl Z0 Zl. unfold g_snow. destruct (neqb _ _); [eauto|].
  destruct (sati_snow _ T0) as (e0 & -> & He0). cbn [bind].
  destruct (efcon_given (kts s) (t_s_0 s) P e0) as (k1 & -> & Hk1); [apply T0|destruct T0; lra|lra|lra|]. cbn [bind].
  destruct (sati_snow _ Tl) as (el & -> & Hel). cbn [bind].
  destruct (efcon_given (kts s) (t_s_l s) P el) as (k2 & -> & Hk2); [apply Tl|destruct Tl; lra|lra|lra|]. cbn [bind].
  pose proof (kts_pos s Hr).
  destruct (ssxfr_facts k1 k2 (t_s_0 s) (t_s_l s) (z_s_0 s) (z_s_l s)) as (q & Hq & _); [lra|lra|lra|lra|].
  eauto.
Qed.

Lemma heat_transfer_ok P zg i s : air_ok P i -> 0 < zg -> packed s -> rho s <> 0 -> temps_ok s ->
  exists g g0, heat_transfer P zg i s = Ok (g, g0).
Proof.
  intros Ha Hzg Hk Hr (_ & T0 & Tl). pose proof (proj1 Hk) as L. unfold heat_transfer.
  destruct (layered_count s L) as [[Zl ->]|[Zl ->]]; cbn [Nat.eqb].
  - destruct (g_soil_ok P zg true i s Ha Hzg Hr T0 (ly_z0 _ L)) as (g & -> & _). cbn [bind]. eauto.
  - destruct (g_soil_ok P zg false i s Ha Hzg Hr (Tl Zl) Zl) as (g & -> & _). cbn [bind].
    destruct (g_snow_ok P s (ao_P _ _ Ha) Hr T0 (Tl Zl) (ly_z0 _ L) Zl) as (g0 & ->). cbn [bind]. eauto.
Qed.

Lemma energy_balance_snow env ts init i s h lve e i' init' :
  packed s -> rho s <> 0 -> temps_ok s -> air_ok (ev_P_a env) i -> 0 < mh_z_g (ev_heights env) -> (0 < ts)%Z ->
  h_le (ev_P_a env) (ev_heights env) (ev_relative_hts env) init i s = Ok (h, lve, e, i', init') ->
  exists s', energy_balance env ts init i s = Ok (s', i', init') /\ E_flux s' = e.
Proof.
  intros Hk Hr Htk Ha Hzg Hts Hh. unfold energy_balance. rewrite (layered_has_snow _ (proj1 Hk)), Hh. cbn [bind].
  assert (Ha' : air_ok (ev_P_a env) i').
  { apply h_le_clip in Hh. destruct Hh as (sat & _ & [(_ & ->)|(_ & ->)]); [assumption|]. destruct Ha; split; assumption. }
  destruct (heat_transfer_ok (ev_P_a env) (mh_z_g (ev_heights env)) i' s Ha' Hzg Hk Hr Htk) as (g & g0 & ->). cbn [bind].
  assert (exists m, advec ts i' s = Ok m).
  { unfold advec. destruct (i_precip_now i'); [|eauto]. apply IZR_lt in Hts.
    rewrite pdiv_R_ok; [eauto|]. change (@nofZ R RNum ts) with (IZR ts). lra. }
  destruct H as (m & ->). cbn [bind]. eexists. split; reflexivity.
Qed.
