(** * Theorems C25 (second part) and C51: when run steps return, and what stops them.  Over the reals. *)
From Coq Require Import Reals String ZArith Bool Lia Lra List.
Import ListNotations.
From Verif Require Import Num Real Constants Functions Libsnobal Input SnowState Snobal PySnobal
  SchedSpec Sched Frame SchedProps Spec Averages Forcing Phys Turb Mass MassEnd RunMass Run Thm_Mass Thm_Turb Thm_Pack Progress Progress2.
Open Scope R_scope.
Implicit Types s : SnowState R.

Lemma run_time_since_out (Q : RawInput R -> Prop) p cfg (ic : InitSnow R) mh m env c :
  model_run Q p cfg ic mh m env c -> c_time_since_out c = 0%Z.
Proof.
  intros (info & c0 & Hp & Hi & Hr).
  destruct (init_tso _ _ _ _ _ _ _ Hi) as (T0 & _ & O0 & Tr0 & Ei & Em & _).
  rewrite <- Ei in Hp. destruct (parse_standard _ _ Hp) as (t0 & t1 & t2 & Hstd).
  induction Hr as [|c i1 i2 c' Hr IH Hok Hd]; [assumption|].
  destruct (ev_output_divided env) eqn:Hm.
  - destruct (outputs_all _ _ _ _ _ _ _ _ Hstd Hm IH Hd) as (Ht' & _). assumption.
  - destruct (outputs_normal _ _ _ _ _ _ _ _ Hstd Hm Hd) as (Ho & Ht'). assumption.
Qed.

(** ** C25: bare ground never raises *)
(** a data step of any run that starts without snow returns, whatever the two records are *)
Theorem C25_bare_ground_never_raises (Q : RawInput R -> Prop) p cfg ic mh all_mode env c r i1 i2 :
  (forall r, Q r -> valid_record r) -> valid_setup p cfg ic ->
  model_run Q p cfg ic mh all_mode env c -> layer_count (c_ss c) = 0%nat ->
  Q r -> input_data r = Ok i1 ->
  exists c' e, do_data_tstep env c i1 i2 = Ok c' /\ c_trace c' = c_trace c ++ [e] /\ e_before e = c_ss c.
Proof.
  intros HQ Hv Hrun Hl Hq Hin. pose proof (run_time_since_out _ _ _ _ _ _ _ _ Hrun) as Ht.
  destruct Hrun as (info & c0 & Hp & Hi & Hr).
  destruct (init_tso _ _ _ _ _ _ _ Hi) as (_ & _ & _ & _ & Ei & _).
  destruct (run_good Q p cfg info ic mh all_mode env c0 c HQ Hv Hp Hi Hr) as (Hs & _).
  rewrite <- Ei in Hp.
  destruct (bare_data_step_ok cfg env c r i1 i2 (vs_steps _ _ _ Hv) Hp Ht Hs Hl (HQ _ Hq) Hin) as (c' & e & A & B & D & _).
  exists c', e. auto.
Qed.

(** a run without snow on the ground at the start and without snowfall completes, for any
    weather, and reports no snow, no melt, no evaporation, no energy exchange *)
Definition snow_free (r : RawInput R) : Prop := r_m_pp r <= 0 \/ r_percent_snow r = 0.
Lemma snow_free_valid r : snow_free r -> valid_record r.
Proof. intros [H|H]; split; intros; lra. Qed.
Lemma snow_free_input r : snow_free r -> exists i, input_data r = Ok i /\ (i_precip_now i = true -> i_m_snow i = 0).
Proof.
  intros H. destruct (input_data_dec r) as [(i & Hi)|(e & He)].
  - exists i. split; [assumption|]. intros Hn. destruct (Rlt_dec 0 (r_m_pp r)) as [Hp|Hp].
    + destruct (input_data_phase _ _ Hi Hp) as (_ & E1 & E2 & _).
      destruct H as [H|H]; [lra|]. rewrite H in *. lra.
    + destruct (input_data_dry _ _ Hi ltac:(lra)) as (E & _). congruence.
  - exfalso. apply input_data_error in He. destruct He as (_ & H1 & H2 & _). rn. rbool.
    destruct H as [H|H]; [lra|]. rewrite H in H2. lra.
Qed.

(** what a run step without snow and without snowfall does: nothing but pass on the rain *)
Definition passes_rain (e : Event R) : Prop :=
  layer_count (e_before e) = 0%nat /\ layer_count (e_after e) = 0%nat /\
  swi (e_after e) = precip e /\ melt (e_after e) = 0 /\ E_s (e_after e) = 0 /\
  (forall f, In f energy_terms -> f (en (e_after e)) = 0).

Lemma snow_free_steps p cfg ic mh m env : valid_setup p cfg ic -> forall rows c i1 r1,
  model_run snow_free p cfg ic mh m env c -> layer_count (c_ss c) = 0%nat -> h2o (c_ss c) = 0 ->
  Forall passes_rain (c_trace c) -> snow_free r1 -> input_data r1 = Ok i1 -> Forall snow_free rows ->
  exists c', run_steps env c i1 rows = Ok c' /\ model_run snow_free p cfg ic mh m env c' /\ Forall passes_rain (c_trace c') /\
    length (c_trace c') = (length (c_trace c) + length rows)%nat.
Proof.
  intros Hv. induction rows as [|r rows IH]; intros c i1 r1 Hrun Hl Hh Hf Hs1 Hi1 Hrows.
  - exists c. cbn [run_steps length]. rewrite Nat.add_0_r. auto.
  - inversion Hrows as [|? ? Hs2 Hrows']; subst. destruct (snow_free_input r Hs2) as (i2 & Hi2 & _).
    destruct (C25_bare_ground_never_raises snow_free p cfg ic mh m env c r1 i1 i2 snow_free_valid Hv Hrun Hl Hs1 Hi1)
      as (c1 & e & Hd & Htr & Hb).
    assert (Hrun1 : model_run snow_free p cfg ic mh m env c1).
    { destruct Hrun as (info & c0 & A & B & C). exists info, c0. split; [assumption|]. split; [assumption|].
      eapply reach_step; [exact C| |exact Hd]. exists r1. auto. }
    assert (He : In e (c_trace c1)) by (rewrite Htr; apply in_or_app; right; left; reflexivity).
    assert (Hsnow : i_precip_now (e_input e) = true -> i_m_snow (e_input e) <= cfg_small_thr cfg).
    { intros En. destruct (event_facts snow_free p cfg ic mh m env c1 snow_free_valid Hv Hrun1 e He)
        as (_ & _ & _ & (r' & Hq & i' & Hi' & (Hc1 & _) & _ & _ & Hsh) & _).
      destruct (snow_free_input r' Hq) as (i'' & Hi'' & H0). rewrite Hi' in Hi''. injection Hi'' as <-.
      rewrite (Hsh En i_m_snow ltac:(cbn; tauto)), H0 by congruence. pose proof (vs_thr _ _ _ Hv). unfold Rdiv. lra. }
    pose proof Hl as Hl'. pose proof Hh as Hh'. rewrite <- Hb in Hl', Hh'.
    destruct (C17_bare_ground_passes_precipitation snow_free p cfg ic mh m env c1 snow_free_valid Hv Hrun1 e He Hl' Hh' Hsnow)
      as (E1 & E2 & E3 & E4 & E5 & E6).
    assert (Hss : same_snow (e_after e) (c_ss c1)).
    { destruct Hrun as (info & c0 & A & B & _). destruct (init_tso _ _ _ _ _ _ _ B) as (_ & _ & _ & _ & Ei & _).
      rewrite <- Ei in A. destruct (parse_standard _ _ A) as (t0 & t1 & t2 & Hstd).
      destruct (data_step_clock _ _ _ _ _ _ _ _ Hstd Hd) as (evs & Hev & _ & Hch & _).
      unfold steps_between in Hev. rewrite Htr in Hev. apply app_inv_head in Hev. subst evs.
      destruct (chain_last _ _ _ _ _ Hch ltac:(discriminate)) as (e' & [<-|[]] & H). exact H. }
    assert (Hlc : layer_count (c_ss c1) = 0%nat /\ h2o (c_ss c1) = 0).
    { destruct Hss as (b1 & m1 & e1 & w1 & ->). auto. }
    destruct (IH c1 i2 r Hrun1 (proj1 Hlc) (proj2 Hlc)) as (c' & H1 & H2 & H3 & H4); try assumption.
    { rewrite Htr. apply Forall_app. split; [assumption|]. constructor; [|constructor].
      unfold passes_rain. auto 8. }
    exists c'. cbn [run_steps]. rewrite Hi2. cbn [bind]. rewrite Hd. cbn [bind]. split; [assumption|].
    split; [assumption|]. split; [assumption|]. rewrite H4, Htr, app_length. cbn [length]. lia.
Qed.

Lemma distinct_dates_NoDup l : distinct_dates l = true <-> NoDup l.
Proof.
  induction l as [|x l IH]; cbn [distinct_dates]; [split; [constructor|reflexivity]|].
  rewrite andb_true_iff, negb_true_iff, IH. split.
  - intros (H1 & H2). constructor; [|assumption]. intros Hin.
    assert (existsb (Z.eqb x) l = true); [|congruence]. apply existsb_exists. exists x. split; [assumption|apply Z.eqb_refl].
  - intros H. inversion H as [|? ? Hn Hd]; subst. split; [|assumption].
    destruct (existsb (Z.eqb x) l) eqn:E; [|reflexivity]. apply existsb_exists in E. destruct E as (y & Hy & Ey).
    apply Z.eqb_eq in Ey. subst y. contradiction.
Qed.
Lemma init_defined p cfg info ic mh m : valid_setup p cfg ic -> parse_time_steps cfg = Ok info ->
  p_elevation p < 288000/(65/10) -> exists env c0, snobal_init p info ic mh m = Ok (env, c0).
Proof.
  intros [_ V1 V2 V3 V4 V5 V6] Hp Hel. unfold snobal_init.
  pose proof (site_pressure_eq _ Hel) as Hpr. unfold site_pressure in Hpr.
  match type of Hpr with ?x = _ => match goal with |- context [bind ?y _] => change y with x end end. rewrite Hpr. cbn [bind].
  destruct (parse_eq _ _ Hp) as (_ & ->). unfold create_snow_state.
  change (Z.to_nat SMALL_TSTEP) with 2%nat. cbn [nth_error ts_threshold bind].
  match goal with |- context [init_snow ?x] => set (s := x) end.
  assert (Hpo : params_ok s) by (split; assumption).
  destruct (init_snow_ok s Hpo V6) as (s' & ->). cbn [bind]. eauto.
Qed.
Lemma init_bare p cfg info ic mh m env c0 : valid_setup p cfg ic -> parse_time_steps cfg = Ok info ->
  is_z_s ic = 0 -> snobal_init p info ic mh m = Ok (env, c0) -> layer_count (c_ss c0) = 0%nat /\ h2o (c_ss c0) = 0.
Proof.
  intros [_ V1 V2 V3 V4 V5 V6] Hp Hz H. unfold snobal_init in H.
  inv_bind H as pa Hpa. inv_bind H as s Hs. inv_bind H as s1 Hs1. injection H as <- <-. cbn [c_ss].
  destruct (parse_eq _ _ Hp) as (_ & ->). unfold create_snow_state in Hs.
  change (Z.to_nat SMALL_TSTEP) with 2%nat in Hs. cbn [nth_error ts_threshold] in Hs. injection Hs as <-.
  match type of Hs1 with init_snow ?x = _ => set (s := x) in * end.
  assert (Hpo : params_ok s) by (split; assumption).
  destruct (init_snow_spec s s1 Hpo Hs1) as [F|(G & _)].
  - exfalso. pose proof (packed_z_pos _ (fr_packed _ _ F)) as Hpos. rewrite (fr_z _ _ F) in Hpos.
    change (z_s s) with (is_z_s ic) in Hpos. lra.
  - split; [apply bare_count, (gn_bare _ _ _ G)|apply (gn_h2o _ _ _ G)].
Qed.

(** elevation in metres; 44307.7 m is where the standard atmosphere of the code ends *)
Theorem C25_snow_free_runs_complete p cfg info ic mh all_mode rows :
  valid_setup p cfg ic -> parse_time_steps cfg = Ok info -> p_elevation p < 288000/(65/10) -> is_z_s ic = 0 ->
  rows <> [] -> NoDup (map fst rows) -> Forall (fun r => snow_free (snd r)) rows ->
  exists c, simulate p info ic mh all_mode rows = Ok c /\
    length (c_trace c) = (length rows - 1)%nat /\ Forall passes_rain (c_trace c).
Proof.
  intros Hv Hp Hel Hz Hne Hnd Hf. unfold simulate. rewrite (proj2 (distinct_dates_NoDup _) Hnd). cbn [negb].
  destruct rows as [|r0 rest]; [congruence|]. inversion Hf as [|? ? Hs0 Hrest]; subst.
  destruct (snow_free_input _ Hs0) as (i1 & Hi1 & _). rewrite Hi1. cbn [bind].
  destruct (init_defined p cfg info ic mh all_mode Hv Hp Hel) as (env & c0 & Hi). rewrite Hi. cbn [bind].
  destruct (init_tso _ _ _ _ _ _ _ Hi) as (_ & _ & _ & Tr0 & Ei & _).
  pose proof (init_bare _ _ _ _ _ _ _ _ Hv Hp Hz Hi) as H0.
  destruct (snow_free_steps p cfg ic mh all_mode env Hv (map snd rest) c0 i1 (snd r0)) as (c' & A & _ & B & C); try tauto.
  - exists info, c0. split; [assumption|]. split; [assumption|]. constructor.
  - rewrite Tr0. constructor.
  - apply Forall_map. assumption.
  - exists c'. rewrite C, Tr0, map_length. cbn [length]. split; [assumption|]. split; [lia|assumption].
Qed.

(** ** C51: what can stop a run step over snow *)
(** site and weather: air pressure above the vapour pressure over melting snow and over the soil,
    soil temperature in Kelvin, not above 60 C, soil sensor below the surface *)
Record sane_site (P zg : R) (i : InputData R) : Prop := {
  ss_press : 61071/100 < P; ss_zg : 0 < zg;
  ss_tg : 0 < i_t_g i <= 33316/100; ss_eg : forall e, sati (i_t_g i) = Ok e -> e < P
}.
(** a pack with something in it, at temperatures between 0 K and freezing *)
Record sane_pack s : Prop := {
  sa_pack : snowpack s; sa_mass : 0 < m_s s; sa_h2o : 0 <= h2o s; sa_vol : 0 < max_h2o_vol s;
  sa_t : 0 < t_s s <= 27316/100; sa_t0 : 0 < t_s_0 s <= 27316/100;
  sa_tl : 0 < z_s_l s -> 0 < t_s_l s <= 27316/100
}.
(** the warm-start counters are those of a started run: either output just happened, or sums exist *)
Definition averages_started (c : Core R) : Prop :=
  c_time_since_out c = 0%Z \/ ((0 < c_time_since_out c)%Z /\ swi_sum (c_ss c) <> None).

Lemma average_energy_ok b v t dt : t + dt <> 0 -> exists r, average_energy (T:=R) b v t dt = Ok r.
Proof.
  intros H. unfold average_energy, time_average. change (@nadd R RNum t dt) with (t + dt).
  rewrite !pdiv_R_ok by assumption. cbn [bind]. eauto.
Qed.

Lemma do_tstep_defined env ds ts c i d s1 ic init s2 k :
  deltas_at ds (ts_level ts) = Ok d -> averages_started c -> (0 < ts_time_step ts)%Z ->
  let iu := if i_precip_now i then update_precip_deltas i d else i in
  energy_balance env (ts_time_step ts) (c_hle1_init c) iu (set_h2o_total 0 (c_ss c)) = Ok (s1, ic, init) ->
  mass_balance (ev_P_a env) (mh_z_g (ev_heights env)) (ts_time_step ts) ic (s1, has_snow (c_ss c)) = Ok (s2, k) ->
  exists c', do_tstep env ds ts c i = Ok (c', add_deltas ic d) /\
    c_trace c' = c_trace c ++ [mkEvent ts (c_datetime c) iu (c_ss c) s2 k].
Proof.
  intros Hd [Ht|(Ht & Hw)] Hts iu He Hm.
  - destruct (do_tstep_intro env ds ts c i d s1 ic init s2 k Hd Ht He Hm) as (c' & A & B & _). eauto.
  - destruct (step_keeps_averages _ _ _ _ _ _ _ _ _ _ _ _ _ _ He Hm) as (_ & _ & _ & Hw2 & _).
    unfold do_tstep. rewrite Hd. cbn [bind]. fold iu.
    change (has_snow (set_h2o_total (nofZ 0) (c_ss c))) with (has_snow (c_ss c)).
    change (@nofZ R RNum 0) with 0.
    match goal with |- context [bind ?m _] => change m with (energy_balance env (ts_time_step ts) (c_hle1_init c) iu (set_h2o_total 0 (c_ss c))) end.
    rewrite He. cbn [bind]. rewrite Hm. cbn [bind]. rewrite (proj2 (Z.ltb_lt _ _) Ht).
    unfold ss_time_average. change (@nofZ R RNum (c_time_since_out c)) with (IZR (c_time_since_out c)).
    change (@nofZ R RNum (ts_time_step ts)) with (IZR (ts_time_step ts)).
    destruct (average_energy_ok (bar s2) (en s2) (IZR (c_time_since_out c)) (IZR (ts_time_step ts))) as (b & ->).
    { apply IZR_lt in Ht, Hts. lra. }
    cbn [bind]. rewrite Hw2. destruct (swi_sum (c_ss c)) as [w|]; [|congruence]. cbn [bind].
    unfold output. cbn [c_ss swi_sum set_swi_sum]. destruct (ev_output_divided env); cbn [bind]; eexists; split; reflexivity.
Qed.

Theorem C51_what_stops_a_run_step env ds ts c i d :
  deltas_at ds (ts_level ts) = Ok d -> (0 < ts_time_step ts)%Z -> averages_started c ->
  sane_pack (c_ss c) ->
  let used := if i_precip_now i then update_precip_deltas i d else i in
  sane_site (ev_P_a env) (mh_z_g (ev_heights env)) used -> input_valid used ->
  let turbulence := h_le (ev_P_a env) (ev_heights env) (ev_relative_hts env) (c_hle1_init c) used (set_h2o_total 0 (c_ss c)) in
  (exists r, do_tstep env ds ts c i = Ok r) \/
  (exists err, turbulence = Err err /\ do_tstep env ds ts c i = Err err) \/
  (exists h lve e i' init, turbulence = Ok (h, lve, e, i', init) /\
     do_tstep env ds ts c i = Err ZeroDivision /\
     exhausted i' (ts_time_step ts) (set_E_flux e (c_ss c))).
Proof.
  intros Hd Hts Hav Hsp used Hsite Hiv turb.
  destruct Hsp as [Hpk Hm Hh Hvol Ht Ht0 Htl]. destruct (proj1 (snowpack_packed _) Hpk) as (Hk & Hp).
  set (s0 := set_h2o_total 0 (c_ss c)) in *.
  assert (Hk0 : packed s0) by (destruct Hk as [[] ?]; split; [split|]; assumption).
  assert (Hair : air_ok (ev_P_a env) used) by (destruct Hsite; split; assumption).
  assert (Hrho : rho s0 <> 0). { pose proof (packed_rho_pos s0 Hk0 Hm). lra. }
  assert (Htk : temps_ok s0) by (split; [|split]; assumption).
  assert (Hns : has_snow (c_ss c) = true) by (apply layered_has_snow, Hk).
  assert (Herr : forall err, energy_balance env (ts_time_step ts) (c_hle1_init c) used s0 = Err err ->
            do_tstep env ds ts c i = Err err).
  { intros err H. unfold do_tstep. rewrite Hd. cbn [bind].
    match goal with |- bind ?m _ = _ => change m with (energy_balance env (ts_time_step ts) (c_hle1_init c) used s0) end.
    rewrite H. reflexivity. }
  assert (Herr2 : forall s1 i' init err, energy_balance env (ts_time_step ts) (c_hle1_init c) used s0 = Ok (s1, i', init) ->
     mass_balance (ev_P_a env) (mh_z_g (ev_heights env)) (ts_time_step ts) i' (s1, has_snow (c_ss c)) = Err err ->
     do_tstep env ds ts c i = Err err).
  { intros s1 i' init err H H2. unfold do_tstep. rewrite Hd. cbn [bind].
    match goal with |- bind ?m _ = _ => change m with (energy_balance env (ts_time_step ts) (c_hle1_init c) used s0) end.
    rewrite H. cbn [bind]. change (has_snow (set_h2o_total (nofZ 0) (c_ss c))) with (has_snow (c_ss c)). rewrite H2. reflexivity. }
  destruct turb as [[[[[h lve] e] i'] init']|err] eqn:Hturb; unfold turb in Hturb.
  - destruct (energy_balance_snow env (ts_time_step ts) _ _ _ _ _ _ _ _ Hk0 Hrho Htk Hair (ss_zg _ _ _ Hsite) Hts Hturb)
      as (s1 & He & HE).
    assert (Hfr : s1 = set_E_flux e (set_en (en s1) s0)).
    { destruct (energy_balance_frame _ _ _ _ _ _ _ _ He) as (X & _). rewrite HE in X. exact X. }
    assert (Hclip : i' = used \/ exists v, i' = set_e_a v used).
    { destruct (energy_balance_frame _ _ _ _ _ _ _ _ He) as (_ & X). exact X. }
    assert (Hk1 : packed s1) by (rewrite Hfr; destruct Hk0 as [[] ?]; split; [split|]; assumption).
    assert (Hp1 : params_ok s1) by (rewrite Hfr; destruct Hp; split; assumption).
    assert (Hiv' : input_valid i').
    { destruct Hclip as [->|(v & ->)]; [assumption|]. intros En. destruct (Hiv En). split; assumption. }
    assert (Hair' : air_ok (ev_P_a env) i').
    { destruct Hclip as [->|(v & ->)]; [assumption|]. destruct Hair; split; assumption. }
    destruct (mass_balance_progress (ev_P_a env) (mh_z_g (ev_heights env)) (ts_time_step ts) i' s1) as [((s2 & k) & Hmb)|(Hmb & Hex)];
      try assumption; try (rewrite Hfr; assumption); try (rewrite Hfr; reflexivity).
    + apply (ss_zg _ _ _ Hsite).
    + left. rewrite <- Hns in Hmb.
      destruct (do_tstep_defined env ds ts c i d s1 i' init' s2 k Hd Hav Hts He Hmb) as (c' & A & _). eauto.
    + right; right. exists h, lve, e, i', init'. split; [reflexivity|]. split.
      * eapply Herr2; [exact He|]. rewrite Hns. exact Hmb.
      * rewrite Hfr in Hex. exact Hex.
  - right; left. exists err. split; [reflexivity|]. apply Herr. unfold energy_balance.
    change (has_snow s0) with (has_snow (c_ss c)). rewrite Hns, Hturb. reflexivity.
Qed.

(** stable air at least as humid as the snow, no precipitation, a dry pack, soil not colder than the
    snow: the run step returns *)
Theorem C51_calm_dry_run_steps_return env ds ts c i d w es sat :
  deltas_at ds (ts_level ts) = Ok d -> (0 < ts_time_step ts)%Z -> averages_started c ->
  sane_pack (c_ss c) -> sane_site (ev_P_a env) (mh_z_g (ev_heights env)) i ->
  i_precip_now i = false -> h2o (c_ss c) = 0 -> soil_warm i (c_ss c) ->
  let s := c_ss c in let za := mh_z_t (ev_heights env) - z_s s in let zu := mh_z_u (ev_heights env) - z_s s in
  ev_relative_hts env = false ->
  satw (i_t_a i) = Ok w -> sati (i_t_a i) = Ok sat -> sati (t_s_0 s) = Ok es ->
  Thm_Turb.meaningful (ev_P_a env) (i_t_a i) (t_s_0 s) za (Rmin (i_e_a i) sat) es za (i_u i) zu (z_0 s) w ->
  t_s_0 s < Thm_Turb.potential_temperature (i_t_a i) za ->
  es <= i_e_a i -> es <= sat -> es <= w ->
  (forall v, fst (c_hle1_init c) = Some v -> 0 < v) -> (forall v, snd (c_hle1_init c) = Some v -> 0 < v) ->
  exists r, do_tstep env ds ts c i = Ok r.
Proof.
  intros Hd Hts Hav Hsp Hsite Hnp Hh Hsw s za zu Hrel Hw Hsat Hes Hmean Hst He1 He2 He3 Hi1 Hi2.
  assert (Hused : (if i_precip_now i then update_precip_deltas i d else i) = i) by (rewrite Hnp; reflexivity).
  pose proof (C51_what_stops_a_run_step env ds ts c i d Hd Hts Hav Hsp) as H. cbv zeta in H. rewrite Hused in H.
  destruct H as [H|[(err & H & _)|(h & lve & e & i' & init & H & _ & Hex)]]; [assumption| |assumption| |].
  - intros En. congruence.
  - exfalso.
    destruct (Thm_Turb.C32_in_the_model (ev_P_a env) (ev_heights env) (c_hle1_init c) i (set_h2o_total 0 s) w es sat)
      as (h & lve & e & i' & us & fa & E & _); try assumption; [apply (sa_t0 _ Hsp)|].
    rewrite Hrel in H. unfold s in E. congruence.
  - exfalso.
    destruct (Thm_Turb.C32_in_the_model (ev_P_a env) (ev_heights env) (c_hle1_init c) i (set_h2o_total 0 s) w es sat)
      as (h1 & lve1 & e1 & i1 & us & fa & E & _ & Hpos & _); try assumption; [apply (sa_t0 _ Hsp)|].
    rewrite Hrel in H. unfold s in E. rewrite E in H. injection H as <- <- <- <- <-.
    assert (Hclip : i1 = i \/ exists v, i1 = set_e_a v i).
    { apply h_le_clip in E. destruct E as (sat' & _ & [(_ & ->)|(_ & ->)]); eauto. }
    revert Hex. apply not_exhausted; try assumption.
    + destruct Hclip as [->|(v & ->)]; assumption.
    + apply (sa_mass _ Hsp).
    + destruct Hclip as [->|(v & ->)]; assumption.
Qed.

Print Assumptions C25_bare_ground_never_raises.
Print Assumptions C25_snow_free_runs_complete.
Print Assumptions C51_what_stops_a_run_step.
Print Assumptions C51_calm_dry_run_steps_return.
