(** * Theorem C100: the fraction of snow of a record is not checked *)
From Coq Require Import Reals String ZArith Bool Lia Lra List.
Import ListNotations.
From Verif Require Import Num Real Constants Functions Libsnobal Input SnowState Snobal PySnobal
  SchedSpec Sched Frame SchedProps Spec Phys Mass MassEnd RunMass Run Averages Forcing Thm_Forcing Progress Progress2.
Open Scope R_scope.

(** The record is accepted whatever its percent_snow, if the density is positive where snow falls.  The snowfall is the
    precipitation times percent_snow, and the rest, which may be negative or more than all of it, counts as rain. *)
Theorem C100_any_fraction_is_accepted (r : RawInput R) :
  (0 < r_m_pp r -> 0 < r_percent_snow r -> 0 < r_rho_snow r) ->
  exists i, input_data r = Ok i /\ i_m_snow i = r_m_pp r * r_percent_snow r /\ i_m_rain i = r_m_pp r * (1 - r_percent_snow r) /\
    i_m_pp i = r_m_pp r /\
    (0 < r_m_pp r -> 1 < r_percent_snow r -> i_m_rain i < 0 /\ r_m_pp r < i_m_snow i /\ i_precip_now i = true /\
       i_rho_snow i * i_z_snow i = i_m_snow i /\ (r_t_pp r < 27316/100 -> i_h2o_sat_snow i = 0)) /\
    (0 < r_m_pp r -> r_percent_snow r < 0 -> i_m_snow i < 0 /\ r_m_pp r < i_m_rain i /\ i_precip_now i = true /\ i_z_snow i = 0).
Proof.
  set (m := r_m_pp r). set (q := r_percent_snow r). intros Hr.
  assert (HF : (FREEZE : R) = 27316/100) by reflexivity.
  unfold input_data. change (@nmul R RNum) with Rmult. change (@nsub R RNum) with Rminus. change (@ndiv R RNum) with Rdiv.
  change (@nltb R RNum) with Rltb. change (@nofZ R RNum 0) with 0. change (@nofZ R RNum 1) with 1. rewrite HF. fold m q.
  destruct (Rltb_spec 0 m) as [Hm|Hm].
  2:{ eexists. split; [reflexivity|]. cbn. repeat split; try (ring || (intros; lra)). }
  specialize (Hr Hm).
  assert (A1 : 1 < q -> m - m * q < 0 /\ m < m * q) by (intros; nra).
  assert (A2 : q < 0 -> m * q < 0 /\ m < m - m * q) by (intros; nra).
  destruct (Rltb_spec 0 (m * q)) as [Hs|Hs].
  - assert (Hq : 0 < q) by nra. specialize (Hr Hq). destruct (Rltb_spec 0 (r_rho_snow r)) as [_|X]; [|lra]. cbn [bind andb].
    destruct (Rltb_spec 0 (m - m * q)) as [Hn|Hn]; cbn [andb].
    + eexists. split; [reflexivity|]. cbn. repeat split; try (ring || (intros; exfalso; nra)).
    + destruct (Rltb_spec (r_t_pp r) (27316/100)) as [Ht|Ht]; (eexists; split; [reflexivity|]; cbn;
        split; [reflexivity|]; split; [ring|]; split; [reflexivity|]; split; [|intros; exfalso; nra];
        intros _ Q; destruct (A1 Q); repeat split; try lra; field; lra).
  - assert (Hq : ~ 1 < q) by nra. cbn [bind andb].
    destruct (Rltb_spec 0 (m - m * q)) as [Hn|Hn]; cbn [andb].
    + eexists. split; [reflexivity|]. cbn. split; [reflexivity|]. split; [ring|]. split; [reflexivity|].
      split; [intros; exfalso; lra|]. intros _ Q. destruct (A2 Q). repeat split; lra.
    + exfalso. nra.
Qed.

(** On bare ground such a fraction makes more snow than falls, and a negative amount of water runs off: a run step that takes
    the precipitation of the record leaves a pack of percent_snow times the precipitation, and the surplus is taken off the
    runoff (dry snow: the runoff is exactly minus the surplus). *)
Theorem C100_more_snow_than_falls P z ts (r : RawInput R) i s s2 k :
  0 < r_m_pp r -> 1 < r_percent_snow r -> 0 < r_rho_snow r -> input_data r = Ok i ->
  params_ok s -> h2o s = 0 -> h2o_total s = 0 -> small_threshold s < r_m_pp r * r_percent_snow r ->
  mass_balance P z ts i (s, false) = Ok (s2, k) ->
  m_s s2 = r_m_pp r * r_percent_snow r /\ swi s2 = h2o s2 - r_m_pp r * (r_percent_snow r - 1) /\
  (r_t_pp r < 27316/100 -> h2o s2 = 0 /\ swi s2 < 0).
Proof.
  intros Hm Hq Hrho Hi Hp Hh Ht Hthr H.
  destruct (C100_any_fraction_is_accepted r (fun _ _ => Hrho)) as (i' & Hi' & Es & Er & _ & B & _).
  rewrite Hi in Hi'. injection Hi' as <-. destruct (B Hm Hq) as (Nr & Ns & Hn & Ez & Hdry). clear B.
  unfold mass_balance in H. rewrite tc_bare in H. cbn [bind] in H. inv_bind H as p2 H2. destruct p2 as [s1 c1].
  destruct (precip_bare_spec i s s1 c1 Hp H2) as (-> & C).
  assert (Hrz : i_rho_snow i * i_z_snow i = r_m_pp r * r_percent_snow r) by lra.
  destruct C as [(X & _)|[(_ & X & _)|(_ & _ & s0 & -> & C)]]; [congruence|lra|].
  assert (F : fresh (snowfall_on i s) s0).
  { destruct C as [F|(_ & [X|X] & _)]; [exact F|lra|]. exfalso.
    assert (0 < i_rho_snow i). { unfold input_data in Hi. destruct (nltb (nofZ 0) (r_m_pp r)) in Hi; [|injection Hi as <-; cbn in Hn; discriminate].
      inv_bind Hi as zz Hz. repeat match type of Hi with (if ?b then _ else _) = _ => destruct b end; injection Hi as <-; exact Hrho. }
    assert (0 < r_m_pp r * r_percent_snow r) by (apply Rmult_lt_0_compat; lra). nra. }
  clear C.
  rewrite sm_bare in H. cbn [bind] in H. rewrite ec_bare in H. cbn [bind] in H. rewrite hc_bare in H. cbn [bind] in H.
  rewrite ro_bare in H. cbn [bind snd] in H. ok_inj H. injection H as <- <-.
  assert (T : h2o_total s0 = 0) by (rewrite (fr_total _ _ F); exact Ht).
  assert (M : m_s s0 = r_m_pp r * r_percent_snow r) by (pose proof (fr_m _ _ F) as X; cbn in X; lra).
  cbn [m_s swi h2o set_swi set_E_s set_melt set_h2o_total h2o_total].
  change (@nadd R RNum) with Rplus. rewrite M, T, Er. split; [reflexivity|]. split; [ring|].
  intros Hc. specialize (Hdry Hc). pose proof (fr_h2o _ _ F) as W. cbn in W. rewrite Hdry in W. split; [lra|]. nra.
Qed.

(** The same in the model: a data step on bare ground does not raise, is one run step, and ends like this, whatever the next record. *)
Lemma snow_on_bare_ground P z ts i s : i_precip_now i = true -> 0 < i_m_snow i -> 0 < i_rho_snow i ->
  i_rho_snow i * i_z_snow i = i_m_snow i -> 0 <= i_h2o_sat_snow i <= 1 -> params_ok s -> h2o_total s = 0 -> small_threshold s < i_m_snow i ->
  exists s2, mass_balance P z ts i (s, false) = Ok (s2, false) /\ m_s s2 = i_m_snow i /\ swi s2 = h2o s2 + i_m_rain i /\
    (i_h2o_sat_snow i = 0 -> h2o s2 = 0).
Proof.
  intros Hn Hs Hr Ez Hsat Hp Ht Hthr.
  assert (Y : exists s1, precip_event i (s, false) = Ok (s1, false)).
  { unfold precip_event. rewrite Hn. destruct (nltb (nofZ 0) (i_m_snow i)); [|cbn [bind]; eexists; reflexivity].
    match goal with |- context [init_snow ?x] => destruct (init_snow_ok x) as (s' & E) end.
    - destruct Hp; split; assumption.
    - exact Hsat.
    - rewrite E. cbn [bind]. eexists; reflexivity. }
  destruct Y as (s1 & H2). unfold mass_balance. rewrite tc_bare. cbn [bind]. rewrite H2. cbn [bind].
  rewrite sm_bare. cbn [bind]. rewrite ec_bare. cbn [bind]. rewrite hc_bare. cbn [bind]. rewrite ro_bare. cbn [bind snd].
  eexists. split; [reflexivity|].
  destruct (precip_bare_spec i s s1 false Hp H2) as (_ & [(X & _)|[(_ & X & _)|(_ & _ & s0 & -> & C)]]); [congruence|lra|].
  assert (F : fresh (snowfall_on i s) s0).
  { destruct C as [F|(_ & [X|X] & _)]; [exact F|lra|]. exfalso. nra. }
  assert (T : h2o_total s0 = 0) by (rewrite (fr_total _ _ F); exact Ht).
  assert (M : m_s s0 = i_m_snow i) by (pose proof (fr_m _ _ F) as X; cbn in X; lra).
  cbn [m_s swi h2o set_swi set_E_s set_melt set_h2o_total h2o_total].
  change (@nadd R RNum) with Rplus. rewrite M, T. split; [reflexivity|]. split; [ring|].
  intros Z. pose proof (fr_h2o _ _ F) as W. cbn in W. rewrite Z in W. lra.
Qed.

Theorem C100_more_snow_than_falls_in_a_data_step cfg env c (r : RawInput R) i1 i2 :
  ordered_steps cfg -> parse_time_steps cfg = Ok (ev_tstep_info env) -> c_time_since_out c = 0%Z ->
  params_ok (c_ss c) -> layer_count (c_ss c) = 0%nat ->
  0 < r_m_pp r -> 1 < r_percent_snow r -> 0 < r_rho_snow r -> input_data r = Ok i1 ->
  small_threshold (c_ss c) < r_m_pp r * r_percent_snow r ->
  exists c' e, do_data_tstep env c i1 i2 = Ok c' /\ c_trace c' = c_trace c ++ [e] /\ e_before e = c_ss c /\
    m_s (e_after e) = r_m_pp r * r_percent_snow r /\
    swi (e_after e) = h2o (e_after e) - r_m_pp r * (r_percent_snow r - 1) /\
    (r_t_pp r < 27316/100 -> h2o (e_after e) = 0 /\ swi (e_after e) < 0).
Proof.
  intros Ho Hp Ht Hpk Hl Hm Hq Hrho Hi Hthr.
  destruct (C100_any_fraction_is_accepted r (fun _ _ => Hrho)) as (i' & Hi' & _ & _ & _ & B & _).
  rewrite Hi in Hi'. injection Hi' as <-. destruct (B Hm Hq) as (_ & _ & Hn & _ & Hdry). clear B.
  destruct (input_data_raw _ _ Hi) as (_ & _ & _ & _ & _ & _ & E1 & E2 & E3 & _).
  destruct (deltas_exist cfg _ r i1 i2 Ho Hp Hi) as (ds & d & Hds & Hd & Hld).
  assert (Hsat : 0 <= i_h2o_sat_snow i1 <= 1).
  { clear - Hi. unfold input_data in Hi. destruct (nltb (nofZ 0) (r_m_pp r)); [|injection Hi as <-; cbn; lra].
    inv_bind Hi as zz Hz. repeat match type of Hi with (if ?b then _ else _) = _ => destruct b end; injection Hi as <-; cbn; lra. }
  assert (D : i_m_snow d = r_m_pp r * r_percent_snow r /\ i_m_rain d = r_m_pp r * (1 - r_percent_snow r) /\ r_rho_snow r * i_z_snow d = i_m_snow d).
  { unfold level_deltas in Hld. cbv zeta in Hld. change (@nofZ R RNum 1) with 1 in Hld. rewrite !pdiv_R_ok in Hld by lra. cbn [bind] in Hld.
    match type of Hld with input_data ?x = _ => set (q := x) in Hld end.
    assert (F : r_m_pp q = r_m_pp r /\ r_percent_snow q = r_percent_snow r /\ r_rho_snow q = r_rho_snow r).
    { unfold q. cbn [r_m_pp r_percent_snow r_rho_snow]. rewrite E1, E2, E3. repeat split. change (@ndiv R RNum) with Rdiv. field. }
    destruct F as (F1 & F2 & F3). destruct (C100_any_fraction_is_accepted q) as (d' & Hd' & A1 & A2 & _ & B & _); [rewrite F3; auto|].
    rewrite Hld in Hd'. injection Hd' as <-. rewrite F1, F2 in *. destruct (B Hm Hq) as (_ & _ & _ & Z & _).
    destruct (input_data_raw _ _ Hld) as (_ & _ & _ & _ & _ & _ & _ & _ & G3 & _). rewrite G3, F3 in Z. auto. }
  destruct D as (D1 & D2 & D3).
  set (s0 := set_h2o_total 0 (c_ss c)). set (iu := update_precip_deltas i1 d).
  assert (Hns : has_snow (c_ss c) = false) by (unfold has_snow; rewrite Hl; reflexivity).
  assert (He : energy_balance env (60 * cfg_norm cfg) (c_hle1_init c) iu s0
     = Ok (set_E_flux 0 (set_en zero_energy s0), iu, c_hle1_init c)).
  { unfold energy_balance. change (has_snow s0) with (has_snow (c_ss c)). rewrite Hns. reflexivity. }
  assert (Hpos : 0 < r_m_pp r * r_percent_snow r) by (apply Rmult_lt_0_compat; lra).
  destruct (snow_on_bare_ground (ev_P_a env) (mh_z_g (ev_heights env)) (60 * cfg_norm cfg) iu (set_E_flux 0 (set_en zero_energy s0)))
    as (s2 & Hmb & M & W & Z).
  { exact Hn. }
  { cbn. lra. }
  { cbn. rewrite E3. exact Hrho. }
  { cbn. rewrite E3. exact D3. }
  { exact Hsat. }
  { destruct Hpk; split; assumption. }
  { reflexivity. }
  { cbn. lra. }
  rewrite <- Hns in Hmb. cbn in M, W, Z.
  assert (X : exists c' e, do_data_tstep env c i1 i2 = Ok c' /\ c_trace c' = c_trace c ++ [e] /\ e_before e = c_ss c /\ e_after e = s2).
  { pose proof (single_data_step cfg env c i1 i2 ds d) as S. cbv zeta in S. rewrite Hn in S. fold iu in S.
    destruct (S _ _ _ _ _ Hp Ht Hds Hd ltac:(unfold below_thold; rewrite Hl; reflexivity) He Hmb) as (c' & e & A & B & C & D & _). exists c', e. auto. }
  destruct X as (c' & e & A & B & C & E9). exists c', e. do 3 (split; [assumption|]). rewrite E9, M, W, D1, D2.
  split; [reflexivity|]. split; [ring|]. intros Hc. specialize (Z (Hdry Hc)). rewrite Z. split; [reflexivity|]. nra.
Qed.

(** ** Concrete cases: the hypotheses hold of a record of 1 kg/m2 of precipitation at -3 C with "percent_snow = 100", and of the
    state of bare ground *)
Definition w_percent : RawInput R := mkRaw 0 300 270 300 1 270 1 100 100 (27016/100).
Example C100_witness : exists i s2 k, input_data w_percent = Ok i /\
  mass_balance 90000 (1/2) 3600 i (snow_state_init (1/4) 1, false) = Ok (s2, k) /\ m_s s2 = 100 /\ swi s2 < 0.
Proof.
  destruct (C100_any_fraction_is_accepted w_percent) as (i & Hi & Es & Er & Em & B & _); [cbn; lra|]. cbn in Es, Er, B.
  destruct (B ltac:(lra) ltac:(lra)) as (_ & _ & Hn & _ & Hdry).
  assert (Hp : params_ok (snow_state_init (1/4) 1 : SnowState R)) by (split; cbn; lra).
  assert (X : exists s2 k, mass_balance 90000 (1/2) 3600 i (snow_state_init (1/4) 1, false) = Ok (s2, k)).
  { unfold mass_balance. rewrite tc_bare. cbn [bind].
    assert (Y : exists s1, precip_event i (snow_state_init (1/4) 1, false) = Ok (s1, false)).
    { unfold precip_event. rewrite Hn. change (nltb (nofZ 0) (i_m_snow i)) with (Rltb 0 (i_m_snow i)). destruct (Rltb_spec 0 (i_m_snow i)) as [_|Z]; [|lra].
      match goal with |- context [init_snow ?s] => destruct (Progress.init_snow_ok s) as (s' & E) end.
      - destruct Hp; split; assumption.
      - cbn. rewrite Hdry by (cbn; lra). lra.
      - rewrite E. cbn [bind]. eexists. reflexivity. }
    destruct Y as (s1 & ->). cbn [bind]. rewrite sm_bare. cbn [bind]. rewrite ec_bare. cbn [bind]. rewrite hc_bare. cbn [bind].
    rewrite ro_bare. cbn [bind snd]. eauto. }
  destruct X as (s2 & k & X). exists i, s2, k. split; [exact Hi|]. split; [exact X|].
  assert (Z : m_s s2 = 1 * 100 /\ swi s2 = h2o s2 - 1 * (100 - 1) /\ (27016/100 < 27316/100 -> h2o s2 = 0 /\ swi s2 < 0)).
  { apply (C100_more_snow_than_falls 90000 (1/2) 3600 w_percent i (snow_state_init (1/4) 1) s2 k); try assumption; try reflexivity; cbn; lra. }
  destruct Z as (M & _ & D). split; [lra|]. apply D. lra.
Qed.

From Coq Require Import Floats.
From Verif Require Import FloatNum Thm_Phase.
(** ... and in binary64, through the whole program: a quarter of a millimetre gives 25 kg/m2 of snow and a runoff of -24.75 *)
Open Scope float_scope.
Definition percent_file : list (CsvRow (T:=float)) := [(0%Z, wet_rec 0.25 100 100 (-3)); (60%Z, wet_rec 0 0 0 0); (120%Z, wet_rec 0 0 0 0)].
Example C100_in_binary64 :
  match column "m_s" percent_file, column "swi" percent_file with
  | Some m :: _, Some w :: _ => PrimFloat.eqb m 25 = true /\ PrimFloat.eqb w (-24.75) = true
  | _, _ => False
  end.
Proof. vm_compute. split; reflexivity. Qed.
Print Assumptions C100_any_fraction_is_accepted.
Print Assumptions C100_more_snow_than_falls.
Print Assumptions C100_more_snow_than_falls_in_a_data_step.
