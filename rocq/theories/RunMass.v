(** * From the mass balance of one run step to whole runs (C15-C23, C25, C27). *)
From Coq Require Import Reals String ZArith Bool Lia Lra List.
Import ListNotations.
From Verif Require Import Num Real Constants Functions Libsnobal Input SnowState Snobal PySnobal
  SchedSpec Sched Frame SchedProps Spec Averages Forcing Phys Mass MassEnd.
Open Scope R_scope.
Implicit Types s : SnowState R.

(** ** Invariant of the snow state between run steps *)
Record sound s : Prop := {
  so_params : params_ok s; so_h2o : 0 <= h2o s; so_pack : packed s \/ bare s
}.

(** outcome of a run step on bare ground *)
Definition bare_outcome (i : InputData R) s s' : Prop :=
  melt s' = 0 /\ E_s s' = 0 /\ params_eq s s' /\
  ((bare s' /\ h2o s' = h2o s /\ swi s' = h2o s + precip_of i /\ z_s s' = z_s s /\
      (i_precip_now i = true -> i_m_snow i <= 0)) \/
   (bare s' /\ h2o s' = 0 /\ swi s' = precip_of i /\ z_s s' = 0 /\
      i_precip_now i = true /\ 0 < i_m_snow i <= small_threshold s) \/
   (new_pack i s' /\ m_s s' + swi s' = precip_of i + h2o s')).

(** everything that can happen in one run step *)
Definition outcome (e : Event R) : Prop :=
  let i := e_input e in let s := e_before e in let s' := e_after e in
  (packed s /\ 0 < t_s_0 s /\ (0 < z_s_l s -> 0 < t_s_l s) /\
     ((e_kept e = true /\ persisted i s s') \/
      (e_kept e = false /\ exists mc w, collapsed i s s' mc w))) \/
  (bare s /\ e_kept e = false /\ en s' = zero_energy /\ bare_outcome i s s').

Lemma precip_of_set_e_a v i : precip_of (set_e_a v i) = precip_of i. Proof. reflexivity. Qed.

Lemma persisted_eq i ic s s1 s' :
  (ic = i \/ exists v, ic = set_e_a v i) ->
  m_s s1 = m_s s -> Tpos s1 = Tpos s -> params_eq s s1 ->
  persisted ic s1 s' -> persisted i s s'.
Proof.
  intros Hi Hm Ht Hp [P1 P2 P3 P4 P5 P6 P7 P8 P9 P10 P11 P12].
  assert (Hpi : precip_of ic = precip_of i) by (destruct Hi as [->|[v ->]]; reflexivity).
  rewrite Hm, Hpi in P7. rewrite Ht in P8, P9.
  split; try assumption. eapply params_trans; eassumption.
Qed.

Lemma new_pack_eq i ic s' : (ic = i \/ exists v, ic = set_e_a v i) -> new_pack ic s' -> new_pack i s'.
Proof. intros [->|[v ->]]; [auto|]. intros []. split; assumption. Qed.

Lemma collapsed_eq i ic s s1 s' mc w :
  (ic = i \/ exists v, ic = set_e_a v i) ->
  m_s s1 = m_s s -> h2o s1 = h2o s -> params_eq s s1 ->
  collapsed ic s1 s' mc w -> collapsed i s s' mc w.
Proof.
  intros Hi Hm Hh Hp [P1 P2 P3 P3b P4 P5 P6 P7 P8].
  assert (Hpi : precip_of ic = precip_of i) by (destruct Hi as [->|[v ->]]; reflexivity).
  assert (Hli : liquid_in ic s1 = liquid_in i s).
  { unfold liquid_in, snow_water. pose proof Hp as (_ & _ & _ & ->). destruct Hi as [->|[v ->]]; reflexivity. }
  rewrite Hli in P3b. rewrite Hm, Hpi in *. rewrite Hh in *. pose proof Hp as (_ & _ & Ht & _). rewrite Ht in P6, P8.
  split; try assumption.
  - destruct P6 as [P6|(A & B)]; [left; assumption|right]. split; [eapply new_pack_eq; eassumption|assumption].
  - eapply params_trans; eassumption.
Qed.

(** temperatures at which the energy balance does not raise *)
Lemma energy_temps env t init i s s' i' init' :
  energy_balance env t init i s = Ok (s', i', init') -> layered s ->
  0 < t_s_0 s /\ (0 < z_s_l s -> 0 < t_s_l s).
Proof.
  unfold energy_balance. intros H L. rewrite (layered_has_snow _ L) in H.
  inv_bind H as [[[[h lve] e] i1] init1] Hh. inv_bind H as [g g0] Hg. clear H.
  unfold h_le in Hh. inv_bind Hh as sv Hsv. inv_bind Hh as es Hes. clear Hh.
  split; [eapply sati_ok_pos; eassumption|]. intros Hl.
  unfold heat_transfer in Hg. rewrite (lc_2 _ (ly_z0 _ L) Hl) in Hg. cbn [Nat.eqb] in Hg.
  inv_bind Hg as g1 Hg1. unfold g_soil in Hg1. inv_bind Hg1 as el Hel. eapply sati_ok_pos; eassumption.
Qed.

Lemma energy_bare env t init i s s' i' init' :
  energy_balance env t init i s = Ok (s', i', init') -> has_snow s = false -> en s' = zero_energy.
Proof. unfold energy_balance. intros H Hn. rewrite Hn in H. injection H as <- _ _. reflexivity. Qed.

Lemma step_outcome env ds ts c i c' i' :
  do_tstep env ds ts c i = Ok (c', i') -> (0 < ts_time_step ts)%Z -> sound (c_ss c) ->
  (forall d, deltas_at ds (ts_level ts) = Ok d ->
     input_valid (if i_precip_now i then update_precip_deltas i d else i)) ->
  exists e, c_trace c' = c_trace c ++ [e] /\ outcome e /\ e_before e = c_ss c /\
    same_snow (e_after e) (c_ss c') /\ e_tstep e = ts /\
    exists d, deltas_at ds (ts_level ts) = Ok d /\
      e_input e = (if i_precip_now i then update_precip_deltas i d else i).
Proof.
  intros H Hts Hs Hv. apply do_tstep_inv in H.
  destruct H as (d & s1 & ic & init & s2 & kept & s3 & Hd & He & Hmb & Ha & Hc & Hi).
  specialize (Hv d Hd). cbv zeta in He, Hc, Hi.
  set (iu := if i_precip_now i then update_precip_deltas i d else i) in *.
  set (e := mkEvent ts (c_datetime c) iu (c_ss c) s2 kept) in *.
  assert (Htr : c_trace c' = c_trace c ++ [e] /\ c_ss c' = s3).
  { destruct (ev_output_divided env); [apply output_inv in Hc; cbn in Hc; tauto|subst c'; auto]. }
  destruct Htr as [Htr Hss]. exists e. split; [assumption|]. rewrite Hss.
  split; [|split; [reflexivity|split; [eapply averaged_same_snow; eassumption|split; [reflexivity|exists d; auto]]]].
  pose proof (energy_balance_frame _ _ _ _ _ _ _ _ He) as (Es1 & Hic).
  assert (Hvc : input_valid ic).
  { destruct Hic as [->|[v ->]]; [assumption|]. intros Hn. destruct (Hv Hn). split; assumption. }
  set (s := c_ss c) in *. destruct Hs as [Hp Hh [Hk|Hb]].
  - left. assert (Hk0 : packed (set_h2o_total (nofZ 0) s)) by (destruct Hk as [[] ?]; split; [split|]; assumption).
    destruct (energy_temps _ _ _ _ _ _ _ _ He (proj1 Hk0)) as (T0 & Tl).
    split; [exact Hk|]. split; [exact T0|]. split; [exact Tl|].
    change (has_snow (set_h2o_total (nofZ 0) s)) with (has_snow s) in Hmb.
    rewrite (layered_has_snow _ (proj1 Hk)) in Hmb.
    assert (Hp1 : params_ok s1) by (rewrite Es1; destruct Hp; split; assumption).
    assert (Hk1 : packed s1) by (rewrite Es1; destruct Hk as [[] ?]; split; [split|]; assumption).
    assert (F1 : h2o s1 = h2o s /\ h2o_total s1 = 0 /\ m_s s1 = m_s s /\ Tpos s1 = Tpos s /\ params_eq s s1).
    { rewrite Es1. repeat split. }
    destruct F1 as (F1 & F2 & F3 & F4 & F5).
    destruct (mass_balance_cover _ _ _ _ Hts Hvc s1 s2 kept Hp1 Hk1 ltac:(lra) F2 Hmb) as [(-> & K)|(-> & mc & w & K)].
    + left. split; [reflexivity|]. eapply persisted_eq; eassumption.
    + right. split; [reflexivity|]. exists mc, w. eapply collapsed_eq; eassumption.
  - right. split; [exact Hb|].
    change (has_snow (set_h2o_total (nofZ 0) s)) with (has_snow s) in Hmb.
    pose proof (bare_no_snow _ Hb) as Hns. rewrite Hns in Hmb.
    pose proof (energy_bare _ _ _ _ _ _ _ _ He Hns) as Hen.
    pose proof (mass_balance_frame _ _ _ _ _ _ Hmb) as (_ & Hfe & _). cbn [fst] in Hfe.
    assert (Hp1 : params_ok s1) by (rewrite Es1; destruct Hp; split; assumption).
    assert (Hb1 : bare s1) by (rewrite Es1; destruct Hb; split; assumption).
    assert (F1 : h2o s1 = h2o s /\ h2o_total s1 = 0 /\ z_s s1 = z_s s /\ params_eq s s1).
    { rewrite Es1. repeat split. }
    destruct F1 as (F1 & F2 & F3 & F4).
    destruct (bare_end _ _ _ _ s1 s2 kept Hp1 Hb1 ltac:(lra) Hvc Hmb) as (-> & E1 & E2 & E3 & Hc3).
    split; [reflexivity|]. split; [cbn; congruence|].
    split; [exact E1|]. split; [exact E2|]. split; [eapply params_trans; eassumption|].
    assert (Hpi : precip_of ic = precip_of iu) by (destruct Hic as [->|[v ->]]; reflexivity).
    assert (Hpn : i_precip_now ic = i_precip_now iu /\ i_m_snow ic = i_m_snow iu)
      by (destruct Hic as [->|[v ->]]; split; reflexivity). destruct Hpn as (Hpn & Hps).
    pose proof F4 as (_ & _ & F5 & _).
    rewrite F1, F2, F3, F5, Hpi, Hpn, Hps, !Rplus_0_l in Hc3.
    destruct Hc3 as [?|[?|(A & B)]]; [left; assumption|right; left; assumption|right; right].
    split; [eapply new_pack_eq; eassumption|assumption].
Qed.

Lemma outcome_sound e : sound (e_before e) -> outcome e -> sound (e_after e).
Proof.
  intros [Hp Hh _] [(Hk & _ & _ & [(_ & K)|(_ & mc & w & K)])|(Hb & _ & _ & (_ & _ & Hpe & K))].
  - destruct K as [P1 P2 P3 P4 P5 P6 P7 P8 P9 P10 P11 P12]. split; [eapply params_eq_ok; eassumption|assumption|auto].
  - destruct K as [_ _ _ _ _ _ K Hpe]. split; [eapply params_eq_ok; eassumption| |].
    + destruct K as [(_ & K & _)|(K & _)]; [assumption|apply (np_h2o _ _ K)].
    + destruct K as [(K & _)|(K & _)]; [auto|left; apply (np_packed _ _ K)].
  - split; [eapply params_eq_ok; eassumption| |].
    + destruct K as [(_ & -> & _)|[(_ & -> & _)|(K & _)]]; [assumption|lra|apply (np_h2o _ _ K)].
    + destruct K as [(K & _)|[(K & _)|(K & _)]]; auto. left. apply (np_packed _ _ K).
Qed.

Lemma same_snow_sound s s' : same_snow s s' -> sound s -> sound s'.
Proof.
  intros (b & m & e & w & ->) [[] Hh Hpk]. split; [split; assumption|assumption|].
  destruct Hpk as [[[] ?]|[]]; [left; split; [split|]; assumption|right; split; assumption].
Qed.

(** ** Records with physically sensible precipitation *)
Record valid_record (r : RawInput R) : Prop := {
  vr_percent : 0 < r_m_pp r -> 0 <= r_percent_snow r <= 1;
  vr_rho : 0 < r_m_pp r -> 0 < r_percent_snow r -> r_rho_snow r <= 917
}.
(** the pair of inputs of a data step: the first was made from such a record *)
Definition made_from (Q : RawInput R -> Prop) (i1 i2 : InputData R) : Prop :=
  exists r, Q r /\ input_data r = Ok i1.
Definition valid_pair := made_from valid_record.

Lemma valid_input r i : valid_record r -> input_data r = Ok i -> input_valid i.
Proof.
  intros [V1 V2] H Hn. destruct (Rlt_dec 0 (r_m_pp r)) as [Hp|Hp].
  2:{ destruct (input_data_dry _ _ H ltac:(lra)) as (E & _). congruence. }
  destruct (input_data_phase _ _ H Hp) as (_ & E1 & E2 & E3 & E4 & _ & _ & E7 & E8 & E9 & E10 & E11 & E12).
  pose proof (input_data_raw _ _ H) as (_ & _ & _ & _ & _ & _ & _ & _ & R1 & _ & _ & R2 & _ & R3).
  destruct (E4 (V1 Hp)) as (A & B).
  split; try assumption; try lra.
  - intros Hs. rewrite R1. rewrite E2 in Hs. split.
    + apply R3. rewrite (proj2 (Rltb_true _ _) Hp), (proj2 (Rltb_true _ _) Hs). reflexivity.
    + apply V2; [assumption|]. nra.
  - intros Hs. rewrite R2. rewrite E2 in Hs. rewrite Hs.
    rewrite (proj2 (Rltb_false 0 0)) by lra. rewrite andb_false_r. reflexivity.
Qed.

(** the share of one run step is valid too *)
Lemma valid_share r i1 i2 n d i :
  valid_record r -> input_data r = Ok i1 -> (0 < n)%Z -> level_deltas i1 i2 n = Ok d -> const_ok i1 i ->
  input_valid (if i_precip_now i then update_precip_deltas i d else i).
Proof.
  intros Hr H1 Hn Hd (Hc1 & Hc2). destruct (i_precip_now i) eqn:En; [|intros E; congruence].
  intros _. symmetry in Hc1. destruct (valid_input _ _ Hr H1 Hc1) as [V1 V2 V3 V4 V5 V6 V7 V8].
  pose proof (fun x => precip_share r i1 i2 n d x H1 Hc1 Hn Hd) as S.
  pose proof (S i_m_pp ltac:(cbn; tauto)) as S1. pose proof (S i_m_snow ltac:(cbn; tauto)) as S2.
  pose proof (S i_m_rain ltac:(cbn; tauto)) as S3. pose proof (S i_z_snow ltac:(cbn; tauto)) as S4.
  pose proof (Hc2 i_rho_snow ltac:(cbn; tauto)) as C1. pose proof (Hc2 i_h2o_sat_snow ltac:(cbn; tauto)) as C2.
  assert (Hpn : 0 < IZR n) by (apply IZR_lt; assumption).
  assert (Hinv : 0 < / IZR n) by (apply Rinv_0_lt_compat; assumption).
  split; cbn; rewrite ?S1, ?S2, ?S3, ?S4, ?C1, ?C2; try assumption; try (unfold Rdiv; nra).
Qed.

Lemma const_update i1 i d : const_ok i1 i -> const_ok i1 (update_precip_deltas i d).
Proof. intros (A & B). split; [exact A|]. intros x Hx. rewrite met_update by tauto. auto. Qed.
Lemma const_add i1 i d : const_ok i1 i -> const_ok i1 (add_deltas i d).
Proof.
  intros (A & B). split; [exact A|]. intros x Hx. rewrite <- (B x Hx).
  repeat (destruct Hx as [<-|Hx]; [reflexivity|]). destruct Hx.
Qed.
Lemma const_set_e_a i1 i v : const_ok i1 i -> const_ok i1 (set_e_a v i).
Proof. intros (A & B). split; [exact A|]. intros x Hx. rewrite met_set_e_a by tauto. auto. Qed.

Lemma step_const env ds ts c i c' i' i1 :
  do_tstep env ds ts c i = Ok (c', i') -> const_ok i1 i -> const_ok i1 i'.
Proof.
  intros H Hc. apply do_tstep_inv in H.
  destruct H as (d & s1 & ic & init & s2 & kept & s3 & Hd & He & Hmb & Ha & Hcc & Hi). cbv zeta in *.
  subst i'. apply const_add.
  apply energy_balance_frame in He. destruct He as [_ He].
  assert (const_ok i1 (if i_precip_now i then update_precip_deltas i d else i))
    by (destruct (i_precip_now i); [apply const_update|]; assumption).
  destruct He as [->|[v ->]]; [assumption|apply const_set_e_a; assumption].
Qed.

(** ** Whole data steps *)
(** what the run step got from its record: the properties of the precipitation and
    its share of the amounts *)
Definition fed_by (r : RawInput R) (e : Event R) : Prop :=
  exists i1, input_data r = Ok i1 /\ const_ok i1 (e_input e) /\
    (0 < ts_per_timestep (e_tstep e))%Z /\ (0 < ts_time_step (e_tstep e))%Z /\
    (i_precip_now (e_input e) = true -> forall x, In x precip_amounts ->
       x (e_input e) = x i1 / IZR (ts_per_timestep (e_tstep e))).

(** what is known about each run step: its record, its outcome, and where it started *)
Definition good_event (Q : RawInput R -> Prop) (e : Event R) : Prop :=
  sound (e_before e) /\ outcome e /\ exists r, Q r /\ fed_by r e.

Lemma exec_good (Q : RawInput R -> Prop) env ds l c i c' i' r i1 i2 :
  exec env ds l c i c' i' -> Q r -> valid_record r -> input_data r = Ok i1 ->
  Forall (fun ts => (0 < ts_time_step ts)%Z /\ (0 < ts_per_timestep ts)%Z /\
    exists d, deltas_at ds (ts_level ts) = Ok d /\ level_deltas i1 i2 (ts_per_timestep ts) = Ok d) l ->
  sound (c_ss c) -> const_ok i1 i ->
  sound (c_ss c') /\ exists evs, steps_between c c' evs /\ Forall (good_event Q) evs.
Proof.
  intros Hex HQ Hr H1. induction Hex as [c i j|ts l c i c1 ix c2 iy Hstep Hp H IH]; intros Hl Hs Hc.
  - split; [assumption|]. exists []. split; [symmetry; apply app_nil_r|constructor].
  - inversion Hl as [|? ? (Hts & Hn & d & Hd & Hlev) Hl']; subst.
    assert (Hiv : forall d0, deltas_at ds (ts_level ts) = Ok d0 ->
       input_valid (if i_precip_now i then update_precip_deltas i d0 else i)).
    { intros d0 Hd0. rewrite Hd in Hd0. injection Hd0 as <-. exact (valid_share _ _ _ _ _ _ Hr H1 Hn Hlev Hc). }
    destruct (step_outcome _ _ _ _ _ _ _ Hstep Hts Hs Hiv) as (e & Htr & Ho & Hb & Hss & Het & d' & Hd' & Hei).
    rewrite Hd in Hd'. injection Hd' as <-.
    assert (Hfed : fed_by r e).
    { exists i1. split; [assumption|]. rewrite Hei, Het. destruct (i_precip_now i) eqn:En.
      - split; [apply const_update; assumption|]. split; [assumption|]. split; [assumption|]. intros _ x Hx.
        pose proof Hc as (Hc1 & _). rewrite En in Hc1. symmetry in Hc1.
        rewrite <- (precip_share r i1 i2 _ d x H1 Hc1 Hn Hlev Hx).
        repeat (destruct Hx as [<-|Hx]; [reflexivity|]). destruct Hx.
      - repeat (split; [assumption|]). congruence. }
    assert (Hse : sound (e_before e)) by (rewrite Hb; assumption).
    pose proof (outcome_sound _ Hse Ho) as Hs1. apply (same_snow_sound _ _ Hss) in Hs1.
    pose proof (step_const _ _ _ _ _ _ _ _ Hstep Hc) as Hc1.
    destruct (IH Hl' Hs1 Hc1) as (Hs2 & evs & Hev & Hf). split; [assumption|].
    exists (e :: evs). split.
    + unfold steps_between in *. rewrite Hev, Htr, <- app_assoc. reflexivity.
    + constructor; [|assumption]. split; [assumption|]. split; [assumption|]. exists r. auto.
Qed.

(** positive step lengths, each level at least as long as the next finer one *)
Definition ordered_steps (cfg : ModelCfg R) : Prop :=
  (0 < cfg_small cfg /\ cfg_small cfg <= cfg_medium cfg /\ cfg_medium cfg <= cfg_norm cfg)%Z.

Lemma const_refl i : const_ok i i. Proof. split; auto. Qed.

Lemma list3_inj {A} (a b c x y z : A) : [a; b; c] = [x; y; z] -> a = x /\ b = y /\ c = z.
Proof. intros H. injection H as -> -> ->. auto. Qed.

Lemma data_step_good (Q : RawInput R -> Prop) cfg env c i1 i2 c' :
  (forall r, Q r -> valid_record r) ->
  ordered_steps cfg -> parse_time_steps cfg = Ok (ev_tstep_info env) ->
  made_from Q i1 i2 -> sound (c_ss c) -> do_data_tstep env c i1 i2 = Ok c' ->
  sound (c_ss c') /\ exists evs, steps_between c c' evs /\ Forall (good_event Q) evs.
Proof.
  intros HQ (Ps & Pm & Pn) Hp (r & Hq & H1) Hs H. pose proof (HQ r Hq) as Hr.
  destruct (parse_standard _ _ Hp) as (t0 & t1 & t2 & Hstd).
  destruct (data_step_exec _ _ _ _ _ _ _ _ Hstd H) as (ds & l & c1 & i' & Hds & Hex & Hsch & _ & Ho).
  destruct (input_deltas_levels _ _ _ _ _ _ _ Hstd Hds) as (d0 & d1 & d2 & L0 & D0 & L1 & D1 & L2 & D2).
  destruct (parse_eq _ _ Hp) as (_ & Hi). pose proof Hstd as (Hi2 & V0 & V1 & V2 & _).
  rewrite Hi in Hi2. apply list3_inj in Hi2. destruct Hi2 as (<- & <- & <-). cbn [ts_per_timestep ts_level] in *.
  assert (Hqq : forall a b d, (0 < a)%Z -> (0 < b)%Z -> level_deltas i1 i2 (Z.quot a b) = Ok d -> (0 < Z.quot a b)%Z).
  { intros a b d Ha Hb Hd. apply level_deltas_R in Hd. destruct Hd as (Hnz & _).
    assert (0 <= Z.quot a b)%Z by (apply Z.quot_pos; lia).
    destruct (Z.eq_dec (Z.quot a b) 0) as [E|]; [|lia]. rewrite E in Hnz. lra. }
  assert (Hl : Forall (fun ts => (0 < ts_time_step ts)%Z /\ (0 < ts_per_timestep ts)%Z /\
    exists d, deltas_at ds (ts_level ts) = Ok d /\ level_deltas i1 i2 (ts_per_timestep ts) = Ok d) l).
  { eapply schedule_steps; [| | |exact Hsch]; cbn [ts_time_step ts_per_timestep ts_level].
    - split; [lia|]. split; [lia|]. eauto.
    - split; [lia|]. split; [eapply Hqq; [| |eassumption]; lia|]. eauto.
    - split; [lia|]. split; [eapply Hqq; [| |eassumption]; lia|]. eauto. }
  destruct (exec_good Q _ _ _ _ _ _ _ _ _ _ Hex Hq Hr H1 Hl Hs (const_refl i1)) as (Hs1 & evs & Hev & Hf).
  destruct (ev_output_divided env).
  - subst c'. split; [assumption|]. exists evs. auto.
  - apply output_inv in Ho. destruct Ho as (E1 & _ & _ & _ & _ & E6). unfold steps_between. rewrite E1, E6.
    split; [assumption|]. exists evs. auto.
Qed.

(** ** The initial state *)
Record valid_setup (p : Params R) (cfg : ModelCfg R) (ic : InitSnow R) : Prop := {
  vs_steps : ordered_steps cfg;
  vs_thr : 0 <= cfg_small_thr cfg;
  vs_mz : 0 < p_max_z_s_0 p;
  vs_vol : 0 <= p_max_h2o_vol p;
  vs_vol2 : p_max_h2o_vol p * (99987/100) < 917;
  vs_rho : is_rho ic <= 917;
  vs_sat : 0 <= is_h2o_sat ic <= 1
}.

Lemma fresh_h2o s s' : params_ok s -> rho s <= 917 -> 0 <= h2o_sat s <= 1 -> fresh s s' -> 0 <= h2o_max s'.
Proof.
  intros Hp Hr Hsat F. destruct (fr_max _ _ F) as (dry & Hd & ->).
  pose proof (fr_packed _ _ F) as Hk. pose proof (packed_z_pos _ Hk) as Hz. rewrite (fr_z _ _ F) in Hz.
  apply h2o_left_nonneg; [lra|apply (pk_vol _ Hp)|].
  pose proof (pk_vol _ Hp). pose proof (pk_vol2 _ Hp).
  set (x := h2o_sat s * max_h2o_vol s * (99987/100)) in *.
  assert (Hx : x < 917). { unfold x. assert (h2o_sat s * max_h2o_vol s <= max_h2o_vol s) by nra. nra. }
  assert (Hd2 : dry * (917 - x) = 917 * (rho s - x)).
  { replace (917 - x) with (917 * (1 - x / 917)) by field. nra. }
  nra.
Qed.

Lemma init_sound p cfg info ic mh m env c :
  valid_setup p cfg ic -> parse_time_steps cfg = Ok info ->
  snobal_init p info ic mh m = Ok (env, c) ->
  sound (c_ss c) /\ (packed (c_ss c) -> rho (c_ss c) = is_rho ic).
Proof.
  intros [_ V1 V2 V3 V4 V5 V6] Hp H. unfold snobal_init in H.
  inv_bind H as pa Hpa. inv_bind H as s Hs. inv_bind H as s1 Hs1. injection H as <- <-. cbn [c_ss].
  destruct (parse_eq _ _ Hp) as (_ & ->). unfold create_snow_state in Hs.
  change (Z.to_nat SMALL_TSTEP) with 2%nat in Hs. cbn [nth_error ts_threshold] in Hs. injection Hs as <-.
  set (s := set_max_h2o_vol _ _) in *.
  assert (Hpo : params_ok s) by (split; assumption).
  destruct (init_snow_spec s s1 Hpo Hs1) as [F|(G & _)].
  - pose proof (fresh_h2o _ _ Hpo V5 V6 F) as Hm.
    split; [|intros _; exact (fr_rho _ _ F)].
    split; [exact (params_eq_ok _ _ (fr_params _ _ F) Hpo)| |left; exact (fr_packed _ _ F)].
    rewrite (fr_h2o _ _ F). change (h2o_sat s) with (is_h2o_sat ic). apply Rmult_le_pos; lra.
  - split; [split; [exact (params_eq_ok _ _ (gn_params _ _ _ G) Hpo)|rewrite (gn_h2o _ _ _ G); lra|right; exact (gn_bare _ _ _ G)]|].
    intros [L _]. exfalso. exact (bare_or_layered_excl _ (gn_bare _ _ _ G) L).
Qed.

(** ** Every run step of every run *)
Theorem run_good (Q : RawInput R -> Prop) p cfg info ic mh m env c0 c :
  (forall r, Q r -> valid_record r) ->
  valid_setup p cfg ic -> parse_time_steps cfg = Ok info ->
  snobal_init p info ic mh m = Ok (env, c0) -> reachable_by (made_from Q) env c0 c ->
  sound (c_ss c) /\ Forall (good_event Q) (c_trace c).
Proof.
  intros HQ Hv Hp Hi. destruct (init_sound _ _ _ _ _ _ _ _ Hv Hp Hi) as (Hs0 & _).
  pose proof (init_tso _ _ _ _ _ _ _ Hi) as (_ & _ & _ & T0 & Ei & _).
  induction 1 as [|c i1 i2 c' Hr IH Hok Hd]; [rewrite T0; split; [assumption|constructor]|].
  destruct IH as (Hs & Hf).
  assert (Hp2 : parse_time_steps cfg = Ok (ev_tstep_info env)) by (rewrite Ei; assumption).
  destruct (data_step_good _ _ _ _ _ _ _ HQ (vs_steps _ _ _ Hv) Hp2 Hok Hs Hd) as (Hs1 & evs & Hev & Hf1).
  split; [assumption|]. unfold steps_between in Hev. rewrite Hev. apply Forall_app. split; assumption.
Qed.
