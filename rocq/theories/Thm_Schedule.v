(** * Theorems C01-C05: clock, output records and thin-snow subdivision.

    All are stated for an arbitrary number type with arbitrary operations, so they
    hold for the reals and for IEEE floats alike. *)
From Coq Require Import ZArith List Bool Floats Lia.
Import ListNotations.
From Verif Require Import Num Real Constants Functions Libsnobal Input SnowState Snobal PySnobal
  SchedSpec Sched SchedProps FloatNum.

Section Any.
Context {T : Type} {N : Num T}.
Implicit Types (cfg : ModelCfg T) (env : Env T) (c : Core T).

(** The model was configured with the step lengths and thresholds of [cfg]. *)
Definition configured (cfg : ModelCfg T) (env : Env T) : Prop :=
  parse_time_steps cfg = Ok (ev_tstep_info env).

(** The three step lengths as configured: level, threshold, length in seconds and
    minutes, how many of them make one step of the next coarser level, and how many
    make one data step. *)
Definition normal_step cfg : TStep T :=
  mkTStep 0 (cfg_norm_thr cfg) (60 * cfg_norm cfg) (cfg_norm cfg) 1 1.
Definition medium_step cfg : TStep T :=
  mkTStep 1 (cfg_medium_thr cfg) (60 * cfg_medium cfg) (cfg_medium cfg)
          (Z.quot (cfg_norm cfg) (cfg_medium cfg)) (Z.quot (cfg_norm cfg) (cfg_medium cfg)).
Definition small_step cfg : TStep T :=
  mkTStep 2 (cfg_small_thr cfg) (60 * cfg_small cfg) (cfg_small cfg)
          (Z.quot (cfg_medium cfg) (cfg_small cfg)) (Z.quot (cfg_norm cfg) (cfg_small cfg)).

Lemma configured_standard cfg env : configured cfg env ->
  standard_info (ev_tstep_info env) (normal_step cfg) (medium_step cfg) (small_step cfg).
Proof.
  intros H. destruct (parse_eq _ _ H) as (_ & E). unfold standard_info. rewrite E. repeat split.
Qed.

(** C01 *)
Theorem C01_clock_advances_one_normal_step cfg env c i1 i2 c' :
  divides_evenly cfg -> configured cfg env ->
  do_data_tstep env c i1 i2 = Ok c' ->
  c_datetime c' = (c_datetime c + cfg_norm cfg)%Z.
Proof. exact (clock_advance cfg env c i1 i2 c'). Qed.

(** C02, general part; the strict loss is [C02_time_can_be_lost] below. *)
Theorem C02_clock_advances_by_executed_steps cfg env c i1 i2 c' :
  (0 < cfg_norm cfg)%Z -> (0 < cfg_medium cfg)%Z -> (0 < cfg_small cfg)%Z ->
  configured cfg env ->
  do_data_tstep env c i1 i2 = Ok c' ->
  exists evs, steps_between c c' evs /\
    c_datetime c' = (c_datetime c + fold_right Z.add 0 (map (fun e => ts_minutes (e_tstep e)) evs))%Z /\
    (c_datetime c <= c_datetime c' <= c_datetime c + cfg_norm cfg)%Z.
Proof. exact (clock_advance_le cfg env c i1 i2 c'). Qed.

(** C03 *)
Theorem C03_one_record_per_data_step cfg env c i1 i2 c' :
  configured cfg env -> ev_output_divided env = false ->
  do_data_tstep env c i1 i2 = Ok c' ->
  c_outputs c' = c_outputs c ++ [mkOut (c_datetime c') (c_ss c')].
Proof. intros Hc Hm H. eapply outputs_normal; eauto using configured_standard. Qed.

(** C04: for every state the model can be in after any number of data steps.
    [value_to_bar] only copies the current values into the "_bar"/"_sum" attributes. *)
Theorem C04_one_record_per_run_step cfg p ic mh env c0 c i1 i2 c' :
  configured cfg env ->
  snobal_init p (ev_tstep_info env) ic mh true = Ok (env, c0) -> reachable env c0 c ->
  do_data_tstep env c i1 i2 = Ok c' ->
  exists evs, steps_between c c' evs /\
    c_outputs c' = c_outputs c ++
      map (fun e => mkOut (e_start e + ts_minutes (e_tstep e))%Z (value_to_bar (e_after e))) evs /\
    chain (c_ss c) (c_datetime c) evs (c_ss c') (c_datetime c').
Proof.
  intros Hc Hi Hr H. pose proof (configured_standard _ _ Hc) as Hstd.
  destruct (init_tso _ _ _ _ _ _ _ Hi) as (E1 & _ & _ & _ & _ & E2 & _).
  assert (E3 : c_time_since_out c = 0%Z) by (eapply reachable_tso; eassumption).
  destruct (outputs_all _ _ _ _ _ _ _ _ Hstd E2 E3 H) as (_ & evs & He & Ho).
  destruct (data_step_clock _ _ _ _ _ _ _ _ Hstd H) as (evs' & He' & _ & Hch & _).
  unfold steps_between in He, He'. rewrite He in He'. apply app_inv_head in He'. subst evs'.
  exists evs. auto.
Qed.

(** In 'all' mode nothing but the averages changes between the snapshot and the
    state the run step left. *)
Theorem C04_record_is_the_state cfg env c i1 i2 c' evs :
  configured cfg env -> do_data_tstep env c i1 i2 = Ok c' -> steps_between c c' evs ->
  forall e, In e evs -> same_snow (e_after e) (value_to_bar (e_after e)).
Proof.
  intros _ _ _ e _. exists (en (e_after e)), (melt (e_after e)), (E_s (e_after e)), (Some (swi (e_after e))).
  destruct (e_after e). reflexivity.
Qed.

(** C05: the run steps executed by a data step are exactly those of the recursive
    specification [data_interval]: an interval is subdivided iff the pack is thin
    (some existing layer lighter than the threshold) at its start. *)
Theorem C05_subdivision_policy cfg env c i1 i2 c' :
  configured cfg env -> do_data_tstep env c i1 i2 = Ok c' ->
  exists ds l c1 i', input_deltas i1 i2 (ev_tstep_info env) = Ok ds /\
    data_interval env ds (normal_step cfg) (medium_step cfg) (small_step cfg) c i1 l c1 i' /\
    if ev_output_divided env then c' = c1 else output c1 = Ok c'.
Proof. intros Hc. apply data_step_refines. apply configured_standard. assumption. Qed.

(** ... hence: the steps form one of the possible schedules, start where the
    previous ended, and a normal or medium one never runs on a thin pack. *)
Theorem C05_no_coarse_step_on_thin_pack cfg env c i1 i2 c' :
  configured cfg env -> do_data_tstep env c i1 i2 = Ok c' ->
  exists evs, steps_between c c' evs /\
    schedule (normal_step cfg) (medium_step cfg) (small_step cfg) (map e_tstep evs) /\
    chain (c_ss c) (c_datetime c) evs (c_ss c') (c_datetime c') /\
    Forall (fun e => ts_level (e_tstep e) <> 2%Z -> ~ thin (ts_threshold (e_tstep e)) (e_before e)) evs.
Proof.
  intros Hc H. pose proof (configured_standard _ _ Hc) as Hstd.
  destruct (data_step_exec _ _ _ _ _ _ _ _ Hstd H) as (ds & l & c1 & i' & Hds & Hex & Hs & _ & Ho).
  destruct (exec_trace _ _ _ _ _ _ _ Hex) as (evs & Hev & Hl & Hth).
  destruct (data_step_clock _ _ _ _ _ _ _ _ Hstd H) as (evs' & He' & Hsch & Hch & _).
  assert (evs' = evs).
  { unfold steps_between in He'. destruct (ev_output_divided env).
    - subst c1. rewrite He' in Hev. apply app_inv_head in Hev. auto.
    - apply output_inv in Ho. destruct Ho as (_ & _ & _ & _ & _ & Ho). rewrite Ho in He'.
      rewrite He' in Hev. apply app_inv_head in Hev. auto. }
  subst evs'. exists evs. auto.
Qed.

(** The recursion depth of the model (3) is never exhausted: Python's unbounded
    recursion always stops within three levels. *)
Theorem C05_recursion_stops env c i1 i2 : do_data_tstep env c i1 i2 <> Err RecursionLimit.
Proof. apply data_step_no_rl. Qed.

End Any.

(** ** Concrete runs (binary64 instance) *)
Section Witness.
Open Scope float_scope.
Definition w_params := mkParams 2061 0%Z 0.015625 0.25 false.
Definition w_heights := mkHeights 5 5 0.5.
Definition w_bare : InitSnow float := mkInitSnow 0 0 0 0 0 0.0078125.
(** an initial pack of 12.5 cm (25 kg/m2), given in Kelvin: one layer, below the 60 kg/m2 threshold *)
Definition w_thin : InitSnow float := mkInitSnow 0.125 200 268 268 0 0.0078125.
Definition w_even : ModelCfg float := mkCfg 60 15 1 60 10 1.
Definition w_odd : ModelCfg float := mkCfg 60 25 25 60 10 1.
Definition w_rec (t_a e_a : float) : RawInput float :=
  mkRaw 50 250 t_a e_a 2 270 0 0 0 0.

(** run two records from the given configuration *)
Definition w_run (cfg : ModelCfg float) (ic : InitSnow float) (all_mode : bool)
  : result (Env float * Core float * Core float) :=
  let* info := parse_time_steps cfg in
  let* '(env, c0) := snobal_init w_params info ic w_heights all_mode in
  let* i1 := input_data (w_rec 272 300) in
  let* i2 := input_data (w_rec 273 320) in
  let* c := do_data_tstep env c0 i1 i2 in
  Ok (env, c0, c).

(** number of run steps, minutes advanced, number of output records *)
Definition w_summary (r : result (Env float * Core float * Core float)) : option (nat * Z * nat * list Z) :=
  match r with
  | Ok (_, c0, c) => Some (length (c_trace c), (c_datetime c - c_datetime c0)%Z, length (c_outputs c),
                           map (fun e => ts_level (e_tstep e)) (c_trace c))
  | Err _ => None
  end.

(** thin pack: four medium steps, sixty minutes, one record *)
Example w_even_normal : w_summary (w_run w_even w_thin false) = Some (4%nat, 60%Z, 1%nat, [1;1;1;1]%Z).
Proof. vm_compute. reflexivity. Qed.
(** same run in 'all' mode: four records *)
Example w_even_all : w_summary (w_run w_even w_thin true) = Some (4%nat, 60%Z, 4%nat, [1;1;1;1]%Z).
Proof. vm_compute. reflexivity. Qed.
(** 60/25: two medium steps, only fifty minutes *)
Example w_odd_lost : w_summary (w_run w_odd w_thin false) = Some (2%nat, 50%Z, 1%nat, [1;1]%Z).
Proof. vm_compute. reflexivity. Qed.
End Witness.

Lemma w_run_inv cfg ic m r : w_run cfg ic m = r -> forall n z k l, w_summary r = Some (n, z, k, l) ->
  exists env c0 i1 i2 c, configured cfg env /\
    snobal_init w_params (ev_tstep_info env) ic w_heights m = Ok (env, c0) /\
    do_data_tstep env c0 i1 i2 = Ok c /\ r = Ok (env, c0, c) /\
    (c_datetime c - c_datetime c0)%Z = z /\ length (c_trace c) = n /\ length (c_outputs c) = k /\
    map (fun e => ts_level (e_tstep e)) (c_trace c) = l.
Proof.
  intros <- n z k l. unfold w_run, w_summary. generalize (w_rec 272 300) (w_rec 273 320). intros r1 r2.
  destruct (parse_time_steps cfg) as [info|] eqn:E1; [|discriminate]. cbn [bind].
  destruct (snobal_init w_params info ic w_heights m) as [[env c0]|] eqn:E2; [|discriminate]. cbn [bind].
  destruct (input_data r1) as [i1|] eqn:E3; [|discriminate]. cbn [bind].
  destruct (input_data r2) as [i2|] eqn:E4; [|discriminate]. cbn [bind].
  destruct (do_data_tstep env c0 i1 i2) as [c|] eqn:E5; [|discriminate]. cbn [bind].
  intros H. injection H as <- <- <- <-.
  assert (Ei : ev_tstep_info env = info) by (apply init_tso in E2; tauto).
  exists env, c0, i1, i2, c. unfold configured. rewrite Ei. auto 9.
Qed.

(** C02: time can be lost: 10 of 60 minutes with step lengths 60/25/25. *)
Theorem C02_time_can_be_lost :
  exists (cfg : ModelCfg float) env c i1 i2 c',
    (0 < cfg_norm cfg)%Z /\ (0 < cfg_medium cfg)%Z /\ (0 < cfg_small cfg)%Z /\ configured cfg env /\
    do_data_tstep env c i1 i2 = Ok c' /\
    (c_datetime c' < c_datetime c + cfg_norm cfg)%Z.
Proof.
  destruct (w_run_inv _ _ _ _ eq_refl _ _ _ _ w_odd_lost) as (env & c0 & i1 & i2 & c & Hc & _ & Hd & _ & Hz & _).
  exists w_odd, env, c0, i1, i2, c. repeat split; try assumption; cbn [cfg_norm w_odd]; lia.
Qed.

Print Assumptions C01_clock_advances_one_normal_step.
Print Assumptions C02_clock_advances_by_executed_steps.
Print Assumptions C02_time_can_be_lost.
Print Assumptions C03_one_record_per_data_step.
Print Assumptions C04_one_record_per_run_step.
Print Assumptions C05_subdivision_policy.
Print Assumptions C05_no_coarse_step_on_thin_pack.
Print Assumptions C05_recursion_stops.
