(** * Theorem C93: step lengths that are not ordered.

    For every number type.  parse_time_steps accepts a medium or small step longer than the normal one, and a small step longer
    than the medium one.  The first two never give a file.  The last one stops the clock where the snow is light: from
    then on nothing is simulated, and the file repeats one line. *)
From Coq Require Import String ZArith Bool Lia List.
Import ListNotations.
From Verif Require Import Num Real FloatNum Constants Functions Libsnobal Input SnowState Snobal PySnobal
  SchedSpec Sched Frame SchedProps Modes Thm_Schedule Thm_Api.

Section Any.
Context {T : Type} {N : Num T}.
Implicit Types (env : Env T) (c : Core T) (s : SnowState T) (cfg : ModelCfg T).

(** ** Specification *)
(** the positive step lengths of the configuration *)
Definition positive_steps cfg : Prop := (0 < cfg_norm cfg /\ 0 < cfg_medium cfg /\ 0 < cfg_small cfg)%Z.
(** one of the finer steps is longer than the normal step *)
Definition finer_longer_than_normal cfg : Prop := (cfg_norm cfg < cfg_medium cfg \/ cfg_norm cfg < cfg_small cfg)%Z.
(** snow of which some layer is lighter than the thresholds of the normal and of the medium step *)
Definition light cfg s : Prop := thin (cfg_norm_thr cfg) s /\ thin (cfg_medium_thr cfg) s.

(** [c'] is [c] with these records added *)
Definition standstill c c' (records : list (OutRec T)) : Prop :=
  c_ss c' = c_ss c /\ c_datetime c' = c_datetime c /\ c_trace c' = c_trace c /\ c_outputs c' = c_outputs c ++ records.

(** ** A finer step longer than the normal one *)
Lemma no_deltas (H0 : @neqb T N (nofZ 0) (nofZ 0) = true) (i1 i2 : InputData T) : level_deltas i1 i2 0 = Err ZeroDivision.
Proof using Type. unfold level_deltas, pdiv. rewrite H0. reflexivity. Qed.

Lemma no_data_step (H0 : @neqb T N (nofZ 0) (nofZ 0) = true) cfg env c i1 i2 :
  positive_steps cfg -> finer_longer_than_normal cfg -> configured cfg env -> exists e, do_data_tstep env c i1 i2 = Err e.
Proof using Type.
  intros (Pn & Pm & Ps) Hf Hc. destruct (parse_eq _ _ Hc) as (_ & E). unfold do_data_tstep. rewrite E. cbn [input_deltas ts_per_timestep].
  destruct (level_deltas i1 i2 1) as [d0|e]; [|cbn; eauto]. cbn [bind].
  destruct Hf as [Hf|Hf].
  - rewrite (Z.quot_small (cfg_norm cfg) (cfg_medium cfg)) by lia. rewrite (no_deltas H0). cbn. eauto.
  - destruct (level_deltas i1 i2 (Z.quot (cfg_norm cfg) (cfg_medium cfg))) as [d1|e]; [|cbn; eauto]. cbn [bind].
    rewrite (Z.quot_small (cfg_norm cfg) (cfg_small cfg)) by lia. rewrite (no_deltas H0). cbn. eauto.
Qed.

Theorem C93_no_file_with_a_finer_step_longer_than_normal (H0 : @neqb T N (nofZ 0) (nofZ 0) = true) p end_date cfg ic mh m rows :
  positive_steps cfg -> finer_longer_than_normal cfg -> forall out, pysnobal_run (T:=T) p end_date cfg ic mh m rows <> Ok out.
Proof using Type.
  intros Hp Hf out H. destruct (pysnobal_run_inv _ _ _ _ _ _ _ _ H)
    as (info & used & i1 & r0 & rest & env & c0 & c & Hi & _ & _ & _ & _ & Hinit & Hrun & Hne & _).
  destruct (init_tso _ _ _ _ _ _ _ Hinit) as (_ & _ & Ho & _ & Ei & _).
  assert (Hcfg : configured cfg env) by (unfold configured; rewrite Ei; assumption).
  destruct (map snd rest) as [|r l]; cbn [run_steps] in Hrun.
  - injection Hrun as <-. congruence.
  - inv_bind Hrun as i2 Hi2. inv_bind Hrun as c1 Hc1. destruct (no_data_step H0 cfg env c0 i1 i2 Hp Hf Hcfg) as (e & E). congruence.
Qed.

(** ** A small step longer than the medium one *)
Lemma iter_still (body : DState T -> result (DState T)) c lvl :
  (forall i st, body (mkD c i lvl) = Ok st -> exists i', st = mkD c i' lvl) ->
  forall n i st, iter_res n body (mkD c i lvl) = Ok st -> exists i', st = mkD c i' lvl.
Proof using Type.
  intros Hb. induction n as [|n IH]; intros i st H; cbn [iter_res] in H; [injection H as <-; eauto|].
  inv_bind H as x Hx. destruct (Hb _ _ Hx) as (i' & ->). exact (IH _ _ H).
Qed.

Theorem C93_light_snow_is_not_simulated cfg env c i1 i2 c' :
  positive_steps cfg -> (cfg_medium cfg < cfg_small cfg)%Z -> configured cfg env -> light cfg (c_ss c) ->
  do_data_tstep env c i1 i2 = Ok c' ->
  standstill c c' (if ev_output_divided env then [] else [mkOut (c_datetime c) (c_ss c)]).
Proof using Type.
  intros (Pn & Pm & Ps) Hms Hc (L0 & L1) H. destruct (parse_eq _ _ Hc) as (_ & E).
  apply thin_below in L0. apply thin_below in L1.
  unfold do_data_tstep in H. inv_bind H as ds Hds. inv_bind H as st Hst. injection H as <-.
  unfold NORMAL_TSTEP in Hst.
  (* level 2: range(0) *)
  assert (Q : Z.quot (cfg_medium cfg) (cfg_small cfg) = 0%Z) by (apply Z.quot_small; lia).
  assert (H2 : forall i st, divide_tstep 1 env ds (mkD c i 2) = Ok st -> exists i', st = mkD c i' 1).
  { intros i st2 H. cbn [divide_tstep d_level d_core d_input] in H. unfold tstep_at in H. rewrite E in H.
    change (2 <? 0)%Z with false in H. cbv iota in H. change (Z.to_nat 2) with 2%nat in H. cbn [nth_error bind] in H.
    inv_bind H as i' Hi'. cbn [ts_intervals] in H. rewrite Q in H. change (Z.to_nat 0) with 0%nat in H. cbn [iter_res bind d_level d_core d_input] in H.
    change (2 =? 0)%Z with false in H. cbn [andb bind] in H. injection H as <-. eauto. }
  assert (H1 : forall i st, divide_tstep 2 env ds (mkD c i 1) = Ok st -> exists i', st = mkD c i' 0).
  { intros i st1 H. change 2%nat with (S 1) in H. remember 1%nat as one eqn:E1. cbn [divide_tstep d_level d_core d_input] in H. unfold tstep_at in H. rewrite E in H.
    change (1 <? 0)%Z with false in H. cbv iota in H. change (Z.to_nat 1) with 1%nat in H. cbn [nth_error bind] in H.
    inv_bind H as i' Hi'. inv_bind H as x Hx.
    apply (iter_still _ c 1%Z) in Hx.
    - destruct Hx as (i3 & ->). cbn [d_level d_core d_input] in H. change (1 =? 0)%Z with false in H. cbn [andb bind] in H. injection H as <-. eauto.
    - intros i3 st3. cbn [d_level d_core d_input ts_threshold]. change (1 =? SMALL_TSTEP)%Z with false. rewrite L1. cbn [negb andb].
      change (1 + 1)%Z with 2%Z. subst one. apply H2. }
  change 3%nat with (S 2) in Hst. remember 2%nat as two eqn:E2. cbn [divide_tstep d_level d_core d_input] in Hst. unfold tstep_at in Hst. rewrite E in Hst.
  change (0 <? 0)%Z with false in Hst. cbv iota in Hst. change (Z.to_nat 0) with 0%nat in Hst. cbn [nth_error bind] in Hst.
  inv_bind Hst as i' Hi'. inv_bind Hst as x Hx.
  apply (iter_still _ c 0%Z) in Hx.
  - destruct Hx as (i3 & ->). cbn [d_level d_core d_input] in Hst. change (0 =? 0)%Z with true in Hst. cbn [andb] in Hst.
    destruct (ev_output_divided env); cbn [negb] in Hst; inv_bind Hst as c2 Hc2; injection Hst as <-; cbn [d_core].
    + injection Hc2 as <-. unfold standstill. rewrite app_nil_r. auto.
    + unfold output in Hc2. destruct (swi_sum (c_ss c)); [|discriminate]. injection Hc2 as <-. repeat split.
  - intros i3 st3. cbn [d_level d_core d_input ts_threshold]. change (0 =? SMALL_TSTEP)%Z with false. rewrite L0. cbn [negb andb].
    change (0 + 1)%Z with 1%Z. subst two. 
    intros H. destruct (H1 _ _ H) as (i4 & ->). eauto.
Qed.

(** ... to the end of the input file *)
Theorem C93_and_never_again cfg env c i1 raws c' :
  positive_steps cfg -> (cfg_medium cfg < cfg_small cfg)%Z -> configured cfg env -> light cfg (c_ss c) ->
  run_steps env c i1 raws = Ok c' ->
  standstill c c' (if ev_output_divided env then [] else repeat (mkOut (c_datetime c) (c_ss c)) (length raws)).
Proof using Type.
  intros Hp Hms Hc HL H. revert c i1 HL H. induction raws as [|r l IH]; intros c i1 HL H; cbn [run_steps] in H.
  - injection H as <-. unfold standstill. destruct (ev_output_divided env); cbn; rewrite app_nil_r; auto.
  - inv_bind H as i2 Hi2. inv_bind H as c1 Hc1.
    destruct (C93_light_snow_is_not_simulated _ _ _ _ _ _ Hp Hms Hc HL Hc1) as (A1 & A2 & A3 & A4).
    rewrite <- A1 in HL. destruct (IH c1 i2 HL H) as (B1 & B2 & B3 & B4).
    split; [congruence|]. split; [congruence|]. split; [congruence|]. rewrite B4, A4, A1, A2, <- app_assoc.
    destruct (ev_output_divided env); reflexivity.
Qed.

Lemma swi_written env c i1 i2 c' cfg : configured cfg env -> ev_output_divided env = false -> do_data_tstep env c i1 i2 = Ok c' -> swi_sum (c_ss c') <> None.
Proof using Type.
  intros Hc Em H. pose proof (C05_subdivision_policy cfg env c i1 i2 c' Hc H) as (ds & l & c1 & i' & _ & _ & Ho). rewrite Em in Ho.
  destruct (output_inv _ _ Ho) as (-> & _). unfold output in Ho. destruct (swi_sum (c_ss c1)); congruence.
Qed.
Lemma init_no_swi p info ic mh m env c : snobal_init (T:=T) p info ic mh m = Ok (env, c) -> swi_sum (c_ss c) = None.
Proof using Type.
  intros H. unfold snobal_init in H. inv_bind H as pa Hpa. inv_bind H as s Hs. inv_bind H as s1 Hs1. injection H as <- <-. cbn [c_ss].
  unfold create_snow_state in Hs. destruct (nth_error info _) as [th|]; [|discriminate]. injection Hs as <-.
  destruct (init_snow_frame _ _ Hs1) as (_ & _ & _ & _ & _ & _ & ->). reflexivity.
Qed.

(** A run that starts from such snow writes no file. *)
Theorem C93_no_file_from_a_light_pack p end_date cfg ic mh m rows info env c0 :
  positive_steps cfg -> (cfg_medium cfg < cfg_small cfg)%Z ->
  parse_time_steps cfg = Ok info -> snobal_init (T:=T) p info ic mh m = Ok (env, c0) -> light cfg (c_ss c0) ->
  forall out, pysnobal_run p end_date cfg ic mh m rows <> Ok out.
Proof using Type.
  intros Hp Hms Hinfo Hin HL out H. destruct (pysnobal_run_inv _ _ _ _ _ _ _ _ H)
    as (info' & used & i1 & r0 & rest & env' & c0' & c & Hi & _ & _ & _ & _ & Hinit & Hrun & Hne & _).
  rewrite Hinfo in Hi. injection Hi as <-. rewrite Hin in Hinit. injection Hinit as <- <-.
  destruct (init_tso _ _ _ _ _ _ _ Hin) as (_ & _ & Ho & _ & Ei & Em & _).
  assert (Hcfg : configured cfg env) by (unfold configured; rewrite Ei; assumption).
  destruct (C93_and_never_again _ _ _ _ _ _ Hp Hms Hcfg HL Hrun) as (_ & _ & _ & B). rewrite Ho in B. cbn [app] in B.
  destruct (ev_output_divided env) eqn:Em'; [congruence|].
  destruct (map snd rest) as [|r l] eqn:El; [cbn in B; congruence|].
  (* normal mode: there is no total of the water leaving the pack to write *)
  cbn [run_steps] in Hrun. inv_bind Hrun as i2 Hi2. inv_bind Hrun as c1 Hc1.
  pose proof (C93_light_snow_is_not_simulated _ _ _ _ _ _ Hp Hms Hcfg HL Hc1) as (S1 & _).
  apply (swi_written env c0 i1 i2 c1 cfg Hcfg Em' Hc1). rewrite S1. exact (init_no_swi _ _ _ _ _ _ _ Hin).
Qed.
End Any.

(** ** Both instances *)
Theorem C93_over_the_reals p end_date (cfg : ModelCfg Rdefinitions.R) ic mh m rows :
  positive_steps cfg -> finer_longer_than_normal cfg -> forall out, pysnobal_run p end_date cfg ic mh m rows <> Ok out.
Proof.
  apply C93_no_file_with_a_finer_step_longer_than_normal. cbn [neqb RNum nofZ]. destruct (Reqb_spec (Rdefinitions.IZR 0) (Rdefinitions.IZR 0)); congruence.
Qed.
Theorem C93_in_binary64 p end_date (cfg : ModelCfg PrimFloat.float) ic mh m rows :
  positive_steps cfg -> finer_longer_than_normal cfg -> forall out, pysnobal_run p end_date cfg ic mh m rows <> Ok out.
Proof. apply C93_no_file_with_a_finer_step_longer_than_normal. reflexivity. Qed.

(** ** Concrete runs (binary64): steps of 60, 10 and 15 minutes; an hour with 5 mm of snowfall on bare ground, then dry weather *)
From Coq Require Import Floats.
Section Witness.
Open Scope float_scope.
Definition slow_cfg : ModelCfg float := mkCfg 60 10 15 60 10 1.
Definition slow_rec (m : float) : RawInput float := mkRaw 50 250 (-2) 300 2 (-1) m 1 100 (-3).
Definition slow_rows : list (CsvRow (T:=float)) :=
  [(0, slow_rec 5); (60, slow_rec 0); (120, slow_rec 0); (180, slow_rec 0)]%Z.
(** the file has three lines with the same date *)
Example slow_dates : match pysnobal_run w_params 120 slow_cfg w_bare w_heights false slow_rows with
  Ok out => Some (map fst out) | Err _ => None end = Some [60; 60; 60]%Z.
Proof. vm_compute. reflexivity. Qed.
(** with a small step of 1 minute it has three lines an hour apart *)
Example slow_dates_ordered : match pysnobal_run w_params 120 w_even w_bare w_heights false slow_rows with
  Ok out => Some (map fst out) | Err _ => None end = Some [60; 120; 180]%Z.
Proof. vm_compute. reflexivity. Qed.
End Witness.

(** a state that meets the hypotheses of C93_light_snow_is_not_simulated, and a data step that ends *)
(** 5 kg/m2 in one layer *)
Definition slow_pack : InitSnow float := (mkInitSnow 0.0625 80 268 268 0 0.0078125)%float.
Definition slow_run : result (Env float * Core float * Core float) :=
  let* info := parse_time_steps slow_cfg in
  let* '(env, c0) := snobal_init w_params info slow_pack w_heights true in
  let* i1 := input_data (w_rec 272%float 300%float) in
  let* c := do_data_tstep env c0 i1 i1 in
  Ok (env, c0, c).
Example C93_witness : positive_steps slow_cfg /\ (cfg_medium slow_cfg < cfg_small slow_cfg)%Z /\
  finer_longer_than_normal (mkCfg 60 90 1 60 10 1 : ModelCfg float)%float /\
  match slow_run with
  | Ok (env, c0, c) => nltb (m_s (c_ss c0)) (nofZ 60) && nltb (m_s (c_ss c0)) (nofZ 10) && (layer_count (c_ss c0) =? 1)%nat = true /\
      c_datetime c = 0%Z /\ length (c_trace c) = 0%nat
  | Err _ => False
  end.
Proof. split; [repeat split; cbn; lia|]. split; [cbn; lia|]. split; [left; cbn; lia|]. vm_compute. repeat split; reflexivity. Qed.

Print Assumptions C93_no_file_with_a_finer_step_longer_than_normal.
Print Assumptions C93_light_snow_is_not_simulated.
Print Assumptions C93_and_never_again.
Print Assumptions C93_no_file_from_a_light_pack.
Print Assumptions C93_over_the_reals.
Print Assumptions C93_in_binary64.
