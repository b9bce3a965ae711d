(** * C06 and C07 over whole runs: the k-th data step of a run uses the k-th and the
    (k+1)-th record *)
From Coq Require Import Reals String ZArith Bool Lia Lra List.
Import ListNotations.
From Verif Require Import Num Real Constants Functions Libsnobal Input SnowState Snobal PySnobal
  SchedSpec Sched Frame SchedProps Spec Averages Forcing Phys Mass MassEnd RunMass Run Thm_Schedule Thm_Forcing Witness.
Open Scope R_scope.

(** the weather of a run step, on the line from record [r1] at [start] to record [r2] one
    normal step later *)
Definition weather_between (cfg : ModelCfg R) (start : Z) (r1 r2 : RawInput R) (e : Event R) : Prop :=
  let w := IZR (e_start e - start) / IZR (cfg_norm cfg) in
  i_S_n (e_input e) = r_S_n r1 + (r_S_n r2 - r_S_n r1) * w /\
  i_I_lw (e_input e) = r_I_lw r1 + (r_I_lw r2 - r_I_lw r1) * w /\
  i_t_a (e_input e) = r_t_a r1 + (r_t_a r2 - r_t_a r1) * w /\
  i_u (e_input e) = r_u r1 + (r_u r2 - r_u r1) * w /\
  i_t_g (e_input e) = r_t_g r1 + (r_t_g r2 - r_t_g r1) * w.

(** all the precipitation of record [r1] falls in these run steps *)
Definition precipitation_of (r1 : RawInput R) (evs : list (Event R)) : Prop :=
  sum_over (applied i_m_pp) evs = rec_precip r1 /\ sum_over (applied i_m_snow) evs = rec_snow r1 /\
  sum_over (applied i_m_rain) evs = rec_rain r1 /\ sum_over (applied i_z_snow) evs = rec_depth r1.

Lemma steps_use_records cfg env raws : divides_evenly cfg -> parse_time_steps cfg = Ok (ev_tstep_info env) ->
  forall c r1 i1 c', input_data r1 = Ok i1 -> run_steps env c i1 raws = Ok c' ->
  exists hours, c_trace c' = c_trace c ++ concat hours /\ length hours = length raws /\
    forall k a b evs, nth_error (r1 :: raws) k = Some a -> nth_error raws k = Some b -> nth_error hours k = Some evs ->
      Forall (weather_between cfg (c_datetime c + Z.of_nat k * cfg_norm cfg) a b) evs /\ precipitation_of a evs.
Proof.
  intros He Hp. induction raws as [|r2 raws IH]; intros c r1 i1 c' Hi H; cbn [run_steps] in H.
  - injection H as <-. exists []. rewrite app_nil_r. split; [reflexivity|]. split; [reflexivity|].
    intros k a b evs _ Hb. destruct k; discriminate.
  - inv_bind H as i2 Hi2. inv_bind H as c1 Hc1.
    destruct (IH c1 r2 i2 c' Hi2 H) as (hours & Ht & Hl & Hk).
    destruct (C07_forcing_is_interpolated_linearly cfg env c i1 i2 c1 He Hp Hc1) as (evs & Hev & Hline & _).
    destruct (C06_precipitation_is_shared_out cfg env c r1 i1 i2 c1 He Hp Hi Hc1) as (evs' & Hev' & Hpp).
    rewrite (steps_between_unique _ _ _ _ Hev' Hev) in Hpp.
    exists (evs :: hours). cbn [concat length]. rewrite Hl. unfold steps_between in Hev. rewrite Ht, Hev, app_assoc.
    split; [reflexivity|]. split; [reflexivity|].
    pose proof (C01_clock_advances_one_normal_step cfg env c i1 i2 c1 He Hp Hc1) as Hdt.
    intros k a b evk Ha Hb Hh. destruct k as [|k].
    + cbn [nth_error] in Ha, Hb, Hh. injection Ha as <-. injection Hb as <-. injection Hh as <-.
      split; [|exact Hpp]. apply Forall_forall. intros e Hin. destruct (Hline e Hin) as (L1 & L2 & L3 & L4 & L5 & _).
      pose proof (input_data_raw _ _ Hi) as (E1 & E2 & E3 & _ & E5 & E6 & _).
      pose proof (input_data_raw _ _ Hi2) as (F1 & F2 & F3 & _ & F5 & F6 & _).
      unfold weather_between, on_the_line in *. rewrite E1, F1 in L1. rewrite E2, F2 in L2. rewrite E3, F3 in L3. rewrite E5, F5 in L4. rewrite E6, F6 in L5.
      change (Z.of_nat 0 * cfg_norm cfg)%Z with 0%Z. rewrite Z.add_0_r. repeat split; assumption.
    + cbn [nth_error] in Ha, Hb, Hh. replace (c_datetime c + Z.of_nat (S k) * cfg_norm cfg)%Z with (c_datetime c1 + Z.of_nat k * cfg_norm cfg)%Z by lia.
      apply Hk; assumption.
Qed.

(** a run divides into one group of run steps per consecutive pair of records *)
Theorem C07_records_of_a_run cfg (p : Params R) info ic mh all_mode rows c :
  divides_evenly cfg -> parse_time_steps cfg = Ok info ->
  simulate p info ic mh all_mode rows = Ok c ->
  exists hours, c_trace c = concat hours /\ S (length hours) = length rows /\
    forall k a b evs, nth_error rows k = Some a -> nth_error rows (S k) = Some b -> nth_error hours k = Some evs ->
      Forall (weather_between cfg (p_start_date p + Z.of_nat k * cfg_norm cfg) (snd a) (snd b)) evs /\
      precipitation_of (snd a) evs.
Proof.
  intros He Hp H. unfold simulate in H. destruct (negb _); [discriminate|].
  destruct rows as [|r0 rest]; [discriminate|]. inv_bind H as i1 Hi1. inv_bind H as [env c0] Hinit.
  destruct (init_tso _ _ _ _ _ _ _ Hinit) as (_ & Hdt & _ & Htr & Hinfo & _).
  rewrite <- Hinfo in Hp.
  destruct (steps_use_records cfg env (map snd rest) He Hp c0 (snd r0) i1 c Hi1 H) as (hours & Ht & Hl & Hk).
  rewrite Htr in Ht. rewrite Hdt in Hk. rewrite map_length in Hl. exists hours. split; [exact Ht|]. cbn [length]. rewrite Hl. split; [reflexivity|].
  intros k a b evs Ha Hb Hh. cbn [nth_error] in Hb. apply (Hk k (snd a) (snd b) evs); [|apply map_nth_error; exact Hb|exact Hh].
  change (snd r0 :: map snd rest) with (map snd (r0 :: rest)). apply map_nth_error. exact Ha.
Qed.
Print Assumptions C07_records_of_a_run.
