(** * Clock, outputs, subdivision: consequences of the refinement (any arithmetic). *)
From Coq Require Import String ZArith Bool Lia List Znumtheory.
Import ListNotations.
From Verif Require Import Num Constants Functions Libsnobal Input SnowState Snobal PySnobal Real SchedSpec Sched Frame.

Section SchedProps.
Context {T : Type} {N : Num T}.
Implicit Types (c : Core T) (i j d : InputData T) (ts : TStep T) (env : Env T) (cfg : ModelCfg T).

Lemma steps_between_unique c c' e1 e2 :
  steps_between c c' e1 -> steps_between c c' e2 -> e1 = e2.
Proof. unfold steps_between. intros H1 H2. rewrite H1 in H2. eapply app_inv_head; eassumption. Qed.

Lemma exec_chain env ds l c i c' i' :
  exec env ds l c i c' i' ->
  exists evs, steps_between c c' evs /\ map e_tstep evs = l /\
    chain (c_ss c) (c_datetime c) evs (c_ss c') (c_datetime c').
Proof.
  unfold steps_between.
  induction 1 as [c i j|ts l c i c1 i1 c2 i2 Hstep Hp H IH].
  - exists []. rewrite app_nil_r. repeat split. constructor.
  - destruct IH as (evs & Htr & Hm & Hch).
    apply do_tstep_inv in Hstep.
    destruct Hstep as (d & s1 & ic & init & s2 & kept & s3 & Hd & He & Hmb & Ha & Hc & Hi).
    set (e := mkEvent ts (c_datetime c) (if i_precip_now i then update_precip_deltas i d else i)
                (c_ss c) s2 kept) in *.
    assert (Hc1 : c_trace c1 = c_trace c ++ [e] /\ c_ss c1 = s3 /\
                  c_datetime c1 = (c_datetime c + ts_minutes ts)%Z).
    { destruct (ev_output_divided env).
      - apply output_inv in Hc. cbn in Hc. tauto.
      - subst c1. auto. }
    destruct Hc1 as (Ht & Hs & Hdt).
    exists (e :: evs). rewrite Htr, Ht, <- app_assoc. split; [reflexivity|].
    split; [simpl; congruence|].
    change (chain (e_before e) (e_start e) (e :: evs) (c_ss c2) (c_datetime c2)).
    rewrite Hs, Hdt in Hch.
    econstructor; [|exact Hch]. cbn. eapply averaged_same_snow; eassumption.
Qed.

Lemma exec_outputs_normal env ds l c i c' i' :
  ev_output_divided env = false -> exec env ds l c i c' i' -> c_outputs c' = c_outputs c.
Proof.
  intros Hm. induction 1; [reflexivity|].
  apply do_tstep_core in H. rewrite Hm in H. destruct H as (_ & _ & Ho & _).
  rewrite IHexec, Ho. apply app_nil_r.
Qed.

(** 'all' mode: one record per run step *)
Lemma exec_outputs_all env ds l c i c' i' :
  ev_output_divided env = true -> c_time_since_out c = 0%Z ->
  exec env ds l c i c' i' ->
  c_time_since_out c' = 0%Z /\
  exists evs, steps_between c c' evs /\
  c_outputs c' = c_outputs c ++
     map (fun e => mkOut (e_start e + ts_minutes (e_tstep e))%Z (value_to_bar (e_after e))) evs.
Proof.
  intros Hm H0. induction 1 as [c i j|ts l c i c1 i1 c2 i2 Hstep Hp H IH].
  - split; [assumption|]. exists []. split; [symmetry; apply app_nil_r|]. cbn. symmetry; apply app_nil_r.
  - apply do_tstep_inv in Hstep.
    destruct Hstep as (d & s1 & ic & init & s2 & kept & s3 & Hd & He & Hmb & Ha & Hc & Hi).
    unfold averaged in Ha. rewrite H0 in Ha. cbn in Ha.
    set (e := mkEvent ts (c_datetime c) (if i_precip_now i then update_precip_deltas i d else i)
                (c_ss c) s2 kept) in *.
    rewrite Hm in Hc. apply output_inv in Hc. cbn in Hc.
    destruct Hc as (Hs & Hdt & Htso & Ho & _ & Htr).
    destruct (IH Htso) as (IH1 & evs & Hev & Hout). split; [assumption|].
    exists (e :: evs). unfold steps_between in *. rewrite Hev, Htr, <- app_assoc.
    split; [reflexivity|]. rewrite Hout, Ho, <- app_assoc. subst s3. reflexivity.
Qed.

Lemma data_step_exec env t0 t1 t2 c i1 i2 c' :
  standard_info (ev_tstep_info env) t0 t1 t2 ->
  do_data_tstep env c i1 i2 = Ok c' ->
  exists ds l c1 i', input_deltas i1 i2 (ev_tstep_info env) = Ok ds /\
    exec env ds l c i1 c1 i' /\ schedule t0 t1 t2 l /\
    data_interval env ds t0 t1 t2 c i1 l c1 i' /\
    (if ev_output_divided env then c' = c1 else output c1 = Ok c').
Proof.
  intros Hstd H. destruct (data_step_refines _ _ _ _ _ _ _ _ Hstd H) as (ds & l & c1 & i' & Hds & Hdi & Ho).
  exists ds, l, c1, i'. split; [assumption|].
  destruct Hstd as (_ & _ & _ & L2 & _).
  split; [eapply data_interval_exec; eassumption|].
  split; [eapply data_interval_schedule; eassumption|]. split; assumption.
Qed.

Lemma data_step_clock env t0 t1 t2 c i1 i2 c' :
  standard_info (ev_tstep_info env) t0 t1 t2 ->
  do_data_tstep env c i1 i2 = Ok c' ->
  exists evs, steps_between c c' evs /\
    schedule t0 t1 t2 (map e_tstep evs) /\
    chain (c_ss c) (c_datetime c) evs (c_ss c') (c_datetime c') /\
    c_datetime c' = (c_datetime c + total_minutes (map e_tstep evs))%Z.
Proof.
  intros Hstd H. destruct (data_step_exec _ _ _ _ _ _ _ _ Hstd H) as (ds & l & c1 & i' & Hds & Hex & Hs & _ & Ho).
  destruct (exec_chain _ _ _ _ _ _ _ Hex) as (evs & Hev & Hl & Hch).
  pose proof (exec_clock _ _ _ _ _ _ _ Hex) as Hck. rewrite clock_total in Hck.
  exists evs. subst l.
  destruct (ev_output_divided env).
  - subst c'. auto.
  - apply output_inv in Ho. destruct Ho as (E1 & E2 & _ & _ & _ & E3).
    unfold steps_between. rewrite E1, E2, E3. auto.
Qed.

(** ** Durations *)
Lemma total_minutes_app (l1 l2 : list (TStep T)) :
  total_minutes (T:=T) (l1 ++ l2) = (total_minutes l1 + total_minutes l2)%Z.
Proof. induction l1; simpl; [reflexivity|]. rewrite IHl1. lia. Qed.

Lemma total_minutes_repeat ts n : total_minutes (repeat ts n) = (Z.of_nat n * ts_minutes ts)%Z.
Proof. induction n; [reflexivity|]. change (total_minutes (repeat ts (S n))) with (ts_minutes ts + total_minutes (repeat ts n))%Z. rewrite IHn. lia. Qed.

Lemma parse_eq cfg info :
  parse_time_steps cfg = Ok info ->
  (cfg_medium cfg <> 0 /\ cfg_small cfg <> 0)%Z /\
  info = [ mkTStep 0 (cfg_norm_thr cfg) (60 * cfg_norm cfg) (cfg_norm cfg) 1 1;
           mkTStep 1 (cfg_medium_thr cfg) (60 * cfg_medium cfg) (cfg_medium cfg)
                   (Z.quot (cfg_norm cfg) (cfg_medium cfg)) (Z.quot (cfg_norm cfg) (cfg_medium cfg));
           mkTStep 2 (cfg_small_thr cfg) (60 * cfg_small cfg) (cfg_small cfg)
                   (Z.quot (cfg_medium cfg) (cfg_small cfg)) (Z.quot (cfg_norm cfg) (cfg_small cfg)) ].
Proof.
  unfold parse_time_steps, int_div, min2sec.
  destruct (Z.eqb_spec (cfg_medium cfg) 0); [discriminate|].
  destruct (Z.eqb_spec (cfg_small cfg) 0); [discriminate|].
  cbn [bind]. intros H. injection H as <-. split; [auto|].
  rewrite !(Z.mul_comm _ 60). reflexivity.
Qed.

Lemma schedule_total_le (t0 t1 t2 : TStep T) (l : list (TStep T)) (n m s : Z) :
  (0 < n -> 0 < m -> 0 < s ->
  ts_minutes t0 = n -> ts_minutes t1 = m -> ts_minutes t2 = s ->
  ts_intervals t1 = Z.quot n m -> ts_intervals t2 = Z.quot m s ->
  schedule t0 t1 t2 l -> 0 <= total_minutes l <= n)%Z.
Proof.
  intros Hn Hm Hs E0 E1 E2 I1 I2 [->|(bs & -> & Hlen & Hf)].
  - cbn. lia.
  - assert (Hb : (0 <= total_minutes (List.concat bs) <= Z.of_nat (length bs) * m)%Z).
    { clear Hlen. induction Hf as [|b bs Hb Hf IH]; [cbn; lia|].
      cbn [List.concat length]. rewrite total_minutes_app.
      assert (0 <= total_minutes b <= m)%Z; [|lia].
      destruct Hb as [->| ->]; [cbn; lia|].
      rewrite total_minutes_repeat, E2, I2.
      rewrite Z2Nat.id by (apply Z.quot_pos; lia).
      rewrite Z.quot_div_nonneg by lia.
      pose proof (Z.div_pos m s). pose proof (Z.mul_div_le m s). nia. }
    rewrite Hlen, I1 in Hb. rewrite Z2Nat.id in Hb by (apply Z.quot_pos; lia).
    rewrite Z.quot_div_nonneg in Hb by lia.
    pose proof (Z.mul_div_le n m). nia.
Qed.

Lemma schedule_total_eq (t0 t1 t2 : TStep T) (l : list (TStep T)) (n m s : Z) :
  (0 < n -> 0 < m -> 0 < s -> (m | n) -> (s | m) ->
  ts_minutes t0 = n -> ts_minutes t1 = m -> ts_minutes t2 = s ->
  ts_intervals t1 = Z.quot n m -> ts_intervals t2 = Z.quot m s ->
  schedule t0 t1 t2 l -> total_minutes l = n)%Z.
Proof.
  intros Hn Hm Hs [a ->] [b ->] E0 E1 E2 I1 I2 [->|(bs & -> & Hlen & Hf)].
  - cbn. lia.
  - rewrite Z.quot_mul in I1 by lia. rewrite Z.quot_mul in I2 by lia.
    assert (Hb : total_minutes (List.concat bs) = (Z.of_nat (length bs) * (b * s))%Z).
    { clear Hlen. induction Hf as [|x bs Hb Hf IH]; [cbn; lia|].
      cbn [List.concat length]. rewrite total_minutes_app.
      assert (total_minutes x = b * s)%Z; [|lia].
      destruct Hb as [->| ->]; [cbn; lia|].
      rewrite total_minutes_repeat, E2, I2. rewrite Z2Nat.id by nia. reflexivity. }
    rewrite Hb, Hlen, I1. rewrite Z2Nat.id by nia. reflexivity.
Qed.

Definition divides_evenly cfg : Prop :=
  (0 < cfg_norm cfg /\ 0 < cfg_medium cfg /\ 0 < cfg_small cfg /\
   (cfg_medium cfg | cfg_norm cfg) /\ (cfg_small cfg | cfg_medium cfg))%Z.

Lemma clock_advance cfg env c i1 i2 c' :
  divides_evenly cfg -> parse_time_steps cfg = Ok (ev_tstep_info env) ->
  do_data_tstep env c i1 i2 = Ok c' ->
  c_datetime c' = (c_datetime c + cfg_norm cfg)%Z.
Proof.
  intros (Hn & Hm & Hs & D1 & D2) Hp H.
  destruct (parse_eq _ _ Hp) as (_ & Hinfo).
  assert (Hstd : standard_info (ev_tstep_info env)
    (mkTStep 0 (cfg_norm_thr cfg) (60 * cfg_norm cfg) (cfg_norm cfg) 1 1)
    (mkTStep 1 (cfg_medium_thr cfg) (60 * cfg_medium cfg) (cfg_medium cfg)
                   (Z.quot (cfg_norm cfg) (cfg_medium cfg)) (Z.quot (cfg_norm cfg) (cfg_medium cfg)))
    (mkTStep 2 (cfg_small_thr cfg) (60 * cfg_small cfg) (cfg_small cfg)
                   (Z.quot (cfg_medium cfg) (cfg_small cfg)) (Z.quot (cfg_norm cfg) (cfg_small cfg)))).
  { repeat split. exact Hinfo. }
  destruct (data_step_clock _ _ _ _ _ _ _ _ Hstd H) as (evs & _ & Hsch & _ & ->).
  f_equal. eapply schedule_total_eq with (m := cfg_medium cfg) (s := cfg_small cfg);
    try exact Hsch; try reflexivity; assumption.
Qed.

Lemma clock_advance_le cfg env c i1 i2 c' :
  (0 < cfg_norm cfg)%Z -> (0 < cfg_medium cfg)%Z -> (0 < cfg_small cfg)%Z ->
  parse_time_steps cfg = Ok (ev_tstep_info env) ->
  do_data_tstep env c i1 i2 = Ok c' ->
  exists evs, steps_between c c' evs /\
    c_datetime c' = (c_datetime c + fold_right Z.add 0 (map (fun e => ts_minutes (e_tstep e)) evs))%Z /\
    (c_datetime c <= c_datetime c' <= c_datetime c + cfg_norm cfg)%Z.
Proof.
  intros Hn Hm Hs Hp H.
  destruct (parse_eq _ _ Hp) as (_ & Hinfo).
  assert (Hstd : standard_info (ev_tstep_info env)
    (mkTStep 0 (cfg_norm_thr cfg) (60 * cfg_norm cfg) (cfg_norm cfg) 1 1)
    (mkTStep 1 (cfg_medium_thr cfg) (60 * cfg_medium cfg) (cfg_medium cfg)
                   (Z.quot (cfg_norm cfg) (cfg_medium cfg)) (Z.quot (cfg_norm cfg) (cfg_medium cfg)))
    (mkTStep 2 (cfg_small_thr cfg) (60 * cfg_small cfg) (cfg_small cfg)
                   (Z.quot (cfg_medium cfg) (cfg_small cfg)) (Z.quot (cfg_norm cfg) (cfg_small cfg)))).
  { repeat split. exact Hinfo. }
  destruct (data_step_clock _ _ _ _ _ _ _ _ Hstd H) as (evs & Hev & Hsch & _ & Hck).
  exists evs. split; [assumption|].
  assert (Hsum : fold_right Z.add 0%Z (map (fun e => ts_minutes (e_tstep e)) evs)
                 = total_minutes (map e_tstep evs)).
  { clear. induction evs; simpl; congruence. }
  rewrite Hsum. split; [assumption|].
  assert (0 <= total_minutes (map e_tstep evs) <= cfg_norm cfg)%Z; [|lia].
  eapply schedule_total_le with (m := cfg_medium cfg) (s := cfg_small cfg);
    try exact Hsch; try reflexivity; assumption.
Qed.

(** ** Outputs *)
Lemma outputs_normal env t0 t1 t2 c i1 i2 c' :
  standard_info (ev_tstep_info env) t0 t1 t2 -> ev_output_divided env = false ->
  do_data_tstep env c i1 i2 = Ok c' ->
  c_outputs c' = c_outputs c ++ [mkOut (c_datetime c') (c_ss c')] /\ c_time_since_out c' = 0%Z.
Proof.
  intros Hstd Hm H. destruct (data_step_exec _ _ _ _ _ _ _ _ Hstd H) as (ds & l & c1 & i' & Hds & Hex & Hs & _ & Ho).
  rewrite Hm in Ho. apply output_inv in Ho. destruct Ho as (E1 & E2 & E3 & E4 & _ & _).
  apply exec_outputs_normal in Hex; [|assumption]. rewrite E4, Hex, E1, E2. auto.
Qed.

Lemma outputs_all env t0 t1 t2 c i1 i2 c' :
  standard_info (ev_tstep_info env) t0 t1 t2 -> ev_output_divided env = true ->
  c_time_since_out c = 0%Z ->
  do_data_tstep env c i1 i2 = Ok c' ->
  c_time_since_out c' = 0%Z /\
  exists evs, steps_between c c' evs /\
    c_outputs c' = c_outputs c ++
     map (fun e => mkOut (e_start e + ts_minutes (e_tstep e))%Z (value_to_bar (e_after e))) evs.
Proof.
  intros Hstd Hm H0 H. destruct (data_step_exec _ _ _ _ _ _ _ _ Hstd H) as (ds & l & c1 & i' & Hds & Hex & Hs & _ & Ho).
  rewrite Hm in Ho. subst c1.
  eapply exec_outputs_all; eassumption.
Qed.

(** time since the last output is zero between data steps *)
Lemma reachable_tso env t0 t1 t2 ok c0 c :
  standard_info (ev_tstep_info env) t0 t1 t2 -> c_time_since_out c0 = 0%Z ->
  reachable_by ok env c0 c -> c_time_since_out c = 0%Z.
Proof.
  intros Hstd H0. induction 1 as [|c i1 i2 c' Hr IH Hok Hd]; [assumption|].
  destruct (ev_output_divided env) eqn:Hm.
  - eapply outputs_all in Hd; try eassumption. tauto.
  - eapply outputs_normal in Hd; try eassumption. tauto.
Qed.

Lemma init_tso p info ic mh m env c : snobal_init p info ic mh m = Ok (env, c) ->
  c_time_since_out c = 0%Z /\ c_datetime c = p_start_date p /\ c_outputs c = [] /\ c_trace c = [] /\
  ev_tstep_info env = info /\ ev_output_divided env = m /\ ev_heights env = mh /\
  ev_relative_hts env = false /\ c_hle1_init c = (None, None).
Proof.
  unfold snobal_init. intros H. inv_bind H as pa Hpa. inv_bind H as s Hs. inv_bind H as s1 Hs1.
  injection H as <- <-. cbn. repeat split.
Qed.

(** ** The recursion never runs out of fuel *)
Definition no_rl {A} (r : result A) : Prop := r <> Err RecursionLimit.

Lemma no_rl_ok {A} (a : A) : no_rl (Ok a). Proof. discriminate. Qed.
Lemma no_rl_bind {A B} (m : result A) (f : A -> result B) :
  no_rl m -> (forall a, m = Ok a -> no_rl (f a)) -> no_rl (bind m f).
Proof.
  unfold no_rl. destruct m as [a|e]; simpl; intros H1 H2; [apply H2; reflexivity|]. congruence.
Qed.
Lemma no_rl_pdiv (a b : T) : no_rl (pdiv a b).
Proof. unfold pdiv, no_rl. destruct (neqb b (nofZ 0)); discriminate. Qed.
Lemma no_rl_plog (a : T) : no_rl (plog a).
Proof. unfold plog, no_rl. destruct (nltb (nofZ 0) a); discriminate. Qed.
Lemma no_rl_psqrt (a : T) : no_rl (psqrt a).
Proof. unfold psqrt, no_rl. destruct (nltb a (nofZ 0)); discriminate. Qed.

Create HintDb nrl.
Hint Resolve no_rl_ok no_rl_pdiv no_rl_plog no_rl_psqrt : nrl.

Ltac nrl :=
  repeat first
    [ progress cbv beta zeta
    | solve [auto 1 with nrl nocore]
    | match goal with |- no_rl (Err ?e) => unfold no_rl; discriminate end
    | match goal with |- no_rl (bind _ _) => apply no_rl_bind; [|intros ? _] end
    | match goal with |- no_rl (if ?b then _ else _) => destruct b end
    | match goal with |- no_rl (match ?x with _ => _ end) => destruct x end ].

Lemma no_rl_satw (t : T) : no_rl (satw t). Proof. unfold satw. nrl. Qed.
Hint Resolve no_rl_satw : nrl.
Lemma no_rl_sati (t : T) : no_rl (sati t). Proof. unfold sati. nrl. Qed.
Hint Resolve no_rl_sati : nrl.
Lemma no_rl_spec_hum (e p : T) : no_rl (spec_hum e p). Proof. unfold spec_hum. nrl. Qed.
Hint Resolve no_rl_spec_hum : nrl.
Lemma no_rl_psi (z : T) k : no_rl (psi z k). Proof. unfold psi. nrl. Qed.
Hint Resolve no_rl_psi : nrl.
Lemma no_rl_psi_over (z : T) l k : no_rl (psi_over z l k). Proof. unfold psi_over. nrl. Qed.
Hint Resolve no_rl_psi_over : nrl.
Lemma no_rl_obukhov (x : flux_ctx T) s : no_rl (obukhov x s). Proof. unfold obukhov. nrl. Qed.
Lemma no_rl_converged (a b : option T) : no_rl (converged a b). Proof. unfold converged. nrl. Qed.
Hint Resolve no_rl_obukhov no_rl_converged : nrl.
Lemma no_rl_flux_body (x : flux_ctx T) s : no_rl (flux_body x s). Proof. unfold flux_body. nrl. Qed.
Hint Resolve no_rl_flux_body : nrl.
Lemma no_rl_flux_loop (x : flux_ctx T) n it s : no_rl (flux_loop x (S n) it s).
Proof.
  revert it s. induction n as [|n IH]; intros it s.
  - cbn [flux_loop]. nrl.
  - remember (S n) as m. cbn [flux_loop]. apply no_rl_bind; [apply no_rl_flux_body|].
    intros [s' stop] _. destruct stop; [apply no_rl_ok|]. subst m. apply IH.
Qed.
Lemma no_rl_gas (a b t : T) : no_rl (gas_density a b t). Proof. unfold gas_density. nrl. Qed.
Lemma no_rl_vt (a b t : T) : no_rl (virtual_temperature a b t). Proof. unfold virtual_temperature. nrl. Qed.
Hint Resolve no_rl_gas no_rl_vt : nrl.
Lemma no_rl_hle1 (a b e f g h k l m n : T) u v : no_rl (hle1 a b e f g h k l m n u v).
Proof.
  unfold hle1. nrl. change ITMAX with (S 49). apply no_rl_flux_loop.
Qed.
Hint Resolve no_rl_hle1 : nrl.
Lemma no_rl_mix (a b : T) : no_rl (mix_ratio a b). Proof. unfold mix_ratio. nrl. Qed.
Lemma no_rl_diff (a b : T) : no_rl (diffusion_coef a b). Proof. unfold diffusion_coef. nrl. Qed.
Lemma no_rl_vf (a b e f : T) : no_rl (vapor_flux a b e f). Proof. unfold vapor_flux. nrl. Qed.
Hint Resolve no_rl_mix no_rl_diff no_rl_vf : nrl.
Lemma no_rl_efcon (a b e : T) f : no_rl (efcon a b e f). Proof. unfold efcon. nrl. Qed.
Lemma no_rl_ssxfr (a b e f g h : T) : no_rl (ssxfr a b e f g h). Proof. unfold ssxfr. nrl. Qed.
Lemma no_rl_new_tsno (a b e : T) : no_rl (new_tsno a b e). Proof. unfold new_tsno. nrl. Qed.
Lemma no_rl_ta (a b e f : T) : no_rl (time_average a b e f). Proof. unfold time_average. nrl. Qed.
Hint Resolve no_rl_efcon no_rl_ssxfr no_rl_new_tsno no_rl_ta : nrl.
Lemma no_rl_input_data (r : RawInput T) : no_rl (input_data r). Proof. unfold input_data. nrl. Qed.
Hint Resolve no_rl_input_data : nrl.
Lemma no_rl_level_deltas (a b : InputData T) n : no_rl (level_deltas a b n). Proof. unfold level_deltas. nrl. Qed.
Hint Resolve no_rl_level_deltas : nrl.
Lemma no_rl_input_deltas (a b : InputData T) l : no_rl (input_deltas a b l).
Proof. induction l; cbn [input_deltas]; nrl; assumption. Qed.
Lemma no_rl_alt (s : SnowState T) : no_rl (adjust_layer_temps s). Proof. unfold adjust_layer_temps. nrl. Qed.
Lemma no_rl_dry (s : SnowState T) : no_rl (dry_snow_density s). Proof. unfold dry_snow_density. nrl. Qed.
Hint Resolve no_rl_alt no_rl_dry : nrl.
Lemma no_rl_ae (a b : Energy T) e f : no_rl (average_energy a b e f). Proof. unfold average_energy. nrl. Qed.
Hint Resolve no_rl_ae : nrl.
Lemma no_rl_sta (s : SnowState T) a b : no_rl (ss_time_average s a b). Proof. unfold ss_time_average. nrl. Qed.
Lemma no_rl_init_snow (s : SnowState T) : no_rl (init_snow s). Proof. unfold init_snow. nrl. Qed.
Hint Resolve no_rl_sta no_rl_init_snow : nrl.
Lemma no_rl_tc t (p : Pack T) : no_rl (time_compact t p).
Proof. unfold time_compact, compaction_increment, compaction_rate. nrl. Qed.
Lemma no_rl_pe i (p : Pack T) : no_rl (precip_event i p). Proof. unfold precip_event. nrl. Qed.
Lemma no_rl_refreeze (s : SnowState T) a b e : no_rl (refreeze s a b e). Proof. unfold refreeze. nrl. Qed.
Hint Resolve no_rl_tc no_rl_pe no_rl_refreeze : nrl.
Lemma no_rl_sm t (p : Pack T) : no_rl (snowmelt t p). Proof. unfold snowmelt. nrl. Qed.
Lemma no_rl_se (a b : T) t i s : no_rl (soil_evap a b t i s). Proof. unfold soil_evap. nrl. Qed.
Hint Resolve no_rl_sm no_rl_se : nrl.
Lemma no_rl_ec (a b : T) t i p : no_rl (evap_cond a b t i p). Proof. unfold evap_cond. nrl. Qed.
Lemma no_rl_hc i (p : Pack T) : no_rl (h2o_compact i p). Proof. unfold h2o_compact. nrl. Qed.
Lemma no_rl_ro (p : Pack T) : no_rl (runoff p). Proof. unfold runoff. nrl. Qed.
Hint Resolve no_rl_ec no_rl_hc no_rl_ro : nrl.
Lemma no_rl_mb (a b : T) t i p : no_rl (mass_balance a b t i p). Proof. unfold mass_balance. nrl. Qed.
Lemma no_rl_hle (a : T) b e f g h : no_rl (h_le a b e f g h). Proof. unfold h_le. nrl. Qed.
Lemma no_rl_gso (a b : T) e f g : no_rl (g_soil a b e f g). Proof. unfold g_soil. nrl. Qed.
Lemma no_rl_gsn (a : T) b : no_rl (g_snow a b). Proof. unfold g_snow. nrl. Qed.
Hint Resolve no_rl_mb no_rl_hle no_rl_gso no_rl_gsn : nrl.
Lemma no_rl_ht (a b : T) e f : no_rl (heat_transfer a b e f). Proof. unfold heat_transfer. nrl. Qed.
Lemma no_rl_ad a (b : InputData T) e : no_rl (advec a b e). Proof. unfold advec. nrl. Qed.
Hint Resolve no_rl_ht no_rl_ad : nrl.
Lemma no_rl_eb env t u i (s : SnowState T) : no_rl (energy_balance env t u i s).
Proof. unfold energy_balance. nrl. Qed.
Lemma no_rl_output (c : Core T) : no_rl (output c). Proof. unfold output. nrl. Qed.
Lemma no_rl_da ds k : no_rl (deltas_at (T:=T) ds k). Proof. unfold deltas_at. nrl. Qed.
Hint Resolve no_rl_eb no_rl_output no_rl_da : nrl.
Lemma no_rl_do_tstep env ds ts c i : no_rl (do_tstep env ds ts c i). Proof. unfold do_tstep. nrl. Qed.
Lemma no_rl_ta_at env k : no_rl (tstep_at env k). Proof. unfold tstep_at. nrl. Qed.
Hint Resolve no_rl_do_tstep no_rl_ta_at : nrl.

Lemma no_rl_iter lvl (body : DState T -> result (DState T)) n st :
  (forall st, d_level st = lvl -> no_rl (body st)) ->
  (forall st st', d_level st = lvl -> body st = Ok st' -> d_level st' = lvl) ->
  d_level st = lvl -> no_rl (iter_res n body st).
Proof.
  intros HB HP. revert st. induction n as [|n IH]; intros st Hl; cbn [iter_res]; [apply no_rl_ok|].
  apply no_rl_bind; [apply HB; assumption|]. intros st' Hst. apply IH. eapply HP; eassumption.
Qed.

Lemma iter_level lvl (body : DState T -> result (DState T)) n st st' :
  (forall st st', d_level st = lvl -> body st = Ok st' -> d_level st' = lvl) ->
  d_level st = lvl -> iter_res n body st = Ok st' -> d_level st' = lvl.
Proof.
  intros HP. revert st. induction n as [|n IH]; intros st Hl H; cbn [iter_res] in H.
  - injection H as <-. assumption.
  - inv_bind H as st1 H1. eapply IH; [|eassumption]. eapply HP; eassumption.
Qed.

(** divide_tstep returns one level up, whatever the configuration *)
Lemma divide_level f env ds st st' :
  divide_tstep f env ds st = Ok st' -> d_level st' = (d_level st - 1)%Z.
Proof.
  revert st st'. induction f as [|f IH]; intros st st' H; cbn [divide_tstep] in H; [discriminate|].
  inv_bind H as ts Hts. inv_bind H as i Hi. inv_bind H as st1 H1. inv_bind H as c Hc.
  injection H as <-. cbn [d_level]. f_equal.
  eapply iter_level in H1; [exact H1| |reflexivity].
  intros a b Ha Hb. destruct (negb _ && _).
  - apply IH in Hb. cbn [d_level] in Hb. lia.
  - inv_bind Hb as [c0 i0] H0. injection Hb as <-. exact Ha.
Qed.

Lemma divide_no_rl k env ds st :
  (d_level st = 2 - Z.of_nat k)%Z -> no_rl (divide_tstep (S k) env ds st).
Proof.
  revert st. induction k as [|k IH]; intros st Hl.
  - cbn [divide_tstep]. nrl. eapply (no_rl_iter 2).
    + intros s1 Hs1. rewrite Hs1. cbn [SMALL_TSTEP Z.eqb Pos.eqb negb andb]. nrl.
    + intros s1 s2 Hs1. rewrite Hs1. cbn [SMALL_TSTEP Z.eqb Pos.eqb negb andb]. intros H.
      inv_bind H as [c0 i0] H0. injection H as <-. reflexivity.
    + exact Hl.
  - remember (S k) as f eqn:Hf. cbn [divide_tstep]. nrl.
    eapply (no_rl_iter (2 - Z.of_nat f)%Z).
    + intros s1 Hs1. nrl. apply IH. cbn [d_level]. lia.
    + intros s1 s2 Hs1 H. destruct (negb _ && _).
      * apply divide_level in H. cbn [d_level] in H. lia.
      * inv_bind H as [c0 i0] H0. injection H as <-. exact Hs1.
    + exact Hl.
Qed.

Lemma data_step_no_rl env c i1 i2 : do_data_tstep env c i1 i2 <> Err RecursionLimit.
Proof.
  change (no_rl (do_data_tstep env c i1 i2)). unfold do_data_tstep.
  apply no_rl_bind; [apply no_rl_input_deltas|]. intros ds _.
  apply no_rl_bind; [apply divide_no_rl; reflexivity|]. intros; apply no_rl_ok.
Qed.
End SchedProps.
