(** * Theorems C06, C07, C09, C10, C11, C24: forcing inside a data step, means and totals
    in the output.  Over the real numbers.

    Hypotheses met: Witness.v and Witness2.v carry out a run (snow falls on bare ground, then an
    hour of still air over the new snow) that satisfies them. *)
From Coq Require Import Reals String ZArith Bool Lia Lra List.
Import ListNotations.
From Verif Require Import Num Real Constants Functions Libsnobal Input SnowState Snobal PySnobal
  SchedSpec Sched Frame SchedProps Spec Averages Forcing Phys Mass MassEnd RunMass Run.
Open Scope R_scope.

(** ** Vocabulary *)
(** what a run step actually applies of a precipitation amount *)
Definition applied (x : InputData R -> R) (e : Event R) : R :=
  if i_precip_now (e_input e) then x (e_input e) else 0.

(** the amounts of a record, as a user would compute them from its columns: total mass,
    mass of snow, mass of rain, depth of new snow *)
Definition rec_precip (r : RawInput R) : R := Rmax 0 (r_m_pp r).
Definition rec_snow (r : RawInput R) : R := rec_precip r * r_percent_snow r.
Definition rec_rain (r : RawInput R) : R := rec_precip r * (1 - r_percent_snow r).
Definition rec_depth (r : RawInput R) : R :=
  if Rlt_dec 0 (rec_snow r) then rec_snow r / r_rho_snow r else 0.

Lemma input_data_depth r i : input_data (T:=R) r = Ok i -> 0 < r_m_pp r ->
  if Rlt_dec 0 (r_m_pp r * r_percent_snow r)
  then i_z_snow i = r_m_pp r * r_percent_snow r / r_rho_snow r else i_z_snow i = 0.
Proof.
  intros H Hp. unfold input_data in H. consts. rn. destruct (Rltb_spec 0 (r_m_pp r)); [|lra].
  destruct (Rltb_spec 0 (r_m_pp r * r_percent_snow r)) as [Hs|Hs]; destruct (Rlt_dec 0 _); try lra.
  - destruct (Rltb 0 (r_rho_snow r)); [|discriminate]. cbn [bind] in H.
    repeat match type of H with context [if ?b then _ else _] => destruct b end; injection H as <-; reflexivity.
  - cbn [bind] in H.
    repeat match type of H with context [if ?b then _ else _] => destruct b end; injection H as <-; reflexivity.
Qed.

(** C06 *)
Theorem C06_precipitation_is_shared_out cfg env c r1 i1 i2 c' :
  divides_evenly cfg -> parse_time_steps cfg = Ok (ev_tstep_info env) ->
  input_data r1 = Ok i1 -> do_data_tstep env c i1 i2 = Ok c' ->
  exists evs, steps_between c c' evs /\
    sum_over (applied i_m_pp) evs = rec_precip r1 /\
    sum_over (applied i_m_snow) evs = rec_snow r1 /\
    sum_over (applied i_m_rain) evs = rec_rain r1 /\
    sum_over (applied i_z_snow) evs = rec_depth r1.
Proof.
  intros He Hp Hi Hd.
  destruct (even_interpolation cfg env i1 i2 c c' He Hp Hd) as (evs & Hev & Hok).
  assert (Hnow : forall e, In e evs -> i_precip_now (e_input e) = i_precip_now i1).
  { intros e Hin. apply in_split in Hin. destruct Hin as (a & b & E). destruct (Hok a e b E) as (_ & (C & _) & _). exact C. }
  exists evs. split; [assumption|].
  destruct (Rlt_dec 0 (r_m_pp r1)) as [Hpos|Hneg].
  - destruct (input_data_phase _ _ Hi Hpos) as (P1 & P2 & P3 & P4 & _).
    assert (E : forall x, In x precip_amounts -> sum_over (applied x) evs = x i1).
    { intros x Hx. destruct (even_precip cfg env r1 i1 i2 c c' He Hp Hd x Hi P1 Hx) as (evs' & Hev' & <-).
      rewrite (steps_between_unique _ _ _ _ Hev' Hev). apply sum_over_ext. intros e Hin. unfold applied.
      rewrite (Hnow e Hin), P1. reflexivity. }
    rewrite !E by (cbn; tauto). unfold rec_depth, rec_snow, rec_rain, rec_precip. rewrite Rmax_right by lra.
    split; [assumption|]. split; [assumption|]. split; [rewrite P3 in P4; lra|].
    pose proof (input_data_depth _ _ Hi Hpos) as Hz. destruct (Rlt_dec 0 (r_m_pp r1 * r_percent_snow r1)); assumption.
  - assert (E : forall x, sum_over (applied x) evs = 0).
    { intros x. destruct (input_data_dry _ _ Hi ltac:(lra)) as (E0 & _).
      rewrite (sum_over_ext _ (fun _ => 0)); [rewrite sum_over_const; ring|].
      intros e Hin. unfold applied. rewrite (Hnow e Hin), E0. reflexivity. }
    rewrite !E. unfold rec_depth, rec_snow, rec_rain, rec_precip. rewrite Rmax_left by lra.
    destruct (Rlt_dec 0 (0 * r_percent_snow r1)); repeat split; try ring. exfalso. lra.
Qed.


(** C07.  [x] at the start of a run step, on the line from record 1 to record 2. *)
Definition on_the_line (cfg : ModelCfg R) (c : Core R) (i1 i2 : InputData R) (x : InputData R -> R) (e : Event R) : Prop :=
  x (e_input e) = x i1 + (x i2 - x i1) * (IZR (e_start e - c_datetime c) / IZR (cfg_norm cfg)).

Theorem C07_forcing_is_interpolated_linearly cfg env c i1 i2 c' :
  divides_evenly cfg -> parse_time_steps cfg = Ok (ev_tstep_info env) ->
  do_data_tstep env c i1 i2 = Ok c' ->
  exists evs, steps_between c c' evs /\
    (forall e, In e evs ->
       on_the_line cfg c i1 i2 i_S_n e /\ on_the_line cfg c i1 i2 i_I_lw e /\ on_the_line cfg c i1 i2 i_t_a e /\
       on_the_line cfg c i1 i2 i_u e /\ on_the_line cfg c i1 i2 i_t_g e /\
       i_precip_now (e_input e) = i_precip_now i1 /\ i_t_rain (e_input e) = i_t_rain i1 /\
       i_t_snow (e_input e) = i_t_snow i1 /\ i_rho_snow (e_input e) = i_rho_snow i1 /\
       i_h2o_sat_snow (e_input e) = i_h2o_sat_snow i1) /\
    (** the vapour pressure starts at the record's value, moves by the same share in each run
        step, from the value clipped to saturation if there is snow *)
    vapour_follows i1 i2 (cfg_norm cfg) (i_e_a i1) evs /\
    (** hence it is on the line as long as it was not clipped *)
    (forall l e r, evs = l ++ e :: r -> (forall e', In e' l -> ~ clips e') -> on_the_line cfg c i1 i2 i_e_a e).
Proof.
  intros He Hp Hd. destruct (even_interpolation cfg env i1 i2 c c' He Hp Hd) as (evs & Hev & Hok).
  destruct (even_vapour cfg env i1 i2 c c' He Hp Hd) as (evs' & Hev' & Hv).
  rewrite (steps_between_unique _ _ _ _ Hev' Hev) in Hv.
  assert (Hn : 0 < IZR (cfg_norm cfg)) by (apply IZR_lt, He).
  exists evs. split; [assumption|]. split; [|split; [assumption|]].
  - intros e Hin. apply in_split in Hin. destruct Hin as (a & b & E). destruct (Hok a e b E) as (M & (C1 & C2) & _).
    assert (L : forall x, In x met_fields -> on_the_line cfg c i1 i2 x e).
    { intros x Hx. unfold on_the_line. rewrite (M x Hx). unfold linear. field. lra. }
    repeat split; (apply L || apply C2 || exact C1); cbn; tauto.
  - intros l e r E Hcl. destruct (Hok l e r E) as (_ & _ & _ & M). unfold on_the_line.
    rewrite (M Hcl). unfold linear. field. lra.
Qed.

(** ** C09 *)
(** The turbulent fluxes reported by a run step over snow are those [hle1] returns when it is
    given a vapour pressure that is at most saturation over ice at the air temperature: the
    record's own value if that is not above saturation, saturation otherwise. *)
Lemma reach_standard Q p cfg ic mh m env c : model_run Q p cfg ic mh m env c ->
  parse_time_steps cfg = Ok (ev_tstep_info env) /\ ev_output_divided env = m /\
  exists c0, reachable_by (made_from Q) env c0 c /\ c_trace c0 = [] /\ c_outputs c0 = [] /\ c_time_since_out c0 = 0%Z /\
    ev_heights env = mh.
Proof.
  intros (info & c0 & Hp & Hi & Hr). destruct (init_tso _ _ _ _ _ _ _ Hi) as (T0 & _ & O0 & Tr0 & Ei & Em & _).
  rewrite Ei. split; [assumption|]. split; [assumption|]. exists c0. repeat split; try assumption.
  unfold snobal_init in Hi. inv_bind Hi as pa Hpa. inv_bind Hi as s Hs. inv_bind Hi as s2 Hs2. injection Hi as <- <-. reflexivity.
Qed.

Lemma run_executes Q p cfg ic mh m env c : model_run Q p cfg ic mh m env c -> Forall (executes env) (c_trace c).
Proof.
  intros Hrun. destruct (reach_standard _ _ _ _ _ _ _ _ Hrun) as (Hp & _ & c0 & Hr & Ht & _).
  destruct (parse_standard _ _ Hp) as (t0 & t1 & t2 & Hstd).
  clear Hrun. induction Hr as [|c i1 i2 c' Hr IH Hok Hd]; [rewrite Ht; constructor|].
  destruct (data_step_clock _ _ _ _ _ _ _ _ Hstd Hd) as (evs & Hev & _).
  pose proof (data_step_executes _ _ _ _ _ _ _ _ _ Hstd Hd Hev) as Hf. unfold steps_between in Hev.
  rewrite Hev. apply Forall_app. auto.
Qed.

Theorem C09_vapour_pressure_is_clipped Q p cfg ic mh m env c :
  model_run Q p cfg ic mh m env c -> forall e, In e (c_trace c) -> has_snow (e_before e) = true ->
  exists ustar factor sat es r,
    sati (i_t_a (e_input e)) = Ok sat /\ sati (t_s_0 (e_before e)) = Ok es /\
    hle1 (ev_P_a env) (i_t_a (e_input e)) (t_s_0 (e_before e)) (mh_z_t mh - z_s (e_before e))
      (Rmin (i_e_a (e_input e)) sat) es (mh_z_t mh - z_s (e_before e))
      (i_u (e_input e)) (mh_z_u mh - z_s (e_before e)) (z_0 (e_before e)) ustar factor = Ok r /\
    H_ (en (e_after e)) = hr_h r /\ L_v_E (en (e_after e)) = hr_le r /\ E_flux (e_after e) = hr_e r.
Proof.
  intros Hrun e Hin Hs. pose proof (run_executes _ _ _ _ _ _ _ _ Hrun) as Hf. rewrite Forall_forall in Hf.
  assert (Hrel : ev_relative_hts env = false /\ ev_heights env = mh).
  { destruct Hrun as (info & c0 & _ & Hi & _). unfold snobal_init in Hi. inv_bind Hi as pa Hpa. inv_bind Hi as s Hs'.
    inv_bind Hi as s2 Hs2. injection Hi as <- <-. split; reflexivity. }
  destruct Hrel as (Hrel & Hmh).
  destruct (Hf e Hin) as (init & s1 & ic' & init1 & He & Hm).
  apply mass_balance_frame in Hm. destruct Hm as (_ & F1 & _ & F3 & _). cbn [fst] in F1, F3. rewrite F1, F3. clear F1 F3.
  unfold energy_balance in He. change (has_snow (set_h2o_total 0 (e_before e))) with (has_snow (e_before e)) in He.
  rewrite Hs in He. inv_bind He as [[[[h lve] ef] i3] init2] Hh. inv_bind He as [g g0] Hg. inv_bind He as mm Hmm.
  injection He as <- _ _. cbn [en E_flux set_E_flux set_en H_ L_v_E].
  unfold h_le in Hh. rewrite Hrel, Hmh in Hh. inv_bind Hh as sat Hsat. inv_bind Hh as es Hes. inv_bind Hh as r Hr.
  destruct (negb _); [discriminate|]. injection Hh as <- <- <- _ _.
  exists (fst init), (snd init), sat, es, r. split; [assumption|]. split; [exact Hes|]. split; [|auto].
  change (z_s (set_h2o_total 0 (e_before e))) with (z_s (e_before e)) in Hr.
  change (z_0 (set_h2o_total 0 (e_before e))) with (z_0 (e_before e)) in Hr.
  change (t_s_0 (set_h2o_total 0 (e_before e))) with (t_s_0 (e_before e)) in Hr.
  rewrite <- Hr. change (nltb sat (i_e_a (e_input e))) with (Rltb sat (i_e_a (e_input e))).
  destruct (Rltb_spec sat (i_e_a (e_input e))); cbn [set_e_a i_t_a i_e_a i_u].
  - rewrite Rmin_right by lra. reflexivity.
  - rewrite Rmin_left by lra. reflexivity.
Qed.

(** ** C10, C11, C24 *)
(** The executed run steps are cut into consecutive groups, one per output record: the group of
    a record are the run steps since the previous one. *)
Definition grouped (c : Core R) (P : SnowState R -> list (Event R) -> Prop) : Prop :=
  exists groups, concat groups = c_trace c /\
    Forall2 (fun o evs => evs <> [] /\ P (o_state o) evs) (c_outputs c) groups.

Lemma run_averages Q p cfg ic mh m env c : ordered_steps cfg -> model_run Q p cfg ic mh m env c ->
  exists groups, concat groups = c_trace c /\
    Forall2 (fun o evs => evs <> [] /\ holds_averages (o_state o) evs /\ Forall (fun e => closes (en (e_after e))) evs /\
      Forall (fun e => (0 < ts_time_step (e_tstep e))%Z) evs)
      (c_outputs c) groups.
Proof.
  intros Ho Hrun. destruct (reach_standard _ _ _ _ _ _ _ _ Hrun) as (Hp & _ & c0 & Hr & Ht & Hout & Htso & _).
  destruct (parse_eq _ _ Hp) as (_ & Hinfo).
  destruct (parse_standard _ _ Hp) as (t0 & t1 & t2 & Hstd). clear Hrun.
  pose proof Hstd as (Hi2 & _). rewrite Hinfo in Hi2. apply list3_inj in Hi2. destruct Hi2 as (E0 & E1 & E2).
  assert (P0 : (0 < ts_time_step t0)%Z) by (rewrite <- E0; cbn [ts_time_step]; unfold ordered_steps in Ho; lia).
  assert (P1 : (0 < ts_time_step t1)%Z) by (rewrite <- E1; cbn [ts_time_step]; unfold ordered_steps in Ho; lia).
  assert (P2 : (0 < ts_time_step t2)%Z) by (rewrite <- E2; cbn [ts_time_step]; unfold ordered_steps in Ho; lia).
  clear E0 E1 E2.
  induction Hr as [|c i1 i2 c' Hr IH Hok Hd]; [exists []; rewrite Ht, Hout; split; [reflexivity|constructor]|].
  destruct IH as (groups & Hc & Hg).
  destruct (data_step_clock _ _ _ _ _ _ _ _ Hstd Hd) as (evs & Hev & Hsch & _).
  pose proof (data_step_nonempty _ _ _ _ _ _ _ Ho Hp Hd Hev) as Hne.
  assert (Hpos : Forall (fun e => (0 < ts_time_step (e_tstep e))%Z) evs).
  { apply Forall_map with (f := e_tstep (T:=R)) (P := fun ts => (0 < ts_time_step ts)%Z).
    apply (schedule_steps t0 t1 t2); assumption. }
  assert (Hcl : Forall (fun e => closes (en (e_after e))) evs).
  { pose proof (data_step_executes _ _ _ _ _ _ _ _ _ Hstd Hd Hev) as Hf. eapply Forall_impl; [|exact Hf].
    intros e (init & s1 & ic' & init1 & He & Hm). apply mass_balance_frame in Hm. destruct Hm as (_ & F1 & _). cbn [fst] in F1.
    rewrite F1. eapply energy_balance_closes; eassumption. }
  assert (Ht0 : c_time_since_out c = 0%Z) by (eapply reachable_tso; eassumption).
  pose proof Hev as Hev0. unfold steps_between in Hev.
  destruct (ev_output_divided env) eqn:Hm.
  - destruct (outputs_all _ _ _ _ _ _ _ _ Hstd Hm Ht0 Hd) as (_ & evs' & Hev' & Hout').
    rewrite <- (steps_between_unique _ _ _ _ Hev0 Hev') in Hout'. clear evs' Hev'.
    exists (groups ++ map (fun e => [e]) evs). split.
    + rewrite concat_app, Hc, Hev. f_equal. clear. induction evs; cbn; [reflexivity|]. f_equal. assumption.
    + rewrite Hout'. apply Forall2_app; [assumption|]. clear - Hpos Hcl.
      induction evs as [|e evs IH]; cbn [map]; [constructor|]. inversion Hpos; inversion Hcl; subst. constructor; [|auto].
      split; [discriminate|]. cbn [o_state]. split; [apply value_to_bar_averages; assumption|]. auto.
  - destruct (outputs_normal _ _ _ _ _ _ _ _ Hstd Hm Hd) as (Hout' & _).
    destruct (normal_averages _ _ _ _ _ _ _ _ Hstd P0 P1 P2 Hm Ht0 Hd) as (evs' & Hev' & Ha).
    rewrite <- (steps_between_unique _ _ _ _ Hev0 Hev') in Ha. destruct Ha as [->|Ha]; [congruence|].
    exists (groups ++ [evs]). split.
    + rewrite concat_app, Hc, Hev. cbn [concat]. rewrite app_nil_r. reflexivity.
    + rewrite Hout'. apply Forall2_app; [assumption|]. constructor; [|constructor]. cbn [o_state]. auto.
Qed.

Lemma Forall2_weaken {A B} (P P' : A -> B -> Prop) l l' :
  (forall a b, P a b -> P' a b) -> Forall2 P l l' -> Forall2 P' l l'.
Proof. intros H. induction 1; constructor; auto. Qed.

Theorem C10_energy_columns_are_time_weighted_means Q p cfg ic mh m env c :
  ordered_steps cfg -> model_run Q p cfg ic mh m env c ->
  grouped c (fun s evs => 0 < sum_over seconds evs /\ forall f, In f energy_terms ->
    f (bar s) = sum_over (fun e => f (en (e_after e)) * seconds e) evs / sum_over seconds evs).
Proof.
  intros Ho Hrun. destruct (run_averages _ _ _ _ _ _ _ _ Ho Hrun) as (g & Hc & Hf). exists g. split; [assumption|].
  eapply Forall2_weaken; [|exact Hf]. cbn. intros o evs (Hne & (Ha & _) & _ & Hpos). split; [assumption|]. split; [|exact Ha].
  destruct evs as [|e evs]; [congruence|]. inversion Hpos as [|? ? H1 H2]; subst. cbn [sum_over fold_right].
  assert (0 < seconds e) by (apply IZR_lt; assumption).
  assert (0 <= fold_right (fun x a => seconds x + a) 0 evs); [|lra]. clear - H2.
  induction H2 as [|x l Hx Hl IH]; cbn; [lra|]. apply IZR_lt in Hx. unfold seconds at 1. lra.
Qed.

Theorem C11_mass_columns_are_totals Q p cfg ic mh m env c :
  ordered_steps cfg -> model_run Q p cfg ic mh m env c ->
  grouped c (fun s evs =>
    melt_sum s = sum_over (fun e => melt (e_after e)) evs /\
    E_s_sum s = sum_over (fun e => E_s (e_after e)) evs /\
    swi_sum s = Some (sum_over (fun e => swi (e_after e)) evs)).
Proof.
  intros Ho Hrun. destruct (run_averages _ _ _ _ _ _ _ _ Ho Hrun) as (g & Hc & Hf). exists g. split; [assumption|].
  eapply Forall2_weaken; [|exact Hf]. cbn. intros o evs (Hne & (_ & Ha) & _). auto.
Qed.

Theorem C24_energy_budget_closes Q p cfg ic mh m env c :
  ordered_steps cfg -> model_run Q p cfg ic mh m env c ->
  forall o, In o (c_outputs c) -> let b := bar (o_state o) in
    delta_Q_0 b = R_n b + H_ b + L_v_E b + G_0 b + M_ b /\
    delta_Q b = R_n b + H_ b + L_v_E b + G_ b + M_ b.
Proof.
  intros Ho Hrun. destruct (run_averages _ _ _ _ _ _ _ _ Ho Hrun) as (g & Hc & Hf). clear Hc.
  induction Hf as [|o evs os gs H1 Hf IH]; intros x Hx; [destruct Hx|]. destruct Hx as [Hx|Hx].
  - subst x. destruct H1 as (_ & Ha & Hcl & _). exact (averages_close _ _ Ha Hcl).
  - apply IH. assumption.
Qed.
