(** * Theorems C73, C74: what the input and output files together say about a whole run.

    A file is a list of lines, a line is a date and named cells ([Line], [num] of Thm_Modes). *)
From Coq Require Import Reals String ZArith Bool Lia Lra Sorted List.
Import ListNotations.
From Verif Require Import Num Real Constants Functions Libsnobal Input SnowState Snobal PySnobal
  SchedSpec Sched Frame SchedProps Spec Averages Forcing Phys Mass MassEnd RunMass Run Strip Modes
  Thm_Schedule Thm_Forcing Thm_Mass Thm_Api Thm_Modes.
Open Scope R_scope.

(** the initial snow cover [kg/m2]: none if not heavier than the smallest threshold *)
Definition initial_mass (cfg : ModelCfg R) (ic : InitSnow R) : R :=
  if Rlt_dec 0 (is_z_s ic) then if Rlt_dec (cfg_small_thr cfg) (is_rho ic * is_z_s ic) then is_rho ic * is_z_s ic else 0 else 0.

Definition final (k : string) (out : list Line) : R := num k (last out (0%Z, [])).
Definition total (k : string) (out : list Line) : R := sum_over (num k) out.

(** precipitation of all records but the last, which ends the run (C65) *)
Definition total_precipitation (used : list (CsvRow (T:=R))) : R :=
  sum_over (fun r => Rmax 0 (r_m_pp (snd r))) (removelast used).

Lemma prepare_valid row : valid_record (snd row) -> valid_record (snd (prepare_row (T:=R) row)).
Proof. intros [V1 V2]. destruct row as (d, r). split; assumption. Qed.

Lemma used_valid start_date end_date rows used : Forall (fun row => valid_record (snd row)) rows ->
  read_input_data (T:=R) start_date end_date rows = Ok used -> Forall (fun row => valid_record (snd row)) used.
Proof.
  intros Hf H. unfold read_input_data in H. inv_bind H as cl Hc. injection H as <-.
  apply Forall_map. apply Forall_forall. intros x Hx. apply prepare_valid.
  unfold clip_rows in Hc. destruct rows as [|r0 [|r1 rest]]; try discriminate. injection Hc as <-.
  apply filter_In in Hx. destruct Hx as (Hx & _).
  apply (Permutation.Permutation_in x (Permutation.Permutation_sym (sort_perm fst (r0 :: r1 :: rest)))) in Hx.
  rewrite Forall_forall in Hf. auto.
Qed.

Lemma init_mass p cfg info ic mh m env c0 : valid_setup p cfg ic -> parse_time_steps cfg = Ok info ->
  snobal_init p info ic mh m = Ok (env, c0) -> m_s (c_ss c0) = initial_mass cfg ic.
Proof.
  intros [_ V1 V2 V3 V4 V5 V6] Hp H. unfold snobal_init in H.
  inv_bind H as pa Hpa. inv_bind H as s Hs. inv_bind H as s1 Hs1. injection H as <- <-. cbn [c_ss].
  destruct (parse_eq _ _ Hp) as (_ & ->). unfold create_snow_state in Hs.
  change (Z.to_nat SMALL_TSTEP) with 2%nat in Hs. cbn [nth_error ts_threshold] in Hs. injection Hs as <-.
  match type of Hs1 with init_snow ?x = _ => set (s := x) in * end.
  assert (Hpo : params_ok s) by (split; assumption). unfold initial_mass.
  destruct (init_snow_spec s s1 Hpo Hs1) as [F|(G & T & _)].
  - pose proof (packed_z_pos _ (fr_packed _ _ F)) as Hpos. rewrite (fr_z _ _ F) in Hpos.
    pose proof (fr_thr _ _ F) as Ht. rewrite (fr_m _ _ F).
    change (z_s s) with (is_z_s ic) in *. change (rho s) with (is_rho ic) in *. change (small_threshold s) with (cfg_small_thr cfg) in *.
    destruct (Rlt_dec 0 (is_z_s ic)); [|lra]. destruct (Rlt_dec (cfg_small_thr cfg) (is_rho ic * is_z_s ic)); [reflexivity|lra].
  - rewrite (br_m _ (gn_bare _ _ _ G)).
    change (z_s s) with (is_z_s ic) in *. change (rho s) with (is_rho ic) in *. change (small_threshold s) with (cfg_small_thr cfg) in *.
    destruct (Rlt_dec 0 (is_z_s ic)); [|reflexivity]. destruct (Rlt_dec (cfg_small_thr cfg) (is_rho ic * is_z_s ic)); [lra|reflexivity].
Qed.

Lemma even_ordered cfg : divides_evenly (T:=R) cfg -> ordered_steps cfg.
Proof.
  intros (H1 & H2 & H3 & H4 & H5). repeat split; try assumption; apply Z.divide_pos_le; assumption.
Qed.

Section Steps.
Variable Q : RawInput R -> Prop.
Variables (p : Params R) (cfg : ModelCfg R) (ic : InitSnow R) (mh : Heights R) (all_mode : bool) (env : Env R).
Hypothesis HQ : forall r, Q r -> valid_record r.
Hypothesis Hv : valid_setup p cfg ic.
Hypothesis Hdiv : divides_evenly cfg.

Lemma run_precip raws : forall c i1 r1 c', model_run Q p cfg ic mh all_mode env c -> Q r1 -> Forall Q raws ->
  input_data r1 = Ok i1 -> run_steps env c i1 raws = Ok c' ->
  exists evs, steps_between c c' evs /\
    sum_over precip evs = sum_over (fun r => Rmax 0 (r_m_pp r)) (removelast (r1 :: raws)) /\ model_run Q p cfg ic mh all_mode env c'.
Proof using HQ Hv Hdiv.
  induction raws as [|r2 raws IH]; intros c i1 r1 c' Hrun Hq Hf Hi H; cbn [run_steps] in H.
  - injection H as <-. exists []. unfold steps_between. rewrite app_nil_r. auto.
  - inv_bind H as i2 Hi2. inv_bind H as c1 Hc1. inversion Hf as [|? ? Hq2 Hf2]; subst.
    pose proof Hrun as (info & c0 & Hp & Hin & _). destruct (init_tso _ _ _ _ _ _ _ Hin) as (_ & _ & _ & _ & Ei & _).
    subst info. destruct (parse_standard _ _ Hp) as (t0 & t1 & t2 & Hstd).
    destruct (data_step_clock _ _ _ _ _ _ _ _ Hstd Hc1) as (ev1 & Hev1 & _).
    pose proof (data_step_precip Q p cfg ic mh all_mode env HQ Hv _ _ _ _ _ _ Hdiv Hrun Hq Hi Hc1 Hev1) as Hpp.
    assert (Hrun1 : model_run Q p cfg ic mh all_mode env c1).
    { eapply run_step_run; [exact Hrun| |exact Hc1]. exists r1. auto. }
    destruct (IH c1 i2 r2 c' Hrun1 Hq2 Hf2 Hi2 H) as (ev2 & Hev2 & Hs2 & Hr2).
    exists (ev1 ++ ev2). unfold steps_between in *. rewrite Hev2, Hev1, app_assoc. split; [reflexivity|]. split; [|assumption].
    rewrite sum_over_app, Hpp, Hs2. change (removelast (r1 :: r2 :: raws)) with (r1 :: removelast (r2 :: raws)). reflexivity.
Qed.

Lemma normal_outputs raws : all_mode = false -> forall c i1 c', configured cfg env -> ev_output_divided env = all_mode ->
  run_steps env c i1 raws = Ok c' -> exists new, c_outputs c' = c_outputs c ++ new /\ length new = length raws /\
    (raws <> [] -> exists pre, new = pre ++ [mkOut (c_datetime c') (c_ss c')]).
Proof using.
  intros Em. induction raws as [|r2 raws IH]; intros c i1 c' Hc Hm H; cbn [run_steps] in H.
  - injection H as <-. exists []. rewrite app_nil_r. repeat split. congruence.
  - inv_bind H as i2 Hi2. inv_bind H as c1 Hc1.
    pose proof (C03_one_record_per_data_step cfg env c i1 i2 c1 Hc ltac:(congruence) Hc1) as E1.
    destruct (IH c1 i2 c' Hc Hm H) as (new & E & L & La). rewrite E, E1, <- app_assoc.
    exists ([mkOut (c_datetime c1) (c_ss c1)] ++ new). split; [reflexivity|]. split; [cbn; lia|]. intros _.
    destruct raws as [|r3 raws].
    + cbn [run_steps] in H. injection H as <-. destruct new; [|cbn in L; lia]. exists []. reflexivity.
    + destruct La as (pre & ->); [discriminate|]. eexists (_ :: pre). reflexivity.
Qed.
End Steps.

(** C73, one record per data step *)
Lemma water_budget_normal p end_date cfg ic mh rows out :
  valid_setup p cfg ic -> divides_evenly cfg -> Forall (fun row => valid_record (snd row)) rows ->
  pysnobal_run p end_date cfg ic mh false rows = Ok out ->
  exists used, read_input_data (p_start_date p) end_date rows = Ok used /\
    initial_mass cfg ic + total_precipitation used + total "E_s" out <= final "m_s" out + total "swi" out.
Proof.
  intros Hv Hdiv Hf H.
  destruct (C40_number_and_dates_of_results p end_date cfg ic mh rows out Hdiv H) as (used' & Hu' & _ & _ & Hdates).
  destruct (pysnobal_run_inv _ _ _ _ _ _ _ _ H)
    as (info & used & i1 & r0 & rest & env & c0 & c & Hi & Hu & Eu & _ & Hi1 & Hinit & Hrun & Hne & Eo).
  exists used. split; [assumption|].
  pose proof (used_valid _ _ _ _ Hf Hu) as Hval. rewrite Eu in Hval. inversion Hval as [|? ? Hv0 Hvr]; subst x l.
  set (Q := valid_record). assert (HQ : forall r, Q r -> valid_record r) by auto.
  assert (Hvr' : Forall Q (map snd rest)) by (apply Forall_map; exact Hvr).
  assert (Hm0 : model_run Q p cfg ic mh false env c0) by (exists info, c0; split; [assumption|]; split; [assumption|constructor]).
  destruct (init_tso _ _ _ _ _ _ _ Hinit) as (_ & Hdt & Ho & Htr & Ei & Em & _).
  assert (Hcfg : configured cfg env) by (unfold configured; rewrite Ei; assumption).
  destruct (run_precip Q p cfg ic mh false env HQ Hv Hdiv (map snd rest) c0 i1 (snd r0) c Hm0 Hv0 Hvr' Hi1 Hrun) as (evs & Hev & Hpp & Hmr).
  unfold steps_between in Hev. rewrite Htr in Hev. cbn [app] in Hev.
  destruct Hmr as (info' & c0' & Hp' & Hin' & Hreach).
  assert (Hreach0 : reachable_by (made_from Q) env c0 c) by (eapply run_steps_reachable; eassumption).
  pose proof (C46_water_is_never_lost_in_a_run Q p cfg ic mh false env HQ Hv c info c0 Hi Hinit Hreach0) as HW.
  rewrite (init_mass _ _ _ _ _ _ _ _ Hv Hi Hinit) in HW.
  assert (Htp : total_precipitation used = sum_over precip (c_trace c)).
  { rewrite Hev, Hpp. unfold total_precipitation. rewrite Eu. change (snd r0 :: map snd rest) with (map snd (r0 :: rest)).
    clear. generalize (r0 :: rest). intros l. rewrite <- (sum_over_map snd (fun r => Rmax 0 (r_m_pp r))). f_equal.
    induction l as [|a l IH]; [reflexivity|]. destruct l as [|b l]; [reflexivity|].
    change (removelast (a :: b :: l)) with (a :: removelast (b :: l)). cbn [map]. 
    change (removelast (snd a :: snd b :: map snd l)) with (snd a :: removelast (map snd (b :: l))). rewrite <- IH. reflexivity. }
  rewrite Htp.
  (* the totals *)
  assert (Hmr : model_run Q p cfg ic mh false env c) by (exists info, c0; auto).
  destruct (run_averages Q p cfg ic mh false env c (even_ordered _ Hdiv) Hmr) as (groups & Hg & Hg2).
  assert (Htot : forall k, In k total_columns -> total k (map line (c_outputs c)) = sum_over (fun e => mass_of k (e_after e)) (c_trace c)).
  { intros k Hk. rewrite <- Hg. clear - Hg2 Hk. unfold total. induction Hg2 as [|o ev os gs (_ & Ha & _) Hf IH]; [reflexivity|].
    cbn [map concat]. rewrite sum_over_app, <- IH. unfold sum_over at 1. cbn [fold_right]. f_equal.
    unfold num, line. rewrite (total_cell _ _ _ _ Hk Ha). reflexivity. }
  assert (Hsort : sort_by o_date (c_outputs c) = c_outputs c).
  { destruct (run_steps_dates cfg env Hdiv Hcfg Em _ _ _ _ Hrun) as (outs & E & Ed).
    rewrite Ho in E. cbn in E. rewrite E. apply sort_id, sorted_by_map. rewrite Ed.
    apply every_sorted. destruct Hdiv; lia. }
  rewrite Hsort in Eo. change (out = map line (c_outputs c)) in Eo.
  rewrite Eo, (Htot "E_s"%string), (Htot "swi"%string) by (cbn; tauto).
  assert (Hfin : final "m_s" (map line (c_outputs c)) = m_s (c_ss c)).
  { destruct (normal_outputs cfg false env (map snd rest) eq_refl c0 i1 c Hcfg Em Hrun) as (new & E & L & La).
    rewrite Ho in E. cbn [app] in E. destruct rest as [|r1 rest].
    - exfalso. destruct new; [|cbn in L; lia]. congruence.
    - destruct La as (pre & ->); [discriminate|]. rewrite E, map_app. unfold final. cbn [map]. rewrite last_last.
      unfold num, cell, line. cbn [snd o_state]. rewrite C43_columns. reflexivity. }
  rewrite Hfin. exact HW.
Qed.

(** the two output modes give the same totals and end *)
Lemma summary_totals k d fine coarse : In k total_columns -> summary_of d fine coarse -> total k coarse = total k fine.
Proof.
  intros Hk. induction 1 as [|d ls r fine coarse (_ & _ & _ & _ & Ht & _) Hs IH]; [reflexivity|].
  unfold total in *. rewrite sum_over_app, <- IH. unfold sum_over at 1. cbn [fold_right]. f_equal.
  unfold num at 1. rewrite (Ht k Hk). reflexivity.
Qed.
Lemma last_default {A} (l : list A) a b : l <> [] -> last l a = last l b.
Proof.
  induction l as [|x l IH]; [congruence|]. intros _. destruct l as [|y l]; [reflexivity|].
  change (last (y :: l) a = last (y :: l) b). apply IH. discriminate.
Qed.
Lemma last_app_ne {A} (l m : list A) a : m <> [] -> last (l ++ m) a = last m a.
Proof.
  intros Hm. induction l as [|x l IH]; [reflexivity|]. cbn [app]. rewrite <- IH. destruct l; cbn; destruct m; congruence.
Qed.
Lemma summary_final k d fine coarse : In k state_columns -> summary_of d fine coarse -> final k coarse = final k fine.
Proof.
  intros Hk. induction 1 as [|d ls r fine coarse (Hn & _ & _ & Hst & _) Hs IH]; [reflexivity|].
  pose proof (summary_nonempty _ _ _ Hs) as N. unfold final in *. destruct coarse as [|r2 coarse].
  - rewrite (proj2 N eq_refl), app_nil_r. cbn [last]. unfold num. rewrite (Hst k Hk), (last_default ls r (0%Z, []) Hn). reflexivity.
  - assert (fine <> []) by (intros E; apply N in E; discriminate).
    rewrite last_app_ne by assumption. rewrite <- IH. reflexivity.
Qed.

(** ** C73 *)
(** The water of the whole run, read off the files: the initial snow, the precipitation of the
    records used (all but the last, which only ends the run) and what condenses ([E_s] column)
    are all in the final snow cover or in the runoff column; nothing is lost. *)
Theorem C73_water_budget_of_the_files p end_date cfg ic mh all_mode rows out :
  valid_setup p cfg ic -> divides_evenly cfg -> Forall (fun row => valid_record (snd row)) rows ->
  pysnobal_run p end_date cfg ic mh all_mode rows = Ok out ->
  exists used, read_input_data (p_start_date p) end_date rows = Ok used /\
    initial_mass cfg ic + total_precipitation used + total "E_s" out <= final "m_s" out + total "swi" out.
Proof.
  intros Hv Hdiv Hf H. pose proof (C63_output_mode_only_selects p end_date cfg ic mh rows (even_ordered _ Hdiv)) as HM.
  destruct all_mode; [|exact (water_budget_normal p end_date cfg ic mh rows out Hv Hdiv Hf H)].
  rewrite H in HM. destruct (pysnobal_run p end_date cfg ic mh false rows) as [coarse|x] eqn:E; [|contradiction]. cbn in HM.
  destruct (water_budget_normal p end_date cfg ic mh rows coarse Hv Hdiv Hf E) as (used & Hu & HW).
  exists used. split; [assumption|].
  rewrite <- !(fun k Hk => summary_totals k _ _ _ Hk HM) by (cbn; tauto).
  rewrite <- (summary_final "m_s" _ _ _ ltac:(cbn; tauto) HM). exact HW.
Qed.

(** ** C74 *)
(** the state before the first run step, as a line *)
Definition start_line (p : Params R) (cfg : ModelCfg R) (ic : InitSnow R) : Line :=
  (p_start_date p, [("m_s"%string, Some (initial_mass cfg ic))]).

(** [r] is the record in force between the lines [a] and [b] *)
Definition in_force (p : Params R) (cfg : ModelCfg R) (used : list (CsvRow (T:=R))) (a b : Line) (r : RawInput R) : Prop :=
  exists k d, nth_error used k = Some (d, r) /\
    (p_start_date p + Z.of_nat k * cfg_norm cfg <= fst a < fst b)%Z /\
    (fst b <= p_start_date p + (Z.of_nat k + 1) * cfg_norm cfg)%Z.

(** precipitation between two lines: the record's, in proportion to the time between them *)
Definition share (cfg : ModelCfg R) (r : RawInput R) (a b : Line) : R :=
  Rmax 0 (r_m_pp r) * (IZR (fst b - fst a) / IZR (cfg_norm cfg)).

(** between consecutive lines *)
Definition balanced p cfg used (a b : Line) : Prop := exists r, in_force p cfg used a b r /\
  num "m_s" a + share cfg r a b + num "E_s" b <= num "m_s" b + num "swi" b /\
  (cfg_small_thr cfg < num "m_s" a -> 0 < num "m_s" b ->
     num "m_s" b = num "m_s" a + share cfg r a b + num "E_s" b - num "swi" b) /\
  Rmax 0 (num "m_s" b) <= Rmax 0 (num "m_s" a) + share cfg r a b + Rmax 0 (num "E_s" b).

Fixpoint linked (P : Line -> Line -> Prop) (a : Line) (ls : list Line) : Prop :=
  match ls with [] => True | b :: rest => P a b /\ linked P b rest end.
Lemma linked_app P l1 : forall a l2, linked P a l1 -> linked P (last l1 a) l2 -> linked P a (l1 ++ l2).
Proof.
  induction l1 as [|b l1 IH]; intros a l2 H1 H2; [exact H2|]. destruct H1 as (H0 & H1). split; [exact H0|]. apply IH; [exact H1|].
  destruct l1 as [|x l1]; [exact H2|]. rewrite (last_default (x :: l1) b a) by discriminate. exact H2.
Qed.
Lemma linked_pair P ls : forall a, linked P a ls -> forall pre x y post, a :: ls = pre ++ x :: y :: post -> P x y.
Proof.
  induction ls as [|b ls IH]; intros a H pre x y post E.
  - destruct pre as [|z [|w pre]]; discriminate.
  - destruct H as (H0 & H1). destruct pre as [|z pre]; cbn [app] in E.
    + injection E as -> -> ->. exact H0.
    + injection E as -> E. exact (IH b H1 pre x y post E).
Qed.

(** what is known of each run step of data step [k] *)
Definition step_facts (cfg : ModelCfg R) (start : Z) (r : RawInput R) (e : Event R) : Prop :=
  (start <= e_start e)%Z /\ (0 < ts_minutes (e_tstep e))%Z /\ (e_start e + ts_minutes (e_tstep e) <= start + cfg_norm cfg)%Z /\
  precip e = Rmax 0 (r_m_pp r) * (IZR (ts_minutes (e_tstep e)) / IZR (cfg_norm cfg)).

Lemma chain_times s t evs s' t' : chain (T:=R) s t evs s' t' -> Forall (fun e => (0 < ts_minutes (e_tstep e))%Z) evs ->
  (t <= t')%Z /\ Forall (fun e => (t <= e_start e /\ e_start e + ts_minutes (e_tstep e) <= t')%Z) evs.
Proof.
  induction 1 as [s t|e evs s1 s' t' Hs Hch IH]; intros Hf; [split; [lia|constructor]|].
  inversion Hf as [|? ? H0 Hf']; subst. destruct (IH Hf') as (A & B). split; [lia|]. constructor; [lia|].
  eapply Forall_impl; [|exact B]. cbn. intros; lia.
Qed.

(** a run step adds no more snow than falls and condenses *)
Lemma mass_gained (Q : RawInput R -> Prop) p cfg ic mh all_mode env c : (forall r, Q r -> valid_record r) -> valid_setup p cfg ic ->
  model_run Q p cfg ic mh all_mode env c -> forall e, In e (c_trace c) ->
  Rmax 0 (m_s (e_after e)) <= Rmax 0 (m_s (e_before e)) + precip e + Rmax 0 (E_s (e_after e)).
Proof.
  intros HQ Hv Hrun e He.
  destruct (event_facts Q p cfg ic mh all_mode env c HQ Hv Hrun e He) as (_ & _ & O & _).
  pose proof (event_input Q p cfg ic mh all_mode env c HQ Hv Hrun e He) as V.
  pose proof (precip_nonneg Q p cfg ic mh all_mode env c HQ Hv Hrun e He) as Hpp.
  destruct (C19_water_is_not_negative Q p cfg ic mh all_mode env c HQ Hv Hrun (e_after e)) as (Hw & _); [left; exists e; auto|].
  pose proof (Rmax_l 0 (m_s (e_before e))). pose proof (Rmax_r 0 (m_s (e_before e))).
  pose proof (Rmax_l 0 (E_s (e_after e))). pose proof (Rmax_r 0 (E_s (e_after e))).
  assert (Hbare : bare (e_after e) -> m_s (e_after e) <= 0) by (intros B; rewrite (br_m _ B); lra).
  assert (Hnew : new_pack (e_input e) (e_after e) -> m_s (e_after e) <= precip e).
  { intros Hn. destruct (np_precip _ _ Hn) as (En & _). rewrite (np_m _ _ Hn). unfold precip. rewrite En. destruct (V En). lra. }
  apply Rmax_lub; [lra|].
  destruct O as [(_ & _ & _ & [(_ & K)|(_ & mc & w & K)])|(_ & _ & _ & _ & _ & _ & Hc)].
  - pose proof (ps_mass _ _ _ K) as M. change (precip_of (e_input e)) with (precip e) in M. lra.
  - destruct (cl_end _ _ _ _ _ K) as [(B & _)|(Hn & _)]; [apply Hbare in B|apply Hnew in Hn]; lra.
  - destruct Hc as [(B & _)|[(B & _)|(Hn & _)]]; [apply Hbare in B|apply Hbare in B|apply Hnew in Hn]; lra.
Qed.

Section Lines.
Variable Q : RawInput R -> Prop.
Variables (p : Params R) (cfg : ModelCfg R) (ic : InitSnow R) (mh : Heights R) (all_mode : bool) (env : Env R).
Hypothesis HQ : forall r, Q r -> valid_record r.
Hypothesis Hv : valid_setup p cfg ic.
Hypothesis Hdiv : divides_evenly cfg.

Lemma data_step_facts c i1 i2 c' r1 : model_run Q p cfg ic mh all_mode env c -> Q r1 -> input_data r1 = Ok i1 ->
  do_data_tstep env c i1 i2 = Ok c' ->
  exists evs, steps_between c c' evs /\ chain (c_ss c) (c_datetime c) evs (c_ss c') (c_datetime c') /\
    Forall (step_facts cfg (c_datetime c) r1) evs.
Proof using HQ Hv Hdiv.
  intros Hrun Hq Hi Hd. pose proof Hrun as (info & c0 & Hp & Hin & Hr).
  destruct (init_tso _ _ _ _ _ _ _ Hin) as (_ & _ & _ & _ & Ei & _). subst info.
  pose proof (configured_standard cfg env Hp) as Hstd.
  destruct (data_step_clock _ _ _ _ _ _ _ _ Hstd Hd) as (evs & Hev & Hsch & Hch & _).
  exists evs. split; [assumption|]. split; [assumption|].
  pose proof (C01_clock_advances_one_normal_step cfg env c i1 i2 c' Hdiv Hp Hd) as Hck.
  destruct Hdiv as (Pn & Pm & Ps & (n1 & D1) & (n2 & D2)).
  assert (N1 : (0 < n1)%Z) by nia. assert (N2 : (0 < n2)%Z) by nia.
  assert (HP : Forall (fun ts : TStep R => (0 < ts_minutes ts)%Z /\ (ts_per_timestep ts * ts_minutes ts = cfg_norm cfg)%Z) (map e_tstep evs)).
  { refine (schedule_steps _ _ _ (fun ts => (0 < ts_minutes ts)%Z /\ (ts_per_timestep ts * ts_minutes ts = cfg_norm cfg)%Z) _ _ _ _ Hsch);
    cbn -[Z.mul Z.quot]; (split; [assumption|]).
    - lia.
    - rewrite D1, Z.quot_mul by lia. reflexivity.
    - rewrite D1, D2, Z.mul_assoc, Z.quot_mul by lia. reflexivity. }
  rewrite Forall_map in HP.
  destruct (chain_times _ _ _ _ _ Hch) as (_ & HT); [eapply Forall_impl; [|exact HP]; cbn; tauto|].
  destruct (run_good _ _ _ _ _ _ _ _ _ _ HQ Hv Hp Hin Hr) as (Hs & _).
  assert (Hm1 : made_from (fun r => r = r1) i1 i2) by (exists r1; auto).
  assert (HQ1 : forall r, r = r1 -> valid_record r) by (intros r ->; auto).
  destruct (data_step_good _ _ _ _ _ _ _ HQ1 (vs_steps _ _ _ Hv) Hp Hm1 Hs Hd) as (_ & evs' & Hev' & Hg).
  rewrite (steps_between_unique _ _ _ _ Hev' Hev) in Hg. rewrite Forall_forall in Hg, HP, HT.
  apply Forall_forall. intros e He. destruct (HP e He) as (M1 & M2). destruct (HT e He) as (T1 & T2).
  split; [exact T1|]. split; [exact M1|]. split; [lia|].
  destruct (Hg e He) as (_ & _ & r & -> & i & Hi' & (Hc & _) & Hper & _ & Hsh).
  rewrite Hi in Hi'. injection Hi' as <-.
  destruct (input_data_raw _ _ Hi) as (_ & _ & _ & _ & _ & _ & Epp & _ & _ & _ & _ & _ & Enow & _).
  unfold precip. rewrite Hc. destruct (i_precip_now i1) eqn:En.
  - symmetry in Enow. apply (proj1 (Rltb_true _ _)) in Enow. rewrite Rmax_right by lra.
    rewrite (Hsh ltac:(congruence) i_m_pp ltac:(cbn; tauto)), Epp, <- M2, mult_IZR.
    apply IZR_lt in Hper, M1. field. lra.
  - symmetry in Enow. apply (proj1 (Rltb_false _ _)) in Enow. rewrite Rmax_left by lra. ring.
Qed.
End Lines.

Lemma num_state d (s : SnowState R) : num "m_s" (d, csv_row s) = m_s s.
Proof. unfold num, cell. cbn [snd]. rewrite C43_columns. reflexivity. Qed.
Lemma num_fine_m e : num "m_s" (fine_line e) = m_s (e_after e).
Proof. unfold fine_line. rewrite num_state. reflexivity. Qed.

(** lines of the run steps of a whole run in 'all' mode *)
Section All.
Variables (p : Params R) (cfg : ModelCfg R) (ic : InitSnow R) (mh : Heights R) (env : Env R).
Variable used : list (CsvRow (T:=R)).
Let Q (r : RawInput R) : Prop := valid_record r.
Hypothesis Hv : valid_setup p cfg ic.
Hypothesis Hdiv : divides_evenly cfg.
Hypothesis Hall : ev_output_divided env = true.

(** a line that shows time [t] and the mass of state [s] *)
Definition shows (l : Line) (t : Z) (s : SnowState R) : Prop := fst l = t /\ num "m_s" l = m_s s.

Lemma chain_linked r k d s t evs s' t' l :
  nth_error used k = Some (d, r) -> chain (T:=R) s t evs s' t' -> shows l t s ->
  Forall (step_facts cfg (p_start_date p + Z.of_nat k * cfg_norm cfg) r) evs ->
  (forall e, In e evs -> m_s (e_before e) + precip e + E_s (e_after e) <= m_s (e_after e) + swi (e_after e)) ->
  (forall e, In e evs -> persists cfg e -> m_s (e_after e) = m_s (e_before e) + precip e + E_s (e_after e) - swi (e_after e)) ->
  (forall e, In e evs -> Rmax 0 (m_s (e_after e)) <= Rmax 0 (m_s (e_before e)) + precip e + Rmax 0 (E_s (e_after e))) ->
  linked (balanced p cfg used) l (map fine_line evs) /\ shows (last (map fine_line evs) l) t' s'.
Proof using.
  intros Hk Hch. revert l. induction Hch as [s t|e evs s1 s' t' Hs Hch IH]; intros l (L1 & L2) Hf Hle Heq Hup; [split; [exact I|split; assumption]|].
  inversion Hf as [|? ? (F1 & F2 & F3 & F4) Hf']; subst.
  assert (Sh : shows (fine_line e) (e_start e + ts_minutes (e_tstep e))%Z s1).
  { split; [reflexivity|]. rewrite num_fine_m. destruct Hs as (b1 & m1 & e1 & w1 & ->). reflexivity. }
  destruct (IH (fine_line e) Sh Hf') as (I1 & I2); [intros; apply Hle; right; assumption|intros; apply Heq; [right; assumption|assumption]|intros; apply Hup; right; assumption|].
  cbn [map linked]. split; [split; [|exact I1]|].
  - exists r. assert (Esh : share cfg r l (fine_line e) = precip e).
    { unfold share. rewrite F4, L1. unfold fine_line. cbn [fst]. do 3 f_equal. lia. }
    split.
    { exists k, d. split; [assumption|]. rewrite L1. unfold fine_line. cbn [fst]. lia. }
    rewrite Esh, L2, num_fine_m, !(fun k Hk => fine_num k e Hk) by (cbn; tauto). cbn [mass_of String.eqb Ascii.eqb Bool.eqb].
    split; [apply Hle; left; reflexivity|]. split; [|apply Hup; left; reflexivity].
    intros P1 P2. apply Heq; [left; reflexivity|]. right. split; assumption.
  - destruct evs as [|e2 evs]; [exact I2|]. cbn [map] in *.
    change (last (fine_line e :: fine_line e2 :: map fine_line evs) l) with (last (fine_line e2 :: map fine_line evs) l).
    rewrite (last_default (fine_line e2 :: map fine_line evs) l (fine_line e)) by discriminate. exact I2.
Qed.

Lemma run_linked raws : forall k c i1 r1 c' l, model_run Q p cfg ic mh true env c -> Q r1 -> Forall Q raws ->
  c_time_since_out c = 0%Z -> c_datetime c = (p_start_date p + Z.of_nat k * cfg_norm cfg)%Z ->
  map snd (skipn k used) = r1 :: raws -> shows l (c_datetime c) (c_ss c) ->
  input_data r1 = Ok i1 -> run_steps env c i1 raws = Ok c' ->
  exists ls, map line (c_outputs c') = map line (c_outputs c) ++ ls /\ linked (balanced p cfg used) l ls /\
    StronglySorted Z.le (map fst ls) /\ Forall (fun x => (c_datetime c <= fst x)%Z) ls.
Proof using Hv Hdiv Hall.
  induction raws as [|r2 raws IH]; intros k c i1 r1 c' l Hrun Hq Hf Ht Hdt Hk Hl Hi H; cbn [run_steps] in H.
  - injection H as <-. exists []. rewrite app_nil_r. split; [reflexivity|]. split; [exact I|]. split; constructor.
  - inv_bind H as i2 Hi2. inv_bind H as c1 Hc1. inversion Hf as [|? ? Hq2 Hf2]; subst.
    assert (HQ : forall r, Q r -> valid_record r) by auto.
    pose proof Hrun as (info & c0 & Hp & Hin & _). destruct (init_tso _ _ _ _ _ _ _ Hin) as (_ & _ & _ & _ & Ei & _).
    subst info. pose proof (configured_standard cfg env Hp) as Hstd.
    destruct (data_step_facts Q p cfg ic mh true env HQ Hv Hdiv c i1 i2 c1 r1 Hrun Hq Hi Hc1) as (evs & Hev & Hch & Hfa).
    destruct (outputs_all _ _ _ _ _ _ _ _ Hstd Hall Ht Hc1) as (Ht1 & evs' & Hev' & Hout).
    rewrite (steps_between_unique _ _ _ _ Hev' Hev) in Hout.
    assert (Hrun1 : model_run Q p cfg ic mh true env c1).
    { eapply run_step_run; [exact Hrun| |exact Hc1]. exists r1. auto. }
    assert (Hin1 : forall e, In e evs -> In e (c_trace c1)).
    { intros e He. unfold steps_between in Hev. rewrite Hev. apply in_or_app. auto. }
    assert (Hnk : exists d, nth_error used k = Some (d, r1)).
    { clear - Hk. revert k Hk. induction used as [|(d0, x) us IHu]; intros k Hk; [destruct k; discriminate|].
      destruct k as [|k]; [cbn in Hk; injection Hk as <- _; exists d0; reflexivity|]. exact (IHu k Hk). }
    destruct Hnk as (d & Hnk). rewrite Hdt in Hch, Hfa, Hl.
    destruct (chain_linked r1 k d _ _ _ _ _ l Hnk Hch Hl Hfa) as (I1 & I2).
    { intros e He. apply (C46_water_is_never_lost Q p cfg ic mh true env c1 HQ Hv Hrun1 e (Hin1 e He)). }
    { intros e He. apply (C16_mass_balance_of_a_run_step Q p cfg ic mh true env c1 HQ Hv Hrun1 e (Hin1 e He)). }
    { intros e He. apply (mass_gained Q p cfg ic mh true env c1 HQ Hv Hrun1 e (Hin1 e He)). }
    pose proof (C01_clock_advances_one_normal_step cfg env c i1 i2 c1 Hdiv Hp Hc1) as Hck.
    assert (Hk1 : map snd (skipn (S k) used) = r2 :: raws).
    { clear - Hk. revert k Hk. induction used as [|x us IHu]; intros k Hk; [destruct k; discriminate|].
      destruct k as [|k]; [cbn in Hk |- *; injection Hk as _ <-; reflexivity|]. cbn [skipn] in Hk |- *. exact (IHu k Hk). }
    destruct (IH (S k) c1 i2 r2 c' (last (map fine_line evs) l) Hrun1 Hq2 Hf2 Ht1 ltac:(lia) Hk1 I2 Hi2 H) as (ls & E & J1 & J2 & J3).
    exists (map fine_line evs ++ ls). split.
    { rewrite E, Hout, map_app, map_map, app_assoc. reflexivity. }
    split; [apply linked_app; assumption|].
    assert (HT : StronglySorted Z.le (map fst (map fine_line evs)) /\ Forall (fun x => (c_datetime c <= fst x <= c_datetime c1)%Z) (map fine_line evs)).
    { rewrite <- Hdt in Hch, Hfa. assert (Hpos : Forall (fun e => (0 < ts_minutes (e_tstep e))%Z) evs).
      { eapply Forall_impl; [|exact Hfa]. intros e (_ & X & _). exact X. }
      clear - Hch Hpos. induction Hch as [s t|e evs s1 s' t' Hs Hch IHc]; [split; constructor|].
      inversion Hpos as [|? ? X Hpos']; subst. destruct (IHc Hpos') as (A & B).
      destruct (chain_times _ _ _ _ _ Hch Hpos') as (T & _). cbn [map]. split.
      - constructor; [exact A|]. rewrite Forall_map. eapply Forall_impl; [|exact B]. cbn. intros; lia.
      - constructor; [unfold fine_line; cbn [fst]; lia|]. eapply Forall_impl; [|exact B]. intros x Hx. cbn in Hx. lia. }
    destruct HT as (T1 & T2). assert (Hn0 : (0 < cfg_norm cfg)%Z) by (destruct Hdiv; assumption). split.
    + rewrite map_app. clear - T1 T2 J2 J3. induction (map fine_line evs) as [|x xs IHx]; [exact J2|]. cbn [map app] in *.
      inversion T1; subst. inversion T2; subst. constructor; [apply IHx; assumption|]. apply Forall_app. split; [assumption|].
      rewrite Forall_map. eapply Forall_impl; [|exact J3]. cbn. intros; lia.
    + apply Forall_app. split.
      * eapply Forall_impl; [|exact T2]. cbn. intros; lia.
      * eapply Forall_impl; [|exact J3]. cbn. intros; lia.
Qed.
End All.

(** With one line per run step, the water balances from line to line: between any two
    consecutive lines (the initial snow counts as a line before the first) the mass and the
    precipitation of the record in force, taken in proportion to the time between the lines, and
    [E_s] are at most the new mass and [swi]; and exactly equal to them if there was a snow cover
    before (heavier than the smallest threshold) and there is snow after.  And the snow grows by no more than
    that precipitation and what condenses. *)
Theorem C74_water_balances_from_line_to_line p end_date cfg ic mh rows out :
  valid_setup p cfg ic -> divides_evenly cfg -> Forall (fun row => valid_record (snd row)) rows ->
  pysnobal_run p end_date cfg ic mh true rows = Ok out ->
  exists used, read_input_data (p_start_date p) end_date rows = Ok used /\
    forall pre a b post, start_line p cfg ic :: out = pre ++ a :: b :: post ->
    exists r, in_force p cfg used a b r /\
      num "m_s" a + share cfg r a b + num "E_s" b <= num "m_s" b + num "swi" b /\
      (cfg_small_thr cfg < num "m_s" a -> 0 < num "m_s" b ->
         num "m_s" b = num "m_s" a + share cfg r a b + num "E_s" b - num "swi" b) /\
      Rmax 0 (num "m_s" b) <= Rmax 0 (num "m_s" a) + share cfg r a b + Rmax 0 (num "E_s" b).
Proof.
  intros Hv Hdiv Hf H.
  destruct (pysnobal_run_inv _ _ _ _ _ _ _ _ H)
    as (info & used & i1 & r0 & rest & env & c0 & c & Hi & Hu & Eu & _ & Hi1 & Hinit & Hrun & Hne & Eo).
  exists used. split; [assumption|].
  pose proof (used_valid _ _ _ _ Hf Hu) as Hval. rewrite Eu in Hval. inversion Hval as [|? ? Hv0 Hvr]; subst x l.
  assert (Hvr' : Forall valid_record (map snd rest)) by (apply Forall_map; exact Hvr).
  assert (Hm0 : model_run valid_record p cfg ic mh true env c0) by (exists info, c0; split; [assumption|]; split; [assumption|constructor]).
  destruct (init_tso _ _ _ _ _ _ _ Hinit) as (Ht & Hdt & Ho & Htr & Ei & Em & _).
  destruct (run_linked p cfg ic mh env used Hv Hdiv Em (map snd rest) 0 c0 i1 (snd r0) c (start_line p cfg ic)) as (ls & E & J1 & J2 & _);
    try assumption.
  - lia.
  - rewrite Eu. reflexivity.
  - split; [symmetry; exact Hdt|]. rewrite (init_mass _ _ _ _ _ _ _ _ Hv Hi Hinit). reflexivity.
  - rewrite Ho in E. cbn [map app] in E.
    assert (Hs : sort_by o_date (c_outputs c) = c_outputs c).
    { apply sort_id, sorted_by_map. rewrite <- E, map_map in J2. exact J2. }
    rewrite Hs in Eo. change (out = map line (c_outputs c)) in Eo. rewrite <- E in J1. rewrite <- Eo in J1.
    intros pre a b post Epre. exact (linked_pair _ _ _ J1 _ _ _ _ Epre).
Qed.
Print Assumptions C73_water_budget_of_the_files.
Print Assumptions C74_water_balances_from_line_to_line.

(** ** The hypotheses are met: an hour of snowfall (60 kg/m2) on bare ground, in either mode *)
From Verif Require Import Progress2 Witness Thm_Progress.
Definition snow_day : list (CsvRow (T:=R)) := [(0%Z, mkRaw 0 200 5 600 2 3 60 1 100 (-3)); (60%Z, mkRaw 0 200 5 600 2 3 0 0 0 0)].
Lemma snow_day_valid : Forall (fun row => valid_record (snd row)) snow_day.
Proof. repeat constructor; cbn; intros; lra. Qed.
Lemma wcfg_even : divides_evenly wcfg.
Proof. repeat split; cbn; try lia; [exists 4%Z|exists 15%Z]; reflexivity. Qed.
Lemma snow_day_file m : exists out, pysnobal_run wp 60 wcfg wic wmh m snow_day = Ok out /\ out <> [].
Proof.
  unfold pysnobal_run. destruct w_info as (info & Hi). rewrite Hi. cbn [bind].
  assert (Hu : read_input_data (p_start_date wp) 60 snow_day = Ok (map prepare_row snow_day)) by reflexivity.
  rewrite Hu. cbn [bind].
  assert (Hv : valid_setup wp wcfg wic) by (apply (w_setup (1/4)); apply w_quarter).
  set (d0 := snd (prepare_row (nth 0 snow_day (0%Z, w_calm)))). set (d1 := snd (prepare_row (nth 1 snow_day (0%Z, w_calm)))).
  unfold simulate. change (negb (distinct_dates (map fst (map prepare_row snow_day)))) with false. cbv iota.
  change (map prepare_row snow_day) with [(0%Z, d0); (60%Z, d1)]. cbv iota beta. cbn [snd map].
  assert (V0 : valid_record d0) by (split; cbn; intros; lra).
  destruct (input_data_dec d0) as [(i1 & H1)|(e & He)].
  2:{ apply input_data_error in He. destruct He as (_ & _ & _ & H).
      change (Rltb 0 100 = false) in H. destruct (Rltb_spec 0 100); [discriminate|lra]. }
  destruct (input_data_dec d1) as [(i2 & H2)|(e & He)].
  2:{ apply input_data_error in He. destruct He as (_ & H & _).
      change (Rltb 0 0 = true) in H. destruct (Rltb_spec 0 0); [lra|discriminate]. }
  rewrite H1. cbn [bind].
  destruct (init_defined wp wcfg info wic wmh m Hv Hi ltac:(cbn; lra)) as (env & c0 & Hin). rewrite Hin. cbn [bind run_steps].
  rewrite H2. cbn [bind].
  destruct (init_bare _ _ _ _ _ _ _ _ Hv Hi eq_refl Hin) as (Hl & Hh).
  destruct (init_tso _ _ _ _ _ _ _ Hin) as (Ht & _ & _ & Tr0 & Ei & Eo & _).
  destruct (init_sound _ _ _ _ _ _ _ _ Hv Hi Hin) as (Hs0 & _).
  assert (Hp' : parse_time_steps wcfg = Ok (ev_tstep_info env)) by congruence.
  destruct (bare_data_step_ok wcfg env c0 d0 i1 i2 (vs_steps _ _ _ Hv) Hp' Ht Hs0 Hl V0 H1) as (c1 & e1 & Hd & _).
  rewrite Hd. cbn [bind].
  assert (Ho : c_outputs c1 <> []).
  { refine (data_step_writes wcfg env c0 i1 i2 c1 _ Hp' Ht Hd). cbn. unfold descending. cbn. lia. }
  unfold output_to_file. destruct (c_outputs c1) as [|o os] eqn:Eo1; [congruence|].
  eexists. split; [reflexivity|]. intros E. apply map_eq_nil in E.
  pose proof (sort_perm o_date (o :: os)) as P. rewrite E in P. apply Permutation.Permutation_sym, Permutation.Permutation_nil in P. discriminate.
Qed.
Example C73_witness m : exists out, pysnobal_run wp 60 wcfg wic wmh m snow_day = Ok out /\
  valid_setup wp wcfg wic /\ divides_evenly wcfg /\ Forall (fun row => valid_record (snd row)) snow_day /\
  60 + total "E_s" out <= final "m_s" out + total "swi" out.
Proof.
  assert (Hv : valid_setup wp wcfg wic) by (apply (w_setup (1/4)); apply w_quarter).
  destruct (snow_day_file m) as (out & H & _). exists out. split; [assumption|]. split; [assumption|].
  split; [exact wcfg_even|]. split; [exact snow_day_valid|].
  destruct (C73_water_budget_of_the_files _ _ _ _ _ _ _ _ Hv wcfg_even snow_day_valid H) as (used & Hu & HW).
  injection Hu as <-. unfold initial_mass, total_precipitation, sum_over in HW. cbn in HW. destruct (Rlt_dec 0 0); [lra|].
  rewrite Rmax_right in HW by lra. unfold total, final in *. lra.
Qed.
Example C74_witness : exists out a b post, pysnobal_run wp 60 wcfg wic wmh true snow_day = Ok out /\
  start_line wp wcfg wic :: out = [] ++ a :: b :: post.
Proof.
  destruct (snow_day_file true) as (out & H & Hne). destruct out as [|b post]; [congruence|].
  exists (b :: post), (start_line wp wcfg wic), b, post. auto.
Qed.

(** ** C75: every line of the file makes sense by itself *)
Record sensible (p : Params R) (l : Line) : Prop := {
  sl_depth : num "z_s" l = num "z_s_0" l + num "z_s_l" l;
  sl_mass : num "m_s" l = num "m_s_0" l + num "m_s_l" l;
  sl_mass0 : num "m_s_0" l = num "rho" l * num "z_s_0" l;
  sl_massl : num "m_s_l" l = num "rho" l * num "z_s_l" l;
  sl_cc : num "cc_s" l = num "cc_s_0" l + num "cc_s_l" l;
  sl_one : num "z_s_l" l = 0 -> num "m_s_l" l = 0 /\ num "cc_s_l" l = 0 /\ num "t_s_l" l = -75;
  sl_two : 0 < num "z_s_l" l -> num "z_s_0" l = p_max_z_s_0 p;
  sl_nonneg : 0 <= num "z_s_l" l /\ 0 <= num "h2o" l /\ 0 <= num "melt" l /\ 0 <= num "swi" l;
  sl_bare : num "z_s" l <= 0 -> num "m_s" l = 0 /\ num "rho" l = 0 /\ num "cc_s" l = 0 /\
    num "t_s" l = -75 /\ num "t_s_0" l = -75 /\ num "t_s_l" l = -75;
  sl_energy : num "delta_Q" l = num "R_n" l + num "H" l + num "L_v_E" l + num "G" l + num "M" l;
  sl_energy0 : num "delta_Q_0" l = num "R_n" l + num "H" l + num "L_v_E" l + num "G_0" l + num "M" l
}.

Theorem C75_every_line_is_sensible p end_date cfg ic mh all_mode rows out :
  valid_setup p cfg ic -> Forall (fun row => valid_record (snd row)) rows ->
  pysnobal_run p end_date cfg ic mh all_mode rows = Ok out ->
  Forall (sensible p) out /\
  (Forall (fun row => r_rho_snow (snd row) <= 600) rows -> Forall (fun l => num "rho" l <= 600) out).
Proof.
  intros Hv Hf H.
  destruct (pysnobal_run_inv _ _ _ _ _ _ _ _ H)
    as (info & used & i1 & r0 & rest & env & c0 & c & Hi & Hu & Eu & _ & Hi1 & Hinit & Hrun & Hne & Eo).
  assert (Hgen : forall Q : RawInput R -> Prop, Forall (fun row => Q (snd row)) used -> model_run Q p cfg ic mh all_mode env c).
  { intros Q HQ. rewrite Eu in HQ. inversion HQ as [|? ? Q0 Qr]; subst x l. exists info, c0. split; [assumption|]. split; [assumption|].
    eapply run_steps_reachable; [exact Q0|exact Hi1|apply Forall_map; exact Qr|exact Hrun]. }
  assert (HinO : forall l, In l out -> exists o, In o (c_outputs c) /\ l = line o).
  { intros l Hl. rewrite Eo in Hl. apply in_map_iff in Hl. destruct Hl as (o & <- & Ho). exists o. split; [|reflexivity].
    eapply Permutation.Permutation_in; [apply Permutation.Permutation_sym, sort_perm|exact Ho]. }
  pose proof (Hgen valid_record (used_valid _ _ _ _ Hf Hu)) as Hmr.
  set (Q := valid_record) in *. assert (HQ : forall r, Q r -> valid_record r) by auto.
  split; [apply Forall_forall|intros Hrho; apply Forall_forall].
  - intros l Hl. destruct (HinO l Hl) as (o & Ho & ->).
    assert (Hsh : shown c (o_state o)) by (right; exists o; auto).
    pose proof (C15_layer_bookkeeping Q p cfg ic mh all_mode env c HQ Hv Hmr _ Hsh) as [B1 B2 B3 B4 B5 B6 B7].
    destruct (C19_water_is_not_negative Q p cfg ic mh all_mode env c HQ Hv Hmr _ Hsh) as (_ & _ & W & _).
    destruct (C24_energy_budget_closes Q p cfg ic mh all_mode env c (vs_steps _ _ _ Hv) Hmr o Ho) as (E1 & E2).
    pose proof (C27_bare_ground_record Q p cfg ic mh all_mode env c HQ Hv Hmr _ Hsh) as HB.
    assert (Htot : 0 <= melt_sum (o_state o) /\ exists w, swi_sum (o_state o) = Some w /\ 0 <= w).
    { destruct (run_averages Q p cfg ic mh all_mode env c (vs_steps _ _ _ Hv) Hmr) as (groups & Hg & Hg2).
      assert (HG : exists evs, In evs groups /\ holds_averages (o_state o) evs).
      { clear - Hg2 Ho. induction Hg2 as [|x ev os gs (_ & Ha & _) Hf IH]; [destruct Ho|]. destruct Ho as [->|Ho].
        - exists ev. split; [left; reflexivity|assumption].
        - destruct (IH Ho) as (evs & A & B). exists evs. split; [right; assumption|assumption]. }
      destruct HG as (evs & Hin & (_ & -> & _ & ->)).
      assert (Hin2 : forall e, In e evs -> 0 <= swi (e_after e) /\ 0 <= melt (e_after e)).
      { intros e He. destruct (C19_water_is_not_negative Q p cfg ic mh all_mode env c HQ Hv Hmr (e_after e)) as (A & B & _); [|auto].
        left. exists e. split; [|reflexivity]. rewrite <- Hg. apply in_concat. eauto. }
      assert (Hs : forall f : Event R -> R, (forall e, In e evs -> 0 <= f e) -> 0 <= sum_over f evs).
      { intros f Hp. replace 0 with (sum_over (fun _ : Event R => 0) evs) by (rewrite sum_over_const; ring). apply sum_over_le. exact Hp. }
      split; [apply Hs; intros e He; apply Hin2; assumption|]. eexists. split; [reflexivity|]. apply Hs. intros e He. apply Hin2; assumption. }
    destruct Htot as (T1 & w & T2 & T3).
    assert (Ml : z_s (o_state o) <= 0 -> layer_count (o_state o) = 0%nat).
    { revert Hsh. generalize (o_state o). clear - HQ Hv Hmr.
      apply (shown_all Q p cfg ic mh all_mode env c Hv Hmr (fun s => z_s s <= 0 -> layer_count s = 0%nat)).
      - intros a b (b1 & m1 & e1 & w1 & ->) X. exact X.
      - intros e He. destruct (event_facts Q p cfg ic mh all_mode env c HQ Hv Hmr e He) as (_ & [_ _ [Hk|Hb]] & _).
        + pose proof (packed_z_pos _ Hk). intros; lra.
        + intros _. apply bare_count. assumption. }
    assert (N : forall k v, In (k, Some v) (csv_row (o_state o)) -> num k (line o) = v).
    { intros k v. unfold num, cell, line. cbn [snd]. rewrite C43_columns, T2.
      intros X. repeat (destruct X as [X|X]; [injection X as <- <-; cbn; rewrite ?T2; reflexivity|]). destruct X. }
    rewrite C43_columns, T2 in N.
    pose proof (N "z_s"%string _ ltac:(cbn; tauto)) as N1. pose proof (N "z_s_0"%string _ ltac:(cbn; tauto)) as N2.
    pose proof (N "z_s_l"%string _ ltac:(cbn; tauto)) as N3. pose proof (N "m_s"%string _ ltac:(cbn; tauto)) as N4.
    pose proof (N "m_s_0"%string _ ltac:(cbn; tauto)) as N5. pose proof (N "m_s_l"%string _ ltac:(cbn; tauto)) as N6.
    pose proof (N "rho"%string _ ltac:(cbn; tauto)) as N7. pose proof (N "cc_s"%string _ ltac:(cbn; tauto)) as N8.
    pose proof (N "cc_s_0"%string _ ltac:(cbn; tauto)) as N9. pose proof (N "cc_s_l"%string _ ltac:(cbn; tauto)) as N10.
    pose proof (N "t_s"%string _ ltac:(cbn; tauto)) as N11. pose proof (N "t_s_0"%string _ ltac:(cbn; tauto)) as N12.
    pose proof (N "t_s_l"%string _ ltac:(cbn; tauto)) as N13. pose proof (N "h2o"%string _ ltac:(cbn; tauto)) as N14.
    pose proof (N "melt"%string _ ltac:(cbn; tauto)) as N15. pose proof (N "swi"%string _ ltac:(cbn; tauto)) as N16.
    pose proof (N "delta_Q"%string _ ltac:(cbn; tauto)) as N17. pose proof (N "delta_Q_0"%string _ ltac:(cbn; tauto)) as N18.
    pose proof (N "R_n"%string _ ltac:(cbn; tauto)) as N19. pose proof (N "H"%string _ ltac:(cbn; tauto)) as N20.
    pose proof (N "L_v_E"%string _ ltac:(cbn; tauto)) as N21. pose proof (N "G"%string _ ltac:(cbn; tauto)) as N22.
    pose proof (N "G_0"%string _ ltac:(cbn; tauto)) as N23. pose proof (N "M"%string _ ltac:(cbn; tauto)) as N24.
    clear N. change (FREEZE : R) with (27316/100) in *. rn.
    split; rewrite ?N1, ?N2, ?N3, ?N4, ?N5, ?N6, ?N7, ?N8, ?N9, ?N10, ?N11, ?N12, ?N13, ?N14, ?N15, ?N16, ?N17, ?N18, ?N19, ?N20, ?N21, ?N22, ?N23, ?N24;
      try assumption; try reflexivity.
    + intros Hz. destruct (B6 Hz) as (A1 & A2 & A3). rewrite A3. repeat split; try assumption. lra.
    + repeat split; assumption.
    + intros Hm. destruct (HB (Ml Hm)) as ((A1 & A2 & A3 & A4 & A5 & A6 & A7 & A8 & A9 & A10 & A11) & A12).
      rewrite A4, A5, A6, A7, A8, A9. repeat split; try assumption; lra.
  - intros l Hl. destruct (HinO l Hl) as (o & Ho & ->).
    set (Q2 := fun r : RawInput R => valid_record r /\ r_rho_snow r <= 600).
    assert (Hb : Forall (fun row => Q2 (snd row)) used).
    { apply Forall_forall. intros x Hx. split; [pose proof (used_valid _ _ _ _ Hf Hu) as X; rewrite Forall_forall in X; auto|].
      unfold read_input_data in Hu. inv_bind Hu as cl Hc. injection Hu as Hu. rewrite <- Hu in Hx. apply in_map_iff in Hx.
      destruct Hx as ((d, y) & <- & Hy). unfold prepare_row. cbn [snd r_rho_snow].
      unfold clip_rows in Hc. destruct rows as [|q0 [|q1 qs]]; try discriminate. injection Hc as <-.
      apply filter_In in Hy. destruct Hy as (Hy & _).
      apply (Permutation.Permutation_in _ (Permutation.Permutation_sym (sort_perm fst (q0 :: q1 :: qs)))) in Hy.
      rewrite Forall_forall in Hrho. exact (Hrho _ Hy). }
    pose proof (C22_density_limit Q2 p cfg ic mh all_mode env c (fun r Hr => proj1 Hr) Hv (Hgen Q2 Hb) (o_state o) (fun r Hr => proj2 Hr)) as X.
    replace (num "rho" (line o)) with (rho (o_state o)); [apply X; right; exists o; auto|].
    unfold num, cell, line. cbn [snd]. rewrite C43_columns. reflexivity.
Qed.
Print Assumptions C75_every_line_is_sensible.
Example C75_witness m : exists out, pysnobal_run wp 60 wcfg wic wmh m snow_day = Ok out /\ out <> [] /\ Forall (sensible wp) out.
Proof.
  assert (Hv : valid_setup wp wcfg wic) by (apply (w_setup (1/4)); apply w_quarter).
  destruct (snow_day_file m) as (out & H & Hne). exists out. split; [assumption|]. split; [assumption|].
  exact (proj1 (C75_every_line_is_sensible _ _ _ _ _ _ _ _ Hv snow_day_valid H)).
Qed.
