(** * Theorem C80: bare ground forgets.

    What a run does after a record at which the ground is bare depends on what went before only
    through the water still booked in the vanished pack and the start values of the turbulent
    transfer iteration.  The first part is for every number type, the second for real-number runs. *)
From Coq Require Import Reals String ZArith Bool Lia Lra List Sorted.
Import ListNotations.
From Verif Require Import Num Real Constants Functions Libsnobal Input SnowState Snobal PySnobal
  SchedSpec Sched Frame SchedProps Spec Averages Forcing Phys Mass MassEnd RunMass Run Strip Modes
  Progress Progress2 Thm_Mass Thm_Api Thm_Modes Thm_Schedule Thm_Progress Thm_Files.

Section Generic.
Context {T : Type} {N : Num T}.
Implicit Types s : SnowState T.

(** the same ground: every attribute agrees except the results of the last run step (energy terms, melt,
    evaporation, runoff, water total) and the running means and sums for the output *)
Record same_ground s s' : Prop := {
  sg_sat : h2o_sat s' = h2o_sat s; sg_maxvol : max_h2o_vol s' = max_h2o_vol s; sg_rho : rho s' = rho s;
  sg_t : t_s s' = t_s s; sg_t0 : t_s_0 s' = t_s_0 s; sg_tl : t_s_l s' = t_s_l s;
  sg_z : z_s s' = z_s s; sg_z0 : z_s_0 s' = z_s_0 s; sg_zl : z_s_l s' = z_s_l s;
  sg_cc0 : cc_s_0 s' = cc_s_0 s; sg_ccl : cc_s_l s' = cc_s_l s;
  sg_m : m_s s' = m_s s; sg_m0 : m_s_0 s' = m_s_0 s; sg_ml : m_s_l s' = m_s_l s;
  sg_h2o : h2o s' = h2o s; sg_max : h2o_max s' = h2o_max s; sg_vol : h2o_vol s' = h2o_vol s;
  sg_rough : z_0 s' = z_0 s; sg_mz : max_z_s_0 s' = max_z_s_0 s; sg_thr : small_threshold s' = small_threshold s
}.

(** results of the last step, replaced *)
Definition redo (b : Energy T) (m e w ms es : T) (ws : option T) s : SnowState T :=
  set_bar b (set_melt m (set_E_s e (set_swi w (set_melt_sum ms (set_E_s_sum es (set_swi_sum ws s)))))).

Lemma redo_precip b m e w ms es ws i p :
  precip_event i (stripP (redo b m e w ms es ws) p) = rmap (stripP (redo b m e w ms es ws)) (precip_event i p).
Proof. apply (strip_precip (redo b m e w ms es ws)); reflexivity. Qed.

Lemma mb_bare P zg ts i s : mass_balance P zg ts i (s, false) =
  rmap (fun p => (set_swi (h2o_total (fst p)) (set_E_s (nofZ 0) (set_melt (nofZ 0) (fst p))), false)) (precip_event i (s, false)).
Proof.
  unfold mass_balance. change (time_compact ts (s, false)) with (Ok (s, false)). cbn [bind].
  assert (Hc : forall q, precip_event i (s, false) = Ok q -> snd q = false).
  { intros q. unfold precip_event. destruct (i_precip_now i); [|intros H; injection H as <-; reflexivity].
    destruct (nltb (nofZ 0) (i_m_snow i)); cbn [bind]; [|intros H; injection H as <-; reflexivity].
    intros H. inv_bind H as x Hx. destruct x as [x k]. inv_bind Hx as y Hy. injection Hx as _ <-. injection H as <-. reflexivity. }
  destruct (precip_event i (s, false)) as [[s2 k]|]; [|reflexivity]. specialize (Hc _ eq_refl). cbn in Hc. subst k. reflexivity.
Qed.

(** the first run step over bare ground *)
Definition alike (a a' : list (OutRec T)) (c c' : Core T) : Prop :=
  c_ss c' = c_ss c /\ c_datetime c' = c_datetime c /\ c_time_since_out c' = c_time_since_out c /\ c_hle1_init c' = c_hle1_init c /\
  exists new, c_outputs c = a ++ new /\ c_outputs c' = a' ++ new.

Lemma alike_output a a' c c' : alike a a' c c' -> rres (alike a a') (output c) (output c').
Proof.
  intros (E1 & E2 & E3 & E4 & new & E5 & E6). unfold output. rewrite E1. destruct (swi_sum (c_ss c)); [|reflexivity].
  cbn. unfold alike. cbn. repeat (split; [congruence|]). exists (new ++ [mkOut (c_datetime c) (c_ss c)]).
  rewrite E5, E6, E2, !app_assoc. split; reflexivity.
Qed.

Lemma bare_first_step env ds ts c c' i : c_time_since_out c = 0%Z -> c_time_since_out c' = 0%Z ->
  layer_count (c_ss c) = 0%nat -> same_ground (c_ss c) (c_ss c') -> c_datetime c' = c_datetime c -> c_hle1_init c' = c_hle1_init c ->
  rres (fun x y => alike (c_outputs c) (c_outputs c') (fst x) (fst y) /\ snd x = snd y) (do_tstep env ds ts c i) (do_tstep env ds ts c' i).
Proof.
  intros Ht Ht' Hl Hg Hd Hh. unfold do_tstep. apply rres_same. intros d _.
  set (i0 := if i_precip_now i then _ else _). clearbody i0.
  assert (Hn : has_snow (c_ss c) = false) by (unfold has_snow; rewrite Hl; reflexivity).
  assert (Hn' : has_snow (c_ss c') = false).
  { unfold has_snow, layer_count in *. rewrite (sg_z0 _ _ Hg), (sg_zl _ _ Hg). exact Hn. }
  unfold energy_balance. change (has_snow (set_h2o_total ?x ?y)) with (has_snow y). rewrite Hn, Hn'. cbn [bind].
  set (s1 := set_E_flux (nofZ 0) (set_en zero_energy (set_h2o_total (nofZ 0) (c_ss c)))).
  set (s1' := set_E_flux (nofZ 0) (set_en zero_energy (set_h2o_total (nofZ 0) (c_ss c')))).
  assert (E : s1' = redo (bar (c_ss c')) (melt (c_ss c')) (E_s (c_ss c')) (swi (c_ss c')) (melt_sum (c_ss c')) (E_s_sum (c_ss c')) (swi_sum (c_ss c')) s1).
  { unfold s1, s1'. destruct (c_ss c), (c_ss c'). destruct Hg. cbn in *. subst. reflexivity. }
  rewrite !mb_bare, E.
  change (redo ?b ?m ?e ?w ?ms ?es ?ws s1, false) with (stripP (redo b m e w ms es ws) (s1, false)).
  rewrite redo_precip. destruct (precip_event i0 (s1, false)) as [[s2 k]|]; [|reflexivity].
  cbn [rmap bind stripP fst snd]. rewrite Ht, Ht'. change (0 <? 0)%Z with false. cbv iota. cbn [bind].
  rewrite Hd, Hh. eapply rres_bind with (P := alike (c_outputs c) (c_outputs c')).
  - set (cc := mkCore _ _ _ (c_outputs c) _ _). set (cc' := mkCore _ _ _ (c_outputs c') _ _).
    assert (A : alike (c_outputs c) (c_outputs c') cc cc').
    { unfold alike, cc, cc'. cbn. split; [reflexivity|]. repeat (split; [reflexivity|]). exists []. rewrite !app_nil_r. split; reflexivity. }
    destruct (ev_output_divided env); [apply alike_output; exact A|exact A].
  - intros x y A. cbn. split; [exact A|reflexivity].
Qed.

(** what follows does not look at the history at all *)
Section Alike.
Variables a a' : list (OutRec T).
Let al := alike a a'.

Lemma alike_step env ds ts c c' i : al c c' ->
  rres (fun x y => al (fst x) (fst y) /\ snd x = snd y) (do_tstep env ds ts c i) (do_tstep env ds ts c' i).
Proof.
  intros (E1 & E2 & E3 & E4 & new & E5 & E6). unfold do_tstep. apply rres_same. intros d _.
  rewrite E1, E2, E3, E4. apply rres_same. intros [[s i'] init] _. apply rres_same. intros [s2 kept] _.
  apply rres_same. intros [s3 tso] _.
  eapply rres_bind with (P := al).
  - set (cc := mkCore _ _ _ (c_outputs c) _ _). set (cc' := mkCore _ _ _ (c_outputs c') _ _).
    assert (A : al cc cc').
    { unfold al, alike, cc, cc'. cbn. repeat (split; [reflexivity|]). exists new. split; assumption. }
    destruct (ev_output_divided env); [apply alike_output; exact A|exact A].
  - intros x y A. cbn. split; [exact A|reflexivity].
Qed.

Definition alD (x y : DState T) : Prop := al (d_core x) (d_core y) /\ d_input x = d_input y /\ d_level x = d_level y.

Lemma iter_rres {A} (P : A -> A -> Prop) (b b' : A -> result A) : (forall x y, P x y -> rres P (b x) (b' y)) ->
  forall n x y, P x y -> rres P (iter_res n b x) (iter_res n b' y).
Proof.
  intros H. induction n as [|n IH]; intros x y Hp; [exact Hp|]. cbn [iter_res]. eapply rres_bind; [apply H; exact Hp|]. exact IH.
Qed.

Lemma alike_divide env ds : forall f x y, alD x y -> rres alD (divide_tstep f env ds x) (divide_tstep f env ds y).
Proof.
  induction f as [|f IH]; intros x y Hxy; [reflexivity|]. cbn [divide_tstep]. pose proof Hxy as (A & Ei & El). rewrite El.
  apply rres_same. intros ts _. rewrite Ei. apply rres_same. intros i _.
  eapply rres_bind with (P := alD).
  - apply iter_rres; [|split; [exact A|split; reflexivity]]. clear x y Hxy A Ei El. intros x y (A & Ei & El). rewrite El, Ei.
    pose proof (proj1 A) as Es. rewrite Es. destruct (negb _ && _).
    + apply IH. split; [exact A|split; reflexivity].
    + eapply rres_bind; [apply alike_step; exact A|]. intros [c1 j1] [c2 j2] (B & Ej). cbn in B, Ej. subst. split; [exact B|split; reflexivity].
  - clear x y Hxy A Ei El. intros x y (A & Ei & El). rewrite El. eapply rres_bind with (P := al).
    + destruct (_ && _); [apply alike_output; exact A|exact A].
    + intros c1 c2 B. split; [exact B|]. split; [exact Ei|reflexivity].
Qed.

Lemma alike_data_step env c c' i1 i2 : al c c' -> rres al (do_data_tstep env c i1 i2) (do_data_tstep env c' i1 i2).
Proof.
  intros A. unfold do_data_tstep. apply rres_same. intros ds _. eapply rres_bind.
  - apply alike_divide. split; [exact A|split; reflexivity].
  - intros x y (B & _). exact B.
Qed.

Lemma alike_run_steps env raws : forall c c' i1, al c c' -> rres al (run_steps env c i1 raws) (run_steps env c' i1 raws).
Proof.
  induction raws as [|r raws IH]; intros c c' i1 A; [exact A|]. cbn [run_steps]. apply rres_same. intros i2 _.
  eapply rres_bind; [apply alike_data_step; exact A|]. intros x y B. apply IH. exact B.
Qed.
End Alike.

Lemma bare_first_data_step cfg env c c' i1 i2 : configured cfg env -> c_time_since_out c = 0%Z -> c_time_since_out c' = 0%Z ->
  layer_count (c_ss c) = 0%nat -> same_ground (c_ss c) (c_ss c') -> c_datetime c' = c_datetime c -> c_hle1_init c' = c_hle1_init c ->
  rres (alike (c_outputs c) (c_outputs c')) (do_data_tstep env c i1 i2) (do_data_tstep env c' i1 i2).
Proof.
  intros Hcfg Ht Ht' Hl Hg Hd Hh. unfold do_data_tstep. apply rres_same. intros ds _.
  destruct (configured_standard _ _ Hcfg) as (Hinfo & _).
  assert (Hat : tstep_at env NORMAL_TSTEP = Ok (normal_step cfg)) by (unfold tstep_at; rewrite Hinfo; reflexivity).
  assert (Hl' : layer_count (c_ss c') = 0%nat).
  { unfold layer_count in *. rewrite (sg_z0 _ _ Hg), (sg_zl _ _ Hg). exact Hl. }
  eapply rres_bind with (P := alD (c_outputs c) (c_outputs c')); [|intros x y (B & _); exact B].
  cbn [divide_tstep]. cbn [d_level d_input d_core]. rewrite Hat. cbn [bind].
  change (1 <? ts_level (normal_step cfg))%Z with false. rewrite andb_false_r. cbn [bind].
  change (Z.to_nat (ts_intervals (normal_step cfg))) with 1%nat. cbn [iter_res]. cbn [d_core d_level d_input].
  replace (below_thold (ts_threshold (normal_step cfg)) (c_ss c)) with false by (unfold below_thold; rewrite Hl; reflexivity).
  replace (below_thold (ts_threshold (normal_step cfg)) (c_ss c')) with false by (unfold below_thold; rewrite Hl'; reflexivity).
  rewrite andb_false_r.
  eapply rres_bind with (P := alD (c_outputs c) (c_outputs c')).
  - eapply rres_bind with (P := alD (c_outputs c) (c_outputs c')); [|intros x y A; exact A].
    eapply rres_bind; [apply bare_first_step; assumption|].
    intros [c1 j1] [c2 j2] (B & Ej). cbn in B, Ej. subst. split; [exact B|split; reflexivity].
  - intros x y (A & Ei & El). rewrite El. eapply rres_bind with (P := alike (c_outputs c) (c_outputs c')).
    + destruct (_ && _); [apply alike_output; exact A|exact A].
    + intros c1 c2 B. split; [exact B|]. split; [exact Ei|reflexivity].
Qed.

(** ** C80 *)
(** Take two histories that lead to the same date with bare ground, the same ground and the same start
    values of the turbulent transfer iteration.  Whatever records follow, both runs end the same way: they
    raise the same exception, or both go on and write the same lines from there on. *)
Theorem C80_bare_ground_forgets cfg env c c' i1 raws : configured cfg env ->
  c_time_since_out c = 0%Z -> c_time_since_out c' = 0%Z -> layer_count (c_ss c) = 0%nat ->
  same_ground (c_ss c) (c_ss c') -> c_datetime c' = c_datetime c -> c_hle1_init c' = c_hle1_init c ->
  match run_steps env c i1 raws, run_steps env c' i1 raws with
  | Ok d, Ok d' => exists new, c_outputs d = c_outputs c ++ new /\ c_outputs d' = c_outputs c' ++ new
  | Err e, Err e' => e = e'
  | _, _ => False
  end.
Proof.
  intros Hcfg Ht Ht' Hl Hg Hd Hh.
  destruct raws as [|r raws]; [exists []; rewrite !app_nil_r; split; reflexivity|].
  assert (H : rres (alike (c_outputs c) (c_outputs c')) (run_steps env c i1 (r :: raws)) (run_steps env c' i1 (r :: raws))).
  { cbn [run_steps]. apply rres_same. intros i2 _. eapply rres_bind; [eapply bare_first_data_step; eassumption|].
    intros x y A. apply alike_run_steps. exact A. }
  unfold rres in H. destruct (run_steps env c i1 (r :: raws)), (run_steps env c' i1 (r :: raws)); try exact H.
  destruct H as (_ & _ & _ & _ & H). exact H.
Qed.
End Generic.

(** ** One data step over bare ground is one run step, and one line *)
Section One.
Context {T : Type} {N : Num T}.
Lemma bare_one_output cfg (env : Env T) c i1 i2 c' : configured cfg env -> c_time_since_out c = 0%Z -> layer_count (c_ss c) = 0%nat ->
  do_data_tstep env c i1 i2 = Ok c' ->
  c_outputs c' = c_outputs c ++ [mkOut (c_datetime c') (c_ss c')] /\ c_datetime c' = (c_datetime c + cfg_norm cfg)%Z /\
  c_hle1_init c' = c_hle1_init c /\ c_time_since_out c' = 0%Z.
Proof.
  intros Hcfg Ht Hl H. unfold do_data_tstep in H. inv_bind H as ds Hds. inv_bind H as st Hst. injection H as <-.
  destruct (configured_standard _ _ Hcfg) as (Hinfo & _).
  assert (Hat : tstep_at env NORMAL_TSTEP = Ok (normal_step cfg)) by (unfold tstep_at; rewrite Hinfo; reflexivity).
  cbn [divide_tstep] in Hst. cbn [d_level d_input d_core] in Hst. rewrite Hat in Hst. cbn [bind] in Hst.
  change (1 <? ts_level (normal_step cfg))%Z with false in Hst. rewrite andb_false_r in Hst. cbn [bind] in Hst.
  change (Z.to_nat (ts_intervals (normal_step cfg))) with 1%nat in Hst. cbn [iter_res] in Hst. cbn [d_core d_level d_input] in Hst.
  replace (below_thold (ts_threshold (normal_step cfg)) (c_ss c)) with false in Hst by (unfold below_thold; rewrite Hl; reflexivity).
  rewrite andb_false_r in Hst. inv_bind Hst as st1 H1. inv_bind H1 as st2 H2. inv_bind H2 as cj Hc. destruct cj as [c1 j1].
  injection H2 as <-. injection H1 as <-. cbn [d_core d_level d_input] in Hst. change (NORMAL_TSTEP =? 0)%Z with true in Hst. cbn [andb] in Hst.
  destruct (do_tstep_inv _ _ _ _ _ _ _ Hc) as (d & s1 & ic & init & s2 & kept & s3 & _ & He & _ & _ & Ho & _).
  assert (Hi : init = c_hle1_init c).
  { unfold energy_balance in He. change (has_snow (set_h2o_total (nofZ 0) (c_ss c))) with (has_snow (c_ss c)) in He.
    unfold has_snow in He. rewrite Hl in He. cbn in He. injection He as _ _ <-. reflexivity. }
  destruct (ev_output_divided env); cbn [negb bind] in Hst.
  - injection Hst as <-. cbn [d_core]. destruct (output_inv _ _ Ho) as (A1 & A2 & A3 & A4 & A5 & _). cbn in A1, A2, A3, A4, A5.
    rewrite A4, A2, A1, A5, A3. auto.
  - subst c1. inv_bind Hst as c2 H2. injection Hst as <-. cbn [d_core]. destruct (output_inv _ _ H2) as (A1 & A2 & A3 & A4 & A5 & _).
    cbn in A1, A2, A3, A4, A5. rewrite A4, A2, A1, A5, A3. auto.
Qed.
End One.

Open Scope R_scope.

(** ** Two real-number runs *)
Lemma run_settings (Q : RawInput R -> Prop) p cfg (ic : InitSnow R) mh m env c : (forall r, Q r -> valid_record r) -> valid_setup p cfg ic ->
  model_run Q p cfg ic mh m env c -> sound (c_ss c) /\ configured_state p cfg (c_ss c) /\ z_0 (c_ss c) = is_z_0 ic.
Proof.
  intros HQ Hv (info & c0 & Hp & Hi & Hr).
  destruct (run_has_facts _ _ _ _ _ _ _ _ _ _ HQ Hv Hp Hi Hr) as [Hch Hg _ Hs]. split; [assumption|].
  assert (P : params_eq (c_ss c0) (c_ss c)).
  { clear - Hch Hg. induction Hch as [s t|e evs s1 s' t' Hs Hch IH]; [repeat split|]. inversion Hg as [|? ? G1 G2]; subst.
    destruct G1 as (_ & O & _). destruct (outcome_params _ O) as (A & B & C & D). destruct (IH G2) as (A' & B' & C' & D').
    destruct Hs as (x1 & x2 & x3 & x4 & ->). cbn in A', B', C', D'. repeat split; congruence. }
  assert (S0 : configured_state p cfg (c_ss c0) /\ z_0 (c_ss c0) = is_z_0 ic).
  { split; [|].
    - clear - Hi Hp. unfold snobal_init in Hi. inv_bind Hi as pa Hpa. inv_bind Hi as s Hs. inv_bind Hi as s1 Hs1. injection Hi as _ <-. cbn [c_ss].
      destruct (parse_eq _ _ Hp) as (_ & ->). unfold create_snow_state in Hs. change (Z.to_nat SMALL_TSTEP) with 2%nat in Hs. cbn [nth_error ts_threshold] in Hs.
      injection Hs as <-. destruct (init_snow_frame _ _ Hs1) as (Pe & _). eapply params_eq_configured; [exact Pe|]. repeat split.
    - clear - Hi. unfold snobal_init in Hi. inv_bind Hi as pa Hpa. inv_bind Hi as s Hs. inv_bind Hi as s1 Hs1. injection Hi as _ <-. cbn [c_ss].
      unfold create_snow_state in Hs. destruct (nth_error info (Z.to_nat SMALL_TSTEP)); [|discriminate]. injection Hs as <-.
      destruct (init_snow_frame _ _ Hs1) as ((Pz & _) & _). exact Pz. }
  destruct S0 as (S0 & Z0). split; [eapply params_eq_configured; eassumption|]. destruct P as (P & _). congruence.
Qed.

Definition starting (d : Z) (p : Params R) : Params R :=
  mkParams (p_elevation p) d (p_max_h2o_vol p) (p_max_z_s_0 p) (p_relative_heights p).

Lemma bare_same_ground p d cfg (s s' : SnowState R) : bare s -> bare s' -> configured_state p cfg s -> configured_state (starting d p) cfg s' ->
  z_s s' = z_s s -> h2o s' = h2o s -> z_0 s' = z_0 s -> same_ground s s'.
Proof.
  intros X X' (A & B & C) (A' & B' & C') Hz Hh H0. cbn [starting p_max_z_s_0 p_max_h2o_vol] in A', B', C'.
  split; try assumption.
  - rewrite (br_sat _ X), (br_sat _ X'). reflexivity.
  - rewrite C, C'. reflexivity.
  - rewrite (br_rho _ X), (br_rho _ X'). reflexivity.
  - rewrite (br_t _ X), (br_t _ X'). reflexivity.
  - rewrite (br_t0 _ X), (br_t0 _ X'). reflexivity.
  - rewrite (br_tl _ X), (br_tl _ X'). reflexivity.
  - rewrite <- (br_z _ X), <- (br_z _ X'). exact Hz.
  - rewrite (br_zl _ X), (br_zl _ X'). reflexivity.
  - rewrite (br_cc0 _ X), (br_cc0 _ X'). reflexivity.
  - rewrite (br_ccl _ X), (br_ccl _ X'). reflexivity.
  - rewrite (br_m _ X), (br_m _ X'). reflexivity.
  - rewrite (br_m0 _ X), (br_m0 _ X'). reflexivity.
  - rewrite (br_ml _ X), (br_ml _ X'). reflexivity.
  - rewrite (br_max _ X), (br_max _ X'). reflexivity.
  - rewrite (br_vol _ X), (br_vol _ X'). reflexivity.
  - rewrite A, A'. reflexivity.
  - rewrite B, B'. reflexivity.
Qed.

Lemma same_env p d info ic mh m env c0 env' c0' ic' : snobal_init p info ic mh m = Ok (env, c0) ->
  snobal_init (starting d p) info ic' mh m = Ok (env', c0') -> env' = env.
Proof.
  unfold snobal_init. cbn [starting p_elevation]. intros H H'. inv_bind H as pa Hpa. rewrite Hpa in H'. cbn [bind] in H'.
  inv_bind H as s Hs. inv_bind H as s1 Hs1. inv_bind H' as s' Hs'. inv_bind H' as s1' Hs1'.
  apply (f_equal (fun r => match r with Ok q => fst q | Err _ => env end)) in H. apply (f_equal (fun r => match r with Ok q => fst q | Err _ => env end)) in H'.
  cbn in H, H'. congruence.
Qed.

(** Two runs with the same configuration, elevation and instrument heights, of whatever start date, initial snow and
    records: at a date at which both stand on bare ground with the same leftover water, depth and iteration
    start values, nothing that follows can tell them apart. *)
Theorem C80_bare_ground_forgets_in_runs (Q Q' : RawInput R -> Prop) p d cfg ic ic' mh m env env' c c' i1 raws :
  (forall r, Q r -> valid_record r) -> (forall r, Q' r -> valid_record r) ->
  valid_setup p cfg ic -> valid_setup (starting d p) cfg ic' -> is_z_0 ic' = is_z_0 ic ->
  model_run Q p cfg ic mh m env c -> model_run Q' (starting d p) cfg ic' mh m env' c' ->
  c_datetime c' = c_datetime c ->
  layer_count (c_ss c) = 0%nat -> layer_count (c_ss c') = 0%nat ->
  z_s (c_ss c') = z_s (c_ss c) -> h2o (c_ss c') = h2o (c_ss c) -> c_hle1_init c' = c_hle1_init c ->
  match run_steps env c i1 raws, run_steps env' c' i1 raws with
  | Ok x, Ok x' => exists new, c_outputs x = c_outputs c ++ new /\ c_outputs x' = c_outputs c' ++ new
  | Err e, Err e' => e = e'
  | _, _ => False
  end.
Proof.
  intros HQ HQ' Hv Hv' Hz0 Hr Hr' Hd Hl Hl' Hz Hh Hi.
  destruct (run_settings _ _ _ _ _ _ _ _ HQ Hv Hr) as ([_ _ S] & C & Z). destruct (run_settings _ _ _ _ _ _ _ _ HQ' Hv' Hr') as ([_ _ S'] & C' & Z').
  assert (B : bare (c_ss c)).
  { destruct S as [K|B]; [|exact B]. destruct (layered_count _ (proj1 K)) as [[_ E]|[_ E]]; congruence. }
  assert (B' : bare (c_ss c')).
  { destruct S' as [K|B']; [|exact B']. destruct (layered_count _ (proj1 K)) as [[_ E]|[_ E]]; congruence. }
  pose proof (run_time_since_out _ _ _ _ _ _ _ _ Hr) as Ht. pose proof (run_time_since_out _ _ _ _ _ _ _ _ Hr') as Ht'.
  assert (Hcfg : configured cfg env /\ env' = env).
  { destruct Hr as (info & c0 & Hp & Hin & _). destruct Hr' as (info' & c0' & Hp' & Hin' & _). rewrite Hp in Hp'.
    assert (info' = info) by congruence. subst info'. split; [|eapply same_env; eassumption].
    destruct (init_tso _ _ _ _ _ _ _ Hin) as (_ & _ & _ & _ & Ei & _). unfold configured. congruence. }
  destruct Hcfg as (Hcfg & ->).
  apply (C80_bare_ground_forgets cfg env c c' i1 raws Hcfg Ht Ht' Hl); try assumption.
  eapply bare_same_ground; try eassumption. congruence.
Qed.

(** ** A snow-free beginning can be left out *)
Lemma z_cell o : num "z_s" (line o) = z_s (o_state o).
Proof. unfold num, cell, line. cbn [snd]. rewrite C43_columns. reflexivity. Qed.

(** records come one per normal step, from the start date on *)
Definition one_record_per_step (start step : Z) (used : list (CsvRow (T:=R))) : Prop :=
  forall k row, nth_error used k = Some row -> fst row = (start + Z.of_nat k * step)%Z.

Lemma regular_skip step (used : list (CsvRow (T:=R))) : (0 < step)%Z -> forall start n,
  one_record_per_step start step used ->
  filter (fun r => (start + Z.of_nat n * step <=? fst r)%Z) used = skipn n used.
Proof.
  intros Hs. induction used as [|r used IH]; intros start n H; [destruct n; reflexivity|].
  assert (H' : one_record_per_step (start + step) step used).
  { intros k row E. rewrite (H (S k) row E). lia. }
  pose proof (H 0%nat r eq_refl) as E0. cbn [filter]. rewrite E0. destruct n as [|n].
  - replace (start + Z.of_nat 0 * step <=? start + Z.of_nat 0 * step)%Z with true by (symmetry; apply Z.leb_le; lia).
    cbn [skipn]. apply f_equal. change used with (skipn 0 used) at 2. rewrite <- (IH _ 0%nat H'). apply filter_ext_in. intros x Hx.
    apply In_nth_error in Hx. destruct Hx as (k & Hk). rewrite (H' k x Hk).
    transitivity true; [apply Z.leb_le; nia|symmetry; apply Z.leb_le; nia].
  - replace (start + Z.of_nat (S n) * step <=? start + Z.of_nat 0 * step)%Z with false by (symmetry; apply Z.leb_gt; nia).
    cbn [skipn]. rewrite <- (IH _ n H'). apply filter_ext. intros x. f_equal. lia.
Qed.

Lemma later_window start end_date step n rows used : (0 < step)%Z -> read_input_data (T:=R) start end_date rows = Ok used ->
  one_record_per_step start step used ->
  read_input_data (start + Z.of_nat n * step) end_date rows = Ok (skipn n used).
Proof.
  intros Hs Hu Hreg. rewrite <- (regular_skip step used Hs start n Hreg).
  unfold read_input_data in *. inv_bind Hu as cl Hc. injection Hu as <-. unfold clip_rows in *.
  destruct rows as [|q0 [|q1 qs]]; try discriminate. injection Hc as <-. cbn [bind]. f_equal.
  change (sort_by fst (q0 :: q1 :: qs)) with (insert_by fst q0 (insert_by fst q1 (sort_by fst qs))).
  clear Hreg. generalize (insert_by fst q0 (insert_by fst q1 (sort_by fst qs))). intros l. induction l as [|x l IH]; [reflexivity|]. cbn [filter].
  destruct (Z.leb_spec (start + Z.of_nat n * step) (fst x)) as [L|L]; cbn [andb].
  - replace (start <=? fst x)%Z with true by (symmetry; apply Z.leb_le; nia). cbn [andb].
    destruct (fst x <=? end_date + _)%Z; [|exact IH]. cbn [map filter].
    change (fst (prepare_row x)) with (fst x).
    replace (start + Z.of_nat n * step <=? fst x)%Z with true by (symmetry; apply Z.leb_le; lia). f_equal. exact IH.
  - destruct ((start <=? fst x) && _)%Z; [|exact IH]. cbn [map filter]. change (fst (prepare_row x)) with (fst x).
    replace (start + Z.of_nat n * step <=? fst x)%Z with false by (symmetry; apply Z.leb_gt; lia). exact IH.
Qed.

Lemma init_depth p cfg info (ic : InitSnow R) mh m env c0 : valid_setup p cfg ic -> parse_time_steps cfg = Ok info ->
  is_z_s ic = 0 -> snobal_init p info ic mh m = Ok (env, c0) -> z_s (c_ss c0) = 0.
Proof.
  intros [_ V1 V2 V3 V4 V5 V6] Hp Hz H. unfold snobal_init in H.
  inv_bind H as pa Hpa. inv_bind H as s Hs. inv_bind H as s1 Hs1. injection H as <- <-. cbn [c_ss].
  destruct (parse_eq _ _ Hp) as (_ & ->). unfold create_snow_state in Hs.
  change (Z.to_nat SMALL_TSTEP) with 2%nat in Hs. cbn [nth_error ts_threshold] in Hs. injection Hs as <-.
  match type of Hs1 with init_snow ?x = _ => set (s := x) in * end.
  assert (Hpo : params_ok s) by (split; assumption).
  destruct (init_snow_spec s s1 Hpo Hs1) as [F|(_ & _ & E)].
  - rewrite (fr_z _ _ F). exact Hz.
  - rewrite E. destruct (Rleb _ _); [reflexivity|exact Hz].
Qed.

(** states the run can be in while the ground has always been bare *)
Record untouched cfg (Q : RawInput R -> Prop) p ic mh m env (c : Core R) : Prop := {
  un_run : model_run Q p cfg ic mh m env c;
  un_bare : layer_count (c_ss c) = 0%nat; un_z : z_s (c_ss c) = 0; un_h2o : h2o (c_ss c) = 0;
  un_init : c_hle1_init c = (None, None)
}.

Lemma last_event_state (Q : RawInput R -> Prop) p cfg ic mh m env c' l e : (forall r, Q r -> valid_record r) -> valid_setup p cfg ic ->
  model_run Q p cfg ic mh m env c' -> c_trace c' = l ++ [e] -> same_snow (e_after e) (c_ss c').
Proof.
  intros HQ Hv Hr' Htr. destruct Hr' as (info' & c0' & Hp' & Hin' & Hre'). destruct (run_has_facts _ _ _ _ _ _ _ _ _ _ HQ Hv Hp' Hin' Hre') as [Hch _ _ _].
  rewrite Htr in Hch. clear - Hch. revert Hch. generalize (c_ss c0'), (c_datetime c0'). induction l as [|x l IH]; cbn [app]; intros s t H.
  - inversion H as [|? ? s1 ? ? Hs Hc]; subst. inversion Hc; subst. exact Hs.
  - inversion H; subst. eauto.
Qed.

Lemma untouched_step cfg (Q : RawInput R -> Prop) p ic mh m env c r1 i1 i2 c' :
  (forall r, Q r -> valid_record r) -> valid_setup p cfg ic -> Q r1 -> input_data r1 = Ok i1 ->
  untouched cfg Q p ic mh m env c -> do_data_tstep env c i1 i2 = Ok c' -> z_s (c_ss c') = 0 -> untouched cfg Q p ic mh m env c'.
Proof.
  intros HQ Hv Hq Hi1 [Hr Hl Hz Hh Hn] Hd Hz'.
  assert (Hr' : model_run Q p cfg ic mh m env c').
  { destruct Hr as (info & c0 & Hp & Hin & Hre). exists info, c0. split; [assumption|]. split; [assumption|].
    eapply reach_step; [exact Hre|exists r1; split; eassumption|exact Hd]. }
  assert (Hcfg : configured cfg env).
  { destruct Hr as (info & c0 & Hp & Hin & _). destruct (init_tso _ _ _ _ _ _ _ Hin) as (_ & _ & _ & _ & Ei & _). unfold configured. congruence. }
  destruct (run_settings _ _ _ _ _ _ _ _ HQ Hv Hr) as (So & _). pose proof (run_time_since_out _ _ _ _ _ _ _ _ Hr) as Ht.
  destruct (run_settings _ _ _ _ _ _ _ _ HQ Hv Hr') as ([_ _ S'] & _).
  destruct (bare_data_step_ok cfg env c r1 i1 i2 (vs_steps _ _ _ Hv) Hcfg Ht So Hl (HQ _ Hq) Hi1) as (c2 & e & Hd2 & Htr & Hb & _ & Hh2 & _).
  rewrite Hd in Hd2. injection Hd2 as <-.
  assert (B' : bare (c_ss c')) by (destruct S' as [K|B]; [apply packed_z_pos in K; lra|exact B]).
  split; try assumption.
  - apply bare_count; exact B'.
  - destruct (bare_one_output cfg env c i1 i2 c' Hcfg Ht Hl Hd) as (_ & _ & _ & _).
    assert (He : In e (c_trace c')) by (rewrite Htr; apply in_or_app; right; left; reflexivity).
    destruct (event_facts Q p cfg ic mh m env c' HQ Hv Hr' e He) as (_ & _ & O & _).
    assert (Hss : same_snow (e_after e) (c_ss c')) by (eapply last_event_state; eassumption).
    assert (Hsame : z_s (c_ss c') = z_s (e_after e) /\ h2o (c_ss c') = h2o (e_after e)).
    { destruct Hss as (x1 & x2 & x3 & x4 & ->). split; reflexivity. }
    destruct Hsame as (S1 & S2). rewrite S2. rewrite S1 in Hz'.
    destruct O as [(K & _)|(_ & _ & _ & (_ & _ & _ & [(_ & E & _)|[(_ & E & _)|(K & _)]]))].
    + rewrite Hb in K. destruct (layered_count _ (proj1 K)) as [[_ E]|[_ E]]; congruence.
    + rewrite E, Hb. exact Hh.
    + exact E.
    + exfalso. pose proof (packed_z_pos _ (np_packed _ _ K)). lra.
  - rewrite Hh2. exact Hn.
Qed.

Lemma untouched_prefix cfg (Q : RawInput R -> Prop) p ic mh m env : (forall r, Q r -> valid_record r) -> valid_setup p cfg ic ->
  forall free raws c r1 i1 cf outs, untouched cfg Q p ic mh m env c -> Q r1 -> input_data r1 = Ok i1 -> Forall Q raws ->
  run_steps env c i1 raws = Ok cf -> c_outputs cf = c_outputs c ++ free ++ outs -> Forall (fun o => z_s (o_state o) = 0) free -> outs <> [] ->
  exists c1 r2 i2, untouched cfg Q p ic mh m env c1 /\ input_data r2 = Ok i2 /\ (nth_error (r1 :: raws) (length free) = Some r2) /\
    run_steps env c1 i2 (skipn (length free) raws) = Ok cf /\ c_outputs c1 = c_outputs c ++ free /\
    c_datetime c1 = (c_datetime c + Z.of_nat (length free) * cfg_norm cfg)%Z.
Proof.
  intros HQ Hv. induction free as [|o free IH]; intros raws c r1 i1 cf outs Hu Hq Hi1 Hf Hrun Ho Hz Hne.
  { exists c, r1, i1. cbn [length skipn]. rewrite app_nil_r. repeat (split; [assumption || reflexivity|]). lia. }
  destruct raws as [|r raws].
  { cbn [run_steps] in Hrun. injection Hrun as <-. exfalso. apply (f_equal (@length _)) in Ho. rewrite !app_length in Ho. cbn in Ho. lia. }
  cbn [run_steps] in Hrun. inv_bind Hrun as i2 Hi2. inv_bind Hrun as c1 Hc1. inversion Hf as [|? ? Hq2 Hf']; subst.
  inversion Hz as [|? ? Hz1 Hz']; subst.
  pose proof Hu as [Hr Hl _ _ _].
  assert (Hcfg : configured cfg env).
  { destruct Hr as (info & c0 & Hp & Hin & _). destruct (init_tso _ _ _ _ _ _ _ Hin) as (_ & _ & _ & _ & Ei & _). unfold configured. congruence. }
  destruct (bare_one_output cfg env c i1 i2 c1 Hcfg (run_time_since_out _ _ _ _ _ _ _ _ Hr) Hl Hc1) as (E1 & E2 & _).
  destruct (run_steps_appends _ _ Hcfg _ _ _ _ Hrun) as (os & _ & E & _).
  rewrite E, E1, <- app_assoc in Ho. apply app_inv_head in Ho. cbn [app] in Ho. injection Ho as Eo Eos.
  assert (Hu1 : untouched cfg Q p ic mh m env c1).
  { rewrite <- Eo in Hz1. exact (untouched_step cfg Q p ic mh m env c r1 i1 i2 c1 HQ Hv Hq Hi1 Hu Hc1 Hz1). }
  destruct (IH raws c1 r i2 cf outs Hu1 Hq2 Hi2 Hf' Hrun) as (c2 & r2 & j2 & U & Hj & Hn & Hr2 & Eo2 & Ed); try assumption.
  { rewrite E, Eos. reflexivity. }
  exists c2, r2, j2. cbn [length skipn nth_error]. split; [exact U|]. split; [exact Hj|]. split; [exact Hn|]. split; [exact Hr2|].
  split; [rewrite Eo2, E1, <- app_assoc, <- Eo; reflexivity|]. rewrite Ed, E2. lia.
Qed.

Lemma NoDup_right {A} (l l' : list A) : NoDup (l ++ l') -> NoDup l'.
Proof. induction l as [|y l IH]; cbn [app]; intros H; [exact H|]. inversion H; subst. auto. Qed.

(** If the ground is bare at the start and the first lines of the file show no snow, starting the run at the date
    of the last of these lines, again on bare ground, gives the rest of the file. *)
Theorem C80_a_snow_free_beginning_can_be_left_out p end_date cfg ic mh m rows used free out :
  valid_setup p cfg ic -> is_z_s ic = 0 -> Forall (fun row => valid_record (snd row)) rows ->
  read_input_data (p_start_date p) end_date rows = Ok used -> one_record_per_step (p_start_date p) (cfg_norm cfg) used ->
  pysnobal_run p end_date cfg ic mh m rows = Ok (free ++ out) -> Forall (fun l => num "z_s" l = 0) free -> out <> [] ->
  pysnobal_run (starting (p_start_date p + Z.of_nat (length free) * cfg_norm cfg) p) end_date cfg ic mh m rows = Ok out.
Proof.
  intros Hv Hb Hrows Hu Hreg H Hfree Hne.
  destruct (pysnobal_run_inv _ _ _ _ _ _ _ _ H)
    as (info & used' & i1 & r0 & rest & env & c0 & c & Hi & Hu' & Eu & Hnd & Hi1 & Hinit & Hrun & Hoc & Eo).
  rewrite Hu in Hu'. injection Hu' as <-. pose proof (vs_steps _ _ _ Hv) as (Ps & Pm & Pn).
  destruct (init_tso _ _ _ _ _ _ _ Hinit) as (Ht & Hdt & Ho & _ & Ei & _ & _ & _ & Hn0).
  assert (Hcfg : configured cfg env) by (unfold configured; congruence).
  assert (Hsort : sorted_by o_date (c_outputs c)).
  { destruct (run_steps_outputs cfg env ltac:(lia) ltac:(lia) ltac:(lia) Hcfg _ _ _ _ Hrun (or_introl Ht))
      as (_ & os & E & S & _). rewrite Ho in E. cbn in E. rewrite E. assumption. }
  rewrite (sort_id _ _ Hsort) in Eo. change (free ++ out = map line (c_outputs c)) in Eo.
  symmetry in Eo. apply map_eq_app in Eo. destruct Eo as (ofree & oout & Eoc & E1 & E2).
  assert (Hval : Forall (fun row => valid_record (snd row)) used).
  { unfold read_input_data in Hu. inv_bind Hu as cl Hc. injection Hu as Hu. rewrite <- Hu. apply Forall_map. apply Forall_forall. intros x Hx.
    apply prepare_valid. unfold clip_rows in Hc. destruct rows as [|q0 [|q1 qs]]; try discriminate. injection Hc as <-.
    apply filter_In in Hx. destruct Hx as (Hx & _).
    apply (Permutation.Permutation_in x (Permutation.Permutation_sym (sort_perm fst (q0 :: q1 :: qs)))) in Hx.
    rewrite Forall_forall in Hrows. auto. }
  rewrite Eu in Hval. inversion Hval as [|? ? Hv0 Hvr]; subst x l.
  destruct (init_bare _ _ _ _ _ _ _ _ Hv Hi Hb Hinit) as (Hl0 & Hh0).
  destruct (init_sound _ _ _ _ _ _ _ _ Hv Hi Hinit) as ([_ _ S0] & _).
  assert (Hz0 : z_s (c_ss c0) = 0) by (exact (init_depth p cfg info ic mh m env c0 Hv Hi Hb Hinit)).
  assert (U0 : untouched cfg valid_record p ic mh m env c0).
  { split; try assumption. exists info, c0. repeat (split; [assumption|]). constructor. }
  assert (Hfo : Forall (fun o => z_s (o_state o) = 0) ofree).
  { rewrite <- E1, Forall_map in Hfree. eapply Forall_impl; [|exact Hfree]. intros o Hoz. cbv beta in Hoz. rewrite z_cell in Hoz. exact Hoz. }
  assert (Hlen : length ofree = length free) by (rewrite <- E1, map_length; reflexivity).
  destruct (untouched_prefix cfg valid_record p ic mh m env (fun r X => X) Hv ofree (map snd rest) c0 (snd r0) i1 c oout)
    as (c1 & r2 & i2 & [U1 U2 U3 U4 U5] & Hi2 & Hn2 & Hrun2 & Eo1 & Ed1); try assumption.
  { apply Forall_map. exact Hvr. }
  { rewrite Ho. cbn [app]. exact Eoc. }
  { intros ->. apply Hne. rewrite <- E2. reflexivity. }
  rewrite Hlen in *. set (n := length free) in *. set (start' := (p_start_date p + Z.of_nat n * cfg_norm cfg)%Z) in *.
  assert (Hnn : (0 < cfg_norm cfg)%Z) by lia.
  pose proof (later_window _ end_date _ n rows used Hnn Hu Hreg) as Hwin. fold start' in Hwin.
  unfold pysnobal_run. rewrite Hi. cbn [bind]. change (p_start_date (starting start' p)) with start'. rewrite Hwin. cbn [bind].
  unfold simulate.
  (* the record in force at the new start *)
  assert (Hsk : exists row, nth_error used n = Some row /\ snd row = r2 /\ skipn n used = row :: skipn n rest).
  { rewrite Eu. destruct (nth_error (r0 :: rest) n) as [row|] eqn:E.
    - exists row. split; [reflexivity|].
      assert (G : nth_error (map snd (r0 :: rest)) n = Some (snd row)) by (apply map_nth_error; exact E).
      cbn [map] in G. rewrite Hn2 in G. injection G as ->. split; [reflexivity|].
      clearbody n. clear - E. revert r0 n E. induction rest as [|x l IH]; intros r0 n E; destruct n as [|n]; cbn in E |- *.
      + injection E as ->. reflexivity.
      + destruct n; discriminate.
      + injection E as ->. reflexivity.
      + rewrite (IH x n E). destruct n; reflexivity.
    - exfalso. apply nth_error_None in E. assert (G : nth_error (snd r0 :: map snd rest) n <> None) by congruence.
      apply nth_error_Some in G. cbn [length] in G, E. rewrite map_length in G. exact (Nat.lt_irrefl _ (Nat.lt_le_trans _ _ _ G E)). }
  destruct Hsk as (row & Hrow & Er & Esk). rewrite Esk.
  assert (Hdd : negb (distinct_dates (map fst (row :: skipn n rest))) = false).
  { apply negb_false_iff. apply distinct_dates_NoDup. rewrite <- Esk. rewrite <- (firstn_skipn n used), map_app in Hnd.
    exact (NoDup_right _ _ Hnd). }
  rewrite Hdd. rewrite Er, Hi2. cbn [bind].
  assert (Hin' : snobal_init (starting start' p) info ic mh m = Ok (env, mkCore (c_ss c0) start' 0%Z [] (None, None) [])).
  { unfold snobal_init in *. cbn [starting p_elevation p_start_date]. inv_bind Hinit as pa Hpa. rewrite Hpa. cbn [bind].
    change (create_snow_state (starting start' p)) with (create_snow_state p). inv_bind Hinit as s Hs. rewrite Hs. cbn [bind].
    inv_bind Hinit as s1 Hs1. rewrite Hs1. cbn [bind]. 
    assert (Env : mkEnv info pa mh false m = env) by (apply (f_equal (fun r => match r with Ok q => fst q | Err _ => env end)) in Hinit; exact Hinit).
    assert (Ess : s1 = c_ss c0) by (apply (f_equal (fun r => match r with Ok q => c_ss (snd q) | Err _ => s1 end)) in Hinit; exact Hinit).
    rewrite Env, Ess. reflexivity. }
  rewrite Hin'. cbn [bind].
  set (c1' := mkCore (c_ss c0) start' 0%Z [] (None, None) []) in *.
  assert (Hr1' : model_run valid_record (starting start' p) cfg ic mh m env c1').
  { exists info, c1'. split; [assumption|]. split; [exact Hin'|]. constructor. }
  assert (Hv' : valid_setup (starting start' p) cfg ic) by (destruct Hv; split; assumption).
  pose proof (C80_bare_ground_forgets_in_runs valid_record valid_record p start' cfg ic ic mh m env env c1 c1' i2 (skipn n (map snd rest))
    (fun r X => X) (fun r X => X) Hv Hv' eq_refl U1 Hr1') as F.
  assert (F' := F ltac:(unfold c1'; cbn [c_datetime]; rewrite Ed1, Hdt; reflexivity) U2 Hl0 ltac:(unfold c1'; cbn [c_ss]; rewrite U3; exact Hz0)
     ltac:(unfold c1'; cbn [c_ss]; rewrite U4; exact Hh0) ltac:(rewrite U5; reflexivity)). clear F.
  rewrite Hrun2 in F'. rewrite skipn_map in F'. rewrite skipn_map in Hrun2.
  match type of F' with match ?r with _ => _ end => destruct r as [x'|] eqn:Ex; [|contradiction] end.
  match goal with |- bind ?a _ = _ => replace a with (Ok x') by (symmetry; exact Ex) end. cbn [bind].
  destruct F' as (new & N1 & N2). cbn [c1' c_outputs app] in N2.
  rewrite Eo1, Ho, Eoc in N1. cbn [app] in N1. apply app_inv_head in N1. subst new.
  assert (Hsort' : sorted_by o_date oout).
  { rewrite Eoc in Hsort. clear - Hsort. induction ofree as [|x l IH]; [exact Hsort|]. inversion Hsort; subst. auto. }
  unfold output_to_file. rewrite N2. destruct oout as [|o os] eqn:Eq; [exfalso; apply Hne; rewrite <- E2; reflexivity|].
  rewrite <- Eq in *. rewrite (sort_id _ _ Hsort'). rewrite <- E2. reflexivity.
Qed.

(** ** The hypotheses are met: an hour without precipitation, then an hour of snowfall (60 kg/m2) *)
From Verif Require Import Witness.
Definition late_snow : list (CsvRow (T:=R)) :=
  [(0%Z, mkRaw 0 200 5 600 2 3 0 0 0 0); (60%Z, mkRaw 0 200 5 600 2 3 60 1 100 (-3)); (120%Z, mkRaw 0 200 5 600 2 3 0 0 0 0)].
Lemma late_snow_valid : Forall (fun row => valid_record (snd row)) late_snow.
Proof. repeat constructor; cbn; intros; lra. Qed.

Lemma same_snow_z (s s' : SnowState R) : same_snow s s' -> z_s s = z_s s'.
Proof. intros (x1 & x2 & x3 & x4 & ->). reflexivity. Qed.

Lemma dry_input (d : RawInput R) i : input_data d = Ok i -> nltb (nofZ 0) (r_m_pp d) = false -> i_precip_now i = false.
Proof. unfold input_data. intros H E. rewrite E in H. injection H as <-. reflexivity. Qed.

Example C80_witness m : exists used l1 l2,
  valid_setup wp wcfg wic /\ is_z_s wic = 0 /\ Forall (fun row => valid_record (snd row)) late_snow /\
  read_input_data (p_start_date wp) 60 late_snow = Ok used /\ one_record_per_step (p_start_date wp) (cfg_norm wcfg) used /\
  pysnobal_run wp 60 wcfg wic wmh m late_snow = Ok ([l1] ++ [l2]) /\ num "z_s" l1 = 0 /\ 0 < num "z_s" l2 /\
  pysnobal_run (starting 60 wp) 60 wcfg wic wmh m late_snow = Ok [l2].
Proof.
  assert (Hv : valid_setup wp wcfg wic) by (apply (w_setup (1/4)); apply w_quarter).
  assert (Hu : read_input_data (p_start_date wp) 60 late_snow = Ok (map prepare_row late_snow)) by reflexivity.
  assert (Hreg : one_record_per_step (p_start_date wp) (cfg_norm wcfg) (map prepare_row late_snow)).
  { intros k row E. apply (map_nth_error fst) in E. change (map fst (map prepare_row late_snow)) with [0%Z; 60%Z; 120%Z] in E.
    change (p_start_date wp) with 0%Z. change (cfg_norm wcfg) with 60%Z.
    destruct k as [|[|[|k]]]; cbn [nth_error] in E; [injection E as <-; reflexivity..|destruct k; discriminate]. }
  assert (G : exists l1 l2, pysnobal_run wp 60 wcfg wic wmh m late_snow = Ok ([l1] ++ [l2]) /\ num "z_s" l1 = 0 /\ 0 < num "z_s" l2).
  { unfold pysnobal_run. destruct w_info as (info & Hi). rewrite Hi. cbn [bind]. rewrite Hu. cbn [bind].
    set (d0 := snd (prepare_row (nth 0 late_snow (0%Z, w_calm)))). set (d1 := snd (prepare_row (nth 1 late_snow (0%Z, w_calm)))).
    set (d2 := snd (prepare_row (nth 2 late_snow (0%Z, w_calm)))).
    unfold simulate. change (negb (distinct_dates (map fst (map prepare_row late_snow)))) with false. cbv iota.
    change (map prepare_row late_snow) with [(0%Z, d0); (60%Z, d1); (120%Z, d2)]. cbv iota beta. cbn [snd map].
    assert (V0 : valid_record d0) by (split; cbn; intros; lra). assert (V1 : valid_record d1) by (split; cbn; intros; lra).
    destruct (input_data_dec d0) as [(i1 & H1)|(e & He)].
    2:{ apply input_data_error in He. destruct He as (_ & H & _). change (Rltb 0 0 = true) in H. destruct (Rltb_spec 0 0); [lra|discriminate]. }
    destruct (input_data_dec d1) as [(i2 & H2)|(e & He)].
    2:{ apply input_data_error in He. destruct He as (_ & _ & _ & H). change (Rltb 0 100 = false) in H. destruct (Rltb_spec 0 100); [discriminate|lra]. }
    destruct (input_data_dec d2) as [(i3 & H3)|(e & He)].
    2:{ apply input_data_error in He. destruct He as (_ & H & _). change (Rltb 0 0 = true) in H. destruct (Rltb_spec 0 0); [lra|discriminate]. }
    rewrite H1. cbn [bind].
    destruct (init_defined wp wcfg info wic wmh m Hv Hi ltac:(cbn; lra)) as (env & c0 & Hin). rewrite Hin. cbn [bind run_steps].
    rewrite H2. cbn [bind].
    destruct (init_bare _ _ _ _ _ _ _ _ Hv Hi eq_refl Hin) as (Hl & Hh).
    destruct (init_tso _ _ _ _ _ _ _ Hin) as (Ht & _ & Ho0 & Tr0 & Ei & Eo & _).
    destruct (init_sound _ _ _ _ _ _ _ _ Hv Hi Hin) as (Hs0 & _).
    assert (Hz0 : z_s (c_ss c0) = 0) by (exact (init_depth wp wcfg info wic wmh m env c0 Hv Hi eq_refl Hin)).
    assert (Hp' : parse_time_steps wcfg = Ok (ev_tstep_info env)) by congruence.
    assert (Hnp : i_precip_now i1 = false).
    { apply (dry_input d0 i1 H1). change (Rltb 0 0 = false). destruct (Rltb_spec 0 0); [lra|reflexivity]. }
    (* the dry hour *)
    assert (D1 : exists c1, do_data_tstep env c0 i1 i2 = Ok c1 /\ z_s (c_ss c1) = 0 /\ h2o (c_ss c1) = 0).
    { destruct (deltas_exist wcfg _ d0 i1 i2 (vs_steps _ _ _ Hv) Hp' H1) as (ds & d & Hds & Hd & _).
      set (s1 := set_E_flux 0 (set_en zero_energy (set_h2o_total 0 (c_ss c0)))).
      assert (Hns : has_snow (c_ss c0) = false) by (unfold has_snow; rewrite Hl; reflexivity).
      assert (He : energy_balance env (60 * cfg_norm wcfg) (c_hle1_init c0) i1 (set_h2o_total 0 (c_ss c0)) = Ok (s1, i1, c_hle1_init c0)).
      { unfold energy_balance. change (has_snow (set_h2o_total 0 (c_ss c0))) with (has_snow (c_ss c0)). rewrite Hns. reflexivity. }
      pose proof (mb_bare (ev_P_a env) (mh_z_g (ev_heights env)) (60 * cfg_norm wcfg) i1 s1) as Hm.
      unfold precip_event in Hm. rewrite Hnp in Hm. cbn [rmap fst] in Hm.
      pose proof (single_data_step wcfg env c0 i1 i2 ds d) as Hst. cbv zeta in Hst. rewrite Hnp, Hns in Hst.
      destruct (Hst _ _ _ _ _ Hp' Ht Hds Hd ltac:(unfold below_thold; rewrite Hl; reflexivity) He Hm) as (c1 & e & A & _ & _ & _ & _ & _ & B & _).
      exists c1. split; [exact A|]. rewrite B. split; [exact Hz0|exact Hh]. }
    destruct D1 as (c1 & Hc1 & Hz1 & Hh1). rewrite Hc1. cbn [bind]. rewrite H3. cbn [bind].
    assert (U0 : untouched wcfg valid_record wp wic wmh m env c0).
    { split; try assumption; [exists info, c0; repeat (split; [assumption|]); constructor|apply (init_tso _ _ _ _ _ _ _ Hin)]. }
    pose proof (untouched_step wcfg valid_record wp wic wmh m env c0 d0 i1 i2 c1 (fun r X => X) Hv V0 H1 U0 Hc1 Hz1) as [R1 L1 _ _ _].
    destruct (run_settings _ _ _ _ _ _ _ _ (fun r X => X) Hv R1) as (Hs1 & _ & _). pose proof (run_time_since_out _ _ _ _ _ _ _ _ R1) as Ht1.
    destruct (bare_data_step_ok wcfg env c1 d1 i2 i3 (vs_steps _ _ _ Hv) Hp' Ht1 Hs1 L1 V1 H2) as (c2 & e2 & Hc2 & Htr2 & Hb2 & Hp2 & _ & d & Hd2 & He2).
    rewrite Hc2. cbn [bind].
    assert (Hcfg : configured wcfg env) by exact Hp'.
    destruct (bare_one_output wcfg env c0 i1 i2 c1 Hcfg Ht Hl Hc1) as (O1 & T1 & _).
    destruct (bare_one_output wcfg env c1 i2 i3 c2 Hcfg Ht1 L1 Hc2) as (O2 & T2 & _).
    unfold output_to_file. rewrite O2, O1, Ho0. cbn [app]. rewrite T2, T1.
    match goal with |- context [sort_by o_date ?l] => rewrite (sort_id o_date l) end.
    2:{ repeat constructor. cbn. lia. }
    match goal with |- exists _ _, Ok (map _ [?a; ?b]) = _ /\ _ => exists (line a), (line b) end. split; [reflexivity|]. rewrite !z_cell. cbn [o_state]. split; [exact Hz1|].
    assert (R2 : model_run valid_record wp wcfg wic wmh m env c2).
    { destruct R1 as (info' & c0' & X & Y & Z). exists info', c0'. split; [assumption|]. split; [assumption|].
      eapply reach_step; [exact Z|exists d1; split; eassumption|exact Hc2]. }
    destruct (run_settings _ _ _ _ _ _ _ _ (fun r X => X) Hv R2) as ([_ _ S2] & _ & _).
    destruct S2 as [K|B]; [exact (packed_z_pos _ K)|exfalso].
    (* 60 kg/m2 of snow make a pack *)
    assert (Pp : r_m_pp d1 = 60 /\ r_percent_snow d1 = 1) by (split; reflexivity). destruct Pp as (P1 & P2).
    destruct (input_data_phase d1 i2 H2 ltac:(lra)) as (N1 & N2 & N3 & _).
    destruct (input_data_raw _ _ H2) as (_ & _ & _ & _ & _ & _ & _ & N4 & _).
    destruct (level_deltas_R _ _ _ _ Hd2) as (_ & _ & r & Hr & Q1 & Q2 & _).
    destruct (input_data_phase r d Hr ltac:(rewrite Q1, N2, P1; lra)) as (_ & _ & M & _).
    rewrite N1 in He2.
    assert (Hsn : i_m_snow (e_input e2) = 60 /\ i_precip_now (e_input e2) = true).
    { rewrite He2. split; [|exact N1]. change (i_m_snow d = 60). rewrite M, Q1, Q2, N2, N4, P1, P2. lra. }
    destruct Hsn as (Hsn & Hnow).
    assert (He : In e2 (c_trace c2)) by (rewrite Htr2; apply in_or_app; right; left; reflexivity).
    destruct (event_facts valid_record wp wcfg wic wmh m env c2 (fun r X => X) Hv R2 e2 He) as (_ & _ & O & _ & (_ & Hth & _) & _).
    destruct O as [(K & _)|(_ & _ & _ & (_ & _ & _ & [(_ & _ & _ & _ & X)|[(_ & _ & _ & _ & _ & _ & X)|(X & _)]]))].
    - rewrite Hb2 in K. destruct (layered_count _ (proj1 K)) as [[_ E]|[_ E]]; congruence.
    - specialize (X Hnow). lra.
    - rewrite Hsn, Hth in X. change (60 <= 1) in X. lra.
    - pose proof (last_event_state valid_record wp wcfg wic wmh m env c2 _ e2 (fun r X => X) Hv R2 Htr2) as Hss.
      pose proof (packed_z_pos _ (np_packed _ _ X)) as Z. rewrite (same_snow_z _ _ Hss), (br_z _ B) in Z. pose proof (br_z0 _ B). lra. }
  destruct G as (l1 & l2 & G & G1 & G2). exists (map prepare_row late_snow), l1, l2. repeat (split; [assumption || reflexivity|]).
  split; [exact late_snow_valid|]. split; [exact Hu|]. split; [exact Hreg|]. split; [exact G|]. split; [exact G1|]. split; [exact G2|].
  refine (C80_a_snow_free_beginning_can_be_left_out wp 60 wcfg wic wmh m late_snow _ [l1] [l2] Hv eq_refl late_snow_valid Hu Hreg G _ _); [repeat constructor; exact G1|discriminate].
Qed.

(** In binary64: from the same bare ground on, an hour of snowfall and an hour of wind.  The lines that follow are
    the same for two pasts that leave the same iteration start values (here with other outputs written and other
    running totals behind them), and differ if only the start values differ: the third hypothesis is needed. *)
From Coq Require Import Floats.
From Verif Require Import FloatNum.
Definition f_rec (m_pp : float) : RawInput float := mkRaw 50 250 272 300 2 271 m_pp 1 100 270.
Definition f_later (start : option float * option float) (past : float) : option (list (list (option float))) :=
  match parse_time_steps w_even with
  | Ok info => match snobal_init w_params info w_bare w_heights false with
    | Ok (env, c) => match input_data (f_rec 30) with
      | Ok i1 => match run_steps env (mkCore (set_melt past (set_E_s_sum past (c_ss c))) (c_datetime c) 0%Z [] start []) i1 [f_rec 0; f_rec 0] with
        | Ok c' => Some (map (fun o => map snd (csv_row (o_state o))) (c_outputs c'))
        | Err _ => None end
      | Err _ => None end
    | Err _ => None end
  | Err _ => None end.
Definition same_lines (a b : option (list (list (option float)))) : bool :=
  match a, b with
  | Some x, Some y => forallb (fun q => forallb (fun w => match w with (Some u, Some v) => PrimFloat.eqb u v | (None, None) => true | _ => false end)
      (combine (fst q) (snd q))) (combine x y)
  | _, _ => false end.
Example bare_ground_forgets_in_floats :
  same_lines (f_later (None, None) 0) (f_later (None, None) 12.5%float) = true /\
  same_lines (f_later (None, None) 0) (f_later (Some 0.25%float, Some (-0.001953125)%float) 0) = false.
Proof. vm_compute. split; reflexivity. Qed.
Print Assumptions C80_bare_ground_forgets.
Print Assumptions C80_bare_ground_forgets_in_runs.
Print Assumptions C80_a_snow_free_beginning_can_be_left_out.

