(** * Theorem C84: the running water budget of a file

    At every line of the file, not only at its end (C73) or from one line to the next (C74): the snow shown is at
    most the initial snow, what has fallen until then and what has condensed until then; and it is at least that, less
    what has evaporated and run off until then.  Over the reals. *)
From Coq Require Import Reals String ZArith Bool Lia Lra List Sorted.
Import ListNotations.
From Verif Require Import Num Real Constants Functions Libsnobal Input SnowState Snobal PySnobal
  SchedSpec Sched Frame SchedProps Spec Averages Forcing Phys Mass MassEnd RunMass Run Strip Modes
  Thm_Schedule Thm_Forcing Thm_Mass Thm_Api Thm_Modes Thm_Files.
Open Scope R_scope.

(** ** Specification *)
(** the part of the period of [len] minutes from [from] that is over at time [t] *)
Definition elapsed (from len t : Z) : R := Rmax 0 (Rmin 1 (IZR (t - from) / IZR len)).
(** the precipitation until [t]: each record falls evenly over its period *)
Fixpoint fallen (from len : Z) (records : list (CsvRow (T:=R))) (t : Z) : R :=
  match records with
  | [] => 0
  | row :: rest => Rmax 0 (r_m_pp (snd row)) * elapsed from len t + fallen (from + len) len rest t
  end.
(** what condensed (or froze out of the air) according to the lines *)
Definition condensed (lines : list Line) : R := sum_over (fun l => Rmax 0 (num "E_s" l)) lines.

(** ** Proof *)
Lemma elapsed_before from len t : (0 < len)%Z -> (t <= from)%Z -> elapsed from len t = 0.
Proof.
  intros Hl Ht. unfold elapsed. apply Rmax_left. apply IZR_lt in Hl. apply Rle_trans with (1 := Rmin_r _ _).
  assert (IZR (t - from) <= 0) by (apply IZR_le; lia). unfold Rdiv. pose proof (Rinv_0_lt_compat _ Hl). nra.
Qed.
Lemma elapsed_after from len t : (0 < len)%Z -> (from + len <= t)%Z -> elapsed from len t = 1.
Proof.
  intros Hl Ht. unfold elapsed. apply IZR_lt in Hl.
  assert (1 <= IZR (t - from) / IZR len). { assert (IZR len <= IZR (t - from)) by (apply IZR_le; lia). apply Rmult_le_reg_r with (IZR len); [assumption|]. field_simplify; lra. }
  rewrite Rmin_left by assumption. apply Rmax_right. lra.
Qed.
Lemma elapsed_within from len t : (0 < len)%Z -> (from <= t <= from + len)%Z -> elapsed from len t = IZR (t - from) / IZR len.
Proof.
  intros Hl Ht. unfold elapsed. apply IZR_lt in Hl.
  assert (0 <= IZR (t - from) <= IZR len) by (split; apply IZR_le; lia).
  rewrite Rmin_right; [apply Rmax_right|].
  - unfold Rdiv. pose proof (Rinv_0_lt_compat _ Hl). nra.
  - apply Rmult_le_reg_r with (IZR len); [assumption|]. field_simplify; lra.
Qed.
Lemma fallen_before len records : (0 < len)%Z -> forall from t, (t <= from)%Z -> fallen from len records t = 0.
Proof.
  intros Hl. induction records as [|row rest IH]; intros from t Ht; [reflexivity|]. cbn [fallen].
  rewrite elapsed_before, IH by lia. ring.
Qed.
Lemma fallen_grows len records : (0 < len)%Z -> forall from k d r t u, nth_error records k = Some (d, r) ->
  (from + Z.of_nat k * len <= t <= u)%Z -> (u <= from + (Z.of_nat k + 1) * len)%Z ->
  fallen from len records u = fallen from len records t + Rmax 0 (r_m_pp r) * (IZR (u - t) / IZR len).
Proof.
  intros Hl. induction records as [|row rest IH]; intros from k d r t u Hk H1 H2; [destruct k; discriminate|].
  destruct k as [|k]; cbn [fallen].
  - cbn in Hk. injection Hk as ->. cbn [snd]. rewrite !(elapsed_within from len), !fallen_before by lia.
    rewrite !minus_IZR. apply IZR_lt in Hl. field. lra.
  - cbn [nth_error] in Hk. rewrite !(elapsed_after from len) by nia.
    rewrite (IH (from + len)%Z k d r t u Hk) by lia. ring.
Qed.

Lemma initial_mass_nonneg p cfg ic : valid_setup p cfg ic -> 0 <= initial_mass cfg ic.
Proof.
  intros Hv. unfold initial_mass. destruct (Rlt_dec 0 (is_z_s ic)); [|lra]. destruct (Rlt_dec (cfg_small_thr cfg) _); [|lra].
  pose proof (vs_thr _ _ _ Hv). lra.
Qed.

(** the 'all' file *)
Lemma running_budget p end_date cfg ic mh rows out :
  valid_setup p cfg ic -> divides_evenly cfg -> Forall (fun row => valid_record (snd row)) rows ->
  pysnobal_run p end_date cfg ic mh true rows = Ok out ->
  exists used, read_input_data (p_start_date p) end_date rows = Ok used /\
    forall pre b post, out = pre ++ b :: post ->
      initial_mass cfg ic + fallen (p_start_date p) (cfg_norm cfg) used (fst b) + total "E_s" (pre ++ [b])
        <= num "m_s" b + total "swi" (pre ++ [b]) /\
      Rmax 0 (num "m_s" b) <= initial_mass cfg ic + fallen (p_start_date p) (cfg_norm cfg) used (fst b) + condensed (pre ++ [b]).
Proof.
  intros Hv Hdiv Hf H. destruct (C74_water_balances_from_line_to_line p end_date cfg ic mh rows out Hv Hdiv Hf H) as (used & Hu & HB).
  exists used. split; [assumption|]. assert (Hn : (0 < cfg_norm cfg)%Z) by (destruct Hdiv; assumption).
  assert (Hstep : forall a b r, in_force p cfg used a b r ->
    fallen (p_start_date p) (cfg_norm cfg) used (fst b) = fallen (p_start_date p) (cfg_norm cfg) used (fst a) + share cfg r a b).
  { intros a b r (k & d & Hk & H1 & H2). apply (fallen_grows _ _ Hn _ k d r); [assumption|lia|lia]. }
  intros pre. induction pre as [|x pre IH] using rev_ind; intros b post E.
  - subst out. cbn [app]. destruct (HB [] (start_line p cfg ic) b post eq_refl) as (r & Hr & L & _ & U).
    rewrite (Hstep _ _ _ Hr). change (fst (start_line p cfg ic)) with (p_start_date p). rewrite (fallen_before _ _ Hn) by lia.
    change (num "m_s" (start_line p cfg ic)) with (initial_mass cfg ic) in L, U.
    rewrite (Rmax_right 0 (initial_mass cfg ic)) in U by (apply (initial_mass_nonneg p); assumption).
    unfold total, condensed, sum_over. cbn [fold_right]. split; lra.
  - rewrite <- app_assoc in E. cbn [app] in E. destruct (IH x (b :: post) E) as (I1 & I2).
    destruct (HB (start_line p cfg ic :: pre) x b post) as (r & Hr & L & _ & U); [rewrite E; reflexivity|].
    rewrite (Hstep _ _ _ Hr). unfold total, condensed in *. rewrite (sum_over_snoc (num "E_s") (pre ++ [x])), (sum_over_snoc (num "swi") (pre ++ [x])), (sum_over_snoc (fun l => Rmax 0 (num "E_s" l)) (pre ++ [x])). cbn beta. split; lra.
Qed.

(** a line of the summary, and the lines it and its predecessors summarise *)
Lemma summary_prefix d fine coarse : summary_of d fine coarse -> forall pre b post, coarse = pre ++ b :: post ->
  exists fpre x fpost, fine = fpre ++ x :: fpost /\ summary_of d (fpre ++ [x]) (pre ++ [b]) /\ fst b = fst x /\
    (forall k, In k state_columns -> cell k b = cell k x).
Proof.
  induction 1 as [d|d ls r fine coarse Hs Hr IH]; intros pre b post E; [destruct pre; discriminate|].
  destruct pre as [|q pre]; cbn [app] in E.
  - injection E as -> ->. pose proof Hs as (Hne & _ & Hd & Hst & _).
    destruct (exists_last Hne) as (l0 & x & ->). rewrite last_last in Hd, Hst. exists l0, x, fine. rewrite <- app_assoc. split; [reflexivity|].
    split; [|auto]. cbn [app]. rewrite <- (app_nil_r (l0 ++ [x])). apply summary_cons; [assumption|constructor].
  - injection E as -> E. destruct (IH pre b post E) as (fpre & x & fpost & -> & S & D & C).
    exists (ls ++ fpre), x, fpost. split; [rewrite <- app_assoc; reflexivity|]. split; [|auto].
    rewrite <- app_assoc. cbn [app]. apply summary_cons; assumption.
Qed.

(** In either mode and at every line [b] of the file: the initial snow, the precipitation until the date of the line
    and the vapour exchanged until then are in the snow shown or have run off. *)
Theorem C84_running_water_budget p end_date cfg ic mh all_mode rows out :
  valid_setup p cfg ic -> divides_evenly cfg -> Forall (fun row => valid_record (snd row)) rows ->
  pysnobal_run p end_date cfg ic mh all_mode rows = Ok out ->
  exists used, read_input_data (p_start_date p) end_date rows = Ok used /\
    forall pre b post, out = pre ++ b :: post ->
      initial_mass cfg ic + fallen (p_start_date p) (cfg_norm cfg) used (fst b) + total "E_s" (pre ++ [b])
        <= num "m_s" b + total "swi" (pre ++ [b]).
Proof.
  intros Hv Hdiv Hf H. pose proof (C63_output_mode_only_selects p end_date cfg ic mh rows (even_ordered _ Hdiv)) as HM.
  destruct all_mode.
  - destruct (running_budget p end_date cfg ic mh rows out Hv Hdiv Hf H) as (used & Hu & HB). exists used. split; [assumption|].
    intros pre b post E. exact (proj1 (HB pre b post E)).
  - rewrite H in HM. destruct (pysnobal_run p end_date cfg ic mh true rows) as [fine|x] eqn:E; [|contradiction]. cbn in HM.
    destruct (running_budget p end_date cfg ic mh rows fine Hv Hdiv Hf E) as (used & Hu & HB). exists used. split; [assumption|].
    intros pre b post Eo. destruct (summary_prefix _ _ _ HM pre b post Eo) as (fpre & x & fpost & -> & S & D & C).
    destruct (HB fpre x fpost eq_refl) as (L & _). rewrite D. unfold num at 1. rewrite (C "m_s"%string) by (cbn; tauto). fold (num "m_s" x).
    rewrite !(fun k Hk => summary_totals k _ _ _ Hk S) by (cbn; tauto). exact L.
Qed.

(** Snow comes from the sky: with one line per run step, the snow shown is at most the initial snow, the precipitation
    until then and what has condensed until then. *)
Theorem C84_snow_comes_from_the_sky p end_date cfg ic mh rows out :
  valid_setup p cfg ic -> divides_evenly cfg -> Forall (fun row => valid_record (snd row)) rows ->
  pysnobal_run p end_date cfg ic mh true rows = Ok out ->
  exists used, read_input_data (p_start_date p) end_date rows = Ok used /\
    forall pre b post, out = pre ++ b :: post ->
      num "m_s" b <= initial_mass cfg ic + fallen (p_start_date p) (cfg_norm cfg) used (fst b) + condensed (pre ++ [b]).
Proof.
  intros Hv Hdiv Hf H. destruct (running_budget p end_date cfg ic mh rows out Hv Hdiv Hf H) as (used & Hu & HB). exists used. split; [assumption|].
  intros pre b post E. destruct (HB pre b post E) as (_ & U). pose proof (Rmax_r 0 (num "m_s" b)). lra.
Qed.

(** The same for the lines of the normal mode, with what the 'all' file of the same run says about condensation. *)
Theorem C84_snow_comes_from_the_sky_in_summaries p end_date cfg ic mh rows out :
  valid_setup p cfg ic -> divides_evenly cfg -> Forall (fun row => valid_record (snd row)) rows ->
  pysnobal_run p end_date cfg ic mh false rows = Ok out ->
  exists used fine, read_input_data (p_start_date p) end_date rows = Ok used /\ pysnobal_run p end_date cfg ic mh true rows = Ok fine /\
    forall pre b post, out = pre ++ b :: post ->
    exists fpre x fpost, fine = fpre ++ x :: fpost /\ fst x = fst b /\
      num "m_s" b <= initial_mass cfg ic + fallen (p_start_date p) (cfg_norm cfg) used (fst b) + condensed (fpre ++ [x]).
Proof.
  intros Hv Hdiv Hf H. pose proof (C63_output_mode_only_selects p end_date cfg ic mh rows (even_ordered _ Hdiv)) as HM.
  rewrite H in HM. destruct (pysnobal_run p end_date cfg ic mh true rows) as [fine|x] eqn:E; [|contradiction]. cbn in HM.
  destruct (C84_snow_comes_from_the_sky p end_date cfg ic mh rows fine Hv Hdiv Hf E) as (used & Hu & HB). exists used, fine. split; [assumption|]. split; [reflexivity|].
  intros pre b post Eo. destruct (summary_prefix _ _ _ HM pre b post Eo) as (fpre & x & fpost & -> & S & D & C).
  exists fpre, x, fpost. split; [reflexivity|]. split; [congruence|]. pose proof (HB fpre x fpost eq_refl) as U.
  rewrite D. unfold num at 1. rewrite (C "m_s"%string) by (cbn; tauto). exact U.
Qed.

(** No precipitation and no condensation until then: the snow is at most what there was at the start. *)
Corollary C84_no_snow_from_nowhere p end_date cfg ic mh rows out :
  valid_setup p cfg ic -> divides_evenly cfg -> Forall (fun row => valid_record (snd row) /\ r_m_pp (snd row) <= 0) rows ->
  pysnobal_run p end_date cfg ic mh true rows = Ok out ->
  forall pre b post, out = pre ++ b :: post -> Forall (fun l => num "E_s" l <= 0) (pre ++ [b]) -> num "m_s" b <= initial_mass cfg ic.
Proof.
  intros Hv Hdiv Hf H pre b post E HE.
  assert (Hf' : Forall (fun row => valid_record (snd row)) rows) by (eapply Forall_impl; [|exact Hf]; cbn; tauto).
  destruct (C84_snow_comes_from_the_sky p end_date cfg ic mh rows out Hv Hdiv Hf' H) as (used & Hu & HB).
  pose proof (HB pre b post E) as U.
  assert (Z1 : condensed (pre ++ [b]) = 0).
  { clear - HE. unfold condensed. induction HE as [|l ls Hl _ IH]; [reflexivity|]. unfold sum_over in *. cbn [fold_right]. rewrite IH, Rmax_left by assumption. ring. }
  assert (Hd : Forall (fun row => r_m_pp (snd row) <= 0) used).
  { unfold read_input_data in Hu. inv_bind Hu as cl Hc. injection Hu as Hu. rewrite <- Hu.
    apply Forall_map. apply Forall_forall. intros x Hx. 
    unfold clip_rows in Hc. destruct rows as [|q0 [|q1 qs]]; try discriminate. injection Hc as <-.
    apply filter_In in Hx. destruct Hx as (Hx & _).
    apply (Permutation.Permutation_in x (Permutation.Permutation_sym (sort_perm fst (q0 :: q1 :: qs)))) in Hx.
    rewrite Forall_forall in Hf. exact (proj2 (Hf x Hx)). }
  assert (Z2 : forall t from, fallen from (cfg_norm cfg) used t = 0).
  { intros t. clear - Hd. induction Hd as [|row rest Hr _ IH]; intros from; [reflexivity|]. cbn [fallen]. rewrite IH, Rmax_left by assumption. ring. }
  rewrite Z1, Z2 in U. lra.
Qed.

(** ** The hypotheses are met: the hour of snowfall on bare ground of C73; half an hour into the record, half has fallen *)
From Verif Require Import Progress2 Witness Thm_Progress.
Example C84_witness m : exists out, pysnobal_run wp 60 wcfg wic wmh m snow_day = Ok out /\ out <> [] /\
  valid_setup wp wcfg wic /\ divides_evenly wcfg /\ Forall (fun row => valid_record (snd row)) snow_day /\
  fallen 0 60 snow_day 30 = 30 /\ fallen 0 60 snow_day 60 = 60.
Proof.
  assert (Hv : valid_setup wp wcfg wic) by (apply (w_setup (1/4)); apply w_quarter).
  destruct (snow_day_file m) as (out & H & Hn). exists out. split; [assumption|]. split; [assumption|]. split; [assumption|].
  split; [apply wcfg_even|]. split; [apply snow_day_valid|].
  unfold snow_day. cbn [fallen snd r_m_pp]. split.
  - rewrite (elapsed_within 0) by lia. rewrite (elapsed_before) by lia. rewrite Rmax_right by lra. change (30 - 0)%Z with 30%Z. lra.
  - rewrite (elapsed_after 0) by lia. rewrite (elapsed_before) by lia. rewrite Rmax_right by lra. lra.
Qed.
Print Assumptions C84_running_water_budget.
Print Assumptions C84_snow_comes_from_the_sky.
Print Assumptions C84_snow_comes_from_the_sky_in_summaries.
Print Assumptions C84_no_snow_from_nowhere.
