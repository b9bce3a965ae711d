(** * Theorems C64, C65: what the results do not depend on.

    C64: the calendar only labels the lines.  C65: the precipitation of the last
    record is never used.  Both for every number type. *)
From Coq Require Import String ZArith Bool Lia List.
Import ListNotations.
From Verif Require Import Num Real Constants Functions Libsnobal Input SnowState Snobal PySnobal Strip Thm_Api.

Section Shift.
Context {T : Type} {N : Num T}.
Context (k : Z).

(** dates moved by [k] minutes *)
Definition later {A} (x : Z * A) : Z * A := ((fst x + k)%Z, snd x).
Definition later_params (p : Params T) : Params T :=
  mkParams (p_elevation p) (p_start_date p + k) (p_max_h2o_vol p) (p_max_z_s_0 p) (p_relative_heights p).

Definition later_out (o : OutRec T) : OutRec T := mkOut (o_date o + k) (o_state o).
Definition later_event (e : Event T) : Event T :=
  mkEvent (e_tstep e) (e_start e + k) (e_input e) (e_before e) (e_after e) (e_kept e).
Definition later_core (c : Core T) : Core T :=
  mkCore (c_ss c) (c_datetime c + k) (c_time_since_out c) (map later_out (c_outputs c)) (c_hle1_init c)
         (map later_event (c_trace c)).
Definition later_ci (x : Core T * InputData T) := (later_core (fst x), snd x).
Definition later_d (d : DState T) : DState T := mkD (later_core (d_core d)) (d_input d) (d_level d).

Lemma later_output c : output (later_core c) = rmap later_core (output c).
Proof.
  unfold output. cbn [later_core c_ss]. destruct (swi_sum (c_ss c)); [|reflexivity].
  cbn [rmap]. unfold later_core. cbn. rewrite map_app. reflexivity.
Qed.

Lemma later_do_tstep env ds ts c i : do_tstep env ds ts (later_core c) i = rmap later_ci (do_tstep env ds ts c i).
Proof.
  unfold do_tstep. cbn [later_core c_ss c_hle1_init c_datetime c_time_since_out c_outputs c_trace].
  rewrite rmap_bind. apply bind_ext. intros d. rewrite rmap_bind. apply bind_ext. intros [[s i'] init].
  rewrite rmap_bind. apply bind_ext. intros [s2 kept]. rewrite rmap_bind. apply bind_ext. intros [s3 tso].
  set (ev := mkEvent ts (c_datetime c) _ _ _ _).
  set (c1 := mkCore s3 (c_datetime c + ts_minutes ts)%Z tso (c_outputs c) init (c_trace c ++ [ev])).
  match goal with |- context [output ?x] => assert (E : x = later_core c1) end.
  { unfold later_core, c1. cbn. rewrite map_app. f_equal. lia. }
  rewrite E. destruct (ev_output_divided env); [|reflexivity].
  rewrite later_output, bind_rmap, rmap_bind. apply bind_ext. reflexivity.
Qed.

Lemma iter_rmap {A} (g : A -> A) n (b : A -> result A) : (forall x, b (g x) = rmap g (b x)) ->
  forall x, iter_res n b (g x) = rmap g (iter_res n b x).
Proof.
  intros Hb. induction n as [|n IH]; intros x; [reflexivity|]. cbn [iter_res]. rewrite Hb, bind_rmap, rmap_bind.
  apply bind_ext. intros y. apply IH.
Qed.

Lemma later_divide env ds : forall f st, divide_tstep f env ds (later_d st) = rmap later_d (divide_tstep f env ds st).
Proof.
  induction f as [|f IH]; intros st; [reflexivity|]. cbn [divide_tstep]. cbn [later_d d_level d_input d_core].
  rewrite rmap_bind. apply bind_ext. intros ts. rewrite rmap_bind. apply bind_ext. intros i.
  change (mkD (later_core (d_core st)) i (d_level st))
    with (later_d (mkD (d_core st) i (d_level st))).
  rewrite (iter_rmap later_d).
  - rewrite bind_rmap, rmap_bind. apply bind_ext. intros st'. cbn [later_d d_level d_core d_input].
    destruct ((d_level st' =? 0)%Z && negb (ev_output_divided env)); [|reflexivity].
    rewrite later_output, bind_rmap, rmap_bind. apply bind_ext. reflexivity.
  - intros x. cbn [later_d d_level d_core d_input]. cbn [later_core c_ss].
    destruct (negb _ && _); [exact (IH (mkD (d_core x) (d_input x) (d_level x + 1)))|].
    change (mkCore (c_ss (d_core x)) (c_datetime (d_core x) + k) (c_time_since_out (d_core x))
       (map later_out (c_outputs (d_core x))) (c_hle1_init (d_core x)) (map later_event (c_trace (d_core x))))
      with (later_core (d_core x)).
    rewrite later_do_tstep, bind_rmap, rmap_bind. apply bind_ext. intros [c j]. reflexivity.
Qed.

Lemma later_data_step env c i1 i2 : do_data_tstep env (later_core c) i1 i2 = rmap later_core (do_data_tstep env c i1 i2).
Proof.
  unfold do_data_tstep. rewrite rmap_bind. apply bind_ext. intros ds.
  change (mkD (later_core c) i1 NORMAL_TSTEP) with (later_d (mkD c i1 NORMAL_TSTEP)).
  rewrite later_divide, bind_rmap, rmap_bind. apply bind_ext. reflexivity.
Qed.

Lemma later_run_steps env raws : forall c i1, run_steps env (later_core c) i1 raws = rmap later_core (run_steps env c i1 raws).
Proof.
  induction raws as [|r raws IH]; intros c i1; [reflexivity|]. cbn [run_steps]. rewrite rmap_bind. apply bind_ext. intros i2.
  rewrite later_data_step, bind_rmap, rmap_bind. apply bind_ext. intros c1. apply IH.
Qed.

Lemma insert_map {A B} (ka : A -> Z) (kb : B -> Z) (g : A -> B) :
  (forall x y, (kb (g x) <=? kb (g y))%Z = (ka x <=? ka y)%Z) ->
  forall x l, insert_by kb (g x) (map g l) = map g (insert_by ka x l).
Proof.
  intros H x. induction l as [|y l IH]; [reflexivity|]. cbn [map insert_by]. rewrite H.
  destruct (ka x <=? ka y)%Z; [reflexivity|]. cbn [map]. rewrite IH. reflexivity.
Qed.
Lemma sort_map {A B} (ka : A -> Z) (kb : B -> Z) (g : A -> B) :
  (forall x y, (kb (g x) <=? kb (g y))%Z = (ka x <=? ka y)%Z) ->
  forall l, sort_by kb (map g l) = map g (sort_by ka l).
Proof. intros H. induction l as [|x l IH]; [reflexivity|]. cbn [map sort_by]. rewrite IH. apply insert_map. assumption. Qed.
Lemma filter_map {A B} (g : A -> B) (f : B -> bool) (f' : A -> bool) :
  (forall x, f (g x) = f' x) -> forall l, filter f (map g l) = map g (filter f' l).
Proof. intros H. induction l as [|x l IH]; [reflexivity|]. cbn. rewrite H, IH. destruct (f' x); reflexivity. Qed.

Lemma leb_shift a b : (a + k <=? b + k)%Z = (a <=? b)%Z.
Proof. apply eq_true_iff_eq. rewrite !Z.leb_le. lia. Qed.

Lemma later_read start_date end_date (rows : list (CsvRow (T:=T))) :
  read_input_data (start_date + k) (end_date + k) (map later rows) = rmap (map later) (read_input_data start_date end_date rows).
Proof.
  unfold read_input_data, clip_rows. destruct rows as [|r0 [|r1 rest]]; try reflexivity.
  cbn [map later fst]. cbn [bind rmap]. f_equal.
  change (later r0 :: later r1 :: map later rest) with (map later (r0 :: r1 :: rest)).
  rewrite (sort_map (@fst Z (RawInput T)) (@fst Z (RawInput T)) later) by (intros x y; cbn; apply leb_shift).
  rewrite (filter_map later _ (fun r => (start_date <=? fst r)%Z && (fst r <=? end_date + (fst r1 - fst r0))%Z)).
  - rewrite !map_map. apply map_ext. intros [d r]. reflexivity.
  - intros x. cbn [later fst]. rewrite leb_shift. f_equal. apply eq_true_iff_eq. rewrite !Z.leb_le. lia.
Qed.

Lemma later_distinct l : distinct_dates (map (fun d => (d + k)%Z) l) = distinct_dates l.
Proof.
  induction l as [|d l IH]; [reflexivity|]. cbn. rewrite IH. f_equal. f_equal. clear IH.
  induction l as [|x l IH]; [reflexivity|]. cbn. rewrite IH. f_equal. apply eq_true_iff_eq. rewrite !Z.eqb_eq. lia.
Qed.

Lemma later_simulate (p : Params T) info ic mh m rows :
  simulate (later_params p) info ic mh m (map later rows) = rmap later_core (simulate p info ic mh m rows).
Proof.
  unfold simulate. rewrite map_map. cbn [later fst].
  rewrite <- (map_map fst (fun d => (d + k)%Z)), later_distinct.
  destruct (negb _); [reflexivity|]. destruct rows as [|r0 rest]; [reflexivity|].
  cbn [map later snd]. rewrite rmap_bind. apply bind_ext. intros i1.
  assert (Hi : snobal_init (later_params p) info ic mh m = rmap (fun x => (fst x, later_core (snd x))) (snobal_init p info ic mh m)).
  { unfold snobal_init. cbn [later_params p_elevation p_start_date]. rewrite rmap_bind. apply bind_ext. intros pa.
    change (create_snow_state (later_params p)) with (create_snow_state p).
    rewrite rmap_bind. apply bind_ext. intros s. rewrite rmap_bind. apply bind_ext. reflexivity. }
  rewrite Hi, bind_rmap, rmap_bind. apply bind_ext. intros [env c0]. cbn [fst snd].
  rewrite map_map. cbn [later snd]. rewrite later_run_steps. reflexivity.
Qed.

(** C64: moving the start, the end and every input date by [k] minutes moves the
    dates of the output lines by [k] and changes nothing else *)
Theorem C64_results_do_not_depend_on_the_calendar (p : Params T) end_date cfg ic mh all_mode rows :
  pysnobal_run (later_params p) (end_date + k) cfg ic mh all_mode (map later rows)
  = match pysnobal_run p end_date cfg ic mh all_mode rows with
    | Ok out => Ok (map later out)
    | Err e => Err e
    end.
Proof.
  change (match pysnobal_run p end_date cfg ic mh all_mode rows with Ok out => Ok (map later out) | Err e => Err e end)
    with (rmap (map later) (pysnobal_run p end_date cfg ic mh all_mode rows)).
  unfold pysnobal_run. rewrite rmap_bind. apply bind_ext. intros info. cbn [later_params p_start_date].
  rewrite later_read, bind_rmap, rmap_bind. apply bind_ext. intros used.
  change (mkParams (p_elevation p) (p_start_date p + k) (p_max_h2o_vol p) (p_max_z_s_0 p) (p_relative_heights p)) with (later_params p).
  rewrite later_simulate, bind_rmap, rmap_bind. apply bind_ext. intros c. unfold output_to_file.
  cbn [later_core c_outputs]. destruct (c_outputs c) as [|o os]; [reflexivity|]. cbn [map rmap]. f_equal.
  change (later_out o :: map later_out os) with (map later_out (o :: os)).
  rewrite (sort_map o_date o_date later_out) by (intros x y; cbn; apply leb_shift). rewrite !map_map. reflexivity.
Qed.
End Shift.

Section Last.
Context {T : Type} {N : Num T}.

(** the record with other precipitation *)
Definition with_precip (m_pp percent_snow rho_snow t_pp : T) (r : RawInput T) : RawInput T :=
  mkRaw (r_S_n r) (r_I_lw r) (r_t_a r) (r_e_a r) (r_u r) (r_t_g r) m_pp percent_snow rho_snow t_pp.

Lemma input_met (r : RawInput T) i : input_data r = Ok i ->
  i_S_n i = r_S_n r /\ i_I_lw i = r_I_lw r /\ i_t_a i = r_t_a r /\ i_e_a i = r_e_a r /\ i_u i = r_u r /\ i_t_g i = r_t_g r.
Proof.
  unfold input_data. intros H. destruct (nltb (nofZ 0) (r_m_pp r)); [|injection H as <-; repeat split].
  inv_bind H as z Hz. destruct (_ && nltb _ _) in H; [injection H as <-; repeat split|].
  destruct (nltb (nofZ 0) (nmul _ _)) in H.
  - destruct (nltb _ FREEZE) in H; injection H as <-; repeat split.
  - destruct (nltb _ _) in H; injection H as <-; repeat split.
Qed.

Lemma data_step_met env c i1 i2 i2' :
  i_S_n i2 = i_S_n i2' -> i_I_lw i2 = i_I_lw i2' -> i_t_a i2 = i_t_a i2' -> i_e_a i2 = i_e_a i2' -> i_u i2 = i_u i2' ->
  i_t_g i2 = i_t_g i2' -> do_data_tstep (T:=T) env c i1 i2 = do_data_tstep env c i1 i2'.
Proof.
  intros E1 E2 E3 E4 E5 E6. unfold do_data_tstep.
  assert (E : input_deltas i1 i2 (ev_tstep_info env) = input_deltas i1 i2' (ev_tstep_info env)).
  { induction (ev_tstep_info env) as [|ts l IH]; [reflexivity|]. cbn [input_deltas].
    unfold level_deltas. rewrite E1, E2, E3, E4, E5, E6, IH. reflexivity. }
  rewrite E. reflexivity.
Qed.

Lemma run_steps_last env raws : forall c i1 r r' i i',
  input_data r = Ok i -> input_data r' = Ok i' ->
  r_S_n r = r_S_n r' -> r_I_lw r = r_I_lw r' -> r_t_a r = r_t_a r' -> r_e_a r = r_e_a r' -> r_u r = r_u r' -> r_t_g r = r_t_g r' ->
  run_steps (T:=T) env c i1 (raws ++ [r]) = run_steps env c i1 (raws ++ [r']).
Proof.
  induction raws as [|x raws IH]; intros c i1 r r' i i' H H' E1 E2 E3 E4 E5 E6; cbn [run_steps app].
  - rewrite H, H'. cbn [bind]. destruct (input_met _ _ H) as (F1 & F2 & F3 & F4 & F5 & F6).
    destruct (input_met _ _ H') as (G1 & G2 & G3 & G4 & G5 & G6).
    rewrite (data_step_met env c i1 i i') by congruence. reflexivity.
  - apply bind_ext. intros i2. apply bind_ext. intros c1. eapply IH; eassumption.
Qed.

(** C65: any two values of the last record's precipitation that are accepted at all
    give the same run *)
Theorem C65_last_precipitation_is_ignored (p : Params T) info ic mh all_mode first more d r m ps rs tp i i' :
  input_data r = Ok i -> input_data (with_precip m ps rs tp r) = Ok i' ->
  simulate p info ic mh all_mode (first :: more ++ [(d, with_precip m ps rs tp r)])
  = simulate p info ic mh all_mode (first :: more ++ [(d, r)]).
Proof.
  intros H H'. unfold simulate. cbn [map]. rewrite !map_app. cbn [map fst].
  destruct (negb _); [reflexivity|]. apply bind_ext. intros i1. apply bind_ext. intros [env c0].
  cbn [map snd]. eapply run_steps_last; [exact H'|exact H|..]; reflexivity.
Qed.
(** the same from file to file: two input files whose records in the window agree but
    for the precipitation of the last *)
Corollary C65_files (p : Params T) end_date cfg ic mh all_mode rows rows' first more d r m ps rs tp i i' :
  read_input_data (p_start_date p) end_date rows = Ok (first :: more ++ [(d, r)]) ->
  read_input_data (p_start_date p) end_date rows' = Ok (first :: more ++ [(d, with_precip m ps rs tp r)]) ->
  input_data r = Ok i -> input_data (with_precip m ps rs tp r) = Ok i' ->
  pysnobal_run p end_date cfg ic mh all_mode rows' = pysnobal_run p end_date cfg ic mh all_mode rows.
Proof.
  intros R R' H H'. unfold pysnobal_run. apply bind_ext. intros info. rewrite R, R'. cbn [bind].
  rewrite (C65_last_precipitation_is_ignored _ info ic mh all_mode first more d r m ps rs tp i i' H H'). reflexivity.
Qed.
End Last.

(** ** The hypotheses are met (binary64): a snowy last record, and the same with the
    snow turned into heavy rain, end in the same file; the same for a record earlier
    would not *)
From Coq Require Import Floats.
From Verif Require Import FloatNum Thm_Schedule.
Section Witness.
Open Scope float_scope.
Definition z_rec (m_pp pct : float) : RawInput float := mkRaw 50 250 272 300 2 270 m_pp pct 100 271.
Definition z_run (last : RawInput float) :=
  match simulate w_params (match parse_time_steps w_even with Ok i => i | _ => [] end) w_thin w_heights false
    [(0, z_rec 0 0); (60, z_rec 5 1); (120, last)]%Z with
  | Ok c => map (fun o => (o_date o, m_s (o_state o))) (c_outputs c) | Err _ => [] end.
Definition z_accepted (r : RawInput float) : bool := match input_data r with Ok _ => true | Err _ => false end.
Example C65_hypotheses_met : z_accepted (z_rec 0 0) = true /\ z_accepted (with_precip 90 0 0 280 (z_rec 0 0)) = true /\
  length (z_run (z_rec 0 0)) = 2%nat.
Proof. vm_compute. repeat split; reflexivity. Qed.
Example C64_runs_exist :
  (match pysnobal_run w_params 180 w_even w_thin w_heights false a_file with Ok l => map fst l | Err _ => [] end) = [60; 120; 180; 240]%Z /\
  (match pysnobal_run (later_params 1000 w_params) 1180 w_even w_thin w_heights false (map (later 1000) a_file) with
   | Ok l => map fst l | Err _ => [] end) = [1060; 1120; 1180; 1240]%Z.
Proof. vm_compute. split; reflexivity. Qed.
End Witness.

Print Assumptions C64_results_do_not_depend_on_the_calendar.
Print Assumptions C65_last_precipitation_is_ignored.
