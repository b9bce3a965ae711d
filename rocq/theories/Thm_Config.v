(** * Theorem C94: the shipped defaults.

    What a user gets who leaves settings out of the configuration file (pysnobal_core_config.ini): over the reals, on the
    model of Config.v.  The hypotheses valid_setup and divides_evenly of the other theorems hold for the defaults. *)
From Coq Require Import Reals String ZArith Bool Lia Lra List.
Import ListNotations.
From Verif Require Import Num Real Constants Functions Libsnobal Input SnowState Snobal PySnobal Config
  SchedSpec Sched Frame SchedProps Spec Averages Forcing Phys Mass MassEnd RunMass Run Strip Modes Progress
  Thm_Schedule Thm_Api Thm_Modes Thm_Progress Thm_Init Thm_Files Thm_Steps.
Open Scope R_scope.

(** ** Specification *)
Implicit Types user : Settings (T:=R).
(** the user wrote nothing in that section; nothing for that key *)
Definition silent_section user (sec : string) : Prop := Forall (fun kv => fst (fst kv) <> sec) user.
Definition silent user (sec key : string) : Prop := Forall (fun kv => fst kv <> (sec, key)) user.
(** the first entry for that key *)
Definition given user (sec key : string) (v : Value) : Prop :=
  exists pre post, user = pre ++ ((sec, key), v) :: post /\ silent pre sec key.
(** the three settings without a default *)
Definition required user (elevation : R) (start stop : Z) : Prop :=
  given user "topo" "elevation" (VFloat elevation) /\ given user "time" "start_date" (VDate start) /\
  given user "time" "end_date" (VDate stop).

Lemma silent_lookup user sec key : silent user sec key -> lookup user sec key = None.
Proof.
  unfold lookup. induction 1 as [|[[s k] v] l H _ IH]; [reflexivity|]. cbn [find fst snd] in *.
  destruct (String.eqb_spec s sec) as [->|]; [|exact IH]. destruct (String.eqb_spec k key) as [->|]; [congruence|exact IH].
Qed.
Lemma given_lookup user sec key v : given user sec key v -> lookup user sec key = Some v.
Proof.
  intros (pre & post & -> & H). unfold lookup. induction H as [|[[s k] w] l H _ IH]; cbn [app find fst snd] in *.
  - rewrite !String.eqb_refl. reflexivity.
  - destruct (String.eqb_spec s sec) as [->|]; [|exact IH]. destruct (String.eqb_spec k key) as [->|]; [congruence|exact IH].
Qed.
Lemma section_silent user sec key : silent_section user sec -> silent user sec key.
Proof. intros H. eapply Forall_impl; [|exact H]. intros kv X E. apply X. rewrite E. reflexivity. Qed.

Lemma setting_given user sec key v : given user sec key v -> setting user sec key = Ok v.
Proof. intros H. unfold setting. rewrite (given_lookup _ _ _ _ H). reflexivity. Qed.
Lemma setting_default user sec key v : silent user sec key -> lookup core_defaults sec key = Some v -> setting user sec key = Ok v.
Proof. intros H E. unfold setting. rewrite (silent_lookup _ _ _ H), E. reflexivity. Qed.

(** ** The defaults, section by section *)
Definition default_model : ModelCfg R := mkCfg 60 15 1 60 10 1.
Definition default_snow : InitSnow R := mkInitSnow 0 0 0 0 0 (5/1000).
Definition default_heights : Heights R := mkHeights 5 5 (5/10).

Ltac dflt := unfold getf, geti; repeat (erewrite setting_default by (first [assumption | apply section_silent; assumption] || reflexivity); cbn [bind float_of int_of bool_of date_of]).

Theorem C94_default_model user : silent_section user "model" -> read_model user = Ok default_model.
Proof. intros H. unfold read_model. dflt. reflexivity. Qed.
Theorem C94_default_snow user : silent_section user "initial_snow_properties" -> read_snow user = Ok default_snow.
Proof. intros H. unfold read_snow. dflt. reflexivity. Qed.
Theorem C94_default_heights user : silent_section user "measurement_heights" -> read_heights user = Ok default_heights.
Proof. intros H. unfold read_heights. dflt. reflexivity. Qed.
Lemma default_params user elevation start stop : required user elevation start stop -> silent_section user "model" ->
  silent user "measurement_heights" "relative_heights" ->
  read_params user = Ok (mkParams elevation start (1/100) (25/100) false, stop).
Proof.
  intros (H1 & H2 & H3) Hm Hh. unfold read_params, getf. rewrite (setting_given _ _ _ _ H1), (setting_given _ _ _ _ H2), (setting_given _ _ _ _ H3).
  cbn [bind date_of float_of]. dflt. reflexivity.
Qed.

(** With nothing but the required settings (and file names and output mode) the run is the one of these parameters, and they meet
    the hypotheses of the other theorems. *)
Theorem C94_shipped_defaults user elevation start stop : required user elevation start stop ->
  silent_section user "model" -> silent_section user "initial_snow_properties" -> silent_section user "measurement_heights" ->
  (forall rows, config_run user rows =
     pysnobal_run (mkParams elevation start (1/100) (25/100) false) stop default_model default_snow default_heights (read_mode user) rows) /\
  valid_setup (mkParams elevation start (1/100) (25/100) false) default_model default_snow /\ divides_evenly default_model.
Proof.
  intros Hr Hm Hi Hh. split; [|split].
  - intros rows. unfold config_run. rewrite (default_params _ _ _ _ Hr Hm (section_silent _ _ _ Hh)). cbn [bind].
    rewrite (C94_default_model _ Hm), (C94_default_snow _ Hi), (C94_default_heights _ Hh). reflexivity.
  - split; cbn; try lra. repeat split; cbn; lia.
  - repeat split; cbn; try lia; [exists 4%Z|exists 15%Z]; reflexivity.
Qed.

(** ** What follows for a user *)
(** A season without snowfall gives a file. *)
Lemma snow_free_prepared row : snow_free (snd row) -> snow_free (snd (prepare_row (T:=R) row)).
Proof. unfold snow_free, prepare_row. cbn [snd r_m_pp r_percent_snow]. auto. Qed.
Lemma snow_free_file p end_date cfg ic mh m rows used : valid_setup p cfg ic -> divides_evenly cfg -> p_elevation p < 288000/(65/10) -> is_z_s ic = 0 ->
  read_input_data (p_start_date p) end_date rows = Ok used -> (2 <= length used)%nat -> NoDup (map fst used) ->
  Forall (fun row => snow_free (snd row)) rows ->
  exists out, pysnobal_run p end_date cfg ic mh m rows = Ok out.
Proof.
  intros Hv Hd Hel Hz Hu Hl Hnd Hf.
  assert (HF : exists out, pysnobal_run p end_date cfg ic mh false rows = Ok out).
  { assert (Hi : exists info, parse_time_steps cfg = Ok info).
    { unfold parse_time_steps, int_div. destruct Hd as (A & B & C & _).
      rewrite !(proj2 (Z.eqb_neq _ _)) by lia. cbn. eauto. }
    destruct Hi as (info & Hi).
    assert (Hfu : Forall (fun r => snow_free (snd r)) used).
    { unfold read_input_data in Hu. inv_bind Hu as cl Hc. injection Hu as Hu. rewrite <- Hu.
      apply Forall_map. apply Forall_forall. intros x Hx. apply snow_free_prepared.
      unfold clip_rows in Hc. destruct rows as [|q0 [|q1 qs]]; try discriminate. injection Hc as <-.
      apply filter_In in Hx. destruct Hx as (Hx & _).
      apply (Permutation.Permutation_in x (Permutation.Permutation_sym (sort_perm fst (q0 :: q1 :: qs)))) in Hx.
      rewrite Forall_forall in Hf. auto. }
    assert (Hne : used <> []) by (destruct used; [cbn in Hl; lia|discriminate]).
    destruct (C25_snow_free_runs_complete p cfg info ic mh false used Hv Hi Hel Hz Hne Hnd Hfu) as (c & Hc & _).
    unfold pysnobal_run. rewrite Hi. cbn [bind]. rewrite Hu. cbn [bind]. rewrite Hc. cbn [bind].
    unfold simulate in Hc. destruct (negb _) in Hc; [discriminate|]. destruct used as [|r0 [|r1 rest]]; try (cbn in Hl; lia).
    inv_bind Hc as i1 Hi1. inv_bind Hc as x Hx. destruct x as (env, c0).
    destruct (init_tso _ _ _ _ _ _ _ Hx) as (_ & _ & Ho & _ & Ei & Em & _).
    assert (Hcfg : configured cfg env) by (unfold configured; rewrite Ei; assumption).
    destruct (run_steps_dates cfg env Hd Hcfg Em _ _ _ _ Hc) as (outs & E & Ed). rewrite Ho in E. cbn [app] in E.
    unfold output_to_file. destruct (c_outputs c); [subst outs; cbn in Ed; discriminate|]. eauto. }
  destruct m; [|exact HF]. destruct HF as (coarse & Ec).
  pose proof (C63_output_mode_only_selects p end_date cfg ic mh rows (vs_steps _ _ _ Hv)) as HM. rewrite Ec in HM.
  destruct (pysnobal_run p end_date cfg ic mh true rows) as [fine|x]; [eauto|destruct HM].
Qed.
Theorem C94_snow_free_season user elevation start stop rows used : required user elevation start stop ->
  silent_section user "model" -> silent_section user "initial_snow_properties" -> silent_section user "measurement_heights" ->
  elevation < 44307 -> read_input_data start stop rows = Ok used -> (2 <= length used)%nat -> NoDup (map fst used) ->
  Forall (fun row => snow_free (snd row)) rows ->
  exists out, config_run user rows = Ok out.
Proof.
  intros Hr Hm Hi Hh Hel Hu Hl Hnd Hf. destruct (C94_shipped_defaults _ _ _ _ Hr Hm Hi Hh) as (E & V & D). rewrite E.
  apply (snow_free_file _ _ _ _ _ _ _ used); try assumption; cbn; try assumption; [lra|reflexivity].
Qed.

(** A normal step shorter than the default medium step of 15 minutes, the medium step left out: no file. *)
Theorem C94_short_normal_step user n rows : given user "model" "norm_time_step" (VInt n) -> (0 < n < 15)%Z ->
  silent user "model" "medium_time_step" -> silent user "model" "small_time_step" ->
  forall out, config_run user rows <> Ok out.
Proof.
  intros Hg Hn Hm Hs out H. unfold config_run in H. inv_bind H as pe Hp. inv_bind H as cfg Hc. inv_bind H as ic Hi. inv_bind H as mh Hh.
  unfold read_model, geti in Hc. rewrite (setting_given _ _ _ _ Hg) in Hc. cbn [bind int_of] in Hc.
  rewrite (setting_default user "model" "medium_time_step" (VInt 15) Hm eq_refl) in Hc. cbn [bind int_of] in Hc.
  rewrite (setting_default user "model" "small_time_step" (VInt 1) Hs eq_refl) in Hc. cbn [bind int_of] in Hc.
  inv_bind Hc as v1 H1. inv_bind Hc as v2 H2. inv_bind Hc as v3 H3.
  injection Hc as <-.
  refine (C93_over_the_reals _ _ _ _ _ _ _ _ _ _ H); [repeat split; cbn; lia|left; cbn; lia].
Qed.

(** A snowpack given by its depth and density only: its temperatures default to 0, which the code takes for kelvins. *)
Theorem C94_pack_without_temperatures user elevation start stop depth density rows : required user elevation start stop ->
  silent_section user "model" -> silent_section user "measurement_heights" ->
  given user "initial_snow_properties" "z_s" (VFloat depth) -> given user "initial_snow_properties" "rho" (VFloat density) ->
  silent user "initial_snow_properties" "t_s_0" -> silent user "initial_snow_properties" "t_s" ->
  silent user "initial_snow_properties" "h2o_sat" -> silent user "initial_snow_properties" "z_0" ->
  0 < depth -> density <= 917 -> 1 < density * depth ->
  exists err, config_run user rows = Err err.
Proof.
  intros Hr Hm Hh Hz Hd H1 H2 H3 H4 P1 P2 P3. unfold config_run. rewrite (default_params _ _ _ _ Hr Hm (section_silent _ _ _ Hh)). cbn [bind].
  rewrite (C94_default_model _ Hm), (C94_default_heights _ Hh). cbn [bind].
  assert (E : read_snow user = Ok (mkInitSnow depth density 0 0 0 (5/1000))).
  { unfold read_snow, getf. rewrite (setting_given _ _ _ _ Hz), (setting_given _ _ _ _ Hd). cbn [bind float_of]. dflt. reflexivity. }
  rewrite E. cbn [bind].
  refine (proj1 (C38_initial_pack_stops_the_run _ _ _ _ _ _ _ _ _ _)).
  - split; cbn; try lra. repeat split; cbn; lia.
  - split; cbn; lra.
  - left. cbn. lra.
Qed.

(** ** The hypotheses are met *)
Open Scope string_scope.
Definition minimal : Settings (T:=R) :=
  [(("topo", "elevation"), VFloat 2061); (("time", "start_date"), VDate 0); (("time", "end_date"), VDate 60)].
Definition dry_row (t : Z) : CsvRow (T:=R) := (t, mkRaw 100 250 1 500 2 0 0 0 0 0).
Lemma minimal_required : required minimal 2061 0 60.
Proof.
  unfold required, minimal. split; [|split].
  - exists [], [(("time", "start_date"), VDate 0); (("time", "end_date"), VDate 60)]. split; [reflexivity|constructor].
  - exists [(("topo", "elevation"), VFloat 2061)], [(("time", "end_date"), VDate 60)]. split; [reflexivity|]. repeat constructor; cbn; discriminate.
  - exists [(("topo", "elevation"), VFloat 2061); (("time", "start_date"), VDate 0)], []. split; [reflexivity|]. repeat constructor; cbn; discriminate.
Qed.
Lemma minimal_silent sec : sec <> "topo" -> sec <> "time" -> silent_section minimal sec.
Proof. intros A B. repeat constructor; cbn; congruence. Qed.
Example C94_witness : exists out, config_run minimal [dry_row 0; dry_row 60; dry_row 120] = Ok out.
Proof.
  apply (C94_snow_free_season minimal 2061 0 60 _ (map prepare_row [dry_row 0; dry_row 60; dry_row 120])).
  - apply minimal_required.
  - apply minimal_silent; discriminate.
  - apply minimal_silent; discriminate.
  - apply minimal_silent; discriminate.
  - lra.
  - reflexivity.
  - cbn. lia.
  - cbn. repeat constructor; cbn; intuition congruence.
  - repeat constructor; left; cbn; lra.
Qed.
Example C94_witness_short : exists user, given user "model" "norm_time_step" (VInt 10) /\ silent user "model" "medium_time_step" /\
  silent user "model" "small_time_step".
Proof. exists [(("model", "norm_time_step"), VInt 10)]. split; [exists [], []; split; [reflexivity|constructor]|]. split; repeat constructor; cbn; discriminate. Qed.
Example C94_witness_pack : let user := app minimal [(("initial_snow_properties", "z_s"), VFloat 1); (("initial_snow_properties", "rho"), VFloat 300)] in
  exists err, config_run user [dry_row 0; dry_row 60; dry_row 120] = Err err.
Proof.
  intros user. apply (C94_pack_without_temperatures user 2061 0 60 1 300); unfold user; try lra.
  - destruct minimal_required as (A & B & C). split; [|split].
    + destruct A as (x & y & -> & S). exists x, (app y [(("initial_snow_properties", "z_s"), VFloat 1); (("initial_snow_properties", "rho"), VFloat 300)]). rewrite <- app_assoc. auto.
    + destruct B as (x & y & -> & S). exists x, (app y [(("initial_snow_properties", "z_s"), VFloat 1); (("initial_snow_properties", "rho"), VFloat 300)]). rewrite <- app_assoc. auto.
    + destruct C as (x & y & -> & S). exists x, (app y [(("initial_snow_properties", "z_s"), VFloat 1); (("initial_snow_properties", "rho"), VFloat 300)]). rewrite <- app_assoc. auto.
  - repeat constructor; cbn; discriminate.
  - repeat constructor; cbn; discriminate.
  - exists minimal, [(("initial_snow_properties", "rho"), VFloat 300)]. split; [reflexivity|]. repeat constructor; cbn; discriminate.
  - exists (app minimal [(("initial_snow_properties", "z_s"), VFloat 1)]), []. split; [reflexivity|]. repeat constructor; cbn; discriminate.
  - repeat constructor; cbn; discriminate.
  - repeat constructor; cbn; discriminate.
  - repeat constructor; cbn; discriminate.
  - repeat constructor; cbn; discriminate.
Qed.
Print Assumptions C94_default_model.
Print Assumptions C94_default_snow.
Print Assumptions C94_default_heights.
Print Assumptions C94_shipped_defaults.
Print Assumptions C94_snow_free_season.
Print Assumptions C94_short_normal_step.
Print Assumptions C94_pack_without_temperatures.
