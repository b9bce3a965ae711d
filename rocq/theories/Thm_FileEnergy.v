(** * Theorems C78, C79: what the file says about cold content, temperature, energy and melt.

    About the file written with output_mode 'all' (one line per run step), over the real
    numbers.  Temperatures in the file are in degrees C, energies in W/m2 and J/m2. *)
From Coq Require Import Reals String ZArith Bool Lia Lra List Sorted.
Import ListNotations.
From Verif Require Import Num Real Constants Functions Libsnobal Input SnowState Snobal PySnobal
  SchedSpec Sched Frame SchedProps Spec Averages Forcing Phys Mass MassEnd RunMass Run Strip Modes
  Progress Progress2 MeltEnergy Thm_Mass Thm_Forcing Thm_Api Thm_Modes Thm_Schedule Thm_Energy Thm_Progress Thm_Files.
Open Scope R_scope.
Implicit Types s : SnowState R.

(** ** The lines of the file are the run steps, in order *)
Lemma outputs_are_steps Q p cfg ic mh env c : ordered_steps cfg -> model_run Q p cfg ic mh true env c ->
  map line (c_outputs c) = map fine_line (c_trace c) /\ c_time_since_out c = 0%Z /\ Forall clock_ok (c_trace c).
Proof.
  intros Ho (info & c0 & Hp & Hi & Hr).
  destruct (init_tso _ _ _ _ _ _ _ Hi) as (T0 & _ & O0 & Tr0 & Ei & Em & _). subst info.
  pose proof (configured_standard cfg env Hp) as Hstd.
  induction Hr as [|c i1 i2 c' Hr IH Hok Hd]; [rewrite O0, Tr0; repeat split; [assumption|constructor]|].
  destruct IH as (IH & Ht & Hck).
  destruct (data_step_clock _ _ _ _ _ _ _ _ Hstd Hd) as (evs & Hev & Hsch & _).
  destruct (outputs_all _ _ _ _ _ _ _ _ Hstd Em Ht Hd) as (Ht' & evs' & Hev' & Hout).
  rewrite (steps_between_unique _ _ _ _ Hev' Hev) in Hout. clear evs' Hev'. unfold steps_between in Hev.
  split; [|split; [assumption|]].
  - rewrite Hout, Hev, !map_app, IH, map_map. reflexivity.
  - rewrite Hev. apply Forall_app. split; [assumption|].
    apply Forall_map with (f := e_tstep (T:=R)) (P := fun ts => ts_time_step ts = (60 * ts_minutes ts)%Z /\ (0 < ts_minutes ts)%Z).
    destruct Ho as (P1 & P2 & P3). refine (schedule_steps _ _ _ _ _ _ _ _ Hsch); cbn -[Z.mul]; split; (reflexivity || lia).
Qed.

Lemma chain_sorted s t evs s' t' : chain (T:=R) s t evs s' t' -> Forall clock_ok evs ->
  StronglySorted Z.le (map fst (map fine_line evs)) /\ Forall (fun x => (t <= fst x)%Z) (map fine_line evs).
Proof.
  induction 1 as [s t|e evs s1 s' t' Hs Hch IH]; intros Hf; [split; constructor|].
  inversion Hf as [|? ? (_ & X) Hf']; subst. destruct (IH Hf') as (A & B). cbn [map]. split.
  - constructor; [exact A|]. rewrite Forall_map. exact B.
  - constructor; [unfold fine_line; cbn [fst]; lia|]. eapply Forall_impl; [|exact B]. cbn. intros; lia.
Qed.

(** a file of the 'all' mode, and the run behind it *)
Lemma all_file (Q0 Q : RawInput R -> Prop) p end_date cfg ic mh rows out : (forall r, Q r -> valid_record r) ->
  (forall row, Q0 (snd row) -> Q (snd (prepare_row (T:=R) row))) ->
  valid_setup p cfg ic -> Forall (fun row => Q0 (snd row)) rows -> pysnobal_run p end_date cfg ic mh true rows = Ok out ->
  exists info env c0 c, parse_time_steps cfg = Ok info /\ snobal_init p info ic mh true = Ok (env, c0) /\ model_run Q p cfg ic mh true env c /\
    out = map fine_line (c_trace c) /\ chain (c_ss c0) (p_start_date p) (c_trace c) (c_ss c) (c_datetime c) /\ Forall clock_ok (c_trace c).
Proof.
  intros HQ HQ0 Hv Hf H.
  destruct (pysnobal_run_inv _ _ _ _ _ _ _ _ H)
    as (info & used & i1 & r0 & rest & env & c0 & c & Hi & Hu & Eu & _ & Hi1 & Hinit & Hrun & Hne & Eo).
  assert (Hval : Forall (fun row => Q (snd row)) used).
  { unfold read_input_data in Hu. inv_bind Hu as cl Hc. injection Hu as Hu. rewrite <- Hu.
    apply Forall_map. apply Forall_forall. intros x Hx. apply HQ0.
    unfold clip_rows in Hc. destruct rows as [|q0 [|q1 qs]]; try discriminate. injection Hc as <-.
    apply filter_In in Hx. destruct Hx as (Hx & _).
    apply (Permutation.Permutation_in x (Permutation.Permutation_sym (sort_perm fst (q0 :: q1 :: qs)))) in Hx.
    rewrite Forall_forall in Hf. auto. }
  rewrite Eu in Hval. inversion Hval as [|? ? Hv0 Hvr]; subst x l.
  assert (Hre : reachable_by (made_from Q) env c0 c).
  { eapply run_steps_reachable; [exact Hv0|exact Hi1|apply Forall_map; exact Hvr|exact Hrun]. }
  assert (Hmr : model_run Q p cfg ic mh true env c) by (exists info, c0; auto).
  destruct (outputs_are_steps _ _ _ _ _ _ _ (vs_steps _ _ _ Hv) Hmr) as (E & _ & Hck).
  destruct (run_has_facts _ _ _ _ _ _ _ _ _ _ HQ Hv Hi Hinit Hre) as [Hch _ _ _].
  destruct (init_tso _ _ _ _ _ _ _ Hinit) as (_ & Hdt & _). rewrite Hdt in Hch.
  exists info, env, c0, c. split; [assumption|]. split; [assumption|]. split; [assumption|]. split; [|split; assumption].
  destruct (chain_sorted _ _ _ _ _ Hch Hck) as (S & _). rewrite <- E, map_map in S. rewrite <- E.
  rewrite (sort_id o_date (c_outputs c)) in Eo by (apply sorted_by_map; exact S). exact Eo.
Qed.

(** consecutive lines are consecutive run steps; the state before a step is what the line before it shows *)
Lemma chain_pairs s t evs s' t' : chain (T:=R) s t evs s' t' -> forall pre x y post, evs = pre ++ x :: y :: post ->
  same_snow (e_after x) (e_before y) /\ e_start y = (e_start x + ts_minutes (e_tstep x))%Z.
Proof.
  induction 1 as [s t|e evs s1 s' t' Hs Hch IH]; intros pre x y post E; [destruct pre; discriminate|].
  destruct pre as [|z pre]; cbn [app] in E.
  - injection E as -> ->. inversion Hch; subst. split; [exact Hs|reflexivity].
  - injection E as -> E. exact (IH pre x y post E).
Qed.
Lemma map_pair {A B} (f : A -> B) l pre a b post : map f l = pre ++ a :: b :: post ->
  exists pre' x y post', l = pre' ++ x :: y :: post' /\ a = f x /\ b = f y /\ map f pre' = pre.
Proof.
  revert pre. induction l as [|x l IH]; intros pre E; [destruct pre; discriminate|]. destruct pre as [|q pre]; cbn [map app] in E.
  - injection E as <- E. destruct l as [|y l]; [discriminate|]. cbn [map] in E. injection E as <- _.
    exists [], x, y, l. auto.
  - injection E as <- E. destruct (IH pre E) as (pre' & u & v & post' & -> & -> & -> & <-). exists (x :: pre'), u, v, post'. auto.
Qed.

(** cells of a line of the 'all' file *)
Lemma cells e : num "cc_s_0" (fine_line e) = cc_s_0 (e_after e) /\ num "cc_s_l" (fine_line e) = cc_s_l (e_after e) /\
  num "z_s" (fine_line e) = z_s (e_after e) /\ num "m_s" (fine_line e) = m_s (e_after e) /\
  num "t_s" (fine_line e) = t_s (e_after e) - 27316/100 /\ num "t_s_0" (fine_line e) = t_s_0 (e_after e) - 27316/100 /\
  num "t_s_l" (fine_line e) = t_s_l (e_after e) - 27316/100 /\
  num "melt" (fine_line e) = melt (e_after e) /\ num "delta_Q_0" (fine_line e) = delta_Q_0 (en (e_after e)) /\
  num "G" (fine_line e) = G_ (en (e_after e)) /\ num "G_0" (fine_line e) = G_0 (en (e_after e)).
Proof.
  unfold num, cell, fine_line. cbn [snd]. rewrite C43_columns. cbn [find fst snd String.eqb Ascii.eqb Bool.eqb].
  repeat split; reflexivity.
Qed.

(** ** C78: cold content and temperature *)
(** a record of the input file, with its temperatures in C *)
Definition usable (r : RawInput R) : Prop := valid_record r /\ - (27316/100) < r_t_pp r.
Definition usedQ (r : RawInput R) : Prop := valid_record r /\ 0 < r_t_pp r.
Lemma usable_prepared row : usable (snd row) -> usedQ (snd (prepare_row (T:=R) row)).
Proof.
  intros (V & T). split; [apply prepare_valid; exact V|]. unfold prepare_row. cbn [snd r_t_pp].
  change (FREEZE : R) with (27316/100). rn.
  destruct (Rltb 0 _ && Rltb _ _)%bool; lra.
Qed.

(** a line whose snow is at most at freezing and has no positive cold content *)
Record cold_line (l : Line) : Prop := {
  cl_0 : num "cc_s_0" l <= 0;
  cl_l : num "cc_s_l" l <= 0;
  cl_t : 0 < num "m_s" l -> num "t_s" l <= 0 /\ num "t_s_0" l <= 0 /\ num "t_s_l" l <= 0
}.

Section File.
Variables (p : Params R) (end_date : Z) (cfg : ModelCfg R) (ic : InitSnow R) (mh : Heights R)
  (rows : list (CsvRow (T:=R))) (out : list Line).
Hypothesis Hv : valid_setup p cfg ic.
Hypothesis Hrows : Forall (fun row => usable (snd row)) rows.
Hypothesis Hbare : is_z_s ic = 0.
Hypothesis Hrun : pysnobal_run p end_date cfg ic mh true rows = Ok out.
Hypothesis Habs : Forall (fun l => - (27316/100) < num "t_s" l) out.

Lemma HuQ : forall r, usedQ r -> valid_record r. Proof. intros r (A & _). exact A. Qed.

Lemma file_events : exists env c s0, model_run usedQ p cfg ic mh true env c /\ out = map fine_line (c_trace c) /\
  layer_count s0 = 0%nat /\ chain s0 (p_start_date p) (c_trace c) (c_ss c) (c_datetime c) /\ Forall clock_ok (c_trace c) /\
  (forall e, In e (c_trace c) -> (layer_count (e_before e) <> 0%nat -> 0 < t_s (e_before e)) /\ cc_s_0 (e_before e) <= 0 /\ cc_s_l (e_before e) <= 0 /\
     cc_s_0 (e_after e) <= 0 /\ cc_s_l (e_after e) <= 0).
Proof using Hv Hrows Hbare Hrun Habs.
  destruct (all_file usable usedQ p end_date cfg ic mh rows out HuQ usable_prepared Hv Hrows Hrun)
    as (info & env & c0 & c & Hi & Hin & Hmr & Eo & Hch & Hck).
  destruct (init_bare _ _ _ _ _ _ _ _ Hv Hi Hbare Hin) as (Hl & _).
  destruct (init_sound _ _ _ _ _ _ _ _ Hv Hi Hin) as ([_ _ Hs0] & _).
  exists env, c, (c_ss c0). do 5 (split; [assumption|]).
  assert (Hc0 : cc_s_0 (c_ss c0) <= 0 /\ cc_s_l (c_ss c0) <= 0).
  { destruct Hs0 as [Hk|Hb]; [exfalso; destruct (layered_count _ (proj1 Hk)) as [[_ E]|[_ E]]; congruence|].
    rewrite (br_cc0 _ Hb), (br_ccl _ Hb). lra. }
  assert (Habs' : Forall (fun e => 0 < t_s (e_after e)) (c_trace c)).
  { rewrite Eo in Habs. rewrite Forall_map in Habs. eapply Forall_impl; [|exact Habs]. intros e He. cbv beta in He.
    destruct (cells e) as (_ & _ & _ & _ & Et & _). rewrite Et in He. lra. }
  assert (Hstep : forall e, In e (c_trace c) -> (layer_count (e_before e) <> 0%nat -> 0 < t_s (e_before e)) ->
     cc_s_0 (e_after e) <= 0 /\ cc_s_l (e_after e) <= 0).
  { intros e He Ht. apply (C20_cold_content_is_never_positive usedQ p cfg ic mh true env c HuQ Hv Hmr e); try assumption.
    intros r (_ & T). exact T. }
  assert (H0 : layer_count (c_ss c0) <> 0%nat -> 0 < t_s (c_ss c0)) by congruence.
  clear - Hch Habs' Hstep Hc0 H0. revert H0 Hc0 Habs' Hstep.
  induction Hch as [s t|e evs s1 s' t' Hs Hch IH]; intros H0 Hc0 Ha Hst x Hx; [destruct Hx|].
  inversion Ha as [|? ? A1 A2]; subst. pose proof (Hst e (or_introl eq_refl) H0) as He.
  destruct Hx as [<-|Hx]; [tauto|].
  apply IH; [ | | assumption | intros y Hy; apply Hst; right; assumption | assumption].
  - destruct Hs as (b1 & m1 & e1 & w1 & ->). intros _. exact A1.
  - destruct Hs as (b1 & m1 & e1 & w1 & ->). exact He.
Qed.

(** If the run starts on bare ground and no line shows a temperature below absolute zero, no line
    shows a positive cold content, and no line that shows snow shows a temperature above freezing. *)
Theorem C78_snow_in_the_file_is_cold : Forall cold_line out.
Proof using Hv Hrows Hbare Hrun Habs.
  destruct file_events as (env & c & s0 & Hmr & Eo & _ & _ & _ & H). rewrite Eo. apply Forall_map. apply Forall_forall.
  intros e He. destruct (H e He) as (Ht & _ & _ & C0 & Cl).
  destruct (cells e) as (E1 & E2 & _ & E4 & E5 & E6 & E7 & _). split; rewrite ?E1, ?E2, ?E4, ?E5, ?E6, ?E7; try assumption.
  intros Hm. destruct (C21_snow_is_never_warmer_than_freezing usedQ p cfg ic mh true env c HuQ Hv Hmr e He Ht Hm) as (T1 & T2 & T3). lra.
Qed.

(** ** C79: energy and melt *)
(** energy [J/m2] that reached the surface layer between the lines [a] and [b], and that the lower layer
    gained by conduction: columns of [b] times the seconds between the lines *)
Definition surface_energy (a b : Line) : R := num "delta_Q_0" b * (60 * IZR (fst b - fst a)).
Definition lower_energy (a b : Line) : R := (num "G" b - num "G_0" b) * (60 * IZR (fst b - fst a)).

Record paid (a b : Line) : Prop := {
  pd_most : 333600 * num "melt" b <= Rmax 0 (num "cc_s_0" a + surface_energy a b) + Rmax 0 (lower_energy a b);
  pd_exact : cfg_small_thr cfg < num "m_s" a -> num "m_s" b <> 0 -> exists melted refrozen,
    0 <= melted <= num "melt" b /\ 0 <= refrozen /\
    num "cc_s_0" b = num "cc_s_0" a + surface_energy a b - 333600 * melted + 333600 * refrozen /\
    (0 < melted -> num "cc_s_0" b = 0 /\ refrozen = 0)
}.

Lemma step_paid env c x y : model_run usedQ p cfg ic mh true env c -> In y (c_trace c) ->
  (layer_count (e_before y) <> 0%nat -> 0 < t_s (e_before y)) -> cc_s_0 (e_before y) <= 0 -> cc_s_l (e_before y) <= 0 ->
  clock_ok y -> same_snow (e_after x) (e_before y) -> e_start y = (e_start x + ts_minutes (e_tstep x))%Z ->
  paid (fine_line x) (fine_line y).
Proof using Hv.
  intros Hmr He Ht H0 Hl (Hck & _) Hs Hst.
  destruct (cells x) as (X1 & X2 & X3 & X4 & X5 & X6 & X7 & X8 & X9 & X10 & X11).
  destruct (cells y) as (Y1 & Y2 & Y3 & Y4 & Y5 & Y6 & Y7 & Y8 & Y9 & Y10 & Y11).
  assert (Ed : 60 * IZR (fst (fine_line y) - fst (fine_line x)) = Thm_Energy.seconds y).
  { unfold Thm_Energy.seconds, fine_line. cbn [fst]. rewrite Hck, mult_IZR. do 2 f_equal. lia. }
  assert (Ec : cc_s_0 (e_after x) = cc_s_0 (e_before y) /\ m_s (e_after x) = m_s (e_before y)).
  { destruct Hs as (b1 & m1 & e1 & w1 & ->). split; reflexivity. }
  destruct Ec as (Ec & Em).
  destruct (event_facts usedQ p cfg ic mh true env c HuQ Hv Hmr y He) as ([_ _ HS] & _ & O & _ & (_ & Hthr & _) & _).
  destruct (Nat.eq_dec (layer_count (e_before y)) 0) as [E0|E0].
  - assert (Hb : bare (e_before y)).
    { destruct HS as [Hk|Hb]; [|exact Hb]. destruct (layered_count _ (proj1 Hk)) as [[_ E]|[_ E]]; congruence. }
    split.
    + rewrite Y8. destruct O as [(Hk & _)|(_ & _ & _ & (Om & _))].
      { exfalso. destruct (layered_count _ (proj1 Hk)) as [[_ E]|[_ E]]; congruence. }
      rewrite Om. pose proof (Rmax_l 0 (num "cc_s_0" (fine_line x) + surface_energy (fine_line x) (fine_line y))).
      pose proof (Rmax_l 0 (lower_energy (fine_line x) (fine_line y))). lra.
    + rewrite X4, Em, (br_m _ Hb). pose proof (vs_thr _ _ _ Hv). intros; lra.
  - destruct (C55_melt_is_paid_for usedQ p cfg ic mh true env c HuQ Hv Hmr y He E0 (Ht E0) H0 Hl)
      as (m0 & ml & r0 & A1 & A2 & A3 & A4 & A5 & A6 & _ & A8).
    split; unfold surface_energy, lower_energy; rewrite Ed, ?X1, ?X4, ?Y1, ?Y4, ?Y8, ?Y9, ?Y10, ?Y11, ?Ec, ?Em.
    + rewrite A4. lra.
    + intros P1 P2. assert (Hk : e_kept y = true).
      { destruct O as [(_ & _ & _ & [(K & _)|(_ & mc & w & K)])|(Hb & _)]; [exact K| |].
        - exfalso. destruct (cl_end _ _ _ _ _ K) as [(Hb & _)|(_ & _ & _ & Hm & _)].
          + rewrite (br_m _ Hb) in P2. lra.
          + lra.
        - exfalso. rewrite (br_m _ Hb) in P1. pose proof (vs_thr _ _ _ Hv). lra. }
      destruct (A8 Hk) as (B1 & B2). exists m0, r0. split; [lra|]. split; [exact A3|]. split; assumption.
Qed.

(** Melt is paid for, from line to line: between consecutive lines the melt is at most what the
    energy of the surface layer leaves after its cold content is used up, plus the heat the lower
    layer gained; and if a pack heavier than the smallest threshold stays, its cold content
    changes by exactly the energy of the surface layer, less melt, plus refreezing. *)
Theorem C79_melt_is_paid_for_line_by_line pre a b post : out = pre ++ a :: b :: post -> paid a b.
Proof using Hv Hrows Hbare Hrun Habs.
  intros E. destruct file_events as (env & c & s0 & Hmr & Eo & _ & Hch & Hck & H). rewrite Eo in E.
  destruct (map_pair _ _ _ _ _ _ E) as (pre' & x & y & post' & Et & -> & -> & _).
  destruct (chain_pairs _ _ _ _ _ Hch _ _ _ _ Et) as (S1 & S2).
  assert (Hy : In y (c_trace c)) by (rewrite Et; apply in_or_app; right; right; left; reflexivity).
  destruct (H y Hy) as (Ht & A & B & _). rewrite Forall_forall in Hck.
  apply (step_paid env c); auto.
Qed.

(** energy supplied to the two layers over consecutive lines, counting only what warms them *)
Fixpoint supplied (prev : Z) (ls : list Line) : R :=
  match ls with
  | [] => 0
  | l :: rest => Rmax 0 (num "delta_Q_0" l * (60 * IZR (fst l - prev))) +
                 Rmax 0 ((num "G" l - num "G_0" l) * (60 * IZR (fst l - prev))) + supplied (fst l) rest
  end.

(** Over any part of the file in which a pack heavier than the smallest threshold stays, the energy of
    the surface layer either warms it or melts snow, and the melt is at most the energy supplied. *)
Theorem C79_energy_budget_of_a_part pre a part post : out = pre ++ a :: part ++ post ->
  Forall (fun l => cfg_small_thr cfg < num "m_s" l) (a :: part) ->
  num "cc_s_0" a + 60 * integral "delta_Q_0" (fst a) part <= num "cc_s_0" (last part a) + 333600 * total "melt" part /\
  333600 * total "melt" part <= supplied (fst a) part.
Proof using Hv Hrows Hbare Hrun Habs.
  revert pre a. induction part as [|b part IH]; intros pre a E Hf.
  { cbn. unfold total, sum_over. cbn. lra. }
  inversion Hf as [|? ? Ha Hf']; subst x l. inversion Hf' as [|? ? Hb Hf2]; subst x l.
  destruct (IH (pre ++ [a]) b) as (I1 & I2); [rewrite E, <- app_assoc; reflexivity|assumption|].
  assert (E2 : out = pre ++ a :: b :: (part ++ post)) by (rewrite E; reflexivity).
  destruct (C79_melt_is_paid_for_line_by_line _ _ _ _ E2) as [P1 P2].
  destruct (P2 Ha) as (m0 & r0 & A1 & A2 & A3 & _); [pose proof (vs_thr _ _ _ Hv); lra|].
  assert (Hca : num "cc_s_0" a <= 0).
  { pose proof C78_snow_in_the_file_is_cold as K. rewrite Forall_forall in K. apply (K a). rewrite E. apply in_or_app. right. left. reflexivity. }
  cbn [integral supplied]. unfold total, sum_over in *. cbn [fold_right].
  assert (El : last (b :: part) a = last part b).
  { destruct part as [|z zs]; [reflexivity|]. change (last (b :: z :: zs) a) with (last (z :: zs) a). apply last_default. discriminate. }
  rewrite El. unfold surface_energy, lower_energy in *. split; [nra|].
  assert (Rmax 0 (num "cc_s_0" a + num "delta_Q_0" b * (60 * IZR (fst b - fst a))) <= Rmax 0 (num "delta_Q_0" b * (60 * IZR (fst b - fst a)))).
  { apply Rmax_lub; [apply Rmax_l|]. pose proof (Rmax_r 0 (num "delta_Q_0" b * (60 * IZR (fst b - fst a)))). lra. }
  lra.
Qed.

(** The whole file: all melt is paid for. *)
Theorem C79_all_melt_is_paid_for : 333600 * total "melt" out <= supplied (p_start_date p) out.
Proof using Hv Hrows Hbare Hrun Habs.
  destruct file_events as (env & c & s0 & Hmr & Eo & Hl0 & Hch & Hck & H). rewrite Eo in *.
  assert (G : forall s t evs s' t', chain (T:=R) s t evs s' t' -> (forall e, In e evs -> In e (c_trace c)) ->
     333600 * total "melt" (map fine_line evs) <= supplied t (map fine_line evs)); [|exact (G _ _ _ _ _ Hch (fun e He => He))].
  clear Hch. induction 1 as [s t|e evs s1 s' t' Hs Hch IH]; intros Hin; [unfold total, sum_over; cbn; lra|].
  specialize (IH (fun x Hx => Hin x (or_intror Hx))). pose proof (Hin e (or_introl eq_refl)) as He.
  rewrite Forall_forall in Hck. destruct (Hck e He) as (Ek & _). destruct (H e He) as (Ht & H0 & Hl & _).
  cbn [map supplied]. unfold total, sum_over in *. cbn [fold_right].
  destruct (cells e) as (_ & _ & _ & _ & _ & _ & _ & Y8 & Y9 & Y10 & Y11). rewrite Y8, Y9, Y10, Y11.
  assert (Ed : 60 * IZR (fst (fine_line e) - e_start e) = Thm_Energy.seconds e).
  { unfold Thm_Energy.seconds, fine_line. cbn [fst]. rewrite Ek, mult_IZR. do 2 f_equal. lia. }
  rewrite Ed. change (fst (fine_line e)) with (e_start e + ts_minutes (e_tstep e))%Z in *.
  assert (M : 333600 * melt (e_after e) <= Rmax 0 (delta_Q_0 (en (e_after e)) * Thm_Energy.seconds e) +
     Rmax 0 ((G_ (en (e_after e)) - G_0 (en (e_after e))) * Thm_Energy.seconds e)); [|lra].
  destruct (Nat.eq_dec (layer_count (e_before e)) 0) as [E0|E0].
  - destruct (event_facts usedQ p cfg ic mh true env c HuQ Hv Hmr e He) as (_ & _ & O & _).
    destruct O as [(Hk & _)|(_ & _ & _ & (Om & _))].
    { exfalso. destruct (layered_count _ (proj1 Hk)) as [[_ E]|[_ E]]; congruence. }
    rewrite Om. pose proof (Rmax_l 0 (delta_Q_0 (en (e_after e)) * Thm_Energy.seconds e)).
    pose proof (Rmax_l 0 ((G_ (en (e_after e)) - G_0 (en (e_after e))) * Thm_Energy.seconds e)). lra.
  - destruct (C55_melt_is_paid_for usedQ p cfg ic mh true env c HuQ Hv Hmr e He E0 (Ht E0) H0 Hl)
      as (m0 & ml & r0 & A1 & A2 & A3 & A4 & A5 & A6 & _).
    rewrite A4. assert (Rmax 0 (cc_s_0 (e_before e) + delta_Q_0 (en (e_after e)) * Thm_Energy.seconds e) <= Rmax 0 (delta_Q_0 (en (e_after e)) * Thm_Energy.seconds e)).
    { apply Rmax_lub; [apply Rmax_l|]. pose proof (Rmax_r 0 (delta_Q_0 (en (e_after e)) * Thm_Energy.seconds e)). lra. }
    lra.
Qed.
End File.
Print Assumptions C78_snow_in_the_file_is_cold.
Print Assumptions C79_energy_budget_of_a_part.
Print Assumptions C79_all_melt_is_paid_for.

(** ** The hypotheses are met: an hour of snowfall and a cold calm hour *)
From Verif Require Import Thm_Turb2 Thm_Water Thm_Depth Thm_Laws Witness Witness2 Witness3.
Definition cold_day : list (CsvRow (T:=R)) :=
  [(0%Z, mkRaw 0 200 (684/100) 650 2 (-(316/100)) 60 1 100 (-(316/100)));
   (60%Z, mkRaw 0 200 (684/100) 650 0 (-(316/100)) 0 0 0 (-(316/100)));
   (120%Z, mkRaw 0 200 (684/100) 650 0 (-(316/100)) 0 0 0 (-(316/100)))].
Lemma cold_day_usable : Forall (fun row => usable (snd row)) cold_day.
Proof. repeat constructor; cbn; intros; lra. Qed.
Lemma cold_day_prepared : map prepare_row cold_day = [(0%Z, w_snowfall); (60%Z, w_wind 0); (120%Z, w_wind 0)].
Proof.
  unfold cold_day, prepare_row, w_snowfall, w_wind. cbn [map fst snd r_t_pp r_m_pp r_percent_snow r_S_n r_I_lw r_t_a r_e_a r_u r_t_g r_rho_snow].
  change (FREEZE : R) with (27316/100). rn.
  replace (Rltb 0 (60 * (1 - 1))) with false by (destruct (Rltb_spec 0 (60 * (1 - 1))); [lra|reflexivity]).
  replace (Rltb 0 (0 * (1 - 0))) with false by (destruct (Rltb_spec 0 (0 * (1 - 0))); [lra|reflexivity]).
  cbn [andb]. replace (684/100 + 27316/100) with 280 by lra. replace (-(316/100) + 27316/100) with 270 by lra. reflexivity.
Qed.

Example C79_witness : exists l1 l2, pysnobal_run (wpz 1) 60 wcfg wic wmh true cold_day = Ok [l1; l2] /\
  valid_setup (wpz 1) wcfg wic /\ Forall (fun row => usable (snd row)) cold_day /\ is_z_s wic = 0 /\
  Forall (fun l => - (27316/100) < num "t_s" l) [l1; l2] /\
  num "m_s" l1 = 60 /\ num "m_s" l2 = 60 /\ num "cc_s_0" l1 < 0 /\ surface_energy l1 l2 < 0.
Proof.
  assert (Hmz : 1 = 1/4 \/ 1 = 1) by (right; reflexivity).
  destruct (w_windy_mode true 1 Hmz 0) as (env & c0 & info & i1 & i2 & c1 & c2 & e1 & e2 & w & es & Hinfo & Hin & Hi1 & Hi2 & Hd1 & Hd2 &
    Hr & Htr & Hs & Hu & _ & Hes & _ & _ & _ & HP & Hn & Hg & Hl & Hz & Hrho & Ht & Ht0 & Htl & Hb1 & Ha1 & Hm & Hh & Hc0 & Hcl & Hsec & Hsn & Hlw); [lra|].
  assert (He : In e2 (c_trace c2)) by (rewrite Htr; right; left; reflexivity).
  assert (He1 : In e1 (c_trace c2)) by (rewrite Htr; left; reflexivity).
  pose proof (w_setup 1 Hmz) as Hset.
  destruct (event_facts wQ (wpz 1) wcfg wic wmh true env c2 wQ_valid Hset Hr e2 He) as ([_ _ Hpk] & [_ _ Hpk'] & _ & _ & (Mz & _) & (Mz' & _)).
  assert (Hk : packed (e_before e2)) by (destruct Hpk as [X|X]; [exact X|exfalso; apply Hl; apply bare_count; assumption]).
  destruct (outputs_are_steps _ _ _ _ _ _ _ (vs_steps _ _ _ Hset) Hr) as (Eout & _ & Hck).
  destruct (init_tso _ _ _ _ _ _ _ Hin) as (_ & Hdt & _).
  assert (Hch : exists s t, chain (T:=R) s t [e1; e2] (c_ss c2) (c_datetime c2)).
  { destruct Hr as (info' & c0' & Hp' & Hin' & Hr'). destruct (run_has_facts _ _ _ _ _ _ _ _ _ _ wQ_valid Hset Hp' Hin' Hr') as [X _ _ _].
    rewrite Htr in X. eauto. }
  destruct Hch as (s & t & Hch). destruct (chain_pairs _ _ _ _ _ Hch [] e1 e2 [] eq_refl) as (Hss & Hst).
  assert (Hsame : cc_s_0 (e_after e1) = cc_s_0 (e_before e2) /\ m_s (e_after e1) = m_s (e_before e2) /\ m_s_0 (e_after e1) = m_s_0 (e_before e2) /\ t_s (e_after e1) = t_s (e_before e2)).
  { destruct Hss as (b1 & m1 & x1 & w1 & ->). repeat split. }
  destruct Hsame as (S1 & S2 & S3 & S4).
  destruct (C69_a_new_pack_is_the_snowfall wQ (wpz 1) wcfg wic wmh true env c2 wQ_valid Hset Hr e1 He1 Hb1 Ha1)
    as (_ & _ & _ & _ & _ & T1 & _ & _ & _ & CC & _). cbv zeta in T1, CC. rewrite <- T1, S1, S3, S4, Ht in CC.
  assert (H1 : layer_count (e_before e2) = 1%nat /\ m_s_0 (e_before e2) = 60).
  { destruct (layered_count _ (proj1 Hk)) as [[Zl Y]|[Zl Y]].
    - split; [exact Y|]. destruct Hk as [[A B C D E _ _] F]. rewrite D. replace (z_s_0 (e_before e2)) with (z_s (e_before e2)) by lra. rewrite <- F. exact Hm.
    - exfalso. destruct Hk as [[A B C D E F0 _] F]. specialize (F0 Zl). rewrite Mz in F0. cbn [wpz p_max_z_s_0] in F0. lra. }
  destruct H1 as (L1 & M0). rewrite M0 in CC.
  destruct (C58_still_air _ _ _ _ _ _ _ _ Hr e2 He Hu) as (EH & EL & EE).
  destruct (C57_energy_terms wQ (wpz 1) wcfg wic wmh true env c2 wQ_valid Hset Hr e2 He Hl) as (Rn & Mm & Q0 & _ & G1 & _).
  destruct (C57_conduction_goes_from_warm_to_cold wQ (wpz 1) wcfg wic wmh true env c2 wQ_valid Hset Hr e2 He Hl) as (_ & _ & Gz & _).
  { lra. } { intros X. congruence. } { lra. } { cbn [wmh mh_z_g]. lra. } { lra. } { rewrite HP. lra. }
  { rewrite Hg, HP. intros e X. destruct (sati_snow 270 ltac:(split; lra)) as (es2 & Hes2 & Hesr).
    rewrite Hes2 in X. injection X as <-. lra. }
  assert (HG : G_ (en (e_after e2)) = 0) by (apply Gz; rewrite L1, Hg; exact Ht0).
  assert (HG0 : G_0 (en (e_after e2)) = 0) by (rewrite <- (G1 L1); exact HG).
  assert (HQ0 : -110 < delta_Q_0 (en (e_after e2)) < -90).
  { rewrite Hn in Mm. rewrite Hsn, Hlw, Ht0 in Rn. cbn [w_wind r_S_n r_I_lw] in Rn. rewrite Q0, HG0, Mm, Rn, EH, EL. lra. }
  assert (Hmelt : melt (e_after e2) = 0).
  { apply (C55_cold_snow_does_not_melt wQ (wpz 1) wcfg wic wmh true env c2 wQ_valid Hset Hr e2 He Hl); try lra.
    rewrite Hsec. nra. }
  assert (HEs : E_s (e_after e2) = 0).
  { destruct (Req_dec (E_s (e_after e2)) 0) as [|Hne]; [assumption|exfalso]. apply Hne.
    destruct (C56_vapour_exchange wQ (wpz 1) wcfg wic wmh true env c2 wQ_valid Hset Hr e2 He Hl (or_intror Hne) ltac:(lra) Hc0 Hcl)
      as (tt & e3 & e4 & Ht3 & X1 & X2 & X3). rewrite X3.
    assert (tt = 270). { destruct Ht3 as [->|[->|(Zl & ->)]]; try assumption. apply Htl. exact Zl. }
    subst tt. rewrite Hg in *. rewrite X1 in X2. injection X2 as <-. unfold Rdiv at 3.
    rewrite EE, Rminus_eq_0. ring. }
  assert (Hpr : precip e2 = 0) by (unfold precip, precip_of; rewrite Hn; reflexivity).
  destruct (C54_packs_stay wQ (wpz 1) wcfg wic wmh true env c2 wQ_valid Hset Hr e2 He Hl) as (Hkept & _ & _).
  { cbn [wcfg cfg_small_thr]. lra. } { cbn [wcfg cfg_small_thr]. lra. } { lra. }
  destruct (C61_dry_pack_stores_the_energy wQ (wpz 1) wcfg wic wmh true env c2 wQ_valid Hset Hr e2 He Hkept Hl ltac:(lra) Hc0 Hcl Hn) as (_ & X).
  specialize (X Hh Hmelt). rewrite Hsec in X.
  assert (Hcc : cc_s_0 (e_after e2) < 0) by nra.
  pose proof (C61_cold_shallow_pack_is_dry wQ (wpz 1) wcfg wic wmh true env c2 wQ_valid Hset Hr e2 He Hkept Hl ltac:(lra) Hc0 Hcl Hn ltac:(cbn; lra) Hcc) as (_ & Hd & _).
  destruct (C71_quiet_step wQ (wpz 1) wcfg wic wmh true env c2 wQ_valid Hset Hr e2 He Hl Hkept ltac:(lra) Hn Hmelt EE HEs Hd) as (Hm2 & _).
  rewrite Hm in Hm2.
  assert (Hz2 : z_s (e_after e2) <= z_s (e_before e2)).
  { apply (C68_depth_never_grows_in_a_dry_spell wQ (wpz 1) wcfg wic wmh true env c2 wQ_valid Hset Hr [e1] [e2] [] e2 e2); try reflexivity; try assumption.
    - cbn [wmh mh_z_g]. lra.
    - rewrite HP. lra.
    - constructor; [|constructor]. split; [exact Hn|]. intros _. split; [lra|]. split; [rewrite EE; lra|].
      intros x [->|[->|(Zl & ->)]]; [lra|lra|rewrite (Htl Zl); lra]. }
  assert (Hk' : packed (e_after e2)) by (destruct Hpk' as [Y|Y]; [exact Y|exfalso; rewrite (br_m _ Y) in Hm2; lra]).
  assert (H1' : layer_count (e_after e2) = 1%nat /\ m_s_0 (e_after e2) = 60).
  { destruct (layered_count _ (proj1 Hk')) as [[Zl Y]|[Zl Y]].
    - split; [exact Y|]. destruct Hk' as [[A B C D E _ _] F]. rewrite D. replace (z_s_0 (e_after e2)) with (z_s (e_after e2)) by lra. rewrite <- F. exact Hm2.
    - exfalso. destruct Hk' as [[A B C D E F0 _] F]. specialize (F0 Zl). rewrite Mz' in F0. cbn [wpz p_max_z_s_0] in F0. lra. }
  destruct H1' as (L2 & M2).
  destruct (C62_temperatures_follow_cold_content wQ (wpz 1) wcfg wic wmh true env c2 wQ_valid Hset Hr e2 He Hkept Hl ltac:(lra) Hc0 Hcl) as (Tn & Ts & _).
  specialize (Ts L2). rewrite Tn, M2, Ht0, X, CC in Ts.
  assert (Ht2 : 200 < t_s (e_after e2)).
  { rewrite Ts. unfold temp_of, cold_of, c_ice in *. clear - HQ0.
    set (k := 4186798188 / 1000000000 * (24928 / 1000000 + 176 / 100000 * 270) * 1000). assert (Hk : 2000 < k) by (unfold k; lra).
    clearbody k. set (q := delta_Q_0 (en (e_after e2))) in *. clearbody q.
    replace ((k * 60 * (270 - 27316 / 100) + q * 3600) / (60 * k)) with ((270 - 27316/100) + q * 60 * / k) by (field; lra).
    assert (0 < / k) by (apply Rinv_0_lt_compat; lra). assert (/ k <= / 2000) by (apply Rinv_le_contravar; lra). nra. }
  exists (fine_line e1), (fine_line e2).
  split; [|split; [exact Hset|split; [exact cold_day_usable|split; [reflexivity|]]]].
  - unfold pysnobal_run. rewrite Hinfo. cbn [bind].
    assert (Hrd : read_input_data (p_start_date (wpz 1)) 60 cold_day = Ok (map prepare_row cold_day)) by reflexivity.
    rewrite Hrd. cbn [bind]. rewrite cold_day_prepared. unfold simulate.
    change (negb (distinct_dates (map fst [(0%Z, w_snowfall); (60%Z, w_wind 0); (120%Z, w_wind 0)]))) with false. cbv iota beta.
    cbn [map snd]. rewrite Hi1. cbn [bind]. rewrite Hin. cbn [bind run_steps]. rewrite Hi2. cbn [bind]. rewrite Hd1. cbn [bind].
    rewrite Hd2. cbn [bind]. unfold output_to_file.
    rewrite Htr in Eout. cbn [map] in Eout. rewrite Htr in Hck.
    destruct (c_outputs c2) as [|o1 [|o2 [|o3 os]]]; try discriminate. cbn [map] in Eout.
    pose proof (f_equal (fun l => nth 0 l (line o1)) Eout) as U1. pose proof (f_equal (fun l => nth 1 l (line o1)) Eout) as U2. cbn [nth] in U1, U2.
    assert (Hsrt : sort_by o_date [o1; o2] = [o1; o2]).
    { apply sort_id. apply sorted_by_map. cbn [map].
      assert (D1 : o_date o1 = fst (fine_line e1)) by (rewrite <- U1; reflexivity).
      assert (D2 : o_date o2 = fst (fine_line e2)) by (rewrite <- U2; reflexivity).
      rewrite D1, D2. unfold fine_line. cbn [fst]. inversion Hck as [|? ? _ Hck']; subst. inversion Hck' as [|? ? (_ & K) _]; subst.
      repeat constructor. lia. }
    rewrite Hsrt. cbn [map]. unfold line in U1, U2. rewrite U1, U2. reflexivity.
  - destruct (cells e1) as (X1 & X2 & X3 & X4 & X5 & X6 & X7 & X8 & X9 & X10 & X11).
    destruct (cells e2) as (Y1 & Y2 & Y3 & Y4 & Y5 & Y6 & Y7 & Y8 & Y9 & Y10 & Y11).
    split; [|split; [|split; [|split]]].
    + constructor; [rewrite X5, S4, Ht; lra|]. constructor; [rewrite Y5; lra|constructor].
    + rewrite X4, S2. exact Hm.
    + rewrite Y4. exact Hm2.
    + rewrite X1, S1, CC. unfold cold_of, c_ice. lra.
    + unfold surface_energy. rewrite Y9. rewrite Htr in Hck. inversion Hck as [|? ? _ Hck']; subst. inversion Hck' as [|? ? (K1 & K) _]; subst.
      assert (60 * IZR (fst (fine_line e2) - fst (fine_line e1)) = 3600); [|rewrite H; nra].
      rewrite <- Hsec. unfold Thm_Energy.seconds, fine_line. cbn [fst]. rewrite K1, mult_IZR. do 2 f_equal. lia.
Qed.
Print Assumptions C78_snow_in_the_file_is_cold.
Print Assumptions C79_melt_is_paid_for_line_by_line.
Print Assumptions C79_energy_budget_of_a_part.
Print Assumptions C79_all_melt_is_paid_for.
