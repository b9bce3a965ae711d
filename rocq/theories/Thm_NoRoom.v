(** * Theorem C96: a pack that may hold no water.

    The configuration accepts max_h2o = 0 (no part of the pores holds water).  Every run step that keeps its pack divides the
    water in it by the water it may hold, so it ends only if it has some water to drain: every step that ends with snow must have
    melted some or had rain, and the first dry frosty step over snow stops the run with a division by zero.
    Over the real numbers, about whole runs and files. *)
From Coq Require Import Reals String ZArith Bool Lia Lra List Sorted.
Import ListNotations.
From Verif Require Import Num Real Constants Functions Libsnobal Input SnowState Snobal PySnobal
  SchedSpec Sched Frame SchedProps Spec Averages Forcing Phys Turb Mass MassEnd RunMass Run Strip Modes MeltEnergy Kept Depth Laws
  Thm_Mass Thm_Forcing Thm_Api Thm_Modes Thm_Schedule Thm_Energy Thm_Conduct Thm_Turb2 Thm_Files Thm_FileEnergy Thm_Start Thm_Laws Thm_Second Witness.
Open Scope R_scope.
Implicit Types s : SnowState R.

(** drainage and what follows it leave the reported runoff alone, and a dry store dry *)
Definition still s s' : Prop := swi s' = swi s /\ (h2o s = 0 -> h2o s' = 0) /\ max_h2o_vol s' = max_h2o_vol s.
Lemma still_if (b : bool) s x y : still s x -> still s y -> still s (if b then x else y). Proof. destruct b; auto. Qed.
Lemma still_trans s x y : still s x -> still x y -> still s y.
Proof. intros (A & B & C) (A' & B' & C'). repeat split; [congruence|auto|congruence]. Qed.
Lemma adj_layers_still s k : still s (fst (adj_layers (s, k))).
Proof.
  unfold adj_layers.
  assert (H : still s (calc_layers s)).
  { unfold calc_layers. destruct (if nleb (m_s s) (small_threshold s) then _ else _). repeat split; auto. }
  revert H. generalize (calc_layers s). intros x H.
  destruct (layer_count x =? 0)%nat; cbn [fst].
  - destruct H as (A & B & C). destruct (nltb (nofZ 0) (m_s (set_rho (nofZ 0) x))), (layer_count s =? 2)%nat; repeat split; cbn; auto.
  - apply still_trans with (1 := H). repeat apply still_if; repeat split; auto.
Qed.
Lemma adj_snow_still dz dm s k : still s (fst (adj_snow dz dm (s, k))).
Proof.
  unfold adj_snow.
  match goal with |- context [if negb (neqb (z_s ?a) ?z) then ?x else ?y] =>
    assert (H : still s (if negb (neqb (z_s a) z) then x else y)) by (apply still_if; repeat split; auto);
    revert H; generalize (if negb (neqb (z_s a) z) then x else y); intros x0 H end.
  destruct (nltb _ _); [|destruct (negb _)].
  - eapply still_trans; [|apply adj_layers_still]. eapply still_trans; [exact H|]. repeat split; auto.
  - eapply still_trans; [exact H|]. apply adj_layers_still.
  - cbn [fst]. eapply still_trans; [exact H|]. repeat split; auto.
Qed.
Lemma adjust_still s s' : adjust_layer_temps s = Ok s' -> still s s' /\ layer_count s' = layer_count s.
Proof.
  unfold adjust_layer_temps. intros H.
  destruct (layer_count s =? 1)%nat.
  - inv_bind H as t Ht. injection H as <-. repeat split; auto.
  - destruct (layer_count s =? 2)%nat; [|injection H as <-; repeat split; auto].
    destruct (isothermal s); [injection H as <-; repeat split; auto|].
    inv_bind H as t Ht. inv_bind H as t2 Ht2. inv_bind H as t3 Ht3. injection H as <-. repeat split; auto.
Qed.
Lemma runoff_vol s s' k k' : runoff (s, k) = Ok (s', k') -> max_h2o_vol s' = max_h2o_vol s.
Proof.
  intros H. unfold runoff in H. destruct (negb k || _); [injection H as <- <-; reflexivity|].
  inv_bind H as rd Hrd. destruct (nltb _ _).
  - match type of H with Ok (adj_snow ?a ?b (?x, _)) = _ => pose proof (adj_snow_still a b x k) as F; generalize dependent (adj_snow a b (x, k)) end.
    intros [y ky] H F. injection H as <- <-. exact (proj2 (proj2 F)).
  - inv_bind H as sat Hs. injection H as <- <-. reflexivity.
Qed.

Lemma runoff_no_room s s' k : max_h2o_vol s = 0 -> layer_count s <> 0%nat -> runoff (s, true) = Ok (s', k) ->
  0 < swi s' /\ h2o s' = 0.
Proof.
  intros Hv Hl H. unfold runoff in H.
  apply Nat.eqb_neq in Hl. cbn [negb orb] in H. rewrite Hl in H.
  inv_bind H as rd Hrd.
  assert (E : h2o_left (z_s s) rd (max_h2o_vol s) = 0) by (rewrite Hv; unfold h2o_left; consts; unfold Rdiv; ring).
  rewrite E in H. cbn [h2o_max set_h2o_max h2o_total] in H.
  change (nltb 0 (h2o_total s)) with (Rltb 0 (h2o_total s)) in H.
  destruct (Rltb_spec 0 (h2o_total s)) as [Hc|Hc].
  - match type of H with Ok (adj_snow ?a ?b (?x, _)) = _ => pose proof (adj_snow_still a b x true) as F; generalize dependent (adj_snow a b (x, true)) end.
    intros [y ky] H F. injection H as <- <-. destruct F as (F1 & F2 & _). cbn [fst] in F1, F2. rewrite F1.
    split; [cbn; rn; lra|apply F2; reflexivity].
  - exfalso. inv_bind H as sat Hs. apply pdiv_R in Hs. destruct Hs as (Hz & _). apply Hz. reflexivity.
Qed.

(** a run step that keeps its pack drains water, and leaves none in the pack *)
Lemma kept_drains P zg ts i s s' : max_h2o_vol s' = 0 -> layer_count s' <> 0%nat -> mass_balance P zg ts i (s, true) = Ok (s', true) ->
  0 < swi s' /\ h2o s' = 0.
Proof.
  intros Hv Hl H. unfold mass_balance in H.
  inv_bind H as [s1 k1] H1. inv_bind H as [s2 k2] H2. inv_bind H as [s3 k3] H3. inv_bind H as [s4 k4] H4. inv_bind H as [s5 k5] H5.
  inv_bind H as [s6 k6] H6. cbn [fst snd] in H. clear H1 H2 H3 H4 H5.
  destruct k6; [|injection H as _ H; discriminate]. inv_bind H as s7 H7. injection H as <-.
  destruct (adjust_still _ _ H7) as ((A1 & A2 & A3) & A4). rewrite A4 in Hl. rewrite A3 in Hv. rewrite A1.
  destruct k5.
  2:{ exfalso. unfold runoff in H6. cbn [negb orb] in H6. injection H6 as _ H6. discriminate. }
  pose proof (runoff_vol _ _ _ _ H6) as Hv5. rewrite Hv in Hv5.
  destruct (Nat.eq_dec (layer_count s5) 0) as [E|E].
  - exfalso. unfold runoff in H6. apply Nat.eqb_eq in E. rewrite E in H6. cbn [negb orb] in H6. injection H6 as <-.
    apply Hl. apply Nat.eqb_eq. exact E.
  - destruct (runoff_no_room _ _ _ (eq_sym Hv5) E H6) as (B1 & B2). auto.
Qed.

Lemma init_dry p info ic mh m env c : p_max_h2o_vol p = 0 -> snobal_init p info ic mh m = Ok (env, c) -> h2o (c_ss c) = 0.
Proof.
  intros Hz H. unfold snobal_init in H.
  inv_bind H as pa Hpa. inv_bind H as s Hs. inv_bind H as s1 Hs1. injection H as <- <-. cbn [c_ss].
  unfold create_snow_state in Hs. destruct (nth_error info _) as [th|]; [|discriminate].
  assert (Hm : max_h2o_vol s = 0) by (injection Hs as <-; exact Hz). clear Hs.
  unfold init_snow in Hs1. destruct (layer_count _ =? 0)%nat.
  - injection Hs1 as <-. reflexivity.
  - inv_bind Hs1 as dry Hd. clear Hd. injection Hs1 as <-.
    cbn [h2o set_h2o].
    match goal with |- context [max_h2o_vol ?x] => assert (E : max_h2o_vol x = 0) end.
    { pose proof (calc_layers_frame (set_m_s (rho s * z_s s) s)) as (F & _). unfold params_eq in F. cbn in F.
      destruct (layer_count _ =? 2)%nat; cbn; rewrite <- Hm; tauto. }
    rewrite E. unfold Rdiv. ring.
Qed.

Section Runs.
Variable Q : RawInput R -> Prop.
Variables (p : Params R) (cfg : ModelCfg R) (ic : InitSnow R) (mh : Heights R) (all_mode : bool)
  (env : Env R) (c : Core R).
Hypothesis HQ : forall r, Q r -> valid_record r.
Hypothesis Hv : valid_setup p cfg ic.
Hypothesis Hrun : model_run Q p cfg ic mh all_mode env c.
Hypothesis Hzero : p_max_h2o_vol p = 0.

Lemma new_pack_dry i s : max_h2o_vol s = 0 -> new_pack i s -> h2o s = 0.
Proof using Type.
  intros E N. destruct (np_max _ _ N) as (dry & _ & Em). rewrite (np_h2o_eq _ _ N), Em, E. unfold h2o_left. consts. unfold Rdiv. ring.
Qed.

Lemma step_kept e : In e (c_trace c) -> e_kept e = true -> 0 < swi (e_after e) /\ h2o (e_after e) = 0.
Proof using HQ Hv Hrun Hzero.
  intros He Hk.
  pose proof (run_executes _ _ _ _ _ _ _ _ Hrun) as Hx. rewrite Forall_forall in Hx.
  destruct (Hx e He) as (init & s1 & i1 & init1 & Heb & Hmb).
  destruct (event_facts Q p cfg ic mh all_mode env c HQ Hv Hrun e He) as (_ & _ & O & _ & _ & (_ & _ & Cv)).
  destruct O as [(Pk & _ & _ & [(_ & K)|(Hf & _)])|(_ & Hf & _)]; try congruence.
  rewrite (layered_has_snow _ (proj1 Pk)), Hk in Hmb. rewrite Hzero in Cv.
  refine (kept_drains _ _ _ _ _ _ Cv _ Hmb).
  destruct (layered_count _ (proj1 (ps_packed _ _ _ K))) as [[_ ->]|[_ ->]]; discriminate.
Qed.

(** the store of a pack is empty before and after every run step *)
Lemma dry_store e : In e (c_trace c) ->
  (layer_count (e_before e) <> 0%nat -> h2o (e_before e) = 0) /\ (layer_count (e_after e) <> 0%nat -> h2o (e_after e) = 0).
Proof using HQ Hv Hrun Hzero.
  intros He. pose proof Hrun as (info & c0 & Hp & Hi & Hr). destruct (run_has_facts _ _ _ _ _ _ _ _ _ _ HQ Hv Hp Hi Hr) as [Hch _ _ _].
  refine (proj1 (Forall_forall _ _) (proj2 (chain_inv (fun s => layer_count s <> 0%nat -> h2o s = 0) _ _ _ _ _ _ _ Hch _)) e He).
  - intros a b (b1 & m1 & e1 & w1 & ->) X. exact X.
  - intros e' He' X Hl.
    destruct (event_facts Q p cfg ic mh all_mode env c HQ Hv Hrun e' He') as (_ & _ & O & _ & _ & (_ & _ & Cv)). rewrite Hzero in Cv.
    destruct O as [(Pk & _ & _ & [(Hk & K)|(Hf & mc & w & K)])|(Hb & Hf & _ & (_ & _ & _ & D))].
    + exact (proj2 (step_kept e' He' Hk)).
    + destruct (cl_end _ _ _ _ _ K) as [(B & _)|(N & _)]; [exfalso; apply Hl; apply bare_count; exact B|exact (new_pack_dry _ _ Cv N)].
    + destruct D as [(B & _)|[(B & _)|(N & _)]]; [exfalso; apply Hl; apply bare_count; exact B|exfalso; apply Hl; apply bare_count; exact B|exact (new_pack_dry _ _ Cv N)].
  - intros _. exact (init_dry _ _ _ _ _ _ _ Hzero Hi).
Qed.

(** a step that ends with snow drained water, from melt or from rain (or is the first of its pack) *)
Theorem C96_a_step_that_keeps_snow_drains e : In e (c_trace c) -> layer_count (e_before e) <> 0%nat -> e_kept e = true ->
  0 < swi (e_after e) /\ h2o (e_after e) = 0 /\ h2o (e_before e) = 0 /\
  (0 < rho (e_before e) <= 600 -> 0 < melt (e_after e) \/ (i_precip_now (e_input e) = true /\ 0 < i_m_rain (e_input e))).
Proof using HQ Hv Hrun Hzero.
  intros He Hl Hk. destruct (step_kept e He Hk) as (A & B). split; [exact A|]. split; [exact B|].
  pose proof (proj1 (dry_store e He) Hl) as D. split; [exact D|]. intros Hr.
  destruct (C71_law_of_a_run_step Q p cfg ic mh all_mode env c HQ Hv Hrun e He Hl Hk Hr) as (h & Hh & [L _ _] & W).
  destruct W as (r0 & rl & R1 & R2 & _ & _ & W1 & W2).
  assert (Hp : 0 < h).
  { destruct (Rle_lt_or_eq_dec _ _ Hh) as [X|X]; [exact X|exfalso]. rewrite <- X, B in L. unfold water_left in L.
    destruct (Rlt_dec 0 0); [lra|]. destruct (Rlt_dec 0 0); lra. }
  destruct (Rle_dec _ _) in W2; [lra|]. rewrite D in W2. unfold rain_and_wet_snow in W2. rewrite Hzero in W2.
  destruct (Rlt_le_dec 0 (melt (e_after e))) as [X|X]; [left; exact X|right].
  destruct (i_precip_now (e_input e)); [split; [reflexivity|]|]; lra.
Qed.
End Runs.

(** ** Files: consecutive lines with snow *)
Lemma cell_swi e : num "swi" (fine_line e) = swi (e_after e).
Proof. unfold num, cell, fine_line. cbn [snd]. rewrite C43_columns. cbn [find fst snd String.eqb Ascii.eqb Bool.eqb]. reflexivity. Qed.

(** a record without rain: its precipitation, if any, is all snow *)
Definition no_rain (r : RawInput R) : Prop := r_m_pp r * (1 - r_percent_snow r) <= 0.
Lemma no_rain_input r i : no_rain r -> input_data r = Ok i -> i_m_rain i <= 0.
Proof.
  intros H Hi. destruct (input_data_raw r i Hi) as (_ & _ & _ & _ & _ & _ & _ & _ & _ & _ & E & _). rewrite E. unfold no_rain in H. lra.
Qed.

Theorem C96_lines_with_snow_show_runoff p end_date cfg ic mh rows out :
  valid_setup p cfg ic -> p_max_h2o_vol p = 0 -> Forall (fun row => valid_record (snd row)) rows ->
  pysnobal_run p end_date cfg ic mh true rows = Ok out ->
  forall pre a b post, out = pre ++ a :: b :: post -> cfg_small_thr cfg < num "m_s" a -> 0 < num "m_s" b ->
  0 < num "swi" b /\
  (Forall (fun row => no_rain (snd row)) rows -> 0 < num "rho" a <= 600 -> 0 < num "melt" b).
Proof.
  intros Hv Hz Hf H pre a b post E Ha Hb.
  set (Q0 := fun r : RawInput R => valid_record r /\ (Forall (fun row : CsvRow => no_rain (snd row)) rows -> no_rain r)).
  assert (Hf' : Forall (fun row : CsvRow => Q0 (snd row)) rows).
  { rewrite Forall_forall in *. intros row Hr. split; [exact (Hf row Hr)|]. intros X. rewrite Forall_forall in X. exact (X row Hr). }
  assert (HQ : forall r, Q0 r -> valid_record r) by (intros r X; exact (proj1 X)).
  destruct (all_file Q0 Q0 p end_date cfg ic mh rows out HQ (fun row (h : Q0 (snd row)) => conj (prepare_valid row (proj1 h)) (proj2 h)) Hv Hf' H)
    as (info & env & c0 & c & Hi & Hin & Hmr & Eo & Hch & Hck).
  rewrite Eo in E. destruct (map_pair _ _ _ _ _ _ E) as (pre' & x & y & post' & Et & -> & -> & _).
  destruct (chain_pairs _ _ _ _ _ Hch _ _ _ _ Et) as ((b1 & m1 & e1 & w1 & Es) & _).
  destruct (cells x) as (_ & _ & _ & Cm & _). destruct (cells y) as (_ & _ & _ & Cm' & _ & _ & _ & Cme & _). rewrite Cm in Ha. rewrite Cm' in Hb.
  assert (Cr : num "rho" (fine_line x) = rho (e_before y)).
  { rewrite Es. unfold num, cell, fine_line. cbn [snd]. rewrite C43_columns. cbn [find fst snd String.eqb Ascii.eqb Bool.eqb]. reflexivity. }
  rewrite Cr, cell_swi, Cme. clear Cr Cme Cm Cm'.
  assert (Hy : In y (c_trace c)) by (rewrite Et; apply in_or_app; right; right; left; reflexivity).
  destruct (event_facts Q0 p cfg ic mh true env c HQ Hv Hmr y Hy) as ([_ _ Hpk] & [_ _ Hpk'] & O & (r & Hq & Hfed) & (_ & Hthr & _) & _).
  assert (Hm : m_s (e_before y) = m_s (e_after x)) by (rewrite Es; reflexivity).
  assert (Hpos : 0 <= cfg_small_thr cfg) by exact (vs_thr _ _ _ Hv).
  assert (Hl : layer_count (e_before y) <> 0%nat).
  { destruct Hpk as [Hk|Hbr]; [destruct (layered_count _ (proj1 Hk)) as [[_ ->]|[_ ->]]; discriminate|].
    exfalso. pose proof (br_m _ Hbr). lra. }
  assert (Hk : e_kept y = true).
  { destruct O as [(_ & _ & _ & [(X & _)|(_ & mc & w & K)])|(Hbr & _)]; [exact X| |exfalso; apply Hl; apply bare_count; exact Hbr].
    exfalso. destruct (cl_end _ _ _ _ _ K) as [(B & _)|(_ & _ & _ & B & _)]; [pose proof (br_m _ B)|]; lra. }
  destruct (C96_a_step_that_keeps_snow_drains Q0 p cfg ic mh true env c HQ Hv Hmr Hz y Hy Hl Hk) as (A & _ & _ & D).
  split; [exact A|]. intros Hnr Hr. destruct (D Hr) as [X|(X1 & X2)]; [exact X|exfalso].
  destruct Hfed as (i1 & Hi1 & _ & Hpt & _ & Hs). specialize (Hs X1 i_m_rain ltac:(cbn; tauto)). rewrite Hs in X2.
  pose proof (no_rain_input r i1 (proj2 Hq Hnr) Hi1) as Y. apply IZR_lt in Hpt.
  assert (Z : 0 < / IZR (ts_per_timestep (e_tstep y))) by (apply Rinv_0_lt_compat; exact Hpt). unfold Rdiv in X2. nra.
Qed.

(** ** The first dry frosty step over snow stops the run *)
(** dry still weather over soil as cold as the snow, radiating no more than the snow gives off (temperatures in C) *)
Definition frosty (t S L : R) (r : RawInput R) : Prop :=
  r_m_pp r <= 0 /\ r_u r = 0 /\ r_t_g r + 27316/100 = t /\ r_S_n r <= S /\ r_I_lw r <= L.

Theorem C96_frost_stops_the_run p end_date cfg ic mh all_mode rows S L :
  valid_setup p cfg ic -> divides_evenly cfg -> p_max_h2o_vol p = 0 ->
  (* one layer of snow, uniformly frozen *)
  0 < is_z_s ic -> 0 < is_rho ic <= 600 -> cfg_small_thr cfg < is_rho ic * is_z_s ic -> lower_depth p cfg ic = 0 ->
  is_t_s ic = is_t_s_0 ic -> 0 < is_t_s_0 ic <= 27316/100 ->
  S + 98/100 * L <= 98/100 * (567032/10000000000000 * is_t_s_0 ic ^ 4) ->
  Forall (fun row => frosty (is_t_s_0 ic) S L (snd row)) rows ->
  exists x, pysnobal_run p end_date cfg ic mh all_mode rows = Err x.
Proof.
  intros Hv Hdiv Hz Z0 Hrho Hthr Hlow Ht Ht0 Hrad Hf.
  destruct (pysnobal_run p end_date cfg ic mh all_mode rows) as [out|x] eqn:H; [exfalso|exists x; reflexivity].
  set (T := is_t_s_0 ic) in *.
  set (Q := fun r : RawInput R => r_m_pp r <= 0 /\ r_u r = 0 /\ r_t_g r = T /\ r_S_n r <= S /\ r_I_lw r <= L).
  assert (HQ : forall r, Q r -> valid_record r) by (intros r (X & _); split; intros; exfalso; lra).
  destruct (pysnobal_run_inv _ _ _ _ _ _ _ _ H)
    as (info & used & i1 & r0 & rest & env & c0 & c & Hi & Hu & Eu & _ & Hi1 & Hinit & Hrun & Hne & _).
  assert (Hval : Forall (fun row => Q (snd row)) used).
  { unfold read_input_data in Hu. inv_bind Hu as cl Hc. injection Hu as Hu. rewrite <- Hu.
    apply Forall_map. apply Forall_forall. intros x Hx.
    unfold clip_rows in Hc. destruct rows as [|q0 [|q1 qs]]; try discriminate. injection Hc as <-.
    apply filter_In in Hx. destruct Hx as (Hx & _).
    apply (Permutation.Permutation_in x (Permutation.Permutation_sym (sort_perm fst (q0 :: q1 :: qs)))) in Hx.
    rewrite Forall_forall in Hf. destruct (Hf x Hx) as (A & B & C & D & E).
    unfold prepare_row, Q. cbn [snd r_m_pp r_u r_t_g r_S_n r_I_lw]. consts. repeat split; lra. }
  rewrite Eu in Hval. inversion Hval as [|? ? Hv0 Hvr]; subst x l.
  destruct (init_tso _ _ _ _ _ _ _ Hinit) as (_ & Hdt & Eout & Etr & Einfo & _).
  destruct rest as [|r1 rest]; [cbn in Hrun; injection Hrun as <-; congruence|].
  cbn [map run_steps] in Hrun. inv_bind Hrun as i2 Hi2. inv_bind Hrun as c1 Hc1. clear Hrun Hne c.
  inversion Hvr as [|? ? Hv1 _]; subst x l.
  assert (Hre : reachable_by (made_from Q) env c0 c1).
  { econstructor; [constructor| |exact Hc1]. exists (snd r0). auto. }
  assert (Hmr : model_run Q p cfg ic mh all_mode env c1) by (exists info, c0; auto).
  assert (Hconf : configured cfg env) by (unfold configured; rewrite Einfo; exact Hi).
  destruct (C95_forcing_stays_between cfg env c0 i1 i2 c1 Hdiv Hconf Hc1) as (evs & Hev & Hbet).
  unfold steps_between in Hev. rewrite Etr in Hev. cbn [app] in Hev.
  destruct (run_has_facts _ _ _ _ _ _ _ _ _ _ HQ Hv Hi Hinit Hre) as [Hch _ _ _].
  pose proof (C01_clock_advances_one_normal_step cfg env c0 i1 i2 c1 Hdiv Hconf Hc1) as Hck.
  pose proof Hdiv as (Pn & _).
  inversion Hch as [? ? E1 E2 E3 E4 E5|e evs' s1 s' t' Hs Hr E1 E2 E3 E4 E5]; [lia|].
  assert (He : In e (c_trace c1)) by (rewrite <- E3; left; reflexivity).
  assert (Hee : In e evs) by (rewrite <- Hev; exact He).
  destruct (C81_a_run_starts_from_the_configured_pack _ _ _ _ _ _ _ _ Hv Hi Hinit) as (CP & _). specialize (CP Z0 Hthr).
  rewrite <- E1 in CP. destruct CP as [A1 A2 A3 A4 A5 A6 A7 A8 A9 A10 _ A12 A13 _ _ _ _].
  rewrite Hlow in *. destruct (Rlt_dec 0 0) as [X|_]; [lra|]. 
  set (s0 := e_before e) in *. assert (ES : c_ss c0 = s0) by (exact (eq_sym E1)).
  assert (Hl : layer_count s0 <> 0%nat) by (rewrite A8; discriminate).
  destruct (event_facts Q p cfg ic mh all_mode env c1 HQ Hv Hmr e He) as (_ & _ & _ & (r & Hq & j1 & Hj1 & (Hcn & _) & _ & Hsec & _) & _).
  assert (Hdry : i_precip_now (e_input e) = false).
  { rewrite Hcn. exact (proj1 (input_data_dry r j1 Hj1 (proj1 Hq))). }
  destruct (Hbet e Hee) as (B1 & B2 & _ & B4 & B5).
  destruct (input_data_raw _ _ Hi1) as (F1 & F2 & _ & _ & F5 & F6 & _). destruct (input_data_raw _ _ Hi2) as (G1 & G2 & _ & _ & G5 & G6 & _).
  destruct Hv0 as (_ & V1 & V2 & V3 & V4). destruct Hv1 as (_ & W1 & W2 & W3 & W4).
  assert (Xu : i_u (e_input e) = 0) by (destruct B4 as (B & _); rewrite F5, G5, V1, W1 in B; specialize (B (Rle_refl 0)); lra).
  assert (Xg : i_t_g (e_input e) = T) by (destruct B5 as (B & _); rewrite F6, G6, V2, W2 in B; specialize (B (Rle_refl T)); lra).
  assert (Xs : i_S_n (e_input e) <= S).
  { destruct B1 as (B & B' & _). rewrite F1, G1 in B, B'. destruct (Rle_dec (r_S_n (snd r0)) (r_S_n (snd r1))) as [X|X]; [specialize (B X)|specialize (B' ltac:(lra))]; lra. }
  assert (Xl : i_I_lw (e_input e) <= L).
  { destruct B2 as (B & B' & _). rewrite F2, G2 in B, B'. destruct (Rle_dec (r_I_lw (snd r0)) (r_I_lw (snd r1))) as [X|X]; [specialize (B X)|specialize (B' ltac:(lra))]; lra. }
  clear B1 B2 B4 B5 F1 F2 F5 F6 G1 G2 G5 G6.
  (* energy *)
  destruct (C58_still_air _ _ _ _ _ _ _ _ Hmr e He Xu) as (EH & EL & EE).
  destruct (C57_energy_terms Q p cfg ic mh all_mode env c1 HQ Hv Hmr e He Hl) as (Rn & Mm & Q0 & _ & G1 & _).
  destruct (C57_conduction_formulas Q p cfg ic mh all_mode env c1 Hmr e He Hl) as ((esn & eso & _ & _ & Gf) & _).
  fold s0 in Rn, Mm, Q0, G1, Gf. specialize (G1 A8). rewrite A8 in Gf. cbn [Nat.eqb] in Gf. rewrite Xg, A10 in Gf. fold T in Gf.
  assert (Tm : Rmin T (27316/100) = T) by (unfold Rmin; destruct (Rle_dec _ _); lra).
  assert (Gz : G_ (en (e_after e)) = 0) by (rewrite Gf, Tm; unfold conduction, Rdiv; ring).
  rewrite A10 in Rn. fold T in Rn. rewrite Hdry in Mm.
  assert (Qn : delta_Q_0 (en (e_after e)) <= 0) by (rewrite Q0, Rn, EH, EL, Mm, <- G1, Gz; lra).
  assert (Sp : 0 < seconds e) by (unfold seconds; apply IZR_lt; exact Hsec).
  assert (M0 : 0 <= m_s_0 s0) by (rewrite A6, A5; nra).
  assert (C0 : cc_s_0 s0 <= 0).
  { rewrite A12. rewrite <- cold_eq. apply cold_content_le; [fold T; lra|exact M0]. }
  assert (Ts : 0 < t_s s0) by (rewrite A9, Ht; fold T; lra).
  assert (Hmelt : melt (e_after e) = 0).
  { apply (C55_cold_snow_does_not_melt Q p cfg ic mh all_mode env c1 HQ Hv Hmr e He Hl Ts C0); [fold s0; lra|fold s0; nra|lra]. }
  (* vapour *)
  assert (HEs : E_s (e_after e) = 0).
  { destruct (Req_dec (E_s (e_after e)) 0) as [X|X]; [exact X|].
    destruct (C56_vapour_exchange Q p cfg ic mh all_mode env c1 HQ Hv Hmr e He Hl (or_intror X) Ts C0 ltac:(fold s0; lra)) as (t & es1 & es2 & Et & S1 & S2 & ->).
    fold s0 in Et. rewrite A9, A10, Ht in Et. fold T in Et. assert (t = T) by (destruct Et as [->|[->|(X1 & _)]]; [reflexivity|reflexivity|lra]). subst t.
    rewrite Xg, S1 in S2. injection S2 as <-. rewrite EE. unfold Rdiv. ring. }
  assert (Hp0 : precip e = 0) by (unfold precip, precip_of; rewrite Hdry; reflexivity).
  destruct (C54_packs_stay Q p cfg ic mh all_mode env c1 HQ Hv Hmr e He Hl) as (Hk & _ & _); fold s0; rewrite ?A3, ?Hp0, ?HEs, ?Hmelt; try lra.
  { pose proof (vs_thr _ _ _ Hv). lra. }
  destruct (C96_a_step_that_keeps_snow_drains Q p cfg ic mh all_mode env c1 HQ Hv Hmr Hz e He Hl Hk) as (_ & _ & _ & D).
  fold s0 in D. rewrite A2 in D. destruct (D Hrho) as [X|(X & _)]; [lra|congruence].
Qed.
(** ** Concrete runs *)
(** 10 cm of snow at 270 K over ground as cold, a still clear day: the hypotheses of the last theorem are met *)
Definition frost_params : Params R := mkParams 0 0%Z 0 1 false.
Definition frost_pack : InitSnow R := mkInitSnow (6/10) 100 270 270 0 (1/100).
Definition frost_day : list (CsvRow (T:=R)) :=
  let r := mkRaw 0 250 (-7) 200 0 (-316/100) 0 0 0 0 in [(0%Z, r); (60%Z, r); (120%Z, r)].
Example C96_frost_witness : exists x, pysnobal_run frost_params 120 wcfg frost_pack wmh true frost_day = Err x.
Proof.
  apply C96_frost_stops_the_run with (S := 0) (L := 250); cbn [frost_params frost_pack wcfg p_max_h2o_vol is_z_s is_rho is_t_s is_t_s_0 cfg_small_thr];
    try reflexivity; try lra.
  - split; cbn; try lra. unfold ordered_steps, wcfg. cbn. lia.
  - exact wcfg_even.
  - unfold lower_depth. cbn. destruct (Rlt_dec 1 (6/10)); lra.
  - unfold frost_day. repeat constructor; cbn; lra.
Qed.

(** in binary64: the same day stops with a division by zero, and goes on when the pack may hold 1% of water; a hot day over a pack
    at the melting point gives a file, whose lines show melt and runoff *)
From Coq Require Import Floats.
Definition no_room : Params float := (mkParams 2061 0%Z 0 1 false)%float.
Definition some_room : Params float := (mkParams 2061 0%Z 0x1.47ae147ae147bp-7 1 false)%float.
Definition f_frost_pack : InitSnow float := (mkInitSnow 0.625 100 270 270 0 0.0078125)%float.
Definition f_frost_day : list (CsvRow (T:=float)) :=
  (let r := mkRaw 0 250 (-7) 200 0 (-0x1.947ae147ae148p+1) 0 0 0 0 in [(0%Z, r); (60%Z, r); (120%Z, r)])%float.
Definition f_ripe_pack : InitSnow float := (mkInitSnow 0.625 100 0x1.1128f5c28f5c3p+8 0x1.1128f5c28f5c3p+8 0 0.0078125)%float.
Definition f_hot_day : list (CsvRow (T:=float)) :=
  (let r := mkRaw 600 320 5 700 2 0 0 0 0 0 in [(0%Z, r); (60%Z, r); (120%Z, r)])%float.
Definition ending {A} (x : result A) : option exn := match x with Ok _ => None | Err e => Some e end.
Definition wet_line (l : Z * list (String.string * option float)) : bool :=
  let pos k := match find (fun kv => String.eqb k (fst kv)) (snd l) with Some (_, Some v) => PrimFloat.ltb 0 v | _ => false end in
  pos "m_s"%string && pos "melt"%string && pos "swi"%string.
Example C96_frost_in_binary64 :
  ending (pysnobal_run no_room 120 w_even f_frost_pack w_heights true f_frost_day) = Some ZeroDivision /\
  ending (pysnobal_run some_room 120 w_even f_frost_pack w_heights true f_frost_day) = None.
Proof. vm_compute. split; reflexivity. Qed.
Example C96_hot_day_in_binary64 :
  match pysnobal_run no_room 120 w_even f_ripe_pack w_heights true f_hot_day with
  Ok out => (length out, forallb wet_line out) | Err _ => (0%nat, false) end = (5%nat, true).
Proof. vm_compute. reflexivity. Qed.
Print Assumptions C96_a_step_that_keeps_snow_drains.
Print Assumptions C96_lines_with_snow_show_runoff.
Print Assumptions C96_frost_stops_the_run.
