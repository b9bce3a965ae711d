(** * Theorem C92: snow that reaches the instruments stops the run.

    About finished files of both output modes, over the real numbers: every line with snow that is followed by
    another line shows a snow surface that lies more than 4.9 roughness lengths below both sensors, and a surface
    temperature above absolute zero.  There is no other bound on the depth of the snow in the program. *)
From Coq Require Import Reals String ZArith Bool Lia Lra List Sorted.
Import ListNotations.
From Verif Require Import Num Real Constants Functions Libsnobal Input SnowState Snobal PySnobal
  SchedSpec Sched Frame SchedProps Spec Averages Forcing Phys Turb Mass MassEnd RunMass Run Strip Modes
  Thm_Mass Thm_Forcing Thm_Api Thm_Modes Thm_Schedule Thm_Energy Thm_Files Thm_FileEnergy Thm_Start Thm_Guards.
Open Scope R_scope.
Implicit Types s : SnowState R.

(** ** Specification: what a line with snow must satisfy for the run to continue after it *)
Record free_instruments (ic : InitSnow R) (mh : Heights R) (l : Line) : Prop := {
  fi_rough : 0 < is_z_0 ic;
  fi_wind : num "z_s" l + 49/10 * is_z_0 ic < mh_z_u mh;
  fi_temp : num "z_s" l + 49/10 * is_z_0 ic < mh_z_t mh;
  fi_kelvin : - (27316/100) < num "t_s_0" l
}.

(** the roughness length is the configured one *)
Lemma init_rough (p : Params R) info ic mh m env c : snobal_init p info ic mh m = Ok (env, c) -> z_0 (c_ss c) = is_z_0 ic.
Proof.
  intros H. unfold snobal_init in H.
  inv_bind H as pa Hpa. inv_bind H as s Hs. inv_bind H as s1 Hs1. injection H as <- <-. cbn [c_ss].
  unfold create_snow_state in Hs. destruct (nth_error info _) as [th|]; [|discriminate]. injection Hs as <-.
  destruct (init_snow_frame _ _ Hs1) as ((-> & _) & _). reflexivity.
Qed.

Lemma hle1_ok (press ta ts za ea es zq u zu z0 : R) iu ifc r :
  hle1 press ta ts za ea es zq u zu z0 iu ifc = Ok r -> 0 < z0 /\ 49/10 * z0 < zq /\ 49/10 * z0 < zu /\ 49/10 * z0 < za /\ 0 < ta /\ 0 < ts /\
    0 < ea /\ 0 < es /\ ea < press /\ es < press.
Proof.
  intros H.
  assert (N : ~ rejected press ta ts za ea es zq zu z0).
  { intros N. apply (C97_value_errors _ _ _ _ _ _ _ u _ _ iu ifc) in N. destruct N as (m & E). congruence. }
  unfold rejected, too_low in N. repeat split; apply Rnot_le_lt; tauto.
Qed.

(** a step over snow that ended *)
Lemma step_over_snow (Q : RawInput R -> Prop) (p : Params R) (cfg : ModelCfg R) (ic : InitSnow R) (mh : Heights R) m env c : (forall r, Q r -> valid_record r) -> valid_setup p cfg ic -> model_run Q p cfg ic mh m env c ->
  forall e, In e (c_trace c) -> has_snow (e_before e) = true ->
  0 < is_z_0 ic /\ z_s (e_before e) + 49/10 * is_z_0 ic < mh_z_u mh /\ z_s (e_before e) + 49/10 * is_z_0 ic < mh_z_t mh /\
  0 < t_s_0 (e_before e) /\ 0 < i_e_a (e_input e).
Proof.
  intros HQ Hv Hrun e He Hs.
  destruct (C09_vapour_pressure_is_clipped _ _ _ _ _ _ _ _ Hrun e He Hs) as (us & fa & sat & es & r & _ & _ & H & _).
  destruct (hle1_ok _ _ _ _ _ _ _ _ _ _ _ _ _ H) as (A1 & A2 & A3 & A4 & A5 & A6 & A7 & _).
  assert (Ez : z_0 (e_before e) = is_z_0 ic).
  { destruct Hrun as (info & c0 & Hp & Hi & Hr). destruct (run_has_facts _ _ _ _ _ _ _ _ _ _ HQ Hv Hp Hi Hr) as [Hch Hg _ _].
    refine (proj1 (proj1 (Forall_forall _ _) (proj2 (chain_inv (fun s => z_0 s = is_z_0 ic) _ _ _ _ _ _ _ Hch _)) e He)).
    - intros a b (b1 & m1 & e1 & w1 & ->) X. exact X.
    - intros e' He' X. rewrite Forall_forall in Hg. destruct (Hg e' He') as (_ & O & _).
      destruct (outcome_params _ O) as (-> & _). exact X.
    - exact (init_rough _ _ _ _ _ _ _ Hi). }
  rewrite Ez in *. pose proof (Rmin_l (i_e_a (e_input e)) sat). repeat split; lra.
Qed.

Lemma fine_instruments p end_date cfg ic mh rows out : valid_setup p cfg ic -> Forall (fun row => valid_record (snd row)) rows ->
  pysnobal_run p end_date cfg ic mh true rows = Ok out -> forall pre a b post, out = pre ++ a :: b :: post -> 0 < num "m_s" a ->
  free_instruments ic mh a.
Proof.
  intros Hv Hf H pre a b post E Hm.
  destruct (all_file valid_record valid_record p end_date cfg ic mh rows out (fun r h => h) (fun row h => prepare_valid row h) Hv Hf H)
    as (info & env & c0 & c & Hi & Hin & Hmr & Eo & Hch & Hck).
  rewrite Eo in E. destruct (map_pair _ _ _ _ _ _ E) as (pre' & x & y & post' & Et & -> & -> & _).
  destruct (chain_pairs _ _ _ _ _ Hch _ _ _ _ Et) as ((b1 & m1 & e1 & w1 & Es) & _).
  destruct (cells x) as (_ & _ & Cz & Cm & _ & Ct & _). rewrite Cm in Hm.
  assert (Hx : In x (c_trace c)) by (rewrite Et; apply in_elt).
  assert (Hy : In y (c_trace c)) by (rewrite Et; apply in_or_app; right; right; left; reflexivity).
  assert (Hs : has_snow (e_before y) = true).
  { pose proof Hmr as (info' & c0' & Hp' & Hi' & Hr'). destruct (run_has_facts _ _ _ _ _ _ _ _ _ _ (fun r h => h) Hv Hp' Hi' Hr') as [_ Hg _ _].
    rewrite Forall_forall in Hg. destruct (Hg y Hy) as ([_ _ [Hk|Hb]] & _).
    - unfold has_snow. destruct (layered_count _ (proj1 Hk)) as [[_ ->]|[_ ->]]; reflexivity.
    - pose proof (br_m _ Hb) as Hz. rewrite Es in Hz. cbn in Hz. lra. }
  destruct (step_over_snow _ _ _ _ _ _ _ _ (fun r h => h) Hv Hmr y Hy Hs) as (A & B & C & D & _).
  rewrite Es in B, C, D. cbn in B, C, D. split; [assumption|rewrite Cz; lra|rewrite Cz; lra|rewrite Ct; lra].
Qed.

(** ** From the fine file to the summaries of the normal mode *)
Lemma summary_pair d fine coarse : summary_of d fine coarse -> forall pre a b post, coarse = pre ++ a :: b :: post ->
  exists fpre x y fpost, fine = fpre ++ x :: y :: fpost /\ (forall k, In k state_columns -> cell k a = cell k x).
Proof.
  induction 1 as [d|d ls r fine coarse Hs Hr IH]; intros pre a b post E; [destruct pre; discriminate|].
  destruct pre as [|q pre]; cbn [app] in E.
  - injection E as -> ->. destruct Hs as (Hne & _ & _ & Hst & _).
    destruct (exists_last Hne) as (l0 & x & ->). rewrite last_last in Hst.
    inversion Hr as [|? ls2 ? fine2 ? (Hne2 & _) _]; subst. destruct ls2 as [|y ls2]; [congruence|].
    exists l0, x, y, (ls2 ++ fine2). rewrite <- app_assoc. split; [reflexivity|assumption].
  - injection E as -> E. destruct (IH pre a b post E) as (fpre & x & y & fpost & -> & C).
    exists (ls ++ fpre), x, y, fpost. rewrite <- app_assoc. split; [reflexivity|assumption].
Qed.

(** ** The theorem *)
Theorem C92_snow_never_reaches_the_instruments p end_date cfg ic mh all_mode rows out :
  valid_setup p cfg ic -> Forall (fun row => valid_record (snd row)) rows ->
  pysnobal_run p end_date cfg ic mh all_mode rows = Ok out ->
  forall pre a b post, out = pre ++ a :: b :: post -> 0 < num "m_s" a -> free_instruments ic mh a.
Proof.
  intros Hv Hf H pre a b post E Hm. destruct all_mode; [exact (fine_instruments _ _ _ _ _ _ _ Hv Hf H pre a b post E Hm)|].
  pose proof (C63_output_mode_only_selects p end_date cfg ic mh rows (vs_steps _ _ _ Hv)) as HM. rewrite H in HM.
  destruct (pysnobal_run p end_date cfg ic mh true rows) as [fine|x] eqn:Ef; cbn in HM; [|contradiction].
  destruct (summary_pair _ _ _ HM pre a b post E) as (fpre & x & y & fpost & Ex & C).
  assert (N : forall k, In k state_columns -> num k a = num k x) by (intros k Hk; unfold num; rewrite (C k Hk); reflexivity).
  rewrite (N "m_s"%string) in Hm by (cbn; tauto).
  destruct (fine_instruments _ _ _ _ _ _ _ Hv Hf Ef fpre x y fpost Ex Hm) as [A B D F].
  split; [assumption|rewrite N by (cbn; tauto); assumption|rewrite N by (cbn; tauto); assumption|rewrite N by (cbn; tauto); assumption].
Qed.

(** With new snow of at most 600 kg/m3 the mass shown is bounded by the height of the instruments, whatever falls. *)
Theorem C92_mass_is_bounded_by_the_instruments p end_date cfg ic mh all_mode rows out :
  valid_setup p cfg ic -> Forall (fun row => valid_record (snd row) /\ r_rho_snow (snd row) <= 600) rows ->
  pysnobal_run p end_date cfg ic mh all_mode rows = Ok out ->
  forall pre a b post, out = pre ++ a :: b :: post -> 0 < num "m_s" a ->
    num "m_s" a < 600 * (Rmin (mh_z_u mh) (mh_z_t mh) - 49/10 * is_z_0 ic).
Proof.
  intros Hv Hf H pre a b post E Hm.
  assert (Hf1 : Forall (fun row : CsvRow => valid_record (snd row)) rows) by (eapply Forall_impl; [|exact Hf]; intros ? (X1 & X2); assumption).
  assert (Hf2 : Forall (fun row : CsvRow => r_rho_snow (snd row) <= 600) rows) by (eapply Forall_impl; [|exact Hf]; intros ? (X1 & X2); assumption).
  destruct (C92_snow_never_reaches_the_instruments _ _ _ _ _ _ _ _ Hv Hf1 H pre a b post E Hm) as [_ B C _].
  destruct (C75_every_line_is_sensible _ _ _ _ _ _ _ _ Hv Hf1 H) as (S & D). specialize (D Hf2).
  rewrite Forall_forall in S, D. assert (Ha : In a out) by (rewrite E; apply in_elt).
  destruct (S a Ha) as [S1 S2 S3 S4 _ _ _ _ S9 _ _]. specialize (D a Ha).
  assert (Z : 0 < num "z_s" a). { destruct (Rlt_le_dec 0 (num "z_s" a)); [assumption|]. destruct (S9 r) as (X & _). lra. }
  assert (Em : num "m_s" a = num "rho" a * num "z_s" a) by (rewrite S2, S3, S4, S1; ring).
  assert (L : num "z_s" a < Rmin (mh_z_u mh) (mh_z_t mh) - 49/10 * is_z_0 ic) by (unfold Rmin; destruct (Rle_dec _ _); lra).
  rewrite Em. nra.
Qed.

(** The same before the first line: a run that starts from a snowpack and writes a line started with the instruments free. *)
Theorem C92_initial_snow_leaves_the_instruments_free p end_date cfg ic mh all_mode rows out :
  valid_setup p cfg ic -> Forall (fun row => valid_record (snd row)) rows ->
  pysnobal_run p end_date cfg ic mh all_mode rows = Ok out -> out <> [] ->
  cfg_small_thr cfg < is_rho ic * is_z_s ic -> 0 < is_z_s ic ->
  0 < is_z_0 ic /\ is_z_s ic + 49/10 * is_z_0 ic < mh_z_u mh /\ is_z_s ic + 49/10 * is_z_0 ic < mh_z_t mh /\ 0 < is_t_s_0 ic.
Proof.
  intros Hv Hf H Hne Hm Hz.
  assert (HF : exists fine, pysnobal_run p end_date cfg ic mh true rows = Ok fine /\ fine <> []).
  { destruct all_mode; [eauto|].
    pose proof (C63_output_mode_only_selects p end_date cfg ic mh rows (vs_steps _ _ _ Hv)) as HM. rewrite H in HM.
    destruct (pysnobal_run p end_date cfg ic mh true rows) as [fine|x] eqn:Ef; cbn in HM; [|contradiction]. exists fine. split; [reflexivity|].
    inversion HM as [|? ls ? ? ? (Hl & _) _]; subst; [congruence|]. destruct ls; [congruence|]. discriminate. }
  destruct HF as (fine & Ef & Hn). clear H Hne.
  destruct (all_file valid_record valid_record p end_date cfg ic mh rows fine (fun r h => h) (fun row h => prepare_valid row h) Hv Hf Ef)
    as (info & env & c0 & c & Hi & Hin & Hmr & Eo & Hch & Hck).
  destruct (C81_a_run_starts_from_the_configured_pack _ _ _ _ _ _ _ _ Hv Hi Hin) as (CP & _). specialize (CP Hz Hm).
  inversion Hch as [? ? E1 E2 E3 E4 E5|e evs s1 s' t' Hs Hr E1 E2 E3 E4 E5]; [exfalso; apply Hn; rewrite Eo, <- E3; reflexivity|].
  assert (He : In e (c_trace c)) by (rewrite <- E3; left; reflexivity).
  assert (Hsn : has_snow (e_before e) = true).
  { rewrite E1. unfold has_snow. rewrite (cp_count _ _ _ _ CP). destruct (Rlt_dec _ _); reflexivity. }
  destruct (step_over_snow _ _ _ _ _ _ _ _ (fun r h => h) Hv Hmr e He Hsn) as (A & B & C & D & _).
  rewrite E1, (cp_depth _ _ _ _ CP) in B, C. rewrite E1, (cp_temp_0 _ _ _ _ CP) in D. auto.
Qed.

Print Assumptions C92_snow_never_reaches_the_instruments.
Print Assumptions C92_mass_is_bounded_by_the_instruments.
Print Assumptions C92_initial_snow_leaves_the_instruments_free.

(** ** The hypotheses are met: the two lines of C79, 60 kg/m2 on the ground in both *)
From Verif Require Import Witness Progress2.
Example C92_witness : exists l1 l2, pysnobal_run (wpz 1) 60 wcfg wic wmh true cold_day = Ok [l1; l2] /\
  0 < num "m_s" l1 /\ free_instruments wic wmh l1 /\ num "m_s" l1 < 600 * (Rmin (mh_z_u wmh) (mh_z_t wmh) - 49/10 * is_z_0 wic).
Proof.
  destruct C79_witness as (l1 & l2 & H & Hv & Hu & _ & _ & Hm & _). exists l1, l2. split; [exact H|].
  assert (Hf : Forall (fun row : CsvRow => valid_record (snd row)) cold_day) by (eapply Forall_impl; [|exact Hu]; intros ? X; exact (proj1 X)).
  assert (Hp : 0 < num "m_s" l1) by (rewrite Hm; lra). split; [exact Hp|].
  split; [exact (C92_snow_never_reaches_the_instruments _ _ _ _ _ _ _ _ Hv Hf H [] l1 l2 [] eq_refl Hp)|].
  refine (C92_mass_is_bounded_by_the_instruments _ _ _ _ _ _ _ _ Hv _ H [] l1 l2 [] eq_refl Hp).
  apply Forall_forall. intros row Hr. split; [rewrite Forall_forall in Hf; exact (Hf row Hr)|].
  unfold cold_day in Hr. cbn [In] in Hr. decompose [or] Hr; try contradiction; subst row; cbn; lra.
Qed.
