(** * Theorems C15-C22, C25, C27, C46, C47: snow and water in every run.

    All are about runs over the real numbers: any configuration satisfying
    [valid_setup], any number of data steps, any records satisfying [Q].
    [c_trace c] lists every run step executed so far, with the forcing it used and the
    snow state before and after it; [c_outputs c] lists the output records.

    Hypotheses met: Witness.v and Witness2.v carry out a run (snow falls on bare ground, then an
    hour of still air over the new snow) that satisfies them. *)
From Coq Require Import Reals String ZArith Bool Lia Lra List.
Import ListNotations.
From Verif Require Import Num Real Constants Functions Libsnobal Input SnowState Snobal PySnobal
  SchedSpec Sched Frame SchedProps Spec Averages Forcing Phys Mass MassEnd RunMass Run.
Open Scope R_scope.
Implicit Types s : SnowState R.

(** ** Vocabulary of the statements *)
(** the state after some executed run step, or the one in an output record *)
Definition shown (c : Core R) s : Prop :=
  (exists e, In e (c_trace c) /\ s = e_after e) \/ (exists o, In o (c_outputs c) /\ s = o_state o).

(** precipitation that falls in a run step [kg/m2] *)
Definition precip (e : Event R) : R := if i_precip_now (e_input e) then i_m_pp (e_input e) else 0.

(** liquid water in the precipitation of a run step: rain, plus what snow of that depth,
    density and saturation holds (water density 999.87, ice density 917 kg/m3) *)
Definition rain_and_wet_snow (p : Params R) (e : Event R) : R :=
  if i_precip_now (e_input e) then
    i_m_rain (e_input e) +
    i_h2o_sat_snow (e_input e) * p_max_h2o_vol p * (99987/100)
      * i_z_snow (e_input e) * (1 - i_rho_snow (e_input e) / 917)
  else 0.

(** C15: layer bookkeeping.  198.16 K is -75 C. *)
Record consistent (max_depth : R) s : Prop := {
  cs_depth : z_s s = z_s_0 s + z_s_l s;
  cs_mass : m_s s = m_s_0 s + m_s_l s;
  cs_mass0 : m_s_0 s = rho s * z_s_0 s;
  cs_massl : m_s_l s = rho s * z_s_l s;
  cs_lower : 0 <= z_s_l s;
  cs_one : z_s_l s = 0 -> m_s_l s = 0 /\ cc_s_l s = 0 /\ t_s_l s = 19816/100;
  cs_two : 0 < z_s_l s -> z_s_0 s = max_depth
}.

(** C27: the record of bare ground, up to its depth *)
Definition no_snow_values s : Prop :=
  m_s s = 0 /\ m_s_0 s = 0 /\ m_s_l s = 0 /\ rho s = 0 /\ cc_s_0 s = 0 /\ cc_s_l s = 0 /\
  t_s s = 19816/100 /\ t_s_0 s = 19816/100 /\ t_s_l s = 19816/100 /\ z_s_l s = 0 /\ h2o_sat s = 0.

(** the pack is there before the run step and after it, and is not just new snow that
    replaced a pack at most as heavy as the smallest threshold *)
Definition persists (cfg : ModelCfg R) (e : Event R) : Prop :=
  e_kept e = true \/ (cfg_small_thr cfg < m_s (e_before e) /\ 0 < m_s (e_after e)).

Section Runs.
Variable Q : RawInput R -> Prop.
Variables (p : Params R) (cfg : ModelCfg R) (ic : InitSnow R) (mh : Heights R) (all_mode : bool)
  (env : Env R) (c : Core R).
Hypothesis HQ : forall r, Q r -> valid_record r.
Hypothesis Hv : valid_setup p cfg ic.
Hypothesis Hrun : model_run Q p cfg ic mh all_mode env c.

Lemma shown_all (P : SnowState R -> Prop) :
  (forall a b, same_snow a b -> P a -> P b) ->
  (forall e, In e (c_trace c) -> P (e_after e)) -> forall s, shown c s -> P s.
Proof using Hv Hrun.
  intros Hs He s [(e & Hin & ->)|(o & Hin & ->)]; [auto|].
  pose proof (run_outputs _ _ _ _ _ _ _ _ (vs_steps _ _ _ Hv) Hrun) as Ho.
  rewrite Forall_forall in Ho. destruct (Ho o Hin) as (e & Hin2 & Hss). eapply Hs; eauto.
Qed.

Lemma event_facts e : In e (c_trace c) ->
  sound (e_before e) /\ sound (e_after e) /\ outcome e /\ (exists r, Q r /\ fed_by r e) /\
  configured_state p cfg (e_before e) /\ configured_state p cfg (e_after e).
Proof using HQ Hv Hrun.
  intros He. destruct Hrun as (info & c0 & Hp & Hi & Hr).
  destruct (run_has_facts _ _ _ _ _ _ _ _ _ _ HQ Hv Hp Hi Hr) as [_ Hg Hc _].
  rewrite Forall_forall in Hg, Hc. destruct (Hg e He) as (S1 & O & F). destruct (Hc e He).
  pose proof (outcome_sound _ S1 O). auto 9.
Qed.

Lemma event_input e : In e (c_trace c) -> input_valid (e_input e).
Proof using HQ Hv Hrun.
  intros He. destruct (event_facts e He) as (_ & _ & _ & (r & Hq & i1 & Hi & (Hc1 & Hc2) & Hpt & _ & Hsh) & _).
  intros En. destruct (valid_input _ _ (HQ r Hq) Hi) as [V1 V2 V3 V4 V5 V6 V7 V8]; [congruence|].
  specialize (Hsh En).
  pose proof (Hsh i_m_pp ltac:(cbn; tauto)) as E1. pose proof (Hsh i_m_snow ltac:(cbn; tauto)) as E2.
  pose proof (Hsh i_m_rain ltac:(cbn; tauto)) as E3. pose proof (Hsh i_z_snow ltac:(cbn; tauto)) as E4.
  pose proof (Hc2 i_rho_snow ltac:(cbn; tauto)) as E5. pose proof (Hc2 i_h2o_sat_snow ltac:(cbn; tauto)) as E6.
  assert (Hn : 0 < IZR (ts_per_timestep (e_tstep e))).
  { apply IZR_lt. assumption. }
  assert (Hinv : 0 < / IZR (ts_per_timestep (e_tstep e))) by (apply Rinv_0_lt_compat; assumption).
  split; rewrite ?E1, ?E2, ?E3, ?E4, ?E5, ?E6; try assumption; unfold Rdiv; try nra.
Qed.

Lemma precip_nonneg e : In e (c_trace c) -> 0 <= precip e.
Proof using HQ Hv Hrun.
  intros He. pose proof (event_input e He) as V. unfold precip.
  destruct (i_precip_now (e_input e)) eqn:En; [|lra]. destruct (V En). lra.
Qed.

Lemma no_snow_temp : NO_SNOW_TEMP = 19816/100. Proof. consts. lra. Qed.

Lemma packed_consistent mz s : packed s -> max_z_s_0 s = mz -> consistent mz s.
Proof.
  intros [L M] E. destruct L as [L0 Ll Lz Lm0 Lml L2 L1].
  split; try assumption.
  - rewrite M, Lz, Lm0, Lml. ring.
  - intros Z. destruct (L1 Z) as (A & B). rewrite no_snow_temp in B. rewrite Lml, Z. repeat split; try assumption. ring.
  - rewrite <- E. assumption.
Qed.
Lemma bare_consistent mz s : bare s -> consistent mz s.
Proof.
  intros [B1 B2 B3 B4 B5 B6 B7 B8 B9 B10 B11 B12 B13 B14 B15]. rewrite no_snow_temp in *.
  split; rewrite ?B2, ?B4, ?B5, ?B6, ?B7, ?B9, ?B12; auto; try lra.
Qed.

(** C15 *)
Theorem C15_layer_bookkeeping s : shown c s -> consistent (p_max_z_s_0 p) s.
Proof using HQ Hv Hrun.
  apply shown_all.
  - intros a b (b1 & m1 & e1 & w1 & ->) []. split; assumption.
  - intros e He. destruct (event_facts e He) as (_ & [_ _ [Hk|Hb]] & _ & _ & _ & (Hz & _)).
    + apply packed_consistent; assumption.
    + apply bare_consistent; assumption.
Qed.

(** C16, one run step *)
Theorem C16_mass_balance_of_a_run_step e : In e (c_trace c) -> persists cfg e ->
  m_s (e_after e) = m_s (e_before e) + precip e + E_s (e_after e) - swi (e_after e).
Proof using HQ Hv Hrun.
  intros He Hp. destruct (event_facts e He) as (_ & _ & O & _ & (_ & Ht & _) & _).
  destruct O as [(Hk & _ & _ & [(_ & K)|(Hf & mc & w & K)])|(Hb & Hf & _)].
  - exact (ps_mass _ _ _ K).
  - exfalso. destruct Hp as [Hp|(H1 & H2)]; [congruence|].
    destruct (cl_end _ _ _ _ _ K) as [(Hb & _)|(_ & _ & _ & Hm & _)].
    + rewrite (br_m _ Hb) in H2. lra.
    + lra.
  - exfalso. destruct Hp as [Hp|(H1 & H2)]; [congruence|]. rewrite (br_m _ Hb) in H1.
    pose proof (vs_thr _ _ _ Hv). lra.
Qed.

(** C17.  [layer_count] 0: no snow. *)
Theorem C17_bare_ground_passes_precipitation e : In e (c_trace c) ->
  layer_count (e_before e) = 0%nat -> h2o (e_before e) = 0 ->
  (i_precip_now (e_input e) = true -> i_m_snow (e_input e) <= cfg_small_thr cfg) ->
  swi (e_after e) = precip e /\ melt (e_after e) = 0 /\ E_s (e_after e) = 0 /\
  (forall f, In f energy_terms -> f (en (e_after e)) = 0) /\
  layer_count (e_after e) = 0%nat /\ h2o (e_after e) = 0.
Proof using HQ Hv Hrun.
  intros He H1 H3 H4. destruct (event_facts e He) as (_ & _ & O & _ & _ & (_ & Ht & _)).
  destruct O as [(Hk & _)|(Hb & Hf & He0 & Hm & HE & _ & Hc)].
  - exfalso. destruct (layered_count _ (proj1 Hk)) as [[_ E]|[_ E]]; congruence.
  - assert (Z : forall f, In f energy_terms -> f (en (e_after e)) = 0).
    { intros f Hf2. rewrite He0. repeat (destruct Hf2 as [<-|Hf2]; [reflexivity|]). destruct Hf2. }
    change (precip_of (e_input e)) with (precip e) in Hc.
    destruct Hc as [(Hb' & A & B & _)|[(Hb' & A & B & _)|(Hn & _)]].
    + rewrite A, B, H3. pose proof (bare_count _ Hb'). repeat split; auto. lra.
    + rewrite A, B. pose proof (bare_count _ Hb'). repeat split; auto.
    + exfalso. pose proof (np_thr _ _ Hn) as H5. pose proof (np_m _ _ Hn). destruct (np_precip _ _ Hn) as (En & _).
      specialize (H4 En). lra.
Qed.

Lemma liquid_eq e : max_h2o_vol (e_before e) = p_max_h2o_vol p ->
  liquid_in (e_input e) (e_before e) = rain_and_wet_snow p e.
Proof.
  intros E. unfold liquid_in, rain_and_wet_snow, snow_water, h2o_left. rewrite E. consts.
  destruct (i_precip_now (e_input e)); [field|reflexivity].
Qed.

(** C18: what leaves or stays beyond what came in.  A pack formed on bare ground:
    the surplus is exactly the liquid water kept in the new snow. *)
Theorem C18_surplus_when_a_pack_forms e : In e (c_trace c) ->
  layer_count (e_before e) = 0%nat -> layer_count (e_after e) <> 0%nat ->
  m_s (e_after e) + swi (e_after e) = precip e + h2o (e_after e) /\
  m_s (e_after e) = i_m_snow (e_input e) /\
  h2o (e_after e) = i_h2o_sat_snow (e_input e) * h2o_max (e_after e) /\ 0 <= h2o (e_after e).
Proof using HQ Hv Hrun.
  intros He H1 H2. destruct (event_facts e He) as (_ & _ & O & _).
  destruct O as [(Hk & _)|(Hb & Hf & He0 & Hm & HE & _ & Hc)].
  - exfalso. destruct (layered_count _ (proj1 Hk)) as [[_ E]|[_ E]]; congruence.
  - destruct Hc as [(Hb' & _)|[(Hb' & _)|(Hn & Hw)]]; try (pose proof (bare_count _ Hb'); congruence).
    change (precip_of (e_input e)) with (precip e) in Hw.
    split; [assumption|]. split; [apply (np_m _ _ Hn)|]. split; [apply (np_h2o_eq _ _ Hn)|apply (np_h2o _ _ Hn)].
Qed.

(** C52: on bare ground a pack forms exactly when more snow than the smallest threshold falls in
    one run step; less runs off at once *)
Theorem C52_when_a_pack_forms e : In e (c_trace c) -> layer_count (e_before e) = 0%nat ->
  (layer_count (e_after e) <> 0%nat <->
   i_precip_now (e_input e) = true /\ cfg_small_thr cfg < i_m_snow (e_input e)) /\
  (layer_count (e_after e) = 0%nat -> precip e <= swi (e_after e)).
Proof using HQ Hv Hrun.
  intros He H1. destruct (event_facts e He) as (_ & _ & O & _ & (_ & Ht & _) & (_ & Ht' & _)).
  destruct O as [(Hk & _)|(Hb & Hf & He0 & Hm & HE & _ & Hc)].
  - exfalso. destruct (layered_count _ (proj1 Hk)) as [[_ E]|[_ E]]; congruence.
  - destruct (event_facts e He) as ([_ Hh _] & _).
    change (precip_of (e_input e)) with (precip e) in Hc. pose proof (vs_thr _ _ _ Hv).
    destruct Hc as [(Hb' & A & B & _ & Hs)|[(Hb' & A & B & _ & Hn & Hs)|(Hn & Hw)]].
    + pose proof (bare_count _ Hb'). split; [|intros; lra].
      split; [intros; congruence|]. intros (Hn & Hs2). specialize (Hs Hn). lra.
    + pose proof (bare_count _ Hb'). split; [|intros; lra]. split; [intros; congruence|]. intros (_ & Hs2). lra.
    + pose proof (np_packed _ _ Hn) as Hk.
      assert (layer_count (e_after e) <> 0%nat) by (destruct (layered_count _ (proj1 Hk)) as [[_ E]|[_ E]]; congruence).
      split; [|intros; congruence]. split; [|auto]. intros _. pose proof (np_thr _ _ Hn) as T. pose proof (np_m _ _ Hn).
      split; [apply (np_precip _ _ Hn)|lra].
Qed.

(** ... a pack that disappears: more runs off than was there and came in; the surplus
    is at most the liquid water in the pack, in the precipitation, melted or condensed,
    plus any evaporation beyond the mass of the pack; there is none without those. *)
Theorem C18_surplus_when_a_pack_disappears e : In e (c_trace c) ->
  layer_count (e_before e) <> 0%nat -> layer_count (e_after e) = 0%nat ->
  let balance := m_s (e_before e) + precip e + E_s (e_after e) in
  balance <= swi (e_after e) /\
  (0 <= m_s (e_before e) -> 0 <= balance ->
     swi (e_after e) <= balance + h2o (e_before e) + rain_and_wet_snow p e + melt (e_after e)
                        + Rmax 0 (E_s (e_after e))) /\
  (0 <= m_s (e_before e) -> 0 <= balance ->
     h2o (e_before e) = 0 -> precip e = 0 -> melt (e_after e) = 0 -> swi (e_after e) = balance).
Proof using HQ Hv Hrun.
  intros He H1 H2. destruct (event_facts e He) as (_ & _ & O & _ & (_ & _ & Hvol) & _).
  destruct O as [(Hk & _ & _ & [(_ & K)|(_ & mc & w & K)])|(Hb & _)].
  - exfalso. destruct (layered_count _ (proj1 (ps_packed _ _ _ K))) as [[_ E]|[_ E]]; congruence.
  - destruct K as [K1 K2 K3 K3b K4 K5 K6 K7 K8]. change (precip_of (e_input e)) with (precip e) in *.
    destruct K6 as [(Hb' & Hh & Hw & _)|(Hn & _)].
    + cbv zeta. pose proof (Rmax_l 0 (- mc)) as Hmx. split; [lra|]. split.
      * intros F G. rewrite (Rmax_left 0 (- mc)) in Hw by (destruct K5; lra).
        assert (HV : 0 <= VAP_SUB <= 1) by (consts; lra).
        pose proof (Rmax_l 0 (E_s (e_after e))). unfold rain_and_wet_snow.
        assert (Rmax 0 (E_s (e_after e)) * VAP_SUB <= Rmax 0 (E_s (e_after e))) by nra.
        rewrite (liquid_eq e Hvol) in K3b. unfold rain_and_wet_snow in K3b. lra.
      * intros F G A B D.
        rewrite (K4 A B D) in Hw. rewrite (Rmax_left 0 (- mc)) in Hw by (destruct K5; lra). lra.
    + exfalso. destruct (layered_count _ (proj1 (np_packed _ _ Hn))) as [[_ E]|[_ E]]; congruence.
  - exfalso. apply H1. apply bare_count. assumption.
Qed.

(** C54: a pack disappears only if its mass, before the step or with precipitation and
    exchange added, is at most the smallest threshold, or the step melts at least the
    pack and what fell on it *)
Theorem C54_why_a_pack_disappears e : In e (c_trace c) ->
  layer_count (e_before e) <> 0%nat -> layer_count (e_after e) = 0%nat ->
  m_s (e_before e) <= cfg_small_thr cfg \/
  m_s (e_before e) + precip e + E_s (e_after e) <= cfg_small_thr cfg \/
  m_s (e_before e) + precip e <= melt (e_after e).
Proof using HQ Hv Hrun.
  intros He H1 H2. destruct (event_facts e He) as (_ & _ & O & _ & (_ & Ht & _) & _).
  destruct O as [(Hk & _ & _ & [(_ & K)|(_ & mc & w & K)])|(Hb & _)].
  - exfalso. destruct (layered_count _ (proj1 (ps_packed _ _ _ K))) as [[_ E]|[_ E]]; congruence.
  - change (precip_of (e_input e)) with (precip e) in *.
    pose proof (cl_why _ _ _ _ _ K) as W. pose proof (cl_mc _ _ _ _ _ K) as M.
    change (precip_of (e_input e)) with (precip e) in *. rewrite Ht in W.
    destruct W as [W|(W & _)]; [|tauto]. destruct M as [->| ->]; tauto.
  - exfalso. pose proof (bare_count _ Hb). congruence.
Qed.

(** so a pack above the threshold that the step neither melts nor sublimates away is still
    there, with an exact balance *)
Theorem C54_packs_stay e : In e (c_trace c) -> layer_count (e_before e) <> 0%nat ->
  cfg_small_thr cfg < m_s (e_before e) ->
  cfg_small_thr cfg < m_s (e_before e) + precip e + E_s (e_after e) ->
  melt (e_after e) < m_s (e_before e) + precip e ->
  e_kept e = true /\ layer_count (e_after e) <> 0%nat /\
  m_s (e_after e) = m_s (e_before e) + precip e + E_s (e_after e) - swi (e_after e).
Proof using HQ Hv Hrun.
  intros He H1 H2 H3 H4. destruct (event_facts e He) as (_ & _ & O & _ & (_ & Ht & _) & _).
  destruct O as [(Hk & _ & _ & [(Hy & K)|(_ & mc & w & K)])|(Hb & _)].
  - split; [assumption|]. split; [|exact (ps_mass _ _ _ K)].
    destruct (layered_count _ (proj1 (ps_packed _ _ _ K))) as [[_ E]|[_ E]]; congruence.
  - exfalso. pose proof (cl_why _ _ _ _ _ K) as W. pose proof (cl_mc _ _ _ _ _ K) as M.
    change (precip_of (e_input e)) with (precip e) in *. rewrite Ht in W.
    destruct W as [W|(W & _)]; [|lra]. destruct M as [->| ->]; lra.
  - exfalso. pose proof (bare_count _ Hb). congruence.
Qed.

(** C46: water is never lost *)
Theorem C46_water_is_never_lost e : In e (c_trace c) ->
  m_s (e_before e) + precip e + E_s (e_after e) <= m_s (e_after e) + swi (e_after e).
Proof using HQ Hv Hrun.
  intros He. destruct (event_facts e He) as ([_ Hh _] & _ & O & _). unfold precip.
  destruct O as [(Hk & _ & _ & [(_ & K)|(_ & mc & w & K)])|(Hb & Hf & He0 & Hm & HE & _ & Hc)].
  - pose proof (ps_mass _ _ _ K) as E. unfold precip_of in E. lra.
  - destruct K as [K1 K2 K3 K3b K4 K5 K6 K7 K8]. unfold precip_of in *. pose proof (Rmax_l 0 (- mc)) as Hmx.
    destruct K6 as [(Hb' & Hh' & Hw & _)|(Hn & Hme & HE & _ & Hw)].
    + rewrite (br_m _ Hb'). lra.
    + pose proof (np_h2o _ _ Hn). lra.
  - unfold precip_of in Hc. rewrite (br_m _ Hb), HE.
    destruct Hc as [(Hb' & A & B & _)|[(Hb' & A & B & _)|(Hn & Hw)]].
    + rewrite (br_m _ Hb'). lra.
    + rewrite (br_m _ Hb'). lra.
    + pose proof (np_h2o _ _ Hn). lra.
Qed.

(** C19 *)
Theorem C19_water_is_not_negative s : shown c s ->
  0 <= swi s /\ 0 <= melt s /\ 0 <= h2o s /\ 0 <= h2o_sat s <= 1.
Proof using HQ Hv Hrun.
  revert s. apply shown_all.
  - intros a b (b1 & m1 & e1 & w1 & ->) H. exact H.
  - intros e He. pose proof (event_input e He) as V. pose proof (precip_nonneg e He) as Hpp.
    destruct (event_facts e He) as ([_ Hh _] & [_ Hh' _] & O & _).
    assert (Hnew : new_pack (e_input e) (e_after e) -> 0 <= h2o_sat (e_after e) <= 1 /\ m_s (e_after e) <= precip e).
    { intros Hn. destruct (np_precip _ _ Hn) as (En & _). rewrite (np_sat _ _ Hn), (np_m _ _ Hn).
      unfold precip. rewrite En. destruct (V En). split; [assumption|lra]. }
    unfold precip in *. destruct O as [(Hk & _ & _ & [(_ & K)|(_ & mc & w & K)])|(Hb & Hf & He0 & Hm & HE & _ & Hc)].
    + destruct K. repeat split; lra.
    + destruct K as [K1 K2 K3 K3b K4 K5 K6 K7 K8].
      destruct K6 as [(Hb' & Hh2 & Hw & _)|(Hn & _)].
      * rewrite (br_sat _ Hb'). repeat split; lra.
      * destruct (Hnew Hn). repeat split; lra.
    + unfold precip_of in Hc. destruct Hc as [(Hb' & A & B & _)|[(Hb' & A & B & _)|(Hn & Hw)]].
      * rewrite (br_sat _ Hb'). repeat split; lra.
      * rewrite (br_sat _ Hb'). repeat split; lra.
      * destruct (Hnew Hn). repeat split; lra.
Qed.

(** C20, C21: a run step that starts with an average snow temperature above 0 K (if
    there is snow; the other temperatures are then checked by the code) ends with
    cold contents that are not positive and temperatures not above freezing. *)
Theorem C20_cold_content_is_never_positive e : (forall r, Q r -> 0 < r_t_pp r) -> In e (c_trace c) ->
  (layer_count (e_before e) <> 0%nat -> 0 < t_s (e_before e)) ->
  cc_s_0 (e_after e) <= 0 /\ cc_s_l (e_after e) <= 0.
Proof using HQ Hv Hrun.
  intros Htp He Hts. destruct (event_facts e He) as (_ & _ & O & (r & Hq & i1 & Hi & (Hc1 & Hc2) & Hpt & _ & Hsh) & _).
  assert (Hnew : new_pack (e_input e) (e_after e) -> cold (e_after e)).
  { intros Hn. apply (np_cold _ _ Hn). destruct (np_precip _ _ Hn) as (En & Hs). specialize (Hsh En).
    pose proof (Hc2 i_t_snow ltac:(cbn; tauto)) as ->. pose proof (Hsh i_m_snow ltac:(cbn; tauto)) as Hms.
    assert (Hn0 : 0 < IZR (ts_per_timestep (e_tstep e))) by (apply IZR_lt; assumption).
    rewrite Hms in Hs. assert (Hs1 : 0 < i_m_snow i1).
    { apply (Rmult_lt_compat_r (IZR (ts_per_timestep (e_tstep e)))) in Hs; [|assumption].
      unfold Rdiv in Hs. rewrite Rmult_assoc, Rinv_l, Rmult_0_l, Rmult_1_r in Hs by lra. exact Hs. }
    destruct (Rlt_dec 0 (r_m_pp r)) as [Hp|Hp].
    2:{ destruct (input_data_dry _ _ Hi ltac:(lra)) as (E & _). congruence. }
    destruct (input_data_phase _ _ Hi Hp) as (_ & _ & _ & _ & _ & _ & _ & P1 & P2 & P3 & _).
    specialize (Htp r Hq).
    destruct (Rlt_dec 0 (i_m_rain i1)) as [Hr|Hr]; [destruct (P1 Hs1 Hr) as (-> & _); lra|].
    destruct (Rlt_dec (r_t_pp r) (27316/100)) as [Ht|Ht].
    - destruct (P3 Hs1 ltac:(lra) Ht) as (-> & _). assumption.
    - destruct (P2 Hs1 ltac:(lra) ltac:(lra)) as (-> & _). lra. }
  assert (Hbare : bare (e_after e) -> cold (e_after e)).
  { intros Hb. unfold cold. rewrite (br_cc0 _ Hb), (br_ccl _ Hb). lra. }
  change (cold (e_after e)).
  destruct O as [(Hk & T0 & Tl & [(_ & K)|(_ & mc & w & K)])|(Hb & Hf & He0 & Hm & HE & _ & Hc)].
  - apply (ps_cold _ _ _ K). split; [|split; assumption]. apply Hts.
    destruct (layered_count _ (proj1 Hk)) as [[_ ->]|[_ ->]]; discriminate.
  - destruct (cl_end _ _ _ _ _ K) as [(Hb & _)|(Hn & _)]; auto.
  - destruct Hc as [(Hb' & _)|[(Hb' & _)|(Hn & _)]]; auto.
Qed.

Theorem C21_snow_is_never_warmer_than_freezing e : In e (c_trace c) ->
  (layer_count (e_before e) <> 0%nat -> 0 < t_s (e_before e)) -> 0 < m_s (e_after e) ->
  t_s (e_after e) <= 27316/100 /\ t_s_0 (e_after e) <= 27316/100 /\ t_s_l (e_after e) <= 27316/100.
Proof using HQ Hv Hrun.
  intros He Hts Hm. destruct (event_facts e He) as (_ & _ & O & (r & Hq & i1 & Hi & (Hc1 & Hc2) & Hpt & _ & Hsh) & _).
  assert (Hnew : new_pack (e_input e) (e_after e) -> below_freezing (e_after e)).
  { intros Hn. destruct (np_precip _ _ Hn) as (En & Hs). specialize (Hsh En).
    pose proof (Hc2 i_t_snow ltac:(cbn; tauto)) as Et. pose proof (Hsh i_m_snow ltac:(cbn; tauto)) as Hms.
    assert (Hn0 : 0 < IZR (ts_per_timestep (e_tstep e))) by (apply IZR_lt; assumption).
    rewrite Hms in Hs. assert (Hs1 : 0 < i_m_snow i1).
    { apply (Rmult_lt_compat_r (IZR (ts_per_timestep (e_tstep e)))) in Hs; [|assumption].
      unfold Rdiv in Hs. rewrite Rmult_assoc, Rinv_l, Rmult_0_l, Rmult_1_r in Hs by lra. exact Hs. }
    destruct (Rlt_dec 0 (r_m_pp r)) as [Hp|Hp].
    2:{ destruct (input_data_dry _ _ Hi ltac:(lra)) as (E & _). congruence. }
    destruct (input_data_phase _ _ Hi Hp) as (_ & _ & _ & _ & _ & _ & P0 & _).
    specialize (P0 Hs1). destruct (np_t _ _ Hn) as (T1 & T2 & T3). unfold below_freezing.
    rewrite T1, T2, Et. split; [assumption|]. split; [assumption|].
    destruct (proj1 (np_packed _ _ Hn)) as [_ L _ _ _ _ L1].
    destruct (Rle_lt_or_eq_dec _ _ L) as [Hl|Hl].
    - rewrite (T3 Hl), Et. assumption.
    - destruct (L1 (eq_sym Hl)) as (_ & ->). rewrite no_snow_temp. lra. }
  assert (Hbare : bare (e_after e) -> below_freezing (e_after e)).
  { intros Hb. unfold below_freezing. rewrite (br_t _ Hb), (br_t0 _ Hb), (br_tl _ Hb), no_snow_temp. lra. }
  change (below_freezing (e_after e)).
  destruct O as [(Hk & T0 & Tl & [(_ & K)|(_ & mc & w & K)])|(Hb & Hf & He0 & Hm' & HE & _ & Hc)].
  - apply (ps_frozen _ _ _ K); [|assumption]. split; [|split; assumption]. apply Hts.
    destruct (layered_count _ (proj1 Hk)) as [[_ ->]|[_ ->]]; discriminate.
  - destruct (cl_end _ _ _ _ _ K) as [(Hb & _)|(Hn & _)]; auto.
  - destruct Hc as [(Hb' & _)|[(Hb' & _)|(Hn & _)]]; auto.
Qed.

(** C22 *)
Theorem C22_density_limit s : (forall r, Q r -> r_rho_snow r <= 600) -> shown c s -> rho s <= 600.
Proof using HQ Hv Hrun.
  intros Hr. revert s. apply shown_all.
  - intros a b (b1 & m1 & e1 & w1 & ->) H. exact H.
  - intros e He. destruct (event_facts e He) as (_ & _ & O & (r & Hq & i1 & Hi & (Hc1 & Hc2) & Hpt & _ & Hsh) & _).
    assert (Hnew : new_pack (e_input e) (e_after e) -> rho (e_after e) <= 600).
    { intros Hn. rewrite (np_rho _ _ Hn), (Hc2 i_rho_snow ltac:(cbn; tauto)).
      destruct (input_data_raw _ _ Hi) as (_ & _ & _ & _ & _ & _ & _ & _ & -> & _). auto. }
    assert (Hbare : bare (e_after e) -> rho (e_after e) <= 600) by (intros Hb; rewrite (br_rho _ Hb); lra).
    destruct O as [(Hk & T0 & Tl & [(_ & K)|(_ & mc & w & K)])|(Hb & Hf & He0 & Hm & HE & _ & Hc)].
    + apply (ps_rho _ _ _ K).
    + destruct (cl_end _ _ _ _ _ K) as [(Hb & _)|(Hn & _)]; auto.
    + destruct Hc as [(Hb' & _)|[(Hb' & _)|(Hn & _)]]; auto.
Qed.

(** C25 *)
Theorem C25_no_snow_no_exchange e : In e (c_trace c) -> layer_count (e_before e) = 0%nat ->
  (forall f, In f energy_terms -> f (en (e_after e)) = 0) /\ melt (e_after e) = 0 /\ E_s (e_after e) = 0.
Proof using HQ Hv Hrun.
  intros He H1. destruct (event_facts e He) as (_ & _ & O & _).
  destruct O as [(Hk & _)|(Hb & Hf & He0 & Hm & HE & _)].
  - exfalso. destruct (layered_count _ (proj1 Hk)) as [[_ E]|[_ E]]; congruence.
  - split; [|auto]. intros f Hf2. rewrite He0. repeat (destruct Hf2 as [<-|Hf2]; [reflexivity|]). destruct Hf2.
Qed.

(** C27: depth is 0 except, possibly, if the step that ended the pack melted at least
    the whole pack and what fell on it *)
Theorem C27_bare_ground_record s : shown c s -> layer_count s = 0%nat -> no_snow_values s /\ z_s s <= 0.
Proof using HQ Hv Hrun.
  revert s. apply (shown_all (fun s => layer_count s = 0%nat -> no_snow_values s /\ z_s s <= 0)).
  - intros a b (b1 & m1 & e1 & w1 & ->) H. exact H.
  - intros e He Hl. destruct (event_facts e He) as (_ & [_ _ [Hk|Hb]] & _).
    + exfalso. destruct (layered_count _ (proj1 Hk)) as [[_ E]|[_ E]]; congruence.
    + unfold no_snow_values. destruct Hb as [B1 B2 B3 B4 B5 B6 B7 B8 B9 B10 B11 B12 B13 B14 B15].
      rewrite no_snow_temp in *. repeat split; try assumption. lra.
Qed.

Theorem C27_depth_of_the_bare_ground_record e : In e (c_trace c) -> layer_count (e_after e) = 0%nat ->
  (layer_count (e_before e) <> 0%nat -> z_s (e_after e) <> 0 ->
     z_s (e_after e) < 0 /\ 0 < m_s (e_before e) + precip e <= melt (e_after e)) /\
  (layer_count (e_before e) = 0%nat -> z_s (e_after e) = z_s (e_before e) \/ z_s (e_after e) = 0).
Proof using HQ Hv Hrun.
  intros He Hl. destruct (event_facts e He) as (_ & _ & O & _).
  destruct O as [(Hk & _ & _ & [(_ & K)|(_ & mc & w & K)])|(Hb & Hf & He0 & Hm & HE & _ & Hc)].
  - exfalso. destruct (layered_count _ (proj1 (ps_packed _ _ _ K))) as [[_ E]|[_ E]]; congruence.
  - split.
    + intros _ Hz. destruct (cl_end _ _ _ _ _ K) as [(_ & _ & _ & [H|H])|(Hn & _)]; [congruence|exact H|].
      exfalso. destruct (layered_count _ (proj1 (np_packed _ _ Hn))) as [[_ E]|[_ E]]; congruence.
    + intros Hb. exfalso. destruct (layered_count _ (proj1 Hk)) as [[_ E]|[_ E]]; congruence.
  - split.
    + intros Hn. exfalso. apply Hn. apply bare_count. assumption.
    + intros _. destruct Hc as [(_ & _ & _ & H & _)|[(_ & _ & _ & H & _)|(Hn & _)]]; auto.
      exfalso. destruct (layered_count _ (proj1 (np_packed _ _ Hn))) as [[_ E]|[_ E]]; congruence.
Qed.

(** C47: liquid water left behind in the store of bare ground is reported as runoff in
    every run step that brings no snowfall, and is still there afterwards *)
Theorem C47_stale_water_runs_off_again_and_again e : In e (c_trace c) ->
  layer_count (e_before e) = 0%nat ->
  (i_precip_now (e_input e) = true -> i_m_snow (e_input e) = 0) ->
  swi (e_after e) = precip e + h2o (e_before e) /\ h2o (e_after e) = h2o (e_before e).
Proof using HQ Hv Hrun.
  intros He H1 H2. destruct (event_facts e He) as (_ & _ & O & _).
  destruct O as [(Hk & _)|(Hb & Hf & He0 & Hm & HE & _ & Hc)].
  - exfalso. destruct (layered_count _ (proj1 Hk)) as [[_ E]|[_ E]]; congruence.
  - change (precip_of (e_input e)) with (precip e) in Hc.
    destruct Hc as [(Hb' & A & B & _)|[(Hb' & A & B & _ & C & D)|(Hn & _)]].
    + rewrite B. split; [lra|assumption].
    + specialize (H2 C). lra.
    + destruct (np_precip _ _ Hn) as (C & D). specialize (H2 C). lra.
Qed.

End Runs.

(** ** Whole data steps and whole runs *)
Lemma chain_mass s t evs s' t' : chain s t evs s' t' ->
  m_s s' = m_s s + sum_over (fun e => m_s (e_after e) - m_s (e_before e)) evs.
Proof.
  induction 1 as [s t|e evs s1 s' t' (b1 & m1 & e1 & w1 & ->) Hch IH]; [unfold sum_over; cbn; ring|].
  rewrite IH. unfold sum_over. cbn. ring.
Qed.
Lemma sum_over_le {A} (f g : A -> R) l : (forall x, In x l -> f x <= g x) -> sum_over f l <= sum_over g l.
Proof.
  unfold sum_over. induction l as [|x l IH]; cbn; intros H; [lra|].
  pose proof (H x (or_introl eq_refl)). specialize (IH (fun y Hy => H y (or_intror Hy))). lra.
Qed.
Lemma sum_over_minus {A} (f g : A -> R) l : sum_over (fun x => f x - g x) l = sum_over f l - sum_over g l.
Proof. unfold sum_over. induction l as [|x l IH]; cbn; [ring|]. rewrite IH. ring. Qed.

Section DataStep.
Variable Q : RawInput R -> Prop.
Variables (p : Params R) (cfg : ModelCfg R) (ic : InitSnow R) (mh : Heights R) (all_mode : bool)
  (env : Env R).
Hypothesis HQ : forall r, Q r -> valid_record r.
Hypothesis Hv : valid_setup p cfg ic.

Lemma run_step_run c i1 i2 c' : model_run Q p cfg ic mh all_mode env c -> made_from Q i1 i2 ->
  do_data_tstep env c i1 i2 = Ok c' -> model_run Q p cfg ic mh all_mode env c'.
Proof using.
  intros (info & c0 & Hp & Hi & Hr) Hm Hd. exists info, c0. repeat split; try assumption.
  eapply reach_step; eassumption.
Qed.

(** what falls in one data step is what the record says (0 for a negative entry) *)
Lemma data_step_precip c i1 i2 c' r1 evs :
  divides_evenly cfg -> model_run Q p cfg ic mh all_mode env c -> Q r1 -> input_data r1 = Ok i1 ->
  do_data_tstep env c i1 i2 = Ok c' -> steps_between c c' evs ->
  sum_over precip evs = Rmax 0 (r_m_pp r1).
Proof using HQ Hv.
  intros Hdiv Hrun Hq H1 Hd Hev.
  assert (Hm : made_from Q i1 i2) by (exists r1; auto).
  destruct Hrun as (info & c0 & Hp & Hi & Hr).
  destruct (init_tso _ _ _ _ _ _ _ Hi) as (_ & _ & _ & _ & Ei & _).
  subst info.
  destruct (input_data_raw _ _ H1) as (_ & _ & _ & _ & _ & _ & Epp & _ & _ & _ & _ & _ & Enow & _).
  destruct (run_good _ _ _ _ _ _ _ _ _ _ HQ Hv Hp Hi Hr) as (Hs & _).
  assert (Hm1 : made_from (fun r => r = r1) i1 i2) by (exists r1; auto).
  assert (HQ1 : forall r, r = r1 -> valid_record r) by (intros r ->; auto).
  destruct (data_step_good _ _ _ _ _ _ _ HQ1 (vs_steps _ _ _ Hv) Hp Hm1 Hs Hd) as (_ & evs' & Hev' & Hg).
  rewrite (steps_between_unique _ _ _ _ Hev' Hev) in Hg. rewrite Forall_forall in Hg.
  assert (Hf : forall e, In e evs -> i_precip_now (e_input e) = i_precip_now i1).
  { intros e He. destruct (Hg e He) as (_ & _ & r & -> & i1' & Hi1 & (Hc & _) & _). congruence. }
  destruct (Rltb_spec 0 (r_m_pp r1)) as [Hpos|Hpos].
  - rewrite Rmax_right by lra.
    destruct (even_precip cfg env r1 i1 i2 c c' Hdiv Hp Hd i_m_pp H1 Enow ltac:(cbn; tauto)) as (evs2 & Hev2 & Hsum).
    rewrite (steps_between_unique _ _ _ _ Hev2 Hev) in Hsum. rewrite <- Epp, <- Hsum.
    apply sum_over_ext. intros e He. unfold precip. rewrite (Hf e He), Enow. reflexivity.
  - rewrite Rmax_left by lra. rewrite <- (Rmult_0_r (INR (length evs))), <- sum_over_const.
    apply sum_over_ext. intros e He. unfold precip. rewrite (Hf e He), Enow. reflexivity.
Qed.

Lemma same_averages c i1 i2 c' evs :
  all_mode = false -> model_run Q p cfg ic mh all_mode env c -> do_data_tstep env c i1 i2 = Ok c' ->
  steps_between c c' evs -> holds_averages (c_ss c') evs.
Proof using Hv.
  intros -> (info & c0 & Hp & Hi & Hr) Hd Hev.
  destruct (init_tso _ _ _ _ _ _ _ Hi) as (T0 & _ & _ & _ & Ei & Em & _).
  rewrite <- Ei in Hp. destruct (parse_standard _ _ Hp) as (t0 & t1 & t2 & Hstd).
  pose proof (reachable_tso _ _ _ _ _ _ _ Hstd T0 Hr) as Ht.
  pose proof (vs_steps _ _ _ Hv) as Hos. pose proof Hos as (P1 & P2 & P3).
  destruct (parse_eq _ _ Hp) as (_ & Hi2). pose proof Hstd as (Hi3 & _).
  rewrite Hi2 in Hi3. apply list3_inj in Hi3. destruct Hi3 as (<- & <- & <-).
  destruct (normal_averages _ _ _ _ _ _ _ _ Hstd ltac:(cbn [ts_time_step]; lia) ltac:(cbn [ts_time_step]; lia)
    ltac:(cbn [ts_time_step]; lia) Em Ht Hd) as (evs' & Hev' & Ha).
  rewrite (steps_between_unique _ _ _ _ Hev' Hev) in Ha.
  destruct Ha as [->|Ha]; [|assumption]. exfalso.
  exact (data_step_nonempty _ _ _ _ _ _ _ Hos Hp Hd Hev eq_refl).
Qed.

(** C16, one data step in normal output mode: the state written at its end (C03)
    accounts for the record's precipitation and the record's own E_s and swi columns *)
Theorem C16_mass_balance_of_consecutive_records c i1 i2 c' r1 evs :
  divides_evenly cfg -> all_mode = false -> model_run Q p cfg ic mh all_mode env c ->
  Q r1 -> input_data r1 = Ok i1 -> do_data_tstep env c i1 i2 = Ok c' ->
  steps_between c c' evs -> Forall (persists cfg) evs ->
  exists swi_total, swi_sum (c_ss c') = Some swi_total /\
    m_s (c_ss c') = m_s (c_ss c) + Rmax 0 (r_m_pp r1) + E_s_sum (c_ss c') - swi_total.
Proof using HQ Hv.
  intros Hdiv Hm Hrun Hq H1 Hd Hev Hper.
  destruct (same_averages _ _ _ _ _ Hm Hrun Hd Hev) as (_ & _ & HE & HS).
  eexists. split; [exact HS|]. rewrite HE.
  pose proof (data_step_precip _ _ _ _ _ _ Hdiv Hrun Hq H1 Hd Hev) as Hpp.
  assert (Hmf : made_from Q i1 i2) by (exists r1; auto).
  pose proof (run_step_run _ _ _ _ Hrun Hmf Hd) as Hrun'.
  pose proof Hrun as (info & c0 & Hp & Hi & Hr).
  destruct (init_tso _ _ _ _ _ _ _ Hi) as (T0 & _ & _ & _ & Ei & Em & _).
  rewrite <- Ei in Hp. destruct (parse_standard _ _ Hp) as (t0 & t1 & t2 & Hstd).
  destruct (data_step_clock _ _ _ _ _ _ _ _ Hstd Hd) as (evs' & Hev' & _ & Hch & _).
  rewrite (steps_between_unique _ _ _ _ Hev' Hev) in Hch.
  rewrite (chain_mass _ _ _ _ _ Hch), <- Hpp.
  rewrite (sum_over_ext _ (fun e => (precip e + E_s (e_after e)) - swi (e_after e))).
  - rewrite sum_over_minus, sum_over_plus. ring.
  - intros e He. rewrite Forall_forall in Hper.
    assert (In e (c_trace c')) by (unfold steps_between in Hev; rewrite Hev; apply in_or_app; auto).
    rewrite (C16_mass_balance_of_a_run_step _ _ _ _ _ _ _ _ HQ Hv Hrun' e) by auto. ring.
Qed.

(** C46, whole run *)
Theorem C46_water_is_never_lost_in_a_run c info c0 :
  parse_time_steps cfg = Ok info -> snobal_init p info ic mh all_mode = Ok (env, c0) ->
  reachable_by (made_from Q) env c0 c ->
  m_s (c_ss c0) + sum_over precip (c_trace c) + sum_over (fun e => E_s (e_after e)) (c_trace c)
  <= m_s (c_ss c) + sum_over (fun e => swi (e_after e)) (c_trace c).
Proof using HQ Hv.
  intros Hp Hi Hr.
  assert (Hrun : model_run Q p cfg ic mh all_mode env c) by (exists info, c0; auto).
  destruct (run_has_facts _ _ _ _ _ _ _ _ _ _ HQ Hv Hp Hi Hr) as [Hch _ _ _].
  rewrite (chain_mass _ _ _ _ _ Hch).
  pose proof (sum_over_le (fun e => precip e + E_s (e_after e))
    (fun e => (m_s (e_after e) - m_s (e_before e)) + swi (e_after e)) (c_trace c)) as H.
  rewrite !sum_over_plus in H. assert (G : forall e, In e (c_trace c) ->
    precip e + E_s (e_after e) <= (m_s (e_after e) - m_s (e_before e)) + swi (e_after e)).
  { intros e He. pose proof (C46_water_is_never_lost _ _ _ _ _ _ _ _ HQ Hv Hrun e He). lra. }
  specialize (H G). lra.
Qed.
End DataStep.
