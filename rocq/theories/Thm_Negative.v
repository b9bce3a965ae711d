(** * Theorems C76: when the mass of the snow can turn negative.

    The water that leaves the pack as runoff is taken off its mass without looking whether that much
    mass is left; melting does not take mass away (C71), so the liquid water counted can exceed
    the mass.  In the reals: exactly how much water there is to run off, and what rules a negative mass out;
    in binary64: a written file with a negative mass and density. *)
From Coq Require Import Reals String ZArith Bool Lia Lra List Floats.
Import ListNotations.
From Verif Require Import Num Real Constants Functions Libsnobal Input SnowState Snobal PySnobal
  SchedSpec Sched Frame SchedProps Spec Averages Forcing Phys Mass MassEnd RunMass Run Progress Progress2
  MeltEnergy Kept Depth Laws Thm_Schedule Thm_Mass Thm_Forcing Thm_Laws Thm_Energy Thm_Modes FloatNum Witness Witness2 Witness3.
Open Scope R_scope.

Section Runs.
Variable Q : RawInput R -> Prop.
Variables (p : Params R) (cfg : ModelCfg R) (ic : InitSnow R) (mh : Heights R) (all_mode : bool)
  (env : Env R) (c : Core R).
Hypothesis HQ : forall r, Q r -> valid_record r.
Hypothesis Hv : valid_setup p cfg ic.
Hypothesis Hrun : model_run Q p cfg ic mh all_mode env c.

(** liquid water a run step can find in the pack: what was there, fell and melted, and the part of
    condensation (from the air, from the soil) that counts as liquid *)
Definition water_at_hand (e : Event R) : R :=
  h2o (e_before e) + rain_and_wet_snow p e + melt (e_after e) +
  (Rmax 0 (E_flux (e_after e) * seconds e) + Rmax 0 (E_s (e_after e) - E_flux (e_after e) * seconds e)) * (2501/2835).

Lemma water_left_le h v : 0 <= h -> 0 <= water_left h v <= h + Rmax 0 v * (2501/2835).
Proof.
  intros Hh. unfold water_left. pose proof (Rmax_l 0 v) as A. pose proof (Rmax_r 0 v) as B.
  destruct (Rlt_dec 0 h); [|split; [assumption|nra]].
  split; [apply Rmax_l|]. apply Rmax_lub; nra.
Qed.

Theorem C76_runoff_is_water_at_hand e : In e (c_trace c) -> layer_count (e_before e) <> 0%nat -> e_kept e = true ->
  0 < rho (e_before e) <= 600 ->
  0 <= h2o (e_after e) /\ h2o (e_after e) + swi (e_after e) <= water_at_hand e.
Proof using HQ Hv Hrun.
  intros He Hl Hk Hr.
  destruct (C71_law_of_a_run_step Q p cfg ic mh all_mode env c HQ Hv Hrun e He Hl Hk Hr) as (h & Hh & [L1 _ _] & (r0 & rl & R0 & R1 & _ & _ & W0 & W1)).
  destruct (C19_water_is_not_negative Q p cfg ic mh all_mode env c HQ Hv Hrun (e_after e)) as (_ & _ & Hw & _).
  { left. exists e. auto. }
  split; [exact Hw|]. rewrite L1.
  destruct (water_left_le h (E_flux (e_after e) * seconds e) Hh) as (A1 & A2).
  destruct (water_left_le _ (E_s (e_after e) - E_flux (e_after e) * seconds e) A1) as (_ & A4).
  unfold water_at_hand. destruct (Rle_dec _ _) in W1; lra.
Qed.

(** So the mass after a step is not negative unless there is more water at hand than mass, and then it
    is less negative than that excess; density and mass have the same sign. *)
Theorem C76_mass_stays_positive e : In e (c_trace c) -> layer_count (e_before e) <> 0%nat -> e_kept e = true ->
  0 < rho (e_before e) <= 600 ->
  m_s (e_before e) + precip e + E_s (e_after e) - water_at_hand e <= m_s (e_after e) - h2o (e_after e) /\
  (water_at_hand e <= m_s (e_before e) + precip e + E_s (e_after e) -> 0 <= m_s (e_after e) /\ 0 <= rho (e_after e)) /\
  (m_s (e_after e) < 0 <-> rho (e_after e) < 0).
Proof using HQ Hv Hrun.
  intros He Hl Hk Hr.
  destruct (C76_runoff_is_water_at_hand e He Hl Hk Hr) as (A1 & A2).
  destruct (event_facts Q p cfg ic mh all_mode env c HQ Hv Hrun e He) as (_ & _ & O & _).
  destruct O as [(Hp0 & _ & _ & [(_ & K)|(X & _)])|(Hb & _)]; [| congruence|exfalso; apply Hl; apply bare_count; assumption].
  pose proof (ps_mass _ _ _ K) as M. change (precip_of (e_input e)) with (precip e) in M.
  pose proof (packed_z_pos _ (ps_packed _ _ _ K)) as Hz. destruct (ps_packed _ _ _ K) as [_ Mz].
  assert (Hsg : m_s (e_after e) < 0 <-> rho (e_after e) < 0) by (split; intros; nra).
  split; [lra|]. split; [|exact Hsg].
  intros Hw. assert (0 <= m_s (e_after e)) by lra. split; [assumption|].
  destruct (Rle_lt_dec 0 (rho (e_after e))) as [|F]; [assumption|]. apply Hsg in F. lra.
Qed.

(** A pack that light is gone in the next step: below density 550 no pack with at most the smallest
    threshold's mass survives the beginning of a step. *)
Theorem C76_light_packs_go e : In e (c_trace c) -> layer_count (e_before e) <> 0%nat ->
  m_s (e_before e) <= cfg_small_thr cfg -> rho (e_before e) < 550 -> e_kept e = false.
Proof using HQ Hv Hrun.
  intros He Hl Hm Hr. destruct (e_kept e) eqn:Ek; [exfalso|reflexivity].
  pose proof (run_executes _ _ _ _ _ _ _ _ Hrun) as Hx. rewrite Forall_forall in Hx.
  destruct (Hx e He) as (init & s1 & i1 & init1 & Heb & Hmb).
  destruct (event_facts Q p cfg ic mh all_mode env c HQ Hv Hrun e He) as ([Hp Hh Hpk] & _ & O & (rr & Hq & i0 & _ & _ & _ & Hts & _) & (Hmz & Hthr & Hvol) & _).
  destruct Hpk as [Hk|Hb]; [|exfalso; apply Hl; apply bare_count; assumption].
  rewrite (layered_has_snow _ (proj1 Hk)) in Hmb. rewrite Ek in Hmb.
  pose proof (energy_balance_frame _ _ _ _ _ _ _ _ Heb) as (E1 & _).
  assert (Hp1 : params_ok s1) by (rewrite E1; destruct Hp; split; assumption).
  assert (Hk1 : packed s1) by (rewrite E1; destruct Hk as [[] ?]; split; [split|]; assumption).
  assert (F : small_threshold s1 = cfg_small_thr cfg /\ m_s s1 = m_s (e_before e) /\ rho s1 = rho (e_before e)) by (rewrite E1; cbn; auto).
  destruct F as (F1 & F2 & F3).
  unfold mass_balance in Hmb. inv_bind Hmb as [s2 c2] H2. inv_bind Hmb as [s3 c3] H3. inv_bind Hmb as [s4 c4] H4.
  inv_bind Hmb as [s5 c5] H5. inv_bind Hmb as [s6 c6] H6. inv_bind Hmb as [s7 c7] H7.
  assert (c7 = true). { cbn [snd fst] in Hmb. destruct c7; [reflexivity|]. ok_inj Hmb. discriminate. } subst c7.
  pose proof (ro_c _ _ _ H7). subst c6. pose proof (hc_c _ _ _ _ H6). subst c5.
  pose proof (ec_c _ _ _ _ _ _ _ H5). subst c4. pose proof (sm_c _ _ _ _ H4). subst c3.
  destruct (time_compact_spec _ s1 s2 c2 Hp1 Hk1 Hts H2) as [(-> & K1 & M1 & E2 & D1)|(-> & G1 & _)].
  - destruct D1 as (D1 & _); lra.
  - assert (Hp2 : params_ok s2) by (eapply params_eq_ok; [apply (gn_params _ _ _ G1)|assumption]).
    discriminate (pe_c _ _ _ _ Hp2 H3).
Qed.
End Runs.

(** ** The hypotheses are met *)
Example C76_witness_reals : exists env c2 e1 e2, model_run wQ (wpz 1) wcfg wic wmh false env c2 /\ c_trace c2 = [e1; e2] /\
  layer_count (e_before e2) <> 0%nat /\ e_kept e2 = true /\ 0 < rho (e_before e2) <= 600 /\
  water_at_hand (wpz 1) e2 <= m_s (e_before e2) + precip e2 + E_s (e_after e2) /\ 0 <= m_s (e_after e2).
Proof.
  assert (Hmz : 1 = 1/4 \/ 1 = 1) by (right; reflexivity).
  destruct C71_witness as (env & c2 & e1 & e2 & Hr & Htr & Hl & Hrho & Hms & Hh & Hk & Hn & Hm & HE & HEs & Hsw).
  assert (He : In e2 (c_trace c2)) by (rewrite Htr; right; left; reflexivity).
  exists env, c2, e1, e2. split; [assumption|]. split; [assumption|]. split; [assumption|]. split; [assumption|].
  split; [lra|].
  assert (Hp : precip e2 = 0) by (unfold precip, precip_of; rewrite Hn; reflexivity).
  assert (Hw : water_at_hand (wpz 1) e2 <= m_s (e_before e2) + precip e2 + E_s (e_after e2)).
  { unfold water_at_hand, rain_and_wet_snow. rewrite Hn, Hh, Hm, HE, HEs, Hms, Hp, Rmult_0_l, Rminus_0_r, Rmax_left by lra. lra. }
  split; [exact Hw|].
  apply (C76_mass_stays_positive wQ (wpz 1) wcfg wic wmh false env c2 wQ_valid (w_setup 1 Hmz) Hr e2 He Hl Hk ltac:(lra)). exact Hw.
Qed.

(** ** Negative snow, in binary64 *)
Local Open Scope float_scope.
(** rain and snow fall on bare ground in the first hour, then the sun melts nearly all of the snow; the layer
    thresholds of the configuration are all 1 kg/m2, the steps 60, 15 and 1 minutes *)
Definition neg_cfg : ModelCfg float := mkCfg 60 15 1 1 1 1.
Definition neg_params : Params float := mkParams 2061 0%Z 0.015625 0.25 false.
Definition neg_rows : list (CsvRow (T:=float)) :=
  [(0%Z, mkRaw 0 300 0.5 600 2 0 4 0.5 200 0); (60%Z, mkRaw 196 300 0.5 600 2 0 0 0 0 0);
   (120%Z, mkRaw 196 300 0.5 600 2 0 0 0 0 0); (180%Z, mkRaw 196 300 0.5 600 2 0 0 0 0 0)].
(** a column of a line of the binary64 file *)
Definition fcell (k : string) (l : Z * list (string * option float)) : option float :=
  match find (fun kv => String.eqb (fst kv) k) (snd l) with Some kv => snd kv | None => None end.
(** A file of a run over plausible weather (valid records, default density limits) whose line at 120 min has a
    negative mass and a negative density in snow of positive depth; a minute later ('all' mode) the snow is gone. *)
Definition negative_line (l : Z * list (string * option float)) : bool :=
  match fcell "m_s" l, fcell "rho" l, fcell "z_s" l with
  | Some m, Some r, Some z => PrimFloat.ltb m 0 && PrimFloat.ltb r 0 && PrimFloat.ltb 0 z
  | _, _, _ => false end.
Definition no_mass_line (l : Z * list (string * option float)) : bool :=
  match fcell "m_s" l, fcell "z_s" l with Some m, Some z => PrimFloat.eqb m 0 && PrimFloat.eqb z 0 | _, _ => false end.

Theorem C76_negative_snow_is_written :
  (exists l1 l2 l3, pysnobal_run neg_params 180 neg_cfg w_bare w_heights false neg_rows = Ok [l1; l2; l3] /\
     map fst [l1; l2; l3] = [60; 120; 180]%Z /\ negative_line l2 = true /\ no_mass_line l3 = true) /\
  (exists l1 l2 l3 rest, pysnobal_run neg_params 180 neg_cfg w_bare w_heights true neg_rows = Ok (l1 :: l2 :: l3 :: rest) /\
     map fst [l1; l2; l3] = [60; 120; 121]%Z /\ negative_line l2 = true /\ no_mass_line l3 = true).
Proof.
  assert (X : forall m, match pysnobal_run neg_params 180 neg_cfg w_bare w_heights m neg_rows with
    | Ok (l1 :: l2 :: l3 :: rest) => (if m then true else match rest with [] => true | _ => false end) &&
        (fst l1 =? 60)%Z && (fst l2 =? 120)%Z && (fst l3 =? (if m then 121 else 180))%Z && negative_line l2 && no_mass_line l3
    | _ => false end = true) by (intros [|]; vm_compute; reflexivity).
  split; [specialize (X false)|specialize (X true)]; revert X;
    [generalize (pysnobal_run neg_params 180 neg_cfg w_bare w_heights false neg_rows)
    |generalize (pysnobal_run neg_params 180 neg_cfg w_bare w_heights true neg_rows)];
    intros [[|l1 [|l2 [|l3 rest]]]|e] X; try discriminate X;
    rewrite !andb_true_iff in X; destruct X as (((((X0 & X1) & X2) & X3) & X4) & X5);
    apply Z.eqb_eq in X1, X2, X3.
  - destruct rest; [|discriminate]. exists l1, l2, l3. split; [reflexivity|]. cbn [map]. rewrite X1, X2, X3. auto.
  - exists l1, l2, l3, rest. split; [reflexivity|]. cbn [map]. rewrite X1, X2, X3. auto.
Qed.
Print Assumptions C76_runoff_is_water_at_hand.
Print Assumptions C76_mass_stays_positive.
Print Assumptions C76_light_packs_go.
Print Assumptions C76_negative_snow_is_written.
