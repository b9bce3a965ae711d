(** * Theorem C98: what a run can raise.

    For any arithmetic.  With ordered step lengths, a run ends in a file or in ValueError, ZeroDivisionError, UnboundLocalError,
    an IndexError (too few rows, or none in the window: exactly then) or a KeyError (one row in the window).  In particular no
    attribute is read before it is set, no level is looked up that is not there, and the recursion stays bounded. *)
From Coq Require Import String ZArith Bool Lia List Permutation.
Import ListNotations.
From Verif Require Import Num Constants Functions Libsnobal Input SnowState Snobal PySnobal Real SchedSpec Sched Frame SchedProps Turb Thm_Api.

Section Errors.
Context {T : Type} {N : Num T}.
Implicit Types (c : Core T) (i j d : InputData T) (ts : TStep T) (env : Env T) (cfg : ModelCfg T).

(** ** No other exception in the routines *)
Definition tame {A} (r : result A) : Prop :=
  match r with Ok _ | Err (ValueError _) | Err ZeroDivision | Err UnboundLocal => True | Err _ => False end.

Lemma tame_ok {A} (a : A) : tame (Ok a). Proof. exact I. Qed.
Lemma tame_bind {A B} (m : result A) (f : A -> result B) : tame m -> (forall a, m = Ok a -> tame (f a)) -> tame (bind m f).
Proof. destruct m as [a|e]; cbn [bind]; intros H1 H2; [apply H2; reflexivity|exact H1]. Qed.
Lemma tame_pdiv (a b : T) : tame (pdiv a b). Proof. unfold pdiv. destruct (neqb b (nofZ 0)); exact I. Qed.
Lemma tame_plog (a : T) : tame (plog a). Proof. unfold plog. destruct (nltb (nofZ 0) a); exact I. Qed.
Lemma tame_psqrt (a : T) : tame (psqrt a). Proof. unfold psqrt. destruct (nltb a (nofZ 0)); exact I. Qed.

Create HintDb ntm.
Hint Resolve tame_ok tame_pdiv tame_plog tame_psqrt : ntm.

Ltac ntm :=
  repeat first
    [ progress cbv beta zeta
    | solve [auto 1 with ntm nocore]
    | match goal with |- tame (Err ?e) => exact I end
    | match goal with |- tame (bind _ _) => apply tame_bind; [|intros ? _] end
    | match goal with |- tame (if ?b then _ else _) => destruct b end
    | match goal with |- tame (match ?x with _ => _ end) => destruct x end ].

Lemma tame_satw (t : T) : tame (satw t). Proof. unfold satw. ntm. Qed.
Hint Resolve tame_satw : ntm.
Lemma tame_sati (t : T) : tame (sati t). Proof. unfold sati. ntm. Qed.
Hint Resolve tame_sati : ntm.
Lemma tame_spec_hum (e p : T) : tame (spec_hum e p). Proof. unfold spec_hum. ntm. Qed.
Hint Resolve tame_spec_hum : ntm.
Lemma tame_psi (z : T) k : tame (psi z k). Proof. unfold psi. ntm. Qed.
Hint Resolve tame_psi : ntm.
Lemma tame_psi_over (z : T) l k : tame (psi_over z l k). Proof. unfold psi_over. ntm. Qed.
Hint Resolve tame_psi_over : ntm.
Lemma tame_obukhov (x : flux_ctx T) s : tame (obukhov x s). Proof. unfold obukhov. ntm. Qed.
Lemma tame_converged (a b : option T) : tame (converged a b). Proof. unfold converged. ntm. Qed.
Hint Resolve tame_obukhov tame_converged : ntm.
Lemma tame_flux_body (x : flux_ctx T) s : tame (flux_body x s). Proof. unfold flux_body. ntm. Qed.
Hint Resolve tame_flux_body : ntm.
Lemma tame_flux_loop (x : flux_ctx T) n it s : tame (flux_loop x (S n) it s).
Proof.
  revert it s. induction n as [|n IH]; intros it s.
  - cbn [flux_loop]. ntm.
  - remember (S n) as m. cbn [flux_loop]. apply tame_bind; [apply tame_flux_body|].
    intros [s' stop] _. destruct stop; [apply tame_ok|]. subst m. apply IH.
Qed.
Lemma tame_gas (a b t : T) : tame (gas_density a b t). Proof. unfold gas_density. ntm. Qed.
Lemma tame_vt (a b t : T) : tame (virtual_temperature a b t). Proof. unfold virtual_temperature. ntm. Qed.
Hint Resolve tame_gas tame_vt : ntm.
Lemma tame_hle1 (a b e f g h k l m n : T) u v : tame (hle1 a b e f g h k l m n u v).
Proof.
  unfold hle1. ntm. change ITMAX with (S 49). apply tame_flux_loop.
Qed.
Hint Resolve tame_hle1 : ntm.
Lemma tame_mix (a b : T) : tame (mix_ratio a b). Proof. unfold mix_ratio. ntm. Qed.
Lemma tame_diff (a b : T) : tame (diffusion_coef a b). Proof. unfold diffusion_coef. ntm. Qed.
Lemma tame_vf (a b e f : T) : tame (vapor_flux a b e f). Proof. unfold vapor_flux. ntm. Qed.
Hint Resolve tame_mix tame_diff tame_vf : ntm.
Lemma tame_efcon (a b e : T) f : tame (efcon a b e f). Proof. unfold efcon. ntm. Qed.
Lemma tame_ssxfr (a b e f g h : T) : tame (ssxfr a b e f g h). Proof. unfold ssxfr. ntm. Qed.
Lemma tame_new_tsno (a b e : T) : tame (new_tsno a b e). Proof. unfold new_tsno. ntm. Qed.
Lemma tame_ta (a b e f : T) : tame (time_average a b e f). Proof. unfold time_average. ntm. Qed.
Hint Resolve tame_efcon tame_ssxfr tame_new_tsno tame_ta : ntm.
Lemma tame_input_data (r : RawInput T) : tame (input_data r). Proof. unfold input_data. ntm. Qed.
Hint Resolve tame_input_data : ntm.
Lemma tame_level_deltas (a b : InputData T) n : tame (level_deltas a b n). Proof. unfold level_deltas. ntm. Qed.
Hint Resolve tame_level_deltas : ntm.
Lemma tame_input_deltas (a b : InputData T) l : tame (input_deltas a b l).
Proof. induction l; cbn [input_deltas]; ntm; assumption. Qed.
Lemma tame_alt (s : SnowState T) : tame (adjust_layer_temps s). Proof. unfold adjust_layer_temps. ntm. Qed.
Lemma tame_dry (s : SnowState T) : tame (dry_snow_density s). Proof. unfold dry_snow_density. ntm. Qed.
Hint Resolve tame_alt tame_dry : ntm.
Lemma tame_ae (a b : Energy T) e f : tame (average_energy a b e f). Proof. unfold average_energy. ntm. Qed.
Hint Resolve tame_ae : ntm.
Lemma tame_init_snow (s : SnowState T) : tame (init_snow s). Proof. unfold init_snow. ntm. Qed.
Hint Resolve tame_init_snow : ntm.
Lemma tame_tc t (p : Pack T) : tame (time_compact t p).
Proof. unfold time_compact, compaction_increment, compaction_rate. ntm. Qed.
Lemma tame_pe i (p : Pack T) : tame (precip_event i p). Proof. unfold precip_event. ntm. Qed.
Lemma tame_refreeze (s : SnowState T) a b e : tame (refreeze s a b e). Proof. unfold refreeze. ntm. Qed.
Hint Resolve tame_tc tame_pe tame_refreeze : ntm.
Lemma tame_sm t (p : Pack T) : tame (snowmelt t p). Proof. unfold snowmelt. ntm. Qed.
Lemma tame_se (a b : T) t i s : tame (soil_evap a b t i s). Proof. unfold soil_evap. ntm. Qed.
Hint Resolve tame_sm tame_se : ntm.
Lemma tame_ec (a b : T) t i p : tame (evap_cond a b t i p). Proof. unfold evap_cond. ntm. Qed.
Lemma tame_hc i (p : Pack T) : tame (h2o_compact i p). Proof. unfold h2o_compact. ntm. Qed.
Lemma tame_ro (p : Pack T) : tame (runoff p). Proof. unfold runoff. ntm. Qed.
Hint Resolve tame_ec tame_hc tame_ro : ntm.
Lemma tame_mb (a b : T) t i p : tame (mass_balance a b t i p). Proof. unfold mass_balance. ntm. Qed.
Lemma tame_hle (a : T) b e f g h : tame (h_le a b e f g h).
Proof.
  unfold h_le. apply tame_bind; [apply tame_sati|intros sat _]. apply tame_bind; [apply tame_sati|intros es _].
  apply tame_bind; [apply tame_hle1|]. intros r Hr. apply hle1_inv in Hr. destruct Hr as (X & _). rewrite X. exact I.
Qed.
Lemma tame_gso (a b : T) e f g : tame (g_soil a b e f g). Proof. unfold g_soil. ntm. Qed.
Lemma tame_gsn (a : T) b : tame (g_snow a b). Proof. unfold g_snow. ntm. Qed.
Hint Resolve tame_mb tame_hle tame_gso tame_gsn : ntm.
Lemma tame_ht (a b : T) e f : tame (heat_transfer a b e f). Proof. unfold heat_transfer. ntm. Qed.
Lemma tame_ad a (b : InputData T) e : tame (advec a b e). Proof. unfold advec. ntm. Qed.
Hint Resolve tame_ht tame_ad : ntm.
Lemma tame_eb env t u i (s : SnowState T) : tame (energy_balance env t u i s).
Proof. unfold energy_balance. ntm. Qed.

(** ** The scheduler *)
(** the sums are there when they are read *)
Definition ready c : Prop := c_time_since_out c = 0%Z \/ swi_sum (c_ss c) <> None.
(** at least one run step has been executed *)
Definition started env c : Prop := swi_sum (c_ss c) <> None /\ (ev_output_divided env = true -> c_outputs c <> []).
Lemma started_ready env c : started env c -> ready c. Proof. intros (H & _). right. exact H. Qed.

Lemma output_started env c : swi_sum (c_ss c) <> None -> exists c', output c = Ok c' /\ started env c' /\ c_outputs c' <> [].
Proof.
  intros H. unfold output. destruct (swi_sum (c_ss c)) as [w|] eqn:E; [|congruence]. eexists. split; [reflexivity|].
  split; [split|]; cbn [c_ss c_outputs].
  - rewrite E. discriminate.
  - intros _ X. apply app_eq_nil in X. destruct X; discriminate.
  - intros X. apply app_eq_nil in X. destruct X; discriminate.
Qed.

Lemma run_step_tame env ds ts c i d : deltas_at ds (ts_level ts) = Ok d -> ready c ->
  tame (do_tstep env ds ts c i) /\ (forall c' i', do_tstep env ds ts c i = Ok (c', i') -> started env c').
Proof.
  intros Hd Hr. unfold do_tstep. rewrite Hd. cbn [bind].
  set (iu := if i_precip_now i then update_precip_deltas i d else i).
  destruct (energy_balance env (ts_time_step ts) (c_hle1_init c) iu (set_h2o_total (nofZ 0) (c_ss c))) as [[[s1 ic] init]|e] eqn:He; cbn [bind].
  2:{ split; [|discriminate]. pose proof (tame_eb env (ts_time_step ts) (c_hle1_init c) iu (set_h2o_total (nofZ 0) (c_ss c))) as X. rewrite He in X. exact X. }
  destruct (mass_balance (ev_P_a env) (mh_z_g (ev_heights env)) (ts_time_step ts) ic (s1, has_snow (set_h2o_total (nofZ 0) (c_ss c)))) as [[s2 kept]|e] eqn:Hm; cbn [bind].
  2:{ split; [|discriminate]. pose proof (tame_mb (ev_P_a env) (mh_z_g (ev_heights env)) (ts_time_step ts) ic (s1, has_snow (set_h2o_total (nofZ 0) (c_ss c)))) as X.
      rewrite Hm in X. exact X. }
  assert (Hw : swi_sum s2 = swi_sum (c_ss c)).
  { apply energy_balance_frame in He. destruct He as [He _]. apply mass_balance_frame in Hm. cbn [fst] in Hm.
    destruct Hm as [_ (F1 & F2 & F3 & F4 & F5 & F6)]. rewrite He in *. cbn in *. congruence. }
  assert (Fin : forall s3 tso, swi_sum s3 <> None ->
    let c1 := mkCore s3 (c_datetime c + ts_minutes ts)%Z tso (c_outputs c) init (c_trace c ++ [mkEvent ts (c_datetime c) iu (c_ss c) s2 kept]) in
    exists c2, (if ev_output_divided env then output c1 else Ok c1) = Ok c2 /\ started env c2).
  { intros s3 tso H3 c1. destruct (ev_output_divided env) eqn:Em.
    - destruct (output_started env c1 H3) as (c2 & E & S & _). eauto.
    - exists c1. split; [reflexivity|]. split; [exact H3|]. congruence. }
  destruct (0 <? c_time_since_out c)%Z eqn:Et.
  - assert (Hs : swi_sum (c_ss c) <> None). { destruct Hr as [X|X]; [|exact X]. apply Z.ltb_lt in Et. lia. }
    unfold ss_time_average.
    destruct (average_energy (bar s2) (en s2) (nofZ (c_time_since_out c)) (nofZ (ts_time_step ts))) as [b|e] eqn:Ea; cbn [bind].
    2:{ split; [|discriminate]. pose proof (tame_ae (bar s2) (en s2) (nofZ (c_time_since_out c)) (nofZ (ts_time_step ts))) as X. rewrite Ea in X. exact X. }
    rewrite Hw. destruct (swi_sum (c_ss c)) as [w|]; [|congruence]. cbn [bind].
    match goal with |- context [mkCore ?s3 _ ?tso _ _ _] => destruct (Fin s3 tso) as (c2 & E & S); [discriminate|] end.
    cbv zeta in E. rewrite E. cbn [bind]. split; [exact I|]. intros c' i' X. injection X as <- _. exact S.
  - cbn [bind].
    match goal with |- context [mkCore ?s3 _ ?tso _ _ _] => destruct (Fin s3 tso) as (c2 & E & S); [discriminate|] end.
    cbv zeta in E. rewrite E. cbn [bind]. split; [exact I|]. intros c' i' X. injection X as <- _. exact S.
Qed.

(** ordered, positive step lengths *)
Definition ordered cfg : Prop := (0 < cfg_small cfg /\ cfg_small cfg <= cfg_medium cfg /\ cfg_medium cfg <= cfg_norm cfg)%Z.

Lemma ordered_parse cfg : ordered cfg -> exists info, parse_time_steps cfg = Ok info /\
  forall k, (k <= 2)%nat -> exists ts, nth_error info k = Some ts /\ ts_level ts = Z.of_nat k /\ (1 <= ts_intervals ts)%Z.
Proof.
  intros (A & B & C). unfold parse_time_steps, int_div.
  destruct (Z.eqb_spec (cfg_medium cfg) 0); [lia|]. destruct (Z.eqb_spec (cfg_small cfg) 0); [lia|]. cbn [bind].
  eexists. split; [reflexivity|]. intros k Hk.
  assert (Q : forall a b, (0 < b <= a)%Z -> (1 <= Z.quot a b)%Z).
  { intros a b H. rewrite Z.quot_div_nonneg by lia. apply Z.div_le_lower_bound; lia. }
  destruct k as [|[|[|k]]]; [| | |lia]; eexists; (split; [reflexivity|]); cbn [ts_level ts_intervals Z.of_nat]; (split; [reflexivity|]); try lia; apply Q; lia.
Qed.

Lemma deltas_found i j info ds : input_deltas i j info = Ok ds ->
  forall k ts, nth_error info k = Some ts -> exists d, deltas_at ds (ts_level ts) = Ok d.
Proof.
  revert ds. induction info as [|t info IH]; intros ds H k ts Hk; [destruct k; discriminate|].
  cbn [input_deltas] in H. inv_bind H as d Hd. inv_bind H as ds' Hds. injection H as <-.
  unfold deltas_at. cbn [find fst]. destruct (Z.eqb_spec (ts_level t) (ts_level ts)) as [E|E]; [eexists; reflexivity|].
  destruct k as [|k]; [injection Hk as <-; congruence|]. exact (IH _ Hds k ts Hk).
Qed.

Section Step.
Variables (env : Env T) (ds : list (Z * InputData T)).
Hypothesis Hinfo : forall k, (k <= 2)%nat -> exists ts, nth_error (ev_tstep_info env) k = Some ts /\ ts_level ts = Z.of_nat k /\ (1 <= ts_intervals ts)%Z.
Hypothesis Hds : forall k ts, nth_error (ev_tstep_info env) k = Some ts -> exists d, deltas_at ds (ts_level ts) = Ok d.

Definition fine_at (lvl : Z) (r : result (DState T)) : Prop :=
  match r with
  | Ok st => d_level st = lvl /\ started env (d_core st)
  | Err e => tame (Err e : result (DState T))
  end.

Lemma iter_fine lvl (body : DState T -> result (DState T)) n st :
  (forall st, d_level st = lvl -> ready (d_core st) -> fine_at lvl (body st)) ->
  d_level st = lvl -> ready (d_core st) -> (n <> 0)%nat -> fine_at lvl (iter_res n body st).
Proof.
  intros HB. revert st. induction n as [|n IH]; intros st Hl Hr Hn; [congruence|]. cbn [iter_res].
  pose proof (HB st Hl Hr) as X. destruct (body st) as [st1|e]; cbn [bind]; [|exact X]. destruct X as (X1 & X2).
  destruct n as [|n]; [split; assumption|]. apply IH; [exact X1|exact (started_ready _ _ X2)|discriminate].
Qed.

Lemma divide_fine k : (k <= 2)%nat -> forall st, d_level st = (2 - Z.of_nat k)%Z -> ready (d_core st) ->
  match divide_tstep (S k) env ds st with
  | Ok st' => d_level st' = (1 - Z.of_nat k)%Z /\ started env (d_core st') /\ (k = 2%nat -> c_outputs (d_core st') <> [])
  | Err e => tame (Err e : result (DState T))
  end.
Proof.
  induction k as [|k IH]; intros Hk st Hl Hr.
  - destruct (Hinfo 2%nat) as (ts & Hts & Hlv & Hn); [lia|]. destruct (Hds 2%nat ts Hts) as (d & Hd).
    cbn [divide_tstep]. unfold tstep_at. rewrite Hl. cbn [Z.of_nat Z.sub Z.add Z.opp Z.ltb Z.compare]. change (Z.to_nat 2) with 2%nat. rewrite Hts. cbn [bind].
    match goal with |- context [@bind (InputData T) _ ?x _] => set (m := x) end.
    assert (Hm : exists i, m = Ok i). { unfold m. destruct (_ && _); [rewrite Hd|]; eexists; reflexivity. }
    destruct Hm as (i & ->). cbn [bind].
    match goal with |- context [iter_res ?n ?b ?s] => assert (F : fine_at 2 (iter_res n b s)) end.
    { apply iter_fine; [|reflexivity|exact Hr|lia]. intros s1 L1 R1. rewrite L1. cbn [SMALL_TSTEP Z.eqb Pos.eqb negb andb].
      destruct (run_step_tame env ds ts (d_core s1) (d_input s1) d Hd R1) as (A & B).
      destruct (do_tstep env ds ts (d_core s1) (d_input s1)) as [[c' i']|e]; cbn [bind]; [|exact A].
      split; [reflexivity|]. exact (B c' i' eq_refl). }
    destruct (iter_res _ _ _) as [st1|e]; cbn [bind]; [|exact F]. destruct F as (F1 & F2). rewrite F1. cbn [Z.eqb andb].
    cbn [bind d_level d_core]. split; [lia|]. split; [exact F2|]. discriminate.
  - specialize (IH ltac:(lia)).
    destruct (Hinfo (1 - k)%nat) as (ts & Hts & Hlv & Hn); [lia|]. destruct (Hds _ ts Hts) as (d & Hd).
    remember (S k) as f eqn:Hf. cbn [divide_tstep]. unfold tstep_at. rewrite Hl.
    destruct (Z.ltb_spec (2 - Z.of_nat f) 0); [lia|]. replace (Z.to_nat (2 - Z.of_nat f)) with (1 - k)%nat by lia. rewrite Hts. cbn [bind].
    match goal with |- context [@bind (InputData T) _ ?x _] => set (m := x) end.
    assert (Hm : exists i, m = Ok i). { unfold m. destruct (_ && _); [rewrite Hd|]; eexists; reflexivity. }
    destruct Hm as (i & ->). cbn [bind].
    match goal with |- context [iter_res ?n ?b ?s] => assert (F : fine_at (2 - Z.of_nat f) (iter_res n b s)) end.
    { apply iter_fine; [|reflexivity|exact Hr|lia]. intros s1 L1 R1.
      destruct (negb _ && _).
      - pose proof (IH (mkD (d_core s1) (d_input s1) (d_level s1 + 1)%Z)) as X. cbn [d_level d_core] in X.
        subst f. specialize (X ltac:(lia) R1). destruct (divide_tstep _ _ _ _) as [st'|e]; [|exact X].
        destruct X as (X1 & X2 & _). split; [lia|exact X2].
      - destruct (run_step_tame env ds ts (d_core s1) (d_input s1) d Hd R1) as (A & B).
        destruct (do_tstep env ds ts (d_core s1) (d_input s1)) as [[c' i']|e]; cbn [bind]; [|exact A].
        split; [exact L1|]. exact (B c' i' eq_refl). }
    destruct (iter_res _ _ _) as [st1|e]; cbn [bind]; [|exact F]. destruct F as (F1 & F2). rewrite F1.
    destruct (Z.eqb_spec (2 - Z.of_nat f) 0) as [Z0|Z0]; cbn [andb].
    + destruct (ev_output_divided env) eqn:Em; cbn [negb].
      * cbn [bind d_level d_core]. split; [lia|]. split; [exact F2|]. intros _. exact (proj2 F2 Em).
      * destruct (output_started env (d_core st1) (proj1 F2)) as (c2 & E & S2 & O2). rewrite E. cbn [bind d_level d_core].
        split; [lia|]. split; [exact S2|]. intros _. exact O2.
    + cbn [bind d_level d_core]. split; [lia|]. split; [exact F2|]. intros X. lia.
Qed.

Lemma data_step_tame c i1 i2 : ds = ds -> ready c ->
  match (let* st := divide_tstep 3 env ds (mkD c i1 NORMAL_TSTEP) in Ok (d_core st)) with
  | Ok c' => started env c' /\ c_outputs c' <> []
  | Err e => tame (Err e : result (Core T))
  end.
Proof.
  intros _ Hr. pose proof (divide_fine 2 ltac:(lia) (mkD c i1 NORMAL_TSTEP) eq_refl Hr) as X.
  destruct (divide_tstep 3 env ds _) as [st|e]; cbn [bind]; [|exact X]. destruct X as (_ & A & B). split; [exact A|exact (B eq_refl)].
Qed.
End Step.

Definition good_info (info : list (TStep T)) : Prop :=
  forall k, (k <= 2)%nat -> exists ts, nth_error info k = Some ts /\ ts_level ts = Z.of_nat k /\ (1 <= ts_intervals ts)%Z.

Lemma run_steps_tame env : good_info (ev_tstep_info env) -> forall rows c i1, ready c ->
  match run_steps env c i1 rows with
  | Ok c' => rows <> [] -> c_outputs c' <> []
  | Err e => tame (Err e : result (Core T))
  end.
Proof.
  intros Hi. induction rows as [|r rest IH]; intros c i1 Hr; cbn [run_steps]; [congruence|].
  pose proof (tame_input_data r) as X. destruct (input_data r) as [i2|e]; cbn [bind]; [|exact X].
  unfold do_data_tstep. pose proof (tame_input_deltas i1 i2 (ev_tstep_info env)) as Y.
  destruct (input_deltas i1 i2 (ev_tstep_info env)) as [ds|e] eqn:Hd; cbn [bind]; [|exact Y].
  pose proof (data_step_tame env ds Hi (deltas_found _ _ _ _ Hd) c i1 i2 eq_refl Hr) as W.
  destruct (divide_tstep 3 env ds (mkD c i1 NORMAL_TSTEP)) as [st|e]; cbn [bind] in *; [|exact W]. destruct W as (A & B).
  specialize (IH (d_core st) i2 (started_ready _ _ A)). destruct rest as [|r' rest]; [cbn [run_steps]; intros _; exact B|].
  destruct (run_steps env (d_core st) i2 (r' :: rest)) as [c'|e]; [|exact IH]. intros _. apply IH. discriminate.
Qed.

Lemma tame_hysat (a b : T) e f g h : tame (hysat a b e f g h). Proof. unfold hysat. ntm. Qed.

Lemma snobal_init_tame p info ic mh m : good_info info -> tame (snobal_init p info ic mh m).
Proof.
  intros Hi. unfold snobal_init. apply tame_bind; [apply tame_hysat|intros pa _]. apply tame_bind.
  - unfold create_snow_state. destruct (Hi 2%nat ltac:(lia)) as (ts & E & _). change (Z.to_nat SMALL_TSTEP) with 2%nat. rewrite E. exact I.
  - intros s _. apply tame_bind; [apply tame_init_snow|intros s1 _]. exact I.
Qed.

(** ** The theorems *)
(** the dates a run uses: from the start date to the end date plus the interval between the first two rows of the file *)
Definition in_window (start_date end_date : Z) (rows : list (CsvRow (T:=T))) : list (CsvRow (T:=T)) :=
  match rows with
  | r0 :: r1 :: _ => filter (fun r => (start_date <=? fst r) && (fst r <=? end_date + (fst r1 - fst r0)))%Z rows
  | _ => []
  end.

Lemma window_rows s e (rows : list (CsvRow (T:=T))) :
  match read_input_data s e rows with
  | Ok used => (2 <= length rows)%nat /\ length used = length (in_window s e rows)
  | Err x => x = IndexError /\ (length rows < 2)%nat
  end.
Proof.
  unfold read_input_data, clip_rows. destruct rows as [|r0 [|r1 rest]]; cbn [bind]; [cbn; lia || (split; [reflexivity|cbn; lia])|split; [reflexivity|cbn; lia]|].
  split; [cbn [length]; lia|]. rewrite map_length. apply Permutation_length. unfold in_window.
  apply perm_filter, Permutation_sym, sort_perm.
Qed.

(** C98.  When the steps are ordered (small no longer than medium, medium no longer than the data step) a run that fails
    fails with ValueError, ZeroDivisionError or UnboundLocalError; or with IndexError, and then the file has fewer than two
    rows or none in the window; or with KeyError, and then exactly one row is in the window. *)
Theorem C98_what_a_run_raises p end_date cfg ic mh mode (rows : list (CsvRow (T:=T))) x :
  ordered cfg -> pysnobal_run p end_date cfg ic mh mode rows = Err x ->
  match x with
  | ValueError _ | ZeroDivision | UnboundLocal => True
  | IndexError => (length rows < 2)%nat \/ in_window (p_start_date p) end_date rows = []
  | KeyError => length (in_window (p_start_date p) end_date rows) = 1%nat
  | _ => False
  end.
Proof.
  intros Ho. destruct (ordered_parse cfg Ho) as (info & Hp & Hi). unfold pysnobal_run. rewrite Hp. cbn [bind].
  pose proof (window_rows (p_start_date p) end_date rows) as W.
  destruct (read_input_data (p_start_date p) end_date rows) as [used|e]; cbn [bind].
  2:{ intros H. destruct W as (W1 & W2). injection H as <-. rewrite W1. left. exact W2. }
  destruct W as (W1 & W2). intros H.
  assert (G : match simulate p info ic mh mode used with
    | Ok c => used <> [] /\ ((2 <= length used)%nat -> c_outputs c <> [])
    | Err IndexError => used = []
    | Err e => tame (Err e : result (Core T)) end).
  { unfold simulate. destruct (negb (distinct_dates (map fst used))); [exact I|]. destruct used as [|r0 rest]; [reflexivity|].
    pose proof (tame_input_data (snd r0)) as X. destruct (input_data (snd r0)) as [i1|e]; cbn [bind]; [|destruct e; exact X || destruct X].
    pose proof (snobal_init_tame p info ic mh mode Hi) as Y. destruct (snobal_init p info ic mh mode) as [[env c0]|e] eqn:E; cbn [bind]; [|destruct e; exact Y || destruct Y].
    destruct (init_tso _ _ _ _ _ _ _ E) as (T0 & _ & _ & _ & Ei & _).
    assert (Gi : good_info (ev_tstep_info env)) by (rewrite Ei; exact Hi).
    pose proof (run_steps_tame env Gi (map snd rest) c0 i1 (or_introl T0)) as V.
    destruct (run_steps env c0 i1 (map snd rest)) as [c|e]; [|destruct e; exact V || destruct V].
    split; [discriminate|]. intros L. apply V. destruct rest; [cbn in L; lia|discriminate]. }
  destruct (simulate p info ic mh mode used) as [c|e]; cbn [bind] in H.
  - unfold output_to_file in H. destruct (c_outputs c) eqn:Eo; [|discriminate]. injection H as <-.
    destruct used as [|u [|u' us]]; cbn [length] in *; [exfalso; destruct G as (G & _); apply G; reflexivity| |exfalso; apply G; [lia|reflexivity]]. symmetry. exact W2.
  - injection H as <-. destruct e; cbn in G; try exact I; try solve [destruct G]. right. rewrite G in W2. cbn in W2.
    destruct (in_window _ _ _); [reflexivity|discriminate].
Qed.

(** conversely, too few rows, or none in the window, always give IndexError; and one row in the window never gives a file *)
Theorem C98_too_few_rows p end_date cfg ic mh mode (rows : list (CsvRow (T:=T))) :
  ordered cfg -> ((length rows < 2)%nat \/ in_window (p_start_date p) end_date rows = []) ->
  pysnobal_run p end_date cfg ic mh mode rows = Err IndexError.
Proof.
  intros Ho H. destruct (ordered_parse cfg Ho) as (info & Hp & Hi). unfold pysnobal_run. rewrite Hp. cbn [bind].
  pose proof (window_rows (p_start_date p) end_date rows) as W.
  destruct (read_input_data (p_start_date p) end_date rows) as [used|e]; cbn [bind].
  - destruct W as (W1 & W2). destruct H as [H|H]; [lia|]. rewrite H in W2. destruct used; [|discriminate]. reflexivity.
  - destruct W as (W1 & _). rewrite W1. reflexivity.
Qed.
Theorem C98_one_row p end_date cfg ic mh mode (rows : list (CsvRow (T:=T))) out :
  ordered cfg -> length (in_window (p_start_date p) end_date rows) = 1%nat ->
  pysnobal_run p end_date cfg ic mh mode rows <> Ok out.
Proof.
  intros Ho H E. destruct (pysnobal_run_inv _ _ _ _ _ _ _ _ E)
    as (info & used & i1 & r0 & rest & env & c0 & c & Hi & Hu & Eu & _ & Hi1 & Hinit & Hrun & Hne & _).
  pose proof (window_rows (p_start_date p) end_date rows) as W. rewrite Hu in W. destruct W as (_ & W).
  rewrite H in W. subst used. destruct rest; [|discriminate]. cbn [map run_steps] in Hrun. injection Hrun as <-.
  destruct (init_tso _ _ _ _ _ _ _ Hinit) as (_ & _ & O & _). congruence.
Qed.
End Errors.

(** ** Concrete runs (binary64) *)
From Verif Require Import FloatNum Thm_Schedule.
From Coq Require Import Floats.
Section Concrete.
Open Scope float_scope.
Definition err_rec (ta u : float) : RawInput float := mkRaw 50 250 ta 300 u (-1) 0 0 100 (-3).
(** 5 mm of water in one layer *)
Definition err_pack : InitSnow float := mkInitSnow 0.0625 80 268 268 0 0.0078125.
Definition raised (cfg : ModelCfg float) (rows : list (CsvRow (T:=float))) : option exn :=
  match pysnobal_run w_params 120 cfg err_pack w_heights false rows with Ok _ => None | Err e => Some e end.
Definition err_rows ta u : list (CsvRow (T:=float)) := [(0, err_rec ta u); (60, err_rec ta u); (120, err_rec ta u)]%Z.
Definition err_slow : ModelCfg float := mkCfg 60 10 15 60 10 1.
End Concrete.
(** each kind of end that C98 leaves is reached *)
Example C98_ends : ordered w_even /\
  raised w_even (err_rows (-2) 2) = None /\
  raised w_even (err_rows (-274) 2) = Some (ValueError "tk < 0") /\
  raised w_even [(500, err_rec (-2)%float 2%float); (560, err_rec (-2)%float 2%float)]%Z = Some IndexError /\
  raised w_even [(-60, err_rec (-2)%float 2%float); (0, err_rec (-2)%float 2%float)]%Z = Some KeyError.
Proof. split; [repeat split; cbn; lia|]. vm_compute. repeat split; reflexivity. Qed.
(** with a small step longer than the medium one a light pack is not stepped, and the results are read before they are set *)
Example C98_without_ordered_steps : ~ ordered err_slow /\ raised err_slow (err_rows (-2) 2) = Some AttributeError.
Proof. split; [unfold ordered; cbn; lia|vm_compute; reflexivity]. Qed.

Print Assumptions C98_what_a_run_raises.
Print Assumptions C98_too_few_rows.
Print Assumptions C98_one_row.
