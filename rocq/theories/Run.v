(** * Runs: linking every executed run step and every output record to the
    per-step outcomes of RunMass. *)
From Coq Require Import Reals String ZArith Bool Lia Lra List.
Import ListNotations.
From Verif Require Import Num Real Constants Functions Libsnobal Input SnowState Snobal PySnobal
  SchedSpec Sched Frame SchedProps Spec Averages Forcing Phys Mass MassEnd RunMass.
Open Scope R_scope.
Implicit Types s : SnowState R.

(** [c] is a state of a model that was constructed from the given configuration and
    has then done any number of returning data steps, each from a record satisfying [Q] *)
Definition model_run (Q : RawInput R -> Prop) (p : Params R) (cfg : ModelCfg R) (ic : InitSnow R)
    (mh : Heights R) (all_mode : bool) (env : Env R) (c : Core R) : Prop :=
  exists info c0, parse_time_steps cfg = Ok info /\
    snobal_init p info ic mh all_mode = Ok (env, c0) /\ reachable_by (made_from Q) env c0 c.

(** the main program produces such states *)
Lemma reachable_trans (ok : InputData R -> InputData R -> Prop) env c0 c1 c2 :
  reachable_by ok env c0 c1 -> reachable_by ok env c1 c2 -> reachable_by ok env c0 c2.
Proof. intros H1 H2. induction H2; [assumption|]. econstructor; eassumption. Qed.

Lemma run_steps_reachable (Q : RawInput R -> Prop) env rows : forall c i1 c' r1,
  Q r1 -> input_data r1 = Ok i1 -> Forall Q rows ->
  run_steps env c i1 rows = Ok c' -> reachable_by (made_from Q) env c c'.
Proof.
  induction rows as [|r rest IH]; intros c i1 c' r1 Hq Hi Hf H; cbn [run_steps] in H.
  - injection H as <-. constructor.
  - inv_bind H as i2 Hi2. inv_bind H as c1 Hc1. inversion Hf; subst.
    eapply reachable_trans; [|eapply IH; eassumption].
    eapply reach_step; [constructor| |exact Hc1]. exists r1. auto.
Qed.

Lemma simulate_run (Q : RawInput R -> Prop) p cfg info ic mh m rows c :
  parse_time_steps cfg = Ok info -> Forall (fun r => Q (snd r)) rows ->
  simulate p info ic mh m rows = Ok c -> exists env, model_run Q p cfg ic mh m env c.
Proof.
  intros Hp Hf H. unfold simulate in H. destruct (negb _); [discriminate|].
  destruct rows as [|r0 rest]; [discriminate|]. inv_bind H as i1 Hi1. inv_bind H as [env c0] Hi.
  inversion Hf; subst. exists env, info, c0. repeat split; try assumption.
  eapply run_steps_reachable; [|exact Hi1| |exact H]; [assumption|].
  apply Forall_map. assumption.
Qed.

(** ** One chain over the whole run *)
Lemma same_snow_refl s : same_snow s s.
Proof. exists (bar s), (melt_sum s), (E_s_sum s), (swi_sum s). destruct s. reflexivity. Qed.
Lemma same_snow_trans a b c : same_snow (T:=R) a b -> same_snow b c -> same_snow a c.
Proof.
  intros (b1 & m1 & e1 & w1 & ->) (b2 & m2 & e2 & w2 & ->). exists b2, m2, e2, w2. destruct a. reflexivity.
Qed.

Lemma chain_app s t l1 s1 t1 l2 s2 t2 :
  chain (T:=R) s t l1 s1 t1 -> chain s1 t1 l2 s2 t2 -> chain s t (l1 ++ l2) s2 t2.
Proof. induction 1; intros H2; [assumption|]. cbn. econstructor; [eassumption|]. auto. Qed.

Lemma run_chain env t0 t1 t2 ok c0 c :
  standard_info (ev_tstep_info env) t0 t1 t2 -> c_trace c0 = [] -> reachable_by ok env c0 c ->
  chain (c_ss c0) (c_datetime c0) (c_trace c) (c_ss c) (c_datetime c).
Proof.
  intros Hstd H0. induction 1 as [|c i1 i2 c' Hr IH Hok Hd]; [rewrite H0; constructor|].
  destruct (data_step_clock _ _ _ _ _ _ _ _ Hstd Hd) as (evs & Hev & _ & Hch & _).
  unfold steps_between in Hev. rewrite Hev. eapply chain_app; eassumption.
Qed.

(** an invariant of the snow state *)
Lemma chain_inv (P : SnowState R -> Prop) s t evs s' t' :
  (forall a b, same_snow a b -> P a -> P b) ->
  (forall e, In e evs -> P (e_before e) -> P (e_after e)) ->
  chain s t evs s' t' -> P s ->
  P s' /\ Forall (fun e => P (e_before e) /\ P (e_after e)) evs.
Proof.
  intros Hs He Hc. induction Hc as [s t|e evs s1 s' t' Hss Hch IH]; intros H0; [split; [assumption|constructor]|].
  assert (H1 : P (e_after e)) by (apply He; [left; reflexivity|assumption]).
  destruct IH as (Hl & Hf); [intros; apply He; [right; assumption|assumption]|eapply Hs; eassumption|].
  split; [assumption|]. constructor; auto.
Qed.

(** the last state is that of the last run step *)
Lemma chain_last s t evs s' t' : chain (T:=R) s t evs s' t' -> evs <> [] ->
  exists e, In e evs /\ same_snow (e_after e) s'.
Proof.
  induction 1 as [s t|e evs s1 s' t' Hss Hch IH]; intros Hn; [congruence|].
  destruct evs as [|e2 evs].
  - inversion Hch; subst. exists e. split; [left; reflexivity|assumption].
  - destruct IH as (e3 & Hin & H3); [discriminate|]. exists e3. split; [right; assumption|assumption].
Qed.

(** ** At least one run step per data step *)
Lemma data_step_nonempty cfg env c i1 i2 c' evs :
  ordered_steps cfg -> parse_time_steps cfg = Ok (ev_tstep_info env) ->
  do_data_tstep env c i1 i2 = Ok c' -> steps_between c c' evs -> evs <> [].
Proof.
  intros (Ps & Pm & Pn) Hp H He.
  destruct (parse_standard _ _ Hp) as (t0 & t1 & t2 & Hstd).
  destruct (data_step_clock _ _ _ _ _ _ _ _ Hstd H) as (evs' & He' & Hsch & _).
  rewrite (steps_between_unique _ _ _ _ He He'). clear He He' evs.
  destruct (parse_eq _ _ Hp) as (_ & Hi). pose proof Hstd as (Hi2 & V0 & V1 & V2 & _).
  rewrite Hi in Hi2. apply list3_inj in Hi2. destruct Hi2 as (<- & <- & <-). cbn [ts_intervals] in *.
  assert (G : forall a b, (0 < b)%Z -> (b <= a)%Z -> Z.to_nat (Z.quot a b) <> 0%nat).
  { intros a b Hb Hba. assert (1 <= Z.quot a b)%Z; [|lia].
    rewrite Z.quot_div_nonneg by lia. apply Z.div_le_lower_bound; lia. }
  intros ->. destruct Hsch as [E|(bs & E & Hlen & Hf)]; [discriminate E|]. cbn [map] in E.
  destruct bs as [|b bs].
  - cbn in Hlen. symmetry in Hlen. revert Hlen. apply G; lia.
  - inversion Hf as [|? ? Hb _]; subst. cbn in E. symmetry in E. apply app_eq_nil in E. destruct E as [-> _].
    destruct Hb as [Hb|Hb]; [discriminate|].
    apply (f_equal (@length _)) in Hb. rewrite repeat_length in Hb. cbn [length ts_intervals] in Hb.
    symmetry in Hb. revert Hb. apply G; lia.
Qed.

(** ** Output records show the state after some executed run step *)
Lemma run_outputs Q p cfg ic mh m env c :
  ordered_steps cfg -> model_run Q p cfg ic mh m env c ->
  Forall (fun o => exists e, In e (c_trace c) /\ same_snow (e_after e) (o_state o)) (c_outputs c).
Proof.
  intros Hos (info & c0 & Hp & Hi & Hr).
  destruct (init_tso _ _ _ _ _ _ _ Hi) as (T0 & _ & O0 & Tr0 & Ei & Em & _).
  rewrite <- Ei in Hp. destruct (parse_standard _ _ Hp) as (t0 & t1 & t2 & Hstd).
  assert (G : Forall (fun o => exists e, In e (c_trace c) /\ same_snow (e_after e) (o_state o)) (c_outputs c)
     /\ c_time_since_out c = 0%Z); [|tauto].
  induction Hr as [|c i1 i2 c' Hr IH Hok Hd]; [rewrite O0; split; [constructor|assumption]|].
  destruct IH as (IH & Ht).
  destruct (data_step_clock _ _ _ _ _ _ _ _ Hstd Hd) as (evs & Hev & _ & Hch & _).
  pose proof (data_step_nonempty _ _ _ _ _ _ _ Hos Hp Hd Hev) as Hne.
  destruct (chain_last _ _ _ _ _ Hch Hne) as (e & He & Hse).
  pose proof Hev as Hev0. unfold steps_between in Hev.
  assert (IH' : Forall (fun o => exists e, In e (c_trace c') /\ same_snow (e_after e) (o_state o)) (c_outputs c)).
  { eapply Forall_impl; [|exact IH]. intros o (e0 & Hin & H0). exists e0. split; [|assumption].
    rewrite Hev. apply in_or_app. auto. }
  destruct (ev_output_divided env) eqn:Hm.
  - destruct (outputs_all _ _ _ _ _ _ _ _ Hstd Hm Ht Hd) as (Ht' & evs' & Hev' & Ho).
    split; [|assumption]. rewrite Ho. apply Forall_app. split; [assumption|].
    apply Forall_map. apply Forall_forall. intros x Hx. exists x. split.
    + rewrite <- (steps_between_unique _ _ _ _ Hev0 Hev') in Hx. rewrite Hev. apply in_or_app. auto.
    + cbn [o_state]. exists (en (e_after x)), (melt (e_after x)), (E_s (e_after x)), (Some (swi (e_after x))).
      destruct (e_after x). reflexivity.
  - destruct (outputs_normal _ _ _ _ _ _ _ _ Hstd Hm Hd) as (Ho & Ht').
    split; [|assumption]. rewrite Ho. apply Forall_app. split; [assumption|].
    constructor; [|constructor]. exists e. split; [|assumption]. rewrite Hev. apply in_or_app. auto.
Qed.

(** ** Site parameters *)
Definition configured_state (p : Params R) (cfg : ModelCfg R) s : Prop :=
  max_z_s_0 s = p_max_z_s_0 p /\ small_threshold s = cfg_small_thr cfg /\ max_h2o_vol s = p_max_h2o_vol p.

Lemma params_eq_configured p cfg s s' : params_eq s s' -> configured_state p cfg s -> configured_state p cfg s'.
Proof. intros (P1 & P2 & P3 & P4) (A & B & C). unfold configured_state. rewrite P2, P3, P4. auto. Qed.

Lemma outcome_params e : outcome e -> params_eq (e_before e) (e_after e).
Proof.
  intros [(_ & _ & _ & [(_ & K)|(_ & mc & w & K)])|(_ & _ & _ & (_ & _ & K & _))].
  - apply (ps_params _ _ _ K).
  - apply (cl_params _ _ _ _ _ K).
  - assumption.
Qed.

Lemma init_configured p cfg info ic mh m env c : parse_time_steps cfg = Ok info ->
  snobal_init p info ic mh m = Ok (env, c) -> configured_state p cfg (c_ss c).
Proof.
  intros Hp H. unfold snobal_init in H.
  inv_bind H as pa Hpa. inv_bind H as s Hs. inv_bind H as s1 Hs1. injection H as <- <-. cbn [c_ss].
  destruct (parse_eq _ _ Hp) as (_ & ->). unfold create_snow_state in Hs.
  change (Z.to_nat SMALL_TSTEP) with 2%nat in Hs. cbn [nth_error ts_threshold] in Hs. injection Hs as <-.
  destruct (init_snow_frame _ _ Hs1) as (Hpe & _). eapply params_eq_configured; [exact Hpe|]. repeat split.
Qed.

(** ** Summary used by the theorems *)
Record run_facts (Q : RawInput R -> Prop) p cfg (c0 c : Core R) : Prop := {
  rf_chain : chain (c_ss c0) (c_datetime c0) (c_trace c) (c_ss c) (c_datetime c);
  rf_good : Forall (good_event Q) (c_trace c);
  rf_conf : Forall (fun e => configured_state p cfg (e_before e) /\ configured_state p cfg (e_after e)) (c_trace c);
  rf_sound : sound (c_ss c)
}.

Lemma run_has_facts (Q : RawInput R -> Prop) p cfg info ic mh m env c0 c :
  (forall r, Q r -> valid_record r) -> valid_setup p cfg ic -> parse_time_steps cfg = Ok info ->
  snobal_init p info ic mh m = Ok (env, c0) -> reachable_by (made_from Q) env c0 c ->
  run_facts Q p cfg c0 c.
Proof.
  intros HQ Hv Hp Hi Hr.
  destruct (run_good _ _ _ _ _ _ _ _ _ _ HQ Hv Hp Hi Hr) as (Hs & Hg).
  destruct (init_tso _ _ _ _ _ _ _ Hi) as (_ & _ & _ & Tr0 & Ei & _).
  pose proof Hp as Hp2. rewrite <- Ei in Hp2. destruct (parse_standard _ _ Hp2) as (t0 & t1 & t2 & Hstd).
  pose proof (run_chain _ _ _ _ _ _ _ Hstd Tr0 Hr) as Hch.
  split; try assumption.
  refine (proj2 (chain_inv (configured_state p cfg) _ _ _ _ _ _ _ Hch _)).
  - intros a b (b1 & m1 & e1 & w1 & ->) H. exact H.
  - intros e He. apply params_eq_configured. apply outcome_params.
    rewrite Forall_forall in Hg. apply (Hg e He).
  - exact (init_configured _ _ _ _ _ _ _ _ Hp Hi).
Qed.
