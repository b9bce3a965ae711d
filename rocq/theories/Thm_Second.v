(** * Theorem C95: what the second record of a data step can change.

    A data step is given the records at its start and at its end.  The second one only enters through the changes added
    after each run step: a data step that is not subdivided does not see it at all, and in a subdivided one no run step
    sees its values, only values between the two records.  The first part is for every number type. *)
From Coq Require Import Reals String ZArith Bool Lia Lra List.
Import ListNotations.
From Verif Require Import Num Real Constants Functions Libsnobal Input SnowState Snobal PySnobal
  SchedSpec Sched Frame SchedProps Spec Averages Forcing Modes FloatNum Thm_Schedule Thm_Forcing Thm_Api Thm_Shift.

Section Any.
Context {T : Type} {N : Num T}.
Implicit Types (env : Env T) (c : Core T) (cfg : ModelCfg T).

(** changes with the same precipitation *)
Definition same_fall (d d' : InputData T) : Prop :=
  i_m_pp d = i_m_pp d' /\ i_m_snow d = i_m_snow d' /\ i_m_rain d = i_m_rain d' /\ i_z_snow d = i_z_snow d'.

Lemma same_fall_update (i d d' : InputData T) : same_fall d d' -> update_precip_deltas i d = update_precip_deltas i d'.
Proof using Type. intros (A & B & C & D). unfold update_precip_deltas. rewrite A, B, C, D. reflexivity. Qed.

Lemma input_fall (r r' : RawInput T) : r_m_pp r = r_m_pp r' -> r_percent_snow r = r_percent_snow r' -> r_rho_snow r = r_rho_snow r' ->
  r_t_pp r = r_t_pp r' -> rres same_fall (input_data r) (input_data r').
Proof using Type.
  destruct r as [a1 a2 a3 a4 a5 a6 m p rs t], r' as [b1 b2 b3 b4 b5 b6 m' p' rs' t']. cbn [r_m_pp r_percent_snow r_rho_snow r_t_pp]. intros <- <- <- <-.
  unfold input_data. cbn [r_S_n r_I_lw r_t_a r_e_a r_u r_t_g r_m_pp r_percent_snow r_rho_snow r_t_pp].
  destruct (nltb (nofZ 0) m); [|repeat split].
  apply rres_same. intros z _.
  destruct (_ && nltb _ (nsub _ _)); [repeat split|]. destruct (nltb (nofZ 0) (nmul _ _)).
  - destruct (nltb _ FREEZE); repeat split.
  - destruct (nltb (nofZ 0) _); repeat split.
Qed.

Lemma level_fall (i1 i2 i2' : InputData T) n : rres same_fall (level_deltas i1 i2 n) (level_deltas i1 i2' n).
Proof using Type.
  unfold level_deltas, pdiv. destruct (neqb (nofZ n) (nofZ 0)); [reflexivity|]. cbn [bind]. apply input_fall; reflexivity.
Qed.

Definition same_falls (ds ds' : list (Z * InputData T)) : Prop := Forall2 (fun x y => fst x = fst y /\ same_fall (snd x) (snd y)) ds ds'.
Lemma deltas_fall (i1 i2 i2' : InputData T) info : rres same_falls (input_deltas i1 i2 info) (input_deltas i1 i2' info).
Proof using Type.
  induction info as [|ts l IH]; [constructor|]. cbn [input_deltas].
  eapply rres_bind; [apply level_fall|]. intros d d' Hd. eapply rres_bind; [exact IH|]. intros ds ds' Hds.
  cbn. constructor; [split; [reflexivity|exact Hd]|exact Hds].
Qed.
Lemma at_fall ds ds' lvl : same_falls ds ds' -> rres same_fall (deltas_at ds lvl) (deltas_at ds' lvl).
Proof using Type.
  unfold deltas_at. induction 1 as [|[l d] [l' d'] ds ds' (E & H) _ IH]; [reflexivity|]. cbn [fst snd] in E, H. subst l'. cbn [find fst].
  destruct (l =? lvl)%Z; [exact H|exact IH].
Qed.

Lemma step_fall env ds ds' ts c i : same_falls ds ds' ->
  rres (fun x y => fst x = fst y) (do_tstep env ds ts c i) (do_tstep env ds' ts c i).
Proof using Type.
  intros H. unfold do_tstep. eapply rres_bind; [apply at_fall; exact H|]. intros d d' Hd.
  rewrite (same_fall_update i d d' Hd).
  apply rres_same. intros [[s i'] init] _. apply rres_same. intros [s1 kept] _. apply rres_same. intros [s2 tso] _.
  apply rres_same. intros c1 _. reflexivity.
Qed.

(** ** A data step that starts without thin snow does not see its second record *)
Theorem C95_second_record_unseen cfg env c i1 i2 i2' : configured cfg env -> ~ thin (cfg_norm_thr cfg) (c_ss c) ->
  do_data_tstep env c i1 i2 = do_data_tstep env c i1 i2'.
Proof using Type.
  intros Hc Ht. apply not_thin_below in Ht. destruct (parse_eq _ _ Hc) as (_ & E).
  assert (H : rres eq (do_data_tstep env c i1 i2) (do_data_tstep env c i1 i2')).
  { unfold do_data_tstep. eapply rres_bind; [apply deltas_fall|]. intros ds ds' Hds.
    change 3%nat with (S 2). remember 2%nat as two. cbn [divide_tstep d_level]. unfold tstep_at. rewrite E. unfold NORMAL_TSTEP.
    change (0 <? 0)%Z with false. cbv iota. change (Z.to_nat 0) with 0%nat. cbn [nth_error bind ts_level d_input d_core ts_intervals ts_threshold].
    change (1 <? 0)%Z with false. rewrite andb_false_r. cbn [bind]. change (Z.to_nat 1) with 1%nat. cbn [iter_res d_level d_core].
    rewrite Ht, andb_false_r. rewrite !bind_assoc.
    eapply rres_bind with (P := fun x y => fst x = fst y).
    - apply step_fall. exact Hds.
    - intros [c1 j1] [c2 j2] Hx. cbn [fst] in Hx. subst c2. cbn [bind d_level d_core d_input]. rewrite !bind_assoc.
      apply rres_same. intros c3 _. reflexivity. }
  destruct (do_data_tstep env c i1 i2), (do_data_tstep env c i1 i2'); cbn in H; try contradiction; congruence.
Qed.

(** hence the last record of the input has no effect on a run that reaches it without thin snow *)
Lemma run_last cfg env c r r' i i' : configured cfg env -> ~ thin (cfg_norm_thr cfg) (c_ss c) -> input_data r = Ok i -> input_data r' = Ok i' ->
  forall l c0 i1, run_steps env c0 i1 l = Ok c -> run_steps env c0 i1 (l ++ [r]) = run_steps env c0 i1 (l ++ [r']).
Proof using Type.
  intros Hc Ht Hr Hr'. induction l as [|x l IH]; intros c0 i1 Hs; cbn [run_steps app] in *.
  - injection Hs as <-. rewrite Hr, Hr'. cbn [bind]. rewrite (C95_second_record_unseen cfg env c0 i1 i i' Hc Ht). reflexivity.
  - inv_bind Hs as i2 Hi2. inv_bind Hs as c1 Hc1. rewrite Hi2. cbn [bind]. rewrite Hc1. cbn [bind]. apply IH. exact Hs.
Qed.
Theorem C95_last_record_unseen (p : Params T) info ic mh m rows d r r' i i' cfg c :
  parse_time_steps cfg = Ok info -> simulate p info ic mh m rows = Ok c -> ~ thin (cfg_norm_thr cfg) (c_ss c) ->
  input_data r = Ok i -> input_data r' = Ok i' ->
  simulate p info ic mh m (rows ++ [(d, r)]) = simulate p info ic mh m (rows ++ [(d, r')]).
Proof using Type.
  intros Hi Hs Ht Hr Hr'. unfold simulate in *. rewrite !map_app. cbn [map fst].
  match goal with |- (if ?b then _ else _) = _ => destruct b end; [reflexivity|].
  destruct (negb _) in Hs; [discriminate|].
  destruct rows as [|r0 rest]; [discriminate|]. cbn [app]. inv_bind Hs as i1 Hi1. inv_bind Hs as x Hx. destruct x as [env c0].
  rewrite Hi1. cbn [bind]. rewrite Hx. cbn [bind]. rewrite !map_app. cbn [map snd].
  destruct (init_tso _ _ _ _ _ _ _ Hx) as (_ & _ & _ & _ & Ei & _).
  assert (Hc : configured cfg env) by (unfold configured; rewrite Ei; assumption).
  exact (run_last cfg env c r r' i i' Hc Ht Hr Hr' (map snd rest) c0 i1 Hs).
Qed.
End Any.

(** ** In a subdivided data step the forcing stays between the two records, short of the second (reals) *)
Open Scope R_scope.
Definition short_of (a b x : R) : Prop := (a <= b -> a <= x <= b) /\ (b <= a -> b <= x <= a) /\ (a <> b -> x <> b).
Lemma chain_within s t evs s' t' : chain (T:=R) s t evs s' t' -> Forall (fun e => (0 < ts_minutes (e_tstep e))%Z) evs ->
  (t <= t')%Z /\ forall e, In e evs -> (t <= e_start e < t')%Z.
Proof.
  induction 1 as [s t|e evs s1 s' t' Hs Hch IH]; intros Hf; [split; [lia|intros e []]|].
  inversion Hf as [|? ? Hp Hf']; subst. destruct (IH Hf') as (A & B). split; [lia|].
  intros x [<-|Hx]; [lia|]. pose proof (B x Hx). lia.
Qed.
Theorem C95_forcing_stays_between (cfg : ModelCfg R) env c i1 i2 c' :
  divides_evenly cfg -> configured cfg env -> do_data_tstep env c i1 i2 = Ok c' ->
  exists evs, steps_between c c' evs /\ forall e, In e evs ->
    short_of (i_S_n i1) (i_S_n i2) (i_S_n (e_input e)) /\ short_of (i_I_lw i1) (i_I_lw i2) (i_I_lw (e_input e)) /\
    short_of (i_t_a i1) (i_t_a i2) (i_t_a (e_input e)) /\ short_of (i_u i1) (i_u i2) (i_u (e_input e)) /\
    short_of (i_t_g i1) (i_t_g i2) (i_t_g (e_input e)).
Proof.
  intros Hd Hc H. destruct (C07_forcing_is_interpolated_linearly cfg env c i1 i2 c' Hd Hc H) as (evs & Hev & HL & _).
  exists evs. split; [exact Hev|]. intros e He.
  assert (Hk : exists k, 0 <= k < 1 /\ k = IZR (e_start e - c_datetime c) / IZR (cfg_norm cfg)).
  { destruct (C05_no_coarse_step_on_thin_pack cfg env c i1 i2 c' Hc H) as (evs' & Hev' & Hsch & Hch & _).
    rewrite (steps_between_unique _ _ _ _ Hev' Hev) in Hsch, Hch. clear evs' Hev'.
    pose proof (C01_clock_advances_one_normal_step cfg env c i1 i2 c' Hd Hc H) as Ec.
    pose proof Hd as (Pn & Pm & Ps & _).
    assert (Hpos : Forall (fun e : Event R => (0 < ts_minutes (e_tstep e))%Z) evs).
    { apply Forall_map with (f := e_tstep (T:=R)) (P := fun ts => (0 < ts_minutes ts)%Z).
      refine (schedule_steps _ _ _ _ _ _ _ _ Hsch); cbn; assumption. }
    destruct (chain_within _ _ _ _ _ Hch Hpos) as (_ & W). specialize (W e He). rewrite Ec in W.
    eexists. split; [|reflexivity].
    assert (0 <= IZR (e_start e - c_datetime c)) by (apply IZR_le; lia).
    assert (IZR (e_start e - c_datetime c) < IZR (cfg_norm cfg)) by (apply IZR_lt; lia).
    assert (0 < IZR (cfg_norm cfg)) by (apply IZR_lt; lia).
    split; [apply Rmult_le_pos; [assumption|left; apply Rinv_0_lt_compat; assumption]|].
    apply (Rmult_lt_reg_r (IZR (cfg_norm cfg))); [assumption|]. unfold Rdiv. rewrite Rmult_assoc, Rinv_l by lra. lra. }
  destruct Hk as (k & Hk & Ek). destruct (HL e He) as (A & B & C & D & F & _). unfold on_the_line in *. rewrite <- Ek in *.
  assert (G : forall a b x, x = a + (b - a) * k -> short_of a b x).
  { intros a b x ->. split; [intros; nra|]. split; [intros; nra|]. intros Hab Ex. assert (X : (b - a) * (1 - k) = 0) by lra.
    apply Rmult_integral in X. destruct X; lra. }
  split; [exact (G _ _ _ A)|]. split; [exact (G _ _ _ B)|]. split; [exact (G _ _ _ C)|]. split; [exact (G _ _ _ D)|exact (G _ _ _ F)].
Qed.

(** ** Concrete data steps (binary64): from bare ground the second record is not seen, over a pack of 25 kg/m2 (below the
    threshold of 60) it is *)
From Coq Require Import Floats.
Definition two_steps (ic : InitSnow float) : option (bool * float * float) :=
  match (let* info := parse_time_steps w_even in
         let* '(env, c0) := snobal_init w_params info ic w_heights true in
         let* i1 := input_data (w_rec 268%float 300%float) in
         let* i2 := input_data (w_rec 268%float 300%float) in
         let* i2' := input_data (w_rec 272%float 400%float) in
         let* c := do_data_tstep env c0 i1 i2 in
         let* c' := do_data_tstep env c0 i1 i2' in
         Ok (below_thold (cfg_norm_thr w_even) (c_ss c0), t_s_0 (c_ss c), t_s_0 (c_ss c'))) with
  | Ok r => Some r | Err _ => None end.
Example C95_bare_ground : match two_steps w_bare with Some (b, x, y) => b = false /\ PrimFloat.eqb x y = true | None => False end.
Proof. vm_compute. split; reflexivity. Qed.
Example C95_thin_snow : match two_steps w_thin with Some (b, x, y) => b = true /\ PrimFloat.ltb x y = true | None => False end.
Proof. vm_compute. split; reflexivity. Qed.
(** ... and a heavy pack, 100 kg/m2 in one layer of 20 cm, is not thin *)
Definition w_heavy : InitSnow float := (mkInitSnow 0.1875 500 268 268 0 0.0078125)%float.
Example C95_heavy_snow : match two_steps w_heavy with Some (b, x, y) => b = false /\ PrimFloat.eqb x y = true | None => False end.
Proof. vm_compute. split; reflexivity. Qed.
Print Assumptions C95_second_record_unseen.
Print Assumptions C95_last_record_unseen.
Print Assumptions C95_forcing_stays_between.
