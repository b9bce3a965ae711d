(** * Forcing inside a data step: linear interpolation and precipitation shares (C06, C07). *)
From Coq Require Import Reals String ZArith Bool Lia Lra List.
Import ListNotations.
From Verif Require Import Num Real Constants Functions Libsnobal Input SnowState Snobal PySnobal SchedSpec Sched Frame SchedProps Spec Averages.
Open Scope R_scope.

(** The meteorological variables that are interpolated and never clipped. *)
Definition met_fields : list (InputData R -> R) := [i_S_n; i_I_lw; i_t_a; i_u; i_t_g].
(** The precipitation amounts. *)
Definition precip_amounts : list (InputData R -> R) := [i_m_pp; i_m_snow; i_m_rain; i_z_snow].
(** The precipitation properties that do not change within a data step. *)
Definition precip_props : list (InputData R -> R) :=
  [i_percent_snow; i_rho_snow; i_t_pp; i_h2o_sat_snow; i_t_rain; i_t_snow].

(** the vapour pressure [v] of the air as the fluxes over snow use it: not above saturation *)
Definition clipped (e : Event R) (v : R) : R :=
  if has_snow (e_before e) then
    match sati (i_t_a (e_input e)) with Ok sat => Rmin v sat | Err _ => v end
  else v.
Definition clips (e : Event R) : Prop :=
  has_snow (e_before e) = true /\
  exists sat, sati (i_t_a (e_input e)) = Ok sat /\ sat < i_e_a (e_input e).

(** ** The records *)
Lemma input_data_raw r i : input_data r = Ok i ->
  i_S_n i = r_S_n r /\ i_I_lw i = r_I_lw r /\ i_t_a i = r_t_a r /\ i_e_a i = r_e_a r /\ i_u i = r_u r /\
  i_t_g i = r_t_g r /\ i_m_pp i = r_m_pp r /\ i_percent_snow i = r_percent_snow r /\
  i_rho_snow i = r_rho_snow r /\
  i_m_snow i = r_m_pp r * r_percent_snow r /\ i_m_rain i = r_m_pp r - r_m_pp r * r_percent_snow r /\
  i_z_snow i = (if Rltb 0 (r_m_pp r) && Rltb 0 (r_m_pp r * r_percent_snow r)
                then r_m_pp r * r_percent_snow r / r_rho_snow r else 0) /\
  i_precip_now i = Rltb 0 (r_m_pp r) /\
  (Rltb 0 (r_m_pp r) && Rltb 0 (r_m_pp r * r_percent_snow r) = true -> 0 < r_rho_snow r).
Proof.
  unfold input_data. rn. intros H.
  destruct (Rltb_spec 0 (r_m_pp r)) as [Hp|Hp]; cbn [andb].
  - destruct (Rltb_spec 0 (r_m_pp r * r_percent_snow r)) as [Hs|Hs]; cbn [bind andb] in H.
    + destruct (Rltb_spec 0 (r_rho_snow r)) as [Hr|Hr]; cbn [bind] in H; [|discriminate].
      destruct (Rltb 0 (r_m_pp r - r_m_pp r * r_percent_snow r)); cbn [andb] in H.
      * injection H as <-. cbn. repeat split. intros _; assumption.
      * match type of H with (if ?b then _ else _) = _ => destruct b end;
          injection H as <-; cbn; repeat split; intros _; assumption.
    + match type of H with (if ?b then _ else _) = _ => destruct b end;
        injection H as <-; cbn; repeat split; discriminate.
  - injection H as <-. cbn. repeat split; discriminate.
Qed.

Lemma level_deltas_R i1 i2 n d : level_deltas i1 i2 n = Ok d ->
  IZR n <> 0 /\
  (forall x, In x met_fields \/ x = i_e_a -> x d = (x i2 - x i1) / IZR n) /\
  exists r, input_data r = Ok d /\ r_m_pp r = i_m_pp i1 / IZR n /\
    r_percent_snow r = i_percent_snow i1 /\ r_rho_snow r = i_rho_snow i1.
Proof.
  unfold level_deltas. intros H.
  inv_bind H as a1 H1. inv_bind H as a2 H2. inv_bind H as a3 H3. inv_bind H as a4 H4.
  inv_bind H as a5 H5. inv_bind H as a6 H6. inv_bind H as a7 H7.
  apply pdiv_R in H1, H2, H3, H4, H5, H6, H7.
  pose proof (input_data_raw _ _ H) as (E1 & E2 & E3 & E4 & E5 & E6 & E7 & _).
  split; [tauto|]. split.
  - intros x [Hx| ->].
    + repeat (destruct Hx as [<-|Hx]; [rewrite ?E1, ?E2, ?E3, ?E5, ?E6; cbn; tauto|]). destruct Hx.
    + rewrite E4. cbn. tauto.
  - eexists. split; [exact H|]. cbn. tauto.
Qed.

(** the share of a precipitation amount a run step of the level with [n] steps per
    data step receives is one [n]-th *)
Lemma precip_share r1 i1 i2 n d x :
  input_data r1 = Ok i1 -> i_precip_now i1 = true -> (0 < n)%Z ->
  level_deltas i1 i2 n = Ok d -> In x precip_amounts -> x d = x i1 / IZR n.
Proof.
  intros H1 Hnow Hn Hd Hx.
  apply level_deltas_R in Hd. destruct Hd as (Hnz & _ & r & Hr & Er1 & Er2 & Er3).
  apply input_data_raw in H1, Hr.
  destruct H1 as (_ & _ & _ & _ & _ & _ & A1 & A2 & A3 & A4 & A5 & A6 & A7 & A8).
  destruct Hr as (_ & _ & _ & _ & _ & _ & B1 & B2 & B3 & B4 & B5 & B6 & B7 & B8).
  rewrite Er1, Er2, Er3, A1, A2, A3 in *. rewrite A7 in Hnow. rewrite Hnow in *. cbn [andb] in *.
  apply Rltb_true in Hnow.
  assert (Hpn : 0 < IZR n) by (apply IZR_lt; assumption).
  assert (Hinv : 0 < / IZR n) by (apply Rinv_0_lt_compat; assumption).
  assert (Hq : Rltb 0 (r_m_pp r1 / IZR n) = true).
  { apply Rltb_true. apply Rmult_lt_0_compat; assumption. }
  rewrite Hq in *. cbn [andb] in *.
  assert (Hs : Rltb 0 (r_m_pp r1 / IZR n * r_percent_snow r1) = Rltb 0 (r_m_pp r1 * r_percent_snow r1)).
  { replace (r_m_pp r1 / IZR n * r_percent_snow r1) with (r_m_pp r1 * r_percent_snow r1 * / IZR n) by (field; assumption).
    destruct (Rltb_spec 0 (r_m_pp r1 * r_percent_snow r1)) as [Hp|Hp].
    - apply Rltb_true. apply Rmult_lt_0_compat; assumption.
    - apply Rltb_false. nra. }
  rewrite Hs in *.
  cbn in Hx. destruct Hx as [<-|[<-|[<-|[<-|[]]]]].
  - rewrite B1, A1. reflexivity.
  - rewrite B4, A4. field. assumption.
  - rewrite B5, A5. field. assumption.
  - rewrite B6, A6. destruct (Rltb 0 (r_m_pp r1 * r_percent_snow r1)); [|field; assumption].
    specialize (A8 eq_refl). field. lra.
Qed.

(** ** Deltas by level *)
Lemma input_deltas_levels i1 i2 (t0 t1 t2 : TStep R) info ds :
  standard_info info t0 t1 t2 -> input_deltas i1 i2 info = Ok ds ->
  exists d0 d1 d2,
    level_deltas i1 i2 (ts_per_timestep t0) = Ok d0 /\ deltas_at ds 0 = Ok d0 /\
    level_deltas i1 i2 (ts_per_timestep t1) = Ok d1 /\ deltas_at ds 1 = Ok d1 /\
    level_deltas i1 i2 (ts_per_timestep t2) = Ok d2 /\ deltas_at ds 2 = Ok d2.
Proof.
  intros (-> & L0 & L1 & L2 & _) H. cbn [input_deltas] in H.
  inv_bind H as d0 H0. inv_bind H as ds1 Hs. inv_bind Hs as d1 H1. inv_bind Hs as ds2 Hs2.
  inv_bind Hs2 as d2 H2. inv_bind Hs2 as ds3 Hs3. injection Hs3 as <-. injection Hs2 as <-.
  injection Hs as <-. injection H as <-.
  exists d0, d1, d2. unfold deltas_at. cbn [find fst snd]. rewrite L0, L1, L2. cbn. auto 10.
Qed.

(** ** Evolution of the running input *)
Section Evolution.
Variables (env : Env R) (ds : list (Z * InputData R)) (i1 i2 : InputData R) (start norm : Z).
Hypothesis Hnorm : (0 < norm)%Z.
(** every run step moves every variable by its share of the difference *)
Definition step_ok (ts : TStep R) : Prop :=
  exists d, deltas_at ds (ts_level ts) = Ok d /\
    forall x, In x met_fields \/ x = i_e_a ->
      x d = (x i2 - x i1) * IZR (ts_minutes ts) / IZR norm.

Definition linear (x : InputData R -> R) (t : Z) : R :=
  x i1 + (x i2 - x i1) * IZR (t - start) / IZR norm.

Definition const_ok (i : InputData R) : Prop :=
  i_precip_now i = i_precip_now i1 /\ forall x, In x precip_props -> x i = x i1.

Definition met_ok (t : Z) (i : InputData R) : Prop := forall x, In x met_fields -> x i = linear x t.

Lemma met_update i d x : In x met_fields \/ x = i_e_a \/ In x precip_props ->
  x (update_precip_deltas i d) = x i.
Proof.
  intros [Hx|[->|Hx]]; [|reflexivity|];
    repeat (destruct Hx as [<-|Hx]; [reflexivity|]); destruct Hx.
Qed.
Lemma met_set_e_a i v x : In x met_fields \/ In x precip_props \/ In x precip_amounts ->
  x (set_e_a v i) = x i.
Proof.
  intros [Hx|[Hx|Hx]];
    repeat (destruct Hx as [<-|Hx]; [reflexivity|]); destruct Hx.
Qed.

Lemma h_le_clip P mh rel init i s h lve e i' init' :
  h_le P mh rel init i s = Ok (h, lve, e, i', init') ->
  exists sat, sati (i_t_a i) = Ok sat /\
    ((i_e_a i <= sat /\ i' = i) \/ (sat < i_e_a i /\ i' = set_e_a sat i)).
Proof.
  unfold h_le. intros H. inv_bind H as sv Hsv. inv_bind H as es Hes. inv_bind H as r Hr.
  destruct (negb _); [discriminate|]. injection H as _ _ _ <- _.
  exists sv. split; [assumption|]. rn. destruct (Rltb_spec sv (i_e_a i)); [right|left]; split; auto; lra.
Qed.

Lemma energy_balance_clip (env' : Env R) t init i s s' i' init' :
  energy_balance env' t init i s = Ok (s', i', init') ->
  (has_snow s = false /\ i' = i) \/
  (has_snow s = true /\ exists sat, sati (i_t_a i) = Ok sat /\
    ((i_e_a i <= sat /\ i' = i) \/ (sat < i_e_a i /\ i' = set_e_a sat i))).
Proof.
  unfold energy_balance. destruct (has_snow s); intros H.
  - inv_bind H as [[[[h lve] e] i3] init1] Hh. inv_bind H as [g g0] Hg. inv_bind H as m Hm.
    injection H as _ <- _. right. split; [reflexivity|]. eapply h_le_clip; eassumption.
  - injection H as _ <- _. left. auto.
Qed.

(** one event is as the interpolation law says *)
Definition event_ok (evs : list (Event R)) (e : Event R) : Prop :=
  met_ok (e_start e) (e_input e) /\ const_ok (e_input e) /\
  i_e_a (e_input e) <= linear i_e_a (e_start e) /\
  ((forall e', In e' evs -> ~ clips e') -> i_e_a (e_input e) = linear i_e_a (e_start e)).

Definition running_ok (t : Z) (i : InputData R) (evs : list (Event R)) : Prop :=
  met_ok t i /\ const_ok i /\ i_e_a i <= linear i_e_a t /\
  ((forall e', In e' evs -> ~ clips e') -> i_e_a i = linear i_e_a t).

Inductive events_ok : list (Event R) -> list (Event R) -> Prop :=
| events_nil pre : events_ok pre []
| events_cons pre e evs : event_ok pre e -> events_ok (pre ++ [e]) evs -> events_ok pre (e :: evs).

Lemma linear_step x t (m : Z) :
  linear x (t + m) = linear x t + (x i2 - x i1) * IZR m / IZR norm.
Proof.
  unfold linear. replace (t + m - start)%Z with ((t - start) + m)%Z by lia. rewrite plus_IZR.
  assert (0 < IZR norm) by (apply IZR_lt; assumption). field. lra.
Qed.

Lemma exec_forcing l c i c' i' pre :
  Forall step_ok l -> exec env ds l c i c' i' -> running_ok (c_datetime c) i pre ->
  exists evs, steps_between c c' evs /\ events_ok pre evs.
Proof.
  intros Hl Hex. revert pre. induction Hex as [c i j|ts l c i c1 ix c2 iy Hstep Hp H IH]; intros pre Hr.
  - exists []. split; [symmetry; apply app_nil_r|constructor].
  - inversion Hl as [|? ? Hts Hl']; subst. specialize (IH Hl').
    apply do_tstep_inv in Hstep.
    destruct Hstep as (d & s1 & ic & init & s2 & kept & s3 & Hd & He & Hmb & Ha & Hc & Hi).
    set (iu := if i_precip_now i then update_precip_deltas i d else i) in *.
    set (e := mkEvent ts (c_datetime c) iu (c_ss c) s2 kept) in *.
    destruct Hts as (d' & Hd' & Hshare). rewrite Hd in Hd'. injection Hd' as <-.
    destruct Hr as (R1 & (R2 & R3) & R4 & R5).
    assert (Hiu : forall x, In x met_fields \/ x = i_e_a \/ In x precip_props -> x iu = x i).
    { intros x Hx. subst iu. destruct (i_precip_now i); [apply met_update; assumption|reflexivity]. }
    assert (Hnow : i_precip_now iu = i_precip_now i).
    { subst iu. destruct (i_precip_now i) eqn:E; [|assumption]. cbn. assumption. }
    assert (Hev : event_ok pre e).
    { unfold event_ok. cbn [e_start e_input e]. split; [|split; [split|split]].
      - intros x Hx. rewrite Hiu by tauto. apply R1; assumption.
      - congruence.
      - intros x Hx. rewrite Hiu by tauto. apply R3; assumption.
      - rewrite Hiu by tauto. assumption.
      - intros Hn. rewrite Hiu by tauto. auto. }
    assert (Htr : c_trace c1 = c_trace c ++ [e] /\ c_datetime c1 = (c_datetime c + ts_minutes ts)%Z).
    { destruct (ev_output_divided env); [apply output_inv in Hc; cbn in Hc; tauto|subst c1; auto]. }
    destruct Htr as [Htr Hdt].
    assert (Hic : ic = iu \/ exists v, ic = set_e_a v iu).
    { eapply energy_balance_frame in He. tauto. }
    assert (Hrun : running_ok (c_datetime c1) ix (pre ++ [e])).
    { rewrite Hdt. subst ix. unfold running_ok. split; [|split; [split|]].
      - intros x Hx. rewrite linear_step, <- (Hshare x) by tauto. rewrite <- R1 by assumption.
        rewrite <- (Hiu x) by tauto.
        assert (Hx2 : x ic = x iu).
        { destruct Hic as [->|[v ->]]; [reflexivity|]. apply met_set_e_a; tauto. }
        rewrite <- Hx2. repeat (destruct Hx as [<-|Hx]; [reflexivity|]). destruct Hx.
      - destruct Hic as [->|[v ->]]; cbn; congruence.
      - intros x Hx. rewrite <- R3, <- (Hiu x) by tauto.
        assert (Hx2 : x ic = x iu).
        { destruct Hic as [->|[v ->]]; [reflexivity|]. apply met_set_e_a; tauto. }
        rewrite <- Hx2. repeat (destruct Hx as [<-|Hx]; [reflexivity|]). destruct Hx.
      - rewrite linear_step, <- (Hshare i_e_a) by tauto.
        change (i_e_a (add_deltas ic d)) with (i_e_a ic + i_e_a d).
        pose proof (Hiu i_e_a (or_intror (or_introl eq_refl))) as Heu.
        destruct (energy_balance_clip _ _ _ _ _ _ _ _ He) as [[Hs ->]|(Hs & sat & Hsat & [[Hle ->]|[Hlt ->]])].
        + rewrite Heu. split; [lra|]. intros Hn. rewrite R5; [reflexivity|].
          intros e' Hin. apply Hn. apply in_or_app. left; assumption.
        + rewrite Heu. split; [lra|]. intros Hn. rewrite R5; [reflexivity|].
          intros e' Hin. apply Hn. apply in_or_app. left; assumption.
        + cbn. split; [lra|]. intros Hn. exfalso. apply (Hn e).
          { apply in_or_app. right; left; reflexivity. }
          split; [exact Hs|]. exists sat. cbn. split; assumption. }
    destruct (IH _ Hrun) as (evs & Hev1 & Hok). exists (e :: evs). split.
    + unfold steps_between in *. rewrite Hev1, Htr, <- app_assoc. reflexivity.
    + constructor; assumption.
Qed.

(** the complete law of the vapour pressure, [v] being its value at the start *)
Fixpoint vapour_follows (v : R) (evs : list (Event R)) : Prop :=
  match evs with
  | [] => True
  | e :: rest => i_e_a (e_input e) = v /\
      vapour_follows (clipped e v + (i_e_a i2 - i_e_a i1) * IZR (ts_minutes (e_tstep e)) / IZR norm) rest
  end.

Lemma exec_vapour l c i c' i' :
  Forall step_ok l -> exec env ds l c i c' i' ->
  exists evs, steps_between c c' evs /\ vapour_follows (i_e_a i) evs.
Proof.
  intros Hl Hex. induction Hex as [c i j|ts l c i c1 ix c2 iy Hstep Hp H IH].
  - exists []. split; [symmetry; apply app_nil_r|exact I].
  - inversion Hl as [|? ? Hts Hl']; subst. specialize (IH Hl').
    apply do_tstep_inv in Hstep.
    destruct Hstep as (d & s1 & ic & init & s2 & kept & s3 & Hd & He & Hmb & Ha & Hc & Hi).
    set (iu := if i_precip_now i then update_precip_deltas i d else i) in *.
    set (e := mkEvent ts (c_datetime c) iu (c_ss c) s2 kept) in *.
    destruct Hts as (d' & Hd' & Hshare). rewrite Hd in Hd'. injection Hd' as <-.
    assert (Heu : i_e_a iu = i_e_a i) by (subst iu; destruct (i_precip_now i); reflexivity).
    assert (Htr : c_trace c1 = c_trace c ++ [e]).
    { destruct (ev_output_divided env); [apply output_inv in Hc; cbn in Hc; tauto|subst c1; auto]. }
    destruct IH as (evs & Hev & Hv). exists (e :: evs). split.
    + unfold steps_between in *. rewrite Hev, Htr, <- app_assoc. reflexivity.
    + cbn [vapour_follows e e_input e_tstep]. split; [assumption|].
      replace (clipped e (i_e_a i) + (i_e_a i2 - i_e_a i1) * IZR (ts_minutes ts) / IZR norm) with (i_e_a ix); [assumption|].
      rewrite <- (Hshare i_e_a) by tauto. subst ix.
      change (i_e_a (add_deltas ic d)) with (i_e_a ic + i_e_a d). f_equal.
      unfold clipped. cbn [e e_before e_input].
      destruct (energy_balance_clip _ _ _ _ _ _ _ _ He) as [[Hs ->]|(Hs & sat & Hsat & Hcl)];
        change (has_snow (set_h2o_total (nofZ 0) (c_ss c))) with (has_snow (c_ss c)) in Hs; rewrite Hs; [assumption|].
      rewrite Hsat. destruct Hcl as [[Hle ->]|[Hlt ->]].
      * rewrite Rmin_left by lra. assumption.
      * rewrite Rmin_right by lra. reflexivity.
Qed.

Lemma events_ok_spec pre evs : events_ok pre evs ->
  forall l e r, evs = l ++ e :: r -> event_ok (pre ++ l) e.
Proof.
  induction 1 as [pre|pre e0 evs He Hevs IH]; intros l e r E.
  - destruct l; discriminate.
  - destruct l as [|a l]; cbn in E; injection E as -> E.
    + rewrite app_nil_r. assumption.
    + specialize (IH l e r E). rewrite <- app_assoc in IH. exact IH.
Qed.

End Evolution.

(** ** Precipitation shares add up *)
Lemma schedule_sum (t0 t1 t2 : TStep R) l (g : TStep R -> R) v :
  g t0 = v -> INR (Z.to_nat (ts_intervals t1)) * g t1 = v ->
  INR (Z.to_nat (ts_intervals t2)) * g t2 = g t1 ->
  schedule t0 t1 t2 l -> sum_over g l = v.
Proof.
  intros G0 G1 G2 [->|(bs & -> & Hlen & Hf)].
  - unfold sum_over. cbn. lra.
  - rewrite <- G1, <- Hlen. clear Hlen G1. induction Hf as [|b bs Hb Hf IH].
    + unfold sum_over. cbn. lra.
    + cbn [List.concat length]. rewrite sum_over_app, IH, S_INR.
      assert (sum_over g b = g t1); [|lra].
      destruct Hb as [->| ->]; [unfold sum_over; cbn; lra|].
      rewrite sum_over_repeat. assumption.
Qed.

Lemma exec_precip env ds l c i c' i' x :
  In x precip_amounts -> i_precip_now i = true -> exec env ds l c i c' i' ->
  exists evs, steps_between c c' evs /\ map e_tstep evs = l /\
    Forall (fun e => exists d, deltas_at ds (ts_level (e_tstep e)) = Ok d /\ x (e_input e) = x d) evs.
Proof.
  intros Hx Hnow Hex. induction Hex as [c i j|ts l c i c1 ix c2 iy Hstep Hp H IH].
  - exists []. split; [symmetry; apply app_nil_r|]. split; [reflexivity|constructor].
  - apply do_tstep_inv in Hstep.
    destruct Hstep as (d & s1 & ic & init & s2 & kept & s3 & Hd & He & Hmb & Ha & Hc & Hi).
    rewrite Hnow in *. cbv zeta in *.
    set (e := mkEvent ts (c_datetime c) (update_precip_deltas i d) (c_ss c) s2 kept) in *.
    assert (Htr : c_trace c1 = c_trace c ++ [e]).
    { destruct (ev_output_divided env); [apply output_inv in Hc; cbn in Hc; tauto|subst c1; auto]. }
    assert (Hnow2 : i_precip_now ix = true).
    { subst ix. apply energy_balance_frame in He. destruct He as [_ [->|[v ->]]]; exact Hnow. }
    destruct (IH Hnow2) as (evs & Hev & Hm & Hf). exists (e :: evs).
    split; [unfold steps_between in *; rewrite Hev, Htr, <- app_assoc; reflexivity|].
    split; [cbn; congruence|]. constructor; [|assumption].
    exists d. split; [exact Hd|]. cbn.
    repeat (destruct Hx as [<-|Hx]; [reflexivity|]). destruct Hx.
Qed.

Lemma schedule_levels (t0 t1 t2 : TStep R) l ts :
  schedule t0 t1 t2 l -> In ts l -> ts = t0 \/ ts = t1 \/ ts = t2.
Proof.
  intros Hs. apply (schedule_steps t0 t1 t2 (fun ts => ts = t0 \/ ts = t1 \/ ts = t2)) in Hs; auto.
  rewrite Forall_forall in Hs. apply Hs.
Qed.

Section Even.
Variables (cfg : ModelCfg R) (env : Env R) (r1 : RawInput R) (i1 i2 : InputData R) (c c' : Core R).
Hypothesis Heven : divides_evenly cfg.
Hypothesis Hparse : parse_time_steps cfg = Ok (ev_tstep_info env).
Hypothesis Hrun : do_data_tstep env c i1 i2 = Ok c'.

Let n1 := (cfg_norm cfg / cfg_medium cfg)%Z.
Let n2 := (cfg_medium cfg / cfg_small cfg)%Z.
Let t0 := mkTStep 0 (cfg_norm_thr cfg) (60 * cfg_norm cfg) (cfg_norm cfg) 1 1.
Let t1 := mkTStep 1 (cfg_medium_thr cfg) (60 * cfg_medium cfg) (cfg_medium cfg) n1 n1.
Let t2 := mkTStep 2 (cfg_small_thr cfg) (60 * cfg_small cfg) (cfg_small cfg) n2 (n1 * n2).

Lemma even_facts : (0 < n1 /\ 0 < n2 /\ cfg_norm cfg = n1 * cfg_medium cfg /\
  cfg_medium cfg = n2 * cfg_small cfg /\ 0 < cfg_small cfg /\ 0 < cfg_medium cfg /\ 0 < cfg_norm cfg)%Z.
Proof.
  destruct Heven as (Hn & Hm & Hs & [a Ha] & [b Hb]). subst n1 n2.
  rewrite Ha, Hb. rewrite !Z.div_mul by lia.
  rewrite Hb in *. rewrite Ha in *. nia.
Qed.

Lemma even_standard : standard_info (ev_tstep_info env) t0 t1 t2.
Proof.
  destruct (parse_eq _ _ Hparse) as (_ & Hi). unfold standard_info.
  destruct even_facts as (P1 & P2 & En & Em & Ps & Pm & Pn).
  rewrite Hi. unfold t0, t1, t2.
  rewrite !Z.quot_div_nonneg by lia.
  replace (cfg_norm cfg / cfg_small cfg)%Z with (n1 * n2)%Z.
  - repeat split.
  - rewrite En, Em, Z.mul_assoc, Z.div_mul by lia. reflexivity.
Qed.

Lemma even_precip x : input_data r1 = Ok i1 -> i_precip_now i1 = true -> In x precip_amounts ->
  exists evs, steps_between c c' evs /\ sum_over (fun e => x (e_input e)) evs = x i1.
Proof.
  intros Hr Hnow Hx.
  destruct (data_step_exec _ _ _ _ _ _ _ _ even_standard Hrun) as (ds & l & c1 & i' & Hds & Hex & Hs & _ & Ho).
  destruct (exec_precip _ _ _ _ _ _ _ x Hx Hnow Hex) as (evs & Hev & Hm & Hf).
  destruct (input_deltas_levels _ _ _ _ _ _ _ even_standard Hds)
    as (d0 & d1 & d2 & L0 & D0 & L1 & D1 & L2 & D2).
  cbn [ts_per_timestep t0 t1 t2] in L0, L1, L2.
  destruct even_facts as (P1 & P2 & En & Em & Ps & Pm & Pn).
  pose proof (precip_share r1 i1 i2 1 d0 x Hr Hnow ltac:(lia) L0 Hx) as S0.
  pose proof (precip_share _ _ _ _ _ x Hr Hnow P1 L1 Hx) as S1.
  pose proof (precip_share r1 i1 i2 (n1*n2) d2 x Hr Hnow ltac:(nia) L2 Hx) as S2.
  exists evs. split.
  { unfold steps_between. destruct (ev_output_divided env).
    - subst c'. assumption.
    - apply output_inv in Ho. destruct Ho as (_ & _ & _ & _ & _ & ->). assumption. }
  set (g := fun ts : TStep R => match deltas_at ds (ts_level ts) with Ok d => x d | Err _ => 0 end).
  assert (E : sum_over (fun e => x (e_input e)) evs = sum_over g l).
  { rewrite <- Hm. rewrite sum_over_map. apply sum_over_ext. intros e He.
    rewrite Forall_forall in Hf. destruct (Hf e He) as (d & Hd & ->). unfold g. rewrite Hd. reflexivity. }
  rewrite E.
  assert (Q1 : 0 < IZR n1) by (apply IZR_lt; assumption).
  assert (Q2 : 0 < IZR n2) by (apply IZR_lt; assumption).
  apply (schedule_sum t0 t1 t2); [| | |exact Hs]; unfold g; cbn [ts_level t0 t1 t2 ts_intervals].
  - rewrite D0, S0. field.
  - rewrite D1, S1. rewrite INR_IZR_INZ, Z2Nat.id by lia. field. lra.
  - rewrite D1, D2, S1, S2. rewrite INR_IZR_INZ, Z2Nat.id, mult_IZR by lia. field. lra.
Qed.

Lemma even_interpolation :
  exists evs, steps_between c c' evs /\
    forall l e r, evs = l ++ e :: r ->
      event_ok i1 i2 (c_datetime c) (cfg_norm cfg) l e.
Proof.
  destruct (data_step_exec _ _ _ _ _ _ _ _ even_standard Hrun) as (ds & l & c1 & i' & Hds & Hex & Hs & _ & Ho).
  destruct (input_deltas_levels _ _ _ _ _ _ _ even_standard Hds)
    as (d0 & d1 & d2 & L0 & D0 & L1 & D1 & L2 & D2).
  cbn [ts_per_timestep t0 t1 t2] in L0, L1, L2.
  destruct even_facts as (P1 & P2 & En & Em & Ps & Pm & Pn).
  assert (Q1 : 0 < IZR n1) by (apply IZR_lt; assumption).
  assert (Q2 : 0 < IZR n2) by (apply IZR_lt; assumption).
  assert (Q3 : 0 < IZR (cfg_small cfg)) by (apply IZR_lt; assumption).
  assert (Hok : Forall (step_ok ds i1 i2 (cfg_norm cfg)) l).
  { apply (schedule_steps t0 t1 t2); [| | |exact Hs].
    - exists d0. split; [exact D0|]. intros x Hx. apply level_deltas_R in L0.
      destruct L0 as (_ & L0 & _). rewrite (L0 x Hx). cbn [t0 ts_minutes].
      assert (0 < IZR (cfg_norm cfg)) by (apply IZR_lt; assumption). field. lra.
    - exists d1. split; [exact D1|]. intros x Hx. apply level_deltas_R in L1.
      destruct L1 as (_ & L1 & _). rewrite (L1 x Hx). cbn [t1 ts_minutes].
      rewrite En, Em, !mult_IZR. field. lra.
    - exists d2. split; [exact D2|]. intros x Hx. apply level_deltas_R in L2.
      destruct L2 as (_ & L2 & _). rewrite (L2 x Hx). cbn [t2 ts_minutes].
      rewrite En, Em, !mult_IZR. field. lra. }
  assert (Hinit : running_ok i1 i2 (c_datetime c) (cfg_norm cfg) (c_datetime c) i1 []).
  { assert (Hlin : forall x, linear i1 i2 (c_datetime c) (cfg_norm cfg) x (c_datetime c) = x i1).
    { intros x. unfold linear. rewrite Z.sub_diag. unfold Rdiv. ring. }
    unfold running_ok, met_ok, const_ok. rewrite Hlin.
    repeat split; try lra; auto. }
  destruct (exec_forcing env ds i1 i2 (c_datetime c) (cfg_norm cfg) Pn l c i1 c1 i' [] Hok Hex Hinit)
    as (evs & Hev & Hevs).
  exists evs. split.
  { unfold steps_between. destruct (ev_output_divided env).
    - subst c'. assumption.
    - apply output_inv in Ho. destruct Ho as (_ & _ & _ & _ & _ & ->). assumption. }
  intros l0 e r E. apply (events_ok_spec _ _ _ _ _ _ Hevs l0 e r E).
Qed.

Lemma even_vapour : exists evs, steps_between c c' evs /\
  vapour_follows i1 i2 (cfg_norm cfg) (i_e_a i1) evs.
Proof.
  destruct (data_step_exec _ _ _ _ _ _ _ _ even_standard Hrun) as (ds & l & c1 & i' & Hds & Hex & Hs & _ & Ho).
  destruct (input_deltas_levels _ _ _ _ _ _ _ even_standard Hds)
    as (d0 & d1 & d2 & L0 & D0 & L1 & D1 & L2 & D2).
  cbn [ts_per_timestep t0 t1 t2] in L0, L1, L2.
  destruct even_facts as (P1 & P2 & En & Em & Ps & Pm & Pn).
  assert (Q1 : 0 < IZR n1) by (apply IZR_lt; assumption).
  assert (Q2 : 0 < IZR n2) by (apply IZR_lt; assumption).
  assert (Q3 : 0 < IZR (cfg_small cfg)) by (apply IZR_lt; assumption).
  assert (Hok : Forall (step_ok ds i1 i2 (cfg_norm cfg)) l).
  { apply (schedule_steps t0 t1 t2); [| | |exact Hs].
    - exists d0. split; [exact D0|]. intros x Hx. apply level_deltas_R in L0.
      destruct L0 as (_ & L0 & _). rewrite (L0 x Hx). cbn [t0 ts_minutes].
      assert (0 < IZR (cfg_norm cfg)) by (apply IZR_lt; assumption). field. lra.
    - exists d1. split; [exact D1|]. intros x Hx. apply level_deltas_R in L1.
      destruct L1 as (_ & L1 & _). rewrite (L1 x Hx). cbn [t1 ts_minutes].
      rewrite En, Em, !mult_IZR. field. lra.
    - exists d2. split; [exact D2|]. intros x Hx. apply level_deltas_R in L2.
      destruct L2 as (_ & L2 & _). rewrite (L2 x Hx). cbn [t2 ts_minutes].
      rewrite En, Em, !mult_IZR. field. lra. }
  destruct (exec_vapour env ds i1 i2 (cfg_norm cfg) l c i1 c1 i' Hok Hex) as (evs & Hev & Hv).
  exists evs. split; [|assumption].
  unfold steps_between. destruct (ev_output_divided env).
  - subst c'. assumption.
  - apply output_inv in Ho. destruct Ho as (_ & _ & _ & _ & _ & ->). assumption.
Qed.

End Even.

(** every executed run step is one energy balance followed by one mass balance *)
Definition executes (env : Env R) (e : Event R) : Prop :=
  exists init s1 ic init1,
    energy_balance env (ts_time_step (e_tstep e)) init (e_input e) (set_h2o_total 0 (e_before e)) = Ok (s1, ic, init1) /\
    mass_balance (ev_P_a env) (mh_z_g (ev_heights env)) (ts_time_step (e_tstep e)) ic
      (s1, has_snow (e_before e)) = Ok (e_after e, e_kept e).

Lemma exec_executes env ds l c i c' i' : exec env ds l c i c' i' ->
  exists evs, steps_between c c' evs /\ Forall (executes env) evs.
Proof.
  induction 1 as [c i j|ts l c i c1 ix c2 iy Hstep Hp H IH].
  - exists []. split; [symmetry; apply app_nil_r|constructor].
  - apply do_tstep_inv in Hstep.
    destruct Hstep as (d & s1 & ic & init & s2 & kept & s3 & Hd & He & Hmb & Ha & Hc & Hi).
    set (iu := if i_precip_now i then update_precip_deltas i d else i) in *.
    set (e := mkEvent ts (c_datetime c) iu (c_ss c) s2 kept) in *.
    assert (Htr : c_trace c1 = c_trace c ++ [e]).
    { destruct (ev_output_divided env); [apply output_inv in Hc; cbn in Hc; tauto|subst c1; auto]. }
    destruct IH as (evs & Hev & Hv). exists (e :: evs). split.
    + unfold steps_between in *. rewrite Hev, Htr, <- app_assoc. reflexivity.
    + constructor; [|assumption]. exists (c_hle1_init c), s1, ic, init. auto.
Qed.

Lemma data_step_executes env t0 t1 t2 c i1 i2 c' evs :
  standard_info (ev_tstep_info env) t0 t1 t2 -> do_data_tstep env c i1 i2 = Ok c' ->
  steps_between c c' evs -> Forall (executes env) evs.
Proof.
  intros Hstd H Hev.
  destruct (data_step_exec _ _ _ _ _ _ _ _ Hstd H) as (ds & l & c1 & i' & Hds & Hex & Hs & _ & Ho).
  destruct (exec_executes _ _ _ _ _ _ _ Hex) as (evs' & Hev' & Hf).
  replace evs with evs'; [assumption|]. unfold steps_between in Hev, Hev'.
  assert (Et : c_trace c' = c_trace c1).
  { destruct (ev_output_divided env); [congruence|].
    apply output_inv in Ho. destruct Ho as (_ & _ & _ & _ & _ & ->). reflexivity. }
  rewrite Et, Hev' in Hev. apply app_inv_head in Hev. assumption.
Qed.
