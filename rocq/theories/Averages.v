(** * Output means and totals (C10, C11, C24), over the reals. *)
From Coq Require Import Reals String ZArith Bool Lia Lra List.
Import ListNotations.
From Verif Require Import Num Real Constants Functions Libsnobal Input SnowState Snobal PySnobal SchedSpec Sched Frame SchedProps Spec.
Open Scope R_scope.

(** [s] holds the means and totals of [evs], the run steps since the last output *)
Definition holds_averages (s : SnowState R) (evs : list (Event R)) : Prop :=
  (forall f, In f energy_terms -> f (bar s) = time_mean (fun e => f (en (e_after e))) evs) /\
  melt_sum s = sum_over (fun e => melt (e_after e)) evs /\
  E_s_sum s = sum_over (fun e => E_s (e_after e)) evs /\
  swi_sum s = Some (sum_over (fun e => swi (e_after e)) evs).

(** what is known between run steps *)
Definition avg_inv (c : Core R) (evs : list (Event R)) : Prop :=
  (evs = [] /\ c_time_since_out c = 0%Z) \/
  (evs <> [] /\ (0 < c_time_since_out c)%Z /\ IZR (c_time_since_out c) = sum_over seconds evs /\
   holds_averages (c_ss c) evs).

Lemma time_average_R avg total v dt r :
  time_average avg total v dt = Ok r -> r = (avg * total + v * dt) / (total + dt) /\ total + dt <> 0.
Proof. unfold time_average. intros H. apply pdiv_R in H. rn. tauto. Qed.

Lemma average_energy_R b v t dt r f :
  average_energy b v t dt = Ok r -> In f energy_terms ->
  f r = (f b * t + f v * dt) / (t + dt) /\ t + dt <> 0.
Proof.
  unfold average_energy. intros H Hf.
  inv_bind H as a1 H1. inv_bind H as a2 H2. inv_bind H as a3 H3. inv_bind H as a4 H4.
  inv_bind H as a5 H5. inv_bind H as a6 H6. inv_bind H as a7 H7. inv_bind H as a8 H8.
  injection H as <-.
  apply time_average_R in H1, H2, H3, H4, H5, H6, H7, H8.
  repeat (destruct Hf as [<-|Hf]; [cbn; assumption|]). destruct Hf.
Qed.

Lemma sum_over_snoc {A} (f : A -> R) l x : sum_over f (l ++ [x]) = sum_over f l + f x.
Proof. rewrite sum_over_app. unfold sum_over at 2. cbn. ring. Qed.

(** the run step itself leaves the running means and totals alone *)
Lemma step_keeps_averages (env : Env R) t init iu s s1 ic init1 P z cover p s2 kept :
  energy_balance env t init iu (set_h2o_total p s) = Ok (s1, ic, init1) ->
  mass_balance P z t ic (s1, cover) = Ok (s2, kept) ->
  bar s2 = bar s /\ melt_sum s2 = melt_sum s /\ E_s_sum s2 = E_s_sum s /\ swi_sum s2 = swi_sum s
  /\ en s2 = en s1 /\ params_eq s s2.
Proof.
  intros He Hm. apply energy_balance_frame in He. destruct He as [He _].
  apply mass_balance_frame in Hm. cbn [fst] in Hm.
  destruct Hm as [(P1 & P2 & P3 & P4) (F1 & F2 & F3 & F4 & F5 & F6)].
  unfold params_eq. rewrite F1, F2, F4, F5, F6, P1, P2, P3, P4, He. cbn. repeat split.
Qed.

Lemma step_averages c ts s2 s3 evs e :
  avg_inv c evs -> (0 < ts_time_step ts)%Z -> e_tstep e = ts -> e_after e = s2 ->
  bar s2 = bar (c_ss c) -> melt_sum s2 = melt_sum (c_ss c) -> E_s_sum s2 = E_s_sum (c_ss c) ->
  swi_sum s2 = swi_sum (c_ss c) ->
  averaged c ts s2 s3 ->
  (0 < new_tso c ts)%Z /\ IZR (new_tso c ts) = sum_over seconds (evs ++ [e]) /\
  holds_averages s3 (evs ++ [e]).
Proof.
  intros Hinv Hpos He Ha K1 K2 K3 K4 Hav. unfold averaged, new_tso in *.
  assert (Hse : seconds e = IZR (ts_time_step ts)) by (unfold seconds; rewrite He; reflexivity).
  destruct Hinv as [[-> H0]|(Hne & Ht & Hsum & Hb & Hme & HE & Hsw)].
  - rewrite H0 in *. cbn in Hav. subst s3. cbn [app Z.ltb Z.compare].
    assert (Hd : 0 < IZR (ts_time_step ts)) by (apply IZR_lt; assumption).
    split; [assumption|]. split. { unfold sum_over. cbn. rewrite Hse. ring. }
    unfold holds_averages, time_mean, sum_over. cbn. rewrite Ha, Hse.
    repeat split; try (ring || (f_equal; ring)).
    intros f Hf. field. lra.
  - pose proof Ht as Ht1. apply Z.ltb_lt in Ht1. rewrite Ht1 in *.
    assert (Hd : 0 < IZR (ts_time_step ts)) by (apply IZR_lt; assumption).
    assert (Ht' : 0 < IZR (c_time_since_out c)) by (apply IZR_lt; assumption).
    split; [lia|]. split. { rewrite plus_IZR, sum_over_snoc, Hsum, Hse. reflexivity. }
    unfold ss_time_average in Hav. inv_bind Hav as b Hbar.
    rewrite K4, Hsw in Hav. injection Hav as <-.
    unfold holds_averages. cbn. rewrite !sum_over_snoc, Ha, K2, K3, Hme, HE.
    split; [|repeat split; reflexivity].
    intros f Hf. destruct (average_energy_R _ _ _ _ _ f Hbar Hf) as [-> Hnz]. rn.
    rewrite K1, (Hb f Hf). unfold time_mean. rewrite !sum_over_snoc, Ha, Hse, <- Hsum.
    field. lra.
Qed.

Lemma exec_averages env ds l c i c' i' evs0 :
  ev_output_divided env = false ->
  Forall (fun ts => (0 < ts_time_step ts)%Z) l ->
  exec env ds l c i c' i' -> avg_inv c evs0 ->
  exists evs, steps_between c c' evs /\ avg_inv c' (evs0 ++ evs).
Proof.
  intros Hm Hpos Hex. revert evs0. induction Hex as [c i j|ts l c i c1 i1 c2 i2 Hstep Hp H IH]; intros evs0 Hinv.
  - exists []. rewrite app_nil_r. split; [symmetry; apply app_nil_r|assumption].
  - inversion Hpos as [|? ? Hts Hl]; subst. specialize (IH Hl).
    apply do_tstep_inv in Hstep.
    destruct Hstep as (d & s1 & ic & init & s2 & kept & s3 & Hd & He & Hmb & Ha & Hc & Hi).
    destruct (step_keeps_averages _ _ _ _ _ _ _ _ _ _ _ _ _ _ He Hmb) as (K1 & K2 & K3 & K4 & _).
    rewrite Hm in Hc.
    set (e := mkEvent ts (c_datetime c) (if i_precip_now i then update_precip_deltas i d else i)
                (c_ss c) s2 kept) in *.
    destruct (step_averages c ts s2 s3 evs0 e Hinv Hts eq_refl eq_refl K1 K2 K3 K4 Ha) as (A1 & A2 & A3).
    assert (Hinv1 : avg_inv c1 (evs0 ++ [e])).
    { right. subst c1. cbn. split; [intros E; symmetry in E; eapply app_cons_not_nil; eassumption|]. auto. }
    destruct (IH _ Hinv1) as (evs & Hev & Hi2). exists (e :: evs).
    split.
    + unfold steps_between in *. rewrite Hev. subst c1. cbn. rewrite <- app_assoc. reflexivity.
    + rewrite <- app_assoc in Hi2. exact Hi2.
Qed.

Lemma schedule_steps t0 t1 t2 (P : TStep R -> Prop) l :
  P t0 -> P t1 -> P t2 -> schedule t0 t1 t2 l -> Forall P l.
Proof.
  intros P0 P1 P2 [->|(bs & -> & _ & Hf)]; [repeat constructor; assumption|].
  induction Hf as [|b bs Hb Hf IH]; [constructor|]. cbn. apply Forall_app. split; [|assumption].
  destruct Hb as [->| ->]; [repeat constructor; assumption|]. apply Forall_forall. intros x Hx. apply repeat_spec in Hx. congruence.
Qed.

(** normal mode: the state at the end of a data step, which is the one output, holds
    the means and totals of the run steps of that data step *)
Lemma normal_averages env t0 t1 t2 c i1 i2 c' :
  standard_info (ev_tstep_info env) t0 t1 t2 ->
  (0 < ts_time_step t0)%Z -> (0 < ts_time_step t1)%Z -> (0 < ts_time_step t2)%Z ->
  ev_output_divided env = false -> c_time_since_out c = 0%Z ->
  do_data_tstep env c i1 i2 = Ok c' ->
  exists evs, steps_between c c' evs /\ (evs = [] \/ holds_averages (c_ss c') evs).
Proof.
  intros Hstd P0 P1 P2 Hm H0 H.
  destruct (data_step_exec _ _ _ _ _ _ _ _ Hstd H) as (ds & l & c1 & i' & Hds & Hex & Hs & _ & Ho).
  assert (Hpos : Forall (fun ts => (0 < ts_time_step ts)%Z) l)
    by (apply (schedule_steps t0 t1 t2); assumption).
  destruct (exec_averages _ _ _ _ _ _ _ [] Hm Hpos Hex (or_introl (conj eq_refl H0))) as (evs & Hev & Hi).
  rewrite Hm in Ho. apply output_inv in Ho. destruct Ho as (E1 & _ & _ & _ & _ & E3).
  exists evs. unfold steps_between. rewrite E3, E1. split; [assumption|].
  destruct Hi as [[Hi _]|(_ & _ & _ & Hi)]; [left|right]; assumption.
Qed.

(** value_to_bar holds the means of a single step *)
Lemma value_to_bar_averages e : (0 < ts_time_step (e_tstep e))%Z ->
  holds_averages (value_to_bar (e_after e)) [e].
Proof.
  intros Hp. assert (Hd : 0 < seconds e) by (apply IZR_lt; assumption).
  unfold holds_averages, time_mean, sum_over. cbn.
  repeat split; try (ring || (f_equal; ring)).
  intros f Hf. field. lra.
Qed.

(** ** Energy closure (C24) *)
Definition closes (e : Energy R) : Prop :=
  delta_Q_0 e = R_n e + H_ e + L_v_E e + G_0 e + M_ e /\
  delta_Q e = R_n e + H_ e + L_v_E e + G_ e + M_ e.

Lemma energy_balance_closes env t init i s s' i' init' :
  energy_balance env t init i s = Ok (s', i', init') -> closes (en s').
Proof.
  unfold energy_balance. destruct (has_snow s); intros H.
  - inv_bind H as [[[[h lve] e] i1] init1] Hh. inv_bind H as [g g0] Hg. inv_bind H as m Hm.
    injection H as <- <- <-. unfold closes; cbn. split; ring.
  - injection H as <- <- <-. unfold closes; cbn. split; ring.
Qed.

Lemma exec_closes env ds l c i c' i' evs :
  exec env ds l c i c' i' -> steps_between c c' evs -> Forall (fun e => closes (en (e_after e))) evs.
Proof.
  intros Hex. revert evs. induction Hex as [c i j|ts l c i c1 i1 c2 i2 Hstep Hp H IH]; intros evs Hev.
  - unfold steps_between in Hev. symmetry in Hev. rewrite <- (app_nil_r (c_trace c)) in Hev at 2.
    apply app_inv_head in Hev. subst. constructor.
  - apply do_tstep_inv in Hstep.
    destruct Hstep as (d & s1 & ic & init & s2 & kept & s3 & Hd & He & Hmb & Ha & Hc & Hi).
    destruct (step_keeps_averages _ _ _ _ _ _ _ _ _ _ _ _ _ _ He Hmb) as (_ & _ & _ & _ & K5 & _).
    apply energy_balance_closes in He. rewrite <- K5 in He.
    destruct (exec_chain _ _ _ _ _ _ _ H) as (evs1 & Hev1 & _).
    set (e := mkEvent ts (c_datetime c) (if i_precip_now i then update_precip_deltas i d else i)
                (c_ss c) s2 kept) in *.
    assert (Htr : c_trace c1 = c_trace c ++ [e]).
    { destruct (ev_output_divided env); [apply output_inv in Hc; cbn in Hc; tauto|subst c1; reflexivity]. }
    assert (evs = e :: evs1) as ->.
    { unfold steps_between in *. rewrite Hev1, Htr, <- app_assoc in Hev.
      apply app_inv_head in Hev. symmetry. exact Hev. }
    constructor; [exact He|]. apply IH. assumption.
Qed.

Lemma averages_close s evs :
  holds_averages s evs -> Forall (fun e => closes (en (e_after e))) evs -> closes (bar s).
Proof.
  intros (Hb & _) Hc. unfold closes.
  rewrite !Hb by (cbn; tauto).
  assert (Hlin : forall f g : Event R -> R, (forall e, In e evs -> f e = g e) ->
            time_mean f evs = time_mean g evs).
  { intros f g Hfg. unfold time_mean. f_equal. apply sum_over_ext. intros e He. rewrite Hfg; auto. }
  assert (Hadd : forall f g : Event R -> R,
            time_mean (fun e => f e + g e) evs = time_mean f evs + time_mean g evs).
  { intros f g. unfold time_mean. rewrite <- Rdiv_plus_distr. f_equal.
    rewrite <- sum_over_plus. apply sum_over_ext. intros; ring. }
  rewrite Forall_forall in Hc.
  split; rewrite <- !Hadd; apply Hlin; intros e He; apply Hc in He; destruct He as [H1 H2]; assumption.
Qed.
