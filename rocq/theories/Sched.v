(** * Proofs about the subdivision of a data step (any arithmetic). *)
From Coq Require Import String ZArith Bool Lia List.
Import ListNotations.
From Verif Require Import Num Constants Functions Libsnobal Input SnowState Snobal PySnobal Real SchedSpec.

Section Sched.
Context {T : Type} {N : Num T}.

Implicit Types (c : Core T) (i j d : InputData T) (ts : TStep T) (env : Env T).

Lemma thin_below thr (s : SnowState T) : below_thold thr s = true <-> thin thr s.
Proof.
  unfold below_thold, thin. destruct (layer_count s) as [|[|n]]; simpl.
  - split; [discriminate|tauto].
  - tauto.
  - rewrite orb_true_iff. tauto.
Qed.
Lemma not_thin_below thr (s : SnowState T) : below_thold thr s = false <-> ~ thin thr s.
Proof. rewrite <- thin_below. destruct (below_thold thr s); split; congruence. Qed.

(** ** same_met *)
Lemma update_update i d d' :
  update_precip_deltas (update_precip_deltas i d) d' = update_precip_deltas i d'.
Proof. reflexivity. Qed.
Lemma same_met_refl i : same_met i i. Proof. left; reflexivity. Qed.
Lemma same_met_trans i j k : same_met i j -> same_met j k -> same_met i k.
Proof.
  intros [H1|[Hi [d H1]]] [H2|[Hj [d' H2]]]; subst; unfold same_met; eauto.
  right. split; [assumption|]. exists d'. reflexivity.
Qed.
Lemma same_met_now i j : same_met i j -> i_precip_now j = i_precip_now i.
Proof. intros [->|[_ [d ->]]]; reflexivity. Qed.

Lemma do_tstep_same_met env ds ts c i j :
  same_met i j -> do_tstep env ds ts c j = do_tstep env ds ts c i.
Proof.
  intros [->|[Hi [d ->]]]; [reflexivity|].
  unfold do_tstep. cbn [i_precip_now update_precip_deltas]. rewrite Hi. reflexivity.
Qed.

(** ** What one run step does to the bookkeeping *)
Definition averaged (c : Core T) (ts : TStep T) (s2 s3 : SnowState T) : Prop :=
  if (0 <? c_time_since_out c)%Z
  then ss_time_average s2 (nofZ (c_time_since_out c)) (nofZ (ts_time_step ts)) = Ok s3
  else s3 = value_to_bar s2.

Definition new_tso (c : Core T) (ts : TStep T) : Z :=
  if (0 <? c_time_since_out c)%Z then (c_time_since_out c + ts_time_step ts)%Z
  else ts_time_step ts.

Lemma do_tstep_inv env ds ts c i c' i' :
  do_tstep env ds ts c i = Ok (c', i') ->
  exists d s1 ic init s2 kept s3,
    deltas_at ds (ts_level ts) = Ok d /\
    let iu := if i_precip_now i then update_precip_deltas i d else i in
    energy_balance env (ts_time_step ts) (c_hle1_init c) iu (set_h2o_total (nofZ 0) (c_ss c))
      = Ok (s1, ic, init) /\
    mass_balance (ev_P_a env) (mh_z_g (ev_heights env)) (ts_time_step ts) ic
      (s1, has_snow (set_h2o_total (nofZ 0) (c_ss c))) = Ok (s2, kept) /\
    averaged c ts s2 s3 /\
    let c1 := mkCore s3 (c_datetime c + ts_minutes ts)%Z (new_tso c ts) (c_outputs c) init
                     (c_trace c ++ [mkEvent ts (c_datetime c) iu (c_ss c) s2 kept]) in
    (if ev_output_divided env then output c1 = Ok c' else c' = c1) /\
    i' = add_deltas ic d.
Proof.
  unfold do_tstep. intros H.
  inv_bind H as d Hd.
  inv_bind H as [[s1 ic] init] He.
  inv_bind H as [s2 kept] Hm.
  inv_bind H as [s3 tso] Ha.
  inv_bind H as c1 Hc. injection H as <- <-.
  exists d, s1, ic, init, s2, kept, s3.
  split; [exact Hd|]. split; [exact He|]. split; [exact Hm|].
  assert (averaged c ts s2 s3 /\ tso = new_tso c ts) as [Hav ->].
  { unfold averaged, new_tso. destruct (0 <? c_time_since_out c)%Z.
    - inv_bind Ha as s Hs. injection Ha as <- <-. auto.
    - injection Ha as <- <-. auto. }
  split; [exact Hav|]. split; [|reflexivity].
  destruct (ev_output_divided env); [exact Hc|]. injection Hc as <-. reflexivity.
Qed.

Lemma output_inv c c' :
  output c = Ok c' ->
  c_ss c' = c_ss c /\ c_datetime c' = c_datetime c /\ c_time_since_out c' = 0%Z /\
  c_outputs c' = c_outputs c ++ [mkOut (c_datetime c) (c_ss c)] /\
  c_hle1_init c' = c_hle1_init c /\ c_trace c' = c_trace c.
Proof.
  unfold output. destruct (swi_sum (c_ss c)); intros H; inversion H; subst; simpl. repeat split.
Qed.

(** ** The execution relation flattened to a list of run steps *)
Inductive exec env ds : list (TStep T) -> Core T -> InputData T -> Core T -> InputData T -> Prop :=
| exec_nil c i j : same_met i j -> exec env ds [] c i c j
| exec_cons ts l c i c1 i1 c2 i2 :
    do_tstep env ds ts c i = Ok (c1, i1) ->
    (ts_level ts <> SMALL_TSTEP -> ~ thin (ts_threshold ts) (c_ss c)) ->
    exec env ds l c1 i1 c2 i2 -> exec env ds (ts :: l) c i c2 i2.

Lemma exec_met env ds l c i j c' i' :
  same_met i j -> exec env ds l c j c' i' -> exec env ds l c i c' i'.
Proof.
  intros Hm H. inversion H; subst.
  - constructor. eapply same_met_trans; eauto.
  - econstructor; eauto. rewrite <- (do_tstep_same_met _ _ _ _ _ _ Hm). assumption.
Qed.

Lemma exec_app env ds l1 l2 c i c1 i1 c2 i2 :
  exec env ds l1 c i c1 i1 -> exec env ds l2 c1 i1 c2 i2 -> exec env ds (l1 ++ l2) c i c2 i2.
Proof.
  induction 1; intros H2; simpl.
  - eapply exec_met; eauto.
  - econstructor; eauto.
Qed.

Lemma times_exec env ds (Rel : Span) n c i l c' i' :
  (forall c i l c' i', Rel c i l c' i' -> exec env ds l c i c' i') ->
  times Rel n c i l c' i' -> exec env ds l c i c' i'.
Proof.
  intros HR. induction 1.
  - constructor; assumption.
  - eapply exec_app; eauto.
Qed.

Lemma one_step_exec env ds ts c i l c' i' :
  (ts_level ts <> SMALL_TSTEP -> ~ thin (ts_threshold ts) (c_ss c)) ->
  one_step env ds ts c i l c' i' -> exec env ds l c i c' i'.
Proof.
  intros Hp [-> H]. econstructor; eauto. constructor. apply same_met_refl.
Qed.

Lemma interval_exec env ds ts n (Rel : Span) c i l c' i' :
  (forall c i l c' i', Rel c i l c' i' -> exec env ds l c i c' i') ->
  interval env ds ts n Rel c i l c' i' -> exec env ds l c i c' i'.
Proof.
  intros HR [[Ht H]|[Ht H]].
  - eapply one_step_exec; eauto.
  - eapply times_exec; eauto.
Qed.

Lemma data_interval_exec env ds t0 t1 t2 c i l c' i' :
  ts_level t2 = SMALL_TSTEP ->
  data_interval env ds t0 t1 t2 c i l c' i' -> exec env ds l c i c' i'.
Proof.
  intros H2. apply interval_exec. intros *. apply interval_exec. intros *.
  apply one_step_exec. intros Hn. congruence.
Qed.

Lemma times_blocks (Rel : Span) (P : list (TStep T) -> Prop) n c i l c' i' :
  (forall c i l c' i', Rel c i l c' i' -> P l) ->
  times Rel n c i l c' i' ->
  exists blocks, l = List.concat blocks /\ length blocks = n /\ Forall P blocks.
Proof.
  intros HR. induction 1.
  - exists []. auto.
  - destruct IHtimes as (bs & -> & Hl & Hf). exists (l :: bs). simpl.
    split; [reflexivity|]. split; [congruence|]. constructor; [eapply HR; eassumption|assumption].
Qed.

Lemma concat_repeat_single {A} (x : A) bs :
  Forall (fun b => b = [x]) bs -> List.concat bs = repeat x (length bs).
Proof. induction 1; simpl; subst; simpl; congruence. Qed.

Lemma data_interval_schedule env ds t0 t1 t2 c i l c' i' :
  data_interval env ds t0 t1 t2 c i l c' i' -> schedule t0 t1 t2 l.
Proof.
  intros [[_ [-> _]]|[_ H]]; [left; reflexivity|]. right.
  eapply times_blocks in H; [exact H|].
  intros ? ? b ? ? [[_ [-> _]]|[_ Hb]]; [left; reflexivity|]. right.
  eapply (times_blocks _ (fun b => b = [t2])) in Hb; [|intros * [-> _]; reflexivity].
  destruct Hb as (bs & -> & <- & Hf). apply concat_repeat_single; assumption.
Qed.

(** ** divide_tstep refines the specification *)
Definition standard_info (info : list (TStep T)) (t0 t1 t2 : TStep T) : Prop :=
  info = [t0; t1; t2] /\ ts_level t0 = 0%Z /\ ts_level t1 = 1%Z /\ ts_level t2 = 2%Z
  /\ ts_intervals t0 = 1%Z.

Lemma parse_standard cfg info :
  parse_time_steps cfg = Ok info -> exists t0 t1 t2, standard_info info t0 t1 t2.
Proof.
  unfold parse_time_steps. intros H. inv_bind H as a Ha. inv_bind H as b Hb. inv_bind H as e He.
  injection H as <-. do 3 eexists. repeat split.
Qed.

Lemma iter_times (Rel : Span) lvl (body : DState T -> result (DState T)) n c i st :
  (forall c i st, body (mkD c i lvl) = Ok st ->
     d_level st = lvl /\ exists l, Rel c i l (d_core st) (d_input st)) ->
  iter_res n body (mkD c i lvl) = Ok st ->
  d_level st = lvl /\ exists l, times Rel n c i l (d_core st) (d_input st).
Proof.
  intros HB. revert c i. induction n as [|n IH]; intros c i H; cbn [iter_res] in H.
  - injection H as <-. split; [reflexivity|]. exists []. constructor. apply same_met_refl.
  - inv_bind H as st1 H1. destruct st1 as [c1 i1 l1].
    apply HB in H1. cbn [d_level d_core d_input] in H1. destruct H1 as [-> [l Hl]].
    apply IH in H. destruct H as [Hlev [l' Hl']]. split; [assumption|].
    exists (l ++ l'). econstructor; eauto.
Qed.

Lemma times_met (Rel : Span) n c i j l c' i' :
  (forall c i j l c' i', same_met i j -> Rel c j l c' i' -> Rel c i l c' i') ->
  same_met i j -> times Rel n c j l c' i' -> times Rel n c i l c' i'.
Proof.
  intros HR Hm H. inversion H; subst.
  - constructor. eapply same_met_trans; eauto.
  - econstructor; eauto.
Qed.

Lemma one_step_met env ds ts c i j l c' i' :
  same_met i j -> one_step env ds ts c j l c' i' -> one_step env ds ts c i l c' i'.
Proof.
  intros Hm [-> H]. split; [reflexivity|]. rewrite <- (do_tstep_same_met _ _ _ _ _ _ Hm). assumption.
Qed.

Lemma interval_met env ds ts n (Rel : Span) c i j l c' i' :
  (forall c i j l c' i', same_met i j -> Rel c j l c' i' -> Rel c i l c' i') ->
  same_met i j -> interval env ds ts n Rel c j l c' i' -> interval env ds ts n Rel c i l c' i'.
Proof.
  intros HR Hm [[Ht H]|[Ht H]].
  - left. split; [assumption|]. eapply one_step_met; eauto.
  - right. split; [assumption|]. eapply times_met; eauto.
Qed.

Lemma divide_small env ds t0 t1 t2 f c i st :
  standard_info (ev_tstep_info env) t0 t1 t2 ->
  divide_tstep (S f) env ds (mkD c i 2) = Ok st ->
  d_level st = 1%Z /\ exists l, times (one_step env ds t2) (Z.to_nat (ts_intervals t2)) c i l
    (d_core st) (d_input st).
Proof.
  intros (Hi & _ & _ & L2 & _) H. cbn [divide_tstep] in H. unfold tstep_at in H.
  cbn [d_level d_core d_input] in H. rewrite Hi in H.
  change (bind (Ok t2 : result (TStep T)) ?k) with (k t2) in H. simpl in H.
  rewrite L2 in H.
  inv_bind H as i0 Hi0. inv_bind H as st1 H1. 
  assert (Hm : same_met i i0).
  { destruct (i_precip_now i) eqn:Hn; simpl in Hi0.
    - inv_bind Hi0 as d Hd. injection Hi0 as <-. right. eauto.
    - injection Hi0 as <-. left; reflexivity. }
  eapply (iter_times (one_step env ds t2) 2) in H1.
  2:{ intros c0 i1 st0 Hb. cbn [d_level negb SMALL_TSTEP Z.eqb Pos.eqb andb] in Hb.
      inv_bind Hb as [c1 i2] Hd. injection Hb as <-. split; [reflexivity|].
      exists [t2]. split; [reflexivity|]. exact Hd. }
  destruct H1 as [Hl [l H1]]. rewrite Hl in H. simpl in H. injection H as <-.
  split; [reflexivity|]. exists l. cbn [d_core d_input].
  eapply times_met; eauto. intros *. apply one_step_met.
Qed.

Lemma divide_medium env ds t0 t1 t2 f c i st :
  standard_info (ev_tstep_info env) t0 t1 t2 ->
  divide_tstep (S (S f)) env ds (mkD c i 1) = Ok st ->
  d_level st = 0%Z /\ exists l,
    times (interval env ds t1 (ts_intervals t2) (one_step env ds t2)) (Z.to_nat (ts_intervals t1)) c i l
    (d_core st) (d_input st).
Proof.
  intros Hstd H. pose proof Hstd as (Hi & _ & L1 & _ & _).
  remember (S f) as f1 eqn:Hf1. cbn [divide_tstep] in H. unfold tstep_at in H.
  cbn [d_level d_core d_input] in H. rewrite Hi in H. simpl in H.
  rewrite L1 in H.
  inv_bind H as i0 Hi0.
  assert (i0 = i) as ->.
  { rewrite andb_false_r in Hi0. injection Hi0 as <-. reflexivity. }
  inv_bind H as st1 H1.
  eapply (iter_times (interval env ds t1 (ts_intervals t2) (one_step env ds t2)) 1) in H1.
  2:{ intros c0 i1 st0 Hb. cbn [d_level d_core d_input negb SMALL_TSTEP Z.eqb Pos.eqb andb] in Hb.
      destruct (below_thold (ts_threshold t1) (c_ss c0)) eqn:Hth.
      - subst f1. apply (divide_small _ _ t0 t1 t2) in Hb; [|assumption].
        destruct Hb as [Hl [l Hl']]. split; [assumption|]. exists l. right.
        split; [apply thin_below; assumption|assumption].
      - inv_bind Hb as [c1 i2] Hd. injection Hb as <-. split; [reflexivity|].
        exists [t1]. left. split; [apply not_thin_below; assumption|]. split; [reflexivity|exact Hd]. }
  destruct H1 as [Hl [l H1]]. rewrite Hl in H. simpl in H. injection H as <-.
  split; [reflexivity|]. exists l. exact H1.
Qed.

Lemma divide_normal env ds t0 t1 t2 f c i st :
  standard_info (ev_tstep_info env) t0 t1 t2 ->
  divide_tstep (S (S (S f))) env ds (mkD c i 0) = Ok st ->
  exists l c1, data_interval env ds t0 t1 t2 c i l c1 (d_input st) /\
    if ev_output_divided env then d_core st = c1 else output c1 = Ok (d_core st).
Proof.
  intros Hstd H. pose proof Hstd as (Hi & L0 & _ & _ & N0).
  remember (S (S f)) as f1 eqn:Hf1. cbn [divide_tstep] in H. unfold tstep_at in H.
  cbn [d_level d_core d_input] in H. rewrite Hi in H. simpl in H.
  rewrite L0 in H.
  inv_bind H as i0 Hi0.
  assert (i0 = i) as ->.
  { rewrite andb_false_r in Hi0. injection Hi0 as <-. reflexivity. }
  rewrite N0 in H. change (Z.to_nat 1) with 1%nat in H.
  inv_bind H as st1 H1. cbn [iter_res] in H1.
  inv_bind H1 as st2 H2. injection H1 as ->.
  cbn [d_level d_core d_input negb SMALL_TSTEP Z.eqb Pos.eqb andb] in H2.
  assert (d_level st1 = 0%Z /\ exists l, data_interval env ds t0 t1 t2 c i l (d_core st1) (d_input st1))
    as [Hl [l Hd]].
  { destruct (below_thold (ts_threshold t0) (c_ss c)) eqn:Hth.
    - subst f1. apply (divide_medium _ _ t0 t1 t2) in H2; [|assumption].
      destruct H2 as [Hl [l Hl']]. split; [assumption|]. exists l. right.
      split; [apply thin_below; assumption|assumption].
    - inv_bind H2 as [c1 i2] Hd. injection H2 as <-. split; [reflexivity|].
      exists [t0]. left. split; [apply not_thin_below; assumption|]. split; [reflexivity|exact Hd]. }
  rewrite Hl in H. cbn [Z.eqb andb] in H.
  inv_bind H as c2 Hc. injection H as <-. exists l, (d_core st1). cbn [d_core d_input].
  split; [exact Hd|]. destruct (ev_output_divided env); simpl in Hc; [|exact Hc].
  injection Hc as <-. reflexivity.
Qed.

(** Every returning data step is a [data_interval], followed in normal mode by one output. *)
Lemma data_step_refines env t0 t1 t2 c i1 i2 c' :
  standard_info (ev_tstep_info env) t0 t1 t2 ->
  do_data_tstep env c i1 i2 = Ok c' ->
  exists ds l c1 i', input_deltas i1 i2 (ev_tstep_info env) = Ok ds /\
    data_interval env ds t0 t1 t2 c i1 l c1 i' /\
    if ev_output_divided env then c' = c1 else output c1 = Ok c'.
Proof.
  intros Hstd H. unfold do_data_tstep in H. inv_bind H as ds Hds. inv_bind H as st Hst.
  injection H as <-. apply (divide_normal _ _ t0 t1 t2) in Hst; [|assumption].
  destruct Hst as (l & c1 & Hd & Ho). exists ds, l, c1, (d_input st). auto.
Qed.

(** ** The bookkeeping of a list of run steps *)
Fixpoint clock (t : Z) (l : list (TStep T)) : Z :=
  match l with [] => t | ts :: r => clock (t + ts_minutes ts)%Z r end.

Definition total_minutes (l : list (TStep T)) : Z := fold_right (fun ts a => (ts_minutes ts + a)%Z) 0%Z l.

Lemma clock_total t l : clock t l = (t + total_minutes l)%Z.
Proof.
  revert t. induction l as [|ts l IH]; intros t; simpl; [lia|]. rewrite IH. lia.
Qed.

Lemma do_tstep_core env ds ts c i c' i' :
  do_tstep env ds ts c i = Ok (c', i') ->
  c_datetime c' = (c_datetime c + ts_minutes ts)%Z /\
  (exists e, c_trace c' = c_trace c ++ [e] /\ e_tstep e = ts /\ e_start e = c_datetime c
             /\ e_before e = c_ss c) /\
  (c_outputs c' = c_outputs c ++
     (if ev_output_divided env then [mkOut (c_datetime c') (c_ss c')] else [])) /\
  c_time_since_out c' = (if ev_output_divided env then 0%Z else new_tso c ts).
Proof.
  intros H. apply do_tstep_inv in H.
  destruct H as (d & s1 & ic & init & s2 & kept & s3 & Hd & He & Hm & Ha & Hc & Hi).
  destruct (ev_output_divided env).
  - apply output_inv in Hc. cbn in Hc. destruct Hc as (Hs & Ht & Hto & Ho & _ & Htr).
    rewrite Ht, Htr, Ho, Hto, Hs. split; [reflexivity|]. split; [eexists; split; [reflexivity|auto]|].
    split; reflexivity.
  - subst c'. cbn. split; [reflexivity|]. split; [eexists; split; [reflexivity|auto]|].
    rewrite app_nil_r. split; reflexivity.
Qed.

Lemma exec_clock env ds l c i c' i' :
  exec env ds l c i c' i' -> c_datetime c' = clock (c_datetime c) l.
Proof.
  induction 1; [reflexivity|]. simpl. apply do_tstep_core in H. destruct H as [<- _]. assumption.
Qed.

Lemma exec_trace env ds l c i c' i' :
  exec env ds l c i c' i' ->
  exists evs, c_trace c' = c_trace c ++ evs /\ map e_tstep evs = l /\
    Forall (fun e => ts_level (e_tstep e) <> SMALL_TSTEP ->
                     ~ thin (ts_threshold (e_tstep e)) (e_before e)) evs.
Proof.
  induction 1 as [c i j|ts l c i c1 i1 c2 i2 Hstep Hp H IH].
  - exists []. rewrite app_nil_r. auto.
  - apply do_tstep_core in Hstep. destruct Hstep as (_ & (e & Ht & He & _ & Hb) & _).
    destruct IH as (evs & Htr & Hm & Hf). exists (e :: evs).
    rewrite Htr, Ht, <- app_assoc. simpl. repeat split; [congruence|].
    constructor; [|assumption]. rewrite He, Hb. assumption.
Qed.

End Sched.
