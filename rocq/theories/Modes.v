(** * The two output modes simulate the same snow.  Proof library for C63. *)
From Coq Require Import Reals String ZArith Bool Lia Lra List.
Import ListNotations.
From Verif Require Import Num Real Constants Functions Libsnobal Input SnowState Snobal PySnobal
  SchedSpec Sched Frame SchedProps Spec Averages Forcing RunMass Strip.
Open Scope R_scope.
Local Arguments erase : simpl never.
Local Arguments value_to_bar : simpl never.

(** both results are the same exception, or both are values related by [P] *)
Definition rres {A B} (P : A -> B -> Prop) (r : result A) (r' : result B) : Prop :=
  match r, r' with
  | Ok a, Ok b => P a b
  | Err e, Err e' => e = e'
  | _, _ => False
  end.

Lemma rres_bind {A A' B B'} (P : A -> A' -> Prop) (Q : B -> B' -> Prop) m m' k k' :
  rres P m m' -> (forall a b, P a b -> rres Q (k a) (k' b)) -> rres Q (bind m k) (bind m' k').
Proof. destruct m, m'; cbn; intros H1 H2; try contradiction; auto. Qed.
Lemma rres_same {A B B'} (Q : B -> B' -> Prop) (m : result A) k k' :
  (forall a, m = Ok a -> rres Q (k a) (k' a)) -> rres Q (bind m k) (bind m k').
Proof. destruct m; cbn; intros H; auto. Qed.
Lemma rres_rmap {A B} (f : A -> B) (m m' : result A) : rmap f m = rmap f m' -> rres (fun x y => f x = f y) m m'.
Proof. destruct m, m'; cbn; intros H; try discriminate; injection H; auto. Qed.
Lemma rres_impl {A B} (P Q : A -> B -> Prop) m m' : (forall a b, P a b -> Q a b) -> rres P m m' -> rres Q m m'.
Proof. destruct m, m'; cbn; auto. Qed.

Definition same_event (e f : Event R) : Prop :=
  e_tstep e = e_tstep f /\ e_start e = e_start f /\ e_input e = e_input f /\ e_kept e = e_kept f /\
  erase (e_before e) = erase (e_before f) /\ erase (e_after e) = erase (e_after f).

(** a model in normal mode and one in 'all' mode *)
Definition rel (c a : Core R) : Prop :=
  erase (c_ss c) = erase (c_ss a) /\ c_datetime c = c_datetime a /\ c_hle1_init c = c_hle1_init a /\
  c_time_since_out a = 0%Z /\ (0 <= c_time_since_out c)%Z /\
  ((0 < c_time_since_out c)%Z -> swi_sum (c_ss c) <> None) /\
  Forall2 same_event (c_trace c) (c_trace a).
Definition rel1 (c a : Core R) : Prop := rel c a /\ swi_sum (c_ss c) <> None.

(** the same configuration, other output mode *)
Definition with_mode (m : bool) (e : Env R) : Env R :=
  mkEnv (ev_tstep_info e) (ev_P_a e) (ev_heights e) (ev_relative_hts e) m.

Lemma average_ok (s : SnowState R) (a b : Z) : (0 < a)%Z -> (0 < b)%Z -> swi_sum s <> None ->
  exists s', ss_time_average s (nofZ a) (nofZ b) = Ok s' /\ erase s' = erase s /\ swi_sum s' <> None.
Proof.
  intros Ha Hb Hw. unfold ss_time_average, average_energy, time_average.
  assert (E : forall x : R, pdiv x (nadd (nofZ a) (nofZ b)) = Ok (x / (IZR a + IZR b))).
  { intros x. apply pdiv_R_ok. rn. apply IZR_lt in Ha, Hb. lra. }
  rewrite !E. cbn [bind]. destruct (swi_sum s) as [w|]; [|congruence].
  eexists. split; [reflexivity|]. split; [reflexivity|discriminate].
Qed.

Lemma tstep_modes e ds ts c a i : (0 < ts_time_step ts)%Z -> rel c a ->
  rres (fun x y => rel1 (fst x) (fst y) /\ snd x = snd y)
    (do_tstep (with_mode false e) ds ts c i) (do_tstep (with_mode true e) ds ts a i).
Proof.
  intros Hpos (Hs & Hd & Hi & Ha & Hn & Hw & Ht). unfold do_tstep.
  apply rres_same. intros d Hdd.
  set (iu := if i_precip_now i then update_precip_deltas i d else i).
  apply rres_bind with (P := fun x y => strip3 erase x = strip3 erase y /\
     (swi_sum (fst (fst x)) = swi_sum (c_ss c))).
  { set (m := energy_balance (with_mode false e) _ _ _ _). set (m' := energy_balance (with_mode true e) _ _ _ _).
    assert (E : rmap (strip3 erase) m = rmap (strip3 erase) m').
    { unfold m, m'. rewrite <- !erase_energy. rewrite <- Hi.
      change (energy_balance (with_mode true e)) with (energy_balance (with_mode false e)). f_equal.
      change (erase (set_h2o_total (nofZ 0) (c_ss c))) with (set_h2o_total (nofZ 0) (erase (c_ss c))). rewrite Hs. reflexivity. }
    apply rres_rmap in E. destruct m as [[[s1 i1] in1]|] eqn:Em, m' as [y|]; cbn in E; try contradiction; [|exact E].
    split; [exact E|]. cbn [fst]. unfold m in Em. apply energy_balance_frame in Em. destruct Em as [Em _]. rewrite Em. reflexivity. }
  intros [[s1 i1] in1] [[s1' i1'] in1'] (E & Ew). unfold strip3 in E. cbn [fst snd] in E, Ew.
  pose proof (f_equal (fun x => fst (fst x)) E) as E1. pose proof (f_equal (fun x => snd (fst x)) E) as E1i.
  pose proof (f_equal snd E) as E1n. cbn [fst snd] in E1, E1i, E1n. subst i1' in1'. clear E.
  assert (Hc : has_snow (set_h2o_total (nofZ 0) (c_ss c)) = has_snow (set_h2o_total (nofZ 0) (c_ss a))).
  { change (has_snow (erase (c_ss c)) = has_snow (erase (c_ss a))). rewrite Hs. reflexivity. }
  rewrite Hc.
  apply rres_bind with (P := fun x y => eraseP x = eraseP y /\ swi_sum (fst x) = swi_sum (c_ss c)).
  { set (m := mass_balance _ _ _ _ (s1, _)). set (m' := mass_balance _ _ _ _ (s1', _)).
    assert (E : rmap eraseP m = rmap eraseP m').
    { unfold m, m'. rewrite <- !erase_mass_balance. unfold eraseP. cbn [fst snd with_mode ev_P_a ev_heights]. rewrite E1. reflexivity. }
    apply rres_rmap in E. destruct m as [p1|] eqn:Em, m' as [y|]; cbn in E; try contradiction; [|exact E].
    split; [exact E|]. unfold m in Em. apply mass_balance_frame in Em. destruct Em as [_ (F1 & F2 & F3 & F4 & F5 & F6)].
    cbn [fst] in *. congruence. }
  intros [s2 k] [s2' k'] (E & Ew2). unfold eraseP in E. cbn [fst snd] in E, Ew2. pose proof (f_equal fst E) as E2. pose proof (f_equal snd E) as Ek.
  cbn [fst snd] in E2, Ek. subst k'. clear E.
  rewrite Ha. cbn [Z.ltb Z.compare].
  assert (Eo : forall c0 w, swi_sum (c_ss c0) = Some w -> output (T:=R) c0 =
     Ok (mkCore (c_ss c0) (c_datetime c0) 0%Z (c_outputs c0 ++ [mkOut (c_datetime c0) (c_ss c0)]) (c_hle1_init c0) (c_trace c0))).
  { intros c0 w E. unfold output. rewrite E. reflexivity. }
  destruct (Z.ltb_spec 0 (c_time_since_out c)) as [Hlt|Hge].
  - destruct (average_ok s2 (c_time_since_out c) (ts_time_step ts)) as (s3 & -> & Es & Hw3); try assumption.
    { rewrite Ew2. auto. }
    cbn [bind with_mode ev_output_divided]. rewrite (Eo _ (swi s2')) by reflexivity.
    cbn. split; [|reflexivity]. split; [|assumption]. unfold rel. cbn.
    rewrite Es. rewrite <- Hd. repeat split; try assumption; try lia; try congruence.
    apply Forall2_app; [assumption|]. constructor; [|constructor]. repeat split; cbn; try congruence; auto.
  - cbn [bind with_mode ev_output_divided]. rewrite (Eo _ (swi s2')) by reflexivity.
    cbn. split; [|reflexivity]. split; [|discriminate]. unfold rel. cbn. rewrite <- Hd.
    repeat split; try assumption; try lia; try congruence; try discriminate.
    apply Forall2_app; [assumption|]. constructor; [|constructor]. repeat split; cbn; try congruence; auto.
Qed.

Definition relD (x y : DState R) : Prop :=
  rel (d_core x) (d_core y) /\ d_input x = d_input y /\ d_level x = d_level y.
Definition relD1 (x y : DState R) : Prop := relD x y /\ swi_sum (c_ss (d_core x)) <> None.

Lemma iter_modes (b b' : DState R -> result (DState R)) n : forall x y,
  (forall x y, relD x y -> rres relD1 (b x) (b' y)) -> relD1 x y ->
  rres relD1 (iter_res n b x) (iter_res n b' y).
Proof.
  induction n as [|n IH]; intros x y Hb H; [exact H|]. cbn [iter_res].
  apply rres_bind with (P := relD1); [apply Hb; apply H|]. intros x' y' H'. apply IH; assumption.
Qed.
Lemma iter_modes1 (b b' : DState R -> result (DState R)) n x y : n <> 0%nat ->
  (forall x y, relD x y -> rres relD1 (b x) (b' y)) -> relD x y ->
  rres relD1 (iter_res n b x) (iter_res n b' y).
Proof.
  destruct n as [|n]; [congruence|]. intros _ Hb H. cbn [iter_res].
  apply rres_bind with (P := relD1); [apply Hb; assumption|]. intros x' y' H'. apply iter_modes; assumption.
Qed.

Definition steps_fine (e : Env R) : Prop :=
  Forall (fun ts => (0 < ts_time_step ts)%Z /\ Z.to_nat (ts_intervals ts) <> 0%nat) (ev_tstep_info e).

Lemma divide_modes e ds f : steps_fine e -> forall x y, relD x y ->
  rres relD1 (divide_tstep f (with_mode false e) ds x) (divide_tstep f (with_mode true e) ds y).
Proof.
  intros Hf. induction f as [|f IH]; intros x y H; [reflexivity|]. cbn [divide_tstep].
  pose proof H as (Hr & Hin & Hl).
  change (tstep_at (with_mode true e)) with (tstep_at (with_mode false e)). rewrite <- Hl, <- Hin.
  apply rres_same. intros ts Hts.
  assert (Hts' : (0 < ts_time_step ts)%Z /\ Z.to_nat (ts_intervals ts) <> 0%nat).
  { unfold tstep_at in Hts. cbn [with_mode ev_tstep_info] in Hts. destruct (d_level x <? 0)%Z; [discriminate|].
    destruct (nth_error _ _) eqn:En; [|discriminate]. injection Hts as <-. apply nth_error_In in En.
    unfold steps_fine in Hf. rewrite Forall_forall in Hf. auto. }
  destruct Hts' as (Hpos & Hnz).
  apply rres_same. intros i Hi.
  apply rres_bind with (P := relD1).
  - apply iter_modes1; [assumption| |].
    + intros x' y' H'. pose proof H' as (Hr' & Hin' & Hl'). rewrite <- Hl', <- Hin'.
      assert (Eb : below_thold (ts_threshold ts) (c_ss (d_core x')) = below_thold (ts_threshold ts) (c_ss (d_core y'))).
      { rewrite <- (erase_below _ (c_ss (d_core x'))), <- (erase_below _ (c_ss (d_core y'))). destruct Hr' as (-> & _). reflexivity. }
      rewrite Eb. destruct (negb (d_level x' =? SMALL_TSTEP)%Z && below_thold (ts_threshold ts) (c_ss (d_core y'))).
      * apply IH. repeat split; try reflexivity; apply Hr'.
      * apply rres_bind with (P := fun x y => rel1 (fst x) (fst y) /\ snd x = snd y).
        { apply tstep_modes; assumption. }
        intros [c j] [c' j'] ((Hrr & Hww) & Hij). cbn in *. split; [|exact Hww].
        repeat split; try assumption; apply Hrr.
    + repeat split; try reflexivity; apply Hr.
  - intros x' y' ((Hr' & Hin' & Hl') & Hw'). rewrite <- Hl'.
    cbn [with_mode ev_output_divided negb]. rewrite andb_false_r, andb_true_r. cbn [bind].
    destruct (d_level x' =? 0)%Z.
    + unfold output. destruct (swi_sum (c_ss (d_core x'))) eqn:Ew; [|congruence]. cbn.
      split; [|cbn; congruence]. split; [|cbn; rewrite Hl'; auto]. cbn. destruct Hr' as (? & ? & ? & ? & ? & ? & ?).
      unfold rel. cbn. repeat split; try assumption; lia.
    + cbn. split; [|assumption]. split; [assumption|]. cbn. rewrite Hl'. auto.
Qed.

Lemma data_modes e c a i1 i2 : steps_fine e -> rel c a ->
  rres rel (do_data_tstep (with_mode false e) c i1 i2) (do_data_tstep (with_mode true e) a i1 i2).
Proof.
  intros Hf H. unfold do_data_tstep. change (ev_tstep_info (with_mode true e)) with (ev_tstep_info (with_mode false e)).
  apply rres_same. intros ds _. apply rres_bind with (P := relD1).
  - apply divide_modes; [assumption|]. split; [exact H|split; reflexivity].
  - intros x y ((Hr & _) & _). exact Hr.
Qed.

Lemma ordered_fine cfg (e : Env R) : ordered_steps cfg -> parse_time_steps cfg = Ok (ev_tstep_info e) -> steps_fine e.
Proof.
  intros (Ps & Pm & Pn) Hp. destruct (parse_eq _ _ Hp) as (_ & Hi). unfold steps_fine. rewrite Hi.
  assert (G : forall a b, (0 < b)%Z -> (b <= a)%Z -> Z.to_nat (Z.quot a b) <> 0%nat).
  { intros a b Hb Hba. assert (1 <= Z.quot a b)%Z; [|lia].
    rewrite Z.quot_div_nonneg by lia. apply Z.div_le_lower_bound; lia. }
  apply Forall_cons; [cbn -[Z.mul Z.to_nat]; split; [lia|discriminate]|].
  apply Forall_cons; [cbn -[Z.mul Z.to_nat Z.quot]; split; [lia|apply G; lia]|].
  apply Forall_cons; [cbn -[Z.mul Z.to_nat Z.quot]; split; [lia|apply G; lia]|]. constructor.
Qed.
