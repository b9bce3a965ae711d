(** * Theorems C85, C86: which parts of the input file have no effect.

    C85: the dates of the records only select and order them.  C86: without precipitation the precipitation
    columns of a record (also a missing precipitation amount) have no effect.  For every number type. *)
From Coq Require Import String ZArith Bool Lia List.
Import ListNotations.
From Verif Require Import Num Real Constants Functions Libsnobal Input SnowState Snobal PySnobal Strip Modes Thm_Api.

Section Dates.
Context {T : Type} {N : Num T}.

(** C85: two input files (with any windows) of which the same records, in the same order, are used, give the same file or
    the same exception, whatever the dates of these records are, as long as no date occurs twice. *)
Theorem C85_dates_only_select_and_order (p : Params T) end_date end_date' cfg ic mh all_mode rows rows' used used' :
  read_input_data (p_start_date p) end_date rows = Ok used -> read_input_data (p_start_date p) end_date' rows' = Ok used' ->
  NoDup (map fst used) -> NoDup (map fst used') -> map snd used = map snd used' ->
  pysnobal_run p end_date cfg ic mh all_mode rows = pysnobal_run p end_date' cfg ic mh all_mode rows'.
Proof.
  intros H H' D D' E. unfold pysnobal_run. apply bind_ext. intros info. rewrite H, H'. cbn [bind].
  assert (Hd : forall l, NoDup l -> distinct_dates l = true).
  { induction 1 as [|d l Hn _ IH]; [reflexivity|]. cbn [distinct_dates]. rewrite IH, andb_true_r. apply negb_true_iff.
    destruct (existsb _ l) eqn:Ex; [|reflexivity]. apply existsb_exists in Ex. destruct Ex as (x & I & Q). apply Z.eqb_eq in Q. subst x. contradiction. }
  unfold simulate. rewrite (Hd _ D), (Hd _ D'). cbn [negb].
  destruct used as [|r0 rest], used' as [|r0' rest']; try discriminate; [reflexivity|]. cbn [map] in E. injection E as E0 E. rewrite E0, E. reflexivity.
Qed.
End Dates.

Section Dry.
Context {T : Type} {N : Num T}.

(** ** Specification: two records (rows of the file) that may be exchanged.  The date and the six columns of the weather
    agree; and unless all columns agree, neither has precipitation: its amount, and the amount shared out to the run steps of
    each level, do not compare as greater than zero (as it is if the amount is zero or missing, nan). *)
Definition no_precip (info : list (TStep T)) (m : T) : Prop :=
  nltb (nofZ 0) m = false /\ Forall (fun ts => nltb (nofZ 0) (ndiv m (nofZ (ts_per_timestep ts))) = false) info.
Definition same_weather (r r' : RawInput T) : Prop :=
  r_S_n r = r_S_n r' /\ r_I_lw r = r_I_lw r' /\ r_t_a r = r_t_a r' /\ r_e_a r = r_e_a r' /\ r_u r = r_u r' /\ r_t_g r = r_t_g r'.
Definition exchangeable (info : list (TStep T)) (r r' : RawInput T) : Prop :=
  r = r' \/ same_weather r r' /\ no_precip info (r_m_pp r) /\ no_precip info (r_m_pp r').

(** ** Proof *)
Definition met (i j : InputData T) : Prop :=
  i_S_n i = i_S_n j /\ i_I_lw i = i_I_lw j /\ i_t_a i = i_t_a j /\ i_e_a i = i_e_a j /\ i_u i = i_u j /\ i_t_g i = i_t_g j.
Definition dry (i j : InputData T) : Prop := met i j /\ i_precip_now i = false /\ i_precip_now j = false.
Definition met_deltas (ds ds' : list (Z * InputData T)) : Prop := Forall2 (fun a b => fst a = fst b /\ met (snd a) (snd b)) ds ds'.
(** inputs and deltas of the two runs *)
Definition feeds (ds ds' : list (Z * InputData T)) (i j : InputData T) : Prop := (i = j /\ ds = ds') \/ (dry i j /\ met_deltas ds ds').
(** the two models: equal but for the recorded inputs *)
Definition alike_c (c c' : Core T) : Prop :=
  c_ss c = c_ss c' /\ c_datetime c = c_datetime c' /\ c_time_since_out c = c_time_since_out c' /\ c_outputs c = c_outputs c' /\ c_hle1_init c = c_hle1_init c'.

Lemma met_refl i : met i i. Proof. repeat split. Qed.

Lemma dry_energy env ts init i j s : dry i j ->
  rres (fun x y => fst (fst x) = fst (fst y) /\ snd x = snd y /\ dry (snd (fst x)) (snd (fst y))) (energy_balance env ts init i s) (energy_balance env ts init j s).
Proof.
  intros ((M1 & M2 & M3 & M4 & M5 & M6) & Pi & Pj). unfold energy_balance. destruct (has_snow s); [|cbn; repeat split; assumption].
  unfold net_radiation. rewrite M1, M2.
  apply rres_bind with (P := fun x y => fst (fst x) = fst (fst y) /\ snd x = snd y /\ dry (snd (fst x)) (snd (fst y))).
  - unfold h_le. rewrite M3. apply rres_same. intros sv _. rewrite M4.
    set (i' := if nltb sv (i_e_a j) then set_e_a sv i else i). set (j' := if nltb sv (i_e_a j) then set_e_a sv j else j).
    assert (D : dry i' j') by (unfold i', j'; destruct (nltb sv (i_e_a j)); repeat split; assumption).
    clearbody i' j'. pose proof D as ((D1 & D2 & D3 & D4 & D5 & D6) & _). apply rres_same. intros es _. rewrite D3, D4, D5. apply rres_same. intros r _.
    destruct (negb _); cbn; auto.
  - intros [[[[h l] e] i'] in1] [[[[h' l'] e'] j'] in1'] H. cbn [fst snd] in H. destruct H as (E & -> & D). injection E as -> -> ->.
    pose proof D as ((D1 & D2 & D3 & D4 & D5 & D6) & Ni & Nj).
    assert (EH : heat_transfer (ev_P_a env) (mh_z_g (ev_heights env)) i' s = heat_transfer (ev_P_a env) (mh_z_g (ev_heights env)) j' s).
    { unfold heat_transfer, g_soil. rewrite D6. reflexivity. }
    rewrite EH. apply rres_same. intros [g g0] _. unfold advec. rewrite Ni, Nj. cbn [bind rres fst snd]. repeat split; assumption.
Qed.

Lemma dry_mass pa zg ts i j p : dry i j -> mass_balance pa zg ts i p = mass_balance pa zg ts j p.
Proof.
  intros ((M1 & M2 & M3 & M4 & M5 & M6) & Pi & Pj). unfold mass_balance. apply bind_ext. intros p1.
  assert (E1 : precip_event i p1 = precip_event j p1) by (unfold precip_event; rewrite Pi, Pj; reflexivity). rewrite E1.
  apply bind_ext. intros p2. apply bind_ext. intros p3.
  assert (E2 : evap_cond pa zg ts i p3 = evap_cond pa zg ts j p3) by (unfold evap_cond, soil_evap; rewrite M6; reflexivity). rewrite E2.
  apply bind_ext. intros p4. assert (E3 : h2o_compact i p4 = h2o_compact j p4) by (unfold h2o_compact; rewrite Pi, Pj; reflexivity). rewrite E3. reflexivity.
Qed.

Lemma deltas_rel ds ds' lvl : met_deltas ds ds' -> rres met (deltas_at ds lvl) (deltas_at ds' lvl).
Proof.
  unfold deltas_at. induction 1 as [|a b ds ds' (E & M) _ IH]; [reflexivity|]. cbn [find]. rewrite <- E. destruct (fst a =? lvl)%Z; [exact M|exact IH].
Qed.

Lemma alike_out c c' : alike_c c c' -> rres alike_c (output c) (output c').
Proof.
  intros (E1 & E2 & E3 & E4 & E5). unfold output. rewrite E1. destruct (swi_sum (c_ss c')); cbn; [|reflexivity].
  unfold alike_c. cbn. rewrite E2, E4, E5. repeat split.
Qed.

Lemma feeds_add ds ds' i j d d' : dry i j -> met_deltas ds ds' -> met d d' -> feeds ds ds' (add_deltas i d) (add_deltas j d').
Proof.
  intros ((M1 & M2 & M3 & M4 & M5 & M6) & Pi & Pj) Hd (D1 & D2 & D3 & D4 & D5 & D6). right. split; [|assumption].
  unfold add_deltas, update_precip_deltas. split; [|split; assumption]. unfold met. cbn.
  rewrite M1, M2, M3, M4, M5, M6, D1, D2, D3, D4, D5, D6. repeat split.
Qed.

Lemma feeds_tstep env ds ds' ts c c' i j : feeds ds ds' i j -> alike_c c c' ->
  rres (fun x y => alike_c (fst x) (fst y) /\ feeds ds ds' (snd x) (snd y)) (do_tstep env ds ts c i) (do_tstep env ds' ts c' j).
Proof.
  intros Hf (E1 & E2 & E3 & E4 & E5). unfold do_tstep.
  apply rres_bind with (P := fun d d' => (i = j /\ ds = ds' /\ d = d') \/ (dry i j /\ met_deltas ds ds' /\ met d d')).
  { destruct Hf as [(<- & <-)|(D & M)]; [destruct (deltas_at ds _); cbn; auto|].
    refine (rres_impl _ _ _ _ _ (deltas_rel _ _ _ M)). auto. }
  intros d d' Hd.
  set (i' := if i_precip_now i then update_precip_deltas i d else i). set (j' := if i_precip_now j then update_precip_deltas j d' else j).
  assert (Hi : (i' = j' /\ ds = ds' /\ d = d') \/ (dry i' j' /\ met_deltas ds ds' /\ met d d')).
  { unfold i', j'. destruct Hd as [(<- & <- & <-)|(D & M & K)]; [left; auto|right]. pose proof D as (_ & -> & ->). auto. }
  clearbody i' j'. rewrite E1, E5.
  apply rres_bind with (P := fun x y => fst (fst x) = fst (fst y) /\ snd x = snd y /\
     ((snd (fst x) = snd (fst y) /\ ds = ds' /\ d = d') \/ (dry (snd (fst x)) (snd (fst y)) /\ met_deltas ds ds' /\ met d d'))).
  { destruct Hi as [(<- & <- & <-)|(D & M & K)].
    - destruct (energy_balance _ _ _ _ _) as [x|x]; cbn [rres]; [split; [reflexivity|]; split; [reflexivity|]; left; auto|reflexivity].
    - refine (rres_impl _ _ _ _ _ (dry_energy _ _ _ _ _ _ D)). intros x y (A & B & C). auto 6. }
  intros [[s i2] in1] [[s' j2] in1'] (A & B & C). cbn [fst snd] in A, B, C. subst s' in1'.
  assert (EM : mass_balance (ev_P_a env) (mh_z_g (ev_heights env)) (ts_time_step ts) i2 (s, has_snow (set_h2o_total (nofZ 0) (c_ss c')))
             = mass_balance (ev_P_a env) (mh_z_g (ev_heights env)) (ts_time_step ts) j2 (s, has_snow (set_h2o_total (nofZ 0) (c_ss c')))).
  { destruct C as [(-> & _)|(D & _)]; [reflexivity|apply dry_mass; assumption]. }
  rewrite EM. apply rres_same. intros [s2 kept] _. rewrite E3. apply rres_same. intros [s3 tso] _.
  match goal with |- rres _ (bind (if _ then output ?a else _) _) (bind (if _ then output ?b else _) _) =>
    assert (Ha : alike_c a b) by (unfold alike_c; cbn; rewrite E2, E4; repeat split); set (c1 := a) in *; set (c1' := b) in * end.
  clearbody c1 c1'. apply rres_bind with (P := alike_c).
  - destruct (ev_output_divided env); [apply alike_out; exact Ha|exact Ha].
  - intros c2 c2' H2. cbn [rres fst snd]. split; [exact H2|]. destruct C as [(-> & <- & <-)|(D & M & K)]; [left; auto|apply feeds_add; assumption].
Qed.

Definition feeds_d ds ds' (x y : DState T) : Prop := alike_c (d_core x) (d_core y) /\ feeds ds ds' (d_input x) (d_input y) /\ d_level x = d_level y.

Lemma iter_rel {A} (P : A -> A -> Prop) n b b' : (forall x y, P x y -> rres P (b x) (b' y)) -> forall x y, P x y -> rres P (iter_res n b x) (iter_res n b' y).
Proof.
  intros Hb. induction n as [|n IH]; intros x y H; [exact H|]. cbn [iter_res]. apply rres_bind with (P := P); [apply Hb; assumption|]. exact IH.
Qed.

Lemma feeds_divide env ds ds' : forall f x y, feeds_d ds ds' x y -> rres (feeds_d ds ds') (divide_tstep f env ds x) (divide_tstep f env ds' y).
Proof.
  induction f as [|f IH]; intros x y (Hc & Hf & Hl); [reflexivity|]. cbn [divide_tstep]. rewrite <- Hl. apply rres_same. intros ts _.
  apply rres_bind with (P := feeds ds ds').
  { destruct Hf as [(<- & <-)|((M & Pi & Pj) & K)].
    - destruct (_ && _); [|left; auto]. destruct (deltas_at ds _); cbn; [left; auto|reflexivity].
    - rewrite Pi, Pj. cbn [andb rres]. right. repeat split; try assumption; apply M. }
  intros i j Hij. apply rres_bind with (P := feeds_d ds ds').
  - apply iter_rel; [|split; [assumption|split; [assumption|reflexivity]]].
    intros x1 y1 (Hc1 & Hf1 & Hl1). rewrite <- Hl1. pose proof Hc1 as (E1 & _). rewrite <- E1. destruct (negb _ && _).
    + apply IH. split; [assumption|]. split; [assumption|reflexivity].
    + apply rres_bind with (P := fun a b => alike_c (fst a) (fst b) /\ feeds ds ds' (snd a) (snd b)); [apply feeds_tstep; assumption|].
      intros [a1 a2] [b1 b2] (A & B). split; [assumption|]. split; [assumption|reflexivity].
  - intros x1 y1 (Hc1 & Hf1 & Hl1). rewrite <- Hl1. apply rres_bind with (P := alike_c).
    + destruct (_ && _); [apply alike_out; assumption|exact Hc1].
    + intros c c' H. split; [assumption|]. split; [assumption|reflexivity].
Qed.

(** records of the two runs *)
Definition inputs_rel (info : list (TStep T)) (i j : InputData T) : Prop :=
  i = j \/ (dry i j /\ no_precip info (i_m_pp i) /\ no_precip info (i_m_pp j)).

Lemma dry_input r : nltb (nofZ 0) (r_m_pp r) = false ->
  exists i, input_data r = Ok i /\ i_precip_now i = false /\ i_m_pp i = r_m_pp r /\
    i_S_n i = r_S_n r /\ i_I_lw i = r_I_lw r /\ i_t_a i = r_t_a r /\ i_e_a i = r_e_a r /\ i_u i = r_u r /\ i_t_g i = r_t_g r.
Proof. intros H. unfold input_data. rewrite H. eexists. split; [reflexivity|]. repeat split. Qed.

Lemma exchanged info r r' : exchangeable info r r' -> rres (inputs_rel info) (input_data r) (input_data r').
Proof.
  intros [<-|((W1 & W2 & W3 & W4 & W5 & W6) & P & P')]; [destruct (input_data r); cbn; [left|]; reflexivity|].
  destruct (dry_input r (proj1 P)) as (i & -> & A1 & A2 & A3 & A4 & A5 & A6 & A7 & A8).
  destruct (dry_input r' (proj1 P')) as (j & -> & B1 & B2 & B3 & B4 & B5 & B6 & B7 & B8).
  cbn. right. split; [|rewrite A2, B2; auto]. split; [|auto]. unfold met. rewrite A3, A4, A5, A6, A7, A8, B3, B4, B5, B6, B7, B8. auto 6.
Qed.

Lemma rel_met info i j : inputs_rel info i j -> met i j.
Proof. intros [<-|((M & _) & _)]; [apply met_refl|exact M]. Qed.

Lemma pdiv_rel x n : pdiv (T:=T) x n = if neqb n (nofZ 0) then Err ZeroDivision else Ok (ndiv x n).
Proof. reflexivity. Qed.

Lemma feeds_deltas info i j i2 j2 : met i2 j2 -> inputs_rel info i j ->
  rres (fun ds ds' => feeds ds ds' i j) (input_deltas i i2 info) (input_deltas j j2 info).
Proof.
  intros M2 [<-|(D & P & P')].
  - assert (E : forall l, input_deltas i i2 l = input_deltas i j2 l).
    { destruct M2 as (E1 & E2 & E3 & E4 & E5 & E6). induction l as [|ts l IH]; [reflexivity|]. cbn [input_deltas].
      unfold level_deltas. rewrite E1, E2, E3, E4, E5, E6, IH. reflexivity. }
    rewrite E. destruct (input_deltas i j2 info); cbn; [left; auto|reflexivity].
  - apply rres_impl with (P := met_deltas); [intros ds ds' H; right; auto|].
    destruct P as (_ & P). destruct P' as (_ & P'). destruct D as ((E1 & E2 & E3 & E4 & E5 & E6) & _). destruct M2 as (F1 & F2 & F3 & F4 & F5 & F6).
    induction info as [|ts l IH]; [constructor|]. inversion P as [|? ? Q1 Q2]; inversion P' as [|? ? Q1' Q2']; subst.
    cbn [input_deltas]. apply rres_bind with (P := met).
    + unfold level_deltas. rewrite E1, E2, E3, E4, E5, E6, F1, F2, F3, F4, F5, F6. rewrite !pdiv_rel.
      destruct (neqb (nofZ (ts_per_timestep ts)) (nofZ 0)); [reflexivity|]. cbn [bind].
      destruct (dry_input (mkRaw (ndiv (nsub (i_S_n j2) (i_S_n j)) (nofZ (ts_per_timestep ts))) (ndiv (nsub (i_I_lw j2) (i_I_lw j)) (nofZ (ts_per_timestep ts)))
         (ndiv (nsub (i_t_a j2) (i_t_a j)) (nofZ (ts_per_timestep ts))) (ndiv (nsub (i_e_a j2) (i_e_a j)) (nofZ (ts_per_timestep ts)))
         (ndiv (nsub (i_u j2) (i_u j)) (nofZ (ts_per_timestep ts))) (ndiv (nsub (i_t_g j2) (i_t_g j)) (nofZ (ts_per_timestep ts)))
         (ndiv (i_m_pp i) (nofZ (ts_per_timestep ts))) (i_percent_snow i) (i_rho_snow i) (i_t_pp i)) Q1) as (d & -> & _ & _ & A1 & A2 & A3 & A4 & A5 & A6).
      destruct (dry_input (mkRaw (ndiv (nsub (i_S_n j2) (i_S_n j)) (nofZ (ts_per_timestep ts))) (ndiv (nsub (i_I_lw j2) (i_I_lw j)) (nofZ (ts_per_timestep ts)))
         (ndiv (nsub (i_t_a j2) (i_t_a j)) (nofZ (ts_per_timestep ts))) (ndiv (nsub (i_e_a j2) (i_e_a j)) (nofZ (ts_per_timestep ts)))
         (ndiv (nsub (i_u j2) (i_u j)) (nofZ (ts_per_timestep ts))) (ndiv (nsub (i_t_g j2) (i_t_g j)) (nofZ (ts_per_timestep ts)))
         (ndiv (i_m_pp j) (nofZ (ts_per_timestep ts))) (i_percent_snow j) (i_rho_snow j) (i_t_pp j)) Q1') as (d' & -> & _ & _ & B1 & B2 & B3 & B4 & B5 & B6).
      cbn. unfold met. rewrite A1, A2, A3, A4, A5, A6, B1, B2, B3, B4, B5, B6. repeat split.
    + intros d d' Hd. apply rres_bind with (P := met_deltas); [apply IH; assumption|]. intros ds ds' Hds. constructor; [split; [reflexivity|exact Hd]|exact Hds].
Qed.

Lemma feeds_data_step env c c' i j i2 j2 : alike_c c c' -> inputs_rel (ev_tstep_info env) i j -> met i2 j2 ->
  rres alike_c (do_data_tstep env c i i2) (do_data_tstep env c' j j2).
Proof.
  intros Hc Hi M. unfold do_data_tstep. apply rres_bind with (1 := feeds_deltas _ _ _ _ _ M Hi). intros ds ds' Hf.
  apply rres_bind with (P := feeds_d ds ds').
  - apply feeds_divide. split; [assumption|]. split; [assumption|reflexivity].
  - intros x y (H & _). exact H.
Qed.

Lemma feeds_run env rs rs' : Forall2 (exchangeable (ev_tstep_info env)) rs rs' -> forall c c' i j, alike_c c c' -> inputs_rel (ev_tstep_info env) i j ->
  rres alike_c (run_steps env c i rs) (run_steps env c' j rs').
Proof.
  induction 1 as [|r r' rs rs' Hr _ IH]; intros c c' i j Hc Hi; [exact Hc|]. cbn [run_steps].
  apply rres_bind with (1 := exchanged _ _ _ Hr). intros i2 j2 H2.
  apply rres_bind with (P := alike_c); [apply feeds_data_step; [assumption|assumption|exact (rel_met _ _ _ H2)]|].
  intros c1 c1' Hc1. apply IH; assumption.
Qed.

Definition rows_rel info (a b : CsvRow (T:=T)) : Prop := fst a = fst b /\ exchangeable info (snd a) (snd b).

Lemma insert_rel info a b l l' : rows_rel info a b -> Forall2 (rows_rel info) l l' -> Forall2 (rows_rel info) (insert_by fst a l) (insert_by fst b l').
Proof.
  intros Hab. induction 1 as [|x y l l' Hxy Hl IH]; cbn [insert_by]; [constructor; [assumption|constructor]|].
  pose proof Hab as (<- & _). pose proof Hxy as (<- & _). destruct (fst a <=? fst x)%Z; [constructor; [assumption|constructor; assumption]|]. constructor; assumption.
Qed.
Lemma sort_rel info l l' : Forall2 (rows_rel info) l l' -> Forall2 (rows_rel info) (sort_by fst l) (sort_by fst l').
Proof. induction 1 as [|x y l l' Hxy Hl IH]; [constructor|]. cbn [sort_by]. apply insert_rel; assumption. Qed.
Lemma filter_rel info f l l' : (forall a b : CsvRow (T:=T), fst a = fst b -> f a = f b) -> Forall2 (rows_rel info) l l' -> Forall2 (rows_rel info) (filter f l) (filter f l').
Proof.
  intros Hf. induction 1 as [|x y l l' Hxy Hl IH]; [constructor|]. cbn [filter]. rewrite (Hf x y (proj1 Hxy)). destruct (f y); [constructor; assumption|assumption].
Qed.
Lemma prepare_rel info a b : rows_rel info a b -> rows_rel info (prepare_row a) (prepare_row b).
Proof.
  intros (E & [W|((W1 & W2 & W3 & W4 & W5 & W6) & P)]); (split; [exact E|]).
  - left. unfold prepare_row. rewrite W. reflexivity.
  - right. unfold prepare_row. cbn [snd]. split; [|exact P]. unfold same_weather. cbn. rewrite W1, W2, W3, W4, W5, W6. repeat split.
Qed.
Lemma read_rel info s e rows rows' : Forall2 (rows_rel info) rows rows' -> rres (Forall2 (rows_rel info)) (read_input_data s e rows) (read_input_data s e rows').
Proof.
  intros H. unfold read_input_data, clip_rows. inversion H as [|a b l l' H1 H2]; subst; [reflexivity|]. inversion H2 as [|a2 b2 l2 l2' H3 H4]; subst; [reflexivity|].
  cbn [bind rres]. pose proof H1 as (-> & _). pose proof H3 as (-> & _).
  assert (K : Forall2 (rows_rel info) (filter (fun r => ((s <=? fst r) && (fst r <=? e + (fst b2 - fst b)))%Z) (sort_by fst (a :: a2 :: l2)))
                 (filter (fun r => ((s <=? fst r) && (fst r <=? e + (fst b2 - fst b)))%Z) (sort_by fst (b :: b2 :: l2')))).
  { apply filter_rel; [intros x y Exy; rewrite Exy; reflexivity|]. apply sort_rel. assumption. }
  revert K. generalize (filter (fun r : Z * RawInput T => ((s <=? fst r) && (fst r <=? e + (fst b2 - fst b)))%Z) (sort_by fst (a :: a2 :: l2))).
  generalize (filter (fun r : Z * RawInput T => ((s <=? fst r) && (fst r <=? e + (fst b2 - fst b)))%Z) (sort_by fst (b :: b2 :: l2'))). intros u v K.
  induction K as [|x y v u Hxy _ IHK]; [constructor|]. cbn [map]. constructor; [apply prepare_rel; exact Hxy|exact IHK].
Qed.

(** C86: exchanging records of the file that differ only in the precipitation columns, where neither has precipitation,
    gives the same output file or the same exception. *)
Theorem C86_no_precipitation_no_effect (p : Params T) end_date cfg info ic mh all_mode rows rows' :
  parse_time_steps cfg = Ok info ->
  Forall2 (fun a b => fst a = fst b /\ exchangeable info (snd a) (snd b)) rows rows' ->
  pysnobal_run p end_date cfg ic mh all_mode rows = pysnobal_run p end_date cfg ic mh all_mode rows'.
Proof.
  intros Hinfo H. unfold pysnobal_run. rewrite Hinfo. cbn [bind].
  pose proof (read_rel info (p_start_date p) end_date rows rows' H) as K.
  destruct (read_input_data (p_start_date p) end_date rows) as [used|e], (read_input_data (p_start_date p) end_date rows') as [used'|e']; cbn in K; try contradiction;
    [|subst; reflexivity]. cbn [bind].
  assert (S : rres alike_c (simulate p info ic mh all_mode used) (simulate p info ic mh all_mode used')).
  { unfold simulate. assert (Ed : map fst used = map fst used').
    { clear -K. induction K as [|a b l l' (E & _) _ IH]; [reflexivity|]. cbn [map]. rewrite E, IH. reflexivity. }
    rewrite Ed. destruct (negb _); [reflexivity|]. destruct K as [|a b l l' (_ & E) K]; [reflexivity|].
    apply rres_bind with (1 := exchanged _ _ _ E). intros i j Hij. apply rres_same. intros [env c0] Hin.
    assert (Ei : ev_tstep_info env = info).
    { unfold snobal_init in Hin. inv_bind Hin as pa Hpa. inv_bind Hin as s0 Hs0. inv_bind Hin as s1 Hs1. injection Hin as <- _. reflexivity. }
    apply feeds_run; rewrite ?Ei; [|repeat split|exact Hij].
    clear -K. induction K as [|x y l l' (_ & E) _ IH]; [constructor|]. cbn [map]. constructor; assumption. }
  destruct (simulate p info ic mh all_mode used) as [c|e], (simulate p info ic mh all_mode used') as [c'|e']; cbn in S; try contradiction; [|subst; reflexivity].
  cbn [bind]. unfold output_to_file. destruct S as (_ & _ & _ & -> & _). reflexivity.
Qed.
End Dry.

(** C86 over the reals: an amount that is not positive is as good as any other. *)
From Coq Require Import Reals Lra.
From Verif Require Import SchedSpec Sched SchedProps Spec RunMass Thm_Schedule.
Section Reals.
Open Scope R_scope.
Theorem C86_over_the_reals (p : Params R) end_date cfg ic mh all_mode rows rows' :
  ordered_steps cfg ->
  Forall2 (fun a b => fst a = fst b /\ (snd a = snd b \/ same_weather (snd a) (snd b) /\ r_m_pp (snd a) <= 0 /\ r_m_pp (snd b) <= 0)) rows rows' ->
  pysnobal_run p end_date cfg ic mh all_mode rows = pysnobal_run p end_date cfg ic mh all_mode rows'.
Proof.
  intros Ho H. destruct (parse_time_steps cfg) as [info|e] eqn:Hi; [|unfold pysnobal_run; rewrite Hi; reflexivity].
  apply (C86_no_precipitation_no_effect p end_date cfg info ic mh all_mode rows rows' Hi).
  assert (K : forall m, m <= 0 -> no_precip (T:=R) info m).
  { intros m Hm. split; [apply (proj2 (Rltb_false _ _)); rn; lra|].
    destruct Ho as (O1 & O2 & O3).
    assert (Hpos : Forall (fun ts => (0 <= ts_per_timestep ts)%Z) info).
    { unfold parse_time_steps in Hi. inv_bind Hi as a Ha. inv_bind Hi as b Hb. inv_bind Hi as e He. injection Hi as <-.
      assert (D : forall x y z, int_div x y = Ok z -> (0 <= x)%Z -> (0 < y)%Z -> (0 <= z)%Z).
      { intros x y z Hd Hx Hy. unfold int_div in Hd. destruct (y =? 0)%Z; [discriminate|]. injection Hd as <-. apply Z.quot_pos; lia. }
      repeat constructor; cbn; [lia|apply (D _ _ _ Ha); lia|apply (D _ _ _ He); lia]. }
    apply Forall_forall. intros ts Hts. rewrite Forall_forall in Hpos. specialize (Hpos ts Hts). apply (proj2 (Rltb_false _ _)).
    change (m / IZR (ts_per_timestep ts) <= IZR 0). apply IZR_le in Hpos. destruct Hpos as [Hp|Hp].
    - unfold Rdiv. pose proof (Rinv_0_lt_compat _ Hp). nra.
    - rewrite <- Hp. unfold Rdiv. rewrite Rinv_0. lra. }
  clear Hi. induction H as [|a b l l' (E & Q) _ IH]; [constructor|]. constructor; [|exact IH]. split; [exact E|].
  destruct Q as [Q|(W & A & B)]; [left; exact Q|right; auto].
Qed.
End Reals.

(** C86 in binary64: a missing precipitation amount (nan) is as good as zero, for every configuration; the other
    precipitation columns then do not matter. *)
From Coq Require Import Floats.
From Verif Require Import FloatNum.
Section Floats.
Definition missing_or_zero (m : float) : Prop := Prim2SF m = S754_nan \/ exists b, Prim2SF m = S754_zero b.
Lemma missing_not_positive m : missing_or_zero m -> PrimFloat.ltb 0 m = false.
Proof.
  intros H. rewrite ltb_spec. destruct H as [-> |(b & ->)]; reflexivity.
Qed.
Lemma missing_quotient m n : missing_or_zero m -> missing_or_zero (PrimFloat.div m n).
Proof.
  unfold missing_or_zero. intros H. rewrite div_spec. destruct H as [-> |(b & ->)]; [left; reflexivity|].
  destruct (Prim2SF n); cbn; [left; reflexivity|right; eexists; reflexivity|left; reflexivity|right; eexists; reflexivity].
Qed.
Theorem C86_missing_precipitation_is_none (p : Params float) end_date cfg ic mh all_mode rows rows' :
  Forall2 (fun a b => fst a = fst b /\
    (snd a = snd b \/ same_weather (snd a) (snd b) /\ missing_or_zero (r_m_pp (snd a)) /\ missing_or_zero (r_m_pp (snd b)))) rows rows' ->
  pysnobal_run p end_date cfg ic mh all_mode rows = pysnobal_run p end_date cfg ic mh all_mode rows'.
Proof.
  intros H. destruct (parse_time_steps cfg) as [info|e] eqn:Hi; [|unfold pysnobal_run; rewrite Hi; reflexivity].
  apply (C86_no_precipitation_no_effect p end_date cfg info ic mh all_mode rows rows' Hi). clear Hi.
  assert (K : forall m, missing_or_zero m -> no_precip (T:=float) info m).
  { intros m Hm. split; [exact (missing_not_positive m Hm)|]. apply Forall_forall. intros ts _.
    exact (missing_not_positive _ (missing_quotient m _ Hm)). }
  induction H as [|a b l l' (E & Q) _ IH]; [constructor|]. constructor; [|exact IH]. split; [exact E|].
  destruct Q as [Q|(W & A & B)]; [left; exact Q|right; auto].
Qed.

(** ** Concrete cases.  Two files with the same four records, hourly and with a gap of seven hours; and a file with a
    missing precipitation amount (and a density of zero).  All three give a file of three lines, hour by hour. *)
Open Scope float_scope.
Definition dry_rec (m pct rho t_a : float) : RawInput float := mkRaw 50 250 t_a 300 2 (-2) m pct rho (-1).
Definition no_gap : list (CsvRow (T:=float)) :=
  [(0%Z, dry_rec 5 1 100 (-3)); (60%Z, dry_rec 0 0 0 (-4)); (120%Z, dry_rec 0 0 0 (-5)); (180%Z, dry_rec 0 0 0 (-6))].
Definition with_gap : list (CsvRow (T:=float)) :=
  [(0%Z, dry_rec 5 1 100 (-3)); (60%Z, dry_rec 0 0 0 (-4)); (540%Z, dry_rec 0 0 0 (-5)); (600%Z, dry_rec 0 0 0 (-6))].
Definition with_nan : list (CsvRow (T:=float)) :=
  [(0%Z, dry_rec 5 1 100 (-3)); (60%Z, dry_rec nan 1 0 (-4)); (120%Z, dry_rec 0 0 0 (-5)); (180%Z, dry_rec 0 0 0 (-6))].
Definition dates_of (rows : list (CsvRow (T:=float))) : list Z :=
  match pysnobal_run w_params 1000 w_even (mkInitSnow 0 0 0 0 0 0.0078125) w_heights false rows with Ok out => map fst out | Err _ => [] end.
Example C85_witness : dates_of no_gap = [60; 120; 180]%Z /\ dates_of with_gap = [60; 120; 180]%Z /\
  read_input_data (p_start_date w_params) 1000 no_gap = Ok (map prepare_row no_gap) /\
  read_input_data (p_start_date w_params) 1000 with_gap = Ok (map prepare_row with_gap) /\
  map snd (map prepare_row no_gap) = map snd (map prepare_row with_gap) /\
  NoDup (map fst (map prepare_row no_gap)) /\ NoDup (map fst (map prepare_row with_gap)).
Proof.
  split; [vm_compute; reflexivity|]. split; [vm_compute; reflexivity|]. split; [reflexivity|]. split; [reflexivity|]. split; [reflexivity|].
  split; repeat constructor; cbn; intuition discriminate.
Qed.
Example C86_witness : dates_of with_nan = [60; 120; 180]%Z /\
  Forall2 (fun a b => fst a = fst b /\
    (snd a = snd b \/ same_weather (snd a) (snd b) /\ missing_or_zero (r_m_pp (snd a)) /\ missing_or_zero (r_m_pp (snd b)))) no_gap with_nan.
Proof.
  split; [vm_compute; reflexivity|]. unfold no_gap, with_nan.
  constructor; [split; [reflexivity|left; reflexivity]|]. constructor.
  - split; [reflexivity|]. right. split; [repeat split|]. split; [right; exists false; reflexivity|left; reflexivity].
  - constructor; [split; [reflexivity|left; reflexivity]|]. constructor; [split; [reflexivity|left; reflexivity]|constructor].
Qed.
End Floats.

Print Assumptions C85_dates_only_select_and_order.
Print Assumptions C86_no_precipitation_no_effect.
Print Assumptions C86_over_the_reals.
Print Assumptions C86_missing_precipitation_is_none.
