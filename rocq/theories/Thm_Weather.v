(** * Theorem C87: before the first snowfall the weather has no effect.

    On bare ground only precipitation is looked at: radiation, air temperature, vapour pressure, wind and soil temperature
    of the records before the first snowfall can be replaced by anything (also by nan).  For every number type. *)
From Coq Require Import String ZArith Bool Lia List.
Import ListNotations.
From Verif Require Import Num Real Constants Functions Libsnobal Input SnowState Snobal PySnobal Strip Modes Thm_Api Thm_Dry.

Section Weather.
Context {T : Type} {N : Num T}.

(** ** Specification *)
Definition same_precipitation (r r' : RawInput T) : Prop :=
  r_m_pp r = r_m_pp r' /\ r_percent_snow r = r_percent_snow r' /\ r_rho_snow r = r_rho_snow r' /\ r_t_pp r = r_t_pp r'.
(** no part of the precipitation, whole or shared out to run steps, is snow *)
Definition no_snowfall (info : list (TStep T)) (r : RawInput T) : Prop :=
  nltb (nofZ 0) (nmul (r_m_pp r) (r_percent_snow r)) = false /\
  Forall (fun ts => nltb (nofZ 0) (nmul (ndiv (r_m_pp r) (nofZ (ts_per_timestep ts))) (r_percent_snow r)) = false) info.

(** ** Proof *)
(** everything but the weather *)
Definition wet (i j : InputData T) : Prop :=
  i_m_pp i = i_m_pp j /\ i_percent_snow i = i_percent_snow j /\ i_rho_snow i = i_rho_snow j /\ i_t_pp i = i_t_pp j /\
  i_m_snow i = i_m_snow j /\ i_m_rain i = i_m_rain j /\ i_z_snow i = i_z_snow j /\ i_h2o_sat_snow i = i_h2o_sat_snow j /\
  i_t_rain i = i_t_rain j /\ i_t_snow i = i_t_snow j /\ i_precip_now i = i_precip_now j.
Definition snowless (i : InputData T) : Prop := nltb (nofZ 0) (i_m_snow i) = false.
Definition wet_in (i j : InputData T) : Prop := wet i j /\ snowless i.
Definition wet_deltas (ds ds' : list (Z * InputData T)) : Prop := Forall2 (fun a b => fst a = fst b /\ wet_in (snd a) (snd b)) ds ds'.
Definition bare_alike (c c' : Core T) : Prop := alike_c c c' /\ layer_count (c_ss c) = 0%nat.

Lemma wet_energy env ts init i s : layer_count s = 0%nat ->
  energy_balance env ts init i s = Ok (set_E_flux (nofZ 0) (set_en zero_energy s), i, init).
Proof. intros H. unfold energy_balance, has_snow. rewrite H. reflexivity. Qed.

Lemma wet_mass pa zg ts i j s : layer_count s = 0%nat -> wet_in i j ->
  exists s', mass_balance pa zg ts i (s, false) = Ok (s', false) /\ mass_balance pa zg ts j (s, false) = Ok (s', false) /\ layer_count s' = 0%nat.
Proof.
  intros Hl ((_ & _ & _ & _ & W & R & _ & _ & _ & _ & P) & S). unfold mass_balance, time_compact, snowmelt, evap_cond, h2o_compact. cbn [negb orb bind].
  unfold precip_event. rewrite <- P, <- W, <- R, S. unfold runoff. cbn [negb orb].
  destruct (i_precip_now i); cbn [bind negb orb snd fst]; (eexists; split; [reflexivity|]; split; [reflexivity|]; exact Hl).
Qed.

Lemma wet_deltas_at ds ds' lvl : wet_deltas ds ds' -> rres wet_in (deltas_at ds lvl) (deltas_at ds' lvl).
Proof.
  unfold deltas_at. induction 1 as [|a b ds ds' (E & M) _ IH]; [reflexivity|]. cbn [find]. rewrite <- E. destruct (fst a =? lvl)%Z; [exact M|exact IH].
Qed.

Lemma wet_update i j d d' : wet_in i j -> wet_in d d' -> wet_in (update_precip_deltas i d) (update_precip_deltas j d').
Proof.
  intros ((A1 & A2 & A3 & A4 & A5 & A6 & A7 & A8 & A9 & A10 & A11) & S) ((B1 & B2 & B3 & B4 & B5 & B6 & B7 & B8 & B9 & B10 & B11) & S').
  unfold update_precip_deltas. split; [|exact S']. unfold wet. cbn. rewrite A2, A3, A4, A8, A9, A10, A11, B1, B5, B6, B7. repeat split.
Qed.
Lemma wet_add i j d d' : wet_in i j -> wet_in d d' -> wet_in (add_deltas i d) (add_deltas j d').
Proof.
  intros ((A1 & A2 & A3 & A4 & A5 & A6 & A7 & A8 & A9 & A10 & A11) & S) ((B1 & B2 & B3 & B4 & B5 & B6 & B7 & B8 & B9 & B10 & B11) & S').
  unfold add_deltas, update_precip_deltas. split; [|exact S']. unfold wet. cbn. rewrite A2, A3, A4, A8, A9, A10, A11, B1, B5, B6, B7. repeat split.
Qed.

Lemma output_ss (c c' : Core T) : output c = Ok c' -> c_ss c' = c_ss c.
Proof. unfold output. destruct (swi_sum (c_ss c)); [|discriminate]. intros H. injection H as <-. reflexivity. Qed.
Lemma bare_out c c' : bare_alike c c' -> rres bare_alike (output c) (output c').
Proof.
  intros (A & L). pose proof (alike_out _ _ A) as H. destruct (output c) as [x|x] eqn:E, (output c') as [y|y]; cbn in H |- *; try contradiction; [|exact H].
  split; [exact H|]. rewrite (output_ss _ _ E). exact L.
Qed.

Lemma time_average_layers (s s' : SnowState T) a b : ss_time_average s a b = Ok s' -> layer_count s' = layer_count s.
Proof.
  unfold ss_time_average. intros H. inv_bind H as x Hx. destruct (swi_sum s); [|discriminate H]. injection H as <-. reflexivity.
Qed.

Lemma wet_tstep env ds ds' ts c c' i j : wet_in i j -> wet_deltas ds ds' -> bare_alike c c' ->
  rres (fun x y => bare_alike (fst x) (fst y) /\ wet_in (snd x) (snd y)) (do_tstep env ds ts c i) (do_tstep env ds' ts c' j).
Proof.
  intros Hi Hd ((E1 & E2 & E3 & E4 & E5) & L). unfold do_tstep.
  apply rres_bind with (1 := wet_deltas_at _ _ (ts_level ts) Hd). intros d d' Hdd.
  set (i' := if i_precip_now i then update_precip_deltas i d else i). set (j' := if i_precip_now j then update_precip_deltas j d' else j).
  assert (Hi' : wet_in i' j').
  { unfold i', j'. pose proof Hi as ((_ & _ & _ & _ & _ & _ & _ & _ & _ & _ & P) & _). rewrite <- P. destruct (i_precip_now i); [apply wet_update; assumption|assumption]. }
  clearbody i' j'. rewrite <- E1, <- E5.
  assert (Ls : layer_count (set_h2o_total (nofZ 0) (c_ss c)) = 0%nat) by exact L.
  rewrite !wet_energy by exact Ls. cbn [bind].
  assert (Hs : has_snow (set_h2o_total (nofZ 0) (c_ss c)) = false) by (unfold has_snow; rewrite Ls; reflexivity). rewrite Hs.
  destruct (wet_mass (ev_P_a env) (mh_z_g (ev_heights env)) (ts_time_step ts) i' j'
    (set_E_flux (nofZ 0) (set_en zero_energy (set_h2o_total (nofZ 0) (c_ss c)))) Ls Hi') as (s2 & -> & -> & L2). cbn [bind].
  rewrite <- E3.
  set (m := if (0 <? c_time_since_out c)%Z then _ else _).
  assert (Lm : forall s3 t, m = Ok (s3, t) -> layer_count s3 = 0%nat).
  { intros s3 t. unfold m. destruct (0 <? c_time_since_out c)%Z.
    - intros H. inv_bind H as s4 H4. injection H as <- <-. rewrite (time_average_layers _ _ _ _ H4). exact L2.
    - intros H. injection H as <- <-. exact L2. }
  destruct m as [[s3 tso]|e]; [|reflexivity]. cbn [bind]. specialize (Lm s3 tso eq_refl).
  match goal with |- rres _ (bind (if _ then output ?a else _) _) (bind (if _ then output ?b else _) _) =>
    assert (Ha : bare_alike a b) by (split; [unfold alike_c; cbn; rewrite E2, E4; repeat split|exact Lm]); set (c1 := a) in *; set (c1' := b) in * end.
  clearbody c1 c1'. apply rres_bind with (P := bare_alike).
  - destruct (ev_output_divided env); [apply bare_out; exact Ha|exact Ha].
  - intros c2 c2' H2. cbn [rres fst snd]. split; [exact H2|apply wet_add; assumption].
Qed.

Definition wet_d (x y : DState T) : Prop := bare_alike (d_core x) (d_core y) /\ wet_in (d_input x) (d_input y) /\ d_level x = d_level y.

Lemma wet_divide env ds ds' : wet_deltas ds ds' -> forall f x y, wet_d x y -> rres wet_d (divide_tstep f env ds x) (divide_tstep f env ds' y).
Proof.
  intros Hd. induction f as [|f IH]; intros x y (Hc & Hf & Hl); [reflexivity|]. cbn [divide_tstep]. rewrite <- Hl. apply rres_same. intros ts _.
  apply rres_bind with (P := wet_in).
  { pose proof Hf as ((_ & _ & _ & _ & _ & _ & _ & _ & _ & _ & P) & _). rewrite <- P. destruct (_ && _); [|exact Hf].
    apply rres_bind with (1 := wet_deltas_at _ _ (ts_level ts) Hd). intros d d' Hdd. apply wet_update; assumption. }
  intros i j Hij. apply rres_bind with (P := wet_d).
  - apply iter_rel; [|split; [assumption|split; [assumption|reflexivity]]].
    intros x1 y1 (Hc1 & Hf1 & Hl1). rewrite <- Hl1. pose proof Hc1 as ((E1 & _) & L). rewrite <- E1. destruct (negb _ && _).
    + apply IH. split; [assumption|]. split; [assumption|reflexivity].
    + apply rres_bind with (P := fun a b => bare_alike (fst a) (fst b) /\ wet_in (snd a) (snd b)); [apply wet_tstep; assumption|].
      intros [a1 a2] [b1 b2] (A & B). split; [assumption|]. split; [assumption|reflexivity].
  - intros x1 y1 (Hc1 & Hf1 & Hl1). rewrite <- Hl1. apply rres_bind with (P := bare_alike).
    + destruct (_ && _); [apply bare_out; assumption|exact Hc1].
    + intros c c' H. split; [assumption|]. split; [assumption|reflexivity].
Qed.

Lemma wet_input r r' : same_precipitation r r' -> rres (fun i j => wet i j /\ i_m_snow i = nmul (r_m_pp r) (r_percent_snow r) /\
    i_m_pp i = r_m_pp r /\ i_percent_snow i = r_percent_snow r) (input_data r) (input_data r').
Proof.
  intros (E1 & E2 & E3 & E4). unfold input_data. rewrite <- E1, <- E2, <- E3, <- E4. destruct (nltb (nofZ 0) (r_m_pp r)); [|repeat split].
  apply rres_same. intros z _. destruct (_ && nltb _ _); [repeat split|]. destruct (nltb (nofZ 0) (nmul _ _)); [destruct (nltb _ FREEZE); repeat split|].
  destruct (nltb (nofZ 0) (nsub _ _)); repeat split.
Qed.

Definition early (info : list (TStep T)) (i j : InputData T) : Prop :=
  wet_in i j /\ Forall (fun ts => nltb (nofZ 0) (nmul (ndiv (i_m_pp i) (nofZ (ts_per_timestep ts))) (i_percent_snow i)) = false) info.

Lemma early_deltas info i j i2 j2 : early info i j -> rres wet_deltas (input_deltas i i2 info) (input_deltas j j2 info).
Proof.
  intros (((A1 & A2 & A3 & A4 & _) & _) & P). induction info as [|ts l IH]; [constructor|]. inversion P as [|? ? Q1 Q2]; subst.
  cbn [input_deltas]. apply rres_bind with (P := wet_in).
  - unfold level_deltas. rewrite !pdiv_rel. destruct (neqb (nofZ (ts_per_timestep ts)) (nofZ 0)); [reflexivity|]. cbn [bind].
    refine (rres_impl _ _ _ _ _ (wet_input _ _ _)).
    + cbn. intros d d' (W & S & _). split; [exact W|]. unfold snowless. rewrite S. exact Q1.
    + repeat split; cbn; congruence.
  - intros d d' Hd. apply rres_bind with (P := wet_deltas); [apply IH; assumption|]. intros ds ds' Hds. constructor; [split; [reflexivity|exact Hd]|exact Hds].
Qed.

Lemma early_data_step env c c' i j i2 j2 : bare_alike c c' -> early (ev_tstep_info env) i j ->
  rres bare_alike (do_data_tstep env c i i2) (do_data_tstep env c' j j2).
Proof.
  intros Hc Hi. unfold do_data_tstep. apply rres_bind with (1 := early_deltas _ _ _ _ _ Hi). intros ds ds' Hf.
  apply rres_bind with (P := wet_d).
  - apply wet_divide; [assumption|]. split; [assumption|]. split; [exact (proj1 Hi)|reflexivity].
  - intros x y (H & _). exact H.
Qed.

Lemma early_input info r r' : same_precipitation r r' -> no_snowfall info r -> rres (early info) (input_data r) (input_data r').
Proof.
  intros H (S1 & S2). refine (rres_impl _ _ _ _ _ (wet_input _ _ H)). intros i j (W & S & M & P). split; [split; [exact W|]|].
  - unfold snowless. rewrite S. exact S1.
  - rewrite M, P. exact S2.
Qed.

(** the run from a core on bare ground *)
Lemma early_run env a a' b : Forall2 (fun r r' => same_precipitation r r' /\ no_snowfall (ev_tstep_info env) r) a a' ->
  forall c c' i j, bare_alike c c' -> early (ev_tstep_info env) i j ->
  rres alike_c (run_steps env c i (a ++ b)) (run_steps env c' j (a' ++ b)).
Proof.
  induction 1 as [|r r' a a' (Hr & Hn) _ IH]; intros c c' i j Hc Hi.
  - destruct b as [|r b]; [exact (proj1 Hc)|]. cbn [app run_steps]. apply rres_same. intros i2 _.
    apply rres_bind with (1 := early_data_step _ _ _ _ _ i2 i2 Hc Hi). intros c1 c1' (Hc1 & _).
    apply feeds_run; [|assumption|left; reflexivity]. clear. induction b; constructor; [left; reflexivity|assumption].
  - cbn [app run_steps]. apply rres_bind with (1 := early_input _ _ _ Hr Hn). intros i2 j2 H2.
    apply rres_bind with (1 := early_data_step _ _ _ _ _ i2 j2 Hc Hi). intros c1 c1' Hc1. apply IH; assumption.
Qed.

(** C87: if the run starts on bare ground and the records [a] at the beginning of the window have no snowfall, their weather
    columns can be replaced by any others. *)
Theorem C87_weather_before_the_first_snowfall (p : Params T) end_date cfg info ic mh all_mode rows rows' a a' b :
  parse_time_steps cfg = Ok info ->
  (forall env c0, snobal_init p info ic mh all_mode = Ok (env, c0) -> layer_count (c_ss c0) = 0%nat) ->
  read_input_data (p_start_date p) end_date rows = Ok (a ++ b) -> read_input_data (p_start_date p) end_date rows' = Ok (a' ++ b) ->
  Forall2 (fun r r' => fst r = fst r' /\ same_precipitation (snd r) (snd r') /\ no_snowfall info (snd r)) a a' ->
  pysnobal_run p end_date cfg ic mh all_mode rows = pysnobal_run p end_date cfg ic mh all_mode rows'.
Proof.
  intros Hinfo Hbare H H' K. unfold pysnobal_run. rewrite Hinfo, H, H'. cbn [bind].
  assert (S : rres alike_c (simulate p info ic mh all_mode (a ++ b)) (simulate p info ic mh all_mode (a' ++ b))).
  { unfold simulate. assert (Ed : map fst (a ++ b) = map fst (a' ++ b)).
    { rewrite !map_app. f_equal. clear -K. induction K as [|x y l l' (E & _) _ IH]; [reflexivity|]. cbn [map]. rewrite E, IH. reflexivity. }
    rewrite Ed. destruct (negb _); [reflexivity|].
    destruct K as [|r r' a a' (_ & Hr & Hn) K].
    - cbn [app]. destruct (match b with [] => _ | _ :: _ => _ end) as [c|e]; cbn; [repeat split|reflexivity].
    - cbn [app]. apply rres_bind with (1 := early_input _ _ _ Hr Hn). intros i j Hij. apply rres_same. intros [env c0] Hin.
      assert (Ei : ev_tstep_info env = info).
      { pose proof Hin as Hin'. unfold snobal_init in Hin'. inv_bind Hin' as pa Hpa. inv_bind Hin' as s0 Hs0. inv_bind Hin' as s1 Hs1. injection Hin' as <- _. reflexivity. }
      rewrite !map_app. apply early_run; rewrite ?Ei; [|split; [repeat split|exact (Hbare _ _ Hin)]|exact Hij].
      clear -K. induction K as [|x y l l' (_ & E) _ IH]; [constructor|]. cbn [map]. constructor; assumption. }
  destruct (simulate p info ic mh all_mode (a ++ b)) as [c|e], (simulate p info ic mh all_mode (a' ++ b)) as [c'|e']; cbn in S; try contradiction; [|subst; reflexivity].
  cbn [bind]. unfold output_to_file. destruct S as (_ & _ & _ & -> & _). reflexivity.
Qed.

(** ** The same for the rows of the input file *)
Lemma insert_gen {A} (key : A -> Z) (Q : A -> A -> Prop) a b l l' : (forall x y, Q x y -> key x = key y) -> Q a b -> Forall2 Q l l' ->
  Forall2 Q (insert_by key a l) (insert_by key b l').
Proof.
  intros HQ Hab. induction 1 as [|x y l l' Hxy Hl IH]; cbn [insert_by]; [constructor; [assumption|constructor]|].
  rewrite (HQ _ _ Hab), (HQ _ _ Hxy). destruct (_ <=? _)%Z; [constructor; [assumption|constructor; assumption]|]. constructor; assumption.
Qed.
Lemma sort_gen {A} (key : A -> Z) (Q : A -> A -> Prop) l l' : (forall x y, Q x y -> key x = key y) -> Forall2 Q l l' -> Forall2 Q (sort_by key l) (sort_by key l').
Proof. intros HQ. induction 1 as [|x y l l' Hxy Hl IH]; [constructor|]. cbn [sort_by]. apply insert_gen; assumption. Qed.
Lemma filter_gen {A} (Q : A -> A -> Prop) f l l' : (forall x y, Q x y -> f x = f y) -> Forall2 Q l l' -> Forall2 Q (filter f l) (filter f l').
Proof.
  intros Hf. induction 1 as [|x y l l' Hxy Hl IH]; [constructor|]. cbn [filter]. rewrite (Hf x y Hxy). destruct (f y); [constructor; assumption|assumption].
Qed.
Lemma prepare_all (Q : (CsvRow (T:=T)) -> (CsvRow (T:=T)) -> Prop) s : (forall x y, Q x y -> Q (prepare_row x) (prepare_row y)) ->
  forall l l', Forall2 Q l l' -> sorted_by fst l -> Forall (fun x => (s <= fst x)%Z) l ->
  Forall2 (fun x y => Q x y /\ (s <= fst x)%Z) (map prepare_row l) (map prepare_row l') /\ sorted_by fst (map prepare_row l).
Proof.
  intros HP l l' K S G. split.
  - clear S. induction K as [|x y l l' Hxy _ IHK]; [constructor|]. inversion G; subst. cbn [map]. constructor; [split; [apply HP; exact Hxy|assumption]|apply IHK; assumption].
  - apply sorted_map with (ka := fst); [reflexivity|exact S].
Qed.
Lemma read_gen (Q : (CsvRow (T:=T)) -> (CsvRow (T:=T)) -> Prop) s e rows rows' : (forall x y, Q x y -> fst x = fst y) -> (forall x y, Q x y -> Q (prepare_row x) (prepare_row y)) ->
  Forall2 Q rows rows' -> rres (fun l l' => Forall2 (fun x y => Q x y /\ (s <= fst x)%Z) l l' /\ sorted_by fst l) (read_input_data s e rows) (read_input_data s e rows').
Proof.
  intros HQ HP H. unfold read_input_data, clip_rows. inversion H as [|a b l l' H1 H2]; subst; [reflexivity|]. inversion H2 as [|a2 b2 l2 l2' H3 H4]; subst; [reflexivity|].
  cbn [bind rres]. rewrite (HQ _ _ H1), (HQ _ _ H3).
  set (f := fun r : CsvRow (T:=T) => ((s <=? fst r) && (fst r <=? e + (fst b2 - fst b)))%Z).
  assert (K : Forall2 Q (filter f (sort_by fst (a :: a2 :: l2))) (filter f (sort_by fst (b :: b2 :: l2')))).
  { apply filter_gen; [intros x y Exy; unfold f; rewrite (HQ _ _ Exy); reflexivity|]. apply sort_gen; assumption. }
  assert (S : sorted_by fst (filter f (sort_by fst (a :: a2 :: l2)))) by (apply sorted_filter, sort_sorted).
  assert (G : Forall (fun x => (s <= fst x)%Z) (filter f (sort_by fst (a :: a2 :: l2)))).
  { apply Forall_forall. intros x Hx. apply filter_In in Hx. destruct Hx as (_ & Hx). unfold f in Hx. apply andb_prop in Hx. destruct Hx as (Hx & _). apply Z.leb_le. exact Hx. }
  exact (prepare_all Q s HP _ _ K S G).
Qed.

(** rows of the two files: the same date, and the same record unless it is dated before [t], when it may have other weather *)
Definition before_may_differ (t : Z) (a b : (CsvRow (T:=T))) : Prop :=
  fst a = fst b /\ (snd a = snd b \/ (fst a < t)%Z /\ same_precipitation (snd a) (snd b)).

Lemma split_at info s t (l l' : list (CsvRow (T:=T))) : sorted_by fst l ->
  Forall2 (fun x y => (before_may_differ t x y /\ ((s <= fst x < t)%Z -> no_snowfall info (snd x))) /\ (s <= fst x)%Z) l l' ->
  exists a a' b, l = a ++ b /\ l' = a' ++ b /\
    Forall2 (fun r r' => fst r = fst r' /\ same_precipitation (snd r) (snd r') /\ no_snowfall info (snd r)) a a'.
Proof.
  intros S K. induction K as [|x y l l' (((E & D) & Sn) & Hs) K IH]; [exists [], [], []; repeat split; constructor|].
  inversion S as [|? ? S1 S2]; subst. destruct (Z.lt_ge_cases (fst x) t) as [Hx|Hx].
  - destruct (IH S1) as (a & a' & b & -> & -> & F). exists (x :: a), (y :: a'), b. split; [reflexivity|]. split; [reflexivity|]. constructor; [|exact F].
    split; [exact E|]. split; [|apply Sn; lia]. destruct D as [->|(_ & D)]; [repeat split|exact D].
  - exists [], [], (x :: l). split; [reflexivity|]. split; [|constructor]. cbn [app].
    assert (Exy : forall u v : (CsvRow (T:=T)), fst u = fst v -> snd u = snd v -> u = v) by (intros [? ?] [? ?]; cbn; intros -> ->; reflexivity).
    f_equal; [destruct D as [D|(D & _)]; [symmetry; apply Exy; assumption|lia]|].
    clear -K S2 Hx Exy. induction K as [|u v l l' (((E & D) & _) & _) K IH]; [reflexivity|]. inversion S2 as [|? ? H1 H2]; subst. f_equal; [|apply IH; exact H2].
    destruct D as [D|(D & _)]; [symmetry; apply Exy; assumption|lia].
Qed.

Theorem C87_weather_in_the_file (p : Params T) end_date cfg info ic mh all_mode t rows rows' :
  parse_time_steps cfg = Ok info ->
  (forall env c0, snobal_init p info ic mh all_mode = Ok (env, c0) -> layer_count (c_ss c0) = 0%nat) ->
  Forall2 (before_may_differ t) rows rows' ->
  Forall (fun r => (p_start_date p <= fst r < t)%Z -> no_snowfall info (snd r)) rows ->
  pysnobal_run p end_date cfg ic mh all_mode rows = pysnobal_run p end_date cfg ic mh all_mode rows'.
Proof.
  intros Hinfo Hbare H Sn.
  set (Q := fun x y : (CsvRow (T:=T)) => before_may_differ t x y /\ ((p_start_date p <= fst x < t)%Z -> no_snowfall info (snd x))).
  assert (HQ : Forall2 Q rows rows').
  { clear -H Sn. induction H as [|x y l l' Hxy _ IH]; [constructor|]. inversion Sn; subst. constructor; [split; assumption|apply IH; assumption]. }
  assert (R := read_gen Q (p_start_date p) end_date rows rows' (fun x y h => proj1 (proj1 h))).
  assert (HP : forall x y, Q x y -> Q (prepare_row x) (prepare_row y)).
  { intros x y ((E & D) & S). split; [|exact S]. split; [exact E|]. destruct D as [D|(D & E1 & E2 & E3 & E4)].
    - left. unfold prepare_row. rewrite D. reflexivity.
    - right. split; [exact D|]. unfold prepare_row, same_precipitation. cbn [snd r_m_pp r_percent_snow r_rho_snow r_t_pp]. rewrite E1, E2, E3, E4. repeat split. }
  specialize (R HP HQ).
  destruct (read_input_data (p_start_date p) end_date rows) as [u|e] eqn:Hu, (read_input_data (p_start_date p) end_date rows') as [u'|e'] eqn:Hu'; cbn in R; try contradiction.
  - destruct R as (K & S). destruct (split_at info _ t u u' S K) as (a & a' & b & -> & -> & F).
    exact (C87_weather_before_the_first_snowfall p end_date cfg info ic mh all_mode rows rows' a a' b Hinfo Hbare Hu Hu' F).
  - unfold pysnobal_run. rewrite Hinfo, Hu, Hu', R. reflexivity.
Qed.
End Weather.

From Coq Require Import Reals Lra.
From Verif Require Import Spec RunMass Run Progress Thm_Progress.
Section Reals.
Local Open Scope R_scope.
(** The same over the reals: the initial snow depth is zero and no record between the start and [t] has any snow in it. *)
Theorem C87_over_the_reals (p : Params R) end_date cfg ic mh all_mode t rows rows' :
  valid_setup p cfg ic -> is_z_s ic = 0 ->
  Forall2 (before_may_differ t) rows rows' ->
  Forall (fun r => (p_start_date p <= fst r < t)%Z -> r_m_pp (snd r) * r_percent_snow (snd r) <= 0) rows ->
  pysnobal_run p end_date cfg ic mh all_mode rows = pysnobal_run p end_date cfg ic mh all_mode rows'.
Proof.
  intros Hv Hz H Sn. destruct (parse_time_steps cfg) as [info|e] eqn:Hi; [|unfold pysnobal_run; rewrite Hi; reflexivity].
  apply (C87_weather_in_the_file p end_date cfg info ic mh all_mode t rows rows' Hi); [|exact H|].
  - intros env c0 H0. exact (proj1 (init_bare _ _ _ _ _ _ _ _ Hv Hi Hz H0)).
  - revert Sn. apply Forall_impl. intros r Hr Hd. specialize (Hr Hd).
    assert (Ho : ordered_steps cfg) by (destruct Hv; assumption). destruct Ho as (O1 & O2 & O3).
    assert (Hpos : Forall (fun ts => (0 <= ts_per_timestep ts)%Z) info).
    { unfold parse_time_steps in Hi. inv_bind Hi as a Ha. inv_bind Hi as b Hb. inv_bind Hi as e He. injection Hi as <-.
      assert (D : forall x y z, int_div x y = Ok z -> (0 <= x)%Z -> (0 < y)%Z -> (0 <= z)%Z).
      { intros x y z Hd' Hx Hy. unfold int_div in Hd'. destruct (y =? 0)%Z; [discriminate|]. injection Hd' as <-. apply Z.quot_pos; lia. }
      repeat constructor; cbn; [lia|apply (D _ _ _ Ha); lia|apply (D _ _ _ He); lia]. }
    split; [apply (proj2 (Rltb_false _ _)); rn; lra|].
    revert Hpos. apply Forall_impl. intros ts Ht. apply (proj2 (Rltb_false _ _)). rn. unfold Rdiv.
    destruct (Z.eq_dec (ts_per_timestep ts) 0) as [E0|E0].
    { rewrite E0. replace (IZR 0) with 0 by reflexivity. rewrite Rinv_0. lra. }
    assert (0 < / IZR (ts_per_timestep ts)) by (apply Rinv_0_lt_compat, IZR_lt; lia). nra.
Qed.
End Reals.

(** ** Concrete case: two hours without precipitation, then snow.  The weather of the first two records, missing altogether
    (nan) in the second file, makes no difference: both runs give the same three lines, the last of them with snow. *)
From Coq Require Import Floats.
From Verif Require Import FloatNum Thm_Schedule.
Section Floats.
Open Scope float_scope.
Definition late_snow (weather : float) : list (CsvRow (T:=float)) :=
  [(0%Z, mkRaw weather weather weather weather weather weather 0 0 0 (-1));
   (60%Z, mkRaw weather weather weather weather weather weather 3 0 0 2);
   (120%Z, mkRaw 50 250 (-5) 300 2 (-2) 5 1 100 (-1)); (180%Z, mkRaw 50 250 (-6) 300 2 (-2) 0 0 0 (-1))].
Definition bare_start : InitSnow float := mkInitSnow 0 0 0 0 0 0.0078125.
Definition snow_lines (rows : list (CsvRow (T:=float))) : list (Z * bool) :=
  match pysnobal_run w_params 1000 w_even bare_start w_heights false rows with
  | Ok out => map (fun l => (fst l, match find (fun kv => String.eqb (fst kv) "z_s") (snd l) with Some (_, Some z) => PrimFloat.ltb 0 z | _ => false end)) out
  | Err _ => [] end.
Example C87_witness : snow_lines (late_snow nan) = [(60, false); (120, false); (180, true)]%Z /\ snow_lines (late_snow 4) = [(60, false); (120, false); (180, true)]%Z /\
  Forall2 (before_may_differ 120) (late_snow nan) (late_snow 4) /\
  match parse_time_steps w_even with
  | Ok info =>
      match snobal_init w_params info bare_start w_heights false with Ok (env, c0) => layer_count (c_ss c0) = 0%nat | Err _ => False end /\
      Forall (fun r => (p_start_date w_params <= fst r < 120)%Z -> no_snowfall info (snd r)) (late_snow nan)
  | Err _ => False end.
Proof.
  split; [vm_compute; reflexivity|]. split; [vm_compute; reflexivity|]. split.
  - unfold late_snow. constructor; [split; [reflexivity|right; split; [reflexivity|repeat split]]|].
    constructor; [split; [reflexivity|right; split; [reflexivity|repeat split]]|]. constructor; [split; [reflexivity|left; reflexivity]|].
    constructor; [split; [reflexivity|left; reflexivity]|constructor].
  - assert (E : parse_time_steps w_even = Ok match parse_time_steps w_even with Ok i => i | Err _ => [] end) by (vm_compute; reflexivity).
    rewrite E. split; [vm_compute; reflexivity|]. unfold late_snow.
    constructor; [intros _; split; [vm_compute; reflexivity|repeat (constructor; [vm_compute; reflexivity|]); constructor]|].
    constructor; [intros _; split; [vm_compute; reflexivity|repeat (constructor; [vm_compute; reflexivity|]); constructor]|].
    constructor; [cbn [fst]; lia|]. constructor; [cbn [fst]; lia|constructor].
Qed.
End Floats.

Print Assumptions C87_weather_before_the_first_snowfall.
Print Assumptions C87_weather_in_the_file.
Print Assumptions C87_over_the_reals.
