(** * Theorem C63: output_mode only selects what is written.

    The file of the normal mode is a summary of the file of the 'all' mode, and
    either both runs write a file or both stop with the same exception. *)
From Coq Require Import Reals String ZArith Bool Lia Lra List.
Import ListNotations.
From Verif Require Import Num Real Constants Functions Libsnobal Input SnowState Snobal PySnobal
  SchedSpec Sched Frame SchedProps Spec Averages Forcing RunMass Run Strip Modes Thm_Schedule Thm_Api.
Open Scope R_scope.

(** ** Specification: files as lists of lines (date, named cells) *)
Definition Line : Type := (Z * list (string * option R))%type.
Definition cell (k : string) (l : Line) : option R :=
  match find (fun kv => String.eqb (fst kv) k) (snd l) with Some kv => snd kv | None => None end.
(** the number in that cell *)
Definition num (k : string) (l : Line) : R := match cell k l with Some v => v | None => 0 end.

Definition state_columns : list string :=
  ["cc_s_0"; "cc_s_l"; "cc_s"; "z_s_0"; "z_s_l"; "z_s"; "rho"; "m_s_0"; "m_s_l"; "m_s"; "h2o"; "t_s_0"; "t_s_l"; "t_s"]%string.
Definition total_columns : list string := ["E_s"; "melt"; "swi"]%string.
Definition mean_columns : list string := ["R_n"; "H"; "L_v_E"; "G"; "M"; "delta_Q"; "G_0"; "delta_Q_0"]%string.

(** value times duration, summed over consecutive lines; a line covers the time
    since the line before it ([prev] for the first) *)
Fixpoint integral (k : string) (prev : Z) (ls : list Line) : R :=
  match ls with
  | [] => 0
  | l :: rest => num k l * IZR (fst l - prev) + integral k (fst l) rest
  end.

(** the line [r] summarises the consecutive lines [ls], which start at time [prev] *)
Definition summarises (prev : Z) (ls : list Line) (r : Line) : Prop :=
  ls <> [] /\ (prev < fst r)%Z /\
  fst r = fst (last ls r) /\
  (forall k, In k state_columns -> cell k r = cell k (last ls r)) /\
  (forall k, In k total_columns -> cell k r = Some (sum_over (num k) ls)) /\
  (forall k, In k mean_columns -> exists v, cell k r = Some v /\ v * IZR (fst r - prev) = integral k prev ls).

Inductive summary_of : Z -> list Line -> list Line -> Prop :=
| summary_nil d : summary_of d [] []
| summary_cons d ls r fine coarse :
    summarises d ls r -> summary_of (fst r) fine coarse -> summary_of d (ls ++ fine) (r :: coarse).

(** ** One data step *)
Definition line (o : OutRec R) : Line := (o_date o, csv_row (o_state o)).
Definition fine_line (e : Event R) : Line :=
  ((e_start e + ts_minutes (e_tstep e))%Z, csv_row (value_to_bar (e_after e))).

Lemma same_snow_erase (s t : SnowState R) : same_snow s t -> erase s = erase t.
Proof. intros (b & m & e & w & ->). reflexivity. Qed.

Lemma chain_end s t evs s' t' l : chain (T:=R) s t evs s' t' -> evs <> [] ->
  exists e, last (map fine_line evs) l = fine_line e /\ erase (e_after e) = erase s' /\ (e_start e + ts_minutes (e_tstep e))%Z = t'.
Proof.
  induction 1 as [s t|e evs s1 s' t' Hs Hch IH]; intros Hn; [congruence|].
  destruct evs as [|e2 evs].
  - inversion Hch; subst. exists e. cbn. split; [reflexivity|]. split; [apply same_snow_erase; assumption|reflexivity].
  - destruct IH as (x & E & E2 & E3); [discriminate|]. exists x. split; [|auto]. rewrite <- E. reflexivity.
Qed.

Lemma state_cell (s s' : SnowState R) d d' k : erase s = erase s' -> In k state_columns ->
  cell k (d, csv_row s) = cell k (d', csv_row s').
Proof.
  intros E Hk.
  pose proof (fun (A : Type) (f : SnowState R -> A) => f_equal f E) as F.
  unfold cell. cbn [snd]. rewrite !C43_columns.
  pose proof (F _ cc_s_0) as E1. pose proof (F _ cc_s_l) as E2. pose proof (F _ z_s_0) as E3. pose proof (F _ z_s_l) as E4.
  pose proof (F _ z_s) as E5. pose proof (F _ rho) as E6. pose proof (F _ m_s_0) as E7. pose proof (F _ m_s_l) as E8.
  pose proof (F _ m_s) as E9. pose proof (F _ h2o) as E10. pose proof (F _ t_s_0) as E11. pose proof (F _ t_s_l) as E12.
  pose proof (F _ t_s) as E13. clear F. unfold erase in E1, E2, E3, E4, E5, E6, E7, E8, E9, E10, E11, E12, E13.
  cbn [cc_s_0 cc_s_l z_s_0 z_s_l z_s rho m_s_0 m_s_l m_s h2o t_s_0 t_s_l t_s set_bar set_melt_sum set_E_s_sum set_swi_sum] in E1, E2, E3, E4, E5, E6, E7, E8, E9, E10, E11, E12, E13.
  repeat (destruct Hk as [<-|Hk]; [cbn [find fst snd String.eqb Ascii.eqb Bool.eqb]; congruence|]). destruct Hk.
Qed.

Definition energy_of (k : string) : Energy R -> R :=
  match k with
  | "R_n" => R_n | "H" => H_ | "L_v_E" => L_v_E | "G" => G_ | "M" => M_ | "delta_Q" => delta_Q
  | "G_0" => G_0 | _ => delta_Q_0
  end%string.
Definition mass_of (k : string) : SnowState R -> R :=
  match k with "E_s" => E_s | "melt" => melt | _ => swi end%string.

Lemma mean_cell (s : SnowState R) d k : In k mean_columns ->
  cell k (d, csv_row s) = Some (energy_of k (bar s)) /\ In (energy_of k) energy_terms.
Proof.
  intros Hk. unfold cell. cbn [snd]. rewrite C43_columns.
  repeat (destruct Hk as [<-|Hk]; [split; [reflexivity|cbn; tauto]|]). destruct Hk.
Qed.
Lemma total_cell (s : SnowState R) d k evs : In k total_columns -> holds_averages s evs ->
  cell k (d, csv_row s) = Some (sum_over (fun e => mass_of k (e_after e)) evs).
Proof.
  intros Hk (_ & E1 & E2 & E3). unfold cell. cbn [snd]. rewrite C43_columns. destruct Hk as [<-|[<-|[<-|[]]]]; cbn [find fst snd String.eqb Ascii.eqb Bool.eqb mass_of]; rewrite ?E1, ?E2, ?E3; reflexivity.
Qed.
Lemma fine_num k e : In k total_columns -> num k (fine_line e) = mass_of k (e_after e).
Proof. intros Hk. unfold num, cell, fine_line. cbn [snd]. rewrite C43_columns. destruct Hk as [<-|[<-|[<-|[]]]]; reflexivity. Qed.
Lemma fine_mean k e : In k mean_columns -> num k (fine_line e) = energy_of k (en (e_after e)).
Proof. intros Hk. unfold num, cell, fine_line. cbn [snd]. rewrite C43_columns. repeat (destruct Hk as [<-|Hk]; [reflexivity|]). destruct Hk. Qed.

Lemma integral_chain k s t evs s' t' : In k mean_columns -> chain (T:=R) s t evs s' t' ->
  integral k t (map fine_line evs) = sum_over (fun e => energy_of k (en (e_after e)) * IZR (ts_minutes (e_tstep e))) evs.
Proof.
  intros Hk. induction 1 as [s t|e evs s1 s' t' Hs Hch IH]; [reflexivity|].
  cbn [map integral]. rewrite fine_mean by assumption. unfold fine_line at 1 2. cbn [fst]. rewrite IH.
  unfold sum_over at 2. cbn [fold_right]. fold (sum_over (fun e => energy_of k (en (e_after e)) * IZR (ts_minutes (e_tstep e))) evs).
  f_equal. f_equal. f_equal. lia.
Qed.

Lemma same_events_sum (g : SnowState R -> R) (h : TStep R -> R) es fs :
  (forall s, g s = g (erase s)) -> Forall2 same_event es fs ->
  sum_over (fun e => g (e_after e) * h (e_tstep e)) es = sum_over (fun e => g (e_after e) * h (e_tstep e)) fs.
Proof.
  intros Hg. induction 1 as [|e f es fs (E1 & _ & _ & _ & _ & E6) Hf IH]; [reflexivity|].
  unfold sum_over in *. cbn [fold_right]. rewrite IH, E1, (Hg (e_after e)), E6, <- Hg. reflexivity.
Qed.

Lemma fall_split {A B} (P : A -> B -> Prop) a b a' b' :
  Forall2 P a a' -> Forall2 P (a ++ b) (a' ++ b') -> Forall2 P b b'.
Proof. induction 1; cbn; intros K; [exact K|]. inversion K; subst. auto. Qed.

Definition clock_ok (e : Event R) : Prop := ts_time_step (e_tstep e) = (60 * ts_minutes (e_tstep e))%Z /\ (0 < ts_minutes (e_tstep e))%Z.

Lemma sum_pos evs : evs <> [] -> Forall clock_ok evs -> 0 < sum_over (fun e => IZR (ts_minutes (e_tstep e))) evs.
Proof.
  intros Hne Hf. destruct Hf as [|e evs (_ & He) Hf]; [congruence|]. unfold sum_over. cbn [fold_right]. apply IZR_lt in He.
  assert (0 <= fold_right (fun x a => IZR (ts_minutes (e_tstep x)) + a) 0 evs); [|lra]. clear - Hf.
  induction Hf as [|x l (_ & Hx) Hl IH]; cbn; [lra|]. apply IZR_lt in Hx. lra.
Qed.

Lemma summarises_step cfg e c a i1 i2 c' a' : ordered_steps cfg -> configured cfg e ->
  rel c a -> c_time_since_out c = 0%Z ->
  do_data_tstep (with_mode false e) c i1 i2 = Ok c' -> do_data_tstep (with_mode true e) a i1 i2 = Ok a' -> rel c' a' ->
  exists ls, map line (c_outputs a') = map line (c_outputs a) ++ ls /\
    c_outputs c' = c_outputs c ++ [mkOut (c_datetime c') (c_ss c')] /\
    summarises (c_datetime c) ls (line (mkOut (c_datetime c') (c_ss c'))).
Proof.
  intros Ho Hcfg Hrel Ht Hc Ha Hrel'.
  assert (Hc1 : configured cfg (with_mode false e)) by exact Hcfg.
  assert (Hc2 : configured cfg (with_mode true e)) by exact Hcfg.
  pose proof Ho as (Ps & Pm & Pn).
  destruct (outputs_all _ _ _ _ _ _ _ _ (configured_standard _ _ Hc2) eq_refl (proj1 (proj2 (proj2 (proj2 Hrel)))) Ha) as (_ & fs & Hfs & Hout).
  destruct (data_step_clock _ _ _ _ _ _ _ _ (configured_standard _ _ Hc2) Ha) as (fs' & Hfs' & Hsch & Hch & _).
  rewrite <- (steps_between_unique _ _ _ _ Hfs Hfs') in Hch, Hsch. clear fs' Hfs'.
  assert (Hclk : Forall clock_ok fs).
  { apply Forall_forall. intros x Hx. apply (in_map e_tstep) in Hx.
    assert (Q : Forall (fun ts : TStep R => ts_time_step ts = (60 * ts_minutes ts)%Z /\ (0 < ts_minutes ts)%Z) (map e_tstep fs)).
    { refine (schedule_steps _ _ _ (fun ts => ts_time_step ts = (60 * ts_minutes ts)%Z /\ (0 < ts_minutes ts)%Z) _ _ _ _ Hsch);
      cbn -[Z.mul]; split; (reflexivity || lia). }
    rewrite Forall_forall in Q. exact (Q _ Hx). }
  assert (P0 : (0 < ts_time_step (normal_step cfg))%Z) by (cbn -[Z.mul]; lia).
  assert (P1 : (0 < ts_time_step (medium_step cfg))%Z) by (cbn -[Z.mul]; lia).
  assert (P2 : (0 < ts_time_step (small_step cfg))%Z) by (cbn -[Z.mul]; lia).
  destruct (normal_averages _ _ _ _ _ _ _ _ (configured_standard _ _ Hc1) P0 P1 P2 eq_refl Ht Hc) as (es & Hes & Hav).
  assert (Hne : es <> []) by (eapply data_step_nonempty; [exact Ho|exact Hc1|exact Hc|exact Hes]).
  destruct Hav as [?|Hav]; [congruence|].
  assert (Hsame : Forall2 same_event es fs).
  { destruct Hrel as (_ & _ & _ & _ & _ & _ & T1). destruct Hrel' as (_ & _ & _ & _ & _ & _ & T2).
    unfold steps_between in Hes, Hfs. rewrite Hes, Hfs in T2. exact (fall_split _ _ _ _ _ T1 T2). }
  assert (Hnf : fs <> []). { intros ->. inversion Hsame; subst. congruence. }
  exists (map fine_line fs). split; [rewrite Hout, map_app, map_map; reflexivity|].
  split; [exact (C03_one_record_per_data_step _ _ _ _ _ _ Hc1 eq_refl Hc)|].
  destruct Hrel as (R1 & R2 & _). destruct Hrel' as (R1' & R2' & _).
  change (line (mkOut (c_datetime c') (c_ss c'))) with (c_datetime c', csv_row (c_ss c')).
  destruct (chain_end _ _ _ _ _ (c_datetime c', csv_row (c_ss c')) Hch Hnf) as (el & El & Es & Et).
  assert (Hdt : IZR (c_datetime c' - c_datetime c) = sum_over (fun e => IZR (ts_minutes (e_tstep e))) fs).
  { rewrite R2, R2'. clear - Hch. induction Hch as [s t|x l s1 s' t' Hs Hch IH]; [cbn; f_equal; lia|].
    unfold sum_over in *. cbn [fold_right]. rewrite <- IH, <- plus_IZR. f_equal. lia. }
  pose proof (sum_pos _ Hnf Hclk) as Hps.
  split; [destruct fs; [congruence|discriminate]|].
  split. { cbn [fst]. apply lt_IZR. rewrite <- Hdt, minus_IZR in Hps. lra. }
  rewrite El. split; [cbn [fst fine_line]; congruence|].
  split. { intros k Hk. unfold fine_line. apply state_cell; [|assumption]. change (erase (value_to_bar (e_after el))) with (erase (e_after el)). congruence. }
  split.
  - intros k Hk. rewrite (total_cell _ _ _ _ Hk Hav). f_equal. rewrite sum_over_map.
    rewrite (sum_over_ext (fun x => num k (fine_line x)) (fun x => mass_of k (e_after x)) fs) by (intros; apply fine_num; assumption).
    rewrite (sum_over_ext (fun e => mass_of k (e_after e)) (fun e => mass_of k (e_after e) * (fun _ : TStep R => 1) (e_tstep e)) es) by (intros; cbv beta; ring).
    rewrite (same_events_sum (mass_of k) (fun _ => 1) es fs); [|clear - Hk; intros s; destruct Hk as [<-|[<-|[<-|[]]]]; reflexivity|assumption].
    apply sum_over_ext. intros; ring.
  - intros k Hk. destruct (mean_cell (c_ss c') (c_datetime c') k Hk) as (Ec & Hin). eexists. split; [exact Ec|].
    rewrite (proj1 Hav _ Hin). cbn [fst]. rewrite Hdt, R2, (integral_chain _ _ _ _ _ _ Hk Hch).
    unfold time_mean. rewrite (sum_over_ext (fun e => energy_of k (en (e_after e)) * seconds e)
      (fun e => energy_of k (en (e_after e)) * (fun ts => IZR (ts_time_step ts)) (e_tstep e)) es) by reflexivity.
    rewrite (same_events_sum (fun s => energy_of k (en s)) (fun ts => IZR (ts_time_step ts)) es fs) by (reflexivity || assumption).
    rewrite (sum_over_ext seconds (fun e => 1 * (fun ts => IZR (ts_time_step ts)) (e_tstep e)) es) by (intros; unfold seconds; cbv beta; ring).
    rewrite (same_events_sum (fun _ => 1) (fun ts => IZR (ts_time_step ts)) es fs) by (reflexivity || assumption).
    assert (K : forall g : Event R -> R, sum_over (fun x => g x * IZR (ts_time_step (e_tstep x))) fs = 60 * sum_over (fun x => g x * IZR (ts_minutes (e_tstep x))) fs).
    { intros g. rewrite <- sum_over_scal. apply sum_over_ext. intros x Hx. rewrite Forall_forall in Hclk. destruct (Hclk _ Hx) as (-> & _).
      rewrite mult_IZR. ring. }
    rewrite (K (fun e => energy_of k (en (e_after e)))), (K (fun _ => 1)).
    rewrite (sum_over_ext (fun x => 1 * IZR (ts_minutes (e_tstep x))) (fun x => IZR (ts_minutes (e_tstep x))) fs) by (intros; ring).
    field. lra.
Qed.

(** ** Whole runs *)
Lemma run_modes cfg e : ordered_steps cfg -> configured cfg e -> forall raws c a i1,
  rel c a -> c_time_since_out c = 0%Z ->
  rres (fun c' a' => exists fine coarse, map line (c_outputs a') = map line (c_outputs a) ++ fine /\
      map line (c_outputs c') = map line (c_outputs c) ++ coarse /\ summary_of (c_datetime c) fine coarse)
    (run_steps (with_mode false e) c i1 raws) (run_steps (with_mode true e) a i1 raws).
Proof.
  intros Ho Hcfg. induction raws as [|r raws IH]; intros c a i1 Hrel Ht.
  - cbn. exists [], []. rewrite !app_nil_r. repeat split. constructor.
  - cbn [run_steps]. apply rres_same. intros i2 Hi2.
    pose proof (data_modes e c a i1 i2 (ordered_fine _ _ Ho Hcfg) Hrel) as Hd.
    destruct (do_data_tstep (with_mode false e) c i1 i2) as [c1|x] eqn:Ec, (do_data_tstep (with_mode true e) a i1 i2) as [a1|x'] eqn:Ea;
      cbn in Hd; try contradiction; [|exact Hd]. cbn [bind].
    destruct (summarises_step _ _ _ _ _ _ _ _ Ho Hcfg Hrel Ht Ec Ea Hd) as (ls & E1 & E2 & Hs).
    assert (Ht1 : c_time_since_out c1 = 0%Z).
    { refine (proj2 (outputs_normal _ _ _ _ _ _ _ _ (configured_standard cfg (with_mode false e) Hcfg) eq_refl Ec)). }
    refine (rres_impl _ _ _ _ _ (IH c1 a1 i2 Hd Ht1)). cbn. intros c2 a2 (fine & coarse & F1 & F2 & F3).
    exists (ls ++ fine), (line (mkOut (c_datetime c1) (c_ss c1)) :: coarse).
    rewrite F1, F2, E1, E2, map_app. cbn [map]. rewrite <- !app_assoc. repeat split. constructor; assumption.
Qed.

Lemma summary_nonempty d fine coarse : summary_of d fine coarse -> fine = [] <-> coarse = [].
Proof.
  destruct 1 as [|d ls r fine coarse (Hn & _) _]; [tauto|]. split; [|discriminate].
  intros E. apply app_eq_nil in E. destruct E; congruence.
Qed.

(** C63 *)
Theorem C63_output_mode_only_selects (p : Params R) end_date cfg ic mh rows :
  ordered_steps cfg ->
  rres (fun coarse fine => summary_of (p_start_date p) fine coarse)
    (pysnobal_run p end_date cfg ic mh false rows) (pysnobal_run p end_date cfg ic mh true rows).
Proof.
  intros Ho. unfold pysnobal_run. apply rres_same. intros info Hinfo. apply rres_same. intros used _.
  unfold simulate. destruct (negb (distinct_dates (map fst used))); [reflexivity|].
  destruct used as [|r0 rest]; [reflexivity|].
  rewrite !bind_assoc. apply rres_same. intros i1 _.
  assert (Hinit : rres (fun x y => exists e, fst x = with_mode false e /\ fst y = with_mode true e /\ configured cfg e /\
             rel (snd x) (snd y) /\ c_time_since_out (snd x) = 0%Z /\ c_datetime (snd x) = p_start_date p /\
             c_outputs (snd x) = [] /\ c_outputs (snd y) = [])
           (snobal_init p info ic mh false) (snobal_init p info ic mh true)).
  { unfold snobal_init. apply rres_same. intros pa _. apply rres_same. intros s _. apply rres_same. intros s1 _. cbn.
    exists (mkEnv info pa mh false false). repeat split; try assumption; try reflexivity; try (cbn; lia). constructor. }
  rewrite !bind_assoc. eapply rres_bind; [exact Hinit|]. clear Hinit.
  intros [e1 c0] [e2 a0] (e & E1 & E2 & Hcfg & Hrel & Ht & Hd & O1 & O2). cbn [fst snd] in *. subst e1 e2.
  pose proof (run_modes cfg e Ho Hcfg (map snd rest) c0 a0 i1 Hrel Ht) as Hrun.
  destruct (run_steps (with_mode false e) c0 i1 (map snd rest)) as [c|x] eqn:Ec,
           (run_steps (with_mode true e) a0 i1 (map snd rest)) as [a|x'] eqn:Ea; cbn in Hrun; try contradiction; [|exact Hrun].
  cbn [bind]. destruct Hrun as (fine & coarse & F1 & F2 & Hs). rewrite O1 in F2. rewrite O2 in F1. cbn [map app] in F1, F2.
  pose proof Ho as (Ps & Pm & Pn).
  assert (Hc1 : configured cfg (with_mode false e)) by exact Hcfg.
  assert (Hc2 : configured cfg (with_mode true e)) by exact Hcfg.
  assert (Sc : sorted_by o_date (c_outputs c)).
  { destruct (run_steps_outputs cfg (with_mode false e)) with (raws := map snd rest) (c := c0) (i1 := i1) (c' := c) as (_ & outs & E & S & _); try assumption; try lia; auto.
    rewrite E, O1. exact S. }
  assert (Sa : sorted_by o_date (c_outputs a)).
  { destruct (run_steps_outputs cfg (with_mode true e)) with (raws := map snd rest) (c := a0) (i1 := i1) (c' := a) as (_ & outs & E & S & _); try assumption; try lia.
    - left. apply Hrel.
    - rewrite E, O2. exact S. }
  rewrite Hd in Hs. pose proof (summary_nonempty _ _ _ Hs) as Hne.
  unfold output_to_file.
  assert (N1 : c_outputs c = [] <-> coarse = []). { rewrite <- F2. destruct (c_outputs c); cbn; split; intros; (reflexivity || discriminate). }
  assert (N2 : c_outputs a = [] <-> fine = []). { rewrite <- F1. destruct (c_outputs a); cbn; split; intros; (reflexivity || discriminate). }
  destruct (c_outputs c) as [|o os] eqn:Eo, (c_outputs a) as [|o' os'] eqn:Eo'.
  - reflexivity.
  - exfalso. assert (fine = []) by tauto. assert (o' :: os' = []) by tauto. discriminate.
  - exfalso. assert (coarse = []) by tauto. assert (o :: os = []) by tauto. discriminate.
  - rewrite (sort_id _ _ Sc), (sort_id _ _ Sa). cbn [rres].
    change (map (fun o : OutRec R => (o_date o, csv_row (o_state o)))) with (map line). rewrite F1, F2. exact Hs.
Qed.

(** ** The hypotheses are met: both files exist and are not empty (a snow-free run
    over the reals; in binary64, [thin_run] and [thin_run_all] of Thm_Api are the
    two files of a run over snow with 4 and 8 lines) *)
From Verif Require Import Witness Thm_Progress.

Definition dry_day : list (CsvRow (T:=R)) :=
  [(0%Z, mkRaw 0 200 5 600 2 3 0 0 0 0); (60%Z, mkRaw 0 200 5 600 2 3 0 0 0 0); (120%Z, mkRaw 0 200 5 600 2 3 0 0 0 0)].

Lemma dry_day_file m : exists out, pysnobal_run wp 60 wcfg wic wmh m dry_day = Ok out /\ out <> [].
Proof.
  unfold pysnobal_run. destruct w_info as (info & Hi). rewrite Hi. cbn [bind].
  assert (Hu : read_input_data (p_start_date wp) 60 dry_day = Ok (map prepare_row dry_day)) by reflexivity.
  rewrite Hu. cbn [bind].
  assert (Hv : valid_setup wp wcfg wic) by (apply (w_setup (1/4)); apply w_quarter).
  destruct (C25_snow_free_runs_complete wp wcfg info wic wmh m (map prepare_row dry_day)) as (c & Hc & Hl & _); try assumption.
  - cbn. lra.
  - reflexivity.
  - discriminate.
  - cbn. repeat constructor; cbn; lia || (intros [E|[E|[]]]; discriminate) || (intros [E|[]]; discriminate) || intros [].
  - apply Forall_map. repeat constructor; cbn; lra.
  - rewrite Hc. cbn [bind].
    assert (Ho : c_outputs c <> []).
    { clear - Hc Hi Hv. unfold simulate in Hc. cbn [map dry_day] in Hc. destruct (negb _) in Hc; [discriminate|].
      inv_bind Hc as i1 H1. inv_bind Hc as [env c0] H2. cbn [map run_steps] in Hc. inv_bind Hc as i2 H3. inv_bind Hc as c1 H4.
      inv_bind Hc as i3 H5. inv_bind Hc as c2 H6. injection Hc as <-.
      destruct (init_tso _ _ _ _ _ _ _ H2) as (Ht & _ & _ & _ & Ei & _).
      assert (Hcfg : configured wcfg env) by (unfold configured; rewrite Ei; exact Hi).
      assert (Ht1 : c_time_since_out c1 = 0%Z).
      { refine (reachable_tso env _ _ _ (fun _ _ => True) c0 c1 (configured_standard _ _ Hcfg) Ht _).
        eapply reach_step; [constructor|exact I|exact H4]. }
      refine (data_step_writes wcfg env c1 i2 i3 c2 _ Hcfg Ht1 H6). cbn. unfold descending. cbn. lia. }
    unfold output_to_file. destruct (c_outputs c) as [|o os] eqn:Eo; [congruence|].
    eexists. split; [reflexivity|]. intros E. apply map_eq_nil in E.
    pose proof (sort_perm o_date (o :: os)) as P. rewrite E in P. apply Permutation.Permutation_sym, Permutation.Permutation_nil in P. discriminate.
Qed.

Example C63_witness : exists coarse fine,
  pysnobal_run wp 60 wcfg wic wmh false dry_day = Ok coarse /\ pysnobal_run wp 60 wcfg wic wmh true dry_day = Ok fine /\
  coarse <> [] /\ fine <> [] /\ summary_of 0 fine coarse.
Proof.
  destruct (dry_day_file false) as (coarse & A & A'). destruct (dry_day_file true) as (fine & B & B').
  exists coarse, fine. repeat split; try assumption.
  assert (Hv : valid_setup wp wcfg wic) by (apply (w_setup (1/4)); apply w_quarter).
  pose proof (C63_output_mode_only_selects wp 60 wcfg wic wmh dry_day (vs_steps _ _ _ Hv)) as H. rewrite A, B in H. exact H.
Qed.

Print Assumptions C63_output_mode_only_selects.
