(** * Theorems C39-C43: the PySnobal class: which records a run uses, what it writes *)
From Coq Require Import String ZArith Bool List Lia Permutation Sorting.Sorted.
Import ListNotations.
From Verif Require Import Num Constants Functions Libsnobal Input SnowState Snobal PySnobal SchedSpec Sched SchedProps
  Thm_Schedule Real.

(** ** Sorting *)
Definition sorted_by {A} (key : A -> Z) (l : list A) : Prop := StronglySorted (fun x y => (key x <= key y)%Z) l.

Lemma insert_perm {A} (key : A -> Z) x l : Permutation (x :: l) (insert_by key x l).
Proof.
  induction l as [|y l IH]; cbn; [constructor; constructor|].
  destruct (key x <=? key y)%Z; [apply Permutation_refl|].
  eapply perm_trans; [apply perm_swap|]. constructor. exact IH.
Qed.
Lemma sort_perm {A} (key : A -> Z) l : Permutation l (sort_by key l).
Proof.
  induction l as [|x l IH]; cbn; [constructor|].
  eapply perm_trans; [constructor; exact IH|apply insert_perm].
Qed.
Lemma insert_sorted {A} (key : A -> Z) x l : sorted_by key l -> sorted_by key (insert_by key x l).
Proof.
  induction 1 as [|y l Hs IH Hf]; cbn; [constructor; constructor|].
  destruct (Z.leb_spec (key x) (key y)).
  - constructor; [constructor; assumption|]. constructor; [assumption|].
    eapply Forall_impl; [|exact Hf]. cbn. intros; lia.
  - constructor; [assumption|]. eapply Permutation_Forall; [apply insert_perm|].
    constructor; [lia|assumption].
Qed.
Lemma sort_sorted {A} (key : A -> Z) l : sorted_by key (sort_by key l).
Proof. induction l as [|x l IH]; cbn; [constructor|apply insert_sorted; assumption]. Qed.
Lemma sort_id {A} (key : A -> Z) l : sorted_by key l -> sort_by key l = l.
Proof.
  induction 1 as [|x l Hs IH Hf]; [reflexivity|]. cbn. rewrite IH.
  destruct l as [|y l]; [reflexivity|]. cbn. inversion Hf; subst.
  destruct (Z.leb_spec (key x) (key y)); [reflexivity|lia].
Qed.
Lemma sorted_filter {A} (key : A -> Z) f l : sorted_by key l -> sorted_by key (filter f l).
Proof.
  induction 1 as [|x l Hs IH Hf]; cbn; [constructor|]. destruct (f x); [|assumption].
  constructor; [assumption|]. apply Forall_forall. intros y Hy. apply filter_In in Hy.
  rewrite Forall_forall in Hf. apply Hf, Hy.
Qed.
Lemma perm_filter {A} (f : A -> bool) l l' : Permutation l l' -> Permutation (filter f l) (filter f l').
Proof.
  induction 1 as [|x l l' _ IH|x y l|l l' l'' _ IH1 _ IH2]; cbn.
  - constructor.
  - destruct (f x); [constructor; assumption|assumption].
  - destruct (f x), (f y); try apply Permutation_refl. apply perm_swap.
  - eapply perm_trans; eassumption.
Qed.
Lemma sorted_map {A B} (ka : A -> Z) (kb : B -> Z) (g : A -> B) l :
  (forall a, kb (g a) = ka a) -> sorted_by ka l -> sorted_by kb (map g l).
Proof.
  intros Hg. induction 1 as [|x l Hs IH Hf]; cbn; [constructor|]. constructor; [assumption|].
  apply Forall_map. eapply Forall_impl; [|exact Hf]. cbn. intros. rewrite !Hg. assumption.
Qed.
Lemma sorted_app {A} (key : A -> Z) l l' : sorted_by key l -> sorted_by key l' ->
  (forall x y, In x l -> In y l' -> (key x <= key y)%Z) -> sorted_by key (l ++ l').
Proof.
  intros Hl Hl'. induction Hl as [|x l Hs IH Hf]; intros H; cbn; [assumption|].
  constructor; [apply IH; intros; apply H; cbn; auto|].
  apply Forall_app. split; [assumption|]. apply Forall_forall. intros y Hy. apply H; cbn; auto.
Qed.

Section Any.
Context {T : Type} {N : Num T}.
Implicit Types (rows : list (@CsvRow T)).

(** ** C40 *)
(** The record used for a line of the file: temperatures in Kelvin, and precipitation
    that is partly rain not below freezing; everything else as in the file. *)
Definition in_kelvin (line used : @CsvRow T) : Prop :=
  let a := snd line in let b := snd used in let kelvin (t : T) := (t + cst 27316 100)%num in
  fst used = fst line /\ r_S_n b = r_S_n a /\ r_I_lw b = r_I_lw a /\ r_e_a b = r_e_a a /\ r_u b = r_u a /\
  r_m_pp b = r_m_pp a /\ r_percent_snow b = r_percent_snow a /\ r_rho_snow b = r_rho_snow a /\
  r_t_a b = kelvin (r_t_a a) /\ r_t_g b = kelvin (r_t_g a) /\
  (nltb (nofZ 0) (r_m_pp a * (nofZ 1 - r_percent_snow a))%num = true -> nltb (kelvin (r_t_pp a)) (cst 27316 100) = true ->
     r_t_pp b = cst 27316 100) /\
  (nltb (nofZ 0) (r_m_pp a * (nofZ 1 - r_percent_snow a))%num = false \/ nltb (kelvin (r_t_pp a)) (cst 27316 100) = false ->
     r_t_pp b = kelvin (r_t_pp a)).

Theorem C40_input_window start_date end_date rows used :
  read_input_data start_date end_date rows = Ok used ->
  exists r0 r1 rest kept, rows = r0 :: r1 :: rest /\
    let in_window := fun r : @CsvRow T => (start_date <=? fst r)%Z && (fst r <=? end_date + (fst r1 - fst r0))%Z in
    Permutation kept (filter in_window rows) /\ sorted_by fst kept /\ Forall2 in_kelvin kept used.
Proof.
  unfold read_input_data, clip_rows. destruct rows as [|r0 [|r1 rest]]; try discriminate.
  intros H. ok_inj H; subst used.
  set (l := r0 :: r1 :: rest).
  set (f := fun r : @CsvRow T => (start_date <=? fst r)%Z && (fst r <=? end_date + (fst r1 - fst r0))%Z).
  exists r0, r1, rest, (filter f (sort_by fst l)). split; [reflexivity|]. cbv zeta. split; [|split].
  - apply perm_filter, Permutation_sym, sort_perm.
  - apply sorted_filter, sort_sorted.
  - change (Forall2 in_kelvin (filter f (sort_by fst l)) (map prepare_row (filter f (sort_by fst l)))).
    induction (filter f (sort_by fst l)) as [|x xs IH]; cbn [map]; constructor; [|exact IH].
    unfold in_kelvin, prepare_row. cbn [fst snd r_S_n r_I_lw r_t_a r_e_a r_u r_t_g r_m_pp r_percent_snow r_rho_snow r_t_pp].
    fold (FREEZE (T:=T)). repeat (split; [reflexivity|]). split.
    + intros -> ->. reflexivity.
    + intros [-> | ->]; [|rewrite andb_false_r]; reflexivity.
Qed.

(** the order of the rows after the second one in the file does not matter
    (as long as no two rows have the same date: otherwise the run raises, see below) *)
Lemma sorted_perm_eq {A} (key : A -> Z) l : forall l', sorted_by key l -> sorted_by key l' ->
  NoDup (map key l) -> Permutation l l' -> l = l'.
Proof.
  induction l as [|x l IH]; intros l' Hl Hl' Hn Hp.
  - apply Permutation_nil in Hp. congruence.
  - destruct l' as [|y l']; [apply Permutation_sym, Permutation_nil in Hp; discriminate|].
    inversion Hl as [|? ? Hs Hf]; subst. inversion Hl' as [|? ? Hs' Hf']; subst.
    cbn in Hn. inversion Hn as [|? ? Hni Hnd]; subst.
    assert (E : x = y).
    { assert (In y (x :: l)) as [E|Hy] by (eapply Permutation_in; [apply Permutation_sym; exact Hp|left; reflexivity]); [assumption|].
      assert (In x (y :: l')) as [E|Hx] by (eapply Permutation_in; [exact Hp|left; reflexivity]); [congruence|].
      rewrite Forall_forall in Hf, Hf'. specialize (Hf _ Hy). specialize (Hf' _ Hx). cbn in Hf, Hf'.
      exfalso. apply Hni. replace (key x) with (key y) by lia. apply in_map. assumption. }
    subst y. f_equal. apply Permutation_cons_inv in Hp. apply IH; assumption.
Qed.

Theorem C40_file_order_is_irrelevant start_date end_date r0 r1 rest rest' :
  NoDup (map fst (r0 :: r1 :: rest)) -> Permutation rest rest' ->
  read_input_data start_date end_date (r0 :: r1 :: rest) = read_input_data start_date end_date (r0 :: r1 :: rest').
Proof.
  intros Hn Hp. unfold read_input_data, clip_rows. cbn [bind].
  replace (sort_by fst (r0 :: r1 :: rest')) with (sort_by fst (r0 :: r1 :: rest)); [reflexivity|].
  apply sorted_perm_eq with (key := fst); try apply sort_sorted.
  - eapply Permutation_NoDup; [apply Permutation_map, sort_perm|assumption].
  - eapply perm_trans; [apply Permutation_sym, sort_perm|]. eapply perm_trans; [|apply sort_perm].
    do 2 constructor. assumption.
Qed.

(** the interval is taken from the first two rows as they stand in the file: a file in
    reverse order is clipped before the end date *)
Theorem C40_reversed_file_is_clipped_short start_date end_date rows r0 r1 rest used :
  rows = r0 :: r1 :: rest -> (fst r1 < fst r0)%Z -> read_input_data start_date end_date rows = Ok used ->
  Forall (fun r : @CsvRow T => (fst r < end_date)%Z) used.
Proof.
  intros -> Hlt H. destruct (C40_input_window _ _ _ _ H) as (a & b & l & kept & E & Hp & _ & Hk). injection E as <- <- <-.
  assert (Hf : Forall (fun r : @CsvRow T => (fst r < end_date)%Z) kept).
  2: { clear - Hf Hk. induction Hk as [|x y xs ys (E & _) _ IH]; constructor; inversion Hf; subst; [rewrite E; assumption|apply IH; assumption]. }
  apply Permutation_sym in Hp. eapply Permutation_Forall; [exact Hp|]. apply Forall_forall.
  intros r Hr. apply filter_In in Hr. destruct Hr as (_ & Hr). apply andb_true_iff in Hr. destruct Hr as (_ & Hr).
  apply Z.leb_le in Hr. cbn. lia.
Qed.

(** dates [start + d], [start + 2 d], ... *)
Fixpoint every (d start : Z) (n : nat) : list Z :=
  match n with O => [] | S m => (start + d)%Z :: every d (start + d) m end.

Lemma run_steps_dates cfg env : divides_evenly cfg -> configured cfg env -> ev_output_divided env = false ->
  forall raws c i1 c', run_steps env c i1 raws = Ok c' ->
  exists outs, c_outputs c' = c_outputs c ++ outs /\ map o_date outs = every (cfg_norm cfg) (c_datetime c) (length raws).
Proof.
  intros Hdiv Hcfg Hm. induction raws as [|r raws IH]; intros c i1 c' H.
  - injection H as <-. exists []. rewrite app_nil_r. split; reflexivity.
  - cbn [run_steps] in H. inv_bind H as i2 Hi2. inv_bind H as c1 Hc1.
    destruct (IH _ _ _ H) as (outs & Ho & Hd).
    pose proof (C03_one_record_per_data_step _ _ _ _ _ _ Hcfg Hm Hc1) as E.
    pose proof (C01_clock_advances_one_normal_step _ _ _ _ _ _ Hdiv Hcfg Hc1) as Et.
    exists (mkOut (c_datetime c1) (c_ss c1) :: outs). rewrite Ho, E, <- app_assoc. split; [reflexivity|].
    cbn [map length every o_date]. rewrite Hd, Et. reflexivity.
Qed.

Lemma every_sorted d : (0 <= d)%Z -> forall n a, StronglySorted Z.le (every d a n) /\ Forall (fun x => (a <= x)%Z) (every d a n).
Proof.
  intros Hd. induction n as [|n IH]; intros a; cbn; [split; constructor|].
  destruct (IH (a + d)%Z) as (H1 & H2). split; [constructor; assumption|].
  constructor; [lia|]. eapply Forall_impl; [|exact H2]. cbn. intros; lia.
Qed.
Lemma sorted_by_map {A} (key : A -> Z) l : StronglySorted Z.le (map key l) -> sorted_by key l.
Proof.
  induction l as [|x l IH]; cbn; intros H; [constructor|]. inversion H; subst.
  constructor; [apply IH; assumption|]. apply (proj1 (Forall_map key (Z.le (key x)) l)) in H3. exact H3.
Qed.

Lemma pysnobal_run_inv (p : Params T) end_date cfg ic mh all_mode rows out :
  pysnobal_run p end_date cfg ic mh all_mode rows = Ok out ->
  exists info used i1 r0 rest env c0 c,
    parse_time_steps cfg = Ok info /\ read_input_data (p_start_date p) end_date rows = Ok used /\
    used = r0 :: rest /\ NoDup (map fst used) /\ input_data (snd r0) = Ok i1 /\
    snobal_init p info ic mh all_mode = Ok (env, c0) /\ run_steps env c0 i1 (map snd rest) = Ok c /\
    c_outputs c <> [] /\
    out = map (fun o => (o_date o, csv_row (o_state o))) (sort_by o_date (c_outputs c)).
Proof.
  unfold pysnobal_run. intros H. inv_bind H as info Hi. inv_bind H as used Hu. inv_bind H as c Hc.
  unfold simulate in Hc. destruct (distinct_dates (map fst used)) eqn:Hd; cbn [negb] in Hc; [|discriminate].
  destruct used as [|r0 rest]; [discriminate|]. inv_bind Hc as i1 Hi1. inv_bind Hc as x Hx. destruct x as (env, c0).
  exists info, (r0 :: rest), i1, r0, rest, env, c0, c.
  assert (Hnd : NoDup (map fst (r0 :: rest))).
  { revert Hd. generalize (map fst (r0 :: rest)). intros l. induction l as [|x l IH]; cbn; [constructor|].
    intros E. apply andb_true_iff in E. destruct E as (E1 & E2). constructor; [|auto].
    intros Hin. apply negb_true_iff in E1. rewrite <- not_true_iff_false in E1. apply E1.
    apply existsb_exists. exists x. split; [assumption|apply Z.eqb_refl]. }
  unfold output_to_file in H. destruct (c_outputs c) as [|o os] eqn:Eo; [discriminate|]. rewrite <- Eo in *.
  injection H as <-. repeat split; try assumption. rewrite Eo. discriminate.
Qed.

Theorem C40_number_and_dates_of_results (p : Params T) end_date cfg ic mh rows out :
  divides_evenly cfg -> pysnobal_run p end_date cfg ic mh false rows = Ok out ->
  exists used, read_input_data (p_start_date p) end_date rows = Ok used /\ (2 <= length used)%nat /\
    length out = (length used - 1)%nat /\
    map fst out = every (cfg_norm cfg) (p_start_date p) (length used - 1).
Proof.
  intros Hdiv H. destruct (pysnobal_run_inv _ _ _ _ _ _ _ _ H)
    as (info & used & i1 & r0 & rest & env & c0 & c & Hi & Hu & Eu & _ & Hi1 & Hinit & Hrun & Hne & ->).
  exists used. split; [assumption|]. destruct (init_tso _ _ _ _ _ _ _ Hinit) as (_ & Hdt & Ho & _ & Ei & Em & _).
  assert (Hcfg : configured cfg env) by (unfold configured; rewrite Ei; assumption).
  destruct (run_steps_dates cfg env Hdiv Hcfg Em _ _ _ _ Hrun) as (outs & E & Ed).
  rewrite Ho in E. cbn in E. rewrite Hdt, map_length in Ed. rewrite E in *.
  destruct Hdiv as (Hpos & _). destruct (every_sorted (cfg_norm cfg) ltac:(lia) (length rest) (p_start_date p)) as (Hs & _).
  unfold CsvRow in *. rewrite <- Ed in Hs. rewrite sort_id by (apply sorted_by_map; assumption).
  rewrite map_map, map_length. cbn [fst]. subst used. cbn [length].
  assert (Hl : length outs = length rest).
  { rewrite <- (map_length o_date), Ed. clear. generalize (p_start_date p). induction (length rest); intros; cbn; auto. }
  rewrite Nat.sub_succ, Nat.sub_0_r. repeat split; try assumption.
  destruct outs; [congruence|]. cbn in Hl. lia.
Qed.

(** when the records used start at the start date and follow each other at the normal
    step, the k-th result is stamped with the time of the k-th pair's second record *)
Corollary C40_results_at_record_times (p : Params T) end_date cfg ic mh rows out used :
  divides_evenly cfg -> pysnobal_run p end_date cfg ic mh false rows = Ok out ->
  read_input_data (p_start_date p) end_date rows = Ok used ->
  (exists n, map fst used = p_start_date p :: every (cfg_norm cfg) (p_start_date p) n) ->
  map fst out = tl (map fst used).
Proof.
  intros Hdiv H Hu (n & Hn). destruct (C40_number_and_dates_of_results _ _ _ _ _ _ _ Hdiv H) as (used' & Hu' & _ & _ & ->).
  rewrite Hu in Hu'. injection Hu' as <-. rewrite Hn. cbn [tl]. f_equal.
  apply (f_equal (@length Z)) in Hn. rewrite map_length in Hn. cbn in Hn. unfold CsvRow in *. rewrite Hn.
  rewrite Nat.sub_succ, Nat.sub_0_r. clear. generalize (p_start_date p). induction n; intros; cbn; auto.
Qed.

(** ** C41 *)
Lemma run_steps_app env a b : forall c i1 (c' : Core T), run_steps env c i1 (a ++ b) = Ok c' ->
  exists c1 i, run_steps env c i1 a = Ok c1 /\ run_steps env c1 i b = Ok c'.
Proof.
  induction a as [|r a IH]; intros c i1 c' H; [exists c, i1; split; [reflexivity|assumption]|].
  cbn [app run_steps] in H. inv_bind H as i2 Hi2. inv_bind H as c1 Hc1.
  destruct (IH _ _ _ H) as (c2 & i & H1 & H2). exists c2, i. split; [|assumption].
  cbn [run_steps]. rewrite Hi2. cbn [bind]. rewrite Hc1. exact H1.
Qed.

(** what one data step appends to the output is stamped between the time it starts
    and the time it ends at *)
Lemma data_step_outputs cfg env c i1 i2 c' :
  (0 < cfg_norm cfg)%Z -> (0 < cfg_medium cfg)%Z -> (0 < cfg_small cfg)%Z -> configured cfg env ->
  c_time_since_out c = 0%Z \/ ev_output_divided env = false ->
  do_data_tstep env c i1 i2 = Ok c' ->
  (c_time_since_out c' = 0%Z \/ ev_output_divided env = false) /\
  (c_datetime c <= c_datetime c')%Z /\
  exists outs, c_outputs c' = c_outputs c ++ outs /\ sorted_by o_date outs /\
    Forall (fun o => (c_datetime c <= o_date o <= c_datetime c')%Z) outs.
Proof.
  intros Pn Pm Ps Hcfg Ht H.
  destruct (C02_clock_advances_by_executed_steps _ _ _ _ _ _ Pn Pm Ps Hcfg H) as (evs0 & Hev0 & _ & Hle).
  destruct (ev_output_divided env) eqn:Em.
  - destruct Ht as [Ht|Ht]; [|discriminate].
    destruct (outputs_all _ _ _ _ _ _ _ _ (configured_standard _ _ Hcfg) Em Ht H) as (Ht' & evs & Hev & Hout).
    assert (Hch : chain (c_ss c) (c_datetime c) evs (c_ss c') (c_datetime c')).
    { destruct (data_step_clock _ _ _ _ _ _ _ _ (configured_standard _ _ Hcfg) H) as (evs' & Hev' & _ & Hch & _).
      rewrite (steps_between_unique _ _ _ _ Hev Hev'). assumption. }
    split; [left; assumption|]. split; [lia|].
    eexists. split; [exact Hout|]. revert Hch. generalize (c_ss c) (c_ss c'). clear Hout Hle.
    assert (Hpos : Forall (fun e => (0 <= ts_minutes (e_tstep e))%Z) evs).
    { destruct (data_step_clock _ _ _ _ _ _ _ _ (configured_standard _ _ Hcfg) H) as (evs' & Hev' & Hsch & _).
      rewrite (steps_between_unique _ _ _ _ Hev Hev'). clear - Hsch Pn Pm Ps.
      apply Forall_forall. intros e He. apply (in_map e_tstep) in He. revert He. generalize (e_tstep e). intros ts He.
      destruct Hsch as [E|(bs & E & _ & Hf)]; rewrite E in He.
      - destruct He as [<-|[]]. cbn. lia.
      - apply in_concat in He. destruct He as (b & Hb & He). rewrite Forall_forall in Hf.
        destruct (Hf _ Hb) as [E2|E2]; rewrite E2 in He; [destruct He as [<-|[]]; cbn; lia|].
        apply repeat_spec in He. subst ts. cbn. lia. }
    revert Hpos. clear. generalize (c_datetime c) (c_datetime c'). intros t t' Hpos s s' Hch.
    induction Hch as [s t|e evs s1 s' t' Hs Hch IH]; [split; constructor|].
    inversion Hpos as [|? ? P1 P2]; subst. destruct (IH P2) as (IH1 & IH2).
    assert (Hle : forall s t evs s' t', chain (T:=T) s t evs s' t' -> Forall (fun e => (0 <= ts_minutes (e_tstep e))%Z) evs -> (t <= t')%Z).
    { clear. induction 1 as [|e evs s1 s' t' Hs Hch IH]; intros Hp; [lia|]. inversion Hp; subst. specialize (IH H2). lia. }
    pose proof (Hle _ _ _ _ _ Hch P2) as L. cbn [map]. split.
    + constructor; [assumption|]. eapply Forall_impl; [|exact IH2]. cbn. intros; lia.
    + constructor; [cbn; lia|]. eapply Forall_impl; [|exact IH2]. cbn. intros; lia.
  - pose proof (C03_one_record_per_data_step _ _ _ _ _ _ Hcfg Em H) as E.
    split; [right; reflexivity|]. split; [lia|]. eexists. split; [exact E|].
    split; [repeat constructor|]. constructor; [cbn; lia|constructor].
Qed.

Lemma run_steps_outputs cfg env :
  (0 < cfg_norm cfg)%Z -> (0 < cfg_medium cfg)%Z -> (0 < cfg_small cfg)%Z -> configured cfg env ->
  forall raws c i1 c', run_steps env c i1 raws = Ok c' ->
  c_time_since_out c = 0%Z \/ ev_output_divided env = false ->
  (c_datetime c <= c_datetime c')%Z /\
  exists outs, c_outputs c' = c_outputs c ++ outs /\ sorted_by o_date outs /\
    Forall (fun o => (c_datetime c <= o_date o <= c_datetime c')%Z) outs.
Proof.
  intros Pn Pm Ps Hcfg. induction raws as [|r raws IH]; intros c i1 c' H Ht.
  - injection H as <-. split; [lia|]. exists []. rewrite app_nil_r. repeat constructor.
  - cbn [run_steps] in H. inv_bind H as i2 Hi2. inv_bind H as c1 Hc1.
    destruct (data_step_outputs _ _ _ _ _ _ Pn Pm Ps Hcfg Ht Hc1) as (Ht1 & L1 & o1 & E1 & S1 & F1).
    destruct (IH _ _ _ H Ht1) as (L2 & o2 & E2 & S2 & F2). split; [lia|].
    exists (o1 ++ o2). split; [rewrite E2, E1, app_assoc; reflexivity|].
    rewrite Forall_forall in F1, F2. split.
    + apply sorted_app; try assumption. intros x y Hx Hy. specialize (F1 _ Hx). specialize (F2 _ Hy). lia.
    + apply Forall_forall. intros x Hx. apply in_app_or in Hx. destruct Hx as [Hx|Hx]; [specialize (F1 _ Hx)|specialize (F2 _ Hx)]; lia.
Qed.

Lemma data_step_appends cfg env c i1 i2 c' : configured cfg env ->
  do_data_tstep env c i1 i2 = Ok c' ->
  exists outs evs, c_outputs c' = c_outputs c ++ outs /\ c_trace c' = c_trace c ++ evs.
Proof.
  intros Hcfg H. destruct (data_step_exec _ _ _ _ _ _ _ _ (configured_standard _ _ Hcfg) H)
    as (ds & l & c1 & i' & _ & Hex & _ & _ & Ho).
  assert (Ha : exists outs evs, c_outputs c1 = c_outputs c ++ outs /\ c_trace c1 = c_trace c ++ evs).
  { clear Ho H. induction Hex as [c i j Hm|ts l c i c1 i1' c2 i2' Hstep _ _ IH].
    - exists [], []. rewrite !app_nil_r. split; reflexivity.
    - destruct IH as (o2 & e2 & E1 & E2). apply do_tstep_inv in Hstep.
      destruct Hstep as (d & s1 & ic & init & s2 & kept & s3 & Hd & He & Hmb & Ha & Hc & Hi).
      destruct (ev_output_divided env).
      + apply output_inv in Hc. destruct Hc as (_ & _ & _ & Ho & _ & Htr). cbn in Ho, Htr.
        rewrite E1, E2, Ho, Htr, <- !app_assoc. eauto.
      + subst c1. rewrite E1, E2. cbn. rewrite <- app_assoc. eauto. }
  destruct Ha as (outs & evs & E1 & E2). destruct (ev_output_divided env).
  - subst c'. eauto.
  - apply output_inv in Ho. destruct Ho as (_ & _ & _ & Ho & _ & Htr). rewrite Ho, Htr, E1, E2, <- app_assoc. eauto.
Qed.
Lemma run_steps_appends cfg env : configured cfg env -> forall raws c i1 c',
  run_steps env c i1 raws = Ok c' ->
  exists outs evs, c_outputs c' = c_outputs c ++ outs /\ c_trace c' = c_trace c ++ evs.
Proof.
  intros Hcfg. induction raws as [|r raws IH]; intros c i1 c' H.
  - injection H as <-. exists [], []. rewrite !app_nil_r. split; reflexivity.
  - cbn [run_steps] in H. inv_bind H as i2 Hi2. inv_bind H as c1 Hc1.
    destruct (data_step_appends _ _ _ _ _ _ Hcfg Hc1) as (o1 & e1 & E1 & E2).
    destruct (IH _ _ _ H) as (o2 & e2 & E3 & E4). rewrite E3, E4, E1, E2, <- !app_assoc. eauto.
Qed.

Lemma distinct_app l l' : distinct_dates (l ++ l') = true -> distinct_dates l = true.
Proof.
  induction l as [|x l IH]; cbn; [reflexivity|]. intros H. apply andb_true_iff in H. destruct H as (H1 & H2).
  rewrite IH by assumption. rewrite existsb_app in H1. apply negb_true_iff, orb_false_iff in H1.
  destruct H1 as (-> & _). reflexivity.
Qed.

(** the run of the first records is a prefix of the run of all of them: same run
    steps, same output records *)
Theorem C41_prefix_of_the_run (p : Params T) cfg info ic mh all_mode rows more c :
  parse_time_steps cfg = Ok info ->
  rows <> [] -> simulate p info ic mh all_mode (rows ++ more) = Ok c ->
  exists c1, simulate p info ic mh all_mode rows = Ok c1 /\
    exists outs evs, c_outputs c = c_outputs c1 ++ outs /\ c_trace c = c_trace c1 ++ evs.
Proof.
  intros Hinfo Hne H. unfold simulate, CsvRow in *.
  destruct (distinct_dates (map fst (rows ++ more))) eqn:Hd; cbn [negb] in H; [|discriminate].
  rewrite map_app in Hd. rewrite (distinct_app _ _ Hd). cbn [negb]. destruct rows as [|r0 rest]; [congruence|]. cbn [app] in H.
  inv_bind H as i1 Hi1. inv_bind H as x Hx. destruct x as (env, c0).
  rewrite Hi1. cbn [bind]. rewrite Hx. cbn [bind].
  rewrite map_app in H. destruct (run_steps_app _ _ _ _ _ _ H) as (c1 & i & H1 & H2).
  exists c1. split; [assumption|]. destruct (init_tso _ _ _ _ _ _ _ Hx) as (_ & _ & _ & _ & Ei & _).
  eapply run_steps_appends; [|exact H2]. unfold configured. rewrite Ei. eassumption.
Qed.

Definition descending (cfg : ModelCfg T) : Prop :=
  (0 < cfg_small cfg /\ cfg_small cfg <= cfg_medium cfg /\ cfg_medium cfg <= cfg_norm cfg)%Z.

Lemma data_step_writes cfg env c i1 i2 c' : descending cfg -> configured cfg env ->
  c_time_since_out c = 0%Z -> do_data_tstep env c i1 i2 = Ok c' -> c_outputs c' <> [].
Proof.
  intros (Ps & Pm & Pn) Hcfg Ht H. destruct (ev_output_divided env) eqn:Em.
  - destruct (outputs_all _ _ _ _ _ _ _ _ (configured_standard _ _ Hcfg) Em Ht H) as (Ht' & evs & Hev & ->).
    destruct (data_step_clock _ _ _ _ _ _ _ _ (configured_standard _ _ Hcfg) H) as (evs' & Hev' & Hsch & _).
    rewrite (steps_between_unique _ _ _ _ Hev Hev'). clear Hev Hev' evs.
    destruct evs' as [|e evs]; [exfalso|destruct (c_outputs c); discriminate].
    assert (G : forall a b, (0 < b)%Z -> (b <= a)%Z -> Z.to_nat (Z.quot a b) <> 0%nat).
    { intros a b Hb Hba. assert (1 <= Z.quot a b)%Z; [|lia].
      rewrite Z.quot_div_nonneg by lia. apply Z.div_le_lower_bound; lia. }
    cbn [map] in Hsch. destruct Hsch as [E|(bs & E & Hlen & Hf)]; [discriminate E|]. destruct bs as [|b bs].
    + cbn in Hlen. symmetry in Hlen. revert Hlen. apply G; lia.
    + inversion Hf as [|? ? Hb _]; subst. cbn in E. symmetry in E. apply app_eq_nil in E. destruct E as [E _].
      rewrite E in Hb. destruct Hb as [Hb|Hb]; [discriminate|].
      apply (f_equal (@length _)) in Hb. rewrite repeat_length in Hb. cbn [length ts_intervals small_step] in Hb.
      symmetry in Hb. revert Hb. apply G; lia.
  - rewrite (C03_one_record_per_data_step _ _ _ _ _ _ Hcfg Em H). destruct (c_outputs c); discriminate.
Qed.

(** the same for the files: ending a run earlier writes the first lines of the longer
    run's file *)
Lemma filter_split start_date (e1 e2 : Z) (l : list (Z * RawInput T)) : sorted_by fst l -> (e1 <= e2)%Z ->
  exists more, filter (fun r => (start_date <=? fst r)%Z && (fst r <=? e2)%Z) l =
    filter (fun r => (start_date <=? fst r)%Z && (fst r <=? e1)%Z) l ++ more.
Proof.
  intros Hs Hle. induction Hs as [|x l Hs IH Hf]; cbn; [exists []; reflexivity|].
  destruct IH as (more & E). destruct (Z.leb_spec start_date (fst x)); cbn [andb]; [|exists more; exact E].
  destruct (Z.leb_spec (fst x) e1).
  - destruct (Z.leb_spec (fst x) e2); [|lia]. rewrite E. exists more. reflexivity.
  - assert (Hn : filter (fun r : Z * RawInput T => (start_date <=? fst r)%Z && (fst r <=? e1)%Z) l = []).
    { clear E.
      induction l as [|y l IHl]; [reflexivity|]. inversion Hf; subst. cbn.
      destruct (Z.leb_spec (fst y) e1); [lia|]. rewrite andb_false_r. apply IHl; [|assumption].
      inversion Hs; assumption. }
    rewrite Hn. cbn. destruct (_ <=? _)%Z; eauto.
Qed.

Theorem C41_ending_earlier_gives_a_prefix (p : Params T) end1 end2 cfg ic mh all_mode rows out used1 :
  descending cfg ->
  pysnobal_run p end2 cfg ic mh all_mode rows = Ok out -> (end1 <= end2)%Z ->
  read_input_data (p_start_date p) end1 rows = Ok used1 -> (2 <= length used1)%nat ->
  exists out1 more, pysnobal_run p end1 cfg ic mh all_mode rows = Ok out1 /\ out = out1 ++ more.
Proof.
  intros Hdesc H Hle Hu1 Hlen. destruct (id Hdesc) as (Ps & Pm & Pn).
  assert (Hne : used1 <> []) by (intros ->; cbn in Hlen; lia).
  destruct (pysnobal_run_inv _ _ _ _ _ _ _ _ H)
    as (info & used & i1 & r0 & rest & env & c0 & c & Hi & Hu & Eu & Hnd & Hi1 & Hinit & Hrun & Hno & ->).
  assert (Hpre : exists more, used = used1 ++ more).
  { unfold read_input_data, clip_rows in Hu, Hu1. destruct rows as [|q0 [|q1 rows]]; try discriminate.
    ok_inj Hu. ok_inj Hu1. rewrite <- Hu, <- Hu1.
    destruct (filter_split (p_start_date p) (end1 + (fst q1 - fst q0)) (end2 + (fst q1 - fst q0)) (sort_by fst (q0 :: q1 :: rows))
                (sort_sorted _ _) ltac:(lia)) as (more & E).
    rewrite E, map_app. eauto. }
  destruct Hpre as (more & Em).
  assert (Hsim : simulate p info ic mh all_mode used = Ok c).
  { unfold pysnobal_run in H. rewrite Hi in H. cbn [bind] in H. rewrite Hu in H. cbn [bind] in H. inv_bind H as c' Hc'.
    rewrite Hc'. unfold simulate in Hc'. destruct (negb _); [discriminate|]. rewrite Eu in Hc'.
    rewrite Hi1 in Hc'. cbn [bind] in Hc'. rewrite Hinit in Hc'. cbn [bind] in Hc'. congruence. }
  rewrite Em in Hsim. destruct (C41_prefix_of_the_run _ _ _ _ _ _ _ _ _ Hi Hne Hsim) as (c1 & Hsim1 & outs & evs & Eo & _).
  assert (Hs : sorted_by o_date (c_outputs c)).
  { destruct (init_tso _ _ _ _ _ _ _ Hinit) as (Ht & _ & Ho & _ & Ei & _).
    destruct (run_steps_outputs cfg env ltac:(lia) ltac:(lia) ltac:(lia) ltac:(unfold configured; rewrite Ei; assumption) _ _ _ _ Hrun (or_introl Ht))
      as (_ & os & E & S & _). rewrite Ho in E. cbn in E. rewrite E. assumption. }
  assert (Hs1 : sorted_by o_date (c_outputs c1)).
  { rewrite Eo in Hs. clear - Hs. induction (c_outputs c1) as [|x l IH]; [constructor|]. cbn in Hs. inversion Hs; subst.
    constructor; [apply IH; assumption|]. apply Forall_app in H2. apply H2. }
  exists (map (fun o => (o_date o, csv_row (o_state o))) (c_outputs c1)), (map (fun o => (o_date o, csv_row (o_state o))) outs).
  split.
  - unfold pysnobal_run. rewrite Hi. cbn [bind]. rewrite Hu1. cbn [bind]. rewrite Hsim1. cbn [bind].
    unfold output_to_file. assert (Hsome : c_outputs c1 <> []).
    { unfold simulate in Hsim1. destruct (negb _); [discriminate|]. destruct used1 as [|q0 [|q1 rest1]]; cbn in Hlen; try lia.
      inv_bind Hsim1 as j1 Hj1. rewrite Hinit in Hsim1. cbn [bind map run_steps] in Hsim1. inv_bind Hsim1 as j2 Hj2. inv_bind Hsim1 as c2 Hc2.
      destruct (init_tso _ _ _ _ _ _ _ Hinit) as (Ht & _ & _ & _ & Ei & _).
      assert (Hcfg : configured cfg env) by (unfold configured; rewrite Ei; assumption).
      pose proof (data_step_writes _ _ _ _ _ _ Hdesc Hcfg Ht Hc2) as Hw.
      destruct (run_steps_appends _ _ Hcfg _ _ _ _ Hsim1) as (os & _ & E & _). rewrite E.
      destruct (c_outputs c2); [congruence|discriminate]. }
    destruct (c_outputs c1) as [|o os] eqn:E1; [congruence|].
    rewrite sort_id by assumption. reflexivity.
  - rewrite sort_id by assumption. rewrite Eo, map_app. reflexivity.
Qed.

(** ** C39 *)
Definition with_relative_heights (b : bool) (p : Params T) : Params T :=
  mkParams (p_elevation p) (p_start_date p) (p_max_h2o_vol p) (p_max_z_s_0 p) b.
Theorem C39_relative_heights_has_no_effect b (p : Params T) end_date cfg ic mh all_mode rows :
  pysnobal_run (with_relative_heights b p) end_date cfg ic mh all_mode rows =
  pysnobal_run p end_date cfg ic mh all_mode rows.
Proof. reflexivity. Qed.

(** the turbulence routine would honour it: with relative heights the measurement heights are
    used as they are *)
Theorem C39_heights_are_always_above_ground (p : Params T) info ic mh all_mode env c :
  snobal_init p info ic mh all_mode = Ok (env, c) -> ev_relative_hts env = false.
Proof. intros H. apply init_tso in H. tauto. Qed.

(** ** C42 *)
(** a completed run did every data step, and its file has one line for each output record *)
Theorem C42_completed_runs_write_everything (p : Params T) end_date cfg ic mh all_mode rows out :
  pysnobal_run p end_date cfg ic mh all_mode rows = Ok out ->
  exists info used c, parse_time_steps cfg = Ok info /\
    read_input_data (p_start_date p) end_date rows = Ok used /\ (2 <= length used)%nat /\
    NoDup (map fst used) /\
    simulate p info ic mh all_mode used = Ok c /\ c_outputs c <> [] /\
    Permutation out (map (fun o => (o_date o, csv_row (o_state o))) (c_outputs c)) /\
    sorted_by fst out.
Proof.
  intros H. destruct (pysnobal_run_inv _ _ _ _ _ _ _ _ H)
    as (info & used & i1 & r0 & rest & env & c0 & c & Hi & Hu & Eu & Hnd & Hi1 & Hinit & Hrun & Hno & E).
  exists info, used, c. do 2 (split; [assumption|]). split.
  - rewrite Eu. destruct rest; cbn; [|lia]. exfalso. cbn in Hrun. injection Hrun as <-.
    apply init_tso in Hinit. tauto.
  - split; [assumption|]. split.
    { unfold pysnobal_run in H. rewrite Hi in H. cbn [bind] in H. rewrite Hu in H. cbn [bind] in H. inv_bind H as c' Hc'.
      rewrite Hc'. unfold simulate in Hc'. destruct (negb _); [discriminate|]. rewrite Eu in Hc'.
      rewrite Hi1 in Hc'. cbn [bind] in Hc'. rewrite Hinit in Hc'. cbn [bind] in Hc'. congruence. }
    split; [assumption|]. rewrite E. split.
    + apply Permutation_map, Permutation_sym, sort_perm.
    + eapply sorted_map; [|apply sort_sorted]. reflexivity.
Qed.

(** a data step that raises ends the run with that exception: no file, however many
    steps had been done and whatever records follow *)
Theorem C42_a_failing_step_writes_nothing (p : Params T) end_date cfg ic mh all_mode rows
    info used r0 done r more env c0 i1 c i i2 err :
  parse_time_steps cfg = Ok info -> read_input_data (p_start_date p) end_date rows = Ok used ->
  NoDup (map fst used) -> used = r0 :: done ++ r :: more ->
  input_data (snd r0) = Ok i1 -> snobal_init p info ic mh all_mode = Ok (env, c0) ->
  run_steps env c0 i1 (map snd done) = Ok c ->
  input_data (snd (last (r0 :: done) r0)) = Ok i -> input_data (snd r) = Ok i2 ->
  do_data_tstep env c i i2 = Err err ->
  pysnobal_run p end_date cfg ic mh all_mode rows = Err err.
Proof.
  intros Hinfo Hused Hnd Eu Hi1 Hinit Hrun Hi Hi2 Herr. unfold pysnobal_run.
  rewrite Hinfo. cbn [bind]. rewrite Hused. cbn [bind].
  assert (Hs : simulate p info ic mh all_mode used = Err err); [|rewrite Hs; reflexivity].
  unfold simulate. assert (Hd : distinct_dates (map fst used) = true).
  { revert Hnd. generalize (map fst used). induction 1 as [|x l Hni _ IH]; [reflexivity|]. cbn.
    rewrite IH, andb_true_r. apply negb_true_iff. apply not_true_iff_false. intros E.
    apply existsb_exists in E. destruct E as (y & Hy & E). apply Z.eqb_eq in E. subst y. contradiction. }
  rewrite Hd. cbn [negb]. rewrite Eu. cbn [app]. rewrite Hi1. cbn [bind]. rewrite Hinit. cbn [bind].
  clear Hinit Hd Eu Hused. revert r0 c0 i1 Hi1 Hrun Hi.
  induction done as [|q done IH]; intros r0 c0 i1 Hi1 Hrun Hi.
  - cbn in Hrun. injection Hrun as <-. cbn [last] in Hi. rewrite Hi1 in Hi. injection Hi as <-.
    cbn [app map run_steps]. rewrite Hi2. cbn [bind]. rewrite Herr. reflexivity.
  - cbn [map run_steps] in Hrun. inv_bind Hrun as j Hj. inv_bind Hrun as c1 Hc1.
    cbn [app map run_steps]. rewrite Hj. cbn [bind]. rewrite Hc1. cbn [bind].
    apply (IH q c1 j Hj Hrun). rewrite <- Hi. cbn [last]. clear.
    destruct done as [|y done]; [reflexivity|]. revert y. induction done as [|z done IHd]; intros y; [reflexivity|]. apply IHd.
Qed.

(** fewer than two records in the window, or two with the same date: the run raises *)
Theorem C42_unusable_input_raises (p : Params T) end_date cfg ic mh all_mode rows :
  (forall used, read_input_data (p_start_date p) end_date rows = Ok used ->
     (length used < 2)%nat \/ ~ NoDup (map fst used)) ->
  exists err, pysnobal_run p end_date cfg ic mh all_mode rows = Err err.
Proof.
  intros H. destruct (pysnobal_run p end_date cfg ic mh all_mode rows) as [out|err] eqn:E; [|eauto].
  exfalso. destruct (C42_completed_runs_write_everything _ _ _ _ _ _ _ _ E) as (info & used & c & _ & Hu & Hl & Hnd & _).
  destruct (H _ Hu); [lia|contradiction].
Qed.

(** ** C43 *)
(** The line of a snow state: the 25 columns, in this order, with these values. *)
Theorem C43_columns (s : SnowState T) :
  csv_row s =
  [("R_n", Some (R_n (bar s))); ("H", Some (H_ (bar s))); ("L_v_E", Some (L_v_E (bar s))); ("G", Some (G_ (bar s)));
   ("M", Some (M_ (bar s))); ("delta_Q", Some (delta_Q (bar s))); ("G_0", Some (G_0 (bar s)));
   ("delta_Q_0", Some (delta_Q_0 (bar s)));
   ("cc_s_0", Some (cc_s_0 s)); ("cc_s_l", Some (cc_s_l s)); ("cc_s", Some (cc_s_0 s + cc_s_l s)%num);
   ("E_s", Some (E_s_sum s)); ("melt", Some (melt_sum s)); ("swi", swi_sum s);
   ("z_s_0", Some (z_s_0 s)); ("z_s_l", Some (z_s_l s)); ("z_s", Some (z_s s)); ("rho", Some (rho s));
   ("m_s_0", Some (m_s_0 s)); ("m_s_l", Some (m_s_l s)); ("m_s", Some (m_s s)); ("h2o", Some (h2o s));
   ("t_s_0", Some (t_s_0 s - FREEZE)%num); ("t_s_l", Some (t_s_l s - FREEZE)%num); ("t_s", Some (t_s s - FREEZE)%num)]%string.
Proof. reflexivity. Qed.

(** every line of a file has the 25 columns, no two with the same name, and a number in each *)
Theorem C43_every_line (p : Params T) end_date cfg ic mh all_mode rows out :
  pysnobal_run p end_date cfg ic mh all_mode rows = Ok out ->
  Forall (fun line => map fst (snd line) =
    ["R_n"; "H"; "L_v_E"; "G"; "M"; "delta_Q"; "G_0"; "delta_Q_0"; "cc_s_0"; "cc_s_l"; "cc_s"; "E_s"; "melt"; "swi";
     "z_s_0"; "z_s_l"; "z_s"; "rho"; "m_s_0"; "m_s_l"; "m_s"; "h2o"; "t_s_0"; "t_s_l"; "t_s"]%string /\
    NoDup (map fst (snd line)) /\ Forall (fun cell => snd cell <> None) (snd line)) out.
Proof.
  intros H. destruct (pysnobal_run_inv _ _ _ _ _ _ _ _ H)
    as (info & used & i1 & r0 & rest & env & c0 & c & Hi & Hu & Eu & Hnd & Hi1 & Hinit & Hrun & Hno & ->).
  destruct (init_tso _ _ _ _ _ _ _ Hinit) as (_ & _ & Ho & _ & Ei & _).
  assert (Hcfg : configured cfg env) by (unfold configured; rewrite Ei; assumption).
  assert (Hsw : Forall (fun o => swi_sum (o_state o) <> None) (c_outputs c)).
  { assert (H0 : Forall (fun o => swi_sum (T:=T) (o_state o) <> None) (c_outputs c0)) by (rewrite Ho; constructor).
    clear - Hcfg Hrun H0. revert c0 i1 H0 Hrun. induction (map snd rest) as [|r raws IH]; intros c0 i1 H0 Hrun.
    - injection Hrun as <-. assumption.
    - cbn [run_steps] in Hrun. inv_bind Hrun as i2 Hi2. inv_bind Hrun as c1 Hc1. refine (IH _ _ _ Hrun).
      clear IH Hrun. 
      assert (Hout : forall a b : Core T, output a = Ok b -> Forall (fun o => swi_sum (o_state o) <> None) (c_outputs a) ->
                Forall (fun o => swi_sum (o_state o) <> None) (c_outputs b)).
      { intros a b E Ha. unfold output in E. destruct (swi_sum (c_ss a)) eqn:Es; [|discriminate]. injection E as <-. cbn.
        apply Forall_app. split; [assumption|]. constructor; [cbn; congruence|constructor]. }
      destruct (data_step_exec _ _ _ _ _ _ _ _ (configured_standard _ _ Hcfg) Hc1) as (ds & l & c2 & i' & _ & Hex & _ & _ & Hq).
      assert (H2 : Forall (fun o => swi_sum (T:=T) (o_state o) <> None) (c_outputs c2)).
      { clear Hq Hc1. induction Hex as [a i j Hm|ts l a i b i1' b2 i2' Hstep _ _ IH]; [assumption|].
        apply IH. apply do_tstep_inv in Hstep.
        destruct Hstep as (d & s1 & ic & init & s2 & kept & s3 & Hd & He & Hmb & Ha & Hc & Hi).
        destruct (ev_output_divided env); [eapply Hout; [exact Hc|assumption]|subst b; assumption]. }
      destruct (ev_output_divided env); [subst c1; assumption|eapply Hout; eassumption]. }
  apply Forall_map. eapply Permutation_Forall; [apply sort_perm|]. eapply Forall_impl; [|exact Hsw].
  intros o Hs. cbn [fst snd]. rewrite C43_columns. cbn [map fst]. split; [reflexivity|]. split.
  - repeat (constructor; [cbn; intuition discriminate|]). constructor.
  - repeat (constructor; [cbn; first [discriminate|assumption]|]). constructor.
Qed.

End Any.

(** ** The hypotheses are met (binary64 runs of bare ground and of a shallow pack) *)
From Coq Require Import Floats.
From Verif Require Import FloatNum.
Section Witness.
Open Scope float_scope.
Definition a_rec (m_pp : float) : RawInput float := mkRaw 50 250 (-1) 300 2 (-3) m_pp 1 100 (-2).
Definition a_file : list (@CsvRow float) :=
  [(0, a_rec 0); (60, a_rec 5); (240, a_rec 0); (120, a_rec 0); (180, a_rec 2); (600, a_rec 0)]%Z.
Definition a_run (ic : InitSnow float) (all_mode : bool) (end_date : Z) :=
  pysnobal_run w_params end_date w_even ic w_heights all_mode a_file.
Definition dates_of {A} (r : result (list (Z * A))) : option (list Z) :=
  match r with Ok l => Some (map fst l) | Err _ => None end.
Example window_example :
  match read_input_data 0 180 a_file with Ok l => map fst l | Err _ => [] end = [0; 60; 120; 180; 240]%Z.
Proof. vm_compute. reflexivity. Qed.
Example bare_run : dates_of (a_run w_bare false 180) = Some [60; 120; 180; 240]%Z.
Proof. vm_compute. reflexivity. Qed.
Example thin_run : dates_of (a_run w_thin false 180) = Some [60; 120; 180; 240]%Z /\
  dates_of (a_run w_thin false 60) = Some [60; 120]%Z.
Proof. vm_compute. split; reflexivity. Qed.
(** "all" mode: one line per run step (15 minutes on this pack) *)
Example thin_run_all : dates_of (a_run w_thin true 60) = Some [15; 30; 45; 60; 75; 90; 105; 120]%Z.
Proof. vm_compute. reflexivity. Qed.
(** no record in the window; one record; a pack in Celsius *)
Example unusable : dates_of (a_run w_thin false (-100)) = None /\ dates_of (a_run w_thin false (-60)) = None.
Proof. vm_compute. split; reflexivity. Qed.
End Witness.

Print Assumptions C39_relative_heights_has_no_effect.
Print Assumptions C40_input_window.
Print Assumptions C40_file_order_is_irrelevant.
Print Assumptions C40_reversed_file_is_clipped_short.
Print Assumptions C40_number_and_dates_of_results.
Print Assumptions C40_results_at_record_times.
Print Assumptions C41_prefix_of_the_run.
Print Assumptions C41_ending_earlier_gives_a_prefix.
Print Assumptions C42_completed_runs_write_everything.
Print Assumptions C42_a_failing_step_writes_nothing.
Print Assumptions C42_unusable_input_raises.
Print Assumptions C43_columns.
Print Assumptions C43_every_line.
