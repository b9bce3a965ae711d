(** * Theorem C99: the precipitation temperature counts only on its side of freezing, the snow density only for snow *)
From Coq Require Import String ZArith Bool Lia List.
Import ListNotations.
From Verif Require Import Num Real Constants Functions Libsnobal Input SnowState Snobal PySnobal Strip Modes Thm_Api Thm_Dry.

Section Phase.
Context {T : Type} {N : Num T}.
Implicit Types r : RawInput T.

(** ** Specification, in any arithmetic, for records as used by the model (temperatures in Kelvin).
    What a record's precipitation temperature says: nothing without precipitation; with rain, or rain and snow, the
    temperature raised to freezing; with snow only, the temperature if below freezing, otherwise just "wet". *)
Inductive Said := Nothing | Rain (t : T) | Both (t : T) | DrySnow (t : T) | WetSnow.
Definition snowfall r : T := nmul (r_m_pp r) (r_percent_snow r).
Definition rainfall r : T := nsub (r_m_pp r) (snowfall r).
Definition said r : Said :=
  let raised := if nltb (r_t_pp r) FREEZE then FREEZE else r_t_pp r in
  if negb (nltb (nofZ 0) (r_m_pp r)) then Nothing
  else match nltb (nofZ 0) (snowfall r), nltb (nofZ 0) (rainfall r) with
       | true, true => Both raised
       | true, false => if nltb (r_t_pp r) FREEZE then DrySnow (r_t_pp r) else WetSnow
       | false, true => Rain raised
       | false, false => Nothing
       end.

(** No snowfall, in the record or in its share of a run step of any level. *)
Definition no_snowfall (info : list (TStep T)) r : Prop :=
  nltb (nofZ 0) (snowfall r) = false /\
  Forall (fun ts => nltb (nofZ 0) (nmul (ndiv (r_m_pp r) (nofZ (ts_per_timestep ts))) (r_percent_snow r)) = false) info.
(** Densities that make no difference to the liquid water of no snow (any two, over the reals; any two that are not
    infinite or missing, in binary64). *)
Definition indifferent (d d' : T) : Prop := forall v, h2o_left (nofZ 0) d v = h2o_left (nofZ 0) d' v.

Definition says_the_same (info : list (TStep T)) r r' : Prop :=
  same_weather r r' /\ r_m_pp r = r_m_pp r' /\ r_percent_snow r = r_percent_snow r' /\ said r = said r' /\
  (r_rho_snow r = r_rho_snow r' \/ no_snowfall info r /\ indifferent (r_rho_snow r) (r_rho_snow r')).

(** ** Proof *)
Definition reset (t d : T) (i : InputData T) : InputData T :=
  mkInput (i_S_n i) (i_I_lw i) (i_t_a i) (i_e_a i) (i_u i) (i_t_g i)
    (i_m_pp i) (i_percent_snow i) d t
    (i_m_snow i) (i_m_rain i) (i_z_snow i) (i_h2o_sat_snow i)
    (i_t_rain i) (i_t_snow i) (i_precip_now i).
Definition snowless (i : InputData T) : Prop := nltb (nofZ 0) (i_m_snow i) = false /\ i_z_snow i = nofZ 0.
(** two inputs of a run step that may stand for each other *)
Definition stands (i j : InputData T) : Prop :=
  exists t d, j = reset t d i /\ (i_rho_snow i = d \/ snowless i /\ indifferent (i_rho_snow i) d).
(** two sets of increments that are added alike *)
Definition dshare (d d' : InputData T) : Prop :=
  met d d' /\ i_m_pp d = i_m_pp d' /\ i_m_snow d = i_m_snow d' /\ i_m_rain d = i_m_rain d' /\ i_z_snow d = i_z_snow d'.
Definition serves (ds ds' : list (Z * InputData T)) (i j : InputData T) : Prop :=
  Forall2 (fun a b => fst a = fst b /\ dshare (snd a) (snd b)) ds ds' /\
  exists t d, j = reset t d i /\
    (i_rho_snow i = d \/ snowless i /\ indifferent (i_rho_snow i) d /\ Forall (fun a => snowless (snd a)) ds).

Lemma stands_energy env ts init i j s : stands i j ->
  rres (fun x y => fst (fst x) = fst (fst y) /\ snd x = snd y /\ (exists b v, snd (fst x) = (if b : bool then set_e_a v i else i) /\ snd (fst y) = (if b then set_e_a v j else j)))
    (energy_balance env ts init i s) (energy_balance env ts init j s).
Proof.
  intros (t & d & -> & _). unfold energy_balance. destruct (has_snow s).
  2:{ cbn [rres fst snd]. repeat split. exists false, (nofZ 0). repeat split. }
  apply rres_bind with (P := fun x y => fst (fst x) = fst (fst y) /\ snd x = snd y /\
    exists b v, snd (fst x) = (if b : bool then set_e_a v i else i) /\ snd (fst y) = (if b then set_e_a v (reset t d i) else reset t d i)).
  - unfold h_le. cbn [reset i_t_a]. apply rres_same. intros sv _. cbn [reset i_e_a].
    set (b := nltb sv (i_e_a i)).
    assert (F : i_t_a (if b then set_e_a sv (reset t d i) else reset t d i) = i_t_a (if b then set_e_a sv i else i) /\
       i_e_a (if b then set_e_a sv (reset t d i) else reset t d i) = i_e_a (if b then set_e_a sv i else i) /\
       i_u (if b then set_e_a sv (reset t d i) else reset t d i) = i_u (if b then set_e_a sv i else i)) by (destruct b; repeat split).
    destruct F as (-> & -> & ->). apply rres_same. intros es _. apply rres_same. intros q _.
    destruct (negb _); cbn [rres fst snd]; [reflexivity|]. repeat split. exists b, sv. split; reflexivity.
  - intros [[[[h l] e] i'] in1] [[[[h' l'] e'] j'] in1'] H. cbn [fst snd] in H. destruct H as (E & -> & (b & v & -> & ->)). injection E as -> -> ->.
    assert (EH : heat_transfer (ev_P_a env) (mh_z_g (ev_heights env)) (if b then set_e_a v (reset t d i) else reset t d i) s
               = heat_transfer (ev_P_a env) (mh_z_g (ev_heights env)) (if b then set_e_a v i else i) s) by (destruct b; reflexivity).
    rewrite EH. apply rres_same. intros [g g0] _.
    assert (EA : advec ts (if b then set_e_a v (reset t d i) else reset t d i) s = advec ts (if b then set_e_a v i else i) s) by (destruct b; reflexivity).
    rewrite EA. apply rres_same. intros m _. cbn [rres fst snd]. repeat split. exists b, v. split; reflexivity.
Qed.

Lemma stands_mass pa zg ts i j p : stands i j -> mass_balance pa zg ts i p = mass_balance pa zg ts j p.
Proof.
  intros (t & d & -> & Hd). unfold mass_balance. apply bind_ext. intros p1.
  assert (E : precip_event (reset t d i) p1 = precip_event i p1).
  { destruct Hd as [<-|((S1 & S2) & I)]; [reflexivity|]. destruct p1 as [s cover]. unfold precip_event. cbn [reset i_precip_now i_z_snow i_m_pp i_h2o_sat_snow i_rho_snow i_m_snow i_m_rain i_t_snow].
    destruct (i_precip_now i); [|reflexivity]. rewrite S1, S2. destruct cover; [|reflexivity].
    destruct (adj_snow (nofZ 0) (i_m_pp i) (s, true)) as [s' c']. rewrite I. reflexivity. }
  rewrite E. reflexivity.
Qed.

Lemma deltas_share ds ds' lvl : Forall2 (fun a b => fst a = fst b /\ dshare (snd a) (snd b)) ds ds' ->
  rres dshare (deltas_at ds lvl) (deltas_at ds' lvl).
Proof.
  unfold deltas_at. induction 1 as [|a b ds ds' (E & M) _ IH]; [reflexivity|]. cbn [find]. rewrite <- E.
  destruct (fst a =? lvl)%Z; [exact M|exact IH].
Qed.
Lemma deltas_in ds lvl (d : InputData T) (P : InputData T -> Prop) : Forall (fun a => P (snd a)) ds -> deltas_at ds lvl = Ok d -> P d.
Proof.
  intros H. unfold deltas_at. destruct (find _ ds) as [a|] eqn:E; [|discriminate]. intros K. injection K as <-.
  apply find_some in E. rewrite Forall_forall in H. apply H, E.
Qed.

Lemma serves_update ds ds' i j d d' : serves ds ds' i j -> dshare d d' -> (Forall (fun a => snowless (snd a)) ds -> snowless d) ->
  serves ds ds' (update_precip_deltas i d) (update_precip_deltas j d').
Proof.
  intros (F & t & r & -> & H) (M & D1 & D2 & D3 & D4) Hd. split; [exact F|]. exists t, r. unfold update_precip_deltas.
  rewrite <- D1, <- D2, <- D3, <- D4. split; [reflexivity|]. destruct H as [H|(S & I & Fs)]; [left; exact H|right].
  split; [exact (Hd Fs)|]. split; [exact I|exact Fs].
Qed.
Lemma serves_add ds ds' i j d d' : serves ds ds' i j -> dshare d d' -> (Forall (fun a => snowless (snd a)) ds -> snowless d) ->
  serves ds ds' (add_deltas i d) (add_deltas j d').
Proof.
  intros (F & t & r & -> & H) ((M1 & M2 & M3 & M4 & M5 & M6) & D1 & D2 & D3 & D4) Hd. split; [exact F|]. exists t, r. unfold add_deltas, update_precip_deltas.
  rewrite <- D1, <- D2, <- D3, <- D4, <- M1, <- M2, <- M3, <- M4, <- M5, <- M6. split; [reflexivity|]. destruct H as [H|(S & I & Fs)]; [left; exact H|right].
  split; [exact (Hd Fs)|]. split; [exact I|exact Fs].
Qed.
Lemma serves_clip ds ds' i j v : serves ds ds' i j -> serves ds ds' (set_e_a v i) (set_e_a v j).
Proof. intros (F & t & r & -> & H). split; [exact F|]. exists t, r. split; [reflexivity|exact H]. Qed.
Lemma serves_stands ds ds' i j : serves ds ds' i j -> stands i j.
Proof. intros (_ & t & r & -> & H). exists t, r. split; [reflexivity|]. destruct H as [H|(S & I & _)]; auto. Qed.
Lemma serves_now ds ds' i j : serves ds ds' i j -> i_precip_now j = i_precip_now i.
Proof. intros (_ & t & r & -> & _). reflexivity. Qed.

Lemma serves_tstep env ds ds' ts c c' i j : serves ds ds' i j -> alike_c c c' ->
  rres (fun x y => alike_c (fst x) (fst y) /\ serves ds ds' (snd x) (snd y)) (do_tstep env ds ts c i) (do_tstep env ds' ts c' j).
Proof.
  intros Hf (E1 & E2 & E3 & E4 & E5). unfold do_tstep.
  apply rres_bind with (P := fun d d' => dshare d d' /\ (Forall (fun a => snowless (snd a)) ds -> snowless d)).
  { pose proof (deltas_share _ _ (ts_level ts) (proj1 Hf)) as K.
    destruct (deltas_at ds (ts_level ts)) as [d|e] eqn:Hd, (deltas_at ds' (ts_level ts)) as [d'|e']; cbn in K |- *; try contradiction; [|assumption].
    split; [exact K|]. intros F. exact (deltas_in _ _ _ _ F Hd). }
  intros d d' (Hd & Hs).
  set (i' := if i_precip_now i then update_precip_deltas i d else i). set (j' := if i_precip_now j then update_precip_deltas j d' else j).
  assert (Hi : serves ds ds' i' j').
  { unfold i', j'. rewrite (serves_now _ _ _ _ Hf). destruct (i_precip_now i); [apply serves_update; assumption|assumption]. }
  clearbody i' j'. rewrite E1, E5.
  apply rres_bind with (1 := stands_energy env (ts_time_step ts) (c_hle1_init c') i' j' _ (serves_stands _ _ _ _ Hi)).
  intros [[s i2] in1] [[s' j2] in1'] (A & B & (b & v & C1 & C2)). cbn [fst snd] in A, B, C1, C2. subst s' in1' i2 j2.
  assert (H2 : serves ds ds' (if b then set_e_a v i' else i') (if b then set_e_a v j' else j')) by (destruct b; [apply serves_clip|]; exact Hi).
  set (i2 := if b then set_e_a v i' else i') in *. set (j2 := if b then set_e_a v j' else j') in *. clearbody i2 j2.
  rewrite (stands_mass _ _ _ i2 j2 _ (serves_stands _ _ _ _ H2)). apply rres_same. intros [s2 kept] _. rewrite E3. apply rres_same. intros [s3 tso] _.
  match goal with |- rres _ (bind (if _ then output ?a else _) _) (bind (if _ then output ?b else _) _) =>
    assert (Ha : alike_c a b) by (unfold alike_c; cbn; rewrite E2, E4; repeat split); set (c1 := a) in *; set (c1' := b) in * end.
  clearbody c1 c1'. apply rres_bind with (P := alike_c).
  - destruct (ev_output_divided env); [apply alike_out; exact Ha|exact Ha].
  - intros c2 c2' H3. cbn [rres fst snd]. split; [exact H3|]. apply serves_add; assumption.
Qed.

Definition serves_d ds ds' (x y : DState T) : Prop := alike_c (d_core x) (d_core y) /\ serves ds ds' (d_input x) (d_input y) /\ d_level x = d_level y.

Lemma serves_divide env ds ds' : forall f x y, serves_d ds ds' x y -> rres (serves_d ds ds') (divide_tstep f env ds x) (divide_tstep f env ds' y).
Proof.
  induction f as [|f IH]; intros x y (Hc & Hf & Hl); [reflexivity|]. cbn [divide_tstep]. rewrite <- Hl. apply rres_same. intros ts _.
  apply rres_bind with (P := serves ds ds').
  { rewrite (serves_now _ _ _ _ Hf). destruct (_ && _); [|exact Hf].
    match goal with |- rres _ (bind (deltas_at ds ?l) _) _ => pose proof (deltas_share _ _ l (proj1 Hf)) as K;
      destruct (deltas_at ds l) as [d|e] eqn:Hd, (deltas_at ds' l) as [d'|e'] end; cbn in K |- *; try contradiction; [|assumption].
    apply serves_update; [assumption|assumption|]. intros F. exact (deltas_in _ _ _ _ F Hd). }
  intros i j Hij. apply rres_bind with (P := serves_d ds ds').
  - apply iter_rel; [|split; [assumption|split; [assumption|reflexivity]]].
    intros x1 y1 (Hc1 & Hf1 & Hl1). rewrite <- Hl1. pose proof Hc1 as (E1 & _). rewrite <- E1. destruct (negb _ && _).
    + apply IH. split; [assumption|]. split; [assumption|reflexivity].
    + apply rres_bind with (P := fun a b => alike_c (fst a) (fst b) /\ serves ds ds' (snd a) (snd b)); [apply serves_tstep; assumption|].
      intros [a1 a2] [b1 b2] (A & B). split; [assumption|]. split; [assumption|reflexivity].
  - intros x1 y1 (Hc1 & Hf1 & Hl1). rewrite <- Hl1. apply rres_bind with (P := alike_c).
    + destruct (_ && _); [apply alike_out; assumption|exact Hc1].
    + intros c c' H. split; [assumption|]. split; [assumption|reflexivity].
Qed.

(** records *)
Definition raw_alike r r' : Prop := same_weather r r' /\ r_m_pp r = r_m_pp r' /\ r_percent_snow r = r_percent_snow r' /\
  (r_rho_snow r = r_rho_snow r' \/ nltb (nofZ 0) (snowfall r) = false).

Lemma input_shares r r' : raw_alike r r' ->
  rres (fun d d' => dshare d d' /\ (nltb (nofZ 0) (snowfall r) = false -> snowless d)) (input_data r) (input_data r').
Proof.
  intros ((W1 & W2 & W3 & W4 & W5 & W6) & Em & Ep & Hr). unfold input_data. rewrite <- Em, <- Ep.
  fold (snowfall r). destruct (nltb (nofZ 0) (r_m_pp r)).
  2:{ cbn [rres]. split; [repeat split; cbn; assumption|]. intros S. split; [exact S|reflexivity]. }
  destruct (nltb (nofZ 0) (snowfall r)) eqn:Es.
  - destruct Hr as [Hr|Hr]; [|discriminate]. rewrite <- Hr.
    destruct (nltb (nofZ 0) (r_rho_snow r)); cbn [bind]; [|reflexivity]. cbn [andb].
    assert (A : forall tp h tr tn (now : bool) tp' h' tr' tn' (now' : bool), dshare
       (mkInput (r_S_n r) (r_I_lw r) (r_t_a r) (r_e_a r) (r_u r) (r_t_g r) (r_m_pp r) (r_percent_snow r) (r_rho_snow r) tp
          (snowfall r) (nsub (r_m_pp r) (snowfall r)) (ndiv (snowfall r) (r_rho_snow r)) h tr tn now)
       (mkInput (r_S_n r') (r_I_lw r') (r_t_a r') (r_e_a r') (r_u r') (r_t_g r') (r_m_pp r) (r_percent_snow r) (r_rho_snow r) tp'
          (snowfall r) (nsub (r_m_pp r) (snowfall r)) (ndiv (snowfall r) (r_rho_snow r)) h' tr' tn' now')).
    { intros. repeat split; cbn; assumption. }
    destruct (nltb (nofZ 0) (nsub (r_m_pp r) (snowfall r))); cbn [andb].
    { split; [apply A|discriminate]. }
    destruct (nltb (r_t_pp r) FREEZE), (nltb (r_t_pp r') FREEZE); (split; [apply A|discriminate]).
  - cbn [bind andb]. destruct (nltb (nofZ 0) (nsub (r_m_pp r) (snowfall r))); cbn [rres];
      (split; [repeat split; cbn; assumption|intros _; split; [exact Es|reflexivity]]).
Qed.

Definition input_rel (info : list (TStep T)) (i j : InputData T) : Prop :=
  stands i j /\ (i_rho_snow i = i_rho_snow j \/ snowless i /\ indifferent (i_rho_snow i) (i_rho_snow j) /\
     Forall (fun ts => nltb (nofZ 0) (nmul (ndiv (i_m_pp i) (nofZ (ts_per_timestep ts))) (i_percent_snow i)) = false) info).

Lemma said_stands info r r' : says_the_same info r r' -> rres (input_rel info) (input_data r) (input_data r').
Proof.
  intros (W & Em & Ep & Hs & Hr).
  assert (K : rres stands (input_data r) (input_data r')).
  { assert (Hr2 : r_rho_snow r = r_rho_snow r' \/ nltb (nofZ 0) (snowfall r) = false /\ indifferent (r_rho_snow r) (r_rho_snow r')).
    { destruct Hr as [Hr|((Hr & _) & Hi)]; auto. }
    clear Hr. destruct W as (W1 & W2 & W3 & W4 & W5 & W6).
    unfold said in Hs. unfold rainfall in Hs. replace (snowfall r') with (snowfall r) in Hs by (unfold snowfall; rewrite Em, Ep; reflexivity).
    unfold input_data. rewrite <- Em, <- Ep, <- W1, <- W2, <- W3, <- W4, <- W5, <- W6. fold (snowfall r). rewrite <- Em in Hs.
    assert (Q : forall (ps q0 q1 zs h tr tn tp tp' : T) (now : bool),
       r_rho_snow r = r_rho_snow r' \/ nltb (nofZ 0) (snowfall r) = false /\ zs = nofZ 0 /\ indifferent (r_rho_snow r) (r_rho_snow r') ->
       stands (mkInput (r_S_n r) (r_I_lw r) (r_t_a r) (r_e_a r) (r_u r) (r_t_g r) ps q0 (r_rho_snow r) tp (snowfall r) q1 zs h tr tn now)
              (mkInput (r_S_n r) (r_I_lw r) (r_t_a r) (r_e_a r) (r_u r) (r_t_g r) ps q0 (r_rho_snow r') tp' (snowfall r) q1 zs h tr tn now)).
    { intros. exists tp', (r_rho_snow r'). split; [reflexivity|]. cbn. destruct H as [H|(H1 & -> & H2)]; [left; exact H|right].
      split; [split; [exact H1|reflexivity]|exact H2]. }
    destruct (nltb (nofZ 0) (r_m_pp r)) eqn:Epp; cbn [negb] in Hs.
    2:{ cbn [rres]. apply Q. destruct Hr2 as [H|(H1 & H2)]; auto. }
    destruct (nltb (nofZ 0) (snowfall r)) eqn:Es.
    - destruct Hr2 as [Hr2|(X & _)]; [|discriminate]. rewrite <- Hr2 in Q |- *.
      destruct (nltb (nofZ 0) (r_rho_snow r)); cbn [bind]; [|reflexivity]. cbn [andb] in *.
      destruct (nltb (nofZ 0) (nsub (r_m_pp r) (snowfall r))); cbn [andb] in *.
      + injection Hs as <-. cbn [rres]. apply Q. auto.
      + destruct (nltb (r_t_pp r) FREEZE), (nltb (r_t_pp r') FREEZE); try discriminate; cbn [rres].
        * injection Hs as <-. apply Q. auto.
        * apply Q. auto.
    - cbn [bind andb]. destruct (nltb (nofZ 0) (nsub (r_m_pp r) (snowfall r))); cbn [andb rres] in *.
      + injection Hs as <-. apply Q. destruct Hr2 as [H|(H1 & H2)]; auto.
      + apply Q. destruct Hr2 as [H|(H1 & H2)]; auto. }
  pose proof (input_shares r r' ltac:(split; [exact W|]; split; [exact Em|]; split; [exact Ep|]; destruct Hr as [H|((H & _) & _)]; auto)) as K2.
  assert (R : forall q i, input_data q = Ok i -> i_rho_snow i = r_rho_snow q /\ i_m_pp i = r_m_pp q /\ i_percent_snow i = r_percent_snow q).
  { clear. intros q i H. unfold input_data in H. destruct (nltb (nofZ 0) (r_m_pp q)); [|injection H as <-; repeat split].
    inv_bind H as z Hz. repeat match type of H with (if ?b then _ else _) = _ => destruct b end; injection H as <-; repeat split. }
  destruct (input_data r) as [i|e] eqn:Ei, (input_data r') as [j|e'] eqn:Ej; cbn in K, K2 |- *; try contradiction; [|assumption].
  split; [exact K|]. destruct (R _ _ Ei) as (-> & -> & ->). destruct (R _ _ Ej) as (-> & _ & _).
  destruct Hr as [H|((H1 & H2) & H3)]; [left; exact H|right]. split; [apply K2; exact H1|]. split; [exact H3|exact H2].
Qed.

Lemma rel_weather info i j : input_rel info i j -> met i j.
Proof. intros ((t & d & -> & _) & _). repeat split. Qed.

Lemma serves_deltas info i j i2 j2 : met i2 j2 -> input_rel info i j ->
  rres (fun ds ds' => serves ds ds' i j) (input_deltas i i2 info) (input_deltas j j2 info).
Proof.
  intros M2 ((t & d & Ej & Hst) & Hd).
  assert (Hd2 : i_rho_snow i = d \/ snowless i /\ indifferent (i_rho_snow i) d /\
     Forall (fun ts => nltb (nofZ 0) (nmul (ndiv (i_m_pp i) (nofZ (ts_per_timestep ts))) (i_percent_snow i)) = false) info).
  { rewrite Ej in Hd. exact Hd. }
  assert (K : forall l, incl l info -> rres (fun ds ds' => Forall2 (fun a b => fst a = fst b /\ dshare (snd a) (snd b)) ds ds' /\
     (i_rho_snow i = d \/ Forall (fun a => snowless (snd a)) ds)) (input_deltas i i2 l) (input_deltas j j2 l)).
  { destruct M2 as (E1 & E2 & E3 & E4 & E5 & E6). induction l as [|ts l IH]; intros Hl; [cbn; split; [constructor|right; constructor]|]. cbn [input_deltas].
    apply rres_bind with (P := fun a a' => dshare a a' /\ (i_rho_snow i = d \/ snowless a)).
    - unfold level_deltas. rewrite Ej. cbn [reset i_S_n i_I_lw i_t_a i_e_a i_u i_t_g i_m_pp i_percent_snow i_rho_snow i_t_pp].
      rewrite E1, E2, E3, E4, E5, E6, !pdiv_rel. destruct (neqb (nofZ (ts_per_timestep ts)) (nofZ 0)); [reflexivity|]. cbn [bind].
      match goal with |- rres _ (input_data ?a) (input_data ?b) => set (q := a); set (q' := b) end.
      assert (Hq : i_rho_snow i = d \/ nltb (nofZ 0) (snowfall q) = false).
      { destruct Hd2 as [H|(_ & _ & F)]; [left; exact H|right]. rewrite Forall_forall in F. apply F. apply Hl. left. reflexivity. }
      assert (Ra : raw_alike q q').
      { split; [repeat split|]. split; [reflexivity|]. split; [reflexivity|]. destruct Hq as [H|H]; [left; exact H|right; exact H]. }
      refine (rres_impl _ _ _ _ _ (input_shares q q' Ra)). intros a a' (A & B). split; [exact A|]. destruct Hq as [H|H]; [left; exact H|right; exact (B H)].
    - intros a a' (A & B). apply rres_bind with (1 := IH (fun x Hx => Hl x (or_intror Hx))). intros ds ds' (F & G). cbn [rres].
      split; [constructor; [split; [reflexivity|exact A]|exact F]|]. destruct B as [B|B]; [left; exact B|]. destruct G as [G|G]; [left; exact G|]. right. constructor; assumption. }
  refine (rres_impl _ _ _ _ _ (K info (incl_refl _))). intros ds ds' (F & G). split; [exact F|]. exists t, d. split; [exact Ej|].
  destruct Hd2 as [H|(S & I & _)]; [left; exact H|]. destruct G as [G|G]; [left; exact G|]. right. auto.
Qed.

Lemma serves_data_step env c c' i j i2 j2 : alike_c c c' -> input_rel (ev_tstep_info env) i j -> met i2 j2 ->
  rres alike_c (do_data_tstep env c i i2) (do_data_tstep env c' j j2).
Proof.
  intros Hc Hi M. unfold do_data_tstep. apply rres_bind with (1 := serves_deltas _ _ _ _ _ M Hi). intros ds ds' Hf.
  apply rres_bind with (P := serves_d ds ds').
  - apply serves_divide. split; [assumption|]. split; [assumption|reflexivity].
  - intros x y (H & _). exact H.
Qed.

Lemma serves_run env rs rs' : Forall2 (says_the_same (ev_tstep_info env)) rs rs' -> forall c c' i j, alike_c c c' -> input_rel (ev_tstep_info env) i j ->
  rres alike_c (run_steps env c i rs) (run_steps env c' j rs').
Proof.
  induction 1 as [|r r' rs rs' Hr _ IH]; intros c c' i j Hc Hi; [exact Hc|]. cbn [run_steps].
  apply rres_bind with (1 := said_stands _ _ _ Hr). intros i2 j2 H2.
  apply rres_bind with (P := alike_c); [apply serves_data_step; [assumption|assumption|exact (rel_weather _ _ _ H2)]|].
  intros c1 c1' Hc1. apply IH; assumption.
Qed.

(** rows of the file, compared as the model uses them *)
Definition row_rel info (a b : CsvRow (T:=T)) : Prop := fst a = fst b /\ says_the_same info (snd (prepare_row a)) (snd (prepare_row b)).

Lemma insert_row info a b l l' : row_rel info a b -> Forall2 (row_rel info) l l' -> Forall2 (row_rel info) (insert_by fst a l) (insert_by fst b l').
Proof.
  intros Hab. induction 1 as [|x y l l' Hxy Hl IH]; cbn [insert_by]; [constructor; [assumption|constructor]|].
  pose proof Hab as (<- & _). pose proof Hxy as (<- & _). destruct (fst a <=? fst x)%Z; [constructor; [assumption|constructor; assumption]|]. constructor; assumption.
Qed.
Lemma sort_row info l l' : Forall2 (row_rel info) l l' -> Forall2 (row_rel info) (sort_by fst l) (sort_by fst l').
Proof. induction 1 as [|x y l l' Hxy Hl IH]; [constructor|]. cbn [sort_by]. apply insert_row; assumption. Qed.
Lemma filter_row info f l l' : (forall a b : CsvRow (T:=T), fst a = fst b -> f a = f b) -> Forall2 (row_rel info) l l' -> Forall2 (row_rel info) (filter f l) (filter f l').
Proof.
  intros Hf. induction 1 as [|x y l l' Hxy Hl IH]; [constructor|]. cbn [filter]. rewrite (Hf x y (proj1 Hxy)). destruct (f y); [constructor; assumption|assumption].
Qed.
Lemma read_row info s e rows rows' : Forall2 (row_rel info) rows rows' ->
  rres (Forall2 (fun a b => fst a = fst b /\ says_the_same info (snd a) (snd b))) (read_input_data s e rows) (read_input_data s e rows').
Proof.
  intros H. unfold read_input_data, clip_rows. inversion H as [|a b l l' H1 H2]; subst; [reflexivity|]. inversion H2 as [|a2 b2 l2 l2' H3 H4]; subst; [reflexivity|].
  cbn [bind rres]. pose proof H1 as (-> & _). pose proof H3 as (-> & _).
  assert (K : Forall2 (row_rel info) (filter (fun q : Z * RawInput T => ((s <=? fst q) && (fst q <=? e + (fst b2 - fst b)))%Z) (sort_by fst (a :: a2 :: l2)))
                 (filter (fun q : Z * RawInput T => ((s <=? fst q) && (fst q <=? e + (fst b2 - fst b)))%Z) (sort_by fst (b :: b2 :: l2')))).
  { apply filter_row; [intros x y Exy; rewrite Exy; reflexivity|]. apply sort_row. assumption. }
  revert K. generalize (filter (fun q : Z * RawInput T => ((s <=? fst q) && (fst q <=? e + (fst b2 - fst b)))%Z) (sort_by fst (a :: a2 :: l2))).
  generalize (filter (fun q : Z * RawInput T => ((s <=? fst q) && (fst q <=? e + (fst b2 - fst b)))%Z) (sort_by fst (b :: b2 :: l2'))). intros u v K.
  induction K as [|x y v u Hxy _ IHK]; [constructor|]. cbn [map]. constructor; [exact Hxy|exact IHK].
Qed.

(** C99: files whose records, as the model uses them, say the same give the same output file or the same exception. *)
Theorem C99_what_precipitation_columns_say (p : Params T) end_date cfg info ic mh all_mode rows rows' :
  parse_time_steps cfg = Ok info ->
  Forall2 (fun a b => fst a = fst b /\ says_the_same info (snd (prepare_row a)) (snd (prepare_row b))) rows rows' ->
  pysnobal_run p end_date cfg ic mh all_mode rows = pysnobal_run p end_date cfg ic mh all_mode rows'.
Proof.
  intros Hinfo H. unfold pysnobal_run. rewrite Hinfo. cbn [bind].
  pose proof (read_row info (p_start_date p) end_date rows rows' H) as K.
  destruct (read_input_data (p_start_date p) end_date rows) as [used|e], (read_input_data (p_start_date p) end_date rows') as [used'|e']; cbn in K; try contradiction;
    [|subst; reflexivity]. cbn [bind].
  assert (S : rres alike_c (simulate p info ic mh all_mode used) (simulate p info ic mh all_mode used')).
  { unfold simulate. assert (Ed : map fst used = map fst used').
    { clear -K. induction K as [|a b l l' (E & _) _ IH]; [reflexivity|]. cbn [map]. rewrite E, IH. reflexivity. }
    rewrite Ed. destruct (negb _); [reflexivity|]. destruct K as [|a b l l' (_ & E) K]; [reflexivity|].
    apply rres_bind with (1 := said_stands _ _ _ E). intros i j Hij. apply rres_same. intros [env c0] Hin.
    assert (Ei : ev_tstep_info env = info).
    { unfold snobal_init in Hin. inv_bind Hin as pa Hpa. inv_bind Hin as s0 Hs0. inv_bind Hin as s1 Hs1. injection Hin as <- _. reflexivity. }
    apply serves_run; rewrite ?Ei; [|repeat split|exact Hij].
    clear -K. induction K as [|x y l l' (_ & E) _ IH]; [constructor|]. cbn [map]. constructor; assumption. }
  destruct (simulate p info ic mh all_mode used) as [c|e], (simulate p info ic mh all_mode used') as [c'|e']; cbn in S; try contradiction; [|subst; reflexivity].
  cbn [bind]. unfold output_to_file. destruct S as (_ & _ & _ & -> & _). reflexivity.
Qed.
End Phase.

(** ** C99 over the reals, for the columns as they are in the file (degrees Celsius) *)
From Coq Require Import Reals Lra.
From Verif Require Import SchedSpec Sched SchedProps Spec RunMass Thm_Schedule.
Section Reals.
Open Scope R_scope.

(** Two records that differ only in the precipitation temperature and the snow density: the temperatures agree above zero
    if some of the precipitation is rain, and below zero if all of it is snow; the densities agree if there is snowfall. *)
Definition alike_on_their_side (r r' : RawInput R) : Prop :=
  same_weather r r' /\ r_m_pp r = r_m_pp r' /\ r_percent_snow r = r_percent_snow r' /\
  (0 < r_m_pp r -> r_percent_snow r < 1 -> Rmax 0 (r_t_pp r) = Rmax 0 (r_t_pp r')) /\
  (0 < r_m_pp r -> 1 <= r_percent_snow r -> Rmin 0 (r_t_pp r) = Rmin 0 (r_t_pp r')) /\
  (0 < r_m_pp r * r_percent_snow r -> r_rho_snow r = r_rho_snow r').

Lemma said_alike info r r' d : Forall (fun ts => (0 <= ts_per_timestep ts)%Z) info -> alike_on_their_side r r' ->
  says_the_same (T:=R) info (snd (prepare_row (d, r))) (snd (prepare_row (d, r'))).
Proof.
  intros Hpos ((W1 & W2 & W3 & W4 & W5 & W6) & Em & Ep & Hrain & Hsnow & Hrho).
  assert (HF : (FREEZE : R) = 27316/100) by reflexivity.
  unfold prepare_row. cbn [fst snd]. split; [|split; [|split; [|split]]].
  - unfold same_weather. cbn. rewrite W1, W2, W3, W4, W5, W6. repeat split.
  - exact Em.
  - exact Ep.
  - unfold said, rainfall, snowfall. cbn [r_m_pp r_percent_snow r_t_pp]. rewrite <- Em, <- Ep.
    change (@nmul R RNum) with Rmult. change (@nsub R RNum) with Rminus. change (@nadd R RNum) with Rplus. change (@nltb R RNum) with Rltb.
    change (@nofZ R RNum 0) with 0. change (@nofZ R RNum 1) with 1. rewrite HF. revert Hrain Hsnow.
    generalize (r_m_pp r) (r_percent_snow r) (r_t_pp r) (r_t_pp r'). clear. intros m q t t' H1 H2.
    destruct (Rltb_spec 0 m) as [Hm|Hm]; cbn [negb]; [|reflexivity].
    specialize (H1 Hm). specialize (H2 Hm).
    destruct (Rlt_le_dec q 1) as [Hq|Hq].
    + specialize (H1 Hq). clear H2.
      assert (A : 0 < m * (1 - q)) by (apply Rmult_lt_0_compat; lra). assert (B : 0 < m - m * q) by lra.
      destruct (Rltb_spec 0 (m * (1 - q))); [|lra]. cbn [andb]. destruct (Rltb_spec 0 (m - m * q)); [|lra].
      assert (E : (if Rltb (if Rltb (t + 27316/100) (27316/100) then 27316/100 else t + 27316/100) (27316/100) then 27316/100
                   else if Rltb (t + 27316/100) (27316/100) then 27316/100 else t + 27316/100) =
                  (if Rltb (if Rltb (t' + 27316/100) (27316/100) then 27316/100 else t' + 27316/100) (27316/100) then 27316/100
                   else if Rltb (t' + 27316/100) (27316/100) then 27316/100 else t' + 27316/100)).
      { unfold Rmax in H1. destruct (Rle_dec 0 t), (Rle_dec 0 t');
          destruct (Rltb_spec (t + 27316/100) (27316/100)), (Rltb_spec (t' + 27316/100) (27316/100));
          repeat match goal with |- context [Rltb ?a ?b] => destruct (Rltb_spec a b) end; lra. }
      rewrite E. reflexivity.
    + specialize (H2 Hq). clear H1.
      assert (A : m * (1 - q) <= 0) by nra. assert (B : m - m * q <= 0) by lra. assert (C : 0 < m * q) by (apply Rmult_lt_0_compat; lra).
      destruct (Rltb_spec 0 (m * (1 - q))); [lra|]. cbn [andb]. destruct (Rltb_spec 0 (m - m * q)); [lra|]. destruct (Rltb_spec 0 (m * q)); [|lra].
      unfold Rmin in H2. destruct (Rle_dec 0 t), (Rle_dec 0 t');
        destruct (Rltb_spec (t + 27316/100) (27316/100)), (Rltb_spec (t' + 27316/100) (27316/100)); try lra; try reflexivity.
      subst t'. reflexivity.
  - cbn [r_rho_snow]. destruct (Rlt_le_dec 0 (r_m_pp r * r_percent_snow r)) as [H|H]; [left; exact (Hrho H)|right].
    split.
    + split; [unfold snowfall; cbn [r_m_pp r_percent_snow]; apply (proj2 (Rltb_false _ _)); exact H|].
      apply Forall_forall. intros ts Hts. rewrite Forall_forall in Hpos. specialize (Hpos ts Hts). cbn [r_m_pp r_percent_snow].
      apply (proj2 (Rltb_false _ _)). change (r_m_pp r / IZR (ts_per_timestep ts) * r_percent_snow r <= 0).
      apply IZR_le in Hpos. replace (r_m_pp r / IZR (ts_per_timestep ts) * r_percent_snow r) with
        (r_m_pp r * r_percent_snow r * / IZR (ts_per_timestep ts)) by (unfold Rdiv; ring).
      destruct Hpos as [Hp|Hp]; [pose proof (Rinv_0_lt_compat _ Hp); nra|rewrite <- Hp, Rinv_0; lra].
    + intros v. unfold h2o_left. change (@nmul R RNum) with Rmult. change (@nsub R RNum) with Rminus. change (@ndiv R RNum) with Rdiv.
      change (@nofZ R RNum 0) with 0. rewrite !Rmult_0_r, !Rmult_0_l. reflexivity.
Qed.

Lemma steps_nonneg cfg info : ordered_steps cfg -> parse_time_steps (T:=R) cfg = Ok info ->
  Forall (fun ts => (0 <= ts_per_timestep ts)%Z) info.
Proof.
  intros (O1 & O2 & O3) Hi. unfold parse_time_steps in Hi. inv_bind Hi as a Ha. inv_bind Hi as b Hb. inv_bind Hi as e He. injection Hi as <-.
  assert (D : forall x y z, int_div x y = Ok z -> (0 <= x)%Z -> (0 < y)%Z -> (0 <= z)%Z).
  { intros x y z Hd Hx Hy. unfold int_div in Hd. destruct (y =? 0)%Z; [discriminate|]. injection Hd as <-. apply Z.quot_pos; lia. }
  repeat constructor; cbn; [lia|apply (D _ _ _ Ha); lia|apply (D _ _ _ He); lia].
Qed.

(** C99: files that agree in all but this give the same output file or the same exception. *)
Theorem C99_each_temperature_on_its_side (p : Params R) end_date cfg ic mh all_mode rows rows' :
  ordered_steps cfg ->
  Forall2 (fun a b => fst a = fst b /\ alike_on_their_side (snd a) (snd b)) rows rows' ->
  pysnobal_run p end_date cfg ic mh all_mode rows = pysnobal_run p end_date cfg ic mh all_mode rows'.
Proof.
  intros Ho H. destruct (parse_time_steps cfg) as [info|e] eqn:Hi; [|unfold pysnobal_run; rewrite Hi; reflexivity].
  apply (C99_what_precipitation_columns_say p end_date cfg info ic mh all_mode rows rows' Hi).
  pose proof (steps_nonneg cfg info Ho Hi) as Hp. clear Hi.
  induction H as [|[d r] [d' r'] l l' (E & Q) _ IH]; [constructor|]. cbn [fst snd] in E, Q. subst d'.
  constructor; [|exact IH]. split; [reflexivity|apply said_alike; assumption].
Qed.

(** In particular rain colder than 0 C is rain at 0 C, snow warmer than 0 C is snow at 0 C, and any density will do for a
    record without snowfall. *)
Definition on_its_side (row : CsvRow (T:=R)) : CsvRow :=
  let r := snd row in
  (fst row, mkRaw (r_S_n r) (r_I_lw r) (r_t_a r) (r_e_a r) (r_u r) (r_t_g r) (r_m_pp r) (r_percent_snow r)
     (if Rle_dec (r_m_pp r * r_percent_snow r) 0 then 1 else r_rho_snow r)
     (if Rlt_dec (r_percent_snow r) 1 then Rmax 0 (r_t_pp r) else Rmin 0 (r_t_pp r))).
Corollary C99_rain_is_not_cold_and_snow_not_warm (p : Params R) end_date cfg ic mh all_mode rows :
  ordered_steps cfg ->
  pysnobal_run p end_date cfg ic mh all_mode rows = pysnobal_run p end_date cfg ic mh all_mode (map on_its_side rows).
Proof.
  intros Ho. apply C99_each_temperature_on_its_side; [exact Ho|]. clear Ho. induction rows as [|[d r] l IH]; [constructor|].
  constructor; [|exact IH]. split; [reflexivity|]. cbn [snd on_its_side]. split; [repeat split|]. split; [reflexivity|]. split; [reflexivity|].
  cbn [r_t_pp r_rho_snow]. split; [|split].
  - intros _ Hq. destruct (Rlt_dec _ _); [|contradiction]. unfold Rmax. destruct (Rle_dec 0 (r_t_pp r)); destruct (Rle_dec _ _); lra.
  - intros _ Hq. destruct (Rlt_dec _ _); [lra|]. unfold Rmin. destruct (Rle_dec 0 (r_t_pp r)); destruct (Rle_dec _ _); lra.
  - intros H. destruct (Rle_dec _ _); [lra|reflexivity].
Qed.
End Reals.

(** ** Concrete cases in binary64: rain at -5 C and at 0 C on the fresh snow of the hour before, with any density, give the
    same file of three lines; a missing density does not, although no snow falls. *)
From Coq Require Import Floats.
From Verif Require Import FloatNum.
Section Floats.
Open Scope float_scope.
Definition wet_rec (m pct rho t_pp : float) : RawInput float := mkRaw 50 250 (-3) 300 2 (-2) m pct rho t_pp.
Definition rain_file (rho t_pp : float) : list (CsvRow (T:=float)) :=
  [(0%Z, wet_rec 5 1 100 (-3)); (60%Z, wet_rec 0.25 0 rho t_pp); (120%Z, wet_rec 0 0 0 0); (180%Z, wet_rec 0 0 0 0)].
Definition run_file (rows : list (CsvRow (T:=float))) := pysnobal_run w_params 1000 w_even (mkInitSnow 0 0 0 0 0 0.0078125) w_heights false rows.
(** the values of a column, line by line *)
Definition column (name : string) (rows : list (CsvRow (T:=float))) : list (option float) :=
  match run_file rows with
  | Ok out => map (fun line => match find (fun v => String.eqb (fst v) name) (snd line) with Some v => snd v | None => None end) out
  | Err _ => []
  end.
Example C99_any_temperature_below_zero : run_file (rain_file 0 (-5)) = run_file (rain_file 250 0) /\ length (column "m_s" (rain_file 0 (-5))) = 3%nat.
Proof. split; vm_compute; reflexivity. Qed.
(** A quarter of a millimetre of rain on 5 kg/m2 of snow; with a missing density the snow is gone and the runoff missing,
    without an exception. *)
Definition heavy (v : option float) : bool := match v with Some x => PrimFloat.ltb 5 x | None => false end.
Definition empty (v : option float) : bool := match v with Some x => PrimFloat.eqb x 0 | None => false end.
Definition missing (v : option float) : bool := match v with Some x => is_nan x | None => false end.
Example C99_missing_density_wipes_out_the_snow :
  map heavy (tl (column "m_s" (rain_file 0 0))) = [true; true] /\ map missing (column "swi" (rain_file 0 0)) = [false; false; false] /\
  map empty (tl (column "m_s" (rain_file nan 0))) = [true; true] /\ map missing (column "swi" (rain_file nan 0)) = [false; true; false].
Proof. repeat split; vm_compute; reflexivity. Qed.
(** In general: precipitation on snow with a missing density, also rain alone, leaves a missing amount of liquid water. *)
Definition is_missing (x : float) : Prop := Prim2SF x = S754_nan.
Lemma missing_sub a b : is_missing b -> is_missing (a - b).
Proof. unfold is_missing. intros H. rewrite sub_spec, H. destruct (Prim2SF a); reflexivity. Qed.
Lemma missing_mul a b : is_missing b -> is_missing (a * b).
Proof. unfold is_missing. intros H. rewrite mul_spec, H. destruct (Prim2SF a); reflexivity. Qed.
Lemma missing_div a b : is_missing a -> is_missing (a / b).
Proof. unfold is_missing. intros H. rewrite div_spec, H. destruct (Prim2SF b); reflexivity. Qed.
Lemma missing_add a b : is_missing b -> is_missing (a + b).
Proof. unfold is_missing. intros H. rewrite add_spec, H. destruct (Prim2SF a); reflexivity. Qed.
Lemma missing_add_l a b : is_missing a -> is_missing (a + b).
Proof. unfold is_missing. intros H. rewrite add_spec, H. destruct (Prim2SF b); reflexivity. Qed.
Theorem C99_missing_density_spoils_the_water (i : InputData float) s s' c' :
  i_precip_now i = true -> is_missing (i_rho_snow i) -> precip_event i (s, true) = Ok (s', c') ->
  is_missing (h2o s') /\ is_missing (h2o_total s').
Proof.
  intros Hn Hr. unfold precip_event. rewrite Hn.
  destruct (adj_snow (i_z_snow i) (i_m_pp i) (s, true)) as [s1 c1]. cbn [bind]. intros H. injection H as <- _.
  assert (W : is_missing (h2o s1 + h2o_left (i_z_snow i) (i_rho_snow i) (nmul (i_h2o_sat_snow i) (max_h2o_vol s1)))).
  { apply missing_add. unfold h2o_left. apply missing_div. apply missing_mul. apply missing_sub. exact Hr. }
  split; [exact W|]. apply missing_add. apply missing_add_l. exact W.
Qed.
(** the hypotheses of the theorems hold of such files *)
Example C99_witness : exists info, parse_time_steps (T:=float) w_even = Ok info /\
  Forall2 (fun a b => fst a = fst b /\ says_the_same info (snd (prepare_row a)) (snd (prepare_row b))) (rain_file 100 (-5)) (rain_file 100 (-2)).
Proof.
  eexists. split; [vm_compute; reflexivity|]. unfold rain_file.
  assert (A : forall info (r : RawInput float), says_the_same info r r) by (intros info r; repeat split; left; reflexivity).
  repeat constructor; try apply A.
Qed.
End Floats.

Section Witness.
Open Scope R_scope.
(** rain at -5 C, wet snow at 3 C, a mixture: brought to zero *)
Definition w_mixed : list (CsvRow (T:=R)) :=
  [(0%Z, mkRaw 0 300 0 600 1 0 5 1 100 3); (60%Z, mkRaw 0 300 0 600 1 0 2 0 (-7) (-5)); (120%Z, mkRaw 0 300 0 600 1 0 4 (1/2) 90 (-1))].
Definition w_mixed_zero : list (CsvRow (T:=R)) :=
  [(0%Z, mkRaw 0 300 0 600 1 0 5 1 100 0); (60%Z, mkRaw 0 300 0 600 1 0 2 0 1 0); (120%Z, mkRaw 0 300 0 600 1 0 4 (1/2) 90 0)].
Example C99_witness_reals : map on_its_side w_mixed = w_mixed_zero.
Proof.
  unfold w_mixed, w_mixed_zero, on_its_side. cbn [map fst snd r_S_n r_I_lw r_t_a r_e_a r_u r_t_g r_m_pp r_percent_snow r_rho_snow r_t_pp].
  repeat match goal with |- context [Rle_dec ?a ?b] => destruct (Rle_dec a b); try (exfalso; lra) end.
  repeat match goal with |- context [Rlt_dec ?a ?b] => destruct (Rlt_dec a b); try (exfalso; lra) end.
  unfold Rmax, Rmin. repeat match goal with |- context [Rle_dec ?a ?b] => destruct (Rle_dec a b); try (exfalso; lra) end. reflexivity.
Qed.
End Witness.

Print Assumptions C99_what_precipitation_columns_say.
Print Assumptions C99_missing_density_spoils_the_water.
Print Assumptions C99_each_temperature_on_its_side.
Print Assumptions C99_rain_is_not_cold_and_snow_not_warm.
