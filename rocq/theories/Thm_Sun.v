(** * Theorem C66: what more radiation does to a run step *)
From Coq Require Import Reals String ZArith Bool Lia Lra List.
Import ListNotations.
From Verif Require Import Num Real Constants Functions Libsnobal Input SnowState Snobal PySnobal
  SchedSpec Sched Frame SchedProps Spec Averages Forcing Phys Turb Mass MassEnd RunMass Run Strip
  Thm_Mass Thm_Phys Thm_Forcing Thm_Turb Thm_Pack Progress Progress2 Thm_Progress Witness.
Open Scope R_scope.

(** the same record with [x] W/m2 more net solar and [y] W/m2 more incoming thermal radiation *)
Definition brighter (x y : R) (i : InputData R) : InputData R :=
  mkInput (i_S_n i + x) (i_I_lw i + y) (i_t_a i) (i_e_a i) (i_u i) (i_t_g i)
    (i_m_pp i) (i_percent_snow i) (i_rho_snow i) (i_t_pp i)
    (i_m_snow i) (i_m_rain i) (i_z_snow i) (i_h2o_sat_snow i)
    (i_t_rain i) (i_t_snow i) (i_precip_now i).

(** the energy terms with [w] W/m2 more net radiation *)
Definition more (w : R) (e : Energy R) : Energy R :=
  mkEnergy (R_n e + w) (H_ e) (L_v_E e) (G_ e) (G_0 e) (M_ e) (delta_Q e + w) (delta_Q_0 e + w).

Lemma energy_brighter env t init i s s1 i1 init1 x y : has_snow s = true ->
  energy_balance env t init i s = Ok (s1, i1, init1) ->
  energy_balance env t init (brighter x y i) s = Ok (set_en (more (x + 98/100 * y) (en s1)) s1, brighter x y i1, init1).
Proof.
  intros Hs. unfold energy_balance. rewrite Hs. intros H.
  inv_bind H as [[[[h lve] e] i'] ini] Hh. inv_bind H as [g g0] Hg. inv_bind H as m Hm.
  assert (Hh' : h_le (ev_P_a env) (ev_heights env) (ev_relative_hts env) init (brighter x y i) s = Ok (h, lve, e, brighter x y i', ini)).
  { unfold h_le in *. cbn [brighter i_t_a]. inv_bind Hh as sv Hsv. rewrite Hsv. cbn [bind].
    cbn [brighter i_e_a]. set (j := if nltb sv (i_e_a i) then _ else i) in Hh.
    set (j' := if nltb sv (i_e_a i) then set_e_a sv (brighter x y i) else brighter x y i).
    assert (Ej : j' = brighter x y j) by (unfold j, j'; destruct (nltb sv (i_e_a i)); reflexivity).
    rewrite Ej. cbn [brighter i_t_a i_e_a i_u]. inv_bind Hh as es Hes. rewrite Hes. cbn [bind]. inv_bind Hh as r Hr. rewrite Hr. cbn [bind].
    destruct (negb _); [discriminate|]. ok_inj Hh. injection Hh as <- <- <- <- <-. reflexivity. }
  rewrite Hh'. cbn [bind].
  change (heat_transfer (ev_P_a env) (mh_z_g (ev_heights env)) (brighter x y i') s) with (heat_transfer (ev_P_a env) (mh_z_g (ev_heights env)) i' s).
  rewrite Hg. cbn [bind].
  change (advec t (brighter x y i') s) with (advec t i' s). rewrite Hm. cbn [bind].
  assert (E : net_radiation (brighter x y i) s = net_radiation i s + (x + 98/100 * y)).
  { unfold net_radiation. cbn [brighter i_S_n i_I_lw]. generalize (nmul STEF_BOLTZ (npown (t_s_0 s) 4)). intros q.
    unfold SNOW_EMISSIVITY. consts. rn. field. }
  rewrite E. clear E. revert H. generalize (net_radiation i s). intros q H.
  ok_inj H. injection H as <- <- <-. f_equal. f_equal. f_equal.
  match goal with |- set_E_flux e (set_en ?a s) = set_en ?b _ => change (set_E_flux e (set_en a s) = set_E_flux e (set_en b s)) end.
  f_equal. f_equal. unfold more. cbn. f_equal; ring.
Qed.

Lemma time_compact_en (e : Energy R) t s c : time_compact t (set_en e s, c) = rmap (stripP (set_en e)) (time_compact t (s, c)).
Proof. change (set_en e s, c) with (stripP (set_en e) (s, c)). apply strip_time_compact; reflexivity. Qed.
Lemma precip_en (e : Energy R) i s c : precip_event i (set_en e s, c) = rmap (stripP (set_en e)) (precip_event i (s, c)).
Proof. change (set_en e s, c) with (stripP (set_en e) (s, c)). apply strip_precip; reflexivity. Qed.

Lemma melt_of_pos Q : (if nltb (nofZ 0) Q then melt_of Q else nofZ 0) = Rmax 0 Q / 333600 :> R.
Proof.
  change (nltb (nofZ 0) Q) with (Rltb 0 Q). unfold melt_of. change (@lh_fus R RNum FREEZE) with LF. rn. rewrite LF_val.
  destruct (Rltb_spec 0 Q); [rewrite Rmax_right by lra|rewrite Rmax_left by lra]; rn; field.
Qed.

Lemma adj_layers_melt (p : Pack R) : melt (fst (adj_layers p)) = melt (fst p).
Proof.
  destruct p as [s c]. unfold adj_layers. cbn [fst].
  assert (H : melt (calc_layers s) = melt s) by (unfold calc_layers; destruct (if nleb _ _ then _ else _); reflexivity).
  rewrite <- H. clear H. generalize (calc_layers s). intros s'.
  destruct (layer_count s' =? 0)%nat; cbn [fst].
  - destruct (layer_count s =? 2)%nat, (nltb (nofZ 0) (m_s (set_rho (nofZ 0) s'))); reflexivity.
  - destruct (_ && _)%bool; [reflexivity|]. destruct (_ && _)%bool; reflexivity.
Qed.

Lemma adj_snow_melt dz dm (p : Pack R) : melt (fst (adj_snow dz dm p)) = melt (fst p).
Proof.
  destruct p as [s c]. unfold adj_snow. cbn [fst].
  set (s1 := if negb _ then set_rho _ _ else _).
  assert (E : melt s1 = melt s) by (unfold s1; destruct (negb _); reflexivity). clearbody s1. rewrite <- E. clear E s.
  destruct (nltb MAX_SNOW_DENSITY (rho s1)); [rewrite adj_layers_melt; reflexivity|].
  destruct (negb _); [rewrite adj_layers_melt; reflexivity|]. reflexivity.
Qed.

Lemma snowmelt_melt ts s s' c' : snowmelt ts (s, true) = Ok (s', c') ->
  melt s' = Rmax 0 (delta_Q_0 (en s) * IZR ts + cc_s_0 s) / 333600
          + (if (layer_count s =? 2)%nat then Rmax 0 ((G_ (en s) - G_0 (en s)) * IZR ts + cc_s_l s) / 333600 else 0).
Proof.
  unfold snowmelt. cbn [negb].
  change (nadd (nmul (delta_Q_0 (en s)) (nofZ ts)) (cc_s_0 s)) with (delta_Q_0 (en s) * IZR ts + cc_s_0 s).
  rewrite <- melt_of_pos. set (Q0 := delta_Q_0 (en s) * IZR ts + cc_s_0 s).
  set (s1 := if nltb (nofZ 0) Q0 then _ else _).
  assert (M1 : melt s1 = (if nltb (nofZ 0) Q0 then melt_of Q0 else nofZ 0) /\ en s1 = en s /\ cc_s_l s1 = cc_s_l s /\ layer_count s1 = layer_count s).
  { unfold s1. destruct (nltb (nofZ 0) Q0); [repeat split|]. destruct (neqb Q0 (nofZ 0)); repeat split. }
  destruct M1 as (M1 & M2 & M3 & M4). clearbody s1 Q0. rewrite <- M1, <- M2, <- M3, <- M4. clear M1 M2 M3 M4 s.
  destruct (if (layer_count s1 =? 2)%nat then _ else _) as [s2 Q_l] eqn:E2.
  intros H. inv_bind H as [r0 cc0] H3. inv_bind H as [rl ccl] H4.
  assert (M : melt s' = melt s2).
  { set (s5 := if nleb _ _ then _ else _) in H.
    assert (M5 : melt s5 = melt s2) by (unfold s5; destruct (nleb _ _); reflexivity).
    destruct (nltb (nofZ 0) (melt s5)).
    - inv_bind H as dz Hz. ok_inj H. rewrite <- M5. apply (f_equal fst) in H. cbn [fst] in H. rewrite <- H. apply adj_snow_melt.
    - injection H as <- <-. exact M5. }
  rewrite M. clear - E2. destruct (layer_count s1 =? 2)%nat.
  - rewrite <- melt_of_pos. apply (f_equal fst) in E2. cbn [fst] in E2. rewrite <- E2. clear E2.
    change (nadd (nmul (nsub (G_ (en s1)) (G_0 (en s1))) (nofZ ts)) (cc_s_l s1)) with ((G_ (en s1) - G_0 (en s1)) * IZR ts + cc_s_l s1).
    set (Q := (G_ (en s1) - G_0 (en s1)) * IZR ts + cc_s_l s1).
    destruct (nltb (nofZ 0) Q); [reflexivity|]. destruct (neqb Q (nofZ 0)); cbn; lra.
  - injection E2 as <- <-. lra.
Qed.

Lemma evap_cond_melt P z t i (p p' : Pack R) : evap_cond P z t i p = Ok p' -> melt (fst p') = melt (fst p).
Proof.
  destruct p as [s cover]. unfold evap_cond.
  destruct (negb cover). { intros H; injection H as <-. reflexivity. }
  intros H. inv_bind H as El HEl.
  set (s1 := if (layer_count _ =? 0)%nat then _ else _) in H.
  assert (H1 : melt s1 = melt s). { subst s1. destruct (layer_count _ =? 0)%nat; reflexivity. }
  cbn [fst]. rewrite <- H1. clearbody s1.
  destruct (has_snow _).
  - inv_bind H as q Hq. ok_inj H; subst p'. rewrite adj_snow_melt. reflexivity.
  - injection H as <-. reflexivity.
Qed.

Lemma h2o_compact_melt i (p p' : Pack R) : h2o_compact i p = Ok p' -> melt (fst p') = melt (fst p).
Proof.
  destruct p as [s cover]. unfold h2o_compact. destruct (negb cover || _); [intros H; injection H as <-; reflexivity|].
  intros H. inv_bind H as a Ha. destruct (nltb _ a).
  - inv_bind H as z Hz. ok_inj H; subst p'. rewrite adj_layers_melt. reflexivity.
  - injection H as <-. reflexivity.
Qed.

Lemma runoff_melt (p p' : Pack R) : runoff p = Ok p' -> melt (fst p') = melt (fst p).
Proof.
  destruct p as [s cover]. unfold runoff. destruct (negb cover || _); [intros H; injection H as <-; reflexivity|].
  intros H. inv_bind H as a Ha. destruct (nltb _ _).
  - ok_inj H; subst p'. rewrite adj_snow_melt. reflexivity.
  - inv_bind H as z Hz. injection H as <-. reflexivity.
Qed.

Lemma adjust_melt (s s' : SnowState R) : adjust_layer_temps s = Ok s' -> melt s' = melt s.
Proof.
  unfold adjust_layer_temps. intros H.
  repeat match type of H with
  | (if ?b then _ else _) = Ok _ => destruct b
  | bind _ _ = Ok _ => let x := fresh in let E := fresh in inv_bind H as x E
  end; injection H as <-; reflexivity.
Qed.

Lemma mass_balance_melt P z ts i (s : SnowState R) s2 k : mass_balance P z ts i (s, true) = Ok (s2, k) ->
  exists p1 p2, time_compact ts (s, true) = Ok p1 /\ precip_event i p1 = Ok p2 /\
    (snd p2 = false -> melt s2 = 0) /\
    (snd p2 = true -> exists s3 c3, snowmelt ts p2 = Ok (s3, c3) /\ melt s2 = melt s3).
Proof.
  unfold mass_balance. intros H. inv_bind H as p1 H1. inv_bind H as p2 H2. inv_bind H as p3 H3. inv_bind H as p4 H4.
  inv_bind H as p5 H5. inv_bind H as p6 H6. exists p1, p2. split; [exact H1|]. split; [exact H2|].
  assert (E : melt s2 = melt (fst p3)).
  { rewrite <- (evap_cond_melt _ _ _ _ _ _ H4), <- (h2o_compact_melt _ _ _ H5), <- (runoff_melt _ _ H6).
    destruct (snd p6).
    - inv_bind H as s7 H7. injection H as <- <-. exact (adjust_melt _ _ H7).
    - injection H as ->. reflexivity. }
  destruct p2 as [s5 c5]. cbn [snd]. split.
  - intros ->. rewrite sm_bare in H3. injection H3 as <-. exact E.
  - intros ->. destruct p3 as [s3 c3]. exists s3, c3. split; [exact H3|exact E].
Qed.

(** C66 *)
Theorem C66_more_radiation_never_melts_less env ds ts c i x y c1 i1 c2 i2 :
  0 <= x -> 0 <= y -> (0 < ts_time_step ts)%Z ->
  do_tstep env ds ts c i = Ok (c1, i1) ->
  do_tstep env ds ts c (brighter x y i) = Ok (c2, i2) ->
  let dim := c_ss c1 in let sunny := c_ss c2 in let w := x + 98/100 * y in
  if has_snow (c_ss c) then
    R_n (en sunny) = R_n (en dim) + w /\ H_ (en sunny) = H_ (en dim) /\ L_v_E (en sunny) = L_v_E (en dim) /\
    G_ (en sunny) = G_ (en dim) /\ G_0 (en sunny) = G_0 (en dim) /\ M_ (en sunny) = M_ (en dim) /\
    delta_Q_0 (en sunny) = delta_Q_0 (en dim) + w /\ delta_Q (en sunny) = delta_Q (en dim) + w /\
    melt dim <= melt sunny <= melt dim + w * IZR (ts_time_step ts) / 333600
  else sunny = dim.
Proof.
  intros Hx Hy Hts Hd Hs dim sunny w.
  apply do_tstep_inv in Hd. destruct Hd as (d & s1 & ic & init & s2 & k & s3 & Hd & He & Hm & Ha & Hc & _).
  apply do_tstep_inv in Hs. destruct Hs as (d' & s1' & ic' & init' & s2' & k' & s3' & Hd' & He' & Hm' & Ha' & Hc' & _).
  rewrite Hd in Hd'. injection Hd' as <-. cbv zeta in *.
  set (iu := if i_precip_now i then update_precip_deltas i d else i) in *.
  assert (Ei : (if i_precip_now (brighter x y i) then update_precip_deltas (brighter x y i) d else brighter x y i) = brighter x y iu).
  { unfold iu. cbn [brighter i_precip_now]. destruct (i_precip_now i); reflexivity. }
  rewrite Ei in He', Hc'. clear Ei.
  assert (Ec : c_ss c1 = s3).
  { destruct (ev_output_divided env); [apply output_inv in Hc; cbn in Hc; tauto|subst c1; reflexivity]. }
  assert (Ec' : c_ss c2 = s3').
  { destruct (ev_output_divided env); [apply output_inv in Hc'; cbn in Hc'; tauto|subst c2; reflexivity]. }
  unfold dim, sunny. rewrite Ec, Ec'. clear Hc Hc' Ec Ec' dim sunny c1 c2.
  change (has_snow (set_h2o_total (nofZ 0) (c_ss c))) with (has_snow (c_ss c)) in *.
  destruct (has_snow (c_ss c)) eqn:Hsn.
  - rewrite (energy_brighter _ _ _ _ (set_h2o_total (nofZ 0) (c_ss c)) _ _ _ x y Hsn He) in He'. fold w in He'. injection He' as <- <- <-.
    pose proof (mass_balance_frame _ _ _ _ _ _ Hm) as (_ & Fe). pose proof (mass_balance_frame _ _ _ _ _ _ Hm') as (_ & Fe').
    destruct (averaged_same_snow _ _ _ _ Ha) as (b & m & e & q & ->).
    destruct (averaged_same_snow _ _ _ _ Ha') as (b' & m' & e' & q' & ->).
    change (en (set_bar b (set_melt_sum m (set_E_s_sum e (set_swi_sum q s2))))) with (en s2).
    change (melt (set_bar b (set_melt_sum m (set_E_s_sum e (set_swi_sum q s2))))) with (melt s2).
    change (en (set_bar b' (set_melt_sum m' (set_E_s_sum e' (set_swi_sum q' s2'))))) with (en s2').
    change (melt (set_bar b' (set_melt_sum m' (set_E_s_sum e' (set_swi_sum q' s2'))))) with (melt s2').
    destruct Fe as (Fe & _). destruct Fe' as (Fe' & _). cbn [fst] in Fe, Fe'. rewrite Fe, Fe'. cbn [en set_en more R_n H_ L_v_E G_ G_0 M_ delta_Q delta_Q_0].
    repeat (split; [reflexivity|]).
    change (mass_balance (ev_P_a env) (mh_z_g (ev_heights env)) (ts_time_step ts) (brighter x y ic)) with
      (mass_balance (ev_P_a env) (mh_z_g (ev_heights env)) (ts_time_step ts) ic) in Hm'.
    destruct (mass_balance_melt _ _ _ _ _ _ _ Hm) as (p1 & p2 & T1 & P1 & M0 & M1).
    destruct (mass_balance_melt _ _ _ _ _ _ _ Hm') as (p1' & p2' & T1' & P1' & M0' & M1').
    rewrite time_compact_en, T1 in T1'. cbn [rmap] in T1'. injection T1' as <-.
    destruct p1 as [sa ca]. change (precip_event ic (set_en (more w (en s1)) sa, ca) = Ok p2') in P1'. rewrite precip_en, P1 in P1'. cbn [rmap] in P1'. injection P1' as <-.
    destruct p2 as [sb cb]. unfold stripP in M0', M1'. cbn [fst snd] in M0, M1, M0', M1'.
    assert (W : 0 <= w) by (unfold w; lra). apply IZR_lt in Hts.
    assert (W2 : 0 <= w * IZR (ts_time_step ts)) by (apply Rmult_le_pos; lra).
    destruct cb.
    + destruct (M1 eq_refl) as (x3 & c3 & S3 & ->). destruct (M1' eq_refl) as (x3' & c3' & S3' & ->).
      rewrite (snowmelt_melt _ _ _ _ S3), (snowmelt_melt _ _ _ _ S3').
      assert (F : en sb = en s1).
      { pose proof (time_compact_frame _ _ _ T1) as (_ & Y & _). pose proof (precip_event_frame _ _ _ P1) as (_ & Z & _).
        cbn [fst] in Y, Z. congruence. }
      change (layer_count (set_en (more w (en s1)) sb)) with (layer_count sb).
      change (en (set_en (more w (en s1)) sb)) with (more w (en s1)).
      change (cc_s_0 (set_en (more w (en s1)) sb)) with (cc_s_0 sb). change (cc_s_l (set_en (more w (en s1)) sb)) with (cc_s_l sb).
      rewrite F. cbn [more delta_Q_0 G_ G_0].
      replace ((delta_Q_0 (en s1) + w) * IZR (ts_time_step ts) + cc_s_0 sb) with
        (delta_Q_0 (en s1) * IZR (ts_time_step ts) + cc_s_0 sb + w * IZR (ts_time_step ts)) by ring.
      set (B := if (layer_count sb =? 2)%nat then _ else 0). clearbody B.
      set (Q := delta_Q_0 (en s1) * IZR (ts_time_step ts) + cc_s_0 sb). set (V := w * IZR (ts_time_step ts)) in *.
      clearbody Q V. clear - W2. unfold Rmax. destruct (Rle_dec 0 Q), (Rle_dec 0 (Q + V)); lra.
    + rewrite (M0 eq_refl), (M0' eq_refl). clear - W2. lra.
  - assert (Ee : energy_balance env (ts_time_step ts) (c_hle1_init c) (brighter x y iu) (set_h2o_total (nofZ 0) (c_ss c))
        = Ok (s1, brighter x y ic, init)).
    { unfold energy_balance in He |- *. change (has_snow (set_h2o_total (nofZ 0) (c_ss c))) with (has_snow (c_ss c)) in *.
      rewrite Hsn in He |- *. injection He as <- <- <-. reflexivity. }
    rewrite Ee in He'. injection He' as <- <- <-.
    change (mass_balance (ev_P_a env) (mh_z_g (ev_heights env)) (ts_time_step ts) (brighter x y ic)) with
      (mass_balance (ev_P_a env) (mh_z_g (ev_heights env)) (ts_time_step ts) ic) in Hm'.
    rewrite Hm in Hm'. injection Hm' as <- <-. unfold averaged in *. destruct (0 <? c_time_since_out c)%Z; congruence.
Qed.

(** ** The hypotheses are met: the hour after the snowfall of Witness.v, under any sun *)
Example C66_witness : exists env c1 i2 ds ts,
  model_run wQ wp wcfg wic wmh false env c1 /\ has_snow (c_ss c1) = true /\ (0 < ts_time_step ts)%Z /\
  forall x y, exists r, do_tstep env ds ts c1 (brighter x y i2) = Ok r.
Proof.
  destruct (w_first (1/4) (or_introl eq_refl)) as (env & c1 & e1 & i2 & Hi2 & HP & Hmh & Hrel & Hr1 & Htr & Hl0 & Hn & Hss & Em & Et & Et0 & Etl & Eh & Ez & Hinit & Ez0).
  assert (He1 : In e1 (c_trace c1)) by (rewrite Htr; left; reflexivity).
  destruct (event_facts wQ (wpz (1/4)) wcfg wic wmh false env c1 wQ_valid (w_setup (1/4) (or_introl eq_refl)) Hr1 e1 He1)
    as (_ & [Hpo1 _ _] & _ & _ & _ & (Cm & Cth & Cv)).
  pose proof (np_packed _ _ Hn) as Hk1.
  assert (Hrho : rho (e_after e1) = 100). { destruct Hk1 as [_ M]. rewrite Em, Ez in M. lra. }
  destruct Hss as (b1 & mm & ee & ww & Hss).
  assert (Hcold : cold (e_after e1)).
  { apply (np_cold _ _ Hn). destruct (np_t _ _ Hn) as (X & _). rewrite Et in X. lra. }
  assert (Hsp : sane_pack (c_ss c1)).
  { rewrite Hss. split; cbn; rewrite ?Em, ?Et, ?Et0, ?Eh, ?Cv; cbn [wpz p_max_h2o_vol]; try lra.
    - apply snowpack_packed. split; [destruct Hk1 as [[] ?]; split; [split|]; assumption|destruct Hpo1; split; assumption].
  }
  pose proof (input_data_raw _ _ Hi2) as (_ & Ilw & Ia & Ie & Iu & Ig & _). cbn [w_calm w_wind r_I_lw r_t_a r_e_a r_u r_t_g] in Ilw, Ia, Ie, Iu, Ig.
  pose proof (input_data_raw _ _ Hi2) as (Isn & _). cbn [w_calm w_wind r_S_n] in Isn.
  destruct (input_data_dry _ _ Hi2 ltac:(cbn; lra)) as (Ip & _).
  destruct w_info as (info & Hp).
  destruct (reach_standard _ _ _ _ _ _ _ _ Hr1) as (Hp' & _ & _).
  pose proof (run_time_since_out _ _ _ _ _ _ _ _ Hr1) as Ht0.
  destruct (deltas_exist wcfg _ w_calm i2 i2 (vs_steps _ _ _ (w_setup (1/4) (or_introl eq_refl))) Hp' Hi2) as (ds & d & Hds & Hd & Hld).
  destruct satw_280 as (w & Hw & Hwr).
  assert (Hsat : sati (i_t_a i2) = Ok w) by (rewrite Ia, sati_warm by lra; exact Hw).
  assert (H270 : snow_temp 270) by (split; lra).
  destruct (sati_snow 270 H270) as (es & Hes & Hesr).
  set (s := c_ss c1) in *.
  assert (Fs : z_s s = 6/10 /\ t_s_0 s = 270 /\ t_s s = 270 /\ z_0 s = 1/100 /\ h2o s = 0 /\ m_s s = 60 /\ rho s = 100)
    by (rewrite Hss; repeat split; assumption).
  destruct Fs as (F1 & F2 & F3 & F4 & F5 & F6 & F7).
  assert (Hmean : Thm_Turb.meaningful (ev_P_a env) (i_t_a i2) (t_s_0 s) (mh_z_t (ev_heights env) - z_s s) (Rmin (i_e_a i2) w) es
     (mh_z_t (ev_heights env) - z_s s) (i_u i2) (mh_z_u (ev_heights env) - z_s s) (z_0 s) w).
  { rewrite HP, Hmh, Ia, Ie, Iu, F1, F2, F4. cbn [wmh mh_z_t mh_z_u].
    split; try lra; try assumption.
    - split; [apply Rmin_glb_lt; lra|]. pose proof (Rmin_l 650 w). lra.
    - pose proof (Rmin_r 650 w). lra. }
  assert (Hst : t_s_0 s < Thm_Turb.potential_temperature (i_t_a i2) (mh_z_t (ev_heights env) - z_s s)).
  { rewrite Hmh, Ia, F1, F2. unfold potential_temperature. cbn [wmh mh_z_t]. lra. }
  assert (Hsite : sane_site (ev_P_a env) (mh_z_g (ev_heights env)) i2).
  { rewrite HP, Hmh. split; cbn [wmh mh_z_g]; rewrite ?Ig; try lra. intros e He. rewrite Hes in He. injection He as <-. lra. }
  assert (Hsoil : soil_warm i2 s).
  { unfold soil_warm. rewrite Ig, F3, F2. repeat split; try lra. intros Z. rewrite Hss in *. cbn in Z |- *. rewrite (Etl Z). lra. }
  set (t0 := mkTStep 0 (cfg_norm_thr wcfg) (60 * cfg_norm wcfg) (cfg_norm wcfg) 1 1).
  exists env, c1, i2, ds, t0. split; [exact Hr1|]. split.
  { destruct Hsp as [X _ _ _ _ _ _]; apply snowpack_packed in X; apply layered_has_snow, X. }
  split; [reflexivity|]. intros x y.
  apply (C51_calm_dry_run_steps_return env ds t0 c1 (brighter x y i2) d w es w); try assumption.
  { reflexivity. }
  { left; assumption. }
  { destruct Hsite; split; assumption. }
  { change (i_t_a (brighter x y i2)) with (i_t_a i2). rewrite Ia. exact Hw. }
  { fold s. rewrite F2. exact Hes. }
  { change (i_e_a (brighter x y i2)) with (i_e_a i2). rewrite Ie. lra. }
  { lra. }
  { lra. }
  { rewrite Hinit. discriminate. }
  { rewrite Hinit. discriminate. }
Qed.
Print Assumptions C66_more_radiation_never_melts_less.
