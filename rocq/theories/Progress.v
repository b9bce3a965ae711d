(** * Progress: when a run step does not raise, over the reals (C25, C48). *)
From Coq Require Import Reals String ZArith Bool Lia Lra List.
Import ListNotations.
From Verif Require Import Num Real Constants Functions Libsnobal Input SnowState Snobal PySnobal
  SchedSpec Sched Frame SchedProps Spec Averages Forcing Phys Turb Mass MassEnd RunMass Run.
Open Scope R_scope.
Implicit Types s : SnowState R.

(** ** Bare ground *)
Lemma init_snow_ok s : params_ok s -> 0 <= h2o_sat s <= 1 -> exists s', init_snow s = Ok s'.
Proof.
  intros Hp Hs. unfold init_snow.
  set (c := calc_layers _).
  assert (E : h2o_sat c = h2o_sat s /\ max_h2o_vol c = max_h2o_vol s).
  { unfold c. destruct (calc_layers_spec (set_m_s (nmul (rho s) (z_s s)) s) (pk_thr _ Hp)) as (z0 & zl & -> & _).
    split; reflexivity. }
  clearbody c. destruct E as (E1 & E2).
  destruct (layer_count c =? 0)%nat; [eexists; reflexivity|].
  set (b := if (layer_count _ =? 2)%nat then _ else _).
  assert (E : h2o_sat b = h2o_sat s /\ max_h2o_vol b = max_h2o_vol s).
  { unfold b. destruct (layer_count _ =? 2)%nat; cbn; auto. }
  clearbody b. destruct E as (E3 & E4).
  unfold dry_snow_density. cbn [h2o_vol set_h2o_vol rho]. consts. rewrite E3, E4.
  rewrite pdiv_R_ok; [cbn [bind]; eexists; reflexivity|].
  destruct Hp as [_ _ P1 P2]. 
  assert (h2o_sat s * max_h2o_vol s <= max_h2o_vol s) by nra.
  assert (0 < 1 - h2o_sat s * max_h2o_vol s * (99987/100) / 917) by lra. lra.
Qed.

Lemma precip_event_bare_ok i s : params_ok s -> input_valid i ->
  exists s', precip_event i (s, false) = Ok (s', false).
Proof.
  intros Hp Hv. unfold precip_event. destruct (i_precip_now i) eqn:En; [|eexists; reflexivity].
  destruct (nltb (nofZ 0) (i_m_snow i)); [|cbn [bind]; eexists; reflexivity].
  match goal with |- context [init_snow ?x] => destruct (init_snow_ok x) as (s' & E) end.
  - destruct Hp; split; assumption.
  - cbn. apply (Hv En).
  - rewrite E. cbn [bind]. eexists; reflexivity.
Qed.

Lemma mass_balance_bare_ok P zg ts i s : params_ok s -> input_valid i ->
  exists s', mass_balance P zg ts i (s, false) = Ok (s', false).
Proof.
  intros Hp Hv. unfold mass_balance. rewrite tc_bare. cbn [bind].
  destruct (precip_event_bare_ok i s Hp Hv) as (s1 & ->). cbn [bind].
  rewrite sm_bare. cbn [bind]. rewrite ec_bare. cbn [bind]. rewrite hc_bare. cbn [bind].
  rewrite ro_bare. cbn [bind snd]. eexists; reflexivity.
Qed.

(** ** Routines with snow cover *)
Lemma packed_rho_pos s : packed s -> 0 < m_s s -> 0 < rho s.
Proof. intros Hk Hm. pose proof (packed_z_pos s Hk). destruct Hk as [_ M]. rewrite M in Hm. nra. Qed.

Lemma packed_rho_zero s : packed s -> m_s s = 0 -> rho s = 0.
Proof. intros Hk Hm. pose proof (packed_z_pos s Hk). destruct Hk as [_ M]. rewrite M in Hm. nra. Qed.

Lemma compaction_rate_ok ts m : (0 < ts)%Z -> exists r, compaction_rate ts m = Ok r /\ 0 < r.
Proof.
  intros Ht. unfold compaction_rate. destruct (nleb SWE_MAX m).
  - exists 1. split; [reflexivity|lra].
  - apply IZR_lt in Ht. consts. rewrite pdiv_R_ok by lra. eexists. split; [reflexivity|].
    apply Rdiv_lt_0_compat; [|lra].
    match goal with |- context [cos ?a] => pose proof (COS_bound a) end. lra.
Qed.

Lemma compaction_ok ts s : (0 < ts)%Z -> exists d, compaction_increment ts s = Ok d.
Proof.
  intros Ht. unfold compaction_increment. destruct (compaction_rate_ok ts (m_s s) Ht) as (r & -> & Hr).
  cbn [bind]. rewrite pdiv_R_ok by lra. cbn [bind]. rewrite pdiv_R_ok by lra. cbn [bind]. eauto.
Qed.

Lemma time_compact_ok ts s : (0 < ts)%Z -> packed s -> 0 < m_s s ->
  exists s' c', time_compact ts (s, true) = Ok (s', c').
Proof.
  intros Ht Hk Hm. unfold time_compact. destruct (negb true || nleb RHO_MAX (rho s)); [eauto|].
  destruct (compaction_ok ts s Ht) as (d & Hd). rewrite Hd. cbn [bind rho set_rho m_s].
  pose proof (compaction_pos ts s d Ht ltac:(lra) Hd) as Hdp.
  pose proof (packed_rho_pos s Hk Hm) as Hr. rn.
  rewrite pdiv_R_ok by nra. cbn [bind].
  match goal with |- context [adj_layers ?x] => destruct (adj_layers x) end. eauto.
Qed.

Lemma precip_event_cover_ok i s : exists s' c', precip_event i (s, true) = Ok (s', c').
Proof.
  unfold precip_event. destruct (i_precip_now i); [|eauto].
  destruct (adj_snow _ _ _) as [s1 c1]. cbn [bind]. eauto.
Qed.

Lemma refreeze_ok s z Q cc : z_s s <> 0 -> exists r cc', refreeze s z Q cc = Ok (r, cc').
Proof.
  intros Hz. unfold refreeze. destruct (nltb cc _); [|eauto]. destruct (nltb _ (h2o_total s)); [|eauto].
  rewrite pdiv_R_ok by assumption. cbn [bind]. destruct (nleb _ _); eauto.
Qed.

Lemma snowmelt_ok ts s : packed s -> 0 < m_s s -> exists s' c', snowmelt ts (s, true) = Ok (s', c').
Proof.
  intros Hk Hm. pose proof (packed_z_pos s Hk) as Hz. pose proof (packed_rho_pos s Hk Hm) as Hr.
  unfold snowmelt. cbn [negb].
  set (Q0 := nadd _ (cc_s_0 s)).
  set (s1 := if nltb _ Q0 then _ else _).
  assert (E1 : z_s s1 = z_s s /\ rho s1 = rho s).
  { unfold s1. destruct (nltb _ Q0); [|destruct (neqb Q0 _)]; split; reflexivity. }
  clearbody s1.
  set (p2 := if (layer_count s1 =? 2)%nat then _ else _).
  assert (E2 : z_s (fst p2) = z_s s /\ rho (fst p2) = rho s).
  { unfold p2. destruct (layer_count s1 =? 2)%nat; [|exact E1].
    cbv zeta. destruct (nltb _ _); [|destruct (neqb _ _)]; exact E1. }
  clearbody p2. destruct p2 as [s2 Ql]. cbn [fst] in E2. destruct E2 as (E2 & E3). cbv iota beta.
  match goal with |- context [refreeze ?x ?y Q0 ?w] =>
    destruct (refreeze_ok x y Q0 w) as (r0 & cc0 & ->); [cbn; lra|] end. cbn [bind].
  set (m := if (layer_count _ =? 2)%nat then _ else _).
  assert (Hmx : exists rl ccl, m = Ok (rl, ccl)).
  { unfold m. destruct (layer_count _ =? 2)%nat; [|eauto]. apply refreeze_ok. cbn. lra. }
  destruct Hmx as (rl & ccl & ->). cbn [bind].
  set (s3 := if nleb _ _ then _ else _).
  assert (E4 : rho s3 = rho s) by (unfold s3; destruct (nleb _ _); exact E3).
  clearbody s3. destruct (nltb _ (melt s3)); [|eauto].
  rewrite E4, pdiv_R_ok by lra. cbn [bind].
  match goal with |- context [adj_snow ?a ?b ?x] => destruct (adj_snow a b x) end. eauto.
Qed.

(** temperatures and pressures at which the exchange routines are defined *)
Record air_ok (P : R) (i : InputData R) : Prop := {
  ao_P : 61071/100 < P;
  ao_tg : 0 < i_t_g i <= 33316/100;
  ao_eg : forall e, sati (i_t_g i) = Ok e -> e < P
}.
Definition snow_temp (t : R) : Prop := 0 < t <= 27316/100.
Definition temps_ok s : Prop :=
  snow_temp (t_s s) /\ snow_temp (t_s_0 s) /\ (0 < z_s_l s -> snow_temp (t_s_l s)).

Lemma sati_snow t : snow_temp t -> exists e, sati t = Ok e /\ 0 < e <= 61071/100.
Proof.
  intros (H1 & H2). destruct (sati_defined t H1) as (e & He & Hp). exists e. split; [assumption|]. split; [assumption|].
  destruct (Rle_lt_or_eq_dec _ _ H2) as [H|H].
  - destruct (sati_incr t (27316/100) H1 H ltac:(lra)) as (a & b & Ha & Hb & Hab).
    rewrite He in Ha. rewrite sati_at_freezing in Hb. injection Ha as <-. injection Hb as <-. lra.
  - subst t. rewrite sati_at_freezing in He. injection He as <-. lra.
Qed.

Lemma diffusion_ok P t : P <> 0 -> exists k, diffusion_coef P t = Ok k /\ (0 < P -> 0 < t -> 0 < k).
Proof.
  intros HP. unfold diffusion_coef. rewrite pdiv_R_ok by assumption. cbn [bind]. eexists. split; [reflexivity|].
  intros H1 H2. consts. assert (0 < npown (t / (27316/100)) 14) by (apply npown_pos; apply Rdiv_lt_0_compat; lra).
  assert (0 < 1013246/10 / P) by (apply Rdiv_lt_0_compat; lra).
  match goal with |- 0 < _ * _ * ?n * _ => change (0 < n) in H; set (nn := n) in * end.
  assert (0 < 65/100 * (1013246/10/P) * nn) by (repeat apply Rmult_lt_0_compat; lra). lra.
Qed.

(** mass exchanged with the soil is defined, and not negative if the soil is not colder *)
Lemma soil_evap_temp P zg ts i t : air_ok P i -> 0 < zg -> (0 < ts)%Z -> snow_temp t ->
  exists El,
    (let* '(e_s, t_bar) := (let* e := sati t in Ok (e, (i_t_g i + t) / 2)) in
     let* q_s_l := spec_hum e_s P in
     let* e_g := sati (i_t_g i) in
     let* q_g := spec_hum e_g P in
     let* rho_air := gas_density P MOL_AIR t_bar in
     let* k := diffusion_coef P t_bar in
     let* E_l := vapor_flux rho_air k (q_g - q_s_l) zg in
     Ok (E_l * IZR ts)) = Ok El /\ (t <= i_t_g i <= 27316/100 -> 0 <= El) /\ (t = i_t_g i -> El = 0).
Proof.
  intros [HP Htg Heg] Hzg Hts Ht. apply IZR_lt in Hts.
  destruct (sati_snow t Ht) as (e & Hee & He). rewrite Hee. cbn [bind].
  destruct (spec_hum_facts e P) as (qs & Hqs & _); [lra|lra|]. rewrite Hqs. cbn [bind].
  destruct (sati_defined (i_t_g i)) as (eg & Hg & Hgp); [lra|]. rewrite Hg. cbn [bind].
  pose proof (Heg _ Hg) as Hgl.
  destruct (spec_hum_facts eg P) as (qg & Hqg & _); [lra|lra|]. rewrite Hqg. cbn [bind].
  destruct Ht as (Ht1 & Ht2).
  destruct (diffusion_ok P ((i_t_g i + t)/2)) as (k & Hk & Hkp); [lra|].
  assert (Hkp' : 0 < k) by (apply Hkp; lra).
  assert (Hgd : exists d, gas_density P MOL_AIR ((i_t_g i + t) / 2) = Ok d /\ 0 < d).
  { unfold gas_density. consts. rewrite pdiv_R_ok by lra. eexists. split; [reflexivity|].
    apply Rdiv_lt_0_compat; lra. }
  destruct Hgd as (d & -> & Hd). cbn [bind]. rewrite Hk. cbn [bind].
  unfold vapor_flux. rewrite pdiv_R_ok by lra. cbn [bind].
  eexists. split; [reflexivity|]. change (@nmul R RNum) with Rmult.
  assert (Heq : t = i_t_g i -> qg - qs = 0).
  { intros E. rewrite E, Hg in Hee. injection Hee as <-. rewrite Hqg in Hqs. injection Hqs as <-. lra. }
  split.
  - intros (Hle & Hf).
    assert (Hq : 0 <= qg - qs).
    { destruct (Rle_lt_or_eq_dec _ _ Hle) as [Hlt|E]; [|rewrite (Heq E); lra].
      destruct (sati_incr t (i_t_g i) Ht1 Hlt Hf) as (a & b & Ha & Hb & Hab).
      rewrite Hg in Hb. injection Hb as <-. rewrite Ha in Hee. injection Hee as ->.
      destruct (spec_hum_incr e eg P) as (q1 & q2 & Hq1 & Hq2 & Hab2); [lra|lra|lra|].
      rewrite Hqs in Hq1. rewrite Hqg in Hq2. injection Hq1 as <-. injection Hq2 as <-. lra. }
    apply Rmult_le_pos; [|lra]. apply Rmult_le_pos; [apply Rmult_le_pos; lra|].
    apply Rmult_le_pos; [assumption|]. left. apply Rinv_0_lt_compat; assumption.
  - intros E. rewrite (Heq E). unfold Rdiv. ring.
Qed.

Lemma soil_evap_ok P zg ts i s : air_ok P i -> 0 < zg -> (0 < ts)%Z -> temps_ok s -> layered s ->
  exists El, soil_evap P zg ts i s = Ok El /\
    (t_s_0 s <= i_t_g i -> (0 < z_s_l s -> t_s_l s <= i_t_g i) -> i_t_g i <= 27316/100 -> 0 <= El).
Proof.
  intros Ha Hzg Hts (_ & T0 & Tl) L. unfold soil_evap.
  destruct (layered_count s L) as [[Zl ->]|[Zl ->]]; cbn [Nat.eqb].
  - destruct (soil_evap_temp P zg ts i (t_s_0 s) Ha Hzg Hts T0) as (El & H & H1 & H2).
    exists El. split; [exact H|]. intros. apply H1. lra.
  - destruct (soil_evap_temp P zg ts i (t_s_l s) Ha Hzg Hts (Tl Zl)) as (El & H & H1 & H2).
    exists El. split; [exact H|]. intros A B C. apply H1. split; auto.
Qed.

Lemma evap_cond_ok P zg ts i s El : packed s -> rho s <> 0 -> soil_evap P zg ts i s = Ok El ->
  exists s' c', evap_cond P zg ts i (s, true) = Ok (s', c') /\ 
    exists h dz, (s', c') = adj_snow dz (E_flux s * IZR ts + El) (set_E_s (E_flux s * IZR ts + El) (set_h2o_total h s), true) /\
    h = evap_h2o (evap_h2o (h2o_total s) (E_flux s * IZR ts)) El.
Proof.
  intros Hk Hr HE. unfold evap_cond. generalize (@adj_snow R RNum). intros F. cbn [negb].
  pose proof (layered_has_snow s (proj1 Hk)) as Hs.
  assert (Hlc : (layer_count s =? 0)%nat = false) by (destruct (layered_count s (proj1 Hk)) as [[_ ->]|[_ ->]]; reflexivity).
  change (nmul (E_flux s) (nofZ ts)) with (E_flux s * IZR ts). set (E0 := E_flux s * IZR ts).
  set (h0 := evap_h2o (h2o_total s) E0).
  change (soil_evap P zg ts i (set_h2o_total h0 s)) with (soil_evap P zg ts i s). rewrite HE. cbn [bind].
  change (layer_count (set_h2o_total h0 s)) with (layer_count s). rewrite Hlc.
  change (has_snow _) with (has_snow s). rewrite Hs.
  rewrite pdiv_R_ok by assumption. cbn [bind].
  change (h2o_total (set_h2o_total h0 s)) with h0.
  match goal with |- exists s' c', Ok ?x = Ok (s', c') /\ _ => destruct x as [s' c'] eqn:Ex end.
  exists s', c'. split; [reflexivity|]. rewrite <- Ex. do 2 eexists. split; [reflexivity|reflexivity].
Qed.

Lemma h2o_compact_ok i s : packed s -> m_s s <> 0 -> 0 <= melt s -> (i_precip_now i = true -> 0 <= i_m_rain i) ->
  exists s' c', h2o_compact i (s, true) = Ok (s', c').
Proof.
  intros Hk Hm Hme Hra. unfold h2o_compact. destruct (negb true || nltb H2O_MAX_DENSITY (rho s)) eqn:Ed; [eauto|].
  cbn [negb orb] in Ed. change (Rltb 550 (rho s) = false) in Ed. rbool.
  assert (Ha : exists a, (if i_precip_now i then pdiv (nadd (melt s) (i_m_rain i)) (m_s s) else pdiv (melt s) (m_s s)) = Ok a /\
     (0 < a -> 0 < m_s s)).
  { destruct (i_precip_now i); rewrite pdiv_R_ok by assumption; eexists; (split; [reflexivity|]); intros H.
    - rn. destruct (Rlt_le_dec 0 (m_s s)) as [?|Hn]; [assumption|exfalso].
      assert (0 <= - ((melt s + i_m_rain i) / m_s s)); [|lra].
      replace (- ((melt s + i_m_rain i) / m_s s)) with ((melt s + i_m_rain i) * / - m_s s) by (field; assumption).
      specialize (Hra eq_refl). apply Rmult_le_pos; [lra|]. left. apply Rinv_0_lt_compat. lra.
    - rn. destruct (Rlt_le_dec 0 (m_s s)) as [?|Hn]; [assumption|exfalso].
      assert (0 <= - (melt s / m_s s)); [|lra].
      replace (- (melt s / m_s s)) with (melt s * / - m_s s) by (field; assumption).
      apply Rmult_le_pos; [lra|]. left. apply Rinv_0_lt_compat. lra. }
  destruct Ha as (a & -> & Ha). cbn [bind]. consts. destruct (Rltb_spec (1/1000000) a) as [Hb|Hb]; [|eauto].
  pose proof (packed_rho_pos s Hk (Ha ltac:(lra))) as Hr.
  cbn [rho set_rho m_s]. destruct (wet_density (rho s) a ltac:(lra) ltac:(lra)) as (Hw & _).
  rewrite pdiv_R_ok by lra. cbn [bind].
  match goal with |- context [adj_layers ?x] => destruct (adj_layers x) end. eauto.
Qed.

Lemma capacity_pos s : packed s -> 0 < max_h2o_vol s -> 0 <= h2o_total s -> rho s <= 600 -> 0 < capacity s.
Proof.
  intros Hk Hv Ht Hr. pose proof (packed_z_pos s Hk) as Hz. destruct Hk as [L M].
  unfold capacity, h2o_left. consts.
  assert (Hd : (m_s s - h2o_total s) / z_s s <= 600).
  { apply Rmult_le_reg_r with (z_s s); [assumption|]. unfold Rdiv. rewrite Rmult_assoc, Rinv_l, Rmult_1_r by lra. nra. }
  apply Rdiv_lt_0_compat; [|lra]. repeat apply Rmult_lt_0_compat; lra.
Qed.

Lemma runoff_ok s : packed s -> 0 < max_h2o_vol s -> 0 <= h2o_total s -> rho s <= 600 ->
  exists s' c', runoff (s, true) = Ok (s', c').
Proof.
  intros Hk Hv Ht Hr. pose proof (capacity_pos s Hk Hv Ht Hr) as Hc. pose proof (packed_z_pos s Hk) as Hz.
  unfold runoff.
  assert (Hlc : (layer_count s =? 0)%nat = false) by (destruct (layered_count s (proj1 Hk)) as [[_ ->]|[_ ->]]; reflexivity).
  rewrite Hlc. cbn [negb orb]. rewrite pdiv_R_ok by lra. cbn [bind].
  match goal with |- context [set_h2o_max ?x s] => change x with (capacity s) end.
  destruct (nltb _ _).
  - match goal with |- context [adj_snow ?a ?b ?x] => destruct (adj_snow a b x) end. eauto.
  - cbn [h2o set_h2o set_swi set_h2o_max h2o_max h2o_total]. rewrite pdiv_R_ok by lra. cbn [bind]. eauto.
Qed.

Lemma new_tsno_ok m t cc : m <> 0 -> 0 < t -> exists t', new_tsno m t cc = Ok t'.
Proof.
  intros Hm Ht. unfold new_tsno, cp_ice. consts. rewrite pdiv_R_ok; [cbn [bind]; eauto|].
  apply Rmult_integral_contrapositive_currified; [assumption|]. lra.
Qed.

Lemma new_tsno_zero t cc : new_tsno 0 t cc = Err ZeroDivision.
Proof. unfold new_tsno, pdiv. rn. rewrite Rmult_0_l. destruct (Reqb_spec 0 0); [reflexivity|lra]. Qed.

Lemma adjust_ok s : packed s -> Tpos s -> m_s s <> 0 -> exists s', adjust_layer_temps s = Ok s'.
Proof.
  intros Hk (T & T0 & Tl) Hm. destruct Hk as [L M]. unfold adjust_layer_temps.
  assert (Hr : rho s <> 0) by (intros E; rewrite E in M; lra).
  destruct L as [L0 Ll Lz Lm0 Lml L2 L1] eqn:EL. 
  destruct (layered_count s L) as [[Zl ->]|[Zl ->]]; cbn [Nat.eqb].
  - destruct (new_tsno_ok (m_s_0 s) (t_s_0 s) (cc_s_0 s)) as (t & ->); [rewrite Lm0; apply Rmult_integral_contrapositive_currified; lra|assumption|].
    cbn [bind]. eauto.
  - destruct (isothermal s); [eauto|].
    destruct (new_tsno_ok (m_s_0 s) (t_s_0 s) (cc_s_0 s)) as (t & ->); [rewrite Lm0; apply Rmult_integral_contrapositive_currified; lra|assumption|].
    cbn [bind].
    destruct (new_tsno_ok (m_s_l s) (t_s_l s) (cc_s_l s)) as (t' & ->); [rewrite Lml; apply Rmult_integral_contrapositive_currified; lra|auto|].
    cbn [bind].
    destruct (new_tsno_ok (m_s s) (t_s s) (cc_s s)) as (t'' & ->); [assumption|assumption|].
    cbn [bind]. eauto.
Qed.

(** ** The whole mass balance *)
Lemma adj_snow_depth dz dm s s' : params_ok s -> packed s -> dz <> 0 ->
  adj_snow dz dm (s, true) = (s', true) -> 0 < z_s s + dz.
Proof.
  intros Hp Hk Hdz H. pose proof (packed_z_pos s Hk) as Hz. destruct Hk as [L M]. unfold adj_snow in H.
  pose proof adj_layers_spec as HF. revert HF H. generalize (@adj_layers R RNum). intros F HF H.
  consts. cbn in H.
  set (m' := m_s s + dm) in *. set (z' := z_s s + dz) in *.
  set (s1 := if negb (Reqb z' 0) then _ else _) in H.
  assert (Hs1 : exists r, s1 = set_rho r (set_m_s m' (set_z_s z' s)) /\ (z' <> 0 -> m' = r * z') /\ (z' = 0 -> r = 0)).
  { unfold s1. destruct (Reqb_spec z' 0) as [E|E]; cbn [negb].
    - exists 0. repeat split; lra.
    - exists (m' / z'). split; [reflexivity|]. split; [intros; field; assumption|lra]. }
  destruct Hs1 as (r & E1 & Hr & Hr0). rewrite E1 in H. clear s1 E1.
  assert (Hadj : forall r1 z1, params_ok (set_rho r1 (set_m_s m' (set_z_s z1 s))) /\
                            adjustable (set_rho r1 (set_m_s m' (set_z_s z1 s)))).
  { intros. split; [destruct Hp; split; assumption|]. apply layered_adjustable in L. destruct L; split; assumption. }
  cbn [rho set_rho set_m_s set_z_s] in H.
  destruct (Rltb_spec 600 r) as [Hbig|Hbig].
  - change (F (set_rho 600 (set_m_s m' (set_z_s (m'/600) s)), true) = (s', true)) in H.
    destruct (Hadj 600 (m'/600)) as (A1 & A2).
    destruct (HF _ _ _ _ A1 A2 ltac:(cbn; intros; field) H)
      as [(K0 & K1 & K2 & K3 & K4 & K5)|(K0 & K1 & K2 & K3)]; [|discriminate].
    cbn in K5. pose proof (pk_thr _ Hp).
    destruct (Req_dec z' 0) as [E|E]; [rewrite (Hr0 E) in Hbig; lra|]. specialize (Hr E). nra.
  - destruct (Reqb_spec dz 0) as [Ed|Ed]; cbn [negb] in H; [lra|].
    destruct (Hadj r z') as (A1 & A2).
    destruct (HF _ _ _ _ A1 A2 ltac:(cbn; intros; apply Hr; lra) H)
      as [(K0 & K1 & K2 & K3 & K4 & K5)|(K0 & K1 & K2 & K3)]; [|discriminate].
    cbn in K4. rewrite <- K4. apply packed_z_pos. apply (kp_packed _ _ K1).
Qed.

Lemma kept_temps_ok s s' : kept s s' -> temps_ok s -> temps_ok s'.
Proof.
  intros [_ _ (A & B & _) L _] (T & T0 & Tl). unfold temps_ok. rewrite A, B. repeat split; try apply T; try apply T0;
  destruct L as [(Z & _)|[(Z & Z2 & _ & E)|(Z & Z2 & E & _)]]; try lra; rewrite E; try apply Tl; try apply T; assumption.
Qed.

Definition soil_warm (i : InputData R) s : Prop :=
  t_s s <= i_t_g i /\ t_s_0 s <= i_t_g i /\ (0 < z_s_l s -> t_s_l s <= i_t_g i) /\ i_t_g i <= 27316/100.
Lemma kept_soil_warm i s s' : kept s s' -> soil_warm i s -> soil_warm i s'.
Proof.
  intros [_ _ (A & B & _) L _] (T & T0 & Tl & F). unfold soil_warm. rewrite A, B. split; [assumption|]. split; [assumption|].
  split; [|assumption]. intros Z'.
  destruct L as [(Z & _)|[(Z & Z2 & _ & E)|(Z & Z2 & E & _)]]; try lra; rewrite E; auto.
Qed.

Lemma temps_ok_Tpos s : temps_ok s -> Tpos s.
Proof. intros ((A & _) & (B & _) & C). split; [assumption|]. split; [assumption|]. intros Z. destruct (C Z). assumption. Qed.

(** why a division by zero is left: evaporation, or runoff of the liquid water [h],
    leaves a mass of exactly zero *)
Definition exhausted (i : InputData R) (ts : Z) s : Prop :=
  let m := m_s s + precip_of i in
  exists El h me K, let E := E_flux s * IZR ts + El in
    (soil_warm i s -> 0 <= El) /\ (me = 0 \/ 0 < me < m) /\
    0 <= h <= h2o s + liquid_in i s + me + Rmax 0 E * VAP_SUB /\ 0 < K /\
    (m + E = 0 \/ m + E - Rmax 0 (h - K) = 0).

Lemma mass_balance_progress P zg ts i s :
  params_ok s -> 0 < max_h2o_vol s -> packed s -> 0 < m_s s -> 0 <= h2o s -> h2o_total s = 0 ->
  temps_ok s -> air_ok P i -> 0 < zg -> (0 < ts)%Z -> input_valid i ->
  (exists r, mass_balance P zg ts i (s, true) = Ok r) \/
  (mass_balance P zg ts i (s, true) = Err ZeroDivision /\ exhausted i ts s).
Proof.
  intros Hp Hvol Hk Hm Hh Ht0 Htk Hair Hzg Hts Hv. unfold mass_balance.
  pose proof (liquid_in_nonneg i Hv s Hp) as Hliq.
  destruct (time_compact_ok ts s Hts Hk Hm) as (s1 & c1 & H1). rewrite H1. cbn [bind].
  destruct (time_compact_spec ts s s1 c1 Hp Hk Hts H1) as [(-> & K1 & M1 & _ & _)|(-> & G1 & _ & _)].
  2:{ left. assert (Hp1 : params_ok s1) by (eapply params_eq_ok; [apply (gn_params _ _ _ G1)|assumption]).
    destruct (mass_balance_bare_ok P zg ts i s1 Hp1 Hv) as (s' & Hb).
    unfold mass_balance in Hb. rewrite tc_bare in Hb. exists (s', false). exact Hb. }
  assert (Hp1 : params_ok s1) by (eapply kept_params_ok; eassumption).
  assert (Pk1 : packed s1) by (apply (kp_packed _ _ K1)).
  pose proof (kp_water _ _ K1) as (_ & W1 & _ & _ & W2 & _).
  assert (Pe1 : params_eq s s1) by (apply (kp_params _ _ K1)).
  pose proof (time_compact_frame _ _ _ H1) as (_ & F1). cbn [fst] in F1.
  destruct (precip_event_cover_ok i s1) as (s2 & c2 & H2). rewrite H2. cbn [bind].
  assert (Hpp : 0 <= precip_of i). { unfold precip_of. destruct (i_precip_now i) eqn:En; [|lra]. destruct (Hv En). lra. }
  set (m2 := m_s s + precip_of i).
  assert (Hst2 : c2 = false \/ (c2 = true /\ exists s1b h2 ht, kept s1 s1b /\ s2 = set_h2o_total ht (set_h2o h2 s1b) /\
                    m_s s1b = m2 /\ 0 <= h2 /\ 0 <= ht /\ ht = h2o s + liquid_in i s)).
  { unfold m2, precip_of, liquid_in.
    assert (Esw : snow_water i s1 = snow_water i s).
    { unfold snow_water. destruct Pe1 as (_ & _ & _ & ->). reflexivity. }
    destruct (precip_cover_spec i s1 s2 c2 Hp1 Pk1 H2) as [(Hn & -> & ->)|[(Hn & -> & s1b & A1 & A2 & A3 & ->)|(Hn & -> & _)]];
      [right|right|left; reflexivity]; rewrite Hn; (split; [reflexivity|]).
    - exists s1, (h2o s1), (h2o_total s1 + h2o s1).
      split; [apply kept_refl; assumption|]. split; [destruct s1; reflexivity|]. rewrite M1, W1, W2, Ht0. repeat split; lra.
    - pose proof (Hv Hn) as V. pose proof (snow_water_nonneg i s1 Hp1 V) as Hsw.
      exists s1b. do 2 eexists.
      split; [eassumption|]. split; [reflexivity|]. rewrite A2, M1, W1, W2, Ht0. destruct V. repeat split; lra. }
  pose proof (precip_event_frame _ _ _ H2) as (_ & F2). cbn [fst] in F2.
  assert (Hbare : forall s', exists r,
     (let* p := snowmelt ts (s', false) in let* p0 := evap_cond P zg ts i p in let* p1 := h2o_compact i p0 in
      let* p2 := runoff p1 in (if snd p2 then let* s0 := adjust_layer_temps (fst p2) in Ok (s0, snd p2) else Ok p2)) = Ok r).
  { intros s'. rewrite sm_bare. cbn [bind]. rewrite ec_bare. cbn [bind]. rewrite hc_bare. cbn [bind]. rewrite ro_bare. cbn [bind snd]. eauto. }
  destruct Hst2 as [->|(-> & s1b & h2 & ht & K2 & -> & M2 & Hh2 & Hht & Hhte)]; [left; apply Hbare|].
  clear Hbare.
  assert (Pe2 : params_eq s s1b) by (exact (params_trans _ _ _ Pe1 (kp_params _ _ K2))).
  assert (Mp2 : 0 < m2) by (unfold m2; lra).
  set (s2 := set_h2o_total ht (set_h2o h2 s1b)) in *.
  assert (Hp2 : params_ok s2) by (eapply params_eq_ok; [exact Pe2|assumption]).
  assert (Pk2 : packed s2).
  { pose proof (kp_packed _ _ K2) as [[] ?]. split; [split|]; assumption. }
  assert (T2 : temps_ok s2) by (exact (kept_temps_ok _ _ K2 (kept_temps_ok _ _ K1 Htk))).
  assert (S2 : soil_warm i s -> soil_warm i s2) by (intros A; exact (kept_soil_warm _ _ _ K2 (kept_soil_warm _ _ _ K1 A))).
  destruct (snowmelt_ok ts s2 Pk2) as (s3 & c3 & H3); [change (0 < m_s s1b); lra|]. rewrite H3. cbn [bind].
  pose proof (snowmelt_frame _ _ _ H3) as (_ & F3). cbn [fst] in F3.
  destruct (snowmelt_core ts s2 s3 c3 Pk2 Hht H3) as (m0 & r0 & cc0 & ml & rl & ccl & ht3 & HM & Hml & Hc3). cbv zeta in Hc3.
  pose proof (melt_out_total _ _ _ _ _ _ _ _ _ HM) as Hht3. change (h2o_total s2) with ht in Hht3.
  pose proof (melt_state_packed _ _ _ _ _ _ _ _ _ Pk2 HM) as Pk3.
  assert (Hm0 : 0 <= m0 /\ 0 <= r0 /\ 0 <= rl).
  { destruct HM as ((A & B & _) & A2 & A3 & _). split; [assumption|]. split; [assumption|].
    destruct (Rle_lt_or_eq_dec _ _ (ly_zl _ (proj1 Pk2))) as [Zl|Zl].
    - destruct (A2 Zl) as (_ & B2 & _). assumption.
    - destruct (A3 (eq_sym Zl)) as (_ & -> & _). lra. }
  set (s2m := melt_state s2 m0 cc0 ml ccl ht3) in *.
  assert (Hst3 : c3 = false \/ (c3 = true /\ kept s2m s3 /\ m_s s3 = m2 /\ (m0 + ml = 0 \/ 0 < m0 + ml < m2))).
  { destruct Hc3 as [(A & -> & ->)|(Hmp & Hr & Ha)].
    - right. split; [reflexivity|]. split; [apply kept_refl; assumption|]. split; [exact M2|auto].
    - assert (Hp2m : params_ok s2m) by (destruct Hp2; split; assumption).
      destruct (adj_snow_spec _ _ s2m _ _ _ Hp2m Pk3 Ha) as [(-> & A1 & A2 & A3 & _)|(-> & _)]; [right|left; reflexivity].
      split; [reflexivity|]. split; [assumption|]. split; [rewrite A2; change (m_s s2m) with (m_s s1b); lra|].
      right. split; [assumption|].
      assert (Hrp : 0 < rho s2) by (apply packed_rho_pos; [assumption|change (0 < m_s s1b); lra]).
      assert (Hdz : - (m0 + ml) / rho s2 <> 0).
      { intros E. apply (f_equal (fun x => x * rho s2)) in E. unfold Rdiv in E. rewrite Rmult_assoc, Rinv_l in E by lra. lra. }
      pose proof (adj_snow_depth _ _ _ _ Hp2m Pk3 Hdz Ha) as Hd. change (z_s s2m) with (z_s s2) in Hd.
      destruct Pk2 as [_ Mm]. change (m_s s2) with (m_s s1b) in Mm. rewrite M2 in Mm.
      apply (Rmult_lt_compat_r (rho s2)) in Hd; [|assumption]. unfold Rdiv in Hd.
      rewrite Rmult_plus_distr_r, Rmult_assoc, Rinv_l in Hd by lra. lra. }
  clear Hc3.
  destruct Hst3 as [->|(-> & K3 & M3 & Hmelt)].
  { left. rewrite ec_bare. cbn [bind]. rewrite hc_bare. cbn [bind]. rewrite ro_bare. cbn [bind snd]. eauto. }
  assert (Pe3 : params_eq s s3) by (exact (params_trans _ _ _ Pe2 (kp_params _ _ K3))).
  assert (Hp3 : params_ok s3) by (eapply params_eq_ok; eassumption).
  assert (Pk3' : packed s3) by (apply (kp_packed _ _ K3)).
  assert (T3 : temps_ok s3) by (exact (kept_temps_ok _ _ K3 T2)).
  assert (S3 : soil_warm i s -> soil_warm i s3) by (intros A; exact (kept_soil_warm _ _ _ K3 (S2 A))).
  destruct (kp_water _ _ K3) as (_ & _ & _ & _ & W3 & W3m & _). change (h2o_total s3 = ht3) in W3. change (melt s3 = m0 + ml) in W3m.
  assert (EF : E_flux s3 = E_flux s).
  { destruct F1 as (_ & _ & F1 & _). destruct F2 as (_ & _ & F2 & _). destruct F3 as (_ & _ & F3 & _).
    change (E_flux s2 = E_flux s1) in F2. congruence. }
  destruct (soil_evap_ok P zg ts i s3 Hair Hzg Hts T3 (proj1 Pk3')) as (El & HEl & HEl2).
  assert (Hr3 : rho s3 <> 0) by (apply Rgt_not_eq, packed_rho_pos; [assumption|lra]).
  destruct (evap_cond_ok P zg ts i s3 El Pk3' Hr3 HEl) as (s4 & c4 & H4 & hh & dz & Hadj & _). rewrite H4. cbn [bind].
  pose proof (evap_cond_frame _ _ _ _ _ _ H4) as (_ & F4).
  destruct (evap_cond_spec P zg ts i s3 s4 c4 Hp3 Pk3' ltac:(lra) H4) as (E & h & Hhn & Hh0 & Hhv & Hc4).
  assert (HE : c4 = true -> E = E_flux s * IZR ts + El).
  { intros ->. destruct Hc4 as [(_ & K4 & _)|(A & _)]; [|discriminate].
    destruct (kp_water _ _ K4) as (_ & _ & _ & _ & _ & _ & A & _). change (E_s s4 = E) in A.
    symmetry in Hadj. set (sx := set_E_s _ _) in Hadj.
    assert (Hpx : params_ok sx) by (destruct Hp3; split; assumption).
    assert (Pkx : packed sx) by (destruct Pk3' as [[] ?]; split; [split|]; assumption).
    destruct (adj_snow_spec _ _ _ _ _ _ Hpx Pkx Hadj) as [(_ & B & _)|(B & _)]; [|discriminate].
    destruct (kp_water _ _ B) as (_ & _ & _ & _ & _ & _ & D & _).
    change (E_s s4 = E_flux s3 * IZR ts + El) in D. rewrite EF in D. congruence. }
  destruct Hc4 as [(-> & K4 & M4 & R4 & _)|(-> & _)].
  2:{ left. rewrite hc_bare. cbn [bind]. rewrite ro_bare. cbn [bind snd]. eauto. }
  specialize (HE eq_refl). rewrite M3 in M4.
  assert (Pe4 : params_eq s s4) by (exact (params_trans _ _ _ Pe3 (kp_params _ _ K4))).
  assert (Hp4 : params_ok s4) by (eapply params_eq_ok; eassumption).
  assert (Pk4 : packed s4) by (apply (kp_packed _ _ K4)).
  assert (T4 : temps_ok s4) by (exact (kept_temps_ok (set_E_s E (set_h2o_total h s3)) _ K4 T3)).
  destruct (kp_water _ _ K4) as (_ & _ & _ & _ & W4 & W4m & W4E & _).
  change (h2o_total s4 = h) in W4. change (melt s4 = melt s3) in W4m.
  pose proof (vap_sub_max E) as (Hvs & Hvs2).
  assert (Hle : 0 <= h <= h2o s + liquid_in i s + (m0 + ml) + Rmax 0 E * VAP_SUB).
  { split; [assumption|]. rewrite W3 in Hhv. destruct Hhv as [->| ->]; lra. }
  assert (Hwarm : soil_warm i s -> 0 <= El).
  { intros A. destruct (S3 A) as (_ & B1 & B2 & B3). apply HEl2; assumption. }
  destruct (Req_dec (m_s s4) 0) as [Z4|Z4].
  { right. split.
    - assert (Hr4 : rho s4 = 0).
      { apply packed_rho_zero; assumption. }
      unfold h2o_compact. rewrite Hr4. consts. cbn [negb orb]. destruct (Rltb_spec 550 0); [lra|].
      rewrite Z4. unfold pdiv. rn. destruct (Reqb_spec 0 0); [|lra]. destruct (i_precip_now i); reflexivity.
    - exists El, h, (m0 + ml), 1. cbv zeta. rewrite <- HE. fold m2. split; [assumption|]. split; [lra|]. split; [assumption|].
      split; [lra|]. left. lra. }
  destruct (h2o_compact_ok i s4 Pk4 Z4) as (s5 & c5 & H5); [lra|intros En; apply (Hv En)|]. rewrite H5. cbn [bind].
  destruct (h2o_compact_spec i s4 s5 c5 Hp4 Pk4 ltac:(lra) ltac:(intros En; apply (Hv En)) H5)
    as [(-> & K5 & M5 & R5 & R5b & R5c)|(-> & _)].
  2:{ left. rewrite ro_bare. cbn [bind snd]. eauto. }
  assert (Pe5 : params_eq s s5) by (exact (params_trans _ _ _ Pe4 (kp_params _ _ K5))).
  assert (Hp5 : params_ok s5) by (eapply params_eq_ok; eassumption).
  assert (Pk5 : packed s5) by (apply (kp_packed _ _ K5)).
  assert (T5 : temps_ok s5) by (exact (kept_temps_ok _ _ K5 T4)).
  destruct (kp_water _ _ K5) as (_ & _ & _ & _ & W5 & _). rewrite W4 in W5.
  assert (R5d : rho s5 <= 600).
  { destruct (Rlt_dec 550 (rho s4)) as [A|A]; [rewrite (R5c A); assumption|]. assert (rho s5 <= 550) by (apply R5b; lra). lra. }
  assert (Hv5 : 0 < max_h2o_vol s5) by (destruct Pe5 as (_ & _ & _ & ->); assumption).
  pose proof (capacity_pos s5 Pk5 Hv5 ltac:(lra) R5d) as Hcap.
  destruct (runoff_ok s5 Pk5 Hv5 ltac:(lra) R5d) as (s6 & c6 & H6). rewrite H6. cbn [bind].
  destruct (runoff_spec s5 s6 c6 Hp5 Pk5 ltac:(lra) R5d H6) as (-> & D6 & Dcap).
  cbn [snd fst].
  destruct D6 as [Q1 Q2 Q3 Q4 Q5 Q6 Q7 Q8 Q9 Q10 (Q11a & Q11b & Q11c) (Q12a & Q12b) (_ & Q13b & Q13c) Q14].
  assert (T6 : Tpos s6).
  { destruct (temps_ok_Tpos _ T5) as (A & B & D). unfold Tpos. rewrite Q11a, Q11b, Q11c, Q13c. auto. }
  destruct (Req_dec (m_s s6) 0) as [Z6|Z6].
  - assert (Hz : m2 + E - Rmax 0 (h - capacity s5) = 0) by (rewrite Z6, Q3, M5, M4, W5 in Q2; lra).
    assert (Hex : exhausted i ts s).
    { exists El, h, (m0 + ml), (capacity s5). cbv zeta. rewrite <- HE. fold m2. tauto. }
    assert (Hr6 : rho s6 = 0).
    { apply packed_rho_zero; assumption. }
    unfold adjust_layer_temps. destruct Q1 as [L6 M6].
    assert (Hm60 : m_s_0 s6 = 0) by (rewrite (ly_m0 _ L6), Hr6; ring). rewrite Hm60, new_tsno_zero.
    destruct (layered_count s6 L6) as [[Zl ->]|[Zl ->]]; cbn [Nat.eqb bind].
    + right. auto.
    + destruct (isothermal s6); cbn [bind]; [left; eauto|right; auto].
  - left. destruct (adjust_ok s6 Q1 T6 Z6) as (s7 & ->). cbn [bind]. eauto.
Qed.

(** dry pack, no precipitation, no evaporation from the surface, warm soil: no failure *)
Lemma not_exhausted i ts s : i_precip_now i = false -> h2o s = 0 -> 0 < m_s s -> (0 < ts)%Z ->
  0 <= E_flux s -> soil_warm i s -> ~ exhausted i ts s.
Proof.
  intros Hn Hh Hm Hts He Hw (El & h & me & K & H1 & H2 & H3 & H4 & H5). specialize (H1 Hw).
  apply IZR_lt in Hts. assert (0 <= E_flux s * IZR ts) by (apply Rmult_le_pos; lra).
  unfold precip_of, liquid_in in *. rewrite Hn in *. rewrite Hh in H3.
  set (E := E_flux s * IZR ts + El) in *. assert (0 <= E) by (unfold E; lra). rewrite (Rmax_right 0 E) in H3 by lra.
  assert (HV : VAP_SUB = 2501/1000 / (2835/1000)) by reflexivity. rewrite HV in H3.
  destruct H5 as [H5|H5]; [lra|].
  unfold Rmax in H5. destruct (Rle_dec 0 (h - K)); lra.
Qed.
