(** * The mass balance over the reals, continued: evaporation, wet compaction, runoff,
    temperatures, and the whole routine.  Basis of C15-C23, C25-C27. *)
From Coq Require Import Reals String ZArith Bool Lia Lra List.
Import ListNotations.
From Verif Require Import Num Real Constants Functions Libsnobal Input SnowState Snobal Phys Frame Mass.
Open Scope R_scope.
Implicit Types s : SnowState R.

(** ** Routines without snow cover *)
Lemma tc_bare ts s : time_compact ts (s, false) = Ok (s, false). Proof. reflexivity. Qed.
Lemma sm_bare ts s : snowmelt ts (s, false) = Ok (set_melt 0 s, false). Proof. reflexivity. Qed.
Lemma ec_bare P z ts i s : evap_cond P z ts i (s, false) = Ok (set_E_s 0 s, false). Proof. reflexivity. Qed.
Lemma hc_bare i s : h2o_compact i (s, false) = Ok (s, false). Proof. reflexivity. Qed.
Lemma ro_bare s : runoff (s, false) = Ok (set_swi (h2o_total s) s, false). Proof. reflexivity. Qed.

(** ** evap_cond *)
Lemma evap_h2o_nonneg h e : 0 <= h -> 0 <= evap_h2o h e.
Proof.
  intros H. unfold evap_h2o. rn. destruct (Rltb_spec 0 h); [|assumption].
  match goal with |- context [Rleb ?a 0] => destruct (Rleb_spec a 0) end; lra.
Qed.

Lemma evap_cond_spec P z ts i s s' c' :
  params_ok s -> packed s -> 0 <= h2o_total s -> evap_cond P z ts i (s, true) = Ok (s', c') ->
  exists E h, 0 <= h /\ (h2o_total s = 0 -> h = 0) /\ (h = 0 \/ h = h2o_total s + E * VAP_SUB) /\
    ((c' = true /\ kept (set_E_s E (set_h2o_total h s)) s' /\ m_s s' = m_s s + E /\ rho s' <= 600 /\
        (E + h2o_total s - h <> 0 -> small_threshold s < m_s s + E)) \/
     (c' = false /\ gone (m_s s + E) (set_E_s E (set_h2o_total h s)) s' /\
        (0 < m_s s -> z_s s' = 0 /\ m_s s + E <= small_threshold s))).
Proof.
  intros Hp Hk Ht H. unfold evap_cond in H.
  pose proof adj_snow_spec as HF. revert HF H. generalize (@adj_snow R RNum). intros F HF H.
  cbn [negb] in H.
  pose proof (layered_has_snow s (proj1 Hk)) as Hs.
  assert (Hlc : (layer_count s =? 0)%nat = false) by (destruct (layered_count s (proj1 Hk)) as [[_ ->]|[_ ->]]; reflexivity).
  set (E0 := nmul (E_flux s) (nofZ ts)) in H.
  set (h0 := evap_h2o (h2o_total s) E0) in H.
  inv_bind H as El HEl. clear HEl.
  change (layer_count (set_h2o_total h0 s)) with (layer_count s) in H. rewrite Hlc in H.
  change (h2o_total (set_h2o_total h0 s)) with h0 in H.
  change (has_snow _) with (has_snow s) in H. rewrite Hs in H.
  inv_bind H as q Hq. ok_inj H. cbn [E_s set_E_s h2o_total rho] in Hq, H.
  exists (E0 + El), (evap_h2o h0 El).
  assert (Hh0 : 0 <= h0) by (apply evap_h2o_nonneg; assumption).
  split; [apply evap_h2o_nonneg; assumption|].
  split. { intros E. assert (h0 = 0) by (unfold h0, evap_h2o; rewrite E; rn; destruct (Rltb_spec 0 0); lra).
           unfold evap_h2o. rewrite H0. rn. destruct (Rltb_spec 0 0); lra. }
  assert (Hh : evap_h2o h0 El = 0 \/ evap_h2o h0 El = h2o_total s + (E0 + El) * VAP_SUB).
  { unfold evap_h2o, h0, evap_h2o. set (V := (VAP_SUB : R)). change (nofZ 0) with 0. cbn [nadd nmul nltb nleb RNum].
    destruct (Rltb_spec 0 (h2o_total s)) as [Hpos|Hn].
    - destruct (Rleb_spec (h2o_total s + E0 * V) 0) as [Hc|Hc].
      + destruct (Rltb_spec 0 0); [lra|]. auto.
      + destruct (Rltb_spec 0 (h2o_total s + E0 * V)) as [Hc2|Hc2]; [|lra].
        destruct (Rleb_spec (h2o_total s + E0 * V + El * V) 0) as [Hc3|Hc3]; [auto|]. right. cbn. lra.
    - destruct (Rltb_spec 0 (h2o_total s)); [lra|]. left. lra. }
  split; [exact Hh|].
  set (s1 := set_E_s (E0 + El) (set_h2o_total (evap_h2o h0 El) s)).
  assert (Hp1 : params_ok s1) by (destruct Hp; split; assumption).
  assert (Hk1 : packed s1) by (destruct Hk as [[] ?]; split; [split|]; assumption).
  change (F (q / 2) (E0 + El) (s1, true) = (s', c')) in H.
  change (nsub (nadd (nadd E0 El) (h2o_total s)) (h2o_total (set_h2o_total (evap_h2o h0 El) (set_h2o_total h0 s))))
    with (E0 + El + h2o_total s - evap_h2o h0 El) in Hq.
  change (rho (set_h2o_total (evap_h2o h0 El) (set_h2o_total h0 s))) with (rho s) in Hq.
  apply pdiv_R in Hq. destruct Hq as [Hr ->].
  destruct (HF _ _ _ _ _ _ Hp1 Hk1 H) as [(K0 & K1 & K2 & K3 & K4)|(K0 & K1 & K2)].
  - left. split; [assumption|]. split; [assumption|]. split; [exact K2|]. split; [assumption|].
    intros Hne. apply K4. intros Hd. apply Hne.
    apply (f_equal (fun x => x * 2 * rho s)) in Hd. rewrite Rmult_0_l, Rmult_0_l in Hd. rewrite <- Hd. field. assumption.
  - right. split; [assumption|]. split; [assumption|]. intros Hm.
    destruct K2 as [(Hth & ->)|(Hgt & Hz & _)]; [split; [lra|exact Hth]|exfalso].
    change (m_s s1) with (m_s s) in Hgt. change (small_threshold s1) with (small_threshold s) in Hgt.
    change (z_s s1) with (z_s s) in Hz. pose proof (pk_thr _ Hp) as Hthr.
    set (E := E0 + El) in *. set (h := evap_h2o h0 El) in *.
    destruct Hk as [L M]. assert (Hzp : 0 < z_s s) by (apply packed_z_pos; split; assumption).
    assert (Hrp : 0 < rho s) by (rewrite M in Hm; nra).
    assert (HV : VAP_SUB = 2501/1000 / (2835/1000)) by reflexivity. 
    set (x := E + h2o_total s - h) in *.
    assert (Hx : x / rho s / 2 * (2 * rho s) = x) by (field; lra).
    assert (Hx2 : x <= - 2 * m_s s) by (rewrite M; nra).
    unfold x in Hx2. destruct Hh as [Hh|Hh]; rewrite Hh in Hx2; [lra|]. rewrite HV in Hx2. lra.
Qed.

(** ** h2o_compact *)
Lemma wet_density (r a : R) : r <= 550 -> 0 < a ->
  r <= r + (550 - r) / (1 + 4/10 / a) <= 550 /\ (r < 550 -> r < r + (550 - r) / (1 + 4/10 / a)).
Proof.
  intros Hr Ha. assert (Hi : 0 < 4/10 / a) by (apply Rdiv_lt_0_compat; lra).
  set (d := 1 + 4/10 / a). assert (Hd : 1 < d) by (unfold d; lra).
  assert (E : (550 - r) / d * d = 550 - r) by (field; lra).
  set (x := (550 - r) / d) in *. assert (0 <= x) by (unfold x; apply Rmult_le_pos; [lra|left; apply Rinv_0_lt_compat; lra]).
  split; [split; nra|]. intros. assert (0 < x) by (unfold x; apply Rdiv_lt_0_compat; lra). lra.
Qed.

Lemma h2o_compact_spec i s s' c' :
  params_ok s -> packed s -> 0 <= melt s -> (i_precip_now i = true -> 0 <= i_m_rain i) ->
  h2o_compact i (s, true) = Ok (s', c') ->
  (c' = true /\ kept s s' /\ m_s s' = m_s s /\ rho s <= rho s' /\ (rho s <= 550 -> rho s' <= 550) /\
     (550 < rho s -> s' = s)) \/
  (c' = false /\ gone (m_s s) s s' /\ m_s s <= small_threshold s /\ z_s s' = 0).
Proof.
  intros Hp Hk Hm Hrain H. pose proof (packed_z_pos s Hk) as Hz. unfold h2o_compact in H.
  pose proof adj_layers_spec as HF. revert HF H. generalize (@adj_layers R RNum). intros F HF H.
  cbn [negb orb] in H. consts. destruct (Rltb_spec 550 (rho s)) as [Hb|Hb].
  - ok_inj H. injection H as <- <-. left. split; [reflexivity|]. split; [apply kept_refl; assumption|].
    repeat split; intros; lra.
  - inv_bind H as a Ha.
    assert (Ha' : m_s s <> 0 /\ (0 < a -> 0 < m_s s)).
    { destruct (i_precip_now i); apply pdiv_R in Ha; destruct Ha as [Hne ->]; (split; [assumption|]);
        intros Hpos.
      - specialize (Hrain eq_refl). destruct (Rlt_dec 0 (m_s s)) as [|Hn]; [assumption|exfalso].
        assert (m_s s < 0) by lra.
        assert ((melt s + i_m_rain i) / m_s s * (- m_s s) = - (melt s + i_m_rain i)) by (field; assumption). nra.
      - destruct (Rlt_dec 0 (m_s s)) as [|Hn]; [assumption|exfalso].
        assert (m_s s < 0) by lra. assert (melt s / m_s s * (- m_s s) = - melt s) by (field; assumption). nra. }
    destruct Ha' as (Hne & Hmp). clear Ha.
    destruct (Rltb_spec (1/1000000) a) as [Hbig|Hbig].
    + assert (Hapos : 0 < a) by lra. specialize (Hmp Hapos).
      destruct (wet_density (rho s) a ltac:(lra) Hapos) as ((W1 & W2) & _).
      inv_bind H as z Hzz. ok_inj H. cbn [m_s rho set_rho] in Hzz, H.
      set (r := rho s + (550 - rho s) / (1 + 4/10 / a)) in *.
      apply pdiv_R in Hzz. destruct Hzz as [Hr ->].
      assert (Hrp : 0 < rho s). { destruct Hk as [_ M]. rewrite M in *. nra. }
      assert (Hpo : params_ok (set_z_s (m_s s / r) (set_rho r s))) by (destruct Hp; split; assumption).
      assert (Haj : adjustable (set_z_s (m_s s / r) (set_rho r s))).
      { destruct (layered_adjustable _ (proj1 Hk)). split; assumption. }
      destruct (HF _ _ _ _ Hpo Haj ltac:(cbn; intros; field; assumption) H)
        as [(K0 & K1 & K2 & K3 & K4 & K5)|(K0 & K1 & K2 & K3)].
      * left. cbn in K2, K3, K4, K5. split; [assumption|]. split; [eapply kept_from; eassumption|].
        rewrite K2, K3. repeat split; intros; lra.
      * right. cbn in K2, K3. split; [assumption|]. split; [eapply gone_from; eassumption|].
        destruct (Rle_dec (m_s s) (small_threshold s)) as [Hm1|Hm1].
        -- destruct (Rleb_spec (m_s s) (small_threshold s)); [|lra]. auto.
        -- exfalso. destruct K2 as [K2|K2]; [lra|].
           assert (0 < m_s s / r) by (apply Rdiv_lt_0_compat; lra). lra.
    + ok_inj H. injection H as <- <-. left. split; [reflexivity|]. split; [apply kept_refl; assumption|].
      repeat split; intros; lra.
Qed.

(** ** runoff *)
Lemma h2o_left_nonneg d r v : 0 <= d -> 0 <= v -> r <= 917 -> 0 <= h2o_left d r v.
Proof.
  intros Hd Hv Hr. unfold h2o_left. consts. apply Rmult_le_pos; [|lra].
  apply Rmult_le_pos; [|lra]. apply Rmult_le_pos; [|lra]. apply Rmult_le_pos; assumption.
Qed.

(** the liquid water a pack of this mass, depth and total liquid can hold *)
Definition capacity s : R := h2o_left (z_s s) ((m_s s - h2o_total s) / z_s s) (max_h2o_vol s).

Record drained_with (K : R) s s' : Prop := {
  dr_packed : packed s';
  dr_m : m_s s' = m_s s - swi s';
  dr_swi : swi s' = Rmax 0 (h2o_total s - K);
  dr_h2o : h2o s' = Rmin (h2o_total s) K;
  dr_max : h2o_max s' = K;
  dr_sat : h2o_sat s' = (if Rltb K (h2o_total s) then 1 else h2o_total s / K);
  dr_vol : h2o_vol s' = h2o_sat s' * max_h2o_vol s;
  dr_rho : rho s' <= rho s;
  dr_melt : melt s' = melt s; dr_E : E_s s' = E_s s;
  dr_temps : t_s s' = t_s s /\ t_s_0 s' = t_s_0 s /\ t_s_l s' = t_s_l s;
  dr_cc : cc_s_0 s' = cc_s_0 s /\ cc_s_l s' = cc_s_l s;
  dr_z : z_s s' = z_s s /\ z_s_0 s' = z_s_0 s /\ z_s_l s' = z_s_l s;
  dr_params : params_eq s s'
}.
Definition drained s s' : Prop := drained_with (capacity s) s s'.

Lemma capacity_nonneg s : params_ok s -> packed s -> 0 <= h2o_total s -> rho s <= 600 -> 0 <= capacity s.
Proof.
  intros Hp Hk Ht Hr. pose proof (packed_z_pos s Hk) as Hz. apply h2o_left_nonneg; [lra|apply (pk_vol _ Hp)|].
  apply Rle_trans with (rho s); [|lra]. destruct Hk as [_ M]. apply Rmult_le_reg_r with (z_s s); [assumption|].
  replace ((m_s s - h2o_total s) / z_s s * z_s s) with (m_s s - h2o_total s) by (field; lra). lra.
Qed.


Lemma adj_snow_drain dm s c : packed s -> rho s <= 600 -> dm <= 0 ->
  exists r, adj_snow 0 dm (s, c) = (layer_mass (set_rho r (set_m_s (m_s s + dm) s)), c) /\
    r * z_s s = m_s s + dm /\ r <= rho s.
Proof.
  intros Hk Hr Hd. pose proof (packed_z_pos s Hk) as Hz. exists ((m_s s + dm) / z_s s).
  assert (Hrz : (m_s s + dm) / z_s s * z_s s = m_s s + dm) by (field; lra).
  assert (Hle : (m_s s + dm) / z_s s <= rho s).
  { apply Rmult_le_reg_r with (z_s s); [assumption|]. rewrite Hrz. destruct Hk as [_ M]. rewrite M. lra. }
  split; [|split; assumption].
  unfold adj_snow. generalize (@adj_layers R RNum). intros F.
  assert (E1 : set_m_s (nadd (m_s s) dm) (set_z_s (nadd (z_s s) 0) s) = set_m_s (m_s s + dm) s).
  { change (nadd (z_s s) 0) with (z_s s + 0). rewrite Rplus_0_r. destruct s; reflexivity. }
  change (m_s (set_z_s _ s)) with (m_s s). 
  change (nadd (m_s s) dm) with (m_s s + dm) in *.
  rewrite E1. clear E1. consts. cbn [z_s m_s set_m_s].
  destruct (Reqb_spec (z_s s) 0) as [E|_]; [lra|]. cbn [negb rho set_rho].
  destruct (Rltb_spec 600 ((m_s s + dm) / z_s s)) as [Hbad|_]; [lra|].
  destruct (Reqb_spec 0 0) as [_|E]; [|lra]. reflexivity.
Qed.

Lemma runoff_spec s s' c' :
  params_ok s -> packed s -> 0 <= h2o_total s -> rho s <= 600 -> runoff (s, true) = Ok (s', c') ->
  c' = true /\ drained s s' /\ (h2o_total s <= capacity s -> 0 < capacity s).
Proof.
  intros Hp Hk Ht Hr H. pose proof (packed_z_pos s Hk) as Hz.
  pose proof (capacity_nonneg s Hp Hk Ht Hr) as Hcap. unfold runoff in H.
  pose proof adj_snow_drain as HF. revert HF H. generalize (@adj_snow R RNum). intros F HF H.
  assert (Hlc : (layer_count s =? 0)%nat = false) by (destruct (layered_count s (proj1 Hk)) as [[_ ->]|[_ ->]]; reflexivity).
  cbn [negb orb] in H. rewrite Hlc in H.
  inv_bind H as rd Hrd. apply pdiv_R in Hrd. destruct Hrd as [_ ->].
  change (h2o_left (z_s s) _ (max_h2o_vol s)) with (capacity s) in H. unfold drained.
  revert Hcap H. generalize (capacity s). intros K Hcap H.
  cbn [h2o_max set_h2o_max h2o_total] in H.
  change (nltb K (h2o_total s)) with (Rltb K (h2o_total s)) in H.
  destruct (Rltb_spec K (h2o_total s)) as [Hc|Hc].
  - change (nsub (h2o_total s) K) with (h2o_total s - K) in H.
    set (w := h2o_total s - K) in *.
    set (s1 := set_h2o_vol _ _) in H.
    change (nsub (nofZ 0) _) with (0 - w) in H. change (@nofZ R RNum 0) with 0 in H.
    assert (Hw : 0 < w) by (unfold w; lra).
    assert (Hk1 : packed s1). { destruct Hk as [[] ?]. split; [split|]; assumption. }
    destruct (HF (0 - w) s1 true Hk1 Hr ltac:(lra)) as (r & EF & Hrz & Hrle).
    ok_inj H. rewrite EF in H. injection H as <- <-. clear EF HF F.
    change (r * z_s s = m_s s + (0 - w)) in Hrz. change (r <= rho s) in Hrle.
    split; [reflexivity|]. split; [|lra].
    destruct Hk as [[L0 Ll Lz Lm0 Lml L2 L1] M].
    split; [split; [split|]| | | | | | | | | | | | |]; cbn; rn; fin.
    all: try (fold w; rewrite Rmax_right by lra; unfold w; lra).
    all: try (rewrite Rmin_right by lra; lra).
    all: try (destruct (Rltb_spec K (h2o_total s)); lra).
  - inv_bind H as sat Hsat. apply pdiv_R in Hsat. destruct Hsat as [Hne ->].
    change (h2o_max _) with K in Hne, H.
    change (h2o (set_h2o (h2o_total s) _)) with (h2o_total s) in H.
    ok_inj H. injection H as <- <-.
    split; [reflexivity|]. split; [|lra].
    destruct Hk as [[L0 Ll Lz Lm0 Lml L2 L1] M].
    split; [split; [split|]| | | | | | | | | | | | |]; cbn; rn; fin.
    + rewrite Rmin_left by lra. reflexivity.
    + destruct (Rltb_spec K (h2o_total s)); lra.
Qed.

(** ** Temperatures *)
Definition Tpos s : Prop := 0 < t_s s /\ 0 < t_s_0 s /\ (0 < z_s_l s -> 0 < t_s_l s).
Definition cold s : Prop := cc_s_0 s <= 0 /\ cc_s_l s <= 0.
Definition below_freezing s : Prop :=
  t_s s <= 27316/100 /\ t_s_0 s <= 27316/100 /\ t_s_l s <= 27316/100.

Lemma kept_Tpos s s' : kept s s' -> Tpos s -> Tpos s'.
Proof.
  intros [_ _ (S1 & S2 & S3) Hl _] (T1 & T2 & T3). unfold Tpos. rewrite S1, S2. repeat split; try assumption.
  intros Hz. destruct Hl as [(A & _)|[(_ & A & _ & ->)|(_ & _ & -> & _)]]; [lra|auto|assumption].
Qed.
Lemma kept_cold s s' : kept s s' -> Tpos s -> cold s -> cold s'.
Proof.
  intros [_ _ (S1 & S2 & S3) Hl _] (T1 & T2 & T3) (C1 & C2). unfold cold. rewrite S3. split; [assumption|].
  destruct Hl as [(_ & -> & _)|[(_ & _ & -> & _)|(_ & _ & _ & Hm & ->)]]; [lra|assumption|].
  apply cold_content_le; assumption.
Qed.
Lemma kept_params_ok s s' : kept s s' -> params_ok s -> params_ok s'.
Proof.
  intros [_ _ _ _ (P1 & P2 & P3 & P4)] [Q1 Q2 Q3 Q4]. split; rewrite ?P2, ?P3, ?P4; assumption.
Qed.
Lemma params_eq_ok s s' : params_eq s s' -> params_ok s -> params_ok s'.
Proof.
  intros (P1 & P2 & P3 & P4) [Q1 Q2 Q3 Q4]. split; rewrite ?P2, ?P3, ?P4; assumption.
Qed.

Lemma new_tsno_le m t0 cc t : 0 < m -> 0 < t0 -> cc <= 0 -> new_tsno m t0 cc = Ok t -> t <= 27316/100.
Proof.
  intros Hm Ht Hc H. unfold new_tsno in H. inv_bind H as d Hd. apply pdiv_R in Hd. destruct Hd as [Hne ->].
  ok_inj H. subst t. unfold cp_ice in *. consts.
  set (c := 4186798188 / 1000000000 * (24928 / 1000000 + 176 / 100000 * t0) / (1 / 1000)) in *.
  assert (0 < c) by (unfold c; apply Rdiv_lt_0_compat; [nra|lra]).
  assert (0 < m * c) by nra.
  assert (cc / (m * c) <= 0).
  { unfold Rdiv. assert (0 < / (m * c)) by (apply Rinv_0_lt_compat; assumption). nra. }
  lra.
Qed.

(** same state up to the three temperatures *)
Definition same_but_temps s s' : Prop :=
  exists a b d, s' = set_t_s a (set_t_s_l b (set_t_s_0 d s)).

Lemma adjust_layer_temps_spec s s' : packed s -> adjust_layer_temps s = Ok s' ->
  same_but_temps s s' /\ packed s' /\
  (Tpos s -> cold s -> 0 < m_s s -> below_freezing s') /\
  (z_s_l s = 0 -> t_s s' = t_s_0 s').
Proof.
  intros Hk H. pose proof (packed_z_pos s Hk) as Hz.
  unfold adjust_layer_temps in H. destruct Hk as [L M].
  assert (Hpk : forall a b d, (z_s_l s = 0 -> b = t_s_l s) -> packed (set_t_s a (set_t_s_l b (set_t_s_0 d s)))).
  { intros a b d Hb. destruct L as [L0 Ll Lz Lm0 Lml L2 L1]. split; [split|]; cbn; try assumption.
    intros E. rewrite (Hb E). auto. }
  assert (Hr : 0 < m_s s -> 0 < rho s) by (intros; rewrite M in *; nra).
  destruct (layered_count s L) as [[Zl Lc]|[Zl Lc]]; rewrite Lc in H; cbn [Nat.eqb] in H.
  - inv_bind H as t Ht. ok_inj H. subst s'.
    assert (E : set_t_s t (set_t_s_0 t s) = set_t_s t (set_t_s_l (t_s_l s) (set_t_s_0 t s))) by (destruct s; reflexivity).
    rewrite E. split; [do 3 eexists; reflexivity|]. split; [auto|]. split; [|reflexivity].
    intros (T1 & T2 & T3) (C1 & C2) Hm. specialize (Hr Hm).
    assert (t <= 27316/100).
    { eapply new_tsno_le; [| |exact C1|exact Ht]; [|assumption]. destruct L as [L0 _ _ Lm0 _ _ _]. rewrite Lm0. nra. }
    repeat split; cbn; try assumption. destruct L as [_ _ _ _ _ _ L1]. destruct (L1 Zl) as (_ & ->). consts. lra.
  - destruct (isothermal s).
    + ok_inj H. subst s'.
      assert (E : set_t_s_0 FREEZE (set_t_s_l FREEZE (set_t_s FREEZE s)) = set_t_s FREEZE (set_t_s_l FREEZE (set_t_s_0 FREEZE s)))
        by reflexivity. rewrite E.
      split; [do 3 eexists; reflexivity|]. split; [apply Hpk; lra|]. split; [|reflexivity].
      intros. repeat split; cbn; consts; lra.
    + inv_bind H as t0 Ht0. inv_bind H as tl Htl. inv_bind H as t Ht. ok_inj H. subst s'.
      split; [do 3 eexists; reflexivity|]. split; [apply Hpk; lra|]. split; [|lra].
      intros (T1 & T2 & T3) (C1 & C2) Hm. specialize (Hr Hm). destruct L as [L0 _ _ Lm0 Lml _ _].
      repeat split; cbn.
      * eapply new_tsno_le; [| | |exact Ht]; [assumption|assumption|]. unfold cc_s. rn. lra.
      * eapply new_tsno_le; [| |exact C1|exact Ht0]; [|assumption]. rewrite Lm0. nra.
      * eapply new_tsno_le; [| |exact C2|exact Htl]; [|auto]. rewrite Lml. nra.
Qed.

(** ** The whole routine *)
(** what precipitation_inputs guarantees (C12) *)
Record precip_valid (i : InputData R) : Prop := {
  pv_rain : 0 <= i_m_rain i; pv_snow : 0 <= i_m_snow i;
  pv_sum : i_m_pp i = i_m_snow i + i_m_rain i;
  pv_z : 0 <= i_z_snow i; pv_m : i_m_snow i = i_rho_snow i * i_z_snow i;
  pv_sat : 0 <= i_h2o_sat_snow i <= 1;
  pv_rho : 0 < i_m_snow i -> 0 < i_rho_snow i <= 917;
  pv_z0 : i_m_snow i = 0 -> i_z_snow i = 0
}.
Definition input_valid (i : InputData R) : Prop := i_precip_now i = true -> precip_valid i.

(** precipitation of the run step *)
Definition precip_of (i : InputData R) : R := if i_precip_now i then i_m_pp i else 0.

Lemma snow_water_nonneg i s : params_ok s -> precip_valid i -> 0 <= snow_water i s.
Proof.
  intros Hp [V1 V2 V3 V4 V5 V6 V7 V8]. unfold snow_water.
  destruct (Rle_lt_or_eq_dec _ _ V2) as [H|H].
  - apply h2o_left_nonneg; [assumption| |apply V7; assumption]. apply Rmult_le_pos; [lra|apply (pk_vol _ Hp)].
  - rewrite V8 by auto. unfold h2o_left. consts. right. unfold Rdiv. ring.
Qed.

(** how the pack ends: persisting, or collapsed and replaced by nothing or by new snow *)
Record persisted (i : InputData R) s s' : Prop := {
  ps_packed : packed s';
  ps_rho : rho s' <= 600;
  ps_h2o : 0 <= h2o s';
  ps_sat : 0 <= h2o_sat s' <= 1;
  ps_melt : 0 <= melt s';
  ps_swi : 0 <= swi s';
  ps_mass : m_s s' = m_s s + precip_of i + E_s s' - swi s';
  ps_cold : Tpos s -> cold s';
  ps_frozen : Tpos s -> 0 < m_s s' -> below_freezing s';
  ps_one : z_s_l s' = 0 -> t_s s' = t_s_0 s';
  ps_max : 0 <= h2o_max s';
  ps_params : params_eq s s'
}.

(** a pack of this run step's snowfall *)
Record new_pack (i : InputData R) s' : Prop := {
  np_packed : packed s';
  np_precip : i_precip_now i = true /\ 0 < i_m_snow i;
  np_m : m_s s' = i_m_snow i; np_rho : rho s' = i_rho_snow i; np_z : z_s s' = i_z_snow i;
  np_t : t_s s' = i_t_snow i /\ t_s_0 s' = i_t_snow i /\ (0 < z_s_l s' -> t_s_l s' = i_t_snow i);
  np_cold : 0 < i_t_snow i -> cold s';
  np_sat : h2o_sat s' = i_h2o_sat_snow i; np_h2o : 0 <= h2o s'; np_h2o_eq : h2o s' = i_h2o_sat_snow i * h2o_max s';
  np_thr : small_threshold s' < m_s s';
  np_cc : cc_s_0 s' = cold_content (i_t_snow i) (m_s_0 s') /\
          cc_s_l s' = (if Rlt_dec 0 (z_s_l s') then cold_content (i_t_snow i) (m_s_l s') else 0);
  np_max : exists dry, dry * (1 - i_h2o_sat_snow i * max_h2o_vol s' * (99987/100) / 917)
                         = i_rho_snow i - i_h2o_sat_snow i * max_h2o_vol s' * (99987/100) /\
                       h2o_max s' = h2o_left (i_z_snow i) dry (max_h2o_vol s')
}.

(** liquid water that precipitation brings: rain, and the water in wet snow *)
Definition liquid_in (i : InputData R) s : R :=
  if i_precip_now i then snow_water i s + i_m_rain i else 0.

(** [w]: water counted twice; [mc]: mass of the pack when it collapsed *)
Record collapsed (i : InputData R) s s' (mc w : R) : Prop := {
  cl_melt : 0 <= melt s'; cl_swi : 0 <= swi s';
  cl_w : 0 <= w;
  cl_w_le : w <= h2o s + liquid_in i s + melt s' + Rmax 0 (E_s s') * VAP_SUB;
  cl_w0 : h2o s = 0 -> precip_of i = 0 -> melt s' = 0 -> w = 0;
  cl_mc : mc = m_s s \/ mc = m_s s + precip_of i + E_s s';
  cl_end : (bare s' /\ 0 <= h2o s' /\
              swi s' = m_s s + precip_of i + E_s s' + Rmax 0 (- mc) + w /\
              (z_s s' = 0 \/ (z_s s' < 0 /\ 0 < m_s s + precip_of i <= melt s'))) \/
           (new_pack i s' /\ melt s' = 0 /\ E_s s' = 0 /\ m_s s <= small_threshold s /\
              m_s s' + swi s' = m_s s + precip_of i + Rmax 0 (- mc) + w + h2o s');
  cl_params : params_eq s s';
  cl_why : mc <= small_threshold s \/ (m_s s + precip_of i <= melt s' /\ mc = m_s s + precip_of i)
}.

Lemma Rmax_shift x : Rmax 0 x = x + Rmax 0 (- x).
Proof. unfold Rmax. destruct (Rle_dec 0 x); destruct (Rle_dec 0 (- x)); lra. Qed.

Lemma bare_setters s a b d e : bare s -> bare (set_swi a (set_E_s b (set_melt d (set_h2o_total e s)))).
Proof. intros []. split; assumption. Qed.

(** the precipitation routine on bare ground, then nothing happens but runoff *)
Lemma bare_end P zg ts i s s' c' :
  params_ok s -> bare s -> 0 <= h2o s -> input_valid i ->
  mass_balance P zg ts i (s, false) = Ok (s', c') ->
  c' = false /\ melt s' = 0 /\ E_s s' = 0 /\ params_eq s s' /\
  ((bare s' /\ h2o s' = h2o s /\ swi s' = h2o_total s + h2o s + precip_of i /\ z_s s' = z_s s /\
      (i_precip_now i = true -> i_m_snow i <= 0)) \/
   (bare s' /\ h2o s' = 0 /\ swi s' = h2o_total s + precip_of i /\ z_s s' = 0 /\
      i_precip_now i = true /\ 0 < i_m_snow i <= small_threshold s) \/
   (new_pack i s' /\ m_s s' + swi s' = h2o_total s + precip_of i + h2o s')).
Proof.
  intros Hp Hb Hh Hv H. unfold mass_balance in H. rewrite tc_bare in H. cbn [bind] in H.
  inv_bind H as [s2 c2] H2. destruct (precip_bare_spec i s s2 c2 Hp H2) as (-> & Hcase). clear H2.
  rewrite sm_bare in H. cbn [bind] in H. rewrite ec_bare in H. cbn [bind] in H. rewrite hc_bare in H. cbn [bind] in H.
  rewrite ro_bare in H. cbn [bind snd] in H. ok_inj H. injection H as <- <-.
  split; [reflexivity|]. split; [reflexivity|]. split; [reflexivity|]. unfold precip_of.
  destruct Hcase as [(Hn & ->)|[(Hn & Hs & ->)|(Hn & Hs & s1 & -> & Hcase)]]; rewrite Hn.
  - split; [repeat split|]. left. split; [apply bare_setters; assumption|]. cbn. rn. repeat split; try lra; intros; congruence.
  - split; [repeat split|]. left. split; [apply bare_setters; assumption|]. cbn. rn.
    destruct (Hv Hn). repeat split; lra.
  - destruct (Hv Hn) as [V1 V2 V3 V4 V5 V6 V7 V8]. destruct Hcase as [Hf|(Hg & Hle & Hz)].
    + destruct Hf as [F1 F2 F3 F4 F5 F6 F7 F8 F9 F10 F11 F12 F13 F14 F15 F16 F17].
      cbn in F2, F3, F4, F5, F6, F7, F8, F9, F10, F11, F12, F13, F14, F15, F16.
      split; [exact F17|]. right; right.
      destruct F12 as (dry & D1 & D2). destruct (V7 Hs) as (R1 & R2).
      assert (Hsp : z_s s1 = i_z_snow i) by assumption.
      assert (Hmx : 0 <= h2o_max s1).
      { rewrite D2. apply h2o_left_nonneg; [assumption|apply (pk_vol _ Hp)|].
        destruct Hp as [_ _ Q3 Q4].
        set (x := i_h2o_sat_snow i * max_h2o_vol s * (99987/100)) in *.
        assert (x < 917) by (unfold x; nra).
        assert (Hk : 0 < 1 - x / 917) by lra.
        apply Rmult_le_reg_r with (1 - x / 917); [assumption|]. rewrite D1. lra. }
      assert (Hm : m_s s1 = i_m_snow i) by (rewrite F3, V5; reflexivity).
      assert (Hrz : 0 < i_rho_snow i) by assumption.
      split; [split|].
      * destruct F1 as [[] ?]. split; [split|]; assumption.
      * auto.
      * exact Hm.
      * exact F2.
      * exact F4.
      * repeat split; [exact F6|exact F7|]. intros Hl. destruct F9 as [(A & _)|(_ & A & _)]; [cbn in Hl; lra|exact A].
      * intros Ht. destruct F1 as [[L0 Ll Lz Lm0 Lml _ _] _]. split; cbn.
        -- rewrite F8. apply cold_content_le; [assumption|]. rewrite Lm0, F2. nra.
        -- destruct F9 as [(_ & ->)|(_ & _ & ->)]; [lra|]. apply cold_content_le; [assumption|]. rewrite Lml, F2. nra.
      * exact F10.
      * cbn. rewrite F11. apply Rmult_le_pos; [lra|assumption].
      * exact F11.
      * cbn. destruct F17 as (_ & _ & -> & _). rewrite F3. exact F5.
      * split; [exact F8|]. clear - F9. generalize dependent s1. intros s1 [(A & B)|(A & _ & B)].
        -- cbn -[cold_content]. destruct (Rlt_dec 0 (z_s_l s1)); [exfalso; lra|exact B].
        -- cbn -[cold_content]. destruct (Rlt_dec 0 (z_s_l s1)); [exact B|exfalso; lra].
      * exists dry. cbn -[h2o_left]. replace (max_h2o_vol s1) with (max_h2o_vol s) by (destruct F17 as (_ & _ & _ & Hx); exact (eq_sym Hx)). split; [exact D1|exact D2].
      * cbn. rn. rewrite F13, Hm. lra.
    + destruct Hg as [G1 G2 G3 G4 G5 G6 G7]. cbn in G3, G4, G5, G6.
      split; [exact G7|]. right; left. split; [apply bare_setters; assumption|]. cbn. rn.
      assert (Hthr : i_m_snow i <= small_threshold s).
      { destruct Hle as [Hle|Hle]; [lra|]. assert (E : i_z_snow i = 0) by lra. rewrite E in V5. lra. }
      rewrite G2, G3, <- V5, Rmax_right by lra. repeat split; try lra.
      rewrite Hz. destruct (Rleb_spec (i_rho_snow i * i_z_snow i) (small_threshold s)); [reflexivity|].
      destruct (Rle_lt_or_eq_dec _ _ V4) as [Hzp|Hzp]; [|auto].
      (* positive depth: init_snow would not have dropped it *)
      exfalso. pose proof (pk_thr _ Hp).
      destruct G1 as [B0 _ Bz _ _ _ _ _ _ _ _ _ _ _ _]. lra.
Qed.

Section Cover.
Variables (P zg : R) (ts : Z) (i : InputData R).
Hypothesis Hts : (0 < ts)%Z.
Hypothesis Hv : input_valid i.

Lemma liquid_in_nonneg s : params_ok s -> 0 <= liquid_in i s.
Proof using Hv.
  intros Hp. unfold liquid_in. destruct (i_precip_now i) eqn:En; [|lra].
  pose proof (snow_water_nonneg i s Hp (Hv En)). destruct (Hv En). lra.
Qed.
Lemma vap_sub_max E : 0 <= Rmax 0 E * VAP_SUB /\ E * VAP_SUB <= Rmax 0 E * VAP_SUB.
Proof using.
  assert (0 < VAP_SUB) by (consts; lra). pose proof (Rmax_l 0 E). pose proof (Rmax_r 0 E). nra.
Qed.

Lemma mass_balance_cover s s' c' :
  params_ok s -> packed s -> 0 <= h2o s -> h2o_total s = 0 ->
  mass_balance P zg ts i (s, true) = Ok (s', c') ->
  (c' = true /\ persisted i s s') \/ (c' = false /\ exists mc w, collapsed i s s' mc w).
Proof.
  intros Hp Hk Hh Ht0 H. unfold mass_balance in H. pose proof (liquid_in_nonneg s Hp) as Hliq.
  inv_bind H as [s1 c1] H1.
  destruct (time_compact_spec ts s s1 c1 Hp Hk Hts H1) as [(-> & K1 & M1 & _ & D1)|(-> & G1 & M1 & Z1)].
  2:{ (* collapse during ageing *)
    right.
    assert (Hb : mass_balance P zg ts i (s1, false) = Ok (s', c')) by (unfold mass_balance; rewrite tc_bare; exact H).
    destruct G1 as [B1 B2 B3 B4 B5 B6 B7].
    assert (Hp1 : params_ok s1) by (eapply params_eq_ok; eassumption).
    destruct (bare_end _ _ _ _ _ _ _ Hp1 B1 ltac:(lra) Hv Hb) as (-> & E1 & E2 & E3 & Hc).
    split; [reflexivity|]. exists (m_s s), 0.
    pose proof (params_trans _ _ _ B7 E3) as Hpe. rewrite B3, Ht0, Rplus_0_l, B2 in Hc.
    pose proof (Rmax_l 0 (m_s s)) as Hmx. pose proof (Rmax_shift (m_s s)) as Hsh. pose proof (Rmax_l 0 (- m_s s)).
    assert (Hpp : 0 <= precip_of i). { unfold precip_of. destruct (i_precip_now i) eqn:En; [|lra]. destruct (Hv En). lra. }
    assert (Hrain : i_precip_now i = true -> precip_of i = i_m_snow i + i_m_rain i /\ 0 <= i_m_rain i).
    { intros En. unfold precip_of. rewrite En. destruct (Hv En). lra. }
    assert (Hpk := pk_thr _ Hp). pose proof (vap_sub_max (E_s s')) as (Hvs & _).
    split; try lra; try assumption; try reflexivity.
    - destruct Hc as [(_ & _ & Hw & _)|[(_ & _ & Hw & _)|(Hn & Hw)]]; [lra|lra|].
      destruct (np_precip _ _ Hn) as (En & _). destruct (Hrain En). pose proof (np_m _ _ Hn). pose proof (np_h2o _ _ Hn). lra.
    - destruct Hc as [(Hb1 & Hh1 & Hw & Hz)|[(Hb1 & Hh1 & Hw & Hz)|(Hn & Hw)]].
      + left. split; [assumption|]. rewrite E2. repeat split; try lra. 
      + left. split; [assumption|]. rewrite E2. repeat split; try lra.
      + right. split; [assumption|]. repeat split; try lra. }
  (* the pack is there when it snows *)
  assert (Hp1 : params_ok s1) by (eapply kept_params_ok; eassumption).
  assert (Pk1 : packed s1) by (apply (kp_packed _ _ K1)).
  pose proof (kp_water _ _ K1) as (_ & W1 & _ & _ & W2 & _).
  assert (Pe1 : params_eq s s1) by (apply (kp_params _ _ K1)).
  assert (Mp1 : 0 < m_s s1).
  { rewrite M1. destruct (Rle_dec 550 (rho s)) as [Hr|Hr].
    - destruct Hk as [L M]. pose proof (packed_z_pos s (conj L M)). rewrite M. nra.
    - destruct D1 as (D1 & _); [lra|]. pose proof (pk_thr _ Hp). lra. }
  inv_bind H as [s2 c2] H2.
  assert (Hst2 : (c2 = true /\ exists s1b h2 ht, kept s1 s1b /\ s2 = set_h2o_total ht (set_h2o h2 s1b) /\
                    m_s s1b = m_s s + precip_of i /\ 0 <= h2 /\ 0 <= ht /\ (h2o s = 0 -> precip_of i = 0 -> ht = 0) /\ ht = h2o s + liquid_in i s) \/
                 (c2 = false /\ exists s1b, gone (m_s s + precip_of i) s1 s1b /\ z_s s1b = 0 /\ m_s s + precip_of i <= small_threshold s /\ 0 < m_s s + precip_of i /\
                    exists h2 ht, s2 = set_h2o_total (h2o_total s1b + ht) (set_h2o h2 s1b) /\ 0 <= h2 /\ 0 <= ht /\
                      (precip_of i = 0 -> ht = 0) /\ ht = liquid_in i s)).
  { unfold precip_of, liquid_in.
    assert (Esw : snow_water i s1 = snow_water i s).
    { unfold snow_water. destruct Pe1 as (_ & _ & _ & ->). reflexivity. }
    destruct (precip_cover_spec i s1 s2 c2 Hp1 Pk1 H2) as [(Hn & -> & ->)|[(Hn & -> & s1b & A1 & A2 & A3 & ->)|(Hn & -> & s1b & A1 & A2 & ->)]];
      rewrite Hn.
    - left. split; [reflexivity|]. exists s1, (h2o s1), (h2o_total s1 + h2o s1).
      split; [apply kept_refl; assumption|]. split; [destruct s1; reflexivity|]. rewrite M1, W1, W2, Ht0. repeat split; try lra.
    - pose proof (Hv Hn) as V. pose proof (snow_water_nonneg i s1 Hp1 V) as Hsw.
      left. split; [reflexivity|]. exists s1b. do 2 eexists.
      split; [eassumption|]. split; [reflexivity|]. rewrite A2, M1, W1, W2, Ht0. destruct V. repeat split; try lra.
      intros Hh0 Hpp. assert (Hs0 : i_m_snow i = 0) by lra.
      assert (Hz0 : i_z_snow i = 0) by auto.
      unfold snow_water, h2o_left. rewrite Hz0. consts. rewrite Hh0. lra.
    - pose proof (Hv Hn) as V. pose proof (snow_water_nonneg i s1 Hp1 V) as Hsw.
      right. split; [reflexivity|]. exists s1b. rewrite M1 in A1, A2. split; [assumption|].
      assert (0 <= i_m_pp i) by (destruct V; lra).
      split. { destruct A2 as [(_ & ->)|(_ & A2 & _)]; [reflexivity|]. exfalso. pose proof (packed_z_pos _ Pk1). destruct V. lra. }
      split. { pose proof Pe1 as (_ & _ & Eth & _). destruct A2 as [(A2 & _)|(_ & A2 & _)]; [lra|]. exfalso. pose proof (packed_z_pos _ Pk1). destruct V. lra. }
      split; [lra|]. do 2 eexists. split; [reflexivity|]. destruct V. split; [assumption|]. split; [lra|]. split; [|rewrite Esw; reflexivity].
      intros Hpp. assert (Hs0 : i_m_snow i = 0) by lra. assert (Hz0 : i_z_snow i = 0) by auto.
      unfold snow_water, h2o_left. rewrite Hz0. consts. lra. }
  clear H2. set (m2 := m_s s + precip_of i) in *.
  inv_bind H as [s3 c3] H3. inv_bind H as [s4 c4] H4. inv_bind H as [s5 c5] H5. inv_bind H as [s6 c6] H6.
  destruct Hst2 as [(-> & s1b & h2 & ht & K2 & -> & M2 & Hh2 & Hht & Hht0 & Hhte)|(-> & s1b & G2 & Z2 & Wy2 & Mp2 & h2 & ht & -> & Hh2 & Hht & Hht0 & Hhte)].

  2:{ (* collapse when precipitation is added *)
    right. rewrite sm_bare in H3. ok_inj H3. injection H3 as <- <-.
    rewrite ec_bare in H4. ok_inj H4. injection H4 as <- <-.
    rewrite hc_bare in H5. ok_inj H5. injection H5 as <- <-.
    rewrite ro_bare in H6. ok_inj H6. injection H6 as <- <-.
    cbn [snd] in H. ok_inj H. injection H as <- <-.
    split; [reflexivity|]. exists m2, ht. destruct G2 as [B1 B2 B3 B4 B5 B6 B7].
    rewrite W2, Ht0, Rmax_right in B3 by lra.
    pose proof (vap_sub_max 0) as (Hvs & _).
    split; try (cbn [E_s melt set_swi set_E_s set_melt]; change (@nofZ R RNum 0) with 0; lra); cbn; rn; try lra.
    - right. fold m2. lra.
    - left. split; [destruct B1; split; assumption|]. split; [assumption|]. fold m2.
      rewrite Rmax_left by lra. split; [rn; lra|]. left; assumption.
    - exact (params_trans _ _ _ Pe1 B7). }
  assert (Pe2 : params_eq s s1b) by (exact (params_trans _ _ _ Pe1 (kp_params _ _ K2))).
  assert (Hpp : 0 <= precip_of i). { unfold precip_of. destruct (i_precip_now i) eqn:En; [|lra]. destruct (Hv En). lra. }
  assert (Mp2 : 0 < m2) by (unfold m2; lra).
  set (s2 := set_h2o_total ht (set_h2o h2 s1b)) in *.
  assert (Hp2 : params_ok s2) by (eapply params_eq_ok; [exact Pe2|assumption]).
  assert (Pk2 : packed s2).
  { pose proof (kp_packed _ _ K2) as [[] ?]. split; [split|]; assumption. }
  assert (T2 : Tpos s -> Tpos s2).
  { intros T. exact (kept_Tpos _ _ K2 (kept_Tpos _ _ K1 T)). }
  (* melt *)
  destruct (snowmelt_core ts s2 s3 c3 Pk2 Hht H3) as (m0 & r0 & cc0 & ml & rl & ccl & ht3 & HM & Hml & Hc3). cbv zeta in Hc3.
  clear H3. pose proof (melt_out_total _ _ _ _ _ _ _ _ _ HM) as Hht3. change (h2o_total s2) with ht in Hht3.
  pose proof (melt_state_packed _ _ _ _ _ _ _ _ _ Pk2 HM) as Pk3.
  assert (Hm0 : 0 <= m0 /\ 0 <= r0 /\ 0 <= rl).
  { destruct HM as ((A & B & _) & A2 & A3 & _). split; [assumption|]. split; [assumption|].
    destruct (Rle_lt_or_eq_dec _ _ (ly_zl _ (proj1 Pk2))) as [Zl|Zl].
    - destruct (A2 Zl) as (_ & B2 & _). assumption.
    - destruct (A3 (eq_sym Zl)) as (_ & -> & _). lra. }
  assert (Cold3 : cold (melt_state s2 m0 cc0 ml ccl ht3)).
  { destruct HM as ((_ & _ & A & _) & A2 & A3 & _). split; [exact A|]. cbn.
    destruct (Rle_lt_or_eq_dec _ _ (ly_zl _ (proj1 Pk2))) as [Zl|Zl].
    - destruct (A2 Zl) as (_ & _ & B2 & _). assumption.
    - destruct (A3 (eq_sym Zl)) as (_ & _ & ->). destruct (ly_one _ (proj1 Pk2) (eq_sym Zl)) as (-> & _). lra. }
  set (s2m := melt_state s2 m0 cc0 ml ccl ht3) in *.
  assert (Hst3 : (c3 = true /\ kept s2m s3 /\ m_s s3 = m2) \/
                 (c3 = false /\ gone m2 s2m s3 /\ 0 < m0 + ml /\ (z_s s3 = 0 \/ (z_s s3 < 0 /\ m2 <= m0 + ml)) /\
                    (m2 <= small_threshold s \/ m2 <= m0 + ml))).
  { destruct Hc3 as [(_ & -> & ->)|(Hmp & Hr & Ha)].
    - left. split; [reflexivity|]. split; [apply kept_refl; assumption|]. exact M2.
    - assert (Hp2m : params_ok s2m) by (destruct Hp2; split; assumption).
      destruct (adj_snow_spec _ _ s2m _ _ _ Hp2m Pk3 Ha) as [(-> & A1 & A2 & A3 & _)|(-> & A1 & A2)].
      + left. split; [reflexivity|]. split; [assumption|]. rewrite A2. change (m_s s2m) with (m_s s1b). lra.
      + right. split; [reflexivity|]. change (m_s s2m) with (m_s s1b) in A1, A2. rewrite M2, Rplus_0_r in A1, A2.
        split; [exact A1|]. split; [exact Hmp|].
        pose proof Pe2 as (_ & _ & Eth & _). change (small_threshold s2m) with (small_threshold s1b) in A2.
        destruct A2 as [(A2 & ->)|(_ & A2 & ->)]; [split; [left; reflexivity|left; lra]|].
        change (z_s s2m) with (z_s s2) in *. pose proof (packed_z_pos _ Pk2).
        destruct Pk2 as [_ Mm]. change (m_s s2) with (m_s s1b) in Mm. rewrite M2 in Mm.
        assert (0 < rho s2) by nra.
        set (dz := - (m0 + ml) / rho s2) in *.
        assert (Hdz : dz * rho s2 = - (m0 + ml)) by (unfold dz; field; lra).
        assert (m2 <= m0 + ml) by nra.
        split; [|right; assumption]. destruct (Req_dec (z_s s2 + dz) 0) as [E|E]; [left; assumption|right; split; [lra|assumption]]. }
  clear Hc3.
  destruct Hst3 as [(-> & K3 & M3)|(-> & G3 & Hmp & Z3 & Wy3)].
  2:{ (* the pack melts away *)
    right. rewrite ec_bare in H4. ok_inj H4. injection H4 as <- <-.
    rewrite hc_bare in H5. ok_inj H5. injection H5 as <- <-.
    rewrite ro_bare in H6. ok_inj H6. injection H6 as <- <-.
    cbn [snd] in H. ok_inj H. injection H as <- <-.
    split; [reflexivity|]. exists m2, ht3. destruct G3 as [B1 B2 B3 B4 B5 B6 B7].
    change (melt s2m) with (m0 + ml) in B4. change (h2o_total s2m) with ht3 in B3. rewrite Rmax_right in B3 by lra.
    pose proof (vap_sub_max 0) as (Hvs & _).
    split; try (cbn [E_s melt set_swi set_E_s]; change (@nofZ R RNum 0) with 0; rewrite B4; lra); cbn; rn; rewrite ?B4; try lra.
    - right. fold m2. lra.
    - left. split; [destruct B1; split; assumption|]. split; [rewrite B2; lra|]. fold m2.
      rewrite Rmax_left by lra. split; [rn; lra|]. destruct Z3; [left; assumption|right]. fold m2. lra.
    - exact (params_trans _ _ _ Pe2 B7).
    - destruct Wy3 as [Wy3|Wy3]; [left; exact Wy3|right; fold m2; split; [exact Wy3|reflexivity]]. }
  assert (Pe3 : params_eq s s3) by (exact (params_trans _ _ _ Pe2 (kp_params _ _ K3))).
  assert (Hp3 : params_ok s3) by (eapply params_eq_ok; eassumption).
  assert (Pk3' : packed s3) by (apply (kp_packed _ _ K3)).
  assert (T3 : Tpos s -> Tpos s3) by (intros T; exact (kept_Tpos _ _ K3 (T2 T))).
  assert (C3 : Tpos s -> cold s3) by (intros T; exact (kept_cold _ _ K3 (T2 T) Cold3)).
  assert (W3 : h2o_total s3 = ht3 /\ melt s3 = m0 + ml).
  { destruct (kp_water _ _ K3) as (_ & _ & _ & _ & A & B & _). split; [exact A|exact B]. }
  destruct W3 as (W3 & W3m).
  (* evaporation *)
  destruct (evap_cond_spec P zg ts i s3 s4 c4 Hp3 Pk3' ltac:(lra) H4) as (E & h & Hhn & Hh0 & Hhv & Hc4). clear H4.
  assert (Hw0 : h2o s = 0 -> precip_of i = 0 -> m0 + ml = 0 -> h = 0).
  { intros A B D. apply Hh0. rewrite W3. specialize (Hht0 A B). lra. }
  destruct Hc4 as [(-> & K4 & M4 & R4 & _)|(-> & G4 & Z4)].
  2:{ right. 
    rewrite hc_bare in H5. ok_inj H5. injection H5 as <- <-.
    rewrite ro_bare in H6. ok_inj H6. injection H6 as <- <-.
    cbn [snd] in H. ok_inj H. injection H as <- <-.
    split; [reflexivity|]. exists (m2 + E), h. destruct G4 as [B1 B2 B3 B4 B5 B6 B7].
    change (melt (set_E_s E (set_h2o_total h s3))) with (melt s3) in B4. 
    change (h2o_total (set_E_s E (set_h2o_total h s3))) with h in B3.
    change (E_s (set_E_s E (set_h2o_total h s3))) with E in B5. rewrite M3 in B3.
    pose proof (Rmax_shift (m2 + E)) as Hsh. pose proof (Rmax_l 0 (m2 + E)).
    pose proof (vap_sub_max E) as (Hvs & Hvs2).
    assert (Hle : h <= h2o s + liquid_in i s + (m0 + ml) + Rmax 0 E * VAP_SUB) by (rewrite W3 in Hhv; destruct Hhv; lra).
    split; try (cbn [E_s melt set_swi]; rewrite ?B4, ?W3m, ?B5; exact Hle); cbn; rn; rewrite ?B4, ?W3m, ?B5; try lra; try assumption.
    - right. fold m2. lra.
    - left. split; [destruct B1; split; assumption|]. split; [rewrite B2; lra|]. fold m2.
      split; [rn; lra|]. left. apply Z4. lra.
    - exact (params_trans _ _ _ Pe3 B7).
    - left. pose proof Pe3 as (_ & _ & Eth & _). destruct Z4 as (_ & Z4); [lra|]. lra. }
  assert (Pe4 : params_eq s s4) by (exact (params_trans _ _ _ Pe3 (kp_params _ _ K4))).
  assert (Hp4 : params_ok s4) by (eapply params_eq_ok; eassumption).
  assert (Pk4 : packed s4) by (apply (kp_packed _ _ K4)).
  assert (T4 : Tpos s -> Tpos s4) by (intros T; exact (kept_Tpos _ _ K4 (T3 T))).
  assert (C4 : Tpos s -> cold s4) by (intros T; exact (kept_cold _ _ K4 (T3 T) (C3 T))).
  destruct (kp_water _ _ K4) as (_ & _ & _ & _ & W4 & W4m & W4E & _).
  change (h2o_total s4 = h) in W4. change (melt s4 = melt s3) in W4m. change (E_s s4 = E) in W4E.
  rewrite M3 in M4.
  (* wet compaction *)
  destruct (h2o_compact_spec i s4 s5 c5 Hp4 Pk4 ltac:(lra) ltac:(intros En; apply (Hv En)) H5)
    as [(-> & K5 & M5 & R5 & R5b & R5c)|(-> & G5 & M5 & Z5)]; clear H5.
  2:{ right. 
    rewrite ro_bare in H6. ok_inj H6. injection H6 as <- <-.
    cbn [snd] in H. ok_inj H. injection H as <- <-.
    split; [reflexivity|]. exists (m2 + E), h. destruct G5 as [B1 B2 B3 B4 B5 B6 B7]. rewrite M4, W4 in B3.
    pose proof (Rmax_shift (m2 + E)) as Hsh. pose proof (Rmax_l 0 (m2 + E)).
    pose proof (vap_sub_max E) as (Hvs & Hvs2).
    assert (Hle : h <= h2o s + liquid_in i s + (m0 + ml) + Rmax 0 E * VAP_SUB) by (rewrite W3 in Hhv; destruct Hhv; lra).
    split; try (cbn [E_s melt set_swi]; rewrite ?B4, ?W4m, ?W3m, ?B5, ?W4E; exact Hle); cbn; rn; rewrite ?B4, ?W4m, ?W3m, ?B5, ?W4E; try lra; try assumption.
    - right. fold m2. lra.
    - left. split; [destruct B1; split; assumption|]. split; [rewrite B2; lra|]. fold m2.
      split; [rn; lra|]. left. assumption.
    - exact (params_trans _ _ _ Pe4 B7).
    - left. pose proof Pe4 as (_ & _ & Eth & _). lra. }
  assert (Pe5 : params_eq s s5) by (exact (params_trans _ _ _ Pe4 (kp_params _ _ K5))).
  assert (Hp5 : params_ok s5) by (eapply params_eq_ok; eassumption).
  assert (Pk5 : packed s5) by (apply (kp_packed _ _ K5)).
  assert (T5 : Tpos s -> Tpos s5) by (intros T; exact (kept_Tpos _ _ K5 (T4 T))).
  assert (C5 : Tpos s -> cold s5) by (intros T; exact (kept_cold _ _ K5 (T4 T) (C4 T))).
  destruct (kp_water _ _ K5) as (_ & _ & _ & _ & W5 & W5m & W5E & _).
  rewrite W4 in W5. rewrite W4m, W3m in W5m. rewrite W4E in W5E. rewrite M4 in M5.
  assert (R5d : rho s5 <= 600).
  { destruct (Rlt_dec 550 (rho s4)) as [A|A]; [rewrite (R5c A); assumption|]. assert (rho s5 <= 550) by (apply R5b; lra). lra. }
  (* runoff *)
  destruct (runoff_spec s5 s6 c6 Hp5 Pk5 ltac:(lra) R5d H6) as (-> & D6 & Dcap). clear H6.
  cbn [snd fst] in H. inv_bind H as s7 H7. ok_inj H. injection H as <- <-.
  left. split; [reflexivity|].
  pose proof (capacity_nonneg s5 Hp5 Pk5 ltac:(lra) R5d) as Hcap.
  destruct D6 as [Q1 Q2 Q3 Q4 Q5 Q6 Q7 Q8 Q9 Q10 (Q11a & Q11b & Q11c) (Q12a & Q12b) (_ & _ & Q13c) Q14].
  destruct (adjust_layer_temps_spec s6 s7 Q1 H7) as ((a & b & d & ->) & Pk7 & Fz & One).
  assert (T6 : Tpos s -> Tpos s6).
  { intros T. destruct (T5 T) as (A & B & D). unfold Tpos. rewrite Q11a, Q11b, Q11c, Q13c. auto. }
  assert (C6 : Tpos s -> cold s6).
  { intros T. destruct (C5 T) as (A & B). unfold cold. rewrite Q12a, Q12b. auto. }
  split; try exact Pk7; cbn.
  - lra.
  - rewrite Q4. apply Rmin_glb; lra.
  - rewrite Q6. destruct (Rltb_spec (capacity s5) (h2o_total s5)) as [A|A]; [lra|].
    assert (0 < capacity s5) by (apply Dcap; lra). split.
    + apply Rmult_le_pos; [lra|left; apply Rinv_0_lt_compat; assumption].
    + apply Rmult_le_reg_r with (capacity s5); [assumption|]. unfold Rdiv. rewrite Rmult_assoc, Rinv_l by lra. lra.
  - rewrite Q9, W5m. lra.
  - rewrite Q3. apply Rmax_l.
  - rewrite Q2, Q10, W5E, M5. fold m2. lra.
  - intros T. exact (C6 T).
  - intros T Hm. exact (Fz (T6 T) (C6 T) Hm).
  - exact One.
  - rewrite Q5. assumption.
  - exact (params_trans _ _ _ Pe5 Q14).
Qed.
End Cover.
