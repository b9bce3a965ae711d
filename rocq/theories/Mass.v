(** * The mass balance over the reals: what each routine does to the pack.
    Basis of C15-C23, C25-C27. *)
From Coq Require Import Reals String ZArith Bool Lia Lra List.
Import ListNotations.
From Verif Require Import Num Real Constants Functions Libsnobal Input SnowState Snobal Phys Frame.
Open Scope R_scope.
Implicit Types s : SnowState R.

(** ** Vocabulary *)
(** sane configuration: threshold, surface-layer depth, water holding capacity *)
Record params_ok s : Prop := {
  pk_thr : 0 <= small_threshold s;
  pk_mz : 0 < max_z_s_0 s;
  pk_vol : 0 <= max_h2o_vol s;
  pk_vol2 : max_h2o_vol s * (99987/100) < 917
}.

(** one or two layers, with consistent depths and layer masses *)
Record layered s : Prop := {
  ly_z0 : 0 < z_s_0 s;
  ly_zl : 0 <= z_s_l s;
  ly_z : z_s s = z_s_0 s + z_s_l s;
  ly_m0 : m_s_0 s = rho s * z_s_0 s;
  ly_ml : m_s_l s = rho s * z_s_l s;
  ly_two : 0 < z_s_l s -> z_s_0 s = max_z_s_0 s;
  ly_one : z_s_l s = 0 -> cc_s_l s = 0 /\ t_s_l s = NO_SNOW_TEMP
}.
Definition packed s : Prop := layered s /\ m_s s = rho s * z_s s.

(** the canonical state without snow *)
Record bare s : Prop := {
  br_z0 : z_s_0 s <= 0; br_zl : z_s_l s = 0; br_z : z_s s = z_s_0 s;
  br_m : m_s s = 0; br_m0 : m_s_0 s = 0; br_ml : m_s_l s = 0; br_rho : rho s = 0;
  br_cc0 : cc_s_0 s = 0; br_ccl : cc_s_l s = 0;
  br_t : t_s s = NO_SNOW_TEMP; br_t0 : t_s_0 s = NO_SNOW_TEMP; br_tl : t_s_l s = NO_SNOW_TEMP;
  br_sat : h2o_sat s = 0; br_vol : h2o_vol s = 0; br_max : h2o_max s = 0
}.

(** attributes a re-layering does not touch *)
Definition same_water s s' : Prop :=
  h2o_sat s' = h2o_sat s /\ h2o s' = h2o s /\ h2o_max s' = h2o_max s /\ h2o_vol s' = h2o_vol s /\
  h2o_total s' = h2o_total s /\ melt s' = melt s /\ E_s s' = E_s s /\ swi s' = swi s.
Definition same_surface s s' : Prop :=
  t_s s' = t_s s /\ t_s_0 s' = t_s_0 s /\ cc_s_0 s' = cc_s_0 s.

(** what happens to temperature and cold content of the lower layer *)
Definition lower_rel s s' : Prop :=
  (z_s_l s' = 0 /\ cc_s_l s' = 0 /\ t_s_l s' = NO_SNOW_TEMP) \/
  (0 < z_s_l s' /\ 0 < z_s_l s /\ cc_s_l s' = cc_s_l s /\ t_s_l s' = t_s_l s) \/
  (0 < z_s_l s' /\ z_s_l s = 0 /\ t_s_l s' = t_s s /\ 0 <= m_s_l s' /\
     cc_s_l s' = cold_content (t_s s) (m_s_l s')).

(** the pack survives a change of total depth/mass/density to those of [s'] *)
Record kept s s' : Prop := {
  kp_packed : packed s';
  kp_water : same_water s s';
  kp_surface : same_surface s s';
  kp_lower : lower_rel s s';
  kp_params : params_eq s s'
}.
(** the pack, then of mass [m], disappears *)
Record gone m s s' : Prop := {
  gn_bare : bare s';
  gn_h2o : h2o s' = 0;
  gn_total : h2o_total s' = h2o_total s + Rmax 0 m;
  gn_melt : melt s' = melt s; gn_E : E_s s' = E_s s; gn_swi : swi s' = swi s;
  gn_params : params_eq s s'
}.

(** ** layer_count *)
Lemma lc_2 s : 0 < z_s_0 s -> 0 < z_s_l s -> layer_count s = 2%nat.
Proof.
  intros H0 H1. unfold layer_count. rn. destruct (Rltb_spec 0 (z_s_0 s)); [|lra].
  destruct (Rltb_spec 0 (z_s_l s)); [reflexivity|lra].
Qed.
Lemma lc_1 s : 0 < z_s_0 s -> z_s_l s = 0 -> layer_count s = 1%nat.
Proof.
  intros H0 H1. unfold layer_count. rn. destruct (Rltb_spec 0 (z_s_0 s)); [|lra].
  destruct (Rltb_spec 0 (z_s_l s)); [lra|reflexivity].
Qed.
Lemma lc_0 s : z_s_0 s <= 0 -> z_s_l s = 0 -> layer_count s = 0%nat.
Proof.
  intros H0 H1. unfold layer_count. rn. destruct (Rltb_spec 0 (z_s_0 s)); [lra|].
  destruct (Rltb_spec 0 (z_s_l s)); [lra|reflexivity].
Qed.
Lemma layered_count s : layered s ->
  (z_s_l s = 0 /\ layer_count s = 1%nat) \/ (0 < z_s_l s /\ layer_count s = 2%nat).
Proof.
  intros [H0 Hl _ _ _ _ _]. destruct (Rle_lt_or_eq_dec _ _ Hl) as [H|H].
  - right. split; [assumption|]. apply lc_2; assumption.
  - left. split; [auto|]. apply lc_1; auto.
Qed.
Lemma layered_has_snow s : layered s -> has_snow s = true.
Proof. intros H. unfold has_snow. destruct (layered_count s H) as [[_ ->]|[_ ->]]; reflexivity. Qed.
Lemma bare_count s : bare s -> layer_count s = 0%nat.
Proof. intros [H0 Hl _ _ _ _ _ _ _ _ _ _ _ _ _]. apply lc_0; assumption. Qed.
Lemma bare_no_snow s : bare s -> has_snow s = false.
Proof. intros H. unfold has_snow. rewrite (bare_count s H). reflexivity. Qed.
Lemma bare_or_layered_excl s : bare s -> layered s -> False.
Proof. intros [H0 _ _ _ _ _ _ _ _ _ _ _ _ _ _] [H1 _ _ _ _ _ _]. lra. Qed.

(** ** calc_layers *)
Lemma calc_layers_spec s : 0 <= small_threshold s ->
  exists z0 zl, calc_layers s = set_z_s_l zl (set_z_s_0 z0 (set_z_s (z0 + zl) s)) /\
  ((m_s s <= small_threshold s /\ z0 = 0 /\ zl = 0) \/
   (small_threshold s < m_s s /\ z0 = z_s s /\ zl = 0) \/
   (small_threshold s < m_s s /\ 0 < zl /\ z0 = max_z_s_0 s /\ zl = z_s s - max_z_s_0 s /\
    small_threshold s <= zl * rho s)).
Proof.
  intros Ht. unfold calc_layers. rn. destruct (Rleb_spec (m_s s) (small_threshold s)) as [H|H].
  - exists 0, 0. auto 6.
  - destruct (Rltb_spec 0 (z_s s - max_z_s_0 s)) as [Hl|Hl].
    + destruct (Rltb_spec ((z_s s - max_z_s_0 s) * rho s) (small_threshold s)) as [Hm|Hm].
      * exists (z_s s), 0. split; [reflexivity|]. right; left. repeat split; lra.
      * exists (max_z_s_0 s), (z_s s - max_z_s_0 s). split; [reflexivity|]. right; right. repeat split; lra.
    + rewrite Rmult_0_l. destruct (Rltb_spec 0 (small_threshold s)).
      * exists (z_s s), 0. split; [reflexivity|]. right; left. repeat split; lra.
      * exists (z_s s), 0. split; [reflexivity|]. right; left. repeat split; lra.
Qed.

(** ** adj_layers *)
(** what must hold when adj_layers is called: depth, density and mass already changed *)
Record adjustable s : Prop := {
  aj_z0 : 0 < z_s_0 s; aj_zl : 0 <= z_s_l s;
  aj_one : z_s_l s = 0 -> m_s_l s = 0 /\ cc_s_l s = 0 /\ t_s_l s = NO_SNOW_TEMP
}.
Lemma adjustable_count s : adjustable s ->
  (z_s_l s = 0 /\ layer_count s = 1%nat) \/ (0 < z_s_l s /\ layer_count s = 2%nat).
Proof.
  intros [H0 Hl _]. destruct (Rle_lt_or_eq_dec _ _ Hl) as [H|H].
  - right. split; [assumption|]. apply lc_2; assumption.
  - left. split; [auto|]. apply lc_1; auto.
Qed.
Lemma layered_adjustable s : layered s -> adjustable s.
Proof.
  intros [H0 Hl Hz Hm0 Hml H2 H1]. split; auto. intros E. destruct (H1 E). repeat split; auto.
  rewrite Hml, E. ring.
Qed.

Ltac fin := try solve [assumption | reflexivity | lra | repeat split; (reflexivity || assumption) |
  intros; auto; lra | intros _; auto |
  match goal with H : m_s _ = _ |- m_s _ = _ => rewrite H; f_equal; lra end |
  rewrite Rmax_right by lra; lra | rewrite Rmax_left by lra; lra].

Lemma adj_layers_spec s c s' c' :
  params_ok s -> adjustable s -> (0 < z_s s -> m_s s = rho s * z_s s) ->
  adj_layers (s, c) = (s', c') ->
  (c' = c /\ kept s s' /\ m_s s' = m_s s /\ rho s' = rho s /\ z_s s' = z_s s /\ small_threshold s < m_s s) \/
  (c' = false /\ gone (m_s s) s s' /\ (m_s s <= small_threshold s \/ z_s s <= 0) /\
     z_s s' = (if Rleb (m_s s) (small_threshold s) then 0 else z_s s)).
Proof.
  intros Hp Ha Hm0 H. unfold adj_layers in H.
  destruct (calc_layers_spec s (pk_thr _ Hp)) as (z0 & zl & Ec & Hc). rewrite Ec in H. clear Ec.
  set (s1 := set_z_s_l zl (set_z_s_0 z0 (set_z_s (z0 + zl) s))) in H.
  assert (Hdec : (layer_count s1 = 0%nat /\ zl = 0 /\ z0 <= 0 /\ (m_s s <= small_threshold s \/ z_s s <= 0) /\
                    z0 = (if Rleb (m_s s) (small_threshold s) then 0 else z_s s)) \/
                 (layer_count s1 = 1%nat /\ zl = 0 /\ 0 < z0 /\ z0 = z_s s /\ small_threshold s < m_s s) \/
                 (layer_count s1 = 2%nat /\ 0 < zl /\ z0 = max_z_s_0 s /\ z0 + zl = z_s s /\ small_threshold s < m_s s /\
                    small_threshold s <= zl * rho s)).
  { destruct Hc as [(H1 & H2 & H3)|[(H1 & H2 & H3)|(H1 & H2 & H3 & H4 & H5)]].
    - left. subst. split; [apply lc_0; cbn; lra|]. destruct (Rleb_spec (m_s s) (small_threshold s)); lra.
    - destruct (Rle_dec (z_s s) 0) as [Hz|Hz].
      + left. split; [apply lc_0; cbn; lra|]. destruct (Rleb_spec (m_s s) (small_threshold s)); lra.
      + right; left. split; [apply lc_1; cbn; lra|]. lra.
    - right; right. pose proof (pk_mz _ Hp). split; [apply lc_2; cbn; lra|]. lra. }
  destruct Hdec as [(L & E1 & E2 & E3 & E3')|[(L & E1 & E2 & E3 & E4)|(L & E1 & E2 & E3 & E4 & E5)]].
  - right. rewrite L in H. cbn [Nat.eqb] in H.
    destruct (adjustable_count s Ha) as [[Zl Lp]|[Zl Lp]]; rewrite Lp in H; cbn [Nat.eqb] in H;
      injection H as <- <-; (split; [reflexivity|]); (split; [|split; [exact E3|]]);
      subst s1; rn.
    + destruct (aj_one _ Ha Zl) as (A1 & A2 & A3).
      destruct (Rltb_spec 0 (m_s s)) as [Hpos|Hneg];
        (split; [split| | | | | |]); cbn; fin.
    + destruct (Rltb_spec 0 (m_s s)) as [Hpos|Hneg]; cbn; rewrite E1, Rplus_0_r; assumption.
    + destruct (Rltb_spec 0 (m_s s)) as [Hpos|Hneg];
        (split; [split| | | | | |]); cbn; fin.
    + destruct (Rltb_spec 0 (m_s s)) as [Hpos|Hneg]; cbn; rewrite E1, Rplus_0_r; assumption.
  - assert (Hm : m_s s = rho s * z_s s) by (pose proof (pk_mz _ Hp); apply Hm0; lra).
    left. rewrite L in H. cbn [Nat.eqb] in H.
    change (layer_count (layer_mass s1)) with (layer_count s1) in H. rewrite L in H. cbn [Nat.eqb] in H.
    destruct (adjustable_count s Ha) as [[Zl Lp]|[Zl Lp]]; rewrite Lp in H; cbn [Nat.eqb andb] in H;
      injection H as <- <-; (split; [reflexivity|]); (split; [|cbn; repeat split; lra]); subst s1.
    + destruct (aj_one _ Ha Zl) as (A1 & A2 & A3).
      split; [split; [split|]| | | |]; cbn; rn; fin. left. cbn. auto.
    + split; [split; [split|]| | | |]; cbn; rn; fin. left. cbn. auto.
  - assert (Hm : m_s s = rho s * z_s s) by (pose proof (pk_mz _ Hp); apply Hm0; lra).
    left. rewrite L in H. cbn [Nat.eqb] in H.
    change (layer_count (layer_mass s1)) with (layer_count s1) in H. rewrite L in H. cbn [Nat.eqb] in H.
    pose proof (pk_mz _ Hp) as Hmz.
    destruct (adjustable_count s Ha) as [[Zl Lp]|[Zl Lp]]; rewrite Lp in H; cbn [Nat.eqb andb] in H;
      injection H as <- <-; (split; [reflexivity|]); (split; [|cbn; repeat split; lra]); subst s1.
    + split; [split; [split|]| | | |]; cbn; rn; fin. right; right. cbn. pose proof (pk_thr _ Hp). repeat split; fin.
    + split; [split; [split|]| | | |]; cbn; rn; fin. right; left. cbn. auto.
Qed.

(** ** adj_snow *)
Lemma kept_refl s : packed s -> kept s s.
Proof.
  intros Hk. split; [assumption| | | |]; try (repeat split; fail).
  destruct Hk as [L _]. destruct (Rle_lt_or_eq_dec _ _ (ly_zl _ L)) as [H|H].
  - right; left. auto.
  - left. symmetry in H. destruct (ly_one _ L H). auto.
Qed.
Lemma kept_m_pos s s' : kept s s' -> 0 < m_s s' -> 0 < rho s'.
Proof.
  intros [[L M] _ _ _ _] Hm. destruct L as [L0 Ll Lz _ _ _ _]. rewrite M in Hm.
  assert (0 < z_s s') by lra. nra.
Qed.
Lemma packed_z_pos s : packed s -> 0 < z_s s.
Proof. intros [[L0 Ll Lz _ _ _ _] _]. lra. Qed.

Lemma adj_snow_spec dz dm s c s' c' :
  params_ok s -> packed s -> adj_snow dz dm (s, c) = (s', c') ->
  (c' = c /\ kept s s' /\ m_s s' = m_s s + dm /\ rho s' <= 600 /\ (dz <> 0 -> small_threshold s < m_s s + dm)) \/
  (c' = false /\ gone (m_s s + dm) s s' /\
     ((m_s s + dm <= small_threshold s /\ z_s s' = 0) \/
      (small_threshold s < m_s s + dm /\ z_s s + dz <= 0 /\ z_s s' = z_s s + dz))).
Proof.
  intros Hp Hk H. pose proof (packed_z_pos s Hk) as Hz. destruct Hk as [L M]. unfold adj_snow in H.
  pose proof adj_layers_spec as HF. revert HF H. generalize (@adj_layers R RNum). intros F HF H.
  consts. cbn in H.
  set (m' := m_s s + dm) in *. set (z' := z_s s + dz) in *.
  set (s1 := if negb (Reqb z' 0) then _ else _) in H.
  assert (Hs1 : exists r, s1 = set_rho r (set_m_s m' (set_z_s z' s)) /\ (z' <> 0 -> m' = r * z') /\ (z' = 0 -> r = 0)).
  { unfold s1. destruct (Reqb_spec z' 0) as [E|E]; cbn [negb].
    - exists 0. repeat split; lra.
    - exists (m' / z'). split; [reflexivity|]. split; [intros; field; assumption|lra]. }
  destruct Hs1 as (r & E1 & Hr & Hr0). rewrite E1 in H. clear s1 E1.
  assert (Hadj : forall r1 z1, params_ok (set_rho r1 (set_m_s m' (set_z_s z1 s))) /\
                            adjustable (set_rho r1 (set_m_s m' (set_z_s z1 s)))).
  { intros. split; [destruct Hp; split; assumption|]. apply layered_adjustable in L. destruct L; split; assumption. }
  assert (Hkk : forall r1 z1 s2, kept (set_rho r1 (set_m_s m' (set_z_s z1 s))) s2 -> kept s s2).
  { intros r1 z1 s2 [K1 K2 K3 K4 K5]. split; assumption. }
  assert (Hgg : forall r1 z1 m s2, gone m (set_rho r1 (set_m_s m' (set_z_s z1 s))) s2 -> gone m s s2).
  { intros r1 z1 m s2 [K1 K2 K3 K4 K5 K6 K7]. split; assumption. }
  cbn [rho set_rho set_m_s set_z_s] in H.
  destruct (Rltb_spec 600 r) as [Hbig|Hbig].
  - change (F (set_rho 600 (set_m_s m' (set_z_s (m'/600) s)), c) = (s', c')) in H.
    destruct (Hadj 600 (m'/600)) as (A1 & A2).
    destruct (HF _ _ _ _ A1 A2 ltac:(cbn; intros; field) H)
      as [(K0 & K1 & K2 & K3 & K4 & K5)|(K0 & K1 & K2 & K3)]; cbn in K2, K3.
    + left. cbn in K5. repeat split; try (eapply Hkk; eassumption); try assumption; try lra.
    + right. repeat split; try (eapply Hgg; eassumption); try assumption; try lra.
      left. pose proof (pk_thr _ Hp). destruct (Rleb_spec m' (small_threshold s)); split; lra.
  - destruct (Reqb_spec dz 0) as [Ed|Ed]; cbn [negb] in H.
    + (* same depth *)
      injection H as <- <-. left. split; [reflexivity|].
      assert (z' = z_s s) by (unfold z'; lra).
      assert (Hm' : m' = r * z') by (apply Hr; lra).
      split; [|cbn; repeat split; lra].
      destruct L as [L0 Ll Lz Lm0 Lml L2 L1].
      split; [split; [split|]| | | |]; cbn; rn; fin.
      destruct (Rle_lt_or_eq_dec _ _ Ll) as [Hl|Hl]; [right; left; cbn; auto|left; cbn].
      symmetry in Hl. destruct (L1 Hl). auto.
    + destruct (Hadj r z') as (A1 & A2).
        destruct (HF _ _ _ _ A1 A2 ltac:(cbn; intros; apply Hr; lra) H)
          as [(K0 & K1 & K2 & K3 & K4 & K5)|(K0 & K1 & K2 & K3)]; cbn in K2, K3.
        -- left. cbn in K5. repeat split; try (eapply Hkk; eassumption); try assumption; try lra.
        -- right. repeat split; try (eapply Hgg; eassumption); try assumption; try lra.
           destruct (Rleb_spec m' (small_threshold s)); [left|right]; repeat split; try lra.
Qed.

(** kept/gone do not look at the density, depth and mass the routine sets first *)
Lemma kept_from s r z s' : kept (set_z_s z (set_rho r s)) s' -> kept s s'.
Proof. intros [K1 K2 K3 K4 K5]. split; assumption. Qed.
Lemma gone_from s r z m s' : gone m (set_z_s z (set_rho r s)) s' -> gone m s s'.
Proof. intros [K1 K2 K3 K4 K5 K6 K7]. split; assumption. Qed.

(** ** time_compact *)
Lemma compaction_rate_ge ts m r : (0 < ts)%Z -> compaction_rate ts m = Ok r -> 0 < r.
Proof.
  intros Ht. unfold compaction_rate. consts.
  assert (Hts : 0 < IZR ts) by (apply IZR_lt; assumption).
  destruct (Rleb_spec 2000 m); intros H.
  - injection H as <-. lra.
  - apply pdiv_R in H. destruct H as [_ ->].
    pose proof (COS_bound (PI * m / 2000)) as [Hc _].
    apply Rdiv_lt_0_compat; [lra|]. apply Rdiv_lt_0_compat; lra.
Qed.
Lemma compaction_pos ts s d : (0 < ts)%Z -> 0 <= m_s s -> compaction_increment ts s = Ok d -> 0 < d.
Proof.
  intros Ht Hm. unfold compaction_increment. intros H. inv_bind H as r Hr.
  apply compaction_rate_ge in Hr; [|assumption].
  inv_bind H as a Ha. inv_bind H as b Hb. injection H as <-. consts.
  apply pdiv_R in Ha. apply pdiv_R in Hb. destruct Ha as [_ ->]. destruct Hb as [_ ->].
  set (K := if Rltb (rho s) 100 then _ else _) in *.
  assert (HK : 0 < K) by (unfold K; destruct (Rltb (rho s) 100); [lra|apply exp_pos]).
  clearbody K.
  match goal with |- 0 < ?x / r + ?y / r => assert (0 < x); [|assert (0 <= y)] end.
  { apply Rmult_lt_0_compat; [lra|apply exp_pos]. }
  { apply Rmult_le_pos; [|left; apply exp_pos]. apply Rmult_le_pos; [|assumption].
    apply Rmult_le_pos; [lra|left; apply exp_pos]. }
  apply Rplus_lt_le_0_compat; [apply Rdiv_lt_0_compat; assumption|].
  apply Rmult_le_pos; [assumption|]. left. apply Rinv_0_lt_compat. assumption.
Qed.

Lemma time_compact_spec ts s s' c' :
  params_ok s -> packed s -> (0 < ts)%Z -> time_compact ts (s, true) = Ok (s', c') ->
  (c' = true /\ kept s s' /\ m_s s' = m_s s /\ (550 <= rho s -> s' = s) /\
     (rho s < 550 -> small_threshold s < m_s s /\ rho s < rho s' /\ z_s s' < z_s s)) \/
  (c' = false /\ gone (m_s s) s s' /\ m_s s <= small_threshold s /\ z_s s' = 0).
Proof.
  intros Hp Hk Hts H. pose proof (packed_z_pos s Hk) as Hz. unfold time_compact in H.
  pose proof adj_layers_spec as HF. revert HF H. generalize (@adj_layers R RNum). intros F HF H.
  cbn [negb orb] in H. consts. destruct (Rleb_spec 550 (rho s)) as [Hb|Hb].
  - ok_inj H. injection H as <- <-. left. split; [reflexivity|]. split; [apply kept_refl; assumption|].
    split; [reflexivity|]. split; [auto|lra].
  - inv_bind H as d Hd. inv_bind H as z Hzz. ok_inj H. cbn in Hzz.
    apply pdiv_R in Hzz. destruct Hzz as [Hr ->]. cbn [m_s set_rho rho] in H.
    set (r := rho s + d * rho s) in *.
    assert (Hpo : params_ok (set_z_s (m_s s / r) (set_rho r s))) by (destruct Hp; split; assumption).
    assert (Haj : adjustable (set_z_s (m_s s / r) (set_rho r s))).
    { destruct (layered_adjustable _ (proj1 Hk)). split; assumption. }
    assert (Hdp : 0 < m_s s -> 0 < d) by (intros; eapply compaction_pos; try eassumption; lra).
    assert (Hrp : 0 < m_s s -> 0 < rho s).
    { intros. destruct Hk as [_ M]. rewrite M in *. nra. }
    pose proof (pk_thr _ Hp) as Ht.
    destruct (HF _ _ _ _ Hpo Haj ltac:(cbn; intros; field; assumption) H)
      as [(K0 & K1 & K2 & K3 & K4 & K5)|(K0 & K1 & K2 & K3)].
    + left. cbn in K2, K3, K4, K5. split; [assumption|]. split; [eapply kept_from; eassumption|].
      split; [assumption|]. split; [lra|]. intros _. split; [assumption|].
      assert (Hm : 0 < m_s s) by lra. specialize (Hdp Hm). specialize (Hrp Hm).
      assert (Hrr : rho s < r) by (unfold r; nra). rewrite K3, K4. split; [assumption|].
      destruct Hk as [_ M]. apply Rmult_lt_reg_r with r; [lra|].
      replace (m_s s / r * r) with (m_s s) by (field; assumption). rewrite M at 1. nra.
    + right. cbn in K2, K3. split; [assumption|]. split; [eapply gone_from; eassumption|].
      destruct (Rle_dec (m_s s) (small_threshold s)) as [Hm|Hm].
      * destruct (Rleb_spec (m_s s) (small_threshold s)); [|lra]. auto.
      * exfalso. destruct K2 as [K2|K2]; [lra|].
        assert (Hm0 : 0 < m_s s) by lra. specialize (Hdp Hm0). specialize (Hrp Hm0).
        assert (0 < r) by (unfold r; nra). assert (0 < m_s s / r) by (apply Rdiv_lt_0_compat; assumption). lra.
Qed.

(** ** init_snow *)
Record fresh s s' : Prop := {
  fr_packed : packed s';
  fr_rho : rho s' = rho s; fr_m : m_s s' = rho s * z_s s; fr_z : z_s s' = z_s s;
  fr_thr : small_threshold s < rho s * z_s s;
  fr_t : t_s s' = t_s s; fr_t0 : t_s_0 s' = t_s_0 s;
  fr_cc0 : cc_s_0 s' = cold_content (t_s_0 s) (m_s_0 s');
  fr_l : (z_s_l s' = 0 /\ cc_s_l s' = 0) \/
         (0 < z_s_l s' /\ t_s_l s' = t_s_l s /\ cc_s_l s' = cold_content (t_s_l s) (m_s_l s'));
  fr_sat : h2o_sat s' = h2o_sat s;
  fr_h2o : h2o s' = h2o_sat s * h2o_max s';
  fr_max : exists dry, dry * (1 - h2o_sat s * max_h2o_vol s * (99987/100) / 917)
                         = rho s - h2o_sat s * max_h2o_vol s * (99987/100) /\
                       h2o_max s' = h2o_left (z_s s) dry (max_h2o_vol s);
  fr_total : h2o_total s' = h2o_total s; fr_melt : melt s' = melt s; fr_E : E_s s' = E_s s;
  fr_swi : swi s' = swi s; fr_params : params_eq s s'
}.

Lemma cold_content_le t m : 0 < t -> 0 <= m -> cold_content t m <= 0.
Proof.
  intros Ht Hm. unfold cold_content, heat_stor, cp_ice. consts.
  destruct (Rltb_spec t (27316/100)) as [H|H]; [|lra].
  assert (0 <= (4186798188/1000000000 * (24928/1000000 + 176/100000 * t) / (1/1000)) * m).
  { apply Rmult_le_pos; [|assumption]. apply Rmult_le_pos; [nra|lra]. }
  set (x := _ * m) in *. nra.
Qed.

Lemma init_snow_spec s s' : params_ok s -> init_snow s = Ok s' ->
  fresh s s' \/
  (gone (rho s * z_s s) s s' /\ (rho s * z_s s <= small_threshold s \/ z_s s <= 0) /\
   z_s s' = (if Rleb (rho s * z_s s) (small_threshold s) then 0 else z_s s)).
Proof.
  intros Hp H. unfold init_snow in H. rn.
  set (s0 := set_m_s (rho s * z_s s) s) in H.
  assert (Hp0 : params_ok s0) by (destruct Hp; split; assumption).
  destruct (calc_layers_spec s0 (pk_thr _ Hp0)) as (z0 & zl & Ec & Hc).
  change (@calc_layers R _) with (@calc_layers R RNum) in H. rewrite Ec in H. clear Ec.
  change (@layer_count R _) with (@layer_count R RNum) in H.
  change (m_s s0) with (rho s * z_s s) in Hc. change (small_threshold s0) with (small_threshold s) in Hc.
  change (z_s s0) with (z_s s) in Hc. change (max_z_s_0 s0) with (max_z_s_0 s) in Hc. change (rho s0) with (rho s) in Hc.
  set (s1 := set_z_s_l zl (set_z_s_0 z0 (set_z_s (z0 + zl) s0))) in H.
  assert (Hdec : (layer_count s1 = 0%nat /\ zl = 0 /\ z0 <= 0 /\ (rho s * z_s s <= small_threshold s \/ z_s s <= 0) /\
                    z0 = (if Rleb (rho s * z_s s) (small_threshold s) then 0 else z_s s)) \/
                 (layer_count s1 = 1%nat /\ zl = 0 /\ 0 < z0 /\ z0 = z_s s /\ small_threshold s < rho s * z_s s) \/
                 (layer_count s1 = 2%nat /\ 0 < zl /\ z0 = max_z_s_0 s /\ z0 + zl = z_s s /\ small_threshold s < rho s * z_s s)).
  { destruct Hc as [(H1 & H2 & H3)|[(H1 & H2 & H3)|(H1 & H2 & H3 & H4 & H5)]].
    - left. subst. split; [apply lc_0; cbn; lra|]. destruct (Rleb_spec (rho s * z_s s) (small_threshold s)); lra.
    - destruct (Rle_dec (z_s s) 0) as [Hz|Hz].
      + left. split; [apply lc_0; cbn; lra|]. destruct (Rleb_spec (rho s * z_s s) (small_threshold s)); lra.
      + right; left. split; [apply lc_1; cbn; lra|]. lra.
    - right; right. pose proof (pk_mz _ Hp). split; [apply lc_2; cbn; lra|]. lra. }
  destruct Hdec as [(L & E1 & E2 & E3 & E3')|Hdec].
  - right. rewrite L in H. cbn [Nat.eqb] in H. ok_inj H. subst s'. split; [|split; [exact E3|]].
    + change (m_s s1) with (rho s * z_s s). subst s1 s0. destruct (Rltb_spec 0 (rho s * z_s s)) as [Hpos|Hneg];
        (split; [split| | | | | |]); cbn in *; fin.
    + subst s1 s0. cbn. destruct (Rltb 0 (rho s * z_s s)); cbn; rewrite E1, Rplus_0_r; assumption.
  - left.
    assert (L : layer_count s1 = 1%nat \/ layer_count s1 = 2%nat) by tauto.
    assert (E0 : (layer_count s1 =? 0)%nat = false) by (destruct L as [->| ->]; reflexivity).
    rewrite E0 in H. clear E0 L.
    change (layer_count (layer_mass s1)) with (layer_count s1) in H.
    change (layer_count (set_cc_s_0 _ (layer_mass s1))) with (layer_count s1) in H.
    destruct Hdec as [(L & E1 & E2 & E3 & E4)|(L & E1 & E2 & E3 & E4)];
      rewrite L in H; cbn [Nat.eqb] in H;
      inv_bind H as dry Hd; ok_inj H; subst s'; subst s1 s0; unfold dry_snow_density in Hd; consts;
      apply pdiv_R in Hd; destruct Hd as [Hd1 Hd2]; cbn in Hd1, Hd2.
    + split; [split; [split|]| | | | | | | | | | | | | | | |]; cbn; rn; fin.
      * f_equal. lra.
      * exists dry. split; [|rewrite E1, Rplus_0_r, E3; reflexivity]. rewrite Hd2. field. lra.
    + pose proof (pk_mz _ Hp) as Hmz.
      split; [split; [split|]| | | | | | | | | | | | | | | |]; cbn; rn; fin.
      * f_equal. lra.
      * exists dry. split; [|rewrite E3; reflexivity]. rewrite Hd2. field. lra.
Qed.

(** ** precip_event *)
(** water in the new snow *)
Definition snow_water (i : InputData R) s : R :=
  h2o_left (i_z_snow i) (i_rho_snow i) (i_h2o_sat_snow i * max_h2o_vol s).

Lemma precip_cover_spec i s s' c' :
  params_ok s -> packed s -> precip_event i (s, true) = Ok (s', c') ->
  (i_precip_now i = false /\ c' = true /\ s' = set_h2o_total (h2o_total s + h2o s) s) \/
  (i_precip_now i = true /\ c' = true /\ exists s1, kept s s1 /\ m_s s1 = m_s s + i_m_pp i /\ rho s1 <= 600 /\
     s' = set_h2o_total (h2o_total s + (h2o s + snow_water i s + i_m_rain i)) (set_h2o (h2o s + snow_water i s) s1)) \/
  (i_precip_now i = true /\ c' = false /\ exists s1, gone (m_s s + i_m_pp i) s s1 /\
     ((m_s s + i_m_pp i <= small_threshold s /\ z_s s1 = 0) \/
      (small_threshold s < m_s s + i_m_pp i /\ z_s s + i_z_snow i <= 0 /\ z_s s1 = z_s s + i_z_snow i)) /\
     s' = set_h2o_total (h2o_total s1 + (snow_water i s + i_m_rain i)) (set_h2o (snow_water i s) s1)).
Proof.
  intros Hp Hk H. unfold precip_event in H.
  pose proof adj_snow_spec as HF. revert HF H. generalize (@adj_snow R RNum). intros F HF H.
  destruct (i_precip_now i).
  - right. destruct (F (i_z_snow i) (i_m_pp i) (s, true)) as [s1 c1] eqn:EF.
    cbn [bind] in H. ok_inj H. injection H as <- <-.
    destruct (HF _ _ _ _ _ _ Hp Hk EF) as [(K0 & K1 & K2 & K3 & _)|(K0 & K1 & K2)].
    + left. split; [reflexivity|]. split; [assumption|]. exists s1. do 3 (split; [assumption|]).
      pose proof (kp_water _ _ K1) as (_ & W1 & _ & _ & W2 & _).
      pose proof (kp_params _ _ K1) as (_ & _ & _ & P4).
      unfold snow_water. rewrite <- P4. rewrite <- W1, <- W2. reflexivity.
    + right. split; [reflexivity|]. split; [assumption|]. exists s1. split; [assumption|]. split; [assumption|].
      pose proof (gn_h2o _ _ _ K1) as W1. pose proof (gn_params _ _ _ K1) as (_ & _ & _ & P4).
      unfold snow_water. rewrite <- P4. cbn. rewrite W1. rn. rewrite !Rplus_0_l. reflexivity.
  - left. ok_inj H. injection H as <- <-. auto.
Qed.

(** the state precip_event hands to init_snow *)
Definition snowfall_on (i : InputData R) s : SnowState R :=
  set_h2o_sat (i_h2o_sat_snow i) (set_t_s_l (i_t_snow i) (set_t_s_0 (i_t_snow i)
    (set_t_s (i_t_snow i) (set_rho (i_rho_snow i) (set_z_s (i_z_snow i) s))))).

Lemma precip_bare_spec i s s' c' :
  params_ok s -> precip_event i (s, false) = Ok (s', c') -> c' = false /\
  ((i_precip_now i = false /\ s' = set_h2o_total (h2o_total s + h2o s) s) \/
   (i_precip_now i = true /\ i_m_snow i <= 0 /\ s' = set_h2o_total (h2o_total s + (h2o s + i_m_rain i)) s) \/
   (i_precip_now i = true /\ 0 < i_m_snow i /\ exists s1, s' = set_h2o_total (h2o_total s1 + (h2o s1 + i_m_rain i)) s1 /\
     (fresh (snowfall_on i s) s1 \/
      (gone (i_rho_snow i * i_z_snow i) (snowfall_on i s) s1 /\
       (i_rho_snow i * i_z_snow i <= small_threshold s \/ i_z_snow i <= 0) /\
       z_s s1 = (if Rleb (i_rho_snow i * i_z_snow i) (small_threshold s) then 0 else i_z_snow i))))).
Proof.
  intros Hp H. unfold precip_event in H.
  pose proof init_snow_spec as HF. revert HF H. generalize (@init_snow R RNum). intros F HF H.
  destruct (i_precip_now i).
  - rn. destruct (Rltb_spec 0 (i_m_snow i)) as [Hs|Hs].
    + fold (snowfall_on i s) in H.
      inv_bind H as [s1 c1] H1. inv_bind H1 as s2 H2. ok_inj H. injection H as <- <-. ok_inj H1. injection H1 as <- <-.
      split; [reflexivity|]. right; right. split; [reflexivity|]. split; [assumption|]. exists s2.
      split; [reflexivity|]. apply HF; [|exact H2]. destruct Hp; split; assumption.
    + cbn [bind] in H. ok_inj H. injection H as <- <-. split; [reflexivity|]. right; left. repeat split; lra.
  - ok_inj H. injection H as <- <-. auto.
Qed.

(** ** snowmelt *)
Definition LF : R := lh_fus (27316/100).
Lemma LF_val : LF = 333600.
Proof. unfold LF, lh_fus. consts. lra. Qed.

Lemma refreeze_spec s z Q cc rf cc' :
  0 <= h2o_total s -> 0 < z_s s -> 0 <= z <= z_s s -> (cc < 0 -> cc = Q) -> cc <= 0 ->
  refreeze s z Q cc = Ok (rf, cc') ->
  0 <= rf <= h2o_total s * (z / z_s s) /\ cc' <= 0 /\ cc' = cc + LF * rf /\
  (cc' < 0 -> rf = h2o_total s * (z / z_s s)).
Proof.
  intros Ht Hz Hzz Hq Hc. unfold refreeze. consts. rewrite <- FREEZE_R.
  assert (Hf : 0 <= z / z_s s). { apply Rmult_le_pos; [lra|]. left; apply Rinv_0_lt_compat; lra. }
  destruct (Rltb_spec cc 0) as [Hc0|Hc0].
  - destruct (Rltb_spec 0 (h2o_total s)) as [Ht0|Ht0].
    + intros H. inv_bind H as fr Hfr. apply pdiv_R in Hfr. destruct Hfr as [_ ->].
      change (@lh_fus R _ FREEZE) with LF in H. unfold melt_of in H. 
      change (@lh_fus R _ FREEZE) with LF in H. rn. rewrite LF_val in *. rewrite (Hq Hc0) in *.
      assert (0 <= h2o_total s * (z / z_s s)) by nra.
      set (w := h2o_total s * (z / z_s s)) in *.
      destruct (Rleb_spec (Q + w * 333600) 0) as [Hl|Hl]; ok_inj H; injection H as <- <-.
      * repeat split; lra.
      * repeat split; try lra.
    + intros H. ok_inj H. injection H as <- <-. assert (E : h2o_total s = 0) by lra. rewrite E, Rmult_0_l. repeat split; lra.
  - intros H. ok_inj H. injection H as <- <-. repeat split; try lra. apply Rmult_le_pos; assumption.
Qed.

(** energy and water bookkeeping of one layer in the melt routine: energy [Q] arrives,
    [m] melts, [r] refreezes, the cold content becomes [cc] *)
Definition layer_budget (Q m r cc : R) : Prop :=
  0 <= m /\ 0 <= r /\ cc <= 0 /\ cc = Q - LF * m + LF * r /\ (0 < m -> cc = 0 /\ r = 0).

Definition melt_out (ts : Z) s (m0 r0 cc0 ml rl ccl ht : R) : Prop :=
  layer_budget (delta_Q_0 (en s) * IZR ts + cc_s_0 s) m0 r0 cc0 /\
  (0 < z_s_l s -> layer_budget ((G_ (en s) - G_0 (en s)) * IZR ts + cc_s_l s) ml rl ccl) /\
  (z_s_l s = 0 -> ml = 0 /\ rl = 0 /\ ccl = cc_s_l s) /\
  r0 + rl <= h2o_total s + (m0 + ml) /\
  ((h2o_total s + (m0 + ml) - (r0 + rl) <= 1/100000000 /\ ht = 0) \/
   (1/100000000 < h2o_total s + (m0 + ml) - (r0 + rl) /\ ht = h2o_total s + (m0 + ml) - (r0 + rl))) /\
  (cc0 < 0 -> (0 < z_s_l s -> ccl < 0) -> ht = 0).

Definition melt_state s (m0 cc0 ml ccl ht : R) : SnowState R :=
  set_h2o_total ht (set_cc_s_l ccl (set_cc_s_0 cc0 (set_melt (m0 + ml) s))).

Lemma melt_pos Q : 0 < Q -> 0 < melt_of Q /\ Q = LF * melt_of Q.
Proof.
  intros H. unfold melt_of. change (@lh_fus R RNum FREEZE) with LF. rn. rewrite LF_val.
  split; [apply Rdiv_lt_0_compat; lra|field].
Qed.

Lemma snowmelt_core ts s s' c' :
  packed s -> 0 <= h2o_total s -> snowmelt ts (s, true) = Ok (s', c') ->
  exists m0 r0 cc0 ml rl ccl ht, melt_out ts s m0 r0 cc0 ml rl ccl ht /\ 0 <= ml /\
    let s1 := melt_state s m0 cc0 ml ccl ht in
    (m0 + ml = 0 /\ s' = s1 /\ c' = true) \/
    (0 < m0 + ml /\ rho s <> 0 /\ adj_snow (- (m0 + ml) / rho s) 0 (s1, true) = (s', c')).
Proof.
  intros Hk Ht H. pose proof (packed_z_pos s Hk) as Hz. destruct Hk as [L M]. unfold snowmelt in H.
  generalize dependent (@adj_snow R RNum). intros F H. cbn [negb] in H.
  change (nadd (nmul (delta_Q_0 (en s)) (nofZ ts)) (cc_s_0 s)) with (delta_Q_0 (en s) * IZR ts + cc_s_0 s) in H.
  set (Q := delta_Q_0 (en s) * IZR ts + cc_s_0 s) in *.
  set (s1 := if nltb _ Q then _ else _) in H.
  assert (H1 : exists m0 cc0, s1 = set_cc_s_0 cc0 (set_melt m0 s) /\ 0 <= m0 /\ cc0 <= 0 /\
     Q = cc0 + LF * m0 /\ (cc0 < 0 -> cc0 = Q) /\ (0 < m0 -> cc0 = 0)).
  { unfold s1. rn. rewrite LF_val. destruct (Rltb_spec 0 Q) as [Hq|Hq].
    - destruct (melt_pos Q Hq) as (A & B). rewrite LF_val in B. exists (melt_of Q), 0. split; [reflexivity|]. repeat split; lra.
    - destruct (Reqb_spec Q 0) as [Hq0|Hq0].
      + exists 0, 0. split; [reflexivity|]. repeat split; lra.
      + exists 0, Q. split; [reflexivity|]. repeat split; lra. }
  destruct H1 as (m0 & cc0 & E1 & Hm0 & Hcc0 & HQ & Hq1 & Hq2). rewrite E1 in H. clear s1 E1.
  change (layer_count (set_cc_s_0 cc0 (set_melt m0 s))) with (layer_count s) in H.
  set (Ql := (G_ (en s) - G_0 (en s)) * IZR ts + cc_s_l s).
  set (p2 := if (layer_count s =? 2)%nat then _ else _) in H.
  assert (H2 : exists ml ccl ql, p2 = (set_cc_s_l ccl (set_cc_s_0 cc0 (set_melt (m0 + ml) s)), ql) /\ 0 <= ml /\
     (z_s_l s = 0 -> ml = 0 /\ ccl = cc_s_l s) /\
     (0 < z_s_l s -> ql = Ql /\ ccl <= 0 /\ Ql = ccl + LF * ml /\ (ccl < 0 -> ccl = Ql) /\ (0 < ml -> ccl = 0))).
  { unfold p2. destruct (layered_count s L) as [[Zl ->]|[Zl ->]]; cbn [Nat.eqb].
    - exists 0, (cc_s_l s), 0. rewrite Rplus_0_r. split; [destruct s; reflexivity|]. split; [lra|]. split; [auto|lra].
    - change (nadd _ (cc_s_l _)) with Ql. rn. rewrite LF_val. destruct (Rltb_spec 0 Ql) as [Hq|Hq].
      + destruct (melt_pos Ql Hq) as (A & B). rewrite LF_val in B. exists (melt_of Ql), 0, Ql.
        split; [reflexivity|]. split; [lra|]. split; [lra|]. intros _. repeat split; lra.
      + destruct (Reqb_spec Ql 0) as [Hq0|Hq0].
        * exists 0, 0, Ql. rewrite Rplus_0_r. split; [reflexivity|]. split; [lra|]. split; [lra|]. intros _. repeat split; lra.
        * exists 0, Ql, Ql. rewrite Rplus_0_r. split; [reflexivity|]. split; [lra|]. split; [lra|]. intros _. repeat split; lra. }
  destruct H2 as (ml & ccl & ql & E2 & Hml & Hone & Htwo). rewrite E2 in H. clear p2 E2. cbn iota beta in H.
  set (s2 := set_cc_s_l ccl (set_cc_s_0 cc0 (set_melt (m0 + ml) s))) in H.
  change (nadd (h2o_total s2) (melt s2)) with (h2o_total s + (m0 + ml)) in H.
  set (ht1 := h2o_total s + (m0 + ml)) in *.
  inv_bind H as [r0 cc0'] Hr0.
  change (layer_count (set_cc_s_0 cc0' (set_h2o_total ht1 s2))) with (layer_count s) in H.
  inv_bind H as [rl ccl'] Hrl.
  assert (Hht : 0 <= ht1) by (unfold ht1; lra).
  destruct L as [L0 Ll Lz Lm0 Lml L2 L1].
  assert (R0 : 0 <= r0 <= ht1 * (z_s_0 s / z_s s) /\ cc0' <= 0 /\ cc0' = cc0 + LF * r0 /\ (cc0' < 0 -> r0 = ht1 * (z_s_0 s / z_s s))).
  { eapply (refreeze_spec (set_h2o_total ht1 s2)); try eassumption; cbn; try lra; auto. }
  assert (RL : (z_s_l s = 0 -> rl = 0 /\ ccl' = ccl) /\
               (0 < z_s_l s -> 0 <= rl <= ht1 * (z_s_l s / z_s s) /\ ccl' <= 0 /\ ccl' = ccl + LF * rl /\ (ccl' < 0 -> rl = ht1 * (z_s_l s / z_s s)))).
  { split.
    - intros Zl. rewrite (lc_1 s L0 Zl) in Hrl. cbn [Nat.eqb] in Hrl. ok_inj Hrl. injection Hrl as <- <-. auto.
    - intros Zl. rewrite (lc_2 s L0 Zl) in Hrl. cbn [Nat.eqb] in Hrl.
      destruct (Htwo Zl) as (-> & T1 & T2 & T3 & T4).
      eapply (refreeze_spec (set_cc_s_0 cc0' (set_h2o_total ht1 s2))); try eassumption; cbn; try lra; auto. }
  destruct RL as (RL1 & RL2).
  assert (Hdry : cc0' < 0 -> (0 < z_s_l s -> ccl' < 0) -> r0 + rl = ht1).
  { intros C0 Cl. assert (Hz0 : z_s_0 s / z_s s + z_s_l s / z_s s = 1) by (rewrite Lz; field; lra).
    destruct R0 as (_ & _ & _ & X0). rewrite (X0 C0).
    destruct (Rle_lt_or_eq_dec _ _ Ll) as [Zl|Zl].
    - destruct (RL2 Zl) as (_ & _ & _ & Xl). rewrite (Xl (Cl Zl)). rewrite <- Rmult_plus_distr_l, Hz0. ring.
    - symmetry in Zl. destruct (RL1 Zl) as (-> & _). rewrite Zl in Hz0. unfold Rdiv in Hz0 at 2.
      rewrite Rmult_0_l, Rplus_0_r in Hz0. rewrite Hz0. ring. }
  assert (Hsum : r0 + rl <= ht1).
  { assert (Hz0 : z_s_0 s / z_s s + z_s_l s / z_s s = 1) by (rewrite Lz; field; lra).
    destruct (Rle_lt_or_eq_dec _ _ Ll) as [Zl|Zl].
    - destruct (RL2 Zl) as ((A & B) & _). destruct R0 as ((C & D) & _).
      replace ht1 with (ht1 * (z_s_0 s / z_s s) + ht1 * (z_s_l s / z_s s)) by (rewrite <- Rmult_plus_distr_l, Hz0; ring).
      lra.
    - symmetry in Zl. destruct (RL1 Zl) as (-> & _). destruct R0 as ((C & D) & _).
      rewrite Zl in Hz0. unfold Rdiv in Hz0 at 2. rewrite Rmult_0_l, Rplus_0_r in Hz0. rewrite Hz0 in D. lra. }
  set (s3 := if nleb _ _ then _ else _) in H.
  assert (H3 : exists ht, s3 = melt_state s m0 cc0' ml ccl' ht /\
    ((ht1 - (r0 + rl) <= 1/100000000 /\ ht = 0) \/ (1/100000000 < ht1 - (r0 + rl) /\ ht = ht1 - (r0 + rl)))).
  { unfold s3. change (h2o_total (set_cc_s_l ccl' (set_cc_s_0 cc0' (set_h2o_total ht1 s2)))) with ht1. rn.
    rewrite Rabs_pos_eq by lra.
    destruct (Rleb_spec (ht1 - (r0 + rl)) (1/100000000)) as [Hs|Hs].
    - exists 0. split; [reflexivity|]. lra.
    - eexists. split; [reflexivity|]. lra. }
  destruct H3 as (ht & E3 & Hht3). rewrite E3 in H. clear s3 E3.
  exists m0, r0, cc0', ml, rl, ccl', ht. split; [|split; [assumption|]].
  - unfold melt_out, layer_budget. fold Q Ql ht1. rewrite LF_val in *.
    split; [|split; [|split; [|split; [assumption|split; [assumption|]]]]].
    + repeat split; lra.
    + intros Zl. destruct (RL2 Zl) as (A & B & C & _). destruct (Htwo Zl) as (_ & T1 & T2 & T3 & T4). repeat split; lra.
    + intros Zl. destruct (RL1 Zl) as (A & B). destruct (Hone Zl) as (A1 & B1). repeat split; congruence.
    + intros C0 Cl. specialize (Hdry C0 Cl). lra.
  - cbv zeta. change (melt (melt_state s m0 cc0' ml ccl' ht)) with (m0 + ml) in H.
    change (rho (melt_state s m0 cc0' ml ccl' ht)) with (rho s) in H. rn.
    destruct (Rltb_spec 0 (m0 + ml)) as [Hm|Hm].
    + right. split; [assumption|]. inv_bind H as dz Hdz. apply pdiv_R in Hdz. destruct Hdz as [Hr ->].
      ok_inj H. split; [assumption|]. rewrite <- H. f_equal. unfold Rdiv. ring.
    + left. ok_inj H. injection H as <- <-. split; [lra|]. auto.
Qed.

Lemma melt_state_packed ts s m0 r0 cc0 ml rl ccl ht :
  packed s -> melt_out ts s m0 r0 cc0 ml rl ccl ht -> packed (melt_state s m0 cc0 ml ccl ht).
Proof.
  intros [[L0 Ll Lz Lm0 Lml L2 L1] M] (_ & _ & H1 & _). split; [split|]; try assumption.
  cbn. intros Zl. destruct (H1 Zl) as (_ & _ & ->). apply L1. assumption.
Qed.

Lemma melt_out_total ts s m0 r0 cc0 ml rl ccl ht :
  melt_out ts s m0 r0 cc0 ml rl ccl ht -> 0 <= ht <= h2o_total s + (m0 + ml) - (r0 + rl).
Proof. intros (_ & _ & _ & H1 & [(H2 & ->)|(H2 & ->)] & _); lra. Qed.
