(** * Theorem C88: what survives rounding.

    The theorems over the reals say nothing about rounding, overflow or nan.  Here the model is run in IEEE 754 binary64
    (Coq's primitive floats: the arithmetic and comparisons of Python's float), with the functions that are not specified
    by the standard (exp, log, pow, cos, atan, and also sqrt) arbitrary, so that no property of a mathematical library is used. *)
From Coq Require Import String ZArith Bool Lia List.
From Verif Require Import FloatLaws.
From Coq Require Import Floats.
Import ListNotations.
From Verif Require Import Num Constants Functions Libsnobal Input SnowState Snobal PySnobal FloatNum Real Frame Thm_Api.

Section Double.
Variables (xexp xln xsqrt xatan xcos : float -> float) (xpow : float -> float -> float) (xpi : float).
#[local] Instance DNum : Num float := {|
  nadd := PrimFloat.add; nsub := PrimFloat.sub; nmul := PrimFloat.mul; ndiv := PrimFloat.div; nabs := PrimFloat.abs;
  nltb := PrimFloat.ltb; nleb := PrimFloat.leb; neqb := PrimFloat.eqb; nofZ := float_of_Z;
  nexp := xexp; nln := xln; nsqrt := xsqrt; natan := xatan; ncos := xcos; npow := xpow; npi := xpi |}.
Notation "'FRZ'" := (FREEZE (N:=DNum)).
Notation St := (SnowState float).

(** ** Specification: comparisons as the code makes them, so that a nan satisfies all of these *)
Definition not_negative (x : float) : Prop := nltb x (nofZ 0) = false.
Definition not_positive (x : float) : Prop := nltb (nofZ 0) x = false.
Definition not_above (x y : float) : Prop := nltb y x = false.
(** temperatures not below absolute zero *)
Definition kelvin (s : St) : Prop := not_negative (t_s s) /\ not_negative (t_s_0 s) /\ not_negative (t_s_l s).
Definition cold_contents (s : St) : Prop := not_positive (cc_s_0 s) /\ not_positive (cc_s_l s).
(** temperatures not above freezing, where the mass they belong to is not negative *)
Definition frozen (s : St) : Prop :=
  (not_negative (m_s_0 s) -> not_above (t_s_0 s) FRZ) /\
  (not_negative (m_s_l s) -> not_above (t_s_l s) FRZ) /\
  (not_negative (m_s_0 s) -> not_negative (m_s s) -> not_above (t_s s) FRZ).

(** ** Proof *)
Lemma ok_inj {A} (x y : A) : Ok x = Ok y -> x = y. Proof. congruence. Qed.
Lemma zero_is : nofZ (Num:=DNum) 0 = 0%float. Proof. reflexivity. Qed.
Ltac cst_sign := vm_compute; reflexivity.
Lemma nn_cp t : nn t -> nn (cp_ice (N:=DNum) t).
Proof.
  intros H. unfold cp_ice. cbn [nadd nsub nmul ndiv DNum]. apply nn_div; [|cst_sign|cst_sign]. apply nn_mul; [cst_sign|]. apply nn_add; [cst_sign|]. apply nn_mul; [cst_sign|exact H].
Qed.
Lemma nn_melt q : nn q -> nn (melt_of (N:=DNum) q).
Proof. intros H. unfold melt_of. cbn [ndiv DNum]. apply nn_div; [exact H|cst_sign|cst_sign]. Qed.
Lemma np_cold t m : nn t -> nn m -> np (cold_content (N:=DNum) t m).
Proof.
  intros Ht Hm. unfold cold_content. destruct (nltb t FREEZE) eqn:E; [|reflexivity]. unfold heat_stor. cbn [nadd nsub nmul ndiv DNum].
  apply np_mul; [apply nn_mul; [apply nn_cp; exact Ht|exact Hm]|]. apply sub_lt. exact E.
Qed.
Lemma new_tsno_below spm t0 cc t : nn spm -> nn t0 -> np cc -> new_tsno (N:=DNum) spm t0 cc = Ok t -> not_above t FRZ.
Proof.
  intros Hm Ht Hc H. unfold new_tsno, pdiv in H. destruct (neqb _ _) eqn:E; [discriminate|]. cbn [bind] in H. injection H as <-. unfold not_above. cbn [nltb nadd nmul ndiv DNum] in *.
  apply add_np_le. apply np_div; [exact Hc| |exact E]. apply nn_mul; [exact Hm|apply nn_cp; exact Ht].
Qed.

(** settings *)
Definition base (s : St) : Prop := nleb (nofZ 0) (small_threshold s) = true /\ nltb (nofZ 0) (max_z_s_0 s) = true.
(** always true between the routines *)
Definition book (s : St) : Prop :=
  (layer_count s <> 2%nat -> np (cc_s_l s) /\ t_s_l s = NO_SNOW_TEMP) /\
  (layer_count s = 0%nat -> np (cc_s_0 s) /\ t_s_0 s = NO_SNOW_TEMP /\ t_s s = NO_SNOW_TEMP).
Definition warm (s : St) : Prop := nn (t_s s) /\ nn (t_s_0 s) /\ nn (t_s_l s).
Definition cold (s : St) : Prop := np (cc_s_0 s) /\ np (cc_s_l s).

Lemma nn_nst : nn (NO_SNOW_TEMP (N:=DNum)). Proof. cst_sign. Qed.

(** the lower layer made by calc_layers has a mass that is not negative; so has the surface layer of a pack with positive mass *)
Lemma calc_two (s : St) : base s -> layer_count (calc_layers s) = 2%nat -> nn (m_s_l (layer_mass (calc_layers s))).
Proof.
  intros (Ht & Hz). unfold calc_layers. destruct (nleb (m_s s) (small_threshold s)); [intros H; discriminate H|].
  destruct (nltb (nmul (if nltb (nofZ 0) (nsub (z_s s) (max_z_s_0 s)) then nsub (z_s s) (max_z_s_0 s) else nofZ 0) (rho s)) (small_threshold s)) eqn:E;
    cbn [set_z_s set_z_s_0 set_z_s_l layer_mass m_s_l set_m_s_l rho z_s_l layer_count z_s_0].
  - unfold layer_count. cbn. destruct (0 <? z_s s)%float; discriminate.
  - intros _. cbn. cbn in E. rewrite mul_comm. unfold nn. destruct (_ <? 0)%float eqn:K; [|reflexivity].
    rewrite (lt_zero_trans _ _ K Ht) in E. discriminate E.
Qed.

Lemma layer_cases (s : St) : layer_count s = 0%nat \/ layer_count s = 1%nat \/ layer_count s = 2%nat.
Proof. unfold layer_count. destruct (nltb _ (z_s_0 s)), (nltb _ (z_s_l s)); cbn; tauto. Qed.

(** what calc_layers leaves alone *)
Definition same_heat (s s' : St) : Prop :=
  t_s s' = t_s s /\ t_s_0 s' = t_s_0 s /\ t_s_l s' = t_s_l s /\ cc_s_0 s' = cc_s_0 s /\ cc_s_l s' = cc_s_l s /\
  melt s' = melt s /\ small_threshold s' = small_threshold s /\ max_z_s_0 s' = max_z_s_0 s /\ h2o s' = h2o s /\ h2o_max s' = h2o_max s /\ swi s' = swi s.
Lemma calc_heat (s : St) : same_heat s (calc_layers s).
Proof. unfold calc_layers. destruct (nleb (m_s s) (small_threshold s)); [repeat split|]. destruct (nltb (nmul _ (rho s)) (small_threshold s)); repeat split. Qed.

(** the water shown does not exceed what the pack can hold *)
Definition held (s : St) : Prop := nltb (h2o_max s) (h2o s) = false.
Record evolved (p p' : Pack float) : Prop := {
  ev_base : base (fst p) -> base (fst p');
  ev_book : book (fst p) -> book (fst p');
  ev_cover : (layer_count (fst p') <> 0%nat /\ snd p' = snd p) \/ (layer_count (fst p') = 0%nat /\ snd p' = false);
  ev_warm : warm (fst p) -> warm (fst p');
  ev_cold : base (fst p) -> warm (fst p) -> cold (fst p) -> cold (fst p');
  ev_melt : melt (fst p') = melt (fst p);
  ev_swi : swi (fst p') = swi (fst p);
  ev_held : held (fst p) -> held (fst p')
}.

Lemma adj_layers_evolved (s : St) cover : layer_count s <> 0%nat -> evolved (s, cover) (adj_layers (s, cover)).
Proof.
  intros Hl. unfold adj_layers. pose proof (calc_heat s) as (H1 & H2 & H3 & H4 & H5 & H6 & H7 & H8 & H9 & H10 & H11). pose proof (calc_two s) as H2l.
  destruct (layer_count (calc_layers s) =? 0)%nat eqn:E0.
  - apply Nat.eqb_eq in E0. assert (Hb : forall b : St, base s -> small_threshold b = small_threshold s -> max_z_s_0 b = max_z_s_0 s -> base b).
    { intros b (B1 & B2) E1 E2. unfold base. rewrite E1, E2. split; assumption. }
    destruct (nltb (nofZ 0) (m_s (set_rho (nofZ 0) (calc_layers s)))); destruct (layer_count s =? 2)%nat eqn:E2.
    all: constructor; cbn [fst snd].
    all: try (intros B; apply (Hb _ B); assumption).
    all: try (right; split; [exact E0|reflexivity]).
    all: try assumption.
    all: try (intros _; reflexivity).
    all: match type of E2 with _ = true => apply Nat.eqb_eq in E2 | _ = false => apply Nat.eqb_neq in E2 | _ => idtac end.
    all: try (intros (K1 & K2); specialize (K1 E2) as (K1 & K1'); split; intros _; [|split; [reflexivity|split; reflexivity]]; split; [exact (eq_ind_r np K1 H5)|exact (eq_trans H3 K1')]).
    all: try (intros _; split; intros _; [split; reflexivity|split; [reflexivity|split; reflexivity]]).
    all: try (intros (W1 & W2 & W3); split; [exact nn_nst|]; split; [exact nn_nst|]; first [exact nn_nst|exact (eq_ind_r nn W3 H3)]).
    all: try (intros _ _ (C1 & C2); split; [reflexivity|]; first [reflexivity|exact (eq_ind_r np C2 H5)]).
  - apply Nat.eqb_neq in E0. set (u := layer_mass (calc_layers s)) in *.
    assert (Lu : layer_count u = layer_count (calc_layers s)) by reflexivity.
    assert (Hu : same_heat s u) by exact (conj H1 (conj H2 (conj H3 (conj H4 (conj H5 (conj H6 (conj H7 (conj H8 (conj H9 (conj H10 H11)))))))))).
    clearbody u. clear H1 H2 H3 H4 H5 H6 H7 H8 H9 H10 H11. destruct Hu as (H1 & H2 & H3 & H4 & H5 & H6 & H7 & H8 & H9 & H10 & H11).
    rewrite Lu. destruct (layer_cases s) as [L|[L|L]]; [contradiction|..]; rewrite L in *;
      destruct (layer_cases (calc_layers s)) as [L'|[L'|L']]; try contradiction; rewrite L' in *; cbn [Nat.eqb andb] in *.
    + (* one layer stays one *) constructor; cbn [fst snd]; try assumption.
      * unfold base. rewrite H7, H8. trivial.
      * intros (B1 & B2). split; intros E; [rewrite H5, H3; apply B1; lia|lia].
      * left. split; [lia|reflexivity].
      * unfold warm. rewrite H1, H2, H3. trivial.
      * intros _ _. unfold cold. rewrite H4, H5. trivial.
      * unfold held. rewrite H9, H10. trivial.
    + (* a second layer *) constructor; cbn [fst snd]; try assumption.
      * unfold base. cbn. rewrite H7, H8. trivial.
      * intros _. assert (El : layer_count (set_cc_s_l (cold_content (t_s_l (set_t_s_l (t_s u) u)) (m_s_l (set_t_s_l (t_s u) u))) (set_t_s_l (t_s u) u)) = 2%nat) by exact Lu.
        split; rewrite El; [congruence|discriminate].
      * left. split; [|reflexivity]. change (layer_count u <> 0%nat). lia.
      * unfold warm. cbn. rewrite H1, H2. tauto.
      * intros B (W1 & _) (C1 & _). split; cbn; [rewrite H4; exact C1|]. apply np_cold; [rewrite H1; exact W1|apply H2l; [exact B|reflexivity]].
      * unfold held. cbn. rewrite H9, H10. trivial.
    + (* two become one *) constructor; cbn [fst snd]; try assumption.
      * unfold base. cbn. rewrite H7, H8. trivial.
      * intros _. assert (El : layer_count (set_cc_s_l (nofZ 0) (set_t_s_l NO_SNOW_TEMP u)) = 1%nat) by exact Lu.
        split; rewrite El; [intros _; split; reflexivity|discriminate].
      * left. split; [|reflexivity]. change (layer_count u <> 0%nat). lia.
      * unfold warm. cbn. rewrite H1, H2. intros (W1 & W2 & _). split; [exact W1|]. split; [exact W2|exact nn_nst].
      * intros _ _ (C1 & _). split; cbn; [rewrite H4; exact C1|reflexivity].
      * unfold held. cbn. rewrite H9, H10. trivial.
    + (* two layers stay two *) constructor; cbn [fst snd]; try assumption.
      * unfold base. rewrite H7, H8. trivial.
      * intros (B1 & B2). split; rewrite Lu; [congruence|discriminate].
      * left. split; [lia|reflexivity].
      * unfold warm. rewrite H1, H2, H3. trivial.
      * intros _ _. unfold cold. rewrite H4, H5. trivial.
      * unfold held. rewrite H9, H10. trivial.
Qed.

(** changes that touch neither layers nor heat *)
Definition same_pack (s s' : St) : Prop :=
  t_s s' = t_s s /\ t_s_0 s' = t_s_0 s /\ t_s_l s' = t_s_l s /\ cc_s_0 s' = cc_s_0 s /\ cc_s_l s' = cc_s_l s /\
  small_threshold s' = small_threshold s /\ max_z_s_0 s' = max_z_s_0 s /\ z_s_0 s' = z_s_0 s /\ z_s_l s' = z_s_l s.
Lemma same_count s s' : same_pack s s' -> layer_count s' = layer_count s.
Proof. intros (_ & _ & _ & _ & _ & _ & _ & E1 & E2). unfold layer_count. rewrite E1, E2. reflexivity. Qed.
Lemma same_base s s' : same_pack s s' -> base s -> base s'.
Proof. intros (_ & _ & _ & _ & _ & E1 & E2 & _). unfold base. rewrite E1, E2. trivial. Qed.
Lemma same_book s s' : same_pack s s' -> book s -> book s'.
Proof. intros K. pose proof K as (E1 & E2 & E3 & E4 & E5 & _). unfold book. rewrite (same_count _ _ K), E1, E2, E3, E4, E5. trivial. Qed.
Lemma same_warm s s' : same_pack s s' -> warm s -> warm s'.
Proof. intros (E1 & E2 & E3 & _). unfold warm. rewrite E1, E2, E3. trivial. Qed.
Lemma same_cold s s' : same_pack s s' -> cold s -> cold s'.
Proof. intros (_ & _ & _ & E1 & E2 & _). unfold cold. rewrite E1, E2. trivial. Qed.

Lemma same_evolved s s' p : same_pack s s' -> melt s' = melt s -> swi s' = swi s -> (held s -> held s') -> forall c, evolved (s', c) p -> evolved (s, c) p.
Proof.
  intros K M S Hh c E. destruct E as [e1 e2 e3 e4 e5 e6 e7 e8]. constructor; cbn [fst snd] in *.
  - intros B. apply e1. exact (same_base _ _ K B).
  - intros B'. apply e2. exact (same_book _ _ K B').
  - exact e3.
  - intros W. apply e4. exact (same_warm _ _ K W).
  - intros B W C. apply e5; [exact (same_base _ _ K B)|exact (same_warm _ _ K W)|exact (same_cold _ _ K C)].
  - rewrite e6. exact M.
  - rewrite e7. exact S.
  - intros H. apply e8, Hh, H.
Qed.
Lemma stays_evolved s s' c : layer_count s <> 0%nat -> same_pack s s' -> melt s' = melt s -> swi s' = swi s -> (held s -> held s') -> evolved (s, c) (s', c).
Proof.
  intros L K M S Hh. constructor; cbn [fst snd].
  - exact (same_base _ _ K).
  - exact (same_book _ _ K).
  - left. rewrite (same_count _ _ K). auto.
  - exact (same_warm _ _ K).
  - intros _ _. exact (same_cold _ _ K).
  - exact M.
  - exact S.
  - exact Hh.
Qed.

Lemma adj_snow_evolved dz dm (s : St) c : layer_count s <> 0%nat -> evolved (s, c) (adj_snow dz dm (s, c)).
Proof.
  intros L. unfold adj_snow.
  set (s1 := set_m_s (nadd (m_s (set_z_s (nadd (z_s s) dz) s)) dm) (set_z_s (nadd (z_s s) dz) s)).
  set (s2 := if negb (neqb (z_s (set_m_s (nadd (m_s s) dm) (set_z_s (nadd (z_s s) dz) s))) (nofZ 0)) then _ else _).
  assert (K : same_pack s s2 /\ melt s2 = melt s /\ swi s2 = swi s /\ (held s -> held s2)) by (unfold s2; destruct (negb _); repeat split; trivial).
  clearbody s2. clear s1. destruct K as (K & M & S & Hh). pose proof (same_count _ _ K) as L2.
  destruct (nltb MAX_SNOW_DENSITY (rho s2)).
  - apply (same_evolved s (set_z_s (ndiv (m_s (set_rho MAX_SNOW_DENSITY s2)) (rho (set_rho MAX_SNOW_DENSITY s2))) (set_rho MAX_SNOW_DENSITY s2)) _ K M S Hh).
    apply adj_layers_evolved. change (layer_count s2 <> 0%nat). congruence.
  - destruct (negb (neqb dz (nofZ 0))).
    + apply (same_evolved s s2 _ K M S Hh). apply adj_layers_evolved. congruence.
    + apply stays_evolved; [exact L|exact K|exact M|exact S|exact Hh].
Qed.

(** ** One run step *)
(** temperatures of a state that is not above freezing *)
Definition frz (s : St) : Prop := not_above (t_s_0 s) FRZ /\ not_above (t_s_l s) FRZ /\ not_above (t_s s) FRZ.
Lemma nst_frz : not_above NO_SNOW_TEMP FRZ. Proof. cst_sign. Qed.
Lemma bare_done s : book s -> layer_count s = 0%nat -> cold s /\ frz s.
Proof.
  intros (B1 & B2) L. destruct (B1 ltac:(lia)) as (E1 & E2). destruct (B2 L) as (E3 & E4 & E5). split; [split; assumption|].
  unfold frz. rewrite E2, E4, E5. exact (conj nst_frz (conj nst_frz nst_frz)).
Qed.

Definition good1 (W : Prop) (p : Pack float) : Prop := (W -> base (fst p)) /\ book (fst p) /\
  (snd p = true -> layer_count (fst p) <> 0%nat /\ (W -> warm (fst p))) /\ (snd p = false -> layer_count (fst p) = 0%nat).
Definition good2 (W : Prop) (p : Pack float) : Prop := (W -> base (fst p)) /\ book (fst p) /\
  (snd p = true -> layer_count (fst p) <> 0%nat /\ (W -> warm (fst p))) /\ (snd p = false -> W -> cold (fst p) /\ frz (fst p)).
Definition good3 (W : Prop) (p : Pack float) : Prop := (W -> base (fst p)) /\ book (fst p) /\ nn (melt (fst p)) /\
  (snd p = true -> layer_count (fst p) <> 0%nat /\ (W -> warm (fst p) /\ cold (fst p))) /\ (snd p = false -> W -> cold (fst p) /\ frz (fst p)).

Lemma evolved_good1 W p p' : evolved p p' -> snd p = true -> good1 W p -> good1 W p'.
Proof.
  intros E Hc (B & J & K & _). destruct (K Hc) as (L & Hw). pose proof (ev_book _ _ E J) as J'.
  split; [intros w; exact (ev_base _ _ E (B w))|]. split; [exact J'|]. destruct (ev_cover _ _ E) as [(L' & C')|(L' & C')].
  - split; intros C; [|congruence]. split; [exact L'|]. intros w. exact (ev_warm _ _ E (Hw w)).
  - split; intros C; [congruence|exact L'].
Qed.
Lemma evolved_good3 W p p' : evolved p p' -> snd p = true -> good3 W p -> good3 W p'.
Proof.
  intros E Hc (B & J & M & K & _). destruct (K Hc) as (L & Hw). pose proof (ev_book _ _ E J) as J'.
  split; [intros w; exact (ev_base _ _ E (B w))|]. split; [exact J'|]. split; [rewrite (ev_melt _ _ E); exact M|]. destruct (ev_cover _ _ E) as [(L' & C')|(L' & C')].
  - split; intros C; [|congruence]. split; [exact L'|]. intros w. destruct (Hw w) as (w1 & w2). split; [exact (ev_warm _ _ E w1)|exact (ev_cold _ _ E (B w) w1 w2)].
  - split; intros C; [congruence|]. intros _. exact (bare_done _ J' L').
Qed.

Lemma same_good3 W s s' c : same_pack s s' -> melt s' = melt s -> good3 W (s, c) -> good3 W (s', c).
Proof.
  intros K M (B & J & Hm & H1 & H2). cbn [fst snd] in *. split; [intros w; exact (same_base _ _ K (B w))|]. split; [exact (same_book _ _ K J)|]. cbn [fst snd]. split; [rewrite M; exact Hm|].
  split; intros C.
  - destruct (H1 C) as (L & Hw). rewrite (same_count _ _ K). split; [exact L|]. intros w. destruct (Hw w) as (w1 & w2). split; [exact (same_warm _ _ K w1)|exact (same_cold _ _ K w2)].
  - intros w. destruct (H2 C w) as (C1 & C2). split; [exact (same_cold _ _ K C1)|]. destruct K as (E1 & E2 & E3 & _). unfold frz. rewrite E1, E2, E3. exact C2.
Qed.

Lemma time_compact_good W ts p p' : good1 W p -> time_compact ts p = Ok p' -> good1 W p'.
Proof.
  destruct p as [s c]. intros G. unfold time_compact. destruct (negb c || nleb RHO_MAX (rho s)) eqn:E; [intros H; injection H as <-; exact G|].
  intros H. inv_bind H as d Hd. inv_bind H as z Hz. injection H as <-. apply orb_false_elim in E. destruct E as (E & _). destruct c; [|discriminate E].
  apply (evolved_good1 W (s, true)); [|reflexivity|exact G].
  apply (same_evolved s (set_z_s z (set_rho (nadd (rho s) (nmul d (rho s))) s))); [repeat split|reflexivity|reflexivity|trivial|].
  apply adj_layers_evolved. exact (proj1 (proj1 (proj2 (proj2 G)) eq_refl)).
Qed.

(** precipitation temperature *)
Definition input_ok_t (t : float) : Prop := nn t /\ not_above t FRZ.
Definition input_ok (i : InputData float) : Prop := input_ok_t (i_t_snow i).

(** a new pack *)
Lemma calc_surface (s : St) : base s -> m_s s = nmul (rho s) (z_s s) -> layer_count (calc_layers s) <> 0%nat -> nn (m_s_0 (layer_mass (calc_layers s))).
Proof.
  intros (Ht & Hz) Hm. unfold calc_layers. destruct (nleb (m_s s) (small_threshold s)) eqn:Em; [intros H; exfalso; apply H; reflexivity|].
  assert (Hp : (0 <? z_s s)%float = true -> nn (rho s)).
  { intros Hzs. unfold nn. destruct (rho s <? 0)%float eqn:Er; [|reflexivity]. rewrite Hm in Em. pose proof (mul_neg_pos _ _ _ Er Hzs Ht) as K. change (nleb (nmul (rho s) (z_s s)) (small_threshold s) = true) in K. congruence. }
  assert (Hpz : forall zl, zl = nsub (z_s s) (max_z_s_0 s) -> nltb (nofZ 0) zl = true -> (0 <? z_s s)%float = true).
  { intros zl -> K. destruct (0 <? z_s s)%float eqn:Ez; [reflexivity|]. pose proof (np_sub _ _ Ez (lt_nn _ Hz)) as K'. unfold np in K'. cbn in K. congruence. }
  assert (M : forall z0 zl : float, (0 <? z_s s)%float = true -> nn z0 -> nn (m_s_0 (layer_mass (set_z_s_l zl (set_z_s_0 z0 (set_z_s (nadd z0 zl) s)))))).
  { intros z0 zl A B. cbn. apply nn_mul; [apply Hp; exact A|exact B]. }
  assert (Z : forall z0 zl : float, zl = nofZ 0 -> layer_count (set_z_s_l zl (set_z_s_0 z0 (set_z_s (nadd z0 zl) s))) <> 0%nat -> (0 <? z0)%float = true).
  { intros z0 zl -> . unfold layer_count. cbn. destruct (0 <? z0)%float; [reflexivity|]. intros H. exfalso. apply H. reflexivity. }
  destruct (nltb (nofZ 0) (nsub (z_s s) (max_z_s_0 s))) eqn:El.
  - destruct (nltb (nmul (nsub (z_s s) (max_z_s_0 s)) (rho s)) (small_threshold s)); intros H.
    + apply M; [exact (Hpz _ eq_refl El)|apply lt_nn, (Hpz _ eq_refl El)].
    + apply M; [exact (Hpz _ eq_refl El)|apply lt_nn; exact Hz].
  - destruct (nltb (nmul (nofZ 0) (rho s)) (small_threshold s)); intros H; apply Z in H; try reflexivity; apply M; try exact H; apply lt_nn; exact H.
Qed.

Lemma init_snow_good (s s' : St) : base s -> nn (t_s_0 s) -> nn (t_s_l s) -> not_above (t_s_0 s) FRZ -> not_above (t_s_l s) FRZ -> not_above (t_s s) FRZ ->
  init_snow s = Ok s' -> base s' /\ book s' /\ cold s' /\ frz s' /\ melt s' = melt s.
Proof.
  intros B W0 Wl F0 Fl F. unfold init_snow.
  set (s1 := set_m_s (nmul (rho s) (z_s s)) s). pose proof (calc_heat s1) as (H1 & H2 & H3 & H4 & H5 & H6 & H7 & H8 & _).
  pose proof (calc_two s1) as C2. pose proof (calc_surface s1) as C0.
  destruct (layer_count (calc_layers s1) =? 0)%nat eqn:E0.
  - apply Nat.eqb_eq in E0. intros H. apply ok_inj in H. subst s'.
    set (s2 := if nltb (nofZ 0) (m_s (calc_layers s1)) then _ else _).
    assert (K : small_threshold s2 = small_threshold s /\ max_z_s_0 s2 = max_z_s_0 s /\ melt s2 = melt s /\ layer_count s2 = 0%nat).
    { unfold s2. destruct (nltb (nofZ 0) (m_s (calc_layers s1))); (split; [exact H7|]); (split; [exact H8|]); (split; [exact H6|exact E0]). }
    destruct K as (K1 & K2 & K3 & K4). clearbody s2. split; [unfold base; cbn; rewrite K1, K2; exact B|].
    split; [split; intros _; repeat split|]. split; [split; reflexivity|]. split; [exact (conj nst_frz (conj nst_frz nst_frz))|exact K3].
  - apply Nat.eqb_neq in E0. specialize (C0 B eq_refl E0). specialize (C2 B).
    set (u := layer_mass (calc_layers s1)) in *. assert (Lu : layer_count u = layer_count (calc_layers s1)) by reflexivity.
    assert (U1 : t_s u = t_s s) by exact H1. assert (U2 : t_s_0 u = t_s_0 s) by exact H2. assert (U3 : t_s_l u = t_s_l s) by exact H3.
    assert (U6 : melt u = melt s) by exact H6. assert (U7 : small_threshold u = small_threshold s) by exact H7. assert (U8 : max_z_s_0 u = max_z_s_0 s) by exact H8.
    clearbody u. rewrite <- Lu in E0, C2. clear Lu H1 H2 H3 H4 H5 H6 H7 H8 s1.
    set (v := if (layer_count (set_cc_s_0 (cold_content (t_s_0 u) (m_s_0 u)) u) =? 2)%nat then _ else _).
    assert (V : layer_count v = layer_count u /\ t_s v = t_s s /\ t_s_0 v = t_s_0 s /\ not_above (t_s_l v) FRZ /\ cold v /\ melt v = melt s /\ small_threshold v = small_threshold s /\
      max_z_s_0 v = max_z_s_0 s /\ book v).
    { unfold v. change (layer_count (set_cc_s_0 (cold_content (t_s_0 u) (m_s_0 u)) u)) with (layer_count u). destruct (layer_count u =? 2)%nat eqn:E2.
      - apply Nat.eqb_eq in E2. split; [reflexivity|]. split; [exact U1|]. split; [exact U2|]. split; [cbn; rewrite U3; exact Fl|].
        split; [split; cbn; apply np_cold; [rewrite U2; exact W0|exact C0|rewrite U3; exact Wl|exact (C2 E2)]|]. split; [exact U6|]. split; [exact U7|]. split; [exact U8|].
        split; intros K; [exfalso; apply K; exact E2|exfalso; change (layer_count u = 0%nat) in K; lia].
      - apply Nat.eqb_neq in E2. split; [reflexivity|]. split; [exact U1|]. split; [exact U2|]. split; [exact nst_frz|].
        split; [split; cbn; [apply np_cold; [rewrite U2; exact W0|exact C0]|reflexivity]|]. split; [exact U6|]. split; [exact U7|]. split; [exact U8|].
        split; intros K; [split; reflexivity|exfalso; change (layer_count u = 0%nat) in K; lia]. }
    destruct V as (_ & V1 & V2 & V3 & V4 & V5 & V6 & V7 & V8). clearbody v. intros H. inv_bind H as dry Hd. apply ok_inj in H. subst s'.
    split; [unfold base; cbn; rewrite V6, V7; exact B|]. split; [exact V8|]. split; [exact V4|]. split; [|exact V5].
    split; [cbn; rewrite V2; exact F0|]. split; [exact V3|cbn; rewrite V1; exact F].
Qed.

Lemma init_snow_book (s s' : St) : init_snow s = Ok s' -> book s' /\ (base s -> base s').
Proof.
  unfold init_snow. set (s1 := set_m_s (nmul (rho s) (z_s s)) s). pose proof (calc_heat s1) as (_ & _ & _ & _ & _ & _ & H7 & H8 & _).
  destruct (layer_count (calc_layers s1) =? 0)%nat eqn:E0.
  - intros H. apply ok_inj in H. subst s'. split; [split; intros _; repeat split|].
    unfold base. destruct (nltb (nofZ 0) (m_s (calc_layers s1))); cbn; change (small_threshold s1) with (small_threshold s) in H7; change (max_z_s_0 s1) with (max_z_s_0 s) in H8; rewrite H7, H8; trivial.
  - apply Nat.eqb_neq in E0. intros H. set (u := layer_mass (calc_layers s1)) in *.
    assert (Lu : layer_count u = layer_count (calc_layers s1)) by reflexivity. assert (Bu : base s -> base u) by (unfold base; intros (K1 & K2); split; [exact (eq_ind_r (fun q => nleb (nofZ 0) q = true) K1 H7)|exact (eq_ind_r (fun q => nltb (nofZ 0) q = true) K2 H8)]).
    clearbody u. rewrite <- Lu in E0. clear Lu H7 H8. inv_bind H as dry Hd. apply ok_inj in H. subst s'.
    change (layer_count (set_cc_s_0 (cold_content (t_s_0 u) (m_s_0 u)) u)) with (layer_count u). destruct (layer_count u =? 2)%nat eqn:E2; (split; [|exact Bu]).
    + apply Nat.eqb_eq in E2. split; intros K; [exfalso; apply K; exact E2|exfalso; change (layer_count u = 0%nat) in K; lia].
    + split; intros K; [split; reflexivity|exfalso; change (layer_count u = 0%nat) in K; lia].
Qed.

Lemma init_snow_melt_sum (s s' : St) : init_snow s = Ok s' -> melt_sum s' = melt_sum s.
Proof. intros H. exact (proj1 (proj2 (proj2 (proj2 (proj2 (init_snow_frame _ _ H)))))). Qed.
Lemma precip_good (W : Prop) i p p' : (W -> input_ok i) -> good1 W p -> precip_event i p = Ok p' -> good2 W p'.
Proof.
  intros Hi G H. destruct p as [s c].
  assert (F : forall (s' : St) c', good2 W (s', c') -> forall h, good2 W (set_h2o_total h s', c')) by (intros s' c' (A1 & A2 & A3 & A4) h; exact (conj A1 (conj A2 (conj A3 A4)))).
  assert (D : good2 W (s, c)).
  { destruct G as (B & J & K1 & K2). split; [exact B|]. split; [exact J|]. split; [exact K1|]. intros C _. exact (bare_done _ J (K2 C)). }
  unfold precip_event in H. destruct (i_precip_now i); [|injection H as <-; apply F; exact D].
  inv_bind H as q Hq. destruct q as [s' c']. injection H as <-. apply F. clear F.
  destruct c.
  - pose proof (adj_snow_evolved (i_z_snow i) (i_m_pp i) s true (proj1 (proj1 (proj2 (proj2 G)) eq_refl))) as E.
    pose proof (evolved_good1 W _ _ E eq_refl G) as G'.
    destruct (adj_snow (i_z_snow i) (i_m_pp i) (s, true)) as [s1 c1]. injection Hq as <- <-.
    destruct G' as (B & J & K1 & K2). split; [exact B|]. split; [exact J|]. split; [exact K1|]. intros C _. exact (bare_done _ J (K2 C)).
  - destruct (nltb (nofZ 0) (i_m_snow i)); [|injection Hq as <- <-; exact D].
    inv_bind Hq as s1 H1. injection Hq as <- <-. destruct G as (B & _).
    destruct (init_snow_book _ _ H1) as (J' & B').
    split; [intros w; apply B'; exact (B w)|]. split; [exact J'|]. split; [discriminate|]. intros _ w. destruct (Hi w) as (I1 & I2).
    match type of H1 with init_snow ?x = _ => assert (Bx : base x) by exact (B w) end.
    destruct (init_snow_good _ _ Bx I1 I1 I2 I2 I2 H1) as (_ & _ & C' & F' & _). split; assumption.
Qed.

Lemma refreeze_np (s : St) z Q cc r : np cc -> refreeze s z Q cc = Ok r -> np (snd r).
Proof.
  intros Hc H. unfold refreeze in H. destruct (nltb cc (nofZ 0)); [|injection H as <-; exact Hc].
  destruct (nltb (nofZ 0) (h2o_total s)); [|injection H as <-; exact Hc]. inv_bind H as f Hf.
  destruct (nleb _ (nofZ 0)) eqn:E; injection H as <-; [|reflexivity]. cbn [snd]. apply le_np. exact E.
Qed.

Lemma snowmelt_good (W : Prop) ts p p' : good2 W p -> snowmelt ts p = Ok p' -> good3 W p'.
Proof.
  destruct p as [s c]. intros (B & J & K1 & K2) H. cbn [fst snd] in *. unfold snowmelt in H. destruct c; cbn [negb] in H.
  2:{ apply ok_inj in H; subst p'. split; [exact B|]. split; [exact J|]. split; [reflexivity|]. split; [discriminate|]. intros _. exact (K2 eq_refl). }
  destruct (K1 eq_refl) as (L & Hw). clear K1 K2.
  set (Q0 := nadd (nmul (delta_Q_0 (en s)) (nofZ ts)) (cc_s_0 s)) in H.
  set (s1 := if nltb (nofZ 0) Q0 then _ else _) in H.
  assert (S1 : (W -> base s1) /\ layer_count s1 = layer_count s /\ (warm s -> warm s1) /\ np (cc_s_0 s1) /\ nn (melt s1) /\ cc_s_l s1 = cc_s_l s /\ t_s_l s1 = t_s_l s).
  { unfold s1. destruct (nltb (nofZ 0) Q0) eqn:EQ; [|destruct (neqb Q0 (nofZ 0))]; (split; [exact B|]); (split; [reflexivity|]); (split; [exact (fun w => w)|]).
    - split; [reflexivity|]. split; [|split; reflexivity]. apply nn_melt, lt_nn. exact EQ.
    - split; [reflexivity|]. split; [reflexivity|split; reflexivity].
    - split; [exact EQ|]. split; [reflexivity|split; reflexivity]. }
  clearbody s1. destruct S1 as (B1 & L1 & W1 & C1 & M1 & E1 & T1).
  match type of H with (let '(_, _) := ?x in _) = _ => set (r := x) in H; assert (S2 : (W -> base (fst r)) /\ layer_count (fst r) = layer_count s /\ (warm s -> warm (fst r)) /\ np (cc_s_0 (fst r)) /\
    np (cc_s_l (fst r)) /\ nn (melt (fst r)) /\ t_s_l (fst r) = t_s_l s) end.
  { unfold r. rewrite L1. destruct (layer_count s =? 2)%nat eqn:E2.
    - set (Ql := nadd (nmul (nsub (G_ (en s1)) (G_0 (en s1))) (nofZ ts)) (cc_s_l s1)). cbn [fst].
      destruct (nltb (nofZ 0) Ql) eqn:EQ; [|destruct (neqb Ql (nofZ 0))]; (split; [exact B1|]); (split; [exact L1|]); (split; [exact W1|]); (split; [exact C1|]).
      + split; [reflexivity|]. split; [|exact T1]. cbn. apply nn_add; [exact M1|apply nn_melt, lt_nn; exact EQ].
      + split; [reflexivity|]. split; [exact M1|exact T1].
      + split; [exact EQ|]. split; [exact M1|exact T1].
    - apply Nat.eqb_neq in E2. cbn [fst]. split; [exact B1|]. split; [exact L1|]. split; [exact W1|]. split; [exact C1|]. split; [|split; [exact M1|exact T1]].
      rewrite E1. exact (proj1 (proj1 J E2)). }
  clearbody r. destruct r as [s2 Ql]. cbn [fst] in S2. destruct S2 as (B2 & L2 & W2 & C2 & C2l & M2 & T2).
  inv_bind H as q0 Hq0. destruct q0 as [f0 cc0]. pose proof (refreeze_np _ _ _ _ _ C2 Hq0) as N0. cbn [snd] in N0.
  inv_bind H as ql Hql. destruct ql as [fl ccl].
  assert (Nl : np ccl).
  { destruct (layer_count _ =? 2)%nat; [exact (refreeze_np _ _ _ _ (fl, ccl) C2l Hql)|injection Hql as _ <-; exact C2l]. }
  match type of H with (if nltb (nofZ 0) (melt ?x) then _ else _) = _ => set (s3 := x) in H end.
  assert (G3 : good3 W (s3, true) /\ layer_count s3 <> 0%nat).
  { assert (S3 : (W -> base s3) /\ layer_count s3 = layer_count s /\ (warm s -> warm s3) /\ cold s3 /\ nn (melt s3) /\ t_s_l s3 = t_s_l s).
    { unfold s3. destruct (nleb _ _); (split; [exact B2|]); (split; [exact L2|]); (split; [exact W2|]); (split; [exact (conj N0 Nl)|]); (split; [exact M2|exact T2]). }
    destruct S3 as (B3 & L3 & W3 & C3 & M3 & T3). split; [|congruence].
    split; [exact B3|]. cbn [fst snd]. split.
    - split; intros E; rewrite L3 in E; [|contradiction]. split; [exact (proj2 C3)|]. rewrite T3. exact (proj2 (proj1 J E)).
    - split; [exact M3|]. split; [|discriminate]. intros _. split; [congruence|]. intros w. split; [exact (W3 (Hw w))|exact C3]. }
  clearbody s3. destruct G3 as (G3 & L3). destruct (nltb (nofZ 0) (melt s3)); [|apply ok_inj in H; subst p'; exact G3].
  inv_bind H as dz Hdz. apply ok_inj in H; subst p'. apply (evolved_good3 W (s3, true)); [|reflexivity|exact G3]. apply adj_snow_evolved. exact L3.
Qed.

Lemma evap_good W pa zg ts i p p' : good3 W p -> evap_cond pa zg ts i p = Ok p' -> good3 W p'.
Proof.
  destruct p as [s c]. intros G H. unfold evap_cond in H. destruct c; cbn [negb] in H.
  2:{ apply ok_inj in H; subst p'. apply (same_good3 W s); [repeat split|reflexivity|exact G]. }
  inv_bind H as el Hel.
  match type of H with (if has_snow ?x then _ else _) = _ => set (s1 := x) in H end.
  assert (K : same_pack s s1 /\ melt s1 = melt s) by (unfold s1; destruct (layer_count _ =? 0)%nat; repeat split).
  clearbody s1. destruct K as (K & M). pose proof (same_good3 W s s1 true K M G) as G1.
  destruct (has_snow s1); [|apply ok_inj in H; subst p'; exact G1]. inv_bind H as q Hq. apply ok_inj in H; subst p'.
  apply (evolved_good3 W (s1, true)); [|reflexivity|exact G1]. apply adj_snow_evolved. exact (proj1 (proj1 (proj2 (proj2 (proj2 G1))) eq_refl)).
Qed.

Lemma h2o_compact_good W i p p' : good3 W p -> h2o_compact i p = Ok p' -> good3 W p'.
Proof.
  destruct p as [s c]. intros G H. unfold h2o_compact in H. destruct (negb c || nltb H2O_MAX_DENSITY (rho s)) eqn:E; [injection H as <-; exact G|].
  apply orb_false_elim in E. destruct E as (E & _). destruct c; [|discriminate E]. inv_bind H as a Ha.
  destruct (nltb _ a); [|apply ok_inj in H; subst p'; exact G]. inv_bind H as z Hz. apply ok_inj in H; subst p'.
  apply (evolved_good3 W (s, true)); [|reflexivity|exact G].
  match goal with |- evolved _ (adj_layers (?x, _)) => apply (same_evolved s x); [repeat split|reflexivity|reflexivity|trivial|] end.
  apply adj_layers_evolved. exact (proj1 (proj1 (proj2 (proj2 (proj2 G))) eq_refl)).
Qed.

Lemma runoff_good W p p' : good3 W p -> runoff p = Ok p' -> good3 W p' /\ (snd p' = true -> nn (swi (fst p')) /\ held (fst p')).
Proof.
  destruct p as [s c]. intros G H. unfold runoff in H. destruct c; cbn [negb orb] in H.
  2:{ apply ok_inj in H; subst p'. split; [apply (same_good3 W s); [repeat split|reflexivity|exact G]|discriminate]. }
  pose proof (proj1 (proj1 (proj2 (proj2 (proj2 G))) eq_refl)) as L. cbn [fst] in L. apply Nat.eqb_neq in L. rewrite L in H. apply Nat.eqb_neq in L.
  inv_bind H as rd Hrd. set (s1 := set_h2o_max _ s) in H.
  assert (K : same_pack s s1 /\ melt s1 = melt s) by (unfold s1; repeat split). clearbody s1. destruct K as (K & M).
  destruct (nltb (h2o_max s1) (h2o_total s1)) eqn:Eh.
  - apply ok_inj in H. subst p'.
    match goal with |- context [adj_snow _ _ (?x, true)] => set (s2 := x) end.
    assert (K2 : same_pack s s2 /\ melt s2 = melt s) by (split; [exact K|exact M]).
    assert (S2 : nn (swi s2)) by (exact (proj2 (sub_lt _ _ Eh))). assert (H2 : held s2) by (apply ltb_irrefl).
    clearbody s2. destruct K2 as (K2 & M2). pose proof (same_good3 W s s2 true K2 M2 G) as G2.
    assert (L2 : layer_count s2 <> 0%nat) by (rewrite (same_count _ _ K2); exact L).
    pose proof (adj_snow_evolved (nofZ 0) (nsub (nofZ 0) (swi s2)) s2 true L2) as E.
    split; [exact (evolved_good3 W _ _ E eq_refl G2)|]. intros _. rewrite (ev_swi _ _ E). split; [exact S2|exact (ev_held _ _ E H2)].
  - inv_bind H as sat Hsat. apply ok_inj in H. subst p'. split; [apply (same_good3 W s); [exact K|exact M|exact G]|]. intros _. split; [reflexivity|exact Eh].
Qed.

(** what is claimed of the state after a run step *)
Definition claims (W : Prop) (s : St) (kept : bool) : Prop :=
  nn (melt s) /\ (W -> cold s /\ frozen s) /\ (kept = true -> nn (swi s) /\ held s).

Lemma mass_balance_good (W : Prop) pa zg ts i p p' : (W -> input_ok i) -> good1 W p -> mass_balance pa zg ts i p = Ok p' ->
  (W -> base (fst p')) /\ book (fst p') /\ claims W (fst p') (snd p').
Proof.
  intros I G H. unfold mass_balance in H. inv_bind H as p1 H1. inv_bind H as p2 H2. inv_bind H as p3 H3. inv_bind H as p4 H4. inv_bind H as p5 H5. inv_bind H as p6 H6.
  pose proof (time_compact_good _ _ _ _ G H1) as G1. pose proof (precip_good _ _ _ _ I G1 H2) as G2. pose proof (snowmelt_good _ _ _ _ G2 H3) as G3.
  pose proof (evap_good _ _ _ _ _ _ _ G3 H4) as G4. pose proof (h2o_compact_good _ _ _ _ G4 H5) as G5. destruct (runoff_good _ _ _ G5 H6) as (G6 & R6).
  clear G G1 G2 G3 G4 G5 H1 H2 H3 H4 H5 H6. destruct G6 as (B & J & M & K1 & K2). destruct p6 as [s c]. cbn [fst snd] in *. destruct c.
  - destruct (K1 eq_refl) as (L & Hw). destruct (R6 eq_refl) as (R1 & R2). inv_bind H as s' Hs. injection H as <-. cbn [fst snd].
    unfold adjust_layer_temps in Hs. destruct (layer_cases s) as [L'|[L'|L']]; [contradiction|..]; rewrite L' in Hs; cbn [Nat.eqb] in Hs.
    + inv_bind Hs as t Ht. injection Hs as <-. split; [exact B|]. split.
      * split; intros E; [exact (proj1 J E)|]. change (layer_count s = 0%nat) in E. congruence.
      * split; [exact M|]. split; [|intros _; exact (conj R1 R2)]. intros w. destruct (Hw w) as ((W1 & W2 & W3) & C1 & C2). split; [exact (conj C1 C2)|].
        assert (F : not_negative (m_s_0 s) -> not_above t FRZ) by (intros N; exact (new_tsno_below _ _ _ _ N W2 C1 Ht)).
        split; [exact F|]. split; [|intros N _; exact (F N)]. intros _. cbn. rewrite (proj2 (proj1 J ltac:(lia))). exact nst_frz.
    + destruct (isothermal s).
      * injection Hs as <-. split; [exact B|]. split.
        -- split; intros E; [exfalso; apply E; exact L'|]. change (layer_count s = 0%nat) in E. congruence.
        -- split; [exact M|]. split; [|intros _; exact (conj R1 R2)]. intros w. destruct (Hw w) as (_ & C). split; [exact C|].
           assert (F : not_above FRZ FRZ) by apply ltb_irrefl. split; [intros _; exact F|]. split; [intros _; exact F|]. intros _ _. exact F.
      * inv_bind Hs as t0 Ht0. inv_bind Hs as tl Htl. inv_bind Hs as t Ht. injection Hs as <-. split; [exact B|]. split.
        -- split; intros E; [exfalso; apply E; exact L'|]. change (layer_count s = 0%nat) in E. congruence.
        -- split; [exact M|]. split; [|intros _; exact (conj R1 R2)]. intros w. destruct (Hw w) as ((W1 & W2 & W3) & C1 & C2). split; [exact (conj C1 C2)|].
           split; [intros N; exact (new_tsno_below _ _ _ _ N W2 C1 Ht0)|]. split; [intros N; exact (new_tsno_below _ _ _ _ N W3 C2 Htl)|].
           intros _ N. refine (new_tsno_below _ _ _ _ N W1 _ Ht). apply np_add; assumption.
  - injection H as <-. cbn [fst snd]. split; [exact B|]. split; [exact J|]. split; [exact M|]. split; [|discriminate]. intros w. destruct (K2 eq_refl w) as (C & F1 & F2 & F3).
    split; [exact C|]. split; [intros _; exact F1|]. split; [intros _; exact F2|]. intros _ _. exact F3.
Qed.

(** ** A run *)
Definition bare_or_kelvin (s : St) : Prop := layer_count s = 0%nat \/ kelvin s.
Section Run.
Variables (P K0 : Prop).
Definition event_ok (e : Event float) : Prop := claims (P /\ bare_or_kelvin (e_before e)) (e_after e) (e_kept e).
Definition chain_ok (tr : list (Event float)) (s : St) : Prop := P -> K0 -> Forall (fun e => bare_or_kelvin (e_after e)) tr ->
  Forall (fun e => cold_contents (e_after e) /\ frozen (e_after e)) tr /\ bare_or_kelvin s.
Definition Inv (c : Core float) : Prop := (P -> base (c_ss c)) /\ book (c_ss c) /\ nn (melt_sum (c_ss c)) /\ Forall event_ok (c_trace c) /\
  Forall (fun o => nn (melt_sum (o_state o))) (c_outputs c) /\ chain_ok (c_trace c) (c_ss c).
Definition iinv (i : InputData float) : Prop := P -> input_ok i.

Lemma same_bk s s' : same_pack s s' -> bare_or_kelvin s -> bare_or_kelvin s'.
Proof. intros K [H|H]; [left; rewrite (same_count _ _ K); exact H|right; exact (same_warm _ _ K H)]. Qed.

Lemma output_inv c c' : output c = Ok c' -> Inv c -> Inv c'.
Proof.
  unfold output. destruct (swi_sum (c_ss c)); [|discriminate]. intros H. apply ok_inj in H. subst c'. intros (A1 & A2 & A3 & A4 & A5 & A6). cbn.
  split; [exact A1|]. split; [exact A2|]. split; [exact A3|]. split; [exact A4|]. split; [|exact A6]. apply Forall_app. split; [exact A5|]. constructor; [exact A3|constructor].
Qed.

Lemma energy_frame env ts init i s r : energy_balance env ts init i s = Ok r ->
  same_pack s (fst (fst r)) /\ melt_sum (fst (fst r)) = melt_sum s /\ i_t_snow (snd (fst r)) = i_t_snow i.
Proof.
  unfold energy_balance. destruct (has_snow s).
  - intros H. inv_bind H as q Hq. destruct q as [[[[h lve] e] i'] init']. inv_bind H as g Hg. destruct g as [g g0]. inv_bind H as m Hm. apply ok_inj in H. subst r. cbn [fst snd].
    split; [repeat split|]. split; [reflexivity|]. unfold h_le in Hq. inv_bind Hq as sv Hsv. inv_bind Hq as es Hes. inv_bind Hq as hr Hhr.
    destruct (negb _); [discriminate|]. apply ok_inj in Hq. apply (f_equal (fun q => snd (fst q))) in Hq. cbn [fst snd] in Hq. subst i'. destruct (nltb sv (i_e_a i)); reflexivity.
  - intros H. apply ok_inj in H. subst r. repeat split.
Qed.

Lemma do_tstep_inv env ds ts c i c' i' : do_tstep env ds ts c i = Ok (c', i') -> Inv c -> iinv i -> Inv c' /\ iinv i'.
Proof.
  intros H (A1 & A2 & A3 & A4 & A5 & A6) Ii. unfold do_tstep in H. inv_bind H as d Hd.
  set (i1 := if i_precip_now i then update_precip_deltas i d else i) in H.
  assert (I1 : iinv i1) by (unfold i1; destruct (i_precip_now i); exact Ii). clearbody i1.
  inv_bind H as q Hq. destruct q as [[s i2] init]. destruct (energy_frame _ _ _ _ _ _ Hq) as (K & Ms & Ei). cbn [fst snd] in K, Ms, Ei.
  assert (I2 : iinv i2) by (unfold iinv, input_ok; rewrite Ei; exact I1).
  assert (K' : same_pack (c_ss c) s) by exact K. clear K. inv_bind H as q Hmb. destruct q as [s2 kept].
  assert (G : good1 (P /\ bare_or_kelvin (c_ss c)) (s, has_snow (set_h2o_total (nofZ 0) (c_ss c)))).
  { split; [intros (p & _); exact (same_base _ _ K' (A1 p))|]. split; [exact (same_book _ _ K' A2)|]. cbn [fst snd]. unfold has_snow. rewrite (same_count _ _ K').
    change (layer_count (set_h2o_total (nofZ 0) (c_ss c))) with (layer_count (c_ss c)). split; intros E.
    - apply Nat.ltb_lt in E. split; [lia|]. intros (_ & [w|w]); [lia|exact (same_warm _ _ K' w)].
    - apply Nat.ltb_ge in E. lia. }
  assert (M0 : melt_sum s2 = melt_sum s -> nn (melt_sum s2)).
  { intros ->. rewrite Ms. exact A3. }
  destruct (mass_balance_good _ _ _ _ _ _ _ (fun w => I2 (proj1 w)) G Hmb) as (B2 & J2 & Cl). cbn [fst snd] in B2, J2, Cl.
  pose proof (mass_balance_frame _ _ _ _ _ _ Hmb) as (Fp & _ & _ & _ & Ems & _). cbn [fst] in Fp, Ems. specialize (M0 Ems).
  inv_bind H as q Hta. destruct q as [s3 tso].
  assert (S3 : same_pack s2 s3 /\ nn (melt_sum s3)).
  { destruct (0 <? c_time_since_out c)%Z.
    - inv_bind Hta as s4 H4. apply ok_inj in Hta. apply (f_equal fst) in Hta. cbn [fst] in Hta. subst s4. unfold ss_time_average in H4. inv_bind H4 as b Hb.
      destruct (swi_sum s2); [|discriminate H4]. apply ok_inj in H4. subst s3. split; [repeat split|]. cbn. apply nn_add; [exact M0|exact (proj1 Cl)].
    - apply ok_inj in Hta. apply (f_equal fst) in Hta. cbn [fst] in Hta. subst s3. split; [repeat split|exact (proj1 Cl)]. }
  destruct S3 as (K3 & M3). clear Hta. inv_bind H as c1 Hc1. apply ok_inj in H. injection H as <- <-.
  assert (Iend : iinv (add_deltas i2 d)) by exact I2. split; [|exact Iend].
  match type of Hc1 with (if _ then output ?x else _) = _ => assert (X : Inv x); [|destruct (ev_output_divided env); [exact (output_inv _ _ Hc1 X)|apply ok_inj in Hc1; subst c1; exact X]] end.
  unfold Inv. cbn [c_ss c_trace c_outputs].
  assert (B3 : P -> bare_or_kelvin (c_ss c) -> base s2) by (intros p k; exact (B2 (conj p k))).
  split; [|split; [exact (same_book _ _ K3 J2)|split; [exact M3|split; [apply Forall_app; split; [exact A4|constructor; [exact Cl|constructor]]|split; [exact A5|]]]]].
  - intros p. apply (same_base _ _ K3). pose proof (same_base _ _ K' (A1 p)) as Bs. unfold base in Bs |- *. destruct Fp as (F1 & F2 & F3 & F4). rewrite ?F1, ?F2, ?F3, ?F4. exact Bs.
  - intros p k F. apply Forall_app in F. destruct F as (F1 & F2). inversion F2 as [|? ? F3 _]; subst. destruct (A6 p k F1) as (D1 & D2).
    split; [|exact (same_bk _ _ K3 F3)]. apply Forall_app. split; [exact D1|]. constructor; [|constructor]. exact (proj1 (proj2 Cl) (conj p D2)).
Qed.

Definition dinv (st : DState float) : Prop := Inv (d_core st) /\ iinv (d_input st).
Lemma iter_dinv n (b : DState float -> result (DState float)) : (forall x y, b x = Ok y -> dinv x -> dinv y) -> forall x y, iter_res n b x = Ok y -> dinv x -> dinv y.
Proof.
  intros Hb. induction n as [|n IH]; intros x y H Hx; cbn [iter_res] in H; [apply ok_inj in H; subst; exact Hx|].
  inv_bind H as z Hz. exact (IH _ _ H (Hb _ _ Hz Hx)).
Qed.
Lemma divide_inv env ds : forall f x y, divide_tstep f env ds x = Ok y -> dinv x -> dinv y.
Proof.
  induction f as [|f IH]; intros x y H (Hc & Hi); [discriminate|]. cbn [divide_tstep] in H. inv_bind H as ts Hts. inv_bind H as i Hi'.
  assert (Ii : iinv i).
  { match type of Hi' with (if ?x then _ else _) = _ => destruct x end; [|apply ok_inj in Hi'; subst; exact Hi]. inv_bind Hi' as d Hd. apply ok_inj in Hi'. subst i. exact Hi. }
  inv_bind H as st Hst. assert (D : dinv st).
  { refine (iter_dinv _ _ _ _ _ Hst _); [|split; assumption]. intros a b Hab (Ha & Hai). match type of Hab with (if ?x then _ else _) = _ => destruct x end.
    - revert Hab. intros Hab. apply (IH _ _ Hab). split; assumption.
    - inv_bind Hab as q Hq. destruct q as [c1 i1]. apply ok_inj in Hab. subst b. exact (do_tstep_inv _ _ _ _ _ _ _ Hq Ha Hai). }
  destruct D as (D1 & D2). inv_bind H as c1 Hc1. apply ok_inj in H. subst y. split; [|exact D2]. cbn [d_core].
  match type of Hc1 with (if ?x then _ else _) = _ => destruct x end; [exact (output_inv _ _ Hc1 D1)|apply ok_inj in Hc1; subst; exact D1].
Qed.

Lemma input_data_ok r i : input_data r = Ok i -> (P -> nn (r_t_pp r)) -> iinv i.
Proof.
  intros H Hr p. specialize (Hr p). unfold input_data in H.
  assert (Z : input_ok_t (nofZ 0)) by (split; cst_sign). assert (F : input_ok_t FREEZE) by (split; cst_sign).
  destruct (nltb (nofZ 0) (r_m_pp r)); [|apply ok_inj in H; subst i; exact Z].
  inv_bind H as z Hz. clear Hz. match type of H with (if ?x then _ else _) = _ => destruct x end; [apply ok_inj in H; subst i; exact F|].
  set (t := if _ && nltb (r_t_pp r) FREEZE then FREEZE else r_t_pp r) in H.
  assert (Ht : nn t) by (unfold t; destruct (_ && _); [cst_sign|exact Hr]).
  destruct (nltb (nofZ 0) (nmul (r_m_pp r) (r_percent_snow r))).
  - destruct (nltb t FREEZE) eqn:E; apply ok_inj in H; subst i; [|exact F]. split; [exact Ht|]. exact (ltb_asym _ _ E).
  - destruct (nltb (nofZ 0) _); apply ok_inj in H; subst i; exact Z.
Qed.

Lemma run_steps_inv env rows : Forall (fun r => P -> nn (r_t_pp r)) rows -> forall c i c', run_steps env c i rows = Ok c' -> Inv c -> iinv i -> Inv c'.
Proof.
  induction 1 as [|r rows Hr _ IH]; intros c i c' H Hc Hi; cbn [run_steps] in H; [apply ok_inj in H; subst; exact Hc|].
  inv_bind H as i2 Hi2. inv_bind H as c1 Hc1. pose proof (input_data_ok _ _ Hi2 Hr) as I2. apply (IH _ _ _ H); [|exact I2].
  unfold do_data_tstep in Hc1. inv_bind Hc1 as ds Hds. inv_bind Hc1 as st Hst. apply ok_inj in Hc1. subst c1. exact (proj1 (divide_inv _ _ _ _ _ Hst (conj Hc Hi))).
Qed.
End Run.

(** ** Theorems *)
(** thresholds and active depth as configured *)
Definition usual (p : Params float) (cfg : ModelCfg float) : Prop := nleb (nofZ 0) (cfg_small_thr cfg) = true /\ nltb (nofZ 0) (p_max_z_s_0 p) = true.

Lemma simulate_inv (P : Prop) p cfg info ic mh all_mode rows c : parse_time_steps cfg = Ok info -> simulate p info ic mh all_mode rows = Ok c ->
  (P -> usual p cfg /\ Forall (fun row => not_negative (r_t_pp (snd row))) rows) ->
  exists env c0, snobal_init p info ic mh all_mode = Ok (env, c0) /\ Inv P (bare_or_kelvin (c_ss c0)) c.
Proof.
  intros Hp H HP. unfold simulate in H. destruct (negb _); [discriminate|]. destruct rows as [|r0 rest]; [discriminate|].
  inv_bind H as i1 Hi1. inv_bind H as q Hin. destruct q as [env c0]. exists env, c0. split; [exact Hin|].
  assert (F : Forall (fun r => P -> nn (r_t_pp r)) (map snd (r0 :: rest))).
  { apply Forall_forall. intros r Hr pp. destruct (HP pp) as (_ & F). apply in_map_iff in Hr. destruct Hr as (row & <- & Hr). rewrite Forall_forall in F. exact (F row Hr). }
  cbn [map] in F. inversion F as [|? ? F0 F1]; subst. refine (run_steps_inv P _ env _ F1 _ _ _ H _ (input_data_ok P _ _ Hi1 F0)).
  unfold snobal_init in Hin. inv_bind Hin as pa Hpa. inv_bind Hin as s Hs. inv_bind Hin as s1 Hs1. apply ok_inj in Hin. apply (f_equal snd) in Hin. cbn [snd] in Hin. subst c0.
  destruct (init_snow_book _ _ Hs1) as (J & B). unfold Inv. cbn [c_ss c_trace c_outputs]. split; [|split; [exact J|split; [|split; [constructor|split; [constructor|]]]]].
  - intros pp. apply B. destruct (HP pp) as ((U1 & U2) & _). unfold create_snow_state in Hs. unfold parse_time_steps in Hp. inv_bind Hp as a Ha. inv_bind Hp as b Hb. inv_bind Hp as e He. apply ok_inj in Hp. subst info.
    cbn [nth_error Z.to_nat Pos.to_nat] in Hs. change (Z.to_nat SMALL_TSTEP) with 2%nat in Hs. cbn [nth_error] in Hs. apply ok_inj in Hs. subst s. split; [exact U1|exact U2].
  - pose proof (init_snow_melt_sum _ _ Hs1) as ->. unfold create_snow_state in Hs. destruct (nth_error info _); [|discriminate]. apply ok_inj in Hs. subst s. reflexivity.
  - intros _ k _. split; [constructor|exact k].
Qed.

(** C88, every run step of every run.  Melt is not negative and, if the pack lasts, neither is the runoff, and it holds no
    more water than it can.  If besides the state before is bare ground or not below absolute zero, the thresholds are usual and
    precipitation is not below absolute zero, then no cold content is positive and no snow temperature above freezing. *)
Theorem C88_run_steps_in_double_precision p cfg info ic mh all_mode rows c e :
  parse_time_steps cfg = Ok info -> simulate p info ic mh all_mode rows = Ok c -> In e (c_trace c) ->
  not_negative (melt (e_after e)) /\
  (e_kept e = true -> not_negative (swi (e_after e)) /\ not_above (h2o (e_after e)) (h2o_max (e_after e))) /\
  (usual p cfg -> Forall (fun row => not_negative (r_t_pp (snd row))) rows -> bare_or_kelvin (e_before e) ->
   cold_contents (e_after e) /\ frozen (e_after e)).
Proof.
  intros Hp H He.
  destruct (simulate_inv (usual p cfg /\ Forall (fun row => not_negative (r_t_pp (snd row))) rows) p cfg info ic mh all_mode rows c Hp H (fun x => x)) as (env & c0 & _ & I).
  destruct I as (_ & _ & _ & I & _). rewrite Forall_forall in I. destruct (I e He) as (M & Cl & R). split; [exact M|]. split; [exact R|]. intros U F K. apply Cl. split; [split; assumption|exact K].
Qed.

(** C88, a whole run: as long as no state is below absolute zero, all snow is cold. *)
Theorem C88_snow_is_cold_in_double_precision p cfg info ic mh all_mode rows c env c0 :
  parse_time_steps cfg = Ok info -> simulate p info ic mh all_mode rows = Ok c -> snobal_init p info ic mh all_mode = Ok (env, c0) ->
  usual p cfg -> Forall (fun row => not_negative (r_t_pp (snd row))) rows ->
  bare_or_kelvin (c_ss c0) -> Forall (fun e => bare_or_kelvin (e_after e)) (c_trace c) ->
  Forall (fun e => cold_contents (e_after e) /\ frozen (e_after e)) (c_trace c).
Proof.
  intros Hp H H0 U F K A. destruct (simulate_inv True p cfg info ic mh all_mode rows c Hp H (fun _ => conj U F)) as (env' & c0' & H0' & I).
  rewrite H0 in H0'. injection H0' as <- <-. destruct I as (_ & _ & _ & _ & _ & I). exact (proj1 (I Logic.I K A)).
Qed.

(** C88, the file: the melt column is never negative, for any configuration and any input *)
Theorem C88_melt_column_in_double_precision p end_date cfg ic mh all_mode rows out d line v :
  pysnobal_run p end_date cfg ic mh all_mode rows = Ok out -> In (d, line) out -> In ("melt"%string, Some v) line -> not_negative v.
Proof.
  intros H Hd Hv. unfold pysnobal_run in H. inv_bind H as info Hi. inv_bind H as used Hu. inv_bind H as c Hc.
  destruct (simulate_inv False p cfg info ic mh all_mode used c Hi Hc (fun f => match f with end)) as (env & c0 & _ & I).
  destruct I as (_ & _ & _ & _ & I & _). unfold output_to_file in H. destruct (c_outputs c) as [|o outs] eqn:Eo; [discriminate|]. rewrite <- Eo in *. apply ok_inj in H. subst out.
  apply in_map_iff in Hd. destruct Hd as (o' & E & Ho). injection E as _ <-. apply (Permutation.Permutation_in _ (Permutation.Permutation_sym (sort_perm o_date (c_outputs c)))) in Ho.
  rewrite Forall_forall in I. specialize (I _ Ho). rewrite C43_columns in Hv. cbn [In] in Hv.
  repeat (destruct Hv as [Hv|Hv]; [try discriminate Hv; apply (f_equal snd) in Hv; cbn [snd] in Hv; injection Hv as <-; exact I|]). contradiction.
Qed.
End Double.

(** ** Concrete case: a snowfall and then a warm, sunny day, with the functions of FloatNum: some run step melts snow, some
    pack lasts with liquid water in it, and no state is below absolute zero. *)
From Verif Require Import Thm_Schedule.
Section Witness.
Open Scope float_scope.
Definition D_run := simulate (N := DNum f_exp f_ln PrimFloat.sqrt f_atan f_cos f_pow pi_f).
Definition melting_day : list (CsvRow (T:=float)) :=
  [(0%Z, mkRaw 0 250 272 300 2 272 40 1 100 272); (60%Z, mkRaw 400 320 276 650 3 272 0 0 0 272); (120%Z, mkRaw 600 330 279 700 3 272 0 0 0 272);
   (180%Z, mkRaw 600 330 280 700 3 272 0 0 0 272); (240%Z, mkRaw 500 320 278 700 3 272 0 0 0 272)].
Definition d_info : list (TStep float) := match parse_time_steps w_even with Ok i => i | Err _ => [] end.
Definition show (e : Event float) : bool * bool * bool * nat :=
  (e_kept e, PrimFloat.ltb 0 (melt (e_after e)), PrimFloat.ltb 0 (swi (e_after e)), layer_count (e_after e)).
Definition in_kelvin (s : SnowState float) : bool :=
  (layer_count s =? 0)%nat || (negb (PrimFloat.ltb (t_s s) 0) && negb (PrimFloat.ltb (t_s_0 s) 0) && negb (PrimFloat.ltb (t_s_l s) 0)).
Definition d_bare : InitSnow float := mkInitSnow 0 0 0 0 0 0.0078125.
(** a fresh pack of two layers, melting from the second run step on, with runoff at the end *)
Example C88_witness :
  match D_run w_params d_info d_bare w_heights false melting_day with
  | Ok c => hd_error (map show (c_trace c)) = Some (false, false, false, 2%nat) /\ nth_error (map show (c_trace c)) 1 = Some (true, true, false, 2%nat) /\
            nth_error (map show (c_trace c)) 20 = Some (true, true, true, 1%nat) /\ length (c_trace c) = 27%nat /\
            forallb (fun e => in_kelvin (e_after e)) (c_trace c) = true
  | Err _ => False end /\
  match snobal_init (N := DNum f_exp f_ln PrimFloat.sqrt f_atan f_cos f_pow pi_f) w_params d_info d_bare w_heights false with
  | Ok (_, c0) => layer_count (c_ss c0) = 0%nat | Err _ => False end /\
  usual f_exp f_ln PrimFloat.sqrt f_atan f_cos f_pow pi_f w_params w_even /\ parse_time_steps w_even = Ok d_info /\
  Forall (fun row => PrimFloat.ltb (r_t_pp (snd row)) 0 = false) melting_day.
Proof.
  split; [vm_compute; repeat split; reflexivity|]. split; [vm_compute; reflexivity|]. split; [split; vm_compute; reflexivity|]. split; [reflexivity|].
  unfold melting_day. repeat (constructor; [vm_compute; reflexivity|]). constructor.
Qed.
End Witness.
Print Assumptions C88_run_steps_in_double_precision.
Print Assumptions C88_snow_is_cold_in_double_precision.
Print Assumptions C88_melt_column_in_double_precision.
