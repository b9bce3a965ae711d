(** * The running means and totals kept for the output ("_bar" / "_sum"
    attributes) never influence anything else: every routine commutes with
    erasing them.  Proof library for C63. *)
From Coq Require Import ZArith Bool List String.
Import ListNotations.
From Verif Require Import Num Constants Functions Libsnobal Input SnowState Snobal.

Section Strip.
Context {T : Type} {N : Num T}.
Implicit Types s : SnowState T.

Definition rmap {A B} (f : A -> B) (r : result A) : result B :=
  match r with Ok a => Ok (f a) | Err e => Err e end.

(** The section is about any function on snow states that commutes with every
    attribute the routines set and is invisible to every attribute they read;
    instantiated below with [erase]. *)
Context (strip : SnowState T -> SnowState T).
Context (st_set_h2o_sat : forall v s, set_h2o_sat v (strip s) = strip (set_h2o_sat v s))
  (st_set_max_h2o_vol : forall v s, set_max_h2o_vol v (strip s) = strip (set_max_h2o_vol v s))
  (st_set_rho : forall v s, set_rho v (strip s) = strip (set_rho v s))
  (st_set_t_s : forall v s, set_t_s v (strip s) = strip (set_t_s v s))
  (st_set_t_s_0 : forall v s, set_t_s_0 v (strip s) = strip (set_t_s_0 v s))
  (st_set_t_s_l : forall v s, set_t_s_l v (strip s) = strip (set_t_s_l v s))
  (st_set_z_s : forall v s, set_z_s v (strip s) = strip (set_z_s v s))
  (st_set_z_s_0 : forall v s, set_z_s_0 v (strip s) = strip (set_z_s_0 v s))
  (st_set_z_s_l : forall v s, set_z_s_l v (strip s) = strip (set_z_s_l v s))
  (st_set_cc_s_0 : forall v s, set_cc_s_0 v (strip s) = strip (set_cc_s_0 v s))
  (st_set_cc_s_l : forall v s, set_cc_s_l v (strip s) = strip (set_cc_s_l v s))
  (st_set_m_s : forall v s, set_m_s v (strip s) = strip (set_m_s v s))
  (st_set_m_s_0 : forall v s, set_m_s_0 v (strip s) = strip (set_m_s_0 v s))
  (st_set_m_s_l : forall v s, set_m_s_l v (strip s) = strip (set_m_s_l v s))
  (st_set_h2o : forall v s, set_h2o v (strip s) = strip (set_h2o v s))
  (st_set_h2o_max : forall v s, set_h2o_max v (strip s) = strip (set_h2o_max v s))
  (st_set_h2o_total : forall v s, set_h2o_total v (strip s) = strip (set_h2o_total v s))
  (st_set_h2o_vol : forall v s, set_h2o_vol v (strip s) = strip (set_h2o_vol v s))
  (st_set_en : forall v s, set_en v (strip s) = strip (set_en v s))
  (st_set_melt : forall v s, set_melt v (strip s) = strip (set_melt v s))
  (st_set_E_flux : forall v s, set_E_flux v (strip s) = strip (set_E_flux v s))
  (st_set_E_s : forall v s, set_E_s v (strip s) = strip (set_E_s v s))
  (st_set_swi : forall v s, set_swi v (strip s) = strip (set_swi v s))
  (st_set_z_0 : forall v s, set_z_0 v (strip s) = strip (set_z_0 v s))
  (st_set_max_z_s_0 : forall v s, set_max_z_s_0 v (strip s) = strip (set_max_z_s_0 v s))
  (st_set_small_threshold : forall v s, set_small_threshold v (strip s) = strip (set_small_threshold v s)).
Context (st_h2o_sat : forall s, h2o_sat (strip s) = h2o_sat s)
  (st_max_h2o_vol : forall s, max_h2o_vol (strip s) = max_h2o_vol s)
  (st_rho : forall s, rho (strip s) = rho s)
  (st_t_s : forall s, t_s (strip s) = t_s s)
  (st_t_s_0 : forall s, t_s_0 (strip s) = t_s_0 s)
  (st_t_s_l : forall s, t_s_l (strip s) = t_s_l s)
  (st_z_s : forall s, z_s (strip s) = z_s s)
  (st_z_s_0 : forall s, z_s_0 (strip s) = z_s_0 s)
  (st_z_s_l : forall s, z_s_l (strip s) = z_s_l s)
  (st_cc_s_0 : forall s, cc_s_0 (strip s) = cc_s_0 s)
  (st_cc_s_l : forall s, cc_s_l (strip s) = cc_s_l s)
  (st_m_s : forall s, m_s (strip s) = m_s s)
  (st_m_s_0 : forall s, m_s_0 (strip s) = m_s_0 s)
  (st_m_s_l : forall s, m_s_l (strip s) = m_s_l s)
  (st_h2o : forall s, h2o (strip s) = h2o s)
  (st_h2o_max : forall s, h2o_max (strip s) = h2o_max s)
  (st_h2o_total : forall s, h2o_total (strip s) = h2o_total s)
  (st_h2o_vol : forall s, h2o_vol (strip s) = h2o_vol s)
  (st_en : forall s, en (strip s) = en s)
  (st_melt : forall s, melt (strip s) = melt s)
  (st_E_flux : forall s, E_flux (strip s) = E_flux s)
  (st_E_s : forall s, E_s (strip s) = E_s s)
  (st_swi : forall s, swi (strip s) = swi s)
  (st_z_0 : forall s, z_0 (strip s) = z_0 s)
  (st_max_z_s_0 : forall s, max_z_s_0 (strip s) = max_z_s_0 s)
  (st_small_threshold : forall s, small_threshold (strip s) = small_threshold s).
Definition stripP (p : Pack T) : Pack T := (strip (fst p), snd p).

Lemma rmap_bind {A B C} (f : B -> C) (m : result A) (k : A -> result B) :
  rmap f (bind m k) = bind m (fun a => rmap f (k a)).
Proof. destruct m; reflexivity. Qed.
Lemma bind_rmap {A B C} (f : A -> B) (m : result A) (k : B -> result C) :
  bind (rmap f m) k = bind m (fun a => k (f a)).
Proof. destruct m; reflexivity. Qed.
Lemma bind_ext {A B} (m : result A) (k k' : A -> result B) : (forall a, k a = k' a) -> bind m k = bind m k'.
Proof. intros H. destruct m; cbn; auto. Qed.

Lemma strip_if (b : bool) x y : (if b then strip x else strip y) = strip (if b then x else y).
Proof. destruct b; reflexivity. Qed.

Lemma st_lc s : layer_count (strip s) = layer_count s. Proof. unfold layer_count. rewrite st_z_s_0, st_z_s_l. reflexivity. Qed.
#[local] Hint Rewrite st_set_h2o_sat st_set_max_h2o_vol st_set_rho st_set_t_s st_set_t_s_0 st_set_t_s_l st_set_z_s st_set_z_s_0
  st_set_z_s_l st_set_cc_s_0 st_set_cc_s_l st_set_m_s st_set_m_s_0 st_set_m_s_l st_set_h2o st_set_h2o_max
  st_set_h2o_total st_set_h2o_vol st_set_en st_set_melt st_set_E_flux st_set_E_s st_set_swi st_set_z_0
  st_set_max_z_s_0 st_set_small_threshold st_h2o_sat st_max_h2o_vol st_rho st_t_s st_t_s_0 st_t_s_l
  st_z_s st_z_s_0 st_z_s_l st_cc_s_0 st_cc_s_l st_m_s st_m_s_0 st_m_s_l
  st_h2o st_h2o_max st_h2o_total st_h2o_vol st_en st_melt st_E_flux st_E_s
  st_swi st_z_0 st_max_z_s_0 st_small_threshold st_lc : strip.
#[local] Hint Rewrite strip_if : strip.
Ltac st := cbv zeta; autorewrite with strip.
Lemma strip_calc s : calc_layers (strip s) = strip (calc_layers s).
Proof. unfold calc_layers. st. destruct (if nleb (m_s s) (small_threshold s) then _ else _). st. reflexivity. Qed.
Lemma strip_mass s : layer_mass (strip s) = strip (layer_mass s). Proof. unfold layer_mass. st. reflexivity. Qed.
#[local] Hint Rewrite strip_calc strip_mass : strip.

Lemma strip_adj_layers p : adj_layers (stripP p) = stripP (adj_layers p).
Proof.
  destruct p as [s cover]. unfold adj_layers. cbn [stripP fst snd]. st.
  destruct (layer_count (calc_layers s) =? 0)%nat; reflexivity.
Qed.

Lemma strip_adj_snow dz dm p : adj_snow dz dm (stripP p) = stripP (adj_snow dz dm p).
Proof.
  destruct p as [s cover]. unfold adj_snow. cbn [stripP fst snd]. st.
  set (s1 := if negb _ then set_rho _ _ else _). clearbody s1. clear s.
  destruct (nltb MAX_SNOW_DENSITY (rho s1)).
  - exact (strip_adj_layers (_, cover)).
  - destruct (negb (neqb dz (nofZ 0))); [exact (strip_adj_layers (s1, cover))|]. reflexivity.
Qed.

Lemma strip_dry s : dry_snow_density (strip s) = dry_snow_density s. Proof. unfold dry_snow_density. st. reflexivity. Qed.
#[local] Hint Rewrite strip_dry : strip.

Lemma strip_init_snow s : init_snow (strip s) = rmap strip (init_snow s).
Proof.
  unfold init_snow. cbv zeta. rewrite st_rho, st_z_s, st_set_m_s, strip_calc.
  generalize (calc_layers (set_m_s (nmul (rho s) (z_s s)) s)). clear s. intros s. rewrite st_lc.
  destruct (layer_count s =? 0)%nat.
  - rewrite st_m_s. destruct (nltb (nofZ 0) (m_s s)); st; reflexivity.
  - rewrite strip_mass. generalize (layer_mass s). clear s. intros s.
    rewrite st_t_s_0, st_m_s_0, st_set_cc_s_0.
    generalize (set_cc_s_0 (cold_content (t_s_0 s) (m_s_0 s)) s). clear s. intros s.
    rewrite st_lc, st_t_s_l, st_m_s_l, !st_set_t_s_l, !st_set_cc_s_l, !strip_if.
    generalize (if (layer_count s =? 2)%nat then set_cc_s_l (cold_content (t_s_l s) (m_s_l s)) s
                else set_cc_s_l (nofZ 0) (set_t_s_l NO_SNOW_TEMP s)). clear s. intros s.
    rewrite st_h2o_sat, st_max_h2o_vol, st_set_h2o_vol.
    generalize (set_h2o_vol (nmul (h2o_sat s) (max_h2o_vol s)) s). clear s. intros s.
    rewrite strip_dry, rmap_bind. apply bind_ext. intros d. cbn [rmap]. st. reflexivity.
Qed.

Lemma strip_ci t s : compaction_increment t (strip s) = compaction_increment t s. Proof. unfold compaction_increment. st. reflexivity. Qed.
#[local] Hint Rewrite strip_ci : strip.
Lemma strip_time_compact t p : time_compact t (stripP p) = rmap stripP (time_compact t p).
Proof.
  destruct p as [s cover]. unfold time_compact. cbn [stripP fst snd]. st.
  destruct (negb cover || nleb RHO_MAX (rho s)); [reflexivity|].
  rewrite rmap_bind. apply bind_ext. intros d. st.
  rewrite rmap_bind. apply bind_ext. intros z. st. cbn [rmap]. f_equal.
  exact (strip_adj_layers (_, cover)).
Qed.

Lemma strip_precip i p : precip_event i (stripP p) = rmap stripP (precip_event i p).
Proof.
  destruct p as [s cover]. unfold precip_event. cbn [stripP fst snd]. st.
  destruct (i_precip_now i); [|reflexivity].
  destruct cover.
  - pose proof (strip_adj_snow (i_z_snow i) (i_m_pp i) (s, true)) as E. unfold stripP in E at 1. cbn [fst snd] in E.
    rewrite E. destruct (adj_snow (i_z_snow i) (i_m_pp i) (s, true)) as [s1 k]. cbn [stripP fst snd bind rmap]. st. reflexivity.
  - destruct (nltb (nofZ 0) (i_m_snow i)); [|cbn [stripP fst snd bind rmap]; st; reflexivity].
    rewrite strip_init_snow. set (r := init_snow _). destruct r as [s1|e]; [|reflexivity].
    cbn [stripP fst snd bind rmap]; st; reflexivity.
Qed.

Lemma strip_refreeze s z q c : refreeze (strip s) z q c = refreeze s z q c. Proof. unfold refreeze. st. reflexivity. Qed.
#[local] Hint Rewrite strip_refreeze : strip.

Lemma strip_snowmelt t p : snowmelt t (stripP p) = rmap stripP (snowmelt t p).
Proof.
  destruct p as [s cover]. unfold snowmelt. cbn [stripP fst snd].
  destruct cover; cbn [negb]; [|st; reflexivity].
  rewrite st_en, st_cc_s_0, !st_set_melt, !st_set_cc_s_0, !strip_if.
  set (Q_0 := nadd (nmul (delta_Q_0 (en s)) (nofZ t)) (cc_s_0 s)).
  set (s1 := if nltb (nofZ 0) Q_0 then _ else _). clearbody s1 Q_0. clear s.
  rewrite st_lc, st_en, st_cc_s_l, st_melt, st_set_melt, !st_set_cc_s_l, !strip_if.
  set (Q := nadd (nmul (nsub (G_ (en s1)) (G_0 (en s1))) (nofZ t)) (cc_s_l s1)).
  assert (E : exists s2 Ql,
    (if (layer_count s1 =? 2)%nat
     then (if nltb (nofZ 0) Q then set_cc_s_l (nofZ 0) (set_melt (nadd (melt s1) (melt_of Q)) s1)
         else if neqb Q (nofZ 0) then set_cc_s_l (nofZ 0) s1
         else set_cc_s_l Q s1, Q)
     else (s1, nofZ 0)) = (s2, Ql) /\
    (if (layer_count s1 =? 2)%nat
     then (strip (if nltb (nofZ 0) Q then set_cc_s_l (nofZ 0) (set_melt (nadd (melt s1) (melt_of Q)) s1)
         else if neqb Q (nofZ 0) then set_cc_s_l (nofZ 0) s1
         else set_cc_s_l Q s1), Q)
     else (strip s1, nofZ 0)) = (strip s2, Ql)).
  { destruct (layer_count s1 =? 2)%nat; eauto. }
  destruct E as (s2 & Ql & E1 & E2). rewrite E1, E2. clear E1 E2 Q s1.
  rewrite st_h2o_total, st_melt, st_set_h2o_total.
  generalize (set_h2o_total (nadd (h2o_total s2) (melt s2)) s2). clear s2. intros s.
  rewrite st_z_s_0, st_cc_s_0, strip_refreeze, rmap_bind. apply bind_ext. intros [r0 cc0]. st.
  generalize (set_cc_s_0 cc0 s). clear s. intros s.
  rewrite rmap_bind. apply bind_ext. intros [rl ccl]. st.
  generalize (set_cc_s_l ccl s). clear s. intros s.
  set (w := nsub (h2o_total s) (nadd r0 rl)).
  set (s3 := if nleb _ _ then _ else _). clearbody s3. clear s w.
  destruct (nltb (nofZ 0) (melt s3)); [|reflexivity].
  rewrite rmap_bind. apply bind_ext. intros dz. cbn [rmap]. f_equal. exact (strip_adj_snow dz (nofZ 0) (s3, true)).
Qed.

Lemma strip_soil P z t i s : soil_evap P z t i (strip s) = soil_evap P z t i s. Proof. unfold soil_evap. st. reflexivity. Qed.
#[local] Hint Rewrite strip_soil : strip.
Lemma strip_evap P z t i p : evap_cond P z t i (stripP p) = rmap stripP (evap_cond P z t i p).
Proof.
  destruct p as [s cover]. unfold evap_cond. cbn [stripP fst snd].
  destruct cover; cbn [negb]; [|st; reflexivity]. st.
  generalize (set_h2o_total (evap_h2o (h2o_total s) (nmul (E_flux s) (nofZ t))) s). intros s1.
  rewrite rmap_bind. apply bind_ext. intros El. st.
  generalize (if (layer_count s1 =? 0)%nat then s1 else set_h2o_total (evap_h2o (h2o_total s1) El) s1). intros s2.
  generalize (set_E_s (nadd (nmul (E_flux s) (nofZ t)) El) s2). intros s3.
  unfold has_snow. st. destruct (0 <? layer_count s3)%nat; [|reflexivity].
  rewrite rmap_bind. apply bind_ext. intros q. cbn [rmap]. st. f_equal.
  exact (strip_adj_snow _ _ (s3, true)).
Qed.

Lemma strip_h2o_compact i p : h2o_compact i (stripP p) = rmap stripP (h2o_compact i p).
Proof.
  destruct p as [s cover]. unfold h2o_compact. cbn [stripP fst snd]. st.
  destruct (negb cover || nltb H2O_MAX_DENSITY (rho s)); [reflexivity|].
  rewrite rmap_bind. apply bind_ext. intros d. destruct (nltb (cst 1 1000000) d); [|reflexivity]. st.
  rewrite rmap_bind. apply bind_ext. intros z. cbn [rmap]. st. f_equal. exact (strip_adj_layers (_, cover)).
Qed.

Lemma strip_runoff p : runoff (stripP p) = rmap stripP (runoff p).
Proof.
  destruct p as [s cover]. unfold runoff. cbn [stripP fst snd]. st.
  destruct (negb cover || (layer_count s =? 0)%nat); [reflexivity|].
  rewrite rmap_bind. apply bind_ext. intros rd. st.
  generalize (set_h2o_max (h2o_left (z_s s) rd (max_h2o_vol s)) s). clear s. intros s.
  destruct (nltb (h2o_max s) (h2o_total s)).
  - cbn [rmap]. f_equal. exact (strip_adj_snow _ _ (_, cover)).
  - rewrite rmap_bind. apply bind_ext. intros q. cbn [rmap]. st. reflexivity.
Qed.

Lemma strip_adjust s : adjust_layer_temps (strip s) = rmap strip (adjust_layer_temps s).
Proof.
  assert (I : isothermal (strip s) = isothermal s) by (unfold isothermal, cc_s; st; reflexivity).
  assert (C : cc_s (strip s) = cc_s s) by (unfold cc_s; st; reflexivity).
  unfold adjust_layer_temps. rewrite I, C. st.
  destruct (layer_count s =? 1)%nat; [rewrite rmap_bind; apply bind_ext; intros a; cbn [rmap]; st; reflexivity|].
  destruct (layer_count s =? 2)%nat; [|reflexivity]. destruct (isothermal s); [st; reflexivity|].
  rewrite rmap_bind. apply bind_ext. intros a. rewrite rmap_bind. apply bind_ext. intros b.
  rewrite rmap_bind. apply bind_ext. intros d. cbn [rmap]. st. reflexivity.
Qed.

Lemma strip_mass_balance P z t i p : mass_balance P z t i (stripP p) = rmap stripP (mass_balance P z t i p).
Proof.
  unfold mass_balance.
  rewrite strip_time_compact, bind_rmap, rmap_bind. apply bind_ext. clear p. intros p.
  rewrite strip_precip, bind_rmap, rmap_bind. apply bind_ext. clear p. intros p.
  rewrite strip_snowmelt, bind_rmap, rmap_bind. apply bind_ext. clear p. intros p.
  rewrite strip_evap, bind_rmap, rmap_bind. apply bind_ext. clear p. intros p.
  rewrite strip_h2o_compact, bind_rmap, rmap_bind. apply bind_ext. clear p. intros p.
  rewrite strip_runoff, bind_rmap, rmap_bind. apply bind_ext. clear p. intros [s k]. cbn [stripP fst snd].
  destruct k; [|reflexivity]. rewrite strip_adjust, bind_rmap, rmap_bind. reflexivity.
Qed.

Definition strip3 (x : SnowState T * InputData T * (option T * option T)) :=
  (strip (fst (fst x)), snd (fst x), snd x).
Lemma strip_kts s : kts (strip s) = kts s. Proof. unfold kts. st. reflexivity. Qed.
#[local] Hint Rewrite strip_kts : strip.
Lemma strip_energy env t init i s : energy_balance env t init i (strip s) = rmap strip3 (energy_balance env t init i s).
Proof.
  assert (E1 : forall a b c d e, h_le a b c d e (strip s) = h_le a b c d e s) by (intros; unfold h_le; st; reflexivity).
  assert (E2 : forall a b c, heat_transfer a b c (strip s) = heat_transfer a b c s)
    by (intros; unfold heat_transfer, g_soil, g_snow; st; reflexivity).
  assert (E3 : forall a b, advec a b (strip s) = advec a b s) by (intros; unfold advec; st; reflexivity).
  assert (E4 : forall a, net_radiation a (strip s) = net_radiation a s) by (intros; unfold net_radiation; st; reflexivity).
  unfold energy_balance, has_snow. rewrite st_lc. destruct (0 <? layer_count s)%nat; [|cbn [rmap strip3 fst snd]; st; reflexivity].
  rewrite E1, E4, rmap_bind. apply bind_ext. intros [[[[h l] e] i'] init']. rewrite E2, rmap_bind.
  apply bind_ext. intros [g g0]. rewrite E3, rmap_bind. apply bind_ext. intros m. cbn [rmap strip3 fst snd]. st. reflexivity.
Qed.

Lemma strip_below thr s : below_thold thr (strip s) = below_thold thr s.
Proof. unfold below_thold. st. reflexivity. Qed.

End Strip.

Section Erase.
Context {T : Type} {N : Num T}.
Implicit Types s : SnowState T.

(** erase the running means and totals *)
Definition erase (s : SnowState T) : SnowState T :=
  set_bar zero_energy (set_melt_sum (nofZ 0) (set_E_s_sum (nofZ 0) (set_swi_sum None s))).
Definition eraseP (p : Pack T) : Pack T := (erase (fst p), snd p).

Lemma erase_mass_balance P z t i p : mass_balance P z t i (eraseP p) = rmap eraseP (mass_balance P z t i p).
Proof. apply (strip_mass_balance erase); reflexivity. Qed.
Lemma erase_energy env t init i s :
  energy_balance env t init i (erase s) = rmap (strip3 erase) (energy_balance env t init i s).
Proof. apply (strip_energy erase); reflexivity. Qed.
Lemma erase_below thr s : below_thold thr (erase s) = below_thold thr s. Proof. reflexivity. Qed.
Lemma erase_value_to_bar s : erase (value_to_bar s) = erase s. Proof. reflexivity. Qed.
End Erase.
