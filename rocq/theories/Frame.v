(** * What the routines never change (any arithmetic). *)
From Coq Require Import String ZArith Bool Lia List.
Import ListNotations.
From Verif Require Import Num Constants Functions Libsnobal Input SnowState Snobal PySnobal Real SchedSpec Sched.

Section Frame.
Context {T : Type} {N : Num T}.

(** parameters of the site, never changed after construction *)
Definition params_eq (s s' : SnowState T) : Prop :=
  z_0 s' = z_0 s /\ max_z_s_0 s' = max_z_s_0 s /\ small_threshold s' = small_threshold s
  /\ max_h2o_vol s' = max_h2o_vol s.

(** energy terms and running means, not touched by the mass balance *)
Definition energy_eq (s s' : SnowState T) : Prop :=
  en s' = en s /\ bar s' = bar s /\ E_flux s' = E_flux s /\ melt_sum s' = melt_sum s
  /\ E_s_sum s' = E_s_sum s /\ swi_sum s' = swi_sum s.

Definition frame (s s' : SnowState T) : Prop := params_eq s s' /\ energy_eq s s'.

Lemma params_refl s : params_eq s s. Proof. repeat split. Qed.
Lemma params_trans a b c : params_eq a b -> params_eq b c -> params_eq a c.
Proof. unfold params_eq. intuition congruence. Qed.
Lemma frame_refl s : frame s s. Proof. repeat split. Qed.
Lemma frame_trans a b c : frame a b -> frame b c -> frame a c.
Proof. unfold frame, params_eq, energy_eq. intuition congruence. Qed.

Ltac fr := unfold frame, params_eq, energy_eq; cbn; repeat split; reflexivity.

Lemma calc_layers_frame s : frame s (calc_layers s).
Proof. unfold calc_layers. destruct (if nleb (m_s s) (small_threshold s) then _ else _). fr. Qed.

Lemma layer_mass_frame s : frame s (layer_mass s). Proof. fr. Qed.

Lemma frame_if (b : bool) s x y : frame s x -> frame s y -> frame s (if b then x else y).
Proof. destruct b; auto. Qed.

Lemma adj_layers_frame p : frame (fst p) (fst (adj_layers p)).
Proof.
  destruct p as [s cover]. unfold adj_layers. set (c := calc_layers s).
  assert (Hc : frame s c) by apply calc_layers_frame.
  destruct (layer_count c =? 0)%nat; cbn [fst].
  - eapply frame_trans; [exact Hc|].
    destruct (nltb (nofZ 0) _); destruct (layer_count s =? 2)%nat; fr.
  - eapply frame_trans; [exact Hc|].
    destruct ((layer_count s =? 1)%nat && _); [fr|].
    destruct ((layer_count s =? 2)%nat && _); fr.
Qed.

Lemma adj_snow_frame dz dm p : frame (fst p) (fst (adj_snow dz dm p)).
Proof.
  destruct p as [s cover]. unfold adj_snow.
  set (s1 := set_m_s _ _). assert (H1 : frame s s1) by fr.
  set (s2 := if negb _ then _ else _).
  assert (H2 : frame s s2).
  { subst s2. apply frame_if; (eapply frame_trans; [exact H1|fr]). }
  destruct (nltb MAX_SNOW_DENSITY (rho s2)).
  - eapply frame_trans; [exact H2|].
    eapply frame_trans; [|apply adj_layers_frame]. fr.
  - destruct (negb (neqb dz (nofZ 0))).
    + eapply frame_trans; [exact H2|]. apply (adj_layers_frame (s2, cover)).
    + eapply frame_trans; [exact H2|]. fr.
Qed.

Lemma init_snow_frame s s' : init_snow s = Ok s' -> frame s s'.
Proof.
  unfold init_snow. set (c := calc_layers _).
  assert (Hc : frame s c). { subst c. eapply frame_trans; [|apply calc_layers_frame]. fr. }
  destruct (layer_count c =? 0)%nat.
  - intros H. injection H as <-. eapply frame_trans; [exact Hc|].
    destruct (nltb (nofZ 0) _); fr.
  - intros H. inv_bind H as dry Hd. injection H as <-. eapply frame_trans; [exact Hc|].
    destruct (_ =? 2)%nat; fr.
Qed.

Lemma time_compact_frame t p p' : time_compact t p = Ok p' -> frame (fst p) (fst p').
Proof.
  destruct p as [s cover]. unfold time_compact.
  destruct (negb cover || _). { intros H; injection H as <-. apply frame_refl. }
  intros H. inv_bind H as d Hd. inv_bind H as z Hz. ok_inj H; subst p'.
  eapply frame_trans; [|apply adj_layers_frame]. fr.
Qed.

Lemma precip_event_frame i p p' : precip_event i p = Ok p' -> frame (fst p) (fst p').
Proof.
  destruct p as [s cover]. unfold precip_event.
  destruct (i_precip_now i); intros H.
  - inv_bind H as [s1 cov1] H1. injection H as <-. cbn [fst].
    assert (H2 : frame s s1).
    { destruct cover.
      - destruct (adj_snow _ _ _) as [s2 c2] eqn:Ha. injection H1 as <- <-.
        pose proof (adj_snow_frame (i_z_snow i) (i_m_pp i) (s, true)) as Hf. rewrite Ha in Hf.
        cbn [fst] in Hf. eapply frame_trans; [exact Hf|]. fr.
      - destruct (nltb (nofZ 0) (i_m_snow i)).
        + inv_bind H1 as s2 Hi. injection H1 as <- <-.
          eapply frame_trans; [|eapply init_snow_frame; exact Hi]. fr.
        + injection H1 as <- <-. apply frame_refl. }
    eapply frame_trans; [exact H2|]. fr.
  - injection H as <-. cbn [fst]. fr.
Qed.

Lemma snowmelt_frame t p p' : snowmelt t p = Ok p' -> frame (fst p) (fst p').
Proof.
  destruct p as [s cover]. unfold snowmelt.
  destruct (negb cover). { intros H; injection H as <-. fr. }
  set (Q_0 := nadd _ _).
  set (s1 := if nltb (nofZ 0) Q_0 then _ else _).
  assert (H1 : frame s s1).
  { subst s1. destruct (nltb (nofZ 0) Q_0); [fr|]. destruct (neqb Q_0 (nofZ 0)); fr. }
  clearbody s1.
  destruct (if (layer_count s1 =? 2)%nat then _ else _) as [s2 Q_l] eqn:E2.
  assert (H2 : frame s s2).
  { eapply frame_trans; [exact H1|]. destruct (layer_count s1 =? 2)%nat.
    - injection E2 as <- <-. destruct (nltb (nofZ 0) _); [fr|]. destruct (neqb _ (nofZ 0)); fr.
    - injection E2 as <- <-. apply frame_refl. }
  clear E2. intros H. inv_bind H as [r0 cc0] H3. inv_bind H as [rl ccl] H4.
  set (s5 := if nleb _ _ then _ else _) in H.
  assert (H5 : frame s s5).
  { eapply frame_trans; [exact H2|]. subst s5. destruct (nleb _ _); fr. }
  destruct (nltb (nofZ 0) (melt s5)).
  - inv_bind H as dz Hz. ok_inj H; subst p'. eapply frame_trans; [exact H5|].
    apply (adj_snow_frame dz (nofZ 0) (s5, cover)).
  - injection H as <-. exact H5.
Qed.

Lemma evap_cond_frame P z t i p p' : evap_cond P z t i p = Ok p' -> frame (fst p) (fst p').
Proof.
  destruct p as [s cover]. unfold evap_cond.
  destruct (negb cover). { intros H; injection H as <-. fr. }
  intros H. inv_bind H as El HEl.
  set (s1 := if (layer_count _ =? 0)%nat then _ else _) in H.
  assert (H1 : frame s s1).
  { subst s1. destruct (layer_count _ =? 0)%nat; fr. }
  set (s2 := set_E_s _ s1) in H.
  assert (H2 : frame s s2). { eapply frame_trans; [exact H1|]. fr. }
  destruct (has_snow s2).
  - inv_bind H as q Hq. ok_inj H; subst p'. eapply frame_trans; [exact H2|].
    apply (adj_snow_frame _ _ (s2, cover)).
  - injection H as <-. exact H2.
Qed.

Lemma h2o_compact_frame i p p' : h2o_compact i p = Ok p' -> frame (fst p) (fst p').
Proof.
  destruct p as [s cover]. unfold h2o_compact.
  destruct (negb cover || _). { intros H; injection H as <-. apply frame_refl. }
  intros H. inv_bind H as a Ha. destruct (nltb _ a).
  - inv_bind H as z Hz. ok_inj H; subst p'. eapply frame_trans; [|apply adj_layers_frame]. fr.
  - injection H as <-. apply frame_refl.
Qed.

Lemma runoff_frame p p' : runoff p = Ok p' -> frame (fst p) (fst p').
Proof.
  destruct p as [s cover]. unfold runoff.
  destruct (negb cover || _). { intros H; injection H as <-. fr. }
  intros H. inv_bind H as rd Hr. destruct (nltb _ _).
  - ok_inj H; subst p'. eapply frame_trans; [|apply adj_snow_frame]. fr.
  - inv_bind H as sat Hs. injection H as <-. fr.
Qed.

Lemma adjust_layer_temps_frame s s' : adjust_layer_temps s = Ok s' -> frame s s'.
Proof.
  unfold adjust_layer_temps. destruct (layer_count s =? 1)%nat.
  - intros H. inv_bind H as t Ht. injection H as <-. fr.
  - destruct (layer_count s =? 2)%nat.
    + destruct (isothermal s); intros H.
      * injection H as <-. fr.
      * inv_bind H as a Ha. inv_bind H as b Hb. inv_bind H as e He. injection H as <-. fr.
    + intros H. injection H as <-. apply frame_refl.
Qed.

Lemma mass_balance_frame P z t i p p' : mass_balance P z t i p = Ok p' -> frame (fst p) (fst p').
Proof.
  unfold mass_balance. intros H.
  inv_bind H as p1 H1. inv_bind H as p2 H2. inv_bind H as p3 H3.
  inv_bind H as p4 H4. inv_bind H as p5 H5. inv_bind H as p6 H6.
  assert (Hf : frame (fst p) (fst p6)).
  { eapply frame_trans; [eapply time_compact_frame; eassumption|].
    eapply frame_trans; [eapply precip_event_frame; eassumption|].
    eapply frame_trans; [eapply snowmelt_frame; eassumption|].
    eapply frame_trans; [eapply evap_cond_frame; eassumption|].
    eapply frame_trans; [eapply h2o_compact_frame; eassumption|].
    eapply runoff_frame; eassumption. }
  destruct (snd p6).
  - inv_bind H as s Hs. injection H as <-. cbn [fst]. eapply frame_trans; [exact Hf|].
    eapply adjust_layer_temps_frame; eassumption.
  - injection H as <-. exact Hf.
Qed.

(** The energy balance changes only the energy terms and the vapour flux; the
    input record at most in its vapour pressure. *)
Lemma energy_balance_frame env t init i s s' i' init' :
  energy_balance env t init i s = Ok (s', i', init') ->
  s' = set_E_flux (E_flux s') (set_en (en s') s) /\ (i' = i \/ exists v, i' = set_e_a v i).
Proof.
  unfold energy_balance. destruct (has_snow s); intros H.
  - inv_bind H as [[[[h lve] e] i1] init1] Hh. inv_bind H as [g g0] Hg. inv_bind H as m Hm.
    injection H as <- <- <-. split; [reflexivity|].
    unfold h_le in Hh. inv_bind Hh as sv Hsv. inv_bind Hh as es Hes. inv_bind Hh as r Hr.
    destruct (negb _); [discriminate|]. injection Hh as _ _ _ <- _.
    destruct (nltb sv (i_e_a i)); [right; eauto|left; reflexivity].
  - injection H as <- <- <-. split; [reflexivity|left; reflexivity].
Qed.

Lemma averaged_same_snow c ts s2 s3 : averaged c ts s2 s3 -> same_snow s2 s3.
Proof.
  unfold averaged. destruct (0 <? c_time_since_out c)%Z.
  - unfold ss_time_average. intros H. inv_bind H as b Hb.
    destruct (swi_sum s2); [|discriminate]. injection H as <-. do 4 eexists. reflexivity.
  - intros ->. do 4 eexists. reflexivity.
Qed.

Lemma averaged_frame c ts s2 s3 : averaged c ts s2 s3 -> params_eq s2 s3.
Proof.
  intros H. apply averaged_same_snow in H. destruct H as (b & m & e & w & ->). repeat split.
Qed.

End Frame.
