(** * Turbulent fluxes (C29-C32) *)
From Coq Require Import Reals String ZArith Bool Lia Lra List.
Import ListNotations.
From Verif Require Import Num Real Constants Functions Libsnobal Input SnowState Snobal Phys.
Open Scope R_scope.

(** ** Facts for every number type *)
Ltac dif H := match type of H with context [if ?b then _ else _] => destruct b end.
Section Any.
Context {T : Type} {N : Num T}.

Lemma flux_loop_it (c : flux_ctx T) n : forall it s it' s' cv,
  flux_loop c n it s = Ok (it', s', cv) -> (it <= it' < it + Z.of_nat n)%Z.
Proof.
  induction n as [|n IH]; intros it s it' s' cv H; [discriminate|].
  cbn [flux_loop] in H. inv_bind H as [s1 stop] Hb. destruct stop.
  - injection H as <- _ _. lia.
  - destruct n as [|n]; [injection H as <- _ _; lia|]. apply IH in H. lia.
Qed.

Lemma hle1_inv press ta ts za ea es zq u zu z0 iu ifc r :
  hle1 press ta ts za ea es zq u zu z0 iu ifc = Ok r ->
  hr_ier r = 0%Z /\
  (nleb z0 (#0)%num || nleb zq z0 || nleb zu z0 || nleb za z0 = false) /\
  (nleb ta (#0)%num || nleb ts (#0)%num = false) /\
  (nleb ea (#0)%num || nleb es (#0)%num || nleb press (#0)%num || nleb press ea || nleb press es = false) /\
  neqb (nadd ta (nmul DALR za)) ts = false /\
  hr_le r = nmul (if nleb ts FREEZE then nadd (lh_vap ts) (lh_fus ts) else lh_vap ts) (hr_e r).
Proof.
  unfold hle1. destruct (_ || _ || _ || _) eqn:E1; [discriminate|].
  destruct (nleb ta (#0)%num || _) eqn:E2; [discriminate|].
  destruct (nleb ea (#0)%num || _ || _ || _ || _) eqn:E3; [discriminate|].
  intros H. inv_bind H as w Hw. destruct (nltb w _); [discriminate|].
  inv_bind H as l1 Hl1. inv_bind H as l2 Hl2. inv_bind H as l3 Hl3.
  inv_bind H as qa Hqa. inv_bind H as qs Hqs. inv_bind H as st Hst. inv_bind H as se Hse.
  inv_bind H as vt Hvt. inv_bind H as dn Hdn.
  destruct (neqb _ ts) eqn:E4.
  - inv_bind H as us Hus. inv_bind H as x1 Hx1. inv_bind H as x2 Hx2. discriminate.
  - inv_bind H as us Hus. inv_bind H as e0 He0. inv_bind H as h0 Hh0. inv_bind H as [[it s] cv] Hl.
    apply flux_loop_it in Hl. injection H as <-. cbn [hr_ier hr_le hr_e].
    unfold ITMAX in Hl. change (Z.of_nat ITMAX) with 50%Z.
    destruct (Z.leb_spec 50 it); [lia|]. auto 7.
Qed.

Lemma h_le_never_not_converged P mh rel init i s :
  h_le P mh rel init i s <> Err NotConverged.
Proof.
  unfold h_le. intros H.
  assert (Hsati : forall t e, sati t = Err e -> e <> NotConverged).
  { intros t e. unfold sati, satw, pdiv, plog.
    repeat (match goal with |- context [if ?b then _ else _] => destruct b end; cbn [bind]);
      intros Hx Hy; congruence. }
  apply bind_err in H. destruct H as [H|(sv & Hsv & H)]; [apply Hsati in H; congruence|].
  apply bind_err in H. destruct H as [H|(es & Hes & H)]; [apply Hsati in H; congruence|].
  apply bind_err in H. destruct H as [H|(r & Hr & H)].
  - unfold hle1 in H. clear Hsati Hes Hsv. generalize dependent (z_0 s). intros z0 H. rename s into ss.
    assert (Hd : forall a b e, @pdiv T N a b = Err e -> e <> NotConverged)
      by (unfold pdiv; intros a b e; destruct (neqb b _); intros Hx; inversion Hx; subst; discriminate).
    assert (Hg : forall a e, @plog T N a = Err e -> e <> NotConverged)
      by (unfold plog; intros a e; match goal with |- context [if ?b then _ else _] => destruct b end; intros Hx; inversion Hx; subst; discriminate).
    assert (Hq : forall a e, @psqrt T N a = Err e -> e <> NotConverged)
      by (unfold psqrt; intros a e; match goal with |- context [if ?b then _ else _] => destruct b end; intros Hx; inversion Hx; subst; discriminate).
    assert (Hpsi : forall z c e, psi z c = Err e -> e <> NotConverged).
    { intros z c e. unfold psi. destruct (nltb _ z); [discriminate|]. destruct (nltb z _); [|discriminate].
      intros Hx. apply bind_err in Hx. destruct Hx as [Hx|(a & Ha & Hx)]; [eauto|].
      apply bind_err in Hx. destruct Hx as [Hx|(b & Hb & Hx)]; [eauto|].
      destruct c; try congruence.
      - apply bind_err in Hx. destruct Hx as [Hx|(d & Hd' & Hx)]; [eauto|].
        apply bind_err in Hx. destruct Hx as [Hx|(d2 & Hd2 & Hx)]; [eauto|]. discriminate.
      - apply bind_err in Hx. destruct Hx as [Hx|(d & Hd' & Hx)]; [eauto|]. discriminate.
      - apply bind_err in Hx. destruct Hx as [Hx|(d & Hd' & Hx)]; [eauto|]. discriminate. }
    assert (Hpo : forall z lo c e, psi_over z lo c = Err e -> e <> NotConverged).
    { intros z [l|] c e; cbn [psi_over]; [|discriminate].
      intros Hx. apply bind_err in Hx. destruct Hx as [Hx|(a & Ha & Hx)]; eauto. }
    assert (Hbody : forall c s e, flux_body c s = Err e -> e <> NotConverged).
    { intros c s e Hx. unfold flux_body in Hx.
      apply bind_err in Hx. destruct Hx as [Hx|(lo & _ & Hx)].
      { unfold obukhov in Hx. apply bind_err in Hx. destruct Hx as [Hx|(a & _ & Hx)]; [eauto|].
        dif Hx; discriminate. }
      do 6 (apply bind_err in Hx; destruct Hx as [Hx|(? & _ & Hx)]; [eauto|]).
      apply bind_err in Hx. destruct Hx as [Hx|(? & _ & Hx)]; [|discriminate].
      unfold converged in Hx. destruct (fi_lo s), lo; try discriminate.
      dif Hx; [|discriminate].
      apply bind_err in Hx. destruct Hx as [Hx|(? & _ & Hx)]; [eauto|discriminate]. }
    assert (Hloop : forall c n it s e, flux_loop c n it s = Err e -> e <> NotConverged).
    { intros c n. induction n as [|n IH]; intros it s e Hx; [cbn in Hx; congruence|].
      cbn [flux_loop] in Hx. apply bind_err in Hx. destruct Hx as [Hx|([s1 stop] & _ & Hx)]; [eauto|].
      destruct stop; [discriminate|]. destruct n; [discriminate|]. eauto. }
    do 3 (dif H; [discriminate|]).
    apply bind_err in H. destruct H as [H|(w & _ & H)].
    { unfold satw in H. dif H; [discriminate|].
      apply bind_err in H. destruct H as [H|(? & _ & H)]; [eapply Hd; eauto|].
      apply bind_err in H. destruct H as [H|(? & _ & H)]; [eapply Hg; eauto|]. discriminate. }
    destruct (nltb w _); [discriminate|].
    do 3 (apply bind_err in H; destruct H as [H|(? & _ & H)]; [eapply Hg; eauto|]).
    do 2 (apply bind_err in H; destruct H as [H|(? & _ & H)]; [unfold spec_hum in H; eapply Hd; eauto|]).
    do 2 (apply bind_err in H; destruct H as [H|(? & _ & H)]; [eapply Hq; eauto|]).
    apply bind_err in H; destruct H as [H|(? & _ & H)].
    { unfold virtual_temperature in H. apply bind_err in H. destruct H as [H|(? & _ & H)]; eapply Hd; eauto. }
    apply bind_err in H; destruct H as [H|(? & _ & H)]; [unfold gas_density in H; eapply Hd; eauto|].
    dif H.
    + do 3 (apply bind_err in H; destruct H as [H|(? & _ & H)]; [eapply Hd; eauto|]). discriminate.
    + apply bind_err in H. destruct H as [H|(? & _ & H)]; [destruct (fst init); [discriminate|eapply Hd; eauto]|].
      do 2 (apply bind_err in H; destruct H as [H|(? & _ & H)]; [eapply Hd; eauto|]).
      apply bind_err in H. destruct H as [H|([[? ?] ?] & _ & H)]; [eapply Hloop; eauto|]. discriminate.
  - apply hle1_inv in Hr. destruct Hr as (E & _). rewrite E in H. discriminate.
Qed.
End Any.

(** ** Real numbers *)
Lemma psi_stable z c : 0 < z -> psi z c = Ok (- (52/10) * Rmin z 1).
Proof.
  intros Hz. unfold psi. consts. destruct (Rltb_spec 0 z); [|lra]. f_equal.
  destruct (Rltb_spec 1 z).
  - rewrite Rmin_right by lra. lra.
  - rewrite Rmin_left by lra. lra.
Qed.

(** values the loop keeps in stable conditions *)
Definition stable_iter (s : flux_iter R) : Prop :=
  0 < fi_ustar s /\ 0 <= fi_e s /\ 0 < fi_h s.

Definition stable_ctx (c : flux_ctx R) : Prop :=
  0 < fc_dens c /\ 0 < fc_air_temp c /\ 0 < fc_wind c /\ 0 < fc_zu c /\ 0 < fc_zq c /\ 0 < fc_za c /\
  0 < fc_ltsm c /\ 0 < fc_ltsv c /\ 0 < fc_ltsh c /\ 0 <= fc_qdiff c /\ 0 < fc_tdiff c.

(** the values of neutral stratification, which stable stratification never reaches *)
Definition below_neutral (c : flux_ctx R) (s : flux_iter R) : Prop :=
  let nu := 41/100 * fc_wind c / fc_ltsm c in
  fi_ustar s < nu /\ fi_factor s = 41/100 * fi_ustar s * fc_dens c /\
  fi_h s < fc_tdiff c * (41/100 * nu * fc_dens c) * 1005 / fc_ltsh c /\
  fi_e s <= fc_qdiff c * (41/100 * nu * fc_dens c) / fc_ltsv c.

Lemma frac_lt a b c d : 0 < b -> 0 < d -> 0 <= a -> a < c -> d <= b -> a / b < c / d.
Proof.
  intros Hb Hd Ha Hac Hdb. apply Rle_lt_trans with (a / d).
  - unfold Rdiv. apply Rmult_le_compat_l; [assumption|]. apply Rinv_le_contravar; assumption.
  - unfold Rdiv. apply Rmult_lt_compat_r; [apply Rinv_0_lt_compat; assumption|assumption].
Qed.
Lemma frac_le a b c d : 0 < b -> 0 < d -> 0 <= a -> a <= c -> d <= b -> a / b <= c / d.
Proof.
  intros Hb Hd Ha Hac Hdb. apply Rle_trans with (a / d).
  - unfold Rdiv. apply Rmult_le_compat_l; [assumption|]. apply Rinv_le_contravar; assumption.
  - unfold Rdiv. apply Rmult_le_compat_r; [left; apply Rinv_0_lt_compat; assumption|assumption].
Qed.

Lemma Rdiv_le_0_compat_ a b : 0 <= a -> 0 < b -> 0 <= a / b.
Proof. intros. apply Rmult_le_pos; [assumption|]. left. apply Rinv_0_lt_compat. assumption. Qed.

Lemma flux_body_stable c s : stable_ctx c -> stable_iter s ->
  exists s' b, flux_body c s = Ok (s', b) /\ stable_iter s' /\
    0 < fi_factor s' /\ (fc_qdiff c = 0 -> fi_e s' = 0) /\ (0 < fc_qdiff c -> 0 < fi_e s') /\ below_neutral c s'.
Proof.
  intros (Hd & Ha & Hw & Hzu & Hzq & Hza & Hm & Hv & Hh & Hq & Ht) (Su & Se & Sh).
  unfold flux_body, obukhov. cbv zeta. consts.
  rewrite pdiv_R_ok by lra. cbn [bind].
  set (den := 41/100 * (980665/100000) * (fi_h s / (fc_air_temp c * 1005) + 61/100 * fi_e s)).
  assert (Hden : 0 < den).
  { unfold den. apply Rmult_lt_0_compat; [lra|].
    assert (0 < fi_h s / (fc_air_temp c * 1005)) by (apply Rdiv_lt_0_compat; lra). lra. }
  destruct (Reqb_spec den 0); [lra|]. cbn [bind].
  set (lo := fi_ustar s * fi_ustar s * fi_ustar s * fc_dens c / den).
  assert (Hlo : 0 < lo).
  { unfold lo. apply Rdiv_lt_0_compat; [|assumption]. repeat apply Rmult_lt_0_compat; assumption. }
  cbn [psi_over]. rewrite !pdiv_R_ok by lra. cbn [bind].
  assert (Hpos : forall z, 0 < z -> 0 < z / lo) by (intros; apply Rdiv_lt_0_compat; assumption).
  rewrite !psi_stable by auto. cbn [bind].
  assert (Hmin : forall z, 0 < z -> 0 < Rmin (z / lo) 1).
  { intros z Hz. apply Rmin_glb_lt; [auto|lra]. }
  pose proof (Hmin _ Hzu) as Mu. pose proof (Hmin _ Hzq) as Mq. pose proof (Hmin _ Hza) as Ma.
  rewrite pdiv_R_ok by lra. cbn [bind].
  set (us := 41/100 * fc_wind c / _).
  assert (Hus : 0 < us) by (unfold us; apply Rdiv_lt_0_compat; lra).
  assert (Hnu : us < 41/100 * fc_wind c / fc_ltsm c).
  { unfold us, Rdiv. apply Rmult_lt_compat_l; [lra|]. apply Rinv_lt_contravar; [apply Rmult_lt_0_compat; lra|lra]. }
  clearbody us. set (nu := 41/100 * fc_wind c / fc_ltsm c) in *.
  set (fac := 41/100 * us * fc_dens c).
  assert (Hfac : 0 < fac) by (unfold fac; repeat apply Rmult_lt_0_compat; lra).
  assert (Hfl : fac < 41/100 * nu * fc_dens c) by (unfold fac; apply Rmult_lt_compat_r; lra).
  assert (Hfe : fac = 41/100 * us * fc_dens c) by reflexivity. clearbody fac.
  rewrite pdiv_R_ok by lra. cbn [bind]. rewrite pdiv_R_ok by lra. cbn [bind].
  assert (Hcv : exists b, converged (fi_lo s) (Some lo) = Ok b).
  { unfold converged. destruct (fi_lo s); [|eauto]. rn.
    destruct (Rltb _ _); [|eauto]. rewrite pdiv_R_ok by lra. cbn [bind]. eauto. }
  destruct Hcv as (b & Hb). match goal with |- context [bind ?m _] => change m with (@converged R RNum (fi_lo s) (Some lo)) end. rewrite Hb. cbn [bind].
  do 2 eexists. split; [reflexivity|]. unfold stable_iter. cbn [fi_ustar fi_e fi_h fi_factor].
  repeat split.
  - assumption.
  - apply Rdiv_le_0_compat_; [|lra]. apply Rmult_le_pos; [|lra]. apply Rmult_le_pos; lra.
  - apply Rdiv_lt_0_compat; [|lra]. repeat apply Rmult_lt_0_compat; lra.
  - assumption.
  - intros ->. unfold Rdiv. ring.
  - intros. apply Rdiv_lt_0_compat; [|lra]. repeat apply Rmult_lt_0_compat; lra.
  - exact Hnu.
  - exact Hfe.
  - apply frac_lt; [lra|lra| | |lra].
    + repeat apply Rmult_le_pos; lra.
    + rewrite Rmult_1_r. apply Rmult_lt_compat_r; [lra|]. apply Rmult_lt_compat_l; [lra|exact Hfl].
  - apply frac_le; [lra|lra| | |lra].
    + repeat apply Rmult_le_pos; lra.
    + rewrite Rmult_1_r. apply Rmult_le_compat_l; [lra|left; exact Hfl].
Qed.

Lemma flux_loop_stable c n : stable_ctx c -> forall it s, stable_iter s ->
  exists it' s' b, flux_loop c (S n) it s = Ok (it', s', b) /\ stable_iter s' /\
    0 < fi_factor s' /\ (fc_qdiff c = 0 -> fi_e s' = 0) /\ (0 < fc_qdiff c -> 0 < fi_e s') /\ below_neutral c s'.
Proof.
  intros Hc. induction n as [|n IH]; intros it s Hs;
    destruct (flux_body_stable c s Hc Hs) as (s1 & b & Hb & Hs1 & Hrest).
  - cbn [flux_loop]; rewrite Hb; cbn [bind]; destruct b; eauto 8.
  - remember (S n) as m eqn:Em in *. cbn [flux_loop]; rewrite Hb; cbn [bind]; destruct b; [eauto 8|].
    subst m. apply IH. assumption.
Qed.

(** the physical premises of a call: heights, temperatures, pressures *)
Record turb_valid (press ta ts za ea es zq u zu z0 w : R) : Prop := {
  tv_z0 : 0 < z0;
  tv_za : 59/10 * z0 < za; tv_zq : 59/10 * z0 < zq; tv_zu : 59/10 * z0 < zu;
  tv_ta : 0 < ta; tv_ts : 0 < ts;
  tv_ea : 0 < ea < press; tv_es : 0 < es < press;
  tv_w : satw ta = Ok w; tv_sat : ea <= w + 25;
  tv_u : 0 < u
}.

Lemma ln_height z z0 : 0 < z0 -> 59/10 * z0 < z ->
  0 < (z - 2 * (735/100) * z0 / 3) / z0 /\ 0 < ln ((z - 2 * (735/100) * z0 / 3) / z0).
Proof.
  intros H0 Hz.
  assert (1 < (z - 2 * (735/100) * z0 / 3) / z0).
  { apply Rmult_lt_reg_r with z0; [assumption|].
    replace ((z - 2 * (735/100) * z0 / 3) / z0 * z0) with (z - 2 * (735/100) * z0 / 3) by (field; lra). lra. }
  split; [lra|]. rewrite <- ln_1. apply ln_increasing; lra.
Qed.

(** logarithm of the height above the zero plane over the roughness length (libsnobal.py:251-256) *)
Definition log_height (z z0 : R) : R := ln ((z - 2 * (735/100) * z0 / 3) / z0).

(** density of the air at the geometric mean of potential and surface temperature (libsnobal.py:265-270) *)
Definition mean_density press ta ts za ea es w dens : Prop :=
  exists vt, virtual_temperature (sqrt ((ta + 980665/100000/1005 * za) * ts)) (sqrt (Rmin ea w * es)) press = Ok vt /\
    gas_density press MOL_AIR vt = Ok dens /\
    dens <= press * (289644/10000) / (831432/100 * sqrt ((ta + 980665/100000/1005 * za) * ts)).

(** the part of hle1 before the neutral test, for valid inputs: the wind plays no part *)
Lemma hle1_prefix_any press ta ts za ea es zq u' u zu z0 w iu ifc :
  turb_valid press ta ts za ea es zq u' zu z0 w ->
  exists dens lm lh lv qa qs,
    0 < dens /\ 0 < lm /\ 0 < lh /\ 0 < lv /\
    spec_hum (Rmin ea w) press = Ok qa /\ spec_hum es press = Ok qs /\
    lm = log_height zu z0 /\ lh = log_height za z0 /\ lv = log_height zq z0 /\
    mean_density press ta ts za ea es w dens /\
    let at' := ta + 980665/100000/1005 * za in
    hle1 press ta ts za ea es zq u zu z0 iu ifc =
    if Reqb at' ts then Err UnboundLocal
    else
      let us := match iu with None => 41/100 * u / lm | Some v => v end in
      let fac := match ifc with None => 41/100 * us * dens | Some v => v end in
      let* '(it, s, conv) := flux_loop (mkFctx dens at' u zu zq za lm lv lh (qa - qs) (at' - ts)) ITMAX 0%Z
         (mkFlux None us fac ((qa - qs) * fac * 1 / lv) ((at' - ts) * fac * 1005 * 1 / lh)) in
      let ier := if (Z.of_nat ITMAX <=? it)%Z then (-1)%Z else 0%Z in
      let xlh := if Rleb ts (27316/100) then lh_vap ts + lh_fus ts else lh_vap ts in
      Ok (mkHle (fi_h s) (xlh * fi_e s) (fi_e s) ier (fi_ustar s) (fi_factor s) conv).
Proof.
  intros [V0 Va Vq Vu Ta Ts Ea Es W Sat U].
  destruct (ln_height za z0 V0 Va) as (A1 & A2). destruct (ln_height zq z0 V0 Vq) as (Q1 & Q2).
  destruct (ln_height zu z0 V0 Vu) as (U1 & U2).
  assert (Hw : 0 < w) by (eapply satw_pos; eassumption).
  assert (Hm : 0 < Rmin ea w < press).
  { split; [apply Rmin_glb_lt; lra|]. eapply Rle_lt_trans; [apply Rmin_l|lra]. }
  destruct (spec_hum_facts (Rmin ea w) press) as (qa & Hqa & _); [lra|lra|].
  destruct (spec_hum_facts es press) as (qs & Hqs & _); [lra|lra|].
  set (at' := ta + 980665/100000/1005 * za).
  assert (Hat : 0 < at') by (unfold at'; lra).
  destruct (virtual_temperature_ge (sqrt (at' * ts)) (sqrt (Rmin ea w * es)) press) as (vt & Hvt & Hvt2).
  { apply sqrt_lt_R0. apply Rmult_lt_0_compat; lra. }
  { apply sqrt_pos. }
  { rewrite <- (sqrt_square press) by lra. apply sqrt_le_1_alt. nra. }
  { lra. }
  assert (Hvt3 : 0 < vt).
  { eapply Rlt_le_trans; [|exact Hvt2]. apply sqrt_lt_R0. apply Rmult_lt_0_compat; lra. }
  exists (press * (289644/10000) / (831432/100 * vt)),
         (ln ((zu - 2 * (735/100) * z0 / 3) / z0)), (ln ((za - 2 * (735/100) * z0 / 3) / z0)),
         (ln ((zq - 2 * (735/100) * z0 / 3) / z0)), qa, qs.
  split; [apply Rdiv_lt_0_compat; lra|]. do 3 (split; [assumption|]). do 2 (split; [assumption|]).
  do 3 (split; [reflexivity|]). split.
  { exists vt. split; [exact Hvt|]. unfold gas_density. consts. rewrite pdiv_R_ok by lra. split; [reflexivity|].
    fold at'. assert (0 < sqrt (at' * ts)) by (apply sqrt_lt_R0; apply Rmult_lt_0_compat; lra).
    apply frac_le; lra. }
  cbv zeta. fold at'.
  unfold hle1. consts.
  destruct (Rleb_spec z0 0); [lra|]. destruct (Rleb_spec zq z0); [lra|].
  destruct (Rleb_spec zu z0); [lra|]. destruct (Rleb_spec za z0); [lra|].
  destruct (Rleb_spec ta 0); [lra|]. destruct (Rleb_spec ts 0); [lra|].
  destruct (Rleb_spec ea 0); [lra|]. destruct (Rleb_spec es 0); [lra|].
  destruct (Rleb_spec press 0); [lra|]. destruct (Rleb_spec press ea); [lra|].
  destruct (Rleb_spec press es); [lra|]. cbn [orb].
  rewrite W. cbn [bind]. destruct (Rltb_spec w (ea - 25)); [lra|].
  replace (if Rltb w ea then w else ea) with (Rmin ea w).
  2:{ destruct (Rltb_spec w ea); [apply Rmin_right|apply Rmin_left]; lra. }
  rewrite !plog_R_ok by assumption. cbn [bind].
  rewrite Hqa, Hqs. cbn [bind]. fold at'.
  rewrite psqrt_R_ok by (left; apply Rmult_lt_0_compat; lra). cbn [bind].
  rewrite psqrt_R_ok by (left; apply Rmult_lt_0_compat; lra). cbn [bind].
  rewrite Hvt. cbn [bind]. unfold gas_density. consts. rewrite pdiv_R_ok by lra. cbn [bind].
  destruct (Reqb_spec at' ts) as [E|E].
  - rewrite pdiv_R_ok by lra. cbn [bind]. rewrite pdiv_R_ok by lra. cbn [bind].
    rewrite pdiv_R_ok by lra. reflexivity.
  - destruct iu as [v|]; [|rewrite pdiv_R_ok by lra]; cbn [bind];
      rewrite pdiv_R_ok by lra; cbn [bind]; rewrite pdiv_R_ok by lra; cbn [bind]; reflexivity.
Qed.

Lemma hle1_prefix press ta ts za ea es zq u zu z0 w iu ifc :
  turb_valid press ta ts za ea es zq u zu z0 w ->
  exists dens lm lh lv qa qs,
    0 < dens /\ 0 < lm /\ 0 < lh /\ 0 < lv /\
    spec_hum (Rmin ea w) press = Ok qa /\ spec_hum es press = Ok qs /\
    lm = log_height zu z0 /\ lh = log_height za z0 /\ lv = log_height zq z0 /\
    mean_density press ta ts za ea es w dens /\
    let at' := ta + 980665/100000/1005 * za in
    hle1 press ta ts za ea es zq u zu z0 iu ifc =
    if Reqb at' ts then Err UnboundLocal
    else
      let us := match iu with None => 41/100 * u / lm | Some v => v end in
      let fac := match ifc with None => 41/100 * us * dens | Some v => v end in
      let* '(it, s, conv) := flux_loop (mkFctx dens at' u zu zq za lm lv lh (qa - qs) (at' - ts)) ITMAX 0%Z
         (mkFlux None us fac ((qa - qs) * fac * 1 / lv) ((at' - ts) * fac * 1005 * 1 / lh)) in
      let ier := if (Z.of_nat ITMAX <=? it)%Z then (-1)%Z else 0%Z in
      let xlh := if Rleb ts (27316/100) then lh_vap ts + lh_fus ts else lh_vap ts in
      Ok (mkHle (fi_h s) (xlh * fi_e s) (fi_e s) ier (fi_ustar s) (fi_factor s) conv).
Proof. apply hle1_prefix_any. Qed.

Lemma hle1_neutral press ta ts za ea es zq u zu z0 w iu ifc :
  turb_valid press ta ts za ea es zq u zu z0 w ->
  ta + 980665/100000/1005 * za = ts ->
  hle1 press ta ts za ea es zq u zu z0 iu ifc = Err UnboundLocal.
Proof.
  intros V E. destruct (hle1_prefix _ _ _ _ _ _ _ _ _ _ _ iu ifc V)
    as (dens & lm & lh & lv & qa & qs & _ & _ & _ & _ & _ & _ & _ & _ & _ & _ & ->).
  destruct (Reqb_spec (ta + 980665/100000/1005 * za) ts); [reflexivity|lra].
Qed.

Lemma hle1_stable press ta ts za ea es zq u zu z0 w iu ifc :
  turb_valid press ta ts za ea es zq u zu z0 w ->
  ts < ta + 980665/100000/1005 * za -> es <= Rmin ea w ->
  (forall v, iu = Some v -> 0 < v) -> (forall v, ifc = Some v -> 0 < v) ->
  exists r, hle1 press ta ts za ea es zq u zu z0 iu ifc = Ok r /\
    0 < hr_h r /\ 0 <= hr_e r /\ (es < Rmin ea w -> 0 < hr_e r) /\ (es = Rmin ea w -> hr_e r = 0) /\
    0 < hr_ustar r /\ 0 < hr_factor r /\
    exists dens qa qs, mean_density press ta ts za ea es w dens /\ 0 < dens /\
      spec_hum (Rmin ea w) press = Ok qa /\ spec_hum es press = Ok qs /\
      hr_ustar r < 41/100 * u / log_height zu z0 /\
      hr_h r < (ta + 980665/100000/1005 * za - ts) * (41/100 * (41/100 * u / log_height zu z0) * dens) * 1005 / log_height za z0 /\
      hr_e r <= (qa - qs) * (41/100 * (41/100 * u / log_height zu z0) * dens) / log_height zq z0.
Proof.
  intros V E Hes Hiu Hif. destruct (hle1_prefix _ _ _ _ _ _ _ _ _ _ _ iu ifc V)
    as (dens & lm & lh & lv & qa & qs & Hd & Hm & Hh & Hv & Hqa & Hqs & Em & Eh & Ev & Hmd & ->).
  set (at' := ta + 980665/100000/1005 * za) in *.
  destruct (Reqb_spec at' ts); [lra|].
  assert (Hq : 0 <= qa - qs /\ (es < Rmin ea w -> 0 < qa - qs) /\ (es = Rmin ea w -> qa - qs = 0)).
  { destruct V as [V0 Va Vq Vu Ta Ts Ea Es W Sat U].
    destruct (Rle_lt_or_eq_dec _ _ Hes) as [Hlt|Heq].
    - destruct (spec_hum_incr es (Rmin ea w) press) as (q1 & q2 & H1 & H2 & H3); [lra|lra| |].
      { eapply Rle_lt_trans; [apply Rmin_l|lra]. }
      rewrite Hqs in H1. rewrite Hqa in H2. injection H1 as <-. injection H2 as <-. lra.
    - rewrite <- Heq in Hqa. rewrite Hqs in Hqa. injection Hqa as <-. lra. }
  destruct Hq as (Hq0 & Hq1 & Hq2).
  pose proof (tv_u _ _ _ _ _ _ _ _ _ _ _ V) as U. pose proof (tv_ta _ _ _ _ _ _ _ _ _ _ _ V) as Ta.
  pose proof (tv_z0 _ _ _ _ _ _ _ _ _ _ _ V) as V0. pose proof (tv_za _ _ _ _ _ _ _ _ _ _ _ V) as Va.
  pose proof (tv_zq _ _ _ _ _ _ _ _ _ _ _ V) as Vq. pose proof (tv_zu _ _ _ _ _ _ _ _ _ _ _ V) as Vu.
  set (us := match iu with None => 41/100 * u / lm | Some v => v end).
  assert (Hus : 0 < us). { unfold us. destruct iu; [auto|]. apply Rdiv_lt_0_compat; lra. }
  cbv zeta. set (fac := match ifc with None => _ | Some v => v end).
  assert (Hfac : 0 < fac). { unfold fac. destruct ifc; [auto|]. repeat apply Rmult_lt_0_compat; lra. }
  set (cx := mkFctx _ _ _ _ _ _ _ _ _ _ _).
  assert (Hc : stable_ctx cx).
  { unfold stable_ctx, cx. cbn [fc_dens fc_air_temp fc_wind fc_zu fc_zq fc_za fc_ltsm fc_ltsv fc_ltsh fc_qdiff fc_tdiff].
    assert (0 < at') by (unfold at'; lra). repeat split; lra. }
  set (s0 := mkFlux _ _ _ _ _).
  assert (Hs0 : stable_iter s0).
  { unfold stable_iter, s0. cbn [fi_ustar fi_e fi_h]. repeat split; [assumption| |].
    - apply Rdiv_le_0_compat_; [|lra]. rewrite Rmult_1_r. apply Rmult_le_pos; lra.
    - apply Rdiv_lt_0_compat; [|lra]. repeat apply Rmult_lt_0_compat; lra. }
  destruct (flux_loop_stable cx 49 Hc 0%Z s0 Hs0) as (it & s' & b & Hl & (I1 & I2 & I3) & I4 & I5 & I6 & I7 & _ & I8 & I9).
  unfold ITMAX at 1. rewrite Hl. cbn [bind]. eexists. split; [reflexivity|].
  cbn [hr_h hr_e hr_ustar hr_factor]. change (fc_qdiff cx) with (qa - qs) in I5, I6, I9.
  cbn [cx fc_wind fc_ltsm fc_tdiff fc_dens fc_ltsh fc_ltsv] in I7, I8, I9. rewrite <- Em, <- Eh, <- Ev.
  repeat (split; [tauto|]). exists dens, qa, qs. tauto.
Qed.

Lemma latent_sign press ta ts za ea es zq u zu z0 iu ifc r :
  hle1 press ta ts za ea es zq u zu z0 iu ifc = Ok r -> ts <= 27316/100 + 60 ->
  exists k, 0 < k /\ hr_le r = k * hr_e r.
Proof.
  intros H Ht. apply hle1_inv in H. destruct H as (_ & _ & _ & _ & _ & E). rewrite E.
  eexists. split; [|rn; reflexivity]. unfold lh_vap, lh_fus. consts.
  destruct (Rleb_spec ts (27316/100)); lra.
Qed.

Lemma hle1_guards press ta ts za ea es zq u zu z0 iu ifc :
  (z0 <= 0 \/ zq <= z0 \/ zu <= z0 \/ za <= z0 \/ ta <= 0 \/ ts <= 0 \/
   ea <= 0 \/ es <= 0 \/ press <= ea \/ press <= es) ->
  exists m, hle1 press ta ts za ea es zq u zu z0 iu ifc = Err (ValueError m).
Proof.
  intros H. unfold hle1. rn.
  destruct (Rleb_spec z0 0); [cbn; eauto|]. destruct (Rleb_spec zq z0); [cbn; eauto|].
  destruct (Rleb_spec zu z0); [cbn; eauto|]. destruct (Rleb_spec za z0); [cbn; eauto|]. cbn [orb].
  destruct (Rleb_spec ta 0); [cbn; eauto|]. destruct (Rleb_spec ts 0); [cbn; eauto|]. cbn [orb].
  destruct (Rleb_spec ea 0); [cbn; eauto|]. destruct (Rleb_spec es 0); [cbn; eauto|].
  destruct (Rleb_spec press 0); [cbn; eauto|]. destruct (Rleb_spec press ea); [cbn; eauto|].
  destruct (Rleb_spec press es); [cbn; eauto|]. exfalso. lra.
Qed.
