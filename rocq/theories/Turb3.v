(** * The flux-profile relations (C70): specification and loop invariant *)
From Coq Require Import Reals String ZArith Bool Lia Lra List.
Import ListNotations.
From Verif Require Import Num Real Constants Functions Libsnobal Input SnowState Snobal Phys Turb Turb2.
Open Scope R_scope.

(** Specification.  Stability corrections at [zeta] = height / Obukhov length, for momentum and
    for heat and vapour: -5.2 zeta (at most -5.2) in stable air, the Businger-Dyer functions in
    unstable air, none in neutral air. *)
Definition stable_correction (zeta : R) : R := - (52/10) * Rmin zeta 1.
Definition correction_momentum (zeta : R) : R :=
  if Rlt_dec 0 zeta then stable_correction zeta
  else if Rlt_dec zeta 0 then
    let x := sqrt (sqrt (1 - 16 * zeta)) in 2 * ln ((1 + x) / 2) + ln ((1 + x ^ 2) / 2) - 2 * atan x + PI / 2
  else 0.
Definition correction_scalar (zeta : R) : R :=
  if Rlt_dec 0 zeta then stable_correction zeta
  else if Rlt_dec zeta 0 then 2 * ln ((1 + sqrt (1 - 16 * zeta)) / 2)
  else 0.

(** an Obukhov length; [None] is infinity (no buoyancy) *)
Definition over (z : R) (L : option R) : R := match L with Some l => z / l | None => 0 end.

(** air over the snow: density, temperature brought down to the surface dry-adiabatically, wind,
    roughness length, heights of thermometer, hygrometer and anemometer, differences of
    temperature and humidity between the air and the surface *)
Record Air := mkAir { a_dens : R; a_temp : R; a_wind : R; a_z0 : R; a_za : R; a_zq : R; a_zu : R; a_dt : R; a_dq : R }.

(** friction velocity, sensible heat and vapour flux under Obukhov length [L].  0.41 is von
    Karman's constant, 1005 the heat capacity of air [J/kg/K]. *)
Record profile (a : Air) (L : option R) (ustar h e : R) : Prop := {
  pr_length : L <> Some 0;
  pr_ustar : ustar = 41/100 * a_wind a / (log_height (a_zu a) (a_z0 a) - correction_momentum (over (a_zu a) L));
  pr_h : h = 1005 * a_dens a * (41/100) * ustar * a_dt a / (log_height (a_za a) (a_z0 a) - correction_scalar (over (a_za a) L));
  pr_e : e = a_dens a * (41/100) * ustar * a_dq a / (log_height (a_zq a) (a_z0 a) - correction_scalar (over (a_zq a) L));
  pr_finite : log_height (a_zu a) (a_z0 a) <> correction_momentum (over (a_zu a) L) /\
    log_height (a_za a) (a_z0 a) <> correction_scalar (over (a_za a) L) /\
    log_height (a_zq a) (a_z0 a) <> correction_scalar (over (a_zq a) L)
}.

(** the Obukhov length of given fluxes: 9.80665 m/s2 is gravity, 0.61 corrects for the buoyancy of vapour *)
Definition obukhov_length (a : Air) (ustar h e : R) (L : option R) : Prop :=
  let buoyancy := 41/100 * (980665/100000) * (h / (a_temp a * 1005) + 61/100 * e) in
  match L with Some l => buoyancy <> 0 /\ l = ustar ^ 3 * a_dens a / buoyancy | None => buoyancy = 0 end.

(** ** The model's loop *)
Lemma psi_momentum z r : psi z SM = Ok r -> r = correction_momentum z.
Proof.
  unfold psi, correction_momentum, stable_correction. rn. consts. destruct (Rltb_spec 0 z) as [H|H].
  - destruct (Rlt_dec 0 z); [|lra]. intros X. ok_inj X. subst r.
    destruct (Rltb_spec 1 z); [rewrite Rmin_right by lra|rewrite Rmin_left by lra]; ring.
  - destruct (Rlt_dec 0 z); [lra|]. destruct (Rltb_spec z 0) as [H2|H2].
    + destruct (Rlt_dec z 0); [|lra]. intros X. inv_bind X as rr H0. inv_bind X as x Hx. inv_bind X as l1 H1. inv_bind X as l2 H3.
      apply psqrt_R in H0. apply psqrt_R in Hx. apply plog_R in H1. apply plog_R in H3.
      destruct H0 as (_ & ->), Hx as (_ & ->), H1 as (_ & ->), H3 as (_ & ->). ok_inj X. subst r. cbv zeta.
      replace (sqrt (sqrt (1 - 16 * z)) ^ 2) with (sqrt (sqrt (1 - 16 * z)) * sqrt (sqrt (1 - 16 * z))) by ring. reflexivity.
    + destruct (Rlt_dec z 0); [lra|]. intros X. ok_inj X. auto.
Qed.
Lemma psi_scalar z code r : code = SH \/ code = SV -> psi z code = Ok r -> r = correction_scalar z.
Proof.
  intros Hc. unfold psi, correction_scalar, stable_correction. rn. consts. destruct (Rltb_spec 0 z) as [H|H].
  - destruct (Rlt_dec 0 z); [|lra]. intros X. ok_inj X. subst r.
    destruct (Rltb_spec 1 z); [rewrite Rmin_right by lra|rewrite Rmin_left by lra]; ring.
  - destruct (Rlt_dec 0 z); [lra|]. destruct (Rltb_spec z 0) as [H2|H2].
    + destruct (Rlt_dec z 0); [|lra]. intros X. inv_bind X as rr H0. inv_bind X as x Hx.
      apply psqrt_R in H0. apply psqrt_R in Hx. destruct H0 as (_ & ->), Hx as (H9 & ->).
      assert (Y : (let* l := plog ((1 + sqrt (sqrt (1 - 16 * z)) * sqrt (sqrt (1 - 16 * z))) / 2) in Ok (2 * l)) = Ok r).
      { destruct Hc; subst code; exact X. }
      clear X. inv_bind Y as l Hl. apply plog_R in Hl. destruct Hl as (_ & ->). ok_inj Y. subst r.
      rewrite sqrt_sqrt by exact H9. reflexivity.
    + destruct (Rlt_dec z 0); [lra|]. intros X. ok_inj X. auto.
Qed.

Lemma psi_over_momentum z L r : psi_over z L SM = Ok r -> L <> Some 0 /\ r = correction_momentum (over z L).
Proof.
  destruct L as [l|]; cbn [psi_over over].
  - intros H. inv_bind H as q Hq. apply pdiv_R in Hq. destruct Hq as (Hl & ->). split; [congruence|]. apply psi_momentum; exact H.
  - intros H. ok_inj H. split; [discriminate|]. subst r. unfold correction_momentum. rn.
    destruct (Rlt_dec 0 0); [lra|]. reflexivity.
Qed.
Lemma psi_over_scalar z L code r : code = SH \/ code = SV -> psi_over z L code = Ok r -> r = correction_scalar (over z L).
Proof.
  intros Hc. destruct L as [l|]; cbn [psi_over over].
  - intros H. inv_bind H as q Hq. apply pdiv_R in Hq. destruct Hq as (Hl & ->). apply (psi_scalar _ code); assumption.
  - intros H. ok_inj H. subst r. unfold correction_scalar. rn.
    destruct (Rlt_dec 0 0); [lra|]. reflexivity.
Qed.

Definition ctx_of (a : Air) : flux_ctx R :=
  mkFctx (a_dens a) (a_temp a) (a_wind a) (a_zu a) (a_zq a) (a_za a)
    (log_height (a_zu a) (a_z0 a)) (log_height (a_zq a) (a_z0 a)) (log_height (a_za a) (a_z0 a)) (a_dq a) (a_dt a).

Definition good (a : Air) (s : flux_iter R) : Prop :=
  profile a (fi_lo s) (fi_ustar s) (fi_h s) (fi_e s) /\ fi_factor s = 41/100 * fi_ustar s * a_dens a.

Definition close (x y : R) : Prop := Rabs (x - y) < 1/100000 /\ Rabs ((x - y) / y) < 1/100000.

Lemma flux_body_good a s s' b : flux_body (ctx_of a) s = Ok (s', b) ->
  good a s' /\ obukhov_length a (fi_ustar s) (fi_h s) (fi_e s) (fi_lo s') /\
  (b = true -> exists l l', fi_lo s = Some l /\ fi_lo s' = Some l' /\ close l l').
Proof.
  intros H. unfold flux_body in H. inv_bind H as lo Hlo. inv_bind H as pm Hpm. inv_bind H as us Hus. inv_bind H as pv Hpv.
  inv_bind H as e He. inv_bind H as ph Hph. inv_bind H as h Hh. inv_bind H as st Hst. ok_inj H.
  pose proof (f_equal fst H) as E1. pose proof (f_equal snd H) as E2. cbn [fst snd] in E1, E2. clear H. subst s' b.
  unfold good. cbn [fi_lo fi_ustar fi_h fi_e fi_factor].
  apply pdiv_R in Hus. apply pdiv_R in He. apply pdiv_R in Hh.
  apply psi_over_momentum in Hpm. apply (psi_over_scalar _ _ SV) in Hpv; [|auto]. apply (psi_over_scalar _ _ SH) in Hph; [|auto].
  cbn [ctx_of fc_dens fc_air_temp fc_wind fc_zu fc_zq fc_za fc_ltsm fc_ltsv fc_ltsh fc_qdiff fc_tdiff] in *.
  destruct Hpm as (HL & ->). subst pv ph. destruct Hus as (N1 & Eus), He as (N2 & Ee), Hh as (N3 & Eh). rn. consts.
  split; [split; [split|]|split].
  - exact HL.
  - exact Eus.
  - rewrite Eh. unfold Rdiv. ring.
  - rewrite Ee. unfold Rdiv. ring.
  - repeat split; intros X; rewrite X in *; lra.
  - ring.
  - unfold obukhov in Hlo. inv_bind Hlo as q Hq. apply pdiv_R in Hq. destruct Hq as (Nq & ->).
    cbn [ctx_of fc_dens fc_air_temp] in *. rn. consts. unfold obukhov_length.
    destruct (Reqb_spec (41/100 * (980665/100000) * (fi_h s / (a_temp a * 1005) + 61/100 * fi_e s)) 0) as [E|E]; ok_inj Hlo; subst lo; [exact E|].
    split; [exact E|]. f_equal. ring.
  - intros ->. unfold converged in Hst. destruct (fi_lo s) as [l|]; [|discriminate]. destruct lo as [l'|]; [|discriminate].
    exists l, l'. split; [reflexivity|]. split; [reflexivity|]. unfold close. rn. consts.
    destruct (Rltb_spec (Rabs (l - l')) (1/100000)) as [A|A]; [|discriminate].
    inv_bind Hst as q Hq. apply pdiv_R in Hq. destruct Hq as (_ & ->). ok_inj Hst.
    destruct (Rltb_spec (Rabs ((l - l') / l')) (1/100000)); [auto|discriminate].
Qed.

Lemma flux_loop_good a n : forall it s it' s' b, fi_lo s = None \/ good a s ->
  flux_loop (ctx_of a) n it s = Ok (it', s', b) ->
  good a s' /\ exists s0, obukhov_length a (fi_ustar s0) (fi_h s0) (fi_e s0) (fi_lo s') /\
    (b = true -> exists l l', fi_lo s0 = Some l /\ fi_lo s' = Some l' /\ close l l' /\ good a s0).
Proof.
  induction n as [|n IH]; intros it s it' s' b Hs H; [discriminate|].
  cbn [flux_loop] in H. inv_bind H as [s1 stop] Hb. destruct (flux_body_good _ _ _ _ Hb) as (G & O & C).
  assert (HC : stop = true -> exists l l', fi_lo s = Some l /\ fi_lo s1 = Some l' /\ close l l' /\ good a s).
  { intros ->. destruct (C eq_refl) as (l & l' & A1 & A2 & A3). exists l, l'. destruct Hs as [Hs|Hs]; [congruence|auto]. }
  destruct stop.
  - ok_inj H. injection H as _ <- <-. split; [exact G|]. exists s. split; [exact O|exact HC].
  - destruct n as [|n].
    + ok_inj H. injection H as _ <- <-. split; [exact G|]. exists s. split; [exact O|discriminate].
    + apply (IH _ s1 _ _ _ (or_intror G) H).
Qed.

(** ** hle1 *)
(** density of the air at temperature [t] and vapour pressure [e] under pressure [P]: 28.9644 and
    18.0153 are the molecular weights of air and water, 8314.32 the gas constant *)
Definition moist_air_density (P t e : R) : R :=
  P * (289644/10000) / (831432/100 * (t / (1 - (1 - 180153/10000 / (289644/10000)) * (e / P)))).
Definition specific_humidity (P e : R) : R := e * (180153/10000) / (289644/10000 * P + e * (180153/10000 - 289644/10000)).

(** the air of a call: dry-adiabatic lapse rate 9.80665/1005 K/m; mean temperature and vapour
    pressure are geometric means *)
Definition air_over_snow (P ta ts za ea es zq u zu z0 : R) : Air :=
  let t := ta + 980665/100000/1005 * za in
  mkAir (moist_air_density P (sqrt (t * ts)) (sqrt (ea * es))) t u z0 za zq zu (t - ts)
    (specific_humidity P ea - specific_humidity P es).

(** latent heat [J/kg] of vapour leaving a surface at [ts]: of sublimation for snow *)
Definition latent_heat (ts : R) : R :=
  if Rle_dec ts (27316/100) then 2500000 - 295573/100 * (ts - 27316/100) + (333600 + 16667/100 * (27316/100 - ts))
  else 2500000 - 295573/100 * (ts - 27316/100).

Lemma hle1_profile P ta ts za ea es zq u zu z0 iu ifc r :
  hle1 P ta ts za ea es zq u zu z0 iu ifc = Ok r ->
  exists w L, satw ta = Ok w /\
    let a := air_over_snow P ta ts za (Rmin ea w) es zq u zu z0 in
    profile a L (hr_ustar r) (hr_h r) (hr_e r) /\ hr_le r = latent_heat ts * hr_e r /\
    hr_factor r = 41/100 * hr_ustar r * a_dens a /\
    exists ustar' h' e', obukhov_length a ustar' h' e' L /\
      (hr_conv r = true -> exists l l', L = Some l' /\ profile a (Some l) ustar' h' e' /\ close l l').
Proof.
  intros H. unfold hle1 in H. rn.
  destruct (Rleb_spec z0 0); [discriminate|]. destruct (Rleb_spec zq z0); [discriminate|].
  destruct (Rleb_spec zu z0); [discriminate|]. destruct (Rleb_spec za z0); [discriminate|]. cbn [orb] in H.
  destruct (Rleb_spec ta 0); [discriminate|]. destruct (Rleb_spec ts 0); [discriminate|]. cbn [orb] in H.
  destruct (Rleb_spec ea 0); [discriminate|]. destruct (Rleb_spec es 0); [discriminate|].
  destruct (Rleb_spec P 0); [discriminate|]. destruct (Rleb_spec P ea); [discriminate|].
  destruct (Rleb_spec P es); [discriminate|]. cbn [orb] in H.
  inv_bind H as w Hw. pose proof (satw_pos _ _ Hw) as Hwp. destruct (Rltb w _); [discriminate|].
  replace (if Rltb w ea then w else ea) with (Rmin ea w) in H.
  2:{ destruct (Rltb_spec w ea); [apply Rmin_right|apply Rmin_left]; lra. }
  assert (Hea : 0 < Rmin ea w < P).
  { split; [apply Rmin_glb_lt; lra|]. eapply Rle_lt_trans; [apply Rmin_l|lra]. }
  inv_bind H as l1 Hl1. inv_bind H as l2 Hl2. inv_bind H as l3 Hl3.
  inv_bind H as qa Hqa. inv_bind H as qs Hqs. consts.
  set (at' := ta + _) in *.
  assert (Hat : 0 < at') by (unfold at'; lra).
  rewrite psqrt_R_ok in H by (left; apply Rmult_lt_0_compat; lra). cbn [bind] in H.
  rewrite psqrt_R_ok in H by (left; apply Rmult_lt_0_compat; lra). cbn [bind] in H.
  inv_bind H as vt Hvt. inv_bind H as dn Hdn.
  destruct (Reqb at' ts).
  { inv_bind H as us Hus. inv_bind H as x1 Hx1. inv_bind H as x2 Hx2. discriminate. }
  inv_bind H as us Hus. inv_bind H as e0 He0. inv_bind H as h0 Hh0. inv_bind H as [[it s] cv] Hl.
  apply plog_R in Hl1. apply plog_R in Hl2. apply plog_R in Hl3.
  destruct Hl1 as (_ & ->), Hl2 as (_ & ->), Hl3 as (_ & ->).
  set (a := air_over_snow P ta ts za (Rmin ea w) es zq u zu z0).
  assert (Edn : dn = a_dens a).
  { unfold virtual_temperature in Hvt. inv_bind Hvt as q Hq. apply pdiv_R in Hq. apply pdiv_R in Hvt.
    destruct Hq as (_ & ->), Hvt as (_ & ->). unfold gas_density in Hdn. apply pdiv_R in Hdn. destruct Hdn as (_ & ->).
    consts. reflexivity. }
  assert (Eq : qa - qs = a_dq a).
  { unfold spec_hum in Hqa, Hqs. apply pdiv_R in Hqa. apply pdiv_R in Hqs. destruct Hqa as (_ & ->), Hqs as (_ & ->).
    consts. reflexivity. }
  rewrite Edn, Eq in Hl.
  change (mkFctx _ _ _ _ _ _ _ _ _ _ _) with (ctx_of a) in Hl.
  pose proof (fun X => flux_loop_good a _ _ _ _ _ _ X Hl) as FG. specialize (FG (or_introl eq_refl)). destruct FG as ((G & GF) & s0 & O & C).
  ok_inj H. subst r. cbn [hr_ustar hr_h hr_e hr_le hr_factor hr_conv].
  exists w, (fi_lo s). split; [exact Hw|]. cbv zeta. fold a. split; [exact G|]. split.
  { f_equal. unfold latent_heat, lh_vap, lh_fus. consts. destruct (Rleb_spec ts (27316/100)); destruct (Rle_dec ts (27316/100)); lra. }
  split; [exact GF|]. exists (fi_ustar s0), (fi_h s0), (fi_e s0). split; [exact O|].
  intros Hc. destruct (C Hc) as (l & l' & A1 & A2 & A3 & A4 & _). exists l, l'. rewrite A1 in A4. auto.
Qed.
