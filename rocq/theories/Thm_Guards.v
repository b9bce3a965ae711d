(** * Theorem C97: exactly when the turbulent-flux routine rejects its input.

    Over the real numbers: the inputs for which hle1 raises ValueError, and those for which it raises UnboundLocalError,
    are characterised exactly; whatever else goes wrong in it is a division by zero.  A height counts as too low up to 4.9
    roughness lengths, although the check in the code only compares it with one: below that the logarithm of its height above
    the zero plane is not defined.  For the model: exactly when a run step over snow raises ValueError. *)
From Coq Require Import Reals ZArith Bool String Lia Lra List.
Import ListNotations.
From Verif Require Import Num Real Constants Functions Libsnobal Input SnowState Snobal PySnobal
  SchedSpec Sched Frame SchedProps Spec Averages Forcing Phys Turb Mass MassEnd RunMass Run Progress Progress2 Thm_Turb Thm_Pack Thm_Progress Thm_Vapour.
Open Scope R_scope.
Implicit Types s : SnowState R.

(** ** Specification *)
(** a height above the snow at which no logarithmic profile exists: 4.9 roughness lengths or less *)
Definition too_low (z z0 : R) : Prop := z <= 49/10 * z0.

(** what a call must not be given *)
Definition rejected (press ta ts za ea es zq zu z0 : R) : Prop :=
  z0 <= 0 \/ too_low za z0 \/ too_low zq z0 \/ too_low zu z0 \/
  ta <= 0 \/ ts <= 0 \/ ea <= 0 \/ es <= 0 \/ press <= ea \/ press <= es \/
  over_water ta + 25 < ea.

(** ** No other ValueError *)
Definition quiet {A} (r : result A) : Prop := match r with Ok _ | Err ZeroDivision => True | _ => False end.
Lemma quiet_bind {A B} (m : result A) (f : A -> result B) : quiet m -> (forall a, m = Ok a -> quiet (f a)) -> quiet (bind m f).
Proof. destruct m as [a|e]; cbn [bind]; intros H1 H2; [apply H2; reflexivity|exact H1]. Qed.
Lemma quiet_pdiv (a b : R) : quiet (pdiv a b).
Proof. unfold pdiv. destruct (neqb _ _); exact I. Qed.
Lemma quiet_plog (a : R) : 0 < a -> quiet (plog a).
Proof. intros H. rewrite plog_R_ok by assumption. exact I. Qed.
Lemma quiet_psqrt (a : R) : 0 <= a -> quiet (psqrt a).
Proof. intros H. rewrite psqrt_R_ok by assumption. exact I. Qed.

Lemma quiet_psi z code : code <> OtherCode -> quiet (psi (T:=R) z code).
Proof.
  intros Hc. unfold psi. consts. rn. destruct (Rltb_spec 0 z); [exact I|]. destruct (Rltb_spec z 0); [|exact I].
  assert (H1 : 0 <= 1 - 16 * z) by lra.
  rewrite psqrt_R_ok by exact H1. cbn [bind]. rewrite psqrt_R_ok by apply sqrt_pos. cbn [bind].
  set (x := sqrt (sqrt (1 - 16 * z))). pose proof (sqrt_pos (sqrt (1 - 16 * z)) : 0 <= x). pose proof (Rle_0_sqr x) as Hx. unfold Rsqr in Hx.
  destruct code; try congruence; rewrite ?plog_R_ok by lra; cbn [bind]; exact I.
Qed.
Lemma quiet_psi_over z lo code : code <> OtherCode -> quiet (psi_over (T:=R) z lo code).
Proof. intros H. destruct lo; [|exact I]. cbn [psi_over]. apply quiet_bind; [apply quiet_pdiv|]. intros x _. apply quiet_psi; assumption. Qed.
Lemma quiet_converged a b : quiet (converged (T:=R) a b).
Proof.
  unfold converged. destruct a, b; try exact I. destruct (nltb _ _); [|exact I]. apply quiet_bind; [apply quiet_pdiv|]. intros x _. exact I.
Qed.
Lemma quiet_body c (s : flux_iter R) : quiet (flux_body (T:=R) c s).
Proof.
  unfold flux_body. apply quiet_bind; [|intros lo _].
  { unfold obukhov. apply quiet_bind; [apply quiet_pdiv|]. intros q _. destruct (neqb _ _); exact I. }
  apply quiet_bind; [apply quiet_psi_over; discriminate|intros pm _]. apply quiet_bind; [apply quiet_pdiv|intros us _].
  apply quiet_bind; [apply quiet_psi_over; discriminate|intros pv _]. apply quiet_bind; [apply quiet_pdiv|intros e _].
  apply quiet_bind; [apply quiet_psi_over; discriminate|intros ph _]. apply quiet_bind; [apply quiet_pdiv|intros h _].
  apply quiet_bind; [apply quiet_converged|intros st _]. exact I.
Qed.
Lemma quiet_loop c n : forall it (s : flux_iter R), quiet (flux_loop (T:=R) c (S n) it s).
Proof.
  induction n as [|n IH]; intros it s.
  - cbn [flux_loop]. apply quiet_bind; [apply quiet_body|]. intros [s' b] _. destruct b; exact I.
  - remember (S n) as m eqn:Em. cbn [flux_loop]. apply quiet_bind; [apply quiet_body|]. intros [s' b] _.
    destruct b; [exact I|]. subst m. apply IH.
Qed.
Lemma height_log z z0 : 0 < z0 -> ~ too_low z z0 -> plog (T:=R) ((z - 2 * (735/100) * z0 / 3) / z0) = Ok (log_height z z0).
Proof.
  intros H0 H. unfold too_low in H. apply plog_R_ok. apply Rdiv_lt_0_compat; lra.
Qed.
Lemma height_log_low z z0 : 0 < z0 -> too_low z z0 -> exists m, plog (T:=R) ((z - 2 * (735/100) * z0 / 3) / z0) = Err (ValueError m).
Proof.
  intros H0 H. unfold too_low in H. unfold plog. rn. destruct (Rltb_spec 0 ((z - 2 * (735/100) * z0 / 3) / z0)) as [X|X]; [exfalso|eauto].
  apply (Rmult_lt_compat_r z0) in X; [|assumption]. unfold Rdiv in X. rewrite Rmult_assoc, (Rinv_l z0) in X by lra. lra.
Qed.

(** the calls that are not rejected: neutral air is not handled, the rest can at most divide by zero *)
Lemma accepted press ta ts za ea es zq u zu z0 iu ifc : ~ rejected press ta ts za ea es zq zu z0 ->
  (potential_temperature ta za <> ts -> quiet (hle1 press ta ts za ea es zq u zu z0 iu ifc)) /\
  (potential_temperature ta za = ts -> hle1 press ta ts za ea es zq u zu z0 iu ifc =
     if Reqb (log_height zu z0) 0 || Reqb (log_height zq z0) 0 || Reqb (log_height za z0) 0 then Err ZeroDivision else Err UnboundLocal).
Proof.
  unfold rejected. intros N.
  assert (Na : ~ too_low za z0) by tauto. assert (Nq : ~ too_low zq z0) by tauto. assert (Nu : ~ too_low zu z0) by tauto.
  assert (V0 : 0 < z0) by (apply Rnot_le_lt; tauto).
  assert (Ta : 0 < ta) by (apply Rnot_le_lt; tauto). assert (Ts : 0 < ts) by (apply Rnot_le_lt; tauto).
  assert (Ea : 0 < ea < press) by (split; apply Rnot_le_lt; tauto). assert (Es : 0 < es < press) by (split; apply Rnot_le_lt; tauto).
  destruct (satw_defined ta Ta) as (w & W & Hw).
  assert (Ew : w = over_water ta) by (pose proof (proj1 (C33_formulas ta Ta)); congruence).
  assert (Sat : ea <= w + 25). { apply Rnot_lt_le. intros X. apply N. do 10 right. lra. }
  assert (Hm : 0 < Rmin ea w < press).
  { split; [apply Rmin_glb_lt; lra|]. eapply Rle_lt_trans; [apply Rmin_l|lra]. }
  destruct (spec_hum_facts (Rmin ea w) press) as (qa & Hqa & _); [lra|lra|].
  destruct (spec_hum_facts es press) as (qs & Hqs & _); [lra|lra|].
  set (at' := potential_temperature ta za).
  assert (Hza : 0 < za) by (unfold too_low in Na; lra).
  assert (Hat : 0 < at') by (unfold at', potential_temperature; lra).
  destruct (virtual_temperature_ge (sqrt (at' * ts)) (sqrt (Rmin ea w * es)) press) as (vt & Hvt & Hvt2).
  { apply sqrt_lt_R0. apply Rmult_lt_0_compat; lra. }
  { apply sqrt_pos. }
  { rewrite <- (sqrt_square press) by lra. apply sqrt_le_1_alt. nra. }
  { lra. }
  assert (Hvt3 : 0 < vt).
  { eapply Rlt_le_trans; [|exact Hvt2]. apply sqrt_lt_R0. apply Rmult_lt_0_compat; lra. }
  assert (E : hle1 press ta ts za ea es zq u zu z0 iu ifc = 
    let dens := press * (289644/10000) / (831432/100 * vt) in
    if Reqb at' ts then
      let* ustar := pdiv (41/100 * u) (log_height zu z0) in
      let* _ := pdiv ((qa - qs) * (41/100 * ustar * dens) * 1) (log_height zq z0) in
      let* _ := pdiv ((at' - ts) * (41/100 * ustar * dens) * 1005 * 1) (log_height za z0) in Err UnboundLocal
    else
      let* us := match iu with None => pdiv (41/100 * u) (log_height zu z0) | Some v => Ok v end in
      let fac := match ifc with None => 41/100 * us * dens | Some v => v end in
      let* e := pdiv ((qa - qs) * fac * 1) (log_height zq z0) in
      let* h := pdiv ((at' - ts) * fac * 1005 * 1) (log_height za z0) in
      let* '(it, s, conv) := flux_loop (mkFctx dens at' u zu zq za (log_height zu z0) (log_height zq z0) (log_height za z0) (qa - qs) (at' - ts)) ITMAX 0%Z
         (mkFlux None us fac e h) in
      let ier := if (Z.of_nat ITMAX <=? it)%Z then (-1)%Z else 0%Z in
      let xlh := if Rleb ts (27316/100) then lh_vap ts + lh_fus ts else lh_vap ts in
      Ok (mkHle (fi_h s) (xlh * fi_e s) (fi_e s) ier (fi_ustar s) (fi_factor s) conv)).
  { cbv zeta. unfold hle1. consts. unfold too_low in *.
    destruct (Rleb_spec z0 0); [lra|]. destruct (Rleb_spec zq z0); [lra|].
    destruct (Rleb_spec zu z0); [lra|]. destruct (Rleb_spec za z0); [lra|].
    destruct (Rleb_spec ta 0); [lra|]. destruct (Rleb_spec ts 0); [lra|].
    destruct (Rleb_spec ea 0); [lra|]. destruct (Rleb_spec es 0); [lra|].
    destruct (Rleb_spec press 0); [lra|]. destruct (Rleb_spec press ea); [lra|].
    destruct (Rleb_spec press es); [lra|]. cbn [orb].
    rewrite W. cbn [bind]. destruct (Rltb_spec w (ea - 25)); [lra|].
    replace (if Rltb w ea then w else ea) with (Rmin ea w).
    2:{ destruct (Rltb_spec w ea); [apply Rmin_right|apply Rmin_left]; lra. }
    rewrite !height_log by assumption. cbn [bind].
    rewrite Hqa, Hqs. cbn [bind]. change (ta + 980665 / 100000 / 1005 * za) with at'.
    rewrite psqrt_R_ok by (left; apply Rmult_lt_0_compat; lra). cbn [bind].
    rewrite psqrt_R_ok by (left; apply Rmult_lt_0_compat; lra). cbn [bind].
    rewrite Hvt. cbn [bind]. unfold gas_density. consts. rewrite pdiv_R_ok by lra. cbn [bind].
    reflexivity. }
  split; intros Heq; rewrite E; cbv zeta; destruct (Reqb_spec at' ts) as [X|X]; try congruence.
  - apply quiet_bind; [destruct iu; [exact I|apply quiet_pdiv]|intros us _].
    apply quiet_bind; [apply quiet_pdiv|intros e _]. apply quiet_bind; [apply quiet_pdiv|intros h _].
    apply quiet_bind; [change ITMAX with (S 49); apply quiet_loop|]. intros [[it s] cv] _. exact I.
  - unfold pdiv. rn. destruct (Reqb (log_height zu z0) 0); [reflexivity|]. cbn [bind orb].
    destruct (Reqb (log_height zq z0) 0); [reflexivity|]. cbn [bind orb].
    destruct (Reqb (log_height za z0) 0); reflexivity.
Qed.

(** ** The theorems about the routine *)
Lemma rejected_dec press ta ts za ea es zq zu z0 : rejected press ta ts za ea es zq zu z0 \/ ~ rejected press ta ts za ea es zq zu z0.
Proof. apply Classical_Prop.classic. Qed.

Lemma rejected_raises press ta ts za ea es zq u zu z0 iu ifc : rejected press ta ts za ea es zq zu z0 ->
  exists m, hle1 press ta ts za ea es zq u zu z0 iu ifc = Err (ValueError m).
Proof.
  intros H.
  destruct (Classical_Prop.classic (z0 <= 0 \/ zq <= z0 \/ zu <= z0 \/ za <= z0 \/ ta <= 0 \/ ts <= 0 \/
   ea <= 0 \/ es <= 0 \/ press <= ea \/ press <= es)) as [G|G]; [exact (hle1_guards _ _ _ _ _ _ _ _ _ _ _ _ G)|].
  assert (V0 : 0 < z0) by (apply Rnot_le_lt; tauto).
  assert (G1 : z0 < zq /\ z0 < zu /\ z0 < za /\ 0 < ta /\ 0 < ts /\ 0 < ea /\ 0 < es /\ ea < press /\ es < press)
    by (repeat split; apply Rnot_le_lt; tauto).
  destruct G1 as (A1 & A2 & A3 & A4 & A5 & A6 & A7 & A8 & A9).
  destruct (satw_defined ta A4) as (w & W & Hw).
  assert (K : too_low zu z0 \/ too_low za z0 \/ too_low zq z0 \/ w + 25 < ea).
  { destruct H as [H|[H|[H|[H|[H|[H|[H|[H|[H|[H|H]]]]]]]]]]; try tauto; try lra.
    right; right; right. pose proof (proj1 (C33_formulas ta A4)). assert (w = over_water ta) by congruence. lra. }
  pose proof (height_log zu z0 V0) as Lu. pose proof (height_log za z0 V0) as La.
  pose proof (height_log_low zu z0 V0) as Mu. pose proof (height_log_low za z0 V0) as Ma. pose proof (height_log_low zq z0 V0) as Mq.
  unfold too_low in *. unfold hle1. consts.
  destruct (Rleb_spec z0 0); [lra|]. destruct (Rleb_spec zq z0); [lra|].
  destruct (Rleb_spec zu z0); [lra|]. destruct (Rleb_spec za z0); [lra|].
  destruct (Rleb_spec ta 0); [lra|]. destruct (Rleb_spec ts 0); [lra|].
  destruct (Rleb_spec ea 0); [lra|]. destruct (Rleb_spec es 0); [lra|].
  destruct (Rleb_spec press 0); [lra|]. destruct (Rleb_spec press ea); [lra|].
  destruct (Rleb_spec press es); [lra|]. cbn [orb].
  rewrite W. cbn [bind]. destruct (Rltb_spec w (ea - 25)); [eauto|].
  destruct (Rle_dec zu (49/10 * z0)) as [Xu|Xu].
  { destruct (Mu Xu) as (m & ->). cbn [bind]. eauto. }
  rewrite (Lu Xu). cbn [bind].
  destruct (Rle_dec za (49/10 * z0)) as [Xa|Xa].
  { destruct (Ma Xa) as (m & ->). cbn [bind]. eauto. }
  rewrite (La Xa). cbn [bind].
  destruct (Rle_dec zq (49/10 * z0)) as [Xq|Xq].
  { destruct (Mq Xq) as (m & ->). cbn [bind]. eauto. }
  lra.
Qed.

(** ValueError: exactly for the rejected inputs, whatever the wind and the start values of the iteration *)
Theorem C97_value_errors (press ta ts za ea es zq u zu z0 : R) iu ifc :
  (exists m, hle1 press ta ts za ea es zq u zu z0 iu ifc = Err (ValueError m)) <-> rejected press ta ts za ea es zq zu z0.
Proof.
  split; [|apply rejected_raises]. intros (m & H).
  destruct (rejected_dec press ta ts za ea es zq zu z0) as [R|R]; [exact R|exfalso].
  destruct (accepted press ta ts za ea es zq u zu z0 iu ifc R) as (A & B).
  destruct (Req_dec (potential_temperature ta za) ts) as [E|E].
  - rewrite (B E) in H. destruct (_ || _ || _); discriminate.
  - specialize (A E). rewrite H in A. exact A.
Qed.

(** a height above the snow of exactly 5.9 roughness lengths has a logarithm of zero *)
Definition one_unit (z z0 : R) : Prop := z = 59/10 * z0.
Lemma log_height_zero z z0 : 0 < z0 -> ~ too_low z z0 -> (Reqb (log_height z z0) 0 = true <-> one_unit z z0).
Proof.
  intros H0 H. unfold too_low, one_unit in *. destruct (Reqb_spec (log_height z z0) 0) as [X|X]; unfold log_height in X.
  - split; [intros _|reflexivity]. rewrite <- ln_1 in X.
    apply ln_inv in X; [|apply Rdiv_lt_0_compat; lra|lra].
    assert (Y : (z - 2 * (735/100) * z0 / 3) / z0 * z0 = 1 * z0) by (rewrite X; reflexivity).
    unfold Rdiv in Y. rewrite Rmult_assoc, (Rinv_l z0) in Y by lra. lra.
  - split; [discriminate|]. intros ->. exfalso. apply X. replace ((59/10 * z0 - 2 * (735/100) * z0 / 3) / z0) with 1 by (field; lra). apply ln_1.
Qed.

(** UnboundLocalError: exactly for accepted inputs in neutral air (no height of exactly 5.9 roughness lengths) *)
Theorem C97_unbound_local (press ta ts za ea es zq u zu z0 : R) iu ifc :
  hle1 press ta ts za ea es zq u zu z0 iu ifc = Err UnboundLocal <->
  ~ rejected press ta ts za ea es zq zu z0 /\ potential_temperature ta za = ts /\
  ~ one_unit za z0 /\ ~ one_unit zq z0 /\ ~ one_unit zu z0.
Proof.
  split.
  - intros H. destruct (rejected_dec press ta ts za ea es zq zu z0) as [R|R].
    { destruct (rejected_raises press ta ts za ea es zq u zu z0 iu ifc R) as (m & X). congruence. }
    split; [exact R|]. destruct (accepted press ta ts za ea es zq u zu z0 iu ifc R) as (A & B).
    destruct (Req_dec (potential_temperature ta za) ts) as [E|E].
    2:{ specialize (A E). rewrite H in A. contradiction. }
    split; [exact E|]. rewrite (B E) in H. unfold rejected in R.
    assert (V0 : 0 < z0) by (apply Rnot_le_lt; tauto).
    rewrite <- (log_height_zero za z0 V0), <- (log_height_zero zq z0 V0), <- (log_height_zero zu z0 V0) by tauto.
    destruct (Reqb (log_height zu z0) 0); [discriminate|]. destruct (Reqb (log_height zq z0) 0); [discriminate|].
    destruct (Reqb (log_height za z0) 0); [discriminate|]. repeat split; discriminate.
  - intros (R & E & N1 & N2 & N3). rewrite (proj2 (accepted press ta ts za ea es zq u zu z0 iu ifc R) E). unfold rejected in R.
    assert (V0 : 0 < z0) by (apply Rnot_le_lt; tauto).
    rewrite <- (log_height_zero za z0 V0) in N1 by tauto. rewrite <- (log_height_zero zq z0 V0) in N2 by tauto.
    rewrite <- (log_height_zero zu z0 V0) in N3 by tauto.
    apply not_true_is_false in N1, N2, N3. rewrite N1, N2, N3. reflexivity.
Qed.

(** nothing else is raised *)
Theorem C97_any_other_error_is_a_division_by_zero (press ta ts za ea es zq u zu z0 : R) iu ifc e :
  hle1 press ta ts za ea es zq u zu z0 iu ifc = Err e -> (exists m, e = ValueError m) \/ e = UnboundLocal \/ e = ZeroDivision.
Proof.
  intros H. destruct (rejected_dec press ta ts za ea es zq zu z0) as [R|R].
  { destruct (rejected_raises press ta ts za ea es zq u zu z0 iu ifc R) as (m & X). left. exists m. congruence. }
  destruct (accepted press ta ts za ea es zq u zu z0 iu ifc R) as (A & B). right.
  destruct (Req_dec (potential_temperature ta za) ts) as [E|E].
  - rewrite (B E) in H. destruct (_ || _ || _); injection H as <-; auto.
  - specialize (A E). rewrite H in A. destruct e; try contradiction. auto.
Qed.

(** ** The model: when a run step over snow raises ValueError *)
(** the vapour pressure of the air as used: at most the saturation vapour pressure *)
Definition vapour_used (i : InputData R) (ea : R) : Prop := exists sat, sati (i_t_a i) = Ok sat /\ ea = Rmin (i_e_a i) sat.

(** the surface of the snow within 4.9 roughness lengths of a sensor, no roughness length, no vapour in the air or more of it
    than air.  (The check against saturation over water cannot fail: the vapour pressure used is at most that over ice, and
    that is never more than 25 Pa above the formula over water.) *)
Definition step_rejected (env : Env R) s (i : InputData R) : Prop :=
  z_0 s <= 0 \/ too_low (mh_z_t (ev_heights env) - z_s s) (z_0 s) \/ too_low (mh_z_u (ev_heights env) - z_s s) (z_0 s) \/
  i_e_a i <= 0 \/
  (exists ea, vapour_used i ea /\ ev_P_a env <= ea).

Lemma below_melting_pressure t e : 0 < t <= 27316/100 -> sati t = Ok e -> 0 < e <= 61071/100.
Proof.
  intros Ht He. split.
  - destruct (sati_defined t) as (e' & He' & Hp); [lra|]. congruence.
  - destruct (Rle_lt_or_eq_dec t (27316/100) (proj2 Ht)) as [X|X].
    + destruct (sati_incr t (27316/100)) as (a & b & Ha & Hb & L); [lra|lra|lra|].
      pose proof sati_at_freezing as F. assert (a = e) by congruence. assert (b = 61071/100) by congruence. lra.
    + pose proof sati_at_freezing as F. subst t. assert (e = 61071/100) by congruence. lra.
Qed.

Lemma h_le_rejected env init i s : ev_relative_hts env = false -> 0 < i_t_a i -> 0 < t_s_0 s <= 27316/100 -> 61071/100 < ev_P_a env ->
  (exists m, h_le (ev_P_a env) (ev_heights env) (ev_relative_hts env) init i s = Err (ValueError m)) <-> step_rejected env s i.
Proof.
  intros Hrel Hta Hts HP. unfold h_le. rewrite Hrel.
  destruct (sati_defined (i_t_a i) Hta) as (sat & Hsat & Hsp).
  destruct (sati_defined (t_s_0 s)) as (es & Hes & _); [lra|].
  pose proof (below_melting_pressure _ _ Hts Hes) as Hes2.
  rewrite Hsat, Hes. cbn [bind].
  set (i' := if nltb sat (i_e_a i) then set_e_a sat i else i).
  assert (E1 : i_t_a i' = i_t_a i) by (unfold i'; destruct (nltb _ _); reflexivity).
  assert (E2 : i_e_a i' = Rmin (i_e_a i) sat).
  { unfold i'. rn. destruct (Rltb_spec sat (i_e_a i)); [rewrite Rmin_right by lra; reflexivity|rewrite Rmin_left by lra; reflexivity]. }
  rewrite E1, E2.
  set (za := mh_z_t (ev_heights env) - z_s s). set (zu := mh_z_u (ev_heights env) - z_s s). set (ea := Rmin (i_e_a i) sat).
  pose proof (C97_value_errors (ev_P_a env) (i_t_a i) (t_s_0 s) za ea es za (i_u i') zu (z_0 s) (fst init) (snd init)) as T.
  assert (Eq : step_rejected env s i <-> rejected (ev_P_a env) (i_t_a i) (t_s_0 s) za ea es za zu (z_0 s)).
  { unfold step_rejected, rejected. fold za zu. split.
    - intros [H|[H|[H|[H|(ea' & (sat' & Hs' & ->) & H)]]]]; try tauto.
      + do 6 right. left. unfold ea. pose proof (Rmin_l (i_e_a i) sat). lra.
      + assert (sat' = sat) by congruence. subst sat'. fold ea in H. tauto.
    - assert (V : vapour_used i ea) by (exists sat; auto).
      intros [H|[H|[H|[H|[H|[H|[H|[H|[H|[H|H]]]]]]]]]]; try tauto; try lra.
      + right; right; right; left. unfold ea, Rmin in H. destruct (Rle_dec (i_e_a i) sat); lra.
      + do 4 right. exists ea. tauto.
      + exfalso. destruct (satw_defined _ Hta) as (w & W & _). pose proof (C33_ice_within_tolerance _ _ _ Hsat W) as X.
        pose proof (proj1 (C33_formulas _ Hta)) as F. assert (w = over_water (i_t_a i)) by congruence.
        pose proof (Rmin_r (i_e_a i) sat). unfold ea in H. lra. }
  rewrite Eq, <- T.
  change (@nsub R RNum (mh_z_t (ev_heights env)) (z_s s)) with za. change (@nsub R RNum (mh_z_u (ev_heights env)) (z_s s)) with zu.
  destruct (hle1 _ _ _ _ _ _ _ _ _ _ _ _) as [r|e] eqn:H; cbn [bind].
  - pose proof (C29_status_is_always_zero _ _ _ _ _ _ _ _ _ _ _ _ _ H) as ->. cbn. split; intros (m & X); discriminate.
  - split; intros (m & X); exists m; congruence.
Qed.

Theorem C97_when_a_run_step_raises_ValueError env ds ts c i d :
  deltas_at ds (ts_level ts) = Ok d -> (0 < ts_time_step ts)%Z -> averages_started c -> ev_relative_hts env = false ->
  sane_pack (c_ss c) ->
  let used := if i_precip_now i then update_precip_deltas i d else i in
  sane_site (ev_P_a env) (mh_z_g (ev_heights env)) used -> input_valid used -> 0 < i_t_a i ->
  (exists m, do_tstep env ds ts c i = Err (ValueError m)) <-> step_rejected env (c_ss c) used.
Proof.
  intros Hd Hts Hav Hrel Hsp used Hsite Hiv Hta.
  assert (Eta : i_t_a used = i_t_a i) by (unfold used; destruct (i_precip_now i); reflexivity).
  pose proof (h_le_rejected env (c_hle1_init c) used (set_h2o_total 0 (c_ss c)) Hrel) as T. rewrite Eta in T.
  specialize (T Hta (sa_t0 _ Hsp) (ss_press _ _ _ Hsite)).
  change (step_rejected env (c_ss c) used) with (step_rejected env (set_h2o_total 0 (c_ss c)) used). rewrite <- T.
  pose proof (C51_what_stops_a_run_step env ds ts c i d Hd Hts Hav Hsp) as H. cbv zeta in H. fold used in H.
  destruct (H Hsite Hiv) as [(r & E)|[(err & E1 & E2)|(h & lve & e & i' & init & E1 & E2 & _)]].
  - (* returned: the fluxes were there *)
    split; intros (m & X); [congruence|exfalso].
    destruct (proj1 (snowpack_packed _) (sa_pack _ Hsp)) as (Hk & _).
    assert (Hns : has_snow (c_ss c) = true) by (apply layered_has_snow, Hk). revert E. unfold do_tstep. rewrite Hd. cbn [bind]. unfold energy_balance.
    change (has_snow (set_h2o_total (nofZ 0) (c_ss c))) with (has_snow (c_ss c)).
    rewrite Hns.
    fold used. change (@nofZ R RNum 0) with 0. rewrite X. discriminate.
  - rewrite E1, E2. split; intros (m & X); exists m; injection X as ->; reflexivity.
  - rewrite E1, E2. split; intros (m & X); discriminate.
Qed.

Print Assumptions C97_value_errors.
Print Assumptions C97_unbound_local.
Print Assumptions C97_any_other_error_is_a_division_by_zero.
Print Assumptions C97_when_a_run_step_raises_ValueError.

From Verif Require Import MeltEnergy Thm_Mass Thm_Forcing Thm_Energy Witness.
(** ** Concrete calls: sensors 3 cm above the snow with a roughness length of 1 cm pass the check of the code and are rejected *)
Example C97_low_sensor : 1/100 < 3/100 /\ exists m, hle1 (T:=R) 80000 270 268 (3/100) 300 350 (3/100) 2 (3/100) (1/100) None None = Err (ValueError m).
Proof. split; [lra|]. apply C97_value_errors. right; left. unfold too_low. lra. Qed.
(** air of the surface's potential temperature *)
Example C97_neutral : hle1 (T:=R) 80000 280 (280 + 980665/100000/1005*5) 5 300 350 5 2 5 (1/100) None None = Err UnboundLocal.
Proof.
  apply C97_unbound_local. split; [|split; [reflexivity|unfold one_unit; lra]].
  unfold rejected, too_low. intros [H|[H|[H|[H|[H|[H|[H|[H|[H|[H|H]]]]]]]]]]; try lra.
  destruct satw_280 as (w & W & Hw). pose proof (proj1 (C33_formulas 280 ltac:(lra))). assert (w = over_water 280) by congruence. lra.
Qed.

(** 60 cm of new snow under sensors at 63 cm: the next run step raises ValueError *)
Example C97_step_witness : exists env ds ts c i d m,
  deltas_at ds (ts_level ts) = Ok d /\ (0 < ts_time_step ts)%Z /\ averages_started c /\ ev_relative_hts env = false /\
  sane_pack (c_ss c) /\ sane_site (ev_P_a env) (mh_z_g (ev_heights env)) i /\ input_valid i /\ 0 < i_t_a i /\
  z_s (c_ss c) = 6/10 /\ z_0 (c_ss c) = 1/100 /\ mh_z_u (ev_heights env) = 63/100 /\
  do_tstep env ds ts c i = Err (ValueError m).
Proof.
  assert (Hmz : 1/4 = 1/4 \/ 1/4 = 1) by (left; reflexivity).
  destruct (w_first (1/4) Hmz) as (env & c1 & e1 & i2 & Hi2 & HP & Hmh & Hrel & Hr1 & Htr & Hl0 & Hn & Hss & Em & Et & Et0 & Etl & Eh & Ez & Hinit & Ez0).
  assert (He1 : In e1 (c_trace c1)) by (rewrite Htr; left; reflexivity).
  destruct (event_facts wQ (wpz (1/4)) wcfg wic wmh false env c1 wQ_valid (w_setup (1/4) Hmz) Hr1 e1 He1)
    as (_ & [Hpo1 _ _] & _ & _ & _ & (Cm & Cth & Cv)).
  pose proof (np_packed _ _ Hn) as Hk1.
  destruct Hss as (b1 & mm & ee & ww & Hss).
  assert (Hsp : sane_pack (c_ss c1)).
  { rewrite Hss. split; cbn; rewrite ?Em, ?Et, ?Et0, ?Eh, ?Cv; cbn [wpz p_max_h2o_vol]; try lra.
    apply snowpack_packed. split; [destruct Hk1 as [[] ?]; split; [split|]; assumption|destruct Hpo1; split; assumption]. }
  pose proof (input_data_raw _ _ Hi2) as (_ & Ilw & Ia & Ie & Iu & Ig & _). cbn [w_calm w_wind r_I_lw r_t_a r_e_a r_u r_t_g] in Ilw, Ia, Ie, Iu, Ig.
  destruct (input_data_dry _ _ Hi2 ltac:(cbn; lra)) as (Ip & _).
  destruct w_info as (info & Hp).
  pose proof (run_time_since_out _ _ _ _ _ _ _ _ Hr1) as Ht0.
  destruct (deltas_exist wcfg _ w_calm i2 i2 (vs_steps _ _ _ (w_setup (1/4) Hmz)) Hp Hi2) as (ds & d & Hds & Hd & Hld).
  destruct (sati_defined 270) as (es & Hes & _); [lra|].
  assert (Hesr : 0 < es <= 61071/100) by (apply (below_melting_pressure 270); [lra|exact Hes]).
  set (env' := mkEnv (ev_tstep_info env) (ev_P_a env) (mkHeights (63/100) (63/100) (1/2)) false (ev_output_divided env)).
  set (t0 := mkTStep 0 (cfg_norm_thr wcfg) (60 * cfg_norm wcfg) (cfg_norm wcfg) 1 1).
  assert (Hsite : sane_site (ev_P_a env') (mh_z_g (ev_heights env')) i2).
  { unfold env'. cbn [ev_P_a ev_heights mh_z_g]. rewrite HP. split; rewrite ?Ig; try lra. intros e He. rewrite Hes in He. injection He as <-. lra. }
  assert (Hiv : input_valid i2) by (intros X; congruence).
  assert (F1 : z_s (c_ss c1) = 6/10) by (rewrite Hss; exact Ez). assert (F4 : z_0 (c_ss c1) = 1/100) by (rewrite Hss; exact Ez0).
  assert (T : exists m, do_tstep env' ds t0 c1 i2 = Err (ValueError m)).
  { pose proof (C97_when_a_run_step_raises_ValueError env' ds t0 c1 i2 d Hd ltac:(reflexivity) (or_introl Ht0) eq_refl Hsp) as W.
    cbv zeta in W. rewrite Ip in W. apply (W Hsite Hiv); [rewrite Ia; lra|].
    right; left. unfold too_low, env'. cbn [ev_heights mh_z_t]. rewrite F1, F4. lra. }
  destruct T as (m & T). exists env', ds, t0, c1, i2, d, m.
  split; [exact Hd|]. split; [reflexivity|]. split; [left; exact Ht0|]. split; [reflexivity|]. split; [exact Hsp|].
  split; [exact Hsite|]. split; [exact Hiv|]. split; [rewrite Ia; lra|]. auto.
Qed.
