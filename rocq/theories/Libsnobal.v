(** * pysnobal/point/libsnobal.py *)
From Coq Require Import ZArith Bool String.
From Verif Require Import Num Constants Functions.
Open Scope num_scope.

Section Libsnobal.
Context {T : Type} {N : Num T}.

(** libsnobal.py:83-101 satw (saturation vapour pressure over water, scalar) *)
Definition satw (tk : T) : result T :=
  if tk <? #0 then Err (ValueError "tk < 0")
  else
    let* btk := pdiv BOIL tk in
    let* lbtk := plog btk in
    let x := cst (-790298) 100000 * (btk - #1)
             + cst 502808 100000 * lbtk / LOG_10
             - cst 13816 100000000000 * (npow (#10) (cst 11344 1000 * (#1 - tk / BOIL)) - #1)
             + cst 81328 10000000 * (npow (#10) (cst (-349149) 100000 * (btk - #1)) - #1)
             + LOG_SEA_LEVEL / LOG_10 in
    Ok (npow (#10) x).

(** libsnobal.py:105-128 sati (saturation vapour pressure over ice, scalar) *)
Definition sati (tk : T) : result T :=
  if tk <? #0 then Err (ValueError "tk < 0")
  else if FREEZE <? tk then satw tk
  else
    let* ftk := pdiv FREEZE tk in
    let* lftk := plog ftk in
    Ok (#100 * npow (#10)
          (cst (-909718) 100000 * (ftk - #1)
           - cst 356654 100000 * lftk / LOG_10
           + cst 876793 1000000 * (#1 - tk / FREEZE)
           + nln (cst 61071 10000) / LOG_10)).

(** libsnobal.py:131-139 spec_hum *)
Definition spec_hum (e P : T) : result T :=
  pdiv (e * MOL_H2O) (MOL_AIR * P + e * (MOL_H2O - MOL_AIR)).

(** The [code] argument of psi: the strings 'SM', 'SH', 'SV' or anything else. *)
Inductive psi_code := SM | SH | SV | OtherCode.

(** libsnobal.py:143-173 psi *)
Definition psi (zeta : T) (code : psi_code) : result T :=
  if #0 <? zeta then
    let zeta' := if #1 <? zeta then #1 else zeta in
    Ok (nsub (#0) BETA_S * zeta')
  else if zeta <? #0 then
    let* r := psqrt (#1 - BETA_U * zeta) in
    let* x := psqrt r in
    match code with
    | SM =>
        let* l1 := plog ((#1 + x) / #2) in
        let* l2 := plog ((#1 + x * x) / #2) in
        Ok (#2 * l1 + l2 - #2 * natan x + npi / #2)
    | SH | SV =>
        let* l := plog ((#1 + x * x) / #2) in
        Ok (#2 * l)
    | OtherCode => Err (ValueError "psi-function code not of these: SM, SH, SV")
    end
  else Ok (#0).

(** psi(z/lo, code) inside hle1.  [lo = None] stands for a non-finite Obukhov
    length (numpy inf or nan after a division by zero): z/inf is 0 and z/nan is
    nan, and psi returns 0 for both.  A finite zero length would give inf in
    numpy; it needs ustar = 0 together with a non-zero flux, which hle1 never
    produces from its own outputs; modelled as an error. *)
Definition psi_over (z : T) (lo : option T) (code : psi_code) : result T :=
  match lo with
  | None => Ok (#0)
  | Some l => let* zeta := pdiv z l in psi zeta code
  end.

(** The variables hle1 updates in its loop. *)
Record flux_iter := mkFlux {
  fi_lo : option T; fi_ustar : T; fi_factor : T; fi_e : T; fi_h : T
}.

(** Loop-invariant values of hle1. *)
Record flux_ctx := mkFctx {
  fc_dens : T; fc_air_temp : T; fc_wind : T; fc_zu : T; fc_zq : T; fc_za : T;
  fc_ltsm : T; fc_ltsv : T; fc_ltsh : T; fc_qdiff : T; fc_tdiff : T
}.

(** libsnobal.py:295-296: Obukhov length; None when the division is by zero *)
Definition obukhov (c : flux_ctx) (s : flux_iter) : result (option T) :=
  let* q := pdiv (fi_h s) (fc_air_temp c * CP_AIR) in
  let den := VON_KARMAN * GRAVITY * (q + cst 61 100 * fi_e s) in
  if den =? #0 then Ok None
  else Ok (Some (fi_ustar s * fi_ustar s * fi_ustar s * fc_dens c / den)).

(** libsnobal.py:309-313: convergence test, "diff = last - lo"; a non-finite
    last or lo never passes it *)
Definition converged (last lo : option T) : result bool :=
  match last, lo with
  | Some a, Some b =>
      let diff := a - b in
      if nabs diff <? THRESH then
        let* r := pdiv diff b in Ok (nabs r <? THRESH)
      else Ok false
  | _, _ => Ok false
  end.

(** libsnobal.py:290-313: one pass of the loop body; returns the new iterate and
    whether [break] is taken *)
Definition flux_body (c : flux_ctx) (s : flux_iter) : result (flux_iter * bool) :=
  let last := fi_lo s in
  let* lo := obukhov c s in
  let* pm := psi_over (fc_zu c) lo SM in
  let* ustar := pdiv (VON_KARMAN * fc_wind c) (fc_ltsm c - pm) in
  let factor := VON_KARMAN * ustar * fc_dens c in
  let* pv := psi_over (fc_zq c) lo SV in
  let* e := pdiv (fc_qdiff c * factor * AV) (fc_ltsv c - pv) in
  let* ph := psi_over (fc_za c) lo SH in
  let* h := pdiv (fc_tdiff c * factor * AH * CP_AIR) (fc_ltsh c - ph) in
  let* stop := converged last lo in
  Ok (mkFlux lo ustar factor e h, stop).

(** libsnobal.py:290-315: "for it in range(ITMAX)"; [n] iterations remain and the
    loop variable is about to take the value [it].  Returns the final value of
    [it], the last iterate, and (ghost) whether the loop was left by [break]. *)
Fixpoint flux_loop (c : flux_ctx) (n : nat) (it : Z) (s : flux_iter)
  : result (Z * flux_iter * bool) :=
  match n with
  | O => Err RecursionLimit
  | S m =>
      let* '(s', stop) := flux_body c s in
      if stop then Ok (it, s', true)
      else match m with
           | O => Ok (it, s', false)
           | S _ => flux_loop c m (it + 1)%Z s'
           end
  end.

(** Results of hle1: h, le, e, ier, ustar, factor; [hr_conv] is ghost: it
    records whether the iteration met the convergence test. *)
Record hle1_res := mkHle {
  hr_h : T; hr_le : T; hr_e : T; hr_ier : Z; hr_ustar : T; hr_factor : T;
  hr_conv : bool
}.

(** libsnobal.py:177-327 hle1.  [air_temp == surface_temp] is tested after the
    dry-adiabatic correction, as in the code; in that branch [it] is never
    bound, so line 317 raises UnboundLocalError.  The message of the vapour
    pressure error calls sati(air_temp), which succeeds for positive
    temperatures. *)
Definition hle1 (press air_temp surface_temp za ea es zq wind_speed zu z0 : T)
    (init_ustar init_factor : option T) : result hle1_res :=
  if (z0 <=? #0) || (zq <=? z0) || (zu <=? z0) || (za <=? z0) then
    Err (ValueError "height not positive")
  else if (air_temp <=? #0) || (surface_temp <=? #0) then
    Err (ValueError "temps not K")
  else if (ea <=? #0) || (es <=? #0) || (press <=? #0) || (press <=? ea) || (press <=? es) then
    Err (ValueError "press < 0")
  else
    let* ea_w := satw air_temp in
    if ea_w <? ea - #25 then Err (ValueError "vapor pressure exceeds air saturation")
    else
      let ea := if ea_w <? ea then ea_w else ea in
      let d0 := #2 * PAESCHKE * z0 / #3 in
      let* ltsm := plog ((zu - d0) / z0) in
      let* ltsh := plog ((za - d0) / z0) in
      let* ltsv := plog ((zq - d0) / z0) in
      let* qa := spec_hum ea press in
      let* qs := spec_hum es press in
      let q_diff := qa - qs in
      let air_temp := air_temp + DALR * za in
      let t_diff := air_temp - surface_temp in
      let* st := psqrt (air_temp * surface_temp) in
      let* se := psqrt (ea * es) in
      let* vt := virtual_temperature st se press in
      let* dens := gas_density press MOL_AIR vt in
      if air_temp =? surface_temp then
        let* ustar := pdiv (VON_KARMAN * wind_speed) ltsm in
        let factor := VON_KARMAN * ustar * dens in
        let* _ := pdiv (q_diff * factor * AV) ltsv in
        let* _ := pdiv (t_diff * factor * CP_AIR * AH) ltsh in
        Err UnboundLocal
      else
        let* ustar := match init_ustar with
                      | None => pdiv (VON_KARMAN * wind_speed) ltsm
                      | Some u => Ok u
                      end in
        let factor := match init_factor with
                      | None => VON_KARMAN * ustar * dens
                      | Some f => f
                      end in
        let* e := pdiv (q_diff * factor * AV) ltsv in
        let* h := pdiv (t_diff * factor * CP_AIR * AH) ltsh in
        let ctx := mkFctx dens air_temp wind_speed zu zq za ltsm ltsv ltsh q_diff t_diff in
        let* '(it, s, conv) := flux_loop ctx ITMAX 0%Z (mkFlux None ustar factor e h) in
        let ier := if (Z.of_nat ITMAX <=? it)%Z then (-1)%Z else 0%Z in
        let xlh := if surface_temp <=? FREEZE
                   then lh_vap surface_temp + lh_fus surface_temp
                   else lh_vap surface_temp in
        Ok (mkHle (fi_h s) (xlh * fi_e s) (fi_e s) ier (fi_ustar s) (fi_factor s) conv).

(** libsnobal.py:330-364 efcon *)
Definition efcon (k layer_temp p_a : T) (es_layer : option T) : result T :=
  let* de := diffusion_coef p_a layer_temp in
  let lh := if FREEZE <? layer_temp then lh_vap layer_temp
            else if layer_temp =? FREEZE then (lh_vap layer_temp + lh_sub layer_temp) / #2
            else lh_sub layer_temp in
  let* es := match es_layer with
             | None => sati layer_temp
             | Some e => Ok e
             end in
  let* q := mix_ratio es p_a in
  Ok (k + (lh * de * q)).

(** libsnobal.py:367-384 ssxfr *)
Definition ssxfr (k1 k2 t1 t2 d1 d2 : T) : result T :=
  pdiv (#2 * (k1 * k2 * (t2 - t1))) ((k2 * d1) + (k1 * d2)).

End Libsnobal.
Arguments flux_iter T : clear implicits.
Arguments flux_ctx T : clear implicits.
Arguments hle1_res T : clear implicits.
