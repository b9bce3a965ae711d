(** * pysnobal/core/functions.py and pysnobal/core/snow.py *)
From Coq Require Import ZArith Bool String.
From Verif Require Import Num Constants.
Open Scope num_scope.

Section Functions.
Context {T : Type} {N : Num T}.

(** core/functions.py:7-26 hysat.  Every caller passes L = STD_LAPSE <> 0.
    A non-positive base of np.power with a non-integral exponent gives nan in
    numpy; modelled as an error. *)
Definition hysat (pb tb L h g m : T) : result T :=
  if L =? #0 then
    let* q := pdiv (nsub (#0) g * m * h * #1000) (RGAS * tb) in
    Ok (pb * nexp q)
  else
    let* base := pdiv tb (tb + L * h) in
    let* ex := pdiv (g * m) (RGAS * L * cst 1 1000) in
    if #0 <? base then Ok (pb * npow base ex)
    else Err (ValueError "nan in hysat").

(** core/functions.py:41-51 cp_ice *)
Definition cp_ice (t : T) : T :=
  CAL_TO_J * (cst 24928 1000000 + (cst 176 100000 * t)) / cst 1 1000.

(** core/functions.py:54-65 cp_water *)
Definition cp_water (t : T) : T := CP_W0 - cst 255 100 * (t - FREEZE).

(** core/functions.py:68-81 time_average *)
Definition time_average (avg total_time value time_incr : T) : result T :=
  pdiv (avg * total_time + value * time_incr) (total_time + time_incr).

(** core/functions.py:84-96 gas_density *)
Definition gas_density (pressure mole_air temp : T) : result T :=
  pdiv (pressure * mole_air) (RGAS * temp).

(** core/functions.py:99-113 virtual_temperature *)
Definition virtual_temperature (temp vapor_pressure pressure : T) : result T :=
  let* r := pdiv vapor_pressure pressure in
  pdiv temp (#1 - (#1 - MOL_H2O / MOL_AIR) * r).

(** core/functions.py:116-125 lh_vap *)
Definition lh_vap (temp : T) : T := #2500000 - cst 295573 100 * (temp - FREEZE).

(** core/functions.py:128-137 lh_fus *)
Definition lh_fus (temp : T) : T := #333600 + cst 16667 100 * (FREEZE - temp).

(** core/functions.py:140-149 lh_sub *)
Definition lh_sub (temp : T) : T := lh_vap temp + lh_fus temp.

(** core/functions.py:152-162 mix_ratio *)
Definition mix_ratio (vapor_pressure pressure : T) : result T :=
  pdiv ((MOL_H2O / MOL_AIR) * vapor_pressure) (pressure - vapor_pressure).

(** core/functions.py:165-178 diffusion_coef *)
Definition diffusion_coef (pressure temp : T) : result T :=
  let* r := pdiv SEA_LEVEL pressure in
  Ok (cst 65 100 * r * npown (temp / FREEZE) 14 * (cst 1 100 * cst 1 100)).

(** core/functions.py:181-193 vapor_flux *)
Definition vapor_flux (air_density k q_dif z_dif : T) : result T :=
  let* r := pdiv q_dif z_dif in
  Ok (air_density * k * r).

(** core/snow.py:5-16 h2o_left *)
Definition h2o_left (d rhos sat : T) : T :=
  (sat * d * RHO_W0 * (RHO_ICE - rhos)) / RHO_ICE.

(** core/snow.py:19-28 melt.  lh_fus(FREEZE) is a non-zero constant. *)
Definition melt_of (Q : T) : T := Q / lh_fus FREEZE.

(** core/snow.py:31-52 new_tsno *)
Definition new_tsno (spm t0 ccon : T) : result T :=
  let* tdif := pdiv ccon (spm * cp_ice t0) in
  Ok (tdif + FREEZE).

(** core/snow.py:55-64 heat_stor *)
Definition heat_stor (cp spm tdif : T) : T := cp * spm * tdif.

End Functions.
