(** * Executable instance: IEEE binary64 (Coq primitive floats).

    Used only to run the model (Gold.v, and concrete executions); no theorem
    about the real-number model depends on it.  +, -, *, /, sqrt and comparisons
    are the processor's, as in Python.  exp, log, atan, cos and pow are computed
    here by series (accurate to a few ulp), not by the C library. *)
From Coq Require Import ZArith Floats Uint63 List.
From Verif Require Import Num.
Import ListNotations.
Open Scope float_scope.

Definition float_of_Z (z : Z) : float :=
  match z with
  | Z0 => 0
  | Zpos p => of_uint63 (Uint63.of_Z (Zpos p))
  | Zneg p => - (of_uint63 (Uint63.of_Z (Zpos p)))
  end.

(** Horner: sum of x^k / k! from k = n down *)
Fixpoint exp_series (k : nat) (kf x : float) (acc : float) : float :=
  match k with
  | O => acc
  | S m => exp_series m (kf - 1) x (1 + x / kf * acc)
  end.

Definition ln2 : float := 0x1.62e42fefa39efp-1.
Definition ln2_hi : float := 0x1.62e42feep-1.
Definition ln2_lo : float := 0x1.a39ef35793c76p-33.

Definition two_to (k : Z) : float := ldshiftexp 1 (Uint63.of_Z (k + 2101)%Z).

(** nearest integer for |x| < 2^51 *)
Definition round_int (x : float) : float := (x + 0x1.8p52) - 0x1.8p52.
Definition int_to_Z (x : float) : Z :=
  if x <? 0 then (- (Uint63.to_Z (normfr_mantissa (fst (frshiftexp (-x))))
                     / 2 ^ (53 - (Uint63.to_Z (snd (frshiftexp (-x))) - 2101))))%Z
  else if x =? 0 then 0%Z
  else (Uint63.to_Z (normfr_mantissa (fst (frshiftexp x)))
        / 2 ^ (53 - (Uint63.to_Z (snd (frshiftexp x)) - 2101)))%Z.

Definition f_exp (x : float) : float :=
  if x <? -700 then 0
  else if 700 <? x then infinity
  else
    let kf := round_int (x / ln2) in
    let r := (x - kf * ln2_hi) - kf * ln2_lo in
    exp_series 16 16 r 1 * two_to (int_to_Z kf).

(** 2 * (s + s^3/3 + s^5/5 + ...) *)
Fixpoint atanh_series (k : nat) (kf s2 acc : float) : float :=
  match k with
  | O => acc
  | S m => atanh_series m (kf - 2) s2 (1 / kf + s2 * acc)
  end.

Definition f_ln (x : float) : float :=
  if x <=? 0 then nan
  else
    let (m, e) := frshiftexp x in
    let e := (Uint63.to_Z e - 2101)%Z in
    let (m, e) := if m <? 0x1.6a09e667f3bcdp-1 then (m * 2, (e - 1)%Z) else (m, e) in
    let s := (m - 1) / (m + 1) in
    let ef := float_of_Z e in
    ef * ln2_hi + (2 * s * atanh_series 16 31 (s * s) 0 + ef * ln2_lo).

Definition pi_f : float := 0x1.921fb54442d18p1.

Fixpoint atan_series (k : nat) (kf x2 acc : float) : float :=
  match k with
  | O => acc
  | S m => atan_series m (kf - 2) x2 (1 / kf - x2 * acc)
  end.
Definition atan_small (x : float) : float :=
  let h y := y / (1 + PrimFloat.sqrt (1 + y * y)) in
  let y := h (h (h x)) in
  8 * (y * atan_series 12 23 (y * y) 0).
Definition f_atan (x : float) : float :=
  if 1 <? PrimFloat.abs x then
    (if 0 <? x then pi_f / 2 - atan_small (1 / x) else - (pi_f / 2) - atan_small (1 / x))
  else atan_small x.

(** cos by 1 - x^2/2! (1 - x^2/(3*4) (...)); adequate for |x| <= pi, the range the code uses *)
Fixpoint cos_series (k : nat) (kf x2 acc : float) : float :=
  match k with
  | O => acc
  | S m => cos_series m (kf - 2) x2 (1 - x2 / (kf * (kf - 1)) * acc)
  end.
Definition f_cos (x : float) : float := cos_series 16 32 (x * x) 1.

Definition f_pow (b e : float) : float := f_exp (e * f_ln b).

Global Instance FNum : Num float := {|
  nadd := PrimFloat.add; nsub := PrimFloat.sub; nmul := PrimFloat.mul; ndiv := PrimFloat.div;
  nabs := PrimFloat.abs;
  nltb := PrimFloat.ltb; nleb := PrimFloat.leb; neqb := PrimFloat.eqb;
  nofZ := float_of_Z;
  nexp := f_exp; nln := f_ln; nsqrt := PrimFloat.sqrt; natan := f_atan; ncos := f_cos;
  npow := f_pow; npi := pi_f
|}.
