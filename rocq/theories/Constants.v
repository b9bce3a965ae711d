(** * Constants of the code. *)
From Coq Require Import ZArith.
From Verif Require Import Num.
Open Scope num_scope.

Section Constants.
Context {T : Type} {N : Num T}.

(** pysnobal/core/constants.py:4-6 *)
Definition NORMAL_TSTEP : Z := 0%Z.
Definition MEDIUM_TSTEP : Z := 1%Z.
Definition SMALL_TSTEP : Z := 2%Z.

(** pysnobal/core/constants.py:8-19 *)
Definition FREEZE : T := cst 27316 100.
Definition BOIL : T := cst 37315 100.
Definition STD_LAPSE : T := cst (-65) 10.
Definition STD_AIRTMP : T := #288.
Definition SEA_LEVEL : T := cst 1013246 10.
Definition LOG_SEA_LEVEL : T := nln SEA_LEVEL.
Definition RGAS : T := cst 831432 100.
Definition GRAVITY : T := cst 980665 100000.
Definition MOL_AIR : T := cst 289644 10000.
Definition MOL_H2O : T := cst 180153 10000.
Definition VON_KARMAN : T := cst 41 100.

(** pysnobal/core/constants.py:23-25 *)
Definition MIN_SNOW_TEMP : T := #(-75).
Definition KT_MOISTSAND : T := cst 165 100.
Definition MAX_SNOW_DENSITY : T := #600.

(** pysnobal/core/constants.py:28-43 *)
Definition RHO_W0 : T := cst 99987 100.
Definition CP_W0 : T := cst 42177 10.
Definition RHO_ICE : T := #917.
Definition VAP_SUB : T := cst 2501 1000 / cst 2835 1000.
Definition CAL_TO_J : T := cst 4186798188 1000000000.
Definition SNOW_EMISSIVITY : T := cst 98 100.
Definition STEF_BOLTZ : T := cst 567032 10000000000000.

(** pysnobal/core/constants.py:47-53 *)
Definition RHO_MAX : T := #550.
Definition R1 : T := cst 235 10.
Definition R2 : T := cst 245 10.
Definition SWE_MAX : T := #2000.

(** pysnobal/point/libsnobal.py:12-27 *)
Definition CP_AIR : T := #1005.
Definition DALR : T := GRAVITY / CP_AIR.
Definition AH : T := #1.
Definition AV : T := #1.
Definition ITMAX : nat := 50.
Definition PAESCHKE : T := cst 735 100.
Definition THRESH : T := cst 1 100000.
Definition BETA_S : T := cst 52 10.
Definition BETA_U : T := #16.
Definition LOG_10 : T := nln (#10).

(** pysnobal/point/snobal.py:384-388 (locals of h2o_compact) *)
Definition H2O_MAX_DENSITY : T := #550.
Definition H2O_B : T := cst 4 10.

(** The value every snow temperature takes without snow: MIN_SNOW_TEMP + FREEZE
    (snobal.py:854, 1171). *)
Definition NO_SNOW_TEMP : T := MIN_SNOW_TEMP + FREEZE.

End Constants.
