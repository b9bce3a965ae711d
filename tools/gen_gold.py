#!/usr/bin/env python3
"""Generate theories/Gold.v: run the model (binary64 instance) on the repository's
own regression input and compare with its gold output.  gen_gold.py LO HI (hours)."""
import csv, sys
D = '/repo/pysnobal/tests/test_data_point/gold_csv/'
lo, hi = int(sys.argv[1]), int(sys.argv[2])
rows = list(csv.DictReader(open(D + 'gold.snobal.data.input.short.csv')))
gold = list(csv.reader(open(D + 'gold.pysnobal.csv')))[1:]
cols = ['net_solar', 'incoming_thermal', 'air_temp', 'vapor_pressure', 'wind_speed',
        'soil_temp', 'precip_mass', 'percent_snow', 'rho_snow', 'precip_temp']

def f(x):
    h = float(x)
    if h == int(h) and abs(h) < 1e15:
        return '(%d)' % int(h)
    return '(%s)' % h.hex()

print('''(** * Conformance test (not a theorem about all inputs): GENERATED by tools/gen_gold.py.

    The binary64 instance of the model is run on hours %d-%d of the repository's
    regression input (tests/test_data_point/gold_csv/gold.snobal.data.input.short.csv,
    with the configuration of tests/pysnobal_config.ini) and every one of the 25
    columns of every row is compared with gold.pysnobal.csv.  The window covers bare
    ground, two packs that form and disappear, one- and two-layer packs and all
    transitions between them.  The whole year (8759 rows) was compared the same way
    outside the build; see DESIGN.md. *)
From Coq Require Import ZArith List Floats.
Import ListNotations.
From Verif Require Import Num Constants Functions Input SnowState Snobal PySnobal FloatNum.
Open Scope float_scope.
''' % (lo, hi))
print('Definition gold_rows : list (Z * RawInput float) := [')
print(';\n'.join('(%d%%Z, mkRaw %s)' % (60 * i, ' '.join(f(rows[i][c]) for c in cols))
                 for i in range(lo, hi)))
print('].')
print('Definition gold_out : list (Z * list float) := [')
print(';\n'.join('(%d%%Z, [%s])' % (60 * (i + 1), ';'.join(f(x) for x in gold[i][1:]))
                 for i in range(lo, hi - 1)))
print('].')
print('''
(** tests/pysnobal_config.ini and the defaults of pysnobal_core_config.ini *)
Definition gold_params := mkParams 2061 %d%%Z (0x1.47ae147ae147bp-7) 0.25 false.
Definition gold_cfg : ModelCfg float := mkCfg 60 15 1 60 10 1.
Definition gold_heights := mkHeights 5 5 (0x1.999999999999ap-4).
Definition gold_ic : InitSnow float := mkInitSnow 0 0 0 0 0 (0x1.47ae147ae147bp-8).

(** The gold file is rounded (3 to 9 decimals): absolute 6e-4 or relative 1e-6. *)
Definition close (a b : float) : bool :=
  (PrimFloat.abs (a - b) <=? 0x1.3a92a30553261p-11)
  || (PrimFloat.abs (a - b) <=? 0x1.0c6f7a0b5ed8dp-20 * PrimFloat.abs b).
Fixpoint close_list (a : list float) (b : list (String.string * option float)) : bool :=
  match a, b with
  | [], [] => true
  | x :: a, (_, Some y) :: b => close x y && close_list a b
  | _, _ => false
  end.
Fixpoint close_rows (a : list (Z * list float)) (b : list (Z * list (String.string * option float))) : bool :=
  match a, b with
  | [], [] => true
  | (d, x) :: a, (e, y) :: b => (d =? e)%%Z && close_list x y && close_rows a b
  | _, _ => false
  end.

(** Evaluated by the virtual machine while this file is compiled; the compiled file
    keeps only the answer, so that coqchk need not repeat the run.  If the answer
    were [false] the Example would not compile. *)
Definition model_reproduces_gold_file : bool := Eval vm_compute in
  match pysnobal_run gold_params %d%%Z gold_cfg gold_ic gold_heights false gold_rows with
  | Ok out => close_rows gold_out out
  | Err _ => false
  end.
Example gold_file_reproduced : model_reproduces_gold_file = true.
Proof. reflexivity. Qed.''' % (60 * lo, 60 * (hi - 2)))
