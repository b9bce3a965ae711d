(** * The text of the output file: pysnobal.py:355-390, "if format_output" *)
From Coq Require Import Reals ZArith NArith Bool List String Ascii.
From Coq Require Import Numbers.DecimalString Numbers.DecimalN.
Import ListNotations.
From Verif Require Import Num Real SnowState Snobal PySnobal.

(** The two conversions used: "%.kf" and "%.ke" *)
Inductive Conversion := Fixed (k : nat) | Sci (k : nat).

Open Scope string_scope.
(** pysnobal.py:358-384 float_map *)
Definition float_map : list (string * Conversion) :=
  [("R_n", Fixed 3); ("H", Fixed 3); ("L_v_E", Fixed 3); ("G", Fixed 3); ("M", Fixed 3); ("delta_Q", Fixed 3);
   ("G_0", Fixed 3); ("delta_Q_0", Fixed 3); ("cc_s_0", Sci 9); ("cc_s_l", Sci 9); ("cc_s", Sci 9);
   ("E_s", Fixed 8); ("melt", Fixed 8); ("swi", Fixed 8); ("z_s_0", Fixed 6); ("z_s_l", Fixed 6); ("z_s", Fixed 6);
   ("rho", Fixed 3); ("m_s_0", Fixed 3); ("m_s_l", Fixed 3); ("m_s", Fixed 3); ("h2o", Fixed 3);
   ("t_s_0", Fixed 5); ("t_s_l", Fixed 5); ("t_s", Fixed 5)].

(** Python's "%" conversions.  The printed decimal is the exact value of the float
    rounded to the asked number of digits, ties to even (CPython's dtoa, mode 3 / 2);
    here applied to a real number.  Not modelled: the sign of a negative zero, inf, nan. *)
Definition round_half_even (x : R) : Z :=
  let f := Int_part x in
  let d := (x - IZR f)%R in
  if Rltb d (1/2) then f
  else if Rltb (1/2) d then (f + 1)%Z
  else if Z.even f then f else (f + 1)%Z.

(** one decimal digit; the last [k] decimal digits of [n]; all decimal digits of [n] *)
Definition digit (d : N) : string := String (ascii_of_N (48 + d)) "".
Fixpoint last_digits (k : nat) (n : N) : string :=
  match k with O => "" | S k => last_digits k (n / 10) ++ digit (n mod 10) end.
Definition digits (n : N) : string := NilZero.string_of_uint (N.to_uint n).
Definition sign (x : R) : string := if Rltb x 0 then "-" else "".
Definition pow10 (k : nat) : N := (10 ^ N.of_nat k)%N.

(** "%.kf" *)
Definition fixed (k : nat) (x : R) : string :=
  let n := Z.to_N (round_half_even (Rabs x * 10 ^ k)) in
  sign x ++ digits (n / pow10 k) ++ "." ++ last_digits k n.

(** the decimal exponent: largest integer e with 10^e <= |x| *)
Definition exponent (x : R) : Z := Int_part (ln (Rabs x) / ln 10).

(** "%.ke": k+1 significant digits; rounding up to the next power of ten raises the
    exponent; the exponent has a sign and at least two digits *)
Definition sci (k : nat) (x : R) : string :=
  let '(n, e) :=
    if Reqb x 0 then (0%N, 0%Z)
    else
      let e := exponent x in
      let n := Z.to_N (round_half_even (Rabs x / powerRZ 10 (e - Z.of_nat k))) in
      if (n =? pow10 (S k))%N then (pow10 k, (e + 1)%Z) else (n, e) in
  sign x ++ digits (n / pow10 k) ++ "." ++ last_digits k n
    ++ "e" ++ (if (e <? 0)%Z then "-" else "+")
    ++ (if (Z.abs_N e <? 10)%N then "0" else "") ++ digits (Z.abs_N e).

Definition convert (c : Conversion) (x : R) : string :=
  match c with Fixed k => fixed k x | Sci k => sci k x end.

Fixpoint look {A} (k : string) (l : list (string * A)) : option A :=
  match l with [] => None | (k', a) :: l => if String.eqb k k' then Some a else look k l end.

(** pysnobal.py:385-387: every column of float_map is replaced by its text.  All columns
    of the frame are in float_map (C67); a column that were not would be left to
    to_csv, whose float formatting is not modelled: [KeyError] here.
    "value % None" raises TypeError: [AttributeError] here; it does not happen (C43, C67). *)
Definition format_cell (kv : string * option R) : result (string * string) :=
  match look (fst kv) float_map, snd kv with
  | Some c, Some x => Ok (fst kv, convert c x)
  | None, _ => Err KeyError
  | _, None => Err AttributeError
  end.

Fixpoint all_ok {A B} (f : A -> result B) (l : list A) : result (list B) :=
  match l with
  | [] => Ok []
  | a :: l => let* b := f a in let* bs := all_ok f l in Ok (b :: bs)
  end.

(** the lines of the formatted file: date and cells *)
Definition format_output (rows : list (Z * list (string * option R))) : result (list (Z * list (string * string))) :=
  all_ok (fun row => let* cells := all_ok format_cell (snd row) in Ok (fst row, cells)) rows.

(** PySnobal(config).run() with files.format_output = True: the text written *)
Definition pysnobal_run_formatted (p : Params R) (end_date : Z) (cfg : ModelCfg R) (ic : InitSnow R)
    (mh : Heights R) (all_mode : bool) (rows : list (CsvRow (T:=R))) : result (list (Z * list (string * string))) :=
  let* out := pysnobal_run p end_date cfg ic mh all_mode rows in
  format_output out.
