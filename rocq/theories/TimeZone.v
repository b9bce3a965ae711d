(** * Time zones (pysnobal.py:191-198, 228-232 and the dates written by to_csv)

    The configured dates and the dates of the input file are clock times of the configured zone;
    tz_localize turns each into an instant.  A zone is what its clocks are ahead of UTC, in minutes, at every instant (in
    minutes, UTC); datetime requires less than a day.  Simplified: parsing of dates is not modelled, and of several bad dates
    the first in the file is reported. *)
From Coq Require Import ZArith Bool List String.
Import ListNotations.
From Verif Require Import Num Constants Functions Libsnobal Input SnowState Snobal PySnobal.

Definition Zone : Type := Z -> Z.
(** what the clocks show at an instant *)
Definition clock (z : Zone) (t : Z) : Z := (t + z t)%Z.
(** the instants at which the clocks show [l] *)
Definition instants (z : Zone) (l : Z) : list Z :=
  filter (fun t => (clock z t =? l)%Z) (map (fun k => (l - 1439 + Z.of_nat k)%Z) (seq 0 2879)).
(** Timestamp.tz_localize, DatetimeIndex.tz_localize with ambiguous='raise', nonexistent='raise' *)
Definition tz_localize (z : Zone) (l : Z) : result Z :=
  match instants z l with
  | [t] => Ok t
  | [] => Err (ValueError "NonExistentTimeError")
  | _ => Err (ValueError "AmbiguousTimeError")
  end.

Section Zoned.
Context {T : Type} {N : Num T}.

(** input_data.index = input_data.index.tz_localize(zone) (pysnobal.py:231-232) *)
Fixpoint localize_rows (z : Zone) (rows : list CsvRow) : result (list (CsvRow (T:=T))) :=
  match rows with
  | [] => Ok []
  | (l, r) :: rows => let* t := tz_localize z l in let* rest := localize_rows z rows in Ok ((t, r) :: rest)
  end.

Definition with_start (t : Z) (p : Params T) : Params T :=
  mkParams (p_elevation p) t (p_max_h2o_vol p) (p_max_z_s_0 p) (p_relative_heights p).

(** A line's date as written: the clock time and how far the clock is ahead of UTC *)
Definition written (z : Zone) {A} (line : Z * A) : (Z * Z) * A := ((clock z (fst line), z (fst line)), snd line).

(** PySnobal(config).run() with time_zone = z: parse_params (pysnobal.py:182-213), then parse_time_steps,
    read_input_data, run; dates of [p], [end_date] and [rows] are clock times *)
Definition zoned_run (z : Zone) (p : Params T) (end_date : Z) (cfg : ModelCfg T) (ic : InitSnow T) (mh : Heights T)
    (all_mode : bool) (rows : list CsvRow) : result (list ((Z * Z) * list (string * option T))) :=
  let* start := tz_localize z (p_start_date p) in
  let* fin := tz_localize z end_date in
  let* info := parse_time_steps cfg in
  let* rows := localize_rows z rows in
  let* out := pysnobal_run (with_start start p) fin cfg ic mh all_mode rows in
  Ok (map (written z) out).

End Zoned.
