(** * The input file as a table with named columns (pysnobal.py:218-300)

    PySnobal.v starts from records whose ten values are already under their names.  Here the header of the CSV file is
    modelled: a table is the list of its column names (without the index column date_time) and, per row, the date and the
    values.  pandas.read_csv makes the names of a header distinct. *)
From Coq Require Import String ZArith Bool List.
Import ListNotations.
From Verif Require Import Num Constants Functions Libsnobal Input SnowState Snobal PySnobal.
Open Scope num_scope.

Section Columns.
Context {T : Type} {N : Num T}.

Definition Header : Type := list string.
Definition TableRow : Type := (Z * list T)%type.

Definition has (h : Header) (k : string) : bool := existsb (String.eqb k) h.
(** the value of a row in column k *)
Fixpoint column (h : Header) (k : string) (v : list T) : option T :=
  match h, v with
  | n :: h, x :: v => if String.eqb n k then Some x else column h k v
  | _, _ => None
  end.
(** writing the value of a row in column k *)
Fixpoint set_column (h : Header) (k : string) (y : T) (v : list T) : list T :=
  match h, v with
  | n :: h, x :: v => (if String.eqb n k then y else x) :: set_column h k y v
  | _, _ => v
  end.
(** dict(zip(columns, row))[k]: of several columns with one name the last *)
Fixpoint dict_get (h : Header) (v : list T) (k : string) : option T :=
  match h, v with
  | n :: h, x :: v => match dict_get h v k with Some y => Some y | None => if String.eqb n k then Some x else None end
  | _, _ => None
  end.

(** pysnobal.py:234-241, on rows of any kind *)
Definition clip_table (start_date end_date : Z) (rows : list TableRow) : result (list TableRow) :=
  match rows with
  | r0 :: r1 :: _ =>
      let tdelta := (fst r1 - fst r0)%Z in
      Ok (filter (fun r => (start_date <=? fst r)%Z && (fst r <=? end_date + tdelta)%Z)
                 (sort_by fst rows))
  | _ => Err IndexError
  end.

(** input_data.k += FREEZE (pysnobal.py:244-246): AttributeError if there is no column k *)
Definition to_kelvin (h : Header) (k : string) (rows : list TableRow) : result (list TableRow) :=
  if has h k then
    Ok (map (fun r => (fst r, match column h k (snd r) with Some x => set_column h k (x + FREEZE) (snd r) | None => snd r end)) rows)
  else Err AttributeError.

(** pysnobal.py:248-252: rain is not below freezing *)
Definition no_cold_rain (h : Header) (rows : list TableRow) : result (list TableRow) :=
  if has h "precip_mass" && has h "percent_snow" then
    Ok (map (fun r => (fst r,
      match column h "precip_mass" (snd r), column h "percent_snow" (snd r), column h "precip_temp" (snd r) with
      | Some m, Some p, Some t => if (#0 <? m * (#1 - p)) && (t <? FREEZE) then set_column h "precip_temp" FREEZE (snd r) else snd r
      | _, _, _ => snd r
      end)) rows)
  else Err AttributeError.

(** pysnobal.py:263-274 *)
Definition input_names : list (string * string) :=
  [("net_solar", "S_n"); ("incoming_thermal", "I_lw"); ("air_temp", "t_a"); ("vapor_pressure", "e_a");
   ("wind_speed", "u"); ("soil_temp", "t_g"); ("precip_mass", "m_pp"); ("percent_snow", "percent_snow");
   ("rho_snow", "rho_snow"); ("precip_temp", "t_pp")]%string.
(** rename(columns=mapper) gives column k this name *)
Definition input_mapper (k : string) : string :=
  match find (fun kv => String.eqb (fst kv) k) input_names with Some kv => snd kv | None => k end.

(** A data frame: header and rows *)
Definition Table : Type := (Header * list TableRow)%type.
(** pysnobal.py:258-276 map_input_data *)
Definition map_input_data (t : Table) : Table := (map input_mapper (fst t), snd t).

(** pysnobal.py:218-256 read_input_data *)
Definition read_table (start_date end_date : Z) (file : Table) : result Table :=
  let h := fst file in
  let* rows := clip_table start_date end_date (snd file) in
  let* rows := to_kelvin h "precip_temp" rows in
  let* rows := to_kelvin h "air_temp" rows in
  let* rows := to_kelvin h "soil_temp" rows in
  let* rows := no_cold_rain h rows in
  Ok (map_input_data (h, rows)).

(** InputData(data) reads data[k] for ten names (input.py:50-59): KeyError if one is missing *)
Definition getkey (h : Header) (v : list T) (k : string) : result T :=
  match dict_get h v k with Some x => Ok x | None => Err KeyError end.
Definition raw_of (h : Header) (v : list T) : result (RawInput T) :=
  let* S_n := getkey h v "S_n" in
  let* I_lw := getkey h v "I_lw" in
  let* t_a := getkey h v "t_a" in
  let* e_a := getkey h v "e_a" in
  let* u := getkey h v "u" in
  let* t_g := getkey h v "t_g" in
  let* m_pp := getkey h v "m_pp" in
  let* percent_snow := getkey h v "percent_snow" in
  let* rho_snow := getkey h v "rho_snow" in
  let* t_pp := getkey h v "t_pp" in
  Ok (mkRaw S_n I_lw t_a e_a u t_g m_pp percent_snow rho_snow t_pp).
Definition table_input (h : Header) (v : list T) : result (InputData T) := let* r := raw_of h v in input_data r.

(** pysnobal.py:298-311 *)
Fixpoint table_steps (h : Header) (env : Env T) (c : Core T) (i1 : InputData T) (rows : list (list T)) : result (Core T) :=
  match rows with
  | [] => Ok c
  | v :: rest =>
      let* i2 := table_input h v in
      let* c := do_data_tstep env c i1 i2 in
      table_steps h env c i2 rest
  end.

(** pysnobal.py:283-311 *)
Definition table_simulate (p : Params T) (info : list (TStep T)) (ic : InitSnow T) (mh : Heights T)
    (all_mode : bool) (t : Table) : result (Core T) :=
  if negb (distinct_dates (map fst (snd t))) then
    Err (ValueError "DataFrame index must be unique for orient='index'.")
  else match snd t with
  | [] => Err IndexError
  | r0 :: rest =>
      let* i1 := table_input (fst t) (snd r0) in
      let* '(env, c) := snobal_init p info ic mh all_mode in
      table_steps (fst t) env c i1 (map snd rest)
  end.

(** PySnobal(config).run() on a file with a header: as PySnobal.pysnobal_run *)
Definition table_run (p : Params T) (end_date : Z) (cfg : ModelCfg T) (ic : InitSnow T)
    (mh : Heights T) (all_mode : bool) (file : Table) : result (list (Z * list (string * option T))) :=
  let* info := parse_time_steps cfg in
  let* t := read_table (p_start_date p) end_date file in
  let* c := table_simulate p info ic mh all_mode t in
  output_to_file c.

End Columns.
Arguments Table T : clear implicits. Arguments TableRow T : clear implicits.
