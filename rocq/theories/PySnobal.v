(** * pysnobal/pysnobal.py, class PySnobal *)
From Coq Require Import ZArith Bool List String.
Import ListNotations.
From Verif Require Import Num Constants Functions Libsnobal Input SnowState Snobal.
Open Scope num_scope.

(** config['model']: step lengths in minutes (ints) and mass thresholds. *)
Record ModelCfg (T : Type) := mkCfg {
  cfg_norm : Z; cfg_medium : Z; cfg_small : Z;
  cfg_norm_thr : T; cfg_medium_thr : T; cfg_small_thr : T
}.
Arguments mkCfg {T}. Arguments cfg_norm {T}. Arguments cfg_medium {T}. Arguments cfg_small {T}.
Arguments cfg_norm_thr {T}. Arguments cfg_medium_thr {T}. Arguments cfg_small_thr {T}.

Section PySnobal.
Context {T : Type} {N : Num T}.

(** utils.py:4 min2sec *)
Definition min2sec (x : Z) : Z := (x * 60)%Z.

(** "int(a / b)" on Python ints (pysnobal.py:152-167).  a / b is a float in
    Python; for the magnitudes of step lengths in minutes its truncation is the
    exact integer quotient. *)
Definition int_div (a b : Z) : result Z :=
  if (b =? 0)%Z then Err ZeroDivision else Ok (Z.quot a b).

(** pysnobal.py:81-180 parse_time_steps *)
Definition parse_time_steps (cfg : ModelCfg T) : result (list (TStep T)) :=
  let* n_med := int_div (cfg_norm cfg) (cfg_medium cfg) in
  let* n_small := int_div (cfg_medium cfg) (cfg_small cfg) in
  let* per_small := int_div (cfg_norm cfg) (cfg_small cfg) in
  Ok [ mkTStep 0 (cfg_norm_thr cfg) (min2sec (cfg_norm cfg)) (cfg_norm cfg) 1 1;
       mkTStep 1 (cfg_medium_thr cfg) (min2sec (cfg_medium cfg)) (cfg_medium cfg) n_med n_med;
       mkTStep 2 (cfg_small_thr cfg) (min2sec (cfg_small cfg)) (cfg_small cfg) n_small per_small ].

(** A row of the input CSV: its date (minutes, already localised) and its
    values under the names of map_input_data (pysnobal.py:263-274); temperatures
    in Celsius. *)
Definition CsvRow : Type := (Z * RawInput T)%type.

(** sort_index (pysnobal.py:236, 325): by date.  pandas does not specify the
    order of equal dates; they make run() fail anyway for the input. *)
Fixpoint insert_by {A} (key : A -> Z) (x : A) (l : list A) : list A :=
  match l with
  | [] => [x]
  | y :: r => if (key x <=? key y)%Z then x :: l else y :: insert_by key x r
  end.
Fixpoint sort_by {A} (key : A -> Z) (l : list A) : list A :=
  match l with
  | [] => []
  | x :: r => insert_by key x (sort_by key r)
  end.

(** pysnobal.py:243-252: Celsius to Kelvin, and rain is not below freezing *)
Definition prepare_row (row : CsvRow) : CsvRow :=
  let r := snd row in
  let t_pp := r_t_pp r + FREEZE in
  let mass_rain := r_m_pp r * (#1 - r_percent_snow r) in
  let t_pp := if (#0 <? mass_rain) && (t_pp <? FREEZE) then FREEZE else t_pp in
  (fst row, mkRaw (r_S_n r) (r_I_lw r) (r_t_a r + FREEZE) (r_e_a r) (r_u r) (r_t_g r + FREEZE)
                  (r_m_pp r) (r_percent_snow r) (r_rho_snow r) t_pp).

(** pysnobal.py:234-241: data interval from the first two rows as read, then
    sort and keep start_date <= date <= end_date + tdelta *)
Definition clip_rows (start_date end_date : Z) (rows : list CsvRow) : result (list CsvRow) :=
  match rows with
  | r0 :: r1 :: _ =>
      let tdelta := (fst r1 - fst r0)%Z in
      Ok (filter (fun r => (start_date <=? fst r)%Z && (fst r <=? end_date + tdelta)%Z)
                 (sort_by fst rows))
  | _ => Err IndexError
  end.

(** pysnobal.py:218-276 read_input_data *)
Definition read_input_data (start_date end_date : Z) (rows : list CsvRow) : result (list CsvRow) :=
  let* rows := clip_rows start_date end_date rows in
  Ok (map prepare_row rows).

(** pysnobal.py:298-311: the loop of run over the remaining records *)
Fixpoint run_steps (env : Env T) (c : Core T) (i1 : InputData T) (rows : list (RawInput T))
  : result (Core T) :=
  match rows with
  | [] => Ok c
  | r :: rest =>
      let* i2 := input_data r in
      let* c := do_data_tstep env c i1 i2 in
      run_steps env c i2 rest
  end.

Fixpoint distinct_dates (l : list Z) : bool :=
  match l with
  | [] => true
  | x :: r => negb (existsb (Z.eqb x) r) && distinct_dates r
  end.

(** pysnobal.py:283-311: run up to (not including) output_to_file.
    to_dict('index') (line 285) raises ValueError when a date occurs twice. *)
Definition simulate (p : Params T) (info : list (TStep T)) (ic : InitSnow T) (mh : Heights T)
    (all_mode : bool) (rows : list CsvRow) : result (Core T) :=
  if negb (distinct_dates (map fst rows)) then
    Err (ValueError "DataFrame index must be unique for orient='index'.")
  else match rows with
  | [] => Err IndexError
  | r0 :: rest =>
      let* i1 := input_data (snd r0) in
      let* '(env, c) := snobal_init p info ic mh all_mode in
      run_steps env c i1 (map snd rest)
  end.

Open Scope string_scope.

(** snobal.py:1251-1256: keys of the output dict *)
Definition output_fields : list string :=
  ["rho"; "t_s_0"; "t_s_l"; "t_s"; "cc_s_0"; "cc_s_l"; "cc_s"; "m_s"; "m_s_0"; "m_s_l"; "z_s";
   "z_s_0"; "z_s_l"; "h2o_sat"; "layer_count"; "h2o"; "h2o_max"; "h2o_vol"; "h2o_total";
   "R_n_bar"; "H_bar"; "L_v_E_bar"; "G_bar"; "G_0_bar"; "M_bar"; "delta_Q_bar"; "delta_Q_0_bar";
   "E_s_sum"; "melt_sum"; "swi_sum"].

(** getattr(self.snow_state, key) for those keys (snobal.py:1275) *)
Definition get_attr (s : SnowState T) (key : string) : option T :=
  match key with
  | "rho" => Some (rho s) | "t_s_0" => Some (t_s_0 s) | "t_s_l" => Some (t_s_l s)
  | "t_s" => Some (t_s s) | "cc_s_0" => Some (cc_s_0 s) | "cc_s_l" => Some (cc_s_l s)
  | "cc_s" => Some (cc_s s) | "m_s" => Some (m_s s) | "m_s_0" => Some (m_s_0 s)
  | "m_s_l" => Some (m_s_l s) | "z_s" => Some (z_s s) | "z_s_0" => Some (z_s_0 s)
  | "z_s_l" => Some (z_s_l s) | "h2o_sat" => Some (h2o_sat s)
  | "layer_count" => Some (nofZ (Z.of_nat (layer_count s)))
  | "h2o" => Some (h2o s) | "h2o_max" => Some (h2o_max s) | "h2o_vol" => Some (h2o_vol s)
  | "h2o_total" => Some (h2o_total s)
  | "R_n_bar" => Some (R_n (bar s)) | "H_bar" => Some (H_ (bar s))
  | "L_v_E_bar" => Some (L_v_E (bar s)) | "G_bar" => Some (G_ (bar s))
  | "G_0_bar" => Some (G_0 (bar s)) | "M_bar" => Some (M_ (bar s))
  | "delta_Q_bar" => Some (delta_Q (bar s)) | "delta_Q_0_bar" => Some (delta_Q_0 (bar s))
  | "E_s_sum" => Some (E_s_sum s) | "melt_sum" => Some (melt_sum s) | "swi_sum" => swi_sum s
  | _ => None
  end.

(** pysnobal.py:333-345 *)
Definition mapper (key : string) : string :=
  match key with
  | "R_n_bar" => "R_n" | "H_bar" => "H" | "L_v_E_bar" => "L_v_E" | "G_bar" => "G"
  | "G_0_bar" => "G_0" | "M_bar" => "M" | "delta_Q_bar" => "delta_Q"
  | "delta_Q_0_bar" => "delta_Q_0" | "E_s_sum" => "E_s" | "melt_sum" => "melt"
  | "swi_sum" => "swi" | k => k
  end.

(** pysnobal.py:348-353 *)
Definition keep_list : list string :=
  ["R_n"; "H"; "L_v_E"; "G"; "M"; "delta_Q"; "G_0"; "delta_Q_0"; "cc_s_0"; "cc_s_l"; "cc_s";
   "E_s"; "melt"; "swi"; "z_s_0"; "z_s_l"; "z_s"; "rho"; "m_s_0"; "m_s_l"; "m_s"; "h2o";
   "t_s_0"; "t_s_l"; "t_s"].

Definition in_list (k : string) (l : list string) : bool := existsb (String.eqb k) l.

(** pysnobal.py:323-330, 346, 354: one row of output_df, before "%" formatting.
    A row is the list of (column, value); selecting keep_list takes, for each
    wanted column, every data frame column of that name. *)
Definition frame_row (s : SnowState T) : list (string * option T) :=
  map (fun k =>
         let v := get_attr s k in
         let v := if in_list k ["t_s_0"; "t_s_l"; "t_s"]
                  then option_map (fun x => x - FREEZE) v else v in
         (mapper k, v)) output_fields.

Definition csv_row (s : SnowState T) : list (string * option T) :=
  flat_map (fun col => filter (fun kv => String.eqb (fst kv) col) (frame_row s)) keep_list.

(** pysnobal.py:318-390 output_to_file: the rows written (format_output only
    changes the text of the numbers: Format.v).  set_index('date_time')
    raises KeyError on an empty frame. *)
Definition output_to_file (c : Core T) : result (list (Z * list (string * option T))) :=
  match c_outputs c with
  | [] => Err KeyError
  | outs => Ok (map (fun o => (o_date o, csv_row (o_state o))) (sort_by o_date outs))
  end.

(** The whole of PySnobal(config).run(): __init__ (pysnobal.py:20-37) without the
    config file reading, and run (278-316).  [Ok rows] = this file was written and
    True returned; [Err] = an exception escaped and no file was written. *)
Definition pysnobal_run (p : Params T) (end_date : Z) (cfg : ModelCfg T) (ic : InitSnow T)
    (mh : Heights T) (all_mode : bool) (rows : list CsvRow)
  : result (list (Z * list (string * option T))) :=
  let* info := parse_time_steps cfg in
  let* rows := read_input_data (p_start_date p) end_date rows in
  let* c := simulate p info ic mh all_mode rows in
  output_to_file c.

End PySnobal.
