(** * A PySnobal object and the methods called on it (pysnobal.py:15-390)

    The attributes of the object that methods read, and what each public method does to them; config and input file do not
    change (no method writes into the config; the input file is the user's).  After an exception in run the attribute
    snobal holds a model in the middle of its run: what exactly is left open, as is anything the user does with it.
    Time zones and the reading of the config file are left out. *)
From Coq Require Import String ZArith Bool List.
Import ListNotations.
From Verif Require Import Num Constants Functions Libsnobal Input SnowState Snobal PySnobal Columns.

Section Object.
Context {T : Type} {N : Num T}.

(** what config and the input file hold *)
Record Setup := mkSetup {
  su_params : Params T; su_end : Z; su_cfg : ModelCfg T; su_ic : InitSnow T; su_mh : Heights T; su_all : bool;
  su_file : Table T
}.
(** a file as written by output_to_file *)
Definition OutFile : Type := list (Z * list (string * option T)).
(** the attributes, and the output file on disk *)
Record Obj := mkObj {
  o_params : Params T; o_start : Z; o_end : Z; o_mh : Heights T;   (* params, start_date, end_date, measurement_heights *)
  o_info : list (TStep T); o_all : bool;            (* tstep_info, output_mode *)
  o_input : Table T;                                (* input_data *)
  o_snobal : option (Core T);                       (* snobal *)
  o_disk : option OutFile
}.
Definition set_input (t : Table T) (o : Obj) : Obj :=
  mkObj (o_params o) (o_start o) (o_end o) (o_mh o) (o_info o) (o_all o) t (o_snobal o) (o_disk o).
Definition set_info (i : list (TStep T)) (all : bool) (o : Obj) : Obj :=
  mkObj (o_params o) (o_start o) (o_end o) (o_mh o) i all (o_input o) (o_snobal o) (o_disk o).
Definition set_snobal (c : option (Core T)) (o : Obj) : Obj :=
  mkObj (o_params o) (o_start o) (o_end o) (o_mh o) (o_info o) (o_all o) (o_input o) c (o_disk o).
Definition set_disk (f : option OutFile) (o : Obj) : Obj :=
  mkObj (o_params o) (o_start o) (o_end o) (o_mh o) (o_info o) (o_all o) (o_input o) (o_snobal o) f.

Variable S : Setup.

(** pysnobal.py:20-37 __init__; [disk] is the output file from before, if any *)
Definition construct (disk : option OutFile) : result Obj :=
  let p := su_params S in
  let* info := parse_time_steps (su_cfg S) in
  let* t := read_table (p_start_date p) (su_end S) (su_file S) in
  Ok (mkObj p (p_start_date p) (su_end S) (su_mh S) info (su_all S) t None disk).

(** the public methods, and anything done with the snobal attribute *)
Inductive Call := ParseParams | ParseTimeSteps | ReadInputData | MapInputData | Run | OutputToFile | UseSnobal.

(** one call: the object before, what the call returned ([Ok tt]) or raised, the object after *)
Inductive called : Call -> Obj -> result unit -> Obj -> Prop :=
| C_params o : (* pysnobal.py:182-213 *)
    called ParseParams o (Ok tt)
      (mkObj (su_params S) (p_start_date (su_params S)) (su_end S) (su_mh S) (o_info o) (o_all o) (o_input o) (o_snobal o) (o_disk o))
| C_steps o info : (* pysnobal.py:81-180 *)
    parse_time_steps (su_cfg S) = Ok info -> called ParseTimeSteps o (Ok tt) (set_info info (su_all S) o)
| C_steps_raises o e : parse_time_steps (su_cfg S) = Err e -> called ParseTimeSteps o (Err e) o
| C_read o t : (* pysnobal.py:218-256 *)
    read_table (o_start o) (o_end o) (su_file S) = Ok t -> called ReadInputData o (Ok tt) (set_input t o)
| C_read_raises o e : read_table (o_start o) (o_end o) (su_file S) = Err e -> called ReadInputData o (Err e) o
| C_map o : (* pysnobal.py:258-276 *)
    called MapInputData o (Ok tt) (set_input (map_input_data (o_input o)) o)
| C_run o c lines : (* pysnobal.py:278-316 *)
    table_simulate (o_params o) (o_info o) (su_ic S) (o_mh o) (o_all o) (o_input o) = Ok c -> output_to_file c = Ok lines ->
    called Run o (Ok tt) (set_disk (Some lines) (set_snobal (Some c) o))
| C_run_raises o e left_over : (* before output_to_file *)
    table_simulate (o_params o) (o_info o) (su_ic S) (o_mh o) (o_all o) (o_input o) = Err e -> called Run o (Err e) (set_snobal left_over o)
| C_run_output_raises o c e :
    table_simulate (o_params o) (o_info o) (su_ic S) (o_mh o) (o_all o) (o_input o) = Ok c -> output_to_file c = Err e ->
    called Run o (Err e) (set_snobal (Some c) o)
| C_output o c lines : (* pysnobal.py:318-390 *)
    o_snobal o = Some c -> output_to_file c = Ok lines -> called OutputToFile o (Ok tt) (set_disk (Some lines) o)
| C_output_raises o c e : o_snobal o = Some c -> output_to_file c = Err e -> called OutputToFile o (Err e) o
| C_output_no_run o : o_snobal o = None -> called OutputToFile o (Err AttributeError) o
| C_use o c r : called UseSnobal o r (set_snobal c o).

(** a history of calls, exceptions being caught by the caller *)
Inductive history : Obj -> list Call -> Obj -> Prop :=
| H_none o : history o [] o
| H_call o k r o1 ks o2 : called k o r o1 -> history o1 ks o2 -> history o (k :: ks) o2.

End Object.
Arguments Obj T : clear implicits. Arguments Setup T : clear implicits. Arguments OutFile T : clear implicits.
