(** * The shipped configuration (pysnobal/pysnobal_core_config.ini) and how the point model reads it

    A user configuration is the list of the settings the user wrote, already cast to the types of the ini file, keys in lower
    case (inicheck does both; trusted).  The recipe default_recipe (ini:202-211) fills in the default of every setting
    that has one and that the user left out.  File names and plotting of warnings are left out; dates are minutes (TimeZone.v). *)
From Coq Require Import String ZArith Bool List.
Import ListNotations.
From Verif Require Import Num Constants Functions Libsnobal Input SnowState Snobal PySnobal.

Section Config.
Context {T : Type} {N : Num T}.

(** the types float, int, bool, str and DatetimeOrderedPair of the ini file *)
Inductive Value := VFloat (x : T) | VInt (z : Z) | VBool (b : bool) | VStr (s : string) | VDate (z : Z).
Definition Settings : Type := list ((string * string) * Value).

Open Scope string_scope.
(** ini:17-195: the settings with a default *)
Definition core_defaults : Settings :=
  [ (("time", "time_step"), VInt 60); (("time", "time_zone"), VStr "UTC");
    (("measurement_heights", "z_u"), VFloat (#5)%num); (("measurement_heights", "z_t"), VFloat (#5)%num);
    (("measurement_heights", "z_g"), VFloat (cst 5 10)); (("measurement_heights", "relative_heights"), VBool false);
    (("model", "norm_time_step"), VInt 60); (("model", "medium_time_step"), VInt 15); (("model", "small_time_step"), VInt 1);
    (("model", "norm_threshold"), VInt 60); (("model", "medium_threshold"), VInt 10); (("model", "small_threshold"), VInt 1);
    (("model", "max_h2o"), VFloat (cst 1 100)); (("model", "max_active"), VFloat (cst 25 100));
    (("files", "output_mode"), VStr "normal"); (("files", "format_output"), VBool true);
    (("initial_snow_properties", "z_s"), VFloat (#0)%num); (("initial_snow_properties", "rho"), VFloat (#0)%num);
    (("initial_snow_properties", "t_s_0"), VFloat (#0)%num); (("initial_snow_properties", "t_s"), VFloat (#0)%num);
    (("initial_snow_properties", "h2o_sat"), VFloat (#0)%num); (("initial_snow_properties", "z_0"), VFloat (cst 5 1000)) ].

Definition lookup (s : Settings) (sec key : string) : option Value :=
  match find (fun kv => String.eqb (fst (fst kv)) sec && String.eqb (snd (fst kv)) key) s with Some kv => Some (snd kv) | None => None end.
(** self.config[sec][key] after the recipe *)
Definition setting (user : Settings) (sec key : string) : result Value :=
  match lookup user sec key with
  | Some v => Ok v
  | None => match lookup core_defaults sec key with Some v => Ok v | None => Err KeyError end
  end.
(** a value of another type than the ini file declares cannot come out of inicheck *)
Definition float_of (v : Value) : result T := match v with VFloat x => Ok x | _ => Err KeyError end.
Definition int_of (v : Value) : result Z := match v with VInt z => Ok z | _ => Err KeyError end.
Definition bool_of (v : Value) : result bool := match v with VBool b => Ok b | _ => Err KeyError end.
Definition date_of (v : Value) : result Z := match v with VDate z => Ok z | _ => Err KeyError end.
Definition getf user sec key := let* v := setting user sec key in float_of v.
Definition geti user sec key := let* v := setting user sec key in int_of v.

(** what parse_params, parse_time_steps and run take from the config (pysnobal.py:102-216, 286-292); the thresholds are ints *)
Definition read_params (user : Settings) : result (Params T * Z) :=
  let* sv := setting user "time" "start_date" in let* start := date_of sv in
  let* ev := setting user "time" "end_date" in let* stop := date_of ev in
  let* mh2o := getf user "model" "max_h2o" in
  let* mact := getf user "model" "max_active" in
  let* rv := setting user "measurement_heights" "relative_heights" in let* rel := bool_of rv in
  let* elev := getf user "topo" "elevation" in
  Ok (mkParams elev start mh2o mact rel, stop).
Definition read_model (user : Settings) : result (ModelCfg T) :=
  let* n := geti user "model" "norm_time_step" in let* m := geti user "model" "medium_time_step" in let* s := geti user "model" "small_time_step" in
  let* tn := geti user "model" "norm_threshold" in let* tm := geti user "model" "medium_threshold" in let* ts := geti user "model" "small_threshold" in
  Ok (mkCfg n m s (#tn)%num (#tm)%num (#ts)%num).
(** snow_state.py:85-93 set_from_dict, from config['initial_snow_properties'] *)
Definition read_snow (user : Settings) : result (InitSnow T) :=
  let sec := "initial_snow_properties" in
  let* z_s := getf user sec "z_s" in let* rho := getf user sec "rho" in let* t0 := getf user sec "t_s_0" in
  let* t := getf user sec "t_s" in let* sat := getf user sec "h2o_sat" in let* z0 := getf user sec "z_0" in
  Ok (mkInitSnow z_s rho t0 t sat z0).
(** snobal.py:470, 1060-1064 *)
Definition read_heights (user : Settings) : result (Heights T) :=
  let sec := "measurement_heights" in
  let* zu := getf user sec "z_u" in let* zt := getf user sec "z_t" in let* zg := getf user sec "z_g" in
  Ok (mkHeights zu zt zg).
(** self.config['files'].get('output_mode', None) == 'all' *)
Definition read_mode (user : Settings) : bool :=
  match setting user "files" "output_mode" with Ok (VStr s) => String.eqb s "all" | _ => false end.

(** PySnobal(config).run() *)
Definition config_run (user : Settings) (rows : list (CsvRow (T:=T))) : result (list (Z * list (string * option T))) :=
  let* pe := read_params user in
  let* cfg := read_model user in
  let* ic := read_snow user in
  let* mh := read_heights user in
  pysnobal_run (fst pe) (snd pe) cfg ic mh (read_mode user) rows.
End Config.
Arguments VFloat {T}. Arguments VInt {T}. Arguments VBool {T}. Arguments VStr {T}. Arguments VDate {T}.
