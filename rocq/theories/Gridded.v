(** * Constructing and running the gridded model (spatial/isnobal.py:17-67, ipysnobal.py:82-115)

    Only what Python's name and method lookup decides is modelled: classes are tables of methods with the numbers of
    positional arguments they accept, looked up along the method resolution order; a function's free names are looked up
    among the names its module imports or defines and the builtins.  What the methods, functions and objects do once they
    are found is arbitrary (a [World]): values are of any type and every call may return or raise anything. *)
From Coq Require Import String Ascii ZArith Bool List.
Import ListNotations.
Open Scope string_scope.

Inductive PyErr :=
| KeyError (k : string)
| AttributeError (m : string)
| TypeError (m : string)
| NameError (n : string)
| OtherError (n : nat).

Inductive Res (A : Type) := Ret (a : A) | Raise (e : PyErr).
Arguments Ret {A}. Arguments Raise {A}.
Definition andthen {A B} (m : Res A) (f : A -> Res B) : Res B := match m with Ret a => f a | Raise e => Raise e end.
Notation "'do' x <- m ; f" := (andthen m (fun x => f)) (at level 200, x pattern, m at level 100, f at level 200).

(** a class: its methods with the smallest and largest number of positional arguments besides self *)
Definition Methods : Type := list (string * (nat * nat)).
Fixpoint method_in (c : Methods) (m : string) : option (nat * nat) :=
  match c with [] => None | (n, a) :: c => if (n =? m)%string then Some a else method_in c m end.
(** attribute lookup along the method resolution order *)
Fixpoint lookup_method (mro : list Methods) (m : string) : option (nat * nat) :=
  match mro with [] => None | c :: mro => match method_in c m with Some a => Some a | None => lookup_method mro m end end.

(** the methods of point/snobal.py:17-1320 (the def lines) *)
Definition Snobal_methods : Methods :=
  [("__init__", (4, 5)); ("do_data_tstep", (2, 2)); ("divide_tstep", (0, 0)); ("do_tstep", (1, 1)); ("mass_balance", (0, 0));
   ("runoff", (0, 0)); ("h2o_compact", (0, 0)); ("evap_cond", (0, 0)); ("snowmelt", (0, 0)); ("precip_event", (0, 0));
   ("adj_snow", (2, 2)); ("time_compact", (0, 0)); ("adj_layers", (0, 0)); ("energy_balance", (0, 0)); ("net_radiation", (0, 0));
   ("heat_transfer", (0, 0)); ("advec", (0, 0)); ("g_soil", (1, 1)); ("g_snow", (0, 0)); ("h_le", (0, 0)); ("below_thold", (1, 1));
   ("init_snow", (0, 0)); ("create_snow_state", (1, 2)); ("cold_content", (2, 2)); ("init_output", (0, 0)); ("output", (0, 0))]%nat.
(** spatial/isnobal.py:15-130 *)
Definition iSnobal_methods : Methods := [("__init__", (4, 4)); ("create_snow_state", (0, 0)); ("calc_layers", (0, 0))]%nat.
(** class iSnobal(Snobal) *)
Definition iSnobal_mro : list Methods := [iSnobal_methods; Snobal_methods].

(** ipysnobal.py:1-18: the names the module imports and defines *)
Definition ipysnobal_names : list string :=
  ["os"; "sys"; "np"; "pd"; "xr"; "MasterConfig"; "UserConfig"; "print_config_report"; "check_config"; "get_user_config"; "utils";
   "FREEZE"; "MEDIUM_TSTEP"; "NORMAL_TSTEP"; "SMALL_TSTEP"; "iSnobal"; "PySnobal"; "iPySnobal"].

Section Gridded.
Context {V : Type}.
(** an object: its attributes *)
Definition Obj : Type := string -> option V.
Definition setattr (o : Obj) (k : string) (v : V) : Obj := fun j => if (k =? j)%string then Some v else o j.

(** everything that is not lookup *)
Record World := {
  w_true : V; w_false : V; w_zero : V; w_hle1_init : V;
  w_hysat : V -> Res V;                            (** hysat(SEA_LEVEL, STD_AIRTMP, STD_LAPSE, elevation / 1000.0, GRAVITY, MOL_AIR) *)
  w_body : string -> list V -> Obj -> Res Obj;     (** the body of a method, with its arguments, on an object *)
  w_self : Obj -> V;                               (** the object as a value *)
  w_first : V -> Res V;                            (** dataset.isel(time=0) *)
  w_name : string -> V;                            (** what a global name is bound to *)
  w_items : V -> Res (list (V * V));               (** x.items() *)
  w_call : V -> list V -> Res V;                   (** calling a value *)
  w_data_tstep : Obj -> V -> V -> Res Obj;         (** do_data_tstep on the snobal object *)
  w_output : Obj -> Res unit                       (** output_to_file *)
}.
Variable W : World.

(** params[k] *)
Definition getitem (d : string -> option V) (k : string) : Res V := match d k with Some v => Ret v | None => Raise (KeyError k) end.
(** self.m(args): the attribute is looked up, then the number of arguments checked, then the body runs *)
Definition call_method (mro : list Methods) (m : string) (args : list V) (self : Obj) : Res Obj :=
  match lookup_method mro m with
  | None => Raise (AttributeError m)
  | Some (lo, hi) => if ((lo <=? List.length args) && (List.length args <=? hi))%nat then w_body W m args self else Raise (TypeError m)
  end.

(** spatial/isnobal.py:17-67 iSnobal.__init__ on a new object of a class with the given resolution order *)
Definition new_iSnobal (mro : list Methods) (params : string -> option V) (params_v tstep_info initial_conditions meas_heights : V) : Res Obj :=
  let self : Obj := fun _ => None in
  let self := setattr self "params" params_v in
  let self := setattr self "tstep_info" tstep_info in
  do elevation <- getitem params "elevation";
  let self := setattr self "elevation" elevation in
  do start <- getitem params "start_date";
  let self := setattr (setattr self "start_date" start) "current_datetime" start in
  let self := setattr self "output_divided" (w_false W) in
  do p <- w_hysat W elevation;
  let self := setattr self "P_a" p in
  let self := setattr self "snow_records" initial_conditions in
  do self <- call_method mro "init_snow" [w_true W] self;
  let self := setattr self "measurement_heights" meas_heights in
  do self <- call_method mro "get_measurement_height_rec" [w_true W] self;
  let self := setattr self "relative_hts" (w_false W) in
  let self := setattr self "ro_data" (w_false W) in
  let self := setattr self "time_since_out" (w_zero W) in
  do self <- call_method mro "init_output" [] self;
  Ret (setattr self "_hle1_init" (w_hle1_init W)).

(** looking up a free name of a function *)
Definition load_global (names : list string) (n : string) : Res V :=
  if existsb (String.eqb n) names then Ret (w_name W n) else Raise (NameError n).

(** ipysnobal.py:95-109, the loop over input_data.items() *)
Fixpoint run_loop (names : list string) (items : list (V * V)) (input1 : V) (snobal : Obj) : Res Obj :=
  match items with
  | [] => Ret snobal
  | (date_time, input2) :: items =>
      do c <- load_global names "InputData";
      do input2 <- w_call W c [input2];
      do snobal <- w_data_tstep W snobal input1 input2;
      run_loop names items input2 snobal
  end.

(** ipysnobal.py:82-115 iPySnobal.run, in a module with the given names and with the class iSnobal given by its resolution order *)
Definition irun (names : list string) (mro : list Methods) (dataset : V) (params : string -> option V)
    (params_v tstep_info initial_conditions meas_heights : V) : Res unit :=
  do input1 <- w_first W dataset;
  do snobal <- new_iSnobal mro params params_v tstep_info initial_conditions meas_heights;
  do d <- load_global names "input_data";
  do items <- w_items W d;
  do snobal <- run_loop names items input1 snobal;
  w_output W snobal.
End Gridded.
