(** * pysnobal/spatial/snow_state.py: the gridded snow state as an object holding arrays

    The attributes of a SpatialSnowState are references to arrays (xarray.DataArray over one grid).
    Assignment binds a name to an array; arithmetic makes a new array; "a += b" on arrays works in
    place: the array [a] refers to is overwritten, for every name that refers to it.
    An array is a function from the cells of the grid to numbers; all arrays have the grid's shape.
    Numpy division does not raise.  Not modelled: dtypes, coordinates, the attribute z_0 (a number). *)
From Coq Require Import ZArith Bool String List.
Import ListNotations.
From Verif Require Import Num Constants Functions SnowState.
Open Scope num_scope.

Section Grid.
Context {T : Type} {N : Num T}.

Definition Array : Type := nat -> T.
Record GState := mkG { g_heap : nat -> Array; g_next : nat; g_attrs : string -> option nat }.

Definition gget (k : string) (st : GState) : result nat :=
  match g_attrs st k with Some r => Ok r | None => Err AttributeError end.
Definition gset (k : string) (r : nat) (st : GState) : GState :=
  mkG (g_heap st) (g_next st) (fun k' => if String.eqb k' k then Some r else g_attrs st k').
Definition gwrite (r : nat) (a : Array) (st : GState) : GState :=
  mkG (fun r' => if Nat.eqb r' r then a else g_heap st r') (g_next st) (g_attrs st).
(** a new array bound to a name *)
Definition gassign (k : string) (a : Array) (st : GState) : GState :=
  gset k (g_next st) (mkG (fun r' => if Nat.eqb r' (g_next st) then a else g_heap st r') (S (g_next st)) (g_attrs st)).
(** what a user reads from an attribute *)
Definition gread (k : string) (st : GState) : option Array :=
  match g_attrs st k with Some r => Some (g_heap st r) | None => None end.

(** snow_state.py:10-19 _energy_state *)
Definition energy_names : list string := ["R_n"; "H"; "L_v_E"; "G"; "G_0"; "M"; "delta_Q"; "delta_Q_0"]%string.
Definition bar_name (k : string) : string := String.append k "_bar".
(** snow_state.py:21-72: the names __init__ binds to the array [init], in any order *)
Definition initial_names : list string :=
  app ["zeros"; "h2o_sat"; "max_h2o_vol"; "rho"; "t_s"; "t_s_0"; "t_s_l"; "z_s"; "z_s_0"; "z_s_l";
   "cc_s_0"; "cc_s_l"; "m_s"; "m_s_0"; "m_s_l"; "h2o"; "h2o_max"; "h2o_total"; "h2o_vol";
   "melt"; "E"; "E_s"; "swi"; "melt_sum"; "E_s_sum"]%string
  (app energy_names (map bar_name energy_names)).

(** spatial/snow_state.py:11-13 and snow_state.py:21-72: SpatialSnowState(init), [r] the reference of [init] *)
Definition sp_init (r : nat) (st : GState) : GState :=
  mkG (g_heap st) (g_next st) (fun k => if existsb (String.eqb k) initial_names then Some r else None).

(** snow_state.py:77-83 set_zeros, with a list of names *)
Fixpoint sp_set_zeros (fields : list string) (st : GState) : result GState :=
  match fields with
  | [] => Ok st
  | f :: rest => let* z := gget "zeros" st in sp_set_zeros rest (gset f z st)
  end.

(** spatial/snow_state.py:110-113: the loop of value_to_bar *)
Fixpoint bars_from (ks : list string) (st : GState) : result GState :=
  match ks with
  | [] => Ok st
  | k :: rest => let* r := gget k st in bars_from rest (gset (bar_name k) r st)
  end.
(** spatial/snow_state.py:106-117 value_to_bar *)
Definition sp_value_to_bar (st : GState) : result GState :=
  let* st := bars_from energy_names st in
  let* e := gget "E_s" st in
  let st := gset "E_s_sum" e st in
  let* m := gget "melt" st in
  let st := gset "melt_sum" m st in
  let* w := gget "swi" st in
  Ok (gset "swi_sum" w st).

(** spatial/snow_state.py:127-132: the loop of time_average; functions.py:68-81 on arrays *)
Fixpoint bars_average (total incr : T) (ks : list string) (st : GState) : result GState :=
  match ks with
  | [] => Ok st
  | k :: rest =>
      let* b := gget (bar_name k) st in
      let* v := gget k st in
      bars_average total incr rest
        (gassign (bar_name k)
           (fun j => (g_heap st b j * total + g_heap st v j * incr) / (total + incr)) st)
  end.
(** "self.<k> += self.<v>" on arrays: in place *)
Definition iadd (k v : string) (st : GState) : result GState :=
  let* a := gget k st in
  let* b := gget v st in
  Ok (gset k a (gwrite a (fun j => g_heap st a j + g_heap st b j) st)).
(** spatial/snow_state.py:119-137 time_average *)
Definition sp_time_average (total incr : T) (st : GState) : result GState :=
  let* st := bars_average total incr energy_names st in
  let* st := iadd "E_s_sum" "E_s" st in
  let* st := iadd "melt_sum" "melt" st in
  iadd "swi_sum" "swi" st.

(** spatial/snow_state.py:81-93 dry_snow_density and 95-104 kts, in one cell *)
Definition sp_dry_snow_density (rho h2o_vol : T) : T :=
  (rho - h2o_vol * RHO_W0) / (#1 - h2o_vol * RHO_W0 / RHO_ICE).
Definition sp_kts (rho : T) : T := CAL_TO_J * cst 77 10000 * (rho / #1000) * (rho / #1000).

End Grid.
Arguments GState T : clear implicits.
Arguments Array T : clear implicits.
