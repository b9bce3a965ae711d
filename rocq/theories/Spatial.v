(** * pysnobal/spatial: the gridded snow state and layer computation

    Grids are lists of cells; every numpy/xarray operation used is elementwise
    (comparison, xr.where, -, * on arrays of one shape), so a statement on a grid is a
    statement on each cell.  xr.where(cond, x, y) is "if cond then x else y" per cell;
    both branches are evaluated, but they are only variables and constants here. *)
From Coq Require Import ZArith Bool List.
Import ListNotations.
From Verif Require Import Num Constants Functions Libsnobal Input SnowState.
Open Scope num_scope.

Section Spatial.
Context {T : Type} {N : Num T}.

(** The attributes of SpatialSnowState that calc_layers reads or writes, in one cell *)
Record Cell := mkCell { g_m_s : T; g_rho : T; g_z_s : T; g_z_s_0 : T; g_z_s_l : T; g_layer_count : nat }.

(** attributes assigned by calc_layers *)
Inductive Attr := a_layer_count | a_z_s | a_z_s_0 | a_z_s_l.
Inductive Value := v_num (x : T) | v_int (n : nat).

(** "self.snow_state.<attr> = <grid expression>" *)
Definition Stmt : Type := (Attr * (Cell -> Value))%type.

(** isnobal.py:84-134 calc_layers, statement by statement.  [idx] of each paragraph is
    computed once, before the paragraph's assignments, and kept in a local variable:
    a paragraph is a condition and assignments.  [thr] is
    tstep_info[SMALL_TSTEP]['threshold'], [mz] params['max_z_s_0']. *)
Record Paragraph := mkPar { par_cond : Cell -> bool; par_body : list (Attr * ((Cell -> bool) -> Cell -> Value)) }.

Definition where_num (x y : Cell -> T) (idx : Cell -> bool) (c : Cell) : Value := v_num (if idx c then x c else y c).
Definition where_int (n : nat) (y : Cell -> nat) (idx : Cell -> bool) (c : Cell) : Value := v_int (if idx c then n else y c).

Definition calc_layers_program (thr mz : T) : list Paragraph := [
  (* lines 98-104 *)
  mkPar (fun c => g_m_s c <=? thr)
    [ (a_layer_count, where_int 0 g_layer_count);
      (a_z_s, where_num (fun _ => #0) g_z_s);
      (a_z_s_0, where_num (fun _ => #0) g_z_s_0);
      (a_z_s_l, where_num (fun _ => #0) g_z_s_l) ];
  (* lines 106-113 *)
  mkPar (fun c => g_z_s c <? mz)
    [ (a_layer_count, where_int 1 g_layer_count);
      (a_z_s_0, where_num g_z_s g_z_s_0);
      (a_z_s_l, where_num (fun _ => #0) g_z_s_l) ];
  (* lines 116-123 *)
  mkPar (fun c => mz <=? g_z_s c)
    [ (a_layer_count, where_int 2 g_layer_count);
      (a_z_s_0, where_num (fun _ => mz) g_z_s_0);
      (a_z_s_l, fun _ c => v_num (g_z_s c - g_z_s_0 c)) ];
  (* lines 126-134 *)
  mkPar (fun c => g_z_s_l c * g_rho c <? thr)
    [ (a_layer_count, where_int 1 g_layer_count);
      (a_z_s_0, where_num g_z_s g_z_s_0);
      (a_z_s_l, where_num (fun _ => #0) g_z_s_l) ] ].

Definition store (a : Attr) (v : Value) (c : Cell) : Cell :=
  match a, v with
  | a_layer_count, v_int n => mkCell (g_m_s c) (g_rho c) (g_z_s c) (g_z_s_0 c) (g_z_s_l c) n
  | a_z_s, v_num x => mkCell (g_m_s c) (g_rho c) x (g_z_s_0 c) (g_z_s_l c) (g_layer_count c)
  | a_z_s_0, v_num x => mkCell (g_m_s c) (g_rho c) (g_z_s c) x (g_z_s_l c) (g_layer_count c)
  | a_z_s_l, v_num x => mkCell (g_m_s c) (g_rho c) (g_z_s c) (g_z_s_0 c) x (g_layer_count c)
  | _, _ => c
  end.

(** Attribute assignment on the object.  [assignable] says which names setattr accepts.
    The state after an exception is kept: [run_program] returns the grid as it was left. *)
Definition run_stmt (assignable : Attr -> bool) (idx : list bool) (st : Attr * ((Cell -> bool) -> Cell -> Value)) (g : list Cell)
  : list Cell * option exn :=
  if assignable (fst st)
  then (map (fun bc => store (fst st) (snd st (fun _ => fst bc) (snd bc)) (snd bc)) (combine idx g), None)
  else (g, Some AttributeError).

Fixpoint run_body (assignable : Attr -> bool) (idx : list bool) (b : list (Attr * ((Cell -> bool) -> Cell -> Value))) (g : list Cell)
  : list Cell * option exn :=
  match b with
  | [] => (g, None)
  | st :: rest =>
      match run_stmt assignable idx st g with
      | (g, None) => run_body assignable idx rest g
      | r => r
      end
  end.

Fixpoint run_program (assignable : Attr -> bool) (ps : list Paragraph) (g : list Cell) : list Cell * option exn :=
  match ps with
  | [] => (g, None)
  | p :: rest =>
      match run_body assignable (map (par_cond p) g) (par_body p) g with
      | (g, None) => run_program assignable rest g
      | r => r
      end
  end.

(** snow_state.py:151-157, inherited by spatial/snow_state.py:9: layer_count is a property
    without a setter; the depths are plain instance attributes. *)
Definition as_written (a : Attr) : bool := match a with a_layer_count => false | _ => true end.
(** the same class with a setter for it *)
Definition repaired (a : Attr) : bool := true.

(** spatial/snow_state.py:15-26 isothermal, for a grid of one cell (on larger grids the
    "and" of arrays raises) *)
Definition sp_isothermal (s : SnowState T) : bool :=
  if (layer_count s =? 2)%nat && (cc_s_0 s =? #0) && (cc_s_l s =? #0) then true
  else if (layer_count s =? 1)%nat && (cc_s_0 s =? #0) then true
  else false.

(** spatial/snow_state.py:58-79 new_tsno *)
Definition sp_new_tsno (spm t0 ccon : T) : result T :=
  let cp := cp_ice t0 in
  let* tdif := pdiv ccon (spm * cp) in
  Ok (tdif + FREEZE).

(** spatial/snow_state.py:28-56 adjust_layer_temps, for a grid of one cell *)
Definition sp_adjust_layer_temps (s : SnowState T) : result (SnowState T) :=
  if (layer_count s =? 1)%nat then
    let* t := sp_new_tsno (m_s_0 s) (t_s_0 s) (cc_s_0 s) in
    Ok (set_t_s t (set_t_s_0 t s))
  else if (layer_count s =? 2)%nat then
    if sp_isothermal s then Ok (set_t_s_0 FREEZE (set_t_s_l FREEZE (set_t_s FREEZE s)))
    else
      let* t0 := sp_new_tsno (m_s_0 s) (t_s_0 s) (cc_s_0 s) in
      let* tl := sp_new_tsno (m_s_l s) (t_s_l s) (cc_s_l s) in
      let* t := sp_new_tsno (m_s s) (t_s s) (cc_s s) in
      Ok (set_t_s t (set_t_s_l tl (set_t_s_0 t0 s)))
  else Ok s.

End Spatial.
Arguments Cell T : clear implicits.
