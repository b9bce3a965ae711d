(** * Lazily cached properties of SnowState and InputData (snow_state.py:95-157, 235-291
    and input.py:72-114), with the flags and stored values the classes keep.  The rest
    of the model recomputes these quantities; Thm_Cache proves that this is the same. *)
From Coq Require Import ZArith Bool List.
Import ListNotations.
From Verif Require Import Num Constants Functions Libsnobal Input SnowState.
Open Scope num_scope.

Section Cache.
Context {T : Type} {N : Num T}.

(** the two private attributes behind a lazy property: the flag (__es_s_0, ...) and the
    stored value (_es_s_0, ...), which does not exist before the first read *)
Record Slot (A : Type) := mkSlot { flag : bool; stored : option A }.
Arguments mkSlot {A}. Arguments flag {A}. Arguments stored {A}.
Definition fresh_slot {A} : Slot A := mkSlot false None.
(** the setter's "self.__x = False" *)
Definition reset {A} (k : Slot A) : Slot A := mkSlot false (stored k).

(** "if not self.__x: self._x = f(...); self.__x = True   return self._x": if the
    computation raises, neither attribute changes *)
Definition read_slot {A} (compute : result A) (k : Slot A) : result A * Slot A :=
  if negb (flag k) then
    match compute with
    | Ok v => (Ok v, mkSlot true (Some v))
    | Err e => (Err e, k)
    end
  else match stored k with Some v => (Ok v, k) | None => (Err AttributeError, k) end.

(** ** SnowState *)
Record SnowObj := mkSnowObj { so_state : SnowState T; so_e0 : Slot T; so_el : Slot T; so_lc : Slot nat }.

(** What can be done to the object: assign an attribute, call calc_layers, read a lazy
    property.  [SetOther] stands for assigning any attribute other than the two layer
    temperatures and the two layer depths. *)
Inductive SnowOp :=
| SetT0 (x : T) | SetTl (x : T) | SetZ0 (x : T) | SetZl (x : T)
| SetOther (g : SnowState T -> SnowState T)
| CalcLayers
| ReadE0 | ReadEl | ReadCount.

Inductive SnowObs := ObsE (r : result T) | ObsN (r : result nat).

(** snow_state.py:99-102, 121-124 (setters), 104-116, 126-137, 151-157 (getters), 258-291 calc_layers *)
Definition snow_op (o : SnowOp) (x : SnowObj) : SnowObj * list SnowObs :=
  match o with
  | SetT0 v => (mkSnowObj (set_t_s_0 v (so_state x)) (reset (so_e0 x)) (so_el x) (so_lc x), [])
  | SetTl v => (mkSnowObj (set_t_s_l v (so_state x)) (so_e0 x) (reset (so_el x)) (so_lc x), [])
  | SetZ0 v => (mkSnowObj (set_z_s_0 v (so_state x)) (so_e0 x) (so_el x) (so_lc x), [])
  | SetZl v => (mkSnowObj (set_z_s_l v (so_state x)) (so_e0 x) (so_el x) (so_lc x), [])
  | SetOther g => (mkSnowObj (g (so_state x)) (so_e0 x) (so_el x) (so_lc x), [])
  | CalcLayers => (mkSnowObj (calc_layers (so_state x)) (so_e0 x) (so_el x) (reset (so_lc x)), [])
  | ReadE0 => let (r, k) := read_slot (sati (t_s_0 (so_state x))) (so_e0 x) in
              (mkSnowObj (so_state x) k (so_el x) (so_lc x), [ObsE r])
  | ReadEl => let (r, k) := read_slot (sati (t_s_l (so_state x))) (so_el x) in
              (mkSnowObj (so_state x) (so_e0 x) k (so_lc x), [ObsE r])
  | ReadCount => let (r, k) := read_slot (Ok (layer_count (so_state x))) (so_lc x) in
              (mkSnowObj (so_state x) (so_e0 x) (so_el x) k, [ObsN r])
  end.

Fixpoint snow_history (l : list SnowOp) (x : SnowObj) : SnowObj * list SnowObs :=
  match l with
  | [] => (x, [])
  | o :: r => let (x, a) := snow_op o x in let (x, b) := snow_history r x in (x, a ++ b)
  end.

(** snow_state.py:20-74 __init__: all three flags are False when it returns *)
Definition new_snow_obj (mz thr : T) : SnowObj := mkSnowObj (snow_state_init mz thr) fresh_slot fresh_slot fresh_slot.

(** ** InputData *)
Record InputObj := mkInputObj { io_data : InputData T; io_sat : Slot T; io_eg : Slot T }.
Inductive InputOp :=
| SetTa (x : T) | SetTg (x : T) | SetOtherI (g : InputData T -> InputData T) | ReadSat | ReadEg.

Definition set_t_a (v : T) (i : InputData T) : InputData T :=
  mkInput (i_S_n i) (i_I_lw i) v (i_e_a i) (i_u i) (i_t_g i) (i_m_pp i) (i_percent_snow i) (i_rho_snow i) (i_t_pp i)
    (i_m_snow i) (i_m_rain i) (i_z_snow i) (i_h2o_sat_snow i) (i_t_rain i) (i_t_snow i) (i_precip_now i).
Definition set_t_g (v : T) (i : InputData T) : InputData T :=
  mkInput (i_S_n i) (i_I_lw i) (i_t_a i) (i_e_a i) (i_u i) v (i_m_pp i) (i_percent_snow i) (i_rho_snow i) (i_t_pp i)
    (i_m_snow i) (i_m_rain i) (i_z_snow i) (i_h2o_sat_snow i) (i_t_rain i) (i_t_snow i) (i_precip_now i).

(** input.py:72-114 *)
Definition input_op (o : InputOp) (x : InputObj) : InputObj * list (result T) :=
  match o with
  | SetTa v => (mkInputObj (set_t_a v (io_data x)) (reset (io_sat x)) (io_eg x), [])
  | SetTg v => (mkInputObj (set_t_g v (io_data x)) (io_sat x) (reset (io_eg x)), [])
  | SetOtherI g => (mkInputObj (g (io_data x)) (io_sat x) (io_eg x), [])
  | ReadSat => let (r, k) := read_slot (sati (i_t_a (io_data x))) (io_sat x) in (mkInputObj (io_data x) k (io_eg x), [r])
  | ReadEg => let (r, k) := read_slot (sati (i_t_g (io_data x))) (io_eg x) in (mkInputObj (io_data x) (io_sat x) k, [r])
  end.
Fixpoint input_history (l : list InputOp) (x : InputObj) : InputObj * list (result T) :=
  match l with
  | [] => (x, [])
  | o :: r => let (x, a) := input_op o x in let (x, b) := input_history r x in (x, a ++ b)
  end.

End Cache.
Arguments SnowOp T : clear implicits. Arguments SnowObs T : clear implicits. Arguments SnowObj T : clear implicits.
Arguments InputOp T : clear implicits. Arguments InputObj T : clear implicits.
Arguments mkSlot {A}. Arguments flag {A}. Arguments stored {A}.
