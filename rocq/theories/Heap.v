(** * Input records as mutable objects

    In the Python program the two records of a data step are objects: the model
    keeps references to them (self.input1, self.input2), changes self.input1 in
    place (snobal.py:176-178, 239-241, 277, 1056) and the loop of PySnobal.run
    makes the second object of one data step the first object of the next
    (pysnobal.py:310).  Snobal.v passes records by value.  This file models the
    same routines with a heap of records and references, including what the heap
    looks like after an error, so that the by-value model can be justified and
    the absence of leaks between records can be stated. *)
From Coq Require Import ZArith Bool String List.
Import ListNotations.
From Verif Require Import Num Constants Functions Libsnobal Input SnowState Snobal PySnobal.
Open Scope num_scope.

Section Heap.
Context {T : Type} {N : Num T}.

Definition Ref := nat.
Definition Heap : Type := Ref -> InputData T.
Definition store_at (h : Heap) (r : Ref) (i : InputData T) : Heap :=
  fun x => if Nat.eqb x r then i else h x.

(** A Python statement: it changes the heap and returns or raises. *)
Definition HM (A : Type) : Type := Heap -> Heap * result A.
Definition hret {A} (a : A) : HM A := fun h => (h, Ok a).
Definition hlift {A} (x : result A) : HM A := fun h => (h, x).
Definition hbind {A B} (m : HM A) (f : A -> HM B) : HM B :=
  fun h => match m h with
           | (h', Ok a) => f a h'
           | (h', Err e) => (h', Err e)
           end.
Definition hget (r : Ref) : HM (InputData T) := fun h => (h, Ok (h r)).
Definition hput (r : Ref) (i : InputData T) : HM unit := fun h => (store_at h r i, Ok tt).
Notation "'do*' x := a 'in' b" := (hbind a (fun x => b))
  (at level 200, x name, a at level 100, b at level 200).
Notation "'do*' ' p := a 'in' b" := (hbind a (fun p => b))
  (at level 200, p strict pattern, a at level 100, b at level 200).

(** snobal.py:1042-1098 h_le on the object [r] = self.input1: the vapour pressure is
    written into the object before anything else can fail *)
Definition hh_le (P_a : T) (mh : Heights T) (relative : bool) (init : option T * option T)
    (r : Ref) (s : SnowState T) : HM (T * T * T * (option T * option T)) :=
  do* i := hget r in
  do* sat_vp := hlift (sati (i_t_a i)) in
  do* _ := (if sat_vp <? i_e_a i then hput r (set_e_a sat_vp i) else hret tt) in
  do* i := hget r in
  let rel_z_T := if relative then mh_z_t mh else mh_z_t mh - z_s s in
  let rel_z_u := if relative then mh_z_u mh else mh_z_u mh - z_s s in
  do* e_s := hlift (sati (t_s_0 s)) in
  do* q := hlift (hle1 P_a (i_t_a i) (t_s_0 s) rel_z_T (i_e_a i) e_s rel_z_T
                 (i_u i) rel_z_u (z_0 s) (fst init) (snd init)) in
  if negb (hr_ier q =? 0)%Z then hlift (Err NotConverged)
  else hret (hr_h q, hr_le q, hr_e q, (Some (hr_ustar q), Some (hr_factor q))).

(** snobal.py:880-920 energy_balance; the other routines only read the object *)
Definition henergy_balance (env : Env T) (time_step : Z) (init : option T * option T)
    (r : Ref) (s : SnowState T) : HM (SnowState T * (option T * option T)) :=
  if has_snow s then
    do* i := hget r in
    let rn := net_radiation i s in
    do* '(h, lve, e, init) := hh_le (ev_P_a env) (ev_heights env) (ev_relative_hts env) init r s in
    do* i := hget r in
    do* '(g, g0) := hlift (heat_transfer (ev_P_a env) (mh_z_g (ev_heights env)) i s) in
    do* m := hlift (advec time_step i s) in
    let dq0 := rn + h + lve + g0 + m in
    let dq := dq0 + g - g0 in
    hret (set_E_flux e (set_en (mkEnergy rn h lve g g0 m dq dq0) s), init)
  else hret (set_E_flux (#0) (set_en zero_energy s), init).

(** snobal.py:205-279 do_tstep; self.input1 = [r], the deltas are fresh objects that
    are only read *)
Definition hdo_tstep (env : Env T) (ds : list (Z * InputData T)) (ts : TStep T)
    (c : Core T) (r : Ref) : HM (Core T) :=
  do* d := hlift (deltas_at ds (ts_level ts)) in
  do* i := hget r in
  do* _ := (if i_precip_now i then hput r (update_precip_deltas i d) else hret tt) in
  do* i := hget r in
  let before := c_ss c in
  let s := set_h2o_total (#0) (c_ss c) in
  let cover := has_snow s in
  do* '(s, init) := henergy_balance env (ts_time_step ts) (c_hle1_init c) r s in
  do* i' := hget r in
  do* '(s, kept) := hlift (mass_balance (ev_P_a env) (mh_z_g (ev_heights env)) (ts_time_step ts) i' (s, cover)) in
  let ev := mkEvent ts (c_datetime c) i before s kept in
  do* '(s, tso) :=
    (if (0 <? c_time_since_out c)%Z then
       do* s := hlift (ss_time_average s (#(c_time_since_out c)) (#(ts_time_step ts))) in
       hret (s, (c_time_since_out c + ts_time_step ts)%Z)
     else hret (value_to_bar s, ts_time_step ts)) in
  let c := mkCore s (c_datetime c + ts_minutes ts)%Z tso (c_outputs c) init (c_trace c ++ [ev]) in
  do* c := (if ev_output_divided env then hlift (output c) else hret c) in
  do* i := hget r in
  do* _ := hput r (add_deltas i d) in
  hret c.

Fixpoint hiter {A} (n : nat) (body : A -> HM A) (a : A) : HM A :=
  match n with
  | O => hret a
  | S m => do* a' := body a in hiter m body a'
  end.

(** snobal.py:136-202 divide_tstep; the state is the object and its current_level *)
Fixpoint hdivide_tstep (fuel : nat) (env : Env T) (ds : list (Z * InputData T)) (r : Ref)
    (st : Core T * Z) : HM (Core T * Z) :=
  match fuel with
  | O => hlift (Err RecursionLimit)
  | S fuel' =>
      do* ts := hlift (tstep_at env (snd st)) in
      do* i := hget r in
      do* _ := (if i_precip_now i && (1 <? ts_level ts)%Z then
                  do* d := hlift (deltas_at ds (ts_level ts)) in
                  hput r (update_precip_deltas i d)
                else hret tt) in
      do* st := hiter (Z.to_nat (ts_intervals ts))
        (fun st =>
           if negb (snd st =? SMALL_TSTEP)%Z && below_thold (ts_threshold ts) (c_ss (fst st))
           then hdivide_tstep fuel' env ds r (fst st, (snd st + 1)%Z)
           else do* c := hdo_tstep env ds ts (fst st) r in hret (c, snd st))
        st in
      do* c := (if (snd st =? 0)%Z && negb (ev_output_divided env)
                then hlift (output (fst st)) else hret (fst st)) in
      hret (c, (snd st - 1)%Z)
  end.

(** snobal.py:72-134 do_data_tstep called with two objects, which may be the same one *)
Definition hdo_data_tstep (env : Env T) (c : Core T) (r1 r2 : Ref) : HM (Core T) :=
  do* i1 := hget r1 in
  do* i2 := hget r2 in
  do* ds := hlift (input_deltas i1 i2 (ev_tstep_info env)) in
  do* st := hdivide_tstep 3 env ds r1 (c, NORMAL_TSTEP) in
  hret (fst st).

(** pysnobal.py:298-311: the loop of run.  Each InputData(...) allocates a new object
    at the next free reference [free]; "input_data1 = input_data2" copies the reference.
    [seen] collects, for every call of do_data_tstep, the contents of the two objects
    at the moment of the call. *)
Fixpoint hrun_steps (env : Env T) (c : Core T) (r1 free : Ref) (raws : list (RawInput T))
    (seen : list (InputData T * InputData T)) : HM (Core T * list (InputData T * InputData T)) :=
  match raws with
  | [] => hret (c, seen)
  | raw :: rest =>
      do* i2 := hlift (input_data raw) in
      let r2 := free in
      do* _ := hput r2 i2 in
      do* v1 := hget r1 in
      do* v2 := hget r2 in
      do* c := hdo_data_tstep env c r1 r2 in
      hrun_steps env c r2 (S free) rest (seen ++ [(v1, v2)])
  end.

(** pysnobal.py:283-311 run up to output_to_file, with the records as objects: the first
    InputData object is reference 0 *)
Definition hsimulate (p : Params T) (info : list (TStep T)) (ic : InitSnow T) (mh : Heights T)
    (all_mode : bool) (rows : list CsvRow) : HM (Core T * list (InputData T * InputData T)) :=
  if negb (distinct_dates (map fst rows)) then
    hlift (Err (ValueError "DataFrame index must be unique for orient='index'."))
  else match rows with
  | [] => hlift (Err IndexError)
  | r0 :: rest =>
      do* i1 := hlift (input_data (snd r0)) in
      do* _ := hput 0%nat i1 in
      do* '(env, c) := hlift (snobal_init p info ic mh all_mode) in
      hrun_steps env c 0%nat 1%nat (map snd rest) []
  end.

End Heap.
Arguments Heap T : clear implicits.
Arguments HM T A : clear implicits.
