(** * Specification: which run steps one data step executes.

    No fuel, no mutable level counter: a data step is an interval of the normal
    length; an interval of the normal (medium) length is either one run step of
    that length or, when the pack is thin, [n1] medium ([n2] small) intervals.  *)
From Coq Require Import ZArith List Bool.
Import ListNotations.
From Verif Require Import Num Constants Functions Libsnobal Input SnowState Snobal.

Section SchedSpec.
Context {T : Type} {N : Num T}.

(** "some existing layer's mass is below the threshold" *)
Definition thin (threshold : T) (s : SnowState T) : Prop :=
  match layer_count s with
  | O => False
  | S O => nltb (m_s s) threshold = true
  | _ => nltb (m_s_0 s) threshold = true \/ nltb (m_s_l s) threshold = true
  end.

(** Two running inputs that differ at most in the precipitation amounts, and do
    not differ at all without precipitation.  Every run step overwrites these
    amounts with its own share before using them. *)
Definition same_met (i j : InputData T) : Prop :=
  i = j \/ (i_precip_now i = true /\ exists d, j = update_precip_deltas i d).

(** A relation between model states, labelled with the run steps executed. *)
Definition Span := Core T -> InputData T -> list (TStep T) -> Core T -> InputData T -> Prop.

(** [n] consecutive [R]s *)
Inductive times (R : Span) : nat -> Span :=
| times_O c i j : same_met i j -> times R 0 c i [] c j
| times_S n c i l c1 i1 l' c2 i2 :
    R c i l c1 i1 -> times R n c1 i1 l' c2 i2 -> times R (S n) c i (l ++ l') c2 i2.

(** one run step of length [ts] *)
Definition one_step (env : Env T) ds (ts : TStep T) : Span :=
  fun c i l c' i' => l = [ts] /\ do_tstep env ds ts c i = Ok (c', i').

(** an interval of [ts], divided into [n] [R]s when the pack is thin *)
Definition interval (env : Env T) ds (ts : TStep T) (n : Z) (R : Span) : Span :=
  fun c i l c' i' =>
    (~ thin (ts_threshold ts) (c_ss c) /\ one_step env ds ts c i l c' i')
    \/ (thin (ts_threshold ts) (c_ss c) /\ times R (Z.to_nat n) c i l c' i').

Definition data_interval (env : Env T) ds (t0 t1 t2 : TStep T) : Span :=
  interval env ds t0 (ts_intervals t1)
    (interval env ds t1 (ts_intervals t2) (one_step env ds t2)).

(** The possible lists of run steps: one normal step, or [n1] blocks, each one
    medium step or [n2] small ones. *)
Definition schedule (t0 t1 t2 : TStep T) (l : list (TStep T)) : Prop :=
  l = [t0]
  \/ exists blocks,
       l = concat blocks /\ length blocks = Z.to_nat (ts_intervals t1) /\
       Forall (fun b => b = [t1] \/ b = repeat t2 (Z.to_nat (ts_intervals t2))) blocks.

(** Two snow states that differ at most in the running means and totals kept for
    the output ("_bar" and "_sum" attributes). *)
Definition same_snow (s s' : SnowState T) : Prop :=
  exists b m e w, s' = set_bar b (set_melt_sum m (set_E_s_sum e (set_swi_sum w s))).

(** The executed run steps [evs] lead from snow state [s] at time [t] to [s'] at
    [t']: each starts where the previous one ended. *)
Inductive chain : SnowState T -> Z -> list (Event T) -> SnowState T -> Z -> Prop :=
| chain_nil s t : chain s t [] s t
| chain_cons e evs s1 s' t' :
    same_snow (e_after e) s1 ->
    chain s1 (e_start e + ts_minutes (e_tstep e))%Z evs s' t' ->
    chain (e_before e) (e_start e) (e :: evs) s' t'.

(** [evs] are the run steps executed between two states of the model *)
Definition steps_between (c c' : Core T) (evs : list (Event T)) : Prop :=
  c_trace c' = c_trace c ++ evs.

(** States a model object can be in after any number of returning data steps,
    whatever the records, as long as each pair satisfies [ok]. *)
Inductive reachable_by (ok : InputData T -> InputData T -> Prop) (env : Env T) (c0 : Core T)
  : Core T -> Prop :=
| reach_init : reachable_by ok env c0 c0
| reach_step c i1 i2 c' :
    reachable_by ok env c0 c -> ok i1 i2 ->
    do_data_tstep env c i1 i2 = Ok c' -> reachable_by ok env c0 c'.
Definition reachable := reachable_by (fun _ _ => True).

End SchedSpec.
