(** * Theorem C72: with a small step longer than the medium one, time stands still over thin snow.

    Stated for an arbitrary number type with arbitrary operations, like C01-C05 in Thm_Schedule.v. *)
From Coq Require Import ZArith List Bool Floats Lia.
Import ListNotations.
From Verif Require Import Num Real Constants Functions Libsnobal Input SnowState Snobal PySnobal
  SchedSpec Sched SchedProps FloatNum Thm_Schedule.

Section Any.
Context {T : Type} {N : Num T}.
Implicit Types (cfg : ModelCfg T) (env : Env T) (c : Core T).

(** the pack is thin for the normal and for the medium step *)
Definition thin_for_both cfg (s : SnowState T) : Prop := thin (cfg_norm_thr cfg) s /\ thin (cfg_medium_thr cfg) s.

(** A data step that starts on such a pack executes no run step at all: clock and snow stay as they
    were.  Unless every run step is to be written, it still writes a record, with the old date. *)
Theorem C72_time_stands_still cfg env c i1 i2 c' :
  configured cfg env -> (0 <= cfg_medium cfg < cfg_small cfg)%Z -> thin_for_both cfg (c_ss c) ->
  do_data_tstep env c i1 i2 = Ok c' ->
  c_ss c' = c_ss c /\ c_datetime c' = c_datetime c /\ steps_between c c' [] /\
  c_outputs c' = c_outputs c ++ (if ev_output_divided env then [] else [mkOut (c_datetime c) (c_ss c)]).
Proof.
  intros Hc Hs (H0 & H1) H.
  destruct (C05_subdivision_policy _ _ _ _ _ _ Hc H) as (ds & l & c1 & i' & _ & Hd & Ho).
  assert (E : c1 = c).
  { destruct Hd as [(Hn & _)|(_ & Hd)]; [contradiction|].
    assert (G : forall n c i l c1 i', thin (cfg_medium_thr cfg) (c_ss c) ->
      times (interval env ds (medium_step cfg) (ts_intervals (small_step cfg)) (one_step env ds (small_step cfg))) n c i l c1 i' -> c1 = c).
    { clear - Hs. induction n as [|n IH]; intros c i l c1 i' Ht Hx; inversion Hx; subst; [reflexivity|].
      match goal with [ X : interval _ _ _ _ _ _ _ _ _ _ |- _ ] => destruct X as [(Hn & _)|(_ & Hz)]; [contradiction|] end.
      assert (E0 : Z.to_nat (ts_intervals (small_step cfg)) = 0%nat).
      { cbn [small_step ts_intervals]. rewrite Z.quot_small by lia. reflexivity. }
      rewrite E0 in Hz. inversion Hz; subst. eapply IH; eassumption. }
    exact (G _ _ _ _ _ _ H1 Hd). }
  subst c1. unfold steps_between. destruct (ev_output_divided env).
  - subst c'. rewrite !app_nil_r. auto.
  - unfold output in Ho. destruct (swi_sum (c_ss c)); [|discriminate]. injection Ho as <-. cbn. rewrite app_nil_r. auto.
Qed.

(** ... and so for ever, whatever the further records are *)
Theorem C72_for_ever cfg env c c' :
  configured cfg env -> (0 <= cfg_medium cfg < cfg_small cfg)%Z -> thin_for_both cfg (c_ss c) ->
  reachable env c c' -> c_ss c' = c_ss c /\ c_datetime c' = c_datetime c /\ steps_between c c' [].
Proof.
  intros Hc Hs Ht Hr. unfold reachable in Hr. unfold steps_between. rewrite app_nil_r. induction Hr as [|c1 i1 i2 c2 Hr IH _ Hd]; [auto|].
  destruct IH as (E1 & E2 & E3).
  destruct (C72_time_stands_still cfg env c1 i1 i2 c2 Hc Hs) as (A & B & C & _); [rewrite E1; exact Ht|exact Hd|].
  unfold steps_between in C. rewrite app_nil_r in C. rewrite A, B, C. auto.
Qed.

(** If the run starts with such a pack and writes one record per data step, its first data step raises. *)
Theorem C72_first_data_step_raises cfg env c i1 i2 :
  configured cfg env -> (0 <= cfg_medium cfg < cfg_small cfg)%Z -> thin_for_both cfg (c_ss c) ->
  ev_output_divided env = false -> swi_sum (c_ss c) = None -> forall c', do_data_tstep env c i1 i2 <> Ok c'.
Proof.
  intros Hc Hs Ht Hm Hn c' H.
  destruct (C72_time_stands_still cfg env c i1 i2 c' Hc Hs Ht H) as (Es & _).
  destruct (C05_subdivision_policy _ _ _ _ _ _ Hc H) as (ds & l & c1 & i' & _ & _ & Ho). rewrite Hm in Ho.
  unfold output in Ho. destruct (swi_sum (c_ss c1)) eqn:E; [|discriminate]. injection Ho as <-. cbn in Es.
  congruence.
Qed.
End Any.

(** ** Concrete runs (binary64): steps of 60, 15 and 30 minutes, a pack of 25 kg/m2, both thresholds 60 *)
Definition w_up : ModelCfg float := (mkCfg 60 15 30 60 60 1)%float.
Example C72_witness : exists env c0 i1 i2 c, configured w_up env /\ thin_for_both w_up (c_ss c0) /\
  snobal_init w_params (ev_tstep_info env) w_thin w_heights true = Ok (env, c0) /\
  do_data_tstep env c0 i1 i2 = Ok c /\ c_datetime c = c_datetime c0 /\ c_trace c = [].
Proof.
  assert (E : w_summary (w_run w_up w_thin true) = Some (0%nat, 0%Z, 0%nat, [])) by (vm_compute; reflexivity).
  assert (Ht : match w_run w_up w_thin true with Ok (_, c0, _) =>
     below_thold 60%float (c_ss c0) | _ => false end = true) by (vm_compute; reflexivity).
  destruct (w_run_inv _ _ _ _ eq_refl _ _ _ _ E) as (env & c0 & i1 & i2 & c & Hc & Hi & Hd & Hr & Hz & Hl & _).
  rewrite Hr in Ht. exists env, c0, i1, i2, c. split; [exact Hc|]. split.
  - apply thin_below in Ht. split; exact Ht.
  - split; [exact Hi|]. split; [exact Hd|]. split; [lia|]. destruct (c_trace c); [reflexivity|discriminate].
Qed.
Example C72_first_step : w_run w_up w_thin false = Err AttributeError. Proof. vm_compute. reflexivity. Qed.

Print Assumptions C72_time_stands_still.
Print Assumptions C72_for_ever.
Print Assumptions C72_first_data_step_raises.
