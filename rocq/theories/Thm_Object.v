(** * C91: a run depends on config and input file only, whatever was called before *)
From Coq Require Import String ZArith Bool List.
Import ListNotations.
From Verif Require Import Num Constants Functions Libsnobal Input SnowState Snobal PySnobal Columns Object.

Section Any.
Context {T : Type} {N : Num T}.
Variable S : Setup T.

Lemma mapper_twice k : input_mapper (input_mapper k) = input_mapper k.
Proof.
  unfold input_mapper at 2 3. unfold input_names. cbn [find fst].
  repeat (match goal with |- context[String.eqb ?a k] => destruct (String.eqb_spec a k) as [<-|?]; [reflexivity|] end).
  unfold input_mapper, input_names. cbn [find fst].
  repeat (match goal with |- context[String.eqb ?a k] => destruct (String.eqb_spec a k) as [<-|_]; [congruence|] end). reflexivity.
Qed.
Lemma map_twice (t : Table T) : map_input_data (map_input_data t) = map_input_data t.
Proof. unfold map_input_data. cbn [fst snd]. rewrite map_map. f_equal. apply map_ext. exact mapper_twice. Qed.
Lemma read_mapped s e (f : Table T) t : read_table s e f = Ok t -> map_input_data t = t.
Proof.
  unfold read_table. repeat (match goal with |- bind ?x _ = _ -> _ => destruct x; [cbn [bind]|discriminate] end).
  intros [= <-]. apply map_twice.
Qed.

(** what every call keeps: all but the snobal attribute and the file on disk *)
Definition fresh (o : Obj T) : Prop := exists d, construct S d = Ok (set_snobal None (set_disk d o)).
Lemma fresh_spec o : fresh o <-> exists info t, parse_time_steps (su_cfg S) = Ok info /\
  read_table (p_start_date (su_params S)) (su_end S) (su_file S) = Ok t /\
  o_params o = su_params S /\ o_start o = p_start_date (su_params S) /\ o_end o = su_end S /\ o_mh o = su_mh S /\
  o_info o = info /\ o_all o = su_all S /\ o_input o = t.
Proof.
  split.
  - intros (d & H). unfold construct in H. destruct (parse_time_steps (su_cfg S)) as [info|]; [|discriminate]. cbn [bind] in H.
    destruct (read_table _ _ _) as [t|] in H |- *; [|discriminate]. cbn [bind] in H. apply (f_equal (fun r => match r with Ok x => x | Err _ => o end)) in H.
    unfold set_snobal, set_disk in H. injection H as E1 E2 E3 E4 E5 E6 E7. exists info, t. repeat split; congruence.
  - intros (info & t & E1 & E2 & H). exists None. unfold construct. rewrite E1. cbn [bind]. rewrite E2. cbn [bind].
    unfold set_snobal, set_disk. destruct o. cbn in *. f_equal. destruct H as (?&?&?&?&?&?&?). subst. reflexivity.
Qed.
Lemma fresh_call k o r o' : called S k o r o' -> fresh o -> fresh o'.
Proof.
  rewrite !fresh_spec. intros C (info & t & E1 & E2 & P & St & En & Mh & If & Al & In_). exists info, t. split; [exact E1|]. split; [exact E2|].
  destruct C; cbn; repeat split; try assumption; try reflexivity.
  - congruence.
  - rewrite St, En, E2 in H. congruence.
  - rewrite In_. apply (read_mapped _ _ _ _ E2).
Qed.
Lemma fresh_history o ks o' : history S o ks o' -> fresh o -> fresh o'.
Proof. induction 1 as [|o k r o1 ks o2 C H IH]; [auto|]. intros F. apply IH. exact (fresh_call _ _ _ _ C F). Qed.

Definition the_run : result (OutFile T) :=
  table_run (su_params S) (su_end S) (su_cfg S) (su_ic S) (su_mh S) (su_all S) (su_file S).

(** After any calls on an object, run does what it does on an object just made: it writes the file
    of the run, or raises the exception of the run and leaves the file on disk alone *)
Theorem C91_run_after_any_calls d o0 ks o r o' :
  construct S d = Ok o0 -> history S o0 ks o -> called S Run o r o' ->
  match the_run with
  | Ok lines => r = Ok tt /\ o_disk o' = Some lines
  | Err e => r = Err e /\ o_disk o' = o_disk o
  end.
Proof.
  intros C H R. assert (F : fresh o0).
  { exists d. rewrite C. f_equal. unfold construct in C. destruct (parse_time_steps _) in C; [|discriminate]. cbn [bind] in C.
    destruct (read_table _ _ _) in C; [|discriminate]. cbn [bind] in C. apply (f_equal (fun r => match r with Ok x => x | Err _ => o0 end)) in C. subst o0. reflexivity. }
  pose proof (fresh_history _ _ _ H F) as G. apply fresh_spec in G. destruct G as (info & t & E1 & E2 & P & St & En & Mh & If & Al & In_).
  unfold the_run, table_run. rewrite E1. cbn [bind]. rewrite E2. cbn [bind]. rewrite <- P, <- Mh, <- If, <- Al, <- In_. clear E2.
  inversion R as [| | | | | |o1 c lines Q1 Q2|o1 e lo Q1|o1 c e Q1 Q2| | | |]; subst; rewrite Q1; cbn [bind]; try rewrite Q2; split; reflexivity.
Qed.

(** run can be called on it, whatever was called before *)
Theorem C91_run_can_be_called o : exists r o', called S Run o r o'.
Proof.
  destruct (table_simulate (o_params o) (o_info o) (su_ic S) (o_mh o) (o_all o) (o_input o)) as [c|e] eqn:E.
  - destruct (output_to_file c) as [lines|e] eqn:E2; do 2 eexists; [eapply C_run|eapply C_run_output_raises]; eassumption.
  - exists (Err e), (set_snobal None o). apply C_run_raises, E.
Qed.

(** Calling output_to_file again, or run again, after a run that finished leaves the file as it is *)
Theorem C91_again d o0 ks o o1 k r o2 :
  construct S d = Ok o0 -> history S o0 ks o -> called S Run o (Ok tt) o1 -> k = Run \/ k = OutputToFile -> called S k o1 r o2 ->
  r = Ok tt /\ o_disk o2 = o_disk o1.
Proof.
  intros C H R K A. pose proof (C91_run_after_any_calls d o0 ks o (Ok tt) o1 C H R) as X.
  destruct K as [->| ->].
  - assert (H' : history S o0 (ks ++ [Run]) o1).
    { clear -H R. induction H as [o|o k r a ks b Ck H IH]; cbn [app]; [eapply H_call; [exact R|apply H_none]|]. eapply H_call; [exact Ck|apply IH, R]. }
    pose proof (C91_run_after_any_calls d o0 _ o1 r o2 C H' A) as Y. destruct the_run; [|destruct X; discriminate].
    destruct X as [_ X], Y as [Y1 Y2]. split; [exact Y1|]. congruence.
  - inversion R; subst. inversion A; subst; cbn in *; try congruence. split; [reflexivity|]. cbn. congruence.
Qed.

(** No call but run and output_to_file changes the file on disk, and these only when they return *)
Theorem C91_file_changes_only_when_a_call_returns k o r o' :
  called S k o r o' -> o_disk o' <> o_disk o -> (k = Run \/ k = OutputToFile) /\ r = Ok tt.
Proof. intros C H. destruct C; cbn in H; try (exfalso; apply H; reflexivity); auto. Qed.
End Any.

(** ** The hypotheses are met (binary64): an object made for a file of five records, with calls before the run *)
From Coq Require Import Floats.
From Verif Require Import FloatNum Thm_Schedule Thm_Api Thm_Columns.
Section Witness.
Definition w_setup : Setup float := mkSetup w_params 180%Z w_even w_thin w_heights false as_documented.
Example C91_witness :
  (exists o0 o1, construct w_setup None = Ok o0 /\ history w_setup o0 [MapInputData; ReadInputData; UseSnobal; OutputToFile; ParseTimeSteps; ParseParams] o1 /\
     o_snobal o1 = None) /\
  match the_run w_setup with Ok lines => map fst lines = [60; 120; 180; 240]%Z | Err _ => False end.
Proof.
  split; [|vm_compute; reflexivity].
  destruct (construct w_setup None) as [o0|] eqn:E; [|vm_compute in E; discriminate].
  exists o0. pose proof E as E'. unfold construct in E'.
  destruct (parse_time_steps (su_cfg w_setup)) as [info|] eqn:E1 in E'; [|discriminate]. cbn [bind] in E'.
  destruct (read_table (p_start_date (su_params w_setup)) (su_end w_setup) (su_file w_setup)) as [t|] eqn:E2 in E'; [|discriminate]. cbn [bind] in E'.
  apply (f_equal (fun r => match r with Ok x => x | Err _ => o0 end)) in E'. subst o0.
  eexists. split; [reflexivity|]. split.
  - eapply H_call; [apply C_map|]. eapply H_call; [apply C_read; cbn [o_start o_end set_input]; exact E2|].
    eapply H_call; [apply (C_use _ _ None (Ok tt))|]. eapply H_call; [apply C_output_no_run; reflexivity|].
    eapply H_call; [apply C_steps; exact E1|]. eapply H_call; [apply C_params|]. apply H_none.
  - reflexivity.
Qed.
End Witness.

Print Assumptions C91_run_after_any_calls.
Print Assumptions C91_run_can_be_called.
Print Assumptions C91_again.
Print Assumptions C91_file_changes_only_when_a_call_returns.
