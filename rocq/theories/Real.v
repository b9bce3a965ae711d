(** * The real-number instance of [Num], and proof tactics.

    Over the reals every comparison is decided exactly and no operation rounds;
    theorems that use this instance are about exact arithmetic. *)
From Coq Require Import Reals ZArith Bool List String Lra Lia.
Import ListNotations.
From Verif Require Import Num Constants.

Definition Rltb (a b : R) : bool := if Rlt_dec a b then true else false.
Definition Rleb (a b : R) : bool := if Rle_dec a b then true else false.
Definition Reqb (a b : R) : bool := if Req_EM_T a b then true else false.

Global Instance RNum : Num R := {|
  nadd := Rplus; nsub := Rminus; nmul := Rmult; ndiv := Rdiv; nabs := Rabs;
  nltb := Rltb; nleb := Rleb; neqb := Reqb; nofZ := IZR;
  nexp := exp; nln := ln; nsqrt := sqrt; natan := atan; ncos := cos;
  npow := Rpower; npi := PI
|}.

Open Scope R_scope.

Lemma Rltb_spec a b : reflect (a < b) (Rltb a b).
Proof. unfold Rltb; destruct (Rlt_dec a b); constructor; assumption. Qed.
Lemma Rleb_spec a b : reflect (a <= b) (Rleb a b).
Proof. unfold Rleb; destruct (Rle_dec a b); constructor; assumption. Qed.
Lemma Reqb_spec a b : reflect (a = b) (Reqb a b).
Proof. unfold Reqb; destruct (Req_EM_T a b); constructor; assumption. Qed.

Lemma Rltb_true a b : Rltb a b = true <-> a < b.
Proof. destruct (Rltb_spec a b); split; intros; try lra; congruence. Qed.
Lemma Rltb_false a b : Rltb a b = false <-> b <= a.
Proof. destruct (Rltb_spec a b); split; intros; try lra; congruence. Qed.
Lemma Rleb_true a b : Rleb a b = true <-> a <= b.
Proof. destruct (Rleb_spec a b); split; intros; try lra; congruence. Qed.
Lemma Rleb_false a b : Rleb a b = false <-> b < a.
Proof. destruct (Rleb_spec a b); split; intros; try lra; congruence. Qed.
Lemma Reqb_true a b : Reqb a b = true <-> a = b.
Proof. destruct (Reqb_spec a b); split; intros; try lra; congruence. Qed.
Lemma Reqb_false a b : Reqb a b = false <-> a <> b.
Proof. destruct (Reqb_spec a b); split; intros; try lra; congruence. Qed.

(** unfold the operations of the instance *)
Ltac rn := cbv [nadd nsub nmul ndiv nabs nltb nleb neqb nofZ nexp nln nsqrt natan ncos npow npi RNum cst] in *.
Ltac rng := cbv [nadd nsub nmul ndiv nabs nltb nleb neqb nofZ nexp nln nsqrt natan ncos npow npi RNum cst].

(** turn boolean hypotheses into (in)equalities *)
Ltac rbool :=
  repeat match goal with
  | H : Rltb _ _ = true |- _ => apply Rltb_true in H
  | H : Rltb _ _ = false |- _ => apply Rltb_false in H
  | H : Rleb _ _ = true |- _ => apply Rleb_true in H
  | H : Rleb _ _ = false |- _ => apply Rleb_false in H
  | H : Reqb _ _ = true |- _ => apply Reqb_true in H
  | H : Reqb _ _ = false |- _ => apply Reqb_false in H
  | H : negb _ = true |- _ => apply negb_true_iff in H
  | H : negb _ = false |- _ => apply negb_false_iff in H
  | H : _ && _ = true |- _ => apply andb_true_iff in H; destruct H
  | H : _ || _ = false |- _ => apply orb_false_iff in H; destruct H
  end.

(** destruct one comparison of the goal *)
Ltac rcase :=
  match goal with
  | |- context [Rltb ?a ?b] => destruct (Rltb_spec a b)
  | |- context [Rleb ?a ?b] => destruct (Rleb_spec a b)
  | |- context [Reqb ?a ?b] => destruct (Reqb_spec a b)
  end.

(** ** The result monad *)
Lemma bind_ok {A B} (m : result A) (f : A -> result B) b :
  bind m f = Ok b <-> exists a, m = Ok a /\ f a = Ok b.
Proof.
  destruct m as [a|e]; simpl; split.
  - intros H. exists a. auto.
  - intros (a' & Ha & Hf). congruence.
  - discriminate.
  - intros (a' & Ha & _). discriminate.
Qed.

Lemma bind_err {A B} (m : result A) (f : A -> result B) e :
  bind m f = Err e <-> m = Err e \/ exists a, m = Ok a /\ f a = Err e.
Proof.
  destruct m as [a|e']; simpl; split.
  - intros H. right. exists a. auto.
  - intros [H|(a' & Ha & Hf)]; congruence.
  - intros H. left. congruence.
  - intros [H|(a' & Ha & _)]; congruence.
Qed.

Lemma bind_assoc {A B C} (m : result A) (f : A -> result B) (g : B -> result C) :
  bind (bind m f) g = bind m (fun a => bind (f a) g).
Proof. destruct m; reflexivity. Qed.

(** [H : bind m f = Ok b]: name the intermediate value and its equation *)
Tactic Notation "inv_bind" hyp(H) "as" simple_intropattern(x) ident(Hx) :=
  apply bind_ok in H; destruct H as (x & Hx & H).

Lemma pdiv_ok {T} {N : Num T} (a b q : T) :
  pdiv a b = Ok q -> neqb b (nofZ 0) = false /\ q = ndiv a b.
Proof. unfold pdiv. destruct (neqb b (nofZ 0)); intros H; inversion H; auto. Qed.

Lemma pdiv_R (a b q : R) : pdiv a b = Ok q <-> b <> 0 /\ q = a / b.
Proof.
  unfold pdiv; rn. destruct (Reqb_spec b 0); split.
  - discriminate. - intros [H _]; lra.
  - intros H; inversion H; auto. - intros [_ ->]; reflexivity.
Qed.
Lemma pdiv_R_ok (a b : R) : b <> 0 -> pdiv a b = Ok (a / b).
Proof. intros H. apply pdiv_R; auto. Qed.
Lemma plog_R_ok (a : R) : 0 < a -> plog a = Ok (ln a).
Proof. intros H. unfold plog; rn. destruct (Rltb_spec 0 a); [reflexivity|lra]. Qed.
Lemma plog_R (a l : R) : plog a = Ok l <-> 0 < a /\ l = ln a.
Proof.
  unfold plog; rn. destruct (Rltb_spec 0 a); split.
  - intros H; inversion H; auto. - intros [_ ->]; reflexivity.
  - discriminate. - intros [H _]; lra.
Qed.
Lemma psqrt_R_ok (a : R) : 0 <= a -> psqrt a = Ok (sqrt a).
Proof. intros H. unfold psqrt; rn. destruct (Rltb_spec a 0); [lra|reflexivity]. Qed.
Lemma psqrt_R (a l : R) : psqrt a = Ok l <-> 0 <= a /\ l = sqrt a.
Proof.
  unfold psqrt; rn. destruct (Rltb_spec a 0); split.
  - discriminate. - intros [H _]; lra.
  - intros H; inversion H; split; [lra|auto]. - intros [_ ->]; reflexivity.
Qed.

(** ** The constants as rational numbers *)
Lemma FREEZE_R : (FREEZE : R) = 27316/100. Proof. reflexivity. Qed.
Lemma NO_SNOW_R : (NO_SNOW_TEMP : R) = -75 + 27316/100. Proof. reflexivity. Qed.
Lemma MAXD_R : (MAX_SNOW_DENSITY : R) = 600. Proof. reflexivity. Qed.

(** unfold every rational constant of the code *)
Ltac consts := cbv [FREEZE BOIL STD_LAPSE STD_AIRTMP SEA_LEVEL RGAS GRAVITY MOL_AIR MOL_H2O
  VON_KARMAN MIN_SNOW_TEMP KT_MOISTSAND MAX_SNOW_DENSITY RHO_W0 CP_W0 RHO_ICE VAP_SUB CAL_TO_J
  SNOW_EMISSIVITY STEF_BOLTZ RHO_MAX R1 R2 SWE_MAX CP_AIR DALR AH AV PAESCHKE THRESH BETA_S BETA_U
  H2O_MAX_DENSITY H2O_B NO_SNOW_TEMP] in *; rn.

Lemma Ok_inj {A} (a b : A) : Ok a = Ok b -> a = b.
Proof. intros H; injection H; auto. Qed.
(** [H : Ok a = Ok b] without reducing [a] and [b] *)
Ltac ok_inj H := apply Ok_inj in H.
