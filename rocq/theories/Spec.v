(** * Small mathematical specifications used in the theorem statements. *)
From Coq Require Import Reals ZArith List.
Import ListNotations.
From Verif Require Import Num Real Input SnowState Snobal.
Open Scope R_scope.

(** sum of [f] over a list *)
Definition sum_over {A} (f : A -> R) (l : list A) : R := fold_right (fun x a => f x + a) 0 l.

(** duration of a run step in seconds *)
Definition seconds (e : Event R) : R := IZR (ts_time_step (e_tstep e)).

(** time-weighted mean of [f] over run steps *)
Definition time_mean (f : Event R -> R) (evs : list (Event R)) : R :=
  sum_over (fun e => f e * seconds e) evs / sum_over seconds evs.

(** the eight energy terms *)
Definition energy_terms : list (Energy R -> R) :=
  [R_n; H_; L_v_E; G_; G_0; M_; delta_Q; delta_Q_0].

Lemma sum_over_app {A} (f : A -> R) l1 l2 : sum_over f (l1 ++ l2) = sum_over f l1 + sum_over f l2.
Proof.
  unfold sum_over. induction l1 as [|x l1 IH]; cbn [fold_right app]; [ring|]. rewrite IH. ring.
Qed.
Lemma sum_over_map {A B} (g : A -> B) (f : B -> R) l : sum_over f (map g l) = sum_over (fun x => f (g x)) l.
Proof. unfold sum_over. induction l as [|x l IH]; cbn; [reflexivity|]. rewrite IH. reflexivity. Qed.
Lemma sum_over_ext {A} (f g : A -> R) l :
  (forall x, In x l -> f x = g x) -> sum_over f l = sum_over g l.
Proof.
  unfold sum_over. induction l as [|x l IH]; cbn; intros H; [reflexivity|]. rewrite IH, H by auto. reflexivity.
Qed.
Lemma sum_over_plus {A} (f g : A -> R) l : sum_over (fun x => f x + g x) l = sum_over f l + sum_over g l.
Proof. unfold sum_over. induction l as [|x l IH]; cbn; [ring|]. rewrite IH. ring. Qed.
Lemma sum_over_scal {A} (k : R) (f : A -> R) l : sum_over (fun x => k * f x) l = k * sum_over f l.
Proof. unfold sum_over. induction l as [|x l IH]; cbn; [ring|]. rewrite IH. ring. Qed.
Lemma sum_over_const {A} (k : R) (l : list A) : sum_over (fun _ => k) l = INR (length l) * k.
Proof.
  unfold sum_over. induction l as [|x l IH]; [cbn; ring|]. cbn [fold_right length]. rewrite IH, S_INR. ring.
Qed.
Lemma sum_over_repeat {A} (f : A -> R) x n : sum_over f (repeat x n) = INR n * f x.
Proof.
  unfold sum_over. induction n as [|n IH]; [cbn; ring|]. cbn [fold_right repeat]. rewrite IH, S_INR. ring.
Qed.
