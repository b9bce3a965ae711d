(** * Theorem C82: saturation vapour pressure of arrays *)
From Coq Require Import Reals ZArith Bool Lia Lra List.
Import ListNotations.
From Verif Require Import Num Real Constants Libsnobal Arrays Phys Thm_Phys.

Section Generic.
Context {T : Type} {N : Num T}.

Lemma assign_map (f : option T -> bool) v tk : assign (map f tk) v tk = map (fun e => if f e then v else e) tk.
Proof. unfold assign. induction tk as [|e tk IH]; [reflexivity|]. cbn. f_equal. exact IH. Qed.

Lemma select_map (f : option T -> bool) tk : select (map f tk) tk = filter f tk.
Proof. unfold select. induction tk as [|e tk IH]; [reflexivity|]. cbn. destruct (f e); cbn; [f_equal|]; exact IH. Qed.

(** writing g of the selected entries where they were *)
Lemma put_filter (f : option T -> bool) (g : option T -> option T) tk (a : Entries (T:=T)) : length a = length tk ->
  put (map f tk) (map g (filter f tk)) a = map (fun p => if f (fst p) then g (fst p) else snd p) (combine tk a).
Proof.
  revert a. induction tk as [|e tk IH]; intros [|x a] H; try discriminate; [reflexivity|]. cbn in *. injection H as H.
  destruct (f e); cbn; f_equal; apply IH; exact H.
Qed.

Definition cleaned (e : option T) : option T := if less (nofZ 0) e then None else e.

Lemma sati_np_entries empty tk : length empty = length tk ->
  sati_np empty tk = (map (fun e => let e := cleaned e in
                             if greater FREEZE e then option_map satw_entry (cleaned e) else option_map sati_entry e) tk, map cleaned tk).
Proof.
  intros H. unfold sati_np. rewrite assign_map. change (map (fun e => if less (nofZ 0) e then None else e) tk) with (map cleaned tk).
  set (tk' := map cleaned tk). f_equal.
  assert (H' : length empty = length tk') by (unfold tk'; rewrite map_length; exact H).
  rewrite (select_map (greater FREEZE)). unfold satw_np. cbn [fst]. rewrite assign_map, (map_map _ (option_map satw_entry)).
  rewrite (put_filter (greater FREEZE) (fun e => option_map satw_entry (if less (nofZ 0) e then None else e))) by exact H'.
  match goal with |- put _ (map ?g _) ?a = _ => set (a0 := a) end.
  assert (Ha : length a0 = length tk') by (unfold a0; rewrite map_length, combine_length; lia).
  assert (Hs : select (map negb (map (greater FREEZE) tk')) tk' = filter (fun x => negb (greater FREEZE x)) tk').
  { rewrite map_map. apply (select_map (fun x => negb (greater FREEZE x))). }
  rewrite Hs. rewrite (map_map (greater FREEZE) negb).
  rewrite (put_filter (fun x => negb (greater FREEZE x)) (option_map sati_entry)) by exact Ha.
  unfold a0. clear Ha a0 Hs. rewrite <- (map_map cleaned (fun e => if greater FREEZE e then option_map satw_entry (cleaned e) else option_map sati_entry e)).
  fold tk'. clearbody tk'. clear H. revert empty H'. induction tk' as [|e l IH]; intros [|x a] H'; try discriminate; [reflexivity|].
  cbn in *. injection H' as H'. rewrite (IH a H'). f_equal. unfold cleaned. destruct (greater FREEZE e); reflexivity.
Qed.

(** what the scalar functions return is what the formulas give *)
Lemma satw_entry_eq v r : satw v = Ok r -> satw_entry v = r /\ (nltb v (nofZ 0) = false).
Proof.
  unfold satw, satw_entry. destruct (nltb v (nofZ 0)); [discriminate|]. intros H.
  unfold pdiv in H. destruct (neqb v (nofZ 0)); [discriminate|]. cbn [bind] in H.
  unfold plog in H. destruct (nltb (nofZ 0) (BOIL / v)%num) eqn:E; cbn [bind] in H; [|discriminate]. injection H as <-. split; reflexivity.
Qed.
Lemma sati_entry_eq v r : sati v = Ok r -> nltb v (nofZ 0) = false /\
  (if nltb FREEZE v then satw_entry v else sati_entry v) = r.
Proof.
  unfold sati. destruct (nltb v (nofZ 0)) eqn:E0; [discriminate|]. intros H. split; [reflexivity|].
  destruct (nltb FREEZE v); [apply satw_entry_eq; exact H|].
  unfold pdiv in H. destruct (neqb v (nofZ 0)); [discriminate|]. cbn [bind] in H.
  unfold plog in H. destruct (nltb (nofZ 0) (FREEZE / v)%num) eqn:E; cbn [bind] in H; [|discriminate]. injection H as <-. reflexivity.
Qed.

(** For every number type: the array function returns, for each entry for which the scalar function returns a value,
    that value; entries below zero and nan give nan.  It also replaces the negative entries of the caller's array
    by nan, and leaves the others. *)
Theorem C82_array_saturation_vapour_pressure empty tk x tk' : length empty = length tk -> sati_np empty tk = (x, tk') ->
  length x = length tk /\ length tk' = length tk /\
  forall k,
    (forall v r, nth_error tk k = Some (Some v) -> sati v = Ok r -> nth_error x k = Some (Some r) /\ nth_error tk' k = Some (Some v)) /\
    (forall v, nth_error tk k = Some (Some v) -> nltb v (nofZ 0) = true -> nth_error x k = Some None /\ nth_error tk' k = Some None) /\
    (nth_error tk k = Some None -> nth_error x k = Some None /\ nth_error tk' k = Some None).
Proof.
  intros He H. rewrite (sati_np_entries _ _ He) in H. apply pair_equal_spec in H. destruct H as (<- & <-).
  rewrite !map_length. split; [reflexivity|]. split; [reflexivity|]. intros k. split; [|split].
  - intros v r Hk Hr. destruct (sati_entry_eq _ _ Hr) as (Hn & Hv).
    rewrite (map_nth_error _ _ _ Hk), (map_nth_error cleaned _ _ Hk). assert (C : cleaned (Some v) = Some v) by (unfold cleaned, less; rewrite Hn; reflexivity).
    rewrite C. cbv zeta. rewrite C. cbn [greater option_map]. split; [|reflexivity]. rewrite <- Hv. destruct (nltb FREEZE v); reflexivity.
  - intros v Hk Hn. rewrite (map_nth_error _ _ _ Hk), (map_nth_error cleaned _ _ Hk). unfold cleaned, less. rewrite Hn. split; reflexivity.
  - intros Hk. rewrite (map_nth_error _ _ _ Hk), (map_nth_error cleaned _ _ Hk). split; reflexivity.
Qed.

(** the same for the function over water *)
Theorem C82_array_saturation_over_water tk x tk' : satw_np tk = (x, tk') ->
  length x = length tk /\ length tk' = length tk /\
  forall k,
    (forall v r, nth_error tk k = Some (Some v) -> satw v = Ok r -> nth_error x k = Some (Some r) /\ nth_error tk' k = Some (Some v)) /\
    (forall v, nth_error tk k = Some (Some v) -> nltb v (nofZ 0) = true -> nth_error x k = Some None /\ nth_error tk' k = Some None) /\
    (nth_error tk k = Some None -> nth_error x k = Some None /\ nth_error tk' k = Some None).
Proof.
  unfold satw_np. rewrite assign_map. change (map (fun e => if less (nofZ 0) e then None else e) tk) with (map cleaned tk).
  rewrite map_map. intros H. apply pair_equal_spec in H. destruct H as (<- & <-).
  rewrite !map_length. split; [reflexivity|]. split; [reflexivity|]. intros k. split; [|split].
  - intros v r Hk Hr. destruct (satw_entry_eq _ _ Hr) as (Hv & Hn).
    rewrite (map_nth_error _ _ _ Hk), (map_nth_error cleaned _ _ Hk). unfold cleaned, less. rewrite Hn. cbn [option_map]. rewrite Hv. split; reflexivity.
  - intros v Hk Hn. rewrite (map_nth_error _ _ _ Hk), (map_nth_error cleaned _ _ Hk). unfold cleaned, less. rewrite Hn. split; reflexivity.
  - intros Hk. rewrite (map_nth_error _ _ _ Hk), (map_nth_error cleaned _ _ Hk). split; reflexivity.
Qed.
End Generic.

Open Scope R_scope.

(** Over the reals: every positive entry gets a value, and it is positive *)
Theorem C82_positive_temperatures_have_a_pressure (empty tk x tk' : Entries (T:=R)) : length empty = length tk -> sati_np empty tk = (x, tk') ->
  forall k v, nth_error tk k = Some (Some v) -> 0 < v -> exists e, sati v = Ok e /\ 0 < e /\ nth_error x k = Some (Some e) /\ nth_error tk' k = Some (Some v).
Proof.
  intros He H k v Hk Hv. destruct (proj1 C33_saturation_vapour_pressure v Hv) as ((e & E & P) & _). exists e. split; [exact E|]. split; [exact P|].
  destruct (C82_array_saturation_vapour_pressure empty tk x tk' He H) as (_ & _ & K). exact (proj1 (K k) v e Hk E).
Qed.

(** ** A concrete case, in binary64: 280 K, -5, 260 K, nan *)
From Coq Require Import Floats.
From Verif Require Import FloatNum.
Definition kelvins : Entries (T:=float) := [Some 280%float; Some (-5)%float; Some 260%float; None].
Example C82_witness :
  match sati_np [None; None; None; None] kelvins, sati 280%float, sati 260%float with
  | ([Some a; None; Some b; None], [Some u; None; Some v; None]), Ok p, Ok q =>
      PrimFloat.eqb a p && PrimFloat.eqb b q && PrimFloat.eqb u 280 && PrimFloat.eqb v 260
  | _, _, _ => false end = true.
Proof. vm_compute. reflexivity. Qed.

Print Assumptions C82_array_saturation_vapour_pressure.
Print Assumptions C82_array_saturation_over_water.
Print Assumptions C82_positive_temperatures_have_a_pressure.
