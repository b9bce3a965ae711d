(** * Theorem C28: cached quantities are never stale *)
From Coq Require Import ZArith Bool List.
Import ListNotations.
From Verif Require Import Num Constants Functions Libsnobal Input SnowState Cache.

Section Any.
Context {T : Type} {N : Num T}.

(** ** What an object without caches would show *)
Definition assign (o : SnowOp T) (s : SnowState T) : SnowState T :=
  match o with
  | SetT0 v => set_t_s_0 v s | SetTl v => set_t_s_l v s
  | SetZ0 v => set_z_s_0 v s | SetZl v => set_z_s_l v s
  | SetOther g => g s | CalcLayers => calc_layers s
  | ReadE0 | ReadEl | ReadCount => s
  end.
Fixpoint current_values (l : list (SnowOp T)) (s : SnowState T) : list (SnowObs T) :=
  match l with
  | [] => []
  | ReadE0 :: r => ObsE (sati (t_s_0 s)) :: current_values r s
  | ReadEl :: r => ObsE (sati (t_s_l s)) :: current_values r s
  | ReadCount :: r => ObsN (Ok (layer_count s)) :: current_values r s
  | o :: r => current_values r (assign o s)
  end.

(** assigning another attribute leaves the layer temperatures and depths alone *)
Definition proper (o : SnowOp T) : Prop :=
  match o with
  | SetOther g => forall s, t_s_0 (g s) = t_s_0 s /\ t_s_l (g s) = t_s_l s /\ z_s_0 (g s) = z_s_0 s /\ z_s_l (g s) = z_s_l s
  | _ => True
  end.
Definition no_direct_depth (o : SnowOp T) : Prop :=
  match o with SetZ0 _ | SetZl _ => False | _ => True end.

Definition valid {A} (compute : result A) (k : Slot A) : Prop :=
  flag k = true -> exists v, stored k = Some v /\ compute = Ok v.

Lemma read_valid {A} (compute : result A) k : valid compute k ->
  fst (read_slot compute k) = compute /\ valid compute (snd (read_slot compute k)).
Proof.
  intros H. unfold read_slot. destruct (flag k) eqn:E; cbn [negb].
  - destruct (H E) as (v & Hv & Hc). rewrite Hv. cbn. split; [auto|]. exact H.
  - destruct compute as [v|e]; cbn; (split; [reflexivity|]); [|exact H].
    intros _. exists v. auto.
Qed.
Lemma reset_valid {A} (compute : result A) k : valid compute (reset k).
Proof. intros H. discriminate. Qed.

(** saturation vapour pressures: for every history whatsoever.  The layer count: for
    every history in which depths only change through calc_layers. *)
Theorem C28_snow_state_reads_are_current l : Forall proper l -> Forall no_direct_depth l ->
  forall mz thr, snd (snow_history l (new_snow_obj mz thr)) = current_values l (snow_state_init mz thr).
Proof.
  intros Hp Hd mz thr.
  assert (G : forall x, valid (sati (t_s_0 (so_state x))) (so_e0 x) -> valid (sati (t_s_l (so_state x))) (so_el x) ->
    valid (Ok (layer_count (so_state x))) (so_lc x) ->
    snd (snow_history l x) = current_values l (so_state x)).
  2: { apply G; intros H; discriminate. }
  clear mz thr. induction l as [|o l IH]; intros x V0 Vl Vc; [reflexivity|].
  inversion Hp as [|? ? P1 P2]; subst. inversion Hd as [|? ? D1 D2]; subst. specialize (IH P2 D2).
  assert (Step : forall x' obs, snow_op o x = (x', obs) ->
    valid (sati (t_s_0 (so_state x'))) (so_e0 x') -> valid (sati (t_s_l (so_state x'))) (so_el x') ->
    valid (Ok (layer_count (so_state x'))) (so_lc x') ->
    snd (snow_history (o :: l) x) = obs ++ current_values l (so_state x')).
  { intros x' obs E A B C. cbn [snow_history]. rewrite E. specialize (IH x' A B C).
    destruct (snow_history l x') as (x2, b). cbn in *. congruence. }
  destruct o as [v|v|v|v|g| | | |]; cbn in D1; try contradiction.
  - refine (Step _ _ eq_refl _ _ _); cbn [so_state so_e0 so_el so_lc]; [apply reset_valid|exact Vl|exact Vc].
  - refine (Step _ _ eq_refl _ _ _); cbn [so_state so_e0 so_el so_lc]; [exact V0|apply reset_valid|exact Vc].
  - destruct (P1 (so_state x)) as (E0 & El & Z0 & Zl).
    refine (Step _ _ eq_refl _ _ _); cbn [so_state so_e0 so_el so_lc].
    + rewrite E0. exact V0.
    + rewrite El. exact Vl.
    + unfold layer_count. rewrite Z0, Zl. exact Vc.
  - assert (E : t_s_0 (calc_layers (so_state x)) = t_s_0 (so_state x) /\ t_s_l (calc_layers (so_state x)) = t_s_l (so_state x)).
    { unfold calc_layers. match goal with |- context [let (_, _) := ?e in _] => destruct e end. split; reflexivity. }
    destruct E as (E0 & El).
    refine (Step _ _ eq_refl _ _ _); cbn [so_state so_e0 so_el so_lc]; [rewrite E0; exact V0|rewrite El; exact Vl|apply reset_valid].
  - destruct (read_valid _ _ V0) as (R1 & R2). destruct (read_slot (sati (t_s_0 (so_state x))) (so_e0 x)) as (r, k) eqn:E.
    cbn in R1, R2. subst r. erewrite Step; [|cbn; rewrite E; reflexivity| | |]; [reflexivity|exact R2|exact Vl|exact Vc].
  - destruct (read_valid _ _ Vl) as (R1 & R2). destruct (read_slot (sati (t_s_l (so_state x))) (so_el x)) as (r, k) eqn:E.
    cbn in R1, R2. subst r. erewrite Step; [|cbn; rewrite E; reflexivity| | |]; [reflexivity|exact V0|exact R2|exact Vc].
  - destruct (read_valid _ _ Vc) as (R1 & R2). destruct (read_slot (Ok (layer_count (so_state x))) (so_lc x)) as (r, k) eqn:E.
    cbn in R1, R2. subst r. erewrite Step; [|cbn; rewrite E; reflexivity| | |]; [reflexivity|exact V0|exact Vl|exact R2].
Qed.

(** vapour pressures stay current even when depths are assigned directly *)
Definition is_pressure (o : SnowObs T) : bool := match o with ObsE _ => true | ObsN _ => false end.
Theorem C28_vapour_pressures_are_current l : Forall proper l ->
  forall mz thr, filter is_pressure (snd (snow_history l (new_snow_obj mz thr))) =
                 filter is_pressure (current_values l (snow_state_init mz thr)).
Proof.
  intros Hp mz thr.
  assert (G : forall x, valid (sati (t_s_0 (so_state x))) (so_e0 x) -> valid (sati (t_s_l (so_state x))) (so_el x) ->
    filter is_pressure (snd (snow_history l x)) = filter is_pressure (current_values l (so_state x))).
  2: { apply G; intros H; discriminate. }
  clear mz thr. induction l as [|o l IH]; intros x V0 Vl; [reflexivity|].
  inversion Hp as [|? ? P1 P2]; subst. specialize (IH P2).
  assert (Step : forall x' obs, snow_op o x = (x', obs) ->
    valid (sati (t_s_0 (so_state x'))) (so_e0 x') -> valid (sati (t_s_l (so_state x'))) (so_el x') ->
    filter is_pressure (snd (snow_history (o :: l) x)) = filter is_pressure obs ++ filter is_pressure (current_values l (so_state x'))).
  { intros x' obs E A B. cbn [snow_history]. rewrite E. specialize (IH x' A B).
    destruct (snow_history l x') as (x2, b). cbn in *. rewrite filter_app. congruence. }
  destruct o as [v|v|v|v|g| | | |].
  - refine (Step _ _ eq_refl _ _); cbn [so_state so_e0 so_el]; [apply reset_valid|exact Vl].
  - refine (Step _ _ eq_refl _ _); cbn [so_state so_e0 so_el]; [exact V0|apply reset_valid].
  - refine (Step _ _ eq_refl _ _); [exact V0|exact Vl].
  - refine (Step _ _ eq_refl _ _); [exact V0|exact Vl].
  - destruct (P1 (so_state x)) as (E0 & El & _).
    refine (Step _ _ eq_refl _ _); cbn [so_state so_e0 so_el]; [rewrite E0; exact V0|rewrite El; exact Vl].
  - assert (E : t_s_0 (calc_layers (so_state x)) = t_s_0 (so_state x) /\ t_s_l (calc_layers (so_state x)) = t_s_l (so_state x)).
    { unfold calc_layers. match goal with |- context [let (_, _) := ?e in _] => destruct e end. split; reflexivity. }
    destruct E as (E0 & El).
    refine (Step _ _ eq_refl _ _); cbn [so_state so_e0 so_el]; [rewrite E0; exact V0|rewrite El; exact Vl].
  - destruct (read_valid _ _ V0) as (R1 & R2). destruct (read_slot (sati (t_s_0 (so_state x))) (so_e0 x)) as (r, k) eqn:E.
    cbn in R1, R2. subst r. erewrite Step; [|cbn; rewrite E; reflexivity| |]; [reflexivity|exact R2|exact Vl].
  - destruct (read_valid _ _ Vl) as (R1 & R2). destruct (read_slot (sati (t_s_l (so_state x))) (so_el x)) as (r, k) eqn:E.
    cbn in R1, R2. subst r. erewrite Step; [|cbn; rewrite E; reflexivity| |]; [reflexivity|exact V0|exact R2].
  - destruct (read_slot (Ok (layer_count (so_state x))) (so_lc x)) as (r, k) eqn:E.
    erewrite Step; [|cbn; rewrite E; reflexivity| |]; [reflexivity|exact V0|exact Vl].
Qed.

(** assigning a depth directly after a read leaves the count stale *)
Theorem C28_direct_depth_assignment_is_not_seen (x : SnowObj T) a b :
  flag (so_lc x) = false ->
  layer_count (so_state x) <> layer_count (set_z_s_l b (set_z_s_0 a (so_state x))) ->
  exists old new, old <> new /\
    snd (snow_history [ReadCount; SetZ0 a; SetZl b; ReadCount] x) = [ObsN (Ok old); ObsN (Ok old)] /\
    current_values [ReadCount; SetZ0 a; SetZl b; ReadCount] (so_state x) = [ObsN (Ok old); ObsN (Ok new)].
Proof.
  intros Hf Hn. eexists _, _. split; [exact Hn|]. split; [|reflexivity].
  cbn. unfold read_slot. rewrite Hf. cbn. reflexivity.
Qed.

(** ** InputData *)
Definition assign_input (o : InputOp T) (i : InputData T) : InputData T :=
  match o with SetTa v => set_t_a v i | SetTg v => set_t_g v i | SetOtherI g => g i | ReadSat | ReadEg => i end.
Fixpoint current_input (l : list (InputOp T)) (i : InputData T) : list (result T) :=
  match l with
  | [] => []
  | ReadSat :: r => sati (i_t_a i) :: current_input r i
  | ReadEg :: r => sati (i_t_g i) :: current_input r i
  | o :: r => current_input r (assign_input o i)
  end.
Definition proper_input (o : InputOp T) : Prop :=
  match o with SetOtherI g => forall i, i_t_a (g i) = i_t_a i /\ i_t_g (g i) = i_t_g i | _ => True end.

Theorem C28_input_reads_are_current l : Forall proper_input l -> forall i,
  snd (input_history l (mkInputObj i fresh_slot fresh_slot)) = current_input l i.
Proof.
  intros Hp i.
  assert (G : forall x, valid (sati (i_t_a (io_data x))) (io_sat x) -> valid (sati (i_t_g (io_data x))) (io_eg x) ->
    snd (input_history l x) = current_input l (io_data x)).
  2: { apply (G (mkInputObj i fresh_slot fresh_slot)); intros H; discriminate. }
  clear i. induction l as [|o l IH]; intros x Va Vg; [reflexivity|].
  inversion Hp as [|? ? P1 P2]; subst. specialize (IH P2).
  assert (Step : forall x' obs, input_op o x = (x', obs) ->
    valid (sati (i_t_a (io_data x'))) (io_sat x') -> valid (sati (i_t_g (io_data x'))) (io_eg x') ->
    snd (input_history (o :: l) x) = obs ++ current_input l (io_data x')).
  { intros x' obs E A B. cbn [input_history]. rewrite E. specialize (IH x' A B).
    destruct (input_history l x') as (x2, b). cbn in *. congruence. }
  destruct o as [v|v|g| |].
  - refine (Step _ _ eq_refl _ _); cbn [io_data io_sat io_eg]; [apply reset_valid|exact Vg].
  - refine (Step _ _ eq_refl _ _); cbn [io_data io_sat io_eg]; [exact Va|apply reset_valid].
  - destruct (P1 (io_data x)) as (Ea & Eg).
    refine (Step _ _ eq_refl _ _); cbn [io_data io_sat io_eg]; [rewrite Ea; exact Va|rewrite Eg; exact Vg].
  - destruct (read_valid _ _ Va) as (R1 & R2). destruct (read_slot (sati (i_t_a (io_data x))) (io_sat x)) as (r, k) eqn:E.
    cbn in R1, R2. subst r. erewrite Step; [|cbn; rewrite E; reflexivity| |]; [reflexivity|exact R2|exact Vg].
  - destruct (read_valid _ _ Vg) as (R1 & R2). destruct (read_slot (sati (i_t_g (io_data x))) (io_eg x)) as (r, k) eqn:E.
    cbn in R1, R2. subst r. erewrite Step; [|cbn; rewrite E; reflexivity| |]; [reflexivity|exact Va|exact R2].
Qed.
End Any.

(** ** Cases: a history with reads before and after changes, one of which raises *)
From Coq Require Import Floats.
From Verif Require Import FloatNum.
Definition is_err {A} (r : result A) : bool := match r with Ok _ => false | Err _ => true end.
Example a_history :
  let l := [SetT0 268; ReadE0; ReadE0; SetT0 (-5); ReadE0; SetT0 270; ReadE0;
            SetOther (set_m_s 30); SetOther (set_rho 300); SetOther (set_z_s 0.1); ReadCount; CalcLayers; ReadCount]%float in
  Forall proper l /\ Forall no_direct_depth l /\
  map (fun o => match o with ObsE r => is_err r | ObsN r => match r with Ok n => (1 <=? n)%nat | Err _ => false end end)
      (snd (snow_history l (new_snow_obj 0.25 1)%float)) = [false; false; true; false; false; true].
Proof.
  split; [|split].
  - repeat (constructor; [cbn; auto|]). constructor.
  - repeat (constructor; [exact I|]). constructor.
  - vm_compute. reflexivity.
Qed.

Print Assumptions C28_snow_state_reads_are_current.
Print Assumptions C28_vapour_pressures_are_current.
Print Assumptions C28_direct_depth_assignment_is_not_seen.
Print Assumptions C28_input_reads_are_current.
