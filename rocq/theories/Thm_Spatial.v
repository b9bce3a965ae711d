(** * Theorems C44, C53: the gridded layer computation against the point one *)
From Coq Require Import Reals ZArith Bool Lia Lra List.
Import ListNotations.
From Verif Require Import Num Real Constants Functions Libsnobal Input SnowState Spatial.
Open Scope R_scope.
Implicit Types (c : Cell R) (s : SnowState R).

(** As written, the first assignment raises and no cell changes. *)
Theorem C44_gridded_layers_cannot_run thr mz (g : list (Cell R)) :
  run_program as_written (calc_layers_program thr mz) g = (g, Some AttributeError).
Proof. reflexivity. Qed.

(** ** With a setter for layer_count *)
Lemma combine_map_r {A B} (f : A -> B) (g : A -> bool) l :
  map (fun bc => f (snd bc)) (combine (map g l) l) = map f l.
Proof. induction l; cbn; [reflexivity|]. f_equal. assumption. Qed.

(** a program on a grid is the program on each cell *)
Definition cell_body (idx : bool) (b : list (Attr * ((Cell R -> bool) -> Cell R -> Value))) (c : Cell R) : Cell R :=
  fold_left (fun c st => store (fst st) (snd st (fun _ => idx) c) c) b c.
Definition cell_program (ps : list Paragraph) (c : Cell R) : Cell R :=
  fold_left (fun c p => cell_body (par_cond p c) (par_body p) c) ps c.

Lemma run_body_cells b : forall idx (g : list (Cell R)), length idx = length g ->
  run_body repaired idx b g = (map (fun bc => cell_body (fst bc) b (snd bc)) (combine idx g), None).
Proof.
  induction b as [|st b IH]; intros idx g Hl.
  - cbn. f_equal. revert idx Hl. induction g as [|x g IHg]; intros [|y idx] Hl; try discriminate; [reflexivity|].
    cbn. f_equal. apply IHg. cbn in Hl. lia.
  - cbn [run_body run_stmt]. unfold run_stmt, repaired. rewrite IH.
    + f_equal. revert idx Hl. induction g as [|x g IHg]; intros [|y idx] Hl; try discriminate; [reflexivity|].
      cbn [combine map fst snd]. f_equal. apply IHg. cbn in Hl. lia.
    + rewrite map_length, combine_length. lia.
Qed.
Lemma run_program_cells ps : forall (g : list (Cell R)),
  run_program repaired ps g = (map (cell_program ps) g, None).
Proof.
  induction ps as [|p ps IH]; intros g.
  - cbn. rewrite map_id. reflexivity.
  - cbn [run_program]. rewrite run_body_cells by apply map_length.
    rewrite IH. f_equal. rewrite map_map. clear IH.
    induction g as [|x g IHg]; [reflexivity|]. cbn [map combine fst snd]. f_equal. apply IHg.
Qed.

(** the point model's state with the mass, density and depth of a cell *)
Definition point_state thr mz c : SnowState R :=
  set_m_s (g_m_s c) (set_rho (g_rho c) (set_z_s (g_z_s c) (snow_state_init mz thr))).

(** every cell gets the depths the point model would give it; where there is snow the
    number of layers is the point model's too (for a positive threshold), but cells
    without snow are reported as having one layer *)
Theorem C44_same_depths_if_assignable thr mz (g : list (Cell R)) : 0 <= thr -> 0 < mz ->
  exists g', run_program repaired (calc_layers_program thr mz) g = (g', None) /\
    Forall2 (fun c c' =>
      let p := calc_layers (point_state thr mz c) in
      g_z_s c' = z_s p /\ g_z_s_0 c' = z_s_0 p /\ g_z_s_l c' = z_s_l p /\
      (thr < g_m_s c -> 0 < g_z_s c -> 0 < thr \/ g_z_s c <> mz -> 0 < g_rho c -> g_layer_count c' = layer_count p) /\
      (g_m_s c <= thr -> g_layer_count c' = 1%nat /\ layer_count p = 0%nat)) g g'.
Proof.
  intros Ht Hm. rewrite run_program_cells. eexists. split; [reflexivity|].
  induction g as [|c g IH]; [constructor|]. cbn [map]. constructor; [|exact IH]. clear IH.
  cbv zeta. unfold calc_layers, point_state. cbn [small_threshold max_z_s_0 m_s rho z_s set_m_s set_rho set_z_s snow_state_init].
  destruct c as [m r z z0 zl n]. cbn [g_m_s g_rho g_z_s g_z_s_0 g_z_s_l g_layer_count].
  unfold cell_program, calc_layers_program, cell_body, where_num, where_int. rn.
  cbn [fold_left par_cond par_body fst snd store g_m_s g_rho g_z_s g_z_s_0 g_z_s_l g_layer_count].
  destruct (Rleb_spec m thr) as [H1|H1]; cbn [fold_left par_cond par_body fst snd store g_m_s g_rho g_z_s g_z_s_0 g_z_s_l g_layer_count].
  - destruct (Rltb_spec 0 mz) as [H2|H2]; [|lra]. destruct (Rleb_spec mz 0) as [H3|H3]; [lra|].
    cbn. unfold layer_count; rn; cbn. destruct (Rltb_spec 0 0) as [H5|_]; [lra|].
    destruct (Rltb ((0 - 0) * r) thr) eqn:H4; cbn; repeat split; try lra; intros; lra.
  - destruct (Rltb_spec z mz) as [H2|H2].
    + destruct (Rleb_spec mz z) as [H3|H3]; [lra|]. destruct (Rltb_spec 0 (z - mz)) as [H4|H4]; [lra|].
      assert (E : forall a b : R, (if Rltb (0 * r) thr then a else b) = (if Rltb ((z - z) * r) thr then a else b)).
      { intros. replace ((z - z) * r) with (0 * r) by ring. reflexivity. }
      cbn. unfold layer_count; rn. replace ((z - z) * r) with (0 * r) by ring.
      destruct (Rltb (0 * r) thr); cbn; rn; (destruct (Rltb_spec 0 z); destruct (Rltb_spec 0 0); try lra; repeat split; try lra; intros; lra).
    + destruct (Rleb_spec mz z) as [H3|H3]; [|lra]. cbn. unfold layer_count; rn.
      destruct (Rltb_spec 0 (z - mz)) as [H4|H4].
      * destruct (Rltb_spec ((z - mz) * r) thr) as [H5|H5]; cbn; rn.
        -- destruct (Rltb_spec 0 z); [|lra]. destruct (Rltb_spec 0 0); try lra. repeat split; try lra; intros; lra.
        -- destruct (Rltb_spec 0 mz); [|lra]. destruct (Rltb_spec 0 (z - mz)); [|lra]. repeat split; try lra; intros; lra.
      * assert (z = mz) by lra. subst z. replace ((mz - mz) * r) with (0 * r) by ring.
        destruct (Rltb_spec (0 * r) thr) as [H5|H5]; cbn; rn.
        -- destruct (Rltb_spec 0 mz); [|lra]. destruct (Rltb_spec 0 0); try lra. repeat split; try lra; intros; lra.
        -- destruct (Rltb_spec 0 mz); [|lra]. destruct (Rltb_spec 0 0); lra.
Qed.

(** the two-layer cell of exactly the active depth when the threshold is zero: the counts differ *)
Theorem C44_active_depth_with_zero_threshold c mz : 0 < mz -> g_z_s c = mz -> 0 < g_m_s c -> 
  g_layer_count (cell_program (calc_layers_program 0 mz) c) = 2%nat /\
  layer_count (calc_layers (point_state 0 mz c)) = 1%nat.
Proof.
  intros Hm Hz H0. unfold calc_layers, point_state. cbn [small_threshold max_z_s_0 m_s rho z_s set_m_s set_rho set_z_s snow_state_init].
  destruct c as [m r z z0 zl n]. cbn [g_m_s g_rho g_z_s g_z_s_0 g_z_s_l g_layer_count] in *. subst z.
  unfold cell_program, calc_layers_program, cell_body, where_num, where_int. rn.
  cbn [fold_left par_cond par_body fst snd store g_m_s g_rho g_z_s g_z_s_0 g_z_s_l g_layer_count].
  destruct (Rleb_spec m 0) as [H1|H1]; [lra|]. cbn.
  destruct (Rltb_spec mz mz); [lra|]. destruct (Rleb_spec mz mz); [|lra]. cbn.
  replace ((mz - mz) * r) with 0 by ring. destruct (Rltb_spec 0 0); [lra|].
  destruct (Rltb_spec 0 (mz - mz)); [lra|]. rn. replace (0 * r) with 0 by ring. destruct (Rltb_spec 0 0); [lra|].
  unfold layer_count; rn; cbn. destruct (Rltb_spec 0 mz); [|lra]. destruct (Rltb_spec 0 0); [lra|]. split; reflexivity.
Qed.

(** ** C53: temperatures.  On one cell, the gridded class computes the point model's layer
    temperatures whenever neither layer's cold content is positive (which holds in every
    run, C19) *)
Theorem C53_same_temperatures s : cc_s_0 s <= 0 -> cc_s_l s <= 0 ->
  sp_adjust_layer_temps s = adjust_layer_temps s.
Proof.
  intros H0 Hl. unfold sp_adjust_layer_temps, adjust_layer_temps, sp_isothermal, isothermal, cc_s.
  destruct (layer_count s) as [|[|[|k]]]; try reflexivity. cbn [Nat.eqb andb]. rn.
  destruct (Reqb_spec (cc_s_0 s) 0), (Reqb_spec (cc_s_l s) 0), (Reqb_spec (cc_s_0 s + cc_s_l s) 0); try lra; reflexivity.
Qed.
(** without that, they differ: opposite cold contents count as isothermal in the point model only *)
Theorem C53_opposite_cold_contents s : layer_count s = 2%nat -> cc_s_0 s = - cc_s_l s -> cc_s_0 s <> 0 ->
  isothermal s = true /\ sp_isothermal s = false.
Proof.
  intros Hl H H0. unfold isothermal, sp_isothermal, cc_s. rewrite Hl. rn. cbn.
  destruct (Reqb_spec (cc_s_0 s + cc_s_l s) 0); [|lra]. destruct (Reqb_spec (cc_s_0 s) 0); [lra|]. split; reflexivity.
Qed.

(** ** Cases *)
Example a_grid : Forall2 (fun c n => g_layer_count (cell_program (calc_layers_program 1 (1/4)) c) = n)
  [mkCell 0 0 0 0 0 0; mkCell 30 300 (1/10) 0 0 0; mkCell 300 300 1 0 0 0] [1; 1; 2]%nat.
Proof.
  repeat constructor; unfold cell_program, calc_layers_program, cell_body, where_num, where_int; rn; cbn.
  - destruct (Rleb_spec 0 1); [|lra]. cbn. destruct (Rltb_spec 0 (1/4)); [|lra]. cbn. destruct (Rleb_spec (1/4) 0); [lra|]. cbn.
    destruct (Rltb _ _); reflexivity.
  - destruct (Rleb_spec 30 1); [lra|]. cbn. destruct (Rltb_spec (1/10) (1/4)); [|lra]. cbn. destruct (Rleb_spec (1/4) (1/10)); [lra|]. cbn.
    destruct (Rltb _ _); reflexivity.
  - destruct (Rleb_spec 300 1); [lra|]. cbn. destruct (Rltb_spec 1 (1/4)); [lra|]. cbn. destruct (Rleb_spec (1/4) 1); [|lra]. cbn.
    destruct (Rltb_spec ((1 - 1/4) * 300) 1); [lra|reflexivity].
Qed.

Print Assumptions C44_gridded_layers_cannot_run.
Print Assumptions C44_same_depths_if_assignable.
Print Assumptions C44_active_depth_with_zero_threshold.
Print Assumptions C53_same_temperatures.
Print Assumptions C53_opposite_cold_contents.
