(** * Theorem C83: the gridded model cannot be constructed and cannot run *)
From Coq Require Import String Ascii ZArith Bool Lia List.
Import ListNotations.
From Verif Require Import Gridded.
Open Scope string_scope.

(** specification: a class accepts a call *)
Definition accepts (mro : list Methods) (m : string) (n : nat) : Prop :=
  exists lo hi, lookup_method mro m = Some (lo, hi) /\ (lo <= n <= hi)%nat.

Section C83.
Context {V : Type}.
Implicit Types (W : World (V:=V)).

Lemma call_inv W mro m args self o : call_method W mro m args self = Ret o -> accepts mro m (length args).
Proof.
  unfold call_method. destruct (lookup_method mro m) as [[lo hi]|] eqn:E; [|discriminate].
  destruct ((lo <=? length args) && (length args <=? hi))%nat eqn:B; [|discriminate]. intros _.
  exists lo, hi. split; [exact E|]. apply andb_prop in B. destruct B as (B1 & B2). apply Nat.leb_le in B1, B2. lia.
Qed.
Lemma andthen_inv {A B} (m : Res A) (f : A -> Res B) b : andthen m f = Ret b -> exists a, m = Ret a /\ f a = Ret b.
Proof. destruct m; [|discriminate]. intros H. exists a. split; [reflexivity|exact H]. Qed.

(** What a class would have to provide for the constructor to return, whatever its methods then do. *)
Theorem C83_construction_needs W mro params pv ti ic mh o : new_iSnobal W mro params pv ti ic mh = Ret o ->
  params "elevation" <> None /\ params "start_date" <> None /\
  accepts mro "init_snow" 1 /\ accepts mro "get_measurement_height_rec" 1 /\ accepts mro "init_output" 0.
Proof.
  unfold new_iSnobal. intros H.
  apply andthen_inv in H. destruct H as (e & He & H). apply andthen_inv in H. destruct H as (d & Hd & H).
  apply andthen_inv in H. destruct H as (p & Hp & H). apply andthen_inv in H. destruct H as (s1 & H1 & H).
  apply andthen_inv in H. destruct H as (s2 & H2 & H). apply andthen_inv in H. destruct H as (s3 & H3 & _).
  split; [unfold getitem in He; destruct (params "elevation"); [discriminate|discriminate He]|].
  split; [unfold getitem in Hd; destruct (params "start_date"); [discriminate|discriminate Hd]|].
  apply call_inv in H1, H2, H3. repeat split; assumption.
Qed.

(** The class as it is accepts neither call: whatever the parameters and whatever the methods do, construction raises,
    and with the two parameters present it is init_snow that raises, for its argument. *)
Theorem C83_construction_raises W params pv ti ic mh :
  (exists e, new_iSnobal W iSnobal_mro params pv ti ic mh = Raise e) /\
  (forall el d p, params "elevation" = Some el -> params "start_date" = Some d -> w_hysat W el = Ret p ->
     new_iSnobal W iSnobal_mro params pv ti ic mh = Raise (TypeError "init_snow")).
Proof.
  split.
  - destruct (new_iSnobal W iSnobal_mro params pv ti ic mh) as [o|e] eqn:E; [|exists e; reflexivity]. exfalso.
    destruct (C83_construction_needs _ _ _ _ _ _ _ _ E) as (_ & _ & (lo & hi & L & B) & _).
    cbv in L. injection L as <- <-. lia.
  - intros el d p He Hd Hp. unfold new_iSnobal, getitem. rewrite He. cbn [andthen]. rewrite Hd. cbn [andthen]. rewrite Hp. reflexivity.
Qed.

(** Repairing init_snow alone does not help: the class has no get_measurement_height_rec at all. *)
Theorem C83_no_measurement_heights : lookup_method iSnobal_mro "get_measurement_height_rec" = None /\
  forall W arity params pv ti ic mh, exists e,
    new_iSnobal W ([("init_snow", arity)] :: iSnobal_mro) params pv ti ic mh = Raise e.
Proof.
  split; [reflexivity|]. intros W arity params pv ti ic mh.
  destruct (new_iSnobal W ([("init_snow", arity)] :: iSnobal_mro) params pv ti ic mh) as [o|e] eqn:E; [|exists e; reflexivity]. exfalso.
  destruct (C83_construction_needs _ _ _ _ _ _ _ _ E) as (_ & _ & _ & (lo & hi & L & B) & _). cbv in L. discriminate.
Qed.

(** Nor does repairing the class: in the module as it is, run raises with every class and every input, for the loop
    refers to a name that is not defined. *)
Theorem C83_run_raises W mro dataset params pv ti ic mh :
  exists e, irun W ipysnobal_names mro dataset params pv ti ic mh = Raise e.
Proof.
  destruct (irun W ipysnobal_names mro dataset params pv ti ic mh) as [o|e] eqn:E; [|exists e; reflexivity]. exfalso.
  unfold irun in E. apply andthen_inv in E. destruct E as (i & _ & E). apply andthen_inv in E. destruct E as (s & _ & E).
  apply andthen_inv in E. destruct E as (x & L & _). cbv in L. discriminate.
Qed.

(** If input_data were defined and not empty, InputData would be missing. *)
Theorem C83_run_needs W names mro dataset params pv ti ic mh : irun W names mro dataset params pv ti ic mh = Ret tt ->
  accepts mro "init_snow" 1 /\ accepts mro "get_measurement_height_rec" 1 /\ In "input_data" names /\
  forall items, w_items W (w_name W "input_data") = Ret items -> items <> [] -> In "InputData" names.
Proof.
  assert (G : forall n x, load_global W names n = Ret x -> In n names /\ x = w_name W n).
  { intros n x. unfold load_global. destruct (existsb (String.eqb n) names) eqn:B; [|discriminate]. intros H. injection H as <-.
    apply existsb_exists in B. destruct B as (y & I & Q). apply String.eqb_eq in Q. subst y. split; [exact I|reflexivity]. }
  intros E. unfold irun in E. apply andthen_inv in E. destruct E as (i & _ & E). apply andthen_inv in E. destruct E as (s & N & E).
  apply andthen_inv in E. destruct E as (x & L & E). apply andthen_inv in E. destruct E as (items & I & E). apply andthen_inv in E. destruct E as (s' & R & _).
  destruct (C83_construction_needs _ _ _ _ _ _ _ _ N) as (_ & _ & A1 & A2 & _). destruct (G _ _ L) as (Gi & ->).
  split; [exact A1|]. split; [exact A2|]. split; [exact Gi|]. intros items' I' Ne. rewrite I' in I. injection I as <-.
  destruct items' as [|[d v] items']; [congruence|]. cbn [run_loop] in R. apply andthen_inv in R. destruct R as (c & Lc & _). exact (proj1 (G _ _ Lc)).
Qed.

End C83.

(** ** A concrete case: values are numbers, nothing else goes wrong.  The class and module as they are raise; with the
    missing pieces supplied the run goes through, so the theorems' hypotheses can be met. *)
Definition W0 : World (V:=nat) :=
  {| w_true := 1; w_false := 0; w_zero := 0; w_hle1_init := 0; w_hysat := fun _ => Ret 0; w_body := fun _ _ o => Ret o; w_self := fun _ => 0;
     w_first := fun _ => Ret 0; w_name := fun _ => 0; w_items := fun _ => Ret [(0, 0); (1, 1)]; w_call := fun _ _ => Ret 0;
     w_data_tstep := fun o _ _ => Ret o; w_output := fun _ => Ret tt |}%nat.
Definition params0 (k : string) : option nat := if (k =? "elevation")%string then Some 1%nat else if (k =? "start_date")%string then Some 2%nat else None.
Definition repaired : list Methods := [("init_snow", (1, 1)); ("get_measurement_height_rec", (1, 1))]%nat :: iSnobal_mro.
Example C83_witness :
  new_iSnobal W0 iSnobal_mro params0 0%nat 0%nat 0%nat 0%nat = Raise (TypeError "init_snow") /\
  irun W0 ipysnobal_names iSnobal_mro 0%nat params0 0%nat 0%nat 0%nat 0%nat = Raise (TypeError "init_snow") /\
  irun W0 ipysnobal_names repaired 0%nat params0 0%nat 0%nat 0%nat 0%nat = Raise (NameError "input_data") /\
  irun W0 ("input_data" :: ipysnobal_names) repaired 0%nat params0 0%nat 0%nat 0%nat 0%nat = Raise (NameError "InputData") /\
  irun W0 ("input_data" :: "InputData" :: ipysnobal_names) repaired 0%nat params0 0%nat 0%nat 0%nat 0%nat = Ret tt.
Proof. repeat split. Qed.

Print Assumptions C83_construction_needs.
Print Assumptions C83_construction_raises.
Print Assumptions C83_no_measurement_heights.
Print Assumptions C83_run_raises.
Print Assumptions C83_run_needs.
