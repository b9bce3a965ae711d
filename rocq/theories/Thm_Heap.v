(** * Theorem C08: no leaks between input records *)
From Coq Require Import ZArith Bool String List Lia.
Import ListNotations.
From Verif Require Import Num Constants Functions Libsnobal Input SnowState Snobal PySnobal Heap.

Section Any.
Context {T : Type} {N : Num T}.
Implicit Types (h : Heap T) (r : Ref) (i : InputData T) (c : Core T).

(** [m], run with the object [r], does what [v] does with that object's value: same
    result or error, the object ends up holding the new value, and no other object
    changes, even if it raises *)
Definition agrees {A B} (r : Ref) h (x : Heap T * result A) (v : result B)
    (out : B -> A) (new : B -> InputData T) : Prop :=
  (forall q, q <> r -> fst x q = h q) /\
  match v with
  | Ok b => snd x = Ok (out b) /\ fst x r = new b
  | Err e => snd x = Err e
  end.

Lemma store_same h r i : store_at h r i r = i.
Proof. unfold store_at. rewrite Nat.eqb_refl. reflexivity. Qed.
Lemma store_other h r i q : q <> r -> store_at h r i q = h q.
Proof. intros H. unfold store_at. destruct (Nat.eqb_spec q r); [contradiction|reflexivity]. Qed.

Lemma hbind_ok {A B} (m : HM T A) (f : A -> HM T B) h h' a : m h = (h', Ok a) -> hbind m f h = f a h'.
Proof. intros H. unfold hbind. rewrite H. reflexivity. Qed.
Lemma hbind_err {A B} (m : HM T A) (f : A -> HM T B) h h' e : m h = (h', Err e) -> hbind m f h = (h', Err e).
Proof. intros H. unfold hbind. rewrite H. reflexivity. Qed.

Lemma agrees_bind {A B C D} r h (m : HM T A) (v : result B) o n (f : A -> HM T C) (w : B -> result D) o' n' :
  agrees r h (m h) v o n ->
  (forall b h', h' r = n b -> agrees r h' (f (o b) h') (w b) o' n') ->
  agrees r h (hbind m f h) (bind v w) o' n'.
Proof.
  intros [H1 H2] Hf. unfold hbind. destruct (m h) as [h' x]. cbn [fst snd] in *.
  destruct v as [b|e]; cbn.
  - destruct H2 as [-> H2]. specialize (Hf b h' H2). destruct Hf as [F1 F2]. split; [|exact F2].
    intros q Hq. rewrite F1 by exact Hq. auto.
  - subst x. split; cbn; auto.
Qed.
Lemma agrees_ret {A B} r h (a : A) (b : B) o n : a = o b -> h r = n b -> agrees r h (hret a h) (Ok b) o n.
Proof. intros -> H. split; cbn; auto. Qed.
Lemma agrees_lift {A B C} r h (x : result A) (f : A -> HM T B) (w : A -> result C) o n :
  (forall a, agrees r h (f a h) (w a) o n) -> agrees r h (hbind (hlift x) f h) (bind x w) o n.
Proof. intros H. unfold hbind, hlift. destruct x as [a|e]; cbn; [apply H|]. split; cbn; auto. Qed.
Lemma agrees_get {B C} r h (f : InputData T -> HM T B) (w : result C) o n :
  agrees r h (f (h r) h) w o n -> agrees r h (hbind (hget r) f h) w o n.
Proof. intros H. exact H. Qed.

(** a statement that writes the object or not, then continues *)
Lemma agrees_put_if {B C} r h (b : bool) i1 (f : unit -> HM T B) (w : result C) o n :
  (forall h', h' r = (if b then i1 else h r) -> agrees r h' (f tt h') w o n) ->
  agrees r h (hbind (if b then hput r i1 else hret tt) f h) w o n.
Proof.
  intros H. unfold hbind. destruct b; cbn.
  - specialize (H (store_at h r i1)). rewrite store_same in H. destruct (H eq_refl) as [H1 H2]. split; [|exact H2].
    intros q Hq. rewrite H1 by exact Hq. apply store_other. exact Hq.
  - apply (H h). reflexivity.
Qed.

Local Opaque hle1 sati mass_balance heat_transfer advec.
Lemma hh_le_agrees P mh rel init r (s : SnowState T) h :
  agrees r h (hh_le P mh rel init r s h) (h_le P mh rel init (h r) s)
    (fun '(a, b, e, i, w) => (a, b, e, w)) (fun '(a, b, e, i, w) => i).
Proof.
  unfold hh_le, h_le. apply agrees_get. apply agrees_lift. intros sat.
  set (i1 := set_e_a sat (h r)).
  apply (agrees_put_if r h (nltb sat (i_e_a (h r))) i1).
  intros h' Hh. rewrite <- Hh. clear Hh. clearbody i1. apply agrees_get. apply agrees_lift. intros e_s. apply agrees_lift. intros q.
  destruct (negb _); [split; cbn; auto|]. apply agrees_ret; reflexivity.
Qed.

Lemma henergy_balance_agrees env t init r (s : SnowState T) h :
  agrees r h (henergy_balance env t init r s h) (energy_balance env t init (h r) s)
    (fun '(s, i, w) => (s, w)) (fun '(s, i, w) => i).
Proof.
  unfold henergy_balance, energy_balance. destruct (has_snow s); [|apply agrees_ret; reflexivity].
  apply agrees_get. eapply agrees_bind; [apply hh_le_agrees|].
  intros [[[[a b] e] i] w] h' Hi. cbn in Hi. apply agrees_get. rewrite Hi.
  apply agrees_lift. intros [g g0]. apply agrees_lift. intros m. apply agrees_ret; [reflexivity|exact Hi].
Qed.

Lemma hdo_tstep_agrees env ds ts c r h :
  agrees r h (hdo_tstep env ds ts c r h) (do_tstep env ds ts c (h r)) fst snd.
Proof.
  unfold hdo_tstep, do_tstep. apply agrees_lift. intros d. apply agrees_get.
  set (i1 := update_precip_deltas (h r) d).
  apply (agrees_put_if r h (i_precip_now (h r)) i1).
  intros h' Hh. rewrite <- Hh. clear Hh. clear i1 h. apply agrees_get.
  eapply agrees_bind; [apply henergy_balance_agrees|].
  intros [[s i'] w] h2 Hi. cbn in Hi. apply agrees_get. rewrite Hi.
  apply agrees_lift. intros [s2 kept].
  remember (h' r) as i0 eqn:Ei0. clear Ei0.
  eapply (agrees_bind r h2 _ _ (fun x => x) (fun _ => i')).
  - destruct (0 <? c_time_since_out c)%Z.
    + apply agrees_lift. intros s3. apply agrees_ret; auto.
    + apply agrees_ret; auto.
  - intros [s3 tso] h3 Hi3. eapply (agrees_bind r h3 _ _ (fun x => x) (fun _ => i')).
    + destruct (ev_output_divided env); [|apply agrees_ret; auto].
      split; [cbn; auto|]. unfold hlift. destruct (output _); cbn; auto.
    + intros c' h4 Hi4. apply agrees_get. rewrite Hi4. unfold hbind, hput, hret. split; cbn.
      * intros q Hq. apply store_other. exact Hq.
      * rewrite store_same. auto.
Qed.

Lemma hiter_agrees {A B} r (body : A -> HM T A) (vbody : B -> result B) (o : B -> A) (nw : B -> InputData T) :
  (forall b h, h r = nw b -> agrees r h (body (o b) h) (vbody b) o nw) ->
  forall n b h, h r = nw b -> agrees r h (hiter n body (o b) h) (iter_res n vbody b) o nw.
Proof.
  intros Hb. induction n as [|n IH]; intros b h Hh; [apply agrees_ret; auto|].
  cbn [hiter iter_res]. eapply agrees_bind; [apply Hb; exact Hh|]. intros b' h' Hh'. apply IH. exact Hh'.
Qed.

Lemma hdivide_agrees env ds r : forall fuel c lvl h,
  agrees r h (hdivide_tstep fuel env ds r (c, lvl) h) (divide_tstep fuel env ds (mkD c (h r) lvl))
    (fun st => (d_core st, d_level st)) d_input.
Proof.
  induction fuel as [|fuel IH]; intros c lvl h; [split; cbn; auto|].
  cbn [hdivide_tstep divide_tstep snd d_level d_input d_core]. apply agrees_lift. intros ts. apply agrees_get.
  eapply (agrees_bind r h _ _ (fun _ => tt) (fun i => i)).
  - destruct (i_precip_now (h r) && (1 <? ts_level ts)%Z).
    + apply agrees_lift. intros d. split; cbn; [intros q Hq; apply store_other; exact Hq|]. rewrite store_same. auto.
    + apply agrees_ret; reflexivity.
  - intros i h1 Hi. eapply (agrees_bind r h1 _ _ (fun st => (d_core st, d_level st)) d_input).
    + apply (hiter_agrees r _ _ (fun st => (d_core st, d_level st)) d_input) with (b := mkD c i lvl); [|exact Hi].
      intros st h2 H2. cbn [fst snd]. destruct (negb _ && _).
      * rewrite <- H2. apply IH.
      * rewrite <- H2. eapply agrees_bind; [apply hdo_tstep_agrees|]. intros [c' i'] h3 H3. cbn in H3.
        apply agrees_ret; [reflexivity|exact H3].
    + intros st h2 H2. cbn [fst snd]. eapply (agrees_bind r h2 _ _ (fun x => x) (fun _ => d_input st)).
      * destruct (_ && _); [|apply agrees_ret; auto].
        split; [cbn; auto|]. unfold hlift. destruct (output _); cbn; auto.
      * intros c' h3 H3. apply agrees_ret; [reflexivity|exact H3].
Qed.

(** ** One data step.  Whatever the two objects are (even the same one), the step
    returns or raises what the by-value model says, and the only object it changes is
    the first one, even when it raises. *)
Theorem C08_only_the_first_record_changes env c r1 r2 h :
  snd (hdo_data_tstep env c r1 r2 h) = do_data_tstep env c (h r1) (h r2) /\
  (forall q, q <> r1 -> fst (hdo_data_tstep env c r1 r2 h) q = h q).
Proof.
  assert (G : agrees r1 h (hdo_data_tstep env c r1 r2 h)
      (let* ds := input_deltas (h r1) (h r2) (ev_tstep_info env) in
       divide_tstep 3 env ds (mkD c (h r1) NORMAL_TSTEP)) d_core d_input).
  { unfold hdo_data_tstep. apply agrees_get. unfold hbind at 1. cbn [hget].
    apply agrees_lift. intros ds.
    replace (divide_tstep 3 env ds (mkD c (h r1) NORMAL_TSTEP))
      with (let* st := divide_tstep 3 env ds (mkD c (h r1) NORMAL_TSTEP) in Ok st)
      by (destruct (divide_tstep 3 env ds (mkD c (h r1) NORMAL_TSTEP)); reflexivity).
    eapply agrees_bind; [apply hdivide_agrees|]. intros st h' Hh. apply agrees_ret; auto. }
  destruct G as [G1 G2]. split; [|exact G1]. unfold do_data_tstep.
  destruct (input_deltas _ _ _) as [ds|e]; cbn [bind] in *; [|exact G2].
  destruct (divide_tstep _ _ _ _) as [st|e]; cbn [bind] in *; [apply G2|exact G2].
Qed.

(** ** A whole run.  The loop over the objects computes what the by-value loop
    computes; at every data step the first object still holds exactly the values its
    record was built with (those of the previous iteration's second record), and so
    does the second. *)
Fixpoint consecutive {A} (a : A) (l : list A) : list (A * A) :=
  match l with [] => [] | b :: r => (a, b) :: consecutive b r end.

Lemma hrun_step env c r1 free raw i2 raws seen h : input_data raw = Ok i2 ->
  hrun_steps env c r1 free (raw :: raws) seen h =
  (let h1 := store_at h free i2 in
   match hdo_data_tstep env c r1 free h1 with
   | (h2, Ok c') => hrun_steps env c' free (S free) raws (seen ++ [(h1 r1, h1 free)]) h2
   | (h2, Err e) => (h2, Err e)
   end).
Proof. intros H. cbn [hrun_steps]. rewrite H. reflexivity. Qed.

Lemma hrun_steps_agrees env raws : forall c r1 free h seen,
  (r1 < free)%nat ->
  match run_steps env c (h r1) raws with
  | Err e => snd (hrun_steps env c r1 free raws seen h) = Err e
  | Ok c' => exists recs, Forall2 (fun raw i => input_data raw = Ok i) raws recs /\
      snd (hrun_steps env c r1 free raws seen h) = Ok (c', seen ++ consecutive (h r1) recs)
  end.
Proof.
  induction raws as [|raw raws IH]; intros c r1 free h seen Hf.
  - cbn. exists []. rewrite app_nil_r. split; [constructor|reflexivity].
  - cbn [run_steps]. destruct (input_data raw) as [i2|e] eqn:Ei; [|cbn; rewrite Ei; reflexivity].
    cbn [bind]. rewrite (hrun_step _ _ _ _ _ i2) by exact Ei. cbv zeta.
    set (h1 := store_at h free i2).
    assert (E1 : h1 r1 = h r1) by (apply store_other; lia).
    assert (E2 : h1 free = i2) by apply store_same.
    destruct (C08_only_the_first_record_changes env c r1 free h1) as [S1 S2].
    rewrite E1, E2 in S1.
    destruct (hdo_data_tstep env c r1 free h1) as [h2 x]. cbn [fst snd] in *. rewrite <- S1. clear S1.
    destruct x as [c'|e]; [|reflexivity]. cbn [bind].
    assert (E3 : h2 free = i2) by (rewrite S2 by lia; exact E2).
    specialize (IH c' free (S free) h2 (seen ++ [(h1 r1, h1 free)]) ltac:(lia)). rewrite E3 in IH.
    destruct (run_steps env c' i2 raws) as [c''|e]; [|exact IH].
    destruct IH as (recs & F & H). exists (i2 :: recs). split; [constructor; assumption|].
    rewrite H. rewrite <- app_assoc, E1, E2. reflexivity.
Qed.

Theorem C08_records_reach_their_step_unchanged p info ic mh all_mode (rows : list (CsvRow (T := T))) h :
  match simulate p info ic mh all_mode rows with
  | Err e => snd (hsimulate p info ic mh all_mode rows h) = Err e
  | Ok c => exists first recs,
      Forall2 (fun row i => input_data (snd row) = Ok i) rows (first :: recs) /\
      snd (hsimulate p info ic mh all_mode rows h) = Ok (c, consecutive first recs)
  end.
Proof.
  unfold simulate, hsimulate. destruct (negb _); [reflexivity|].
  destruct rows as [|[d0 raw0] rest]; [reflexivity|]. cbn [snd].
  destruct (input_data raw0) as [i1|e] eqn:Ei; [|reflexivity]. cbn [bind].
  rewrite (hbind_ok _ _ _ _ _ (eq_refl : hlift (Ok i1) h = (h, Ok i1))).
  rewrite (hbind_ok _ _ _ _ _ (eq_refl : hput 0%nat i1 h = (store_at h 0%nat i1, Ok tt))).
  destruct (snobal_init p info ic mh all_mode) as [[env c]|e]; [|reflexivity]. cbn [bind].
  rewrite (hbind_ok _ _ _ _ _ (eq_refl : hlift (Ok (env, c)) (store_at h 0%nat i1) = (store_at h 0%nat i1, Ok (env, c)))).
  pose proof (hrun_steps_agrees env (map snd rest) c 0%nat 1%nat (store_at h 0%nat i1) [] ltac:(auto)) as H.
  rewrite store_same in H. destruct (run_steps env c i1 (map snd rest)) as [c'|e]; [|exact H].
  destruct H as (recs & F & H). exists i1, recs. split; [|exact H].
  constructor; [exact Ei|]. clear H. remember (map snd rest) as raws eqn:E. revert rest E.
  induction F; intros [|[d raw] rest] E; try discriminate; constructor; cbn in E; injection E; intros; subst; auto.
Qed.
End Any.

Print Assumptions C08_only_the_first_record_changes.
Print Assumptions C08_records_reach_their_step_unchanged.

(** ** A concrete run: three records over a thin pack, the first with vapour pressure
    above saturation.  The first object ends up clipped and advanced, yet each data
    step was handed the records as read. *)
From Coq Require Import Floats.
From Verif Require Import FloatNum Thm_Schedule.
Section Witness.
Open Scope float_scope.
Definition h_rows : list (@CsvRow float) :=
  [(0, w_rec 272 700); (60, w_rec 273 320); (120, w_rec 271 300)]%Z.
Definition h_blank : InputData float := mkInput 0 0 0 0 0 0 0 0 0 0 0 0 0 0 0 0 false.
Definition h_run :=
  match parse_time_steps w_even with
  | Ok info => hsimulate w_params info w_thin w_heights false h_rows (fun _ => h_blank)
  | Err e => (fun _ => h_blank, Err e)
  end.
Example objects_are_changed :
  (** what each data step was handed *)
  option_map (map (fun p => (i_t_a (fst p), i_e_a (fst p), i_t_a (snd p), i_e_a (snd p))))
    (match snd h_run with Ok x => Some (snd x) | Err _ => None end) =
    Some [(272, 700, 273, 320); (273, 320, 271, 300)] /\
  (** the objects at the end: the first two were advanced, and the first one clipped *)
  map (fun r => i_t_a (fst h_run r)) [0; 1; 2]%nat = [273; 271; 271] /\
  ((i_e_a (fst h_run 0%nat) <? 320) = true)%float /\ i_e_a (fst h_run 2%nat) = 300.
Proof. vm_compute. repeat split. Qed.
End Witness.
