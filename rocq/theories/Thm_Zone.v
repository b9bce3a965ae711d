(** * C89: time zones *)
From Coq Require Import String ZArith Bool List Lia.
Import ListNotations.
From Verif Require Import Num Constants Functions Libsnobal Input SnowState Snobal PySnobal TimeZone Thm_Shift.

(** a zone's clocks are less than a day from UTC *)
Definition real_zone (z : Zone) : Prop := forall t, (-1440 < z t < 1440)%Z.
(** the clocks of the zone show [l] exactly once: at [t] *)
Definition shown_only_at (z : Zone) (l t : Z) : Prop := (t + z t = l)%Z /\ forall t', (t' + z t' = l)%Z -> t' = t.
Definition shown_once (z : Zone) (l : Z) : Prop := exists t, shown_only_at z l t.

Lemma in_instants z l t : real_zone z -> In t (instants z l) <-> (t + z t = l)%Z.
Proof.
  intros R. unfold instants, clock. rewrite filter_In, Z.eqb_eq, in_map_iff. split; [tauto|]. intros E. split; [|exact E].
  exists (Z.to_nat (t - (l - 1439))). specialize (R t). rewrite in_seq. split; lia.
Qed.
Lemma instants_nodup z l : NoDup (instants z l).
Proof.
  unfold instants. apply NoDup_filter. apply FinFun.Injective_map_NoDup; [intros a b; lia|apply seq_NoDup].
Qed.
Lemma localize_spec z l t : real_zone z -> tz_localize z l = Ok t <-> shown_only_at z l t.
Proof.
  intros R. pose proof (in_instants z l) as I. pose proof (instants_nodup z l) as D. unfold tz_localize, shown_only_at.
  destruct (instants z l) as [|a [|b m]].
  - split; [discriminate|]. intros [E _]. apply (I t R) in E. destruct E.
  - split.
    + intros [= <-]. split; [apply (I a R); left; reflexivity|]. intros t' E. apply (I t' R) in E. destruct E as [<-|[]]; reflexivity.
    + intros [E U]. apply (I t R) in E. destruct E as [<-|[]]; reflexivity.
  - split; [discriminate|]. intros [E U]. exfalso. inversion D as [|? ? H _]. apply H. left.
    transitivity t; [|symmetry]; apply U, I; auto; [right; left|left]; reflexivity.
Qed.
Lemma localize_err z l : real_zone z -> ~ shown_once z l -> exists e, tz_localize z l = Err e.
Proof.
  intros R H. destruct (tz_localize z l) as [t|e] eqn:E; [|exists e; reflexivity].
  exfalso. apply H. exists t. apply (localize_spec z l t R), E.
Qed.
Lemma fixed_localize o l : (-1440 < o < 1440)%Z -> tz_localize (fun _ => o) l = Ok (l - o)%Z.
Proof. intros H. apply localize_spec; [intros t; exact H|]. split; [lia|]. intros t'; lia. Qed.

Local Opaque tz_localize.
Section Any.
Context {T : Type} {N : Num T}.

Lemma fixed_rows o (rows : list (CsvRow (T:=T))) : (-1440 < o < 1440)%Z -> localize_rows (fun _ => o) rows = Ok (map (later (-o)) rows).
Proof.
  intros H. induction rows as [|[l r] rows IH]; [reflexivity|]. cbn [localize_rows]. rewrite (fixed_localize o l H).
  cbn [bind]. rewrite IH. reflexivity.
Qed.
Lemma with_later k (p : Params T) : later_params k p = with_start (p_start_date p + k)%Z p.
Proof. reflexivity. Qed.

Lemma fixed_run o (p : Params T) end_date cfg ic mh all_mode rows : (-1440 < o < 1440)%Z ->
  zoned_run (fun _ => o) p end_date cfg ic mh all_mode rows
  = bind (parse_time_steps cfg) (fun _ => bind (pysnobal_run p end_date cfg ic mh all_mode rows) (fun out => Ok (map (written (fun _ => o)) (map (later (- o)) out)))).
Proof.
  intros H. unfold zoned_run. rewrite !fixed_localize by exact H. cbn [bind]. rewrite fixed_rows by exact H.
  destruct (parse_time_steps cfg) as [info|e]; [|reflexivity]. cbn [bind].
  replace (p_start_date p - o)%Z with (p_start_date p + - o)%Z by lia. replace (end_date - o)%Z with (end_date + - o)%Z by lia.
  rewrite <- with_later, C64_results_do_not_depend_on_the_calendar.
  destruct (pysnobal_run p end_date cfg ic mh all_mode rows) as [out|e]; reflexivity.
Qed.

(** the lines of a file, the dates as written but without the offset *)
Definition unzoned {A} (line : (Z * Z) * A) : Z * A := (fst (fst line), snd line).

(** Zones whose clocks are always the same distance from UTC: the zone makes no difference
    but for the offset written after each date *)
Theorem C89_fixed_offset_zones_agree o (p : Params T) end_date cfg ic mh all_mode rows :
  (-1440 < o < 1440)%Z ->
  match zoned_run (fun _ => o) p end_date cfg ic mh all_mode rows, zoned_run (fun _ => 0%Z) p end_date cfg ic mh all_mode rows with
  | Ok lines, Ok lines' => map unzoned lines = map unzoned lines'
  | Err e, Err e' => e = e'
  | _, _ => False
  end.
Proof.
  intros H. rewrite (fixed_run o), (fixed_run 0) by lia.
  destruct (parse_time_steps cfg) as [info|e]; [|reflexivity]. cbn [bind].
  destruct (pysnobal_run p end_date cfg ic mh all_mode rows) as [out|e]; [|reflexivity]. cbn [bind].
  rewrite !map_map. apply map_ext. intros [t r]. unfold unzoned, written, later, clock. cbn [fst snd]. f_equal. lia.
Qed.

(** A date the clocks of the zone do not show exactly once - of any record in the file, needed or
    not, or a configured one - makes the run raise *)
Lemma rows_err z (rows : list (CsvRow (T:=T))) l r : real_zone z -> In (l, r) rows -> ~ shown_once z l -> exists e, localize_rows z rows = Err e.
Proof.
  intros R I H. induction rows as [|[l' r'] rows IH]; [destruct I|]. cbn [localize_rows].
  destruct (tz_localize z l') as [t|e] eqn:E; [|exists e; reflexivity]. cbn [bind]. destruct I as [I|I].
  - injection I as -> ->. destruct (localize_err z l R H) as [e E']. congruence.
  - destruct (IH I) as [e ->]. exists e. reflexivity.
Qed.
Theorem C89_dates_not_shown_exactly_once_raise z (p : Params T) end_date cfg ic mh all_mode rows l :
  real_zone z -> (In l (map fst rows) \/ l = p_start_date p \/ l = end_date) -> ~ shown_once z l ->
  exists e, zoned_run z p end_date cfg ic mh all_mode rows = Err e.
Proof.
  intros R I H. destruct (localize_err z l R H) as [e E]. unfold zoned_run.
  destruct (tz_localize z (p_start_date p)) as [st|e1] eqn:E1; [|exists e1; reflexivity]. cbn [bind].
  destruct (tz_localize z end_date) as [en|e2] eqn:E2; [|exists e2; reflexivity]. cbn [bind].
  destruct I as [I|[I|I]]; [|congruence|congruence].
  destruct (parse_time_steps cfg) as [info|e3]; [|exists e3; reflexivity]. cbn [bind].
  apply in_map_iff in I. destruct I as ((l', r) & El & I). cbn in El. subst l'. destruct (rows_err z rows l r R I H) as [e4 ->]. exists e4. reflexivity.
Qed.

(** Daylight saving: the clocks are [a] minutes ahead for two days before the instant [t0] and [b] minutes for two
    days from [t0].  A file with records at every [d] minutes of clock time across the change, [d] at
    most what the clocks are moved, makes the run raise, in spring as in autumn. *)
Theorem C89_records_across_a_clock_change_raise z t0 a b d n (p : Params T) end_date cfg ic mh all_mode rows l0 :
  real_zone z -> (forall t, (t0 - 2880 <= t < t0)%Z -> z t = a) -> (forall t, (t0 <= t < t0 + 2880)%Z -> z t = b) ->
  (0 < d <= Z.abs (a - b))%Z ->
  (l0 <= t0 + Z.min a b)%Z -> (t0 + Z.min a b <= l0 + Z.of_nat n * d)%Z ->
  (forall k, (k <= n)%nat -> In (l0 + Z.of_nat k * d)%Z (map fst rows)) ->
  exists e, zoned_run z p end_date cfg ic mh all_mode rows = Err e.
Proof.
  intros R A B D L U In_. 
  assert (X : exists k, (k <= n)%nat /\ (t0 + Z.min a b <= l0 + Z.of_nat k * d < t0 + Z.max a b)%Z).
  { clear In_. induction n as [|n IH].
    - exists 0%nat. split; [lia|]. lia.
    - destruct (Z_le_gt_dec (t0 + Z.min a b) (l0 + Z.of_nat n * d)) as [H|H].
      + destruct (IH H) as (k & K & E). exists k. split; [lia|exact E].
      + exists (S n). split; [lia|]. lia. }
  destruct X as (k & K & E). specialize (In_ k K). set (l := (l0 + Z.of_nat k * d)%Z) in *.
  assert (Za : (-1440 < a < 1440)%Z) by (rewrite <- (A (t0 - 1)%Z) by lia; apply R).
  assert (Zb : (-1440 < b < 1440)%Z) by (rewrite <- (B t0) by lia; apply R).
  apply (C89_dates_not_shown_exactly_once_raise z p end_date cfg ic mh all_mode rows l R (or_introl In_)).
  intros (t & S & Only). destruct (Z_lt_le_dec a b) as [ab|ab].
  - (* the clocks skip l *)
    destruct (Z_lt_le_dec t t0) as [H|H].
    + assert (z t = a) by (apply A; specialize (R t); lia). lia.
    + assert (z t = b) by (apply B; specialize (R t); lia). lia.
  - (* the clocks show l twice *)
    assert (z (l - a)%Z = a) by (apply A; lia). assert (z (l - b)%Z = b) by (apply B; lia).
    assert ((l - a)%Z = t) by (apply Only; lia). assert ((l - b)%Z = t) by (apply Only; lia). lia.
Qed.

(** What a run writes depends on the zone only through the instants: a run whose configured dates and records
    fall in a period in which the clocks are [o] minutes ahead writes the values the run with time_zone = UTC
    writes for the same clock times, each at the same instant *)
Lemma rows_in z o lo hi (rows out : list (CsvRow (T:=T))) : real_zone z -> (forall t, (lo <= t <= hi)%Z -> z t = o) ->
  Forall (fun r => lo + o <= fst r <= hi + o)%Z rows -> localize_rows z rows = Ok out -> out = map (later (-o)) rows.
Proof.
  intros R Z F. revert out. induction F as [|[l r] rows H F IH]; intros out; [intros H; injection H as <-; reflexivity|]. cbn [localize_rows].
  destruct (tz_localize z l) as [t|] eqn:E; [|discriminate]. cbn [bind].
  destruct (localize_rows z rows) as [rest|] eqn:E2; [|discriminate]. cbn [bind]. intros [= <-].
  rewrite (IH rest eq_refl). cbn [map]. f_equal. unfold later. cbn [fst snd] in *. f_equal.
  apply (localize_spec z l t R) in E. destruct E as [_ Only]. symmetry. replace (l + - o)%Z with (l - o)%Z by lia. apply Only.
  rewrite (Z (l - o)%Z) by lia. lia.
Qed.
Theorem C89_zone_with_constant_offset_over_the_run z o lo hi (p : Params T) end_date cfg ic mh all_mode rows lines :
  real_zone z -> (forall t, (lo <= t <= hi)%Z -> z t = o) ->
  (lo + o <= p_start_date p <= hi + o)%Z -> (lo + o <= end_date <= hi + o)%Z ->
  Forall (fun r => lo + o <= fst r <= hi + o)%Z rows ->
  zoned_run z p end_date cfg ic mh all_mode rows = Ok lines ->
  exists lines', zoned_run (fun _ => 0%Z) p end_date cfg ic mh all_mode rows = Ok lines' /\
    map snd lines = map snd lines' /\
    map (fun line => fst (fst line) - snd (fst line) + o)%Z lines = map (fun line => fst (fst line)) lines'.
Proof.
  intros R Z S E F H. unfold zoned_run in H.
  assert (one : forall l, (lo + o <= l <= hi + o)%Z -> forall t, tz_localize z l = Ok t -> t = (l + - o)%Z).
  { intros l Hl t Ht. apply (localize_spec z l t R) in Ht. destruct Ht as [_ Only]. symmetry. apply Only. rewrite (Z (l + - o)%Z) by lia. lia. }
  destruct (tz_localize z (p_start_date p)) as [st|] eqn:E1; [|discriminate]. cbn [bind] in H.
  destruct (tz_localize z end_date) as [en|] eqn:E2; [|discriminate]. cbn [bind] in H.
  destruct (parse_time_steps cfg) as [info|] eqn:E3; [|discriminate]. cbn [bind] in H.
  destruct (localize_rows z rows) as [used|] eqn:E4; [|discriminate]. cbn [bind] in H.
  pose proof (one _ S st E1) as Es. pose proof (one _ E en E2) as Ee. pose proof (rows_in z o lo hi rows used R Z F E4) as Eu. subst st en used.
  rewrite <- with_later, C64_results_do_not_depend_on_the_calendar in H.
  destruct (pysnobal_run p end_date cfg ic mh all_mode rows) as [out|] eqn:E5; [|discriminate]. cbn [bind] in H. injection H as <-.
  pose proof (fixed_run 0 p end_date cfg ic mh all_mode rows ltac:(lia)) as G. rewrite E3, E5 in G. cbn [bind] in G.
  exists (map (written (fun _ => 0%Z)) (map (later (- 0)) out)). split; [exact G|]. rewrite !map_map. split; apply map_ext; intros [t r]; [reflexivity|].
  unfold written, later, clock. cbn [fst snd]. lia.
Qed.
End Any.

(** ** The hypotheses are met (binary64): hourly records over four hours in a zone an hour ahead until the instant 90 and
    two hours from then on: the records at 01:00, 02:00, 03:00 (clock, in minutes 60, 120, 180) include one skipped *)
From Coq Require Import Floats.
From Verif Require Import FloatNum Thm_Schedule Thm_Api.
Section Witness.
Local Open Scope Z_scope.
Definition spring : Zone := fun t => if t <? 90 then 60 else 120.
Definition autumn : Zone := fun t => if t <? 90 then 60 else 0.
Definition z_lines (z : Zone) (l : list (CsvRow (T:=float))) := zoned_run z w_params 180 w_even w_thin w_heights false l.
Definition z_show (r : result (list ((Z * Z) * list (string * option float)))) : result (list (Z * Z)) :=
  match r with Ok l => Ok (map fst l) | Err e => Err e end.
Definition z_table : list (CsvRow (T:=float)) := a_file.
Example C89_witness :
  z_show (z_lines (fun _ => 0) z_table) = Ok [(60, 0); (120, 0); (180, 0); (240, 0)] /\
  z_show (z_lines (fun _ => -420) z_table) = Ok [(60, -420); (120, -420); (180, -420); (240, -420)] /\
  z_show (z_lines (fun t => if t <? 100000 then 60 else 120) z_table) = Ok [(60, 60); (120, 60); (180, 60); (240, 60)] /\
  z_show (z_lines spring z_table) = Err (ValueError "NonExistentTimeError") /\
  z_show (z_lines autumn z_table) = Err (ValueError "AmbiguousTimeError").
Proof. vm_compute. repeat split; reflexivity. Qed.
Example C89_change_met : real_zone spring /\ real_zone autumn /\
  (forall t, 90 - 2880 <= t < 90 -> spring t = 60) /\ (forall t, 90 <= t < 90 + 2880 -> spring t = 120) /\
  0 < 60 <= Z.abs (60 - 120) /\ 60 <= 90 + Z.min 60 120 /\ 90 + Z.min 60 120 <= 60 + Z.of_nat 2 * 60 /\
  (forall k, (k <= 2)%nat -> In (60 + Z.of_nat k * 60) (map fst z_table)).
Proof.
  assert (S1 : forall t, spring t = 60 /\ t < 90 \/ spring t = 120 /\ 90 <= t) by (intros t; unfold spring; destruct (Z.ltb_spec t 90); auto).
  assert (S2 : forall t, autumn t = 60 \/ autumn t = 0) by (intros t; unfold autumn; destruct (Z.ltb_spec t 90); auto).
  split; [intros t; specialize (S1 t); lia|]. split; [intros t; specialize (S2 t); lia|].
  split; [intros t H; specialize (S1 t); lia|]. split; [intros t H; specialize (S1 t); lia|].
  split; [lia|]. split; [lia|]. split; [lia|].
  intros k H. assert (C : k = 0%nat \/ k = 1%nat \/ k = 2%nat) by lia. destruct C as [->|[->| ->]]; vm_compute; auto 10.
Qed.
End Witness.

Print Assumptions C89_fixed_offset_zones_agree.
Print Assumptions C89_dates_not_shown_exactly_once_raise.
Print Assumptions C89_records_across_a_clock_change_raise.
Print Assumptions C89_zone_with_constant_offset_over_the_run.
