(** * C90: columns of the input file are found by name *)
From Coq Require Import String ZArith Bool List Lia.
Import ListNotations.
From Verif Require Import Num Constants Functions Libsnobal Input SnowState Snobal PySnobal Columns.

(** what the user documentation calls the columns *)
Definition needed : list string :=
  ["net_solar"; "incoming_thermal"; "air_temp"; "vapor_pressure"; "wind_speed"; "soil_temp"; "precip_mass"; "percent_snow"; "rho_snow"; "precip_temp"]%string.
(** what the model calls them, where that differs *)
Definition internal : list string := ["S_n"; "I_lw"; "t_a"; "e_a"; "u"; "t_g"; "m_pp"; "t_pp"]%string.

(** [pick] names the last of the columns named [a] or [b] *)
Definition last_of (h : list string) (a b pick : string) : Prop :=
  (pick = a \/ pick = b) /\ exists h1 h2, h = h1 ++ pick :: h2 /\ ~ In a h2 /\ ~ In b h2.

Section Any.
Context {T : Type} {N : Num T}.

(** a table as read: no two columns of one name, every row with a value for every column *)
Definition regular (file : Table T) : Prop := NoDup (fst file) /\ Forall (fun r => length (snd r) = length (fst file)) (snd file).

(** the value of a row in a column *)
Definition value (h : list string) (v : list T) (k : string) : T :=
  match find (fun nx => String.eqb (fst nx) k) (combine h v) with Some nx => snd nx | None => nofZ 0 end.
(** the record of a row, four of its values from columns of the given names *)
Definition record_from (s l e u : string) (h : list string) (v : list T) : RawInput T :=
  mkRaw (value h v s) (value h v l) (value h v "air_temp") (value h v e) (value h v u) (value h v "soil_temp")
        (value h v "precip_mass") (value h v "percent_snow") (value h v "rho_snow") (value h v "precip_temp").
Definition record_of : list string -> list T -> RawInput T :=
  record_from "net_solar" "incoming_thermal" "vapor_pressure" "wind_speed".
Definition records (f : list T -> RawInput T) (rows : list (TableRow T)) : list (CsvRow (T:=T)) := map (fun r => (fst r, f (snd r))) rows.

(** ** Looking up and writing *)
Lemma column_app h1 h2 v1 v2 k : length v1 = length h1 ->
  column (h1 ++ h2) k (v1 ++ v2) = match column h1 k v1 with Some x => Some x | None => column (T:=T) h2 k v2 end.
Proof.
  revert v1. induction h1 as [|n h1 IH]; intros [|x v1] L; try discriminate; [reflexivity|]. cbn. destruct (String.eqb n k); [reflexivity|].
  apply IH. cbn in L. lia.
Qed.
Lemma dict_app h1 h2 v1 v2 k : length v1 = length h1 ->
  dict_get (h1 ++ h2) (v1 ++ v2) k = match dict_get (T:=T) h2 v2 k with Some x => Some x | None => dict_get h1 v1 k end.
Proof.
  revert v1. induction h1 as [|n h1 IH]; intros [|x v1] L; try discriminate; cbn [app dict_get].
  - destruct (dict_get h2 v2 k); reflexivity.
  - rewrite IH by (cbn in L; lia). destruct (dict_get h2 v2 k); reflexivity.
Qed.
Lemma dict_none h (v : list T) k : ~ In k h -> dict_get h v k = None.
Proof.
  revert v. induction h as [|n h IH]; intros [|x v] H; try reflexivity. cbn. rewrite IH by (intros I; apply H; right; exact I).
  destruct (String.eqb_spec n k); [|reflexivity]. exfalso. apply H. left. assumption.
Qed.
Lemma column_none h (v : list T) k : ~ In k h -> column h k v = None.
Proof.
  revert v. induction h as [|n h IH]; intros [|x v] H; try reflexivity. cbn.
  destruct (String.eqb_spec n k); [exfalso; apply H; left; assumption|]. apply IH. intros I; apply H; right; exact I.
Qed.
Lemma column_some h (v : list T) k : In k h -> length v = length h -> exists x, column h k v = Some x.
Proof.
  revert v. induction h as [|n h IH]; intros [|x v] I L; try discriminate; [destruct I|]. cbn.
  destruct (String.eqb_spec n k); [eexists; reflexivity|]. destruct I as [I|I]; [contradiction|]. apply IH; [exact I|cbn in L; lia].
Qed.
Lemma column_value h (v : list T) k : In k h -> length v = length h -> column h k v = Some (value h v k).
Proof.
  unfold value. revert v. induction h as [|n h IH]; intros [|x v] I L; try discriminate; [destruct I|]. cbn.
  destruct (String.eqb_spec n k) as [E|E]; [reflexivity|]. destruct I as [I|I]; [contradiction|]. apply IH; [exact I|cbn in L; lia].
Qed.
Lemma set_length h k y (v : list T) : length (set_column h k y v) = length v.
Proof. revert v. induction h as [|n h IH]; intros [|x v]; cbn; congruence. Qed.
Lemma set_same h k y (v : list T) : In k h -> length v = length h -> column h k (set_column h k y v) = Some y.
Proof.
  revert v. induction h as [|n h IH]; intros [|x v] I L; try discriminate; [destruct I|]. cbn.
  destruct (String.eqb_spec n k); [reflexivity|]. destruct I as [I|I]; [contradiction|]. apply IH; [exact I|cbn in L; lia].
Qed.
Lemma set_other h k k' y (v : list T) : k <> k' -> column h k' (set_column h k y v) = column h k' v.
Proof.
  intros D. revert v. induction h as [|n h IH]; intros [|x v]; try reflexivity. cbn.
  destruct (String.eqb_spec n k'); destruct (String.eqb_spec n k); try congruence; apply IH.
Qed.
Lemma has_in h k : has h k = true <-> In k h.
Proof.
  unfold has. rewrite existsb_exists. split.
  - intros (x & I & E). apply String.eqb_eq in E. congruence.
  - intros I. exists k. split; [exact I|apply String.eqb_refl].
Qed.

(** ** The dict of a row after the columns are renamed *)
Lemma split_at {A B} (l : list A) (m1 m2 : list B) (v : list A) : length v = length (m1 ++ m2) ->
  exists v1 v2, v = v1 ++ v2 /\ length v1 = length m1 /\ length v2 = length m2.
Proof.
  intros L. exists (firstn (length m1) v), (skipn (length m1) v). rewrite firstn_skipn. split; [reflexivity|].
  rewrite app_length in L. rewrite firstn_length, skipn_length. lia.
Qed.
Lemma dict_last h (v : list T) a b pick : NoDup h -> length v = length h -> (forall n, input_mapper n = b -> n = a \/ n = b) ->
  input_mapper a = b -> input_mapper b = b -> last_of h a b pick -> dict_get (map input_mapper h) v b = column h pick v.
Proof.
  intros D L M Ma Mb (P & h1 & h2 & E & Na & Nb). subst h.
  destruct (split_at v h1 (pick :: h2) v L) as (v1 & v2 & -> & L1 & L2). destruct v2 as [|x v2]; [discriminate|].
  rewrite map_app, dict_app by (rewrite map_length; exact L1). cbn [map dict_get].
  rewrite (dict_none (map input_mapper h2)).
  2: { intros I. apply in_map_iff in I. destruct I as (n & E & I). destruct (M n E) as [->| ->]; contradiction. }
  rewrite column_app by exact L1. rewrite (column_none h1).
  2: { apply NoDup_remove_2 in D. intros I. apply D, in_or_app. left. exact I. }
  cbn. assert (X : input_mapper pick = b) by (destruct P; congruence). rewrite X, !String.eqb_refl. reflexivity.
Qed.
Lemma last_alone h a b : NoDup h -> In a h -> ~ In b h -> last_of h a b a.
Proof.
  intros D I NI. split; [left; reflexivity|]. apply in_split in I. destruct I as (h1 & h2 & ->). exists h1, h2. split; [reflexivity|]. split.
  - apply NoDup_remove_2 in D. intros I. apply D, in_or_app. right. exact I.
  - intros I. apply NI, in_or_app. right. right. exact I.
Qed.
Lemma last_in h a b pick : last_of h a b pick -> In pick h.
Proof. intros (_ & h1 & h2 & -> & _). apply in_or_app. right. left. reflexivity. Qed.
Lemma mapper_back n b : input_mapper n = b ->
  n = b \/ (n, b) = ("net_solar", "S_n")%string \/ (n, b) = ("incoming_thermal", "I_lw")%string \/ (n, b) = ("air_temp", "t_a")%string \/
  (n, b) = ("vapor_pressure", "e_a")%string \/ (n, b) = ("wind_speed", "u")%string \/ (n, b) = ("soil_temp", "t_g")%string \/
  (n, b) = ("precip_mass", "m_pp")%string \/ (n, b) = ("precip_temp", "t_pp")%string.
Proof.
  unfold input_mapper, input_names. cbn [find fst].
  repeat (match goal with |- context[String.eqb ?a n] => destruct (String.eqb_spec a n) as [<-|_]; [cbn [snd]; intros <-; tauto|] end).
  intros <-. left. reflexivity.
Qed.

(** ** Preparing a row *)
Definition kelvin_row (h : list string) (k : string) (v : list T) : list T :=
  match column h k v with Some x => set_column h k (nadd x FREEZE) v | None => v end.
Definition rain_row (h : list string) (v : list T) : list T :=
  match column h "precip_mass" v, column h "percent_snow" v, column h "precip_temp" v with
  | Some m, Some p, Some t => if (nltb (nofZ 0) (nmul m (nsub (nofZ 1) p)) && nltb t FREEZE)%bool then set_column h "precip_temp" FREEZE v else v
  | _, _, _ => v end.
Definition prep (h : list string) (v : list T) : list T :=
  rain_row h (kelvin_row h "soil_temp" (kelvin_row h "air_temp" (kelvin_row h "precip_temp" v))).
Lemma kelvin_length h k v : length (kelvin_row h k v) = length v.
Proof. unfold kelvin_row. destruct (column h k v); [apply set_length|reflexivity]. Qed.
Lemma rain_length h v : length (rain_row h v) = length v.
Proof.
  unfold rain_row. destruct (column h "precip_mass" v); [|reflexivity]. destruct (column h "percent_snow" v); [|reflexivity].
  destruct (column h "precip_temp" v); [|reflexivity]. destruct (_ && _); [apply set_length|reflexivity].
Qed.
Lemma prep_length h v : length (prep h v) = length v.
Proof. unfold prep. rewrite rain_length, !kelvin_length. reflexivity. Qed.
Lemma kelvin_same h k v : In k h -> length v = length h -> column h k (kelvin_row h k v) = Some (nadd (value h v k) FREEZE).
Proof. intros I L. unfold kelvin_row. rewrite (column_value h v k I L). apply set_same; assumption. Qed.
Lemma kelvin_other h k k' v : k <> k' -> column h k' (kelvin_row h k v) = column h k' v.
Proof. intros D. unfold kelvin_row. destruct (column h k v); [apply set_other, D|reflexivity]. Qed.
Lemma rain_other h k v : k <> "precip_temp"%string -> column h k (rain_row h v) = column h k v.
Proof.
  intros D. unfold rain_row. destruct (column h "precip_mass" v); [|reflexivity]. destruct (column h "percent_snow" v); [|reflexivity].
  destruct (column h "precip_temp" v); [|reflexivity]. destruct (_ && _); [|reflexivity]. apply set_other. congruence.
Qed.

Lemma four_names k : k <> "precip_temp"%string -> k <> "air_temp"%string -> k <> "soil_temp"%string ->
  forall h v, column h k (prep h v) = column h k v.
Proof. intros A B C h v. unfold prep. rewrite rain_other, !kelvin_other by congruence. reflexivity. Qed.

Lemma raw_prepared h v s l e u d : NoDup h -> length v = length h ->
  last_of h "net_solar" "S_n" s -> last_of h "incoming_thermal" "I_lw" l -> last_of h "vapor_pressure" "e_a" e -> last_of h "wind_speed" "u" u ->
  Forall (fun k => In k h) ["air_temp"; "soil_temp"; "precip_mass"; "percent_snow"; "rho_snow"; "precip_temp"]%string ->
  Forall (fun k => ~ In k h) ["t_a"; "t_g"; "m_pp"; "t_pp"]%string ->
  raw_of (map input_mapper h) (prep h v) = Ok (snd (prepare_row (d, record_from s l e u h v))).
Proof.
  intros D L Ps Pl Pe Pu I NI. repeat match goal with H : Forall _ (_ :: _) |- _ => inversion H; subst; clear H end.
  assert (L' : length (prep h v) = length h) by (rewrite prep_length; exact L).
  assert (G : forall a b pick, (forall n, input_mapper n = b -> n = a \/ n = b) -> input_mapper a = b -> input_mapper b = b -> last_of h a b pick ->
     getkey (map input_mapper h) (prep h v) b = match column h pick (prep h v) with Some x => Ok x | None => Err KeyError end).
  { intros a b pick M Ma Mb P. unfold getkey. rewrite (dict_last h (prep h v) a b pick D L' M Ma Mb P). reflexivity. }
  assert (back : forall a b, In (a, b) [("net_solar", "S_n"); ("incoming_thermal", "I_lw"); ("air_temp", "t_a"); ("vapor_pressure", "e_a"); ("wind_speed", "u");
      ("soil_temp", "t_g"); ("precip_mass", "m_pp"); ("precip_temp", "t_pp"); ("percent_snow", "percent_snow"); ("rho_snow", "rho_snow")]%string ->
      (forall n, input_mapper n = b -> n = a \/ n = b) /\ input_mapper a = b /\ input_mapper b = b).
  { intros a b J. split.
    - intros n E. apply mapper_back in E. cbn in J.
      destruct J as [J|[J|[J|[J|[J|[J|[J|[J|[J|[J|[]]]]]]]]]]]; apply pair_equal_spec in J; destruct J as [<- <-];
      destruct E as [E|[E|[E|[E|[E|[E|[E|[E|E]]]]]]]]; try (apply pair_equal_spec in E; destruct E as [E E2]); solve [auto|discriminate].
    - cbn in J. repeat match goal with H : _ \/ _ |- _ => destruct H as [H|H] end;
      repeat match goal with H : (_, _) = (_, _) |- _ => injection H as ? ?; subst end; try contradiction; split; reflexivity. }
  assert (G2 : forall a b pick, In (a, b) [("net_solar", "S_n"); ("incoming_thermal", "I_lw"); ("air_temp", "t_a"); ("vapor_pressure", "e_a"); ("wind_speed", "u");
      ("soil_temp", "t_g"); ("precip_mass", "m_pp"); ("precip_temp", "t_pp"); ("percent_snow", "percent_snow"); ("rho_snow", "rho_snow")]%string ->
      last_of h a b pick -> getkey (map input_mapper h) (prep h v) b = match column h pick (prep h v) with Some x => Ok x | None => Err KeyError end).
  { intros a b pick J P. destruct (back a b J) as (X & Y & Z). apply (G a b pick X Y Z P). }
  assert (same : forall a, In a h -> last_of h a a a).
  { intros a J. split; [left; reflexivity|]. apply in_split in J. destruct J as (h1 & h2 & ->). exists h1, h2. split; [reflexivity|].
    apply NoDup_remove_2 in D. split; intros J; apply D, in_or_app; right; exact J. }
  assert (P4 : forall a b pick, last_of h a b pick -> a <> "precip_temp"%string -> a <> "air_temp"%string -> a <> "soil_temp"%string ->
     b <> "precip_temp"%string -> b <> "air_temp"%string -> b <> "soil_temp"%string -> column h pick (prep h v) = Some (value h v pick)).
  { intros a b pick P A1 A2 A3 B1 B2 B3. rewrite four_names; [apply column_value; [exact (last_in h a b pick P)|exact L]|..];
    destruct P as [[->| ->] _]; assumption. }
  unfold raw_of.
  rewrite (G2 "net_solar" "S_n" s)%string by (cbn; tauto). rewrite (P4 _ _ s Ps) by discriminate. cbn [bind].
  rewrite (G2 "incoming_thermal" "I_lw" l)%string by (cbn; tauto). rewrite (P4 _ _ l Pl) by discriminate. cbn [bind].
  rewrite (G2 "air_temp" "t_a" "air_temp")%string; [|cbn; tauto|apply last_alone; assumption].
  replace (column h "air_temp" (prep h v)) with (Some (nadd (value h v "air_temp") FREEZE)).
  2: { symmetry. unfold prep. rewrite rain_other, kelvin_other by discriminate. rewrite kelvin_same by (try rewrite kelvin_length; assumption).
       f_equal. f_equal. assert (E : Some (value h (kelvin_row h "precip_temp" v) "air_temp") = Some (value h v "air_temp")); [|congruence].
       rewrite <- !column_value by (try rewrite kelvin_length; assumption). apply kelvin_other. discriminate. }
  cbn [bind].
  rewrite (G2 "vapor_pressure" "e_a" e)%string by (cbn; tauto). rewrite (P4 _ _ e Pe) by discriminate. cbn [bind].
  rewrite (G2 "wind_speed" "u" u)%string by (cbn; tauto). rewrite (P4 _ _ u Pu) by discriminate. cbn [bind].
  rewrite (G2 "soil_temp" "t_g" "soil_temp")%string; [|cbn; tauto|apply last_alone; assumption].
  replace (column h "soil_temp" (prep h v)) with (Some (nadd (value h v "soil_temp") FREEZE)).
  2: { symmetry. unfold prep. rewrite rain_other by discriminate. rewrite kelvin_same by (rewrite ?kelvin_length; assumption).
       f_equal. f_equal. assert (E : Some (value h (kelvin_row h "air_temp" (kelvin_row h "precip_temp" v)) "soil_temp") = Some (value h v "soil_temp")); [|congruence].
       rewrite <- !column_value by (rewrite ?kelvin_length; assumption). rewrite !kelvin_other by discriminate. reflexivity. }
  cbn [bind].
  rewrite (G2 "precip_mass" "m_pp" "precip_mass")%string; [|cbn; tauto|apply last_alone; assumption].
  rewrite (four_names "precip_mass"), column_value by (discriminate || assumption). cbn [bind].
  rewrite (G2 "percent_snow" "percent_snow" "percent_snow")%string; [|cbn; tauto|apply same; assumption].
  rewrite (four_names "percent_snow"), column_value by (discriminate || assumption). cbn [bind].
  rewrite (G2 "rho_snow" "rho_snow" "rho_snow")%string; [|cbn; tauto|apply same; assumption].
  rewrite (four_names "rho_snow"), column_value by (discriminate || assumption). cbn [bind].
  rewrite (G2 "precip_temp" "t_pp" "precip_temp")%string; [|cbn; tauto|apply last_alone; assumption].
  unfold prep, rain_row. rewrite !(kelvin_other h _ "precip_mass"), !(kelvin_other h _ "percent_snow"),
    (kelvin_other h "soil_temp" "precip_temp"), (kelvin_other h "air_temp" "precip_temp") by discriminate.
  rewrite (column_value h v "precip_mass"), (column_value h v "percent_snow"), kelvin_same by assumption. cbn [bind].
  cbn [prepare_row snd fst record_from r_t_pp r_m_pp r_percent_snow r_S_n r_I_lw r_t_a r_e_a r_u r_t_g r_rho_snow].
  destruct (_ && _).
  - rewrite set_same by (rewrite ?kelvin_length; assumption). reflexivity.
  - rewrite !kelvin_other by discriminate. rewrite kelvin_same by assumption. reflexivity.
Qed.

(** ** The whole table *)
Lemma insert_map {A B} (f : A -> B) (ka : A -> Z) (kb : B -> Z) x l : (forall y, kb (f y) = ka y) ->
  insert_by kb (f x) (map f l) = map f (insert_by ka x l).
Proof.
  intros E. induction l as [|y l IH]; [reflexivity|]. cbn. rewrite !E. destruct (_ <=? _)%Z; [reflexivity|]. cbn. rewrite IH. reflexivity.
Qed.
Lemma sort_map {A B} (f : A -> B) (ka : A -> Z) (kb : B -> Z) l : (forall y, kb (f y) = ka y) -> sort_by kb (map f l) = map f (sort_by ka l).
Proof. intros E. induction l as [|x l IH]; [reflexivity|]. cbn. rewrite IH. apply insert_map, E. Qed.
Lemma filter_map {A B} (f : A -> B) (pa : A -> bool) (pb : B -> bool) l : (forall y, pb (f y) = pa y) -> filter pb (map f l) = map f (filter pa l).
Proof. intros E. induction l as [|x l IH]; [reflexivity|]. cbn. rewrite E. destruct (pa x); cbn; rewrite IH; reflexivity. Qed.
Lemma clip_records f s e rows : clip_rows s e (records f rows) = match clip_table s e rows with Ok l => Ok (records f l) | Err x => Err x end.
Proof.
  destruct rows as [|r0 [|r1 rows]]; [reflexivity|reflexivity|]. cbn [records map clip_rows clip_table fst].
  change ((fst r0, f (snd r0)) :: (fst r1, f (snd r1)) :: map (fun r => (fst r, f (snd r))) rows) with (map (fun r => (fst r, f (snd r))) (r0 :: r1 :: rows)).
  rewrite (sort_map _ fst fst) by reflexivity. f_equal. unfold records. apply filter_map. reflexivity.
Qed.
Lemma insert_in {A} (k : A -> Z) x l y : In y (insert_by k x l) -> y = x \/ In y l.
Proof.
  induction l as [|z l IH]; cbn; [intros [H|[]]; auto|]. destruct (_ <=? _)%Z; cbn; [intros [H|[H|H]]; auto|].
  intros [H|H]; [auto|]. destruct (IH H); auto.
Qed.
Lemma sort_in {A} (k : A -> Z) l y : In y (sort_by k l) -> In y l.
Proof. induction l as [|x l IH]; cbn; [tauto|]. intros H. apply insert_in in H. destruct H as [->|H]; auto. Qed.
Lemma clip_in s e rows l (P : TableRow T -> Prop) : Forall P rows -> clip_table s e rows = Ok l -> Forall P l.
Proof.
  intros F. destruct rows as [|r0 [|r1 rows]]; try discriminate. cbn [clip_table]. intros [= <-].
  rewrite Forall_forall in F |- *. intros r I. apply filter_In in I. apply F. apply (sort_in fst), I.
Qed.
Lemma read_prepares h s e (rows : list (TableRow T)) :
  Forall (fun k => In k h) ["air_temp"; "soil_temp"; "precip_mass"; "percent_snow"; "precip_temp"]%string ->
  read_table s e (h, rows) = match clip_table s e rows with Ok l => Ok (map input_mapper h, map (fun r => (fst r, prep h (snd r))) l) | Err x => Err x end.
Proof.
  intros I. repeat match goal with H : Forall _ (_ :: _) |- _ => inversion H; subst; clear H end.
  unfold read_table. cbn [fst snd]. destruct (clip_table s e rows) as [l|x]; [|reflexivity]. cbn [bind].
  unfold to_kelvin, no_cold_rain. rewrite !(proj2 (has_in h _)) by assumption. cbn [bind andb]. rewrite !map_map. reflexivity.
Qed.

Lemma steps_same h env c i rows raws : Forall2 (fun v r => raw_of h v = Ok r) rows raws -> table_steps h env c i rows = run_steps env c i raws.
Proof.
  intros F. revert c i. induction F as [|v r rows raws E F IH]; intros c i; [reflexivity|]. cbn [table_steps run_steps]. unfold table_input. rewrite E. cbn [bind].
  destruct (input_data r) as [i2|]; [|reflexivity]. cbn [bind]. destruct (do_data_tstep env c i i2) as [c2|]; [|reflexivity]. cbn [bind]. apply IH.
Qed.

(** Each of the ten values of a record is taken from the column of its name, wherever it stands; a column with the
    name the model uses for net_solar, incoming_thermal, vapor_pressure or wind_speed counts as well,
    and of the two the last is used *)
Theorem C90_the_last_of_two_names_is_used (p : Params T) end_date cfg ic mh all_mode file s l e u :
  regular file ->
  last_of (fst file) "net_solar" "S_n" s -> last_of (fst file) "incoming_thermal" "I_lw" l ->
  last_of (fst file) "vapor_pressure" "e_a" e -> last_of (fst file) "wind_speed" "u" u ->
  Forall (fun k => In k (fst file)) ["air_temp"; "soil_temp"; "precip_mass"; "percent_snow"; "rho_snow"; "precip_temp"]%string ->
  Forall (fun k => ~ In k (fst file)) ["t_a"; "t_g"; "m_pp"; "t_pp"]%string ->
  table_run p end_date cfg ic mh all_mode file
  = pysnobal_run p end_date cfg ic mh all_mode (records (record_from s l e u (fst file)) (snd file)).
Proof.
  destruct file as [h rows]. intros [D R] Ps Pl Pe Pu I NI. cbn [fst snd] in *. unfold table_run, pysnobal_run.
  destruct (parse_time_steps cfg) as [info|x]; [|reflexivity]. cbn [bind]. unfold read_input_data. rewrite clip_records.
  rewrite read_prepares by (repeat match goal with H : Forall _ (_ :: _) |- _ => inversion H; subst; clear H end; repeat constructor; assumption).
  destruct (clip_table (p_start_date p) end_date rows) as [used|x] eqn:E; [|reflexivity]. cbn [bind].
  pose proof (clip_in _ _ _ _ _ R E) as R'. cbn beta in R'. clear R E rows.
  match goal with |- bind ?x _ = bind ?y _ => enough (G : x = y) by (rewrite G; reflexivity) end.
  unfold table_simulate, simulate. cbn [fst snd]. unfold records. rewrite !map_map.
  replace (map (fun x => fst (fst x, prep h (snd x))) used) with (map fst used) by reflexivity.
  replace (map (fun x => fst (prepare_row (fst x, record_from s l e u h (snd x)))) used) with (map fst used) by reflexivity.
  destruct (negb _); [reflexivity|]. destruct R' as [|r0 used L0 R']; [reflexivity|]. cbn [map].
  unfold table_input. cbn [fst snd]. rewrite (raw_prepared h (snd r0) s l e u (fst r0) D L0 Ps Pl Pe Pu I NI). cbn [bind].
  destruct (input_data _) as [i1|]; [|reflexivity]. cbn [bind]. destruct (snobal_init p info ic mh all_mode) as [[env c]|]; [|reflexivity]. cbn [bind].
  apply steps_same. rewrite !map_map. clear -R' D Ps Pl Pe Pu I NI. induction R' as [|r used L R' IH]; cbn [map]; constructor; [|exact IH].
  cbn [snd fst]. exact (raw_prepared h (snd r) s l e u (fst r) D L Ps Pl Pe Pu I NI).
Qed.

(** Files that have the ten columns and none with the names the model uses: order and further columns make no difference *)
Theorem C90_columns_are_found_by_name (p : Params T) end_date cfg ic mh all_mode file :
  regular file -> (forall k, In k needed -> In k (fst file)) -> (forall k, In k internal -> ~ In k (fst file)) ->
  table_run p end_date cfg ic mh all_mode file = pysnobal_run p end_date cfg ic mh all_mode (records (record_of (fst file)) (snd file)).
Proof.
  intros R I NI. pose proof R as [D _]. unfold record_of. apply C90_the_last_of_two_names_is_used; [exact R|..].
  1-4: apply last_alone; [exact D|apply I; cbn; tauto|apply NI; cbn; tauto].
  - repeat constructor; apply I; cbn; tauto.
  - repeat constructor; apply NI; cbn; tauto.
Qed.
Corollary C90_order_and_further_columns_are_immaterial (p : Params T) end_date cfg ic mh all_mode file file' :
  regular file -> regular file' ->
  (forall k, In k needed -> In k (fst file) /\ In k (fst file')) -> (forall k, In k internal -> ~ In k (fst file) /\ ~ In k (fst file')) ->
  Forall2 (fun r r' => fst r = fst r' /\ forall k, In k needed -> value (fst file) (snd r) k = value (fst file') (snd r') k) (snd file) (snd file') ->
  table_run p end_date cfg ic mh all_mode file = table_run p end_date cfg ic mh all_mode file'.
Proof.
  intros R R' I NI F. rewrite !C90_columns_are_found_by_name; try assumption; try (intros k K; first [apply I, K|apply NI, K]).
  f_equal. unfold records. clear -F. induction F as [|r r' rows rows' [E V] F IH]; [reflexivity|]. cbn [map]. rewrite IH. f_equal. rewrite E. f_equal.
  unfold record_of, record_from. f_equal; apply V; cbn; tauto.
Qed.

(** A missing column makes the run raise *)
Lemma getkey_missing h (v : list T) k : ~ In k h -> getkey h v k = Err KeyError.
Proof. intros H. unfold getkey. rewrite dict_none by exact H. reflexivity. Qed.
Lemma raw_missing h (v : list T) k : In k ["S_n"; "I_lw"; "t_a"; "e_a"; "u"; "t_g"; "m_pp"; "percent_snow"; "rho_snow"; "t_pp"]%string -> ~ In k h ->
  exists e, raw_of h v = Err e.
Proof.
  intros K H. pose proof (getkey_missing h v k H) as G. unfold raw_of.
  assert (X : forall (B : Type) k' (f : T -> result B), (k' = k \/ forall x, exists e, f x = Err e) -> exists e, bind (getkey h v k') f = Err e).
  { intros B k' f [->|F]; [rewrite G; eexists; reflexivity|]. destruct (getkey h v k') as [x|e]; [apply F|eexists; reflexivity]. }
  cbn in K. repeat (apply X; destruct K as [K|K]; [left; exact K|right; intros ?]). destruct K.
Qed.
Theorem C90_missing_columns_raise (p : Params T) end_date cfg ic mh all_mode file k :
  In k needed -> ~ In k (fst file) -> (~ In (input_mapper k) (fst file) \/ In k ["precip_temp"; "air_temp"; "soil_temp"; "precip_mass"; "percent_snow"]%string) ->
  exists e, table_run p end_date cfg ic mh all_mode file = Err e.
Proof.
  destruct file as [h rows]. cbn [fst]. intros K NI Or. unfold table_run.
  destruct (parse_time_steps cfg) as [info|x]; [|eexists; reflexivity]. cbn [bind].
  destruct (read_table (p_start_date p) end_date (h, rows)) as [t|x] eqn:E; [|eexists; reflexivity]. cbn [bind].
  assert (A : forall a, In a ["precip_temp"; "air_temp"; "soil_temp"; "precip_mass"; "percent_snow"]%string -> In a h).
  { revert E. unfold read_table. cbn [fst snd]. destruct (clip_table _ _ rows) as [cl|]; [|discriminate]. cbn [bind]. unfold to_kelvin, no_cold_rain.
    destruct (has h "precip_temp") eqn:E1; [|discriminate]. cbn [bind]. destruct (has h "air_temp") eqn:E2; [|discriminate]. cbn [bind].
    destruct (has h "soil_temp") eqn:E3; [|discriminate]. cbn [bind]. destruct (has h "precip_mass") eqn:E4; [|discriminate].
    destruct (has h "percent_snow") eqn:E5; [|discriminate]. intros _ a J. cbn in J. rewrite <- has_in.
    destruct J as [<-|[<-|[<-|[<-|[<-|[]]]]]]; assumption. }
  destruct Or as [Or|J]; [|exfalso; apply NI, A, J].
  assert (H : fst t = map input_mapper h).
  { revert E. unfold read_table. cbn [fst snd]. repeat (match goal with |- bind ?x _ = _ -> _ => destruct x; [cbn [bind]|discriminate] end).
    intros [= <-]. reflexivity. }
  assert (M : ~ In (input_mapper k) (fst t)).
  { rewrite H. intros J. apply in_map_iff in J. destruct J as (n & E' & J). apply mapper_back in E'. cbn in K.
    repeat match goal with X : _ \/ _ |- _ => destruct X as [X|X] end; subst; cbn in *;
    repeat match goal with X : (_, _) = (_, _) |- _ => injection X as ? ? end; subst; solve [discriminate|contradiction|congruence]. }
  unfold table_simulate. destruct (negb _); [eexists; reflexivity|]. destruct (snd t) as [|r0 rest]; [eexists; reflexivity|].
  unfold table_input. destruct (raw_missing (fst t) (snd r0) (input_mapper k)) as [e ->]; [|exact M|eexists; reflexivity].
  cbn in K. destruct K as [<-|[<-|[<-|[<-|[<-|[<-|[<-|[<-|[<-|[<-|[]]]]]]]]]]]; cbn; tauto.
Qed.
End Any.

(** ** The hypotheses are met (binary64): a file with its columns in the documented order, the same
    with the columns reversed and one more, and with a column S_n before or after net_solar *)
From Coq Require Import Floats.
From Verif Require Import FloatNum Thm_Schedule Thm_Api.
Section Witness.
Definition in_order (r : RawInput float) : list float :=
  [r_S_n r; r_I_lw r; r_t_a r; r_e_a r; r_u r; r_t_g r; r_m_pp r; r_percent_snow r; r_rho_snow r; r_t_pp r].
Definition as_documented : Table float := (needed, map (fun r => (fst r, in_order (snd r))) a_file).
Definition reversed : Table float := ("snow_course" :: rev needed, map (fun r => (fst r, 7%float :: rev (in_order (snd r)))) a_file)%string.
Definition sun_before : Table float := ("S_n" :: needed, map (fun r => (fst r, 900%float :: in_order (snd r))) a_file)%string.
Definition sun_after : Table float := (app needed ["S_n"%string], map (fun r => (fst r, app (in_order (snd r)) [900%float])) a_file).
Definition without (k : string) : Table float := (filter (fun n => negb (String.eqb n k)) needed,
  map (fun r => (fst r, map snd (filter (fun nv => negb (String.eqb (fst nv) k)) (combine needed (in_order (snd r)))))) a_file).
Definition masses (t : Table float) : result (list (Z * bool)) :=
  match table_run w_params 180 w_even w_thin w_heights false t with
  | Ok lines => Ok (map (fun l => (fst l, existsb (fun kv => String.eqb (fst kv) "melt" && match snd kv with Some m => PrimFloat.ltb 0 m | None => false end) (snd l))) lines)
  | Err e => Err e end.

Definition disjointb (l m : list string) : bool := forallb (fun k => negb (existsb (String.eqb k) m)) l.
Lemma disjointb_ok l m : disjointb l m = true -> forall k, In k l -> ~ In k m.
Proof.
  intros H k I J. unfold disjointb in H. rewrite forallb_forall in H. specialize (H k I). apply negb_true_iff in H.
  assert (X : existsb (String.eqb k) m = true) by (apply existsb_exists; exists k; split; [exact J|apply String.eqb_refl]). congruence.
Qed.
Definition subsetb (l m : list string) : bool := forallb (fun k => existsb (String.eqb k) m) l.
Lemma subsetb_ok l m : subsetb l m = true -> forall k, In k l -> In k m.
Proof.
  intros H k I. unfold subsetb in H. rewrite forallb_forall in H. specialize (H k I). apply existsb_exists in H.
  destruct H as (x & J & E). apply String.eqb_eq in E. congruence.
Qed.
Fixpoint nodupb (l : list string) : bool := match l with [] => true | x :: l => negb (existsb (String.eqb x) l) && nodupb l end.
Lemma nodupb_ok l : nodupb l = true -> NoDup l.
Proof.
  induction l as [|x l IH]; intros H; constructor; cbn in H; apply andb_prop in H; destruct H as [H1 H2]; [|apply IH, H2].
  intros J. apply negb_true_iff in H1. assert (X : existsb (String.eqb x) l = true) by (apply existsb_exists; exists x; split; [exact J|apply String.eqb_refl]). congruence.
Qed.

Example C90_hypotheses_met : regular as_documented /\ regular reversed /\ regular sun_after /\
  (forall k, In k needed -> In k (fst as_documented) /\ In k (fst reversed)) /\
  (forall k, In k internal -> ~ In k (fst as_documented) /\ ~ In k (fst reversed)) /\
  last_of (fst sun_after) "net_solar" "S_n" "S_n" /\ last_of (fst sun_before) "net_solar" "S_n" "net_solar".
Proof.
  assert (R : forall t : Table float, nodupb (fst t) = true -> forallb (fun r => Nat.eqb (length (snd r)) (length (fst t))) (snd t) = true -> regular t).
  { intros t A B. split; [apply nodupb_ok, A|]. rewrite forallb_forall in B. apply Forall_forall. intros r I. apply Nat.eqb_eq, B, I. }
  split; [apply R; vm_compute; reflexivity|]. split; [apply R; vm_compute; reflexivity|]. split; [apply R; vm_compute; reflexivity|]. split; [|split; [|split]].
  - intros k K. split; [exact K|]. revert k K. apply subsetb_ok. vm_compute. reflexivity.
  - intros k K. split; revert k K; apply disjointb_ok; vm_compute; reflexivity.
  - split; [right; reflexivity|]. exists needed, []. split; [reflexivity|]. split; intros [].
  - split; [left; reflexivity|]. exists ["S_n"%string], (tl needed). split; [reflexivity|].
    assert (D : disjointb ["net_solar"; "S_n"]%string (tl needed) = true) by (vm_compute; reflexivity).
    split; apply (disjointb_ok _ _ D); cbn; tauto.
Qed.
Example C90_runs_exist :
  table_run w_params 180 w_even w_thin w_heights false as_documented = table_run w_params 180 w_even w_thin w_heights false reversed /\
  masses reversed = Ok [(60, false); (120, false); (180, false); (240, false)]%Z /\
  masses sun_before = Ok [(60, false); (120, false); (180, false); (240, false)]%Z /\
  masses sun_after = Ok [(60, true); (120, true); (180, true); (240, true)]%Z /\
  masses (without "wind_speed") = Err KeyError /\ masses (without "air_temp") = Err AttributeError.
Proof. vm_compute. repeat split; reflexivity. Qed.
End Witness.

Print Assumptions C90_the_last_of_two_names_is_used.
Print Assumptions C90_columns_are_found_by_name.
Print Assumptions C90_order_and_further_columns_are_immaterial.
Print Assumptions C90_missing_columns_raise.
