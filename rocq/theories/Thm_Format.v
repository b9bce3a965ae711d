(** * Theorem C67: the text of the output file *)
From Coq Require Import Reals ZArith NArith Bool String Ascii Lia Lra Psatz List.
From Coq Require Import Numbers.DecimalString Numbers.DecimalN.
Import ListNotations.
From Verif Require Import Num Real SnowState Snobal PySnobal Thm_Api Thm_Modes Witness Format.

(** ** Specification: reading a decimal numeral *)
(** the number a string of decimal digits stands for *)
Fixpoint nat_value_from (acc : N) (s : string) : N :=
  match s with EmptyString => acc | String c s => nat_value_from (10 * acc + (N_of_ascii c - 48)) s end.
Definition nat_value (s : string) : N := nat_value_from 0 s.
Definition is_digit (c : ascii) : Prop := (48 <= N_of_ascii c <= 57)%N.
Fixpoint all_digits (s : string) : Prop :=
  match s with EmptyString => True | String c s => is_digit c /\ all_digits s end.
Definition whole (s : string) : Prop := s <> ""%string /\ all_digits s.
Definition rN (n : N) : R := IZR (Z.of_N n).

(** [t] is a decimal numeral with [places] digits after the point and value [v] *)
Definition numeral (places : nat) (t : string) (v : R) : Prop :=
  exists (minus : bool) i f, t = ((if minus then "-" else "") ++ i ++ "." ++ f)%string /\
    whole i /\ all_digits f /\ String.length f = places /\
    v = ((if minus then -1 else 1) * (rN (nat_value i) + rN (nat_value f) / 10 ^ places))%R.
(** the same, with one digit before the point, followed by an exponent of ten of at
    least two digits *)
Definition sci_numeral (places : nat) (t : string) (v : R) : Prop :=
  exists m e v0 (minus : bool), t = (m ++ "e" ++ (if minus then "-" else "+") ++ e)%string /\
    numeral places m v0 /\ (v0 = 0 \/ 1 <= Rabs v0 < 10)%R /\ whole e /\ (2 <= String.length e)%nat /\
    v = (v0 * powerRZ 10 ((if minus then -1 else 1) * Z.of_N (nat_value e)))%R.

(** how many decimals the columns of the file have *)
Definition decimals (col : string) : option nat :=
  if existsb (String.eqb col) ["R_n"; "H"; "L_v_E"; "G"; "M"; "delta_Q"; "G_0"; "delta_Q_0"; "rho"; "m_s_0"; "m_s_l"; "m_s"; "h2o"]%string
  then Some 3%nat
  else if existsb (String.eqb col) ["t_s_0"; "t_s_l"; "t_s"]%string then Some 5%nat
  else if existsb (String.eqb col) ["z_s_0"; "z_s_l"; "z_s"]%string then Some 6%nat
  else if existsb (String.eqb col) ["E_s"; "melt"; "swi"]%string then Some 8%nat
  else None.

(** [t] is what column [col] shows for the number [x] *)
Definition shows (col : string) (x : R) (t : string) : Prop :=
  match decimals col with
  | Some k => exists v, numeral k t v /\ (Rabs (v - x) <= / 2 * / 10 ^ k)%R /\ (0 <= v * x)%R
  | None => exists v, sci_numeral 9 t v /\ (Rabs (v - x) <= / 2 * / 10 ^ 9 * Rabs x)%R /\ (0 <= v * x)%R
  end.

Open Scope R_scope.

(** ** Digits *)
Lemma vf_app s : forall t acc, nat_value_from acc (s ++ t)%string = nat_value_from (nat_value_from acc s) t.
Proof. induction s as [|c s IH]; intros t acc; cbn [String.append nat_value_from]; [reflexivity|apply IH]. Qed.
Lemma ad_app s t : all_digits (s ++ t)%string <-> all_digits s /\ all_digits t.
Proof. induction s as [|c s IH]; cbn [String.append all_digits]; [tauto|rewrite IH; tauto]. Qed.
Lemma len_app s : forall t, String.length (s ++ t)%string = (String.length s + String.length t)%nat.
Proof. induction s as [|c s IH]; intros t; cbn; [reflexivity|rewrite IH; reflexivity]. Qed.
Lemma ascii_digit d : (d < 10)%N -> N_of_ascii (ascii_of_N (48 + d)) = (48 + d)%N.
Proof. intros H. apply N_ascii_embedding. lia. Qed.
Lemma digit_value d acc : (d < 10)%N -> nat_value_from acc (digit d) = (10 * acc + d)%N.
Proof. intros H. unfold digit. cbn [nat_value_from]. rewrite ascii_digit by assumption. lia. Qed.
Lemma digit_digit d : (d < 10)%N -> all_digits (digit d).
Proof. intros H. unfold digit. cbn [all_digits]. unfold is_digit. rewrite ascii_digit by assumption. lia. Qed.
Lemma last_len k : forall n, String.length (last_digits k n) = k.
Proof. induction k as [|k IH]; intros n; cbn [last_digits]; [reflexivity|]. rewrite len_app, IH. cbn. lia. Qed.
Lemma last_digit k : forall n, all_digits (last_digits k n).
Proof.
  induction k as [|k IH]; intros n; cbn [last_digits]; [exact I|]. apply ad_app. split; [apply IH|].
  apply digit_digit. apply N.mod_lt. lia.
Qed.
Lemma pow10_S k : pow10 (S k) = (10 * pow10 k)%N.
Proof. unfold pow10. rewrite Nnat.Nat2N.inj_succ, N.pow_succ_r'. reflexivity. Qed.
Lemma pow10_pos k : (0 < pow10 k)%N.
Proof. unfold pow10. apply N.neq_0_lt_0, N.pow_nonzero. lia. Qed.
Lemma last_value k : forall n acc, nat_value_from acc (last_digits k n) = (acc * pow10 k + n mod pow10 k)%N.
Proof.
  induction k as [|k IH]; intros n acc; cbn [last_digits].
  - cbn [nat_value_from]. unfold pow10. cbn [N.of_nat N.pow]. rewrite N.mod_1_r. lia.
  - rewrite vf_app, IH, digit_value by (apply N.mod_lt; lia). rewrite pow10_S.
    rewrite N.mod_mul_r by (pose proof (pow10_pos k); lia). lia.
Qed.

Local Ltac vdig := match goal with |- context [(N_of_ascii ?c - 48)%N] =>
  let v := eval vm_compute in (N_of_ascii c - 48)%N in change (N_of_ascii c - 48)%N with v end.
Local Ltac isdig := unfold is_digit; match goal with |- context [N_of_ascii ?c] =>
  let v := eval vm_compute in (N_of_ascii c) in change (N_of_ascii c) with v end; lia.
Lemma digits_value n : nat_value (digits n) = n /\ whole (digits n).
Proof.
  assert (G : forall u acc, nat_value_from (Npos acc) (NilEmpty.string_of_uint u) = Npos (Pos.of_uint_acc u acc) /\ all_digits (NilEmpty.string_of_uint u)).
  { induction u as [|u IH|u IH|u IH|u IH|u IH|u IH|u IH|u IH|u IH|u IH]; intros acc; cbn [NilEmpty.string_of_uint nat_value_from all_digits Pos.of_uint_acc].
    { split; [reflexivity|exact I]. }
    all: match goal with |- nat_value_from ?x _ = Npos (Pos.of_uint_acc _ ?y) /\ _ =>
      replace x with (Npos y) by (vdig; lia); destruct (IH y) as [E1 E2]; split; [exact E1|split; [isdig|exact E2]] end. }
  assert (F : forall u, nat_value (NilEmpty.string_of_uint u) = Pos.of_uint u /\ all_digits (NilEmpty.string_of_uint u)).
  { induction u as [|u IH|u IH|u IH|u IH|u IH|u IH|u IH|u IH|u IH|u IH]; unfold nat_value in *; cbn [NilEmpty.string_of_uint nat_value_from all_digits Pos.of_uint].
    { split; [reflexivity|exact I]. }
    { destruct IH as [E1 E2]. split; [exact E1|split; [isdig|exact E2]]. }
    all: match goal with |- nat_value_from ?x _ = Npos (Pos.of_uint_acc _ ?y) /\ _ =>
      change x with (Npos y); destruct (G u y) as [E1 E2]; split; [exact E1|split; [isdig|exact E2]] end. }
  unfold digits. pose proof (Unsigned.of_to n) as E. unfold N.of_uint in E.
  assert (H : NilZero.string_of_uint (N.to_uint n) = "0"%string /\ n = 0%N \/
    NilZero.string_of_uint (N.to_uint n) = NilEmpty.string_of_uint (N.to_uint n) /\ NilEmpty.string_of_uint (N.to_uint n) <> ""%string).
  { destruct (N.to_uint n) eqn:Eu; [left|right..]; [split; [reflexivity|rewrite <- E; reflexivity]|..]; (split; [reflexivity|discriminate]). }
  destruct H as [[-> ->]|[-> Hne]].
  - split; [reflexivity|]. split; [discriminate|]. split; [isdig|exact I].
  - destruct (F (N.to_uint n)) as [F1 F2]. rewrite F1, E. split; [reflexivity|]. split; assumption.
Qed.

(** ** Rounding *)
Lemma round_near x : Rabs (IZR (round_half_even x) - x) <= / 2.
Proof.
  unfold round_half_even. destruct (base_Int_part x) as [B1 B2].
  destruct (Rltb_spec (x - IZR (Int_part x)) (1/2)). { apply Rabs_le. lra. }
  destruct (Rltb_spec (1/2) (x - IZR (Int_part x))). { rewrite plus_IZR. apply Rabs_le. lra. }
  destruct (Z.even _); rewrite ?plus_IZR; apply Rabs_le; lra.
Qed.

Lemma Int_part_mono x y : x <= y -> (Int_part x <= Int_part y)%Z.
Proof.
  intros H. destruct (base_Int_part x) as [A1 A2], (base_Int_part y) as [B1 B2].
  assert (L : IZR (Int_part x) < IZR (Int_part y) + 1) by lra. rewrite <- plus_IZR in L. apply lt_IZR in L. lia.
Qed.

Lemma round_mono x y : x <= y -> (round_half_even x <= round_half_even y)%Z.
Proof.
  intros H. pose proof (Int_part_mono x y H) as I. unfold round_half_even.
  destruct (base_Int_part x) as [A1 A2], (base_Int_part y) as [B1 B2].
  destruct (Z.eq_dec (Int_part x) (Int_part y)) as [E|E].
  - rewrite E in *. destruct (Rltb_spec (x - IZR (Int_part y)) (1/2)), (Rltb_spec (y - IZR (Int_part y)) (1/2)),
      (Rltb_spec (1/2) (x - IZR (Int_part y))), (Rltb_spec (1/2) (y - IZR (Int_part y))), (Z.even (Int_part y)); try lia; lra.
  - destruct (Rltb (x - IZR (Int_part x)) (1/2)), (Rltb (y - IZR (Int_part y)) (1/2)),
      (Rltb (1/2) (x - IZR (Int_part x))), (Rltb (1/2) (y - IZR (Int_part y))), (Z.even (Int_part y)), (Z.even (Int_part x)); lia.
Qed.

Lemma round_IZR z : round_half_even (IZR z) = z.
Proof.
  pose proof (round_near (IZR z)) as H. rewrite <- minus_IZR, <- abs_IZR in H.
  assert (L : IZR (Z.abs (round_half_even (IZR z) - z)) < 1) by lra. apply lt_IZR in L. lia.
Qed.

(** ** Fixed-point numbers *)
Lemma rN_pow10 k : rN (pow10 k) = 10 ^ k.
Proof.
  unfold rN, pow10. rewrite N2Z.inj_pow. rewrite nat_N_Z. change (Z.of_N 10) with 10%Z. rewrite <- pow_IZR. reflexivity.
Qed.
Lemma rN_split n k : rN (n / pow10 k) + rN (n mod pow10 k) / 10 ^ k = rN n / 10 ^ k.
Proof.
  rewrite <- rN_pow10. pose proof (pow10_pos k) as Hp.
  assert (E : rN n = rN (pow10 k) * rN (n / pow10 k) + rN (n mod pow10 k)).
  { unfold rN. rewrite <- mult_IZR, <- plus_IZR. f_equal. rewrite <- N2Z.inj_mul, <- N2Z.inj_add. f_equal. apply N.div_mod. lia. }
  assert (P : 0 < rN (pow10 k)) by (unfold rN; apply IZR_lt; lia). rewrite E. field. lra.
Qed.
Lemma rN_round y : 0 <= y -> rN (Z.to_N (round_half_even y)) = IZR (round_half_even y).
Proof.
  intros H. unfold rN. rewrite Z2N.id; [reflexivity|]. rewrite <- (round_IZR 0). apply round_mono. exact H.
Qed.

(** the number that is printed *)
Definition sgn (x : R) : R := if Rltb x 0 then -1 else 1.
Definition printed (k : nat) (x : R) : R := sgn x * (IZR (round_half_even (Rabs x * 10 ^ k)) / 10 ^ k).

Lemma digits_numeral (minus : bool) n k :
  numeral k ((if minus then "-" else "") ++ digits (n / pow10 k) ++ "." ++ last_digits k n)%string
    ((if minus then -1 else 1) * (rN n / 10 ^ k)).
Proof.
  exists minus, (digits (n / pow10 k)), (last_digits k n). split; [reflexivity|].
  destruct (digits_value (n / pow10 k)) as [E W]. split; [exact W|]. split; [apply last_digit|]. split; [apply last_len|].
  rewrite E. unfold nat_value. rewrite last_value. rewrite <- rN_split. reflexivity.
Qed.

Lemma ten_pos k : 0 < 10 ^ k. Proof. apply pow_lt. lra. Qed.

Lemma fixed_numeral k x : numeral k (fixed k x) (printed k x).
Proof.
  unfold fixed, printed, sign, sgn. pose proof (ten_pos k) as Hk.
  rewrite <- (rN_round (Rabs x * 10 ^ k)) by (apply Rmult_le_pos; [apply Rabs_pos|lra]).
  generalize (digits_numeral (Rltb x 0) (Z.to_N (round_half_even (Rabs x * 10 ^ k))) k).
  destruct (Rltb x 0); intros H; exact H.
Qed.

Lemma sgn_abs x : x = sgn x * Rabs x.
Proof. unfold sgn. destruct (Rltb_spec x 0); [rewrite Rabs_left by lra|rewrite Rabs_right by lra]; lra. Qed.
Lemma sgn_sq x : sgn x * sgn x = 1. Proof. unfold sgn. destruct (Rltb x 0); lra. Qed.
Lemma sgn_abs1 x : Rabs (sgn x) = 1. Proof. unfold sgn. destruct (Rltb x 0); [rewrite Rabs_left|rewrite Rabs_right]; lra. Qed.
Lemma round_pos y : 0 <= y -> 0 <= IZR (round_half_even y).
Proof. intros H. rewrite <- (rN_round y H). unfold rN. apply IZR_le. lia. Qed.

Lemma printed_near k x : Rabs (printed k x - x) <= / 2 * / 10 ^ k.
Proof.
  unfold printed. rewrite (sgn_abs x) at 3. rewrite <- Rmult_minus_distr_l, Rabs_mult, sgn_abs1, Rmult_1_l.
  pose proof (ten_pos k) as Hk. set (y := Rabs x * 10 ^ k).
  replace (IZR (round_half_even y) / 10 ^ k - Rabs x) with ((IZR (round_half_even y) - y) * / 10 ^ k) by (unfold y; field; lra).
  assert (Hi : 0 < / 10 ^ k) by (apply Rinv_0_lt_compat; lra).
  rewrite Rabs_mult, (Rabs_right (/ 10 ^ k)) by lra. apply Rmult_le_compat_r; [lra|apply round_near].
Qed.
Lemma printed_sign k x : 0 <= printed k x * x.
Proof.
  unfold printed. pose proof (ten_pos k) as Hk. assert (Hi : 0 < / 10 ^ k) by (apply Rinv_0_lt_compat; lra).
  rewrite (sgn_abs x) at 3.
  replace (sgn x * (IZR (round_half_even (Rabs x * 10 ^ k)) / 10 ^ k) * (sgn x * Rabs x)) with
    ((sgn x * sgn x) * (IZR (round_half_even (Rabs x * 10 ^ k)) * (/ 10 ^ k * Rabs x))) by (unfold Rdiv; ring).
  rewrite sgn_sq, Rmult_1_l. pose proof (Rabs_pos x).
  apply Rmult_le_pos; [apply round_pos; apply Rmult_le_pos; lra|apply Rmult_le_pos; lra].
Qed.
Lemma printed_mono k x y : x <= y -> printed k x <= printed k y.
Proof.
  intros H. unfold printed. pose proof (ten_pos k) as Hk. assert (Hi : 0 < / 10 ^ k) by (apply Rinv_0_lt_compat; lra).
  pose proof (Rabs_pos x) as Ax. pose proof (Rabs_pos y) as Ay.
  pose proof (round_pos (Rabs x * 10 ^ k) ltac:(apply Rmult_le_pos; lra)) as Px.
  pose proof (round_pos (Rabs y * 10 ^ k) ltac:(apply Rmult_le_pos; lra)) as Py.
  unfold sgn, Rdiv. destruct (Rltb_spec x 0), (Rltb_spec y 0); try lra.
  - assert (L : (round_half_even (Rabs y * 10 ^ k) <= round_half_even (Rabs x * 10 ^ k))%Z).
    { apply round_mono. apply Rmult_le_compat_r; [lra|]. rewrite !Rabs_left by lra. lra. }
    apply IZR_le in L. apply Rmult_le_compat_r with (r := / 10 ^ k) in L; lra.
  - pose proof (Rmult_le_pos _ _ Px (Rlt_le _ _ Hi)). pose proof (Rmult_le_pos _ _ Py (Rlt_le _ _ Hi)). lra.
  - assert (L : (round_half_even (Rabs x * 10 ^ k) <= round_half_even (Rabs y * 10 ^ k))%Z).
    { apply round_mono. apply Rmult_le_compat_r; [lra|]. rewrite !Rabs_right by lra. lra. }
    apply IZR_le in L. apply Rmult_le_compat_r with (r := / 10 ^ k) in L; lra.
Qed.

(** ** Numbers with an exponent *)
Lemma p10_pos e : 0 < powerRZ 10 e. Proof. apply powerRZ_lt. lra. Qed.
Lemma exponent_spec x : x <> 0 -> powerRZ 10 (exponent x) <= Rabs x < powerRZ 10 (exponent x + 1).
Proof.
  intros Hx. apply Rabs_pos_lt in Hx. unfold exponent. set (q := ln (Rabs x) / ln 10).
  assert (L10 : 0 < ln 10) by (rewrite <- ln_1; apply ln_increasing; lra).
  assert (E : Rabs x = Rpower 10 q). { unfold Rpower, q. replace (ln (Rabs x) / ln 10 * ln 10) with (ln (Rabs x)) by (field; lra). rewrite exp_ln; [reflexivity|exact Hx]. }
  destruct (base_Int_part q) as [B1 B2]. rewrite E, !powerRZ_Rpower by lra. rewrite plus_IZR. split.
  - apply Rle_Rpower; lra.
  - apply Rpower_lt; lra.
Qed.

Lemma digits_len n : (10 <= n)%N -> (2 <= String.length (digits n))%nat.
Proof.
  intros H. destruct (digits_value n) as [E [W D]]. destruct (digits n) as [|c [|c' s]]; [congruence| |cbn; lia].
  unfold nat_value in E. cbn [nat_value_from] in E. cbn in D. destruct D as [D _]. unfold is_digit in D. lia.
Qed.

Lemma sci_text (minus : bool) n e k : (n = 0 \/ pow10 k <= n < pow10 (S k))%N ->
  sci_numeral k ((if minus then "-" else "") ++ digits (n / pow10 k) ++ "." ++ last_digits k n
    ++ "e" ++ (if (e <? 0)%Z then "-" else "+") ++ (if (Z.abs_N e <? 10)%N then "0" else "") ++ digits (Z.abs_N e))%string
    ((if minus then -1 else 1) * (rN n / 10 ^ k) * powerRZ 10 e).
Proof.
  intros Hn. exists ((if minus then "-" else "") ++ digits (n / pow10 k) ++ "." ++ last_digits k n)%string,
    ((if (Z.abs_N e <? 10)%N then "0" else "") ++ digits (Z.abs_N e))%string,
    ((if minus then -1 else 1) * (rN n / 10 ^ k)), (e <? 0)%Z.
  assert (A : forall a b c : string, ((a ++ b) ++ c = a ++ b ++ c)%string).
  { induction a as [|ch a IH]; intros b c; cbn; [reflexivity|rewrite IH; reflexivity]. }
  split; [rewrite !A; reflexivity|]. split; [apply digits_numeral|]. split; [|split; [|split]].
  - destruct Hn as [-> |[H1 H2]]; [left; unfold rN; cbn; unfold Rdiv; destruct minus; ring|right].
    assert (R1 : 10 ^ k <= rN n < 10 * 10 ^ k).
    { rewrite <- rN_pow10. replace (10 * rN (pow10 k)) with (rN (pow10 (S k))).
      - unfold rN. split; [apply IZR_le|apply IZR_lt]; lia.
      - rewrite !rN_pow10. reflexivity. }
    pose proof (ten_pos k) as Hk. assert (R2 : 1 <= rN n / 10 ^ k < 10).
    { split; [apply Rmult_le_reg_r with (10 ^ k)|apply Rmult_lt_reg_r with (10 ^ k)]; try lra; unfold Rdiv; rewrite Rmult_assoc, Rinv_l by lra; lra. }
    destruct minus; [rewrite Rabs_left by lra|rewrite Rabs_right by lra]; lra.
  - destruct (digits_value (Z.abs_N e)) as [_ [W D]]. destruct (Z.abs_N e <? 10)%N; cbn [String.append].
    + split; [discriminate|]. cbn [all_digits]. split; [isdig|exact D].
    + split; assumption.
  - destruct (digits_value (Z.abs_N e)) as [_ [W D]]. destruct (Z.abs_N e <? 10)%N eqn:E10.
    + cbn. destruct (digits (Z.abs_N e)); [congruence|cbn; lia].
    + apply N.ltb_ge in E10. cbn. apply digits_len. exact E10.
  - f_equal. f_equal.
    assert (V : nat_value ((if (Z.abs_N e <? 10)%N then "0" else "") ++ digits (Z.abs_N e))%string = Z.abs_N e).
    { destruct (digits_value (Z.abs_N e)) as [E _]. destruct (Z.abs_N e <? 10)%N; exact E. }
    rewrite V. destruct (Z.ltb_spec e 0); lia.
Qed.

Lemma sci_shows k x : exists v, sci_numeral k (sci k x) v /\ Rabs (v - x) <= / 2 * / 10 ^ k * Rabs x /\ 0 <= v * x.
Proof.
  pose proof (ten_pos k) as Hk. unfold sci. destruct (Reqb_spec x 0) as [-> |Hx].
  - exists 0. split; [|rewrite Rminus_0_r, Rabs_R0; lra].
    pose proof (sci_text false 0 0 k (or_introl eq_refl)) as H. unfold sign. destruct (Rltb_spec 0 0); [lra|].
    assert (E : 1 * (rN 0 / 10 ^ k) * powerRZ 10 0 = 0) by (change (rN 0) with 0; change (powerRZ 10 0) with 1; unfold Rdiv; ring).
    rewrite <- E. exact H.
  - destruct (exponent_spec x Hx) as [E1 E2]. set (e := exponent x) in *. clearbody e.
    set (u := powerRZ 10 (e - Z.of_nat k)). assert (Hu : 0 < u) by apply p10_pos.
    assert (Eu : powerRZ 10 e = 10 ^ k * u).
    { unfold u. rewrite (pow_powerRZ 10 k), <- powerRZ_add by lra. f_equal. lia. }
    assert (Eu1 : powerRZ 10 (e + 1) = 10 * (10 ^ k * u)).
    { rewrite powerRZ_add by lra. rewrite Eu. change (powerRZ 10 1) with (10 ^ 1). rewrite pow_1. ring. }
    set (y := Rabs x / u). assert (Ey : Rabs x = y * u) by (unfold y; field; lra).
    assert (Y : 10 ^ k <= y < 10 * 10 ^ k).
    { rewrite Ey, Eu, Eu1 in *. split; [apply Rmult_le_reg_r with u|apply Rmult_lt_reg_r with u]; lra. }
    set (n := Z.to_N (round_half_even y)).
    assert (Hn : rN n = IZR (round_half_even y)) by (apply rN_round; lra).
    pose proof (round_near y) as Hr. rewrite <- Hn in Hr.
    assert (N1 : (pow10 k <= n)%N).
    { assert (H : (Z.of_N (pow10 k) <= round_half_even y)%Z).
      { rewrite <- (round_IZR (Z.of_N (pow10 k))). apply round_mono. change (rN (pow10 k) <= y). rewrite rN_pow10. lra. }
      unfold n. lia. }
    assert (N2 : (n <= pow10 (S k))%N).
    { assert (H : (round_half_even y <= Z.of_N (pow10 (S k)))%Z).
      { rewrite <- (round_IZR (Z.of_N (pow10 (S k)))). apply round_mono. change (y <= rN (pow10 (S k))). rewrite rN_pow10. cbn [pow]. lra. }
      unfold n. lia. }
    exists (sgn x * (rN n * u)).
    assert (Hv : Rabs (sgn x * (rN n * u) - x) <= / 2 * / 10 ^ k * Rabs x /\ 0 <= sgn x * (rN n * u) * x).
    { split.
      - rewrite (sgn_abs x) at 2. rewrite <- Rmult_minus_distr_l, Rabs_mult, sgn_abs1, Rmult_1_l.
        replace (rN n * u - Rabs x) with ((rN n - y) * u) by (rewrite Ey; ring).
        rewrite Rabs_mult, (Rabs_right u) by lra. apply Rle_trans with (/ 2 * u); [apply Rmult_le_compat_r; lra|].
        rewrite Ey, Rmult_assoc. apply Rmult_le_compat_l; [lra|]. rewrite <- Rmult_assoc.
        rewrite <- (Rmult_1_l u) at 1. apply Rmult_le_compat_r; [lra|].
        apply Rmult_le_reg_l with (10 ^ k); [lra|]. rewrite <- Rmult_assoc, Rinv_r by lra. lra.
      - rewrite (sgn_abs x) at 2.
        replace (sgn x * (rN n * u) * (sgn x * Rabs x)) with ((sgn x * sgn x) * (rN n * (u * Rabs x))) by ring.
        rewrite sgn_sq, Rmult_1_l. apply Rmult_le_pos; [unfold rN; apply IZR_le; lia|]. apply Rmult_le_pos; [lra|apply Rabs_pos]. }
    split; [|exact Hv]. clear Hv.
    destruct (N.eqb_spec n (pow10 (S k))) as [En|En].
    + pose proof (sci_text (Rltb x 0) (pow10 k) (e + 1) k) as H. rewrite rN_pow10, Eu1 in H.
      replace (sgn x * (rN n * u)) with ((if Rltb x 0 then -1 else 1) * (10 ^ k / 10 ^ k) * (10 * (10 ^ k * u))).
      * unfold sign. destruct (Rltb x 0); apply H; right; rewrite pow10_S; pose proof (pow10_pos k); lia.
      * rewrite En, rN_pow10. unfold sgn. cbn [pow]. destruct (Rltb x 0); field; lra.
    + pose proof (sci_text (Rltb x 0) n e k) as H. rewrite Eu in H.
      replace (sgn x * (rN n * u)) with ((if Rltb x 0 then -1 else 1) * (rN n / 10 ^ k) * (10 ^ k * u)).
      * unfold sign. destruct (Rltb x 0); apply H; right; lia.
      * unfold sgn. destruct (Rltb x 0); field; lra.
Qed.

Lemma fixed_shows k x : exists v, numeral k (fixed k x) v /\ Rabs (v - x) <= / 2 * / 10 ^ k /\ 0 <= v * x.
Proof. exists (printed k x). split; [apply fixed_numeral|]. split; [apply printed_near|apply printed_sign]. Qed.

(** ** C67 *)
Definition same_line (line : Z * list (string * option R)) (text : Z * list (string * string)) : Prop :=
  fst text = fst line /\
  Forall2 (fun cell t => fst t = fst cell /\ exists x, snd cell = Some x /\ shows (fst cell) x (snd t)) (snd line) (snd text).

Theorem C67_formatted_file (p : Params R) end_date cfg ic mh all_mode rows out :
  pysnobal_run p end_date cfg ic mh all_mode rows = Ok out ->
  exists text, pysnobal_run_formatted p end_date cfg ic mh all_mode rows = Ok text /\ Forall2 same_line out text.
Proof.
  intros H. pose proof (C43_every_line _ _ _ _ _ _ _ _ H) as Hl. unfold pysnobal_run_formatted. rewrite H. cbn [bind].
  clear H. unfold format_output. induction Hl as [|[d cells] out (Hc & _ & Hs) _ (text & E & F)].
  - exists []. split; [reflexivity|constructor].
  - cbn [fst snd] in Hc, Hs.
    assert (G : exists ts, all_ok format_cell cells = Ok ts /\
      Forall2 (fun cell t => fst t = fst cell /\ exists x, snd cell = Some x /\ shows (fst cell) x (snd t)) cells ts).
    { assert (Hk : Forall (fun cell => exists c, look (fst cell) float_map = Some c /\
        match c with Fixed k => decimals (fst cell) = Some k | Sci k => k = 9%nat /\ decimals (fst cell) = None end) cells).
      { rewrite <- (Forall_map fst (fun col => exists c, look col float_map = Some c /\
          match c with Fixed k => decimals col = Some k | Sci k => k = 9%nat /\ decimals col = None end)), Hc.
        repeat (constructor; [eexists; split; [reflexivity|try split; reflexivity]|]). constructor. }
      clear Hc. induction Hk as [|[col v] cells (c & L & D) _ IH]; [exists []; split; [reflexivity|constructor]|].
      inversion Hs as [|? ? Hv Hs']; subst. destruct (IH Hs') as (ts & E1 & F1). cbn [fst snd] in *.
      destruct v as [x|]; [|congruence]. exists ((col, convert c x) :: ts). split.
      - cbn [all_ok]. unfold format_cell at 1. cbn [fst snd]. rewrite L. cbn [bind]. rewrite E1. reflexivity.
      - constructor; [|exact F1]. cbn [fst snd]. split; [reflexivity|]. exists x. split; [reflexivity|].
        unfold shows. destruct c as [k|k].
        + rewrite D. apply fixed_shows.
        + destruct D as [-> ->]. apply sci_shows. }
    destruct G as (ts & E1 & F1). exists ((d, ts) :: text). split.
    + cbn [all_ok fst snd]. rewrite E1. cbn [bind]. rewrite E. reflexivity.
    + constructor; [split; [reflexivity|exact F1]|exact F].
Qed.

(** the printed numbers of a column are in the order of the numbers *)
Theorem C67_order_is_kept (k : nat) :
  exists reading : R -> R, (forall x, numeral k (convert (Fixed k) x) (reading x)) /\
    (forall x y, x <= y -> reading x <= reading y) /\ (forall z, reading (IZR z / 10 ^ k) = IZR z / 10 ^ k).
Proof.
  exists (printed k). split; [apply fixed_numeral|]. split; [apply printed_mono|].
  intros z. pose proof (ten_pos k) as Hk. unfold printed. set (x := IZR z / 10 ^ k).
  assert (E : Rabs x * 10 ^ k = IZR (Z.abs z)).
  { rewrite abs_IZR. unfold x, Rdiv. rewrite Rabs_mult, (Rabs_right (/ 10 ^ k)) by (left; apply Rinv_0_lt_compat; lra). field. lra. }
  rewrite E, round_IZR, <- E. unfold Rdiv. rewrite Rmult_assoc, Rinv_r, Rmult_1_r by lra. symmetry. apply sgn_abs.
Qed.

(** ** The hypotheses are met; what single numbers look like *)
Example C67_witness : exists text, pysnobal_run_formatted wp 60 wcfg wic wmh false dry_day = Ok text /\ text <> [].
Proof.
  destruct (dry_day_file false) as (out & E & Hne). destruct (C67_formatted_file _ _ _ _ _ _ _ _ E) as (text & E' & F).
  exists text. split; [exact E'|]. intros ->. inversion F; subst. congruence.
Qed.

Lemma Int_part_is x z : IZR z <= x < IZR z + 1 -> Int_part x = z.
Proof.
  intros H. destruct (base_Int_part x) as [B1 B2].
  assert (L : IZR (Int_part x) < IZR z + 1) by lra. rewrite <- plus_IZR in L. apply lt_IZR in L.
  assert (L2 : IZR z < IZR (Int_part x) + 1) by lra. rewrite <- plus_IZR in L2. apply lt_IZR in L2. lia.
Qed.
(** '%.3f' % -0.0625 : a tie, the even neighbour *)
Example fixed_example : fixed 3 (- (625 / 10000)) = "-0.062"%string.
Proof.
  unfold fixed, sign. destruct (Rltb_spec (- (625 / 10000)) 0); [|lra].
  replace (Rabs (- (625/10000)) * 10 ^ 3) with (625/10) by (rewrite Rabs_left by lra; cbn; lra).
  unfold round_half_even. rewrite (Int_part_is (625/10) 62) by lra.
  destruct (Rltb_spec (625/10 - 62) (1/2)); [lra|]. destruct (Rltb_spec (1/2) (625/10 - 62)); [lra|]. reflexivity.
Qed.
(** '%.1e' % -99.6 : rounding carries into the exponent *)
Example sci_example : sci 1 (- (996 / 10)) = "-1.0e+02"%string.
Proof.
  unfold sci, sign. destruct (Reqb_spec (- (996 / 10)) 0); [lra|]. destruct (Rltb_spec (- (996 / 10)) 0); [|lra].
  assert (Ex : exponent (- (996 / 10)) = 1%Z).
  { destruct (exponent_spec (- (996/10)) ltac:(lra)) as [E1 E2]. rewrite (Rabs_left (-(996/10))) in * by lra.
    set (e := exponent _) in *. clearbody e.
    destruct (Z_lt_le_dec e 1) as [H|H].
    - assert (L : powerRZ 10 (e + 1) <= powerRZ 10 1).
      { rewrite !powerRZ_Rpower by lra. apply Rle_Rpower; [lra|]. apply IZR_le. lia. }
      change (powerRZ 10 1) with (10 ^ 1) in L. rewrite pow_1 in L. lra.
    - destruct (Z.eq_dec e 1) as [|Hne]; [assumption|].
      assert (L : powerRZ 10 2 <= powerRZ 10 e).
      { rewrite !powerRZ_Rpower by lra. apply Rle_Rpower; [lra|]. apply IZR_le. lia. }
      change (powerRZ 10 2) with (10 ^ 2) in L. cbn in L. lra. }
  rewrite Ex. change (1 - Z.of_nat 1)%Z with 0%Z. change (powerRZ 10 0) with 1.
  replace (Rabs (- (996/10)) / 1) with (996/10) by (rewrite Rabs_left by lra; lra).
  unfold round_half_even. rewrite (Int_part_is (996/10) 99) by lra.
  destruct (Rltb_spec (996/10 - 99) (1/2)); [lra|]. destruct (Rltb_spec (1/2) (996/10 - 99)); [|lra]. reflexivity.
Qed.

Print Assumptions C67_formatted_file.
Print Assumptions C67_order_is_kept.
