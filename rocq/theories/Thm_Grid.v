(** * Theorems C77: the gridded snow state shares arrays.

    For an arbitrary number type.  [gread k st j]: what a user reads in cell [j] of attribute [k]. *)
From Coq Require Import ZArith Bool String List Lia Reals Lra.
Import ListNotations.
From Verif Require Import Num Real Constants Functions SnowState Grid.

Section Any.
Context {T : Type} {N : Num T}.
Implicit Types (st : GState T) (k : string).

(** the value of attribute [k] in cell [j], if the attribute exists *)
Definition cell_of k st (j : nat) : option T := match gread k st with Some a => Some (a j) | None => None end.
(** all names refer to existing arrays *)
Definition well st : Prop := forall k r, g_attrs st k = Some r -> (r < g_next st)%nat.

Lemma bars_average_spec total incr ks st st' : well st ->
  bars_average total incr ks st = Ok st' ->
  well st' /\ (g_next st <= g_next st')%nat /\
  (forall r, (r < g_next st)%nat -> g_heap st' r = g_heap st r) /\
  (forall k, ~ In k (map bar_name ks) -> g_attrs st' k = g_attrs st k) /\
  (NoDup (map bar_name ks) -> (forall k, In k ks -> ~ In k (map bar_name ks)) ->
   forall k, In k ks -> exists b v, g_attrs st (bar_name k) = Some b /\ g_attrs st k = Some v /\
     forall j, cell_of (bar_name k) st' j = Some (ndiv (nadd (nmul (g_heap st b j) total) (nmul (g_heap st v j) incr)) (nadd total incr))).
Proof.
  revert st. induction ks as [|k0 ks IH]; intros st Hw H.
  - cbn in H. injection H as <-. split; [assumption|]. split; [lia|]. split; [reflexivity|]. split; [reflexivity|]. intros _ _ k [].
  - cbn in H. unfold gget in H. destruct (g_attrs st (bar_name k0)) as [b|] eqn:Eb; [|discriminate]. cbn in H.
    destruct (g_attrs st k0) as [v|] eqn:Ev; [|discriminate]. cbn in H.
    set (arr := fun j : nat => _) in H. set (st1 := gassign (bar_name k0) arr st) in H.
    assert (Hw1 : well st1).
    { intros k r. unfold st1, gassign, gset. cbn. destruct (String.eqb k (bar_name k0)); [intros X; injection X as <-; lia|].
      intros X. apply Hw in X. lia. }
    destruct (IH st1 Hw1 H) as (A1 & A2 & A3 & A4 & A5). cbn [g_next st1 gassign gset] in A2, A3.
    assert (Hh : forall r, (r < g_next st)%nat -> g_heap st1 r = g_heap st r).
    { intros r Hr. unfold st1, gassign, gset. cbn. destruct (Nat.eqb_spec r (g_next st)); [lia|reflexivity]. }
    split; [assumption|]. split; [lia|].
    split. { intros r Hr. rewrite A3 by lia. apply Hh. assumption. }
    split.
    { intros k Hk. cbn in Hk. rewrite A4 by tauto. unfold st1, gassign, gset. cbn.
      destruct (String.eqb_spec k (bar_name k0)); [subst; tauto|reflexivity]. }
    intros Hnd Hdis k Hk. cbn [map] in Hnd. inversion Hnd as [|? ? Hni Hnd']; subst.
    destruct Hk as [->|Hk].
    + exists b, v. split; [assumption|]. split; [assumption|]. intros j. unfold cell_of, gread. rewrite (A4 _ Hni).
      unfold st1, gassign, gset. cbn. rewrite String.eqb_refl.
      change (g_heap st' (g_next st)) with (g_heap st' (g_next st)). rewrite A3 by lia.
      unfold st1, gassign, gset. cbn. rewrite Nat.eqb_refl. reflexivity.
    + destruct (A5 Hnd') with (k := k) as (b' & v' & B1 & B2 & B3).
      { intros k' Hk' X. apply (Hdis k'); [right; assumption|]. right. assumption. }
      { assumption. }
      assert (Hne : k <> bar_name k0). { intros ->. apply (Hdis (bar_name k0)); [right; assumption|left; reflexivity]. }
      assert (Hne2 : bar_name k <> bar_name k0). { intros X. apply Hni. rewrite <- X. apply in_map. assumption. }
      unfold st1, gassign, gset in B1, B2. cbn in B1, B2.
      destruct (String.eqb_spec (bar_name k) (bar_name k0)); [congruence|]. destruct (String.eqb_spec k (bar_name k0)); [congruence|].
      exists b', v'. split; [assumption|]. split; [assumption|]. intros j. rewrite B3.
      rewrite !Hh by (eapply Hw; eassumption). reflexivity.
Qed.

Lemma bars_average_new total incr ks st st' : well st -> bars_average total incr ks st = Ok st' ->
  forall k r, In k ks -> g_attrs st' (bar_name k) = Some r -> (g_next st <= r)%nat.
Proof.
  revert st. induction ks as [|k0 ks IH]; intros st Hw H k r Hk Hr; [destruct Hk|].
  cbn in H. unfold gget in H. destruct (g_attrs st (bar_name k0)) as [b|] eqn:Eb; [|discriminate]. cbn in H.
  destruct (g_attrs st k0) as [v|] eqn:Ev; [|discriminate]. cbn in H.
  set (arr := fun j : nat => _) in H. set (st1 := gassign (bar_name k0) arr st) in H.
  assert (Hw1 : well st1).
  { intros k' r'. unfold st1, gassign, gset. cbn. destruct (String.eqb k' (bar_name k0)); [intros X; injection X as <-; lia|].
    intros X. apply Hw in X. lia. }
  assert (Hn : g_next st1 = S (g_next st)) by reflexivity.
  destruct (in_dec string_dec k ks) as [Hi|Hi]; [specialize (IH st1 Hw1 H k r Hi Hr); lia|].
  destruct Hk as [->|Hk]; [|tauto].
  destruct (in_dec string_dec (bar_name k) (map bar_name ks)) as [Hb|Hb].
  - apply in_map_iff in Hb. destruct Hb as (k' & Ek' & Hk'). rewrite <- Ek' in Hr. specialize (IH st1 Hw1 H k' r Hk' Hr). lia.
  - destruct (bars_average_spec _ _ _ _ _ Hw1 H) as (_ & _ & _ & A4 & _). rewrite (A4 _ Hb) in Hr.
    unfold st1, gassign, gset in Hr. cbn in Hr. rewrite String.eqb_refl in Hr. injection Hr as <-. lia.
Qed.

Lemma iadd_spec k v st st' : iadd k v st = Ok st' -> exists a b, g_attrs st k = Some a /\ g_attrs st v = Some b /\
  g_next st' = g_next st /\ (forall k', g_attrs st' k' = g_attrs st k') /\
  forall r j, g_heap st' r j = if Nat.eqb r a then nadd (g_heap st a j) (g_heap st b j) else g_heap st r j.
Proof.
  unfold iadd, gget. destruct (g_attrs st k) as [a|] eqn:Ea; [|discriminate]. cbn [bind].
  destruct (g_attrs st v) as [b|] eqn:Eb; [|discriminate]. cbn [bind]. intros H. injection H as <-.
  exists a, b. split; [reflexivity|]. split; [reflexivity|]. split; [reflexivity|]. split.
  - intros k'. unfold gset, gwrite. cbn. destruct (String.eqb_spec k' k); [subst; symmetry; assumption|reflexivity].
  - intros r j. unfold gset, gwrite. cbn. destruct (Nat.eqb r a); reflexivity.
Qed.

Definition bar_names : list string := map bar_name energy_names.
Lemma bars_distinct : NoDup bar_names /\ (forall k, In k energy_names -> ~ In k bar_names).
Proof.
  split; [repeat constructor; cbn; intuition discriminate|].
  intros k H X. cbn in H, X. repeat destruct H as [<-|H]; try tauto; intuition discriminate.
Qed.

(** what time_average does to arrays and names *)
Lemma time_average_spec total incr st st' : well st -> sp_time_average total incr st = Ok st' ->
  exists es ms ws e m w,
    g_attrs st "E_s_sum"%string = Some es /\ g_attrs st "melt_sum"%string = Some ms /\ g_attrs st "swi_sum"%string = Some ws /\
    g_attrs st "E_s"%string = Some e /\ g_attrs st "melt"%string = Some m /\ g_attrs st "swi"%string = Some w /\
    (forall k, ~ In k bar_names -> g_attrs st' k = g_attrs st k) /\
    (let h1 r j := if Nat.eqb r es then nadd (g_heap st es j) (g_heap st e j) else g_heap st r j in
     let h2 r j := if Nat.eqb r ms then nadd (h1 ms j) (h1 m j) else h1 r j in
     forall r j, (r < g_next st)%nat -> g_heap st' r j = if Nat.eqb r ws then nadd (h2 ws j) (h2 w j) else h2 r j) /\
    (forall k, In k energy_names -> exists b v, g_attrs st (bar_name k) = Some b /\ g_attrs st k = Some v /\
     forall j, cell_of (bar_name k) st' j = Some (ndiv (nadd (nmul (g_heap st b j) total) (nmul (g_heap st v j) incr)) (nadd total incr))).
Proof.
  intros Hw H. unfold sp_time_average in H.
  destruct (bars_average total incr energy_names st) as [st1|] eqn:E1; [|discriminate]. cbn [bind] in H.
  destruct (bars_average_spec _ _ _ _ _ Hw E1) as (W1 & N1 & A3 & A4 & A5). fold bar_names in A4, A5.
  destruct bars_distinct as (D1 & D2). specialize (A5 D1 D2).
  destruct (iadd "E_s_sum" "E_s" st1) as [st2|] eqn:E2; [|discriminate]. cbn [bind] in H.
  destruct (iadd "melt_sum" "melt" st2) as [st3|] eqn:E3; [|discriminate]. cbn [bind] in H.
  destruct (iadd_spec _ _ _ _ E2) as (es & e & B1 & B2 & B3 & B4 & B5).
  destruct (iadd_spec _ _ _ _ E3) as (ms & m & C1 & C2 & C3 & C4 & C5).
  destruct (iadd_spec _ _ _ _ H) as (ws & w & F1 & F2 & F3 & F4 & F5).
  rewrite C4, B4 in F1, F2. rewrite B4 in C1, C2.
  assert (Hat : forall k, ~ In k bar_names -> g_attrs st' k = g_attrs st k) by (intros k Hk; rewrite F4, C4, B4; apply A4; assumption).
  rewrite A4 in B1, B2, C1, C2, F1, F2 by (cbn; intuition discriminate).
  exists es, ms, ws, e, m, w. do 6 (split; [assumption|]). split; [exact Hat|].
  pose proof (Hw _ _ B1). pose proof (Hw _ _ B2). pose proof (Hw _ _ C1). pose proof (Hw _ _ C2). pose proof (Hw _ _ F1). pose proof (Hw _ _ F2).
  split.
  - cbv zeta. intros r j Hr. rewrite F5, !C5, !B5, !(A3 es), !(A3 e), !(A3 ms), !(A3 m), !(A3 ws), !(A3 w), !(A3 r) by assumption. reflexivity.
  - intros k Hk. destruct (A5 k Hk) as (b & v & G1 & G2 & G3). exists b, v. split; [assumption|]. split; [assumption|].
    intros j. rewrite <- G3. unfold cell_of, gread.
    assert (Ek : g_attrs st' (bar_name k) = g_attrs st1 (bar_name k)) by (rewrite F4, C4, B4; reflexivity). rewrite Ek.
    specialize (G3 j). unfold cell_of, gread in G3. destruct (g_attrs st1 (bar_name k)) as [r|] eqn:Er; [|discriminate].
    (* the new arrays are not touched by the three additions *)
    assert (Hr : (g_next st <= r)%nat).
    { revert E1 Er. clear - Hw Hk. intros E1 Er. exact (bars_average_new total incr energy_names st st1 Hw E1 k r Hk Er). }
    rewrite F5, !C5, !B5. destruct (Nat.eqb_spec r ws); [lia|]. destruct (Nat.eqb_spec r ms); [lia|]. destruct (Nat.eqb_spec r es); [lia|]. reflexivity.
Qed.

(** ** Without sharing, each cell is a point *)
(** the attributes the two accumulating methods read or write, as the point model holds them *)
Definition tracked (s : SnowState T) : list (string * option T) :=
  [("R_n", Some (R_n (en s))); ("H", Some (H_ (en s))); ("L_v_E", Some (L_v_E (en s))); ("G", Some (G_ (en s)));
   ("G_0", Some (G_0 (en s))); ("M", Some (M_ (en s))); ("delta_Q", Some (delta_Q (en s))); ("delta_Q_0", Some (delta_Q_0 (en s)));
   ("R_n_bar", Some (R_n (bar s))); ("H_bar", Some (H_ (bar s))); ("L_v_E_bar", Some (L_v_E (bar s))); ("G_bar", Some (G_ (bar s)));
   ("G_0_bar", Some (G_0 (bar s))); ("M_bar", Some (M_ (bar s))); ("delta_Q_bar", Some (delta_Q (bar s)));
   ("delta_Q_0_bar", Some (delta_Q_0 (bar s)));
   ("E_s", Some (E_s s)); ("melt", Some (melt s)); ("swi", Some (swi s));
   ("E_s_sum", Some (E_s_sum s)); ("melt_sum", Some (melt_sum s)); ("swi_sum", swi_sum s)]%string.
(** cell [j] of the gridded state holds the values of the point state [s] *)
Definition agrees st (j : nat) (s : SnowState T) : Prop := forall k v, In (k, v) (tracked s) -> cell_of k st j = v.
(** none of the three sums shares its array with another attribute *)
Definition unshared st : Prop := forall s k, In s ["E_s_sum"; "melt_sum"; "swi_sum"]%string -> k <> s ->
  g_attrs st s <> None -> g_attrs st k <> g_attrs st s.

Lemma cell_some k st j v : cell_of k st j = Some v -> exists r, g_attrs st k = Some r /\ g_heap st r j = v.
Proof. unfold cell_of, gread. destruct (g_attrs st k) as [r|]; [|discriminate]. intros H. injection H as <-. eauto. Qed.

Theorem C77_unshared_cells_are_points total incr st st' j s s' : well st -> unshared st -> agrees st j s ->
  sp_time_average total incr st = Ok st' -> ss_time_average s total incr = Ok s' ->
  agrees st' j s' /\ (forall k, ~ In k (map fst (tracked s)) -> cell_of k st' j = cell_of k st j).
Proof.
  intros Hw Hu Ha H Hp.
  destruct (time_average_spec _ _ _ _ Hw H) as (es & ms & ws & e & m & w & E1 & E2 & E3 & E4 & E5 & E6 & Hat & Hh & Hb). cbv zeta in Hh.
  assert (Nb : forall k r, g_attrs st k = Some r -> k <> "E_s_sum"%string -> r <> es).
  { intros k r Hk Hne ->. apply (Hu "E_s_sum"%string k); [cbn; tauto|assumption|congruence|congruence]. }
  assert (Nm : forall k r, g_attrs st k = Some r -> k <> "melt_sum"%string -> r <> ms).
  { intros k r Hk Hne ->. apply (Hu "melt_sum"%string k); [cbn; tauto|assumption|congruence|congruence]. }
  assert (Nw : forall k r, g_attrs st k = Some r -> k <> "swi_sum"%string -> r <> ws).
  { intros k r Hk Hne ->. apply (Hu "swi_sum"%string k); [cbn; tauto|assumption|congruence|congruence]. }
  assert (Hsame : forall k, ~ In k bar_names -> k <> "E_s_sum"%string -> k <> "melt_sum"%string -> k <> "swi_sum"%string -> cell_of k st' j = cell_of k st j).
  { intros k K1 K2 K3 K4. unfold cell_of, gread. rewrite (Hat k K1). destruct (g_attrs st k) as [r|] eqn:Er; [|reflexivity].
    rewrite Hh by (eapply Hw; eassumption).
    destruct (Nat.eqb_spec r ws); [exfalso; eapply Nw; eassumption|]. destruct (Nat.eqb_spec r ms); [exfalso; eapply Nm; eassumption|].
    destruct (Nat.eqb_spec r es); [exfalso; eapply Nb; eassumption|]. reflexivity. }
  assert (Hev : g_heap st e j = E_s s /\ g_heap st m j = melt s /\ g_heap st w j = swi s /\ g_heap st es j = E_s_sum s /\ g_heap st ms j = melt_sum s /\ Some (g_heap st ws j) = swi_sum s).
  { assert (X : forall k v r, In (k, v) (tracked s) -> g_attrs st k = Some r -> Some (g_heap st r j) = v).
    { intros k v r Hk Hr. rewrite <- (Ha k v Hk). unfold cell_of, gread. rewrite Hr. reflexivity. }
    repeat split; [| | | | |apply (X "swi_sum"%string); [cbn; tauto|assumption]];
      match goal with |- ?a = ?b => cut (Some a = Some b); [congruence|] end.
    - apply (X "E_s"%string); [cbn; tauto|assumption].
    - apply (X "melt"%string); [cbn; tauto|assumption].
    - apply (X "swi"%string); [cbn; tauto|assumption].
    - apply (X "E_s_sum"%string); [cbn; tauto|assumption].
    - apply (X "melt_sum"%string); [cbn; tauto|assumption]. }
  destruct Hev as (V1 & V2 & V3 & V4 & V5 & V6).
  unfold ss_time_average in Hp. destruct (average_energy (bar s) (en s) total incr) as [b|] eqn:Eb; [|discriminate]. cbn [bind] in Hp.
  destruct (swi_sum s) as [ws0|] eqn:Ews; [|discriminate]. injection Hp as <-. injection V6 as V6.
  assert (Hbar : forall k, In k energy_names -> forall x y, In (bar_name k, Some x) (tracked s) -> In (k, Some y) (tracked s) ->
     cell_of (bar_name k) st' j = Some (ndiv (nadd (nmul x total) (nmul y incr)) (nadd total incr))).
  { intros k Hk x y Hx Hy. destruct (Hb k Hk) as (br & vr & B1 & B2 & B3). rewrite B3.
    pose proof (Ha _ _ Hx) as X1. pose proof (Ha _ _ Hy) as X2. unfold cell_of, gread in X1, X2. rewrite B1 in X1. rewrite B2 in X2.
    injection X1 as ->. injection X2 as ->. reflexivity. }
  assert (Hsum : cell_of "E_s_sum" st' j = Some (nadd (E_s_sum s) (E_s s)) /\ cell_of "melt_sum" st' j = Some (nadd (melt_sum s) (melt s)) /\
                 cell_of "swi_sum" st' j = Some (nadd ws0 (swi s))).
  { assert (D : es <> ms /\ es <> ws /\ ms <> ws /\ e <> es /\ m <> es /\ m <> ms /\ w <> es /\ w <> ms /\ w <> ws).
    { repeat split; (first [eapply Nb|eapply Nm|eapply Nw]; [eassumption|discriminate]). }
    destruct D as (D1 & D2 & D3 & D4 & D5 & D6 & D7 & D8 & D9).
    assert (X : forall k r, g_attrs st k = Some r -> ~ In k bar_names -> cell_of k st' j = Some (g_heap st' r j)).
    { intros k r Hk Hnb. unfold cell_of, gread. rewrite (Hat k Hnb), Hk. reflexivity. }
    rewrite (X _ _ E1), (X _ _ E2), (X _ _ E3) by (cbn; intuition discriminate).
    rewrite !Hh by (eapply Hw; eassumption).
    repeat match goal with |- context [Nat.eqb ?a ?b] => destruct (Nat.eqb_spec a b); try congruence end.
    rewrite V1, V2, V3, V4, V5, V6. auto. }
  destruct Hsum as (S1 & S2 & S3).
  split.
  - unfold average_energy, time_average, pdiv in Eb. destruct (neqb (nadd total incr) (nofZ 0)); [discriminate|]. cbn [bind] in Eb. injection Eb as <-.
    intros k v Hk. cbn in Hk.
    repeat (destruct Hk as [Hk|Hk]; [injection Hk as <- <-;
      first [exact S1|exact S2|exact S3
            |(rewrite Hsame by (cbn; intuition discriminate)); apply Ha; cbn; tauto
            |match goal with |- cell_of ?b _ _ = _ => let k := eval cbv in (String.substring 0 (String.length b - 4) b) in
               change b with (bar_name k); apply Hbar; cbn; tauto end]|]).
    destruct Hk.
  - intros k Hk. apply Hsame.
    + intros X. apply Hk. cbn in X |- *. tauto.
    + intros ->. apply Hk. cbn. tauto.
    + intros ->. apply Hk. cbn. tauto.
    + intros ->. apply Hk. cbn. tauto.
Qed.

(** ** value_to_bar: the names share the arrays afterwards *)
Lemma bars_from_spec ks st st' : bars_from ks st = Ok st' -> (forall k, In k ks -> ~ In k (map bar_name ks)) -> NoDup (map bar_name ks) ->
  g_heap st' = g_heap st /\ g_next st' = g_next st /\
  (forall k, ~ In k (map bar_name ks) -> g_attrs st' k = g_attrs st k) /\
  (forall k, In k ks -> g_attrs st' (bar_name k) = g_attrs st k /\ g_attrs st k <> None).
Proof.
  revert st. induction ks as [|k0 ks IH]; intros st H Hd Hn.
  - cbn in H. injection H as <-. split; [reflexivity|]. split; [reflexivity|]. split; [reflexivity|]. intros k [].
  - cbn in H. unfold gget in H. destruct (g_attrs st k0) as [r|] eqn:Er; [|discriminate]. cbn [bind] in H.
    cbn [map] in Hn. inversion Hn as [|? ? Hni Hn']; subst.
    destruct (IH _ H) as (A1 & A2 & A3 & A4).
    { intros k Hk X. apply (Hd k); [right; assumption|right; assumption]. } { assumption. }
    cbn in A1, A2. split; [exact A1|]. split; [exact A2|]. split.
    + intros k Hk. cbn in Hk. rewrite A3 by tauto. unfold gset. cbn. destruct (String.eqb_spec k (bar_name k0)); [subst; tauto|reflexivity].
    + intros k [->|Hk].
      * rewrite (A3 _ Hni). unfold gset. cbn. rewrite String.eqb_refl. split; [symmetry; assumption|congruence].
      * destruct (A4 k Hk) as (B1 & B2). unfold gset in B1, B2. cbn in B1, B2.
        destruct (String.eqb_spec k (bar_name k0)) as [->|Hne].
        -- exfalso. apply (Hd (bar_name k0)); [right; assumption|left; reflexivity].
        -- split; assumption.
Qed.

Lemma value_to_bar_spec st st' : sp_value_to_bar st = Ok st' ->
  g_heap st' = g_heap st /\ g_next st' = g_next st /\
  (forall k, In k energy_names -> g_attrs st' (bar_name k) = g_attrs st k /\ g_attrs st k <> None) /\
  (g_attrs st' "E_s_sum" = g_attrs st "E_s" /\ g_attrs st' "melt_sum" = g_attrs st "melt" /\ g_attrs st' "swi_sum" = g_attrs st "swi")%string /\
  (g_attrs st "E_s" <> None /\ g_attrs st "melt" <> None /\ g_attrs st "swi" <> None)%string /\
  (forall k, ~ In k bar_names -> ~ In k ["E_s_sum"; "melt_sum"; "swi_sum"]%string -> g_attrs st' k = g_attrs st k).
Proof.
  intros H. unfold sp_value_to_bar in H.
  destruct (bars_from energy_names st) as [st1|] eqn:E1; [|discriminate]. cbn [bind] in H.
  destruct bars_distinct as (D1 & D2).
  destruct (bars_from_spec _ _ _ E1 D2 D1) as (A1 & A2 & A3 & A4). fold bar_names in A3.
  unfold gget in H. destruct (g_attrs st1 "E_s") as [e|] eqn:Ee; [|discriminate]. cbn [bind gset g_attrs String.eqb Ascii.eqb Bool.eqb] in H.
  destruct (g_attrs st1 "melt") as [m|] eqn:Em; [|discriminate]. cbn [bind gset g_attrs String.eqb Ascii.eqb Bool.eqb] in H.
  destruct (g_attrs st1 "swi") as [w|] eqn:Ew; [|discriminate]. cbn [bind] in H. injection H as <-.
  split; [exact A1|]. split; [exact A2|].
  split. { intros k Hk. destruct (A4 k Hk) as (B1 & B2). split; [|exact B2]. rewrite <- B1.
    assert (X : bar_name k <> "E_s_sum"%string /\ bar_name k <> "melt_sum"%string /\ bar_name k <> "swi_sum"%string).
    { cbn in Hk. repeat destruct Hk as [<-|Hk]; try tauto; cbn; repeat split; discriminate. }
    destruct X as (X1 & X2 & X3). unfold gset. cbn [g_attrs].
    destruct (String.eqb_spec (bar_name k) "swi_sum"); [contradiction|]. destruct (String.eqb_spec (bar_name k) "melt_sum"); [contradiction|].
    destruct (String.eqb_spec (bar_name k) "E_s_sum"); [contradiction|reflexivity]. }
  rewrite A3 in Ee, Em, Ew by (cbn; intuition discriminate). rewrite Ee, Em, Ew.
  split; [cbn; repeat split|]. split; [repeat split; discriminate|].
  intros k K1 K2. unfold gset. cbn [g_attrs]. cbn in K2.
  destruct (String.eqb_spec k "swi_sum"); [subst; tauto|]. destruct (String.eqb_spec k "melt_sum"); [subst; tauto|].
  destruct (String.eqb_spec k "E_s_sum"); [subst; tauto|]. apply A3. assumption.
Qed.

Theorem C77_value_to_bar_cells_are_points st st' j s : agrees st j s -> sp_value_to_bar st = Ok st' ->
  agrees st' j (value_to_bar s) /\ (forall k, ~ In k (map fst (tracked s)) -> cell_of k st' j = cell_of k st j).
Proof.
  intros Ha H. destruct (value_to_bar_spec _ _ H) as (A1 & A2 & A3 & (A4 & A5 & A6) & _ & A7).
  assert (X : forall k k', g_attrs st' k' = g_attrs st k -> cell_of k' st' j = cell_of k st j).
  { intros k k' E. unfold cell_of, gread. rewrite E, A1. reflexivity. }
  split.
  - intros k v Hk. cbn in Hk.
    repeat (destruct Hk as [Hk|Hk]; [injection Hk as <- <-;
      first [(rewrite (X "E_s"%string _ A4)); apply Ha; cbn; tauto
            |(rewrite (X "melt"%string _ A5)); apply Ha; cbn; tauto
            |(rewrite (X "swi"%string _ A6)); apply Ha; cbn; tauto
            |match goal with |- cell_of ?b _ _ = _ => let k := eval cbv in (String.substring 0 (String.length b - 4) b) in
               change b with (bar_name k); rewrite (X k _ (proj1 (A3 k ltac:(cbn; tauto)))); apply Ha; cbn; tauto end
            |match goal with |- cell_of ?b _ _ = _ => rewrite (X b b (A7 b ltac:(cbn; intuition discriminate) ltac:(cbn; intuition discriminate))); apply Ha; cbn; tauto end]|]).
    destruct Hk.
  - intros k Hk. apply X. apply A7.
    + intros Y. apply Hk. cbn in Y |- *. tauto.
    + intros Y. apply Hk. cbn in Y |- *. tauto.
Qed.

(** ** With sharing *)
Lemma set_zeros_three st z : g_attrs st "zeros"%string = Some z -> exists st',
  sp_set_zeros ["E_s"; "melt"; "swi"]%string st = Ok st' /\ g_heap st' = g_heap st /\ g_next st' = g_next st /\
  (g_attrs st' "E_s" = Some z /\ g_attrs st' "melt" = Some z /\ g_attrs st' "swi" = Some z)%string /\
  (forall k, ~ In k ["E_s"; "melt"; "swi"]%string -> g_attrs st' k = g_attrs st k).
Proof.
  intros Hz. cbn [sp_set_zeros]. unfold gget. cbn [gset g_attrs String.eqb Ascii.eqb Bool.eqb]. rewrite Hz. cbn [bind].
  eexists. split; [reflexivity|].
  split; [reflexivity|]. split; [reflexivity|]. split; [cbn; auto|].
  intros k Hk. cbn in Hk |- *. destruct (String.eqb_spec k "swi"); [subst; tauto|]. destruct (String.eqb_spec k "melt"); [subst; tauto|].
  destruct (String.eqb_spec k "E_s"); [subst; tauto|reflexivity].
Qed.

(** A step that leaves the three amounts at zero starts an output interval; the next step assigns
    amounts [e], [m], [w] and is averaged in.  Then the zero grid holds old + e + m + w, for every attribute that
    refers to it, and so do all three sums. *)
Theorem C77_zero_grid_is_overwritten st z total incr (e m w : Array T) st1 st2 st' : well st ->
  g_attrs st "zeros"%string = Some z ->
  sp_set_zeros ["E_s"; "melt"; "swi"]%string st = Ok st1 -> sp_value_to_bar st1 = Ok st2 ->
  sp_time_average total incr (gassign "swi" w (gassign "melt" m (gassign "E_s" e st2))) = Ok st' ->
  forall k, In k ["zeros"; "E_s_sum"; "melt_sum"; "swi_sum"]%string \/
            (g_attrs st k = Some z /\ ~ In k ["E_s"; "melt"; "swi"; "E_s_sum"; "melt_sum"; "swi_sum"]%string /\ ~ In k bar_names) ->
  forall j, cell_of k st' j = Some (nadd (nadd (nadd (g_heap st z j) (e j)) (m j)) (w j)).
Proof.
  intros Hw Hz H1 H2 H3.
  destruct (set_zeros_three st z Hz) as (st1' & H1' & Z1 & Z2 & (Z3 & Z4 & Z5) & Z6). rewrite H1 in H1'. injection H1' as <-.
  destruct (value_to_bar_spec _ _ H2) as (A1 & A2 & _ & (A4 & A5 & A6) & _ & A7).
  rewrite Z3 in A4. rewrite Z4 in A5. rewrite Z5 in A6.
  pose proof (Hw _ _ Hz) as Hlt.
  set (st3 := gassign "swi" w (gassign "melt" m (gassign "E_s" e st2))) in *.
  assert (Hn2 : g_next st2 = g_next st) by congruence.
  assert (At3 : forall k, ~ In k ["E_s"; "melt"; "swi"]%string -> g_attrs st3 k = g_attrs st2 k).
  { intros k Hk. unfold st3, gassign, gset. cbn [g_attrs]. cbn in Hk. destruct (String.eqb_spec k "swi"); [subst; tauto|]. destruct (String.eqb_spec k "melt"); [subst; tauto|].
    destruct (String.eqb_spec k "E_s"); [subst; tauto|reflexivity]. }
  assert (Hb2 : forall k r, g_attrs st2 k = Some r -> (r < g_next st)%nat).
  { assert (Hw1 : forall k r, g_attrs st1 k = Some r -> (r < g_next st)%nat).
    { intros k r Hk. destruct (in_dec string_dec k ["E_s"; "melt"; "swi"]%string) as [X|X]; [|rewrite (Z6 _ X) in Hk; apply (Hw _ _ Hk)].
      cbn in X. destruct X as [<-|[<-|[<-|[]]]]; congruence. }
    intros k r Hk. destruct (in_dec string_dec k bar_names) as [X|X].
    - destruct (value_to_bar_spec _ _ H2) as (_ & _ & A3 & _). unfold bar_names in X. apply in_map_iff in X. destruct X as (k0 & <- & Hk0).
      destruct (A3 k0 Hk0) as (B1 & _). rewrite B1 in Hk. apply (Hw1 _ _ Hk).
    - destruct (in_dec string_dec k ["E_s_sum"; "melt_sum"; "swi_sum"]%string) as [Y|Y]; [|rewrite (A7 _ X Y) in Hk; apply (Hw1 _ _ Hk)].
      cbn in Y. destruct Y as [<-|[<-|[<-|[]]]]; congruence. }
  assert (Hn3 : g_next st3 = S (S (S (g_next st)))) by (unfold st3, gassign, gset; cbn; lia).
  assert (At3' : (g_attrs st3 "E_s" = Some (g_next st) /\ g_attrs st3 "melt" = Some (S (g_next st)) /\ g_attrs st3 "swi" = Some (S (S (g_next st))))%string).
  { unfold st3, gassign, gset. cbn. rewrite Hn2. auto. }
  assert (Hw3 : well st3).
  { intros k r Hk. rewrite Hn3. destruct (in_dec string_dec k ["E_s"; "melt"; "swi"]%string) as [X|X].
    - destruct At3' as (B1 & B2 & B3). cbn in X. destruct X as [<-|[<-|[<-|[]]]]; rewrite ?B1, ?B2, ?B3 in Hk; injection Hk as <-; lia.
    - rewrite (At3 _ X) in Hk. apply Hb2 in Hk. lia. }
  assert (Hh3 : g_heap st3 z = g_heap st z /\ g_heap st3 (g_next st) = e /\ g_heap st3 (S (g_next st)) = m /\ g_heap st3 (S (S (g_next st))) = w).
  { unfold st3, gassign, gset. cbn [g_heap g_next]. rewrite Hn2, A1, Z1.
    repeat match goal with |- context [Nat.eqb ?a ?b] => destruct (Nat.eqb_spec a b); try lia end. auto. }
  destruct Hh3 as (K0 & K1 & K2 & K3). destruct At3' as (B1 & B2 & B3).
  destruct (time_average_spec _ _ _ _ Hw3 H3) as (es & ms & ws & re & rm & rw & E1 & E2 & E3 & E4 & E5 & E6 & Hat & Hh & _). cbv zeta in Hh.
  rewrite At3 in E1, E2, E3 by (cbn; intuition discriminate). rewrite A4 in E1. rewrite A5 in E2. rewrite A6 in E3.
  injection E1 as <-. injection E2 as <-. injection E3 as <-. rewrite B1 in E4. rewrite B2 in E5. rewrite B3 in E6.
  injection E4 as <-. injection E5 as <-. injection E6 as <-.
  assert (Hzk : forall k, ~ In k bar_names -> g_attrs st3 k = Some z ->
     forall j, cell_of k st' j = Some (nadd (nadd (nadd (g_heap st z j) (e j)) (m j)) (w j))).
  { intros k Hb Hk j. unfold cell_of, gread. rewrite (Hat k Hb), Hk, Hh by (rewrite Hn3; lia). rewrite Nat.eqb_refl.
    repeat match goal with |- context [Nat.eqb ?a ?b] => destruct (Nat.eqb_spec a b); try lia end.
    rewrite K0, K1, K2, K3. reflexivity. }
  intros k [Hk|(Hk & Hk2 & Hk3)].
  - apply Hzk; [cbn in Hk |- *; repeat (destruct Hk as [<-|Hk]; [intuition discriminate|]); destruct Hk|].
    cbn in Hk. destruct Hk as [<-|[<-|[<-|[<-|[]]]]]; rewrite At3 by (cbn; intuition discriminate); try assumption.
    rewrite A7 by (cbn; intuition discriminate). rewrite Z6 by (cbn; intuition discriminate). exact Hz.
  - apply Hzk; [assumption|]. cbn in Hk2. rewrite At3 by (cbn; tauto). rewrite A7 by (try assumption; cbn; tauto).
    rewrite Z6 by (cbn; tauto). exact Hk.
Qed.

(** So set_zeros no longer sets zeros *)
Corollary C77_set_zeros_sets_the_sum st z total incr (e m w : Array T) st1 st2 st' st'' f : well st ->
  g_attrs st "zeros"%string = Some z ->
  sp_set_zeros ["E_s"; "melt"; "swi"]%string st = Ok st1 -> sp_value_to_bar st1 = Ok st2 ->
  sp_time_average total incr (gassign "swi" w (gassign "melt" m (gassign "E_s" e st2))) = Ok st' ->
  sp_set_zeros [f] st' = Ok st'' ->
  forall j, cell_of f st'' j = Some (nadd (nadd (nadd (g_heap st z j) (e j)) (m j)) (w j)).
Proof.
  intros Hw Hz H1 H2 H3 H4 j.
  rewrite <- (C77_zero_grid_is_overwritten st z total incr e m w st1 st2 st' Hw Hz H1 H2 H3 "zeros"%string ltac:(left; cbn; tauto) j).
  cbn [sp_set_zeros] in H4. unfold gget in H4. destruct (g_attrs st' "zeros") as [r|] eqn:Er; [|discriminate]. cbn [bind] in H4. injection H4 as <-.
  unfold cell_of, gread, gset. cbn [g_attrs g_heap]. rewrite String.eqb_refl, Er. reflexivity.
Qed.

(** Averaging right after value_to_bar doubles the amounts themselves *)
Theorem C77_amounts_are_doubled st st1 st' total incr e m w : well st ->
  (g_attrs st "E_s" = Some e /\ g_attrs st "melt" = Some m /\ g_attrs st "swi" = Some w)%string -> e <> m -> e <> w -> m <> w ->
  sp_value_to_bar st = Ok st1 -> sp_time_average total incr st1 = Ok st' ->
  forall j, cell_of "E_s" st' j = Some (nadd (g_heap st e j) (g_heap st e j)) /\
            cell_of "melt" st' j = Some (nadd (g_heap st m j) (g_heap st m j)) /\
            cell_of "swi" st' j = Some (nadd (g_heap st w j) (g_heap st w j)).
Proof.
  intros Hw (G1 & G2 & G3) D1 D2 D3 H1 H2 j.
  destruct (value_to_bar_spec _ _ H1) as (A1 & A2 & A3 & (A4 & A5 & A6) & _ & A7).
  assert (Hw1 : well st1).
  { intros k r Hk. rewrite A2. destruct (in_dec string_dec k bar_names) as [X|X].
    - unfold bar_names in X. apply in_map_iff in X. destruct X as (k0 & <- & Hk0). destruct (A3 k0 Hk0) as (B1 & _). rewrite B1 in Hk. apply (Hw _ _ Hk).
    - destruct (in_dec string_dec k ["E_s_sum"; "melt_sum"; "swi_sum"]%string) as [Y|Y]; [|rewrite (A7 _ X Y) in Hk; apply (Hw _ _ Hk)].
      cbn in Y. destruct Y as [<-|[<-|[<-|[]]]]; eapply Hw; [rewrite A4 in Hk|rewrite A5 in Hk|rewrite A6 in Hk]; exact Hk. }
  destruct (time_average_spec _ _ _ _ Hw1 H2) as (es & ms & ws & re & rm & rw & E1 & E2 & E3 & E4 & E5 & E6 & Hat & Hh & _). cbv zeta in Hh.
  rewrite A7 in E4, E5, E6 by (cbn; intuition discriminate).
  rewrite A4, G1 in E1. rewrite A5, G2 in E2. rewrite A6, G3 in E3. rewrite G1 in E4. rewrite G2 in E5. rewrite G3 in E6.
  injection E1 as <-. injection E2 as <-. injection E3 as <-. injection E4 as <-. injection E5 as <-. injection E6 as <-.
  pose proof (Hw _ _ G1). pose proof (Hw _ _ G2). pose proof (Hw _ _ G3).
  unfold cell_of, gread. rewrite !Hat by (cbn; intuition discriminate). rewrite !A7 by (cbn; intuition discriminate). rewrite G1, G2, G3.
  rewrite !Hh by lia. rewrite A1.
  repeat match goal with |- context [Nat.eqb ?a ?b] => destruct (Nat.eqb_spec a b); try congruence end. auto.
Qed.
End Any.

(** ** C53 continued: conductivity and dry density of a cell are the point model's *)
Theorem C53_same_conductivity_and_dry_density {T} {N : Num T} (s : SnowState T) :
  sp_kts (rho s) = kts s /\ (forall d, dry_snow_density s = Ok d -> sp_dry_snow_density (rho s) (h2o_vol s) = d).
Proof.
  split; [reflexivity|]. intros d. unfold dry_snow_density, pdiv. destruct (neqb _ _); [discriminate|]. intros H. injection H as <-. reflexivity.
Qed.

(** ** Cases: a new gridded state, its zero grid being array 0 *)
Definition a_grid_state : GState R := sp_init 0 (mkG (fun _ _ => 0%R) 1 (fun _ => None)).
Lemma a_grid_well : well a_grid_state.
Proof. intros k r. cbn [a_grid_state sp_init g_attrs g_next]. destruct (existsb _ _); [intros H; injection H as <-; lia|discriminate]. Qed.

(** after one interval every attribute nobody assigned, the depth for instance, reads 6 *)
Example C77_witness_sharing : exists st1 st2 st', sp_set_zeros ["E_s"; "melt"; "swi"]%string a_grid_state = Ok st1 /\ sp_value_to_bar st1 = Ok st2 /\
  sp_time_average 1%R 1%R (gassign "swi" (fun _ => 3%R) (gassign "melt" (fun _ => 2%R) (gassign "E_s" (fun _ => 1%R) st2))) = Ok st' /\
  forall j, cell_of "z_s" st' j = Some 6%R /\ cell_of "rho" st' j = Some 6%R /\ cell_of "melt_sum" st' j = Some 6%R.
Proof.
  assert (X : match sp_set_zeros ["E_s"; "melt"; "swi"]%string a_grid_state with
    | Ok st1 => match sp_value_to_bar st1 with
      | Ok st2 => match sp_time_average 1%R 1%R (gassign "swi" (fun _ => 3%R) (gassign "melt" (fun _ => 2%R) (gassign "E_s" (fun _ => 1%R) st2))) with
         | Ok _ => true | Err _ => false end
      | Err _ => false end | Err _ => false end = true) by (vm_compute; reflexivity).
  destruct (sp_set_zeros ["E_s"; "melt"; "swi"]%string a_grid_state) as [st1|] eqn:E1; [|discriminate X]. exists st1.
  destruct (sp_value_to_bar st1) as [st2|] eqn:E2; [|discriminate X]. exists st2.
  destruct (sp_time_average 1%R 1%R _) as [st'|] eqn:E3; [|discriminate X]. clear X.
  exists st'. do 3 (split; [reflexivity|]). intros j.
  assert (X : forall k, In k ["zeros"; "E_s_sum"; "melt_sum"; "swi_sum"]%string \/
      (g_attrs a_grid_state k = Some 0%nat /\ ~ In k ["E_s"; "melt"; "swi"; "E_s_sum"; "melt_sum"; "swi_sum"]%string /\ ~ In k bar_names) ->
      cell_of k st' j = Some 6%R).
  { intros k Hk. rewrite (C77_zero_grid_is_overwritten a_grid_state 0 1%R 1%R _ _ _ st1 st2 st' a_grid_well eq_refl E1 E2 E3 k Hk j). f_equal. cbn. lra. }
  split; [apply X; right; split; [reflexivity|split; cbn; intuition discriminate]|].
  split; [apply X; right; split; [reflexivity|split; cbn; intuition discriminate]|].
  apply X; left; cbn; tauto.
Qed.

(** sums bound to arrays of their own are not shared; the interval then gives the sums of the point model *)
Definition own_sums : GState R :=
  gassign "swi_sum" (fun _ => 30%R) (gassign "melt_sum" (fun _ => 20%R) (gassign "E_s_sum" (fun _ => 10%R)
    (gassign "swi" (fun _ => 3%R) (gassign "melt" (fun _ => 2%R) (gassign "E_s" (fun _ => 1%R) a_grid_state))))).
Lemma gassign_well {T} {N : Num T} k (x : Array T) (st : GState T) : well st -> well (gassign k x st).
Proof.
  intros Hw k' r. unfold gassign, gset. cbn [g_attrs g_next]. destruct (String.eqb k' k); [intros H; injection H as <-; lia|].
  intros H. apply Hw in H. lia.
Qed.
Lemma own_well : well own_sums.
Proof. unfold own_sums. repeat apply gassign_well. apply a_grid_well. Qed.
Definition alone {T} {N : Num T} (s : string) (st : GState T) : Prop :=
  forall k, k <> s -> g_attrs st s <> None -> g_attrs st k <> g_attrs st s.
Lemma alone_new {T} {N : Num T} s (x : Array T) (st : GState T) : well st -> alone s (gassign s x st).
Proof.
  intros Hw k Hk _. unfold gassign, gset. cbn [g_attrs]. rewrite String.eqb_refl. destruct (String.eqb_spec k s); [contradiction|].
  intros H. apply Hw in H. lia.
Qed.
Lemma alone_keep {T} {N : Num T} s k (x : Array T) (st : GState T) : well st -> alone s st -> String.eqb s k = false -> alone s (gassign k x st).
Proof.
  intros Hw Ha Hs k' Hk' Hn. unfold gassign, gset in *. cbn [g_attrs] in *. rewrite Hs in *.
  destruct (String.eqb_spec k' k); [|apply Ha; assumption]. destruct (g_attrs st s) as [r|] eqn:E; [|congruence].
  apply Hw in E. intros H. injection H as H. lia.
Qed.
Lemma own_unshared : unshared own_sums.
Proof.
  intros s k Hs. revert k. change (alone s own_sums). unfold own_sums.
  destruct Hs as [<-|[<-|[<-|[]]]];
    repeat first [apply alone_new | apply alone_keep; [| |reflexivity]]; repeat apply gassign_well; apply a_grid_well.
Qed.
Definition own_point : SnowState R := set_swi_sum (Some 30%R) (set_melt_sum 20%R (set_E_s_sum 10%R (set_swi 3%R (set_melt 2%R (set_E_s 1%R
  (set_bar (mkEnergy 0 0 0 0 0 0 0 0)%R (set_en (mkEnergy 0 0 0 0 0 0 0 0)%R (snow_state_init (1/4)%R 1%R)))))))).
Lemma own_agrees : agrees own_sums 7 own_point.
Proof.
  intros k v Hk. cbn in Hk. repeat (destruct Hk as [Hk|Hk]; [injection Hk as <- <-; reflexivity|]). destruct Hk.
Qed.
Example C77_witness_unshared : well own_sums /\ unshared own_sums /\ exists st' s s', agrees own_sums 7 s /\
  sp_time_average 1%R 1%R own_sums = Ok st' /\ ss_time_average s 1%R 1%R = Ok s' /\ cell_of "melt_sum" st' 7 = Some 22%R /\ melt_sum s' = 22%R.
Proof.
  split; [exact own_well|]. split; [exact own_unshared|].
  assert (E4 : exists s', ss_time_average own_point 1%R 1%R = Ok s' /\ melt_sum s' = 22%R).
  { unfold ss_time_average, average_energy, time_average, pdiv. change (@neqb R _) with Reqb. change (@nadd R _ 1%R 1%R) with (1 + 1)%R.
    change (@nofZ R _ 0) with 0%R. destruct (Reqb_spec (1 + 1) 0); [lra|]. cbn [bind]. change (swi_sum own_point) with (Some 30%R). cbv iota.
    eexists. split; [reflexivity|]. change (20 + 2 = 22)%R. lra. }
  destruct E4 as (s' & E4 & M).
  assert (X : match sp_time_average 1%R 1%R own_sums with Ok _ => true | Err _ => false end = true) by (vm_compute; reflexivity).
  destruct (sp_time_average 1%R 1%R own_sums) as [st'|] eqn:E3; [|discriminate X]. clear X.
  exists st', own_point, s'. split; [exact own_agrees|]. split; [reflexivity|]. split; [exact E4|]. split; [|exact M].
  destruct (C77_unshared_cells_are_points _ _ _ _ _ _ _ own_well own_unshared own_agrees E3 E4) as (B & _).
  rewrite <- M. apply B. unfold tracked. do 20 right. left. reflexivity.
Qed.
Print Assumptions C77_unshared_cells_are_points.
Print Assumptions C77_value_to_bar_cells_are_points.
Print Assumptions C77_zero_grid_is_overwritten.
Print Assumptions C77_set_zeros_sets_the_sum.
Print Assumptions C77_amounts_are_doubled.
