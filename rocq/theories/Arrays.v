(** * The array versions of the saturation vapour pressure (libsnobal.py:30-80)

    A numpy array of floats is a list of entries (of an array of any shape the entries in memory order: a boolean
    mask of the array's shape selects entries in that order); [None] is the entry nan.  Arithmetic on arrays is entry by
    entry, nan giving nan and comparisons with nan false.  "a[mask] = v" writes into the array the
    caller passed; "a[mask]" on the right is a copy; np.empty gives an array of arbitrary entries.
    Numpy divisions do not raise: an entry 0 gives inf, which is not modelled (the theorems exclude it). *)
From Coq Require Import ZArith Bool List.
Import ListNotations.
From Verif Require Import Num Constants Libsnobal.
Open Scope num_scope.

Section Arrays.
Context {T : Type} {N : Num T}.

Definition Entries : Type := list (option T).

(** array < number, array > number *)
Definition less (c : T) (e : option T) : bool := match e with Some v => v <? c | None => false end.
Definition greater (c : T) (e : option T) : bool := match e with Some v => c <? v | None => false end.

(** a[mask] = v *)
Definition assign (mask : list bool) (v : option T) (a : Entries) : Entries :=
  map (fun me => if fst me : bool then v else snd me) (combine mask a).
(** a[mask] *)
Definition select (mask : list bool) (a : Entries) : Entries := map snd (filter fst (combine mask a)).
(** a[mask] = b, for an array b with one entry per True of the mask *)
Fixpoint put (mask : list bool) (b a : Entries) : Entries :=
  match mask, a with
  | true :: mask, _ :: a => match b with x :: b => x :: put mask b a | [] => [] end
  | false :: mask, e :: a => e :: put mask b a
  | _, _ => []
  end.

(** libsnobal.py:40-49, the formula, on one entry *)
Definition satw_entry (tk : T) : T :=
  let btk := BOIL / tk in
  let x := cst (-790298) 100000 * (btk - #1)
           + cst 502808 100000 * nln btk / LOG_10
           - cst 13816 100000000000 * (npow (#10) (cst 11344 1000 * (#1 - tk / BOIL)) - #1)
           + cst 81328 10000000 * (npow (#10) (cst (-349149) 100000 * (btk - #1)) - #1)
           + LOG_SEA_LEVEL / LOG_10 in
  npow (#10) x.
(** libsnobal.py:75-78, the formula, on one entry *)
Definition sati_entry (tk : T) : T :=
  #100 * npow (#10)
    (cst (-909718) 100000 * (FREEZE / tk - #1)
     - cst 356654 100000 * nln (FREEZE / tk) / LOG_10
     + cst 876793 1000000 * (#1 - tk / FREEZE)
     + nln (cst 61071 10000) / LOG_10).

(** libsnobal.py:30-51 satw_np: the value returned and the argument afterwards *)
Definition satw_np (tk : Entries) : Entries * Entries :=
  let tk := assign (map (less (#0)) tk) None tk in
  (map (option_map satw_entry) tk, tk).

(** libsnobal.py:54-80 sati_np; [empty] is what np.empty(tk.shape) finds in memory *)
Definition sati_np (empty tk : Entries) : Entries * Entries :=
  let tk := assign (map (less (#0)) tk) None tk in
  let ind := map (greater FREEZE) tk in
  let x := put ind (fst (satw_np (select ind tk))) empty in
  let x := put (map negb ind) (map (option_map sati_entry) (select (map negb ind) tk)) x in
  (x, tk).

End Arrays.
