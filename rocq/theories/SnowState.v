(** * pysnobal/point/snow_state.py, class SnowState *)
From Coq Require Import ZArith Bool List String.
Import ListNotations.
From Verif Require Import Num Constants Functions.
Open Scope num_scope.

(** The eight names of SnowState._energy_state (snow_state.py:10-19).  The class
    keeps every name twice: the current value and the running mean "<name>_bar". *)
Record Energy (T : Type) := mkEnergy {
  R_n : T; H_ : T; L_v_E : T; G_ : T; G_0 : T; M_ : T; delta_Q : T; delta_Q_0 : T
}.
Arguments mkEnergy {T}.
Arguments R_n {T}.
Arguments H_ {T}.
Arguments L_v_E {T}.
Arguments G_ {T}.
Arguments G_0 {T}.
Arguments M_ {T}.
Arguments delta_Q {T}.
Arguments delta_Q_0 {T}.

(** The attributes set by SnowState.__init__ (snow_state.py:21-75).
    [en] holds the eight energy attributes, [bar] the eight "_bar" attributes.
    [E_flux] is the attribute E.  [swi_sum] is not initialised by __init__:
    [None] until value_to_bar sets it.  e_s_0, e_s_l and layer_count are cached
    properties of the class: see Cache.v; they are recomputed here. *)
Record SnowState (T : Type) := mkSS {
  h2o_sat : T;
  max_h2o_vol : T;
  rho : T;
  t_s : T;
  t_s_0 : T;
  t_s_l : T;
  z_s : T;
  z_s_0 : T;
  z_s_l : T;
  cc_s_0 : T;
  cc_s_l : T;
  m_s : T;
  m_s_0 : T;
  m_s_l : T;
  h2o : T;
  h2o_max : T;
  h2o_total : T;
  h2o_vol : T;
  en : Energy T;
  bar : Energy T;
  melt : T;
  E_flux : T;
  E_s : T;
  swi : T;
  melt_sum : T;
  E_s_sum : T;
  swi_sum : option T;
  z_0 : T;
  max_z_s_0 : T;
  small_threshold : T
}.
Arguments mkSS {T}.
Arguments h2o_sat {T}.
Arguments max_h2o_vol {T}.
Arguments rho {T}.
Arguments t_s {T}.
Arguments t_s_0 {T}.
Arguments t_s_l {T}.
Arguments z_s {T}.
Arguments z_s_0 {T}.
Arguments z_s_l {T}.
Arguments cc_s_0 {T}.
Arguments cc_s_l {T}.
Arguments m_s {T}.
Arguments m_s_0 {T}.
Arguments m_s_l {T}.
Arguments h2o {T}.
Arguments h2o_max {T}.
Arguments h2o_total {T}.
Arguments h2o_vol {T}.
Arguments en {T}.
Arguments bar {T}.
Arguments melt {T}.
Arguments E_flux {T}.
Arguments E_s {T}.
Arguments swi {T}.
Arguments melt_sum {T}.
Arguments E_s_sum {T}.
Arguments swi_sum {T}.
Arguments z_0 {T}.
Arguments max_z_s_0 {T}.
Arguments small_threshold {T}.

(** Attribute assignment, one setter per attribute. *)
Section Setters.
Context {T : Type}.
Definition set_h2o_sat (v : T) (s : SnowState T) : SnowState T :=
  mkSS v (max_h2o_vol s) (rho s) (t_s s) (t_s_0 s) (t_s_l s) (z_s s) (z_s_0 s) (z_s_l s) (cc_s_0 s) (cc_s_l s) (m_s s) (m_s_0 s) (m_s_l s) (h2o s) (h2o_max s) (h2o_total s) (h2o_vol s) (en s) (bar s) (melt s) (E_flux s) (E_s s) (swi s) (melt_sum s) (E_s_sum s) (swi_sum s) (z_0 s) (max_z_s_0 s) (small_threshold s).
Definition set_max_h2o_vol (v : T) (s : SnowState T) : SnowState T :=
  mkSS (h2o_sat s) v (rho s) (t_s s) (t_s_0 s) (t_s_l s) (z_s s) (z_s_0 s) (z_s_l s) (cc_s_0 s) (cc_s_l s) (m_s s) (m_s_0 s) (m_s_l s) (h2o s) (h2o_max s) (h2o_total s) (h2o_vol s) (en s) (bar s) (melt s) (E_flux s) (E_s s) (swi s) (melt_sum s) (E_s_sum s) (swi_sum s) (z_0 s) (max_z_s_0 s) (small_threshold s).
Definition set_rho (v : T) (s : SnowState T) : SnowState T :=
  mkSS (h2o_sat s) (max_h2o_vol s) v (t_s s) (t_s_0 s) (t_s_l s) (z_s s) (z_s_0 s) (z_s_l s) (cc_s_0 s) (cc_s_l s) (m_s s) (m_s_0 s) (m_s_l s) (h2o s) (h2o_max s) (h2o_total s) (h2o_vol s) (en s) (bar s) (melt s) (E_flux s) (E_s s) (swi s) (melt_sum s) (E_s_sum s) (swi_sum s) (z_0 s) (max_z_s_0 s) (small_threshold s).
Definition set_t_s (v : T) (s : SnowState T) : SnowState T :=
  mkSS (h2o_sat s) (max_h2o_vol s) (rho s) v (t_s_0 s) (t_s_l s) (z_s s) (z_s_0 s) (z_s_l s) (cc_s_0 s) (cc_s_l s) (m_s s) (m_s_0 s) (m_s_l s) (h2o s) (h2o_max s) (h2o_total s) (h2o_vol s) (en s) (bar s) (melt s) (E_flux s) (E_s s) (swi s) (melt_sum s) (E_s_sum s) (swi_sum s) (z_0 s) (max_z_s_0 s) (small_threshold s).
Definition set_t_s_0 (v : T) (s : SnowState T) : SnowState T :=
  mkSS (h2o_sat s) (max_h2o_vol s) (rho s) (t_s s) v (t_s_l s) (z_s s) (z_s_0 s) (z_s_l s) (cc_s_0 s) (cc_s_l s) (m_s s) (m_s_0 s) (m_s_l s) (h2o s) (h2o_max s) (h2o_total s) (h2o_vol s) (en s) (bar s) (melt s) (E_flux s) (E_s s) (swi s) (melt_sum s) (E_s_sum s) (swi_sum s) (z_0 s) (max_z_s_0 s) (small_threshold s).
Definition set_t_s_l (v : T) (s : SnowState T) : SnowState T :=
  mkSS (h2o_sat s) (max_h2o_vol s) (rho s) (t_s s) (t_s_0 s) v (z_s s) (z_s_0 s) (z_s_l s) (cc_s_0 s) (cc_s_l s) (m_s s) (m_s_0 s) (m_s_l s) (h2o s) (h2o_max s) (h2o_total s) (h2o_vol s) (en s) (bar s) (melt s) (E_flux s) (E_s s) (swi s) (melt_sum s) (E_s_sum s) (swi_sum s) (z_0 s) (max_z_s_0 s) (small_threshold s).
Definition set_z_s (v : T) (s : SnowState T) : SnowState T :=
  mkSS (h2o_sat s) (max_h2o_vol s) (rho s) (t_s s) (t_s_0 s) (t_s_l s) v (z_s_0 s) (z_s_l s) (cc_s_0 s) (cc_s_l s) (m_s s) (m_s_0 s) (m_s_l s) (h2o s) (h2o_max s) (h2o_total s) (h2o_vol s) (en s) (bar s) (melt s) (E_flux s) (E_s s) (swi s) (melt_sum s) (E_s_sum s) (swi_sum s) (z_0 s) (max_z_s_0 s) (small_threshold s).
Definition set_z_s_0 (v : T) (s : SnowState T) : SnowState T :=
  mkSS (h2o_sat s) (max_h2o_vol s) (rho s) (t_s s) (t_s_0 s) (t_s_l s) (z_s s) v (z_s_l s) (cc_s_0 s) (cc_s_l s) (m_s s) (m_s_0 s) (m_s_l s) (h2o s) (h2o_max s) (h2o_total s) (h2o_vol s) (en s) (bar s) (melt s) (E_flux s) (E_s s) (swi s) (melt_sum s) (E_s_sum s) (swi_sum s) (z_0 s) (max_z_s_0 s) (small_threshold s).
Definition set_z_s_l (v : T) (s : SnowState T) : SnowState T :=
  mkSS (h2o_sat s) (max_h2o_vol s) (rho s) (t_s s) (t_s_0 s) (t_s_l s) (z_s s) (z_s_0 s) v (cc_s_0 s) (cc_s_l s) (m_s s) (m_s_0 s) (m_s_l s) (h2o s) (h2o_max s) (h2o_total s) (h2o_vol s) (en s) (bar s) (melt s) (E_flux s) (E_s s) (swi s) (melt_sum s) (E_s_sum s) (swi_sum s) (z_0 s) (max_z_s_0 s) (small_threshold s).
Definition set_cc_s_0 (v : T) (s : SnowState T) : SnowState T :=
  mkSS (h2o_sat s) (max_h2o_vol s) (rho s) (t_s s) (t_s_0 s) (t_s_l s) (z_s s) (z_s_0 s) (z_s_l s) v (cc_s_l s) (m_s s) (m_s_0 s) (m_s_l s) (h2o s) (h2o_max s) (h2o_total s) (h2o_vol s) (en s) (bar s) (melt s) (E_flux s) (E_s s) (swi s) (melt_sum s) (E_s_sum s) (swi_sum s) (z_0 s) (max_z_s_0 s) (small_threshold s).
Definition set_cc_s_l (v : T) (s : SnowState T) : SnowState T :=
  mkSS (h2o_sat s) (max_h2o_vol s) (rho s) (t_s s) (t_s_0 s) (t_s_l s) (z_s s) (z_s_0 s) (z_s_l s) (cc_s_0 s) v (m_s s) (m_s_0 s) (m_s_l s) (h2o s) (h2o_max s) (h2o_total s) (h2o_vol s) (en s) (bar s) (melt s) (E_flux s) (E_s s) (swi s) (melt_sum s) (E_s_sum s) (swi_sum s) (z_0 s) (max_z_s_0 s) (small_threshold s).
Definition set_m_s (v : T) (s : SnowState T) : SnowState T :=
  mkSS (h2o_sat s) (max_h2o_vol s) (rho s) (t_s s) (t_s_0 s) (t_s_l s) (z_s s) (z_s_0 s) (z_s_l s) (cc_s_0 s) (cc_s_l s) v (m_s_0 s) (m_s_l s) (h2o s) (h2o_max s) (h2o_total s) (h2o_vol s) (en s) (bar s) (melt s) (E_flux s) (E_s s) (swi s) (melt_sum s) (E_s_sum s) (swi_sum s) (z_0 s) (max_z_s_0 s) (small_threshold s).
Definition set_m_s_0 (v : T) (s : SnowState T) : SnowState T :=
  mkSS (h2o_sat s) (max_h2o_vol s) (rho s) (t_s s) (t_s_0 s) (t_s_l s) (z_s s) (z_s_0 s) (z_s_l s) (cc_s_0 s) (cc_s_l s) (m_s s) v (m_s_l s) (h2o s) (h2o_max s) (h2o_total s) (h2o_vol s) (en s) (bar s) (melt s) (E_flux s) (E_s s) (swi s) (melt_sum s) (E_s_sum s) (swi_sum s) (z_0 s) (max_z_s_0 s) (small_threshold s).
Definition set_m_s_l (v : T) (s : SnowState T) : SnowState T :=
  mkSS (h2o_sat s) (max_h2o_vol s) (rho s) (t_s s) (t_s_0 s) (t_s_l s) (z_s s) (z_s_0 s) (z_s_l s) (cc_s_0 s) (cc_s_l s) (m_s s) (m_s_0 s) v (h2o s) (h2o_max s) (h2o_total s) (h2o_vol s) (en s) (bar s) (melt s) (E_flux s) (E_s s) (swi s) (melt_sum s) (E_s_sum s) (swi_sum s) (z_0 s) (max_z_s_0 s) (small_threshold s).
Definition set_h2o (v : T) (s : SnowState T) : SnowState T :=
  mkSS (h2o_sat s) (max_h2o_vol s) (rho s) (t_s s) (t_s_0 s) (t_s_l s) (z_s s) (z_s_0 s) (z_s_l s) (cc_s_0 s) (cc_s_l s) (m_s s) (m_s_0 s) (m_s_l s) v (h2o_max s) (h2o_total s) (h2o_vol s) (en s) (bar s) (melt s) (E_flux s) (E_s s) (swi s) (melt_sum s) (E_s_sum s) (swi_sum s) (z_0 s) (max_z_s_0 s) (small_threshold s).
Definition set_h2o_max (v : T) (s : SnowState T) : SnowState T :=
  mkSS (h2o_sat s) (max_h2o_vol s) (rho s) (t_s s) (t_s_0 s) (t_s_l s) (z_s s) (z_s_0 s) (z_s_l s) (cc_s_0 s) (cc_s_l s) (m_s s) (m_s_0 s) (m_s_l s) (h2o s) v (h2o_total s) (h2o_vol s) (en s) (bar s) (melt s) (E_flux s) (E_s s) (swi s) (melt_sum s) (E_s_sum s) (swi_sum s) (z_0 s) (max_z_s_0 s) (small_threshold s).
Definition set_h2o_total (v : T) (s : SnowState T) : SnowState T :=
  mkSS (h2o_sat s) (max_h2o_vol s) (rho s) (t_s s) (t_s_0 s) (t_s_l s) (z_s s) (z_s_0 s) (z_s_l s) (cc_s_0 s) (cc_s_l s) (m_s s) (m_s_0 s) (m_s_l s) (h2o s) (h2o_max s) v (h2o_vol s) (en s) (bar s) (melt s) (E_flux s) (E_s s) (swi s) (melt_sum s) (E_s_sum s) (swi_sum s) (z_0 s) (max_z_s_0 s) (small_threshold s).
Definition set_h2o_vol (v : T) (s : SnowState T) : SnowState T :=
  mkSS (h2o_sat s) (max_h2o_vol s) (rho s) (t_s s) (t_s_0 s) (t_s_l s) (z_s s) (z_s_0 s) (z_s_l s) (cc_s_0 s) (cc_s_l s) (m_s s) (m_s_0 s) (m_s_l s) (h2o s) (h2o_max s) (h2o_total s) v (en s) (bar s) (melt s) (E_flux s) (E_s s) (swi s) (melt_sum s) (E_s_sum s) (swi_sum s) (z_0 s) (max_z_s_0 s) (small_threshold s).
Definition set_en (v : Energy T) (s : SnowState T) : SnowState T :=
  mkSS (h2o_sat s) (max_h2o_vol s) (rho s) (t_s s) (t_s_0 s) (t_s_l s) (z_s s) (z_s_0 s) (z_s_l s) (cc_s_0 s) (cc_s_l s) (m_s s) (m_s_0 s) (m_s_l s) (h2o s) (h2o_max s) (h2o_total s) (h2o_vol s) v (bar s) (melt s) (E_flux s) (E_s s) (swi s) (melt_sum s) (E_s_sum s) (swi_sum s) (z_0 s) (max_z_s_0 s) (small_threshold s).
Definition set_bar (v : Energy T) (s : SnowState T) : SnowState T :=
  mkSS (h2o_sat s) (max_h2o_vol s) (rho s) (t_s s) (t_s_0 s) (t_s_l s) (z_s s) (z_s_0 s) (z_s_l s) (cc_s_0 s) (cc_s_l s) (m_s s) (m_s_0 s) (m_s_l s) (h2o s) (h2o_max s) (h2o_total s) (h2o_vol s) (en s) v (melt s) (E_flux s) (E_s s) (swi s) (melt_sum s) (E_s_sum s) (swi_sum s) (z_0 s) (max_z_s_0 s) (small_threshold s).
Definition set_melt (v : T) (s : SnowState T) : SnowState T :=
  mkSS (h2o_sat s) (max_h2o_vol s) (rho s) (t_s s) (t_s_0 s) (t_s_l s) (z_s s) (z_s_0 s) (z_s_l s) (cc_s_0 s) (cc_s_l s) (m_s s) (m_s_0 s) (m_s_l s) (h2o s) (h2o_max s) (h2o_total s) (h2o_vol s) (en s) (bar s) v (E_flux s) (E_s s) (swi s) (melt_sum s) (E_s_sum s) (swi_sum s) (z_0 s) (max_z_s_0 s) (small_threshold s).
Definition set_E_flux (v : T) (s : SnowState T) : SnowState T :=
  mkSS (h2o_sat s) (max_h2o_vol s) (rho s) (t_s s) (t_s_0 s) (t_s_l s) (z_s s) (z_s_0 s) (z_s_l s) (cc_s_0 s) (cc_s_l s) (m_s s) (m_s_0 s) (m_s_l s) (h2o s) (h2o_max s) (h2o_total s) (h2o_vol s) (en s) (bar s) (melt s) v (E_s s) (swi s) (melt_sum s) (E_s_sum s) (swi_sum s) (z_0 s) (max_z_s_0 s) (small_threshold s).
Definition set_E_s (v : T) (s : SnowState T) : SnowState T :=
  mkSS (h2o_sat s) (max_h2o_vol s) (rho s) (t_s s) (t_s_0 s) (t_s_l s) (z_s s) (z_s_0 s) (z_s_l s) (cc_s_0 s) (cc_s_l s) (m_s s) (m_s_0 s) (m_s_l s) (h2o s) (h2o_max s) (h2o_total s) (h2o_vol s) (en s) (bar s) (melt s) (E_flux s) v (swi s) (melt_sum s) (E_s_sum s) (swi_sum s) (z_0 s) (max_z_s_0 s) (small_threshold s).
Definition set_swi (v : T) (s : SnowState T) : SnowState T :=
  mkSS (h2o_sat s) (max_h2o_vol s) (rho s) (t_s s) (t_s_0 s) (t_s_l s) (z_s s) (z_s_0 s) (z_s_l s) (cc_s_0 s) (cc_s_l s) (m_s s) (m_s_0 s) (m_s_l s) (h2o s) (h2o_max s) (h2o_total s) (h2o_vol s) (en s) (bar s) (melt s) (E_flux s) (E_s s) v (melt_sum s) (E_s_sum s) (swi_sum s) (z_0 s) (max_z_s_0 s) (small_threshold s).
Definition set_melt_sum (v : T) (s : SnowState T) : SnowState T :=
  mkSS (h2o_sat s) (max_h2o_vol s) (rho s) (t_s s) (t_s_0 s) (t_s_l s) (z_s s) (z_s_0 s) (z_s_l s) (cc_s_0 s) (cc_s_l s) (m_s s) (m_s_0 s) (m_s_l s) (h2o s) (h2o_max s) (h2o_total s) (h2o_vol s) (en s) (bar s) (melt s) (E_flux s) (E_s s) (swi s) v (E_s_sum s) (swi_sum s) (z_0 s) (max_z_s_0 s) (small_threshold s).
Definition set_E_s_sum (v : T) (s : SnowState T) : SnowState T :=
  mkSS (h2o_sat s) (max_h2o_vol s) (rho s) (t_s s) (t_s_0 s) (t_s_l s) (z_s s) (z_s_0 s) (z_s_l s) (cc_s_0 s) (cc_s_l s) (m_s s) (m_s_0 s) (m_s_l s) (h2o s) (h2o_max s) (h2o_total s) (h2o_vol s) (en s) (bar s) (melt s) (E_flux s) (E_s s) (swi s) (melt_sum s) v (swi_sum s) (z_0 s) (max_z_s_0 s) (small_threshold s).
Definition set_swi_sum (v : option T) (s : SnowState T) : SnowState T :=
  mkSS (h2o_sat s) (max_h2o_vol s) (rho s) (t_s s) (t_s_0 s) (t_s_l s) (z_s s) (z_s_0 s) (z_s_l s) (cc_s_0 s) (cc_s_l s) (m_s s) (m_s_0 s) (m_s_l s) (h2o s) (h2o_max s) (h2o_total s) (h2o_vol s) (en s) (bar s) (melt s) (E_flux s) (E_s s) (swi s) (melt_sum s) (E_s_sum s) v (z_0 s) (max_z_s_0 s) (small_threshold s).
Definition set_z_0 (v : T) (s : SnowState T) : SnowState T :=
  mkSS (h2o_sat s) (max_h2o_vol s) (rho s) (t_s s) (t_s_0 s) (t_s_l s) (z_s s) (z_s_0 s) (z_s_l s) (cc_s_0 s) (cc_s_l s) (m_s s) (m_s_0 s) (m_s_l s) (h2o s) (h2o_max s) (h2o_total s) (h2o_vol s) (en s) (bar s) (melt s) (E_flux s) (E_s s) (swi s) (melt_sum s) (E_s_sum s) (swi_sum s) v (max_z_s_0 s) (small_threshold s).
Definition set_max_z_s_0 (v : T) (s : SnowState T) : SnowState T :=
  mkSS (h2o_sat s) (max_h2o_vol s) (rho s) (t_s s) (t_s_0 s) (t_s_l s) (z_s s) (z_s_0 s) (z_s_l s) (cc_s_0 s) (cc_s_l s) (m_s s) (m_s_0 s) (m_s_l s) (h2o s) (h2o_max s) (h2o_total s) (h2o_vol s) (en s) (bar s) (melt s) (E_flux s) (E_s s) (swi s) (melt_sum s) (E_s_sum s) (swi_sum s) (z_0 s) v (small_threshold s).
Definition set_small_threshold (v : T) (s : SnowState T) : SnowState T :=
  mkSS (h2o_sat s) (max_h2o_vol s) (rho s) (t_s s) (t_s_0 s) (t_s_l s) (z_s s) (z_s_0 s) (z_s_l s) (cc_s_0 s) (cc_s_l s) (m_s s) (m_s_0 s) (m_s_l s) (h2o s) (h2o_max s) (h2o_total s) (h2o_vol s) (en s) (bar s) (melt s) (E_flux s) (E_s s) (swi s) (melt_sum s) (E_s_sum s) (swi_sum s) (z_0 s) (max_z_s_0 s) v.
End Setters.

Section SnowStateMethods.
Context {T : Type} {N : Num T}.

Definition zero_energy : Energy T := mkEnergy (#0) (#0) (#0) (#0) (#0) (#0) (#0) (#0).

(** snow_state.py:21-75 __init__ with init = 0 *)
Definition snow_state_init (max_z small_thr : T) : SnowState T :=
  mkSS (#0) (#0) (#0) (#0) (#0) (#0) (#0) (#0) (#0) (#0) (#0) (#0) (#0) (#0) (#0) (#0) (#0) (#0)
       zero_energy zero_energy (#0) (#0) (#0) (#0) (#0) (#0) None (cst 5 100) max_z small_thr.

(** snow_state.py:151-157 layer_count (recomputed) *)
Definition layer_count (s : SnowState T) : nat :=
  ((if (#0 <? z_s_0 s)%num then 1 else 0) + (if (#0 <? z_s_l s)%num then 1 else 0))%nat.

(** snow_state.py:143-145 snowcover *)
Definition has_snow (s : SnowState T) : bool := (0 <? layer_count s)%nat.

(** snow_state.py:147-149 cc_s *)
Definition cc_s (s : SnowState T) : T := cc_s_0 s + cc_s_l s.

(** snow_state.py:139-141 isothermal *)
Definition isothermal (s : SnowState T) : bool := cc_s s =? #0.

(** snow_state.py:159-187 adjust_layer_temps *)
Definition adjust_layer_temps (s : SnowState T) : result (SnowState T) :=
  if (layer_count s =? 1)%nat then
    let* t := new_tsno (m_s_0 s) (t_s_0 s) (cc_s_0 s) in
    Ok (set_t_s t (set_t_s_0 t s))
  else if (layer_count s =? 2)%nat then
    if isothermal s then
      Ok (set_t_s_0 FREEZE (set_t_s_l FREEZE (set_t_s FREEZE s)))
    else
      let* t0 := new_tsno (m_s_0 s) (t_s_0 s) (cc_s_0 s) in
      let* tl := new_tsno (m_s_l s) (t_s_l s) (cc_s_l s) in
      let* t := new_tsno (m_s s) (t_s s) (cc_s s) in
      Ok (set_t_s t (set_t_s_l tl (set_t_s_0 t0 s)))
  else Ok s.

(** snow_state.py:189-202 dry_snow_density *)
Definition dry_snow_density (s : SnowState T) : result T :=
  pdiv (rho s - h2o_vol s * RHO_W0) (#1 - h2o_vol s * RHO_W0 / RHO_ICE).

(** snow_state.py:204-215 kts *)
Definition kts (s : SnowState T) : T :=
  CAL_TO_J * cst 77 10000 * (rho s / #1000) * (rho s / #1000).

(** snow_state.py:217-226 value_to_bar *)
Definition value_to_bar (s : SnowState T) : SnowState T :=
  set_swi_sum (Some (swi s)) (set_melt_sum (melt s) (set_E_s_sum (E_s s) (set_bar (en s) s))).

(** snow_state.py:236-241: the loop over _energy_state *)
Definition average_energy (b v : Energy T) (total incr : T) : result (Energy T) :=
  let ta x y := time_average x total y incr in
  let* a1 := ta (R_n b) (R_n v) in
  let* a2 := ta (H_ b) (H_ v) in
  let* a3 := ta (L_v_E b) (L_v_E v) in
  let* a4 := ta (G_ b) (G_ v) in
  let* a5 := ta (G_0 b) (G_0 v) in
  let* a6 := ta (M_ b) (M_ v) in
  let* a7 := ta (delta_Q b) (delta_Q v) in
  let* a8 := ta (delta_Q_0 b) (delta_Q_0 v) in
  Ok (mkEnergy a1 a2 a3 a4 a5 a6 a7 a8).

(** snow_state.py:228-245 time_average *)
Definition ss_time_average (s : SnowState T) (time_since_out time_step : T) : result (SnowState T) :=
  let* b := average_energy (bar s) (en s) time_since_out time_step in
  match swi_sum s with
  | None => Err AttributeError
  | Some w =>
      Ok (set_swi_sum (Some (w + swi s))
           (set_melt_sum (melt_sum s + melt s)
             (set_E_s_sum (E_s_sum s + E_s s) (set_bar b s))))
  end.

(** snow_state.py:247-255 layer_mass *)
Definition layer_mass (s : SnowState T) : SnowState T :=
  set_m_s_l (rho s * z_s_l s) (set_m_s_0 (rho s * z_s_0 s) s).

(** snow_state.py:257-291 calc_layers *)
Definition calc_layers (s : SnowState T) : SnowState T :=
  let '(z0, zl) :=
    if m_s s <=? small_threshold s then (#0, #0)
    else
      let zl := z_s s - max_z_s_0 s in
      let z0 := if #0 <? zl then max_z_s_0 s else z_s s in
      let zl := if #0 <? zl then zl else #0 in
      if zl * rho s <? small_threshold s then (z_s s, #0) else (z0, zl) in
  set_z_s_l zl (set_z_s_0 z0 (set_z_s (z0 + zl) s)).

End SnowStateMethods.
