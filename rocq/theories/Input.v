(** * pysnobal/point/input.py *)
From Coq Require Import ZArith Bool String List.
Import ListNotations.
From Verif Require Import Num Constants Functions Libsnobal.
Open Scope num_scope.

(** The dict passed to InputData.__init__ (input.py:49-58). *)
Record RawInput (T : Type) := mkRaw {
  r_S_n : T; r_I_lw : T; r_t_a : T; r_e_a : T; r_u : T; r_t_g : T;
  r_m_pp : T; r_percent_snow : T; r_rho_snow : T; r_t_pp : T
}.
Arguments mkRaw {T}.
Arguments r_S_n {T}. Arguments r_I_lw {T}. Arguments r_t_a {T}. Arguments r_e_a {T}.
Arguments r_u {T}. Arguments r_t_g {T}. Arguments r_m_pp {T}. Arguments r_percent_snow {T}.
Arguments r_rho_snow {T}. Arguments r_t_pp {T}.

(** Attributes of an InputData object (input.py:47-70).  The lazily cached
    sat_vp / e_g (input.py:72-114) are modelled in Cache.v, where reading them
    is proved to be the same as recomputing sati(t_a) / sati(t_g); here they
    are recomputed. *)
Record InputData (T : Type) := mkInput {
  i_S_n : T; i_I_lw : T; i_t_a : T; i_e_a : T; i_u : T; i_t_g : T;
  i_m_pp : T; i_percent_snow : T; i_rho_snow : T; i_t_pp : T;
  i_m_snow : T; i_m_rain : T; i_z_snow : T; i_h2o_sat_snow : T;
  i_t_rain : T; i_t_snow : T; i_precip_now : bool
}.
Arguments mkInput {T}.
Arguments i_S_n {T}. Arguments i_I_lw {T}. Arguments i_t_a {T}. Arguments i_e_a {T}.
Arguments i_u {T}. Arguments i_t_g {T}. Arguments i_m_pp {T}. Arguments i_percent_snow {T}.
Arguments i_rho_snow {T}. Arguments i_t_pp {T}. Arguments i_m_snow {T}. Arguments i_m_rain {T}.
Arguments i_z_snow {T}. Arguments i_h2o_sat_snow {T}. Arguments i_t_rain {T}.
Arguments i_t_snow {T}. Arguments i_precip_now {T}.

Section Input.
Context {T : Type} {N : Num T}.

(** input.py:47-70 __init__ with input_delta=False (the only value ever passed)
    followed by input.py:116-159 precipitation_inputs. *)
Definition input_data (d : RawInput T) : result (InputData T) :=
  let m_snow := r_m_pp d * r_percent_snow d in
  let m_rain := r_m_pp d - m_snow in
  let mk t_pp z_snow h2o_sat t_rain t_snow now :=
    mkInput (r_S_n d) (r_I_lw d) (r_t_a d) (r_e_a d) (r_u d) (r_t_g d)
            (r_m_pp d) (r_percent_snow d) (r_rho_snow d) t_pp
            m_snow m_rain z_snow h2o_sat t_rain t_snow now in
  if #0 <? r_m_pp d then
    let* z_snow :=
      (if #0 <? m_snow then
         if #0 <? r_rho_snow d then Ok (m_snow / r_rho_snow d)
         else Err (ValueError "rho_snow is <= 0.0 with percent_snow > 0.0")
       else Ok (#0)) in
    let t_pp := if (#0 <? m_rain) && (r_t_pp d <? FREEZE) then FREEZE else r_t_pp d in
    if (#0 <? m_snow) && (#0 <? m_rain) then
      Ok (mk t_pp z_snow (#1) t_pp FREEZE true)
    else if #0 <? m_snow then
      if t_pp <? FREEZE then Ok (mk t_pp z_snow (#0) (#0) t_pp true)
      else Ok (mk t_pp z_snow (#1) (#0) FREEZE true)
    else if #0 <? m_rain then
      Ok (mk t_pp z_snow (#0) t_pp (#0) true)
    else Ok (mk t_pp z_snow (#0) (#0) (#0) true)
  else Ok (mk (r_t_pp d) (#0) (#0) (#0) (#0) false).

(** input.py:173-179 update_precip_deltas *)
Definition update_precip_deltas (i d : InputData T) : InputData T :=
  mkInput (i_S_n i) (i_I_lw i) (i_t_a i) (i_e_a i) (i_u i) (i_t_g i)
          (i_m_pp d) (i_percent_snow i) (i_rho_snow i) (i_t_pp i)
          (i_m_snow d) (i_m_rain d) (i_z_snow d) (i_h2o_sat_snow i)
          (i_t_rain i) (i_t_snow i) (i_precip_now i).

(** input.py:161-171 add_deltas *)
Definition add_deltas (i d : InputData T) : InputData T :=
  update_precip_deltas
    (mkInput (i_S_n i + i_S_n d) (i_I_lw i + i_I_lw d) (i_t_a i + i_t_a d)
             (i_e_a i + i_e_a d) (i_u i + i_u d) (i_t_g i + i_t_g d)
             (i_m_pp i) (i_percent_snow i) (i_rho_snow i) (i_t_pp i)
             (i_m_snow i) (i_m_rain i) (i_z_snow i) (i_h2o_sat_snow i)
             (i_t_rain i) (i_t_snow i) (i_precip_now i)) d.

(** self.input1.e_a = ... (snobal.py:1056) *)
Definition set_e_a (v : T) (i : InputData T) : InputData T :=
  mkInput (i_S_n i) (i_I_lw i) (i_t_a i) v (i_u i) (i_t_g i)
          (i_m_pp i) (i_percent_snow i) (i_rho_snow i) (i_t_pp i)
          (i_m_snow i) (i_m_rain i) (i_z_snow i) (i_h2o_sat_snow i)
          (i_t_rain i) (i_t_snow i) (i_precip_now i).

(** input.py:195-211, the body of the loop of InputDeltas.calculate for one time
    step level with [n] = tstep['intervals_per_timestep'].  The dict entries
    m_snow, m_rain, z_snow, t_rain, t_snow it also computes are ignored by
    InputData.__init__ (which re-derives them) and therefore left out. *)
Definition level_deltas (i1 i2 : InputData T) (n : Z) : result (InputData T) :=
  let q x := pdiv x (#n) in
  let* dS := q (i_S_n i2 - i_S_n i1) in
  let* dI := q (i_I_lw i2 - i_I_lw i1) in
  let* dta := q (i_t_a i2 - i_t_a i1) in
  let* dea := q (i_e_a i2 - i_e_a i1) in
  let* du := q (i_u i2 - i_u i1) in
  let* dtg := q (i_t_g i2 - i_t_g i1) in
  let* dm := q (i_m_pp i1) in
  input_data (mkRaw dS dI dta dea du dtg dm (i_percent_snow i1) (i_rho_snow i1) (i_t_pp i1)).

End Input.
