(** * pysnobal/point/snobal.py, class Snobal *)
From Coq Require Import ZArith Bool List String.
Import ListNotations.
From Verif Require Import Num Constants Functions Libsnobal Input SnowState.
Open Scope num_scope.

(** One entry of tstep_info (pysnobal.py:133-168).  The key 'output' is never
    read by Snobal and left out.  [ts_minutes] is time_step_timedelta. *)
Record TStep (T : Type) := mkTStep {
  ts_level : Z; ts_threshold : T; ts_time_step : Z; ts_minutes : Z;
  ts_intervals : Z; ts_per_timestep : Z
}.
Arguments mkTStep {T}. Arguments ts_level {T}. Arguments ts_threshold {T}.
Arguments ts_time_step {T}. Arguments ts_minutes {T}. Arguments ts_intervals {T}.
Arguments ts_per_timestep {T}.

(** The params dict (pysnobal.py:198-210); dates are minutes. *)
Record Params (T : Type) := mkParams {
  p_elevation : T; p_start_date : Z; p_max_h2o_vol : T; p_max_z_s_0 : T;
  p_relative_heights : bool
}.
Arguments mkParams {T}. Arguments p_elevation {T}. Arguments p_start_date {T}.
Arguments p_max_h2o_vol {T}. Arguments p_max_z_s_0 {T}. Arguments p_relative_heights {T}.

(** config['measurement_heights'] *)
Record Heights (T : Type) := mkHeights { mh_z_u : T; mh_z_t : T; mh_z_g : T }.
Arguments mkHeights {T}. Arguments mh_z_u {T}. Arguments mh_z_t {T}. Arguments mh_z_g {T}.

(** config['initial_snow_properties']: the six keys of pysnobal_core_config.ini:161-194 *)
Record InitSnow (T : Type) := mkInitSnow {
  is_z_s : T; is_rho : T; is_t_s_0 : T; is_t_s : T; is_h2o_sat : T; is_z_0 : T
}.
Arguments mkInitSnow {T}. Arguments is_z_s {T}. Arguments is_rho {T}. Arguments is_t_s_0 {T}.
Arguments is_t_s {T}. Arguments is_h2o_sat {T}. Arguments is_z_0 {T}.

(** Attributes of Snobal that never change after __init__ (snobal.py:35-61). *)
Record Env (T : Type) := mkEnv {
  ev_tstep_info : list (TStep T); ev_P_a : T; ev_heights : Heights T;
  ev_relative_hts : bool; ev_output_divided : bool
}.
Arguments mkEnv {T}. Arguments ev_tstep_info {T}. Arguments ev_P_a {T}.
Arguments ev_heights {T}. Arguments ev_relative_hts {T}. Arguments ev_output_divided {T}.

(** One element of output_list: the date and a snapshot of the snow state (the
    dict of snobal.py:1275-1277 holds a selection of its attributes). *)
Record OutRec (T : Type) := mkOut { o_date : Z; o_state : SnowState T }.
Arguments mkOut {T}. Arguments o_date {T}. Arguments o_state {T}.

(** Ghost: one executed run step.  Not part of the code, never read by it. *)
Record Event (T : Type) := mkEvent {
  e_tstep : TStep T;            (* the level it ran at *)
  e_start : Z;                  (* clock when it started *)
  e_input : InputData T;        (* forcing it used (after update_precip_deltas) *)
  e_before : SnowState T;       (* snow state when it started *)
  e_after : SnowState T;        (* snow state after the mass balance *)
  e_kept : bool                 (* self.snowcover at the end of the mass balance *)
}.
Arguments mkEvent {T}. Arguments e_tstep {T}. Arguments e_start {T}. Arguments e_input {T}.
Arguments e_before {T}. Arguments e_after {T}. Arguments e_kept {T}.

(** Attributes of Snobal that persist from one data step to the next.
    [c_trace] is ghost (oldest first). *)
Record Core (T : Type) := mkCore {
  c_ss : SnowState T; c_datetime : Z; c_time_since_out : Z;
  c_outputs : list (OutRec T); c_hle1_init : option T * option T;
  c_trace : list (Event T)
}.
Arguments mkCore {T}. Arguments c_ss {T}. Arguments c_datetime {T}.
Arguments c_time_since_out {T}. Arguments c_outputs {T}. Arguments c_hle1_init {T}.
Arguments c_trace {T}.

(** The pair (self.snow_state, self.snowcover) the mass-balance routines mutate. *)
Definition Pack (T : Type) : Type := (SnowState T * bool)%type.

Section Snobal.
Context {T : Type} {N : Num T}.

(** snobal.py:1226-1243 cold_content *)
Definition cold_content (temp mass : T) : T :=
  if temp <? FREEZE then heat_stor (cp_ice temp) mass (temp - FREEZE) else #0.

(** snobal.py:1122-1200 init_snow *)
Definition init_snow (s : SnowState T) : result (SnowState T) :=
  let s := set_m_s (rho s * z_s s) s in
  let s := calc_layers s in
  if (layer_count s =? 0)%nat then
    let s := if #0 <? m_s s then set_h2o_total (h2o_total s + m_s s) s else s in
    let s := set_rho (#0) (set_m_s (#0) (set_m_s_0 (#0) (set_cc_s_0 (#0) (set_m_s_l (#0)
             (set_cc_s_l (#0) (set_h2o_vol (#0) (set_h2o (#0) (set_h2o_max (#0)
             (set_h2o_sat (#0) s))))))))) in
    Ok (set_t_s_l NO_SNOW_TEMP (set_t_s_0 NO_SNOW_TEMP (set_t_s NO_SNOW_TEMP s)))
  else
    let s := layer_mass s in
    let s := set_cc_s_0 (cold_content (t_s_0 s) (m_s_0 s)) s in
    let s := if (layer_count s =? 2)%nat
             then set_cc_s_l (cold_content (t_s_l s) (m_s_l s)) s
             else set_cc_s_l (#0) (set_t_s_l NO_SNOW_TEMP s) in
    let s := set_h2o_vol (h2o_sat s * max_h2o_vol s) s in
    let* dry := dry_snow_density s in
    let s := set_h2o_max (h2o_left (z_s s) dry (max_h2o_vol s)) s in
    Ok (set_h2o (h2o_sat s * h2o_max s) s).

(** snobal.py:804-877 adj_layers *)
Definition adj_layers (p : Pack T) : Pack T :=
  let '(s, cover) := p in
  let prev := layer_count s in
  let s := calc_layers s in
  if (layer_count s =? 0)%nat then
    let s := set_rho (#0) s in
    let s := if #0 <? m_s s then set_h2o_total (h2o_total s + m_s s) s else s in
    let s := set_h2o_vol (#0) (set_h2o (#0) (set_h2o_max (#0) (set_h2o_sat (#0)
             (set_m_s (#0) (set_m_s_0 (#0) (set_cc_s_0 (#0) s)))))) in
    let s := set_t_s_0 NO_SNOW_TEMP (set_t_s NO_SNOW_TEMP s) in
    let s := if (prev =? 2)%nat
             then set_t_s_l NO_SNOW_TEMP (set_cc_s_l (#0) (set_m_s_l (#0) s))
             else s in
    (s, false)
  else
    let s := layer_mass s in
    let s :=
      if (prev =? 1)%nat && (layer_count s =? 2)%nat then
        let s := set_t_s_l (t_s s) s in
        set_cc_s_l (cold_content (t_s_l s) (m_s_l s)) s
      else if (prev =? 2)%nat && (layer_count s =? 1)%nat then
        set_cc_s_l (#0) (set_t_s_l NO_SNOW_TEMP s)
      else s in
    (s, cover).

(** snobal.py:643-683 adj_snow *)
Definition adj_snow (delta_z delta_m : T) (p : Pack T) : Pack T :=
  let '(s, cover) := p in
  let s := set_m_s (m_s s + delta_m) (set_z_s (z_s s + delta_z) s) in
  let s := if negb (z_s s =? #0) then set_rho (m_s s / z_s s) s else set_rho (#0) s in
  if MAX_SNOW_DENSITY <? rho s then
    let s := set_rho MAX_SNOW_DENSITY s in
    let s := set_z_s (m_s s / rho s) s in
    adj_layers (s, cover)
  else if negb (delta_z =? #0) then adj_layers (s, cover)
  else (layer_mass s, cover).

(** snobal.py:776-795: the proportional density increment (d_rho_m + d_rho_c) *)
Definition compaction_rate (time_step : Z) (m : T) : result T :=
  if SWE_MAX <=? m then Ok (#1)
  else
    let rate := R1 * ncos (npi * m / SWE_MAX) + R2 in
    pdiv rate (#time_step / #3600).

Definition compaction_increment (time_step : Z) (s : SnowState T) : result T :=
  let* rate := compaction_rate time_step (m_s s) in
  let K := if rho s <? #100 then #1 else nexp (cst (-46) 1000 * (rho s - #100)) in
  let d_rho_m := cst 1 100 * K * nexp (cst (-4) 100 * (FREEZE - t_s s)) in
  let* d_rho_m := pdiv d_rho_m rate in
  let d_rho_c := cst 26 1000 * nexp (cst (-8) 100 * (FREEZE - t_s s)) * m_s s
                 * nexp (#(-21) * (rho s / RHO_W0)) in
  let* d_rho_c := pdiv d_rho_c rate in
  Ok (d_rho_m + d_rho_c).

(** snobal.py:685-802 time_compact *)
Definition time_compact (time_step : Z) (p : Pack T) : result (Pack T) :=
  let '(s, cover) := p in
  if negb cover || (RHO_MAX <=? rho s) then Ok p
  else
    let* d := compaction_increment time_step s in
    let s := set_rho (rho s + (d * rho s)) s in
    let* z := pdiv (m_s s) (rho s) in
    Ok (adj_layers (set_z_s z s, cover)).

(** snobal.py:598-640 precip_event *)
Definition precip_event (i : InputData T) (p : Pack T) : result (Pack T) :=
  let '(s, cover) := p in
  if i_precip_now i then
    let* '(s, cover) :=
      (if cover then
         let '(s, cover) := adj_snow (i_z_snow i) (i_m_pp i) (s, cover) in
         let h2o_vol_snow := i_h2o_sat_snow i * max_h2o_vol s in
         Ok (set_h2o (h2o s + h2o_left (i_z_snow i) (i_rho_snow i) h2o_vol_snow) s, cover)
       else if #0 <? i_m_snow i then
         let s := set_h2o_sat (i_h2o_sat_snow i) (set_t_s_l (i_t_snow i) (set_t_s_0 (i_t_snow i)
                  (set_t_s (i_t_snow i) (set_rho (i_rho_snow i) (set_z_s (i_z_snow i) s))))) in
         let* s := init_snow s in
         Ok (s, cover)
       else Ok (s, cover)) in
    Ok (set_h2o_total (h2o_total s + (h2o s + i_m_rain i)) s, cover)
  else Ok (set_h2o_total (h2o_total s + h2o s) s, cover).

(** snobal.py:543-563 and 565-584: re-freezing in one layer of depth [z_layer].
    [Q] is the energy Q_0 / Q_l, [cc] the layer's cold content before; returns
    the mass refrozen in this layer and the new cold content.  Textually the
    code repeats this block for both layers; for the lower layer it is guarded
    by layer_count = 2. *)
Definition refreeze (s : SnowState T) (z_layer Q cc : T) : result (T * T) :=
  if cc <? #0 then
    if #0 <? h2o_total s then
      let* frac := pdiv z_layer (z_s s) in
      let Q_freeze := h2o_total s * frac * lh_fus FREEZE in
      let Q_left := Q + Q_freeze in
      if Q_left <=? #0 then Ok (h2o_total s * frac, Q_left)
      else Ok (h2o_total s * frac - melt_of Q_left, #0)
    else Ok (#0, cc)
  else Ok (#0, cc).

(** snobal.py:490-596 snowmelt *)
Definition snowmelt (time_step : Z) (p : Pack T) : result (Pack T) :=
  let '(s, cover) := p in
  if negb cover then Ok (set_melt (#0) s, cover)
  else
    let Q_0 := (delta_Q_0 (en s) * #time_step) + cc_s_0 s in
    let s :=
      if #0 <? Q_0 then set_cc_s_0 (#0) (set_melt (melt_of Q_0) s)
      else if Q_0 =? #0 then set_cc_s_0 (#0) (set_melt (#0) s)
      else set_cc_s_0 Q_0 (set_melt (#0) s) in
    let '(s, Q_l) :=
      if (layer_count s =? 2)%nat then
        let Q_l := ((G_ (en s) - G_0 (en s)) * #time_step) + cc_s_l s in
        (if #0 <? Q_l then set_cc_s_l (#0) (set_melt (melt s + melt_of Q_l) s)
         else if Q_l =? #0 then set_cc_s_l (#0) s
         else set_cc_s_l Q_l s, Q_l)
      else (s, #0) in
    let s := set_h2o_total (h2o_total s + melt s) s in
    let* '(refrozen_0, cc0) := refreeze s (z_s_0 s) Q_0 (cc_s_0 s) in
    let s := set_cc_s_0 cc0 s in
    let* '(refrozen_l, ccl) :=
      (if (layer_count s =? 2)%nat then refreeze s (z_s_l s) Q_l (cc_s_l s)
       else Ok (#0, cc_s_l s)) in
    let s := set_cc_s_l ccl s in
    let h2o_refrozen := refrozen_0 + refrozen_l in
    let s := if nabs (h2o_total s - h2o_refrozen) <=? cst 1 100000000
             then set_h2o_total (#0) s
             else set_h2o_total (h2o_total s - h2o_refrozen) s in
    if #0 <? melt s then
      let* dz := pdiv (#(-1) * melt s) (rho s) in
      Ok (adj_snow dz (#0) (s, cover))
    else Ok (s, cover).

(** snobal.py:446-449 and 476-479: liquid water after an evaporative loss/gain *)
Definition evap_h2o (h2o_tot e : T) : T :=
  if #0 <? h2o_tot then
    let h := h2o_tot + (e * VAP_SUB) in
    if h <=? #0 then #0 else h
  else h2o_tot.

(** snobal.py:451-473: mass exchanged with the soil during the step *)
Definition soil_evap (P_a z_g : T) (time_step : Z) (i : InputData T) (s : SnowState T)
  : result T :=
  if (layer_count s =? 0)%nat then Ok (#0)
  else
    let* '(e_s, t_bar) :=
      (if (layer_count s =? 2)%nat then
         let* e := sati (t_s_l s) in Ok (e, (i_t_g i + t_s_l s) / #2)
       else
         let* e := sati (t_s_0 s) in Ok (e, (i_t_g i + t_s_0 s) / #2)) in
    let* q_s_l := spec_hum e_s P_a in
    let* e_g := sati (i_t_g i) in
    let* q_g := spec_hum e_g P_a in
    let q_delta := q_g - q_s_l in
    let* rho_air := gas_density P_a MOL_AIR t_bar in
    let* k := diffusion_coef P_a t_bar in
    let* E_l := vapor_flux rho_air k q_delta z_g in
    Ok (E_l * #time_step).

(** snobal.py:409-488 evap_cond *)
Definition evap_cond (P_a z_g : T) (time_step : Z) (i : InputData T) (p : Pack T)
  : result (Pack T) :=
  let '(s, cover) := p in
  if negb cover then Ok (set_E_s (#0) s, cover)
  else
    let E_s_0 := E_flux s * #time_step in
    let prev_h2o_tot := h2o_total s in
    let s := set_h2o_total (evap_h2o (h2o_total s) E_s_0) s in
    let* E_s_l := soil_evap P_a z_g time_step i s in
    let s := if (layer_count s =? 0)%nat then s
             else set_h2o_total (evap_h2o (h2o_total s) E_s_l) s in
    let s := set_E_s (E_s_0 + E_s_l) s in
    if has_snow s then
      let* q := pdiv (E_s s + prev_h2o_tot - h2o_total s) (rho s) in
      Ok (adj_snow (q / #2) (E_s s) (s, cover))
    else Ok (s, cover).

(** snobal.py:349-406 h2o_compact *)
Definition h2o_compact (i : InputData T) (p : Pack T) : result (Pack T) :=
  let '(s, cover) := p in
  if negb cover || (H2O_MAX_DENSITY <? rho s) then Ok p
  else
    let A := H2O_MAX_DENSITY - rho s in
    let* h2o_added := (if i_precip_now i then pdiv (melt s + i_m_rain i) (m_s s)
                       else pdiv (melt s) (m_s s)) in
    if cst 1 1000000 <? h2o_added then
      let s := set_rho (rho s + A / (#1 + H2O_B / h2o_added)) s in
      let* z := pdiv (m_s s) (rho s) in
      Ok (adj_layers (set_z_s z s, cover))
    else Ok (s, cover).

(** snobal.py:311-347 runoff *)
Definition runoff (p : Pack T) : result (Pack T) :=
  let '(s, cover) := p in
  if negb cover || (layer_count s =? 0)%nat then Ok (set_swi (h2o_total s) s, cover)
  else
    let m_s_dry := m_s s - h2o_total s in
    let* rho_dry := pdiv m_s_dry (z_s s) in
    let s := set_h2o_max (h2o_left (z_s s) rho_dry (max_h2o_vol s)) s in
    if h2o_max s <? h2o_total s then
      let s := set_swi (h2o_total s - h2o_max s) s in
      let s := set_h2o_vol (max_h2o_vol s) (set_h2o_sat (#1) (set_h2o (h2o_max s) s)) in
      Ok (adj_snow (#0) (#0 - swi s) (s, cover))
    else
      let s := set_h2o (h2o_total s) (set_swi (#0) s) in
      let* sat := pdiv (h2o s) (h2o_max s) in
      Ok (set_h2o_vol (sat * max_h2o_vol s) (set_h2o_sat sat s), cover).

(** snobal.py:281-309 mass_balance *)
Definition mass_balance (P_a z_g : T) (time_step : Z) (i : InputData T) (p : Pack T)
  : result (Pack T) :=
  let* p := time_compact time_step p in
  let* p := precip_event i p in
  let* p := snowmelt time_step p in
  let* p := evap_cond P_a z_g time_step i p in
  let* p := h2o_compact i p in
  let* p := runoff p in
  if snd p then let* s := adjust_layer_temps (fst p) in Ok (s, snd p) else Ok p.

(** snobal.py:922-929 net_radiation *)
Definition net_radiation (i : InputData T) (s : SnowState T) : T :=
  i_S_n i + (SNOW_EMISSIVITY * (i_I_lw i - STEF_BOLTZ * npown (t_s_0 s) 4)).

(** snobal.py:1042-1098 h_le.  Returns H, L_v_E, E, the (possibly clipped)
    input record and the new warm-start values.  The warning is not modelled. *)
Definition h_le (P_a : T) (mh : Heights T) (relative : bool) (init : option T * option T)
    (i : InputData T) (s : SnowState T)
  : result (T * T * T * InputData T * (option T * option T)) :=
  let* sat_vp := sati (i_t_a i) in
  let i := if sat_vp <? i_e_a i then set_e_a sat_vp i else i in
  let rel_z_T := if relative then mh_z_t mh else mh_z_t mh - z_s s in
  let rel_z_u := if relative then mh_z_u mh else mh_z_u mh - z_s s in
  let* e_s := sati (t_s_0 s) in
  let* r := hle1 P_a (i_t_a i) (t_s_0 s) rel_z_T (i_e_a i) e_s rel_z_T
                 (i_u i) rel_z_u (z_0 s) (fst init) (snd init) in
  if negb (hr_ier r =? 0)%Z then Err NotConverged
  else Ok (hr_h r, hr_le r, hr_e r, i, (Some (hr_ustar r), Some (hr_factor r))).

(** snobal.py:965-1007 g_soil; [surface] is layer == 'surface' *)
Definition g_soil (P_a z_g : T) (surface : bool) (i : InputData T) (s : SnowState T) : result T :=
  let tsno := if surface then t_s_0 s else t_s_l s in
  let ds := if surface then z_s_0 s else z_s_l s in
  let* es_layer := sati tsno in
  let tsno := if FREEZE <? tsno then FREEZE else tsno in
  let* e_g := sati (i_t_g i) in
  let* k_g := efcon KT_MOISTSAND (i_t_g i) P_a (Some e_g) in
  let* k_s := efcon (kts s) tsno P_a (Some es_layer) in
  ssxfr k_s k_g tsno (i_t_g i) ds z_g.

(** snobal.py:1009-1040 g_snow *)
Definition g_snow (P_a : T) (s : SnowState T) : result T :=
  if t_s_0 s =? t_s_l s then Ok (#0)
  else
    let* e0 := sati (t_s_0 s) in
    let* k_s1 := efcon (kts s) (t_s_0 s) P_a (Some e0) in
    let* el := sati (t_s_l s) in
    let* k_s2 := efcon (kts s) (t_s_l s) P_a (Some el) in
    ssxfr k_s1 k_s2 (t_s_0 s) (t_s_l s) (z_s_0 s) (z_s_l s).

(** snobal.py:931-941 heat_transfer: returns (G, G_0) *)
Definition heat_transfer (P_a z_g : T) (i : InputData T) (s : SnowState T) : result (T * T) :=
  if (layer_count s =? 1)%nat then
    let* g := g_soil P_a z_g true i s in Ok (g, g)
  else
    let* g := g_soil P_a z_g false i s in
    let* g0 := g_snow P_a s in
    Ok (g, g0).

(** snobal.py:943-963 advec *)
Definition advec (time_step : Z) (i : InputData T) (s : SnowState T) : result T :=
  if i_precip_now i then
    let M := heat_stor (cp_water (i_t_rain i)) (i_m_rain i) (i_t_rain i - t_s_0 s)
             + heat_stor (cp_ice (i_t_snow i)) (i_m_snow i) (i_t_snow i - t_s_0 s) in
    pdiv M (#time_step)
  else Ok (#0).

(** snobal.py:880-920 energy_balance *)
Definition energy_balance (env : Env T) (time_step : Z) (init : option T * option T)
    (i : InputData T) (s : SnowState T)
  : result (SnowState T * InputData T * (option T * option T)) :=
  if has_snow s then
    let rn := net_radiation i s in
    let* '(h, lve, e, i, init) := h_le (ev_P_a env) (ev_heights env) (ev_relative_hts env) init i s in
    let* '(g, g0) := heat_transfer (ev_P_a env) (mh_z_g (ev_heights env)) i s in
    let* m := advec time_step i s in
    let dq0 := rn + h + lve + g0 + m in
    let dq := dq0 + g - g0 in
    Ok (set_E_flux e (set_en (mkEnergy rn h lve g g0 m dq dq0) s), i, init)
  else Ok (set_E_flux (#0) (set_en zero_energy s), i, init).

(** snobal.py:1270-1280 output.  getattr(snow_state, 'swi_sum') raises if it was
    never set; the other attributes exist from __init__ on. *)
Definition output (c : Core T) : result (Core T) :=
  match swi_sum (c_ss c) with
  | None => Err AttributeError
  | Some _ =>
      Ok (mkCore (c_ss c) (c_datetime c) 0%Z
                 (c_outputs c ++ [mkOut (c_datetime c) (c_ss c)])
                 (c_hle1_init c) (c_trace c))
  end.

(** self.input_deltas[level]: the dict built by InputDeltas.calculate, keyed by level *)
Definition deltas_at (ds : list (Z * InputData T)) (lvl : Z) : result (InputData T) :=
  match find (fun kv => (fst kv =? lvl)%Z) ds with
  | Some kv => Ok (snd kv)
  | None => Err KeyError
  end.

(** snobal.py:205-279 do_tstep (always returns True) *)
Definition do_tstep (env : Env T) (ds : list (Z * InputData T)) (ts : TStep T)
    (c : Core T) (i : InputData T) : result (Core T * InputData T) :=
  let* d := deltas_at ds (ts_level ts) in
  let i := if i_precip_now i then update_precip_deltas i d else i in
  let before := c_ss c in
  let s := set_h2o_total (#0) (c_ss c) in
  let cover := has_snow s in
  let* '(s, i', init) := energy_balance env (ts_time_step ts) (c_hle1_init c) i s in
  let* '(s, kept) := mass_balance (ev_P_a env) (mh_z_g (ev_heights env)) (ts_time_step ts) i' (s, cover) in
  let ev := mkEvent ts (c_datetime c) i before s kept in
  let* '(s, tso) :=
    (if (0 <? c_time_since_out c)%Z then
       let* s := ss_time_average s (#(c_time_since_out c)) (#(ts_time_step ts)) in
       Ok (s, (c_time_since_out c + ts_time_step ts)%Z)
     else Ok (value_to_bar s, ts_time_step ts)) in
  let c := mkCore s (c_datetime c + ts_minutes ts)%Z tso (c_outputs c) init (c_trace c ++ [ev]) in
  let* c := (if ev_output_divided env then output c else Ok c) in
  Ok (c, add_deltas i' d).

(** snobal.py:1100-1120 below_thold *)
Definition below_thold (threshold : T) (s : SnowState T) : bool :=
  if (layer_count s =? 0)%nat then false
  else if (layer_count s =? 1)%nat then m_s s <? threshold
  else (m_s_0 s <? threshold) || (m_s_l s <? threshold).

(** State of the recursion in divide_tstep: the object, its input1 and its
    current_level.  (next_level and divided_step are never read.) *)
Record DState := mkD { d_core : Core T; d_input : InputData T; d_level : Z }.

(** self.tstep_info[self.current_level] *)
Definition tstep_at (env : Env T) (lvl : Z) : result (TStep T) :=
  if (lvl <? 0)%Z then Err IndexError
  else match nth_error (ev_tstep_info env) (Z.to_nat lvl) with
       | Some t => Ok t
       | None => Err IndexError
       end.

(** "for i in range(n): body" *)
Fixpoint iter_res {A} (n : nat) (body : A -> result A) (a : A) : result A :=
  match n with
  | O => Ok a
  | S m => let* a' := body a in iter_res m body a'
  end.

(** snobal.py:136-202 divide_tstep.  Python's recursion is unbounded; [fuel]
    bounds it in the model and [RecursionLimit] is proved unreachable for
    [fuel = 3].  Both do_tstep and divide_tstep only ever return True, so the
    "return False" branches are dead. *)
Fixpoint divide_tstep (fuel : nat) (env : Env T) (ds : list (Z * InputData T)) (st : DState)
  : result DState :=
  match fuel with
  | O => Err RecursionLimit
  | S fuel' =>
      let* ts := tstep_at env (d_level st) in
      let* i := (if i_precip_now (d_input st) && (1 <? ts_level ts)%Z then
                   let* d := deltas_at ds (ts_level ts) in
                   Ok (update_precip_deltas (d_input st) d)
                 else Ok (d_input st)) in
      let* st := iter_res (Z.to_nat (ts_intervals ts))
        (fun st =>
           if negb (d_level st =? SMALL_TSTEP)%Z && below_thold (ts_threshold ts) (c_ss (d_core st))
           then divide_tstep fuel' env ds (mkD (d_core st) (d_input st) (d_level st + 1)%Z)
           else let* '(c, i) := do_tstep env ds ts (d_core st) (d_input st) in
                Ok (mkD c i (d_level st)))
        (mkD (d_core st) i (d_level st)) in
      let* c := (if (d_level st =? 0)%Z && negb (ev_output_divided env)
                 then output (d_core st) else Ok (d_core st)) in
      Ok (mkD c (d_input st) (d_level st - 1)%Z)
  end.

(** input.py:190-213 InputDeltas.calculate *)
Fixpoint input_deltas (i1 i2 : InputData T) (info : list (TStep T))
  : result (list (Z * InputData T)) :=
  match info with
  | [] => Ok []
  | ts :: rest =>
      let* d := level_deltas i1 i2 (ts_per_timestep ts) in
      let* ds := input_deltas i1 i2 rest in
      Ok ((ts_level ts, d) :: ds)
  end.

(** snobal.py:72-134 do_data_tstep *)
Definition do_data_tstep (env : Env T) (c : Core T) (i1 i2 : InputData T) : result (Core T) :=
  let* ds := input_deltas i1 i2 (ev_tstep_info env) in
  let* st := divide_tstep 3 env ds (mkD c i1 NORMAL_TSTEP) in
  Ok (d_core st).

(** snobal.py:1202-1224 create_snow_state with from_record=True.
    self.tstep_info[SMALL_TSTEP] is the third entry. *)
Definition create_snow_state (p : Params T) (info : list (TStep T)) (ic : InitSnow T)
  : result (SnowState T) :=
  match nth_error info (Z.to_nat SMALL_TSTEP) with
  | None => Err IndexError
  | Some small =>
      let s := snow_state_init (p_max_z_s_0 p) (ts_threshold small) in
      let s := set_z_0 (is_z_0 ic) (set_h2o_sat (is_h2o_sat ic) (set_t_s (is_t_s ic)
               (set_t_s_0 (is_t_s_0 ic) (set_rho (is_rho ic) (set_z_s (is_z_s ic) s))))) in
      Ok (set_max_h2o_vol (p_max_h2o_vol p) s)
  end.

(** snobal.py:20-70 __init__; [all_mode] is output_mode == 'all'.
    relative_hts is set to False whatever params['relative_heights'] says (line 61). *)
Definition snobal_init (p : Params T) (info : list (TStep T)) (ic : InitSnow T)
    (mh : Heights T) (all_mode : bool) : result (Env T * Core T) :=
  let* pa := hysat SEA_LEVEL STD_AIRTMP STD_LAPSE (p_elevation p / #1000) GRAVITY MOL_AIR in
  let* s := create_snow_state p info ic in
  let* s := init_snow s in
  Ok (mkEnv info pa mh false all_mode,
      mkCore s (p_start_date p) 0%Z [] (None, None) []).

End Snobal.
Arguments DState T : clear implicits.
