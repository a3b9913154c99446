(** The atmosphere component: /repo/aviary/subsystems/atmosphere/atmosphere.py.

    Written by hand.  A table is an array of altitudes and, for every bin between two altitudes and for the two bins
    outside, the coefficients of a cubic.  numpy.searchsorted(side = 'left') on a sorted array is the first index whose
    entry is not below the argument.  The complex-step data types of numpy are not modelled. *)
From Coq Require Import Reals Qreals QArith.
From Verif Require Import Base Calc MathModel Comp Vec.
Open Scope list_scope.
Open Scope string_scope.
Local Open Scope R_scope.

(** ** Tables *)
Record coef : Type := { k0 : R; k1 : R; k2 : R; k3 : R }.
(** coeffs[:, 0] + dx * (coeffs[:, 1] + dx * (coeffs[:, 2] + dx * coeffs[:, 3])) and its derivative, L214-216, L277. *)
Definition cubic_value (c : coef) (dx : R) : R := k0 c + dx * (k1 c + dx * (k2 c + dx * k3 c)).
Definition cubic_slope (c : coef) (dx : R) : R := k1 c + dx * (2 * k2 c + 3 * k3 c * dx).

Record table : Type := {
  size : nat;                (* number of altitudes *)
  alt : nat -> R;
  akima_T : nat -> coef; akima_P : nat -> coef; akima_rho : nat -> coef; akima_dT : nat -> coef }.

(** np.searchsorted(table_points, h, side='left'), L209 *)
Fixpoint search (a : nat -> R) (h : R) (i m : nat) : nat :=
  match m with
  | O => i
  | S m' => if leb h (a i) then i else search a h (S i) m'
  end.
Definition bin (t : table) (h : R) : nat := search (alt t) h 0 (size t).
(** np.hstack((table_points[0], table_points))[idx], L210-211 *)
Definition bin_left (t : table) (i : nat) : R := match i with O => alt t 0%nat | S j => alt t j end.
Definition offset (t : table) (h : R) : R := h - bin_left t (bin t h).
Definition look (t : table) (f : table -> nat -> coef) (h : R) : R := cubic_value (f t (bin t h)) (offset t h).
Definition slope (t : table) (f : table -> nat -> coef) (h : R) : R := cubic_slope (f t (bin t h)) (offset t h).

(** ** AtmosphereComp, L63-345 *)
Record air : Type := {
  R0 : R;                    (* planet radius *)
  R_air : R; K : R;          (* gas constant, gamma times gas constant *)
  S_air : R; beta : R;       (* Sutherland's constant, viscosity coefficient *)
  dt : R;                    (* delta_T_Celcius *)
  geometric : bool }.

Definition v_ALTITUDE := "altitude".
Definition v_TEMPERATURE := "temperature".
Definition v_PRESSURE := "static_pressure".
Definition v_DENSITY := "density".
Definition v_VISCOSITY := "dynamic_viscosity".
Definition v_SOUND := "speed_of_sound".
Definition v_dsos := "dsos_dh".

(** L203-206 *)
Definition geopotential (a : air) (h : R) : R := if geometric a then h / (R0 a + h) * R0 a else h.
(** L266-268 *)
Definition dz_dh (a : air) (h : R) : R := if geometric a then (R0 a / (R0 a + h)) ^ 2 else 1.

Section Run.
  Variables (a : air) (t : table) (z : R).
  Let T := look t akima_T z + dt a.
  Let P := look t akima_P z.
  Let rho := look t akima_rho z.
  Definition air_temperature := T.
  Definition air_pressure := P.
  (** L226-234 *)
  Definition air_density := / (/ rho + R_air a * dt a * / P).
  (** L237 *)
  Definition air_sound := sqrt (K a * T).
  (** L240-242 *)
  Definition air_dsos := 5 / 10 * (/ sqrt (K a * T)) * look t akima_dT z * K a.
  (** L245-247 *)
  Definition air_viscosity := beta a * pw (15 / 10) T * / (T + S_air a).
  (** L274-318 *)
  Let dT := slope t akima_T z.
  Let dP := slope t akima_P z.
  Let drho := slope t akima_rho z.
  Definition density_slope :=
    - (1) * / (/ rho + R_air a * dt a * / P) ^ 2 * (- (1) * / rho ^ 2 * drho + - (1) * R_air a * dt a * / P ^ 2 * dP).
  Definition viscosity_slope :=
    15 / 10 * beta a * sqrt T * dT * / (T + S_air a) + beta a * pw (15 / 10) T * - (1) * / (T + S_air a) ^ 2 * dT.
  Definition sound_slope := 5 / 10 * (/ sqrt (K a * T)) * K a * dT.
  Definition dsos_slope :=
    - (5 / 10 * (5 / 10) * pw (- (15 / 10)) (K a * T) * (K a * dT)) * (dT * K a)
    + 5 / 10 * (/ sqrt (K a * T)) * slope t akima_dT z * K a.
End Run.

Definition AtmosphereComp (a : air) (t : table) : comp := {|
  c_ins := [v_ALTITUDE];
  c_outs := [v_TEMPERATURE; v_PRESSURE; v_DENSITY; v_VISCOSITY; v_SOUND; v_dsos];
  c_decl := map (fun o => (o, v_ALTITUDE, 0)) [v_TEMPERATURE; v_PRESSURE; v_DENSITY; v_VISCOSITY; v_SOUND; v_dsos];
  c_run := fun e =>
    let z := geopotential a (e v_ALTITUDE) in
    [ (v_TEMPERATURE, air_temperature a t z); (v_PRESSURE, air_pressure t z); (v_DENSITY, air_density a t z);
      (v_VISCOSITY, air_viscosity a t z); (v_SOUND, air_sound a t z); (v_dsos, air_dsos a t z) ];
  c_jac := fun e =>
    let h := e v_ALTITUDE in
    let z := geopotential a h in
    let d := dz_dh a h in
    (* L334-345: in the geometric mode everything is multiplied by dz_dh, the last one by its square *)
    [ (v_TEMPERATURE, v_ALTITUDE, slope t akima_T z * d); (v_PRESSURE, v_ALTITUDE, slope t akima_P z * d);
      (v_DENSITY, v_ALTITUDE, density_slope a t z * d); (v_VISCOSITY, v_ALTITUDE, viscosity_slope a t z * d);
      (v_SOUND, v_ALTITUDE, sound_slope a t z * d); (v_dsos, v_ALTITUDE, dsos_slope a t z * d ^ 2) ] |}.

(** L110-146: constants by planet *)
Definition Rs : R := 831432 / 100.
Definition air_of (radius M_air gamma S b delta : R) (geo : bool) : air :=
  {| R0 := radius; R_air := Rs / M_air; K := gamma * Rs / M_air; S_air := S; beta := b; dt := delta; geometric := geo |}.
Definition earth_air := air_of 6371009 (2897 / 100) (14 / 10) (1104 / 10) (1458 / 1000000000).

(** Atmosphere, L11-60: the group does not hand its option delta_T_Celcius to the component. *)
Record atmosphere_options : Type := { g_geometric : bool; g_delta_T : R }.
Definition component_options (g : atmosphere_options) : atmosphere_options :=
  {| g_geometric := g_geometric g; g_delta_T := 0 |}.

(** ** Tables given by exact decimals *)
(** The decimal man * 10 ^ (- places). *)
Record decimal : Type := dec { man : Z; places : Z }.
Definition decQ (d : decimal) : Q := Qmake (man d) (Z.to_pos (10 ^ places d)).
Record coefD : Type := q4 { d0 : decimal; d1 : decimal; d2 : decimal; d3 : decimal }.
Record tableD : Type := { t_alt : list decimal; t_T : list coefD; t_P : list coefD; t_rho : list coefD; t_dT : list coefD }.
(** The same as rational numbers. *)
Record coefQ : Type := { j0 : Q; j1 : Q; j2 : Q; j3 : Q }.
Record tableQ : Type := { q_alt : list Q; q_T : list coefQ; q_P : list coefQ; q_rho : list coefQ; q_dT : list coefQ }.
Definition coefQ_of (c : coefD) : coefQ := {| j0 := decQ (d0 c); j1 := decQ (d1 c); j2 := decQ (d2 c); j3 := decQ (d3 c) |}.
Definition tableQ_of (d : tableD) : tableQ := {|
  q_alt := map decQ (t_alt d); q_T := map coefQ_of (t_T d); q_P := map coefQ_of (t_P d);
  q_rho := map coefQ_of (t_rho d); q_dT := map coefQ_of (t_dT d) |}.
Definition coef_of (c : coefQ) : coef := {| k0 := Q2R (j0 c); k1 := Q2R (j1 c); k2 := Q2R (j2 c); k3 := Q2R (j3 c) |}.
Definition zeroQ4 : coefQ := {| j0 := 0; j1 := 0; j2 := 0; j3 := 0 |}.
Definition table_of (q : tableQ) : table := {|
  size := length (q_alt q); alt := fun i => Q2R (nth i (q_alt q) 0%Q);
  akima_T := fun i => coef_of (nth i (q_T q) zeroQ4); akima_P := fun i => coef_of (nth i (q_P q) zeroQ4);
  akima_rho := fun i => coef_of (nth i (q_rho q) zeroQ4); akima_dT := fun i => coef_of (nth i (q_dT q) zeroQ4) |}.

(** get_atmosphere_data, utils/get_atmosphere_data.py L64-67: the density at sea level is the first coefficient of the bin
    that starts at the first altitude equal to zero; np.argwhere(...)[0] raises IndexError when there is none. *)
Fixpoint zero_at (l : list Q) : option nat :=
  match l with
  | [] => None
  | x :: r => if Qeq_bool x 0 then Some 0%nat else option_map S (zero_at r)
  end.
Definition sea_level_density (q : tableQ) : option Q :=
  match zero_at (q_alt q) with
  | Some i => Some (j0 (nth (i + 1) (q_rho q) zeroQ4))
  | None => None
  end.
