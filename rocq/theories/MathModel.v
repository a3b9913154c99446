(** Model of the smooth helper functions of /repo/aviary/utils/math.py.

    Simplifications.  Floating point numbers are real numbers; numpy ufuncs are applied element by
    element, so an array call is modelled by the function of one element (except for
    [sigmoid_array], where the masking and broadcasting of whole arrays matters).  Complex inputs
    (used by OpenMDAO for complex-step differentiation) are modelled as pairs for
    [smooth_int_tanh]. *)
From Coq Require Import Reals.
From Verif Require Import Base.
Local Open Scope R_scope.

(** ** sigmoidX, L8-53 *)
(** One element of the array branch, L34-42. *)
Definition sigmoid_elem (x x0 mu : R) : R :=
  if Rlt_dec (-320) ((x - x0) / mu) then 1 / (1 + exp (- (x - x0) / mu)) else 0.

(** Scalar branch, L44-52 (the cut-off test multiplies by mu). *)
Definition sigmoid_scalar (x x0 mu : R) : R :=
  if Rlt_dec (-320) ((x - x0) * mu) then 1 / (1 + exp (- (x - x0) / mu)) else 0.

Inductive num : Type := Scal (x : R) | Arr (xs : list R).

Definition map2 {A B C} (f : A -> B -> C) (l : list A) (m : list B) : list C :=
  map (fun p => f (fst p) (snd p)) (combine l m).

(** sigmoidX for a real x; x0 a scalar or an array.  An x0 array of another length does not
    broadcast in the guard (L37) unless it has one element or x has one element; only the equal length
    and the one element cases are modelled, everything else is reported as ValueError. *)
Definition sigmoidX (x : num) (x0 : num) (mu : R) : res num :=
  if Req_EM_T mu 0 then Err ValueError                                      (* L26-27 *)
  else match x, x0 with
  | Arr xs, Scal a => Ok (Arr (map (fun v => sigmoid_elem v a mu) xs))       (* L42 *)
  | Arr xs, Arr [a] => Ok (Arr (map (fun v => sigmoid_elem v a mu) xs))      (* L42, or L40 if xs has one element *)
  | Arr xs, Arr a => if length a =? length xs                               (* L39-40 *)
                     then Ok (Arr (map2 (fun v b => sigmoid_elem v b mu) xs a))
                     else Err ValueError
  | Scal v, Scal a => Ok (Scal (sigmoid_scalar v a mu))                      (* L48-50 *)
  | Scal _, Arr _ => Err ValueError                                         (* array truth value, L49 *)
  end%nat.

(** ** dSigmoidXdx, L56-99 *)
Definition dsigmoid_elem (x x0 mu : R) : R :=                               (* L87-90 *)
  if Rlt_dec (-320) ((x - x0) / mu) then
    let term := exp (- (x - x0) / mu) in
    let term2 := (1 + term) * (1 + term) in
    term / mu / term2
  else 0.

(** L88 subtracts the whole x0 array from the selected elements: when some but not all elements are
    selected the lengths differ and numpy raises ValueError. *)
Definition all_selected (xs a : list R) (mu : R) : bool :=
  forallb (fun p => if Rlt_dec (-320) ((fst p - snd p) / mu) then true else false) (combine xs a).

Definition dSigmoidXdx (x : num) (x0 : num) (mu : R) : res num :=
  if Req_EM_T mu 0 then Err ValueError                                      (* L74-75 *)
  else match x, x0 with
  | Arr xs, Scal a => Ok (Arr (map (fun v => dsigmoid_elem v a mu) xs))
  | Arr xs, Arr [a] => Ok (Arr (map (fun v => dsigmoid_elem v a mu) xs))
  | Arr xs, Arr a => if length a =? length xs
                     then if all_selected xs a mu
                          then Ok (Arr (map2 (fun v b => dsigmoid_elem v b mu) xs a))
                          else Err ValueError
                     else Err ValueError
  | Scal _, Scal _ => Err UnboundLocalError                                 (* dtype unset, L97 *)
  | Scal _, Arr _ => Err ValueError                                         (* array truth value, L93 *)
  end%nat.

(** ** smooth_min and smooth_max, L102-175 (one element) *)
Definition smooth_min (x b mu : R) : R :=                                   (* L114-116 *)
  - (1 / mu) * ln (exp (- mu * x) + exp (- mu * b)).

Definition d_smooth_min (x b mu : R) : R :=                                 (* L131-134 *)
  exp (- mu * x) / (exp (- mu * x) + exp (- mu * b)).

Definition smooth_max (x b mu : R) : R :=                                   (* L149-154 *)
  let mu_x := mu * x in
  let mu_b := mu * b in
  let m := Rmax mu_x mu_b in
  (m + ln (exp (mu_x - m) + exp (mu_b - m))) / mu.

Definition d_smooth_max (x b mu : R) : R :=                                 (* L169-175 *)
  let mu_x := mu * x in
  let mu_b := mu * b in
  let m := Rmax mu_x mu_b in
  exp (mu_x - m) / (exp (mu_x - m) + exp (mu_b - m)).

(** ** sin_int, L178-215 *)
Definition sin_int (v : R) : R := v - sin (2 * PI * (v + / 2)) / (2 * PI).    (* L206 *)
Definition dydx_sin_int (v : R) : R := 1 - cos (2 * PI * (v + / 2)).         (* L213 *)
Definition sin_int4 (v : R) : R := sin_int (sin_int (sin_int (sin_int v))) - / 2.  (* L180 *)
Definition dydx_sin_int4 (v : R) : R :=                                     (* L185-196 *)
  let y0 := sin_int v in
  let y1 := sin_int y0 in
  let y2 := sin_int y1 in
  dydx_sin_int y2 * dydx_sin_int y1 * dydx_sin_int y0 * dydx_sin_int v.

(** ** smooth_int_tanh, L218-239, on complex numbers re + i im *)
Definition floorR (x : R) : R := IZR (Int_part x).

(** f = floor(re) + i im;  frac = x - f = re - floor(re) (real);  y = f + s *)
Definition smooth_int_tanh (x : R * R) (mu : R) : R * R :=
  let f := (floorR (fst x), snd x) in
  let frac := fst x - fst f in        (* the imaginary parts cancel *)
  let t := tanh (mu * (frac - / 2)) in
  let s := / 2 * (t + 1) in
  (fst f + s, snd f).

Definition d_smooth_int_tanh (x : R * R) (mu : R) : R :=
  let frac := fst x - floorR (fst x) in
  let t := tanh (mu * (frac - / 2)) in
  / 2 * mu * (1 - t ^ 2).
