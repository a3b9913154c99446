MUTANTS = []
def M(definition, edit, breaks, old, new, **kw):
    MUTANTS.append(dict(file='MathModel.v', definition=definition, edit=edit, breaks=breaks, old=old, new=new, **kw))
M('sigmoid_elem', 'sign of the exponent', 'C30 value and monotonicity', "if Rlt_dec (-320) ((x - x0) / mu) then 1 / (1 + exp (- (x - x0) / mu)) else 0.", "if Rlt_dec (-320) ((x - x0) / mu) then 1 / (1 + exp ((x - x0) / mu)) else 0.")
M('sigmoid_elem', 'cut-off at -3', 'C30 value', "Definition sigmoid_elem (x x0 mu : R) : R :=\n  if Rlt_dec (-320)", "Definition sigmoid_elem (x x0 mu : R) : R :=\n  if Rlt_dec (-3)")
M('sigmoid_elem', 'value 1 below the cut-off', 'C30 range, monotone', "if Rlt_dec (-320) ((x - x0) / mu) then 1 / (1 + exp (- (x - x0) / mu)) else 0.", "if Rlt_dec (-320) ((x - x0) / mu) then 1 / (1 + exp (- (x - x0) / mu)) else 1.")
M('sigmoid_elem', 'steepness multiplied', 'C30 value', "((x - x0) / mu) then 1 / (1 + exp (- (x - x0) / mu)) else 0.\n\n(** Scalar", "((x - x0) / mu) then 1 / (1 + exp (- (x - x0) * mu)) else 0.\n\n(** Scalar")
M('sigmoid_scalar', 'scalar guard divides by mu (the corrected program)', 'C30_scalar_call_refuted must fail', "if Rlt_dec (-320) ((x - x0) * mu)", "if Rlt_dec (-320) ((x - x0) / mu)")
M('dsigmoid_elem', 'factor 1/mu missing', 'C30 derivative', 'term / mu / term2', 'term / term2')
M('dsigmoid_elem', 'denominator not squared', 'C30 derivative', '(1 + term) * (1 + term) in', '(1 + term) in')
M('dSigmoidXdx', 'scalar branch returns a value (the corrected program)', 'C30_scalar_derivative_refuted must fail', '| Scal _, Scal _ => Err UnboundLocalError', '| Scal v, Scal a => Ok (Scal (dsigmoid_elem v a mu))')
M('all_selected', 'mask ignored for array thresholds (the corrected program)', 'C30_array_threshold must fail', 'then true else false) (combine xs a)', 'then true else true) (combine xs a)')
M('sigmoidX', 'zero steepness accepted', 'C30 rejection', 'if Req_EM_T mu 0 then Err ValueError                                      (* L26-27 *)', 'if Req_EM_T mu 0 then Ok x')
M('sigmoidX', 'reversed array', 'C30 elements in order', 'Ok (Arr (map (fun v => sigmoid_elem v a mu) xs))       (* L42 *)', 'Ok (Arr (map (fun v => sigmoid_elem v a mu) (rev xs)))')
M('smooth_min', 'sign', 'C31', '- (1 / mu) * ln (exp', '(1 / mu) * ln (exp')
M('smooth_min', 'exponent sign of b', 'C31', 'ln (exp (- mu * x) + exp (- mu * b))', 'ln (exp (- mu * x) + exp (mu * b))')
M('d_smooth_min', 'weight of b returned', 'C31 derivative', '  exp (- mu * x) / (exp', '  exp (- mu * b) / (exp')
M('smooth_max', 'offset not divided by mu', 'C31', '(m + ln (exp (mu_x - m) + exp (mu_b - m))) / mu.', 'm + ln (exp (mu_x - m) + exp (mu_b - m)) / mu.')
M('smooth_max', 'offset forgotten', 'C31', '(m + ln (exp (mu_x - m) + exp (mu_b - m))) / mu.', 'ln (exp (mu_x - m) + exp (mu_b - m)) / mu.')
M('d_smooth_max', 'multiplied by mu', 'C31 derivative', 'exp (mu_x - m) / (exp (mu_x - m) + exp (mu_b - m)).', 'mu * exp (mu_x - m) / (exp (mu_x - m) + exp (mu_b - m)).')
M('sin_int', 'phase shift dropped', 'C32', 'v - sin (2 * PI * (v + / 2)) / (2 * PI)', 'v - sin (2 * PI * v) / (2 * PI)')
M('sin_int', 'amplitude 1', 'C32 monotone', 'v - sin (2 * PI * (v + / 2)) / (2 * PI)', 'v - sin (2 * PI * (v + / 2))')
M('dydx_sin_int', 'sign', 'C32 derivative', '1 - cos (2 * PI * (v + / 2))', '1 + cos (2 * PI * (v + / 2))')
M('sin_int4', 'offset dropped', 'C32 fixed points', '(sin_int v))) - / 2.', '(sin_int v))).')
M('dydx_sin_int4', 'one factor dropped', 'C32 derivative', 'dydx_sin_int y2 * dydx_sin_int y1 * dydx_sin_int y0 * dydx_sin_int v', 'dydx_sin_int y2 * dydx_sin_int y1 * dydx_sin_int y0')
M('smooth_int_tanh', 'no shift of tanh', 'C44 bracket', 'let s := / 2 * (t + 1) in', 'let s := / 2 * t in')
M('smooth_int_tanh', 'floor of the real part forgotten', 'C44 bracket', '(fst f + s, snd f)', '(s, snd f)')
M('d_smooth_int_tanh', 'factor 1/2 dropped', 'C44 derivative', '/ 2 * mu * (1 - t ^ 2)', 'mu * (1 - t ^ 2)')
