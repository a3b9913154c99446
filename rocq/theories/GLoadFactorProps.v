(** The load factors: claim C62. *)
From Coq Require Import Reals Lra Lia.
From Coquelicot Require Import Coquelicot.
From Verif Require Import Base Calc MathModel MathProofs Comp CompMore CompFun GLoadModel.
Local Open Scope R_scope.

(** The gust load factor for a speed [v] and a gust [u]. *)
Definition gust_factor (op : options) (e : env) (v u : R) : R :=
  let mu := 2 * e Aircraft_Design_WING_LOADING / (e v_density_ratio * on op Mission_SEA_LEVEL_DENSITY * e Aircraft_Wing_AVERAGE_CHORD * e Aircraft_Design_LIFT_CURVE_SLOPE * (322 / 10)) in
  1 + 88 / 100 * mu / (53 / 10 + mu) * u * v * e Aircraft_Design_LIFT_CURVE_SLOPE / (498 * e Aircraft_Design_WING_LOADING).
Definition cruise_gust op e := gust_factor op e (e v_V9) 50.
Definition dive_gust op e := gust_factor op e (e v_min_dive_vel) 25.
Definition apart (op : options) (e : env) : Prop :=
  positive [Aircraft_Design_WING_LOADING; v_density_ratio; Aircraft_Wing_AVERAGE_CHORD; Aircraft_Design_LIFT_CURVE_SLOPE] e /\
  cruise_gust op e <> dive_gust op e /\ e v_max_maneuver_factor <> Rmax (cruise_gust op e) (dive_gust op e).

Lemma gust_derivable op e i : 0 < on op Mission_SEA_LEVEL_DENSITY ->
  positive [Aircraft_Design_WING_LOADING; v_density_ratio; Aircraft_Wing_AVERAGE_CHORD; Aircraft_Design_LIFT_CURVE_SLOPE] e ->
  In i (c_ins (LoadFactorsSharp op)) ->
  ex_derive (fun t => cruise_gust op (upd e i t)) (e i) /\ ex_derive (fun t => dive_gust op (upd e i t)) (e i) /\
  ex_derive (fun t => upd e i t v_max_maneuver_factor) (e i).
Proof.
  intros RH D I. red_comp_in RH. red_comp_in D. conjuncts. cbn [c_ins LoadFactorsSharp] in I.
  split_in I; subst i; unfold cruise_gust, dive_gust, gust_factor;
  cbv [upd String.eqb Ascii.eqb Bool.eqb Aircraft_Design_WING_LOADING v_density_ratio Aircraft_Wing_AVERAGE_CHORD Aircraft_Design_LIFT_CURVE_SLOPE v_V9 v_min_dive_vel v_max_maneuver_factor Mission_SEA_LEVEL_DENSITY];
  repeat split; auto_derive; minus_div; repeat split; try exact I; nonzero.
Qed.

Lemma factor_near op e i : 0 < on op Mission_SEA_LEVEL_DENSITY -> apart op e -> In i (c_ins (LoadFactorsSharp op)) ->
  ob op Aircraft_Design_ULF_CALCULATED_FROM_MANEUVER = false ->
  locally (e i) (fun t => out (LoadFactorsSharp op) (upd e i t) Aircraft_Wing_ULTIMATE_LOAD_FACTOR =
    15 / 10 * (if ltb (e v_max_maneuver_factor) (Rmax (cruise_gust op e) (dive_gust op e)) then
      if ltb (dive_gust op e) (cruise_gust op e) then cruise_gust op (upd e i t) else dive_gust op (upd e i t)
     else upd e i t v_max_maneuver_factor)).
Proof.
  intros RH (D & N & M) I O. destruct (gust_derivable op e i RH D I) as (C1 & C2 & C3).
  assert (S : forall t, out (LoadFactorsSharp op) (upd e i t) Aircraft_Wing_ULTIMATE_LOAD_FACTOR =
    15 / 10 * (let c := cruise_gust op (upd e i t) in let d := dive_gust op (upd e i t) in let g := if ltb d c then c else d in
     if ltb (upd e i t v_max_maneuver_factor) g then g else upd e i t v_max_maneuver_factor)).
  { intro t. generalize (upd e i t). clear - O. intro e'. red_comp. red_comp_in O. rewrite O. branches; reflexivity. }
  apply (ex_derive_continuous (V := R_NormedModule)) in C1, C2, C3.
  set (c := fun t => cruise_gust op (upd e i t)) in *. set (d := fun t => dive_gust op (upd e i t)) in *.
  set (m := fun t => upd e i t v_max_maneuver_factor) in *.
  assert (Ec : cruise_gust op e = c (e i)) by (unfold c; rewrite upd_id; reflexivity).
  assert (Ed : dive_gust op e = d (e i)) by (unfold d; rewrite upd_id; reflexivity).
  assert (Em : e v_max_maneuver_factor = m (e i)) by (unfold m; rewrite upd_id; reflexivity).
  rewrite Ec, Ed, Em in *.
  change (continuous c (e i)) in C1. change (continuous d (e i)) in C2. change (continuous m (e i)) in C3.
  assert (S' : forall t, out (LoadFactorsSharp op) (upd e i t) Aircraft_Wing_ULTIMATE_LOAD_FACTOR =
    15 / 10 * (let g := if ltb (d t) (c t) then c t else d t in if ltb (m t) g then g else m t)) by (intro t; exact (S t)).
  assert (L : forall f g : R -> R, continuous f (e i) -> continuous g (e i) -> f (e i) < g (e i) -> locally (e i) (fun t => f t < g t)).
  { intros f g F G H. assert (Q : continuous (fun t => f t - g t) (e i)) by (apply (continuous_minus (V := R_NormedModule)); assumption).
    generalize (locally_neg _ _ Q ltac:(cbv beta; lra)). apply filter_imp. intros; lra. }
  destruct (Rtotal_order (d (e i)) (c (e i))) as [H|[H|H]]; [|exfalso; apply N; now rewrite H|].
  - rewrite (ltb_intro (d (e i))) by exact H. rewrite Rmax_left in * by lra.
    destruct (Rtotal_order (m (e i)) (c (e i))) as [K|[K|K]]; [|now exfalso|].
    + rewrite ltb_intro by exact K. generalize (filter_and _ _ (L d c C2 C1 H) (L m c C3 C1 K)). apply filter_imp. intros t [P Q].
      rewrite S'. cbv zeta. rewrite (ltb_intro _ _ P), (ltb_intro _ _ Q). reflexivity.
    + rewrite ltb_intro_false by lra. generalize (filter_and _ _ (L d c C2 C1 H) (L c m C1 C3 K)). apply filter_imp. intros t [P Q].
      rewrite S'. cbv zeta. rewrite (ltb_intro _ _ P), ltb_intro_false by lra. reflexivity.
  - rewrite (ltb_intro_false (d (e i))) by lra. rewrite Rmax_right in * by lra.
    destruct (Rtotal_order (m (e i)) (d (e i))) as [K|[K|K]]; [|now exfalso|].
    + rewrite ltb_intro by exact K. generalize (filter_and _ _ (L c d C1 C2 H) (L m d C3 C2 K)). apply filter_imp. intros t [P Q].
      rewrite S'. cbv zeta. rewrite (ltb_intro_false (d t)) by lra. rewrite (ltb_intro _ _ Q). reflexivity.
    + rewrite ltb_intro_false by lra. generalize (filter_and _ _ (L c d C1 C2 H) (L d m C2 C3 K)). apply filter_imp. intros t [P Q].
      rewrite S'. cbv zeta. rewrite (ltb_intro_false (d t)) by lra. rewrite ltb_intro_false by lra. reflexivity.
Qed.

Lemma Rmax_ltb a b : Rmax a b = if ltb b a then a else b.
Proof. destruct (ltb b a) eqn:C; [apply ltb_true in C | apply ltb_false in C]; [apply Rmax_left | apply Rmax_right]; lra. Qed.
Lemma manoeuvre_only op e : ob op Aircraft_Design_ULF_CALCULATED_FROM_MANEUVER = true ->
  out (LoadFactorsSharp op) e Aircraft_Wing_ULTIMATE_LOAD_FACTOR = 15 / 10 * e v_max_maneuver_factor.
Proof. intro O. red_comp. red_comp_in O. rewrite O. reflexivity. Qed.
Ltac either := match goal with |- context [ltb ?a ?b] => lazymatch a with context [ltb] => fail | _ => lazymatch b with context [ltb] => fail | _ => destruct (ltb a b) end end end.

(** Where the three load factors differ, every partial is exact. *)
Theorem C62_LoadFactorsSharp op : 0 < on op Mission_SEA_LEVEL_DENSITY -> exact_partials (LoadFactorsSharp op) (apart op).
Proof.
  intro RH. exact_start.
  all: destruct (ob op Aircraft_Design_ULF_CALCULATED_FROM_MANEUVER) eqn:O.
  all: match goal with D : apart _ _ |- is_derive (fun t => out _ (upd _ ?i t) _) _ _ =>
    first [ eapply is_derive_ext_loc; [generalize (factor_near op e i RH D ltac:(cbn; tauto) O); apply filter_imp; intros t; apply eq_sym|]
          | apply is_derive_ext with (1 := fun t => eq_sym (manoeuvre_only op (upd e i t) O)) ] end.
  all: match goal with D : apart _ _ |- _ => destruct D as (D & N & M); clear N M; red_comp_in D; conjuncts; red_comp_in RH end.
  all: rewrite ?Rmax_ltb; unfold cruise_gust, dive_gust, gust_factor; red_comp; red_comp_in O; rewrite ?O.
  all: repeat either.
  all: derive_goal.
  all: minus_div; fold_pow.
  all: field; repeat split; nonzero.
Qed.
Print Assumptions C62_LoadFactorsSharp.
(** An environment with the listed values and 1 elsewhere. *)
Definition given (l : list (string * R)) : env := fun n => fold_right (fun p r => if String.eqb n (fst p) then snd p else r) 1 l.
Example C62_witness_apart : apart unit_options (fun _ => 1).
Proof.
  unfold apart, cruise_gust, dive_gust, gust_factor. cbn. repeat split; try lra. rewrite Rmax_left; lra.
Qed.

Transparent sigf dsigf.
Lemma sig_middle mu : mu <> 0 -> sigf 1 mu 1 = 1 / 2.
Proof.
  intro M. unfold sigf, sigmoid_elem. replace ((1 - 1) / mu) with 0 by (field; exact M). replace (- (1 - 1) / mu) with 0 by (field; exact M).
  destruct (Rlt_dec (-320) 0) as [_|N]; [|exfalso; lra]. rewrite exp_0. lra.
Qed.
Lemma dsig_middle mu : mu <> 0 -> dsigf 1 (- mu) 1 = - dsigf 1 mu 1.
Proof.
  intro M. unfold dsigf, dsigmoid_elem. replace ((1 - 1) / mu) with 0 by (field; exact M). replace (- (1 - 1) / mu) with 0 by (field; exact M).
  replace ((1 - 1) / - mu) with 0 by (field; lra). replace (- (1 - 1) / - mu) with 0 by (field; lra).
  destruct (Rlt_dec (-320) 0) as [_|N]; [|exfalso; lra]. cbv zeta. rewrite exp_0. field. exact M.
Qed.
Opaque sigf dsigf.

(** The smooth greater of two numbers, as compute writes it: at equal numbers half of the slope. *)
Definition blended (a b : R) : R := b * sigf 1 (- 1 / 100) (a / b) + a * sigf 1 (1 / 100) (a / b).
Lemma blended_same c : 0 < c -> blended c c = c.
Proof. intro C. unfold blended. replace (c / c) with 1 by (field; lra). rewrite !sig_middle by lra. field. Qed.
Lemma blended_slope c : 0 < c -> is_derive (blended c) c (1 / 2).
Proof.
  intro C. unfold blended. auto_derive; minus_div.
  - replace (c / c) with 1 by (field; lra). repeat split; lra.
  - replace (c / c) with 1 by (field; lra). replace (- 1 / 100) with (- (1 / 100)) by field. rewrite dsig_middle by lra. rewrite !sig_middle by lra. field. lra.
Qed.

(** With smoothing, the partial with respect to the dive speed is always 0 (L1090), but where the three load factors agree the ultimate load factor grows with the dive speed. *)
Theorem C62_dive_speed_refuted op e : ob op Aircraft_Design_ULF_CALCULATED_FROM_MANEUVER = false -> 0 < on op Mission_SEA_LEVEL_DENSITY ->
  positive [Aircraft_Design_WING_LOADING; v_density_ratio; Aircraft_Wing_AVERAGE_CHORD; Aircraft_Design_LIFT_CURVE_SLOPE; v_min_dive_vel] e ->
  e v_V9 = e v_min_dive_vel / 2 ->
  let mu := 2 * e Aircraft_Design_WING_LOADING / (e v_density_ratio * on op Mission_SEA_LEVEL_DENSITY * e Aircraft_Wing_AVERAGE_CHORD * e Aircraft_Design_LIFT_CURVE_SLOPE * (322 / 10)) in
  let k := 88 / 100 * mu / (53 / 10 + mu) in
  e v_max_maneuver_factor = 1 + k * 25 * e v_min_dive_vel * e Aircraft_Design_LIFT_CURVE_SLOPE / (498 * e Aircraft_Design_WING_LOADING) ->
  is_derive (fun t => out (LoadFactorsSmooth op) (upd e v_min_dive_vel t) Aircraft_Wing_ULTIMATE_LOAD_FACTOR) (e v_min_dive_vel)
    (15 / 10 * (1 / 2 * (1 / 2 * (k * 25 * e Aircraft_Design_LIFT_CURVE_SLOPE / (498 * e Aircraft_Design_WING_LOADING))))) /\
  ~ exact_at (LoadFactorsSmooth op) e Aircraft_Wing_ULTIMATE_LOAD_FACTOR v_min_dive_vel.
Proof.
  intros O RH D V mu k M.
  assert (K : 0 < k /\ 0 < e Aircraft_Design_LIFT_CURVE_SLOPE /\ 0 < e Aircraft_Design_WING_LOADING /\ 0 < e v_min_dive_vel).
  { red_comp_in D. red_comp_in RH. unfold k, mu, v_min_dive_vel, v_density_ratio, Aircraft_Design_LIFT_CURVE_SLOPE, Aircraft_Design_WING_LOADING, Aircraft_Wing_AVERAGE_CHORD, Mission_SEA_LEVEL_DENSITY. conjuncts.
    match goal with |- 0 < 88 / 100 * ?m / _ /\ _ => assert (0 < m) by (apply Rdiv_lt_0_compat; [lra|repeat apply Rmult_lt_0_compat; lra || assumption]); set (m0 := m) in * end.
    repeat split; try assumption. apply Rdiv_lt_0_compat; lra. }
  destruct K as (K & K1 & K2 & K3).
  set (s := k * 25 * e Aircraft_Design_LIFT_CURVE_SLOPE / (498 * e Aircraft_Design_WING_LOADING)).
  assert (S : 0 < s) by (unfold s; apply Rdiv_lt_0_compat; [apply Rmult_lt_0_compat; [lra|assumption]|lra]).
  set (x := e v_min_dive_vel) in *.
  assert (C : 0 < 1 + s * x) by (assert (0 < s * x) by (apply Rmult_lt_0_compat; assumption); lra).
  assert (F : forall t, out (LoadFactorsSmooth op) (upd e v_min_dive_vel t) Aircraft_Wing_ULTIMATE_LOAD_FACTOR =
    15 / 10 * blended (1 + s * x) (blended (1 + s * x) (1 + s * t))).
  { intro t. replace (1 + s * x) with (e v_max_maneuver_factor) at 1 by (rewrite M; unfold s; field; lra).
    replace (1 + s * x) with (1 + k * 50 * e v_V9 * e Aircraft_Design_LIFT_CURVE_SLOPE / (498 * e Aircraft_Design_WING_LOADING)) by (rewrite V; unfold s; field; lra).
    replace (1 + s * t) with (1 + k * 25 * t * e Aircraft_Design_LIFT_CURVE_SLOPE / (498 * e Aircraft_Design_WING_LOADING)) by (unfold s; field; lra).
    unfold blended, k, mu. clear - O. red_comp. red_comp_in O. rewrite O. reflexivity. }
  assert (G : is_derive (fun t => out (LoadFactorsSmooth op) (upd e v_min_dive_vel t) Aircraft_Wing_ULTIMATE_LOAD_FACTOR) x (15 / 10 * (1 / 2 * (1 / 2 * s)))).
  { eapply is_derive_ext; [intro t; symmetry; apply F|].
    assert (L : is_derive (fun t => 1 + s * t) x s) by (auto_derive; [exact I|ring]).
    pose proof (is_derive_comp (blended (1 + s * x)) (fun t => 1 + s * t) x _ _ (blended_slope _ C) L) as G1.
    assert (B : is_derive (blended (1 + s * x)) (blended (1 + s * x) (1 + s * x)) (1 / 2)) by (rewrite blended_same by exact C; now apply blended_slope).
    pose proof (is_derive_comp (blended (1 + s * x)) (fun t => blended (1 + s * x) (1 + s * t)) x _ _ B G1) as G2.
    pose proof (is_derive_scal _ x (15 / 10) _ G2) as G3. eapply is_derive_eq; [exact G3|].
    change (15 / 10 * (s * (1 / 2) * (1 / 2)) = 15 / 10 * (1 / 2 * (1 / 2 * s))). ring. }
  split; [exact G|]. unfold exact_at. fold x.
  assert (J : jac (LoadFactorsSmooth op) e Aircraft_Wing_ULTIMATE_LOAD_FACTOR v_min_dive_vel = 0).
  { clear - O. red_comp. red_comp_in O. rewrite O. reflexivity. }
  rewrite J. intro E. apply is_derive_unique in E. apply is_derive_unique in G. pose proof (eq_trans (eq_sym E) G). lra.
Qed.
Print Assumptions C62_dive_speed_refuted.
Example C62_witness_dive_speed : ~ exact_at (LoadFactorsSmooth unit_options) (given [(v_min_dive_vel, 2); (v_max_maneuver_factor, 1 + 88 / 100 * (2 / (322 / 10)) / (53 / 10 + 2 / (322 / 10)) * 25 * 2 / 498)]) Aircraft_Wing_ULTIMATE_LOAD_FACTOR v_min_dive_vel.
Proof. apply C62_dive_speed_refuted; cbn; try reflexivity; lra. Qed.
