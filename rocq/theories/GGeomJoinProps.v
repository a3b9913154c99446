(** Properties of GASP geometry, curves joined at the ends: claim C61. *)
From Coq Require Import Reals Lra Lia.
From Coquelicot Require Import Coquelicot.
From Verif Require Import Base Calc MathModel MathProofs Comp CompMore CompFun GGeomModel.
From Verif Require HamProofs.
Local Open Scope R_scope.

Lemma acos_derive x : -1 < x < 1 -> is_derive acos x (- / sqrt (1 - x * x)).
Proof.
  intro H. apply is_derive_Reals. 
  pose proof (derive_pt_acos x H) as D. 
  apply (derive_pt_eq_1 acos x _ (derivable_pt_acos x H)). rewrite D. unfold Rsqr, Rdiv. ring.
Qed.
(** Five of twenty one curves joined: the middle f, a cubic g below 0.05 and a cubic h above 0.95. *)
Definition joined (f g h : R -> R) (x : R) : R :=
  if (leb (5 / 100) x && leb x (1 - 5 / 100))%bool then f x
  else if (leb 0 x && ltb x (5 / 100))%bool then g x else if (leb x 1 && ltb (1 - 5 / 100) x)%bool then h x else 0.
Lemma joined_mid f g h x : 5 / 100 <= x <= 1 - 5 / 100 -> joined f g h x = f x.
Proof. intros [A B]. unfold joined. unfold leb. destruct (Rle_dec _ _); [|lra]. destruct (Rle_dec _ _); [|lra]. reflexivity. Qed.
Lemma joined_low f g h x : 0 <= x < 5 / 100 -> joined f g h x = g x.
Proof. intros [A B]. unfold joined. unfold leb, ltb. destruct (Rle_dec (5 / 100) x); [lra|]. destruct (Rle_dec 0 x); [|lra]. destruct (Rlt_dec _ _); [|lra]. reflexivity. Qed.
Lemma joined_high f g h x : 1 - 5 / 100 < x <= 1 -> joined f g h x = h x.
Proof.
  intros [A B]. unfold joined. unfold leb, ltb. destruct (Rle_dec (5 / 100) x); [|lra]. destruct (Rle_dec x (1 - 5 / 100)); [lra|].
  destruct (Rle_dec 0 x); [|lra]. destruct (Rlt_dec _ _); [lra|]. destruct (Rle_dec x 1); [|lra]. destruct (Rlt_dec _ _); [|lra]. reflexivity.
Qed.
Lemma joined_derive f g h f' g' h' x : 0 < x < 1 ->
  (forall y, 0 < y < 1 -> is_derive f y (f' y)) -> (forall y, is_derive g y (g' y)) -> (forall y, is_derive h y (h' y)) ->
  g (5 / 100) = f (5 / 100) -> g' (5 / 100) = f' (5 / 100) ->
  h (1 - 5 / 100) = f (1 - 5 / 100) -> h' (1 - 5 / 100) = f' (1 - 5 / 100) ->
  is_derive (joined f g h) x (joined f' g' h' x).
Proof.
  intros X F G H G0 G1 H0 H1.
  assert (N : forall a b, a < x < b -> locally x (fun t => a < t < b)).
  { intros a b L. apply (open_and (fun t => a < t) (fun t => t < b)); [apply open_gt|apply open_lt|exact L]. }
  destruct (Rlt_le_dec x (5 / 100)) as [A|A]; [|destruct (Rle_lt_dec x (1 - 5 / 100)) as [B|B]].
  - rewrite joined_low by lra. apply (is_derive_ext_loc g); [|apply G].
    generalize (N 0 (5 / 100) ltac:(lra)). apply filter_imp. intros t T. symmetry. apply joined_low. lra.
  - rewrite joined_mid by lra. destruct A as [A|A]; [destruct B as [B|B]|].
    + apply (is_derive_ext_loc f); [|apply F; lra].
      generalize (N _ _ (conj A B)). apply filter_imp. intros t T. symmetry. apply joined_mid. lra.
    + subst x. apply (HamProofs.glue_derive f h _ _ _ (5 / 100)); [lra|apply F; lra|rewrite <- H1; apply H|now symmetry| |].
      * intros t T. apply joined_mid. lra.
      * intros t T. destruct (proj1 T) as [L|<-]; [apply joined_high; lra|]. rewrite joined_mid by lra. now symmetry.
    + subst x. rewrite <- G1. apply (HamProofs.glue_derive g f _ _ _ (5 / 100)); [lra|apply G|rewrite G1; apply F; lra|exact G0| |].
      * intros t T. destruct (proj2 T) as [L| ->]; [apply joined_low; lra|]. rewrite joined_mid by lra. now symmetry.
      * intros t T. apply joined_mid. lra.
  - rewrite joined_high by lra. apply (is_derive_ext_loc h); [|apply H].
    generalize (N (1 - 5 / 100) 1 ltac:(lra)). apply filter_imp. intros t T. symmetry. apply joined_high. lra.
Qed.
Ltac on_reals := match goal with |- ?a = ?b => change (@eq R a b) end.
Lemma buried_f_derive y : 0 < y < 1 -> is_derive buried_f y (buried_df y).
Proof.
  intro H. unfold buried_f, buried_df.
  assert (E : is_derive (fun t => acos (2 * (5 / 10 - t))) y (2 / sqrt (1 - 4 * (5 / 10 - y) * (5 / 10 - y)))).
  { eapply is_derive_eq.
    - apply (is_derive_comp acos (fun t => 2 * (5 / 10 - t))); [apply acos_derive; lra|].
      instantiate (1 := -2). auto_derive; [trivial|on_reals; ring].
    - unfold scal. simpl. unfold mult. simpl. on_reals.
      replace (1 - 4 * (5 / 10 - y) * (5 / 10 - y)) with (1 - 2 * (5 / 10 - y) * (2 * (5 / 10 - y))) by ring. unfold Rdiv. ring. }
  pose proof PI_RGT_0.
  eapply is_derive_eq.
  - apply (is_derive_minus (fun _ => 1) (fun t => acos (2 * (5 / 10 - t)) / PI)).
    + apply @is_derive_const.
    + apply (is_derive_ext (fun t => scal (/ PI) (acos (2 * (5 / 10 - t))))); [intro t; unfold scal; simpl; unfold mult; simpl; unfold Rdiv; ring|].
      apply is_derive_scal. exact E.
  - unfold minus, plus, opp, zero, scal. simpl. unfold mult. simpl. unfold Rdiv. on_reals. ring.
Qed.
Lemma mount_f_derive y : 0 < y < 1 -> is_derive mount_f y (mount_df y).
Proof.
  intro H. unfold mount_f, mount_df.
  assert (P : 0 < 25 / 100 - (5 / 10 - y) ^ 2) by nra.
  auto_derive; [simpl in P; exact P|]. simpl in *.
  assert (0 < sqrt (25 / 100 - (5 / 10 - y) * ((5 / 10 - y) * 1))) by (now apply sqrt_lt_R0). 
  replace (25 / 100 + - ((5 / 10 + - y) * ((5 / 10 + - y) * 1))) with (25 / 100 - (5 / 10 - y) * ((5 / 10 - y) * 1)) by ring.
  on_reals. field. lra.
Qed.
Definition mount : R -> R := joined mount_f mount_g1 mount_g2.
Definition mount_slope : R -> R := joined mount_df mount_dg1 mount_dg2.
Definition buried : R -> R := joined buried_f buried_g1 buried_g2.
Definition buried_slope : R -> R := joined buried_df buried_dg1 buried_dg2.
Ltac cubic := auto_derive; [trivial|]; on_reals; field.
Lemma mount_derive x : 0 < x < 1 -> is_derive mount x (mount_slope x).
Proof.
  intro X. apply joined_derive; [exact X|exact mount_f_derive|..].
  - intro y. unfold mount_g1, mount_dg1. generalize (mount_f (5 / 100)) (mount_df (5 / 100)) (mount_d2f (5 / 100)). intros. cubic.
  - intro y. unfold mount_g2, mount_dg2. generalize (mount_f (1 - 5 / 100)) (mount_df (1 - 5 / 100)) (mount_d2f (1 - 5 / 100)). intros. cubic.
  - unfold mount_g1. cbv zeta. on_reals. field.
  - unfold mount_dg1. cbv zeta. on_reals. field.
  - unfold mount_g2. cbv zeta. on_reals. field.
  - unfold mount_dg2. cbv zeta. on_reals. field.
Qed.
Lemma buried_derive x : 0 < x < 1 -> is_derive buried x (buried_slope x).
Proof.
  intro X. apply joined_derive; [exact X|exact buried_f_derive|..].
  - intro y. unfold buried_g1, buried_dg1. generalize (buried_f (5 / 100)) (buried_df (5 / 100)) (buried_d2f (5 / 100)). intros. cubic.
  - intro y. unfold buried_g2, buried_dg2. generalize (buried_f (1 - 5 / 100)) (buried_df (1 - 5 / 100)) (buried_d2f (1 - 5 / 100)). intros. cubic.
  - unfold buried_g1. cbv zeta. on_reals. field.
  - unfold buried_dg1. cbv zeta. on_reals. field.
  - unfold buried_g2. cbv zeta. on_reals. field.
  - unfold buried_dg2. cbv zeta. on_reals. field.
Qed.
Global Instance UnaryDiff_mount : UnaryDiff' mount.
Proof. exists mount_slope (fun x => 0 < x < 1). exact mount_derive. Defined.
Global Instance UnaryDiff_buried : UnaryDiff' buried.
Proof. exists buried_slope (fun x => 0 < x < 1). exact buried_derive. Defined.

(** Components that agree have the same partials. *)
Lemma exact_same c c' dom : c_ins c = c_ins c' -> c_outs c = c_outs c' -> c_decl c = c_decl c' ->
  (forall e, c_run c e = c_run c' e) -> (forall e, c_jac c e = c_jac c' e) -> exact_partials c' dom -> exact_partials c dom.
Proof.
  intros I O D R J (A & B & E). unfold exact_partials, only_declared, exact_at, out, jac in *. rewrite I, O, D. split; [|split].
  - intros o Ho e He. rewrite R. now apply A.
  - intros e o i v. rewrite J. apply B.
  - intros e He o i Ho Hi. rewrite J. apply (is_derive_ext (fun t => match dget o (c_run c' (upd e i t)) with Some v => v | None => 0 end)).
    + intro t. now rewrite R.
    + now apply E.
Qed.

Definition ExposedWingTWJ_compute (op : options) (e : env) : list (string * R) :=
  let design_type := oe op Aircraft_Design_TYPE in
  let h_wing := e Aircraft_Wing_VERTICAL_MOUNT_LOCATION in
  let body_width := e Aircraft_Fuselage_AVG_DIAMETER in
  let sqt := mount h_wing in
  let b_fus := body_width * sqt in
  let wingspan := e Aircraft_Wing_SPAN in
  let wing_area := e Aircraft_Wing_AREA in
  let taper_ratio := e Aircraft_Wing_TAPER_RATIO in
  let root_chord_wing := 2 * wing_area / (wingspan * (1 + taper_ratio)) in
  let tip_chord := taper_ratio * root_chord_wing in
  let c_fus := root_chord_wing + 2 * b_fus * (tip_chord - root_chord_wing) / wingspan in
  let exp_wing_area := (wingspan / 2 - b_fus) * (c_fus + tip_chord) in
  let o_Wing_EXPOSED_AREA := exp_wing_area in
  [(Aircraft_Wing_EXPOSED_AREA, o_Wing_EXPOSED_AREA)].

Definition ExposedWingTWJ_partials (op : options) (e : env) : list (string * string * R) :=
  let design_type := oe op Aircraft_Design_TYPE in
  let h_wing := e Aircraft_Wing_VERTICAL_MOUNT_LOCATION in
  let body_width := e Aircraft_Fuselage_AVG_DIAMETER in
  let height_to_width := e Aircraft_Fuselage_HEIGHT_TO_WIDTH_RATIO in
  let sqt := mount h_wing in
  let d_sqt := mount_slope h_wing in
  let b_fus := body_width * sqt in
  let wingspan := e Aircraft_Wing_SPAN in
  let wing_area := e Aircraft_Wing_AREA in
  let taper_ratio := e Aircraft_Wing_TAPER_RATIO in
  let root_chord_wing := 2 * wing_area / (wingspan * (1 + taper_ratio)) in
  let tip_chord := taper_ratio * root_chord_wing in
  let c_fus := root_chord_wing + 2 * b_fus * (tip_chord - root_chord_wing) / wingspan in
  let d_b_fus_d_hwing := body_width * d_sqt in
  let d_b_fus_d_body_width := sqt in
  let d_c_fus_d_hwing := 4 * d_b_fus_d_hwing * (taper_ratio - 1) / (taper_ratio + 1) * wing_area / wingspan ^ 2 in
  let d_c_fus_d_body_width := 4 * d_b_fus_d_body_width * (taper_ratio - 1) / (taper_ratio + 1) * wing_area / wingspan
      ^ 2 in
  let d_c_fus_d_wing_area := 2 / (1 + taper_ratio) * (1 / wingspan + b_fus * 2 * (taper_ratio - 1) / wingspan ^ 2) in
  let d_c_fus_d_wingspan := - 2 * wing_area / (1 + taper_ratio) * (1 / wingspan ^ 2 + b_fus * 4 * (taper_ratio - 1) /
      wingspan ^ 3) in
  let d_c_fus_d_taper_ratio := - 2 * wing_area / (1 + taper_ratio) ^ 2 / wingspan + b_fus * 8 * wing_area / wingspan ^
      2 / (taper_ratio + 1) ^ 2 in
  let d_exp_area_d_hwing := - d_b_fus_d_hwing * c_fus + (wingspan * (5 / 10) - b_fus) * d_c_fus_d_hwing -
      d_b_fus_d_hwing * 2 * wing_area * taper_ratio / wingspan / (1 + taper_ratio) in
  let d_Wing_EXPOSED_AREA__Wing_VERTICAL_MOUNT_LOCATION := d_exp_area_d_hwing in
  let d_exp_area_d_body_width := - d_b_fus_d_body_width * c_fus + (wingspan * (5 / 10) - b_fus) * d_c_fus_d_body_width
      - d_b_fus_d_body_width * 2 * wing_area * taper_ratio / wingspan / (1 + taper_ratio) in
  let d_Wing_EXPOSED_AREA__Fuselage_AVG_DIAMETER := d_exp_area_d_body_width in
  let d_exp_area_d_wingspan := 5 / 10 * c_fus + (5 / 10 * wingspan - b_fus) * d_c_fus_d_wingspan + b_fus * 2 *
      wing_area * taper_ratio / wingspan ^ 2 / (1 + taper_ratio) in
  let d_Wing_EXPOSED_AREA__Wing_SPAN := d_exp_area_d_wingspan in
  let d_exp_area_d_taper_ratio := (5 / 10 * wingspan - b_fus) * d_c_fus_d_taper_ratio + wing_area / (1 + taper_ratio)
      ^ 2 - b_fus * 2 * wing_area / wingspan / (1 + taper_ratio) ^ 2 in
  let d_Wing_EXPOSED_AREA__Wing_TAPER_RATIO := d_exp_area_d_taper_ratio in
  let d_exp_area_d_wing_area := (5 / 10 * wingspan - b_fus) * d_c_fus_d_wing_area + taper_ratio / (1 + taper_ratio) -
      b_fus * 2 * taper_ratio / wingspan / (1 + taper_ratio) in
  let d_Wing_EXPOSED_AREA__Wing_AREA := d_exp_area_d_wing_area in
  [(Aircraft_Wing_EXPOSED_AREA, Aircraft_Wing_VERTICAL_MOUNT_LOCATION,
      d_Wing_EXPOSED_AREA__Wing_VERTICAL_MOUNT_LOCATION);
   (Aircraft_Wing_EXPOSED_AREA, Aircraft_Fuselage_AVG_DIAMETER, d_Wing_EXPOSED_AREA__Fuselage_AVG_DIAMETER);
   (Aircraft_Wing_EXPOSED_AREA, Aircraft_Wing_SPAN, d_Wing_EXPOSED_AREA__Wing_SPAN);
   (Aircraft_Wing_EXPOSED_AREA, Aircraft_Wing_TAPER_RATIO, d_Wing_EXPOSED_AREA__Wing_TAPER_RATIO);
   (Aircraft_Wing_EXPOSED_AREA, Aircraft_Wing_AREA, d_Wing_EXPOSED_AREA__Wing_AREA)].

Definition ExposedWingTWJ (op : options) : comp := {|
  c_ins := [Aircraft_Wing_VERTICAL_MOUNT_LOCATION;
            Aircraft_Fuselage_AVG_DIAMETER;
            Aircraft_Fuselage_HEIGHT_TO_WIDTH_RATIO;
            Aircraft_Wing_SPAN;
            Aircraft_Wing_TAPER_RATIO;
            Aircraft_Wing_AREA];
  c_outs := [Aircraft_Wing_EXPOSED_AREA];
  c_decl := [(Aircraft_Wing_EXPOSED_AREA, Aircraft_Wing_VERTICAL_MOUNT_LOCATION, 0);
             (Aircraft_Wing_EXPOSED_AREA, Aircraft_Fuselage_AVG_DIAMETER, 0);
             (Aircraft_Wing_EXPOSED_AREA, Aircraft_Wing_SPAN, 0);
             (Aircraft_Wing_EXPOSED_AREA, Aircraft_Wing_TAPER_RATIO, 0);
             (Aircraft_Wing_EXPOSED_AREA, Aircraft_Wing_AREA, 0)];
  c_run := ExposedWingTWJ_compute op; c_jac := ExposedWingTWJ_partials op |}.

Definition ExposedWingBWBJ_compute (op : options) (e : env) : list (string * R) :=
  let design_type := oe op Aircraft_Design_TYPE in
  let h_wing := e Aircraft_Wing_VERTICAL_MOUNT_LOCATION in
  let body_width := e Aircraft_Fuselage_AVG_DIAMETER in
  let sqt := mount h_wing in
  let cabin_height := body_width * e Aircraft_Fuselage_HEIGHT_TO_WIDTH_RATIO in
  let b_fus := 5 / 10 * (body_width - cabin_height) + cabin_height * sqt in
  let wingspan := e Aircraft_Wing_SPAN in
  let wing_area := e Aircraft_Wing_AREA in
  let taper_ratio := e Aircraft_Wing_TAPER_RATIO in
  let root_chord_wing := 2 * wing_area / (wingspan * (1 + taper_ratio)) in
  let tip_chord := taper_ratio * root_chord_wing in
  let c_fus := root_chord_wing + 2 * b_fus * (tip_chord - root_chord_wing) / wingspan in
  let exp_wing_area := (wingspan / 2 - b_fus) * (c_fus + tip_chord) in
  let o_Wing_EXPOSED_AREA := exp_wing_area in
  [(Aircraft_Wing_EXPOSED_AREA, o_Wing_EXPOSED_AREA)].

Definition ExposedWingBWBJ_partials (op : options) (e : env) : list (string * string * R) :=
  let design_type := oe op Aircraft_Design_TYPE in
  let h_wing := e Aircraft_Wing_VERTICAL_MOUNT_LOCATION in
  let body_width := e Aircraft_Fuselage_AVG_DIAMETER in
  let height_to_width := e Aircraft_Fuselage_HEIGHT_TO_WIDTH_RATIO in
  let sqt := mount h_wing in
  let d_sqt := mount_slope h_wing in
  let cabin_height := body_width * height_to_width in
  let b_fus := 5 / 10 * (body_width - cabin_height) + cabin_height * sqt in
  let wingspan := e Aircraft_Wing_SPAN in
  let wing_area := e Aircraft_Wing_AREA in
  let taper_ratio := e Aircraft_Wing_TAPER_RATIO in
  let root_chord_wing := 2 * wing_area / (wingspan * (1 + taper_ratio)) in
  let tip_chord := taper_ratio * root_chord_wing in
  let c_fus := root_chord_wing + 2 * b_fus * (tip_chord - root_chord_wing) / wingspan in
  let d_b_fus_d_hwing := body_width * height_to_width * d_sqt in
  let d_b_fus_d_body_width := 5 / 10 * (1 - height_to_width) + height_to_width * sqt in
  let d_b_fus_d_height_to_width := - 5 / 10 * body_width + body_width * sqt in
  let d_c_fus_d_height_to_width := 4 * d_b_fus_d_height_to_width * (taper_ratio - 1) / (taper_ratio + 1) * wing_area /
      wingspan ^ 2 in
  let d_exp_area_d_height_to_width := - d_b_fus_d_height_to_width * c_fus + (wingspan * (5 / 10) - b_fus) *
      d_c_fus_d_height_to_width - d_b_fus_d_height_to_width * 2 * wing_area * taper_ratio / wingspan / (1 +
      taper_ratio) in
  let d_Wing_EXPOSED_AREA__Fuselage_HEIGHT_TO_WIDTH_RATIO := d_exp_area_d_height_to_width in
  let d_c_fus_d_hwing := 4 * d_b_fus_d_hwing * (taper_ratio - 1) / (taper_ratio + 1) * wing_area / wingspan ^ 2 in
  let d_c_fus_d_body_width := 4 * d_b_fus_d_body_width * (taper_ratio - 1) / (taper_ratio + 1) * wing_area / wingspan
      ^ 2 in
  let d_c_fus_d_wing_area := 2 / (1 + taper_ratio) * (1 / wingspan + b_fus * 2 * (taper_ratio - 1) / wingspan ^ 2) in
  let d_c_fus_d_wingspan := - 2 * wing_area / (1 + taper_ratio) * (1 / wingspan ^ 2 + b_fus * 4 * (taper_ratio - 1) /
      wingspan ^ 3) in
  let d_c_fus_d_taper_ratio := - 2 * wing_area / (1 + taper_ratio) ^ 2 / wingspan + b_fus * 8 * wing_area / wingspan ^
      2 / (taper_ratio + 1) ^ 2 in
  let d_exp_area_d_hwing := - d_b_fus_d_hwing * c_fus + (wingspan * (5 / 10) - b_fus) * d_c_fus_d_hwing -
      d_b_fus_d_hwing * 2 * wing_area * taper_ratio / wingspan / (1 + taper_ratio) in
  let d_Wing_EXPOSED_AREA__Wing_VERTICAL_MOUNT_LOCATION := d_exp_area_d_hwing in
  let d_exp_area_d_body_width := - d_b_fus_d_body_width * c_fus + (wingspan * (5 / 10) - b_fus) * d_c_fus_d_body_width
      - d_b_fus_d_body_width * 2 * wing_area * taper_ratio / wingspan / (1 + taper_ratio) in
  let d_Wing_EXPOSED_AREA__Fuselage_AVG_DIAMETER := d_exp_area_d_body_width in
  let d_exp_area_d_wingspan := 5 / 10 * c_fus + (5 / 10 * wingspan - b_fus) * d_c_fus_d_wingspan + b_fus * 2 *
      wing_area * taper_ratio / wingspan ^ 2 / (1 + taper_ratio) in
  let d_Wing_EXPOSED_AREA__Wing_SPAN := d_exp_area_d_wingspan in
  let d_exp_area_d_taper_ratio := (5 / 10 * wingspan - b_fus) * d_c_fus_d_taper_ratio + wing_area / (1 + taper_ratio)
      ^ 2 - b_fus * 2 * wing_area / wingspan / (1 + taper_ratio) ^ 2 in
  let d_Wing_EXPOSED_AREA__Wing_TAPER_RATIO := d_exp_area_d_taper_ratio in
  let d_exp_area_d_wing_area := (5 / 10 * wingspan - b_fus) * d_c_fus_d_wing_area + taper_ratio / (1 + taper_ratio) -
      b_fus * 2 * taper_ratio / wingspan / (1 + taper_ratio) in
  let d_Wing_EXPOSED_AREA__Wing_AREA := d_exp_area_d_wing_area in
  [(Aircraft_Wing_EXPOSED_AREA, Aircraft_Fuselage_HEIGHT_TO_WIDTH_RATIO,
      d_Wing_EXPOSED_AREA__Fuselage_HEIGHT_TO_WIDTH_RATIO);
   (Aircraft_Wing_EXPOSED_AREA, Aircraft_Wing_VERTICAL_MOUNT_LOCATION,
       d_Wing_EXPOSED_AREA__Wing_VERTICAL_MOUNT_LOCATION);
   (Aircraft_Wing_EXPOSED_AREA, Aircraft_Fuselage_AVG_DIAMETER, d_Wing_EXPOSED_AREA__Fuselage_AVG_DIAMETER);
   (Aircraft_Wing_EXPOSED_AREA, Aircraft_Wing_SPAN, d_Wing_EXPOSED_AREA__Wing_SPAN);
   (Aircraft_Wing_EXPOSED_AREA, Aircraft_Wing_TAPER_RATIO, d_Wing_EXPOSED_AREA__Wing_TAPER_RATIO);
   (Aircraft_Wing_EXPOSED_AREA, Aircraft_Wing_AREA, d_Wing_EXPOSED_AREA__Wing_AREA)].

Definition ExposedWingBWBJ (op : options) : comp := {|
  c_ins := [Aircraft_Wing_VERTICAL_MOUNT_LOCATION;
            Aircraft_Fuselage_AVG_DIAMETER;
            Aircraft_Fuselage_HEIGHT_TO_WIDTH_RATIO;
            Aircraft_Wing_SPAN;
            Aircraft_Wing_TAPER_RATIO;
            Aircraft_Wing_AREA];
  c_outs := [Aircraft_Wing_EXPOSED_AREA];
  c_decl := [(Aircraft_Wing_EXPOSED_AREA, Aircraft_Wing_VERTICAL_MOUNT_LOCATION, 0);
             (Aircraft_Wing_EXPOSED_AREA, Aircraft_Fuselage_AVG_DIAMETER, 0);
             (Aircraft_Wing_EXPOSED_AREA, Aircraft_Wing_SPAN, 0);
             (Aircraft_Wing_EXPOSED_AREA, Aircraft_Wing_TAPER_RATIO, 0);
             (Aircraft_Wing_EXPOSED_AREA, Aircraft_Wing_AREA, 0);
             (Aircraft_Wing_EXPOSED_AREA, Aircraft_Fuselage_HEIGHT_TO_WIDTH_RATIO, 0)];
  c_run := ExposedWingBWBJ_compute op; c_jac := ExposedWingBWBJ_partials op |}.

Ltac red_comp ::= lazy - [Rplus Rmult Rminus Ropp Rdiv Rinv IZR INR pw exp ln sqrt sin cos tan atan asin acos PI pow Rabs ltb leb eqb on ob oe Rmax Rmin floorR modR sin_int4 dydx_sin_int4 sigf dsigf smaxf dsmaxf log10 enum_is mount mount_slope buried buried_slope not Rlt Rle in_range is_derive].
Ltac red_comp_in H ::= lazy - [Rplus Rmult Rminus Ropp Rdiv Rinv IZR INR pw exp ln sqrt sin cos tan atan asin acos PI pow Rabs ltb leb eqb on ob oe Rmax Rmin floorR modR sin_int4 dydx_sin_int4 sigf dsigf smaxf dsmaxf log10 enum_is mount mount_slope buried buried_slope not Rlt Rle in_range is_derive] in H.

Ltac by_region := repeat (match goal with |- context [if (?a && ?b)%bool then _ else _] => destruct (a && b)%bool end; try reflexivity).
Lemma TW_same op dom : exact_partials (ExposedWingTWJ op) dom -> exact_partials (ExposedWingTW op) dom.
Proof.
  apply exact_same; try reflexivity; intro e; cbv beta iota delta [c_run c_jac ExposedWingTW ExposedWingTWJ].
  - unfold ExposedWingTW_compute, ExposedWingTWJ_compute, mount, joined.
    by_region.
  - unfold ExposedWingTW_partials, ExposedWingTWJ_partials, mount, mount_slope, joined.
    by_region.
Qed.
Lemma BWB_same op dom : exact_partials (ExposedWingBWBJ op) dom -> exact_partials (ExposedWingBWB op) dom.
Proof.
  apply exact_same; try reflexivity; intro e; cbv beta iota delta [c_run c_jac ExposedWingBWB ExposedWingBWBJ].
  - unfold ExposedWingBWB_compute, ExposedWingBWBJ_compute, mount, joined.
    by_region.
  - unfold ExposedWingBWB_partials, ExposedWingBWBJ_partials, mount, mount_slope, joined.
    by_region.
Qed.

Definition PercentJ (op : options) : comp := {|
  c_ins := [Aircraft_Nacelle_PERCENT_DIAM_BURIED_IN_FUSELAGE]; c_outs := [v_percent_exposed];
  c_decl := [(v_percent_exposed, Aircraft_Nacelle_PERCENT_DIAM_BURIED_IN_FUSELAGE, 0)];
  c_run := fun e => [(v_percent_exposed, buried (e Aircraft_Nacelle_PERCENT_DIAM_BURIED_IN_FUSELAGE))];
  c_jac := fun e => [(v_percent_exposed, Aircraft_Nacelle_PERCENT_DIAM_BURIED_IN_FUSELAGE, buried_slope (e Aircraft_Nacelle_PERCENT_DIAM_BURIED_IN_FUSELAGE))] |}.
Lemma Percent_same op dom : exact_partials (PercentJ op) dom -> exact_partials (PercentNotInFuselage op) dom.
Proof.
  apply exact_same; try reflexivity; intro e; cbv beta iota delta [c_run c_jac PercentNotInFuselage PercentJ].
  all: unfold PercentNotInFuselage_compute, PercentNotInFuselage_partials, buried, buried_slope, joined; by_region.
Qed.
Ltac mid_value :=
  red_comp; cbv [on ob oe unit_options]; branches; decided;
  repeat match goal with H : (_ && _)%bool = true |- _ => apply andb_prop in H; destruct H | H : (_ && _)%bool = false |- _ => apply Bool.andb_false_iff in H; destruct H end; decided;
  match goal with |- context [sqrt ?x] => replace x with ((1 / 2) * (1 / 2)) by field; rewrite sqrt_square by lra end; field.
Global Opaque mount mount_slope buried buried_slope.
Theorem C61_ExposedWingTW op : exact_partials (ExposedWingTW op) (fun e =>
  positive [Aircraft_Wing_VERTICAL_MOUNT_LOCATION; Aircraft_Fuselage_AVG_DIAMETER; Aircraft_Wing_SPAN; Aircraft_Wing_TAPER_RATIO; Aircraft_Wing_AREA] e /\ e Aircraft_Wing_VERTICAL_MOUNT_LOCATION < 1).
Proof. apply TW_same. exact_start; more_goals. Qed.
Print Assumptions C61_ExposedWingTW.
Theorem C61_ExposedWingBWB op : exact_partials (ExposedWingBWB op) (fun e =>
  positive [Aircraft_Wing_VERTICAL_MOUNT_LOCATION; Aircraft_Fuselage_AVG_DIAMETER; Aircraft_Fuselage_HEIGHT_TO_WIDTH_RATIO; Aircraft_Wing_SPAN; Aircraft_Wing_TAPER_RATIO; Aircraft_Wing_AREA] e /\ e Aircraft_Wing_VERTICAL_MOUNT_LOCATION < 1).
Proof. apply BWB_same. exact_start; more_goals. Qed.
Print Assumptions C61_ExposedWingBWB.

Theorem C61_PercentNotInFuselage op : exact_partials (PercentNotInFuselage op) (fun e => 0 < e Aircraft_Nacelle_PERCENT_DIAM_BURIED_IN_FUSELAGE < 1).
Proof. apply Percent_same. exact_start; exact_prepare. auto_derive; [lra|on_reals; ring]. Qed.
Print Assumptions C61_PercentNotInFuselage.

(** The exposed share is one at no burial, zero at full burial and a half in the middle. *)
Theorem C61_exposed_share_ends op e :
  let share x := out (PercentNotInFuselage op) (upd e Aircraft_Nacelle_PERCENT_DIAM_BURIED_IN_FUSELAGE x) v_percent_exposed in
  share 0 = 1 /\ share 1 = 0 /\ share (1 / 2) = 1 / 2.
Proof.
  Transparent buried.
  assert (S : forall x, out (PercentNotInFuselage op) (upd e Aircraft_Nacelle_PERCENT_DIAM_BURIED_IN_FUSELAGE x) v_percent_exposed = buried x).
  { intro x. unfold buried, joined. cbn -[leb ltb acos PI buried_g1 buried_g2]. by_region. }
  cbv beta zeta. rewrite !S. unfold buried. pose proof PI_RGT_0. split; [|split].
  - rewrite joined_low by lra. unfold buried_g1. ring.
  - rewrite joined_high by lra. unfold buried_g2. ring.
  - rewrite joined_mid by lra. unfold buried_f. replace (2 * (5 / 10 - 1 / 2)) with 0 by lra. rewrite acos_0. field. lra.
Qed.
Print Assumptions C61_exposed_share_ends.
Example C61_witness_ExposedWingTW : out (ExposedWingTW unit_options) (fun n => if String.eqb n Aircraft_Wing_VERTICAL_MOUNT_LOCATION then 1 / 2 else if String.eqb n Aircraft_Wing_SPAN then 2 else 1) Aircraft_Wing_EXPOSED_AREA = 1 / 2.
Proof. mid_value. Qed.
Example C61_witness_ExposedWingBWB : out (ExposedWingBWB unit_options) (fun n => if String.eqb n Aircraft_Wing_VERTICAL_MOUNT_LOCATION then 1 / 2 else if String.eqb n Aircraft_Wing_SPAN then 2 else 1) Aircraft_Wing_EXPOSED_AREA = 1 / 2.
Proof. mid_value. Qed.
