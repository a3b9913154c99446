(** The atmosphere component for any table. *)
From Coq Require Import Reals Lra Lia Psatz.
From Coquelicot Require Import Coquelicot.
From Verif Require Import Base Calc MathModel MathProofs Comp Vec CompMore AtmModel.
Open Scope list_scope.
Open Scope string_scope.
Local Open Scope R_scope.

(** ** The bin of an altitude *)
Definition sorted (t : table) : Prop := forall i j, (i < j < size t)%nat -> alt t i < alt t j.

Lemma search_spec a h : forall m i, let r := search a h i m in
  (i <= r <= i + m)%nat /\ (forall j, (i <= j < r)%nat -> a j < h) /\ ((r < i + m)%nat -> h <= a r).
Proof.
  induction m as [|m IH]; intro i; cbn.
  - repeat split; intros; lia.
  - destruct (leb h (a i)) eqn:E.
    + apply leb_true in E. repeat split; intros; try lia. exact E.
    + apply leb_false in E. destruct (IH (S i)) as (A & B & C). repeat split; try lia.
      * intros j J. destruct (Nat.eq_dec j i) as [->|N]; [exact E|apply B; lia].
      * intro L. apply C. lia.
Qed.

Lemma bin_spec t h : (bin t h <= size t)%nat /\ (forall j, (j < bin t h)%nat -> alt t j < h) /\ ((bin t h < size t)%nat -> h <= alt t (bin t h)).
Proof.
  destruct (search_spec (alt t) h (size t) 0) as (A & B & C). unfold bin. repeat split; [lia|intros; apply B; lia|intro; apply C; lia].
Qed.

Lemma search_locally a h : forall m i, (forall j, (i <= j < i + m)%nat -> h <> a j) -> locally h (fun y => search a y i m = search a h i m).
Proof.
  induction m as [|m IH]; intros i N; [apply filter_forall; reflexivity|].
  assert (L : locally h (fun y => leb y (a i) = leb h (a i))).
  { specialize (N i ltac:(lia)). destruct (Rlt_le_dec h (a i)) as [Lt|Lt].
    - apply (filter_imp (fun y => y < a i)); [|apply (open_lt (a i)); exact Lt].
      intros y Y. rewrite !leb_intro by lra. reflexivity.
    - apply (filter_imp (fun y => a i < y)); [|apply (open_gt (a i)); lra].
      intros y Y. rewrite !leb_intro_false by lra. reflexivity. }
  specialize (IH (S i) ltac:(intros; apply N; lia)).
  generalize (filter_and _ _ L IH). apply filter_imp. intros y (E1 & E2). cbn. now rewrite E1, E2.
Qed.

(** The bin is the only position that keeps the altitudes below on the left and the others on the right (searchsorted,
    side left). *)
Theorem C35_bin t h : sorted t ->
  forall i, bin t h = i <-> (i <= size t)%nat /\ (forall j, (j < i)%nat -> alt t j < h) /\ (forall j, (i <= j < size t)%nat -> h <= alt t j).
Proof.
  intros S i. destruct (bin_spec t h) as (A & B & C). split.
  - intros <-. split; [exact A|split; [exact B|]]. intros j J. specialize (C ltac:(lia)).
    destruct (Nat.eq_dec j (bin t h)) as [->|N]; [exact C|]. specialize (S (bin t h) j ltac:(lia)). lra.
  - intros (L & P & Q). destruct (lt_eq_lt_dec (bin t h) i) as [[Lt|E]|Lt]; [|exact E|].
    + specialize (P _ Lt). specialize (C ltac:(lia)). lra.
    + specialize (B _ Lt). specialize (Q i ltac:(lia)). lra.
Qed.
Print Assumptions C35_bin.
Example C35_witness_bin : let t := {| size := 3; alt := INR; akima_T := fun _ => {| k0 := 0; k1 := 0; k2 := 0; k3 := 0 |};
    akima_P := fun _ => {| k0 := 0; k1 := 0; k2 := 0; k3 := 0 |}; akima_rho := fun _ => {| k0 := 0; k1 := 0; k2 := 0; k3 := 0 |};
    akima_dT := fun _ => {| k0 := 0; k1 := 0; k2 := 0; k3 := 0 |} |} in sorted t /\ bin t 1 = 1%nat.
Proof.
  cbv zeta. split; [intros i j (H & _); cbn; apply lt_INR, H|]. unfold bin. cbn.
  rewrite leb_intro_false by lra. now rewrite leb_intro by lra.
Qed.

(** ** Derivatives of the table look-up *)
Definition off_points (t : table) (z : R) : Prop := forall j, (j < size t)%nat -> z <> alt t j.

Lemma cubic_derive c x : is_derive (cubic_value c) x (cubic_slope c x).
Proof. unfold cubic_value, cubic_slope. auto_derive; [trivial|ring]. Qed.

Lemma look_derive t f z : off_points t z -> is_derive (look t f) z (slope t f z).
Proof.
  intro N. unfold slope.
  apply (is_derive_ext_loc (fun y => cubic_value (f t (bin t z)) (y - bin_left t (bin t z)))).
  - pose proof (search_locally (alt t) z (size t) 0 ltac:(intros; apply N; lia)) as L. revert L. apply filter_imp.
    intros y E. unfold look, offset, bin in *. now rewrite E.
  - unfold offset. unfold cubic_value, cubic_slope. auto_derive; [trivial|ring].
Qed.

Lemma geopotential_derive a h : R0 a + h <> 0 -> is_derive (geopotential a) h (dz_dh a h).
Proof.
  intro N. unfold geopotential, dz_dh. destruct (geometric a).
  - auto_derive; [exact N|field; exact N].
  - apply (is_derive_id (K := R_AbsRing)).
Qed.

Ltac dval D := let E := fresh in pose proof (is_derive_unique _ _ _ D) as E;
  match type of E with Derive ?F ?z = ?s => change (Derive (fun x => F x) z = s) in E; rewrite E; clear E end.

(** ** Exact partials *)
Definition atm_dom (a : air) (t : table) (e : env) : Prop :=
  let z := geopotential a (e v_ALTITUDE) in
  R0 a + e v_ALTITUDE <> 0 /\ off_points t z /\ 0 < air_temperature a t z /\ 0 < K a /\
  air_pressure t z <> 0 /\ look t akima_rho z <> 0 /\ / look t akima_rho z + R_air a * dt a * / air_pressure t z <> 0 /\
  air_temperature a t z + S_air a <> 0.

Lemma chain (F : R -> R) a h s : R0 a + h <> 0 -> is_derive F (geopotential a h) s ->
  is_derive (fun t => F (geopotential a t)) h (s * dz_dh a h).
Proof.
  intros N D. eapply is_derive_eq; [apply (is_derive_comp F (geopotential a)); [exact D|apply geopotential_derive, N]|].
  unfold scal. cbn. unfold mult. cbn. ring.
Qed.

Lemma temperature_derive a t z : off_points t z -> is_derive (air_temperature a t) z (slope t akima_T z).
Proof.
  intro N. unfold air_temperature. eapply is_derive_eq; [apply (is_derive_plus (look t akima_T) (fun _ => dt a)); [apply look_derive, N|apply (is_derive_const (V := R_NormedModule))]|].
  unfold plus, zero. cbn. ring.
Qed.

Lemma sound_derive a t z : off_points t z -> 0 < air_temperature a t z -> 0 < K a -> is_derive (air_sound a t) z (sound_slope a t z).
Proof.
  intros N T Kp. pose proof (temperature_derive a t z N) as D. unfold air_sound, sound_slope. fold (air_temperature a t z).
  change (fun z => sqrt (K a * (look t akima_T z + dt a))) with (fun z => sqrt (K a * air_temperature a t z)).
  assert (P : 0 < K a * air_temperature a t z) by (apply Rmult_lt_0_compat; assumption).
  pose proof (sqrt_lt_R0 _ P). change (look t akima_T z + dt a) with (air_temperature a t z).
  auto_derive; [split; [eexists; exact D|auto]|]. dval D. field. lra.
Qed.

Lemma density_derive a t z : off_points t z -> air_pressure t z <> 0 -> look t akima_rho z <> 0 ->
  / look t akima_rho z + R_air a * dt a * / air_pressure t z <> 0 -> is_derive (air_density a t) z (density_slope a t z).
Proof.
  intros N P Q D. pose proof (look_derive t akima_P z N) as DP. pose proof (look_derive t akima_rho z N) as DR.
  unfold air_density, density_slope, air_pressure in *. auto_derive.
  - repeat split; try assumption; eexists; eassumption.
  - dval DP; dval DR.
    revert P Q D. generalize (look t akima_P z) (look t akima_rho z) (slope t akima_P z) (slope t akima_rho z).
    intros p r dp dr P Q D. assert (E : p + R_air a * dt a * r <> 0).
    { intro Z. apply D. replace (/ r + R_air a * dt a * / p) with ((p + R_air a * dt a * r) / (r * p)) by (field; auto). rewrite Z. unfold Rdiv. ring. }
    field. repeat split; try assumption.
Qed.

Lemma viscosity_derive a t z : off_points t z -> 0 < air_temperature a t z -> air_temperature a t z + S_air a <> 0 ->
  is_derive (air_viscosity a t) z (viscosity_slope a t z).
Proof.
  intros N T S. pose proof (temperature_derive a t z N) as D. unfold air_viscosity, viscosity_slope.
  change (look t akima_T z + dt a) with (air_temperature a t z).
  change (fun z => beta a * pw (15 / 10) (look t akima_T z + dt a) * / (look t akima_T z + dt a + S_air a))
    with (fun z => beta a * pw (15 / 10) (air_temperature a t z) * / (air_temperature a t z + S_air a)).
  pose proof (pw_derive (15 / 10) _ T) as DP. 
  assert (G : is_derive (fun x => beta a * pw (15 / 10) x * / (x + S_air a)) (air_temperature a t z)
    (15 / 10 * beta a * sqrt (air_temperature a t z) * / (air_temperature a t z + S_air a)
     - beta a * pw (15 / 10) (air_temperature a t z) * / (air_temperature a t z + S_air a) ^ 2)).
  { auto_derive; [auto|].
    rewrite (sqrt_pw _ T). replace (15 / 10 - 1) with (1 / 2) by field. field. exact S. }
  eapply is_derive_eq; [apply (is_derive_comp (fun x => beta a * pw (15 / 10) x * / (x + S_air a)) (air_temperature a t)); [exact G|exact D]|].
  unfold scal. cbn [scal]. cbn. unfold mult. cbn. ring.
Qed.

Theorem C35_AtmosphereComp a t :
  exact_nodes [] (AtmosphereComp a t) (atm_dom a t) [(v_dsos, v_ALTITUDE)].
Proof.
  apply nodes_except. split; [|split].
  - intros o H e _. cbn in H. repeat (destruct H as [<-|H]; [discriminate|]). destruct H.
  - apply only_declared_check. reflexivity.
  - intros e (H0 & N & T & Kp & P & Q & D & S) o i Ho Hi NB. cbn in Hi. destruct Hi as [<-|[]]. unfold exact_at.
    cbn in Ho. destruct Ho as [<-|[<-|[<-|[<-|[<-|[<-|[]]]]]]].
    + apply (chain (air_temperature a t)); [exact H0|apply temperature_derive, N].
    + apply (chain (air_pressure t)); [exact H0|apply look_derive, N].
    + apply (chain (air_density a t)); [exact H0|apply density_derive; assumption].
    + apply (chain (air_viscosity a t)); [exact H0|apply viscosity_derive; assumption].
    + apply (chain (air_sound a t)); [exact H0|apply sound_derive; assumption].
    + exfalso. apply NB. left. reflexivity.
Qed.
Print Assumptions C35_AtmosphereComp.

(** One point at altitude 0, temperature 300 - z, pressure 100 - z, density 1. *)
Definition line (p q : R) : coef := {| k0 := p; k1 := q; k2 := 0; k3 := 0 |}.
Definition table_example : table := {| size := 1; alt := fun _ => 0;
  akima_T := fun _ => line 300 (-1); akima_P := fun _ => line 100 (-1); akima_rho := fun _ => line 1 0; akima_dT := fun _ => line (-1) 0 |}.
Definition air_example (g : bool) : air := {| R0 := 10; R_air := 1; K := 1; S_air := 100; beta := 1; dt := 0; geometric := g |}.
Lemma look_example f z : (forall i, f table_example i = f table_example 0%nat) -> look table_example f z = cubic_value (f table_example 0%nat) z.
Proof. intro H. unfold look, offset, bin. cbn. destruct (leb z 0); cbn; [|rewrite H]; f_equal; ring. Qed.
Example C35_witness_AtmosphereComp : atm_dom (air_example true) table_example (fun _ => 10) /\
  out (AtmosphereComp (air_example true) table_example) (fun _ => 10) v_TEMPERATURE = 295.
Proof.
  assert (Z : geopotential (air_example true) 10 = 5) by (unfold geopotential; cbn; field).
  split.
  - unfold atm_dom. rewrite Z. unfold air_temperature, air_pressure, off_points.
    rewrite !look_example by reflexivity. unfold cubic_value. cbn. repeat split; try lra. intros j _. lra.
  - unfold out. cbn -[geopotential air_temperature]. rewrite Z. unfold air_temperature. rewrite look_example by reflexivity.
    unfold cubic_value. cbn. lra.
Qed.

(** ** The derivative of the speed of sound *)
(** The output dsos_dh is the derivative of the speed of sound by geopotential altitude where the table of temperature
    slopes agrees with the temperature table, and then its own partial is exact in the geopotential mode when the two
    agree around that altitude. *)
Theorem C35_dsos_output a t z : off_points t z -> 0 < air_temperature a t z -> 0 < K a ->
  (is_derive (air_sound a t) z (air_dsos a t z) <-> look t akima_dT z = slope t akima_T z).
Proof.
  intros N T Kp. pose proof (sound_derive a t z N T Kp) as D.
  assert (P : 0 < K a * (look t akima_T z + dt a)) by (apply Rmult_lt_0_compat; assumption). pose proof (sqrt_lt_R0 _ P) as SP.
  unfold sound_slope, air_dsos in *. split.
  - intro E. apply is_derive_unique in D. apply is_derive_unique in E. rewrite D in E.
    apply (Rmult_eq_reg_l (5 / 10 * / sqrt (K a * (look t akima_T z + dt a)) * K a)).
    + replace (5 / 10 * / sqrt (K a * (look t akima_T z + dt a)) * K a * look t akima_dT z) with (5 / 10 * / sqrt (K a * (look t akima_T z + dt a)) * look t akima_dT z * K a) by ring. symmetry. exact E.
    + assert (0 < / sqrt (K a * (look t akima_T z + dt a))) by (apply Rinv_0_lt_compat, SP). apply Rgt_not_eq. apply Rmult_lt_0_compat; [|exact Kp]. lra.
  - intros ->. eapply is_derive_eq; [exact D|]. match goal with |- ?a = ?b => change (@eq R a b) end. ring.
Qed.
Print Assumptions C35_dsos_output.

Lemma dsos_derive a t z : off_points t z -> 0 < air_temperature a t z -> 0 < K a -> look t akima_dT z = slope t akima_T z ->
  is_derive (air_dsos a t) z (dsos_slope a t z).
Proof.
  intros N T Kp E. pose proof (temperature_derive a t z N) as D. pose proof (look_derive t akima_dT z N) as DD.
  unfold air_dsos, dsos_slope. change (look t akima_T z + dt a) with (air_temperature a t z).
  change (fun z => 5 / 10 * / sqrt (K a * (look t akima_T z + dt a)) * look t akima_dT z * K a)
    with (fun z => 5 / 10 * / sqrt (K a * air_temperature a t z) * look t akima_dT z * K a).
  assert (P : 0 < K a * air_temperature a t z) by (apply Rmult_lt_0_compat; assumption). pose proof (sqrt_lt_R0 _ P) as SP.
  auto_derive; [repeat match goal with |- _ /\ _ => split end; try (eexists; eassumption); try lra; trivial|].
  dval D; dval DD. rewrite E.
  rewrite (half_down _ 3 _ P) by (cbn; field). set (s := sqrt (K a * air_temperature a t z)) in *.
  field. lra.
Qed.

Theorem C35_dsos_geopotential a t e : geometric a = false -> atm_dom a t e ->
  look t akima_dT (e v_ALTITUDE) = slope t akima_T (e v_ALTITUDE) -> exact_at (AtmosphereComp a t) e v_dsos v_ALTITUDE.
Proof.
  intros G (H0 & N & T & Kp & _) E. unfold exact_at.
  assert (Z : forall h, geopotential a h = h) by (intro; unfold geopotential; now rewrite G). rewrite Z in *.
  change (fun u => out (AtmosphereComp a t) (upd e v_ALTITUDE u) v_dsos) with (fun u => air_dsos a t (geopotential a u)).
  change (jac (AtmosphereComp a t) e v_dsos v_ALTITUDE) with (dsos_slope a t (geopotential a (e v_ALTITUDE)) * dz_dh a (e v_ALTITUDE) ^ 2).
  rewrite Z. unfold dz_dh. rewrite G.
  apply (is_derive_ext (air_dsos a t)); [intro u; now rewrite Z|].
  replace (dsos_slope a t (e v_ALTITUDE) * 1 ^ 2) with (dsos_slope a t (e v_ALTITUDE)) by ring. apply dsos_derive; assumption.
Qed.
Print Assumptions C35_dsos_geopotential.
Example C35_witness_dsos_geopotential : look table_example akima_dT 5 = slope table_example akima_T 5 /\ off_points table_example 5.
Proof.
  split; [rewrite look_example by reflexivity; unfold slope, bin, offset; cbn; rewrite leb_intro_false by lra; unfold cubic_value, cubic_slope; cbn; ring|].
  intros j _. cbn. lra.
Qed.

(** In the geometric mode the partial is multiplied by the square of dz_dh, where the chain rule asks for dz_dh. *)
Theorem C35_dsos_geometric_refuted a t e : geometric a = true -> atm_dom a t e ->
  let z := geopotential a (e v_ALTITUDE) in
  look t akima_dT z = slope t akima_T z ->
  is_derive (fun u => out (AtmosphereComp a t) (upd e v_ALTITUDE u) v_dsos) (e v_ALTITUDE) (dsos_slope a t z * (R0 a / (R0 a + e v_ALTITUDE)) ^ 2) /\
  jac (AtmosphereComp a t) e v_dsos v_ALTITUDE = dsos_slope a t z * (R0 a / (R0 a + e v_ALTITUDE)) ^ 4.
Proof.
  intros G (H0 & N & T & Kp & _) z E. split.
  - replace ((R0 a / (R0 a + e v_ALTITUDE)) ^ 2) with (dz_dh a (e v_ALTITUDE)) by (unfold dz_dh; now rewrite G).
    apply (chain (air_dsos a t)); [exact H0|apply dsos_derive; assumption].
  - change (jac (AtmosphereComp a t) e v_dsos v_ALTITUDE) with (dsos_slope a t z * dz_dh a (e v_ALTITUDE) ^ 2).
    unfold dz_dh. rewrite G. ring.
Qed.
Print Assumptions C35_dsos_geometric_refuted.

Theorem C35_dsos_wrong : exists a t e, atm_dom a t e /\ ~ exact_at (AtmosphereComp a t) e v_dsos v_ALTITUDE.
Proof.
  exists (air_example true), table_example, (fun _ => 10). split; [apply C35_witness_AtmosphereComp|]. intro X.
  assert (Z : geopotential (air_example true) 10 = 5) by (unfold geopotential; cbn; field).
  destruct (C35_dsos_geometric_refuted (air_example true) table_example (fun _ => 10) eq_refl (proj1 C35_witness_AtmosphereComp)) as (D & J).
  { cbv beta. rewrite Z. apply C35_witness_dsos_geopotential. }
  unfold exact_at in X. apply is_derive_unique in X. apply is_derive_unique in D. rewrite D, J in X. cbv beta in X. rewrite Z in X. cbn [R0 air_example] in X.
  assert (NZ : dsos_slope (air_example true) table_example 5 <> 0).
  { unfold dsos_slope. rewrite look_example by reflexivity. unfold slope, bin, offset. cbn -[pw]. rewrite leb_intro_false by lra.
    unfold cubic_value, cubic_slope. cbn -[pw].
    assert (0 < pw (- (15 / 10)) (1 * (300 + (5 * (-1 + 5 * (0 + 5 * 0))) + 0))) by (apply pw_pos; lra).
    replace (bin_left table_example 1) with 0 by reflexivity.
    match goal with |- ?x <> 0 => assert (x < 0); [|lra] end.
    set (q := pw (- (15 / 10)) (1 * (300 + 5 * (-1 + 5 * (0 + 5 * 0)) + 0))) in *. lra. }
  apply NZ. replace (10 / (10 + 10)) with (1 / 2) in X by field. lra.
Qed.
Print Assumptions C35_dsos_wrong.

(** ** Physics *)
(** With a temperature offset the density is corrected so that the gas law still holds. *)
Theorem C35_gas_law a t z : look t akima_rho z <> 0 -> air_pressure t z <> 0 -> air_temperature a t z <> 0 -> R_air a <> 0 ->
  air_pressure t z = look t akima_rho z * R_air a * look t akima_T z ->
  air_pressure t z = air_density a t z * R_air a * air_temperature a t z.
Proof.
  unfold air_density, air_pressure, air_temperature. generalize (look t akima_rho z) (look t akima_P z) (look t akima_T z). intros r p T N P Q A E.
  assert (NT : T <> 0) by (intros ->; apply P; rewrite E; ring).
  rewrite E. replace (/ r + R_air a * dt a * / (r * R_air a * T)) with ((T + dt a) / (r * T)) by (field; auto). field. auto.
Qed.
Print Assumptions C35_gas_law.
Example C35_witness_gas_law : let t := {| size := 1; alt := fun _ => 0; akima_T := fun _ => line 100 0; akima_P := fun _ => line 200 0;
    akima_rho := fun _ => line 2 0; akima_dT := fun _ => line 0 0 |} in
  let a := {| R0 := 10; R_air := 1; K := 1; S_air := 100; beta := 1; dt := 100; geometric := false |} in
  air_density a t 0 = 1.
Proof. unfold air_density, look, offset, bin. cbn. rewrite leb_intro by lra. unfold cubic_value. cbn. field. Qed.

Theorem C35_sound a t z : 0 <= K a * air_temperature a t z -> air_sound a t z ^ 2 = K a * air_temperature a t z.
Proof. intro P. unfold air_sound. rewrite <- Rsqr_pow2. apply Rsqr_sqrt, P. Qed.
Print Assumptions C35_sound.
Example C35_witness_sound : 0 <= K (air_example false) * air_temperature (air_example false) table_example 5.
Proof. unfold air_temperature. rewrite look_example by reflexivity. unfold cubic_value. cbn. lra. Qed.

(** Geopotential altitude increases with geometric altitude, stays below the planet radius and is inverted by the usual
    formula. *)
Theorem C43_geopotential a : geometric a = true -> 0 < R0 a ->
  (forall h k, - R0 a < h -> h < k -> geopotential a h < geopotential a k) /\
  (forall h, - R0 a < h -> geopotential a h < R0 a /\ geopotential a h <= h /\
     R0 a * geopotential a h / (R0 a - geopotential a h) = h) /\
  (forall z, z < R0 a -> geopotential a (R0 a * z / (R0 a - z)) = z).
Proof.
  intros G P. unfold geopotential. rewrite G. set (r := R0 a) in *. split; [|split].
  - intros h k H L. apply (Rmult_lt_reg_r ((r + h) * (r + k))); [nra|].
    replace (h / (r + h) * r * ((r + h) * (r + k))) with (h * r * (r + k)) by (field; lra).
    replace (k / (r + k) * r * ((r + h) * (r + k))) with (k * r * (r + h)) by (field; lra).
    assert (0 < r * r * (k - h)) by (repeat apply Rmult_lt_0_compat; lra). lra.
  - intros h H. assert (E : h / (r + h) * r = r - r * r / (r + h)) by (field; lra).
    assert (Q : 0 < r * r / (r + h)) by (apply Rdiv_lt_0_compat; nra). split; [lra|split].
    + replace (h / (r + h) * r) with (h - h * h / (r + h)) by (field; lra).
      assert (0 <= h * h / (r + h)) by (apply Rdiv_le_0_compat; nra). lra.
    + assert (0 < r * r) by nra. replace (r - h / (r + h) * r) with (r * r / (r + h)) by (field; lra). field. split; lra.
  - intros z Z. assert (0 < r * r) by nra. field. split; [lra|]. intro X. ring_simplify in X. nra.
Qed.
Print Assumptions C43_geopotential.
Example C43_witness_geopotential : geopotential (air_example true) 10 = 5.
Proof. unfold geopotential. cbn. field. Qed.

(** The temperature offset of the group never reaches the component. *)
Theorem C35_delta_T_refuted : exists g, g_delta_T g <> 0 /\ g_delta_T (component_options g) = 0.
Proof. exists {| g_geometric := true; g_delta_T := 15 |}. cbn. split; lra. Qed.
Print Assumptions C35_delta_T_refuted.
