(** Engine scaling and sizing, throttle allocation and propulsion sums. *)
From Coq Require Import Reals Lra Lia Psatz.
From Coquelicot Require Import Coquelicot.
From Verif Require Import Base MathModel MathProofs Comp Vec CompMore Arr EngModel.
Open Scope list_scope.
Open Scope string_scope.
Local Open Scope R_scope.

Lemma const_derive (c : R) x : is_derive (fun _ : R => c) x 0.
Proof. apply (is_derive_const (V := R_NormedModule)). Qed.

Lemma deq (f : R -> R) (x a b : R) : is_derive f x a -> a = b :> R -> is_derive f x b.
Proof. intros H <-. exact H. Qed.

(** Evaluates an updated environment; works under binders. *)
Ltac nupd :=
  cbv beta; unfold vupd;
  repeat match goal with
  | |- context [String.eqb ?a ?b] => first
    [ rewrite (String.eqb_refl a) | rewrite (proj2 (String.eqb_neq a b)) by (congruence || discriminate) ]
  end; cbn [andb];
  repeat match goal with
  | |- context [Nat.eqb ?a ?b] => first
    [ rewrite (Nat.eqb_refl a) | rewrite (proj2 (Nat.eqb_neq a b)) by (congruence || lia) ]
  end; cbv iota.

(** ** Engine scaling *)
(** The deck variables that are scaled, with the names of the component's output and input. *)
Lemma in_pairs vars o i : In (o, i) (scaled_pairs vars) ->
  exists x, In x vars /\ ~ In x skip_variables /\ x <> v_FUEL_FLOW /\
  ((o = x /\ i = unscaled x) \/ (In x [v_THRUST; v_SHAFT_POWER] /\ o = String.append x "_max" /\ i = unscaled (String.append x "_max"))).
Proof.
  unfold scaled_pairs. intro H. apply in_flat_map in H. destruct H as (x & X & H). exists x. split; [exact X|].
  destruct (existsb (String.eqb x) skip_variables) eqn:S; [destruct H|].
  destruct (String.eqb_spec x v_FUEL_FLOW) as [|N]; [destruct H|]. split; [|split; [exact N|]].
  - intro I. assert (existsb (String.eqb x) skip_variables = true) by (apply existsb_exists; exists x; split; [exact I|apply String.eqb_refl]). congruence.
  - destruct H as [E|H]; [left; inversion E; auto|right].
    destruct (dget x max_variables) eqn:M; [|destruct H]. destruct H as [E|[]]. inversion E. split; [|auto].
    cbn in M. destruct (String.eqb_spec x v_THRUST); [left; auto|]. destruct (String.eqb_spec x v_SHAFT_POWER); [right; left; auto|discriminate].
Qed.

Lemma pairs_names vars o i : incl vars engine_model_variables -> In (o, i) (scaled_pairs vars) ->
  o <> v_FUEL_NEGATIVE /\ i = unscaled o /\ i <> v_SCALE_FACTOR /\ i <> v_MACH /\ i <> unscaled v_FUEL_FLOW.
Proof.
  intros V H. apply in_pairs in H. destruct H as (x & X & _ & NF & H). apply V in X.
  assert (A : i = unscaled o) by (destruct H as [(-> & ->)|(_ & -> & ->)]; reflexivity).
  destruct H as [(-> & ->)|(M & -> & ->)].
  - cbn in X. repeat (destruct X as [<-|X]; [repeat split; try discriminate; congruence|]). destruct X.
  - cbn in M. destruct M as [<-|[<-|[]]]; repeat split; discriminate.
Qed.

Lemma dget_in {A} x (d : dict A) : (exists y, In (x, y) d) -> exists y, dget x d = Some y /\ In (x, y) d.
Proof.
  induction d as [|(k, v) d IH]; intros (y & H); [destruct H|]. cbn. destruct (String.eqb_spec x k) as [->|N].
  - exists v. auto.
  - destruct H as [E|H]; [congruence|]. destruct IH as (z & Z & I); [exists y; exact H|]. exists z. auto.
Qed.

Lemma leb_locally a x : x <> a -> locally x (fun t => leb a t = leb a x).
Proof.
  intro N. destruct (Rlt_le_dec x a) as [L|L].
  - assert (E : 0 < a - x) by lra. exists (mkposreal _ E). intros t T. unfold ball in T. cbn in T. unfold AbsRing_ball, abs, minus, plus, opp in T. cbn in T.
    apply Rabs_def2 in T. rewrite !leb_intro_false by lra. reflexivity.
  - assert (E : 0 < x - a) by lra. exists (mkposreal _ E). intros t T. unfold ball in T. cbn in T. unfold AbsRing_ball, abs, minus, plus, opp in T. cbn in T.
    apply Rabs_def2 in T. rewrite !leb_intro by lra. reflexivity.
Qed.

(** Numpy column [tile(0, nn)]. *)
Lemma sparse_column nn v k : (k < nn)%nat -> sparse nn (fun q => q) (np_tile (fun _ => 0%nat) 1) v k 0 = v k.
Proof. intro K. apply sparse_only; try lia; auto. Qed.
Lemma sparse_diag nn v k l : (k < nn)%nat -> sparse nn (fun q => q) (fun q => q) v k l = if Nat.eqb k l then v k else 0.
Proof.
  intro K. destruct (Nat.eqb_spec k l) as [<-|N]; [apply sparse_only; auto|apply sparse_none; intros; congruence].
Qed.

Theorem C33_EngineScaling nn p vars : incl vars engine_model_variables ->
  vexact (EngineScaling nn p vars) (fun e => forall k, (k < nn)%nat -> e v_MACH k <> 1).
Proof.
  intros V e D o k (n & On & K) i l (m & Im & L). cbn [v_outs v_ins v_run v_jac EngineScaling] in *.
  unfold EngineScaling_run, EngineScaling_jac. cbv zeta.
  set (ff := existsb (String.eqb v_FUEL_FLOW) vars) in *.
  (* the input *)
  assert (I : (i = v_SCALE_FACTOR /\ l = 0%nat) \/ (i = v_MACH /\ (l < nn)%nat) \/
              ((i = unscaled v_FUEL_FLOW \/ exists x, In (x, i) (scaled_pairs vars)) /\ (l < nn)%nat)).
  { apply in_app_iff in Im. destruct Im as [[E|[E|[]]]|Im]; [inversion E; subst; left; split; [reflexivity|lia]|inversion E; subst; auto|].
    right; right. apply in_app_iff in Im. destruct Im as [Im|Im].
    - destruct ff; [destruct Im as [E|[]]; inversion E; subst; auto|destruct Im].
    - apply in_map_iff in Im. destruct Im as ((x, y) & E & Im). inversion E; subst. eauto. }
  clear Im L.
  (* the output *)
  apply in_app_iff in On. destruct On as [On|On].
  - destruct ff; [|destruct On]. destruct On as [E|[]]. inversion E; subst o n; clear E. cbn [andb]. rewrite String.eqb_refl.
    destruct I as [(-> & ->)|[(-> & L)|(I & L)]].
    + rewrite sparse_column by assumption. change (v_SCALE_FACTOR =? unscaled v_FUEL_FLOW) with false. rewrite String.eqb_refl. cbv iota.
      unfold vupd. change (v_SCALE_FACTOR =? v_SCALE_FACTOR) with true. change (v_MACH =? v_SCALE_FACTOR) with false.
      change (unscaled v_FUEL_FLOW =? v_SCALE_FACTOR) with false. cbn [andb Nat.eqb]. unfold equation_scaling. auto_derive; [trivial|ring].
    + change (v_MACH =? unscaled v_FUEL_FLOW) with false. change (v_MACH =? v_SCALE_FACTOR) with false. cbv iota.
      unfold vupd. change (v_SCALE_FACTOR =? v_MACH) with false. change (v_MACH =? v_MACH) with true.
      change (unscaled v_FUEL_FLOW =? v_MACH) with false. cbn [andb].
      destruct (Nat.eqb_spec k l) as [<-|N]; [|apply const_derive].
      apply (is_derive_ext_loc (fun _ => - (e (unscaled v_FUEL_FLOW) k * (e v_SCALE_FACTOR 0%nat * mach_scaling p (e v_MACH k) * equation_scaling p (e v_SCALE_FACTOR 0%nat)) + constant_fuel_flow p))); [|apply const_derive].
      pose proof (leb_locally 1 (e v_MACH k) (D k K)) as Q. revert Q. apply filter_imp. intros t T. unfold mach_scaling. now rewrite T.
    + destruct (String.eqb_spec i (unscaled v_FUEL_FLOW)) as [->|N].
      * rewrite sparse_diag by assumption. unfold vupd. change (v_SCALE_FACTOR =? unscaled v_FUEL_FLOW) with false.
        change (v_MACH =? unscaled v_FUEL_FLOW) with false. rewrite String.eqb_refl. cbn [andb].
        destruct (Nat.eqb k l) eqn:Q; [|apply const_derive]. apply Nat.eqb_eq in Q. subst l. auto_derive; [trivial|ring].
      * destruct I as [->|(x & I)]; [congruence|]. destruct (pairs_names _ _ _ V I) as (_ & _ & S & M & F).
        destruct (String.eqb_spec i v_SCALE_FACTOR); [congruence|].
        eapply is_derive_ext; [|apply (const_derive (- (e (unscaled v_FUEL_FLOW) k * (e v_SCALE_FACTOR 0%nat * mach_scaling p (e v_MACH k) * equation_scaling p (e v_SCALE_FACTOR 0%nat)) + constant_fuel_flow p)))].
        intro t. cbv beta. rewrite !vupd_name by congruence. reflexivity.
  - apply in_map_iff in On. destruct On as ((o', j) & E & On). inversion E; subst o' n; clear E. cbn [fst] in *.
    destruct (dget_in o (scaled_pairs vars)) as (j' & G & On'); [eauto|]. rewrite G. clear On j. rename j' into j, On' into On.
    destruct (pairs_names _ _ _ V On) as (NF & -> & S & M & F).
    replace (ff && (o =? v_FUEL_NEGATIVE))%bool with false.
    2: { destruct (String.eqb_spec o v_FUEL_NEGATIVE); [congruence|]. now rewrite andb_false_r. }
    destruct (String.eqb_spec i (unscaled o)) as [->|N].
    + destruct I as [(Q & _)|[(Q & _)|(I & L)]]; [congruence|congruence|]. rewrite sparse_diag by assumption.
      destruct (Nat.eqb_spec k l) as [<-|NL].
      * nupd. auto_derive; [trivial|ring].
      * nupd. apply const_derive.
    + destruct (String.eqb_spec i v_SCALE_FACTOR) as [->|NS].
      * destruct I as [(_ & ->)|[(Q & _)|([Q|(x & I)] & L)]]; [|discriminate|discriminate|exfalso; apply pairs_names in I; [|assumption]; tauto].
        rewrite sparse_column by assumption.
        nupd. auto_derive; [trivial|ring].
      * nupd. apply const_derive.
Qed.
Print Assumptions C33_EngineScaling.
Example C33_witness_EngineScaling :
  let p := {| constant_fuel_flow := 10; constant_fuel_term := 0; linear_fuel_term := 1; subsonic_fuel_factor := 1; supersonic_fuel_factor := 2 |} in
  let e := fun (x : string) (_ : nat) => if String.eqb x v_MACH then 3 else 2 in
  v_run (EngineScaling 3 p [v_THRUST; v_FUEL_FLOW]) e "thrust_net_max" 1 = 4 /\
  v_run (EngineScaling 3 p [v_THRUST; v_FUEL_FLOW]) e v_FUEL_NEGATIVE 1 = - (10).
Proof. cbn. unfold EngineScaling_run, mach_scaling, equation_scaling. cbn. rewrite leb_intro by lra. cbn. split; ring. Qed.

(** Every deck variable that is an output and not the fuel flow is multiplied by the scale factor, with its maximum. *)
Theorem C33_scales nn p vars e x k : incl vars engine_model_variables -> In x vars ->
  ~ In x ["mach"; "altitude"; "throttle"; "hybrid_throttle"; "t4"; "fuel_flow_rate"] ->
  v_run (EngineScaling nn p vars) e x k = e (String.append x "_unscaled") k * e "aircraft:engine:scale_factor" 0%nat /\
  (In x ["thrust_net"; "shaft_power"] ->
   v_run (EngineScaling nn p vars) e (String.append x "_max") k
   = e (String.append x "_max_unscaled") k * e "aircraft:engine:scale_factor" 0%nat).
Proof.
  intros V X N. assert (NS : existsb (String.eqb x) skip_variables = false).
  { apply not_true_is_false. intro Q. apply existsb_exists in Q. destruct Q as (y & Y & E). apply String.eqb_eq in E. subst y. apply N. clear - Y.
    cbn in *. tauto. }
  assert (NF : (x =? v_FUEL_FLOW) = false) by (apply String.eqb_neq; intros ->; apply N; cbn; auto 10).
  assert (P : In (x, unscaled x) (scaled_pairs vars)).
  { apply in_flat_map. exists x. split; [exact X|]. rewrite NS, NF. left. reflexivity. }
  assert (G : forall o i, In (o, i) (scaled_pairs vars) -> v_run (EngineScaling nn p vars) e o k = e (unscaled o) k * e v_SCALE_FACTOR 0%nat).
  { intros o i I. cbn. unfold EngineScaling_run. destruct (dget_in o (scaled_pairs vars)) as (j & J & I'); [eauto|]. rewrite J.
    destruct (pairs_names _ _ _ V I') as (A & -> & _). apply String.eqb_neq in A. rewrite A, andb_false_r. reflexivity. }
  split; [exact (G _ _ P)|]. intro M.
  rewrite (G _ (unscaled (String.append x "_max"))).
  - destruct M as [<-|[<-|[]]]; reflexivity.
  - apply in_flat_map. exists x. split; [exact X|]. rewrite NS, NF. right. destruct M as [<-|[<-|[]]]; left; reflexivity.
Qed.
Print Assumptions C33_scales.
Example C33_witness_scales p e : v_run (EngineScaling 2 p engine_model_variables) e "shaft_power_max" 0 = e "shaft_power_max_unscaled" 0%nat * e v_SCALE_FACTOR 0%nat.
Proof. reflexivity. Qed.

(** The operating point and the turbine temperature are not scaled: they are no outputs. *)
Theorem C33_not_scaled nn p vars x n : incl vars engine_model_variables ->
  In x ["mach"; "altitude"; "throttle"; "hybrid_throttle"; "t4"; "fuel_flow_rate"] -> ~ In (x, n) (v_outs (EngineScaling nn p vars)).
Proof.
  intros V X O. cbn [v_outs EngineScaling] in O. apply in_app_or in O. destruct O as [O|O].
  - destruct (existsb _ vars); [|destruct O]. destruct O as [E|[]]. injection E as E _. subst x. clear - X. cbn in X. repeat (destruct X as [X|X]; [discriminate|]). exact X.
  - apply in_map_iff in O. destruct O as ((a & b) & E & P). injection E as E _. cbn in E. subst a. apply in_flat_map in P. destruct P as (y & Y & P). apply V in Y.
    cbn in Y. repeat (destruct Y as [<-|Y]; [vm_compute in P; repeat (destruct P as [P|P]; [injection P as P _; subst x; cbn in X; repeat (destruct X as [X|X]; [discriminate|]); exact X|]); destruct P|]). destruct Y.
Qed.
Print Assumptions C33_not_scaled.
Example C33_witness_not_scaled p : existsb (fun x => String.eqb (fst x) "throttle") (v_outs (EngineScaling 2 p engine_model_variables)) = false.
Proof. reflexivity. Qed.

(** Fuel flow: at scale one the corrections are the constant term and the Mach factor; the specific consumption of an
    engine with no corrections does not depend on its scale. *)
Theorem C33_fuel nn p vars e k : In v_FUEL_FLOW vars -> In v_THRUST vars -> incl vars engine_model_variables ->
  let sf := e v_SCALE_FACTOR 0%nat in
  let factor := if Rlt_dec (e v_MACH k) 1 then subsonic_fuel_factor p else supersonic_fuel_factor p in
  (sf = 1 -> v_run (EngineScaling nn p vars) e v_FUEL_NEGATIVE k
    = - (e "fuel_flow_rate_unscaled" k * factor * (1 + constant_fuel_term p) + constant_fuel_flow p)) /\
  (constant_fuel_term p = 0 -> linear_fuel_term p = 0 -> constant_fuel_flow p = 0 -> factor = 1 ->
   v_run (EngineScaling nn p vars) e v_FUEL_NEGATIVE k * e "thrust_net_unscaled" k
   = - e "fuel_flow_rate_unscaled" k * v_run (EngineScaling nn p vars) e v_THRUST k).
Proof.
  intros F T V. cbv zeta.
  assert (FF : existsb (String.eqb v_FUEL_FLOW) vars = true) by (apply existsb_exists; exists v_FUEL_FLOW; split; [exact F|reflexivity]).
  assert (M : mach_scaling p (e v_MACH k) = if Rlt_dec (e v_MACH k) 1 then subsonic_fuel_factor p else supersonic_fuel_factor p).
  { unfold mach_scaling. destruct (Rlt_dec (e v_MACH k) 1); [rewrite leb_intro_false by lra|rewrite leb_intro by lra]; reflexivity. }
  assert (R : v_run (EngineScaling nn p vars) e v_FUEL_NEGATIVE k
    = - (e "fuel_flow_rate_unscaled" k * (e v_SCALE_FACTOR 0%nat * mach_scaling p (e v_MACH k) * equation_scaling p (e v_SCALE_FACTOR 0%nat)) + constant_fuel_flow p)).
  { cbn. unfold EngineScaling_run. rewrite FF. reflexivity. }
  rewrite R, <- M. unfold equation_scaling. split.
  - intros ->. ring.
  - intros -> -> -> ->. destruct (C33_scales nn p vars e v_THRUST k V T) as (Q & _); [cbn; intros [A|[A|[A|[A|[A|[A|[]]]]]]]; discriminate|].
    rewrite Q. change (String.append v_THRUST "_unscaled") with "thrust_net_unscaled". change v_SCALE_FACTOR with "aircraft:engine:scale_factor". ring.
Qed.
Print Assumptions C33_fuel.
Example C33_witness_fuel :
  let p := {| constant_fuel_flow := 0; constant_fuel_term := 0; linear_fuel_term := 0; subsonic_fuel_factor := 1; supersonic_fuel_factor := 1 |} in
  v_run (EngineScaling 2 p [v_THRUST; v_FUEL_FLOW]) (fun _ _ => 3) v_FUEL_NEGATIVE 0 = - (9).
Proof. cbn. unfold EngineScaling_run, mach_scaling, equation_scaling. cbn. destruct (leb 1 3); ring. Qed.

(** With different subsonic and supersonic factors the fuel flow jumps at Mach one, where the component declares that it
    does not depend on the Mach number. *)
Theorem C33_mach_one_refuted nn p vars e k : In v_FUEL_FLOW vars -> e v_MACH k = 1 ->
  subsonic_fuel_factor p <> supersonic_fuel_factor p ->
  e "fuel_flow_rate_unscaled" k * (e v_SCALE_FACTOR 0%nat * (1 + constant_fuel_term p + linear_fuel_term p * (1 - e v_SCALE_FACTOR 0%nat))) <> 0 ->
  v_jac (EngineScaling nn p vars) e v_FUEL_NEGATIVE k v_MACH k = 0 /\
  ~ ex_derive (fun t => v_run (EngineScaling nn p vars) (vupd e v_MACH k t) v_FUEL_NEGATIVE k) (e v_MACH k).
Proof.
  intros F E NE NZ.
  assert (FF : existsb (String.eqb v_FUEL_FLOW) vars = true) by (apply existsb_exists; exists v_FUEL_FLOW; split; [exact F|reflexivity]).
  cbn [v_jac v_run EngineScaling]. unfold EngineScaling_jac, EngineScaling_run. rewrite FF. rewrite String.eqb_refl. cbn [andb].
  split; [reflexivity|]. intro X.
  set (a := e "fuel_flow_rate_unscaled" k * (e v_SCALE_FACTOR 0%nat * (1 + constant_fuel_term p + linear_fuel_term p * (1 - e v_SCALE_FACTOR 0%nat)))) in *.
  assert (C : continuous (fun t => - (mach_scaling p t * a + constant_fuel_flow p)) 1).
  { rewrite <- E. apply (ex_derive_continuous (V := R_NormedModule)). eapply ex_derive_ext; [|exact X].
    intro t. nupd. unfold equation_scaling, a. change (unscaled v_FUEL_FLOW) with "fuel_flow_rate_unscaled". match goal with |- ?a = ?b => change (@eq R a b) end. ring. }
  set (d := Rabs ((subsonic_fuel_factor p - supersonic_fuel_factor p) * a)).
  assert (D : 0 < d). { apply Rabs_pos_lt. apply Rmult_integral_contrapositive. split; lra. }
  pose proof (proj1 (filterlim_locally _ _) C (mkposreal _ D)) as (eps & Q).
  specialize (Q (1 - eps / 2)). pose proof (cond_pos eps).
  assert (B : ball 1 eps (1 - eps / 2)).
  { unfold ball. cbn. unfold AbsRing_ball, abs, minus, plus, opp. cbn. replace (1 - eps / 2 + - (1)) with (- (eps / 2)) by ring. rewrite Rabs_Ropp, Rabs_pos_eq by lra. lra. }
  apply Q in B. unfold ball in B. cbn in B. unfold AbsRing_ball, abs, minus, plus, opp in B. cbn in B.
  unfold mach_scaling in B. rewrite (leb_intro_false 1 (1 - eps / 2)) in B by lra. rewrite (leb_intro 1 1) in B by lra.
  replace (- (subsonic_fuel_factor p * a + constant_fuel_flow p) + - - (supersonic_fuel_factor p * a + constant_fuel_flow p))
    with (- ((subsonic_fuel_factor p - supersonic_fuel_factor p) * a)) in B by ring.
  rewrite Rabs_Ropp in B. fold d in B. lra.
Qed.
Print Assumptions C33_mach_one_refuted.

(** Rotational speed and torque are both scaled, so shaft power is their product after scaling only at scale one (or zero). *)
Theorem C33_shaft_power_relation nn p vars e k c :
  incl vars engine_model_variables -> In v_SHAFT_POWER vars -> In v_RPM vars -> In v_TORQUE vars ->
  e "shaft_power_unscaled" k = c * e "torque_unscaled" k * e "rotations_per_minute_unscaled" k -> e "shaft_power_unscaled" k <> 0 ->
  let sf := e v_SCALE_FACTOR 0%nat in
  v_run (EngineScaling nn p vars) e v_SHAFT_POWER k
  = c * v_run (EngineScaling nn p vars) e v_TORQUE k * v_run (EngineScaling nn p vars) e v_RPM k
  <-> sf = 0 \/ sf = 1.
Proof.
  intros V S Rp T E N. cbv zeta.
  assert (Q : forall x, In x [v_SHAFT_POWER; v_RPM; v_TORQUE] -> v_run (EngineScaling nn p vars) e x k = e (String.append x "_unscaled") k * e v_SCALE_FACTOR 0%nat).
  { intros x X. apply (C33_scales nn p vars e x k V); cbn in X; destruct X as [<-|[<-|[<-|[]]]]; try assumption;
      cbn; intros [A|[A|[A|[A|[A|[A|[]]]]]]]; discriminate. }
  rewrite !Q by (cbn; auto). change (String.append v_SHAFT_POWER "_unscaled") with "shaft_power_unscaled".
  change (String.append v_TORQUE "_unscaled") with "torque_unscaled". change (String.append v_RPM "_unscaled") with "rotations_per_minute_unscaled".
  revert E N. generalize (e "shaft_power_unscaled" k) (e "torque_unscaled" k) (e "rotations_per_minute_unscaled" k) (e v_SCALE_FACTOR 0%nat).
  intros a b d s E N. split.
  - intro H. assert (Z : a * (s * (1 - s)) = 0).
    { replace (a * (s * (1 - s))) with (a * s - c * b * d * s * s) by (rewrite E; ring). replace (c * b * d * s * s) with (c * (b * s) * (d * s)) by ring. lra. }
    apply Rmult_integral in Z. destruct Z as [Z|Z]; [contradiction|]. apply Rmult_integral in Z. destruct Z; [left|right]; lra.
  - intros [-> | ->]; rewrite ?E; ring.
Qed.
Print Assumptions C33_shaft_power_relation.
Example C33_witness_shaft_power_relation p :
  let e := fun (x : string) (_ : nat) => if String.eqb x v_SCALE_FACTOR then 2 else 1 in
  v_run (EngineScaling 1 p [v_SHAFT_POWER; v_RPM; v_TORQUE]) e v_SHAFT_POWER 0 = 2 /\
  v_run (EngineScaling 1 p [v_SHAFT_POWER; v_RPM; v_TORQUE]) e v_TORQUE 0 * v_run (EngineScaling 1 p [v_SHAFT_POWER; v_RPM; v_TORQUE]) e v_RPM 0 = 4.
Proof. cbn. unfold EngineScaling_run. cbn. split; ring. Qed.

Theorem C33_SizeEngine : vexact SizeEngine (fun _ => True).
Proof.
  intros e _ o k (n & On & K) i l (m & Im & L). cbn in On, Im. destruct On as [E|[]]. inversion E; subst; clear E.
  destruct Im as [E|[E|[]]]; inversion E; subst; clear E; assert (l = 0%nat) by lia; subst l; cbn [v_run v_jac SizeEngine].
  - change (v_REFERENCE_SLS_THRUST =? v_SCALE_FACTOR) with false. rewrite String.eqb_refl. cbv iota.
    nupd. auto_derive; [trivial|ring].
  - rewrite String.eqb_refl. nupd. auto_derive; [trivial|ring].
Qed.
Print Assumptions C33_SizeEngine.
Example C33_witness_SizeEngine : v_run SizeEngine (fun x _ => if String.eqb x v_SCALE_FACTOR then 2 else 10) v_SCALED_SLS_THRUST 0 = 20.
Proof. cbn. ring. Qed.

(** A deck whose thrust is the reference thrust gives, after scaling, the scaled thrust of the sizing component. *)
Theorem C33_sizing_agrees nn p vars e k : incl vars engine_model_variables -> In v_THRUST vars ->
  e "thrust_net_unscaled" k = e v_REFERENCE_SLS_THRUST 0%nat ->
  v_run (EngineScaling nn p vars) e v_THRUST k = v_run SizeEngine e v_SCALED_SLS_THRUST 0.
Proof.
  intros V T E. destruct (C33_scales nn p vars e v_THRUST k V T) as (Q & _); [cbn; intros [A|[A|[A|[A|[A|[A|[]]]]]]]; discriminate|].
  rewrite Q. change (String.append v_THRUST "_unscaled") with "thrust_net_unscaled". rewrite E. cbn. unfold v_SCALE_FACTOR. ring.
Qed.
Print Assumptions C33_sizing_agrees.
Example C33_witness_sizing_agrees p : v_run (EngineScaling 1 p [v_THRUST]) (fun _ _ => 5) v_THRUST 0 = 25.
Proof. cbn. unfold EngineScaling_run. cbn. ring. Qed.

(** ** Throttle allocation *)
Lemma run_throttle dynamic ne e k j : (j < ne)%nat ->
  ThrottleAllocator_run dynamic ne e v_THROTTLE (k * ne + j)
  = e v_aggregate k * (if Nat.ltb j (ne - 1) then e v_allocations (allocation_at dynamic ne k j) else 1 - sum_alloc dynamic ne e k).
Proof.
  intro J. unfold ThrottleAllocator_run. rewrite String.eqb_refl, div_pair, mod_pair by assumption. cbv zeta.
  destruct (Nat.ltb j (ne - 1)); reflexivity.
Qed.

(** The throttles of the engine types at a node add up to the aggregate throttle. *)
Theorem C39_conserves dynamic nn ne e k : (1 <= ne)%nat ->
  vsum ne (fun j => v_run (ThrottleAllocator dynamic nn ne) e v_THROTTLE (k * ne + j)) = e v_aggregate k.
Proof.
  intro N. cbn [v_run ThrottleAllocator]. destruct ne as [|b]; [lia|]. cbn [vsum].
  rewrite run_throttle by lia. destruct (Nat.ltb_spec b (S b - 1)); [lia|].
  rewrite (vsum_ext b _ (fun j => e v_aggregate k * e v_allocations (allocation_at dynamic (S b) k j))).
  2: { intros j J. rewrite run_throttle by lia. destruct (Nat.ltb_spec j (S b - 1)); [reflexivity|lia]. }
  rewrite vsum_scal. unfold sum_alloc. replace (S b - 1)%nat with b by lia. ring.
Qed.
Print Assumptions C39_conserves.
Example C39_witness_conserves :
  let e := fun (x : string) (_ : nat) => if String.eqb x v_aggregate then 8 / 10 else 1 / 4 in
  v_run (ThrottleAllocator true 2 3) e v_THROTTLE 5 = 4 / 10 /\ v_run (ThrottleAllocator false 2 3) e v_THROTTLE 5 = 4 / 10.
Proof. cbn. unfold ThrottleAllocator_run, sum_alloc. cbn. split; field. Qed.

(** Allocations that are not negative and satisfy the constraint on their sum keep every throttle between zero and the
    aggregate throttle. *)
Theorem C39_bounded dynamic nn ne e k j : (1 <= ne)%nat -> (j < ne)%nat -> 0 <= e v_aggregate k ->
  (forall m, 0 <= e v_allocations m) -> v_run (ThrottleAllocator dynamic nn ne) e v_allocation_sum (if dynamic then k else 0%nat) <= 1 ->
  0 <= v_run (ThrottleAllocator dynamic nn ne) e v_THROTTLE (k * ne + j) <= e v_aggregate k.
Proof.
  intros N J A P S. cbn [v_run ThrottleAllocator] in *. rewrite run_throttle by assumption.
  assert (S' : sum_alloc dynamic ne e k <= 1) by (destruct dynamic; exact S). clear S.
  assert (0 <= sum_alloc dynamic ne e k) by (apply vsum_nonneg; auto).
  destruct (Nat.ltb_spec j (ne - 1)).
  - assert (e v_allocations (allocation_at dynamic ne k j) <= sum_alloc dynamic ne e k).
    { unfold sum_alloc. replace (ne - 1)%nat with (j + (S (ne - 1 - j - 1)))%nat by lia. rewrite vsum_split, vsum_shift, Nat.add_0_r.
      assert (0 <= vsum j (fun j => e v_allocations (allocation_at dynamic ne k j))) by (apply vsum_nonneg; auto).
      assert (0 <= vsum (ne - 1 - j - 1) (fun m => e v_allocations (allocation_at dynamic ne k (j + S m)))) by (apply vsum_nonneg; auto). lra. }
    pose proof (P (allocation_at dynamic ne k j)). nra.
  - nra.
Qed.
Print Assumptions C39_bounded.
Example C39_witness_bounded : v_run (ThrottleAllocator false 2 3) (fun _ _ => 1 / 4) v_allocation_sum 0 = 1 / 2.
Proof. cbn. unfold ThrottleAllocator_run, sum_alloc. cbn. field. Qed.

(** Exact Jacobians for any number of nodes and engine types, in both modes. *)
Lemma agg_derive dynamic ne e p l :
  is_derive (fun t => ThrottleAllocator_run dynamic ne (vupd e v_aggregate l t) v_THROTTLE p) (e v_aggregate l)
   (if Nat.eqb (p / ne) l then if Nat.ltb (p mod ne) (ne - 1) then e v_allocations (allocation_at dynamic ne (p / ne) (p mod ne)) else 1 - sum_alloc dynamic ne e (p / ne) else 0).
Proof.
  unfold ThrottleAllocator_run. rewrite String.eqb_refl. cbv zeta.
  assert (S : forall t, sum_alloc dynamic ne (vupd e v_aggregate l t) (p / ne) = sum_alloc dynamic ne e (p / ne)) by reflexivity.
  destruct (Nat.eqb_spec (p / ne) l) as [<-|N]; destruct (Nat.ltb (p mod ne) (ne - 1)).
  - nupd. auto_derive; [trivial|ring].
  - apply (is_derive_ext (fun t => t * (1 - sum_alloc dynamic ne e (p / ne)))); [intro t; rewrite S; nupd; reflexivity|]. auto_derive; [trivial|ring].
  - nupd. apply const_derive.
  - apply (is_derive_ext (fun t => e v_aggregate (p / ne)%nat * (1 - sum_alloc dynamic ne e (p / ne)))); [intro t; rewrite S; nupd; reflexivity|]. apply const_derive.
Qed.

Lemma sum_alloc_derive dynamic ne e k l :
  is_derive (fun t => sum_alloc dynamic ne (vupd e v_allocations l t) k) (e v_allocations l)
    (vsum (ne - 1) (fun j => if Nat.eqb (allocation_at dynamic ne k j) l then 1 else 0)).
Proof.
  unfold sum_alloc. apply (vsum_derive _ (fun t j => vupd e v_allocations l t v_allocations (allocation_at dynamic ne k j))).
  intros j J. destruct (Nat.eqb_spec (allocation_at dynamic ne k j) l) as [->|N].
  - nupd. auto_derive; [trivial|ring].
  - nupd. apply const_derive.
Qed.

Lemma alloc_derive dynamic ne e p l :
  is_derive (fun t => ThrottleAllocator_run dynamic ne (vupd e v_allocations l t) v_THROTTLE p) (e v_allocations l)
   (e v_aggregate (p / ne)%nat * (if Nat.ltb (p mod ne) (ne - 1) then if Nat.eqb (allocation_at dynamic ne (p / ne) (p mod ne)) l then 1 else 0
     else - vsum (ne - 1) (fun j => if Nat.eqb (allocation_at dynamic ne (p / ne) j) l then 1 else 0))).
Proof.
  unfold ThrottleAllocator_run. rewrite String.eqb_refl. cbv zeta.
  destruct (Nat.ltb (p mod ne) (ne - 1)).
  - destruct (Nat.eqb_spec (allocation_at dynamic ne (p / ne) (p mod ne)) l) as [->|N].
    + nupd. auto_derive; [trivial|ring].
    + nupd.
      apply (deq _ _ 0); [apply const_derive|match goal with |- ?a = ?b => change (@eq R a b) end; ring].
  - apply (is_derive_ext (fun t => e v_aggregate (p / ne)%nat * (1 - sum_alloc dynamic ne (vupd e v_allocations l t) (p / ne)))); [reflexivity|].
    apply is_derive_scal. eapply deq; [apply (is_derive_minus (fun _ => 1)); [apply const_derive|apply sum_alloc_derive]|].
    unfold minus, plus, opp. cbn. ring.
Qed.

(** Positions of np.tile / np.repeat index arrays. *)
Lemma pair_inj a b a' b' m : (b < m)%nat -> (b' < m)%nat -> (a * m + b = a' * m + b')%nat -> a = a' /\ b = b'.
Proof.
  intros B B' E. assert (a = a') by (rewrite <- (div_pair a b m B), E; apply div_pair; exact B'). subst. split; [reflexivity|lia].
Qed.

Theorem C39_ThrottleAllocator dynamic nn ne : (1 <= ne)%nat -> vexact (ThrottleAllocator dynamic nn ne) (fun _ => True).
Proof.
  intros N e _ o p (n & On & P) i l (m & Im & L). cbn [v_outs v_ins v_run v_jac ThrottleAllocator] in *.
  destruct On as [E|[E|[]]]; inversion E; subst o n; clear E.
  - pose proof (div_lt _ _ _ P) as K. pose proof (mod_lt _ _ _ P) as J. pose proof (pair_of p ne ltac:(lia)) as PP.
    destruct Im as [E|[E|[]]]; inversion E; subst i m; clear E; unfold ThrottleAllocator_jac; rewrite String.eqb_refl.
    + rewrite String.eqb_refl. cbv zeta. eapply deq; [apply agg_derive|].
      destruct (Nat.eqb_spec (p / ne) l) as [Q|Q].
      * rewrite (sparse_only _ _ _ _ _ _ p); auto.
      * symmetry. apply sparse_none. intros q _ -> R. apply Q, R.
    + change (v_allocations =? v_aggregate) with false. rewrite String.eqb_refl. cbv iota zeta.
      eapply deq; [apply alloc_derive|].
      set (k := (p / ne)%nat) in *. set (j := (p mod ne)%nat) in *. set (b := (ne - 1)%nat) in *.
      destruct dynamic; cbn [allocation_at]; fold b.
      * (* dynamic: entry (k, j) by (k', c) *)
        assert (B : (0 < b)%nat) by (destruct b; lia).
        pose proof (div_lt _ _ _ L) as K'. pose proof (mod_lt _ _ _ L) as C'. pose proof (pair_of l b B) as LL.
        set (k' := (l / b)%nat) in *. set (c := (l mod b)%nat) in *.
        assert (NB : (0 < ne * b)%nat) by nia.
        destruct (Nat.eq_dec k k') as [KK|KK].
        -- rewrite (sparse_only _ _ _ _ _ _ (k * (ne * b) + (j * b + c))%nat).
           ++ rewrite div_pair, mod_pair by nia. f_equal. unfold mask. fold b. rewrite div_pair, mod_pair by lia.
              destruct (Nat.ltb_spec j b).
              ** destruct (Nat.eqb_spec (k * b + j) l) as [Y|Y], (Nat.eqb_spec j c) as [Z|Z]; try reflexivity; exfalso.
                 --- rewrite LL in Y. apply pair_inj in Y; [|lia|lia]. tauto.
                 --- apply Y. rewrite LL. congruence.
              ** rewrite <- (vsum_single b c (- (1)) C'). rewrite <- vsum_opp. apply vsum_ext. intros x X.
                 destruct (Nat.eqb_spec (k * b + x) l) as [Y|Y], (Nat.eqb_spec x c) as [Z|Z]; try ring; exfalso.
                 --- rewrite LL in Y. apply pair_inj in Y; [|lia|lia]. tauto.
                 --- apply Y. rewrite LL. congruence.
           ++ nia.
           ++ unfold np_tile, np_repeat. rewrite div_pair, mod_pair by nia. rewrite div_pair by lia. lia.
           ++ unfold np_tile, np_repeat. rewrite div_pair, mod_pair by nia. rewrite mod_pair by lia. rewrite KK. lia.
           ++ intros q Q R C. unfold np_tile, np_repeat in R, C.
              pose proof (pair_of q (ne * b) NB) as QQ. pose proof (Nat.mod_upper_bound q (ne * b) ltac:(lia)) as QM.
              set (q0 := (q / (ne * b))%nat) in *. set (q1 := (q mod (ne * b))%nat) in *.
              pose proof (pair_of q1 b B) as Q1. pose proof (Nat.mod_upper_bound q1 b ltac:(lia)) as QM1.
              assert (q1 / b < ne)%nat by (apply div_lt; lia).
              set (q2 := (q1 / b)%nat) in *. set (q3 := (q1 mod b)%nat) in *.
              assert (A1 : (q0 * ne + q2 = k * ne + j)%nat) by lia. apply pair_inj in A1; [|lia|lia]. destruct A1 as (A1 & A2).
              assert (A3 : (q0 * b + q3 = k' * b + c)%nat) by lia. apply pair_inj in A3; [|lia|lia]. destruct A3 as (_ & A3).
              rewrite QQ, Q1. congruence.
        -- rewrite sparse_none.
           ++ destruct (Nat.ltb_spec j b).
              ** destruct (Nat.eqb_spec (k * b + j) l) as [Y|]; [exfalso|ring]. rewrite LL in Y. apply pair_inj in Y; [|lia|lia]. tauto.
              ** rewrite vsum_zero; [ring|]. intros x X. destruct (Nat.eqb_spec (k * b + x) l) as [Y|]; [exfalso|reflexivity].
                 rewrite LL in Y. apply pair_inj in Y; [|lia|lia]. tauto.
           ++ intros q Q R C. unfold np_tile, np_repeat in R, C.
              pose proof (pair_of q (ne * b) NB) as QQ. pose proof (Nat.mod_upper_bound q (ne * b) ltac:(lia)) as QM.
              set (q0 := (q / (ne * b))%nat) in *. set (q1 := (q mod (ne * b))%nat) in *.
              pose proof (pair_of q1 b B) as Q1. pose proof (Nat.mod_upper_bound q1 b ltac:(lia)) as QM1.
              assert (q1 / b < ne)%nat by (apply div_lt; lia).
              set (q2 := (q1 / b)%nat) in *. set (q3 := (q1 mod b)%nat) in *.
              assert (A1 : (q0 * ne + q2 = k * ne + j)%nat) by lia. apply pair_inj in A1; [|lia|lia]. destruct A1 as (A1 & A2).
              assert (A3 : (q0 * b + q3 = k' * b + c)%nat) by lia. apply pair_inj in A3; [|lia|lia]. destruct A3 as (A4 & A3).
              congruence.
      * (* dense *)
        assert (B : (0 < b)%nat) by lia.
        assert (PB : (p * b + l = k * (ne * b) + (j * b + l))%nat) by nia.
        rewrite PB, div_pair, mod_pair by nia. f_equal. unfold mask. fold b. rewrite div_pair, mod_pair by lia.
        destruct (Nat.ltb_spec j b); [reflexivity|]. rewrite vsum_single by lia. reflexivity.
  - destruct Im as [E|[E|[]]]; inversion E; subst i m; clear E; unfold ThrottleAllocator_jac, ThrottleAllocator_run;
      change (v_allocation_sum =? v_THROTTLE) with false; rewrite String.eqb_refl; cbv iota zeta.
    + change (v_aggregate =? v_allocations) with false. cbv iota. apply (const_derive (sum_alloc dynamic ne e p)).
    + rewrite String.eqb_refl. eapply deq; [apply sum_alloc_derive|]. set (b := (ne - 1)%nat) in *.
      destruct dynamic; cbn [allocation_at]; fold b.
      * pose proof (div_lt _ _ _ L) as K'. pose proof (mod_lt _ _ _ L) as C'. assert (B : (0 < b)%nat) by lia. pose proof (pair_of l b B) as LL.
        destruct (Nat.eq_dec p (l / b)) as [Q|Q].
        -- rewrite (sparse_only _ _ _ _ _ _ l); auto. etransitivity; [|exact (vsum_single b (l mod b) 1 C')]. apply vsum_ext. intros x X. fold b.
           destruct (Nat.eqb_spec (p * b + x) l) as [Y|Y], (Nat.eqb_spec x (l mod b)) as [Z|Z]; try reflexivity; exfalso.
           ++ rewrite LL in Y. apply pair_inj in Y; [|lia|lia]. tauto.
           ++ apply Y. rewrite LL. congruence.
        -- rewrite sparse_none by (intros q _ R ->; apply Q; symmetry; exact R).
           apply vsum_zero. intros x X. fold b. destruct (Nat.eqb_spec (p * b + x) l) as [Y|]; [|reflexivity].
           exfalso. apply Q. rewrite <- Y. symmetry. apply div_pair. exact X.
      * apply vsum_single. exact L.
Qed.
Print Assumptions C39_ThrottleAllocator.
Example C39_witness_ThrottleAllocator : v_jac (ThrottleAllocator true 2 3) (fun _ _ => 7) v_THROTTLE 5 v_allocations 3 = - (7).
Proof. cbn. unfold sparse, mask. cbn. ring. Qed.

(** ** Propulsion sums *)
Lemma row_sum_derive ne (num : nat -> R) e i k l :
  is_derive (fun t => vsum ne (fun j => vupd e i l t i (k * ne + j)%nat * num j)) (e i l)
    (vsum ne (fun j => if Nat.eqb (k * ne + j) l then num j else 0)).
Proof.
  apply (vsum_derive _ (fun t j => vupd e i l t i (k * ne + j)%nat * num j)). intros j J.
  destruct (Nat.eqb_spec (k * ne + j) l) as [->|N].
  - nupd. auto_derive; [trivial|ring].
  - nupd. apply const_derive.
Qed.

Theorem C39_PropulsionSum nn ne num : vexact (PropulsionSum nn ne num) (fun _ => True).
Proof.
  intros e _ o k (n & On & K) i l (m & Im & L). cbn [v_outs v_ins v_run v_jac PropulsionSum] in *.
  apply in_map_iff in On. destruct On as ((o', io) & E & On). inversion E; subst o' n; clear E.
  apply in_map_iff in Im. destruct Im as ((x, i') & E & Im). inversion E; subst i' m; clear E.
  destruct (dget_in o sum_pairs) as (j & G & _); [eauto|]. cbn [fst snd] in *. rewrite G.
  destruct (String.eqb_spec i j) as [<-|N].
  - eapply deq; [apply row_sum_derive|]. assert (B : (0 < ne)%nat) by nia.
    pose proof (pair_of l ne B) as LL. pose proof (mod_lt _ _ _ L) as C'.
    destruct (Nat.eq_dec (l / ne) k) as [Q|Q].
    + rewrite (sparse_only _ _ _ _ _ _ l); auto. rewrite (vsum_only _ _ (l mod ne) C').
      * rewrite <- Q, <- LL, Nat.eqb_refl. reflexivity.
      * intros x' X NX. destruct (Nat.eqb_spec (k * ne + x') l) as [Y|]; [exfalso|reflexivity].
        rewrite LL in Y. apply pair_inj in Y; [|lia|lia]. tauto.
    + rewrite sparse_none by (intros q _ R ->; apply Q, R). apply vsum_zero. intros x' X.
      destruct (Nat.eqb_spec (k * ne + x') l) as [Y|]; [|reflexivity]. exfalso. apply Q. rewrite <- Y. apply div_pair. exact X.
  - nupd. apply const_derive.
Qed.
Print Assumptions C39_PropulsionSum.
Example C39_witness_PropulsionSum : v_run (PropulsionSum 2 2 (fun j => INR j + 1)) (fun _ p => INR p) "thrust_net_total" 1 = 8.
Proof. cbn. ring. Qed.

(** The totals are the sums over single engines, type after type: an engine type of n engines counts n times, and
    splitting a type into two types with the same values changes nothing. *)
Theorem C39_sum_of_engines nn ne (num : nat -> nat) e k i o : In (o, i) sum_pairs ->
  v_run (PropulsionSum nn ne (fun j => INR (num j))) e o k = vsum ne (fun j => vsum (num j) (fun _ => e i (k * ne + j)%nat)).
Proof.
  intro H. cbn [v_run PropulsionSum].
  assert (G : dget o sum_pairs = Some i).
  { cbn in H. repeat (destruct H as [E|H]; [inversion E; subst; reflexivity|]). destruct H. }
  rewrite G. apply vsum_ext. intros j J. generalize (num j). intro c. induction c; [cbn; ring|].
  change (vsum (S c) ?f) with (vsum c f + f c). rewrite <- IHc, S_INR. ring.
Qed.
Print Assumptions C39_sum_of_engines.
Example C39_witness_sum_of_engines : In ("nox_rate_total", "nox_rate") sum_pairs.
Proof. cbn. auto 10. Qed.

Theorem C39_PropulsionSumPre ne num : vexact (PropulsionSumPre ne num) (fun _ => True).
Proof.
  intros e _ o k (n & On & K) i l (m & Im & L). cbn [v_outs v_ins v_run v_jac PropulsionSumPre] in *.
  destruct Im as [E|[]]; inversion E; subst i m; clear E. rewrite String.eqb_refl.
  eapply deq; [apply (row_sum_derive ne num e v_SCALED_SLS_THRUST 0 l)|].
  cbn. rewrite (vsum_only _ _ l L); [now rewrite Nat.eqb_refl|]. intros j J N. destruct (Nat.eqb_spec j l); [contradiction|reflexivity].
Qed.
Print Assumptions C39_PropulsionSumPre.
Example C39_witness_PropulsionSumPre : v_run (PropulsionSumPre 2 (fun _ => 2)) (fun _ _ => 100) v_TOTAL_SCALED_SLS_THRUST 0 = 400.
Proof. cbn. ring. Qed.

(** Equal specific values: total thrust is the aggregate throttle times the maximum thrust when every type has the same
    number of engines and the same maximum thrust. *)
Theorem C39_thrust_follows_throttle dynamic nn ne num T e f k : (1 <= ne)%nat ->
  (forall j, (j < ne)%nat -> f v_THRUST (k * ne + j)%nat = T * v_run (ThrottleAllocator dynamic nn ne) e v_THROTTLE (k * ne + j)) ->
  v_run (PropulsionSum nn ne (fun _ => num)) f "thrust_net_total" k = num * T * e v_aggregate k.
Proof.
  intros N H. change (v_run (PropulsionSum nn ne (fun _ => num)) f "thrust_net_total" k) with (vsum ne (fun j => f v_THRUST (k * ne + j)%nat * num)).
  rewrite <- (C39_conserves dynamic nn ne e k N), <- vsum_scal. apply vsum_ext. intros j J. rewrite H by assumption. ring.
Qed.
Print Assumptions C39_thrust_follows_throttle.
Example C39_witness_thrust_follows_throttle : v_run (PropulsionSum 1 2 (fun _ => 2)) (fun _ _ => 5) "thrust_net_total" 0 = 20.
Proof. cbn. ring. Qed.
