(** The altitude iteration: it stops for every altitude up to 300000 ft and never stops for very large ones. *)
From Coq Require Import Reals Lra Lia Psatz.
From Coquelicot Require Import Coquelicot.
From Verif Require Import Base Calc MathModel MathProofs Comp GeoModel.
Open Scope list_scope.
Local Open Scope R_scope.

Definition rate (z : R) : R := (GNS * pw (CM1 + 1) (radius_earth / (radius_earth + z)) - (radius_earth + z) * OC2) / grav_earth.

Lemma re_pos : 0 < radius_earth. Proof. unfold radius_earth. lra. Qed.
Lemma g_pos : 0 < grav_earth. Proof. unfold grav_earth. lra. Qed.

Definition smooth (z : R) : R :=
  (GNS * radius_earth * (1 - pw CM1 (radius_earth / (radius_earth + z))) / CM1 - (z * radius_earth + z ^ 2 / 2) * OC2) / grav_earth.
Lemma height_smooth z : - radius_earth < z -> height z = smooth z.
Proof.
  intro Hz. pose proof re_pos. pose proof g_pos. unfold height, smooth. cbv zeta. set (r := radius_earth + z).
  assert (0 < r) by (unfold r; lra). assert (P : 0 < radius_earth / r) by now apply Rdiv_lt_0_compat.
  replace (r / radius_earth) with (/ (radius_earth / r)) by (field; lra). rewrite pw_inv, pw_plus, (pw_id 1) by (try exact P; reflexivity).
  pose proof (pw_pos CM1 _ P) as Q. set (q := pw CM1 (radius_earth / r)) in *. replace z with (r - radius_earth) by (unfold r; ring).
  assert (CM1 <> 0) by (unfold CM1; lra). field. lra.
Qed.

Lemma smooth_derive z : - radius_earth < z -> is_derive smooth z (rate z).
Proof.
  intro Hz. pose proof re_pos. pose proof g_pos. assert (P : 0 < radius_earth / (radius_earth + z)) by (apply Rdiv_lt_0_compat; lra).
  unfold smooth, rate. auto_derive; [repeat split; try lra; exact P|].
  change (radius_earth * / (radius_earth + z)) with (radius_earth / (radius_earth + z)).
  rewrite (pw_shift_down (CM1 - 1) (CM1 + 1) 2 _ P) by (cbn; ring). set (q := pw (CM1 + 1) (radius_earth / (radius_earth + z))).
  assert (CM1 <> 0) by (unfold CM1; lra). field. repeat split; lra.
Qed.

Lemma pw_base_le a x y : 0 <= a -> 0 < x -> x <= y -> pw a x <= pw a y.
Proof.
  intros A X Y. rewrite !pw_Rpower by lra. apply Rle_Rpower_l; lra.
Qed.
Lemma rate_decreasing a b : 0 <= a -> a <= b -> rate b <= rate a.
Proof.
  intros A AB. pose proof re_pos. pose proof g_pos. unfold rate, Rdiv. apply Rmult_le_compat_r; [left; now apply Rinv_0_lt_compat|].
  assert (pw (CM1 + 1) (radius_earth / (radius_earth + b)) <= pw (CM1 + 1) (radius_earth / (radius_earth + a))).
  { apply pw_base_le; [unfold CM1; lra|apply Rdiv_lt_0_compat; lra|]. unfold Rdiv. apply Rmult_le_compat_l; [lra|]. apply Rinv_le_contravar; lra. }
  fold (radius_earth / (radius_earth + b)). fold (radius_earth / (radius_earth + a)).
  assert (0 < GNS) by (unfold GNS; lra). assert (0 < OC2) by (unfold OC2; lra). nra.
Qed.
Lemma rate_0 : rate 0 <= 1.
Proof.
  unfold rate. replace (radius_earth / (radius_earth + 0)) with 1 by (unfold radius_earth; field). rewrite pw_1.
  unfold GNS, radius_earth, OC2, grav_earth. lra.
Qed.

(** Between two altitudes the height grows by at least the slope at the top and at most by the difference. *)
Lemma height_between a b top : 0 <= a -> a <= b -> b <= top -> rate top * (b - a) <= height b - height a <= b - a.
Proof.
  intros A AB T. pose proof re_pos. rewrite !height_smooth by lra.
  destruct (MVT_gen smooth a b rate) as (z & Z & E).
  - intros z Z. apply smooth_derive. rewrite Rmin_left, Rmax_right in Z by lra. lra.
  - intros z Z. rewrite Rmin_left, Rmax_right in Z by lra. apply continuity_pt_filterlim, (ex_derive_continuous smooth). eexists. apply smooth_derive. lra.
  - rewrite Rmin_left, Rmax_right in Z by lra. rewrite E.
    assert (rate top <= rate z) by (apply rate_decreasing; lra). assert (rate z <= 1) by (eapply Rle_trans; [apply (rate_decreasing 0); lra|apply rate_0]).
    split; [apply Rmult_le_compat_r; lra|]. nra.
Qed.
Lemma height_0 : height 0 = 0.
Proof.
  pose proof re_pos. pose proof g_pos. rewrite height_smooth by lra. unfold smooth. replace (radius_earth / (radius_earth + 0)) with 1 by (unfold radius_earth; field). rewrite pw_1.
  unfold CM1. field. lra.
Qed.

(** ** One pass *)
Section Loop.
  Variables (ho top : R).
  Hypothesis Hho : 0 <= ho <= height top.
  Hypothesis Top : 0 <= top.
  Hypothesis Rate : 0 < rate top.
  Let q := 1 - rate top.

  Lemma q_bounds : 0 <= q < 1.
  Proof. unfold q. assert (rate top <= 1) by (eapply Rle_trans; [apply (rate_decreasing 0); lra|apply rate_0]). lra. Qed.

  Lemma pass_in z : 0 <= z <= top -> 0 <= z + (ho - height z) <= top.
  Proof.
    intro Z. destruct (height_between 0 z top) as (_ & U); try lra. rewrite height_0 in U.
    destruct (height_between z top top) as (_ & V); try lra.
  Qed.
  Lemma pass_contracts z : 0 <= z <= top -> Rabs (ho - height (z + (ho - height z))) <= q * Rabs (ho - height z).
  Proof.
    intro Z. pose proof (pass_in z Z) as P. set (d := ho - height z) in *. destruct (Rle_lt_dec 0 d) as [D|D].
    - destruct (height_between z (z + d) top) as (L & U); try lra. rewrite (Rabs_right d) by lra.
      replace (z + d - z) with d in * by ring. unfold q. rewrite Rabs_right; unfold d in *; lra.
    - destruct (height_between (z + d) z top) as (L & U); try lra. rewrite (Rabs_left d) by lra.
      replace (z - (z + d)) with (- d) in * by ring. unfold q. rewrite Rabs_left1; unfold d in *; lra.
  Qed.

  Lemma passes_stop : forall n z, 0 <= z <= top -> q ^ n * Rabs (ho - height z) <= 1 ->
    exists r, (forall m, (n < m)%nat -> passes m ho z = Some r) /\ 0 <= r <= top /\ Rabs (ho - height r) <= q.
  Proof.
    pose proof q_bounds as Q.
    assert (Stop : forall z, 0 <= z <= top -> Rabs (ho - height z) <= 1 ->
      exists r, (forall m, (0 < m)%nat -> passes m ho z = Some r) /\ 0 <= r <= top /\ Rabs (ho - height r) <= q).
    { intros z Z H. exists (z + (ho - height z)). split; [|split].
      - intros [|m] M; [lia|]. cbn. now rewrite leb_intro by exact H.
      - now apply pass_in.
      - eapply Rle_trans; [now apply pass_contracts|]. pose proof (Rabs_pos (ho - height z)). nra. }
    induction n as [|n IH]; intros z Z H.
    - apply Stop; [exact Z|]. cbn in H. lra.
    - destruct (Rle_lt_dec (Rabs (ho - height z)) 1) as [L|L].
      + destruct (Stop z Z L) as (r & A & B). exists r. split; [|exact B]. intros m M. apply A. lia.
      + destruct (IH (z + (ho - height z)) (pass_in z Z)) as (r & A & B).
        { eapply Rle_trans; [apply Rmult_le_compat_l; [apply pow_le; lra|now apply pass_contracts]|].
          cbn in H. replace (q ^ n * (q * Rabs (ho - height z))) with (q * q ^ n * Rabs (ho - height z)) by ring. exact H. }
        exists r. split; [|exact B]. intros [|m] M; [lia|]. cbn. rewrite leb_intro_false by exact L. apply A. lia.
  Qed.
End Loop.

(** For a target between 0 and the height at some altitude where the height still rises, the loop stops from every start in
    between; the result misses the target by at most the remaining slope error, and misses the true altitude accordingly. *)
Theorem C43_loop ho top z : 0 <= z <= top -> 0 <= ho <= height top -> 0 < rate top ->
  exists n r, (forall m, (n < m)%nat -> passes m ho z = Some r) /\ 0 <= r <= top /\ Rabs (ho - height r) <= 1 - rate top /\
    forall t, 0 <= t <= top -> height t = ho -> Rabs (r - t) <= (1 - rate top) / rate top.
Proof.
  intros Z H Rt. pose proof (q_bounds top ltac:(lra) Rt) as Q.
  destruct (pow_lt_1_zero (1 - rate top) ltac:(rewrite Rabs_right; lra) (/ (1 + Rabs (ho - height z)))) as (N & HN).
  { apply Rinv_0_lt_compat. pose proof (Rabs_pos (ho - height z)). lra. }
  specialize (HN N (le_n N)). pose proof (Rabs_pos (ho - height z)) as AP.
  assert (P : 0 <= (1 - rate top) ^ N) by (apply pow_le; lra). rewrite Rabs_right in HN by lra.
  destruct (passes_stop ho top H ltac:(lra) Rt N z Z) as (r & A & B & C).
  { apply Rle_trans with (/ (1 + Rabs (ho - height z)) * Rabs (ho - height z)); [apply Rmult_le_compat_r; lra|].
    apply (Rmult_le_reg_l (1 + Rabs (ho - height z))); [lra|]. replace ((1 + Rabs (ho - height z)) * (/ (1 + Rabs (ho - height z)) * Rabs (ho - height z))) with (Rabs (ho - height z)) by (field; lra). lra. }
  exists N, r. split; [exact A|split; [exact B|split; [exact C|]]].
  intros t T E. apply (Rmult_le_reg_l (rate top)); [exact Rt|]. replace (rate top * ((1 - rate top) / rate top)) with (1 - rate top) by (field; lra).
  eapply Rle_trans; [|exact C]. rewrite <- E. destruct (Rle_lt_dec t r) as [L|L].
  - destruct (height_between t r top) as (U & V); try lra. rewrite (Rabs_right (r - t)) by lra. rewrite Rabs_minus_sym, Rabs_right; [lra|]. assert (0 <= rate top * (r - t)) by (apply Rmult_le_pos; lra). lra.
  - destruct (height_between r t top) as (U & V); try lra. rewrite (Rabs_left (r - t)) by lra. rewrite Rabs_right; [lra|]. assert (0 <= rate top * (t - r)) by (apply Rmult_le_pos; lra). lra.
Qed.
Print Assumptions C43_loop.

(** ** Altitudes up to 300000 ft *)
Lemma rate_100km : 969 / 1000 <= rate 100000.
Proof.
  pose proof g_pos. unfold rate. set (x := radius_earth / (radius_earth + 100000)).
  assert (X : 0 < x < 1) by (unfold x, radius_earth; lra).
  assert (L : x ^ 2 <= pw (CM1 + 1) x).
  { rewrite <- (pw_nat 2) by lra. rewrite !pw_Rpower by lra. unfold Rpower.
    assert (ln x <= 0) by (rewrite <- ln_1; left; apply ln_increasing; lra).
    assert (E : INR 2 * ln x <= (CM1 + 1) * ln x) by (unfold CM1; cbn; lra). destruct E as [E|E]; [left; now apply exp_increasing|rewrite E; lra]. }
  apply (Rmult_le_reg_r grav_earth); [lra|]. replace ((GNS * pw (CM1 + 1) x - (radius_earth + 100000) * OC2) / grav_earth * grav_earth) with (GNS * pw (CM1 + 1) x - (radius_earth + 100000) * OC2) by (field; lra).
  assert (96930 / 100000 <= x ^ 2) by (unfold x, radius_earth; lra). unfold GNS, radius_earth, OC2, grav_earth in *. lra.
Qed.

Theorem C43_convert hft : 0 <= hft <= 300000 ->
  exists x, (forall n, (4 < n)%nat -> convert n hft = Feet x) /\ 0 <= x /\ Rabs (hft * foot - height (x * foot)) <= 31 / 1000.
Proof.
  intro H. pose proof rate_100km as Rt.
  destruct (height_between 0 100000 100000) as (T & T'); try lra. rewrite height_0 in T, T'.
  assert (Ho : 0 <= hft * foot <= height 100000) by (unfold foot in *; lra).
  assert (St : 0 <= start hft <= 100000).
  { unfold start, foot. destruct (Req_dec hft 0) as [->|N].
    - unfold pw. destruct (Req_EM_T 0 0); [|lra]. destruct (Req_EM_T _ 0); lra.
    - assert (P : 0 < hft) by lra. pose proof (pw_pos (20085 / 10000) hft P).
      assert (B : pw (20085 / 10000) hft <= 300000 ^ 2 * (13 / 10)).
      { eapply Rle_trans; [apply (pw_base_le _ hft 300000); lra|]. replace (20085 / 10000) with (85 / 10000 + INR 2) by (cbn; field).
        rewrite pw_plus, pw_nat by lra. assert (pw (85 / 10000) 300000 <= 13 / 10); [|nra].
        apply Rle_trans with (pw (INR 1 / INR 64) 300000).
        - rewrite !pw_Rpower by lra. apply Rle_Rpower; [lra|]. cbn. lra.
        - apply (pw_below 1 63); [cbn; field|lra|lra|]. lra. }
      split; nra. }
  assert (Q : 0 <= 1 - rate 100000 <= 31 / 1000).
  { assert (rate 100000 <= 1) by (eapply Rle_trans; [apply (rate_decreasing 0); lra|apply rate_0]). lra. }
  destruct (passes_stop (hft * foot) 100000 Ho ltac:(lra) ltac:(lra) 4 (start hft) St) as (r & A & B & C).
  { assert (D : Rabs (hft * foot - height (start hft)) <= 200000).
    { destruct (height_between 0 (start hft) 100000) as (_ & U); try lra. destruct (height_between (start hft) 100000 100000) as (V & _); try lra. rewrite height_0 in U.
      assert (0 <= rate 100000 * (100000 - start hft)) by (apply Rmult_le_pos; lra).
      destruct (height_between 0 (start hft) 100000) as (U' & _); try lra. rewrite height_0 in U'. assert (0 <= rate 100000 * (start hft - 0)) by (apply Rmult_le_pos; lra).
      apply Rabs_le. lra. }
    assert ((1 - rate 100000) ^ 4 <= (31 / 1000) ^ 4) by (apply pow_incr; lra).
    assert (0 <= (1 - rate 100000) ^ 4) by (apply pow_le; lra). pose proof (Rabs_pos (hft * foot - height (start hft))). nra. }
  exists (r / foot). split; [|split].
  - intros n N. unfold convert. rewrite ltb_intro_false by lra. now rewrite A by exact N.
  - unfold foot. lra.
  - replace (r / foot * foot) with r by (unfold foot; field). lra.
Qed.
Print Assumptions C43_convert.
Example C43_witness_convert n : (4 < n)%nat -> exists x, convert n 36089 = Feet x /\ 0 <= x.
Proof. intro N. destruct (C43_convert 36089) as (x & A & B & _); [lra|]. exists x. auto. Qed.

(** ** Failures *)
(** The height stays below a bound, so the loop runs for ever on targets above it. *)
Lemma height_bounded z : 0 <= z -> height z < GNS * radius_earth / CM1 / grav_earth.
Proof.
  intro Z. pose proof re_pos. pose proof g_pos. rewrite height_smooth by lra. unfold smooth, Rdiv at 1. unfold Rdiv at 5. apply Rmult_lt_compat_r; [now apply Rinv_0_lt_compat|].
  assert (P : 0 < radius_earth / (radius_earth + z)) by (apply Rdiv_lt_0_compat; lra). pose proof (pw_pos CM1 _ P) as Q.
  set (q := pw CM1 (radius_earth / (radius_earth + z))) in *. assert (0 <= (z * radius_earth + z ^ 2 / 2) * OC2).
  { apply Rmult_le_pos; [|unfold OC2; lra]. assert (0 <= z * radius_earth) by (apply Rmult_le_pos; lra). nra. }
  unfold CM1, GNS, radius_earth in *. lra.
Qed.

Theorem C43_diverges_refuted hft n : GNS * radius_earth / CM1 / grav_earth + 1 <= hft * foot -> convert n hft = Running.
Proof.
  intro H. assert (P : 0 < hft). { unfold GNS, radius_earth, CM1, grav_earth, foot in H. lra. }
  assert (A : forall n z, 0 <= z -> passes n (hft * foot) z = None).
  { clear n. induction n as [|n IH]; intros z Z; [reflexivity|]. cbn. pose proof (height_bounded z Z).
    rewrite leb_intro_false by (rewrite Rabs_right; lra). apply IH. lra. }
  unfold convert. rewrite ltb_intro_false by lra. rewrite A; [reflexivity|].
  unfold start, foot. pose proof (pw_pos (20085 / 10000) hft P). nra.
Qed.
Print Assumptions C43_diverges_refuted.
Example C43_witness_diverges : GNS * radius_earth / CM1 / grav_earth + 1 <= 21000000 * foot.
Proof. unfold GNS, radius_earth, CM1, grav_earth, foot. lra. Qed.

(** A deck with an altitude below sea level is not converted to a real number. *)
Theorem C43_negative_refuted hft n : hft < 0 -> convert n hft = NotReal.
Proof. intro H. unfold convert. now rewrite ltb_intro by exact H. Qed.
Print Assumptions C43_negative_refuted.
Example C43_witness_negative : convert 100 (- (1000)) = NotReal.
Proof. apply C43_negative_refuted. lra. Qed.
