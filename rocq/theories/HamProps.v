(** The Hamilton Standard propeller method: table routines, tables, iteration and power balance. *)
From Coq Require Import Reals Lra Lia.
From Coquelicot Require Import Coquelicot.
From Verif Require Import Base Calc MathModel Comp HamData HamModel HamProofs.
Open Scope list_scope.
Local Open Scope R_scope.

(** ** _unint *)
Theorem C58_unint_node xa ya k : increasing xa -> (4 <= length xa <= length ya)%nat -> (k < length xa)%nat ->
  unint xa ya (nth k xa 0) = Ok (nth k ya 0, 0%Z).
Proof. intros I L. now apply unint_node. Qed.
Print Assumptions C58_unint_node.

(** Outside the table the end value is returned, with a flag. *)
Theorem C58_unint_outside xa ya x : increasing xa -> (4 <= length xa <= length ya)%nat ->
  (x < nth 0 xa 0 -> unint xa ya x = Ok (nth 0 ya 0, 1%Z)) /\
  (nth (length xa - 1) xa 0 < x -> unint xa ya x = Ok (nth (length xa - 1) ya 0, 2%Z)).
Proof. intros I L. split; intro H; [now apply unint_low|now apply unint_high]. Qed.
Print Assumptions C58_unint_outside.

(** Inside, the value is the parabola through the nearest three points in the first and the last interval and a blend of
    two parabolas elsewhere. *)
Theorem C58_unint_inside xa ya k x : increasing xa -> (4 <= length xa <= length ya)%nat -> (k + 1 < length xa)%nat ->
  nth k xa 0 < x < nth (k + 1) xa 0 ->
  exists w, unint xa ya x = Ok (w, 0%Z) /\
    ((k = 0)%nat -> w = par_at xa ya 1 x) /\ ((k + 2 = length xa)%nat -> w = par_at xa ya k x) /\
    ((0 < k)%nat -> (k + 2 < length xa)%nat ->
      w * (nth (k + 1) xa 0 - nth k xa 0) = (nth (k + 1) xa 0 - x) * par_at xa ya k x + (x - nth k xa 0) * par_at xa ya (k + 1) x).
Proof.
  intros I L K H. exists (piece xa ya k x). rewrite (unint_between xa ya I L k x K H). pose proof (I k (k + 1)%nat ltac:(lia)).
  unfold piece. split; [reflexivity|]. split; [|split].
  - intros ->. reflexivity.
  - intro E. destruct (Nat.eqb_spec k 0); [lia|]. destruct (Nat.eqb_spec (k + 2) (length xa)); [reflexivity|lia].
  - intros K0 K1. destruct (Nat.eqb_spec k 0); [lia|]. destruct (Nat.eqb_spec (k + 2) (length xa)); [lia|]. cbv zeta. field. lra.
Qed.
Print Assumptions C58_unint_inside.

(** A table with at least four points is never left. *)
Theorem C58_unint_total xa ya x : increasing xa -> (4 <= length xa <= length ya)%nat -> exists y f, unint xa ya x = Ok (y, f).
Proof.
  intros I L. destruct (locate xa x ltac:(lia)) as [H|[H|[[k [K ->]]|[k [K H]]]]].
  - eexists _, _. now apply unint_low.
  - eexists _, _. now apply unint_high.
  - eexists _, _. now apply unint_node.
  - eexists _, _. now apply (unint_between xa ya I L k).
Qed.
Print Assumptions C58_unint_total.

Theorem C58_unint_quadratic xa q a b c x : increasing xa -> (4 <= length xa)%nat -> (forall t, q t = a * t ^ 2 + b * t + c) ->
  nth 0 xa 0 <= x <= nth (length xa - 1) xa 0 -> unint xa (map q xa) x = Ok (q x, 0%Z).
Proof. intros. now apply (unint_quadratic xa q a b c). Qed.
Print Assumptions C58_unint_quadratic.

(** "to produce a continuity of slope between adjacent intervals" *)
Theorem C58_unint_slope xa ya : increasing xa -> (4 <= length xa <= length ya)%nat ->
  (forall x, nth 0 xa 0 < x < nth (length xa - 1) xa 0 ->
     ex_derive (unint_val xa ya) x /\ continuous (Derive (unint_val xa ya)) x) /\
  (forall k, (1 <= k)%nat -> (k + 1 < length xa)%nat ->
     Derive (unint_val xa ya) (nth k xa 0) = Derive (par_at xa ya k) (nth k xa 0)).
Proof.
  intros I L. split.
  - intros x H. now apply slope_continuous.
  - intros k K1 K2. rewrite (is_derive_unique _ _ _ (derive_node xa ya I L k K1 K2)).
    symmetry. apply is_derive_unique. apply par_derive.
Qed.
Print Assumptions C58_unint_slope.

(** Tables with fewer than four points are not supported: between the first two points there is no result. *)
Theorem C58_unint_short_refuted xa ya x : increasing xa -> (2 <= length xa <= 3)%nat -> nth 0 xa 0 < x < nth 1 xa 0 ->
  unint xa ya x = Err IndexError.
Proof.
  intros I L H. unfold unint. rewrite (pyget_z xa 0 0 0) by lia. cbn [rbind]. rewrite ltb_false by lra. rewrite eqb_false by lra.
  rewrite (find_between _ _ 1 0).
  2:{ rewrite length_tl. lia. }
  2:{ intros m Hm. lia. }
  2:{ rewrite nth_tl. lra. }
  rewrite (pyget_z xa (1 + Z.of_nat 0) 1 0) by lia. rewrite (pyget_z xa (1 + Z.of_nat 0 - 1) 0 0) by lia. cbn [rbind Z.eqb Z.of_nat Z.add Pos.eqb].
  rewrite (pyget_z xa 1 1 0), (pyget_z xa 0 0 0) by lia. cbn [rbind].
  destruct (Nat.eq_dec (length xa) 2) as [E|E].
  - unfold pyget at 1. rewrite E. cbn. destruct xa as [|? [|? [|? ?]]]; try discriminate E. reflexivity.
  - rewrite (pyget_z xa 2 2 0) by lia. cbn [rbind]. unfold pyget at 1. destruct xa as [|? [|? [|? [|? ?]]]]; cbn in *; try lia. reflexivity.
Qed.
Print Assumptions C58_unint_short_refuted.

Lemma inc_0123 : increasing [0; 1; 2; 3].
Proof.
  intros i j H. cbn [length] in H. destruct i as [|[|[|[|i]]]], j as [|[|[|[|j]]]]; cbn [nth]; try lia; lra.
Qed.
Example C58_witness_unint : unint [0; 1; 2; 3] [0; 1; 4; 9] (3 / 2) = Ok (9 / 4, 0%Z) /\ unint [0; 1; 2; 3] [0; 1; 4; 9] 2 = Ok (4, 0%Z) /\
  unint [0; 1; 2; 3] [0; 1; 4; 9] (- 1) = Ok (0, 1%Z) /\ unint [0; 1; 2; 3] [0; 1; 4; 9] 7 = Ok (9, 2%Z).
Proof.
  pose proof inc_0123 as I. repeat split.
  - rewrite (unint_between [0; 1; 2; 3] [0; 1; 4; 9] I ltac:(cbn; lia) 1) by (cbn [nth length Nat.add]; try lia; lra). do 2 f_equal. unfold piece, par_at, parabola. cbn [nth length Nat.add Nat.eqb Nat.sub]. field.
  - apply (unint_node [0; 1; 2; 3] [0; 1; 4; 9] I ltac:(cbn; lia) 2). cbn. lia.
  - apply (unint_low [0; 1; 2; 3] [0; 1; 4; 9]); cbn [nth length Nat.sub]; [lia|lra].
  - apply (unint_high [0; 1; 2; 3] [0; 1; 4; 9] I); cbn [nth length Nat.sub]; [lia|lra].
Qed.

(** The interpolant of increasing values need not be increasing, or stay between the values. *)
Theorem C58_unint_between_refuted : ~ (forall xa ya k x, increasing xa -> (4 <= length xa <= length ya)%nat -> (k + 1 < length xa)%nat ->
  nth k xa 0 <= x <= nth (k + 1) xa 0 -> (forall i j, (i <= j < length ya)%nat -> nth i ya 0 <= nth j ya 0) ->
  nth k ya 0 <= unint_val xa ya x <= nth (k + 1) ya 0).
Proof.
  intro A. specialize (A [0; 1; 2; 3] [0; 0; 0; 1] 1%nat (3 / 2) inc_0123). cbn [length nth Nat.add] in A.
  assert (B : 0 <= unint_val [0; 1; 2; 3] [0; 0; 0; 1] (3 / 2) <= 0).
  { apply A; try lia; try lra. intros i j H. destruct i as [|[|[|[|i]]]], j as [|[|[|[|j]]]]; cbn [nth]; try lia; lra. }
  unfold unint_val in B. rewrite (unint_between [0; 1; 2; 3] [0; 0; 0; 1] inc_0123 ltac:(cbn; lia) 1) in B by (cbn [nth length Nat.add]; try lia; lra).
  unfold piece, par_at, parabola in B. cbn [nth length Nat.add Nat.eqb Nat.sub] in B. lra.
Qed.
Print Assumptions C58_unint_between_refuted.

(** ** _biquad *)
(** Univariate interpolation along x for each y, then along y; the flag is that of x plus three times that of y. *)
Theorem C58_biquad_tensor pre xs ys rows post x y : increasing xs -> increasing ys -> (4 <= length xs)%nat -> (4 <= length ys)%nat ->
  length rows = length xs -> (forall r, In r rows -> length r = length ys) ->
  exists kx ky z,
    (forall ya, (length xs <= length ya)%nat -> exists v, unint xs ya x = Ok (v, kx)) /\
    unint ys (map (fun j => unint_val xs (map (fun r => nth j r 0) rows) x) (seq 0 (length ys))) y = Ok (z, ky) /\
    biquad (pre ++ IZR (Z.of_nat (length xs)) :: IZR (Z.of_nat (length ys)) :: xs ++ ys ++ concat rows ++ post)
      (Z.of_nat (length pre)) x y = Ok (z, (kx + 3 * ky)%Z).
Proof. intros. now apply biquad_tensor. Qed.
Print Assumptions C58_biquad_tensor.

(** Table values are reproduced. *)
Theorem C58_biquad_node pre xs ys rows post a b : increasing xs -> increasing ys -> (4 <= length xs)%nat -> (4 <= length ys)%nat ->
  length rows = length xs -> (forall r, In r rows -> length r = length ys) -> (a < length xs)%nat -> (b < length ys)%nat ->
  biquad (pre ++ IZR (Z.of_nat (length xs)) :: IZR (Z.of_nat (length ys)) :: xs ++ ys ++ concat rows ++ post)
    (Z.of_nat (length pre)) (nth a xs 0) (nth b ys 0) = Ok (nth b (nth a rows []) 0, 0%Z).
Proof.
  intros Ix Iy Lx Ly Lr Lc Ha Hb.
  destruct (biquad_tensor pre xs ys rows post (nth a xs 0) (nth b ys 0) Ix Iy Lx Ly Lr Lc) as (kx & ky & z & Hx & Hy & ->).
  rewrite (unint_node ys _ Iy) in Hy by (rewrite ?map_length, ?seq_length; lia). injection Hy as <- <-.
  destruct (Hx xs (le_n _)) as [v V]. rewrite (unint_node xs xs Ix) in V by lia. injection V as _ <-.
  do 2 f_equal. rewrite (nth_indep _ 0 (unint_val xs (column rows 0) (nth a xs 0))) by (rewrite map_length, seq_length; exact Hb).
  rewrite (map_nth (fun j => unint_val xs (column rows j) (nth a xs 0))), seq_nth by exact Hb.
  unfold unint_val. rewrite (unint_node xs (column rows (0 + b)) Ix).
  - rewrite nth_column by lia. reflexivity.
  - unfold column. rewrite map_length. lia.
  - exact Ha.
Qed.
Print Assumptions C58_biquad_node.

(** With no y values the table is univariate and y is ignored. *)
Theorem C58_biquad_univariate pre xs vs post x y : increasing xs -> (4 <= length xs)%nat -> length vs = length xs ->
  biquad (pre ++ IZR (Z.of_nat (length xs)) :: IZR 0 :: xs ++ vs ++ post) (Z.of_nat (length pre)) x y = unint xs vs x.
Proof.
  intros Ix Lx Lv. set (T := pre ++ _). set (i := Z.of_nat (length pre)). set (nx := length xs) in *.
  assert (Sx : segment T (i + 2) xs).
  { unfold T, i. replace (Z.of_nat (length pre) + 2)%Z with (Z.of_nat (length (pre ++ [IZR (Z.of_nat nx); IZR 0])))
      by (rewrite app_length; cbn; lia).
    replace (pre ++ _) with ((pre ++ [IZR (Z.of_nat nx); IZR 0]) ++ xs ++ vs ++ post) by (rewrite <- app_assoc; reflexivity).
    apply segment_app. }
  assert (Sv : segment T (i + 2 + Z.of_nat nx) vs).
  { unfold T, i. replace (Z.of_nat (length pre) + 2 + Z.of_nat nx)%Z with (Z.of_nat (length (pre ++ IZR (Z.of_nat nx) :: IZR 0 :: xs)))
      by (rewrite app_length; cbn; fold nx; lia).
    replace (pre ++ _) with ((pre ++ IZR (Z.of_nat nx) :: IZR 0 :: xs) ++ vs ++ post) by (rewrite <- app_assoc; reflexivity).
    apply segment_app. }
  assert (T0 : pyget T i = Ok (IZR (Z.of_nat nx))).
  { rewrite (pyget_z T i (length pre) 0); [|reflexivity|unfold T; rewrite app_length; cbn; lia].
    unfold T. rewrite app_nth2 by lia. rewrite Nat.sub_diag. reflexivity. }
  assert (T1 : pyget T (i + 1) = Ok (IZR 0)).
  { rewrite (pyget_z T (i + 1) (length pre + 1) 0); [|unfold i; lia|unfold T; rewrite app_length; cbn; lia].
    unfold T. rewrite app_nth2 by lia. replace (length pre + 1 - length pre)%nat with 1%nat by lia. reflexivity. }
  destruct (stencil T (i + 2) xs x Sx Ix Lx) as (x' & kx & jx & ra & Jx & Bx & Ux). fold nx in Bx, Jx.
  unfold biquad. rewrite T0, T1. cbn [rbind]. rewrite !int_of_IZR. rewrite Bx. cbn [rbind].
  rewrite (four_of_segment T (i + 2) xs jx Sx) by exact Jx. cbn [rbind Z.eqb].
  replace (i + 2 + Z.of_nat jx + Z.of_nat nx)%Z with (i + 2 + Z.of_nat nx + Z.of_nat jx)%Z by lia.
  rewrite (four_of_segment T _ vs jx Sv) by lia. cbn [rbind]. rewrite (Ux vs) by lia. reflexivity.
Qed.
Print Assumptions C58_biquad_univariate.

(** ** The tables *)
Fixpoint increasing_z (l : list Z) : bool :=
  match l with a :: (b :: _) as l' => (Z.ltb a b && increasing_z l')%bool | _ => true end.

Lemma increasing_step l : (forall k, (k + 1 < length l)%nat -> nth k l 0 < nth (k + 1) l 0) -> increasing l.
Proof.
  intros H i j [Hij Hj]. induction j as [|j IH]; [lia|].
  pose proof (H j ltac:(lia)) as Sj. replace (j + 1)%nat with (S j) in Sj by lia.
  destruct (Nat.eq_dec i j) as [->|N]; [exact Sj|]. specialize (IH ltac:(lia) ltac:(lia)). lra.
Qed.

Lemma tab_increasing l : increasing_z l = true -> increasing (tab l).
Proof.
  intro H. apply increasing_step. unfold tab. intros k Hk. rewrite map_length in Hk. revert k Hk.
  induction l as [|a l IH]; intros k Hk; cbn [length] in Hk; [lia|].
  destruct l as [|b l]; cbn [length] in Hk; [lia|]. change (Z.ltb a b && increasing_z (b :: l) = true)%bool in H.
  apply andb_prop in H as [H1 H2]. apply Z.ltb_lt in H1. destruct k as [|k].
  - cbn. apply IZR_lt in H1. lra.
  - cbn [map nth Nat.add]. apply (IH H2 k). cbn [length]. lia.
Qed.

Lemma tab_slice n l : slice 0 n (tab l) = tab (firstn n l).
Proof. unfold slice, tab. cbn [skipn]. rewrite Nat.sub_0_r. apply firstn_map. Qed.

(** A table that the univariate routine accepts for every argument. *)
Definition good_table (xa ya : list R) : Prop := increasing xa /\ (4 <= length xa <= length ya)%nat.

Lemma tab_length l : length (tab l) = length l.
Proof. apply map_length. Qed.

Definition good_z (xa ya : list Z) : bool := (increasing_z xa && Nat.leb 4 (length xa) && Nat.leb (length xa) (length ya))%bool.
Lemma good_tab xa ya : good_z xa ya = true -> good_table (tab xa) (tab ya).
Proof.
  intro H. apply andb_prop in H as [H H3]. apply andb_prop in H as [H1 H2]. apply Nat.leb_le in H2. apply Nat.leb_le in H3.
  split; [now apply tab_increasing|]. rewrite !tab_length. lia.
Qed.
Lemma good_rows xa L : forallb (good_z xa) L = true -> forall t, In t (tab2 L) -> good_table (tab xa) t.
Proof.
  intros H t Ht. apply in_map_iff in Ht as [z [<- Hz]]. apply good_tab. rewrite forallb_forall in H. now apply H.
Qed.
Lemma tab2_nth L k : nth k (tab2 L) [] = tab (nth k L []).
Proof. apply (map_nth tab L [] k). Qed.
Lemma tab3_nth L k : nth k (tab3 L) [] = tab2 (nth k L []).
Proof. apply (map_nth tab2 L [] k). Qed.

(** Every look-up of the method is in a table with strictly increasing arguments and at least four of them. *)
Theorem C58_tables :
  (forall t, In t AFCPC \/ In t AFCTC -> good_table Act_Factor_arr t) /\
  (forall t, In t BL_P_corr_table -> good_table CPEC t) /\ (forall t, In t BL_T_corr_table -> good_table CTEC t) /\
  (forall k, (k < 6)%nat -> good_table (slice 0 (nth k cli_arr_len 0%nat) (nth k CP_CLi_table [])) (nth k XPCLI [])) /\
  (forall k, (k < 6)%nat -> good_table (slice 0 (nth k cli_arr_len 0%nat) (nth k CT_CLi_table []))
     (slice 0 (nth k cli_arr_len 0%nat) (nth k XTCLI []))) /\
  (forall b k, (b < 4)%nat -> (k < 7)%nat ->
     good_table (slice 0 (nth k ang_arr_len 0%nat) (nth k (nth b CP_Angle_table []) [])) (nth k Blade_angle_table []) /\
     good_table (slice 0 (nth k ang_arr_len 0%nat) (nth k Blade_angle_table []))
       (slice 0 (nth k ang_arr_len 0%nat) (nth k (nth b CT_Angle_table []) []))) /\
  good_table advance_ratio_array TF_CLI_arr /\ (forall t, In t mach_corr_table -> good_table advance_ratio_array2 t) /\
  (forall b, (b <= 3)%nat -> increasing (slice b (b + 4) advance_ratio_array) /\ length (slice b (b + 4) advance_ratio_array) = 4%nat) /\
  (forall b, (b <= 2)%nat -> increasing (slice b (b + 4) CL_arr) /\ length (slice b (b + 4) CL_arr) = 4%nat) /\
  increasing num_blades_arr.
Proof.
  split. { intros t [H|H]; revert t H; apply good_rows; reflexivity. }
  split. { apply good_rows; reflexivity. }
  split. { apply good_rows; reflexivity. }
  split.
  { intros k H. unfold CP_CLi_table, XPCLI. rewrite !tab2_nth, tab_slice. apply good_tab.
    do 6 (destruct k as [|k]; [reflexivity|]). lia. }
  split.
  { intros k H. unfold CT_CLi_table, XTCLI. rewrite !tab2_nth, !tab_slice. apply good_tab.
    do 6 (destruct k as [|k]; [reflexivity|]). lia. }
  split.
  { intros b k Hb H. unfold CP_Angle_table, CT_Angle_table, Blade_angle_table. rewrite !tab3_nth, !tab2_nth, !tab_slice.
    split; apply good_tab; (do 4 (destruct b as [|b]; [do 7 (destruct k as [|k]; [reflexivity|]); lia|])); lia. }
  split. { apply good_tab; reflexivity. }
  split. { apply good_rows; reflexivity. }
  split.
  { intros b Hb. do 4 (destruct b as [|b]; [split; [|reflexivity]; match goal with |- increasing (slice ?b ?e (tab ?l)) => change (slice b e (tab l))
      with (tab (slice b e l)) | |- increasing (slice ?b ?e advance_ratio_array) => change (slice b e advance_ratio_array) with (tab (slice b e advance_ratio_array_z)) end; apply tab_increasing; reflexivity|]). lia. }
  split.
  { intros b Hb. do 3 (destruct b as [|b]; [split; [|reflexivity]; match goal with |- increasing (slice ?b ?e CL_arr) =>
      change (slice b e CL_arr) with (tab (slice b e CL_arr_z)) end; apply tab_increasing; reflexivity|]). lia. }
  apply tab_increasing; reflexivity.
Qed.
Print Assumptions C58_tables.

(** ** Compressibility loss *)
Definition mach_xs := firstn 9 (skipn 3 comp_mach_CT_arr_z).
Definition mach_ys := firstn 12 (skipn 12 comp_mach_CT_arr_z).
Definition mach_rows := map (fun a => firstn 12 (skipn (24 + 12 * a) comp_mach_CT_arr_z)) (seq 0 9).

Lemma mach_layout : comp_mach_CT_arr = [1] ++ IZR (Z.of_nat (length (tab mach_xs))) :: IZR (Z.of_nat (length (tab mach_ys))) ::
  tab mach_xs ++ tab mach_ys ++ concat (tab2 mach_rows) ++ [].
Proof.
  rewrite app_nil_r. unfold tab2. change (concat (map tab mach_rows)) with (concat (map (map (fun z => IZR z / 10000)) mach_rows)).
  rewrite <- concat_map. unfold tab at 3 4. rewrite <- !map_app, !tab_length.
  change comp_mach_CT_arr with (IZR 10000 / 10000 :: IZR 90000 / 10000 :: IZR 120000 / 10000 ::
    map (fun z => IZR z / 10000) (mach_xs ++ mach_ys ++ concat mach_rows)).
  cbn [app]. change (Z.of_nat (length mach_xs)) with 9%Z. change (Z.of_nat (length mach_ys)) with 12%Z.
  f_equal; [field|]. f_equal; [field|]. f_equal; field.
Qed.

(** The loss factor of the table for excess Mach number [a] and thrust coefficient [b] (indices). *)
Lemma mach_node a b : (a < 9)%nat -> (b < 12)%nat ->
  biquad comp_mach_CT_arr 1 (IZR (nth a mach_xs 0%Z) / 10000) (IZR (nth b mach_ys 0%Z) / 10000)
  = Ok (IZR (nth b (nth a mach_rows []) 0%Z) / 10000, 0%Z).
Proof.
  intros Ha Hb. rewrite mach_layout.
  pose proof (C58_biquad_node [1] (tab mach_xs) (tab mach_ys) (tab2 mach_rows) [] a b) as N.
  assert (E : forall l k, nth k (tab l) 0 = IZR (nth k l 0%Z) / 10000).
  { intros l k. unfold tab. rewrite <- (map_nth (fun z => IZR z / 10000)). f_equal. field. }
  rewrite tab2_nth, !E in N. change (Z.of_nat (length [1])) with 1%Z in N. apply N; clear N.
  - apply tab_increasing. reflexivity.
  - apply tab_increasing. reflexivity.
  - cbn; lia.
  - cbn; lia.
  - reflexivity.
  - intros r Hr. apply in_map_iff in Hr as [z [<- Hz]]. rewrite !tab_length. revert z Hz. apply Forall_forall.
    repeat constructor.
  - rewrite tab_length. exact Ha.
  - rewrite tab_length. exact Hb.
Qed.

(** The loss factor does not rise with the excess Mach number and does not fall with the thrust coefficient ... *)
Definition suspect (a b : nat) : bool := (Nat.eqb a 3 && Nat.leb 10 b)%bool.
Theorem C58_mach_table a b a' b' x y z w : (a <= a' < 9)%nat -> (b <= b' < 12)%nat -> ~ (a = 3 /\ 10 <= b)%nat ->
  ~ (a' = 3 /\ 10 <= b)%nat -> ~ (a = 3 /\ 10 <= b')%nat ->
  x = IZR (nth a mach_xs 0%Z) / 10000 -> y = IZR (nth b mach_ys 0%Z) / 10000 ->
  z = IZR (nth a' mach_xs 0%Z) / 10000 -> w = IZR (nth b' mach_ys 0%Z) / 10000 ->
  exists v vx vy, biquad comp_mach_CT_arr 1 x y = Ok (v, 0%Z) /\ biquad comp_mach_CT_arr 1 z y = Ok (vx, 0%Z) /\
    biquad comp_mach_CT_arr 1 x w = Ok (vy, 0%Z) /\ vx <= v <= vy.
Proof.
  intros Ha Hb N1 N2 N3 -> -> -> ->. rewrite !mach_node by lia. do 3 eexists. do 3 (split; [reflexivity|]).
  assert (S : forall p q, ~ (p = 3 /\ 10 <= q)%nat -> suspect p q = false).
  { intros p q Hpq. unfold suspect. destruct (Nat.eqb_spec p 3), (Nat.leb_spec 10 q); try reflexivity. elim Hpq. now split. }
  assert (C : forallb (fun b => forallb (fun a => forallb (fun a' => (suspect a b || suspect a' b || Nat.ltb a' a ||
       Z.leb (nth b (nth a' mach_rows []) 0%Z) (nth b (nth a mach_rows []) 0%Z))%bool) (seq 0 9)) (seq 0 9)) (seq 0 12) = true) by reflexivity.
  assert (D : forallb (fun a => forallb (fun b => forallb (fun b' => (suspect a b || suspect a b' || Nat.ltb b' b ||
       Z.leb (nth b (nth a mach_rows []) 0%Z) (nth b' (nth a mach_rows []) 0%Z))%bool) (seq 0 12)) (seq 0 12)) (seq 0 9) = true) by reflexivity.
  rewrite forallb_forall in C. specialize (C b ltac:(apply in_seq; lia)). cbv beta in C. rewrite forallb_forall in C.
  specialize (C a ltac:(apply in_seq; lia)). cbv beta in C. rewrite forallb_forall in C. specialize (C a' ltac:(apply in_seq; lia)).
  rewrite forallb_forall in D. specialize (D a ltac:(apply in_seq; lia)). cbv beta in D. rewrite forallb_forall in D.
  specialize (D b ltac:(apply in_seq; lia)). cbv beta in D. rewrite forallb_forall in D. specialize (D b' ltac:(apply in_seq; lia)).
  cbv beta in C, D. rewrite (S a b N1), (S a' b N2) in C. rewrite (S a b N1), (S a b' N3) in D.
  replace (Nat.ltb a' a) with false in C by (symmetry; apply Nat.ltb_ge; lia).
  replace (Nat.ltb b' b) with false in D by (symmetry; apply Nat.ltb_ge; lia). cbn [orb] in C, D.
  apply Z.leb_le in C. apply Z.leb_le in D. apply IZR_le in C. apply IZR_le in D. lra.
Qed.
Print Assumptions C58_mach_table.
Example C58_witness_mach_table : biquad comp_mach_CT_arr 1 (2 / 100) (12 / 100) = Ok (99 / 100, 0%Z).
Proof.
  pose proof (mach_node 1 4 ltac:(lia) ltac:(lia)) as N. cbn [nth mach_xs mach_ys] in N.
  replace (2 / 100) with (IZR 200 / 10000) by field. replace (12 / 100) with (IZR 1200 / 10000) by field.
  etransitivity; [exact N|]. do 2 f_equal. change (IZR 9900 / 10000 = 99 / 100). field.
Qed.

(** ... except for the last two entries of the row of excess Mach number 0.06: there the factor is 0.9, below the one
    for excess Mach number 0.08 and below the one for the smaller thrust coefficient. *)
Theorem C58_mach_table_refuted :
  biquad comp_mach_CT_arr 1 (6 / 100) (36 / 100) = Ok (9 / 10, 0%Z) /\
  biquad comp_mach_CT_arr 1 (8 / 100) (36 / 100) = Ok (984 / 1000, 0%Z) /\
  biquad comp_mach_CT_arr 1 (6 / 100) (32 / 100) = Ok (99 / 100, 0%Z).
Proof.
  replace (6 / 100) with (IZR 600 / 10000) by field. replace (36 / 100) with (IZR 3600 / 10000) by field.
  replace (8 / 100) with (IZR 800 / 10000) by field. replace (32 / 100) with (IZR 3200 / 10000) by field.
  split; [|split].
  - etransitivity; [exact (mach_node 3 10 ltac:(lia) ltac:(lia))|]. do 2 f_equal. change (IZR 9000 / 10000 = 9 / 10). field.
  - etransitivity; [exact (mach_node 4 10 ltac:(lia) ltac:(lia))|]. do 2 f_equal. change (IZR 9840 / 10000 = 984 / 1000). field.
  - etransitivity; [exact (mach_node 3 9 ltac:(lia) ltac:(lia))|]. do 2 f_equal. change (IZR 9900 / 10000 = 99 / 100). field.
Qed.
Print Assumptions C58_mach_table_refuted.

(** ** The iteration *)
Lemma iterate_found factor afcte target fuel : forall prev ct0 ct xft, 0 < ct0 ->
  iterate factor afcte target fuel prev ct0 = Ok (Found ct xft) ->
  0 < ct /\ target <> 0 /\ exists tcl, factor ct = Ok (tcl, xft) /\ Rabs (ct * afcte * tcl - target) < Rabs target / 1000.
Proof.
  induction fuel as [|f IH]; intros prev ct0 ct xft P; cbn [iterate]; [discriminate|].
  destruct (factor ct0) as [[tcl x]|] eqn:F; cbn [rbind]; [|discriminate].
  unfold eqb at 1. destruct (Req_EM_T target 0) as [T|T]; cbn [negb andb].
  - intro H. destruct prev as [[c g]|].
    + destruct (eqb _ 0); [discriminate|]. unfold leb in H. destruct (Rle_dec _ 0) as [|N]; [discriminate|].
      apply IH in H; [exact H|lra].
    + apply IH in H; [exact H|lra].
  - unfold ltb at 1. destruct (Rlt_dec _ (1 / 1000)) as [L|L].
    + intro H. injection H as <- <-. split; [exact P|]. split; [exact T|]. exists tcl. split; [exact F|].
      unfold Rdiv in L. rewrite Rabs_mult, Rabs_inv in L. pose proof (Rabs_pos_lt _ T) as A.
      apply (Rmult_lt_compat_r (Rabs target)) in L; [|exact A].
      replace (Rabs (ct0 * afcte * tcl - target) * / Rabs target * Rabs target) with (Rabs (ct0 * afcte * tcl - target)) in L
        by (field; lra). lra.
    + intro H. destruct prev as [[c g]|].
      * destruct (eqb _ 0); [discriminate|]. unfold leb in H. destruct (Rle_dec _ 0) as [|N]; [discriminate|].
        apply IH in H; [exact H|lra].
      * apply IH in H; [exact H|lra].
Qed.

(** A thrust coefficient that the iteration accepts is positive and its effective value is within 0.1 % of the one of the
    blade angle tables. *)
Theorem C58_iteration factor afcte target ct xft : iterate factor afcte target 10 None (1 / 10) = Ok (Found ct xft) ->
  0 < ct /\ target <> 0 /\ exists tcl, factor ct = Ok (tcl, xft) /\ Rabs (ct * afcte * tcl - target) < Rabs target / 1000.
Proof. apply iterate_found. lra. Qed.
Print Assumptions C58_iteration.
Lemma iterate_start factor afcte target f ct tcl xft : factor ct = Ok (tcl, xft) -> target <> 0 ->
  1 / 1000 <= Rabs ((ct * afcte * tcl - target) / target) ->
  iterate factor afcte target (S f) None ct = iterate factor afcte target f (Some (ct, ct * afcte * tcl - target)) (2 / 10).
Proof. intros F T L. cbn [iterate]. rewrite F. cbn [rbind]. rewrite eqb_false by exact T. rewrite ltb_false by exact L. reflexivity. Qed.
Lemma iterate_next factor afcte target f ct tcl xft ct0 g0 next : factor ct = Ok (tcl, xft) -> target <> 0 ->
  1 / 1000 <= Rabs ((ct * afcte * tcl - target) / target) -> ct * afcte * tcl - target - g0 <> 0 ->
  next = - g0 * (ct - ct0) / (ct * afcte * tcl - target - g0) + ct0 -> 0 < next ->
  iterate factor afcte target (S f) (Some (ct0, g0)) ct = iterate factor afcte target f (Some (ct, ct * afcte * tcl - target)) next.
Proof.
  intros F T L N -> P. cbn [iterate]. rewrite F. cbn [rbind]. rewrite eqb_false by exact T. rewrite ltb_false by exact L.
  cbn [negb andb]. rewrite eqb_false by exact N. rewrite leb_false by exact P. reflexivity.
Qed.
Lemma iterate_end factor afcte target f prev ct tcl xft : factor ct = Ok (tcl, xft) -> target <> 0 ->
  Rabs ((ct * afcte * tcl - target) / target) < 1 / 1000 -> iterate factor afcte target (S f) prev ct = Ok (Found ct xft).
Proof. intros F T L. cbn [iterate]. rewrite F. cbn [rbind]. rewrite eqb_false by exact T. rewrite ltb_true by exact L. reflexivity. Qed.
Example C58_witness_iteration : iterate (fun _ => Ok (1, 1)) 1 (1 / 2) 10 None (1 / 10) = Ok (Found (1 / 2) 1).
Proof.
  rewrite (iterate_start _ _ _ _ _ 1 1); [|reflexivity|lra|].
  2:{ replace ((1 / 10 * 1 * 1 - 1 / 2) / (1 / 2)) with (- (8 / 10)) by field. rewrite Rabs_Ropp, Rabs_pos_eq; lra. }
  rewrite (iterate_next _ _ _ _ _ 1 1 _ _ (1 / 2)); [|reflexivity|lra| |lra|field; lra|lra].
  2:{ replace ((2 / 10 * 1 * 1 - 1 / 2) / (1 / 2)) with (- (6 / 10)) by field. rewrite Rabs_Ropp, Rabs_pos_eq; lra. }
  apply (iterate_end _ _ _ _ _ _ 1 1); [reflexivity|lra|].
  replace ((1 / 2 * 1 * 1 - 1 / 2) / (1 / 2)) with 0 by field. rewrite Rabs_R0. lra.
Qed.
