(** The Hamilton Standard propeller method: blade counts, look-ups, checks of inputs and power balance. *)
From Coq Require Import Reals Lra Lia.
From Coquelicot Require Import Coquelicot.
From Verif Require Import Base Calc MathModel Comp HamData HamModel HamProofs HamProps.
Open Scope list_scope.
Local Open Scope R_scope.

(** ** Blade counts *)
Lemma pyget_beyond {A} (l : list A) z : (Z.of_nat (length l) <= z)%Z -> pyget l z = Err IndexError.
Proof.
  intro H. unfold pyget. replace (z <? 0)%Z with false by (symmetry; apply Z.ltb_ge; lia).
  replace (z <? 0)%Z with false by (symmetry; apply Z.ltb_ge; lia).
  rewrite (proj2 (nth_error_None l (Z.to_nat z))) by lia. reflexivity.
Qed.

Lemma rmap_ext {A B} (f g : A -> res B) l : (forall a, f a = g a) -> rmap f l = rmap g l.
Proof. intro H. induction l as [|a l IH]; cbn [rmap]; [reflexivity|]. rewrite H, IH. reflexivity. Qed.

Lemma iterate_ext f g afcte target fuel : (forall c, f c = g c) -> forall prev ct,
  iterate f afcte target fuel prev ct = iterate g afcte target fuel prev ct.
Proof.
  intro H. induction fuel as [|n IH]; intros prev ct; cbn [iterate]; [reflexivity|]. rewrite H.
  destruct (g ct) as [[tcl x]|]; cbn [rbind]; [|reflexivity]. destruct (negb _ && _)%bool; [reflexivity|].
  destruct prev as [[c0 g0]|]; [|apply IH]. destruct (eqb _ 0); [reflexivity|]. destruct (leb _ 0); [reflexivity|apply IH].
Qed.

Lemma at_blades_wrap af afcte cli cp J mach tip : at_blades (-1) af afcte cli cp J mach tip = at_blades 3 af afcte cli cp J mach tip.
Proof.
  unfold at_blades.
  assert (B : forall a k, base_ct (-1) a cp cli k = base_ct 3 a cp cli k).
  { intros a k. unfold base_ct. change (pyget BL_P_corr_table (-1)) with (pyget BL_P_corr_table 3).
    change (pyget CP_Angle_table (-1)) with (pyget CP_Angle_table 3). change (pyget CT_Angle_table (-1)) with (pyget CT_Angle_table 3).
    reflexivity. }
  rewrite (rmap_ext (fun k => a <- pyget af k;; base_ct (-1) a cp cli k) (fun k => a <- pyget af k;; base_ct 3 a cp cli k)).
  2:{ intro k. destruct (pyget af k); cbn [rbind]; [apply B|reflexivity]. }
  destruct (rmap _ _) as [ctt|]; cbn [rbind]; [|reflexivity].
  destruct (unint _ ctt J) as [cttt|]; cbn [rbind]; [|reflexivity].
  destruct (unint advance_ratio_array TF_CLI_arr J) as [tf|]; cbn [rbind]; [|reflexivity].
  rewrite (iterate_ext (thrust_factor (-1) afcte (fst tf) cli J mach tip) (thrust_factor 3 afcte (fst tf) cli J mach tip)); [reflexivity|].
  intro c. unfold thrust_factor. change (pyget BL_T_corr_table (-1)) with (pyget BL_T_corr_table 3). reflexivity.
Qed.

(** No blades at all give the results of eight blades. *)
Theorem C58_no_blades_refuted af cli cp J mach tip : hamilton 0 af cli cp J mach tip = hamilton 8 af cli cp J mach tip.
Proof.
  unfold hamilton. destruct (act_factors AFCPC af); cbn [rbind]; [|reflexivity].
  destruct (act_factors AFCTC af); cbn [rbind]; [|reflexivity].
  change (0 mod 2 =? 0)%Z with true. change (8 mod 2 =? 0)%Z with true. apply at_blades_wrap.
Qed.
Print Assumptions C58_no_blades_refuted.

(** ** No failed look-up *)
Lemma unint_ok xa ya x : good_table xa ya -> exists y f, unint xa ya x = Ok (y, f).
Proof. intros [I L]. now apply C58_unint_total. Qed.

Lemma pyget_ok {A} (l : list A) z d : (0 <= z < Z.of_nat (length l))%Z -> pyget l z = Ok (nth (Z.to_nat z) l d).
Proof. intro H. apply pyget_z; lia. Qed.

Lemma rmap_ok {A B} (f : A -> res B) l : (forall a, In a l -> exists b, f a = Ok b) -> exists bs, rmap f l = Ok bs /\ length bs = length l.
Proof.
  induction l as [|a l IH]; intro H; [exists []; now split|]. destruct (H a (or_introl eq_refl)) as [b Hb].
  destruct IH as [bs [E L]]; [intros c Hc; apply H; now right|]. exists (b :: bs). cbn [rmap]. rewrite Hb. cbn [rbind]. rewrite E.
  split; [reflexivity|cbn; lia].
Qed.

Lemma zrange_length b e : length (zrange b e) = Z.to_nat (e - b).
Proof. unfold zrange. now rewrite map_length, seq_length. Qed.
Lemma zrange_in b e z : In z (zrange b e) -> (b <= z < e)%Z.
Proof. unfold zrange. intro H. apply in_map_iff in H as [k [<- Hk]]. apply in_seq in Hk. lia. Qed.

Lemma at_node_range cli l : forall i k, at_node cli l i = Some k -> (i <= k < i + Z.of_nat (length l))%Z.
Proof.
  induction l as [|a l IH]; intros i k H; cbn [at_node] in H; [discriminate|]. cbn [length].
  destruct (leb _ _); [injection H as <-; lia|]. apply IH in H. lia.
Qed.

Lemma cl_range_ok cli : let '(b, e, node) := cl_range cli in
  (0 <= b <= e)%Z /\ (e < 6)%Z /\ (node = false -> (e = b + 3)%Z) /\ (node = true -> e = b).
Proof.
  unfold cl_range. destruct (at_node cli CL_arr 0) as [i|] eqn:E.
  - apply at_node_range in E. change (length CL_arr) with 6%nat in E. repeat split; try lia; discriminate.
  - destruct (leb cli (6 / 10)); [|destruct (leb cli (7 / 10))]; repeat split; try lia; discriminate.
Qed.

Lemma over_cl_ok cli vals : (let '(b, e, _) := cl_range cli in length vals = Z.to_nat (e + 1 - b)) -> exists v, over_cl cli vals = Ok v.
Proof.
  pose proof (cl_range_ok cli) as C. unfold over_cl. destruct (cl_range cli) as [[b e] node]. destruct C as (C1 & C2 & C3 & C4).
  intro L. destruct node.
  - rewrite (pyget_ok vals 0 0) by (rewrite C4 in L by reflexivity; lia). eauto.
  - specialize (C3 eq_refl). pose proof C58_tables as (_ & _ & _ & _ & _ & _ & _ & _ & _ & T & _).
    specialize (T (Z.to_nat b) ltac:(lia)) as [T1 T2].
    destruct (unint_ok (slice (Z.to_nat b) (Z.to_nat b + 4) CL_arr) vals cli) as (y & f & U).
    + split; [exact T1|]. rewrite T2, L. lia.
    + rewrite U. cbn [rbind]. eauto.
Qed.

Lemma power_cl_ok cpe k : (0 <= k < 6)%Z -> exists v, power_cl cpe k = Ok v.
Proof.
  intro H. unfold power_cl. rewrite (pyget_ok CP_CLi_table k []) by (change (length CP_CLi_table) with 6%nat; lia). cbn [rbind].
  pose proof C58_tables as (_ & _ & _ & T & _). specialize (T (Z.to_nat k) ltac:(lia)).
  rewrite (pyget_ok (nth (Z.to_nat k) CP_CLi_table []) 0 0).
  2:{ split; [lia|]. destruct T as [_ T]. unfold slice in T. rewrite firstn_length, skipn_length in T. lia. }
  cbn [rbind]. rewrite (pyget_ok cli_arr_len k 0%nat) by (change (length cli_arr_len) with 6%nat; lia). cbn [rbind].
  rewrite (pyget_ok XPCLI k []) by (change (length XPCLI) with 6%nat; lia). cbn [rbind].
  edestruct (unint_ok _ _ (if ltb cpe (nth (Z.to_nat 0) (nth (Z.to_nat k) CP_CLi_table []) 0) then nth (Z.to_nat 0) (nth (Z.to_nat k) CP_CLi_table []) 0 else cpe) T)
    as (y & f & U). rewrite U. cbn [rbind]. eauto.
Qed.

Lemma in_nth {A} (l : list A) k d : (k < length l)%nat -> In (nth k l d) l.
Proof. apply nth_In. Qed.

Lemma base_ct_ok blade af cp cli k : (0 <= blade < 4)%Z -> (0 <= k < 7)%Z -> exists v, base_ct blade af cp cli k = Ok v.
Proof.
  intros Hb Hk. unfold base_ct. pose proof C58_tables as (_ & TP & _ & _ & _ & TA & _).
  rewrite (pyget_ok BL_P_corr_table blade []) by (change (length BL_P_corr_table) with 4%nat; lia). cbn [rbind].
  destruct (unint_ok CPEC (nth (Z.to_nat blade) BL_P_corr_table []) (cp * af)) as (pbl & f1 & U1).
  { apply TP. apply nth_In. change (length BL_P_corr_table) with 4%nat. lia. }
  rewrite U1. cbn [rbind fst]. rewrite (pyget_ok PF_CLI_arr k 0) by (change (length PF_CLI_arr) with 7%nat; lia). cbn [rbind].
  pose proof (cl_range_ok cli) as C. pose proof (over_cl_ok cli) as OC. destruct (cl_range cli) as [[b e] node] eqn:CR. destruct C as (C1 & C2 & C3 & C4).
  destruct (rmap_ok (power_cl (cp * af * pbl * nth (Z.to_nat k) PF_CLI_arr 0)) (zrange b (e + 1))) as (px & R1 & R2).
  { intros z Hz. apply zrange_in in Hz. apply power_cl_ok. lia. }
  rewrite R1. cbn [rbind]. rewrite zrange_length in R2. destruct (OC px R2) as [pcli P]. rewrite P. cbn [rbind].
  rewrite (pyget_ok ang_arr_len k 0%nat) by (change (length ang_arr_len) with 7%nat; lia). cbn [rbind].
  destruct (TA (Z.to_nat blade) (Z.to_nat k) ltac:(lia) ltac:(lia)) as [TA1 TA2].
  rewrite (pyget_ok CP_Angle_table blade []) by (change (length CP_Angle_table) with 4%nat; lia). cbn [rbind].
  assert (L : forall t, (t = CP_Angle_table \/ t = CT_Angle_table) -> length (nth (Z.to_nat blade) t []) = 7%nat).
  { intros t Ht. assert (Q : (Z.to_nat blade < 4)%nat) by lia. revert Q. generalize (Z.to_nat blade). intros n Q.
    destruct Ht as [-> | ->]; do 4 (destruct n as [|n]; [reflexivity|]); lia. }
  rewrite (pyget_ok (nth (Z.to_nat blade) CP_Angle_table []) k []) by (rewrite L by auto; lia). cbn [rbind].
  rewrite (pyget_ok Blade_angle_table k []) by (change (length Blade_angle_table) with 7%nat; lia). cbn [rbind].
  edestruct (unint_ok _ _ (cp * af * pcli) TA1) as (bll & f2 & U2). rewrite U2. cbn [rbind fst].
  rewrite (pyget_ok CT_Angle_table blade []) by (change (length CT_Angle_table) with 4%nat; lia). cbn [rbind].
  rewrite (pyget_ok (nth (Z.to_nat blade) CT_Angle_table []) k []) by (rewrite L by auto; lia). cbn [rbind].
  edestruct (unint_ok _ _ bll TA2) as (ct & f3 & U3). rewrite U3. eauto.
Qed.

Lemma biquad_ok x y : exists z k, biquad comp_mach_CT_arr 1 x y = Ok (z, k).
Proof.
  rewrite mach_layout.
  destruct (C58_biquad_tensor [1] (tab mach_xs) (tab mach_ys) (tab2 mach_rows) [] x y) as (kx & ky & z & _ & _ & E).
  - apply tab_increasing. reflexivity.
  - apply tab_increasing. reflexivity.
  - cbn; lia.
  - cbn; lia.
  - reflexivity.
  - intros r Hr. apply in_map_iff in Hr as [l [<- Hl]]. rewrite !tab_length. revert l Hl. apply Forall_forall. repeat constructor.
  - exists z, (kx + 3 * ky)%Z. exact E.
Qed.

Lemma thrust_cl_ok cte1 c J mach tip k : (0 <= k < 6)%Z -> exists v, thrust_cl cte1 c J mach tip k = Ok v.
Proof.
  intro H. unfold thrust_cl. rewrite (pyget_ok CT_CLi_table k []) by (change (length CT_CLi_table) with 6%nat; lia). cbn [rbind].
  pose proof C58_tables as (_ & _ & _ & _ & T & _ & _ & TM & _). specialize (T (Z.to_nat k) ltac:(lia)).
  rewrite (pyget_ok (nth (Z.to_nat k) CT_CLi_table []) 0 0).
  2:{ split; [lia|]. destruct T as [_ T]. unfold slice in T. rewrite !firstn_length, !skipn_length in T. lia. }
  cbn [rbind]. rewrite (pyget_ok cli_arr_len k 0%nat) by (change (length cli_arr_len) with 6%nat; lia). cbn [rbind].
  rewrite (pyget_ok XTCLI k []) by (change (length XTCLI) with 6%nat; lia). cbn [rbind].
  edestruct (unint_ok _ _ (if ltb cte1 (nth (Z.to_nat 0) (nth (Z.to_nat k) CT_CLi_table []) 0) then nth (Z.to_nat 0) (nth (Z.to_nat k) CT_CLi_table []) 0 else cte1) T)
    as (y & f & U). rewrite U. cbn [rbind fst].
  assert (D : exists d, (if negb (eqb J 0) then mrow <- pyget mach_corr_table k;; z <- unint advance_ratio_array2 mrow J;; Ok (mach - fst z)
          else z <- pyget mach_tip_corr_arr k;; Ok (tip - z)) = Ok d).
  { destruct (negb (eqb J 0)).
    - rewrite (pyget_ok mach_corr_table k []) by (change (length mach_corr_table) with 6%nat; lia). cbn [rbind].
      destruct (unint_ok advance_ratio_array2 (nth (Z.to_nat k) mach_corr_table []) J) as (z & g & Z1).
      { apply TM. apply nth_In. change (length mach_corr_table) with 6%nat. lia. }
      rewrite Z1. cbn [rbind]. eauto.
    - rewrite (pyget_ok mach_tip_corr_arr k 0) by (change (length mach_tip_corr_arr) with 6%nat; lia). cbn [rbind]. eauto. }
  destruct D as [d D]. rewrite D. cbn [rbind]. destruct (ltb 0 d).
  - destruct (biquad_ok d (c * y)) as (z & g & B). rewrite B. cbn [rbind]. eauto.
  - cbn [rbind]. eauto.
Qed.

Lemma thrust_factor_ok blade afcte tf cli J mach tip ct : (0 <= blade < 4)%Z -> exists v, thrust_factor blade afcte tf cli J mach tip ct = Ok v.
Proof.
  intro Hb. unfold thrust_factor. pose proof C58_tables as (_ & _ & TT & _).
  rewrite (pyget_ok BL_T_corr_table blade []) by (change (length BL_T_corr_table) with 4%nat; lia). cbn [rbind].
  destruct (unint_ok CTEC (nth (Z.to_nat blade) BL_T_corr_table []) (ct * afcte)) as (tbl & f1 & U1).
  { apply TT. apply nth_In. change (length BL_T_corr_table) with 4%nat. lia. }
  rewrite U1. cbn [rbind fst].
  pose proof (cl_range_ok cli) as C. pose proof (over_cl_ok cli) as OC. destruct (cl_range cli) as [[b e] node] eqn:CR. destruct C as (C1 & C2 & C3 & C4).
  destruct (rmap_ok (thrust_cl (ct * afcte * tbl * tf) (ct * afcte * tbl) J mach tip) (zrange b (e + 1))) as (rows & R1 & R2).
  { intros z Hz. apply zrange_in in Hz. apply thrust_cl_ok. lia. }
  rewrite R1. cbn [rbind]. rewrite zrange_length in R2.
  destruct (OC (map fst rows)) as [tcl P]; [rewrite map_length; exact R2|]. rewrite P. cbn [rbind].
  destruct (OC (map snd rows)) as [xft Q]; [rewrite map_length; exact R2|]. rewrite Q. cbn [rbind]. eauto.
Qed.

Lemma iterate_ok factor afcte target fuel : (forall c, exists v, factor c = Ok v) -> forall prev ct,
  exists it, iterate factor afcte target fuel prev ct = Ok it.
Proof.
  intro H. induction fuel as [|n IH]; intros prev ct; cbn [iterate]; [eauto|]. destruct (H ct) as [[tcl x] E]. rewrite E. cbn [rbind].
  destruct (negb _ && _)%bool; [eauto|]. destruct prev as [[c0 g0]|]; [|apply IH].
  destruct (eqb _ 0); [eauto|]. destruct (leb _ 0); [eauto|apply IH].
Qed.

Lemma J_begin_range J : (0 <= J_begin J <= 3)%Z.
Proof. unfold J_begin. destruct (leb J 1); [lia|]. destruct (leb J (3 / 2)); [lia|]. destruct (leb J 2); lia. Qed.

Lemma at_blades_ok blade af afcte cli cp J mach tip : (0 <= blade < 4)%Z -> length af = 7%nat ->
  at_blades blade af afcte cli cp J mach tip = Err ValueError \/
  exists r, at_blades blade af afcte cli cp J mach tip = Ok r.
Proof.
  intros Hb La. unfold at_blades. pose proof (J_begin_range J) as HJ.
  destruct (rmap_ok (fun k => a <- pyget af k;; base_ct blade a cp cli k) (zrange (J_begin J) (J_begin J + 4))) as (ctt & R1 & R2).
  { intros k Hk. apply zrange_in in Hk. rewrite (pyget_ok af k 0) by lia. cbn [rbind]. apply base_ct_ok; lia. }
  rewrite R1. cbn [rbind]. rewrite zrange_length in R2. pose proof C58_tables as (_ & _ & _ & _ & _ & _ & TF & _ & TJ & _).
  destruct (TJ (Z.to_nat (J_begin J)) ltac:(lia)) as [TJ1 TJ2].
  destruct (unint_ok (slice (Z.to_nat (J_begin J)) (Z.to_nat (J_begin J) + 4) advance_ratio_array) ctt J) as (cttt & f1 & U1).
  { split; [exact TJ1|]. rewrite TJ2, R2. lia. }
  rewrite U1. cbn [rbind fst]. destruct (unint_ok _ _ J TF) as (tf & f2 & U2). rewrite U2. cbn [rbind fst].
  destruct (iterate_ok (thrust_factor blade afcte tf cli J mach tip) afcte cttt 10) with (prev := @None (R * R)) (ct := 1 / 10) as [it I].
  { intro c. now apply thrust_factor_ok. }
  rewrite I. cbn [rbind]. destruct it; eauto.
Qed.

Lemma act_factors_ok t af : t = AFCPC \/ t = AFCTC -> exists a, act_factors t af = Ok a.
Proof.
  intro H. unfold act_factors. pose proof C58_tables as (TA & _).
  assert (L : length t = 2%nat) by (destruct H as [-> | ->]; reflexivity).
  rewrite (pyget_ok t 0 []), (pyget_ok t 1 []) by lia. cbn [rbind].
  assert (G : forall k, (k < 2)%nat -> good_table Act_Factor_arr (nth k t [])).
  { intros k Hk. apply TA. destruct H as [-> | ->]; [left|right]; apply nth_In; lia. }
  edestruct (unint_ok _ _ af (G (Z.to_nat 0) ltac:(lia))) as (y0 & f0 & U0). rewrite U0. cbn [rbind].
  edestruct (unint_ok _ _ af (G (Z.to_nat 1) ltac:(lia))) as (y1 & f1 & U1). rewrite U1. cbn [rbind]. eauto.
Qed.

(** For up to eight blades, and for odd numbers of blades, the only exception is the one for an iteration that does not
    converge; an even number above eight is IndexError for all inputs. *)
Theorem C58_hamilton_errors n af cli cp J mach tip :
  ((2 <= n <= 8)%Z \/ (n mod 2 = 1)%Z ->
    hamilton n af cli cp J mach tip = Err ValueError \/ exists r, hamilton n af cli cp J mach tip = Ok r) /\
  ((8 < n)%Z -> (n mod 2 = 0)%Z -> hamilton n af cli cp J mach tip = Err IndexError).
Proof.
  destruct (act_factors_ok AFCPC af ltac:(auto)) as [p P]. destruct (act_factors_ok AFCTC af ltac:(auto)) as [t T].
  unfold hamilton. rewrite P, T. cbn [rbind].
  set (afc := fst p :: repeat (snd p) 6). set (afcte := if leb J (1 / 2) then _ else _). split.
  - intro H. destruct (Z.eqb_spec (n mod 2) 0) as [E|E].
    + apply at_blades_ok; [|reflexivity]. destruct H as [H|H]; [|lia].
      rewrite Z.quot_div_nonneg by lia. pose proof (Z.div_mod n 2 ltac:(lia)). lia.
    + destruct (at_blades_ok 0 afc afcte cli cp J mach tip ltac:(lia) eq_refl) as [-> | [r0 ->]]; [now left|].
      destruct (at_blades_ok 1 afc afcte cli cp J mach tip ltac:(lia) eq_refl) as [-> | [r1 ->]]; [now left|].
      destruct (at_blades_ok 2 afc afcte cli cp J mach tip ltac:(lia) eq_refl) as [-> | [r2 ->]]; [now left|].
      destruct (at_blades_ok 3 afc afcte cli cp J mach tip ltac:(lia) eq_refl) as [-> | [r3 ->]]; [now left|].
      cbn [rbind]. right. destruct r0 as [a|]; [|eauto]. destruct r1 as [b|]; [|eauto]. destruct r2 as [c|]; [|eauto].
      destruct r3 as [d|]; [|eauto]. pose proof C58_tables as (_ & _ & _ & _ & _ & _ & _ & _ & _ & _ & TN).
      assert (G : forall v, length v = 4%nat -> good_table num_blades_arr v).
      { intros v Lv. split; [exact TN|]. rewrite Lv. cbn. lia. }
      edestruct (unint_ok num_blades_arr [fst a; fst b; fst c; fst d] (IZR n) ltac:(now apply G)) as (y & f & U). rewrite U. cbn [rbind].
      edestruct (unint_ok num_blades_arr [snd a; snd b; snd c; snd d] (IZR n) ltac:(now apply G)) as (y' & f' & U'). rewrite U'. cbn [rbind]. eauto.
  - intros H E. rewrite E. cbn [Z.eqb]. unfold at_blades.
    pose proof (J_begin_range J) as HJ.
    replace (zrange (J_begin J) (J_begin J + 4)) with (J_begin J :: zrange (J_begin J + 1) (J_begin J + 4)).
    2:{ unfold zrange. replace (J_begin J + 4 - J_begin J)%Z with 4%Z by lia. replace (J_begin J + 4 - (J_begin J + 1))%Z with 3%Z by lia.
        change (Z.to_nat 4) with 4%nat. change (Z.to_nat 3) with 3%nat.
        cbn [seq map]. repeat (apply f_equal2; [lia|]). reflexivity. }
    cbn [rmap]. rewrite (pyget_ok afc (J_begin J) 0) by (change (length afc) with 7%nat; lia). cbn [rbind]. unfold base_ct at 1.
    rewrite (pyget_beyond BL_P_corr_table); [reflexivity|]. change (Z.of_nat (length BL_P_corr_table)) with 4%Z.
    rewrite Z.quot_div_nonneg by lia. pose proof (Z.div_mod n 2 ltac:(lia)). lia.
Qed.
Print Assumptions C58_hamilton_errors.


(** An odd number of blades: the curve of [unint] through the results for 2, 4, 6 and 8 blades; nine and more blades give
    the result for eight, one blade the result for two. *)
Theorem C58_odd_blades n af cli cp J mach tip : (n mod 2 = 1)%Z -> forall c2 c4 c6 c8,
  hamilton 2 af cli cp J mach tip = Ok (Some c2) -> hamilton 4 af cli cp J mach tip = Ok (Some c4) ->
  hamilton 6 af cli cp J mach tip = Ok (Some c6) -> hamilton 8 af cli cp J mach tip = Ok (Some c8) ->
  exists ct xft, hamilton n af cli cp J mach tip = Ok (Some (ct, xft)) /\
    ct = unint_val [2; 4; 6; 8] [fst c2; fst c4; fst c6; fst c8] (IZR n) /\
    xft = unint_val [2; 4; 6; 8] [snd c2; snd c4; snd c6; snd c8] (IZR n) /\
    ((n < 2)%Z -> (ct, xft) = c2) /\ ((8 < n)%Z -> (ct, xft) = c8).
Proof.
  intros M c2 c4 c6 c8. unfold hamilton. destruct (act_factors AFCPC af) as [p|]; cbn [rbind]; [|discriminate].
  destruct (act_factors AFCTC af) as [t|]; cbn [rbind]; [|discriminate]. rewrite M.
  change (2 mod 2 =? 0)%Z with true. change (4 mod 2 =? 0)%Z with true. change (6 mod 2 =? 0)%Z with true. change (8 mod 2 =? 0)%Z with true.
  change (1 =? 0)%Z with false. cbv iota.
  change (2 ÷ 2 - 1)%Z with 0%Z. change (4 ÷ 2 - 1)%Z with 1%Z. change (6 ÷ 2 - 1)%Z with 2%Z. change (8 ÷ 2 - 1)%Z with 3%Z.
  intros H2 H4 H6 H8. rewrite H2, H4, H6, H8. cbn [rbind].
  assert (NB : num_blades_arr = [2; 4; 6; 8]).
  { unfold num_blades_arr, tab, num_blades_arr_z. cbn [map]. repeat (apply f_equal2; [field|]). reflexivity. }
  pose proof C58_tables as (_ & _ & _ & _ & _ & _ & _ & _ & _ & _ & TN). rewrite NB in TN |- *.
  assert (G : forall v, length v = 4%nat -> good_table [2; 4; 6; 8] v).
  { intros v Lv. split; [exact TN|]. rewrite Lv. cbn. lia. }
  destruct (unint_ok [2; 4; 6; 8] [fst c2; fst c4; fst c6; fst c8] (IZR n) ltac:(now apply G)) as (y & f & U). rewrite U. cbn [rbind].
  destruct (unint_ok [2; 4; 6; 8] [snd c2; snd c4; snd c6; snd c8] (IZR n) ltac:(now apply G)) as (y' & f' & U'). rewrite U'. cbn [rbind fst].
  exists y, y'. split; [reflexivity|]. unfold unint_val. rewrite U, U'. split; [reflexivity|]. split; [reflexivity|].
  split; intro L; apply IZR_lt in L.
  - rewrite (unint_low [2; 4; 6; 8] [fst c2; fst c4; fst c6; fst c8]) in U; [|cbn; lia|cbn [nth]; lra].
    rewrite (unint_low [2; 4; 6; 8] [snd c2; snd c4; snd c6; snd c8]) in U'; [|cbn; lia|cbn [nth]; lra].
    injection U as <- _. injection U' as <- _. cbn [nth]. now destruct c2.
  - rewrite (unint_high [2; 4; 6; 8] [fst c2; fst c4; fst c6; fst c8] TN) in U; [|cbn; lia|cbn [nth length Nat.sub]; lra].
    rewrite (unint_high [2; 4; 6; 8] [snd c2; snd c4; snd c6; snd c8] TN) in U'; [|cbn; lia|cbn [nth length Nat.sub]; lra].
    injection U as <- _. injection U' as <- _. cbn [nth length Nat.sub]. now destruct c8.
Qed.
Print Assumptions C58_odd_blades.

(** ** Compressibility *)
Lemma rmap_snd_one (f : Z -> res (R * R)) l : (forall k v, In k l -> f k = Ok v -> snd v = 1) -> forall rows : list (R * R), rmap f l = Ok rows ->
  forall x, In x (map snd rows) -> x = 1.
Proof.
  intro H. induction l as [|a l IH]; intros rows E x Hx; cbn [rmap] in E.
  - injection E as <-. contradiction.
  - destruct (f a) as [v|] eqn:F; cbn [rbind] in E; [|discriminate]. destruct (rmap f l) as [vs|] eqn:Q; cbn [rbind] in E; [|discriminate].
    injection E as <-. destruct Hx as [<-|Hx]; [apply (H a v); [now left|exact F]|].
    apply (IH (fun k v Hk => H k v (or_intror Hk)) vs); [reflexivity|exact Hx].
Qed.

Lemma parabola_one x0 x1 x2 x : x0 < x1 -> x1 < x2 -> parabola x0 1 x1 1 x2 1 x = 1.
Proof. intros. unfold parabola. field. repeat split; lra. Qed.

Lemma unint_ones xa ya x : increasing xa -> length xa = 4%nat -> length ya = 4%nat -> (forall y, In y ya -> y = 1) ->
  exists f, unint xa ya x = Ok (1, f).
Proof.
  intros I L Ly O. assert (N : forall k, (k < 4)%nat -> nth k ya 0 = 1) by (intros k Hk; apply O, nth_In; lia).
  assert (P : forall k, (1 <= k)%nat -> (k + 1 < length xa)%nat -> par_at xa ya k x = 1).
  { intros k K1 K2. unfold par_at. rewrite !N by lia. apply parabola_one; apply I; lia. }
  destruct (locate xa x ltac:(lia)) as [H|[H|[[k [K ->]]|[k [K H]]]]].
  - rewrite (unint_low xa ya ltac:(lia)) by exact H. rewrite N by lia. eauto.
  - rewrite (unint_high xa ya I ltac:(lia)) by exact H. rewrite N by lia. eauto.
  - rewrite (unint_node xa ya I ltac:(lia)) by exact K. rewrite N by lia. eauto.
  - rewrite (unint_between xa ya I ltac:(lia) k) by assumption. unfold piece.
    destruct (Nat.eqb_spec k 0) as [->|K0]; [rewrite P by lia; eauto|].
    destruct (Nat.eqb_spec (k + 2) (length xa)) as [KN|KN]; [rewrite P by lia; eauto|].
    rewrite !P by lia. cbv zeta. eexists. do 2 f_equal. ring.
Qed.

Lemma over_cl_ones cli vals v : (forall y, In y vals -> y = 1) -> (let '(b, e, _) := cl_range cli in length vals = Z.to_nat (e + 1 - b)) ->
  over_cl cli vals = Ok v -> v = 1.
Proof.
  intro O. pose proof (cl_range_ok cli) as C. unfold over_cl. destruct (cl_range cli) as [[b e] node]. destruct C as (C1 & C2 & C3 & C4).
  intro L. destruct node.
  - rewrite (pyget_ok vals 0 0) by (rewrite C4 in L by reflexivity; lia). intro E. injection E as <-. apply O, nth_In.
    rewrite C4 in L by reflexivity. lia.
  - specialize (C3 eq_refl). pose proof C58_tables as (_ & _ & _ & _ & _ & _ & _ & _ & _ & T & _).
    specialize (T (Z.to_nat b) ltac:(lia)) as [T1 T2].
    destruct (unint_ones (slice (Z.to_nat b) (Z.to_nat b + 4) CL_arr) vals cli T1 T2 ltac:(rewrite L; lia) O) as [f U].
    rewrite U. cbn [rbind fst]. congruence.
Qed.

(** The critical Mach number of the lift coefficient tables in use is not exceeded. *)
Definition below_critical (cli J mach tip : R) : Prop :=
  let '(b, e, _) := cl_range cli in forall k, (b <= k <= e)%Z ->
    (J <> 0 -> mach <= unint_val advance_ratio_array2 (nth (Z.to_nat k) mach_corr_table []) J) /\
    (J = 0 -> tip <= nth (Z.to_nat k) mach_tip_corr_arr 0).

Lemma rmap_length (f : Z -> res (R * R)) l : forall rs, rmap f l = Ok rs -> length rs = length l.
Proof.
  induction l as [|a l IH]; intros rs E; cbn [rmap] in E; [now injection E as <-|].
  destruct (f a); cbn [rbind] in E; [|discriminate]. destruct (rmap f l); cbn [rbind] in E; [|discriminate].
  injection E as <-. cbn. f_equal. now apply IH.
Qed.

Lemma thrust_factor_no_loss blade afcte tf cli J mach tip ct v : below_critical cli J mach tip ->
  thrust_factor blade afcte tf cli J mach tip ct = Ok v -> snd v = 1.
Proof.
  intro B. unfold thrust_factor. destruct (pyget BL_T_corr_table blade); cbn [rbind]; [|discriminate].
  destruct (unint CTEC _ _) as [tbl|]; cbn [rbind]; [|discriminate]. unfold below_critical in B.
  pose proof (cl_range_ok cli) as C. pose proof (over_cl_ones cli) as OC. destruct (cl_range cli) as [[b e] node] eqn:CR.
  destruct C as (C1 & C2 & C3 & C4).
  destruct (rmap _ _) as [rows|] eqn:RM; cbn [rbind]; [|discriminate].
  destruct (over_cl cli (map fst rows)); cbn [rbind]; [|discriminate].
  destruct (over_cl cli (map snd rows)) as [xft|] eqn:OX; cbn [rbind]; [|discriminate]. intro E. injection E as <-. cbn [snd].
  apply (OC (map snd rows)); [|rewrite map_length|exact OX].
  - apply (rmap_snd_one (thrust_cl (ct * afcte * fst tbl * tf) (ct * afcte * fst tbl) J mach tip) (zrange b (e + 1))); [|exact RM].
    intros k w Hk. apply zrange_in in Hk. specialize (B k ltac:(lia)) as [B1 B2]. unfold thrust_cl.
    destruct (pyget CT_CLi_table k); cbn [rbind]; [|discriminate]. destruct (pyget _ 0) as [lo|]; cbn [rbind]; [|discriminate].
    destruct (pyget cli_arr_len k); cbn [rbind]; [|discriminate]. destruct (pyget XTCLI k); cbn [rbind]; [|discriminate].
    destruct (unint _ _ _) as [tx|]; cbn [rbind]; [|discriminate]. unfold eqb. destruct (Req_EM_T J 0) as [J0|J0]; cbn [negb].
    + rewrite (pyget_ok mach_tip_corr_arr k 0) by (change (length mach_tip_corr_arr) with 6%nat; lia). cbn [rbind].
      specialize (B2 J0). rewrite ltb_false by lra. cbn [rbind]. intro E. now injection E as <-.
    + rewrite (pyget_ok mach_corr_table k []) by (change (length mach_corr_table) with 6%nat; lia). cbn [rbind].
      specialize (B1 J0). unfold unint_val in B1. destruct (unint advance_ratio_array2 _ J) as [[z f]|]; cbn [rbind fst]; [|discriminate].
      rewrite ltb_false by lra. cbn [rbind]. intro E. now injection E as <-.
  - rewrite (rmap_length _ _ _ RM), zrange_length. reflexivity.
Qed.

Lemma iterate_snd factor afcte target fuel : (forall c v, factor c = Ok v -> snd v = 1) -> forall prev ct it,
  iterate factor afcte target fuel prev ct = Ok it -> match it with Found _ x | NonPositive x => x = 1 | _ => True end.
Proof.
  intro H. induction fuel as [|n IH]; intros prev ct it; cbn [iterate]; [intro E; now injection E as <-|].
  destruct (factor ct) as [[tcl x]|] eqn:F; cbn [rbind]; [|discriminate]. apply H in F. cbn [snd] in F. subst x.
  destruct (negb _ && _)%bool; [intro E; now injection E as <-|]. destruct prev as [[c0 g0]|]; [|apply IH].
  destruct (eqb _ 0); [intro E; now injection E as <-|]. destruct (leb _ 0); [intro E; now injection E as <-|apply IH].
Qed.

(** Below the critical Mach number there is no compressibility loss, whatever the number of blades. *)
Theorem C58_no_loss n af cli cp J mach tip ct xft : below_critical cli J mach tip ->
  hamilton n af cli cp J mach tip = Ok (Some (ct, xft)) -> xft = 1.
Proof.
  intro B.
  assert (A : forall blade afc afcte r, at_blades blade afc afcte cli cp J mach tip = Ok (Some r) -> snd r = 1).
  { intros blade afc afcte r. unfold at_blades. destruct (rmap _ _); cbn [rbind]; [|discriminate].
    destruct (unint _ _ _) as [ctt|]; cbn [rbind]; [|discriminate]. destruct (unint _ _ _) as [tf|]; cbn [rbind]; [|discriminate].
    destruct (iterate _ _ _ _ _ _) as [it|] eqn:I; cbn [rbind]; [|discriminate].
    apply iterate_snd in I; [|intros c v; now apply thrust_factor_no_loss].
    destruct it; try discriminate; intro E; injection E as <-; exact I. }
  unfold hamilton. destruct (act_factors AFCPC af) as [p|]; cbn [rbind]; [|discriminate].
  destruct (act_factors AFCTC af) as [t|]; cbn [rbind]; [|discriminate]. destruct (Z.eqb (n mod 2) 0).
  - intro E. now apply A in E.
  - destruct (at_blades 0 _ _ _ _ _ _ _) as [r0|] eqn:E0; cbn [rbind]; [|discriminate].
    destruct (at_blades 1 _ _ _ _ _ _ _) as [r1|] eqn:E1; cbn [rbind]; [|discriminate].
    destruct (at_blades 2 _ _ _ _ _ _ _) as [r2|] eqn:E2; cbn [rbind]; [|discriminate].
    destruct (at_blades 3 _ _ _ _ _ _ _) as [r3|] eqn:E3; cbn [rbind]; [|discriminate].
    destruct r0 as [a|]; [|discriminate]. destruct r1 as [b|]; [|discriminate]. destruct r2 as [c|]; [|discriminate].
    destruct r3 as [d|]; [|discriminate]. apply A in E0, E1, E2, E3.
    destruct (unint num_blades_arr _ _) as [u|]; cbn [rbind]; [|discriminate].
    pose proof C58_tables as (_ & _ & _ & _ & _ & _ & _ & _ & _ & _ & TN).
    destruct (unint_ones num_blades_arr [snd a; snd b; snd c; snd d] (IZR n) TN eq_refl eq_refl) as [f U].
    + intros y [<-|[<-|[<-|[<-|[]]]]]; assumption.
    + rewrite U. cbn [rbind fst]. intro E. now injection E as _ <-.
Qed.
Print Assumptions C58_no_loss.

(** ** Checks of the inputs, L537-549 *)
Lemma any_nonzero_le l : any_nonzero l <= 0 <-> forall x, In x l -> x = 0.
Proof.
  unfold any_nonzero. destruct (existsb _ l) eqn:E.
  - split; [lra|]. intro H. apply existsb_exists in E as [x [Hx Hn]]. rewrite (H x Hx) in Hn. rewrite eqb_true in Hn by reflexivity. discriminate.
  - split; [|lra]. intros _ x Hx. destruct (Req_dec x 0) as [|N]; [assumption|].
    assert (T : existsb (fun x => negb (eqb x 0)) l = true). { apply existsb_exists. exists x. split; [exact Hx|]. now rewrite eqb_false. }
    congruence.
Qed.

(** The checks reject a non-positive diameter, and a vector of tip speeds, sonic speeds or densities only if all of its
    entries are zero; negative entries and negative shaft powers are accepted. *)
Theorem C58_checks_iff rho_sl diam tip sos rho shp : rho_sl <> 0 ->
  pre_checks rho_sl diam tip sos rho shp = Ok tt <->
  0 < diam /\ (exists x, In x tip /\ x <> 0) /\ (exists x, In x sos /\ x <> 0) /\ (exists x, In x rho /\ x <> 0).
Proof.
  intro Hr.
  assert (A : forall l, leb (any_nonzero l) 0 = false <-> exists x, In x l /\ x <> 0).
  { intro l. unfold any_nonzero. destruct (existsb _ l) eqn:E.
    - rewrite leb_false by lra. split; [intros _|reflexivity]. apply existsb_exists in E as [x [Hx Hn]]. exists x. split; [exact Hx|].
      intros ->. rewrite eqb_true in Hn by reflexivity. discriminate.
    - rewrite leb_true by lra. split; [discriminate|]. intros [x [Hx N]].
      assert (T : existsb (fun x => negb (eqb x 0)) l = true). { apply existsb_exists. exists x. split; [exact Hx|]. now rewrite eqb_false. }
      congruence. }
  assert (R : (exists x, In x (map (fun r => r / rho_sl) rho) /\ x <> 0) <-> exists x, In x rho /\ x <> 0).
  { split; intros [x [Hx N]].
    - apply in_map_iff in Hx as [r [<- Hx]]. exists r. split; [exact Hx|]. intros ->. apply N. unfold Rdiv. ring.
    - exists (x / rho_sl). split; [apply (in_map (fun r => r / rho_sl)); exact Hx|]. intro E. apply N.
      apply (Rmult_eq_reg_r (/ rho_sl)); [|now apply Rinv_neq_0_compat]. rewrite Rmult_0_l. exact E. }
  unfold pre_checks. rewrite <- R, <- !A.
  assert (S : ltb (any_nonzero shp) 0 = false) by (apply ltb_false; unfold any_nonzero; destruct (existsb _ shp); lra). rewrite S.
  unfold leb at 1. destruct (Rle_dec diam 0) as [D|D].
  - split; [discriminate|]. intros [P _]. lra.
  - destruct (leb (any_nonzero tip) 0); [split; [discriminate|intros (_ & E & _); discriminate]|].
    destruct (leb (any_nonzero sos) 0); [split; [discriminate|intros (_ & _ & E & _); discriminate]|].
    destruct (leb (any_nonzero (map _ rho)) 0); [split; [discriminate|intros (_ & _ & _ & E); discriminate]|].
    split; [intros _; repeat split; lra|reflexivity].
Qed.
Print Assumptions C58_checks_iff.

(** "PROPELLER_TIP_SPEED must be positive", "SHAFT_POWER must be non-negative" *)
Theorem C58_checks_refuted : pre_checks 1 1 [-1] [-1] [-1] [-1] = Ok tt.
Proof. apply C58_checks_iff; [lra|]. repeat split; [lra| | |]; exists (-1); (split; [now left|lra]). Qed.
Print Assumptions C58_checks_refuted.

(** ** Power balance *)
Lemma pi_bounds : 31415 / 10000 < PI < 31417 / 10000.
Proof.
  destruct (PI_2_3_7_ineq 3) as [L U]. unfold PI_2_3_7_tg, tg_alt, Ratan_seq in L, U. cbn [sum_f_R0 Nat.mul Nat.add pow INR] in L, U. split; lra.
Qed.

(** Thrust times speed is the installed efficiency times the shaft power (550 ft lbf/s per hp) up to 0.02 %. *)
Theorem C58_power_balance : exists c, Rabs (c - 1) <= 2 / 10000 /\
  forall rho_sl diam shp rho tip vtas ct xft loss, 0 < rho_sl -> 0 < diam -> 0 < shp -> 0 < rho -> 0 < tip -> 1 / 1000000 < vtas ->
    1 / 1000000 < power_coefficient rho_sl diam shp rho tip ->
    post_thrust rho_sl diam tip rho ct xft loss * vtas =
    c * (550 * shp * install_efficiency (advance_ratio vtas tip) (power_coefficient rho_sl diam shp rho tip) ct xft loss).
Proof.
  pose proof pi_bounds as [P1 P2].
  exists (36476 / 100 / 1515000 / 550 * 100000000000 / (2 * 6966) / PI). split.
  - set (c := 36476 / 100 / 1515000 / 550 * 100000000000 / (2 * 6966)).
    replace (c / PI - 1) with ((c - PI) / PI) by (field; lra). unfold Rdiv. rewrite Rabs_mult, (Rabs_pos_eq (/ PI)).
    2:{ left. apply Rinv_0_lt_compat. lra. }
    apply (Rmult_le_reg_r PI); [lra|]. rewrite Rmult_assoc, Rinv_l, Rmult_1_r by lra.
    assert (Hc : 3142 / 1000 < c < 31421 / 10000) by (unfold c; lra).
    rewrite Rabs_pos_eq; lra.
  - intros rho_sl diam shp rho tip vtas ct xft loss H1 H2 H3 H4 H5 H6 H7. unfold install_efficiency, post_efficiency. rewrite ltb_true by exact H7.
    unfold advance_ratio. rewrite leb_false by exact H6. unfold post_thrust, power_coefficient. field. repeat split; lra.
Qed.
Print Assumptions C58_power_balance.

(** ** The design lift coefficient 0.5 *)
Lemma cl_range_design cli : Rabs (cli - 1 / 2) <= 9 / 10000 -> cl_range cli = (2%Z, 2%Z, true).
Proof.
  intro H. apply Rabs_le_between in H. unfold cl_range, CL_arr, tab, CL_arr_z. cbn [map at_node].
  assert (A : forall z, IZR z / 10000 < cli - 9 / 10000 -> leb (Rabs (cli - IZR z / 10000)) (9 / 10000) = false).
  { intros z Hz. apply leb_false. rewrite Rabs_pos_eq; lra. }
  rewrite (A 3000%Z), (A 4000%Z) by lra. rewrite leb_true; [reflexivity|]. apply Rabs_le_between. lra.
Qed.

Lemma unint_one xa ya x : good_table xa ya -> (forall k, (k < length xa)%nat -> nth k ya 0 = 1) -> exists f, unint xa ya x = Ok (1, f).
Proof.
  intros [I L] N.
  assert (P : forall k, (1 <= k)%nat -> (k + 1 < length xa)%nat -> par_at xa ya k x = 1).
  { intros k K1 K2. unfold par_at. rewrite !N by lia. apply parabola_one; apply I; lia. }
  destruct (locate xa x ltac:(lia)) as [H|[H|[[k [K ->]]|[k [K H]]]]].
  - rewrite (unint_low xa ya L) by exact H. rewrite N by lia. eauto.
  - rewrite (unint_high xa ya I L) by exact H. rewrite N by lia. eauto.
  - rewrite (unint_node xa ya I L) by exact K. rewrite N by lia. eauto.
  - rewrite (unint_between xa ya I L k) by assumption. unfold piece.
    destruct (Nat.eqb_spec k 0) as [->|K0]; [rewrite P by lia; eauto|].
    destruct (Nat.eqb_spec (k + 2) (length xa)) as [KN|KN]; [rewrite P by lia; eauto|].
    rewrite !P by lia. cbv zeta. eexists. do 2 f_equal. ring.
Qed.

(** The lift coefficient tables of the design value are constant. *)
Lemma thrust_cl_design cte1 c J mach tip : exists x, thrust_cl cte1 c J mach tip 2 = Ok (1, x).
Proof.
  destruct (thrust_cl_ok cte1 c J mach tip 2 ltac:(lia)) as [[a x] E]. exists x. rewrite E. do 2 f_equal.
  unfold thrust_cl in E. rewrite (pyget_ok CT_CLi_table 2 []) in E by (change (length CT_CLi_table) with 6%nat; lia). cbn [rbind] in E.
  pose proof C58_tables as (_ & _ & _ & _ & T & _). specialize (T 2%nat ltac:(lia)).
  destruct (pyget _ 0) as [lo|]; cbn [rbind] in E; [|discriminate].
  rewrite (pyget_ok cli_arr_len 2 0%nat) in E by (change (length cli_arr_len) with 6%nat; lia). cbn [rbind] in E.
  rewrite (pyget_ok XTCLI 2 []) in E by (change (length XTCLI) with 6%nat; lia). cbn [rbind] in E.
  change (Z.to_nat 2) with 2%nat in E.
  destruct (unint_one _ _ (if ltb cte1 lo then lo else cte1) T) as [f U].
  { intros k Hk. unfold XTCLI. rewrite tab2_nth, tab_slice. unfold CT_CLi_table in Hk. rewrite tab2_nth, tab_slice, tab_length in Hk.
    change (k < 14)%nat in Hk. do 14 (destruct k as [|k]; [change (IZR 10000 / 10000 = 1); field|]). lia. }
  rewrite U in E. cbn [rbind fst] in E. destruct (if negb (eqb J 0) then _ else _) as [d|]; cbn [rbind] in E; [|discriminate].
  destruct (if ltb 0 d then _ else _) as [xf|]; cbn [rbind] in E; [|discriminate]. injection E as <- <-. reflexivity.
Qed.

Lemma thrust_factor_design blade afcte tf cli J mach tip ct : (0 <= blade < 4)%Z -> Rabs (cli - 1 / 2) <= 9 / 10000 ->
  exists x, thrust_factor blade afcte tf cli J mach tip ct = Ok (1, x).
Proof.
  intros Hb Hc. destruct (thrust_factor_ok blade afcte tf cli J mach tip ct Hb) as [[a x] E]. exists x. rewrite E. do 2 f_equal.
  unfold thrust_factor in E. destruct (pyget BL_T_corr_table blade); cbn [rbind] in E; [|discriminate].
  destruct (unint CTEC _ _) as [tbl|]; cbn [rbind] in E; [|discriminate]. unfold over_cl in E. rewrite (cl_range_design cli Hc) in E.
  change (zrange 2 (2 + 1)) with [2%Z] in E. cbn [rmap] in E.
  destruct (thrust_cl_design (ct * afcte * fst tbl * tf) (ct * afcte * fst tbl) J mach tip) as [xf D]. rewrite D in E.
  cbn [rbind map fst snd] in E. change (pyget [1] 0) with (@Ok R 1) in E. cbn [rbind] in E.
  change (pyget [xf] 0) with (@Ok R xf) in E. cbn [rbind] in E. injection E as <- <-. reflexivity.
Qed.

(** The secant steps reach the root of a linear function. *)
Lemma iterate_linear factor afcte target : (forall c, exists x, factor c = Ok (1, x)) ->
  iterate factor afcte target 10 None (1 / 10) <> Ok NoConvergence /\
  (afcte <> 0 -> 0 < target / afcte -> exists ct x, iterate factor afcte target 10 None (1 / 10) = Ok (Found ct x)) /\
  (0 < afcte -> target <= 0 -> exists x, iterate factor afcte target 10 None (1 / 10) = Ok (NonPositive x)).
Proof.
  intro H. destruct (H (1 / 10)) as [x1 F1]. destruct (H (2 / 10)) as [x2 F2].
  destruct (Req_dec target 0) as [T0|T0].
  { subst target. assert (E1 : forall p c x n, factor c = Ok (1, x) -> iterate factor afcte 0 (S n) p c =
      match p with None => iterate factor afcte 0 n (Some (c, c * afcte * 1 - 0)) (2 / 10)
      | Some (ct0, g0) => if eqb (c * afcte * 1 - 0 - g0) 0 then Ok NotANumber else
          if leb (- g0 * (c - ct0) / (c * afcte * 1 - 0 - g0) + ct0) 0 then Ok (NonPositive x)
          else iterate factor afcte 0 n (Some (c, c * afcte * 1 - 0)) (- g0 * (c - ct0) / (c * afcte * 1 - 0 - g0) + ct0) end).
    { intros p c x n F. cbn [iterate]. rewrite F. cbn [rbind]. rewrite eqb_true by reflexivity. cbn [negb andb].
      destruct p as [[? ?]|]; reflexivity. }
    rewrite (E1 None _ x1 _ F1), (E1 (Some _) _ x2 _ F2). destruct (Req_dec afcte 0) as [A|A].
    - rewrite eqb_true by (subst; lra). split; [discriminate|split; [lra|lra]].
    - assert (A' : 2 / 10 * afcte * 1 - 0 - (1 / 10 * afcte * 1 - 0) <> 0) by (intro Q; apply A; lra).
      rewrite eqb_false by exact A'. rewrite leb_true by (right; field; lra). split; [discriminate|split; [ |intros; eauto]].
      intros _ Q. replace (0 / afcte) with 0 in Q by (field; exact A). lra. }
  destruct (Rlt_dec (Rabs ((1 / 10 * afcte * 1 - target) / target)) (1 / 1000)) as [L1|L1].
  { rewrite (iterate_end _ _ _ _ _ _ 1 x1 F1 T0 L1). split; [discriminate|split; [eauto|]]. intros A T. exfalso.
    unfold Rdiv in L1. rewrite Rabs_mult, Rabs_inv in L1. pose proof (Rabs_pos_lt _ T0) as P.
    apply (Rmult_lt_compat_r (Rabs target)) in L1; [|exact P]. rewrite Rmult_assoc, Rinv_l, Rmult_1_r in L1 by lra.
    rewrite (Rabs_left1 target) in L1, P by lra. rewrite Rabs_pos_eq in L1; lra. }
  rewrite (iterate_start _ _ _ _ _ 1 x1 F1 T0) by lra.
  destruct (Rlt_dec (Rabs ((2 / 10 * afcte * 1 - target) / target)) (1 / 1000)) as [L2|L2].
  { rewrite (iterate_end _ _ _ _ _ _ 1 x2 F2 T0 L2). split; [discriminate|split; [eauto|]]. intros A T. exfalso.
    unfold Rdiv in L2. rewrite Rabs_mult, Rabs_inv in L2. pose proof (Rabs_pos_lt _ T0) as P.
    apply (Rmult_lt_compat_r (Rabs target)) in L2; [|exact P]. rewrite Rmult_assoc, Rinv_l, Rmult_1_r in L2 by lra.
    rewrite (Rabs_left1 target) in L2, P by lra. rewrite Rabs_pos_eq in L2; lra. }
  set (g0 := 1 / 10 * afcte * 1 - target). set (g1 := 2 / 10 * afcte * 1 - target) in *.
  assert (St : forall n, iterate factor afcte target (S n) (Some (1 / 10, g0)) (2 / 10) = if eqb (g1 - g0) 0 then Ok NotANumber else
          if leb (- g0 * (2 / 10 - 1 / 10) / (g1 - g0) + 1 / 10) 0 then Ok (NonPositive x2)
          else iterate factor afcte target n (Some (2 / 10, g1)) (- g0 * (2 / 10 - 1 / 10) / (g1 - g0) + 1 / 10)).
  { intro n. cbn [iterate]. rewrite F2. cbn [rbind]. fold g1. rewrite eqb_false by exact T0. rewrite ltb_false by lra. reflexivity. }
  rewrite St. destruct (Req_dec afcte 0) as [A|A].
  { rewrite eqb_true by (unfold g1, g0; subst; lra). split; [discriminate|split; [lra|lra]]. }
  rewrite eqb_false by (unfold g1, g0; intro Q; apply A; lra).
  replace (- g0 * (2 / 10 - 1 / 10) / (g1 - g0) + 1 / 10) with (target / afcte).
  2:{ unfold g1, g0. field. repeat split; first [exact A | intro Q; apply A; lra]. }
  unfold leb. destruct (Rle_dec (target / afcte) 0) as [N|N].
  { split; [discriminate|split; [lra|eauto]]. }
  destruct (H (target / afcte)) as [x3 F3].
  rewrite (iterate_end _ _ _ _ _ _ 1 x3 F3 T0).
  2:{ replace ((target / afcte * afcte * 1 - target) / target) with 0 by (field; split; assumption). rewrite Rabs_R0. lra. }
  split; [discriminate|split; [eauto|]]. intros P Q. exfalso. apply N. unfold Rdiv.
  pose proof (Rinv_0_lt_compat _ P). replace (target * / afcte) with (- ((- target) * / afcte)) by ring.
  pose proof (Rmult_le_pos (- target) (/ afcte) ltac:(lra) ltac:(lra)). lra.
Qed.

(** At the design lift coefficient (to 0.0009) the method has a result for every operating point, for 2, 4, 6 and 8 blades and
    for odd numbers of blades. *)
Theorem C58_design_lift n af cli cp J mach tip : (2 <= n <= 8)%Z \/ (n mod 2 = 1)%Z -> Rabs (cli - 1 / 2) <= 9 / 10000 ->
  exists r, hamilton n af cli cp J mach tip = Ok r.
Proof.
  intros Hn Hc.
  assert (A : forall blade afc afcte, (0 <= blade < 4)%Z -> length afc = 7%nat -> at_blades blade afc afcte cli cp J mach tip <> Err ValueError).
  { intros blade afc afcte Hb La. unfold at_blades. pose proof (J_begin_range J) as HJ.
    destruct (rmap_ok (fun k => a <- pyget afc k;; base_ct blade a cp cli k) (zrange (J_begin J) (J_begin J + 4))) as (ctt & R1 & R2).
    { intros k Hk. apply zrange_in in Hk. rewrite (pyget_ok afc k 0) by lia. cbn [rbind]. apply base_ct_ok; lia. }
    rewrite R1. cbn [rbind]. rewrite zrange_length in R2. pose proof C58_tables as (_ & _ & _ & _ & _ & _ & TF & _ & TJ & _).
    destruct (TJ (Z.to_nat (J_begin J)) ltac:(lia)) as [TJ1 TJ2].
    destruct (unint_ok (slice (Z.to_nat (J_begin J)) (Z.to_nat (J_begin J) + 4) advance_ratio_array) ctt J) as (cttt & f1 & U1).
    { split; [exact TJ1|]. rewrite TJ2, R2. lia. }
    rewrite U1. cbn [rbind fst]. destruct (unint_ok _ _ J TF) as (tf & f2 & U2). rewrite U2. cbn [rbind fst].
    pose proof (iterate_linear (thrust_factor blade afcte tf cli J mach tip) afcte cttt) as [N _].
    { intro c. now apply thrust_factor_design. }
    destruct (iterate _ _ _ _ _ _) as [it|e] eqn:I; cbn [rbind].
    - destruct it; try discriminate. now elim N.
    - destruct (iterate_ok (thrust_factor blade afcte tf cli J mach tip) afcte cttt 10) with (prev := @None (R * R)) (ct := 1 / 10) as [it I'].
      { intro c. now apply thrust_factor_ok. }
      congruence. }
  destruct (proj1 (C58_hamilton_errors n af cli cp J mach tip) Hn) as [E|E]; [|exact E]. exfalso. revert E. unfold hamilton.
  destruct (act_factors_ok AFCPC af ltac:(auto)) as [p P]. destruct (act_factors_ok AFCTC af ltac:(auto)) as [t T]. rewrite P, T. cbn [rbind].
  set (afc := fst p :: repeat (snd p) 6). set (afcte := if leb J (1 / 2) then _ else _).
  destruct (Z.eqb_spec (n mod 2) 0) as [E|E].
  - apply A; [|reflexivity]. destruct Hn as [Hn|Hn]; [|lia].
    rewrite Z.quot_div_nonneg by lia. pose proof (Z.div_mod n 2 ltac:(lia)). lia.
  - assert (B : forall b, (0 <= b < 4)%Z -> exists r, at_blades b afc afcte cli cp J mach tip = Ok r).
    { intros b Hb. destruct (at_blades_ok b afc afcte cli cp J mach tip Hb eq_refl) as [Q|Q]; [|exact Q].
      exfalso. exact (A b afc afcte Hb eq_refl Q). }
    destruct (B 0%Z ltac:(lia)) as [r0 ->]. destruct (B 1%Z ltac:(lia)) as [r1 ->]. destruct (B 2%Z ltac:(lia)) as [r2 ->].
    destruct (B 3%Z ltac:(lia)) as [r3 ->]. cbn [rbind].
    destruct r0 as [a|]; [|discriminate]. destruct r1 as [b|]; [|discriminate]. destruct r2 as [c|]; [|discriminate].
    destruct r3 as [d|]; [|discriminate]. pose proof C58_tables as (_ & _ & _ & _ & _ & _ & _ & _ & _ & _ & TN).
    assert (G : forall v, length v = 4%nat -> good_table num_blades_arr v).
    { intros v Lv. split; [exact TN|]. rewrite Lv. cbn. lia. }
    edestruct (unint_ok num_blades_arr [fst a; fst b; fst c; fst d] (IZR n) ltac:(now apply G)) as (y & f & U). rewrite U. cbn [rbind].
    edestruct (unint_ok num_blades_arr [snd a; snd b; snd c; snd d] (IZR n) ltac:(now apply G)) as (y' & f' & U'). rewrite U'. discriminate.
Qed.
Print Assumptions C58_design_lift.

Example C58_witness_power : post_thrust 1 1 100 1 1 1 0 = 36476 / 15150 /\ advance_ratio PI PI = PI /\
  power_coefficient 1 1 6966 1 1000 = 50.
Proof.
  unfold post_thrust, advance_ratio, power_coefficient. pose proof pi_bounds. rewrite leb_false by lra. repeat split; field; lra.
Qed.
Example C58_witness_critical : below_critical (1 / 2) 0 0 (9 / 10).
Proof.
  unfold below_critical. rewrite cl_range_design by (replace (1 / 2 - 1 / 2) with 0 by ring; rewrite Rabs_R0; lra).
  intros k Hk. replace k with 2%Z by lia. split; [intro N; now elim N|]. intros _. change (9 / 10 <= IZR 9010 / 10000). lra.
Qed.

(** ** A complete run *)
Lemma nth_firstn_low (m : nat) : forall k (l : list R), (k < m)%nat -> nth k (firstn m l) 0 = nth k l 0.
Proof.
  induction m as [|m IH]; intros k l H; [lia|]. destruct l as [|x l]; [reflexivity|]. destruct k as [|k]; [reflexivity|].
  cbn [firstn nth]. apply IH. lia.
Qed.
(** Advance ratio 1, activity factor 150 and design lift coefficient: the effective power coefficient is the table value of the
    blade angle with index [k], so the effective thrust coefficient is the one of that angle. *)
Theorem C58_table_points blades k cp ct : (blades < 4)%nat -> (k < 8)%nat ->
  cp = nth k (nth 2 (nth blades CP_Angle_table []) []) 0 -> ct = nth k (nth 2 (nth blades CT_Angle_table []) []) 0 ->
  forall mach tip, mach <= 276 / 1000 ->
  exists c, hamilton (2 * (Z.of_nat blades + 1)) 150 (1 / 2) cp 1 mach tip = Ok (Some (c, 1)) /\
    (0 < ct -> 0 < c /\ Rabs (c - ct) < ct / 1000) /\ (ct <= 0 -> c = 0).
Proof.
  intros Hb Hk Ecp Ect mach tip Hm.
  assert (Hc : Rabs (1 / 2 - 1 / 2) <= 9 / 10000) by (replace (1 / 2 - 1 / 2) with 0 by ring; rewrite Rabs_R0; lra).
  assert (AF : forall t, t = AFCPC \/ t = AFCTC -> act_factors t 150 = Ok (1, 1)).
  { intros t Ht. unfold act_factors. pose proof C58_tables as (TA & _).
    assert (L : length t = 2%nat) by (destruct Ht as [-> | ->]; reflexivity).
    rewrite (pyget_ok t 0 []), (pyget_ok t 1 []) by lia. cbn [rbind].
    assert (G : forall i, (i < 2)%nat -> unint Act_Factor_arr (nth i t []) 150 = Ok (1, 0%Z)).
    { intros i Hi. assert (TG : good_table Act_Factor_arr (nth i t [])).
      { apply TA. destruct Ht as [-> | ->]; [left|right]; apply nth_In; lia. }
      destruct TG as [G1 G2]. replace 150 with (nth 3 Act_Factor_arr 0) by (change (IZR 1500000 / 10000 = 150); field).
      rewrite (unint_node _ _ G1 G2) by (change (length Act_Factor_arr) with 6%nat; lia). do 2 f_equal.
      destruct Ht as [-> | ->]; (do 2 (destruct i as [|i]; [change (IZR 10000 / 10000 = 1); field|])); lia. }
    change (Z.to_nat 0) with 0%nat. change (Z.to_nat 1) with 1%nat. rewrite !G by lia. reflexivity. }
  unfold hamilton. rewrite !AF by auto. cbn [rbind fst snd]. rewrite leb_false by lra.
  replace ((2 * (Z.of_nat blades + 1)) mod 2)%Z with 0%Z by (rewrite Z.mul_comm, Z.mod_mul; lia). cbn [Z.eqb].
  replace (Z.quot (2 * (Z.of_nat blades + 1)) 2 - 1)%Z with (Z.of_nat blades) by (rewrite Z.mul_comm, Z.quot_mul; lia).
  set (afc := 1 :: repeat 1 6). unfold at_blades. assert (JB : J_begin 1 = 0%Z) by (unfold J_begin; rewrite leb_true by lra; reflexivity).
  rewrite JB. change (zrange 0 (0 + 4)) with [0; 1; 2; 3]%Z. cbn [rmap].
  assert (Af : forall i, (0 <= i < 7)%Z -> pyget afc i = Ok 1).
  { intros i Hi. rewrite (pyget_ok afc i 0) by (change (length afc) with 7%nat; lia). f_equal.
    assert (Q : (Z.to_nat i < 7)%nat) by lia. revert Q. generalize (Z.to_nat i). intros m Q. do 7 (destruct m as [|m]; [reflexivity|]). lia. }
  rewrite !Af by lia. cbn [rbind].
  destruct (base_ct_ok (Z.of_nat blades) 1 cp (1 / 2) 0 ltac:(lia) ltac:(lia)) as [b0 ->].
  destruct (base_ct_ok (Z.of_nat blades) 1 cp (1 / 2) 1 ltac:(lia) ltac:(lia)) as [b1 ->].
  destruct (base_ct_ok (Z.of_nat blades) 1 cp (1 / 2) 3 ltac:(lia) ltac:(lia)) as [b3 ->]. cbn [rbind].
  (* the value at advance ratio 1 *)
  assert (B2 : base_ct (Z.of_nat blades) 1 cp (1 / 2) 2 = Ok ct).
  { unfold base_ct. pose proof C58_tables as (_ & TP & _ & TC & _ & TA & _).
    rewrite (pyget_ok BL_P_corr_table (Z.of_nat blades) []) by (change (length BL_P_corr_table) with 4%nat; lia). cbn [rbind].
    destruct (unint_ok CPEC (nth (Z.to_nat (Z.of_nat blades)) BL_P_corr_table []) (cp * 1)) as (pbl & f1 & U1).
    { apply TP. apply nth_In. change (length BL_P_corr_table) with 4%nat. lia. }
    rewrite U1. cbn [rbind fst]. rewrite (pyget_ok PF_CLI_arr 2 0) by (change (length PF_CLI_arr) with 7%nat; lia). cbn [rbind].
    unfold over_cl. rewrite (cl_range_design _ Hc). change (zrange 2 (2 + 1)) with [2%Z]. cbn [rmap].
    set (q := cp * 1 * pbl * _).
    assert (PC : power_cl q 2 = Ok 1).
    { unfold power_cl. rewrite (pyget_ok CP_CLi_table 2 []) by (change (length CP_CLi_table) with 6%nat; lia). cbn [rbind].
      specialize (TC 2%nat ltac:(lia)). change (Z.to_nat 2) with 2%nat.
      destruct (power_cl_ok q 2 ltac:(lia)) as [v V]. unfold power_cl in V.
      rewrite (pyget_ok CP_CLi_table 2 []) in V by (change (length CP_CLi_table) with 6%nat; lia). cbn [rbind] in V.
      change (Z.to_nat 2) with 2%nat in V.
      destruct (pyget (nth 2 CP_CLi_table []) 0) as [lo|]; cbn [rbind] in *; [|discriminate]. clear V.
      rewrite (pyget_ok cli_arr_len 2 0%nat) by (change (length cli_arr_len) with 6%nat; lia). cbn [rbind].
      rewrite (pyget_ok XPCLI 2 []) by (change (length XPCLI) with 6%nat; lia). cbn [rbind]. change (Z.to_nat 2) with 2%nat.
      destruct (unint_one _ _ (if ltb q lo then lo else q) TC) as [f U].
      { intros i Hi. unfold XPCLI. rewrite tab2_nth. unfold CP_CLi_table in Hi. rewrite tab2_nth, tab_slice, tab_length in Hi.
        change (i < 14)%nat in Hi. do 14 (destruct i as [|i]; [change (IZR 10000 / 10000 = 1); field|]). lia. }
      rewrite U. reflexivity. }
    rewrite PC. cbn [rbind]. change (pyget [1] 0) with (@Ok R 1). cbn [rbind].
    rewrite (pyget_ok ang_arr_len 2 0%nat) by (change (length ang_arr_len) with 7%nat; lia). cbn [rbind].
    destruct (TA blades 2%nat Hb ltac:(lia)) as [[A1 A2] [A3 A4]].
    rewrite (pyget_ok CP_Angle_table (Z.of_nat blades) []) by (change (length CP_Angle_table) with 4%nat; lia). cbn [rbind].
    rewrite Nat2Z.id. change (Z.to_nat 2) with 2%nat.
    assert (L : forall t, (t = CP_Angle_table \/ t = CT_Angle_table) -> length (nth blades t []) = 7%nat).
    { intros t Ht. destruct Ht as [-> | ->]; clear -Hb; do 4 (destruct blades as [|blades]; [reflexivity|]); lia. }
    rewrite (pyget_ok (nth blades CP_Angle_table []) 2 []) by (rewrite L by auto; lia). cbn [rbind].
    rewrite (pyget_ok Blade_angle_table 2 []) by (change (length Blade_angle_table) with 7%nat; lia). cbn [rbind].
    rewrite (pyget_ok CT_Angle_table (Z.of_nat blades) []) by (change (length CT_Angle_table) with 4%nat; lia). cbn [rbind].
    rewrite Nat2Z.id, (pyget_ok (nth blades CT_Angle_table []) 2 []) by (rewrite L by auto; lia). cbn [rbind].
    change (Z.to_nat 2) with 2%nat. change (nth 2 ang_arr_len 0%nat) with 8%nat in *.
    assert (N8 : forall l, nth k (slice 0 8 l) 0 = nth k (l : list R) 0).
    { intro l. unfold slice. cbn [skipn Nat.sub]. apply nth_firstn_low. exact Hk. }
    assert (L8 : length (slice 0 8 (nth 2 (nth blades CP_Angle_table []) [])) = 8%nat).
    { clear -Hb. do 4 (destruct blades as [|blades]; [reflexivity|]). lia. }
    replace (cp * 1 * 1) with (nth k (slice 0 8 (nth 2 (nth blades CP_Angle_table []) [])) 0) by (rewrite N8, Ecp; ring).
    rewrite (unint_node _ _ A1 A2) by (rewrite L8; exact Hk). cbn [rbind fst].
    rewrite <- (N8 (nth 2 Blade_angle_table [])).
    rewrite (unint_node _ _ A3 A4) by (change (k < 8)%nat; exact Hk). cbn [fst]. now rewrite N8, Ect. }
  rewrite B2. cbn [rbind].
  pose proof C58_tables as (_ & _ & _ & _ & _ & _ & TF & _ & TJ & _). destruct (TJ 0%nat ltac:(lia)) as [TJ1 TJ2].
  change (Z.to_nat 0) with 0%nat.
  assert (U1 : unint (slice 0 (0 + 4) advance_ratio_array) [b0; b1; ct; b3] 1 = Ok (ct, 0%Z)).
  { replace 1 with (nth 2 (slice 0 (0 + 4) advance_ratio_array) 0) by (change (IZR 10000 / 10000 = 1); field).
    rewrite (unint_node _ [b0; b1; ct; b3] TJ1) by (rewrite ?TJ2; cbn; lia). reflexivity. }
  rewrite U1. cbn [rbind fst]. destruct (unint_ok _ _ 1 TF) as (tf & f2 & U2). rewrite U2. cbn [rbind fst].
  set (factor := thrust_factor (Z.of_nat blades) 1 tf (1 / 2) 1 mach tip).
  assert (FX : forall c, factor c = Ok (1, 1)).
  { intro c. destruct (thrust_factor_design (Z.of_nat blades) 1 tf (1 / 2) 1 mach tip c ltac:(lia) Hc) as [x X]. fold factor in X.
    rewrite X. do 2 f_equal. assert (S : snd (1, x) = 1); [|exact S]. apply (thrust_factor_no_loss (Z.of_nat blades) 1 tf (1 / 2) 1 mach tip c); [|exact X].
    unfold below_critical. rewrite (cl_range_design _ Hc). intros j Hj. replace j with 2%Z by lia. split; [intros _|intro Q; lra].
    unfold unint_val. pose proof C58_tables as (_ & _ & _ & _ & _ & _ & _ & TM & _).
    destruct (TM (nth 2 mach_corr_table [])) as [M1 M2]; [apply nth_In; cbn; lia|]. change (Z.to_nat 2) with 2%nat.
    replace 1 with (nth 2 advance_ratio_array2 0) by (change (IZR 10000 / 10000 = 1); field).
    rewrite (unint_node _ _ M1 M2) by (cbn; lia). change (mach <= IZR 2760 / 10000). lra. }
  destruct (iterate_linear factor 1 ct) as (_ & Fo & Np); [intro c; exists 1; apply FX|].
  destruct (Rlt_dec 0 ct) as [P|P].
  - destruct Fo as (c & x & I); [lra|replace (ct / 1) with ct by field; exact P|]. rewrite I. cbn [rbind].
    destruct (iterate_found factor 1 ct 10 None (1 / 10) c x ltac:(lra) I) as (C1 & C2 & tcl & C3 & C4).
    rewrite FX in C3. injection C3 as <- <-. exists c. split; [reflexivity|]. split; [intros _|intro Q; lra]. split; [exact C1|].
    replace (c * 1 * 1 - ct) with (c - ct) in C4 by ring. rewrite (Rabs_pos_eq ct) in C4 by lra. exact C4.
  - destruct Np as (x & I); [lra|lra|]. rewrite I. cbn [rbind].
    pose proof (iterate_snd factor 1 ct 10 ltac:(intros c v; rewrite FX; intro E; now injection E as <-) _ _ _ I) as S. cbn in S. subst x.
    exists 0. split; [reflexivity|]. split; [intro Q; lra|reflexivity].
Qed.
Print Assumptions C58_table_points.
Example C58_witness_run : exists c, hamilton 2 150 (1 / 2) (744 / 10000) 1 0 0 = Ok (Some (c, 1)) /\ 64 / 1000 < c < 65 / 1000.
Proof.
  destruct (C58_table_points 0 3 (744 / 10000) (645 / 10000)) with (mach := 0) (tip := 0) as (c & H & P & _);
    [lia|lia|reflexivity|reflexivity|lra|].
  exists c. split; [exact H|]. destruct P as [P1 P2]; [lra|]. apply Rabs_lt_between in P2. lra.
Qed.
