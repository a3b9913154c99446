(** Hamilton Standard propeller method, /repo/aviary/subsystems/propulsion/propeller/hamilton_standard.py.

    Numbers are real numbers.  Table look-ups index like Python: a negative index counts from the end and an index
    outside raises IndexError.  Messages, warnings and complex steps are left out. *)
From Coq Require Import Reals.
From Verif Require Import Base MathModel Comp HamData.
Open Scope list_scope.
Local Open Scope R_scope.

(** l[z] of Python. *)
Definition pyget {A} (l : list A) (z : Z) : res A :=
  let n := Z.of_nat (length l) in
  let k := if Z.ltb z 0 then (z + n)%Z else z in
  if Z.ltb k 0 then Err IndexError else match nth_error l (Z.to_nat k) with Some a => Ok a | None => Err IndexError end.

(** l[b:e] for 0 <= b. *)
Definition slice {A} (b e : nat) (l : list A) : list A := firstn (e - b) (skipn b l).

Notation "x <- r ;; k" := (rbind r (fun x => k)) (at level 61, r at next level, right associativity).

(** ** _unint, L12-77 *)
(** Loop of L29-37 from index i on: Some (true, i) at a node, Some (false, i) between two nodes, None off the end. *)
Fixpoint find_from (x : R) (l : list R) (i : Z) : option (bool * Z) :=
  match l with
  | [] => None
  | a :: l' => if eqb a x then Some (true, i) else if ltb x a then Some (false, i) else find_from x l' (i + 1)
  end.

(** Coefficients of L59-74. *)
Definition coef (x0 x1 x2 x3 ra x : R) : R * R * R * R :=
  let rb := 1 - ra in
  let p1 := x1 - x0 in
  let p2 := x2 - x1 in
  let p3 := x3 - x2 in
  let p4 := p1 + p2 in
  let p5 := p2 + p3 in
  let d1 := x - x0 in
  let d2 := x - x1 in
  let d3 := x - x2 in
  let d4 := x - x3 in
  (ra * d2 * d3 / (p1 * p4),
   - (ra * d1 * d3) / (p1 * p2) + rb * d3 * d4 / (p2 * p5),
   ra * d1 * d2 / (p2 * p4) - rb * d2 * d4 / (p2 * p3),
   rb * d2 * d3 / (p5 * p3)).

Definition unint (xa ya : list R) (x : R) : res (R * Z) :=
  let n := Z.of_nat (length xa) in
  a0 <- pyget xa 0;;  (* L22 *)
  if ltb x a0 then y <- pyget ya 0;; Ok (y, 1%Z)  (* L22-24 *)
  else if eqb a0 x then y <- pyget ya 0;; Ok (y, 0%Z)  (* L25-26 *)
  else match find_from x (tl xa) 1 with
  | None => y <- pyget ya (n - 1);; Ok (y, 2%Z)  (* L38-41 *)
  | Some (true, i) => y <- pyget ya i;; Ok (y, 0%Z)  (* L42-43 *)
  | Some (false, i) =>
      xi <- pyget xa i;;
      xp <- pyget xa (i - 1);;
      let '(j, ra) := if Z.eqb i 1 then (0%Z, 1) else if Z.eqb i (n - 1) then ((n - 4)%Z, 0)
                      else ((i - 2)%Z, (xi - x) / (xi - xp)) in  (* L46-56 *)
      x1 <- pyget xa (j + 1);; x0 <- pyget xa j;; x2 <- pyget xa (j + 2);; x3 <- pyget xa (j + 3);;
      let '(c1, c2, c3, c4) := coef x0 x1 x2 x3 ra x in
      y0 <- pyget ya j;; y1 <- pyget ya (j + 1);; y2 <- pyget ya (j + 2);; y3 <- pyget ya (j + 3);;
      Ok (y0 * c1 + y1 * c2 + y2 * c3 + y3 * c4, 0%Z)  (* L75 *)
  end.

(** ** _biquad, L80-240 *)
(** int(r) *)
Definition int_of (r : R) : Z := if leb 0 r then Int_part r else (- Int_part (- r))%Z.

(** The loops of L107-111 and L177-180: the first index j of lo, lo + 1, ... with T[j] >= x. *)
Fixpoint first_ge (T : list R) (x : R) (lo : Z) (count : nat) : res (option Z) :=
  match count with
  | O => Ok None
  | S c => t <- pyget T lo;; if leb x t then Ok (Some lo) else first_ge T x (lo + 1) c
  end.

(** The search of L107-135 and of L173-205, which differ in the names of the variables only: the clamped argument, the
    flag, the first of the four points and the weight of the first curve. *)
Definition bq_search (T : list R) (lo hi : Z) (x : R) : res (R * Z * Z * R) :=
  f <- first_ge T x lo (Z.to_nat (hi - lo + 1));;
  match f with
  | None => t <- pyget T hi;; Ok (t, 2%Z, (hi - 3)%Z, 0)
  | Some j =>
      t <- pyget T j;;
      tlo <- pyget T lo;;
      let '(x', k) := if (Z.ltb j (lo + 1) && negb (eqb t x))%bool then (tlo, 1%Z) else (x, 0%Z) in
      if Z.leb j (lo + 1) then Ok (x', k, lo, 1)
      else if Z.eqb j hi then Ok (x', k, (hi - 3)%Z, 0)
      else tp <- pyget T (j - 1);; Ok (x', k, (j - 2)%Z, (t - x') / (t - tp))
  end.

(** Coefficients of L150-153 and of L234-237; the divisions are in another order than in [coef]. *)
Definition bq_coef (x0 x1 x2 x3 ra x : R) : R * R * R * R :=
  let rb := 1 - ra in
  let p1 := x1 - x0 in
  let p2 := x2 - x1 in
  let p3 := x3 - x2 in
  let p4 := p1 + p2 in
  let p5 := p2 + p3 in
  let d1 := x - x0 in
  let d2 := x - x1 in
  let d3 := x - x2 in
  let d4 := x - x3 in
  (ra / p1 * d2 / p4 * d3,
   - ra / p1 * d1 / p2 * d3 + rb / p2 * d3 / p5 * d4,
   ra / p2 * d1 / p4 * d2 - rb / p2 * d2 / p3 * d4,
   rb / p5 * d2 / p3 * d3).

Definition four_of (T : list R) (j step : Z) : res (R * R * R * R) :=
  a <- pyget T j;; b <- pyget T (j + step);; c <- pyget T (j + 2 * step);; d <- pyget T (j + 3 * step);;
  Ok (a, b, c, d).

Definition dot4 (c v : R * R * R * R) : R :=
  let '(c1, c2, c3, c4) := c in let '(v1, v2, v3, v4) := v in c1 * v1 + c2 * v2 + c3 * v3 + c4 * v4.

Definition coef_of (v : R * R * R * R) (ra x : R) : R * R * R * R :=
  let '(x0, x1, x2, x3) := v in bq_coef x0 x1 x2 x3 ra x.

Definition biquad (T : list R) (i : Z) (xi yi : R) : res (R * Z) :=
  tx <- pyget T i;; ty <- pyget T (i + 1);;
  let nx := int_of tx in
  let ny := int_of ty in
  let j1 := (i + 2)%Z in
  let j2 := (j1 + nx - 1)%Z in
  s <- bq_search T j1 j2 xi;;
  let '(x, kx, jx, ra) := s in
  xc <- four_of T jx 1;;
  let cx := coef_of xc ra x in
  if Z.eqb ny 0 then v <- four_of T (jx + nx) 1;; Ok (dot4 cx v, kx)  (* L157-160 *)
  else
    let j3 := (j2 + 1)%Z in
    let j4 := (j3 + ny - 1)%Z in
    sy <- bq_search T j3 j4 yi;;
    let '(y, ky, jy1, ray) := sy in
    let jy := (j4 + 1 + (jx - i - 2) * ny + (jy1 - j3))%Z in  (* L210 *)
    v0 <- four_of T jy ny;; v1 <- four_of T (jy + 1) ny;; v2 <- four_of T (jy + 2) ny;; v3 <- four_of T (jy + 3) ny;;
    yc <- four_of T jy1 1;;
    Ok (dot4 (coef_of yc ray y) (dot4 cx v0, dot4 cx v1, dot4 cx v2, dot4 cx v3), (kx + 3 * ky)%Z).

(** ** The tables *)
Definition tab (l : list Z) : list R := map (fun z => IZR z / 10000) l.
Definition tab2 (l : list (list Z)) : list (list R) := map tab l.
Definition tab3 (l : list (list (list Z))) : list (list (list R)) := map tab2 l.
Definition CP_Angle_table := tab3 CP_Angle_table_z.
Definition CT_Angle_table := tab3 CT_Angle_table_z.
Definition AFCPC := tab2 AFCPC_z.
Definition AFCTC := tab2 AFCTC_z.
Definition Act_Factor_arr := tab Act_Factor_arr_z.
Definition Blade_angle_table := tab2 Blade_angle_table_z.
Definition BL_P_corr_table := tab2 BL_P_corr_table_z.
Definition BL_T_corr_table := tab2 BL_T_corr_table_z.
Definition CL_arr := tab CL_arr_z.
Definition CP_CLi_table := tab2 CP_CLi_table_z.
Definition CPEC := tab CPEC_z.
Definition CT_CLi_table := tab2 CT_CLi_table_z.
Definition CTEC := tab CTEC_z.
Definition PF_CLI_arr := tab PF_CLI_arr_z.
Definition TF_CLI_arr := tab TF_CLI_arr_z.
Definition num_blades_arr := tab num_blades_arr_z.
Definition XPCLI := tab2 XPCLI_z.
Definition XTCLI := tab2 XTCLI_z.
Definition advance_ratio_array2 := tab advance_ratio_array2_z.
Definition advance_ratio_array := tab advance_ratio_array_z.
Definition mach_tip_corr_arr := tab mach_tip_corr_arr_z.
Definition mach_corr_table := tab2 mach_corr_table_z.
Definition comp_mach_CT_arr := tab comp_mach_CT_arr_z.

(** ** HamiltonStandard.compute at one node, L633-940 *)
Fixpoint rmap {A B} (f : A -> res B) (l : list A) : res (list B) :=
  match l with
  | [] => Ok []
  | a :: l' => b <- f a;; bs <- rmap f l';; Ok (b :: bs)
  end.

Definition zrange (b e : Z) : list Z := map (fun k => (b + Z.of_nat k)%Z) (seq 0 (Z.to_nat (e - b))).

(** L700-714 *)
Definition J_begin (J : R) : Z := if leb J 1 then 0 else if leb J (3 / 2) then 1 else if leb J 2 then 2 else 3.

(** L716-745: first and last index of the lift coefficient tables, and whether the lift coefficient is a table value. *)
Fixpoint at_node (cli : R) (l : list R) (i : Z) : option Z :=
  match l with [] => None | a :: l' => if leb (Rabs (cli - a)) (9 / 10000) then Some i else at_node cli l' (i + 1) end.
Definition cl_range (cli : R) : Z * Z * bool :=
  match at_node cli CL_arr 0 with
  | Some i => (i, i, true)
  | None => if leb cli (6 / 10) then (0, 3, false)%Z else if leb cli (7 / 10) then (1, 4, false)%Z else (2, 5, false)%Z
  end.

(** Interpolate the values found for the lift coefficient tables, L793-803, L887-900. *)
Definition over_cl (cli : R) (vals : list R) : res R :=
  let '(b, e, node) := cl_range cli in
  if node then pyget vals 0
  else r <- unint (slice (Z.to_nat b) (Z.to_nat b + 4) CL_arr) vals cli;; Ok (fst r).

(** L762-769: factor of the power coefficient for lift coefficient table k. *)
Definition power_cl (cpe1 : R) (k : Z) : res R :=
  row <- pyget CP_CLi_table k;; lo <- pyget row 0;; n <- pyget cli_arr_len k;; v <- pyget XPCLI k;;
  r <- unint (slice 0 n row) v (if ltb cpe1 lo then lo else cpe1);; Ok (fst r).

(** L756-823: thrust coefficient at the advance ratio with index kdx. *)
Definition base_ct (blade : Z) (af_cp cp cli : R) (kdx : Z) : res R :=
  let cpe := cp * af_cp in
  bl <- pyget BL_P_corr_table blade;;
  pbl <- unint CPEC bl cpe;;
  pf <- pyget PF_CLI_arr kdx;;
  let cpe1 := cpe * fst pbl * pf in
  let '(b, e, _) := cl_range cli in
  px <- rmap (power_cl cpe1) (zrange b (e + 1));;
  pcli <- over_cl cli px;;
  n <- pyget ang_arr_len kdx;;
  cpa <- pyget CP_Angle_table blade;; cprow <- pyget cpa kdx;;
  ang <- pyget Blade_angle_table kdx;;
  bll <- unint (slice 0 n cprow) ang (cpe * pcli);;
  cta <- pyget CT_Angle_table blade;; ctrow <- pyget cta kdx;;
  match unint (slice 0 n ang) (slice 0 n ctrow) (fst bll) with
  | Ok r => Ok (fst r)
  | Err IndexError => Err AnalysisError
  | Err e => Err e
  end.

(** L857-886: factor of the thrust coefficient and compressibility loss for lift coefficient table k. *)
Definition thrust_cl (cte1 cte_tbl J mach tip : R) (k : Z) : res (R * R) :=
  row <- pyget CT_CLi_table k;; lo <- pyget row 0;; n <- pyget cli_arr_len k;; v <- pyget XTCLI k;;
  tx <- unint (slice 0 n row) (slice 0 n v) (if ltb cte1 lo then lo else cte1);;
  dmn <- (if negb (eqb J 0) then
            mrow <- pyget mach_corr_table k;; z <- unint advance_ratio_array2 mrow J;; Ok (mach - fst z)
          else z <- pyget mach_tip_corr_arr k;; Ok (tip - z));;
  xf <- (if ltb 0 dmn then z <- biquad comp_mach_CT_arr 1 dmn (cte_tbl * fst tx);; Ok (fst z) else Ok 1);;
  Ok (fst tx, xf).

(** L851-902: the factor of the thrust coefficient ct and its compressibility loss. *)
Definition thrust_factor (blade : Z) (afcte tfclii cli J mach tip ct : R) : res (R * R) :=
  let cte := ct * afcte in
  bl <- pyget BL_T_corr_table blade;;
  tbl <- unint CTEC bl cte;;
  let cte1 := cte * fst tbl * tfclii in
  let '(b, e, _) := cl_range cli in
  rows <- rmap (thrust_cl cte1 (cte * fst tbl) J mach tip) (zrange b (e + 1));;
  tcl <- over_cl cli (map fst rows);;
  xft <- over_cl cli (map snd rows);;
  Ok (tcl, xft).

(** The iteration of L848-922 for a thrust coefficient whose effective value is [target].  A division by zero, after
    which numpy goes on with inf or nan, is the outcome [NotANumber]. *)
Inductive iteration : Type := Found (ct xft : R) | NonPositive (xft : R) | NoConvergence | NotANumber.

Fixpoint iterate (factor : R -> res (R * R)) (afcte target : R) (fuel : nat) (prev : option (R * R)) (ct : R) : res iteration :=
  match fuel with
  | O => Ok NoConvergence
  | S f =>
      tx <- factor ct;;
      let '(tcl, xft) := tx in
      let g := ct * afcte * tcl - target in  (* L903-904 *)
      if (negb (eqb target 0) && ltb (Rabs (g / target)) (1 / 1000))%bool then Ok (Found ct xft)  (* L905-907 *)
      else match prev with
      | None => iterate factor afcte target f (Some (ct, g)) (2 / 10)  (* L845 *)
      | Some (ct0, g0) =>
          if eqb (g - g0) 0 then Ok NotANumber
          else let next := - g0 * (ct - ct0) / (g - g0) + ct0 in  (* L909-912 *)
               if leb next 0 then Ok (NonPositive xft) else iterate factor afcte target f (Some (ct, g)) next
      end
  end.

(** L755-930 for the blade count with index [blade]: thrust coefficient and compressibility loss; None is NotANumber. *)
Definition at_blades (blade : Z) (af_cp : list R) (afcte cli cp J mach tip : R) : res (option (R * R)) :=
  let jb := J_begin J in
  ctt <- rmap (fun k => a <- pyget af_cp k;; base_ct blade a cp cli k) (zrange jb (jb + 4));;
  cttt <- unint (slice (Z.to_nat jb) (Z.to_nat jb + 4) advance_ratio_array) ctt J;;
  tf <- unint advance_ratio_array TF_CLI_arr J;;
  it <- iterate (thrust_factor blade afcte (fst tf) cli J mach tip) afcte (fst cttt) 10 None (1 / 10);;
  match it with
  | Found ct xft => Ok (Some (ct, xft))
  | NonPositive xft => Ok (Some (0, xft))  (* L923-924 *)
  | NoConvergence => Err ValueError  (* L918-922 *)
  | NotANumber => Ok None
  end.

Definition act_factors (tables : list (list R)) (af : R) : res (R * R) :=
  t0 <- pyget tables 0;; t1 <- pyget tables 1;;
  a0 <- unint Act_Factor_arr t0 af;; a1 <- unint Act_Factor_arr t1 af;; Ok (fst a0, fst a1).

Definition hamilton (num_blades : Z) (act_factor cli cp J mach tip : R) : res (option (R * R)) :=
  p <- act_factors AFCPC act_factor;;
  t <- act_factors AFCTC act_factor;;
  let af_cp := fst p :: repeat (snd p) 6 in  (* L685-688 *)
  let afcte := if leb J (1 / 2) then 2 * J * (snd t - fst t) + fst t else snd t in  (* L691-694 *)
  let run blade := at_blades blade af_cp afcte cli cp J mach tip in
  if Z.eqb (num_blades mod 2) 0 then run (Z.quot num_blades 2 - 1)%Z  (* L738-746 *)
  else
    r0 <- run 0%Z;; r1 <- run 1%Z;; r2 <- run 2%Z;; r3 <- run 3%Z;;
    match r0, r1, r2, r3 with
    | Some a, Some b, Some c, Some d =>
        ct <- unint num_blades_arr [fst a; fst b; fst c; fst d] (IZR num_blades);;  (* L927-930 *)
        xft <- unint num_blades_arr [snd a; snd b; snd c; snd d] (IZR num_blades);;
        Ok (Some (fst ct, fst xft))
    | _, _, _, _ => Ok None
    end.

(** ** PreHamiltonStandard.compute, L523-557 *)
(** The checks of L537-549.  [any(v)] is a bool, so the comparisons compare 0 or 1 with 0. *)
Definition any_nonzero (l : list R) : R := if existsb (fun x => negb (eqb x 0)) l then 1 else 0.
Definition pre_checks (rho_sl diam : R) (tip sos rho shp : list R) : res unit :=
  if leb diam 0 then Err AnalysisError
  else if leb (any_nonzero tip) 0 then Err AnalysisError
  else if leb (any_nonzero sos) 0 then Err AnalysisError
  else if leb (any_nonzero (map (fun r => r / rho_sl) rho)) 0 then Err AnalysisError
  else if ltb (any_nonzero shp) 0 then Err AnalysisError
  else Ok tt.

(** Outputs at one node. *)
Definition advance_ratio (vtas tip : R) : R := PI * (if leb vtas (1 / 1000000) then 1 / 1000000 else vtas) / tip.
Definition power_coefficient (rho_sl diam shp rho tip : R) : R :=
  shp * 100000000000 / (2 * 6966) / (rho / rho_sl) / (tip ^ 3 * diam ^ 2).

(** ** PostHamiltonStandard.compute, L1027-1058, at one node *)
Definition post_thrust (rho_sl diam tip rho ct xft loss : R) : R :=
  ct * xft * tip ^ 2 * diam ^ 2 * (rho / rho_sl) / 1515000 * (36476 / 100) * (1 - loss).
Definition post_efficiency (J cp ct xft : R) : R := if ltb (1 / 1000000) cp then J * (ct * xft) / cp else 0.
Definition install_efficiency (J cp ct xft loss : R) : R := post_efficiency J cp ct xft * (1 - loss).
