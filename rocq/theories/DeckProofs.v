(** Proofs about the engine deck model. *)
From Coq Require Import QArith Qabs Qminmax Lqa.
From Verif Require Import Base DeckModel.
Open Scope nat_scope.

(** ** Packing: specification *)
Section Spec.
  Context {row : Type} (mclose aclose : row -> row -> bool).

  (** A deck split into Mach numbers, each split into altitudes, each a list of rows. *)
  Definition flat (G : list (list (list row))) : list row := concat (map (@concat row) G).

  (** row [D] of altitude [A] of Mach number [M] *)
  Definition row_at (G : list (list (list row))) (M A D : nat) : option row :=
    match nth_error G M with
    | Some m => match nth_error m A with Some g => nth_error g D | None => None end
    | None => None
    end.

  (** consecutive blocks whose first rows are not close *)
  Definition apart (close : row -> row -> bool) (a b : list row) : Prop :=
    forall ra rb ta tb, a = ra :: ta -> b = rb :: tb -> close rb ra = false.
  Fixpoint chain {A} (P : A -> A -> Prop) (l : list A) : Prop :=
    match l with
    | x :: ((y :: _) as l') => P x y /\ chain P l'
    | _ => True
    end.
  Definition gathered (close : row -> row -> bool) (b : list row) : Prop :=
    exists r t, b = r :: t /\ Forall (fun x => close x r = true) t.

  (** the blocks are exactly what the closeness tests separate *)
  Record grouped (G : list (list (list row))) : Prop := {
    g_mach : Forall (fun m => gathered mclose (concat m)) G;
    g_alt : Forall (Forall (gathered aclose)) G;
    g_mach_apart : chain (fun a b => apart mclose (concat a) (concat b)) G;
    g_alt_apart : Forall (chain (apart aclose)) G
  }.

  Definition list_max_of (l : list nat) : nat := fold_right Nat.max 0 l.
End Spec.

(** ** Counting *)
Section Count.
  Context {row : Type} (mclose aclose : row -> row -> bool).
  Notation step := (count_row mclose aclose).
  Notation run := (count_rows mclose aclose).

  (* shape: numbers of rows, latest first at both levels *)
  Definition ci (n : nat) : nat := if n =? 1 then 1 else n - 1.
  Definition shape_di (s : list (list nat)) (i j : nat) : nat :=
    match nth_error (rev s) i with
    | Some g => match nth_error (rev g) j with Some c => ci c | None => 0 end
    | None => 0
    end.

  Definition heads (s : list (list nat)) : list nat := match s with (c :: g) :: t => g ++ concat t | _ => [] end.

  Record Inv (st : @counts row) (s : list (list nat)) : Prop := {
    i_mc : mach_count st = length s;
    i_pos : Forall (fun g => g <> [] /\ Forall (fun c => 1 <= c) g) s;
    i_di : forall i j, data_indices st i j = shape_di s i j;
    i_cur : match s with
            | [] => alt_count st = 1 /\ max_alt_count st = 0 /\ data_count st = 1 /\ max_data_count st = 0 /\
                    current st = None
            | g :: t => alt_count st = length g /\ hd 0 g = data_count st /\
                        max_alt_count st = Nat.max 1 (list_max_of (map (@length nat) t)) /\
                        max_data_count st = Nat.max 1 (list_max_of (heads s))
            end
  }.

  Lemma Inv_start : Inv start [].
  Proof.
    split; [reflexivity|constructor| |repeat split].
    intros i j. unfold shape_di. destruct i; reflexivity.
  Qed.

  Lemma list_max_app a b : list_max_of (a ++ b) = Nat.max (list_max_of a) (list_max_of b).
  Proof. unfold list_max_of. induction a as [|x a IH]; cbn [app fold_right]; [reflexivity|]. rewrite IH. lia. Qed.

  Lemma nth_error_snoc {A} (l : list A) x i :
    nth_error (l ++ [x]) i = if i =? length l then Some x else nth_error l i.
  Proof.
    destruct (i =? length l) eqn:E.
    - apply Nat.eqb_eq in E; subst. rewrite nth_error_app2 by lia. now rewrite Nat.sub_diag.
    - apply Nat.eqb_neq in E. destruct (Nat.lt_ge_cases i (length l)) as [L|L].
      + now rewrite nth_error_app1.
      + rewrite nth_error_app2 by lia.
        destruct (i - length l) as [|k] eqn:K; [lia|]. cbn.
        transitivity (@None A); [destruct k; reflexivity|]. symmetry. apply nth_error_None. lia.
  Qed.

  Lemma shape_di_set_same (c c' : nat) g t i j v :
    v = ci c' ->
    (if (i =? length t) && (j =? length g) then v else shape_di ((c :: g) :: t) i j)
    = shape_di ((c' :: g) :: t) i j.
  Proof.
    intros ->. unfold shape_di. cbn [rev]. rewrite !nth_error_snoc, !rev_length.
    destruct (i =? length t) eqn:E; cbn [andb]; [|reflexivity].
    cbn [rev]. rewrite !nth_error_snoc, !rev_length. destruct (j =? length g); reflexivity.
  Qed.
  Lemma shape_di_set_alt g t i j :
    (if (i =? length t) && (j =? length g) then 1 else shape_di (g :: t) i j)
    = shape_di ((1 :: g) :: t) i j.
  Proof.
    unfold shape_di. cbn [rev]. rewrite !nth_error_snoc, !rev_length.
    destruct (i =? length t) eqn:E; cbn [andb]; [|reflexivity].
    cbn [rev]. rewrite !nth_error_snoc, !rev_length. destruct (j =? length g); reflexivity.
  Qed.
  Lemma shape_di_set_mach t i j :
    (if (i =? length t) && (j =? 0) then 1 else shape_di t i j) = shape_di ([1] :: t) i j.
  Proof.
    unfold shape_di. cbn [rev]. rewrite !nth_error_snoc, !rev_length.
    destruct (i =? length t) eqn:E; cbn [andb]; [|reflexivity].
    apply Nat.eqb_eq in E; subst i.
    assert (N : nth_error (rev t) (length t) = None) by (apply nth_error_None; rewrite rev_length; lia).
    rewrite N. destruct j as [|j]; [reflexivity|]. destruct j; reflexivity.
  Qed.

  Lemma step_cont by_mach st c g t r m a :
    Inv st ((c :: g) :: t) -> current st = Some (m, a) -> mclose r m = true -> aclose r a = true ->
    exists st', step by_mach st r = Ok st' /\ Inv st' ((S c :: g) :: t) /\ current st' = Some (m, a).
  Proof.
    intros I C Hm Ha. unfold count_row, same_mach, same_alt. rewrite C, Hm, Ha.
    eexists. split; [reflexivity|]. destruct I as [I1 I2 I3 (I4 & I5 & I6 & I7)].
    cbn [hd] in I5. pose proof (Forall_inv I2) as [_ P]. pose proof (Forall_inv_tail I2) as P2.
    pose proof (Forall_inv P) as P1. pose proof (Forall_inv_tail P) as P3. cbv beta in P1.
    split; [|reflexivity].
    split; cbn [mach_count alt_count max_alt_count data_count max_data_count data_indices current].
    - exact I1.
    - constructor; [split; [discriminate|]|assumption]. constructor; [lia|assumption].
    - intros i j. unfold set_at. rewrite I3, I1, I4. cbn [length].
      replace (S (length t) - 1) with (length t) by lia. replace (S (length g) - 1) with (length g) by lia.
      apply shape_di_set_same. rewrite <- I5. unfold ci. destruct (S c =? 1) eqn:E.
      + apply Nat.eqb_eq in E. lia. + lia.
    - cbn [length hd] in *. repeat split; [exact I4|lia|exact I6|]. rewrite I7. reflexivity.
  Qed.

  Lemma step_alt by_mach st g t r m a :
    Inv st (g :: t) -> current st = Some (m, a) -> mclose r m = true -> aclose r a = false ->
    by_mach = true ->
    exists st', step by_mach st r = Ok st' /\ Inv st' ((1 :: g) :: t) /\ current st' = Some (m, r).
  Proof.
    intros I C Hm Ha ->. unfold count_row, same_mach, same_alt. rewrite C, Hm, Ha. cbn [negb andb].
    eexists. split; [reflexivity|]. destruct I as [I1 I2 I3 (I4 & I5 & I6 & I7)].
    pose proof (Forall_inv I2) as [N P]. pose proof (Forall_inv_tail I2) as P2.
    destruct g as [|c g]; [congruence|]. cbn [hd] in I5.
    split; [|cbn [current]; unfold set_current; now rewrite C].
    split; cbn [mach_count alt_count max_alt_count data_count max_data_count data_indices current].
    - exact I1.
    - constructor; [split; [discriminate|]|assumption]. constructor; [lia|assumption].
    - intros i j. unfold set_at. rewrite I3, I1, I4.
      replace (length ((c :: g) :: t) - 1) with (length t) by (cbn; lia).
      replace (length (c :: g) + 1 - 1) with (length (c :: g)) by lia.
      apply shape_di_set_alt.
    - rewrite I4. cbn [length hd]. repeat split; [lia|exact I6|]. rewrite I7. unfold heads.
      rewrite <- I5. cbn [app list_max_of fold_right]. fold (list_max_of (g ++ concat t)). lia.
  Qed.

  Lemma step_mach st s r :
    Inv st s -> (forall m a, current st = Some (m, a) -> mclose r m = false) ->
    match s with
    | g :: _ => if length g <? 2 then step true st r = Err UserWarning
                else exists st', step true st r = Ok st' /\ Inv st' ([1] :: s) /\ current st' = Some (r, r)
    | [] => exists st', step true st r = Ok st' /\ Inv st' [[1]] /\ current st' = Some (r, r)
    end.
  Proof.
    intros I C. unfold count_row.
    assert (SM : same_mach mclose st r = false)
      by (unfold same_mach; destruct (current st) as [[m a]|]; [eauto|reflexivity]).
    rewrite SM. destruct I as [I1 I2 I3 I4].
    assert (CU : set_current st r false = Some (r, r))
      by (unfold set_current; destruct (current st) as [[m a]|]; reflexivity).
    destruct s as [|g t].
    - destruct I4 as (A & B & D & E & F). rewrite A, I1. cbn [length Nat.ltb Nat.leb andb].
      eexists. split; [reflexivity|]. split; [|exact CU].
      split; cbn [mach_count alt_count max_alt_count data_count max_data_count data_indices current].
      + reflexivity.
      + constructor; [split; [discriminate|]|constructor]. constructor; [lia|constructor].
      + intros i j. unfold set_at. rewrite I3. apply (shape_di_set_mach []).
      + rewrite B, D, E. repeat split.
    - destruct I4 as (A & B & D & E). rewrite A, I1. cbn [andb].
      replace (0 <? length (g :: t)) with true by reflexivity.
      destruct (length g <? 2) eqn:L; [reflexivity|]. cbn [andb].
      eexists. split; [reflexivity|]. split; [|exact CU].
      split; cbn [mach_count alt_count max_alt_count data_count max_data_count data_indices current].
      + cbn [length]. lia.
      + constructor; [split; [discriminate|]|assumption]. constructor; [lia|constructor].
      + intros i j. unfold set_at. rewrite I3.
        replace (length (g :: t) + 1 - 1) with (length (g :: t)) by lia. apply shape_di_set_mach.
      + rewrite D, E, <- B. repeat split.
        * cbn [map list_max_of fold_right]. fold (list_max_of (map (@length nat) t)). lia.
        * inversion I2 as [|? ? [N P] P2]; subst. destruct g as [|c g]; [congruence|].
          unfold heads. cbn [app concat hd list_max_of fold_right].
          fold (list_max_of (g ++ concat t)). lia.
  Qed.

  Lemma run_app by_mach st a b :
    run by_mach st (a ++ b) = rbind (run by_mach st a) (fun s => run by_mach s b).
  Proof.
    revert st. induction a as [|r a IH]; intro st; cbn; [reflexivity|].
    destruct (step by_mach st r) as [s|e]; cbn; [apply IH|reflexivity].
  Qed.

  (* the rest of a group *)
  Lemma run_cont g t m a rows : forall c st,
    Inv st ((c :: g) :: t) -> current st = Some (m, a) ->
    Forall (fun r => mclose r m = true) rows -> Forall (fun r => aclose r a = true) rows ->
    exists st', run true st rows = Ok st' /\ Inv st' ((length rows + c :: g) :: t) /\ current st' = Some (m, a).
  Proof.
    induction rows as [|r rows IH]; intros c st I C Fm Fa; [eexists; repeat split; eauto; apply I|].
    inversion Fm; inversion Fa; subst.
    destruct (step_cont true st c g t r m a) as (st1 & E1 & I1 & C1); auto.
    destruct (IH (S c) st1) as (st2 & E2 & I2 & C2); auto.
    exists st2. cbn [count_rows]. rewrite E1. cbn [rbind]. rewrite E2. split; [reflexivity|]. split; [|exact C2].
    cbn [length]. replace (S (length rows) + c) with (length rows + S c) by lia. exact I2.
  Qed.

  (* more altitudes of the current Mach number *)
  Lemma run_alts t m gs : forall g st a0 prev,
    Inv st (g :: t) -> current st = Some (m, a0) -> (exists tl, prev = a0 :: tl) ->
    Forall (fun r => mclose r m = true) (concat gs) ->
    Forall (gathered aclose) gs -> chain (apart aclose) (prev :: gs) ->
    exists st' a1, run true st (concat gs) = Ok st' /\
      Inv st' ((rev (map (@length row) gs) ++ g) :: t) /\ current st' = Some (m, a1).
  Proof.
    induction gs as [|b gs IH]; intros g st a0 prev I C P Fm Fg Ch.
    - exists st, a0. split; [reflexivity|]. split; [exact I|exact C].
    - inversion Fg as [|? ? (r & tl & Eb & Ft) Fg']; subst b.
      cbn [concat] in Fm. apply Forall_app in Fm. destruct Fm as [Fm1 Fm2].
      inversion Fm1 as [|? ? Hm1 Hm2]; subst.
      destruct Ch as [Ap Ch]. destruct P as [ptl ->].
      assert (Ha : aclose r a0 = false) by (eapply Ap; reflexivity).
      destruct (step_alt true st g t r m a0) as (st1 & E1 & I1 & C1); auto.
      destruct (run_cont g t m r tl 1 st1) as (st2 & E2 & I2 & C2); auto.
      destruct (IH (length tl + 1 :: g) st2 r (r :: tl)) as (st3 & a1 & E3 & I3 & C3); auto; [eauto|].
      exists st3, a1. cbn [concat app]. cbn [count_rows]. rewrite E1. cbn [rbind].
      rewrite run_app, E2. cbn [rbind]. split; [exact E3|]. split; [|exact C3].
      cbn [map rev length]. rewrite <- app_assoc. cbn [app].
      replace (S (length tl)) with (length tl + 1) by lia. exact I3.
  Qed.

  (* one whole Mach number *)
  Lemma run_mach st s (mg : list (list row)) :
    Inv st s -> gathered mclose (concat mg) -> Forall (gathered aclose) mg -> chain (apart aclose) mg ->
    (forall m a r tl, current st = Some (m, a) -> concat mg = r :: tl -> mclose r m = false) ->
    match s with g :: _ => length g <? 2 = false | [] => True end ->
    exists st' m a tl, run true st (concat mg) = Ok st' /\
      Inv st' (rev (map (@length row) mg) :: s) /\ current st' = Some (m, a) /\ concat mg = m :: tl.
  Proof.
    intros I (r & tl & E & F) Fg Ch N OKs.
    destruct mg as [|b mg]; [discriminate|].
    inversion Fg as [|? ? (r' & tl' & Eb & Ft) Fg']; subst b.
    cbn [concat app] in E. injection E as -> <-.
    assert (S1 : exists st1, step true st r = Ok st1 /\ Inv st1 ([1] :: s) /\ current st1 = Some (r, r)).
    { pose proof (step_mach st s r I) as S1.
      assert (N' : forall m a, current st = Some (m, a) -> mclose r m = false)
        by (intros; eapply N; [eassumption|reflexivity]).
      specialize (S1 N'). destruct s as [|g t]; [exact S1|]. rewrite OKs in S1. exact S1. }
    destruct S1 as (st1 & E1 & I1 & C1).
    apply Forall_app in F. destruct F as [F1 F2].
    destruct (run_cont [] s r r tl' 1 st1) as (st2 & E2 & I2 & C2); auto.
    destruct (run_alts s r mg [length tl' + 1] st2 r (r :: tl')) as (st3 & a1 & E3 & I3 & C3); eauto.
    exists st3, r, a1, (tl' ++ concat mg). split; [|split; [|split; [exact C3|reflexivity]]].
    - cbn [concat app count_rows]. rewrite E1. cbn [rbind]. rewrite run_app, E2. cbn [rbind]. exact E3.
    - cbn [map rev length]. replace (S (length tl')) with (length tl' + 1) by lia. exact I3.
  Qed.

  Definition shape_of (G : list (list (list row))) : list (list nat) := rev (map (fun m => rev (map (@length row) m)) G).

  (* all Mach numbers *)
  Lemma run_machs G : forall st s,
    Inv st s ->
    Forall (fun m => gathered mclose (concat m)) G -> Forall (Forall (gathered aclose)) G ->
    Forall (chain (apart aclose)) G -> chain (fun a b => apart mclose (concat a) (concat b)) G ->
    (forall m a r tl mg G', current st = Some (m, a) -> G = mg :: G' -> concat mg = r :: tl -> mclose r m = false) ->
    match s with g :: _ => length g <? 2 = false | [] => True end ->
    if forallb (fun m => 2 <=? length m) (removelast G)
    then exists st', run true st (flat G) = Ok st' /\ Inv st' (shape_of G ++ s)
    else run true st (flat G) = Err UserWarning.
  Proof.
    induction G as [|mg G IH]; intros st s I Fm Fg Fc Ch N OKs.
    - exists st. split; [reflexivity|exact I].
    - inversion Fm as [|? ? Hm Fm']; inversion Fg as [|? ? Hg Fg']; inversion Fc as [|? ? Hc Fc']; subst.
      destruct (run_mach st s mg) as (st1 & m & a & tl & E1 & I1 & C1 & Etl); auto.
      { intros m a r tl C E. eapply N; eauto. }
      assert (Shape : shape_of (mg :: G) ++ s = shape_of G ++ rev (map (@length row) mg) :: s).
      { unfold shape_of. cbn [map rev]. rewrite <- app_assoc. reflexivity. }
      destruct G as [|mg2 G].
      + exists st1. unfold flat. cbn [map concat]. rewrite app_nil_r. split; [exact E1|].
        rewrite Shape. exact I1.
      + assert (Ap : forall r tl', concat mg2 = r :: tl' -> mclose r m = false).
        { intros r tl' E. destruct Ch as [Ap _]. eapply Ap; eauto. }
        assert (Fl : flat (mg :: mg2 :: G) = concat mg ++ flat (mg2 :: G)) by reflexivity.
        rewrite Fl, run_app, E1. cbn [rbind].
        replace (removelast (mg :: mg2 :: G)) with (mg :: removelast (mg2 :: G)) by reflexivity.
        cbn [forallb]. destruct (2 <=? length mg) eqn:L; cbn [andb].
        * rewrite Shape. apply IH; auto.
          -- destruct Ch as [_ Ch]. exact Ch.
          -- intros m' a' r tl' mg' G' C [= <- <-] E. rewrite C1 in C. injection C as <- <-. eauto.
          -- rewrite rev_length, map_length. apply Nat.ltb_ge. now apply Nat.leb_le.
        * inversion Fm' as [|? ? (r & tl' & Er & _) _]; subst.
          pose proof (step_mach st1 _ r I1) as S1. cbv beta iota in S1.
          rewrite rev_length, map_length in S1.
          replace (length mg <? 2) with true in S1
            by (symmetry; apply Nat.ltb_lt; apply Nat.leb_gt in L; exact L).
          unfold flat. cbn [map concat]. rewrite Er. cbn [app count_rows]. rewrite S1; [reflexivity|].
          intros m' a' C. rewrite C1 in C. injection C as <- <-. eauto.
  Qed.

  Lemma run_grouped G : grouped mclose aclose G ->
    if forallb (fun m => 2 <=? length m) (removelast G)
    then exists st, run true start (flat G) = Ok st /\ Inv st (shape_of G)
    else run true start (flat G) = Err UserWarning.
  Proof.
    intros [A B C D]. pose proof (run_machs G start []) as H.
    destruct (forallb _ _).
    - destruct H as (st & E & I); auto.
      + apply Inv_start.
      + intros m a r tl mg G' H. discriminate.
      + exists st. rewrite app_nil_r in I. auto.
    - apply H; auto; [apply Inv_start|discriminate].
  Qed.
End Count.

(** ** Packing *)
Section Fill.
  Context {row : Type} (mclose aclose : row -> row -> bool).

  Definition row_writes (M A D : nat) (g : list row) : list (@write row) :=
    map (fun '(d, r) => ((M, A, d), r)) (combine (seq D (length g)) g).
  Definition cell_writes (c : (nat * nat) * list row) : list (@write row) :=
    let '((M, A), g) := c in row_writes M A 0 g.

  Lemma put_rows_spec dmax M A g rest : forall D, g <> [] ->
    put_rows dmax M A D (length g) (g ++ rest)
    = if D + length g <=? dmax then Ok (row_writes M A D g, rest) else Err IndexError.
  Proof.
    induction g as [|r g IH]; intros D N; [congruence|].
    cbn [length put_rows app]. destruct (dmax <=? D) eqn:E.
    - apply Nat.leb_le in E. replace (D + S (length g) <=? dmax) with false; [reflexivity|].
      symmetry. apply Nat.leb_gt. lia.
    - apply Nat.leb_gt in E. destruct g as [|r2 g].
      + cbn. replace (D + 1 <=? dmax) with true by (symmetry; apply Nat.leb_le; lia). reflexivity.
      + rewrite IH by discriminate. replace (S D + length (r2 :: g)) with (D + S (length (r2 :: g))) by lia.
        destruct (D + S (length (r2 :: g)) <=? dmax); reflexivity.
  Qed.

  Definition cell_ok (di : nat -> nat -> nat) (c : (nat * nat) * list row) : Prop :=
    let '((M, A), g) := c in
    (g = [] /\ di M A = 0) \/ (2 <= length g /\ di M A = length g - 1).

  Lemma fill_spec di dmax L : forall rest, Forall (cell_ok di) L ->
    fill di dmax (map fst L) (concat (map snd L) ++ rest)
    = if forallb (fun c => length (snd c) <=? dmax) L then Ok (flat_map cell_writes L) else Err IndexError.
  Proof.
    induction L as [|[[M A] g] L IH]; intros rest F; [reflexivity|].
    inversion F as [|? ? H F']; subst. cbn [map fst snd concat fill forallb flat_map cell_writes].
    destruct H as [[-> ->]|[L2 ->]].
    - cbn [Nat.eqb app length Nat.leb andb]. rewrite IH by assumption.
      destruct (forallb _ L); reflexivity.
    - replace (length g - 1 =? 0) with false by (symmetry; apply Nat.eqb_neq; lia).
      replace (length g - 1 + 1) with (length g) by lia.
      rewrite <- app_assoc. rewrite put_rows_spec by (destruct g; [cbn in L2; lia|discriminate]).
      cbn [Nat.add]. destruct (length g <=? dmax); cbn [rbind andb]; [|reflexivity].
      rewrite IH by assumption. destruct (forallb _ L); reflexivity.
  Qed.

  (* the grid cells with the groups that belong in them *)
  Fixpoint grid (amax k : nat) (G : list (list (list row))) : list ((nat * nat) * list row) :=
    match G with
    | [] => []
    | m :: G' => map (fun A => ((k, A), nth A m [])) (seq 0 amax) ++ grid amax (S k) G'
    end.

  Lemma grid_cells amax G : forall k, map fst (grid amax k G) = list_prod (seq k (length G)) (seq 0 amax).
  Proof.
    induction G as [|m G IH]; intro k; [reflexivity|].
    cbn [grid length seq list_prod]. rewrite map_app, IH. f_equal.
    rewrite map_map. cbn [fst]. reflexivity.
  Qed.

  Lemma nth_seq_all {A} (d : A) l n : length l <= n ->
    map (fun i => nth i l d) (seq 0 n) = l ++ repeat d (n - length l).
  Proof.
    revert n. induction l as [|x l IH]; intros n L; cbn [length app] in *.
    - rewrite Nat.sub_0_r. clear L. induction n as [|n IHn]; [reflexivity|].
      cbn [seq map repeat nth]. f_equal. rewrite <- seq_shift, map_map. rewrite <- IHn.
      apply map_ext. intros [|i]; reflexivity.
    - destruct n as [|n]; [lia|]. cbn [seq map nth]. f_equal.
      rewrite <- seq_shift, map_map. cbn [nth]. apply (IH n). lia.
  Qed.

  Lemma concat_repeat_nil n : concat (repeat (@nil row) n) = [].
  Proof. induction n; auto. Qed.

  Lemma grid_flat amax G : Forall (fun m => length m <= amax) G -> forall k,
    concat (map snd (grid amax k G)) = flat G.
  Proof.
    induction 1 as [|m G Lm F IH]; intro k; [reflexivity|].
    cbn [grid]. rewrite map_app, concat_app, IH. unfold flat. cbn [map concat]. f_equal.
    rewrite map_map. cbn [snd]. rewrite nth_seq_all by assumption.
    rewrite concat_app, concat_repeat_nil. apply app_nil_r.
  Qed.

  Lemma in_grid amax G : forall k M A g,
    In ((M, A), g) (grid amax k G) <->
    exists i m, M = k + i /\ nth_error G i = Some m /\ A < amax /\ g = nth A m [].
  Proof.
    induction G as [|m G IH]; intros k M A g; cbn [grid].
    - split; [intros []|]. intros (i & m & _ & H & _). destruct i; discriminate.
    - rewrite in_app_iff, in_map_iff, IH. split.
      + intros [(A' & E & I)|(i & m' & -> & N & L & ->)].
        * injection E as <- <- <-. apply in_seq in I. exists 0, m. repeat split; lia.
        * exists (S i), m'. repeat split; auto; lia.
      + intros (i & m' & -> & N & L & ->). destruct i as [|i].
        * injection N as <-. left. exists A. split; [f_equal; f_equal; lia|]. apply in_seq; lia.
        * right. exists i, m'. repeat split; auto; lia.
  Qed.

  Lemma in_row_writes M A g r : forall D M' A' d,
    In ((M', A', d), r) (row_writes M A D g) <-> M' = M /\ A' = A /\ D <= d /\ nth_error g (d - D) = Some r.
  Proof.
    unfold row_writes. induction g as [|x g IH]; intros D M' A' d; cbn [length seq combine map].
    - split; [intros []|]. intros (_ & _ & _ & H). destruct (d - D); discriminate.
    - cbn [In]. rewrite IH. split.
      + intros [E|(-> & -> & L & N)].
        * injection E as <- <- <- <-. rewrite Nat.sub_diag. repeat split; lia.
        * repeat split; [lia|]. replace (d - D) with (S (d - S D)) by lia. exact N.
      + intros (-> & -> & L & N). destruct (Nat.eq_dec d D) as [->|Ne].
        * rewrite Nat.sub_diag in N. injection N as ->. left. reflexivity.
        * right. repeat split; [lia|]. replace (d - D) with (S (d - S D)) in N by lia. exact N.
  Qed.

  Lemma in_grid_writes amax G M A D r : Forall (fun m => length m <= amax) G ->
    (In ((M, A, D), r) (flat_map cell_writes (grid amax 0 G)) <-> row_at G M A D = Some r).
  Proof.
    intro F. rewrite in_flat_map. unfold row_at. split.
    - intros ([[M' A'] g] & I & W). apply in_grid in I. destruct I as (i & m & -> & N & L & ->).
      cbn [cell_writes] in W. apply in_row_writes in W. destruct W as (-> & -> & _ & W).
      cbn [Nat.add]. rewrite N. rewrite Nat.sub_0_r in W.
      destruct (Nat.lt_ge_cases A' (length m)) as [La|La].
      + rewrite (nth_error_nth' m [] La). exact W.
      + rewrite nth_overflow in W by lia. destruct D; discriminate.
    - destruct (nth_error G M) as [m|] eqn:EM; [|discriminate].
      destruct (nth_error m A) as [g|] eqn:EA; [|discriminate]. intro ED.
      assert (La : A < length m) by (apply nth_error_Some; congruence).
      exists ((M, A), g). split.
      + apply in_grid. exists M, m. repeat split; auto.
        * pose proof (proj1 (Forall_forall _ _) F m (nth_error_In _ _ EM)). cbv beta in H. lia.
        * rewrite (nth_error_nth' m [] La) in EA. now injection EA as <-.
      + cbn [cell_writes]. apply in_row_writes. rewrite Nat.sub_0_r. auto with arith.
  Qed.

  Lemma NoDup_row_writes M A g : forall D, NoDup (map fst (row_writes M A D g)).
  Proof.
    induction g as [|x g IH]; intro D; [constructor|].
    cbn. constructor; [|apply IH].
    rewrite in_map_iff. intros ([[[M' A'] d] r] & E & I). cbn in E. injection E as -> -> ->.
    apply in_row_writes in I. lia.
  Qed.

  Lemma NoDup_app_intro {A} (a b : list A) : NoDup a -> NoDup b -> (forall x, In x a -> ~ In x b) -> NoDup (a ++ b).
  Proof.
    induction a as [|x a IH]; intros Na Nb D; [exact Nb|].
    inversion Na; subst. cbn. constructor.
    - rewrite in_app_iff. intros [H|H]; [contradiction|]. apply (D x); [now left|exact H].
    - apply IH; auto. intros y Hy. apply D. now right.
  Qed.

  Lemma NoDup_grid_writes L : NoDup (map fst L) -> NoDup (map fst (flat_map cell_writes L)).
  Proof.
    induction L as [|[[M A] g] L IH]; intro ND; [constructor|].
    inversion ND as [|? ? Ni ND']; subst. cbn [flat_map cell_writes]. rewrite map_app.
    apply NoDup_app_intro; [apply NoDup_row_writes|auto|].
    intros [[M' A'] d] I J. apply in_map_iff in I, J.
    destruct I as ([k r] & E & I), J as ([k2 r2] & E2 & J). cbn in E, E2. subst k k2.
    apply in_row_writes in I. destruct I as (-> & -> & _).
    apply in_flat_map in J. destruct J as ([[M2 A2] g2] & J1 & J2). cbn in J2.
    apply in_row_writes in J2. destruct J2 as (<- & <- & _).
    apply Ni. change (M, A) with (fst ((M, A), g2)). now apply in_map.
  Qed.

  Lemma NoDup_prod {A B} (a : list A) (b : list B) : NoDup a -> NoDup b -> NoDup (list_prod a b).
  Proof.
    intros Na Nb. induction Na as [|x a Ni Na IH]; [constructor|]. cbn.
    apply NoDup_app_intro; [|exact IH|].
    - clear -Nb. induction Nb; cbn; constructor; auto. rewrite in_map_iff. intros (y & [= ->] & ?). contradiction.
    - intros [u v] I J. apply in_map_iff in I. destruct I as (w & [= <- <-] & I).
      apply in_prod_iff in J. tauto.
  Qed.

  (* maxima *)
  Lemma list_max_le l n : list_max_of l <= n <-> Forall (fun x => x <= n) l.
  Proof.
    unfold list_max_of. induction l as [|x l IH]; cbn [fold_right].
    - split; [constructor|lia].
    - split.
      + intro H. constructor; [lia|]. apply IH. lia.
      + intro H. inversion H; subst. apply IH in H3. lia.
  Qed.
  Lemma list_max_same a b : (forall x, In x a <-> In x b) -> list_max_of a = list_max_of b.
  Proof.
    intro H. apply Nat.le_antisymm; apply list_max_le; apply Forall_forall; intros x I;
      apply H in I.
    - pose proof (proj1 (list_max_le b (list_max_of b)) (le_n _)) as F. rewrite Forall_forall in F. auto.
    - pose proof (proj1 (list_max_le a (list_max_of a)) (le_n _)) as F. rewrite Forall_forall in F. auto.
  Qed.

  Lemma removelast_snoc {A} (l : list A) x : removelast (l ++ [x]) = l.
  Proof. rewrite removelast_app by discriminate. apply app_nil_r. Qed.

  Lemma shape_di_G (G : list (list (list row))) i j :
    shape_di (shape_of G) i j =
    match nth_error G i with
    | Some m => match nth_error m j with Some g => ci (length g) | None => 0 end
    | None => 0 end.
  Proof.
    unfold shape_di, shape_of. rewrite rev_involutive, nth_error_map.
    destruct (nth_error G i) as [m|]; [|reflexivity]. cbn. rewrite rev_involutive, nth_error_map.
    destruct (nth_error m j); reflexivity.
  Qed.

  (** the largest number of altitudes over all but the last Mach number, and of rows over all but the last
      flight condition *)
  Definition room_alt (G : list (list (list row))) : nat := Nat.max 1 (list_max_of (map (@length (list row)) (removelast G))).
  Definition room_data (G : list (list (list row))) : nat :=
    Nat.max 1 (list_max_of (map (@length row) (removelast (concat G)))).

  Lemma Inv_room (st : @counts row) G : grouped mclose aclose G -> G <> [] -> Inv st (shape_of G) ->
    mach_count st = length G /\ max_alt_count st = room_alt G /\ max_data_count st = room_data G.
  Proof.
    intros GG N I. destruct (exists_last N) as (G0 & ml & ->).
    assert (Nm : ml <> []).
    { destruct GG as [A _ _ _]. apply Forall_app in A. destruct A as [_ A]. inversion A as [|? ? (r & t & E & _) _]; subst.
      destruct ml; [discriminate|discriminate]. }
    destruct (exists_last Nm) as (m0 & g & ->).
    destruct I as [I1 I2 I3 I4].
    assert (E : shape_of (G0 ++ [m0 ++ [g]]) = (length g :: rev (map (@length _) m0)) :: shape_of G0).
    { unfold shape_of. rewrite map_app, rev_app_distr. cbn. rewrite map_app, rev_app_distr. reflexivity. }
    rewrite E in I4. destruct I4 as (A & B & C & D). split; [|split].
    - rewrite I1. unfold shape_of. now rewrite rev_length, map_length.
    - rewrite C. unfold room_alt. rewrite removelast_snoc. f_equal. apply list_max_same. intro x.
      unfold shape_of. rewrite map_rev, <- in_rev, map_map.
      split; intro J; apply in_map_iff in J; destruct J as (m & <- & J); apply in_map_iff; exists m;
        rewrite rev_length, map_length; auto.
    - rewrite D. unfold room_data. rewrite concat_app. cbn [concat]. rewrite app_nil_r, app_assoc, removelast_snoc.
      f_equal. apply list_max_same. intro x. unfold heads.
      rewrite map_app, !in_app_iff, <- in_rev.
      assert (Q : In x (concat (shape_of G0)) <-> In x (map (@length row) (concat G0))).
      { unfold shape_of. rewrite in_concat, in_map_iff. split.
        - intros (l & J & K). rewrite <- in_rev in J. apply in_map_iff in J. destruct J as (m & <- & J).
          rewrite <- in_rev in K. apply in_map_iff in K. destruct K as (g' & <- & K).
          exists g'. split; [reflexivity|]. apply in_concat. eauto.
        - intros (g' & <- & J). apply in_concat in J. destruct J as (m & J & K).
          exists (rev (map (@length _) m)). split.
          + rewrite <- in_rev. apply in_map_iff. eauto.
          + rewrite <- in_rev. apply in_map. exact K. }
      tauto.
  Qed.

  Theorem pack_spec G : grouped mclose aclose G -> G <> [] ->
    Forall (Forall (fun g => 2 <= length g)) G ->
    Forall (fun m => 2 <= length m) (removelast G) ->
    Forall (fun m => length m <= room_alt G) G ->
    if forallb (fun g => length g <=? room_data G) (concat G)
    then exists s w, pack_data mclose aclose true (flat G) = Ok (s, w) /\
      mach_count s = length G /\
      (forall M A, data_indices s M A = match nth_error G M with
                                        | Some m => match nth_error m A with Some g => length g - 1 | None => 0 end
                                        | None => 0 end) /\
      (forall M A D r, In ((M, A, D), r) w <-> row_at G M A D = Some r) /\
      NoDup (map fst w) /\
      w = flat_map cell_writes (grid (room_alt G) 0 G) /\ max_alt_count s = room_alt G /\ max_data_count s = room_data G
    else pack_data mclose aclose true (flat G) = Err IndexError.
  Proof.
    intros GG N Two Alt Fits.
    pose proof (run_grouped mclose aclose G GG) as R.
    replace (forallb (fun m => 2 <=? length m) (removelast G)) with true in R.
    2:{ symmetry. apply forallb_forall. intros m I. rewrite Forall_forall in Alt. apply Nat.leb_le. auto. }
    destruct R as (st & E & I).
    destruct (Inv_room st G GG N I) as (R1 & R2 & R3).
    unfold pack_data. rewrite E. cbn [rbind]. unfold cells. rewrite R1, R2, R3, <- grid_cells.
    assert (DI : forall M A, data_indices st M A = match nth_error G M with
                                        | Some m => match nth_error m A with Some g => length g - 1 | None => 0 end
                                        | None => 0 end).
    { intros M A. rewrite (i_di _ _ I), shape_di_G. destruct (nth_error G M) as [m|] eqn:EM; [|reflexivity].
      destruct (nth_error m A) as [g|] eqn:EA; [|reflexivity].
      rewrite Forall_forall in Two. pose proof (Two m (nth_error_In _ _ EM)) as T.
      rewrite Forall_forall in T. pose proof (T g (nth_error_In _ _ EA)) as T2. cbv beta in T2.
      unfold ci. destruct (length g =? 1) eqn:E1; [apply Nat.eqb_eq in E1; lia|reflexivity]. }
    rewrite <- (grid_flat (room_alt G) G Fits 0).
    rewrite <- (app_nil_r (concat (map snd (grid (room_alt G) 0 G)))).
    rewrite fill_spec.
    2:{ apply Forall_forall. intros [[M A] g] J. apply in_grid in J. destruct J as (i & m & -> & Ni & L & ->).
        cbn [cell_ok Nat.add]. rewrite DI, Ni. destruct (nth_error m A) as [g|] eqn:EA.
        - right. assert (La : A < length m) by (apply nth_error_Some; congruence).
          rewrite (nth_error_nth' m [] La) in EA. injection EA as <-.
          split; [|reflexivity]. rewrite Forall_forall in Two. pose proof (Two m (nth_error_In _ _ Ni)) as T.
          rewrite Forall_forall in T. apply T. now apply nth_In.
        - left. apply nth_error_None in EA. now rewrite nth_overflow. }
    assert (FB : forallb (fun c => length (snd c) <=? room_data G) (grid (room_alt G) 0 G)
                 = forallb (fun g => length g <=? room_data G) (concat G)).
    { apply eq_iff_eq_true. rewrite !forallb_forall. split.
      - intros H g J. apply in_concat in J. destruct J as (m & J & K).
        apply In_nth_error in J, K. destruct J as (i & J), K as (j & K).
        apply (H ((i, j), g)). apply in_grid. exists i, m.
        assert (La : j < length m) by (apply nth_error_Some; congruence).
        repeat split; auto.
        + rewrite Forall_forall in Fits. pose proof (Fits m (nth_error_In _ _ J)) as F. cbv beta in F. lia.
        + rewrite (nth_error_nth' m [] La) in K. congruence.
      - intros H [[M A] g] J. apply in_grid in J. destruct J as (i & m & -> & Ni & L & ->). cbn [snd].
        destruct (Nat.lt_ge_cases A (length m)) as [La|La].
        + apply H. apply in_concat. exists m. split; [eapply nth_error_In; eauto|now apply nth_In].
        + rewrite nth_overflow by lia. reflexivity. }
    rewrite FB. destruct (forallb _ (concat G)); [|reflexivity].
    cbn [rbind]. do 2 eexists. split; [reflexivity|]. split; [exact R1|]. split; [exact DI|].
    split; [intros; apply in_grid_writes; exact Fits|].
    split; [|repeat split; assumption].
    apply NoDup_grid_writes. rewrite grid_cells. apply NoDup_prod; apply seq_NoDup.
  Qed.

  Theorem pack_single_altitude G : grouped mclose aclose G ->
    ~ Forall (fun m => 2 <= length m) (removelast G) ->
    pack_data mclose aclose true (flat G) = Err UserWarning.
  Proof.
    intros GG N. pose proof (run_grouped mclose aclose G GG) as R.
    destruct (forallb (fun m => 2 <=? length m) (removelast G)) eqn:F.
    - exfalso. apply N. apply Forall_forall. rewrite forallb_forall in F. intros m I. apply Nat.leb_le. auto.
    - unfold pack_data. rewrite R. reflexivity.
  Qed.
End Fill.

(** ** A deck sorted by Mach number and altitude splits into blocks *)
From Coq Require Import Sorting.Sorted Setoid.
Definition row_le (a b : drow) : Prop :=
  (r_mach a < r_mach b)%Q \/ ((r_mach a == r_mach b)%Q /\ (r_alt a <= r_alt b)%Q).
(** distinct values are farther apart than the tolerance of the closeness test *)
Definition separated (tm ta : Q) (rows : list drow) : Prop :=
  forall a b, In a rows -> In b rows ->
    (isclose default_rel tm (r_mach a) (r_mach b) = true -> (r_mach a == r_mach b)%Q) /\
    (isclose default_rel ta (r_alt a) (r_alt b) = true -> (r_alt a == r_alt b)%Q).

Local Notation kalt := (Q * list drow)%type.
Local Notation kmach := (Q * list kalt)%type.
Definition unkey (K : list kmach) : list (list (list drow)) := map (fun k => map snd (snd k)) K.

Definition insert_row (r : drow) (K : list kmach) : list kmach :=
  match K with
  | (km, (ka, rs) :: al) :: K' =>
      if Qeq_bool (r_mach r) km
      then if Qeq_bool (r_alt r) ka then (km, (ka, r :: rs) :: al) :: K'
           else (km, (r_alt r, [r]) :: (ka, rs) :: al) :: K'
      else (r_mach r, [(r_alt r, [r])]) :: K
  | _ => [(r_mach r, [(r_alt r, [r])])]
  end.
Definition keyed (rows : list drow) : list kmach := fold_right insert_row [] rows.

Record alt_ok (km : Q) (k : kalt) : Prop := {
  ao_ne : snd k <> [];
  ao_rows : Forall (fun r => (r_mach r == km)%Q /\ (r_alt r == fst k)%Q) (snd k)
}.
Record mach_ok (k : kmach) : Prop := {
  mo_ne : snd k <> [];
  mo_alts : Forall (alt_ok (fst k)) (snd k);
  mo_sorted : StronglySorted Qlt (map fst (snd k))
}.
Record keyed_ok (K : list kmach) : Prop := {
  ko_machs : Forall mach_ok K;
  ko_sorted : StronglySorted Qlt (map fst K)
}.

Lemma flat_insert r K : Forall mach_ok K -> flat (unkey (insert_row r K)) = r :: flat (unkey K).
Proof.
  intro F. destruct K as [|[km [|[ka rs] al]] K]; [reflexivity| |].
  - inversion F as [|? ? [N _ _] _]; subst. now cbn in N.
  - cbn [insert_row]. destruct (Qeq_bool (r_mach r) km); [destruct (Qeq_bool (r_alt r) ka)|]; reflexivity.
Qed.

Lemma SS_cons_lt x y l : (x < y)%Q -> StronglySorted Qlt (y :: l) -> StronglySorted Qlt (x :: y :: l).
Proof.
  intros L S. constructor; [exact S|]. constructor; [exact L|].
  inversion S as [|? ? _ F]; subst. eapply Forall_impl; [|exact F]. intros z Hz. cbv beta in Hz.
  eapply Qlt_trans; eauto.
Qed.

Lemma insert_ok r K : keyed_ok K -> Forall (row_le r) (flat (unkey K)) -> keyed_ok (insert_row r K).
Proof.
  intros [F S] L.
  assert (New : mach_ok (r_mach r, [(r_alt r, [r])])).
  { split; cbn; [discriminate| |repeat constructor].
    constructor; [|constructor]. split; cbn; [discriminate|]. constructor; [|constructor]. split; reflexivity. }
  destruct K as [|[km [|[ka rs] al]] K].
  - cbn. split; [constructor; [exact New|constructor]|repeat constructor].
  - inversion F as [|? ? [N _ _] _]; subst. now cbn in N.
  - inversion F as [|? ? [N Fa Sa] F']; subst. cbn [fst snd] in *.
    inversion Fa as [|? ? [Nr Fr] Fa']; subst. cbn [fst snd] in *.
    destruct rs as [|r0 rs]; [congruence|].
    inversion Fr as [|? ? [M0 A0] _]; subst.
    assert (L0 : row_le r r0) by (inversion L; assumption).
    cbn [insert_row]. destruct (Qeq_bool (r_mach r) km) eqn:Em.
    + apply Qeq_bool_iff in Em. destruct (Qeq_bool (r_alt r) ka) eqn:Ea.
      * apply Qeq_bool_iff in Ea. split; [|exact S]. constructor; [|exact F'].
        split; cbn [fst snd]; [discriminate| |exact Sa].
        constructor; [|exact Fa']. split; cbn [fst snd]; [discriminate|]. constructor; [split; assumption|exact Fr].
      * split; [|exact S]. constructor; [|exact F']. split; cbn [fst snd]; [discriminate| |].
        -- constructor; [|exact Fa]. split; cbn [fst snd]; [discriminate|].
           constructor; [split; [exact Em|reflexivity]|constructor].
        -- cbn [map fst]. apply SS_cons_lt; [|exact Sa].
           destruct L0 as [L0|[_ L0]]; [rewrite Em, M0 in L0; exfalso; apply (Qlt_irrefl km); exact L0|].
           rewrite A0 in L0. apply Qle_lteq in L0. destruct L0 as [L0|L0]; [exact L0|].
           apply Qeq_bool_iff in L0. congruence.
    + split; [constructor; [exact New|exact F]|]. cbn [map fst]. apply SS_cons_lt; [|exact S].
      destruct L0 as [L0|[L0 _]]; rewrite M0 in L0; [exact L0|]. apply Qeq_bool_iff in L0. congruence.
Qed.

Lemma keyed_spec rows : StronglySorted row_le rows -> keyed_ok (keyed rows) /\ flat (unkey (keyed rows)) = rows.
Proof.
  induction 1 as [|r rows S [IH1 IH2] F]; [split; [split; constructor|reflexivity]|].
  change (keyed (r :: rows)) with (insert_row r (keyed rows)). split.
  - apply insert_ok; [exact IH1|]. rewrite IH2. exact F.
  - rewrite flat_insert by apply IH1. now rewrite IH2.
Qed.

Lemma isclose_refl rel t a b : (0 <= rel)%Q -> (a == b)%Q -> isclose rel t a b = true.
Proof.
  intros R E. unfold isclose. apply Qle_bool_iff. rewrite E.
  assert (Z0 : (Qabs (b - b) == 0)%Q) by (setoid_replace (b - b)%Q with 0%Q by ring; reflexivity).
  rewrite Z0. eapply Qle_trans; [|apply Q.le_max_l].
  apply Qmult_le_0_compat; [exact R|]. eapply Qle_trans; [apply (Qabs_nonneg b)|]. apply Q.le_max_l.
Qed.

Lemma concat_unkey_in km al r : Forall (alt_ok km) al -> In r (concat (map snd al)) -> (r_mach r == km)%Q.
Proof.
  intros F I. apply in_concat in I. destruct I as (g & J & K). apply in_map_iff in J. destruct J as (k & <- & J).
  rewrite Forall_forall in F. destruct (F k J) as [_ Fr]. rewrite Forall_forall in Fr. apply (Fr r K).
Qed.

Lemma chain_map {A B} (f : A -> B) (P : B -> B -> Prop) l :
  chain (fun a b => P (f a) (f b)) l -> chain P (map f l).
Proof. induction l as [|x [|y l] IH]; cbn in *; try tauto. Qed.

Lemma chain_sorted {A} (f : A -> Q) (P : A -> A -> Prop) l :
  (forall a b, In a l -> In b l -> (f a < f b)%Q -> P a b) -> StronglySorted Qlt (map f l) -> chain P l.
Proof.
  induction l as [|x [|y l] IH]; intros H S; [exact I|exact I|].
  inversion S as [|? ? S' F]; subst. split.
  - apply H; [now left|right; now left|]. inversion F; assumption.
  - apply IH; [|exact S']. intros a b Ha Hb. apply H; now right.
Qed.

Lemma keyed_grouped tm ta K : keyed_ok K -> separated tm ta (flat (unkey K)) ->
  grouped (mach_close tm) (alt_close ta) (unkey K).
Proof.
  intros [F S] Sep.
  assert (Fm : forall k, In k K -> mach_ok k) by (apply Forall_forall; exact F).
  assert (InK : forall k a r, In k K -> In a (snd k) -> In r (snd a) -> In r (flat (unkey K))).
  { intros k a r Hk Ha Hr. unfold flat, unkey. apply in_concat. exists (concat (map snd (snd k))). split.
    - rewrite map_map. apply in_map_iff. exists k. auto.
    - apply in_concat. exists (snd a). split; [now apply in_map|exact Hr]. }
  assert (InK2 : forall k r, In k K -> In r (concat (map snd (snd k))) -> In r (flat (unkey K))).
  { intros k r Hk Hr. apply in_concat in Hr. destruct Hr as (g & J & Hr).
    apply in_map_iff in J. destruct J as (a & <- & J). eauto. }
  assert (R0 : (0 <= default_rel)%Q) by (unfold default_rel; discriminate).
  split.
  - unfold unkey. apply Forall_forall. intros m J. apply in_map_iff in J. destruct J as (k & <- & J).
    destruct (Fm k J) as [N Fa _]. destruct k as [km [|[kal rs] al]]; [now cbn in N|]. cbn [fst snd map concat] in *.
    inversion Fa as [|? ? [Nr Fr] Fa']; subst. cbn [fst snd] in *. destruct rs as [|r rs]; [congruence|].
    exists r, (rs ++ concat (map snd al)). split; [reflexivity|].
    apply Forall_forall. intros x Hx. unfold mach_close. apply isclose_refl; [exact R0|].
    assert (E1 : (r_mach r == km)%Q) by (inversion Fr; tauto).
    assert (E2 : (r_mach x == km)%Q).
    { apply in_app_iff in Hx. destruct Hx as [Hx|Hx].
      - inversion Fr as [|? ? _ Fr']; subst. rewrite Forall_forall in Fr'. apply (Fr' x Hx).
      - eapply concat_unkey_in; eauto. }
    now rewrite E1.
  - unfold unkey. apply Forall_forall. intros m J. apply in_map_iff in J. destruct J as (k & <- & J).
    apply Forall_forall. intros g Hg. apply in_map_iff in Hg. destruct Hg as (a & <- & Ha).
    destruct (Fm k J) as [_ Fa _]. rewrite Forall_forall in Fa. destruct (Fa a Ha) as [Nr Fr].
    destruct a as [kal [|r rs]]; [now cbn in Nr|]. cbn [fst snd] in *.
    exists r, rs. split; [reflexivity|]. inversion Fr as [|? ? [_ E1] Fr']; subst.
    eapply Forall_impl; [|exact Fr']. intros x [_ E2]. unfold alt_close. apply isclose_refl; [exact R0|]. now rewrite E1.
  - unfold unkey. apply chain_map. apply (chain_sorted fst); [|exact S].
    intros a b Ha Hb L ra rb ta' tb Ea Eb.
    unfold mach_close. destruct (isclose default_rel tm (r_mach rb) (r_mach ra)) eqn:C; [|reflexivity].
    exfalso. destruct (Sep rb ra) as [H _].
    + apply (InK2 b); [exact Hb|rewrite Eb; now left]. + apply (InK2 a); [exact Ha|rewrite Ea; now left].
    + specialize (H C).
      assert (E1 : (r_mach ra == fst a)%Q) by (eapply concat_unkey_in; [apply (Fm a Ha)|rewrite Ea; now left]).
      assert (E2 : (r_mach rb == fst b)%Q) by (eapply concat_unkey_in; [apply (Fm b Hb)|rewrite Eb; now left]).
      rewrite E1, E2 in H. rewrite H in L. exact (Qlt_irrefl _ L).
  - unfold unkey. apply Forall_forall. intros m J. apply in_map_iff in J. destruct J as (k & <- & J).
    apply chain_map. destruct (Fm k J) as [_ Fa Sa]. apply (chain_sorted fst); [|exact Sa].
    rewrite Forall_forall in Fa.
    intros a b Ha Hb L ra rb ta' tb Ea Eb.
    unfold alt_close. destruct (isclose default_rel ta (r_alt rb) (r_alt ra)) eqn:C; [|reflexivity].
    exfalso. destruct (Sep rb ra) as [_ H].
    + apply (InK k b); auto. rewrite Eb; now left. + apply (InK k a); auto. rewrite Ea; now left.
    + specialize (H C). destruct (Fa a Ha) as [_ Fra]. destruct (Fa b Hb) as [_ Frb].
      rewrite Ea in Fra. rewrite Eb in Frb. inversion Fra as [|? ? [_ E1] _]; inversion Frb as [|? ? [_ E2] _]; subst.
      rewrite E1, E2 in H. rewrite H in L. exact (Qlt_irrefl _ L).
Qed.

Lemma SS_nth l : StronglySorted Qlt l -> forall i j x y,
  nth_error l i = Some x -> nth_error l j = Some y -> (x == y)%Q -> i = j.
Proof.
  induction 1 as [|z l S IH F]; intros i j x y Hi Hj E; [destruct i; discriminate|].
  rewrite Forall_forall in F. destruct i as [|i], j as [|j]; cbn in Hi, Hj.
  - reflexivity.
  - injection Hi as <-. apply nth_error_In in Hj. apply F in Hj. rewrite E in Hj. now apply Qlt_irrefl in Hj.
  - injection Hj as <-. apply nth_error_In in Hi. apply F in Hi. rewrite E in Hi. now apply Qlt_irrefl in Hi.
  - f_equal. eapply IH; eauto.
Qed.

Lemma keyed_row_at K M A D r : keyed_ok K -> row_at (unkey K) M A D = Some r ->
  exists k a, nth_error K M = Some k /\ nth_error (snd k) A = Some a /\ mach_ok k /\ alt_ok (fst k) a /\
    (r_mach r == fst k)%Q /\ (r_alt r == fst a)%Q.
Proof.
  intros [F S] H. unfold row_at, unkey in H. rewrite nth_error_map in H.
  destruct (nth_error K M) as [k|] eqn:EM; [|discriminate]. cbn in H.
  rewrite nth_error_map in H. destruct (nth_error (snd k) A) as [a|] eqn:EA; [|discriminate]. cbn in H.
  rewrite Forall_forall in F. pose proof (F k (nth_error_In _ _ EM)) as Mk.
  pose proof (mo_alts _ Mk) as Fa. rewrite Forall_forall in Fa. pose proof (Fa a (nth_error_In _ _ EA)) as Ak.
  pose proof (ao_rows _ _ Ak) as Fr. rewrite Forall_forall in Fr. destruct (Fr r (nth_error_In _ _ H)) as [E1 E2].
  exists k, a. repeat split; auto; try apply Mk; try apply Ak.
Qed.

Theorem sorted_grouped tm ta rows : StronglySorted row_le rows -> separated tm ta rows ->
  exists G, flat G = rows /\ grouped (mach_close tm) (alt_close ta) G /\
    forall M A D r M' A' D' r', row_at G M A D = Some r -> row_at G M' A' D' = Some r' ->
      ((M = M' /\ A = A') <-> ((r_mach r == r_mach r')%Q /\ (r_alt r == r_alt r')%Q)).
Proof.
  intros S Sep. destruct (keyed_spec rows S) as [OK E].
  exists (unkey (keyed rows)). split; [exact E|]. split; [apply keyed_grouped; [exact OK|now rewrite E]|].
  intros M A D r M' A' D' r' H H'.
  apply keyed_row_at in H; [|exact OK]. apply keyed_row_at in H'; [|exact OK].
  destruct H as (k & a & E1 & E2 & Mk & Ak & Q1 & Q2), H' as (k' & a' & E1' & E2' & Mk' & Ak' & Q1' & Q2').
  split.
  - intros [<- <-]. rewrite E1 in E1'. injection E1' as <-. rewrite E2 in E2'. injection E2' as <-.
    split; [now rewrite Q1|now rewrite Q2].
  - intros [H1 H2]. rewrite Q1, Q1' in H1. rewrite Q2, Q2' in H2.
    assert (M = M').
    { apply (SS_nth _ (ko_sorted _ OK) M M' (fst k) (fst k')); [| |exact H1]; rewrite nth_error_map;
        [rewrite E1|rewrite E1']; reflexivity. }
    subst M'. rewrite E1 in E1'. injection E1' as <-. split; [reflexivity|].
    apply (SS_nth _ (mo_sorted _ Mk) A A' (fst a) (fst a')); [| |exact H2]; rewrite nth_error_map;
      [rewrite E2|rewrite E2']; reflexivity.
Qed.

(** ** Normalisation *)
Lemma fold_max_ge l : forall a, (a <= fold_left Qmax l a)%Q /\ Forall (fun x => x <= fold_left Qmax l a)%Q l.
Proof.
  induction l as [|x l IH]; intro a; cbn [fold_left]; [split; [apply Qle_refl|constructor]|].
  destruct (IH (Qmax a x)) as [H1 H2]. split.
  - eapply Qle_trans; [apply (Q.le_max_l a x)|exact H1].
  - constructor; [eapply Qle_trans; [apply (Q.le_max_r a x)|exact H1]|exact H2].
Qed.
Lemma fold_max_in l : forall a, exists x, In x (a :: l) /\ (x == fold_left Qmax l a)%Q.
Proof.
  induction l as [|x l IH]; intro a; cbn [fold_left]; [exists a; split; [now left|reflexivity]|].
  destruct (IH (Qmax a x)) as (y & [<-|I] & E).
  - destruct (Q.max_spec a x) as [[_ H]|[_ H]].
    + exists x. split; [right; now left|]. now rewrite <- E, H.
    + exists a. split; [now left|]. now rewrite <- E, H.
  - exists y. split; [right; now right|exact E].
Qed.
Lemma fold_min_le l : forall a, (fold_left Qmin l a <= a)%Q /\ Forall (fun x => fold_left Qmin l a <= x)%Q l.
Proof.
  induction l as [|x l IH]; intro a; cbn [fold_left]; [split; [apply Qle_refl|constructor]|].
  destruct (IH (Qmin a x)) as [H1 H2]. split.
  - eapply Qle_trans; [exact H1|apply (Q.le_min_l a x)].
  - constructor; [eapply Qle_trans; [exact H1|apply (Q.le_min_r a x)]|exact H2].
Qed.
Lemma fold_min_in l : forall a, exists x, In x (a :: l) /\ (x == fold_left Qmin l a)%Q.
Proof.
  induction l as [|x l IH]; intro a; cbn [fold_left]; [exists a; split; [now left|reflexivity]|].
  destruct (IH (Qmin a x)) as (y & [<-|I] & E).
  - destruct (Q.min_spec a x) as [[_ H]|[_ H]].
    + exists a. split; [now left|]. now rewrite <- E, H.
    + exists x. split; [right; now left|]. now rewrite <- E, H.
  - exists y. split; [right; now right|exact E].
Qed.
Lemma qmax_ge l x : In x l -> (x <= qmax l)%Q.
Proof.
  destruct l as [|a l]; [intros []|]. cbn [qmax]. destruct (fold_max_ge l a) as [H1 H2].
  intros [<-|I]; [exact H1|]. rewrite Forall_forall in H2. now apply H2.
Qed.
Lemma qmin_le l x : In x l -> (qmin l <= x)%Q.
Proof.
  destruct l as [|a l]; [intros []|]. cbn [qmin]. destruct (fold_min_le l a) as [H1 H2].
  intros [<-|I]; [exact H1|]. rewrite Forall_forall in H2. now apply H2.
Qed.
Lemma qmax_in l : l <> [] -> exists x, In x l /\ (x == qmax l)%Q.
Proof. destruct l as [|a l]; [congruence|]. intros _. apply fold_max_in. Qed.
Lemma qmin_in l : l <> [] -> exists x, In x l /\ (x == qmin l)%Q.
Proof. destruct l as [|a l]; [congruence|]. intros _. apply fold_min_in. Qed.

(** [l'] is [l] under an increasing affine map that sends the smallest entry to 0 and the largest to 1. *)
Definition rescaled (l l' : list Q) : Prop :=
  Forall (fun y => 0 <= y /\ y <= 1)%Q l' /\
  (exists y, In y l' /\ (y == 0)%Q) /\ (exists y, In y l' /\ (y == 1)%Q) /\
  exists a b, (0 < a)%Q /\ Forall2 (fun x y => (y == a * x + b)%Q) l l'.

Lemma ndiv_some a b : ~ (b == 0)%Q -> ndiv a b = Some (a / b)%Q.
Proof.
  intro N. unfold ndiv. destruct (Qeq_bool b 0) eqn:E; [|reflexivity].
  apply Qeq_bool_iff in E. contradiction.
Qed.

Lemma Forall2_map_r {A B} (P : A -> B -> Prop) (f : A -> B) l :
  (forall x, In x l -> P x (f x)) -> Forall2 P l (map f l).
Proof.
  induction l as [|x l IH]; intro H; constructor; [apply H; now left|]. apply IH. intros y I. apply H. now right.
Qed.

Theorem normalize_spec l : (exists x y, In x l /\ In y l /\ (x < y)%Q) ->
  exists l', normalize None None l = map Some l' /\ rescaled l l'.
Proof.
  intros (x & y & Ix & Iy & L).
  assert (W : (0 < qmax l - qmin l)%Q).
  { pose proof (qmin_le l x Ix). pose proof (qmax_ge l y Iy). lra. }
  assert (NZ : ~ (qmax l - qmin l == 0)%Q) by (intro H; rewrite H in W; now apply Qlt_irrefl in W).
  assert (Ne : l <> []) by (intro H; rewrite H in Ix; destruct Ix).
  exists (map (fun z => ((z - qmin l) / (qmax l - qmin l))%Q) l). split.
  { unfold normalize. rewrite map_map. apply map_ext. intro z. now apply ndiv_some. }
  split; [|split; [|split]].
  - apply Forall_forall. intros z I. apply in_map_iff in I. destruct I as (u & <- & I).
    pose proof (qmin_le l u I). pose proof (qmax_ge l u I). split.
    + apply Qle_shift_div_l; [exact W|]. lra.
    + apply Qle_shift_div_r; [exact W|]. lra.
  - destruct (qmin_in l Ne) as (u & I & E). exists ((u - qmin l) / (qmax l - qmin l))%Q. split.
    + apply in_map_iff. eauto.
    + rewrite E. field. exact NZ.
  - destruct (qmax_in l Ne) as (u & I & E). exists ((u - qmin l) / (qmax l - qmin l))%Q. split.
    + apply in_map_iff. eauto.
    + rewrite E. field. exact NZ.
  - exists (/ (qmax l - qmin l))%Q, (- qmin l / (qmax l - qmin l))%Q. split.
    + now apply Qinv_lt_0_compat.
    + apply Forall2_map_r. intros u _. field. exact NZ.
Qed.

Theorem normalize_constant l c : Forall (fun x => (x == c)%Q) l -> Forall (fun o => o = None) (normalize None None l).
Proof.
  intro F. destruct l as [|a l]; [constructor|]. remember (a :: l) as l0.
  assert (Ne : l0 <> []) by (subst; discriminate). clear Heql0 a l.
  rewrite Forall_forall in F.
  destruct (qmin_in l0 Ne) as (u & I & E), (qmax_in l0 Ne) as (v & J & E').
  apply Forall_forall. intros o K. unfold normalize in K. apply in_map_iff in K. destruct K as (x & <- & K).
  unfold ndiv. replace (Qeq_bool (qmax l0 - qmin l0) 0) with true; [reflexivity|].
  symmetry. apply Qeq_bool_iff. rewrite <- E, <- E', (F u I), (F v J). ring.
Qed.

(** ** Hybrid throttle *)
Lemma Qltb_lt a b : Qltb a b = true <-> (a < b)%Q.
Proof.
  unfold Qltb. rewrite negb_true_iff. split.
  - intro H. apply Qnot_le_lt. intro L. apply Qle_bool_iff in L. congruence.
  - intro H. destruct (Qle_bool b a) eqn:E; [|reflexivity]. apply Qle_bool_iff in E.
    exfalso. apply (Qlt_not_le _ _ H E).
Qed.
Lemma Qltb_ge a b : Qltb a b = false <-> (b <= a)%Q.
Proof. unfold Qltb. rewrite negb_false_iff. apply Qle_bool_iff. Qed.

Definition sign_scaled (n p x y : Q) : Prop :=
  (x < 0 -> y == x / n /\ -1 <= y /\ y < 0)%Q /\
  (0 < x -> y == x / p /\ 0 < y /\ y <= 1)%Q /\
  (x == 0 -> y == 0)%Q.

Theorem hybrid_spec l : exists l' n p,
  hybrid_norm l = map Some l' /\ (0 < n)%Q /\ (0 < p)%Q /\ Forall2 (sign_scaled n p) l l' /\
  (Exists (fun x => x < 0)%Q l -> Exists (fun y => y == -1)%Q l') /\
  (Exists (fun x => 0 < x)%Q l -> Exists (fun y => y == 1)%Q l').
Proof.
  set (neg := filter (fun x => Qltb x 0) l).
  set (pos := filter (fun x => Qltb 0 x) l).
  set (n := match neg with [] => 1%Q | _ => (- qmin neg)%Q end).
  set (p := match pos with [] => 1%Q | _ => qmax pos end).
  assert (Inneg : forall x, In x neg <-> In x l /\ (x < 0)%Q)
    by (intro x; unfold neg; rewrite filter_In, Qltb_lt; reflexivity).
  assert (Inpos : forall x, In x pos <-> In x l /\ (0 < x)%Q)
    by (intro x; unfold pos; rewrite filter_In, Qltb_lt; reflexivity).
  assert (Hn : (0 < n)%Q).
  { unfold n. destruct neg as [|a ng] eqn:E; [reflexivity|]. rewrite <- E in *.
    destruct (qmin_in neg) as (u & I & Eu); [rewrite E; discriminate|]. apply Inneg in I. destruct I. rewrite <- Eu. lra. }
  assert (Hp : (0 < p)%Q).
  { unfold p. destruct pos as [|a ng] eqn:E; [reflexivity|]. rewrite <- E in *.
    destruct (qmax_in pos) as (u & I & Eu); [rewrite E; discriminate|]. apply Inpos in I. destruct I. rewrite <- Eu. lra. }
  assert (Nn : forall x, In x neg -> n = (- qmin neg)%Q).
  { intros x I. unfold n. destruct neg; [destruct I|reflexivity]. }
  assert (Pp : forall x, In x pos -> p = qmax pos).
  { intros x I. unfold p. destruct pos; [destruct I|reflexivity]. }
  set (h1 := fun x => if Qltb x 0 then ((x - qmin neg) / (0 - qmin neg) - 1)%Q else x).
  set (h := fun x => if Qltb x 0 then ((x - qmin neg) / (0 - qmin neg) - 1)%Q
                     else if Qltb 0 x then ((x - 0) / (qmax pos - 0))%Q else x).
  assert (NegV : forall x, In x l -> (x < 0)%Q ->
            ((x - qmin neg) / (0 - qmin neg) - 1 == x / n)%Q /\ (-1 <= x / n)%Q /\ (x / n < 0)%Q).
  { intros x I L. assert (Ig : In x neg) by (apply Inneg; auto).
    pose proof (qmin_le neg x Ig) as M. rewrite (Nn x Ig) in *. split; [field; lra|]. split.
    - apply Qle_shift_div_l; lra.
    - apply Qlt_shift_div_r; lra. }
  assert (PosV : forall x, In x l -> (0 < x)%Q ->
            ((x - 0) / (qmax pos - 0) == x / p)%Q /\ (0 < x / p)%Q /\ (x / p <= 1)%Q).
  { intros x I L. assert (Ig : In x pos) by (apply Inpos; auto).
    pose proof (qmax_ge pos x Ig) as M. rewrite (Pp x Ig) in *. split; [field; lra|]. split.
    - apply Qlt_shift_div_l; lra.
    - apply Qle_shift_div_r; lra. }
  assert (First : map (fun x => if Qltb x 0
                          then option_map (fun y => y - 1)%Q (ndiv (x - qmin neg) (0 - qmin neg))
                          else Some x) l = map Some (map h1 l)).
  { rewrite map_map. apply map_ext_in. intros x I. unfold h1. destruct (Qltb x 0) eqn:E; [|reflexivity].
    apply Qltb_lt in E. rewrite ndiv_some; [reflexivity|]. assert (Ig : In x neg) by (apply Inneg; auto).
    rewrite (Nn x Ig) in Hn. lra. }
  assert (Pos : flat_map (fun o => match o with Some x => if Qltb 0 x then [x] else [] | None => [] end)
                         (map Some (map h1 l)) = pos).
  { assert (G : forall l0, (forall x, In x l0 -> In x l) ->
       flat_map (fun o => match o with Some x => if Qltb 0 x then [x] else [] | None => [] end)
                         (map Some (map h1 l0)) = filter (fun x => Qltb 0 x) l0).
    { induction l0 as [|x l0 IH]; intro S; [reflexivity|]. cbn [map flat_map filter].
      rewrite IH by (intros y J; apply S; now right).
      assert (Il : In x l) by (apply S; now left).
      unfold h1 at 1 2. destruct (Qltb x 0) eqn:E.
      - apply Qltb_lt in E. destruct (NegV x Il E) as (E1 & _ & E2).
        replace (Qltb 0 x) with false by (symmetry; apply Qltb_ge; lra).
        replace (Qltb 0 ((x - qmin neg) / (0 - qmin neg) - 1)) with false; [reflexivity|].
        symmetry. apply Qltb_ge. rewrite E1. lra.
      - destruct (Qltb 0 x); reflexivity. }
    apply G. auto. }
  exists (map h l), n, p. split.
  { unfold hybrid_norm. fold neg. rewrite First, Pos, !map_map. apply map_ext_in. intros x I. unfold h1, h.
    destruct (Qltb x 0) eqn:E.
    - apply Qltb_lt in E. destruct (NegV x I E) as (E1 & _ & E2).
      replace (Qltb 0 ((x - qmin neg) / (0 - qmin neg) - 1)) with false; [reflexivity|].
      symmetry. apply Qltb_ge. rewrite E1. lra.
    - destruct (Qltb 0 x) eqn:E0; [|reflexivity]. apply Qltb_lt in E0. apply ndiv_some.
      assert (Ig : In x pos) by (apply Inpos; auto). rewrite (Pp x Ig) in Hp. lra. }
  split; [exact Hn|]. split; [exact Hp|]. split; [|split].
  - apply Forall2_map_r. intros x I. unfold h. split; [|split].
    + intro L. rewrite (proj2 (Qltb_lt x 0) L). destruct (NegV x I L) as (E1 & E2 & E3).
      repeat split; [exact E1|rewrite E1; exact E2|rewrite E1; exact E3].
    + intro L. rewrite (proj2 (Qltb_ge x 0)) by lra. rewrite (proj2 (Qltb_lt 0 x) L).
      destruct (PosV x I L) as (E1 & E2 & E3).
      repeat split; [exact E1|rewrite E1; exact E2|rewrite E1; exact E3].
    + intro Z0. rewrite (proj2 (Qltb_ge x 0)) by lra. rewrite (proj2 (Qltb_ge 0 x)) by lra. exact Z0.
  - intro Ex. apply Exists_exists in Ex. destruct Ex as (x & I & L).
    assert (Ig : In x neg) by (apply Inneg; auto).
    destruct (qmin_in neg) as (u & J & Eu); [intro H; rewrite H in Ig; destruct Ig|].
    apply Inneg in J. destruct J as [J Lu].
    apply Exists_exists. exists (h u). split; [now apply in_map|].
    unfold h. rewrite (proj2 (Qltb_lt u 0) Lu). destruct (NegV u J Lu) as (E1 & _). rewrite E1, Eu, (Nn x Ig).
    rewrite (Nn x Ig) in Hn. field. lra.
  - intro Ex. apply Exists_exists in Ex. destruct Ex as (x & I & L).
    assert (Ig : In x pos) by (apply Inpos; auto).
    destruct (qmax_in pos) as (u & J & Eu); [intro H; rewrite H in Ig; destruct Ig|].
    apply Inpos in J. destruct J as [J Lu].
    apply Exists_exists. exists (h u). split; [now apply in_map|].
    unfold h. rewrite (proj2 (Qltb_ge u 0)) by lra. rewrite (proj2 (Qltb_lt 0 u) Lu).
    destruct (PosV u J Lu) as (E1 & _). rewrite E1, Eu, (Pp x Ig).
    rewrite (Pp x Ig) in Hp. field. lra.
Qed.

(** ** Local throttle normalisation of a packed deck *)
Section Local.
  Context {row : Type} (mclose aclose : row -> row -> bool).

  Lemma packed_at_spec (w : list (@write row)) G :
    (forall M A D r, In ((M, A, D), r) w <-> row_at G M A D = Some r) ->
    forall M A D, packed_at w M A D = row_at G M A D.
  Proof.
    intros H M A D. unfold packed_at.
    match goal with |- context [find ?f w] => destruct (find f w) as [[[[M' A'] D'] r]|] eqn:E end.
    - apply find_some in E. destruct E as [I E]. cbn in E.
      apply andb_true_iff in E. destruct E as [E E3]. apply andb_true_iff in E. destruct E as [E1 E2].
      apply Nat.eqb_eq in E1, E2, E3. subst. symmetry. now apply H.
    - destruct (row_at G M A D) as [r|] eqn:R; [|reflexivity].
      apply H in R. pose proof (find_none _ _ E _ R) as F. cbn in F. rewrite !Nat.eqb_refl in F. discriminate.
  Qed.

  Lemma grid_flat_map {B} (h : list row -> list B) amax G : h [] = [] -> Forall (fun m => length m <= amax) G ->
    forall k, flat_map h (map snd (grid amax k G)) = flat_map h (concat G).
  Proof.
    intros H0. induction 1 as [|m G Lm F IH]; intro k; [reflexivity|].
    cbn [grid]. rewrite map_app, flat_map_app, IH. cbn [concat]. rewrite flat_map_app. f_equal.
    rewrite map_map. cbn [snd]. rewrite nth_seq_all by assumption. rewrite flat_map_app.
    rewrite <- (app_nil_r (flat_map h m)) at 2. f_equal. induction (amax - length m) as [|n IHn]; [reflexivity|].
    cbn. now rewrite H0.
  Qed.

  Lemma flat_map_fst {A B C} (f : A -> list C) (h : B -> list C) (L : list (A * B)) :
    (forall c, In c L -> f (fst c) = h (snd c)) -> flat_map f (map fst L) = flat_map h (map snd L).
  Proof.
    induction L as [|c L IH]; intro H; [reflexivity|]. cbn. rewrite (H c) by now left. f_equal.
    apply IH. intros c' I. apply H. now right.
  Qed.

  Lemma map_seq_nth_error {A} (g : list A) : map (nth_error g) (seq 0 (length g)) = map Some g.
  Proof.
    induction g as [|x g IH]; [reflexivity|]. cbn [length seq map nth_error]. f_equal.
    rewrite <- seq_shift, map_map. cbn [nth_error]. exact IH.
  Qed.

  Theorem local_spec (thr : row -> Q) G s w :
    grouped mclose aclose G -> G <> [] -> Forall (Forall (fun g => 2 <= length g)) G ->
    Forall (fun m => 2 <= length m) (removelast G) -> Forall (fun m => length m <= room_alt G) G ->
    pack_data mclose aclose true (flat G) = Ok (s, w) ->
    normalize_local thr s w = flat_map (fun g => normalize None None (map thr g)) (concat G).
  Proof.
    intros GG N Two Alt Fits E. pose proof (pack_spec mclose aclose G GG N Two Alt Fits) as P.
    destruct (forallb (fun g => length g <=? room_data G) (concat G)) eqn:FB; [|rewrite E in P; discriminate].
    destruct P as (s' & w' & E' & R1 & DI & W & _ & _ & R2 & R3).
    rewrite E in E'. injection E' as <- <-.
    unfold normalize_local, cells. rewrite R1, R2, <- grid_cells.
    rewrite <- (grid_flat_map (fun g => normalize None None (map thr g)) (room_alt G) G eq_refl Fits 0).
    apply flat_map_fst. intros [[M A] g] J. apply in_grid in J. destruct J as (i & m & -> & Ni & L & ->).
    cbn [fst snd Nat.add]. rewrite DI, Ni. destruct (nth_error m A) as [g|] eqn:EA.
    - assert (La : A < length m) by (apply nth_error_Some; congruence).
      rewrite (nth_error_nth' m [] La) in EA. injection EA as EA. rewrite EA.
      assert (Ig : In g (concat G)).
      { apply in_concat. exists m. split; [eapply nth_error_In; eauto|]. rewrite <- EA. now apply nth_In. }
      assert (L2 : 2 <= length g).
      { rewrite Forall_forall in Two. pose proof (Two m (nth_error_In _ _ Ni)) as T.
        rewrite Forall_forall in T. apply T. rewrite <- EA. now apply nth_In. }
      replace (length g - 1 =? 0) with false by (symmetry; apply Nat.eqb_neq; lia).
      f_equal. unfold slice. rewrite R3, DI, Ni, (nth_error_nth' m [] La), EA.
      rewrite forallb_forall in FB. pose proof (FB g Ig) as Lg. apply Nat.leb_le in Lg.
      replace (Nat.min (length g - 1 + 1) (room_data G)) with (length g) by lia.
      rewrite map_map. transitivity (map (fun o => match o with Some r => thr r | None => 0%Q end) (map Some g)).
      + rewrite <- map_seq_nth_error, map_map. apply map_ext. intro D.
        rewrite (packed_at_spec w G W). unfold row_at. rewrite Ni, (nth_error_nth' m [] La), EA. reflexivity.
      + rewrite map_map. reflexivity.
    - apply nth_error_None in EA. rewrite nth_overflow by lia. reflexivity.
  Qed.
End Local.

(** ** Acceptance of a deck *)
(** the file has column [v] (torque is not a recognised header) *)
Definition has (file : var -> option (list Q)) (v : var) : bool :=
  match file v with Some _ => negb (var_beq v TORQUE) | None => false end.

(** what counts as present when the mandatory columns are looked for *)
Definition usable (verbosity : nat) (file : var -> option (list Q)) (v : var) : bool :=
  match v with
  | RAM_DRAG | GROSS_THRUST | TAILPIPE_THRUST => false
  | THRUST => has file THRUST || has file TAILPIPE_THRUST || (has file GROSS_THRUST && has file RAM_DRAG)
  | SHAFT_POWER_CORRECTED => has file SHAFT_POWER_CORRECTED && negb (has file SHAFT_POWER && (1 <=? verbosity))
  | _ => has file v
  end.

(** net thrust the deck ends up with *)
Definition net_column (file : var -> option (list Q)) : option (list Q) :=
  let own := match file THRUST with
             | Some t => Some t
             | None => match file GROSS_THRUST, file RAM_DRAG with
                       | Some g, Some r => Some (zip2 Qminus g r)
                       | _, _ => None end
             end in
  match own, file TAILPIPE_THRUST with
  | Some t, Some p => Some (zip2 Qplus t p)
  | Some t, None => Some t
  | None, o => o
  end.

(** a row on which net thrust agrees with gross thrust minus ram drag to within the tolerance *)
Definition agrees (tol : Q) (file : var -> option (list Q)) : Prop :=
  exists t g r, file THRUST = Some t /\ file GROSS_THRUST = Some g /\ file RAM_DRAG = Some r /\
  exists i a b c, nth_error t i = Some a /\ nth_error g i = Some b /\ nth_error r i = Some c /\
    (Qabs (b - c - a) < tol)%Q.

Lemma nth_error_zip2 f a b i :
  nth_error (zip2 f a b) i = match nth_error a i, nth_error b i with Some x, Some y => Some (f x y) | _, _ => None end.
Proof.
  revert b i. induction a as [|x a IH]; intros [|y b] [|i]; cbn; auto. now destruct (nth_error a i).
Qed.

Lemma net_thrust_result tol file :
  match net_thrust tol (read_data file) with
  | Err e => e = UserWarning /\ agrees tol file
  | Ok d => ~ agrees tol file /\
      (forall v, v <> THRUST -> ev d v = has file v /\ dat d v = Some (match file v with Some c => c | None => [] end)) /\
      ev d THRUST = has file THRUST || (has file GROSS_THRUST && has file RAM_DRAG) /\
      dat d THRUST = Some (match file THRUST with
             | Some t => t
             | None => match file GROSS_THRUST, file RAM_DRAG with
                       | Some g, Some r => zip2 Qminus g r
                       | _, _ => [] end
             end)
  end.
Proof.
  unfold net_thrust, read_data, has, col, put_col, agrees. cbn [ev dat var_beq negb].
  destruct (file RAM_DRAG) as [r|] eqn:Er; cbn [andb].
  2:{ split; [intros (t & g & r' & _ & _ & H & _); discriminate|]. split.
      - intros v _. split; [reflexivity|]. cbn [dat]; destruct (file v); reflexivity.
      - rewrite andb_false_r, orb_false_r. split; [reflexivity|]. cbn [dat]; destruct (file THRUST); [reflexivity|].
        destruct (file GROSS_THRUST); reflexivity. }
  destruct (file GROSS_THRUST) as [g|] eqn:Eg.
  2:{ split; [intros (t & g & r' & _ & H & _); discriminate|]. split.
      - intros v _. split; [reflexivity|]. cbn [dat]; destruct (file v); reflexivity.
      - cbn [andb]. rewrite orb_false_r. split; [reflexivity|]. cbn [dat]; destruct (file THRUST); reflexivity. }
  destruct (file THRUST) as [t|] eqn:Et.
  - destruct (existsb _ _) eqn:EX.
    + split; [reflexivity|]. apply existsb_exists in EX. destruct EX as (x & I & L).
      apply In_nth_error in I. destruct I as (i & I). rewrite !nth_error_zip2 in I.
      destruct (nth_error g i) as [b|] eqn:Nb; [|discriminate].
      destruct (nth_error r i) as [c|] eqn:Nc; [|discriminate].
      destruct (nth_error t i) as [a|] eqn:Na; [|discriminate]. injection I as <-.
      exists t, g, r. repeat split. exists i, a, b, c. repeat split; auto. now apply Qltb_lt.
    + split.
      * intros (t' & g' & r' & [= <-] & [= <-] & [= <-] & i & a & b & c & Na & Nb & Nc & L).
        apply not_true_iff_false in EX. apply EX. apply existsb_exists.
        exists (Qabs (b - c - a)). split; [|now apply Qltb_lt].
        apply (nth_error_In _ i). rewrite !nth_error_zip2, Na, Nb, Nc. reflexivity.
      * split; [|split; [cbn [ev]; now rewrite Et|]].
        -- intros v _. split; [reflexivity|]. cbn [dat]; destruct (file v); reflexivity.
        -- cbn [dat]. now rewrite Et.
  - split; [intros (t & g' & r' & H & _); discriminate|]. split; [|split; reflexivity].
    intros v Nv. cbn [ev dat]. replace (var_beq v THRUST) with false
      by (symmetry; destruct (var_beq v THRUST) eqn:E; [apply internal_var_dec_bl in E; congruence|reflexivity]).
    split; [reflexivity|]. cbn [dat]; destruct (file v); reflexivity.
Qed.

Lemma var_beq_refl v : var_beq v v = true.
Proof. now apply internal_var_dec_lb. Qed.
Lemma var_beq_neq v u : v <> u -> var_beq v u = false.
Proof. intro N. destruct (var_beq v u) eqn:E; [apply internal_var_dec_bl in E; congruence|reflexivity]. Qed.
Lemma in_all_vars v : In v all_vars.
Proof. destruct v; cbn; tauto. Qed.

(* the deck after the columns have been reconciled *)
Definition reconcile (verbosity : nat) (d1 : deck) : deck :=
  shaft verbosity (pop_col TAILPIPE_THRUST (pop_col GROSS_THRUST (pop_col RAM_DRAG (tailpipe d1)))).

Lemma ev_pop v u d : ev (pop_col v d) u = if var_beq u v then false else ev d u.
Proof.
  unfold pop_col. destruct (ev d v) eqn:E; [reflexivity|].
  destruct (var_beq u v) eqn:B; [|reflexivity]. apply internal_var_dec_bl in B. now subst.
Qed.
Lemma dat_pop v u d : u <> v -> dat (pop_col v d) u = dat d u.
Proof. intro N. unfold pop_col. destruct (ev d v); cbn; [|reflexivity]. now rewrite var_beq_neq. Qed.

Lemma ev_reconcile verbosity tol file d1 : net_thrust tol (read_data file) = Ok d1 ->
  forall v, ev (reconcile verbosity d1) v = usable verbosity file v.
Proof.
  intros E v. pose proof (net_thrust_result tol file) as H. rewrite E in H. destruct H as (_ & H & HT & _).
  assert (EV : forall u, ev (pop_col TAILPIPE_THRUST (pop_col GROSS_THRUST (pop_col RAM_DRAG (tailpipe d1)))) u
           = match u with
             | RAM_DRAG | GROSS_THRUST | TAILPIPE_THRUST => false
             | THRUST => has file THRUST || has file TAILPIPE_THRUST || (has file GROSS_THRUST && has file RAM_DRAG)
             | _ => has file u end).
  { intro u. rewrite !ev_pop. unfold tailpipe.
    rewrite (proj1 (H TAILPIPE_THRUST ltac:(discriminate))), HT.
    destruct (has file TAILPIPE_THRUST) eqn:Etp.
    - destruct (has file THRUST || has file GROSS_THRUST && has file RAM_DRAG) eqn:X;
      (destruct u; cbn [var_beq put_col ev]; try reflexivity; try (now apply H);
       rewrite ?orb_true_r; reflexivity).
    - destruct u; cbn [var_beq]; try reflexivity; try (now apply H).
      rewrite HT, orb_false_r. reflexivity. }
  unfold reconcile, shaft. rewrite !EV. cbn [usable].
  destruct (has file SHAFT_POWER && has file SHAFT_POWER_CORRECTED && (1 <=? verbosity)) eqn:S.
  - rewrite ev_pop, EV. apply andb_true_iff in S. destruct S as [S S3]. apply andb_true_iff in S. destruct S as [S1 S2].
    destruct v; cbn [var_beq usable]; try reflexivity. rewrite S1, S2, S3. reflexivity.
  - rewrite EV. destruct v; cbn [usable]; try reflexivity.
    destruct (has file SHAFT_POWER), (has file SHAFT_POWER_CORRECTED), (1 <=? verbosity); cbn in *; congruence.
Qed.

Lemma dat_thrust_reconcile verbosity tol file d1 : net_thrust tol (read_data file) = Ok d1 ->
  col (reconcile verbosity d1) THRUST = match net_column file with Some c => c | None => [] end.
Proof.
  intro E. pose proof (net_thrust_result tol file) as H. rewrite E in H. destruct H as (_ & H & HT & HD).
  assert (S : dat (reconcile verbosity d1) THRUST = dat (tailpipe d1) THRUST).
  { unfold reconcile, shaft. destruct (_ && _ && _); rewrite ?dat_pop by discriminate; reflexivity. }
  unfold col. rewrite S. unfold tailpipe.
  destruct (H TAILPIPE_THRUST ltac:(discriminate)) as [H1 H2]. rewrite H1, HT.
  unfold net_column, has. cbn [var_beq negb].
  destruct (file THRUST) as [t|] eqn:Et; cbn [orb].
  - destruct (file TAILPIPE_THRUST) as [p|] eqn:Ep.
    + cbn. unfold col. now rewrite HD, H2.
    + now rewrite HD.
  - destruct (file GROSS_THRUST) as [g|] eqn:Eg, (file RAM_DRAG) as [r|] eqn:Er; cbn [andb];
      (destruct (file TAILPIPE_THRUST) as [p|] eqn:Ep; [cbn; unfold col; now rewrite ?HD, ?H2|now rewrite HD]).
Qed.

Lemma check_required_ok req d : 
  check_required req d =
  if forallb (ev d) req || existsb (ev d) req then Ok d else Err UserWarning.
Proof.
  unfold check_required. destruct (forallb (ev d) req); [reflexivity|]. cbn [orb].
  destruct (filter _ _) as [|u l] eqn:F.
  - destruct (existsb (ev d) req) eqn:E; [|reflexivity]. exfalso.
    apply existsb_exists in E. destruct E as (v & I & V).
    assert (J : In v (filter (fun v => existsb (var_beq v) req) (filter (ev d) all_vars))).
    { apply filter_In. split; [apply filter_In; split; [apply in_all_vars|exact V]|].
      apply existsb_exists. exists v. split; [exact I|apply var_beq_refl]. }
    rewrite F in J. destruct J.
  - assert (J : In u (filter (fun v => existsb (var_beq v) req) (filter (ev d) all_vars))) by (rewrite F; now left).
    apply filter_In in J. destruct J as [J1 J2]. apply filter_In in J1. destruct J1 as [_ J1].
    apply existsb_exists in J2. destruct J2 as (v & I & B). apply internal_var_dec_bl in B. subst v.
    replace (existsb (ev d) req) with true; [reflexivity|]. symmetry. apply existsb_exists. eauto.
Qed.

Lemma check_data_unfold req tol verbosity ignore file :
  check_data req tol verbosity ignore file =
  rbind (net_thrust tol (read_data file)) (fun d1 =>
  rbind (check_required req (reconcile verbosity d1)) (fun d3 =>
  rbind (drop_negative ignore d3) (fun d4 => Ok (fill_unused d4)))).
Proof. reflexivity. Qed.

Theorem check_data_accepts req tol verbosity file : req <> [] ->
  (is_ok (check_data req tol verbosity false file) = true <->
   ~ agrees tol file /\ exists v, In v req /\ usable verbosity file v = true) /\
  (forall e, check_data req tol verbosity false file = Err e -> e = UserWarning).
Proof.
  intro N. rewrite check_data_unfold. pose proof (net_thrust_result tol file) as H.
  destruct (net_thrust tol (read_data file)) as [d1|e] eqn:E; cbn [rbind].
  - destruct H as (H & _). rewrite check_required_ok.
    pose proof (ev_reconcile verbosity tol file d1 E) as EV.
    assert (X : forallb (ev (reconcile verbosity d1)) req || existsb (ev (reconcile verbosity d1)) req = true <->
                exists v, In v req /\ usable verbosity file v = true).
    { rewrite orb_true_iff, forallb_forall, existsb_exists. split.
      - intros [F|(v & I & V)]; [|exists v; now rewrite <- EV].
        destruct req as [|v req]; [congruence|]. exists v. split; [now left|]. rewrite <- EV. apply F. now left.
      - intros (v & I & V). right. exists v. now rewrite EV. }
    destruct (forallb _ req || existsb _ req); cbn.
    + split; [|discriminate]. split; [|reflexivity]. intros _. split; [exact H|]. now apply X.
    + split; [|intros e [= <-]; reflexivity]. split; [discriminate|]. intros [_ K]. apply X in K. discriminate.
  - destruct H as [-> H]. cbn. split; [|intros e [= <-]; reflexivity]. split; [discriminate|tauto].
Qed.

(** dropping negative thrust *)
Lemma keep_from_in c : forall k i, In i (keep_from k c) <-> exists x, k <= i /\ nth_error c (i - k) = Some x /\ (0 <= x)%Q.
Proof.
  induction c as [|x c IH]; intros k i; cbn [keep_from].
  - split; [intros []|]. intros (x & _ & H & _). destruct (i - k); discriminate.
  - assert (R : In i (keep_from (S k) c) <-> exists y, k < i /\ nth_error (x :: c) (i - k) = Some y /\ (0 <= y)%Q).
    { rewrite IH. split; intros (y & L & Hn & P); exists y; (split; [lia|]); (split; [|exact P]).
      - replace (i - k) with (S (i - S k)) by lia. exact Hn.
      - replace (i - k) with (S (i - S k)) in Hn by lia. exact Hn. }
    destruct (Qle_bool 0 x) eqn:B.
    + cbn [In]. rewrite R. split.
      * intros [<-|(y & L & H)]; [|exists y; split; [lia|exact H]].
        exists x. rewrite Nat.sub_diag. repeat split; [lia|now apply Qle_bool_iff].
      * intros (y & L & Hn & P). destruct (Nat.eq_dec i k) as [->|Ne]; [now left|]. right. exists y. split; [lia|auto].
    + rewrite R. split.
      * intros (y & L & H). exists y. split; [lia|exact H].
      * intros (y & L & Hn & P). destruct (Nat.eq_dec i k) as [->|Ne]; [|exists y; split; [lia|auto]].
        rewrite Nat.sub_diag in Hn. injection Hn as <-. apply Qle_bool_iff in P. congruence.
Qed.

Theorem ignore_negative_fails req tol verbosity file c x :
  file TORQUE = None -> net_column file = Some c -> In x c -> (0 <= x)%Q ->
  exists e, check_data req tol verbosity true file = Err e.
Proof.
  intros NT NC I P. rewrite check_data_unfold. pose proof (net_thrust_result tol file) as H.
  destruct (net_thrust tol (read_data file)) as [d1|e] eqn:E; cbn [rbind]; [|eauto].
  destruct H as (_ & H & HT & HD). rewrite check_required_ok. destruct (forallb _ req || existsb _ req); cbn [rbind]; [|eauto].
  unfold drop_negative. pose proof (dat_thrust_reconcile verbosity tol file d1 E) as T. rewrite NC in T. rewrite T.
  assert (D : dat (reconcile verbosity d1) TORQUE = Some []).
  { assert (S : dat (reconcile verbosity d1) TORQUE = dat d1 TORQUE).
    { unfold reconcile, shaft, tailpipe. destruct (_ && _ && _); rewrite ?dat_pop by discriminate;
        destruct (ev d1 TAILPIPE_THRUST), (ev d1 THRUST); reflexivity. }
    rewrite S. destruct (H TORQUE ltac:(discriminate)) as [_ H2]. rewrite H2, NT. reflexivity. }
  replace (existsb _ all_vars) with true; [cbn; eauto|]. symmetry. apply existsb_exists.
  exists TORQUE. split; [apply in_all_vars|]. rewrite D. apply existsb_exists.
  apply In_nth_error in I. destruct I as (i & I). exists i. split; [|apply Nat.leb_le; cbn; lia].
  apply keep_from_in. exists x. rewrite Nat.sub_0_r. repeat split; auto with arith.
Qed.

(** the accepted deck *)
Definition table (n : nat) (file : var -> option (list Q)) : Prop := forall v c, file v = Some c -> length c = n.

Lemma length_zip2 f a b : length a = length b -> length (zip2 f a b) = length a.
Proof. revert b. induction a as [|x a IH]; intros [|y b] L; cbn in *; try lia. f_equal. apply IH. lia. Qed.

Lemma dat_other_reconcile verbosity tol file d1 v c : net_thrust tol (read_data file) = Ok d1 -> v <> THRUST ->
  dat (reconcile verbosity d1) v = Some c -> c = match file v with Some c => c | None => [] end.
Proof.
  intros E N D. pose proof (net_thrust_result tol file) as H. rewrite E in H. destruct H as (_ & H & _).
  assert (S : forall u d k, dat (pop_col u d) v = Some k -> dat d v = Some k).
  { intros u d k K. unfold pop_col in K. destruct (ev d u); [|exact K]. cbn in K.
    destruct (var_beq v u); [discriminate|exact K]. }
  assert (D1 : dat d1 v = Some c).
  { unfold reconcile, shaft in D.
    assert (D2 : dat (tailpipe d1) v = Some c) by (destruct (_ && _ && _); repeat apply S in D; exact D).
    unfold tailpipe in D2. destruct (ev d1 TAILPIPE_THRUST); [|exact D2].
    destruct (ev d1 THRUST); cbn in D2; rewrite var_beq_neq in D2 by exact N; exact D2. }
  rewrite (proj2 (H v N)) in D1. congruence.
Qed.

Theorem accepted_columns req tol verbosity file d n :
  check_data req tol verbosity false file = Ok d -> table n file -> 1 <= n ->
  (has file ALTITUDE = true -> forall v c, dat d v = Some c -> length c = n) /\
  (forall c, net_column file = Some c -> dat d THRUST = Some c) /\
  (forall v c, file v = Some c -> dat d v = Some c \/ dat d v = None \/ v = THRUST) /\
  dat d ALTITUDE <> None.
Proof.
  intros C T Pn. rewrite check_data_unfold in C.
  destruct (net_thrust tol (read_data file)) as [d1|e] eqn:E; [|discriminate]. cbn [rbind] in C.
  rewrite check_required_ok in C. destruct (_ || _); [|discriminate]. cbn [rbind drop_negative] in C.
  injection C as <-. set (d3 := reconcile verbosity d1).
  pose proof (dat_thrust_reconcile verbosity tol file d1 E) as TH. fold d3 in TH.
  assert (DT : exists c, dat d3 THRUST = Some c /\ c = match net_column file with Some c => c | None => [] end).
  { pose proof (net_thrust_result tol file) as H. rewrite E in H. destruct H as (_ & _ & _ & HD).
    assert (K : dat d3 THRUST <> None).
    { unfold d3, reconcile, shaft. destruct (_ && _ && _); rewrite ?dat_pop by discriminate;
      (unfold tailpipe; destruct (ev d1 TAILPIPE_THRUST), (ev d1 THRUST); cbn; rewrite ?HD; discriminate). }
    unfold col in TH. destruct (dat d3 THRUST) as [c|]; [|congruence]. eauto. }
  destruct DT as (tc & DT & Etc).
  assert (LN : length (match net_column file with Some c => c | None => [] end) = n \/ net_column file = None).
  { unfold net_column. destruct (file THRUST) as [t|] eqn:Et.
    - left. destruct (file TAILPIPE_THRUST) as [p|] eqn:Ep; [|exact (T _ _ Et)].
      rewrite length_zip2; [exact (T _ _ Et)|]. now rewrite (T _ _ Et), (T _ _ Ep).
    - destruct (file GROSS_THRUST) as [g|] eqn:Eg, (file RAM_DRAG) as [r|] eqn:Er;
        destruct (file TAILPIPE_THRUST) as [p|] eqn:Ep; auto; try (left; exact (T _ _ Ep)).
      + left. rewrite !length_zip2; rewrite ?length_zip2; rewrite ?(T _ _ Eg), ?(T _ _ Er), ?(T _ _ Ep); auto.
      + left. rewrite length_zip2; rewrite (T _ _ Eg); auto. now rewrite (T _ _ Er). }
  assert (ALT : dat d3 ALTITUDE = Some (match file ALTITUDE with Some c => c | None => [] end)).
  { pose proof (net_thrust_result tol file) as H. rewrite E in H. destruct H as (_ & H & _).
    unfold d3, reconcile, shaft. destruct (_ && _ && _); rewrite ?dat_pop by discriminate;
      (unfold tailpipe; destruct (ev d1 TAILPIPE_THRUST), (ev d1 THRUST); cbn;
       apply (H ALTITUDE); discriminate). }
  unfold fill_unused. cbn [dat]. split; [|split; [|split]].
  - intros HA v c D. unfold col in D. rewrite ALT in D. unfold has in HA.
    destruct (file ALTITUDE) as [al|] eqn:Ea; [|discriminate].
    destruct (dat d3 v) as [k|] eqn:Dk; [|discriminate]. cbn in D. injection D as <-.
    destruct k as [|q k]; [rewrite repeat_length; exact (T _ _ Ea)|].
    destruct (var_eq_dec v THRUST) as [->|Nv].
    + rewrite DT in Dk. injection Dk as Dk. destruct LN as [LN|LN]; [now rewrite <- Dk, Etc|].
      rewrite LN in Etc. rewrite Etc in Dk. discriminate.
    + pose proof (dat_other_reconcile verbosity tol file d1 v (q :: k) E Nv Dk) as K.
      destruct (file v) as [c|] eqn:Ev; [|discriminate]. rewrite K. exact (T _ _ Ev).
  - intros c NC. rewrite DT. rewrite NC in Etc, LN. destruct LN as [LN|LN]; [|discriminate]. subst tc. cbn.
    destruct c; [cbn in LN; lia|reflexivity].
  - intros v c Ev. destruct (var_eq_dec v THRUST) as [->|Nv]; [auto|].
    destruct (dat d3 v) as [k|] eqn:Dk; [|auto].
    pose proof (dat_other_reconcile verbosity tol file d1 v k E Nv Dk) as K. rewrite Ev in K. subst k.
    left. cbn. destruct c; [|reflexivity]. pose proof (T _ _ Ev) as L. cbn in L. lia.
  - rewrite ALT. discriminate.
Qed.

(** ** Reference thrust *)
Definition sls_max (alt_tol mach_tol : Q) (rows : list drow) (m : Q) : Prop :=
  (exists r, In r rows /\ is_sls alt_tol mach_tol r = true /\ (r_thrust r == m)%Q) /\
  (forall r, In r rows -> is_sls alt_tol mach_tol r = true -> (r_thrust r <= m)%Q).

Lemma sls_spec at_ mt rows : match filter (is_sls at_ mt) rows with
  | [] => forall r, In r rows -> is_sls at_ mt r = false
  | l => sls_max at_ mt rows (qmax (map r_thrust l)) end.
Proof.
  destruct (filter (is_sls at_ mt) rows) as [|r0 l] eqn:F.
  - intros r I. destruct (is_sls at_ mt r) eqn:E; [|reflexivity].
    assert (J : In r (filter (is_sls at_ mt) rows)) by (apply filter_In; auto). rewrite F in J. destruct J.
  - rewrite <- F. split.
    + destruct (qmax_in (map r_thrust (filter (is_sls at_ mt) rows))) as (x & I & E); [rewrite F; discriminate|].
      apply in_map_iff in I. destruct I as (r & <- & I). apply filter_In in I. exists r. tauto.
    + intros r I E. apply qmax_ge. apply in_map. apply filter_In. auto.
Qed.

Theorem reference_result at_ mt rows t ref sc f :
  set_reference_thrust at_ mt rows t = Ok (ref, sc, f) ->
  (sc == f * ref)%Q /\
  (match reference t with Some r => ref = r | None => sls_max at_ mt rows ref end) /\
  (match factor t with Some g => f = g | None => True end) /\
  (match scaled t with
   | Some s => match factor t with
               | None => sc = s
               | Some _ => (Qabs (s - sc) <= Qmax ((1#10000) * Qmax (Qabs s) (Qabs sc)) (1#10))%Q
               end
   | None => True end) /\
  (factor t = None -> scaled t = None -> f = 1%Q).
Proof.
  unfold set_reference_thrust. intro H.
  match type of H with rbind ?m _ = _ => destruct m as [ref0|e] eqn:E; [|discriminate] end.
  cbn [rbind] in H.
  assert (Ref : match reference t with Some r => ref0 = r | None => sls_max at_ mt rows ref0 end).
  { destruct (reference t) as [r|]; [congruence|]. pose proof (sls_spec at_ mt rows) as S.
    destruct (filter (is_sls at_ mt) rows); [discriminate|]. injection E as <-. exact S. }
  destruct (factor t) as [g|], (scaled t) as [s|].
  - destruct (thrust_close s (ref0 * g)) eqn:C; [|discriminate]. injection H as <- <- <-.
    repeat split; auto; try discriminate; [ring|]. unfold thrust_close, isclose in C. now apply Qle_bool_iff in C.
  - injection H as <- <- <-. repeat split; auto; try discriminate. ring.
  - destruct (Qeq_bool ref0 0) eqn:Z0; [discriminate|]. injection H as <- <- <-.
    repeat split; auto; try discriminate. field. intro K. apply Qeq_bool_iff in K. congruence.
  - injection H as <- <- <-. repeat split; auto. ring.
Qed.

Theorem reference_accepts at_ mt rows t :
  is_ok (set_reference_thrust at_ mt rows t) = true <->
  exists ref, (match reference t with Some r => ref = r
               | None => filter (is_sls at_ mt) rows <> [] /\ ref = qmax (map r_thrust (filter (is_sls at_ mt) rows)) end) /\
    match factor t, scaled t with
    | Some f, Some s => (Qabs (s - ref * f) <= Qmax ((1#10000) * Qmax (Qabs s) (Qabs (ref * f))) (1#10))%Q
    | None, Some _ => ~ (ref == 0)%Q
    | _, None => True
    end.
Proof.
  unfold set_reference_thrust.
  assert (X : forall ref, is_ok (match factor t, scaled t with
     | Some f, Some s => if thrust_close s (ref * f) then Ok (ref, ref * f, f)%Q else Err AttributeError
     | Some f, None => Ok (ref, ref * f, f)%Q
     | None, Some s => if Qeq_bool ref 0 then Err ZeroDivisionError else Ok (ref, s, s / ref)%Q
     | None, None => Ok (ref, ref, 1)%Q end) = true <->
     match factor t, scaled t with
    | Some f, Some s => (Qabs (s - ref * f) <= Qmax ((1#10000) * Qmax (Qabs s) (Qabs (ref * f))) (1#10))%Q
    | None, Some _ => ~ (ref == 0)%Q
    | _, None => True
    end).
  { intro ref. destruct (factor t) as [f|], (scaled t) as [s|]; cbn; try tauto.
    - unfold thrust_close, isclose. rewrite <- Qle_bool_iff. destruct (Qle_bool _ _); cbn; split; congruence.
    - rewrite <- Qeq_bool_iff. destruct (Qeq_bool ref 0); cbn; split; congruence. }
  destruct (reference t) as [r|]; cbn [rbind].
  - rewrite X. split; [eauto|]. intros (ref & -> & H). exact H.
  - destruct (filter (is_sls at_ mt) rows) as [|r0 l] eqn:F; cbn [rbind].
    + split; [discriminate|]. intros (ref & [N _] & _). congruence.
    + rewrite X. split.
      * intro H. eexists. split; [split; [discriminate|reflexivity]|exact H].
      * intros (ref & [_ ->] & H). exact H.
Qed.
