(** Proofs about token conversion and the vehicle deck reader. *)
From Coq Require Import Ascii QArith Lia.
From Verif Require Import Base CsvModel CsvProofs StrModel.
Open Scope nat_scope.

(** ** The grammar, written independently of the parser *)
Definition digit_char (d : Z) : ascii := ascii_of_nat (48 + Z.to_nat d).
Definition digit (c : ascii) (d : Z) : Prop := (0 <= d <= 9)%Z /\ c = digit_char d.

Inductive digits : str -> list Z -> Prop :=
| digits_one c d : digit c d -> digits [c] [d]
| digits_cons c d s l : digit c d -> digits s l -> digits (c :: s) (d :: l)
| digits_under c d s l : digit c d -> digits s l -> digits (c :: "_"%char :: s) (d :: l).

Definition value_of (l : list Z) : Z := fold_left (fun a d => 10 * a + d)%Z l 0%Z.

Inductive signed : str -> Z -> Prop :=
| sg_none : signed [] 1
| sg_plus : signed ["+"%char] 1
| sg_minus : signed ["-"%char] (-1).

Inductive opt_dig : str -> list Z -> Prop :=
| od_none : opt_dig [] []
| od_some s l : digits s l -> opt_dig s l.

Inductive expo : str -> Z -> Prop :=
| ex_none : expo [] 0
| ex_some c g s sg l : c = "e"%char \/ c = "E"%char -> signed g sg -> digits s l -> expo (c :: g ++ s) (sg * value_of l).

(** the token, without surrounding white space, is an integer / a decimal number with a point *)
Definition int_token (d : str) (z : Z) : Prop :=
  exists g s sg l, strip d = g ++ s /\ signed g sg /\ digits s l /\ z = (sg * value_of l)%Z.
Definition float_token (d : str) (q : Q) : Prop :=
  exists g a f e sg la lf ex,
    strip d = g ++ a ++ "."%char :: f ++ e /\ signed g sg /\ opt_dig a la /\ opt_dig f lf /\ la ++ lf <> [] /\ expo e ex /\
    q = (inject_Z (sg * value_of (la ++ lf)) * Qpower 10 (ex - Z.of_nat (length lf)))%Q.

(** ** Digits *)
Lemma digit_val_char d : (0 <= d <= 9)%Z -> digit_val (digit_char d) = Some d.
Proof.
  intro H. assert (d = 0 \/ d = 1 \/ d = 2 \/ d = 3 \/ d = 4 \/ d = 5 \/ d = 6 \/ d = 7 \/ d = 8 \/ d = 9)%Z by lia.
  intuition (subst; reflexivity).
Qed.
Lemma digit_val_iff c d : digit_val c = Some d <-> digit c d.
Proof.
  split.
  - unfold digit_val, digit, digit_char. destruct (_ && _)%bool eqn:E; [|discriminate].
    apply andb_true_iff in E as [E1 E2]. apply Nat.leb_le in E1, E2. intros [= <-]. split; [lia|].
    rewrite Nat2Z.id. replace (48 + (nat_of_ascii c - 48)) with (nat_of_ascii c) by lia. now rewrite ascii_nat_embedding.
  - intros [H ->]. now apply digit_val_char.
Qed.
Lemma digit_not c d : digit c d -> c <> "_"%char /\ c <> "."%char /\ is_e c = false /\ c <> "+"%char /\ c <> "-"%char /\ is_ws c = false /\ is_bracket c = false.
Proof.
  intros [H ->]. assert (d = 0 \/ d = 1 \/ d = 2 \/ d = 3 \/ d = 4 \/ d = 5 \/ d = 6 \/ d = 7 \/ d = 8 \/ d = 9)%Z by lia.
  intuition (subst; discriminate || reflexivity).
Qed.

Lemma fold_from l : forall a b, fold_left (fun a d => 10 * a + d)%Z l (a + b)%Z = (a * 10 ^ Z.of_nat (length l) + fold_left (fun a d => 10 * a + d)%Z l b)%Z.
Proof.
  induction l as [|d l IH]; intros a b; cbn [fold_left length].
  - simpl. lia.
  - replace (10 * (a + b) + d)%Z with (10 * a + (10 * b + d))%Z by ring. rewrite IH.
    rewrite Nat2Z.inj_succ, Z.pow_succ_r by lia. ring.
Qed.
Lemma value_app a b : value_of (a ++ b) = (value_of a * 10 ^ Z.of_nat (length b) + value_of b)%Z.
Proof.
  unfold value_of at 1. rewrite fold_left_app.
  change (fold_left _ a 0%Z) with (value_of a). rewrite <- (Z.add_0_r (value_of a)) at 1. apply fold_from.
Qed.

Definition dval (l : list Z) (acc : Z) : Z := fold_left (fun a d => 10 * a + d)%Z l acc.

Lemma dpart_iff s : forall acc n v m,
  (dpart acc n false s = Some (v, m) <-> exists l, digits s l /\ v = dval l acc /\ m = n + length l) /\
  (dpart acc n true s = Some (v, m) <->
     (s = [] /\ v = acc /\ m = n) \/
     exists l, (digits s l \/ exists s', s = "_"%char :: s' /\ digits s' l) /\ v = dval l acc /\ m = n + length l).
Proof.
  induction s as [|c s IH]; intros acc n v m.
  - split; simpl.
    + split; [discriminate|]. intros (l & D & _). inversion D.
    + split; [intros [= <- <-]; auto|]. intros [(_ & -> & ->)|(l & [D|(s' & E & _)] & _)]; [reflexivity|inversion D|discriminate].
  - cbn [dpart]. destruct (digit_val c) as [d|] eqn:E.
    + apply digit_val_iff in E. destruct (IH (10 * acc + d)%Z (S n) v m) as [_ IHt].
      assert (K : dpart (10 * acc + d) (S n) true s = Some (v, m) <->
                  exists l, digits (c :: s) l /\ v = dval l acc /\ m = n + length l).
      { rewrite IHt. split.
        - intros [(-> & -> & ->)|(l & [D|(s' & -> & D)] & -> & ->)].
          + exists [d]. split; [now constructor|]. split; [reflexivity|]. simpl. lia.
          + exists (d :: l). split; [now constructor|]. split; [reflexivity|]. simpl. lia.
          + exists (d :: l). split; [now constructor|]. split; [reflexivity|]. simpl. lia.
        - assert (U : forall d', digit c d' -> d' = d).
          { intros d' D'. apply digit_val_iff in D', E. congruence. }
          intros (l & D & -> & ->). inversion D as [c' d' D'|c' d' s' l' D' D2|c' d' s' l' D' D2]; subst; rewrite (U d' D').
          + left. repeat split. simpl. lia.
          + right. exists l'. split; [auto|]. split; [reflexivity|]. simpl. lia.
          + right. exists l'. split; [right; eauto|]. split; [reflexivity|]. simpl. lia. }
      split; [exact K|]. rewrite K. split.
      * intros (l & D & H). right. eauto.
      * intros [(? & _)|(l & [D|(s' & EQ & D)] & H)]; [discriminate|eauto|]. injection EQ as -> ->.
        apply digit_not in E. tauto.
    + assert (ND : forall l, ~ digits (c :: s) l).
      { intros l D. inversion D as [c' d' D'|c' d' s' l' D' D2|c' d' s' l' D' D2]; subst; apply digit_val_iff in D'; congruence. }
      split.
      * simpl. split; [discriminate|]. intros (l & D & _). now apply ND in D.
      * cbn [andb]. destruct (Ascii.eqb_spec c "_") as [->|N].
        -- destruct (IH acc n v m) as [IHf _]. rewrite IHf. split.
           ++ intros (l & D & H). right. exists l. split; [right; eauto|exact H].
           ++ intros [(? & _)|(l & [D|(s' & EQ & D)] & H)]; [discriminate|now apply ND in D|injection EQ as ->; eauto].
        -- split; [discriminate|]. intros [(? & _)|(l & [D|(s' & EQ & D)] & H)]; [discriminate|now apply ND in D|congruence].
Qed.

Lemma digit_part_iff s v n : digit_part s = Some (v, n) <-> exists l, digits s l /\ v = value_of l /\ n = length l.
Proof. apply (proj1 (dpart_iff s 0 0 v n)). Qed.

Lemma digits_ne s l : digits s l -> s <> [] /\ l <> [].
Proof. intros []; split; discriminate. Qed.
Lemma digits_head s l : digits s l -> exists c d r, s = c :: r /\ digit c d.
Proof. intros []; eauto. Qed.

Lemma sign_iff s r g : sign s = (g, r) -> exists p, signed p g /\ s = p ++ r.
Proof.
  destruct s as [|c s]; simpl; [intros [= <- <-]; exists []; split; [constructor|reflexivity]|].
  destruct (Ascii.eqb_spec c "+") as [->|]; [intros [= <- <-]; exists ["+"%char]; split; [constructor|reflexivity]|].
  destruct (Ascii.eqb_spec c "-") as [->|]; [intros [= <- <-]; exists ["-"%char]; split; [constructor|reflexivity]|].
  intros [= <- <-]. exists []. split; [constructor|reflexivity].
Qed.
Lemma sign_of p g r : signed p g -> (match r with c :: _ => c <> "+"%char /\ c <> "-"%char | [] => True end) -> sign (p ++ r) = (g, r).
Proof.
  intros [] H; simpl; try reflexivity. destruct r as [|c r]; simpl; [reflexivity|].
  destruct (Ascii.eqb_spec c "+"); [tauto|]. destruct (Ascii.eqb_spec c "-"); [tauto|reflexivity].
Qed.

Lemma py_int_iff d z : py_int d = Some z <-> int_token d z.
Proof.
  unfold py_int, int_token. destruct (sign (strip d)) as [g r] eqn:S. split.
  - destruct (digit_part r) as [[v n]|] eqn:D; [|discriminate]. intros [= <-].
    apply sign_iff in S as (p & P & ->). apply digit_part_iff in D as (l & D & -> & _). exists p, r, g, l. auto.
  - intros (p & s & sg & l & E & P & D & ->). rewrite E in S. rewrite (sign_of _ sg) in S; [|assumption|].
    + injection S as <- <-. destruct (digit_part s) as [[v n]|] eqn:K.
      * apply digit_part_iff in K as (l' & D' & -> & _). f_equal. f_equal.
        assert (digit_part s = Some (value_of l, length l)) by (apply digit_part_iff; eauto).
        assert (digit_part s = Some (value_of l', length l')) by (apply digit_part_iff; eauto). congruence.
      * assert (digit_part s = Some (value_of l, length l)) by (apply digit_part_iff; eauto). congruence.
    + destruct (digits_head _ _ D) as (c & x & r' & -> & X). apply digit_not in X. tauto.
Qed.

Lemma digits_chars s l : digits s l -> forall c, In c s -> c = "_"%char \/ exists d, digit c d.
Proof.
  induction 1 as [c d D|c d s l D DS IH|c d s l D DS IH]; intros x [<-|X]; eauto.
  - destruct X.
  - destruct X as [<-|X]; eauto.
Qed.

Lemma cut_at_none p l r : (forall c, In c l -> p c = false) -> (match r with c :: _ => p c = true | [] => True end) ->
  cut_at p (l ++ r) = (l, match r with [] => None | _ :: r' => Some r' end).
Proof.
  intros H R. induction l as [|c l IH]; simpl.
  - destruct r as [|c r]; simpl; [reflexivity|now rewrite R].
  - rewrite (H c) by now left. rewrite IH by (intros; apply H; now right). reflexivity.
Qed.
Lemma cut_at_inv p l a o : cut_at p l = (a, o) ->
  match o with None => l = a | Some b => exists c, p c = true /\ l = a ++ c :: b end.
Proof.
  revert a o. induction l as [|c l IH]; simpl; intros a o.
  - intros [= <- <-]. reflexivity.
  - destruct (p c) eqn:P; [intros [= <- <-]; simpl; eauto|].
    destruct (cut_at p l) as [a' o']. simpl. intros [= <- <-]. specialize (IH _ _ eq_refl). destruct o' as [b|].
    + destruct IH as (x & X & ->). exists x. auto.
    + now rewrite IH.
Qed.

Lemma opt_digits_iff s v n : opt_digits s = Some (v, n) <-> exists l, opt_dig s l /\ v = value_of l /\ n = length l.
Proof.
  unfold opt_digits. destruct s as [|c s].
  - split; [intros [= <- <-]; exists []; repeat split; constructor|].
    intros (l & O & -> & ->). inversion O as [|s l' D]; subst; [reflexivity|]. now apply digits_ne in D.
  - rewrite digit_part_iff. split; intros (l & O & H); exists l; split; auto; [now constructor|].
    inversion O; subst; assumption.
Qed.
Lemma opt_dig_det s l l' : opt_dig s l -> opt_dig s l' -> value_of l = value_of l' /\ length l = length l'.
Proof.
  intros A B. assert (X : opt_digits s = Some (value_of l, length l)) by (apply opt_digits_iff; eauto).
  assert (Y : opt_digits s = Some (value_of l', length l')) by (apply opt_digits_iff; eauto). split; congruence.
Qed.

Definition efirst (e : str) : option str := match e with [] => None | _ :: r => Some r end.
Lemma exponent_of e x : expo e x -> exponent (efirst e) = Some x.
Proof.
  intros [|c g s sg l C G D]; simpl; [reflexivity|].
  rewrite (sign_of _ sg); [|assumption|].
  - assert (digit_part s = Some (value_of l, length l)) as -> by (apply digit_part_iff; eauto). reflexivity.
  - destruct (digits_head _ _ D) as (c' & x' & r' & -> & X). apply digit_not in X. tauto.
Qed.

Lemma py_float_iff d q : py_float d = Some q <-> float_token d q.
Proof.
  unfold py_float, float_token. split.
  - destruct (sign (strip d)) as [g r] eqn:S. destruct (cut_at is_dot r) as [a [b|]] eqn:C1; [|discriminate].
    destruct (cut_at is_e b) as [f e] eqn:C2.
    destruct (opt_digits a) as [[i ni]|] eqn:A; [|discriminate].
    destruct (opt_digits f) as [[fr nf]|] eqn:F; [|discriminate].
    destruct (exponent e) as [ex|] eqn:X; [|discriminate].
    destruct (ni + nf =? 0) eqn:ZZ; [discriminate|]. intros [= <-]. apply Nat.eqb_neq in ZZ.
    apply sign_iff in S as (p & P & S). apply cut_at_inv in C1 as (c & C & ->).
    unfold is_dot in C. apply Ascii.eqb_eq in C as ->.
    apply opt_digits_iff in A as (la & A & -> & ->). apply opt_digits_iff in F as (lf & F & -> & ->).
    assert (K : exists es, expo es ex /\ b = f ++ es).
    { apply cut_at_inv in C2. destruct e as [e|].
      - destruct C2 as (c & C & ->). simpl in X. destruct (sign e) as [ge re] eqn:SE.
        destruct (digit_part re) as [[ve ne]|] eqn:D; [|discriminate]. injection X as <-.
        apply sign_iff in SE as (pe & PE & ->). apply digit_part_iff in D as (le & D & -> & _).
        exists (c :: pe ++ re). split; [|reflexivity]. constructor; auto.
        unfold is_e in C. apply orb_true_iff in C as [C|C]; apply Ascii.eqb_eq in C; auto.
      - subst b. simpl in X. injection X as <-. exists []. split; [constructor|]. now rewrite app_nil_r. }
    destruct K as (es & ES & ->).
    exists p, a, f, es, g, la, lf, ex. rewrite S. split; [reflexivity|]. repeat (split; [assumption|]).
    split; [|split; [assumption|]].
    + intro E. apply (f_equal (@length Z)) in E. rewrite app_length in E. simpl in E. lia.
    + unfold decimal. now rewrite value_app.
  - intros (p & a & f & e & sg & la & lf & ex & E & P & A & F & N & X & ->). rewrite E.
    assert (NA : forall c, In c a -> is_dot c = false).
    { intros c I. inversion A as [|s l D]; subst; [destruct I|]. unfold is_dot. apply Ascii.eqb_neq.
      destruct (digits_chars _ _ D c I) as [->|[x D']]; [discriminate|]. apply digit_not in D'. tauto. }
    assert (NF : forall c, In c f -> is_e c = false).
    { intros c I. inversion F as [|s l D]; subst; [destruct I|].
      destruct (digits_chars _ _ D c I) as [->|[x D']]; [reflexivity|]. apply digit_not in D'. tauto. }
    rewrite (sign_of _ sg); [|assumption|].
    + rewrite (cut_at_none is_dot a ("."%char :: f ++ e)) by (auto; reflexivity).
      rewrite (cut_at_none is_e f e); [|assumption|].
      * change (match e with [] => None | _ :: r' => Some r' end) with (efirst e). rewrite (exponent_of _ _ X).
        assert (opt_digits a = Some (value_of la, length la)) as -> by (apply opt_digits_iff; eauto).
        assert (opt_digits f = Some (value_of lf, length lf)) as -> by (apply opt_digits_iff; eauto).
        destruct (Nat.eqb_spec (length la + length lf) 0) as [Z|Z].
        -- exfalso. apply N. apply length_zero_iff_nil. now rewrite app_length.
        -- unfold decimal. now rewrite value_app.
      * destruct X as [|c g s sg' l [->| ->] _ _]; exact I || reflexivity.
    + inversion A as [|s l D]; subst; simpl; [split; discriminate|].
      destruct (digits_head _ _ D) as (c' & x & r' & -> & X'). simpl. apply digit_not in X'. tauto.
Qed.

(** a float token has a '.', an integer token has none *)
Lemma strip_of_split p s : exists a b, s = a ++ strip_of p s ++ b /\ forallb p a = true /\ forallb p b = true.
Proof.
  assert (K : forall l, exists a, l = a ++ drop_while p l /\ forallb p a = true).
  { induction l as [|c l (a & E & A)]; simpl; [exists []; auto|]. destruct (p c) eqn:P; [|exists []; auto].
    exists (c :: a). simpl. rewrite P, <- E. auto. }
  destruct (K s) as (a & Ea & A). destruct (K (rev (drop_while p s))) as (b & Eb & B).
  exists a, (rev b). unfold strip_of. split; [|split; [assumption|now rewrite forallb_rev]].
  rewrite <- rev_app_distr, <- Eb, rev_involutive. exact Ea.
Qed.
Lemma In_strip p s c : In c (strip_of p s) -> In c s.
Proof. destruct (strip_of_split p s) as (a & b & E & _). intro H. rewrite E. rewrite !in_app_iff. auto. Qed.
Lemma In_strip_back p s c : In c s -> p c = false -> In c (strip_of p s).
Proof.
  destruct (strip_of_split p s) as (a & b & E & A & B). intros H P. rewrite E, !in_app_iff in H.
  rewrite forallb_forall in A, B. destruct H as [H|[H|H]]; auto.
  - apply A in H. congruence.
  - apply B in H. congruence.
Qed.
Lemma has_dot_iff s : has_dot s = true <-> In "."%char s.
Proof.
  unfold has_dot. rewrite existsb_exists. unfold is_dot. split.
  - intros (c & I & E). apply Ascii.eqb_eq in E. now subst.
  - intro I. exists "."%char. auto.
Qed.
Lemma float_has_dot d q : float_token d q -> has_dot d = true.
Proof.
  intros (g & a & f & e & _ & _ & _ & _ & E & _). apply has_dot_iff. apply (In_strip is_ws). change (strip_of is_ws d) with (strip d).
  rewrite E, !in_app_iff. right. right. now left.
Qed.
Lemma int_no_dot d z : int_token d z -> has_dot d = false.
Proof.
  intros (g & s & sg & l & E & G & D & _). destruct (has_dot d) eqn:H; [|reflexivity]. exfalso.
  apply has_dot_iff in H. apply (In_strip_back is_ws) in H; [|reflexivity].
  change (strip_of is_ws d) with (strip d) in H. rewrite E, in_app_iff in H. destruct H as [H|H].
  - destruct G; simpl in H; intuition discriminate.
  - destruct (digits_chars _ _ D _ H) as [?|[x D']]; [discriminate|]. apply digit_not in D'. tauto.
Qed.

Definition spells (w : string) (d : str) : Prop := lower d = lit w.
Definition number_token (d : str) : Prop := (exists z, int_token d z) \/ (exists q, float_token d q).

Lemma convert_iff s : let d := strip_of is_bracket s in
  (forall z, convert s = DInt z <-> int_token d z) /\
  (forall q, convert s = DFloat q <-> float_token d q) /\
  (forall b, convert s = DBool b <-> spells (if b then "true" else "false") d) /\
  (forall t, convert s = DStr t <-> t = d /\ ~ number_token d /\ ~ spells "true" d /\ ~ spells "false" d).
Proof.
  cbv zeta. unfold convert. set (d := strip_of is_bracket s).
  assert (LW : forall w, (w = "true" \/ w = "false")%string -> spells w d -> ~ number_token d).
  { intros w W S. unfold spells in S.
    assert (A : forall c, In c d -> In (lower1 c) (lit w)) by (intros c I; rewrite <- S; now apply in_map).
    assert (ND : forall c x, In c d -> ~ digit c x).
    { intros c x I D. apply A in I. destruct D as [D ->].
      assert (x = 0 \/ x = 1 \/ x = 2 \/ x = 3 \/ x = 4 \/ x = 5 \/ x = 6 \/ x = 7 \/ x = 8 \/ x = 9)%Z by lia.
      destruct W as [-> | ->]; intuition (subst; simpl in I; intuition discriminate). }
    intros [[z (g & t & sg & l & E & G & D & _)]|[q Q]].
    - destruct (digits_head _ _ D) as (c & x & r & -> & X). apply (ND c x); [|exact X].
      apply (In_strip is_ws). change (strip_of is_ws d) with (strip d). rewrite E, in_app_iff. right. now left.
    - apply float_has_dot, has_dot_iff in Q. apply A in Q. destruct W as [-> | ->]; simpl in Q; intuition discriminate. }
  assert (B : forall x, x = bool_or_str d ->
     (forall z, x <> DInt z) /\ (forall q, x <> DFloat q) /\
     (forall b, x = DBool b <-> spells (if b then "true" else "false") d) /\
     (forall t, x = DStr t <-> t = d /\ ~ spells "true" d /\ ~ spells "false" d)).
  { intros x ->. unfold bool_or_str, spells.
    destruct (str_eqb (lower d) (lit "true")) eqn:T; [apply str_eqb_eq in T|apply str_eqb_neq in T].
    - repeat split; try discriminate; try tauto.
      + intros [= <-]. exact T.
      + destruct b; [reflexivity|]. rewrite T. discriminate.
    - destruct (str_eqb (lower d) (lit "false")) eqn:F; [apply str_eqb_eq in F|apply str_eqb_neq in F].
      + repeat split; try discriminate; try tauto.
        * intros [= <-]. exact F.
        * destruct b; [tauto|reflexivity].
      + repeat split; try discriminate; try tauto.
        * destruct b; tauto.
        * congruence.
        * intros [-> _]. reflexivity. }
  destruct (has_dot d) eqn:H.
  - assert (NI : forall z, ~ int_token d z) by (intros z I; apply int_no_dot in I; congruence).
    destruct (py_float d) as [q|] eqn:P.
    + apply py_float_iff in P. split; [intro z; split; [discriminate|intro I; now apply NI in I]|].
      split; [|split].
      * intro q'. rewrite <- py_float_iff. apply py_float_iff in P. rewrite P. split; congruence.
      * intro b. split; [discriminate|]. intro S. exfalso. eapply LW; [|exact S|right; eauto]. destruct b; auto.
      * intro t. split; [discriminate|]. intros (_ & N & _). exfalso. apply N. right. eauto.
    + assert (NF : forall q, ~ float_token d q) by (intros q I; apply py_float_iff in I; congruence).
      destruct (B _ eq_refl) as (B1 & B2 & B3 & B4).
      split; [intro z; split; intro I; [now apply B1 in I|now apply NI in I]|].
      split; [intro q; split; intro I; [now apply B2 in I|now apply NF in I]|].
      split; [exact B3|]. intro t. rewrite B4. unfold number_token. split; [|tauto].
      intros (E & S). split; [exact E|]. split; [|exact S]. intros [[z I]|[q I]]; [now apply NI in I|now apply NF in I].
  - assert (NF : forall q, ~ float_token d q) by (intros q I; apply float_has_dot in I; congruence).
    destruct (py_int d) as [z|] eqn:P.
    + apply py_int_iff in P. split; [|split; [intro q; split; [discriminate|intro I; now apply NF in I]|split]].
      * intro z'. rewrite <- py_int_iff. apply py_int_iff in P. rewrite P. split; congruence.
      * intro b. split; [discriminate|]. intro S. exfalso. eapply LW; [|exact S|left; eauto]. destruct b; auto.
      * intro t. split; [discriminate|]. intros (_ & N & _). exfalso. apply N. left. eauto.
    + assert (NI : forall z, ~ int_token d z) by (intros z I; apply py_int_iff in I; congruence).
      destruct (B _ eq_refl) as (B1 & B2 & B3 & B4).
      split; [intro z; split; intro I; [now apply B1 in I|now apply NI in I]|].
      split; [intro q; split; intro I; [now apply B2 in I|now apply NF in I]|].
      split; [exact B3|]. intro t. rewrite B4. unfold number_token. split; [|tauto].
      intros (E & S). split; [exact E|]. split; [|exact S]. intros [[z I]|[q I]]; [now apply NI in I|now apply NF in I].
Qed.

(** ** Printing decimals *)
Definition print (l : list Z) : str := map digit_char l.
Definition all_digits (l : list Z) : Prop := Forall (fun d => 0 <= d <= 9)%Z l.
Definition minus (neg : bool) : str := if neg then ["-"%char] else [].
Definition sgn (neg : bool) : Z := if neg then (-1)%Z else 1%Z.

Lemma print_digits l : all_digits l -> l <> [] -> digits (print l) l.
Proof.
  induction 1 as [|d l D L IH]; [congruence|]. intros _. destruct l as [|x l].
  - now repeat constructor.
  - constructor; [now split|]. apply IH. discriminate.
Qed.
Lemma minus_signed neg : signed (minus neg) (sgn neg).
Proof. destruct neg; constructor. Qed.

(** a token whose first and last characters are neither brackets nor white space is not changed by stripping *)
Lemma strip_ends p s : (match s with c :: _ => p c = false | [] => True end) ->
  (match rev s with c :: _ => p c = false | [] => True end) -> strip_of p s = s.
Proof.
  intros A B. unfold strip_of. rewrite (drop_while_none p s) by (destruct s; [reflexivity|now rewrite A]).
  rewrite (drop_while_none p (rev s)) by (destruct (rev s); [reflexivity|now rewrite B]). apply rev_involutive.
Qed.

Definition num_char (c : ascii) : bool :=
  match digit_val c with Some _ => true | None => Ascii.eqb c "-" || Ascii.eqb c "." || Ascii.eqb c "e" end.
Lemma num_char_ok c : num_char c = true -> is_ws c = false /\ is_bracket c = false.
Proof.
  unfold num_char. destruct (digit_val c) eqn:E.
  - intros _. apply digit_val_iff, digit_not in E. tauto.
  - rewrite !orb_true_iff, !Ascii.eqb_eq. intros [[->| ->]| ->]; split; reflexivity.
Qed.
Lemma num_strip s : forallb num_char s = true -> strip_of is_bracket s = s /\ strip s = s.
Proof.
  intro H. rewrite forallb_forall in H.
  assert (A : forall c, In c s -> is_ws c = false /\ is_bracket c = false) by (intros; now apply num_char_ok, H).
  assert (K : forall p, (forall c, In c s -> p c = false) -> strip_of p s = s).
  { intros p P. apply strip_ends.
    - destruct s as [|c t]; [exact I|]. apply P. now left.
    - destruct (rev s) as [|c t] eqn:E; [exact I|]. apply P. apply in_rev. rewrite E. now left. }
  split; apply K; intros c I; now apply A in I.
Qed.
Lemma print_num l : all_digits l -> forallb num_char (print l) = true.
Proof.
  intro H. rewrite forallb_forall. intros c I. apply in_map_iff in I as (d & <- & I).
  unfold all_digits in H. rewrite Forall_forall in H. unfold num_char. now rewrite digit_val_char by auto.
Qed.
Lemma minus_num neg : forallb num_char (minus neg) = true.
Proof. destruct neg; reflexivity. Qed.

Lemma convert_int neg l : all_digits l -> l <> [] -> convert (minus neg ++ print l) = DInt (sgn neg * value_of l).
Proof.
  intros A N.
  assert (H : forallb num_char (minus neg ++ print l) = true) by (rewrite forallb_app, minus_num, print_num; auto).
  destruct (num_strip _ H) as [S1 S2]. apply (proj1 (convert_iff _)). rewrite S1. unfold int_token. rewrite S2.
  exists (minus neg), (print l), (sgn neg), l. repeat split; [apply minus_signed|now apply print_digits].
Qed.
Lemma convert_float neg a f : all_digits a -> all_digits f -> a ++ f <> [] ->
  convert (minus neg ++ print a ++ "."%char :: print f) =
  DFloat (inject_Z (sgn neg * value_of (a ++ f)) * Qpower 10 (0 - Z.of_nat (length f))).
Proof.
  intros A F N.
  assert (H : forallb num_char (minus neg ++ print a ++ "."%char :: print f) = true).
  { rewrite !forallb_app. simpl. rewrite minus_num, !print_num; auto. }
  destruct (num_strip _ H) as [S1 S2]. apply (proj1 (proj2 (convert_iff _))). rewrite S1. unfold float_token. rewrite S2.
  exists (minus neg), (print a), (print f), [], (sgn neg), a, f, 0%Z.
  assert (O : forall l, all_digits l -> opt_dig (print l) l).
  { intros [|x l] L; [constructor|]. constructor. now apply print_digits. }
  rewrite app_nil_r. repeat split; auto using minus_signed. constructor.
Qed.

Lemma every_int z : exists neg l, all_digits l /\ l <> [] /\ z = (sgn neg * value_of l)%Z.
Proof.
  assert (P : forall n : nat, forall z, (0 <= z)%Z -> (Z.to_nat z <= n) -> exists l, all_digits l /\ l <> [] /\ z = value_of l).
  { induction n as [|n IH]; intros y Y H.
    - exists [0%Z]. replace y with 0%Z by lia. split; [constructor; [lia|constructor]|]. split; [discriminate|reflexivity].
    - destruct (Z.ltb_spec y 10).
      + exists [y]. split; [constructor; [lia|constructor]|]. split; [discriminate|]. unfold value_of. cbn [fold_left]. lia.
      + destruct (IH (y / 10)%Z) as (l & L & N & E).
        * apply Z.div_pos; lia.
        * assert (y / 10 < y)%Z by (apply Z.div_lt; lia). pose proof (Z.div_pos y 10). lia.
        * exists (l ++ [(y mod 10)%Z]). split; [|split].
          -- apply Forall_app. split; [exact L|]. constructor; [|constructor]. pose proof (Z.mod_pos_bound y 10). lia.
          -- destruct l; discriminate.
          -- rewrite value_app, <- E. unfold value_of. cbn [fold_left length]. pose proof (Z.div_mod y 10).
             change (10 ^ Z.of_nat 1)%Z with 10%Z. lia. }
  destruct (Z.ltb_spec z 0).
  - destruct (P (Z.to_nat (- z)) (- z)%Z) as (l & L & N & E); [lia|lia|]. exists true, l. repeat split; auto. unfold sgn. lia.
  - destruct (P (Z.to_nat z) z) as (l & L & N & E); [lia|lia|]. exists false, l. repeat split; auto. unfold sgn. lia.
Qed.

(** ** The vehicle deck *)
(** an item as it can be written into a line: not empty, no comma or '#', no white space at its ends *)
Definition item (s : str) : Prop :=
  s <> [] /\ strip s = s /\ Forall (fun c => is_comma c = false /\ is_hash c = false) s.

Definition all_ws (s : str) : Prop := forallb is_ws s = true.

(** a line: items separated by commas, each surrounded by any white space, with any number of empty cells,
    and an optional comment *)
Inductive cell := Item (a s b : str) | Blank (a : str).
Definition cell_text (c : cell) : str := match c with Item a s b => a ++ s ++ b | Blank a => a end.
Definition cell_ok (c : cell) : Prop :=
  match c with Item a s b => all_ws a /\ item s /\ all_ws b | Blank a => all_ws a end.
Definition cell_items (c : cell) : list str := match c with Item _ s _ => [s] | Blank _ => [] end.
Fixpoint line_text (cs : list cell) : str :=
  match cs with [] => [] | [c] => cell_text c | c :: r => cell_text c ++ ","%char :: line_text r end.
Definition comment (o : option str) : str := match o with None => [] | Some t => "#"%char :: t end.

Lemma ws_clean c : is_ws c = true -> is_comma c = false /\ is_hash c = false.
Proof.
  intro H. split; [unfold is_comma|unfold is_hash]; apply Ascii.eqb_neq; intros ->; discriminate.
Qed.
Lemma cell_clean c : cell_ok c -> Forall (fun x => is_comma x = false /\ is_hash x = false) (cell_text c).
Proof.
  assert (W : forall a, all_ws a -> Forall (fun x => is_comma x = false /\ is_hash x = false) a).
  { intros a A. unfold all_ws in A. rewrite forallb_forall in A. apply Forall_forall. auto using ws_clean. }
  destruct c as [a s b|a]; simpl; [|auto]. intros (A & (_ & _ & S) & B). rewrite !Forall_app. auto.
Qed.
Lemma split_on_clean p s : Forall (fun c => p c = false) s -> forall cur, split_on p cur s = [rev cur ++ s].
Proof.
  induction 1 as [|c s C S IH]; intro cur; simpl; [now rewrite app_nil_r|]. rewrite C, IH. simpl. now rewrite <- app_assoc.
Qed.
Lemma split_on_app p s c r : Forall (fun c => p c = false) s -> p c = true ->
  forall cur, split_on p cur (s ++ c :: r) = (rev cur ++ s) :: split_on p [] r.
Proof.
  induction 1 as [|x s C S IH]; intros P cur; simpl.
  - now rewrite P, app_nil_r.
  - rewrite C, IH by assumption. simpl. now rewrite <- app_assoc.
Qed.
Lemma cut_hash_text l o : Forall (fun c => is_hash c = false) l -> fst (cut_hash (l ++ comment o)) = l.
Proof.
  induction 1 as [|c l C L IH]; simpl.
  - destruct o; reflexivity.
  - rewrite C. simpl. now rewrite IH.
Qed.
Lemma line_clean cs : Forall cell_ok cs -> Forall (fun c => is_hash c = false) (line_text cs).
Proof.
  assert (K : forall c, cell_ok c -> Forall (fun x => is_hash x = false) (cell_text c)).
  { intros c H. eapply Forall_impl; [|apply (cell_clean c H)]. simpl. tauto. }
  induction 1 as [|c cs C CS IH]; [constructor|]. destruct cs as [|c' cs]; [simpl; auto|].
  change (Forall (fun c => is_hash c = false) (cell_text c ++ ","%char :: line_text (c' :: cs))).
  apply Forall_app. split; [auto|]. constructor; [reflexivity|exact IH].
Qed.

Lemma strip_item a s b : all_ws a -> item s -> all_ws b -> strip (a ++ s ++ b) = s.
Proof.
  intros A (N & S & _) B. unfold strip in *. rewrite <- S at 2.
  unfold strip_of at 1. rewrite drop_while_app by exact A.
  assert (H : forall t, t <> [] -> strip_of is_ws t = t -> (match t with c :: _ => is_ws c = false | [] => True end) /\
                                 match rev t with c :: _ => is_ws c = false | [] => True end).
  { intros t NT E. destruct (strip_of_split is_ws t) as (x & y & Ex & X & Y).
    split.
    - destruct t as [|c t]; [exact I|]. destruct (is_ws c) eqn:W; [|reflexivity]. exfalso.
      unfold strip_of in E. simpl in E. rewrite W in E.
      apply (f_equal (@length ascii)) in E. rewrite rev_length in E. simpl in E.
      assert (D : forall p l, length (drop_while p l) <= length l) by (intros p l; induction l as [|z l IH]; simpl; [lia|destruct (p z); simpl; lia]).
      pose proof (D is_ws (rev (drop_while is_ws t))). rewrite rev_length in H. pose proof (D is_ws t). lia.
    - destruct (rev t) as [|c r] eqn:R; [exact I|]. destruct (is_ws c) eqn:W; [|reflexivity]. exfalso.
      assert (D : forall p l, length (drop_while p l) <= length l) by (intros p l; induction l as [|z l IH]; simpl; [lia|destruct (p z); simpl; lia]).
      assert (L : length (drop_while is_ws (rev (drop_while is_ws t))) = length t).
      { rewrite <- E at 2. unfold strip_of. now rewrite rev_length. }
      assert (F : drop_while is_ws t = t).
      { destruct t as [|z t]; [reflexivity|]. simpl in *. destruct (is_ws z) eqn:Wz; [|reflexivity]. exfalso.
        pose proof (D is_ws (rev (drop_while is_ws t))). rewrite rev_length in H. pose proof (D is_ws t). lia. }
      rewrite F, R in L. simpl in L. rewrite W in L. pose proof (D is_ws r).
      apply (f_equal (@length ascii)) in R. rewrite rev_length in R. simpl in R. lia. }
  destruct (H s N S) as [H1 H2]. destruct s as [|c s]; [congruence|].
  rewrite (drop_while_none is_ws ((c :: s) ++ b)) by (simpl; now rewrite H1).
  rewrite rev_app_distr, drop_while_app by (rewrite forallb_rev; exact B).
  unfold strip_of. rewrite (drop_while_none is_ws (c :: s)) by (now rewrite H1). reflexivity.
Qed.
Lemma strip_ws a : all_ws a -> strip a = [].
Proof.
  intro A. unfold strip, strip_of. rewrite <- (app_nil_r a), drop_while_app by exact A. reflexivity.
Qed.

Lemma items_line cs o : Forall cell_ok cs -> items (line_text cs ++ comment o) = flat_map cell_items cs.
Proof.
  intro H. unfold items. rewrite cut_hash_text by now apply line_clean.
  assert (C : forall c, cell_ok c -> filter nonempty [strip (cell_text c)] = cell_items c).
  { intros [a s b|a]; simpl.
    - intros (A & S & B). rewrite strip_item by assumption. destruct S as (N & _). destruct s; [congruence|reflexivity].
    - intro A. now rewrite strip_ws. }
  assert (P : forall c, cell_ok c -> Forall (fun x => is_comma x = false) (cell_text c)).
  { intros c K. eapply Forall_impl; [|apply (cell_clean c K)]. simpl. tauto. }
  induction H as [|c cs K KS IH]; [reflexivity|]. destruct cs as [|c' cs].
  - simpl line_text. rewrite split_on_clean by auto. simpl map. rewrite C by assumption. simpl. now rewrite app_nil_r.
  - change (line_text (c :: c' :: cs)) with (cell_text c ++ ","%char :: line_text (c' :: cs)).
    rewrite split_on_app by (auto; reflexivity). cbn [map rev app].
    change (filter nonempty (?x :: ?l)) with (filter nonempty ([x] ++ l)). rewrite filter_app, C by assumption.
    rewrite IH. reflexivity.
Qed.
