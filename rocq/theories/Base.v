(** Shared vocabulary: Python exceptions as values and Python dictionaries.

    A call that raises is [Err e].  A Python [dict] is an insertion-ordered association list:
    assigning to an existing key keeps its position, assigning to a new key appends, [del] removes
    (Python language reference, dict; relied on throughout /repo/aviary). *)
From Coq Require Export String List Bool Arith ZArith Lia.
Export ListNotations.
Open Scope string_scope.
Open Scope list_scope.
Open Scope nat_scope.

Inductive exn : Type :=
| KeyError | TypeError | ValueError | IndexError | AttributeError | NameError
| UserWarning | ZeroDivisionError | UnboundLocalError | RuntimeError | NotImplementedError
| AnalysisError.

Inductive res (A : Type) : Type :=
| Ok (a : A)
| Err (e : exn).
Arguments Ok {A} a.
Arguments Err {A} e.

Definition rbind {A B} (r : res A) (f : A -> res B) : res B :=
  match r with Ok a => f a | Err e => Err e end.

Definition is_ok {A} (r : res A) : bool := match r with Ok _ => true | Err _ => false end.

(** ** Dictionaries *)
Section Dict.
  Context {A : Type}.
  Definition dict := list (string * A).

  Fixpoint dget (k : string) (d : dict) : option A :=
    match d with
    | [] => None
    | (k', v) :: d' => if String.eqb k k' then Some v else dget k d'
    end.

  Fixpoint dset (k : string) (v : A) (d : dict) : dict :=
    match d with
    | [] => [(k, v)]
    | (k', v') :: d' => if String.eqb k k' then (k', v) :: d' else (k', v') :: dset k v d'
    end.

  Fixpoint ddel (k : string) (d : dict) : dict :=
    match d with
    | [] => []
    | (k', v') :: d' => if String.eqb k k' then d' else (k', v') :: ddel k d'
    end.

  Definition dkeys (d : dict) : list string := map fst d.
  Definition dmem (k : string) (d : dict) : bool :=
    match dget k d with Some _ => true | None => false end.
End Dict.
Arguments dict A : clear implicits.

(** ** Facts about dictionaries used by several developments *)
Section DictFacts.
  Context {A : Type}.
  Implicit Types (d : dict A) (k : string).

  Lemma dget_dset_same k v d : dget k (dset k v d) = Some v.
  Proof.
    induction d as [|[k' v'] d IH]; simpl.
    - now rewrite String.eqb_refl.
    - destruct (String.eqb k k') eqn:E; simpl; rewrite E; [reflexivity|exact IH].
  Qed.

  Lemma dget_dset_other k k2 v d : k2 <> k -> dget k2 (dset k v d) = dget k2 d.
  Proof.
    intro N. induction d as [|[k' v'] d IH]; simpl.
    - apply String.eqb_neq in N. now rewrite N.
    - destruct (String.eqb k k') eqn:E; simpl.
      + apply String.eqb_eq in E; subst k'.
        apply String.eqb_neq in N. now rewrite N.
      + destruct (String.eqb k2 k'); [reflexivity|exact IH].
  Qed.

  Lemma dget_dset k k2 v d :
    dget k2 (dset k v d) = if String.eqb k2 k then Some v else dget k2 d.
  Proof.
    destruct (String.eqb k2 k) eqn:E.
    - apply String.eqb_eq in E; subst. apply dget_dset_same.
    - apply dget_dset_other. now apply String.eqb_neq.
  Qed.

  Lemma dget_In k d v : dget k d = Some v -> In (k, v) d.
  Proof.
    induction d as [|[k' v'] d IH]; simpl; [discriminate|].
    destruct (String.eqb k k') eqn:E.
    - apply String.eqb_eq in E; subst. intros [= ->]. now left.
    - intro H. right. now apply IH.
  Qed.

  Lemma dget_None_keys k d : dget k d = None <-> ~ In k (dkeys d).
  Proof.
    induction d as [|[k' v'] d IH]; simpl; [tauto|].
    destruct (String.eqb k k') eqn:E.
    - apply String.eqb_eq in E; subst. split; [discriminate|]. intro H; exfalso; tauto.
    - apply String.eqb_neq in E. rewrite IH. split; [intros H [H1|H1]|]; try tauto. congruence.
  Qed.

  Lemma dget_Some_keys k d : (exists v, dget k d = Some v) <-> In k (dkeys d).
  Proof.
    destruct (dget k d) as [v|] eqn:E.
    - split; [|eauto]. intros _. destruct (in_dec string_dec k (dkeys d)) as [H|H]; [exact H|].
      apply dget_None_keys in H. congruence.
    - apply dget_None_keys in E. split; [intros [v Hv]; discriminate|tauto].
  Qed.

  Lemma dget_NoDup_In k v d : NoDup (dkeys d) -> In (k, v) d -> dget k d = Some v.
  Proof.
    induction d as [|[k' v'] d IH]; simpl; [tauto|].
    intros ND [H|H].
    - injection H as -> ->. now rewrite String.eqb_refl.
    - inversion ND as [|? ? Hn Hd]; subst.
      destruct (String.eqb k k') eqn:E.
      + apply String.eqb_eq in E; subst. exfalso. apply Hn.
        change k' with (fst (k', v)). now apply in_map.
      + now apply IH.
  Qed.

  Lemma dkeys_dset_mem k v d : In k (dkeys d) -> dkeys (dset k v d) = dkeys d.
  Proof.
    induction d as [|[k' v'] d IH]; simpl; [tauto|].
    destruct (String.eqb k k') eqn:E; simpl; [reflexivity|].
    intros [H|H].
    - subst. rewrite String.eqb_refl in E; discriminate.
    - f_equal. now apply IH.
  Qed.

  Lemma dset_new k v d : ~ In k (dkeys d) -> dset k v d = d ++ [(k, v)].
  Proof.
    induction d as [|[k' v'] d IH]; simpl; [reflexivity|].
    intro H. destruct (String.eqb k k') eqn:E.
    - apply String.eqb_eq in E. subst. tauto.
    - f_equal. apply IH. tauto.
  Qed.

  Lemma dkeys_dset_new k v d : ~ In k (dkeys d) -> dkeys (dset k v d) = dkeys d ++ [k].
  Proof.
    intro H. rewrite dset_new by exact H. unfold dkeys. now rewrite map_app.
  Qed.

  Lemma dkeys_dset_In k k2 v d : In k2 (dkeys (dset k v d)) <-> k2 = k \/ In k2 (dkeys d).
  Proof.
    rewrite <- !dget_Some_keys, dget_dset.
    destruct (String.eqb k2 k) eqn:E.
    - apply String.eqb_eq in E. split; [tauto|]. eauto.
    - apply String.eqb_neq in E. tauto.
  Qed.

  Lemma NoDup_dset k v d : NoDup (dkeys d) -> NoDup (dkeys (dset k v d)).
  Proof.
    intro ND. destruct (in_dec string_dec k (dkeys d)) as [H|H].
    - now rewrite dkeys_dset_mem.
    - rewrite dkeys_dset_new by exact H.
      apply (NoDup_Add (a := k) (l := dkeys d)); [|tauto].
      rewrite <- (app_nil_r (dkeys d)) at 1. apply Add_app.
  Qed.

  Lemma dkeys_ddel_sub k k2 d : In k2 (dkeys (ddel k d)) -> In k2 (dkeys d).
  Proof.
    induction d as [|[k' v'] d IH]; simpl; [tauto|].
    destruct (String.eqb k k'); simpl; tauto.
  Qed.

  Lemma NoDup_ddel k d : NoDup (dkeys d) -> NoDup (dkeys (ddel k d)).
  Proof.
    induction d as [|[k' v'] d IH]; simpl; [tauto|].
    intro ND; inversion ND as [|? ? Hn Hd]; subst.
    destruct (String.eqb k k'); simpl; [exact Hd|].
    constructor; [|now apply IH]. intro H. apply Hn. now apply dkeys_ddel_sub in H.
  Qed.

  Lemma dget_ddel_other k k2 d : k2 <> k -> dget k2 (ddel k d) = dget k2 d.
  Proof.
    intro N. induction d as [|[k' v'] d IH]; simpl; [reflexivity|].
    destruct (String.eqb k k') eqn:E; simpl.
    - apply String.eqb_eq in E; subst k'.
      apply String.eqb_neq in N. now rewrite N.
    - destruct (String.eqb k2 k'); [reflexivity|exact IH].
  Qed.

  Lemma dget_ddel_same k d : NoDup (dkeys d) -> dget k (ddel k d) = None.
  Proof.
    induction d as [|[k' v'] d IH]; simpl; [reflexivity|].
    intro ND; inversion ND as [|? ? Hn Hd]; subst.
    destruct (String.eqb k k') eqn:E; simpl.
    - apply String.eqb_eq in E; subst. now apply dget_None_keys.
    - rewrite E. now apply IH.
  Qed.

  Lemma ddel_absent k d : ~ In k (dkeys d) -> ddel k d = d.
  Proof.
    induction d as [|[k' v'] d IH]; simpl; [reflexivity|].
    intro H. destruct (String.eqb k k') eqn:E.
    - apply String.eqb_eq in E. subst. tauto.
    - f_equal. apply IH. tauto.
  Qed.

  Lemma dkeys_length d : length (dkeys d) = length d.
  Proof. apply map_length. Qed.
End DictFacts.
