(** Positivity of the distributed propulsion factors, and their use in the automation of [Comp]. *)
From Coq Require Import Reals Lra.
From Coquelicot Require Import Coquelicot.
From Verif Require Import Base Calc Comp MassDistModel.
Local Open Scope R_scope.

Lemma count_factor_pos n : 0 < n -> 0 < distributed_engine_count_factor n.
Proof.
  intro N. unfold distributed_engine_count_factor. destruct (ltb 4 n) eqn:E; [|exact N].
  apply ltb_true in E. assert (0 < atan ((n - 4) / 3)); [|lra].
  rewrite <- atan_0. apply atan_increasing. apply Rdiv_lt_0_compat; lra.
Qed.

Lemma count_factor_small n : n <= 4 -> distributed_engine_count_factor n = n.
Proof. intro N. unfold distributed_engine_count_factor. destruct (ltb 4 n) eqn:E; [|reflexivity]. apply ltb_true in E. lra. Qed.

Lemma count_factor_16 : 0 < distributed_engine_count_factor 16 < 8.
Proof.
  split; [apply count_factor_pos; lra|]. unfold distributed_engine_count_factor. rewrite ltb_intro by lra.
  destruct (atan_bound ((16 - 4) / 3)) as [_ B]. pose proof PI_4. lra.
Qed.

(** The factors depend on options only: they are treated as positive numbers. *)
Global Opaque distributed_engine_count_factor.
Ltac facts ::=
  repeat match goal with
  | |- context [distributed_engine_count_factor ?n] =>
      let H := fresh "F" in
      first [assert (H : 0 < distributed_engine_count_factor n) by (apply count_factor_pos; assumption); revert H
            | idtac];
      generalize (distributed_engine_count_factor n); intros
  end.
Ltac unit_facts ::= rewrite ?count_factor_small by lra.
