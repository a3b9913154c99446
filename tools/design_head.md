# Formal model of Aviary: design and trusted base

This directory contains a Coq 8.16.1 model of parts of OpenMDAO/Aviary (the Python source is read
as text from /repo at its pinned commit and is neither run nor changed) together with machine-checked
theorems. `properties.jsonl` lists the properties, `MANIFEST.json` maps them to theorems,
`rocq/theories` has the development, `seeded/LOG.jsonl` logs the wrong-program experiments.

## Layout

* `*Model.v`: definitions only. Each carries a comment citing the file and lines in /repo that it
  models and, where it simplifies, says so.
* `*Spec.v` (or the head of the proof file): small specifications that do not use the model's helpers.
* `*Proofs.v`: lemmas.
* `*Props.v`: the property theorems, each closed by `exact lemma`, with `Print Assumptions` beneath,
  and `Example`s showing that the hypotheses are met by concrete non-trivial cases.

## Conventions

* A Python exception is a value (`Err e`); a mutated object becomes a returned new value, except
  where the property is about aliasing, in which case there is an explicit heap.
* Python `dict` is an insertion-ordered association list with unique keys.
* Floating point numbers are modelled as mathematical reals (`R`) in the component models and as
  rationals (`Q`) or integers (`Z`) in the decision logic. Rounding, overflow, NaN and infinities are not
  modelled; division by zero is never relied on: theorems carry the non-zero hypotheses.
* numpy arrays of shape (nn,) whose operation is element-wise are modelled by the function of one
  element; vector operations that mix elements (cumsum, dot, sum) are modelled over lists.

## Trusted base

* Coq's kernel (8.16.1) and the reading of the Python source by the author.
* Axioms reported by `Print Assumptions` (see the table at the end): discrete files are closed under
  the global context; files over the reals use only the standard library's axioms
  `ClassicalDedekindReals.sig_forall_dec`, `ClassicalDedekindReals.sig_not_dec`,
  `FunctionalExtensionality.functional_extensionality_dep` and where Coquelicot
  needs it `Classical_Prop.classic` or `ClassicalEpsilon.constructive_indefinite_description`.
* OpenMDAO, dymos, numpy are outside the model. What is assumed of them is written next to the
  definition that depends on it (for example the affine unit-conversion rule).
