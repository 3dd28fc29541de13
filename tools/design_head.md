# Formal model of `fluids` in Rocq: design

## What is modelled, and how

* **Language.** Rocq (Coq 8.16.1). Every model file is `rocq/theories/Model_*.v`; proofs are in `Proofs_*.v`;
  the theorems that count are in `Properties_*.v`, each followed by `Print Assumptions`, with the
  small specification vocabulary in `Spec_*.v` (or in the properties file itself) so that the statement can be read without the model.
* **Functions.** Each Python function is a total Gallina function of the same shape, one branch per `if`,
  one structural recursion per loop. A `for i in range(n)` loop is recursion on a `nat`; a loop over a list
  is recursion over that list. Nothing is bounded: lists, matrices and iteration counts are arbitrary.
* **Exceptions.** `result A := Ok a | Err e` with one constructor per Python exception class
  (`ValueError`, `ZeroDivisionError`, `TypeError`, `IndexError`, `KeyError`, `NameError`, `UnboundLocalError`,
  `AttributeError`, `OverflowError`, `NotImplementedError`, and the library's own solver exceptions).
  `x / y` on a divisor equal to zero is `Err ZeroDivisionError`; `sqrt`, `log`, `acos`, … outside the
  domain are `Err ValueError`; a list index out of range is `Err IndexError`. Nothing relies on Rocq's totalised division.
* **`None` arguments** are `option`.
* **Callables** (objective functions handed to solvers, damping functions, …) are universally quantified
  functions, possibly returning `Err`; a function handed to a solver may also be a stateful history where the property is about call order.
* **Numbers.** Two kinds of model:
  1. *generic*: over the record `Num A` (zero, one, `+ - * /`, comparison tests, literals). Theorems which need no algebra
     are proved for **every** instance, hence also for IEEE binary64 with NaN, infinities and rounding;
     the algebraic ones are proved for the instance `NumR` (Coq's real numbers); the instance `NumQ` is used to run the models (`vm_compute` examples).
  2. *real*: transcendental formula code, directly on `R`, with the domain errors above.
* **Floating point.** Theorems on `R` say what the algorithm computes in exact arithmetic. Rounding, overflow and NaN
  are *not* modelled in those (except where a property says so). This is the main gap to the running code.

## Trusted base

* The Coq 8.16.1 kernel (and its `vm_compute`), no plugin, no axiom of our own, no kernel check switched off.
* What `Print Assumptions` reports for the theorems: theorems over an arbitrary `Num`, over `Q`, `Z`, `nat`, lists and strings are
  "Closed under the global context"; theorems on `R` use the standard library's axioms for the real numbers:
  `ClassicalDedekindReals.sig_forall_dec`, `ClassicalDedekindReals.sig_not_dec`, `FunctionalExtensionality.functional_extensionality_dep`,
  and (where Coquelicot or classical real analysis is used) `Classical_Prop.classic`, plus, where Coquelicot's limits are used, standard-library choice axioms as printed.
* That the Gallina text transcribes the Python text cited in the comment above each definition. The seeded-bug log
  (`seeded/LOG.jsonl`) records the experiments showing that theorems fail when the model is changed as a bug would.
* Not modelled: numpy/numba/scipy variants (`fluids.numba`, `fluids.vectorized`), unit handling (`fluids.units`),
  NRLMSISE-00, SPA, design climate (network and file access), plotting.
