# Formal model of SPINAS (neilthec/spinas) in Rocq

## What is modelled

The library (`/repo/include`, `/repo/source`) is modelled function by function, and
the Standard Model process classes (`/repo/SM`) by a deep embedding generated from
their sources.  Every definition cites the lines it models.

### Arithmetic

All library code is written against a record `Num` (theories/Scalar.v) holding the
carrier of `ldouble`, the carrier of `cdouble`, and every operation the code calls
(`+ - * /`, `sqrt`, `abs`, `cos`, `sin`, `atan2`, comparisons, complex arithmetic,
`polar`, `conj`, ...).  It is a plain record, not a module type.

* *Generic* theorems are quantified over every `Num`: they assume no algebraic law,
  so they hold for IEEE long double, double, or anything else.  All caching,
  aliasing, history, exception and control-flow properties are of this kind.
* *Real* theorems are about the instance `RN eps` (exact reals, Coquelicot complex
  numbers, arbitrary tolerance eps >= 0).  All physics identities are of this kind.
  They say the formulas are right; they do not bound rounding errors.
* *IEEE* theorems are about an instance built with Flocq; used for the statements
  that are about NaN and rounding.

### Outcomes

`outcome A := Ok a | Exn e | UB u`.  C++ exceptions are `Exn`; undefined behaviour
(reading an indeterminate value, null/dangling pointer, out-of-range index, signed
overflow, over-wide shift, `std::polar` with negative magnitude) is `UB`, a distinct
outcome.  A method is `state -> outcome result * state`; the state after a throw is
the state the C++ object is left in.

### Which code, where

| code | theories | what is left out |
|---|---|---|
| include/types.h, std::complex, <cmath> | Scalar.v (record `Num`), RealNum.v (exact), IEEE.v (long double, double; Flocq) | libm functions are arbitrary in the IEEE instances; rounding error is bounded for the mass-shell guard and the spinors only (FloatErr.v, RoundShell.v; C61, C62) |
| include/cvector.h, cmatrix.h, source/cvector.cpp, cmatrix.cpp | Linear.v (values), Memory.v (references, aliasing), Text.v (text output) | how the standard library prints a number |
| include/particle.h, source/particle.cpp | Particle.v | text printed by test_angles and the usage message |
| include/sproduct.h, source/sproduct.cpp | Sproduct.v, World.v (any number of particles and products sharing particles) | - |
| include/propagator.h, source/propagator.cpp | Propagator.v | - |
| include/utilities.h, source/utilities.cpp | Utilities.v, Harness.v, Strings.v | printing through std::cout; the RNG is an oracle (any sequence of numbers) |
| include/process.h, source/process.cpp | Process.v, Integers.v, Harness.v | text printed by the test drivers |
| SM/*.cpp, SM/include/*.h: the 141 process classes, and the example user-dir/eemm.cpp, here called eemmQED2 (members, constructors, set_masses, set_momenta, set_v, amp*, amp2*) | Lang.v (syntax and interpreter), SMNames.v, SM01.v .. SM12.v, SMUser.v, SMAll.v (generated by tools/translate.py) | `std::cout` lines |
| SM/*.cpp, user-dir/eemm.cpp: the functions `test_*`; SM/test.cpp: main | TestLang.v (syntax and interpreter), SMTests.v (generated by tools/tests.py) | the entries of the tables of reference data (arbitrary, 20 each); printing; `X xAmp = X(...)` builds in place (copy elision) |
| SM/CH, docs, user-dir/test.cpp, CMakeLists.txt, Makefile | not modelled | data, documentation and build files |
| implicit copy constructors of the process classes | Copies.v | destruction of the original |
| tests/particle.cpp, propagator.cpp, cvector.cpp, cmatrix.cpp | UnitTests.v | messages; Boost's bookkeeping |
| tests/sproduct.cpp | SpTests.v | messages; Boost's bookkeeping; the parameters np, spstring, resstring of test_sproduct, which it does not use |

The interpreter of Lang.v runs a process class on the library model itself: a member
`particle`, `sproduct` or `propagator` of a class is a particle, sproduct or propagator
of Particle.v, Sproduct.v and Propagator.v, caches and all.

Not modelled at all: compilation, text printed to std::cout, threads, allocation
failure, libstdc++ internals, rounding error bounds of spinor products and amplitudes.

### How the 142 classes are handled

* Pure.v defines a second machine, without caches, in which a momentum is a
  value of an abstract type; PureProofs.v proves that the model refines it
  (every result of the model is the result of the cache-free machine).
* Sym.v instantiates the cache-free machine with formal expressions, so that one run
  (by `vm_compute`, inside the kernel) says what the class computes for all inputs, in
  every arithmetic.  SMRun.v, SMTwins.v, SMMasses.v turn such runs into theorems on the
  model; SMChecks.v makes the runs for all classes.
* SMAmp2.v runs amp2 with the amplitudes left opaque, so that its value is an explicit
  combination of squared amplitudes; SymEq.v compares formal expressions; SMInv.v proves
  equations between masses held by every reachable object.
* SpinColour.v (spin configurations, averages and colour tensors of a process, from the
  names of its particles alone) and Gluons.v (structure constants) are specifications,
  written without the code.
* LangFrame.v, ReadOnly.v: which members a method can write, proved for all programs.

## Trusted base

* The kernel of Coq 8.16.1, with its virtual machine (`vm_compute`).
* The axioms listed by `Print Assumptions`, in the table at the end of this file.
* Our reading of the C++: each definition cites its source.
* tools/translate.py, which produced the syntax trees of the process classes (its output
  is readable and cites the source file).

## Plan per property

| id | property | how |
|---|---|---|
| C01 | Accessors after set_momentum behave like a fresh particle | generic Num; heap-free particle state machine; history induction (cache invariant) |
| C02 | set_mass alone takes effect on the accessors | false of the code: refutation with witness history; positive part (set_mass then set_momentum) follows from C01 |
| C03 | A rejected set_momentum leaves the particle unchanged | strong guarantee false: refutation; recovery proved from C01 |
| C04 | Mass shell guard | generic iff on the tolerance test; real instance: exact on-shell momenta always accepted |
| C05 | Usage errors of particle spinors | generic, history induction |
| C06 | umat and lmat are the slashed momentum | real instance; cos/sin of atan2 |
| C07 | Determinant of the momentum matrices is the mass squared | real instance |
| C08 | Clifford relation | real instance |
| C09 | Massless spinors factor the momentum | real instance |
| C10 | Massive spinor algebra | real instance |
| C11 | Angles reproduce the momentum | real instance |
| C12 | sproduct::v equals its definition | generic heap model; invariant 'every cache is coherent'; refinement to a pure chain function |
| C13 | Order and repetition of v calls do not matter | corollary of C12 invariant |
| C14 | Changing a momentum without update is never silently wrong | false: refutation with witness; partial: reads of the momentum matrices |
| C15 | sproduct usage errors | generic |
| C16 | Spin arguments are always validated | false: refutation with witness history |
| C17 | Products of spinor products sum to momentum dot products | real instance |
| C18 | Reversal symmetry | real instance, induction on chain length |
| C19 | Schouten identity | real instance |
| C20 | Complex conjugation of chains | real instance, induction on chain length |
| C21 | Completeness insertion | real instance |
| C22 | Momentum conservation in chains | real instance |
| C23 | Number of spin loops | Z with int overflow as UB; induction |
| C24 | Spin normalisation | real instance; induction |
| C25 | Spin index enumeration | Z shifts with UB; induction, bijection proof |
| C26 | Rotation preserves kinematics | real instance |
| C27 | Rotation is by the requested angle | false on (pi,2pi): refuted; true on [0,pi] |
| C28 | Boost preserves kinematics | real instance |
| C29 | Boost by zero velocity is the identity | refuted in an IEEE binary64/binary80 instance (Flocq): result is NaN |
| C30 | Two-to-two test kinematics | real instance |
| C31 | Propagator denominator | real instance + generic setter histories |
| C32 | Random momenta are on shell | oracle for the RNG, real instance |
| C33 | Compound matrix operators and aliasing | generic, heap cells for aliasing |
| C34 | Tolerant equality | reflexive/symmetric proved for reals; transitivity refuted; NaN non-reflexivity inverse noted |
| C35 | Index bounds | generic |
| C36 | Generators act correctly on spinors | real instance |
| C37 | Generators stay within the domain of std::polar | refuted: witness momentum; UB outcome |
| C38 | Construction never reads uninitialised memory | refuted: witness; particle(q,m) positive |
| C39 | Mathematica number strings | strings |
| C40 | The test harness counts exactly the failing points | generic; amplitude as state transformer oracle |
| C41 | Base-class set_momenta reports not implemented | generic |
| C42 | Process objects are fully initialised before use | cache-free machine with symbolic numbers (Pure.v, Sym.v): 48 classes read nothing indeterminate, all 142 end up independent of the memory found; 94 classes refuted by evaluation in strict long double |
| C43 | amp2 depends only on the last masses and momenta | proved for all 142 classes in every arithmetic: two objects with any histories, given the same momenta, answer alike, by comparing both with one symbolic run. PropsAmplitudes.v: the same for the methods that take spins |
| C44 | set_masses is equivalent to rebuilding | symbolic comparison (SMRebuild.v) of the state after set_masses with that of a new object, 131 classes; ten classes refuted by evaluating both in long double. PropsAmplitudes.v: also for the methods that take spins, in exact arithmetic. PropsStale.v: for the ten classes it holds when massW is given as at construction (eight), or masse as zero (nWWn, nnWW), by the same comparison with that mass put in; six of them never read massW, so they answer as a new object with the old massW |
| C45 | amp2 never throws on valid input | proved for all 142 classes: symbolic run with the spin tables of massive and massless legs. PropsAmplitudes.v: amp returns for every list of spins |
| C46 | amp2 is real and non-negative | corollary of C48; refuted for ggdd with momenta that do not add up (long double) |
| C47 | amp2 is Lorentz invariant | rotate_momentum and boost_momentum as SL(2,C) matrices (Lorentz.v), under which the spinors of a leg change by an SU(2) matrix or a phase; every amplitude, symbolically evaluated, is checked to be a little group covariant polynomial in spinor products (Covariant.v, Poly.v; soundness CovReal.v, CovMove.v); the sum over spins of such forms is invariant (SpinRot.v); together with C48 (PropsLorentz.v) |
| C48 | amp2 sums every spin configuration exactly once | symbolic run of amp2 with opaque amplitudes (SMAmp2.v) compared, as a linear combination of squared amplitudes and interference terms, with the explicit sum over spin configurations and colours (SpinColour.v, Gluons.v: Gell-Mann matrices and structure constants); the amplitudes of configurations which the code swaps are compared symbolically |
| C49 | e e > mu mu in QED equals the textbook formula | proved for non-zero masses: the spinors of PropsQED.v as formal variables, the sum over 16 spin configurations as a polynomial identity (ring), then kinematics; refuted for zero masses, where amp2 throws |
| C50 | Width parameters are honoured | symbolic construction and set_momenta: the width of each propagator and the denominators that use it; 31 classes refuted |
| C51 | Copying a process or particle graph is safe | false: two objects in one memory (Copies.v); induction over all programs that the calls on a copy change only caches of the particles its spinor products point to; long double witness. PropsAmplitudes.v: also for the methods that take spins |
| C52 | Random frames of the harness | real instance, RNG oracle |
| C53 | Score of the harness | generic sum; real instance for sign |
| C54 | amp2 with momenta equals set_momenta followed by amp2 | proved for eemmQED, eeeeQED, eeAA (PropsAlt.v): both methods run symbolically, the two terms equal in exact arithmetic because the propagators have no width; refuted for eAeh by a run in extended arithmetic |
| C55 | amp2 with momenta leaves the object consistent | refuted by a run of eemmQED in extended arithmetic (stale memo entries and denominator); proved that the next set_momenta repairs it |
| C56 | amp2 is the square of the amplitude of the Feynman rules, four fermions | proved for the 41 classes (Feynman.v holds the rules, nothing in it refers to the code). The code's amplitude is run symbolically into a table of products of two spinor brackets with rational-function coefficients; the Feynman amplitude, flattened to two-component spinors of complete spin sums, gives the same table for all values of the parameters (FeynmanTable.v); both sums over spins depend on Gram matrices only. Most chiral classes hold the mirror image of the rules; the mirror is undone by a rotation of determinant 1 (FeynmanMirror.v) and C47. Not covered: masses of the outer fermions 0 (except neutrinos), momenta off shell; where a denominator vanishes both sides are 0/0 of the real field (x/0 = 0) and the equality has no physical content; Z width 0 in the classes of C50; no class of this family has a vertex of bosons only |
| C57 | amp2 is the square of the amplitude of the Feynman rules, outer bosons | proved for 95 classes (BosonSpec.v holds the rules, nothing in it refers to the code; FeynmanTable.v's model of the parameters). In the centre-of-mass frame every spinor product and every polarisation vector is a polynomial in square roots of E + p and E - p, half angles and inverse masses. The amplitude of the code, run symbolically, and that of the rules are computed for every helicity in a tower of such square roots (Tower.v, canonical polynomials, kinematic relations as rewriting rules) and their sum or difference is zero there: amps_agree, BosonCheck1-5.v, checked by the kernel for all parameters at once (BosonCode.v, BosonCodeOk.v, BosonKin.v, BosonSetup.v: what the tower means). BosonFrame.v, BosonMatch.v: from there to amp2 of a new object. C47 takes it to every frame; BosonCM.v: all momenta not along one line come from the centre-of-mass frame. The propagators of W, Z and Higgs boson are variables of their own in the comparison, so the widths are any numbers (1/(k^2 - m^2 - i m w)); in the 18 classes of C57_widths the comparison needs widths 0. Not covered: forward and backward scattering, thresholds, light-like s; fermion masses 0 (except neutrinos); in nnWW and nWWn the mass of the electron must be 0 (the constructor ignores it). eeAh and eAeh take v instead of the weak angle and mW; their amplitude depends on 2 mW sw / e = v only (C57_vev), so the comparison takes sw = 3/5. Not in the list: eeAZ (amp2 is 0: C48_eeAZ), dggd, ggdd, gguu, gugu, gggg (amp2 is a sum over colour flows: C48_gluon_sums, C58) |
| C58 | amp2 with two or four gluons is the textbook formula | proved (PropsTextbook.v holds the formulas). C48 gives amp2 as the weight of the colours times the sum of the squared numerators. Those numerators are run symbolically and squared in the tower of C57 (GluonTable.v); the sum over the spins is there the polynomial of numerator2 in s, t, u and m^2, checked by the kernel for all parameters at once (GluonSquare.v). C47 takes it from the centre-of-mass frame to every frame. PropsTextbookMasses.v: with C44, the same after set_masses. Not covered: quark mass 0, forward and backward scattering, thresholds |
| C59 | amp2_Feynman against amp2 | proved: amp2_Feynman is run symbolically and compared with a term (typed_checked), its value compared with that of C58. PropsTextbookMasses.v: the same after set_masses. The comment in the code says that the formula assumes massless quarks |
| C60 | amp of given spins is the helicity amplitude | proved for 94 classes, **refuted** for WdWd: its amplitude is the parity mirror (left and right couplings exchanged against its crossing ddWW), so that amp of given spins is the amplitude of the opposite helicities (C60_WdWd_opposite), of another size (C60_WdWd_refuted); amp2 does not see this. PropsHelicityMasses.v: the same after set_masses. The sign is read off from the table of C57 (BosonMatch.fresh_amp). FeynmanPoint.v computes the Feynman rules at rational points for the example and the refutations |
| C61 | a momentum on shell up to rounding is accepted | proved for energies up to 8191, in every binary format with at least 40 bits (FloatErr.v: the error of each operation; RoundShell.v: of the formula of the guard), and carried to the 142 classes by C45; the points of the test harness in the lab frame, which go through more roundings, are accepted up to 6500 (C61_harness); **refuted** without a bound on the energy, with a momentum exactly on shell for each build |
| C62 | rounding never turns the spinors into NaN | proved for libm functions with finite values (sine and cosine at most 4), energies from 2^-20 to 8191 and masses with 32 u e^2 <= m^2 (C62_from_the_electron_mass: every mass from 0.000511 on); **refuted** for a lighter particle in each build |
| C63 | the test functions test what they claim to test | proved for 141 of the 142 test functions, **refuted** for test_eeAZ (main does not call it). tools/tests.py translates the functions to the language of TestLang.v, whose programs run on the model of the classes and the harness. TestSym.v runs them with formal masses up to each harness call and compares; intervals give signs and thresholds. Masses: every arithmetic in which 0 is 0.0 and 1 is 1.0 (both IEEE builds are). Points and returning: exact arithmetic |
| C64 | set_v takes effect like a new construction | an invariant over histories (PropsVev.v): members, propagator and particle masses are those of the parameters in force; every call keeps it (setters by evaluation, the others by the frame lemmas of LangFrame.v); two objects with the same such state answer alike (SMTwins.v) |
| C65 | text of vectors and matrices | strings (Text.v); the rendering of a number is any function to the texts of `printed` (Strings.v). Readability by Mathematica **refuted**, and characterised: it holds exactly if no entry is printed with an exponent, inf or nan. double_to_Mathematica_string always gives a readable number |
| C66 | the unit tests assert true statements | tests/particle.cpp, propagator.cpp, cvector.cpp, cmatrix.cpp as programs (UnitTests.v) over the models of the library, check by check; exact arithmetic, arbitrary random numbers. Proved by running the test symbolically on a particle in use (`ready`) and closing each check with C06-C11, C34, C36. Three corners **refuted** with witnesses (mass 0, equal draws, std::polar by the letter of the standard) |
| C67 | the unit test of sproduct asserts true statements | tests/sproduct.cpp as a program (SpTests.v) over the models of particle, sproduct and the random numbers: all 18 test cases, test_sproduct, test_sproduct_spinsum. Every pass is run symbolically: the particles and products of the pass stay in a known state (SpTestsWorld.v) through the rotations, boosts, set_momentum and update of the loop (SpTestsRun.v); the eight products are traces (SpTestsReal.v), the spin sums completeness relations, the conservation tests the Dirac equation. C67_whole adds the loops over i and o, for streams of positive numbers only. A mass 0 is **refuted** with a witness |

## Assumptions

What `Print Assumptions` lists for each theorem, written by tools/assumptions.py.  All the
axioms are from Coq's standard library.

* **A0**: closed under the global context (no axioms)
* **A1**: `ClassicalDedekindReals.sig_forall_dec`, `ClassicalDedekindReals.sig_not_dec`, `FunctionalExtensionality.functional_extensionality_dep`
* **A2**: `ClassicalDedekindReals.sig_forall_dec`, `ClassicalDedekindReals.sig_not_dec`, `Classical_Prop.classic`, `FunctionalExtensionality.functional_extensionality_dep`

| property | theorem | file | assumptions |
|---|---|---|---|
| C01 | C01_set_momentum_like_fresh | PropsParticle.v | A0 |
| C01 | C01_accessors_history_free | PropsParticle.v | A0 |
| C02 | C02_set_mass_takes_effect_refuted | PropsParticle.v | A2 |
| C02 | C02_set_mass_before_accessors_partial | PropsParticle.v | A0 |
| C03 | C03_rejected_set_momentum_unchanged_refuted | PropsParticle.v | A2 |
| C03 | C03_recovery_partial | PropsParticle.v | A0 |
| C04 | C04_mass_shell_guard | PropsParticle.v | A2 |
| C05 | C05_spinor_usage_errors | PropsParticle.v | A0 |
| C06 | C06_momentum_matrices | PropsParticle.v | A2 |
| C07 | C07_determinant_is_mass_squared | PropsParticle.v | A2 |
| C08 | C08_clifford | PropsParticle.v | A2 |
| C09 | C09_massless_spinors | PropsParticle.v | A2 |
| C10 | C10_massive_spinors | PropsParticle.v | A2 |
| C11 | C11_angles_reproduce_momentum | PropsParticle.v | A2 |
| C12 | C12_v_equals_definition | PropsSproduct.v | A0 |
| C12 | C12_constructed | PropsSproduct.v | A0 |
| C13 | C13_repetition | PropsSproduct.v | A0 |
| C13 | C13_interleaving | PropsSproduct.v | A0 |
| C14 | C14_stale_product_refuted | PropsSproduct.v | A2 |
| C15 | C15_usage_errors | PropsSproduct.v | A0 |
| C15 | C15_update_succeeds | PropsSproduct.v | A2 |
| C16 | C16_spin_validation_refuted | PropsSproduct.v | A2 |
| C17 | C17_spin_sums | PropsChain.v | A2 |
| C18 | C18_reversal | PropsChain.v | A2 |
| C19 | C19_schouten | PropsChain.v | A2 |
| C20 | C20_conjugation | PropsChain.v | A2 |
| C21 | C21_completeness | PropsChain.v | A2 |
| C22 | C22_momentum_conservation | PropsChain.v | A2 |
| C23 | C23_num_spin_loops | PropsProcess.v | A0 |
| C24 | C24_spin_normalization | PropsProcess.v | A2 |
| C25 | C25_spin_enumeration | PropsProcess.v | A0 |
| C26 | C26_rotation_preserves | PropsUtil.v | A2 |
| C27 | C27_rotation_angle_refuted | PropsUtil.v | A2 |
| C27 | C27_rotation_angle_partial | PropsUtil.v | A2 |
| C28 | C28_boost_preserves | PropsUtil.v | A2 |
| C29 | C29_zero_boost_refuted | PropsIEEE.v | A2 |
| C29 | C29_small_boost_partial | PropsIEEE.v | A2 |
| C30 | C30_two_to_two | PropsUtil.v | A2 |
| C31 | C31_propagator | PropsUtil.v | A2 |
| C32 | C32_random_on_shell | PropsUtil.v | A2 |
| C33 | C33_compound_operators | PropsLinear.v | A0 |
| C33 | C33_value_functions | PropsLinear.v | A0 |
| C34 | C34_transitive_refuted | PropsLinear.v | A2 |
| C34 | C34_nan_refuted | PropsIEEE.v | A2 |
| C34 | C34_tolerant_equality_partial | PropsLinear.v | A2 |
| C35 | C35_index_bounds | PropsLinear.v | A0 |
| C35 | C35_get_momentum_unchecked | PropsLinear.v | A0 |
| C36 | C36_massive | PropsGenerators.v | A2 |
| C36 | C36_spinor_matrix_columns | PropsGenerators.v | A0 |
| C36 | C36_massless | PropsGenerators.v | A2 |
| C36 | C36_commutators_partial | PropsGenerators.v | A2 |
| C36 | C36_massless_commutator_refuted | PropsGenerators.v | A2 |
| C37 | C37_polar_domain_refuted | PropsGenerators.v | A2 |
| C37 | C37_polar_domain_partial | PropsGenerators.v | A2 |
| C38 | C38_construction_refuted | PropsInit.v | A0 |
| C38 | C38_initialised_partial | PropsInit.v | A0 |
| C39 | C39_first_e_replaced | PropsStrings.v | A0 |
| C39 | C39_mathematica_number | PropsStrings.v | A0 |
| C40 | C40_lab_frame | PropsHarness.v | A0 |
| C40 | C40_zero_iff_all_agree | PropsHarness.v | A0 |
| C40 | C40_tolerance | PropsHarness.v | A2 |
| C40 | C40_randomised | PropsHarness.v | A0 |
| C40 | C40_nonfinite_data_refuted | PropsIEEE.v | A2 |
| C41 | C41_not_implemented | PropsHarness.v | A0 |
| C42 | C42_initialised_partial | PropsConstruct.v | A0 |
| C42 | C42_members_partial | PropsConstruct.v | A0 |
| C42 | C42_set_masses_returns | PropsConstruct.v | A0 |
| C42 | C42_refuted | PropsConstruct.v | A2 |
| C43 | C43_last_momenta | PropsClasses.v | A0 |
| C43 | C43_last_masses_and_momenta | PropsClasses.v | A0 |
| C43 | C43_amplitudes | PropsAmplitudes.v | A0 |
| C43 | C43_amplitudes_masses | PropsAmplitudes.v | A0 |
| C44 | C44_rebuilding_partial | PropsRebuild.v | A0 |
| C44 | C44_rebuilding_reals_partial | PropsRebuild.v | A2 |
| C44 | C44_amplitudes_partial | PropsAmplitudes.v | A2 |
| C44 | C44_rebuilding_stale_partial | PropsStale.v | A0 |
| C44 | C44_old_W_mass_partial | PropsStale.v | A0 |
| C44 | C44_rebuilding_refuted | PropsRebuild.v | A2 |
| C45 | C45_no_exception | PropsClasses.v | A0 |
| C45 | C45_no_exception_on_shell | PropsClasses.v | A2 |
| C45 | C45_amplitudes | PropsAmplitudes.v | A0 |
| C46 | C46_nonnegative_partial | PropsAmp2.v | A2 |
| C46 | C46_gluons_partial | PropsGluons.v | A2 |
| C46 | C48_eeAZ | PropsAmp2.v | A2 |
| C46 | C46_nonnegative_refuted | PropsGluons.v | A2 |
| C47 | C47_lorentz_invariance | PropsLorentz.v | A2 |
| C48 | C48_spin_sums | PropsAmp2.v | A2 |
| C48 | C48_spin_sums_on_shell | PropsAmp2.v | A2 |
| C48 | C48_gluon_weights | PropsGluons.v | A2 |
| C48 | C48_gluon_sums | PropsGluons.v | A2 |
| C48 | C48_each_once | PropsAmp2.v | A0 |
| C48 | C48_eeAZ | PropsAmp2.v | A2 |
| C49 | C49_textbook | PropsQED.v | A2 |
| C49 | C49_textbook_new | PropsQED.v | A2 |
| C49 | C49_massless_throws | PropsQED.v | A2 |
| C50 | C50_widths_partial | PropsWidth.v | A0 |
| C50 | C50_width_dropped | PropsWidth.v | A0 |
| C50 | C50_width_without_effect | PropsWidth.v | A0 |
| C50 | C50_refuted | PropsWidth.v | A2 |
| C51 | C51_copy_reads_original | PropsCopy.v | A0 |
| C51 | C51_original_unharmed_partial | PropsCopy.v | A0 |
| C51 | C51_original_amplitudes_partial | PropsAmplitudes.v | A0 |
| C51 | C51_refuted | PropsCopy.v | A2 |
| C52 | C52_random_frames | PropsHarness.v | A2 |
| C53 | C53_score | PropsHarness.v | A2 |
| C54 | C54_same | PropsAlt.v | A2 |
| C54 | C54_textbook | PropsAlt.v | A2 |
| C54 | C54_refuted | PropsAlt.v | A2 |
| C55 | C55_refuted | PropsAlt.v | A2 |
| C55 | C55_repaired_partial | PropsAlt.v | A0 |
| C56 | C56_feynman_rules | PropsFeynman.v | A2 |
| C56 | C56_feynman_rules_set_masses | PropsFeynman.v | A2 |
| C56 | C56_all_four_fermion_classes | PropsFeynman.v | A0 |
| C56 | complete_spinors_exist | PropsFeynman.v | A2 |
| C57 | C57_feynman_rules_bosons | PropsBosons.v | A2 |
| C57 | C57_every_frame | PropsBosons.v | A2 |
| C57 | C57_feynman_rules_set_masses | PropsBosons.v | A2 |
| C57 | C57_classes | PropsBosons.v | A0 |
| C57 | C57_widths | PropsBosons.v | A0 |
| C57 | C57_vev | PropsBosons.v | A1 |
| C57 | C57_eeAZ_refuted | PropsHelicities.v | A2 |
| C58 | C58_textbook_gluons | PropsTextbook.v | A2 |
| C58 | C58_textbook_set_masses | PropsTextbookMasses.v | A2 |
| C59 | C59_amp2_Feynman | PropsTextbook.v | A2 |
| C59 | C59_amp2_Feynman_set_masses | PropsTextbookMasses.v | A2 |
| C60 | C60_helicity_amplitudes | PropsHelicities.v | A2 |
| C60 | C60_helicity_amplitudes_set_masses | PropsHelicityMasses.v | A2 |
| C60 | C60_WdWd_opposite | PropsHelicities.v | A2 |
| C60 | C60_WdWd_refuted | PropsHelicities.v | A2 |
| C61 | C61_rounded_momenta_accepted | PropsRounding.v | A2 |
| C61 | C61_all_classes | PropsRounding.v | A2 |
| C61 | C61_harness | PropsRounding.v | A2 |
| C61 | C61_harness_classes | PropsRounding.v | A2 |
| C61 | C61_large_energies_refuted | PropsRounding.v | A2 |
| C62 | C62_finite_spinors | PropsRounding.v | A2 |
| C62 | C62_from_the_electron_mass | PropsRounding.v | A2 |
| C62 | C62_light_particles_refuted | PropsRounding.v | A2 |
| C63 | C63_masses | PropsTests.v | A0 |
| C63 | C63_points | PropsTests.v | A2 |
| C63 | C63_returns | PropsTests.v | A2 |
| C63 | C63_main_returns | PropsTests.v | A2 |
| C63 | C63_refuted | PropsTests.v | A2 |
| C64 | C64_set_v | PropsVev.v | A0 |
| C64 | C64_no_other | PropsVev.v | A0 |
| C65 | C65_one_number | PropsText.v | A0 |
| C65 | C65_mathematica_partial | PropsText.v | A0 |
| C65 | C65_mathematica_refuted | PropsText.v | A2 |
| C65 | C65_unambiguous | PropsText.v | A0 |
| C65 | C65_stream | PropsText.v | A0 |
| C66 | C66_constructor | PropsUnit.v | A2 |
| C66 | C66_matrices | PropsUnit.v | A2 |
| C66 | C66_helicity | PropsUnit.v | A2 |
| C66 | C66_spin | PropsUnit.v | A2 |
| C66 | C66_spin_refuted | PropsUnit.v | A2 |
| C66 | C66_polar_refuted | PropsUnit.v | A2 |
| C66 | C66_denominator | PropsUnit.v | A2 |
| C66 | C66_linear | PropsUnit.v | A2 |
| C66 | C66_linear_constructors_partial | PropsUnit.v | A2 |
| C66 | C66_linear_constructors_refuted | PropsUnit.v | A2 |
| C67 | C67_products | PropsSpTests.v | A2 |
| C67 | C67_sums | PropsSpTests.v | A2 |
| C67 | C67_conservation | PropsSpTests.v | A2 |
| C67 | C67_whole | PropsSpTests.v | A2 |
| C67 | C67_zero_mass_refuted | PropsSpTests.v | A2 |
