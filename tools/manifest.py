"""Writes MANIFEST.json."""
import json, os
CLAIMS = [
 ("C01","proved",["C01_set_momentum_like_fresh","C01_accessors_history_free"],"in every arithmetic (any Num)"),
 ("C02","partial",["C02_set_mass_takes_effect_refuted","C02_set_mass_before_accessors_partial"],"REFUTED as stated: a cached spinor survives set_mass. Proved: set_mass directly after a successful set_momentum takes full effect."),
 ("C03","partial",["C03_rejected_set_momentum_unchanged_refuted","C03_recovery_partial"],"REFUTED as stated: the rejected momentum is stored before the check. Proved: the mass is kept and the next accepted set_momentum restores a fresh-like object."),
 ("C04","proved",["C04_mass_shell_guard"],"exact real arithmetic, any eps"),
 ("C05","proved",["C05_spinor_usage_errors"],"in every arithmetic"),
 ("C06","proved",["C06_momentum_matrices"],"exact real arithmetic"),
 ("C07","proved",["C07_determinant_is_mass_squared"],"exact real arithmetic"),
 ("C08","proved",["C08_clifford"],"exact real arithmetic"),
 ("C09","proved",["C09_massless_spinors"],"exact real arithmetic"),
 ("C10","proved",["C10_massive_spinors"],"exact real arithmetic; for a negative mass parameter the identities hold with |m|"),
 ("C11","proved",["C11_angles_reproduce_momentum"],"exact real arithmetic"),
 ("C12","proved",["C12_v_equals_definition","C12_constructed"],"in every arithmetic; any world of particles and sproducts, any interleaving of other calls"),
 ("C13","proved",["C13_repetition","C13_interleaving"],"in every arithmetic"),
 ("C14","partial",["C14_stale_product_refuted"],"REFUTED: a cached product is returned after a momentum changed without update(). The positive part is C12: after update() values are right."),
 ("C15","proved",["C15_usage_errors","C15_update_succeeds"],"usage errors in every arithmetic; success of update() over exact reals"),
 ("C16","partial",["C16_spin_validation_refuted"],"REFUTED: once v(1) is cached, v(5) returns it. The positive part is in C15_usage_errors: right after update() invalid spins throw."),
 ("C17","proved",["C17_spin_sums"],"exact real arithmetic; with |m| for negative mass parameters"),
 ("C18","proved",["C18_reversal"],"exact real arithmetic, any chain length"),
 ("C19","proved",["C19_schouten"],"exact real arithmetic"),
 ("C20","proved",["C20_conjugation"],"exact real arithmetic, any chain length"),
 ("C21","proved",["C21_completeness"],"exact real arithmetic, any chain lengths"),
 ("C22","proved",["C22_momentum_conservation"],"exact real arithmetic, any set of momenta"),
 ("C23","proved",["C23_num_spin_loops"],"lists of every length"),
 ("C24","proved",["C24_spin_normalization"],"exact real arithmetic, lists of every length"),
 ("C25","proved",["C25_spin_enumeration"],"lists of every length; the outputs are distinct variables, none of them an input"),
 ("C26","proved",["C26_rotation_preserves"],"exact real arithmetic"),
 ("C27","partial",["C27_rotation_angle_refuted","C27_rotation_angle_partial"],"REFUTED as stated: for sin(theta)<0 the rotation goes the wrong way. Proved: by theta if sin(theta)>=0, by -theta otherwise."),
 ("C28","proved",["C28_boost_preserves"],"exact real arithmetic"),
 ("C30","proved",["C30_two_to_two"],"exact real arithmetic"),
 ("C31","proved",["C31_propagator"],"setter histories in every arithmetic, the value in exact real arithmetic"),
 ("C32","proved",["C32_random_on_shell"],"exact real arithmetic, every sequence of random numbers"),
 ("C40","partial",["C40_lab_frame","C40_zero_iff_all_agree","C40_tolerance","C40_randomised","C40_nonfinite_data_refuted"],"REFUTED for data that are NaN or infinite: such points are never counted, so 0 does not mean agreement. Proved otherwise: counting in every arithmetic and for every process; the meaning of the tolerance in exact real arithmetic"),
 ("C41","proved",["C41_not_implemented"],"in every arithmetic"),
 ("C52","proved",["C52_random_frames"],"exact real arithmetic, every sequence of random numbers without a zero axis / zero velocity"),
 ("C53","proved",["C53_score"],"the sum in every arithmetic, sign and zero in exact real arithmetic"),
 ("C33","proved",["C33_compound_operators","C33_value_functions"],"in every arithmetic, every memory, operands aliased or not"),
 ("C34","partial",["C34_transitive_refuted","C34_nan_refuted","C34_tolerant_equality_partial"],"REFUTED as stated: the tolerant equalities are not transitive (in exact arithmetic; in floating point moreover NaN equals everything). Proved over exact reals: reflexive, symmetric, != the negation, and == characterised as entrywise closeness."),
 ("C35","proved",["C35_index_bounds","C35_get_momentum_unchecked"],"in every arithmetic, every integer index"),
 ("C36","partial",["C36_massive","C36_spinor_matrix_columns","C36_massless","C36_commutators_partial","C36_massless_commutator_refuted"],"Everything holds over exact reals except that [J+,J-]=2J3 is REFUTED for massless particles (the code's massless J+- do not close)."),
 ("C37","partial",["C37_polar_domain_refuted","C37_polar_domain_partial"],"REFUTED: the generators call std::polar with -1+cos(theta) <= 0, negative for every momentum off the z axis. Proved: along +z no generator does."),
 ("C39","proved",["C39_first_e_replaced","C39_mathematica_number"],"all decimal renderings"),
 ("C38","partial",["C38_construction_refuted","C38_initialised_partial"],"REFUTED in every arithmetic: an sproduct with internal momenta built over particle(mass) reads indeterminate pxymag and phi. Proved: no history that gives internal particles a momentum first reads an indeterminate value."),
 ("C29","partial",["C29_zero_boost_refuted","C29_small_boost_partial"],"REFUTED: in long double and in double the spatial components become NaN for every momentum (0/0). Proved in exact arithmetic: the boost tends to the identity as the velocity tends to zero."),
 ("C43","proved",["C43_last_momenta","C43_last_masses_and_momenta","C43_amplitudes","C43_amplitudes_masses"],"all 142 classes, in every arithmetic in which std::polar(sqrt(x),phi) is defined; histories may contain any calls, also failing ones; amp2, its variants and the amplitudes of given spins"),
 ("C45","proved",["C45_no_exception","C45_no_exception_on_shell","C45_amplitudes"],"all 142 classes; every state reached by any history without set_v, then set_momenta and amp*/amp2* return a number"),
 ("C44","partial",["C44_rebuilding_partial","C44_rebuilding_reals_partial","C44_amplitudes_partial","C44_rebuilding_stale_partial","C44_old_W_mass_partial","C44_rebuilding_refuted"],"REFUTED for ten classes (ZWWh ZhWW dAdh dgdh hgdd hguu uAuh uguh nWWn nnWW): set_masses leaves a coupling, propagator or spin product stale, and the long-double value differs from that of a rebuilt object by more than a thousandth. Proved for the other 131 classes in exact arithmetic and for 129 of them in every arithmetic in which 3.0=3 and 4.0=4; old and new masses may be any parameters. For the ten classes proved in every such arithmetic when massW is the one of the constructor (eight classes), or masse is zero (nWWn, nnWW); six of them (dAdh dgdh hgdd hguu uAuh uguh) never read massW in set_masses and answer, for any massW given, as a new object built with the old one."),
 ("C42","partial",["C42_initialised_partial","C42_members_partial","C42_set_masses_returns","C42_refuted"],"REFUTED for 94 classes: 93 build spin products with internal momenta over particles without a momentum, whose update() reads indeterminate members; dddd reads MZ before it is initialised. Proved: for the other 48 classes construction reads nothing indeterminate, in every arithmetic; for all 142 the finished data members, propagators and masses do not depend on what was in memory."),
 ("C50","partial",["C50_widths_partial","C50_width_dropped","C50_width_without_effect","C50_refuted"],"REFUTED for 31 classes (e.g. eemm, uuee, nenenmnm, uuuu2): they store widthZ but never give it to propZ, whose width stays 0, so that widthZ has no effect on amp2 at all. Proved for all other widths of all classes: the propagator holds the width after any calls, and set_momenta stores its denominator for one of the channels p1+p2, p1-p3, p1-p4."),
 ("C48","proved",["C48_spin_sums","C48_spin_sums_on_shell","C48_gluon_weights","C48_gluon_sums","C48_each_once","C48_eeAZ"],"exact arithmetic, all 142 classes, amp2 and its 12 polarised variants, after any calls: 136 classes by C48_spin_sums, with the colour sum over explicit colour tensors; ggdd gguu gugu dggd gggg by C48_gluon_weights for all momenta, and by C48_gluon_sums with the sum over colours of the structure constants if momentum is conserved; eeAZ is 0"),
 ("C46","partial",["C46_nonnegative_partial","C46_gluons_partial","C48_eeAZ","C46_nonnegative_refuted"],"REFUTED for momenta that do not conserve momentum: amp2 of ggdd becomes negative (long double). Proved in exact arithmetic: non-negative for 137 classes for all momenta, for ggdd gguu gugu dggd if momentum is conserved and the denominators are not 0."),
 ("C51","partial",["C51_copy_reads_original","C51_original_unharmed_partial","C51_original_amplitudes_partial","C51_refuted"],"REFUTED: the spinor products of a copy keep pointing to the particles of the original, so that no momentum given to the copy reaches them (all 142 classes, every arithmetic, any calls); for eemm amp2 of the copy is wrong by more than a thousandth. Proved: calls on a copy never change what the original answers. Not modelled: destruction of the original while the copy is in use."),
 ("C47","proved",["C47_lorentz_invariance"],"exact arithmetic, all 142 classes, amp2 and its 12 polarised variants, on-shell momenta with energies >= 0 and masses that are zero exactly for the massless legs of the class; any sequence of rotate_momentum about unit vectors and boost_momentum by 0 < |v| < 1; the second set of momenta may be given to the same object after any calls but setters; momentum conservation is not needed"),
 ("C49","partial",["C49_textbook","C49_textbook_new","C49_massless_throws"],"exact arithmetic, eemmQED and the example in user-dir: for all couplings and all non-zero masses, all on-shell momenta of non-negative energy that conserve momentum, after any calls, amp2 is 2e^4/s^2((t-S)^2+(u-S)^2+2sS) with S = me^2+mm^2, and s > 0. REFUTED for zero masses: with a massless electron or muon amp2 throws, whatever the momenta (C49_massless_throws)."),
 ("C54","partial",["C54_same","C54_textbook","C54_refuted"],"REFUTED for eAeh: s241 and a241 are never assigned in amp2(mom1,...), which loses two of the four terms (witness in extended arithmetic). Proved for eemmQED, eeeeQED and eeAA in exact real arithmetic, for all masses, momenta that set_momenta accepts and histories; when both throw, the kind of exception is left open because C++ leaves the order of the operands open"),
 ("C55","partial",["C55_refuted","C55_repaired_partial"],"REFUTED: amp2(mom1,...) moves the particles but does not empty the spinor products, so amp2() afterwards mixes two sets of momenta and depends on whether amp2() was called before. Proved in every arithmetic: the next set_momenta repairs the object"),
 ("C56","proved",["C56_feynman_rules","C56_feynman_rules_set_masses","C56_all_four_fermion_classes","complete_spinors_exist"],"all 41 classes with four outer fermions, exact real arithmetic, all parameters with positive fermion masses, after construction and after set_masses; the width of the Z is 0 in the classes that drop it (C50)"),
 ("C57","proved",["C57_feynman_rules_bosons","C57_every_frame","C57_feynman_rules_set_masses","C57_classes","C57_widths","C57_vev","C57_eeAZ_refuted"],"95 of the 101 classes with outer bosons (C57_classes names the others), exact real arithmetic, widths 0 in 18 of them (C57_widths), all frames; after construction and, but for the classes of C44 with stale data, after set_masses"),
 ("C58","proved",["C58_textbook_gluons","C58_textbook_set_masses"],"gggg, ggdd, gguu, gugu, dggd; exact real arithmetic, quark mass > 0, all frames; after construction and after set_masses; momenta along one line left out"),
 ("C59","proved",["C59_amp2_Feynman","C59_amp2_Feynman_set_masses"],"gggg, ggdd, gguu, under the conditions of C58"),
 ("C60","partial",["C60_helicity_amplitudes","C60_helicity_amplitudes_set_masses","C60_WdWd_opposite","C60_WdWd_refuted"],"proved for 94 classes with outer bosons in the centre-of-mass frame, up to a sign for each class and spins, after construction and, but for the classes of C44 with stale data, after set_masses; REFUTED for WdWd, whose amp belongs to the opposite helicities"),
 ("C61","partial",["C61_rounded_momenta_accepted","C61_all_classes","C61_harness","C61_harness_classes","C61_large_energies_refuted"],"proved for energies up to 8191 in every format of at least 40 bits, and for the lab-frame points of the test harness up to 6500; REFUTED without a bound on the energy (absolute tolerance)"),
 ("C62","partial",["C62_finite_spinors","C62_from_the_electron_mass","C62_light_particles_refuted"],"proved for tame libm functions and masses from the electron's on (and for massless particles); REFUTED for lighter massive particles"),
 ("C63","partial",["C63_masses","C63_points","C63_returns","C63_main_returns","C63_refuted"],"proved for the 141 test functions other than test_eeAZ and for main, which does not call it; REFUTED for test_eeAZ (hands the mass of the Z to the photon leg, throws)"),
 ("C64","proved",["C64_set_v","C64_no_other"],""),
 ("C65","partial",["C65_one_number","C65_mathematica_partial","C65_mathematica_refuted","C65_unambiguous","C65_stream"],"unambiguity proved; readability by Mathematica REFUTED (an entry printed with an exponent), true exactly for entries printed without one"),
 ("C66","partial",["C66_constructor","C66_matrices","C66_helicity","C66_spin","C66_spin_refuted","C66_polar_refuted","C66_denominator","C66_linear","C66_linear_constructors_partial","C66_linear_constructors_refuted"],"every check holds in exact arithmetic for all draws; REFUTED in three corners: mass 0 drawn, the same value drawn twice, std::polar by the letter of the standard"),
 ("C67","partial",["C67_products","C67_sums","C67_conservation","C67_whole","C67_zero_mass_refuted"],"every check holds in exact arithmetic for all draws with non-zero masses; REFUTED when a mass drawn is 0"),
]
out={"claims":[{"property":p,"status":s,"theorems":t,"note":n} for p,s,t,n in CLAIMS]}
json.dump(out,open(os.path.join(os.path.dirname(__file__),"..","MANIFEST.json"),"w"),indent=1)
