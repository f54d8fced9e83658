{"id": "C01", "title": "Accessors after set_momentum behave like a fresh particle", "statement": "After a successful set_momentum(q) on a particle of current mass m, any later sequence of accessor calls returns, call by call, exactly what the same calls return on a newly constructed particle(q,m): nothing from the earlier life of the object (cached spinors or matrices, earlier masses, earlier failed updates) is ever visible.", "quantifier": "every earlier history of public calls on the object (including ones that threw), every momentum, mass and every later sequence of accessor calls, in every arithmetic", "why_tests_cant": "Twenty-two cache flags times an unbounded call history; tests only sample a few orders of calls.", "anchors": ["source/particle.cpp: update, set_momentum, umat, lmat, rangle, langle, lsquare, rsquare"]}
{"id": "C02", "title": "set_mass alone takes effect on the accessors", "statement": "After set_mass(m') (without set_momentum) the accessors behave as those of a particle of mass m' with the same momentum.", "quantifier": "every particle state, every new mass", "why_tests_cant": "A stale cached spinor is only visible for particular call orders around the mass change.", "anchors": ["source/particle.cpp: set_mass, rangle, update", "include/particle.h"]}
{"id": "C03", "title": "A rejected set_momentum leaves the particle unchanged", "statement": "If set_momentum throws, the observable state of the particle is what it was before the call; and in any case a following successful set_momentum restores a fully consistent particle.", "quantifier": "every state, every rejected momentum, every subsequent call sequence", "why_tests_cant": "Exception safety concerns all states at which the throw can happen.", "anchors": ["source/particle.cpp: set_momentum, update"]}
{"id": "C04", "title": "Mass shell guard", "statement": "set_momentum(q) and the constructor particle(q,m) throw exactly when |E^2-|q|^2-m^2| exceeds the documented tolerance, and do not throw otherwise.", "quantifier": "all masses and momenta", "why_tests_cant": "Real-valued input domain.", "anchors": ["source/particle.cpp: update"]}
{"id": "C05", "title": "Usage errors of particle spinors", "statement": "On a particle whose state is the result of a successful construction or set_momentum, massless accessors throw exactly when m!=0, massive accessors throw exactly when the spin argument is not +1 or -1 or m==0, and a throwing accessor changes nothing observable.", "quantifier": "all particles, all integer spin arguments, all call histories since the last update", "why_tests_cant": "All integers and all call histories.", "anchors": ["source/particle.cpp: rangle, langle, lsquare, rsquare and overloads"]}
{"id": "C06", "title": "umat and lmat are the slashed momentum", "statement": "umat() and lmat() of a particle equal the matrices cmatrix(p,UPPER) and cmatrix(p,LOWER) built directly from the four-momentum, although they are computed from polar coordinates.", "quantifier": "all momenta (including p_x=p_y=0)", "why_tests_cant": "Trigonometric identity over all reals, with branch cuts and a singular point.", "anchors": ["source/particle.cpp: update, umat, lmat", "source/cmatrix.cpp: cmatrix(p,upp)"]}
{"id": "C07", "title": "Determinant of the momentum matrices is the mass squared", "statement": "get_det of umat and of lmat returns E^2-|p|^2 and never throws; on the mass shell it is m^2.", "quantifier": "all momenta", "why_tests_cant": "Real-valued input domain.", "anchors": ["source/cmatrix.cpp: get_det, det", "source/particle.cpp: umat, lmat"]}
{"id": "C08", "title": "Clifford relation", "statement": "p_lower q_upper + q_lower p_upper = 2 p.q times the identity (and with upper/lower exchanged), with p.q the particle::dot of the two particles.", "quantifier": "all pairs of momenta", "why_tests_cant": "Real-valued input domain.", "anchors": ["source/cmatrix.cpp: operator*, operator+", "source/particle.cpp: dot, umat, lmat"]}
{"id": "C09", "title": "Massless spinors factor the momentum", "statement": "For a massless particle |p>[p| = lmat and |p]<p| = umat as outer products, the angle and square spinors are complex conjugates of one another, p|p]=0, p|p>=0, [p|p=0, <p|p=0 and <pp>=[pp]=0.", "quantifier": "all massless momenta with non-negative energy, including along the z axis", "why_tests_cant": "Real-valued input domain with singular directions.", "anchors": ["source/particle.cpp: rangle(), langle(), lsquare(), rsquare()"]}
{"id": "C10", "title": "Massive spinor algebra", "statement": "For a massive particle and every choice of upper and lower spin indices: sum over spins of outer products is lmat/umat up to the documented sign, <pp>^{IJ} = -m eps^{IJ} etc. (all eight index placements), the Dirac equation umat|p>^I=-m|p]^I etc. (all eight), and the conjugation relations between angle and square spinors.", "quantifier": "all masses, all on-shell positive energy momenta, both spins, both index heights", "why_tests_cant": "Real-valued input domain; the tests check random points only to 1e-12.", "anchors": ["source/particle.cpp: rangle(spin,upper), langle, lsquare, rsquare", "tests/test_particle.cpp"]}
{"id": "C11", "title": "Angles reproduce the momentum", "statement": "test_angles() returns true after every successful construction or set_momentum with positive energy: the stored angles and square roots reconstruct the momentum.", "quantifier": "all on-shell momenta with non-negative energy", "why_tests_cant": "Real-valued domain, branch cuts of atan2.", "anchors": ["source/particle.cpp: test_angles, update"]}
{"id": "C12", "title": "sproduct::v equals its definition", "statement": "After update(), v(...) returns the spinor chain <L|p1 p2...|R>, [L|p1 p2...|R] etc. evaluated on the particles' current masses and momenta with alternating lower/upper momentum matrices and the bracket type on the right fixed by the parity of the number of momenta, whatever was computed or cached before in this sproduct or in others sharing particles.", "quantifier": "all heaps of particles and sproducts, all earlier call histories, 0..6 internal momenta (and any number in the model), all index heights", "why_tests_cant": "Aliasing and caching across shared particles: unbounded histories.", "anchors": ["source/sproduct.cpp: update, v"]}
{"id": "C13", "title": "Order and repetition of v calls do not matter", "statement": "Repeating v with the same arguments returns the same value, and interleaving v calls of different sproducts over shared particles never changes any returned value.", "quantifier": "all heaps, all interleavings of v calls", "why_tests_cant": "Unbounded interleavings.", "anchors": ["source/sproduct.cpp: v", "source/particle.cpp"]}
{"id": "C14", "title": "Changing a momentum without update is never silently wrong", "statement": "After set_momentum on a particle, v() of a sproduct over it either reflects the new momentum or reports an error even when update() was not called.", "quantifier": "all heaps, all momenta", "why_tests_cant": "The failure is silent and depends on which values happened to be cached.", "anchors": ["source/sproduct.cpp: update, v", "include/sproduct.h"]}
{"id": "C15", "title": "sproduct usage errors", "statement": "Right after update(): v() throws iff one end is massive, v(s) throws iff not exactly one end is massive or s is not +-1, v(s,t) throws iff one end is massless or s or t is not +-1; update() throws iff a massless end was given a lower index.", "quantifier": "all sproducts, all integer spin arguments", "why_tests_cant": "All integers, all configurations.", "anchors": ["source/sproduct.cpp: v, update"]}
{"id": "C16", "title": "Spin arguments are always validated", "statement": "v(s) and v(s,t) reject every spin argument other than +-1 regardless of which values have been computed before.", "quantifier": "all integers, all call histories", "why_tests_cant": "Only visible for particular call orders with invalid arguments.", "anchors": ["source/sproduct.cpp: v(int), v(int,int)"]}
{"id": "C17", "title": "Products of spinor products sum to momentum dot products", "statement": "Summed over the spins of massive ends, [ij]<ji> = 2 p_i.p_j for every combination of massless and massive particles, and [ij]<ij>* summed = -2 m_i m_j when both are massive; |<ij>|^2 summed = 2 p_i.p_j.", "quantifier": "all pairs of on-shell momenta and masses", "why_tests_cant": "Real-valued input domain.", "anchors": ["source/sproduct.cpp: v", "source/particle.cpp", "tests/test_sproduct.cpp"]}
{"id": "C18", "title": "Reversal symmetry", "statement": "Reversing a spinor chain multiplies it by (-1)^(N+1): <ij>=-<ji>, [ij]=-[ji], <i|p|j]=[j|p|i>, <i|pq|j>=-<j|qp|i> etc. for every number of internal momenta.", "quantifier": "all chains of any length, all momenta and spins", "why_tests_cant": "Unbounded chain length.", "anchors": ["source/sproduct.cpp: v"]}
{"id": "C19", "title": "Schouten identity", "statement": "<ij><kl>+<ik><lj>+<il><jk>=0 and the same with square brackets, at any fixed spin indices.", "quantifier": "all four particles, all spins", "why_tests_cant": "Real-valued input domain.", "anchors": ["source/sproduct.cpp: v"]}
{"id": "C20", "title": "Complex conjugation of chains", "statement": "Complex conjugation of a spinor chain exchanges angle and square brackets, reverses the order and raises/lowers spin indices with the documented signs.", "quantifier": "all chains of any length", "why_tests_cant": "Unbounded chain length.", "anchors": ["source/sproduct.cpp: v", "source/particle.cpp"]}
{"id": "C21", "title": "Completeness insertion", "statement": "Summing <..i^I>[i_I..| over the spins of i inserts the momentum p_i in the chain with the documented signs, and <..i^I><i_I ..> inserts +-m_i.", "quantifier": "all chains, all intermediate massive particles", "why_tests_cant": "Unbounded chain length, real-valued domain.", "anchors": ["source/sproduct.cpp: v", "source/particle.cpp", "tests/test_sproduct.cpp"]}
{"id": "C22", "title": "Momentum conservation in chains", "statement": "If the momenta of a set of particles sum to zero, the sum over that set of chains with the momentum inserted in the same slot is zero.", "quantifier": "all chains, all momentum sets summing to zero", "why_tests_cant": "Unbounded sets and chains.", "anchors": ["source/sproduct.cpp: v, update"]}
{"id": "C23", "title": "Number of spin loops", "statement": "get_num_spin_loops returns 2^(number of zero entries) when that fits in an int, and the computation is undefined behaviour (signed overflow) exactly from 31 zeros on.", "quantifier": "lists of every length", "why_tests_cant": "Unbounded list length, overflow boundary.", "anchors": ["source/process.cpp: get_num_spin_loops"]}
{"id": "C24", "title": "Spin normalisation", "statement": "get_spin_normalization squared times get_num_spin_loops is exactly one (in exact arithmetic).", "quantifier": "lists of every length", "why_tests_cant": "Unbounded list length.", "anchors": ["source/process.cpp: get_spin_normalization"]}
{"id": "C25", "title": "Spin index enumeration", "statement": "For iterator=0..2^z-1 (z zeros) get_spinor_spins produces every assignment of (a,b) in {(1,-1),(-1,1)} to the zero-helicity particles exactly once, in binary order, gives (+1,+1) / (-1,-1) for positive/negative helicities, writes every output and nothing else, and reads nothing outside its arrays; the shifts are defined exactly for z<=32.", "quantifier": "lists of every length and content, all iterators", "why_tests_cant": "Exponentially many combinations.", "anchors": ["source/process.cpp: get_spinor_spins"]}
{"id": "C26", "title": "Rotation preserves kinematics", "statement": "rotate_momentum with a unit axis preserves the energy, the Minkowski products of any two momenta rotated alike, keeps the axis fixed, and is linear (momentum conservation survives).", "quantifier": "all unit axes, all angles, all momenta", "why_tests_cant": "Real-valued domain.", "anchors": ["source/utilities.cpp: rotate_momentum"]}
{"id": "C27", "title": "Rotation is by the requested angle", "statement": "rotate_momentum(mom,u,theta) rotates by +theta counter-clockwise about u for every theta.", "quantifier": "all angles", "why_tests_cant": "Half of the circle behaves differently; a test that only checks invariants cannot see it.", "anchors": ["source/utilities.cpp: rotate_momentum"]}
{"id": "C28", "title": "Boost preserves kinematics", "statement": "boost_momentum with 0<|v|<1 preserves Minkowski products of any two momenta boosted alike, is linear, takes a particle at rest (m,0,0,0) to velocity -v and is inverted by boosting with -v; energies stay positive.", "quantifier": "all velocities 0<|v|<1, all momenta", "why_tests_cant": "Real-valued domain.", "anchors": ["source/utilities.cpp: boost_momentum"]}
{"id": "C29", "title": "Boost by zero velocity is the identity", "statement": "boost_momentum(mom,{0,0,0}) leaves mom unchanged.", "quantifier": "all momenta", "why_tests_cant": "A single input point that random tests hit with probability zero.", "anchors": ["source/utilities.cpp: boost_momentum"]}
{"id": "C30", "title": "Two-to-two test kinematics", "statement": "set_test_initializations + set_test_momenta give four on-shell momenta with p1+p2=p3+p4, positive energies and scattering angle acos(cost), whenever sqrt(s) >= m3+m4.", "quantifier": "all masses, beam momenta and scattering angles above threshold", "why_tests_cant": "Real-valued domain, threshold boundary.", "anchors": ["source/process.cpp: set_test_initializations, set_test_momenta"]}
{"id": "C31", "title": "Propagator denominator", "statement": "propagator(m,w).denominator(p) = p.p - m^2 - i m w for the most recently set m and w, is Lorentz invariant, and vanishes iff p is on the mass shell and m*w=0.", "quantifier": "all masses, widths, momenta, all histories of set_mass/set_width", "why_tests_cant": "Real-valued domain, all setter histories.", "anchors": ["source/propagator.cpp"]}
{"id": "C32", "title": "Random momenta are on shell", "statement": "choose_random_momentum returns a mass and fills a momentum with p.p = mass^2 and p0>=0 that particle(p,mass) accepts; choose_random_massless_momentum likewise with mass zero.", "quantifier": "every outcome of the random number generator", "why_tests_cant": "Random generator outcomes are sampled only.", "anchors": ["source/utilities.cpp: choose_random_momentum, choose_random_massless_momentum"]}
{"id": "C33", "title": "Compound matrix operators and aliasing", "statement": "m*=n, m+=n, m-=n give the matrix product, sum and difference also when n is the same object as m, and a*b, a+b leave their operands unchanged.", "quantifier": "all matrices, aliased and not", "why_tests_cant": "Aliasing is a state property.", "anchors": ["source/cmatrix.cpp: operator*=, operator+=, operator-="]}
{"id": "C34", "title": "Tolerant equality", "statement": "operator== on cvector and cmatrix is reflexive and symmetric, != is its negation, and it is an equivalence relation (transitive).", "quantifier": "all values", "why_tests_cant": "Transitivity fails only for chains of near-equal values.", "anchors": ["source/cvector.cpp: operator==", "source/cmatrix.cpp: operator=="]}
{"id": "C35", "title": "Index bounds", "statement": "cvector::get and cmatrix::get return the element for indices 0,1 and throw out_of_range for every other int; particle::get_momentum is defined only for 0..3 and performs no check.", "quantifier": "all ints", "why_tests_cant": "All ints.", "anchors": ["source/cvector.cpp: get", "source/cmatrix.cpp: get", "source/particle.cpp: get_momentum"]}
{"id": "C36", "title": "Generators act correctly on spinors", "statement": "The Lorentz generators acting on the spinor matrices equal the spin generators acting on the spin index for every massive particle (J3,J+,J- on all four spinor kinds and both index heights), and helicity eigenvalue relations hold for massless particles; commutators [J3,J+-]=+-J+-, [J+,J-]=2J3 hold.", "quantifier": "all momenta and masses", "why_tests_cant": "Real-valued domain.", "anchors": ["source/particle.cpp: lorentz_j3_lu ..., spin_j3_lu ...", "tests/test_particle.cpp"]}
{"id": "C37", "title": "Generators stay within the domain of std::polar", "statement": "No generator calls std::polar with a negative (undefined) magnitude.", "quantifier": "all momenta", "why_tests_cant": "The precondition of std::polar is not checked at run time and usual libraries return a sensible value anyway.", "anchors": ["source/particle.cpp: lorentz_jp_lu, lorentz_jm_lu, ..."]}
{"id": "C38", "title": "Construction never reads uninitialised memory", "statement": "Constructing sproducts over particles built with particle(mass) and later setting momenta never reads an indeterminate value.", "quantifier": "all configurations of sproducts over particles built by each constructor", "why_tests_cant": "Uninitialised reads have no observable failure in a test.", "anchors": ["source/particle.cpp: particle(mass)", "source/sproduct.cpp: update", "SM/*.cpp constructors"]}
{"id": "C39", "title": "Mathematica number strings", "statement": "double_to_Mathematica_string produces text without an exponent letter, replacing it with ' 10^' and changing nothing else, for every number format produced by the stream.", "quantifier": "all decimal renderings of numbers", "why_tests_cant": "All floats.", "anchors": ["source/utilities.cpp: double_to_Mathematica_string"]}
{"id": "C40", "title": "The test harness counts exactly the failing points", "statement": "test_2to2_amp2 returns the number of the twenty points at which the amplitude differs from the data beyond tolerance or is inf/nan; it returns 0 iff all points agree.", "quantifier": "all amplitude functions, all data tables", "why_tests_cant": "Higher-order input.", "anchors": ["source/process.cpp: test_2to2_amp2, test_2to2_amp2_rotations, test_2to2_amp2_boosts, test_2to2_amp2_boosts_and_rotations"]}
{"id": "C41", "title": "Base-class set_momenta reports not implemented", "statement": "Calling set_momenta on a process that does not override it throws, and the test harness propagates the throw.", "quantifier": "all inputs", "why_tests_cant": "Trivial branch, but the propagation is for all data.", "anchors": ["source/process.cpp: set_momenta"]}
{"id": "C42", "title": "Process objects are fully initialised before use", "statement": "Constructing any Standard Model process object never reads a member before it has been initialised (members are initialised in declaration order).", "quantifier": "all 141 process classes, all parameter values", "why_tests_cant": "Reading an uninitialised ldouble often looks like zero in tests.", "anchors": ["SM/include/*.h", "SM/*.cpp constructors"]}
{"id": "C43", "title": "amp2 depends only on the last masses and momenta", "statement": "After set_momenta(p1..p4), amp2 and its polarised variants return the same value whatever was called on the object before (earlier set_momenta, amp, amp2 calls in any order).", "quantifier": "all process classes, all histories, all momenta, in every arithmetic", "why_tests_cant": "Caches in every particle and spinor product: unbounded histories.", "anchors": ["SM/*.cpp: set_momenta, amp, amp2"]}
{"id": "C44", "title": "set_masses is equivalent to rebuilding", "statement": "set_masses(new masses) followed by set_momenta gives the same amplitudes as constructing a new object with the new masses followed by set_momenta.", "quantifier": "all process classes, all parameter values", "why_tests_cant": "Derived couplings cached in the constructor may be forgotten in set_masses; only visible for changed masses.", "anchors": ["SM/*.cpp: constructors, set_masses"]}
{"id": "C45", "title": "amp2 never throws on valid input", "statement": "With all mass parameters of massive particles nonzero and on-shell momenta, set_momenta and amp2 never throw.", "quantifier": "all process classes, all parameter values and on-shell momenta", "why_tests_cant": "Arity mismatches between massive/massless ends and v() overloads are run-time checked only.", "anchors": ["SM/*.cpp"]}
{"id": "C46", "title": "amp2 is real and non-negative", "statement": "amp2 returns a non-negative number for all parameters and momenta (exact arithmetic).", "quantifier": "all process classes, all parameters and momenta", "why_tests_cant": "Real-valued domain.", "anchors": ["SM/*.cpp: amp2"]}
{"id": "C47", "title": "amp2 is Lorentz invariant", "statement": "amp2 is unchanged when all four momenta are rotated or boosted alike.", "quantifier": "all process classes, all momenta, all rotations and boosts", "why_tests_cant": "The spinors themselves change by momentum-dependent little group rotations; tests sample random boosts at a few points.", "anchors": ["SM/*.cpp: amp, amp2", "source/utilities.cpp: rotate_momentum, boost_momentum"]}
{"id": "C48", "title": "amp2 sums every spin configuration exactly once", "statement": "amp2 is the average over initial and sum over final of |amp|^2 over all spin/helicity configurations of the external particles, each exactly once.", "quantifier": "all process classes, all parameters and momenta", "why_tests_cant": "Exponentially many configurations.", "anchors": ["SM/*.cpp: amp2"]}
{"id": "C49", "title": "e e > mu mu in QED equals the textbook formula", "statement": "eemmQED::amp2 (and the simplified example) equals the textbook tree-level unpolarised squared amplitude expressed in s,t,u and masses.", "quantifier": "all masses, couplings and on-shell momenta conserving momentum", "why_tests_cant": "Real-valued domain.", "anchors": ["SM/eemmQED.cpp", "user-dir/eemm.cpp"]}
{"id": "C50", "title": "Width parameters are honoured", "statement": "Every width passed to a process constructor enters the corresponding propagator denominator.", "quantifier": "all process classes taking widths", "why_tests_cant": "Setting the width to zero changes nothing at off-resonance test points.", "anchors": ["SM/eemm.cpp", "SM/uuuu2.cpp", "SM/*.cpp"]}
{"id": "C51", "title": "Copying a process or particle graph is safe", "statement": "A copy of a process object evaluates amplitudes of its own momenta, independent of the original.", "quantifier": "all process objects", "why_tests_cant": "Copies share pointers to the original's particles; elided copies hide it.", "anchors": ["include/sproduct.h: pL,pR,p[6]", "SM/include/*.h", "SM/*.cpp: test functions"]}
{"id": "C52", "title": "The randomised tests stay on the same phase space point", "statement": "rotate_random_test_momenta and boost_random_test_momenta replace the four momenta by the same point seen from another frame: all Minkowski products among the four are unchanged, momentum conservation and positive energies survive, and the boost velocity is below 0.99, unless the generator delivers a zero axis or zero velocity.", "quantifier": "all momenta, every outcome of the random number generator", "why_tests_cant": "Random generator outcomes are only sampled.", "anchors": ["source/process.cpp: rotate_random_test_momenta, boost_random_test_momenta"]}
{"id": "C53", "title": "The parameter-scan score", "statement": "score_2to2_amp2 is the sum of the relative deviations of exactly those of the twenty points that deviate beyond tolerance; it is never negative and it is 0 iff no point deviates.", "quantifier": "all amplitude functions, all data tables", "why_tests_cant": "Higher-order input.", "anchors": ["source/process.cpp: score_2to2_amp2"]}
{"id": "C54", "title": "amp2 with momenta equals set_momenta followed by amp2", "statement": "Where a process class has a second amp2 that takes the four momenta, amp2(mom1,mom2,mom3,mom4) returns what set_momenta(mom1,mom2,mom3,mom4) followed by amp2() returns, and throws when that throws.", "quantifier": "the four classes with such an overload, all parameters, masses, momenta and earlier calls", "why_tests_cant": "The overload is a second, hand-written implementation that no test in the repository calls.", "anchors": ["SM/eemmQED.cpp: amp2(mom1,...)", "SM/eeeeQED.cpp: amp2(mom1,...)", "SM/eeAA.cpp: amp2(mom1,...)", "SM/eAeh.cpp: amp2(mom1,...)"]}
{"id": "C55", "title": "amp2 with momenta leaves the object consistent", "statement": "After amp2(mom1,...) the argument-less amp2() answers for one set of momenta: those last given to set_momenta or those given to amp2(mom1,...). The next set_momenta puts the object into the state it would have without the call.", "quantifier": "the four classes, all parameters, momenta and earlier calls", "why_tests_cant": "Depends on which memo entries were filled before the call.", "anchors": ["SM/eemmQED.cpp: amp2(mom1,...), set_momenta", "source/sproduct.cpp: v, update"]}
{"id": "C56", "title": "amp2 is the square of the amplitude of the Feynman rules (four fermions)", "statement": "For every process class whose four outer particles are fermions, amp2 after set_momenta is the squared tree amplitude of the Standard Model: Dirac spinors, gamma matrices, the couplings of photon, Z, W, Higgs boson and gluon to the fermions, all diagrams of the process with their relative signs and colour tensors, summed over spins and colours, averaged over the initial ones and divided by 2 for identical final particles. In the classes that drop the width of the Z (C50) that width is 0.", "quantifier": "the 41 classes with four outer fermions, all couplings, all positive masses, widths, all conserved on-shell momenta with energies >= 0, all earlier calls, all complete sets of Dirac spinors", "why_tests_cant": "The tests of the repository compare with numbers at a few phase-space points and parameter sets.", "anchors": ["SM/*.cpp: amp, amp2, set_momenta, constructors of the 41 classes", "source/spinas.cpp", "source/propagator.cpp"]}
{"id": "C57", "title": "amp2 is the square of the amplitude of the Feynman rules (outer bosons)", "statement": "For 95 of the 101 process classes with outer photons, gluons, W, Z or Higgs bosons, amp2 after set_momenta is the squared tree amplitude of the Standard Model in unitary gauge: Dirac spinors and polarisation vectors of definite helicity, propagators with constant widths, all vertices (fermion lines, three and four gauge bosons, Higgs boson), all channels and the contact terms, summed over helicities and colours, averaged over the initial ones and divided by 2 for identical final particles.", "quantifier": "the 95 classes of boson_entries, all couplings, all positive masses of the legs, all widths (0 for the 18 classes of C57_widths), all conserved on-shell momenta with energies >= 0 that are not along one line and not on a pole, in all frames, all earlier calls", "why_tests_cant": "The tests of the repository compare with numbers at a few phase-space points and parameter sets.", "anchors": ["SM/*.cpp: amp, amp2, set_momenta, constructors of the 95 classes", "source/spinas.cpp", "source/propagator.cpp"]}
{"id": "C58", "title": "amp2 of the processes of two or four gluons is the textbook formula", "statement": "amp2 of gggg, ggdd, gguu, gugu and dggd after set_momenta is gs^4 times the formula of Ellis, Stirling and Webber in s, t, u and the mass of the quark: gluon fusion into a quark pair (1/(6 t1 t2) - 3/8)(t1^2 + t2^2 + r - r^2/(4 t1 t2)), its crossings with the factor -8/3, and (9/4)(3 - tu/s^2 - su/t^2 - st/u^2).", "quantifier": "the five classes, all couplings, all quark masses > 0, all conserved on-shell momenta with energies >= 0 that are not along one line, in all frames, all earlier calls (after set_masses the mass is the one given last)", "why_tests_cant": "The tests of the repository compare with numbers at a few phase-space points and two masses.", "anchors": ["SM/gggg.cpp", "SM/ggdd.cpp", "SM/gguu.cpp", "SM/gugu.cpp", "SM/dggd.cpp"]}
{"id": "C59", "title": "amp2_Feynman against amp2", "statement": "amp2_Feynman of gggg returns the same value as amp2. amp2_Feynman of ggdd and gguu returns the formula of massless quarks with t - m^2 and u - m^2 in place of t and u, and with a coupling other than 0 that is always less than amp2.", "quantifier": "the three classes that define amp2_Feynman, all couplings, all quark masses > 0, all conserved on-shell momenta with energies >= 0 that are not along one line, in all frames, all earlier calls (after set_masses the mass is the one given last)", "why_tests_cant": "The tests compare amp2_Feynman with numbers where the mass is small and leave the comparison out where it is not.", "anchors": ["SM/gggg.cpp:174-182", "SM/ggdd.cpp:130-139", "SM/gguu.cpp:127-138"]}
{"id": "C60", "title": "amp of given spins is the helicity amplitude of the Feynman rules", "statement": "In the centre-of-mass frame amp(spins) of a class with outer bosons is, up to a sign that depends on the class and the spins only, the amplitude of the Feynman rules for the process that the class's test prints. The arguments are twice the helicity for the particles that come in and minus twice the helicity for those that go out.", "quantifier": "the classes of C57, all spins, all parameters of the constructor, all momenta and angles, all earlier calls (after set_masses the masses are those given last; not for the classes of C44 with stale data), all reads in between", "why_tests_cant": "The tests compare amp2 only: no test calls amp, so exchanging helicities (a parity mirror) or wrong relative sizes of helicities with the same sum go unseen.", "anchors": ["SM/WdWd.cpp:105-130", "SM/eeWW.cpp", "SM/ddWW.cpp", "SM/nWWn.cpp"]}
{"id": "C61", "title": "a momentum on shell up to rounding is accepted", "statement": "If the components of a momentum and the mass are within one unit in the last place of an exact momentum on the mass shell, then particle::set_momentum and the constructor accept it, for energies up to 8191 GeV and in every binary format of at least 40 bits; and then none of the 142 process classes throws. Without a bound on the energy this is false: the tolerance is absolute, and both builds reject exact momenta of 34 TeV.", "quantifier": "all formats, all momenta and masses, all libm functions, all classes, all earlier calls", "why_tests_cant": "The tests use a few energies and angles. How the rounding errors of squares, sums and roots add up against an absolute tolerance depends on the bits of every component.", "anchors": ["source/particle.cpp:67-75", "include/particle.h"]}
{"id": "C62", "title": "rounding never turns the spinors into NaN", "statement": "For a momentum on shell up to rounding, energy between 2^-20 and 8191 GeV, the spinors of a massless particle have finite components, and so have those of a massive particle whose mass is not lost in the rounding of the energy (in both builds: every mass from the electron's on); sqrt(E+p)*sqrt(E-p) is the mass up to 32 roundings of E*E. For lighter massive particles it is false: E-p comes out negative and the spinors are NaN.", "quantifier": "all formats of at least 40 bits, all momenta and masses, all libm functions with finite values, all spins", "why_tests_cant": "E-p is a difference of nearly equal numbers; its sign after rounding depends on the last bits of the momentum.", "anchors": ["source/particle.cpp:76-82", "source/particle.cpp:205-245", "include/particle.h"]}
{"id": "C63", "title": "the test functions test what they claim to test", "statement": "Wherever a test function of a process class calls the harness, the four masses it hands over are the masses the object's external particles have at that moment. In exact arithmetic the points generated from them are physical (massless particles massless, massive ones massive, enough energy for the final state, momentum conserved, on shell), and the test function and main return: no exception, nothing undefined, no overflow, as long as the loop that draws a boost ends. The test of eeAZ, which main does not call, breaks this: it hands the Z mass to the photon leg and throws.", "quantifier": "all test functions of SM and user-dir and main, all calls of the harness in them, all reference tables of 20 entries, all non-zero random numbers, all arithmetics with strict comparisons off (masses)", "why_tests_cant": "The tests are what is checked here: a wrong mass in a test makes a comparison pointless or throws, and nobody tests the tests; the random frames differ in every run.", "anchors": ["SM/eeAZ.cpp", "SM/eemm.cpp", "SM/test.cpp:172-343", "source/process.cpp"]}
{"id": "C64", "title": "set_v takes effect like a new construction", "statement": "After any sequence of calls on an eeAh or eAeh object, set_v and set_masses among them in any order and number, the object behaves as one newly constructed with the masses and the vacuum expectation value set last: given the same momenta, set_momenta ends alike on both, and amp2 and its polarised variants answer alike from then on. Calls with the wrong arguments change nothing. No other class has set_v.", "quantifier": "all call sequences, all parameters, all momenta, all arithmetics in which std::polar of a square root is defined", "why_tests_cant": "No test calls set_v at all, and no finite set of call sequences covers all orders of the setters.", "anchors": ["SM/eeAh.cpp:53-63", "SM/eAeh.cpp:53-63"]}
{"id": "C65", "title": "text of vectors and matrices", "statement": "to_Mathematica_string of a vector or matrix gives text that Mathematica can read: a list of numbers re + I im, each with digits, an optional fraction and an optional power of ten. (False: the methods do not use double_to_Mathematica_string, an entry such as 1e-07 keeps its letter e.) The texts are unambiguous: two vectors or matrices with the same text have entries that print alike.", "quantifier": "all vectors and matrices, all renderings of numbers an output stream may produce", "why_tests_cant": "No test looks at the text, and all finite numbers would have to be printed.", "anchors": ["source/cvector.cpp:125-151", "source/cmatrix.cpp:202-225", "source/utilities.cpp:38-52"]}
{"id": "C66", "title": "the unit tests assert true statements", "statement": "Every check in tests/particle.cpp, tests/propagator.cpp, tests/cvector.cpp and tests/cmatrix.cpp holds in exact arithmetic, in every pass and for every sequence of random numbers: no unit test can fail because what it asserts is wrong. (False in three corners: spin_spinors is ended by an exception when the mass drawn is 0; the two constructor tests fail when the same value is drawn twice; read by the letter of the standard, helicity_spinors_test has undefined behaviour.)", "quantifier": "all sequences of random numbers, all contents of uninitialised memory, all tolerances > 0", "why_tests_cant": "A test run sees 100 draws; a test cannot say that it would pass for all draws.", "anchors": ["tests/particle.cpp:36-342", "tests/propagator.cpp:22-47", "tests/cvector.cpp:25-99", "tests/cmatrix.cpp:32-179"]}
{"id": "C67", "title": "the unit test of sproduct asserts true statements", "statement": "Every check in tests/sproduct.cpp holds in exact arithmetic, in every pass and for every sequence of random numbers: the eight products of chains summed over spins equal the expressions in masses and dot products that the test expects, also after the random rotations and boosts; the eight spin sums and the two forms of momentum conservation hold. (False when a mass drawn is 0: then an exception ends the test.)", "quantifier": "all sequences of random numbers with non-zero masses, non-zero components and a velocity below 0.99 in due course; all contents of uninitialised memory; all tolerances > 0", "why_tests_cant": "A test run sees 100 draws for each choice of masses; a test cannot say that it would pass for all draws.", "anchors": ["tests/sproduct.cpp:32-258", "tests/sproduct.cpp:263-458", "tests/sproduct.cpp:463-554", "tests/sproduct.cpp:563-679"]}
