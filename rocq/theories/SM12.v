(** Generated by tools/translate.py from SM/uuZh.cpp ... SM/uuuu2.cpp.  Do not edit. *)
From Coq Require Import QArith String.
From Verif Require Import Base Scalar Particle Sproduct Lang SMSyntax SMNames.
Local Open Scope sm_scope.
Local Open Scope string_scope.

(** uuZh::uuZh: SM/uuZh.cpp 32-62 *)
Definition uuZh_ctor : stmt :=
(SLoc rT n_two (EUn I2T (EInt 2));,
SMemT n_sqrt2 (EUn SqrtT (ELocT n_two));,
SMemT n_MZ ((EMemT n_MW) /t (EMemT n_CW));,
SPropNew n_propZ (EMemT n_MZ) (EMemT n_WZ);,
SParticle 0 (EMemT n_mu);,
SParticle 1 (EMemT n_mu);,
SParticle 2 (EMemT n_MZ);,
SParticle 3 (EMemT n_mh);,
SSprod n_s12s false 0 [] 1;,
SSprod n_a12a true 0 [] 1;,
SSprod n_s23s false 1 [] 2;,
SSprod n_a23a true 1 [] 2;,
SSprod n_s13s false 0 [] 2;,
SSprod n_a13a true 0 [] 2;,
SSprod n_s312a false 2 [0] 1;,
SSprod n_s213a false 1 [0] 2;,
SSprod n_s343a false 2 [3] 2;,
SSprod n_s143a false 0 [3] 2;,
SSprod n_s341a false 2 [3] 0;,
SSprod n_s243a false 1 [3] 2;,
SSprod n_s342a false 2 [3] 1;,
SMemT n_preTU (((((EMemT n_sqrt2) *t (EMemT n_e)) *t (EMemT n_e)) *t (EMemT n_mu)) /t (((((EUn D2T (ELit (4 # 1))) *t (EMemT n_MW)) *t (EMemT n_MW)) *t (EMemT n_SW)) *t (EMemT n_SW)));,
SMemT n_gL ((((EUn D2T ((EUn NegD (ELit (4 # 1))) /d (ELit (3 # 1)))) *t (EMemT n_SW)) *t (EMemT n_SW)) +t (EUn D2T (ELit (1 # 1))));,
SMemT n_gR (((EUn D2T ((EUn NegD (ELit (4 # 1))) /d (ELit (3 # 1)))) *t (EMemT n_SW)) *t (EMemT n_SW));,
SMemT n_preZ ((((EMemT n_sqrt2) *t (EMemT n_e)) *t (EMemT n_e)) /t (((((EUn D2T (ELit (4 # 1))) *t (EMemT n_MW)) *t (EMemT n_MW)) *t (EMemT n_SW)) *t (EMemT n_SW)))).
(** uuZh::set_masses: SM/uuZh.cpp 63-77 *)
Definition uuZh_set_masses : meth := mkMeth n_set_masses [(n_massu, PkT); (n_massh, PkT); (n_massW, PkT)]
(SMemT n_mu (ELocT n_massu);,
SMemT n_mh (ELocT n_massh);,
SMemT n_MW (ELocT n_massW);,
SMemT n_MZ ((EMemT n_MW) /t (EMemT n_CW));,
SSetMass 0 (EMemT n_mu);,
SSetMass 1 (EMemT n_mu);,
SSetMass 2 (EMemT n_MZ);,
SSetMass 3 (EMemT n_mh);,
SPropMass n_propu (EMemT n_mu);,
SPropMass n_propZ (EMemT n_MZ);,
SMemT n_preTU (((((EMemT n_sqrt2) *t (EMemT n_e)) *t (EMemT n_e)) *t (EMemT n_mu)) /t (((((EUn D2T (ELit (4 # 1))) *t (EMemT n_MW)) *t (EMemT n_MW)) *t (EMemT n_SW)) *t (EMemT n_SW)));,
SMemT n_preZ ((((EMemT n_sqrt2) *t (EMemT n_e)) *t (EMemT n_e)) /t (((((EUn D2T (ELit (4 # 1))) *t (EMemT n_MW)) *t (EMemT n_MW)) *t (EMemT n_SW)) *t (EMemT n_SW)))).
(** uuZh::set_momenta: SM/uuZh.cpp 78-109 *)
Definition uuZh_set_momenta : meth := mkMeth n_set_momenta [(n_mom1, PkMom); (n_mom2, PkMom); (n_mom3, PkMom); (n_mom4, PkMom)]
(SSetMomentum 0 n_mom1;,
SSetMomentum 1 n_mom2;,
SSetMomentum 2 n_mom3;,
SSetMomentum 3 n_mom4;,
SUpdate n_s12s;,
SUpdate n_a12a;,
SUpdate n_s23s;,
SUpdate n_a23a;,
SUpdate n_s13s;,
SUpdate n_a13a;,
SUpdate n_s312a;,
SUpdate n_s213a;,
SUpdate n_s343a;,
SUpdate n_s143a;,
SUpdate n_s341a;,
SUpdate n_s243a;,
SUpdate n_s342a;,
SDeclT n_propSP 4;,
SDeclT n_propTP 4;,
SDeclT n_propUP 4;,
(SFor n_j (EInt 0) (EBin (CmpI CLt) (ELocI n_j) (EInt 4)) (EBin (OpI IAdd) (ELocI n_j) (EInt 1))
(SArrT n_propSP (AVar n_j) ((EArrT n_mom1 (AVar n_j)) +t (EArrT n_mom2 (AVar n_j)));,
SArrT n_propTP (AVar n_j) ((EArrT n_mom1 (AVar n_j)) -t (EArrT n_mom3 (AVar n_j)));,
SArrT n_propUP (AVar n_j) ((EArrT n_mom1 (AVar n_j)) -t (EArrT n_mom4 (AVar n_j)))));,
SMemC n_pDenS (EDen n_propZ n_propSP);,
SMemC n_pDenT (EDen n_propu n_propTP);,
SMemC n_pDenU (EDen n_propu n_propUP)).
(** uuZh::amp: SM/uuZh.cpp 114-158 *)
Definition uuZh_amp : meth := mkMeth n_amp [(n_ds1, PkI); (n_ds2, PkI); (n_ds3, PkI)]
(SLoc rC n_amplitude (EBin OpTTC (EUn I2T (EInt 0)) (EUn I2T (EInt 0)));,
SDecl rI n_ds3a;,
SDecl rI n_ds3b;,
SLoc rI n_nCombs (ENLoops [(AVar n_ds3)]);,
SLoc rT n_normFactor (ENorm [(AVar n_ds3)]);,
(SFor n_i (EInt 0) (EBin (CmpI CLt) (ELocI n_i) (ELocI n_nCombs)) (EBin (OpI IAdd) (ELocI n_i) (EInt 1))
(SSpins [(n_ds3, n_ds3a, n_ds3b)] (AVar n_i);,
SLoc rC n_amplitude ((ELocC n_amplitude) +c ((((ELocT n_normFactor) *t (EMemT n_preZ)) *tc (((((EMemT n_mu) *t ((EMemT n_gL) -t (EMemT n_gR))) *tc ((EV n_a12a [(AVar n_ds1); (AVar n_ds2)]) -c (EV n_s12s [(AVar n_ds1); (AVar n_ds2)]))) *c (EV n_s343a [(AVar n_ds3a); (AVar n_ds3b)])) -c ((((EUn D2T (ELit (2 # 1))) *t (EMemT n_MZ)) *t (EMemT n_MZ)) *tc ((((EMemT n_gL) *tc (EV n_s23s [(AVar n_ds2); (AVar n_ds3a)])) *c (EV n_a13a [(AVar n_ds1); (AVar n_ds3b)])) +c (((EMemT n_gR) *tc (EV n_a23a [(AVar n_ds2); (AVar n_ds3a)])) *c (EV n_s13s [(AVar n_ds1); (AVar n_ds3b)])))))) /c (EMemC n_pDenS)));,
SLoc rC n_amplitude ((ELocC n_amplitude) +c ((((ELocT n_normFactor) *t (EMemT n_preTU)) *tc ((((EMemT n_gR) *tc (EV n_s13s [(AVar n_ds1); (AVar n_ds3a)])) *c ((((EUn D2T (EUn NegD (ELit (2 # 1)))) *t (EMemT n_mu)) *tc (EV n_a23a [(AVar n_ds2); (AVar n_ds3b)])) +c (EV n_s243a [(AVar n_ds2); (AVar n_ds3b)]))) +c (((EMemT n_gL) *tc (EV n_a13a [(AVar n_ds1); (AVar n_ds3a)])) *c ((((EUn D2T (EUn NegD (ELit (2 # 1)))) *t (EMemT n_mu)) *tc (EV n_s23s [(AVar n_ds2); (AVar n_ds3b)])) +c (EV n_s342a [(AVar n_ds3b); (AVar n_ds2)]))))) /c (EMemC n_pDenT)));,
SLoc rC n_amplitude ((ELocC n_amplitude) +c ((((ELocT n_normFactor) *t (EMemT n_preTU)) *tc ((((EMemT n_gL) *tc (EV n_s23s [(AVar n_ds2); (AVar n_ds3a)])) *c ((EV n_s143a [(AVar n_ds1); (AVar n_ds3b)]) -c (((EUn D2T (ELit (2 # 1))) *t (EMemT n_mu)) *tc (EV n_a13a [(AVar n_ds1); (AVar n_ds3b)])))) +c (((EMemT n_gR) *tc (EV n_a23a [(AVar n_ds2); (AVar n_ds3a)])) *c ((EV n_s341a [(AVar n_ds3b); (AVar n_ds1)]) -c (((EUn D2T (ELit (2 # 1))) *t (EMemT n_mu)) *tc (EV n_s13s [(AVar n_ds1); (AVar n_ds3b)])))))) /c (EMemC n_pDenU)))));,
SReturnC (ELocC n_amplitude)).
(** uuZh::amp2: SM/uuZh.cpp 161-175 *)
Definition uuZh_amp2 : meth := mkMeth n_amp2 []
(SLoc rT n_amp2 (EUn I2T (EInt 0));,
SDecl rC n_M;,
(SFor n_j1 (EUn NegI (EInt 1)) (EBin (CmpI CLe) (ELocI n_j1) (EInt 1)) (EBin (OpI IAdd) (ELocI n_j1) (EInt 2))
(SFor n_j2 (EUn NegI (EInt 1)) (EBin (CmpI CLe) (ELocI n_j2) (EInt 1)) (EBin (OpI IAdd) (ELocI n_j2) (EInt 2))
(SFor n_j3 (EUn NegI (EInt 2)) (EBin (CmpI CLe) (ELocI n_j3) (EInt 2)) (EBin (OpI IAdd) (ELocI n_j3) (EInt 2))
(SLoc rC n_M (ECall n_amp [(AVar n_j1); (AVar n_j2); (AVar n_j3)]);,
SLoc rT n_amp2 ((ELocT n_amp2) +t ((EUn D2T (ELit (3 # 1))) *t (EUn Pow2T (EUn AbsC (ELocC n_M)))))))));,
SReturnT ((ELocT n_amp2) /t (EUn D2T (ELit (36 # 1))))).
(** members: SM/include/uuZh.h 26-36; initialisers: SM/uuZh.cpp 32-33 *)
Definition uuZh : cls := mkCls "uuZh"
[(n_e, KT);
(n_mu, KT);
(n_mh, KT);
(n_wh, KT);
(n_MW, KT);
(n_SW, KT);
(n_CW, KT);
(n_MZ, KT);
(n_WZ, KT);
(n_p1, (KPart 0));
(n_p2, (KPart 1));
(n_p3, (KPart 2));
(n_p4, (KPart 3));
(n_propZ, KProp);
(n_propu, KProp);
(n_pDenS, KC);
(n_pDenT, KC);
(n_pDenU, KC);
(n_s12s, KSprod);
(n_a12a, KSprod);
(n_s23s, KSprod);
(n_a23a, KSprod);
(n_s13s, KSprod);
(n_a13a, KSprod);
(n_s312a, KSprod);
(n_s213a, KSprod);
(n_s343a, KSprod);
(n_s143a, KSprod);
(n_s341a, KSprod);
(n_s243a, KSprod);
(n_s342a, KSprod);
(n_sqrt2, KT);
(n_preTU, KT);
(n_preZ, KT);
(n_gL, KT);
(n_gR, KT)]
[n_echarge; n_massu; n_massh; n_widthh; n_massW; n_sinW; n_widthZ]
[(n_e, NT (ELocT n_echarge));
(n_mu, NT (ELocT n_massu));
(n_mh, NT (ELocT n_massh));
(n_wh, NT (ELocT n_widthh));
(n_MW, NT (ELocT n_massW));
(n_SW, NT (ELocT n_sinW));
(n_CW, NT (EUn SqrtT ((EUn D2T (ELit (1 # 1))) -t ((ELocT n_sinW) *t (ELocT n_sinW)))));
(n_MZ, NT ((ELocT n_massW) /t (EMemT n_CW)));
(n_WZ, NT (ELocT n_widthZ));
(n_propu, NProp (ELocT n_massu) (EUn I2T (EInt 0)))]
uuZh_ctor
[uuZh_set_masses; uuZh_set_momenta; uuZh_amp; uuZh_amp2].

(** uucc::uucc: SM/uucc.cpp 32-58 *)
Definition uucc_ctor : stmt :=
(SMemT n_MZ ((EMemT n_MW) /t (EMemT n_CW));,
SPropMass n_propZ (EMemT n_MZ);,
SMemT n_preh (((((EMemT n_e) *t (EMemT n_e)) *t (EMemT n_mu)) *t (EMemT n_mc)) /t (((((EUn D2T (ELit (4 # 1))) *t (EMemT n_MW)) *t (EMemT n_MW)) *t (EMemT n_SW)) *t (EMemT n_SW)));,
SMemT n_gL ((EUn D2T (ELit (1 # 1))) -t (((EUn D2T ((ELit (4 # 1)) /d (ELit (3 # 1)))) *t (EMemT n_SW)) *t (EMemT n_SW)));,
SMemT n_gR (((EUn D2T ((EUn NegD (ELit (4 # 1))) /d (ELit (3 # 1)))) *t (EMemT n_SW)) *t (EMemT n_SW));,
SMemT n_preZ (((EMemT n_e) *t (EMemT n_e)) /t (((((EUn D2T (ELit (4 # 1))) *t (EMemT n_CW)) *t (EMemT n_CW)) *t (EMemT n_SW)) *t (EMemT n_SW)));,
SMemT n_preZ0 (((((((EMemT n_preZ) *t ((EMemT n_gL) -t (EMemT n_gR))) *t ((EMemT n_gL) -t (EMemT n_gR))) *t (EMemT n_mu)) *t (EMemT n_mc)) /t (EMemT n_MZ)) /t (EMemT n_MZ))).
(** uucc::set_masses: SM/uucc.cpp 59-73 *)
Definition uucc_set_masses : meth := mkMeth n_set_masses [(n_massu, PkT); (n_massc, PkT); (n_massh, PkT); (n_massW, PkT)]
(SMemT n_mu (ELocT n_massu);,
SMemT n_mc (ELocT n_massc);,
SMemT n_mh (ELocT n_massh);,
SPropMass n_proph (EMemT n_mh);,
SMemT n_MW (ELocT n_massW);,
SMemT n_MZ ((EMemT n_MW) /t (EMemT n_CW));,
SPropMass n_propZ (EMemT n_MZ);,
SSetMass 0 (EMemT n_mu);,
SSetMass 1 (EMemT n_mu);,
SSetMass 2 (EMemT n_mc);,
SSetMass 3 (EMemT n_mc);,
SMemT n_preh (((((EMemT n_e) *t (EMemT n_e)) *t (EMemT n_mu)) *t (EMemT n_mc)) /t (((((EUn I2T (EInt 4)) *t (EMemT n_MW)) *t (EMemT n_MW)) *t (EMemT n_SW)) *t (EMemT n_SW)));,
SMemT n_preZ0 (((((((EMemT n_preZ) *t ((EMemT n_gL) -t (EMemT n_gR))) *t ((EMemT n_gL) -t (EMemT n_gR))) *t (EMemT n_mu)) *t (EMemT n_mc)) /t (EMemT n_MZ)) /t (EMemT n_MZ))).
(** uucc::set_momenta: SM/uucc.cpp 74-99 *)
Definition uucc_set_momenta : meth := mkMeth n_set_momenta [(n_mom1, PkMom); (n_mom2, PkMom); (n_mom3, PkMom); (n_mom4, PkMom)]
(SSetMomentum 0 n_mom1;,
SSetMomentum 1 n_mom2;,
SSetMomentum 2 n_mom3;,
SSetMomentum 3 n_mom4;,
SUpdate n_a13a;,
SUpdate n_s13s;,
SUpdate n_a14a;,
SUpdate n_s14s;,
SUpdate n_a23a;,
SUpdate n_s23s;,
SUpdate n_a24a;,
SUpdate n_s24s;,
SUpdate n_s12s;,
SUpdate n_a12a;,
SUpdate n_s34s;,
SUpdate n_a34a;,
SDeclT n_propP 4;,
(SFor n_j (EInt 0) (EBin (CmpI CLt) (ELocI n_j) (EInt 4)) (EBin (OpI IAdd) (ELocI n_j) (EInt 1))
(SArrT n_propP (AVar n_j) ((EArrT n_mom1 (AVar n_j)) +t (EArrT n_mom2 (AVar n_j)))));,
SMemC n_pDenSAG (EDen n_propAG n_propP);,
SMemC n_pDenSh (EDen n_proph n_propP);,
SMemC n_pDenSZ (EDen n_propZ n_propP)).
(** uucc::amp_gluon: SM/uucc.cpp 107-120 *)
Definition uucc_amp_gluon : meth := mkMeth n_amp_gluon [(n_ds1, PkI); (n_ds2, PkI); (n_ds3, PkI); (n_ds4, PkI)]
(SLoc rT n_two (EUn I2T (EInt 2));,
SLoc rC n_amplitude (EBin OpTTC (EUn I2T (EInt 0)) (EUn I2T (EInt 0)));,
SLoc rC n_amplitude (((((ELocT n_two) *t (EMemT n_gs)) *t (EMemT n_gs)) *tc (((((EV n_a13a [(AVar n_ds1); (AVar n_ds3)]) *c (EV n_s24s [(AVar n_ds2); (AVar n_ds4)])) +c ((EV n_a14a [(AVar n_ds1); (AVar n_ds4)]) *c (EV n_s23s [(AVar n_ds2); (AVar n_ds3)]))) +c ((EV n_s13s [(AVar n_ds1); (AVar n_ds3)]) *c (EV n_a24a [(AVar n_ds2); (AVar n_ds4)]))) +c ((EV n_s14s [(AVar n_ds1); (AVar n_ds4)]) *c (EV n_a23a [(AVar n_ds2); (AVar n_ds3)])))) /c (EMemC n_pDenSAG));,
SReturnC (ELocC n_amplitude)).
(** uucc::amp_rest: SM/uucc.cpp 121-161 *)
Definition uucc_amp_rest : meth := mkMeth n_amp_rest [(n_ds1, PkI); (n_ds2, PkI); (n_ds3, PkI); (n_ds4, PkI)]
(SLoc rT n_two (EUn I2T (EInt 2));,
SLoc rC n_amplitude (EBin OpTTC (EUn I2T (EInt 0)) (EUn I2T (EInt 0)));,
SLoc rC n_amplitude (((((((ELocT n_two) *t (EMemT n_e)) *t (EMemT n_e)) *t (EUn D2T (ELit (4 # 1)))) /t (EUn D2T (ELit (9 # 1)))) *tc (((((EV n_a13a [(AVar n_ds1); (AVar n_ds3)]) *c (EV n_s24s [(AVar n_ds2); (AVar n_ds4)])) +c ((EV n_a14a [(AVar n_ds1); (AVar n_ds4)]) *c (EV n_s23s [(AVar n_ds2); (AVar n_ds3)]))) +c ((EV n_s13s [(AVar n_ds1); (AVar n_ds3)]) *c (EV n_a24a [(AVar n_ds2); (AVar n_ds4)]))) +c ((EV n_s14s [(AVar n_ds1); (AVar n_ds4)]) *c (EV n_a23a [(AVar n_ds2); (AVar n_ds3)])))) /c (EMemC n_pDenSAG));,
SLoc rC n_amplitude ((ELocC n_amplitude) +c ((((EMemT n_preh) *tc ((EV n_s12s [(AVar n_ds1); (AVar n_ds2)]) +c (EV n_a12a [(AVar n_ds1); (AVar n_ds2)]))) *c ((EV n_s34s [(AVar n_ds3); (AVar n_ds4)]) +c (EV n_a34a [(AVar n_ds3); (AVar n_ds4)]))) /c (EMemC n_pDenSh)));,
SLoc rC n_amplitude ((ELocC n_amplitude) +c (((((EUn NegT (EMemT n_preZ0)) *tc ((EV n_a12a [(AVar n_ds1); (AVar n_ds2)]) -c (EV n_s12s [(AVar n_ds1); (AVar n_ds2)]))) *c ((EV n_a34a [(AVar n_ds3); (AVar n_ds4)]) -c (EV n_s34s [(AVar n_ds3); (AVar n_ds4)]))) /c (EMemC n_pDenSZ)) +c ((((ELocT n_two) *t (EMemT n_preZ)) *tc ((((((EMemT n_gL) *t (EMemT n_gL)) *tc (EV n_s23s [(AVar n_ds2); (AVar n_ds3)])) *c (EV n_a14a [(AVar n_ds1); (AVar n_ds4)])) +c (((EMemT n_gL) *t (EMemT n_gR)) *tc (((EV n_s13s [(AVar n_ds1); (AVar n_ds3)]) *c (EV n_a24a [(AVar n_ds2); (AVar n_ds4)])) +c ((EV n_s24s [(AVar n_ds2); (AVar n_ds4)]) *c (EV n_a13a [(AVar n_ds1); (AVar n_ds3)]))))) +c ((((EMemT n_gR) *t (EMemT n_gR)) *tc (EV n_s14s [(AVar n_ds1); (AVar n_ds4)])) *c (EV n_a23a [(AVar n_ds2); (AVar n_ds3)])))) /c (EMemC n_pDenSZ))));,
SReturnC (ELocC n_amplitude)).
(** uucc::amp2: SM/uucc.cpp 164-183 *)
Definition uucc_amp2 : meth := mkMeth n_amp2 []
(SLoc rT n_amp2 (EUn I2T (EInt 0));,
SLoc rT n_two (EUn I2T (EInt 2));,
SLoc rT n_three (EUn I2T (EInt 3));,
SLoc rT n_nine (EUn I2T (EInt 9));,
SDecl rC n_M_rest;,
SDecl rC n_M_gluon;,
(SFor n_j1 (EUn NegI (EInt 1)) (EBin (CmpI CLe) (ELocI n_j1) (EInt 1)) (EBin (OpI IAdd) (ELocI n_j1) (EInt 2))
(SFor n_j2 (EUn NegI (EInt 1)) (EBin (CmpI CLe) (ELocI n_j2) (EInt 1)) (EBin (OpI IAdd) (ELocI n_j2) (EInt 2))
(SFor n_j3 (EUn NegI (EInt 1)) (EBin (CmpI CLe) (ELocI n_j3) (EInt 1)) (EBin (OpI IAdd) (ELocI n_j3) (EInt 2))
(SFor n_j4 (EUn NegI (EInt 1)) (EBin (CmpI CLe) (ELocI n_j4) (EInt 1)) (EBin (OpI IAdd) (ELocI n_j4) (EInt 2))
(SLoc rC n_M_rest (ECall n_amp_rest [(AVar n_j1); (AVar n_j2); (AVar n_j3); (AVar n_j4)]);,
SLoc rC n_M_gluon (ECall n_amp_gluon [(AVar n_j1); (AVar n_j2); (AVar n_j3); (AVar n_j4)]);,
SLoc rT n_amp2 ((ELocT n_amp2) +t ((ELocT n_nine) *t (EUn Pow2T (EUn AbsC (ELocC n_M_rest)))));,
SLoc rT n_amp2 ((ELocT n_amp2) +t ((ELocT n_two) *t (EUn Pow2T (EUn AbsC (ELocC n_M_gluon))))))))));,
SReturnT ((ELocT n_amp2) /t (EUn D2T (ELit (36 # 1))))).
(** members: SM/include/uucc.h 26-33; initialisers: SM/uucc.cpp 32-48 *)
Definition uucc : cls := mkCls "uucc"
[(n_e, KT);
(n_gs, KT);
(n_mu, KT);
(n_mc, KT);
(n_mh, KT);
(n_wh, KT);
(n_MZ, KT);
(n_WZ, KT);
(n_MW, KT);
(n_SW, KT);
(n_CW, KT);
(n_p1, (KPart 0));
(n_p2, (KPart 1));
(n_p3, (KPart 2));
(n_p4, (KPart 3));
(n_propAG, KProp);
(n_proph, KProp);
(n_propZ, KProp);
(n_pDenSAG, KC);
(n_pDenSh, KC);
(n_pDenSZ, KC);
(n_a13a, KSprod);
(n_s13s, KSprod);
(n_a14a, KSprod);
(n_s14s, KSprod);
(n_a23a, KSprod);
(n_s23s, KSprod);
(n_a24a, KSprod);
(n_s24s, KSprod);
(n_s12s, KSprod);
(n_a12a, KSprod);
(n_s34s, KSprod);
(n_a34a, KSprod);
(n_preh, KT);
(n_gL, KT);
(n_gR, KT);
(n_preZ, KT);
(n_preZ0, KT)]
[n_echarge; n_gscharge; n_massu; n_massc; n_massh; n_widthh; n_massW; n_sinW; n_widthZ]
[(n_e, NT (ELocT n_echarge));
(n_gs, NT (ELocT n_gscharge));
(n_mu, NT (ELocT n_massu));
(n_mc, NT (ELocT n_massc));
(n_mh, NT (ELocT n_massh));
(n_wh, NT (ELocT n_widthh));
(n_MW, NT (ELocT n_massW));
(n_SW, NT (ELocT n_sinW));
(n_CW, NT (EUn SqrtT ((EUn D2T (ELit (1 # 1))) -t ((ELocT n_sinW) *t (ELocT n_sinW)))));
(n_WZ, NT (ELocT n_widthZ));
(n_propAG, NProp (EUn I2T (EInt 0)) (EUn I2T (EInt 0)));
(n_proph, NProp (EMemT n_mh) (EMemT n_wh));
(n_p1, NPart (EMemT n_mu));
(n_p2, NPart (EMemT n_mu));
(n_p3, NPart (EMemT n_mc));
(n_p4, NPart (EMemT n_mc));
(n_a13a, NSprod true 0 [] 2);
(n_s13s, NSprod false 0 [] 2);
(n_a14a, NSprod true 0 [] 3);
(n_s14s, NSprod false 0 [] 3);
(n_a23a, NSprod true 1 [] 2);
(n_s23s, NSprod false 1 [] 2);
(n_a24a, NSprod true 1 [] 3);
(n_s24s, NSprod false 1 [] 3);
(n_s12s, NSprod false 0 [] 1);
(n_a12a, NSprod true 0 [] 1);
(n_s34s, NSprod false 2 [] 3);
(n_a34a, NSprod true 2 [] 3)]
uucc_ctor
[uucc_set_masses; uucc_set_momenta; uucc_amp_gluon; uucc_amp_rest; uucc_amp2].

(** uudd::uudd: SM/uudd.cpp 32-60 *)
Definition uudd_ctor : stmt :=
(SMemT n_MZ ((EMemT n_MW) /t (EMemT n_CW));,
SPropMass n_propZ (EMemT n_MZ);,
SMemT n_preh (((((EMemT n_e) *t (EMemT n_e)) *t (EMemT n_mu)) *t (EMemT n_md)) /t (((((EUn D2T (ELit (4 # 1))) *t (EMemT n_MW)) *t (EMemT n_MW)) *t (EMemT n_SW)) *t (EMemT n_SW)));,
SMemT n_gLu ((EUn D2T (ELit (1 # 1))) -t (((EUn D2T ((ELit (4 # 1)) /d (ELit (3 # 1)))) *t (EMemT n_SW)) *t (EMemT n_SW)));,
SMemT n_gRu (((EUn D2T ((EUn NegD (ELit (4 # 1))) /d (ELit (3 # 1)))) *t (EMemT n_SW)) *t (EMemT n_SW));,
SMemT n_gLd ((EUn D2T (EUn NegD (ELit (1 # 1)))) +t (((EUn D2T ((ELit (2 # 1)) /d (ELit (3 # 1)))) *t (EMemT n_SW)) *t (EMemT n_SW)));,
SMemT n_gRd (((EUn D2T ((ELit (2 # 1)) /d (ELit (3 # 1)))) *t (EMemT n_SW)) *t (EMemT n_SW));,
SMemT n_preZ (((EMemT n_e) *t (EMemT n_e)) /t (((((EUn D2T (ELit (4 # 1))) *t (EMemT n_CW)) *t (EMemT n_CW)) *t (EMemT n_SW)) *t (EMemT n_SW)));,
SMemT n_preZ0 (((((((EMemT n_preZ) *t ((EMemT n_gLu) -t (EMemT n_gRu))) *t ((EMemT n_gLd) -t (EMemT n_gRd))) *t (EMemT n_mu)) *t (EMemT n_md)) /t (EMemT n_MZ)) /t (EMemT n_MZ))).
(** uudd::set_masses: SM/uudd.cpp 61-76 *)
Definition uudd_set_masses : meth := mkMeth n_set_masses [(n_massu, PkT); (n_massd, PkT); (n_massh, PkT); (n_massW, PkT)]
(SMemT n_mu (ELocT n_massu);,
SMemT n_md (ELocT n_massd);,
SMemT n_mh (ELocT n_massh);,
SPropMass n_proph (EMemT n_mh);,
SMemT n_MW (ELocT n_massW);,
SPropMass n_propW (EMemT n_MW);,
SMemT n_MZ ((EMemT n_MW) /t (EMemT n_CW));,
SPropMass n_propZ (EMemT n_MZ);,
SSetMass 0 (EMemT n_mu);,
SSetMass 1 (EMemT n_mu);,
SSetMass 2 (EMemT n_md);,
SSetMass 3 (EMemT n_md);,
SMemT n_preh (((((EMemT n_e) *t (EMemT n_e)) *t (EMemT n_mu)) *t (EMemT n_md)) /t (((((EUn I2T (EInt 4)) *t (EMemT n_MW)) *t (EMemT n_MW)) *t (EMemT n_SW)) *t (EMemT n_SW)));,
SMemT n_preZ0 (((((((EMemT n_preZ) *t ((EMemT n_gLu) -t (EMemT n_gRu))) *t ((EMemT n_gLd) -t (EMemT n_gRd))) *t (EMemT n_mu)) *t (EMemT n_md)) /t (EMemT n_MZ)) /t (EMemT n_MZ))).
(** uudd::set_momenta: SM/uudd.cpp 77-105 *)
Definition uudd_set_momenta : meth := mkMeth n_set_momenta [(n_mom1, PkMom); (n_mom2, PkMom); (n_mom3, PkMom); (n_mom4, PkMom)]
(SSetMomentum 0 n_mom1;,
SSetMomentum 1 n_mom2;,
SSetMomentum 2 n_mom3;,
SSetMomentum 3 n_mom4;,
SUpdate n_a13a;,
SUpdate n_s13s;,
SUpdate n_a14a;,
SUpdate n_s14s;,
SUpdate n_a23a;,
SUpdate n_s23s;,
SUpdate n_a24a;,
SUpdate n_s24s;,
SUpdate n_s12s;,
SUpdate n_a12a;,
SUpdate n_s34s;,
SUpdate n_a34a;,
SDeclT n_propPS 4;,
SDeclT n_propPT 4;,
(SFor n_j (EInt 0) (EBin (CmpI CLt) (ELocI n_j) (EInt 4)) (EBin (OpI IAdd) (ELocI n_j) (EInt 1))
(SArrT n_propPS (AVar n_j) ((EArrT n_mom1 (AVar n_j)) +t (EArrT n_mom2 (AVar n_j)));,
SArrT n_propPT (AVar n_j) ((EArrT n_mom1 (AVar n_j)) -t (EArrT n_mom3 (AVar n_j)))));,
SMemC n_pDenSAG (EDen n_propAG n_propPS);,
SMemC n_pDenSh (EDen n_proph n_propPS);,
SMemC n_pDenSZ (EDen n_propZ n_propPS);,
SMemC n_pDenTW (EDen n_propW n_propPT)).
(** uudd::amp_gluon: SM/uudd.cpp 113-126 *)
Definition uudd_amp_gluon : meth := mkMeth n_amp_gluon [(n_ds1, PkI); (n_ds2, PkI); (n_ds3, PkI); (n_ds4, PkI)]
(SLoc rT n_two (EUn I2T (EInt 2));,
SLoc rC n_amplitude (EBin OpTTC (EUn I2T (EInt 0)) (EUn I2T (EInt 0)));,
SLoc rC n_amplitude (((((ELocT n_two) *t (EMemT n_gs)) *t (EMemT n_gs)) *tc (((((EV n_a13a [(AVar n_ds1); (AVar n_ds3)]) *c (EV n_s24s [(AVar n_ds2); (AVar n_ds4)])) +c ((EV n_a14a [(AVar n_ds1); (AVar n_ds4)]) *c (EV n_s23s [(AVar n_ds2); (AVar n_ds3)]))) +c ((EV n_s13s [(AVar n_ds1); (AVar n_ds3)]) *c (EV n_a24a [(AVar n_ds2); (AVar n_ds4)]))) +c ((EV n_s14s [(AVar n_ds1); (AVar n_ds4)]) *c (EV n_a23a [(AVar n_ds2); (AVar n_ds3)])))) /c (EMemC n_pDenSAG));,
SReturnC (ELocC n_amplitude)).
(** uudd::amp_rest: SM/uudd.cpp 127-171 *)
Definition uudd_amp_rest : meth := mkMeth n_amp_rest [(n_ds1, PkI); (n_ds2, PkI); (n_ds3, PkI); (n_ds4, PkI)]
(SLoc rT n_two (EUn I2T (EInt 2));,
SLoc rC n_amplitude (EBin OpTTC (EUn I2T (EInt 0)) (EUn I2T (EInt 0)));,
SLoc rC n_amplitude (((((((EUn NegT (ELocT n_two)) *t (EMemT n_e)) *t (EMemT n_e)) *t (EUn D2T (ELit (2 # 1)))) /t (EUn D2T (ELit (9 # 1)))) *tc (((((EV n_a13a [(AVar n_ds1); (AVar n_ds3)]) *c (EV n_s24s [(AVar n_ds2); (AVar n_ds4)])) +c ((EV n_a14a [(AVar n_ds1); (AVar n_ds4)]) *c (EV n_s23s [(AVar n_ds2); (AVar n_ds3)]))) +c ((EV n_s13s [(AVar n_ds1); (AVar n_ds3)]) *c (EV n_a24a [(AVar n_ds2); (AVar n_ds4)]))) +c ((EV n_s14s [(AVar n_ds1); (AVar n_ds4)]) *c (EV n_a23a [(AVar n_ds2); (AVar n_ds3)])))) /c (EMemC n_pDenSAG));,
SLoc rC n_amplitude ((ELocC n_amplitude) +c ((((EMemT n_preh) *tc ((EV n_s12s [(AVar n_ds1); (AVar n_ds2)]) +c (EV n_a12a [(AVar n_ds1); (AVar n_ds2)]))) *c ((EV n_s34s [(AVar n_ds3); (AVar n_ds4)]) +c (EV n_a34a [(AVar n_ds3); (AVar n_ds4)]))) /c (EMemC n_pDenSh)));,
SLoc rC n_amplitude ((ELocC n_amplitude) +c (((((EUn NegT (EMemT n_preZ0)) *tc ((EV n_a12a [(AVar n_ds1); (AVar n_ds2)]) -c (EV n_s12s [(AVar n_ds1); (AVar n_ds2)]))) *c ((EV n_a34a [(AVar n_ds3); (AVar n_ds4)]) -c (EV n_s34s [(AVar n_ds3); (AVar n_ds4)]))) /c (EMemC n_pDenSZ)) +c ((((ELocT n_two) *t (EMemT n_preZ)) *tc (((((((EMemT n_gLu) *t (EMemT n_gLd)) *tc (EV n_s23s [(AVar n_ds2); (AVar n_ds3)])) *c (EV n_a14a [(AVar n_ds1); (AVar n_ds4)])) +c ((((EMemT n_gLd) *t (EMemT n_gRu)) *tc (EV n_s13s [(AVar n_ds1); (AVar n_ds3)])) *c (EV n_a24a [(AVar n_ds2); (AVar n_ds4)]))) +c ((((EMemT n_gLu) *t (EMemT n_gRd)) *tc (EV n_s24s [(AVar n_ds2); (AVar n_ds4)])) *c (EV n_a13a [(AVar n_ds1); (AVar n_ds3)]))) +c ((((EMemT n_gRu) *t (EMemT n_gRd)) *tc (EV n_s14s [(AVar n_ds1); (AVar n_ds4)])) *c (EV n_a23a [(AVar n_ds2); (AVar n_ds3)])))) /c (EMemC n_pDenSZ))));,
SReturnC (ELocC n_amplitude)).
(** uudd::amp_W: SM/uudd.cpp 174-188 *)
Definition uudd_amp_W : meth := mkMeth n_amp_W [(n_ds1, PkI); (n_ds2, PkI); (n_ds3, PkI); (n_ds4, PkI)]
(SReturnC ((((((EMemT n_e) *t (EMemT n_e)) /t (EMemT n_SW)) /t (EMemT n_SW)) *tc ((((((EUn D2T (ELit (2 # 1))) *t (EMemT n_MW)) *t (EMemT n_MW)) *tc (EV n_a14a [(AVar n_ds1); (AVar n_ds4)])) *c (EV n_s23s [(AVar n_ds2); (AVar n_ds3)])) +c ((((EMemT n_mu) *tc (EV n_s13s [(AVar n_ds1); (AVar n_ds3)])) +c ((EMemT n_md) *tc (EV n_a13a [(AVar n_ds1); (AVar n_ds3)]))) *c (((EMemT n_mu) *tc (EV n_a24a [(AVar n_ds2); (AVar n_ds4)])) +c ((EMemT n_md) *tc (EV n_s24s [(AVar n_ds2); (AVar n_ds4)])))))) /c ((((EUn D2T (ELit (2 # 1))) *t (EMemT n_MW)) *t (EMemT n_MW)) *tc (EMemC n_pDenTW)))).
(** uudd::amp2: SM/uudd.cpp 191-214 *)
Definition uudd_amp2 : meth := mkMeth n_amp2 []
(SLoc rT n_amp2 (EUn I2T (EInt 0));,
SLoc rT n_two (EUn I2T (EInt 2));,
SLoc rT n_three (EUn I2T (EInt 3));,
SLoc rT n_four (EUn I2T (EInt 4));,
SLoc rT n_nine (EUn I2T (EInt 9));,
SDecl rC n_M_rest;,
SDecl rC n_M_W;,
SDecl rC n_M_gluon;,
(SFor n_j1 (EUn NegI (EInt 1)) (EBin (CmpI CLe) (ELocI n_j1) (EInt 1)) (EBin (OpI IAdd) (ELocI n_j1) (EInt 2))
(SFor n_j2 (EUn NegI (EInt 1)) (EBin (CmpI CLe) (ELocI n_j2) (EInt 1)) (EBin (OpI IAdd) (ELocI n_j2) (EInt 2))
(SFor n_j3 (EUn NegI (EInt 1)) (EBin (CmpI CLe) (ELocI n_j3) (EInt 1)) (EBin (OpI IAdd) (ELocI n_j3) (EInt 2))
(SFor n_j4 (EUn NegI (EInt 1)) (EBin (CmpI CLe) (ELocI n_j4) (EInt 1)) (EBin (OpI IAdd) (ELocI n_j4) (EInt 2))
(SLoc rC n_M_rest (ECall n_amp_rest [(AVar n_j1); (AVar n_j2); (AVar n_j3); (AVar n_j4)]);,
SLoc rC n_M_W (ECall n_amp_W [(AVar n_j1); (AVar n_j2); (AVar n_j3); (AVar n_j4)]);,
SLoc rC n_M_gluon (ECall n_amp_gluon [(AVar n_j1); (AVar n_j2); (AVar n_j3); (AVar n_j4)]);,
SLoc rT n_amp2 ((ELocT n_amp2) +t ((ELocT n_nine) *t (EUn Pow2T (EUn AbsC (ELocC n_M_rest)))));,
SLoc rT n_amp2 ((ELocT n_amp2) +t (((ELocT n_three) *t (ELocT n_two)) *t (EUn ReC ((ELocC n_M_rest) *c (EUn ConjC (ELocC n_M_W))))));,
SLoc rT n_amp2 ((ELocT n_amp2) +t ((ELocT n_nine) *t (EUn Pow2T (EUn AbsC (ELocC n_M_W)))));,
SLoc rT n_amp2 ((ELocT n_amp2) +t (((ELocT n_four) *t (ELocT n_two)) *t (EUn ReC ((ELocC n_M_gluon) *c (EUn ConjC (ELocC n_M_W))))));,
SLoc rT n_amp2 ((ELocT n_amp2) +t ((ELocT n_two) *t (EUn Pow2T (EUn AbsC (ELocC n_M_gluon))))))))));,
SReturnT ((ELocT n_amp2) /t (EUn D2T (ELit (36 # 1))))).
(** members: SM/include/uudd.h 26-33; initialisers: SM/uudd.cpp 32-48 *)
Definition uudd : cls := mkCls "uudd"
[(n_e, KT);
(n_gs, KT);
(n_mu, KT);
(n_md, KT);
(n_mh, KT);
(n_wh, KT);
(n_MZ, KT);
(n_WZ, KT);
(n_MW, KT);
(n_WW, KT);
(n_SW, KT);
(n_CW, KT);
(n_p1, (KPart 0));
(n_p2, (KPart 1));
(n_p3, (KPart 2));
(n_p4, (KPart 3));
(n_propAG, KProp);
(n_proph, KProp);
(n_propZ, KProp);
(n_propW, KProp);
(n_pDenSAG, KC);
(n_pDenSh, KC);
(n_pDenSZ, KC);
(n_pDenTW, KC);
(n_a13a, KSprod);
(n_s13s, KSprod);
(n_a14a, KSprod);
(n_s14s, KSprod);
(n_a23a, KSprod);
(n_s23s, KSprod);
(n_a24a, KSprod);
(n_s24s, KSprod);
(n_s12s, KSprod);
(n_a12a, KSprod);
(n_s34s, KSprod);
(n_a34a, KSprod);
(n_preh, KT);
(n_gLu, KT);
(n_gRu, KT);
(n_gLd, KT);
(n_gRd, KT);
(n_preZ, KT);
(n_preZ0, KT)]
[n_echarge; n_gscharge; n_massu; n_massd; n_massh; n_widthh; n_massW; n_widthW; n_sinW; n_widthZ]
[(n_e, NT (ELocT n_echarge));
(n_gs, NT (ELocT n_gscharge));
(n_mu, NT (ELocT n_massu));
(n_md, NT (ELocT n_massd));
(n_mh, NT (ELocT n_massh));
(n_wh, NT (ELocT n_widthh));
(n_MW, NT (ELocT n_massW));
(n_WW, NT (ELocT n_widthW));
(n_SW, NT (ELocT n_sinW));
(n_CW, NT (EUn SqrtT ((EUn D2T (ELit (1 # 1))) -t ((ELocT n_sinW) *t (ELocT n_sinW)))));
(n_WZ, NT (ELocT n_widthZ));
(n_propAG, NProp (EUn I2T (EInt 0)) (EUn I2T (EInt 0)));
(n_proph, NProp (EMemT n_mh) (EMemT n_wh));
(n_propW, NProp (EMemT n_MW) (EMemT n_WW));
(n_p1, NPart (EMemT n_mu));
(n_p2, NPart (EMemT n_mu));
(n_p3, NPart (EMemT n_md));
(n_p4, NPart (EMemT n_md));
(n_a13a, NSprod true 0 [] 2);
(n_s13s, NSprod false 0 [] 2);
(n_a14a, NSprod true 0 [] 3);
(n_s14s, NSprod false 0 [] 3);
(n_a23a, NSprod true 1 [] 2);
(n_s23s, NSprod false 1 [] 2);
(n_a24a, NSprod true 1 [] 3);
(n_s24s, NSprod false 1 [] 3);
(n_s12s, NSprod false 0 [] 1);
(n_a12a, NSprod true 0 [] 1);
(n_s34s, NSprod false 2 [] 3);
(n_a34a, NSprod true 2 [] 3)]
uudd_ctor
[uudd_set_masses; uudd_set_momenta; uudd_amp_gluon; uudd_amp_rest; uudd_amp_W; uudd_amp2].

(** uuee::uuee: SM/uuee.cpp 32-60 *)
Definition uuee_ctor : stmt :=
(SMemT n_MZ ((EMemT n_MW) /t (EMemT n_CW));,
SPropMass n_propZ (EMemT n_MZ);,
SMemT n_preh (((((EMemT n_e) *t (EMemT n_e)) *t (EMemT n_mu)) *t (EMemT n_me)) /t (((((EUn D2T (ELit (4 # 1))) *t (EMemT n_MW)) *t (EMemT n_MW)) *t (EMemT n_SW)) *t (EMemT n_SW)));,
SMemT n_gLu ((EUn D2T (ELit (1 # 1))) -t (((EUn D2T ((ELit (4 # 1)) /d (ELit (3 # 1)))) *t (EMemT n_SW)) *t (EMemT n_SW)));,
SMemT n_gRu (((EUn D2T ((EUn NegD (ELit (4 # 1))) /d (ELit (3 # 1)))) *t (EMemT n_SW)) *t (EMemT n_SW));,
SMemT n_gLe ((EUn D2T (EUn NegD (ELit (1 # 1)))) +t (((EUn D2T (ELit (2 # 1))) *t (EMemT n_SW)) *t (EMemT n_SW)));,
SMemT n_gRe (((EUn D2T (ELit (2 # 1))) *t (EMemT n_SW)) *t (EMemT n_SW));,
SMemT n_preZ (((EMemT n_e) *t (EMemT n_e)) /t (((((EUn D2T (ELit (4 # 1))) *t (EMemT n_CW)) *t (EMemT n_CW)) *t (EMemT n_SW)) *t (EMemT n_SW)));,
SMemT n_preZ0 (((((((EMemT n_preZ) *t ((EMemT n_gLu) -t (EMemT n_gRu))) *t ((EMemT n_gLe) -t (EMemT n_gRe))) *t (EMemT n_mu)) *t (EMemT n_me)) /t (EMemT n_MZ)) /t (EMemT n_MZ))).
(** uuee::set_masses: SM/uuee.cpp 61-75 *)
Definition uuee_set_masses : meth := mkMeth n_set_masses [(n_massu, PkT); (n_masse, PkT); (n_massh, PkT); (n_massW, PkT)]
(SMemT n_mu (ELocT n_massu);,
SMemT n_me (ELocT n_masse);,
SMemT n_mh (ELocT n_massh);,
SPropMass n_proph (EMemT n_mh);,
SMemT n_MW (ELocT n_massW);,
SMemT n_MZ ((EMemT n_MW) /t (EMemT n_CW));,
SPropMass n_propZ (EMemT n_MZ);,
SSetMass 0 (EMemT n_mu);,
SSetMass 1 (EMemT n_mu);,
SSetMass 2 (EMemT n_me);,
SSetMass 3 (EMemT n_me);,
SMemT n_preh (((((EMemT n_e) *t (EMemT n_e)) *t (EMemT n_mu)) *t (EMemT n_me)) /t (((((EUn I2T (EInt 4)) *t (EMemT n_MW)) *t (EMemT n_MW)) *t (EMemT n_SW)) *t (EMemT n_SW)));,
SMemT n_preZ0 (((((((EMemT n_preZ) *t ((EMemT n_gLu) -t (EMemT n_gRu))) *t ((EMemT n_gLe) -t (EMemT n_gRe))) *t (EMemT n_mu)) *t (EMemT n_me)) /t (EMemT n_MZ)) /t (EMemT n_MZ))).
(** uuee::set_momenta: SM/uuee.cpp 76-101 *)
Definition uuee_set_momenta : meth := mkMeth n_set_momenta [(n_mom1, PkMom); (n_mom2, PkMom); (n_mom3, PkMom); (n_mom4, PkMom)]
(SSetMomentum 0 n_mom1;,
SSetMomentum 1 n_mom2;,
SSetMomentum 2 n_mom3;,
SSetMomentum 3 n_mom4;,
SUpdate n_a13a;,
SUpdate n_s13s;,
SUpdate n_a14a;,
SUpdate n_s14s;,
SUpdate n_a23a;,
SUpdate n_s23s;,
SUpdate n_a24a;,
SUpdate n_s24s;,
SUpdate n_s12s;,
SUpdate n_a12a;,
SUpdate n_s34s;,
SUpdate n_a34a;,
SDeclT n_propP 4;,
(SFor n_j (EInt 0) (EBin (CmpI CLt) (ELocI n_j) (EInt 4)) (EBin (OpI IAdd) (ELocI n_j) (EInt 1))
(SArrT n_propP (AVar n_j) ((EArrT n_mom1 (AVar n_j)) +t (EArrT n_mom2 (AVar n_j)))));,
SMemC n_pDenSA (EDen n_propA n_propP);,
SMemC n_pDenSh (EDen n_proph n_propP);,
SMemC n_pDenSZ (EDen n_propZ n_propP)).
(** uuee::amp: SM/uuee.cpp 106-150 *)
Definition uuee_amp : meth := mkMeth n_amp [(n_ds1, PkI); (n_ds2, PkI); (n_ds3, PkI); (n_ds4, PkI)]
(SLoc rT n_two (EUn I2T (EInt 2));,
SLoc rC n_amplitude (EBin OpTTC (EUn I2T (EInt 0)) (EUn I2T (EInt 0)));,
SLoc rC n_amplitude (((((((EUn NegT (ELocT n_two)) *t (EMemT n_e)) *t (EMemT n_e)) *t (EUn D2T (ELit (2 # 1)))) /t (EUn D2T (ELit (3 # 1)))) *tc (((((EV n_a13a [(AVar n_ds1); (AVar n_ds3)]) *c (EV n_s24s [(AVar n_ds2); (AVar n_ds4)])) +c ((EV n_a14a [(AVar n_ds1); (AVar n_ds4)]) *c (EV n_s23s [(AVar n_ds2); (AVar n_ds3)]))) +c ((EV n_s13s [(AVar n_ds1); (AVar n_ds3)]) *c (EV n_a24a [(AVar n_ds2); (AVar n_ds4)]))) +c ((EV n_s14s [(AVar n_ds1); (AVar n_ds4)]) *c (EV n_a23a [(AVar n_ds2); (AVar n_ds3)])))) /c (EMemC n_pDenSA));,
SLoc rC n_amplitude ((ELocC n_amplitude) +c ((((EMemT n_preh) *tc ((EV n_s12s [(AVar n_ds1); (AVar n_ds2)]) +c (EV n_a12a [(AVar n_ds1); (AVar n_ds2)]))) *c ((EV n_s34s [(AVar n_ds3); (AVar n_ds4)]) +c (EV n_a34a [(AVar n_ds3); (AVar n_ds4)]))) /c (EMemC n_pDenSh)));,
SLoc rC n_amplitude ((ELocC n_amplitude) +c (((((EUn NegT (EMemT n_preZ0)) *tc ((EV n_a12a [(AVar n_ds1); (AVar n_ds2)]) -c (EV n_s12s [(AVar n_ds1); (AVar n_ds2)]))) *c ((EV n_a34a [(AVar n_ds3); (AVar n_ds4)]) -c (EV n_s34s [(AVar n_ds3); (AVar n_ds4)]))) /c (EMemC n_pDenSZ)) +c ((((ELocT n_two) *t (EMemT n_preZ)) *tc (((((((EMemT n_gLu) *t (EMemT n_gLe)) *tc (EV n_s23s [(AVar n_ds2); (AVar n_ds3)])) *c (EV n_a14a [(AVar n_ds1); (AVar n_ds4)])) +c ((((EMemT n_gLe) *t (EMemT n_gRu)) *tc (EV n_s13s [(AVar n_ds1); (AVar n_ds3)])) *c (EV n_a24a [(AVar n_ds2); (AVar n_ds4)]))) +c ((((EMemT n_gLu) *t (EMemT n_gRe)) *tc (EV n_s24s [(AVar n_ds2); (AVar n_ds4)])) *c (EV n_a13a [(AVar n_ds1); (AVar n_ds3)]))) +c ((((EMemT n_gRu) *t (EMemT n_gRe)) *tc (EV n_s14s [(AVar n_ds1); (AVar n_ds4)])) *c (EV n_a23a [(AVar n_ds2); (AVar n_ds3)])))) /c (EMemC n_pDenSZ))));,
SReturnC (ELocC n_amplitude)).
(** uuee::amp2: SM/uuee.cpp 153-169 *)
Definition uuee_amp2 : meth := mkMeth n_amp2 []
(SLoc rT n_amp2 (EUn I2T (EInt 0));,
SLoc rT n_two (EUn I2T (EInt 2));,
SLoc rT n_three (EUn I2T (EInt 3));,
SDecl rC n_M;,
(SFor n_j1 (EUn NegI (EInt 1)) (EBin (CmpI CLe) (ELocI n_j1) (EInt 1)) (EBin (OpI IAdd) (ELocI n_j1) (EInt 2))
(SFor n_j2 (EUn NegI (EInt 1)) (EBin (CmpI CLe) (ELocI n_j2) (EInt 1)) (EBin (OpI IAdd) (ELocI n_j2) (EInt 2))
(SFor n_j3 (EUn NegI (EInt 1)) (EBin (CmpI CLe) (ELocI n_j3) (EInt 1)) (EBin (OpI IAdd) (ELocI n_j3) (EInt 2))
(SFor n_j4 (EUn NegI (EInt 1)) (EBin (CmpI CLe) (ELocI n_j4) (EInt 1)) (EBin (OpI IAdd) (ELocI n_j4) (EInt 2))
(SLoc rC n_M (ECall n_amp [(AVar n_j1); (AVar n_j2); (AVar n_j3); (AVar n_j4)]);,
SLoc rT n_amp2 ((ELocT n_amp2) +t ((ELocT n_three) *t (EUn Pow2T (EUn AbsC (ELocC n_M))))))))));,
SReturnT ((ELocT n_amp2) /t (EUn D2T (ELit (36 # 1))))).
(** members: SM/include/uuee.h 26-33; initialisers: SM/uuee.cpp 32-48 *)
Definition uuee : cls := mkCls "uuee"
[(n_e, KT);
(n_mu, KT);
(n_me, KT);
(n_mh, KT);
(n_wh, KT);
(n_MZ, KT);
(n_WZ, KT);
(n_MW, KT);
(n_SW, KT);
(n_CW, KT);
(n_p1, (KPart 0));
(n_p2, (KPart 1));
(n_p3, (KPart 2));
(n_p4, (KPart 3));
(n_propA, KProp);
(n_proph, KProp);
(n_propZ, KProp);
(n_pDenSA, KC);
(n_pDenSh, KC);
(n_pDenSZ, KC);
(n_a13a, KSprod);
(n_s13s, KSprod);
(n_a14a, KSprod);
(n_s14s, KSprod);
(n_a23a, KSprod);
(n_s23s, KSprod);
(n_a24a, KSprod);
(n_s24s, KSprod);
(n_s12s, KSprod);
(n_a12a, KSprod);
(n_s34s, KSprod);
(n_a34a, KSprod);
(n_preh, KT);
(n_gLu, KT);
(n_gRu, KT);
(n_gLe, KT);
(n_gRe, KT);
(n_preZ, KT);
(n_preZ0, KT)]
[n_echarge; n_massu; n_masse; n_massh; n_widthh; n_massW; n_sinW; n_widthZ]
[(n_e, NT (ELocT n_echarge));
(n_mu, NT (ELocT n_massu));
(n_me, NT (ELocT n_masse));
(n_mh, NT (ELocT n_massh));
(n_wh, NT (ELocT n_widthh));
(n_MW, NT (ELocT n_massW));
(n_SW, NT (ELocT n_sinW));
(n_CW, NT (EUn SqrtT ((EUn D2T (ELit (1 # 1))) -t ((ELocT n_sinW) *t (ELocT n_sinW)))));
(n_WZ, NT (ELocT n_widthZ));
(n_propA, NProp (EUn I2T (EInt 0)) (EUn I2T (EInt 0)));
(n_proph, NProp (EMemT n_mh) (EMemT n_wh));
(n_p1, NPart (EMemT n_mu));
(n_p2, NPart (EMemT n_mu));
(n_p3, NPart (EMemT n_me));
(n_p4, NPart (EMemT n_me));
(n_a13a, NSprod true 0 [] 2);
(n_s13s, NSprod false 0 [] 2);
(n_a14a, NSprod true 0 [] 3);
(n_s14s, NSprod false 0 [] 3);
(n_a23a, NSprod true 1 [] 2);
(n_s23s, NSprod false 1 [] 2);
(n_a24a, NSprod true 1 [] 3);
(n_s24s, NSprod false 1 [] 3);
(n_s12s, NSprod false 0 [] 1);
(n_a12a, NSprod true 0 [] 1);
(n_s34s, NSprod false 2 [] 3);
(n_a34a, NSprod true 2 [] 3)]
uuee_ctor
[uuee_set_masses; uuee_set_momenta; uuee_amp; uuee_amp2].

(** uuhh::uuhh: SM/uuhh.cpp 32-45 *)
Definition uuhh_ctor : stmt :=
(SLoc rT n_sqrt2 (EUn D2T (EUn SqrtD (EUn I2D (EInt 2))));,
SMemT n_prehS (((((((EUn D2T (ELit (3 # 1))) *t (EMemT n_e)) *t (EMemT n_e)) *t (EMemT n_mu)) *t (EMemT n_mh)) *t (EMemT n_mh)) /t (((((EUn D2T (ELit (4 # 1))) *t (EMemT n_MW)) *t (EMemT n_MW)) *t (EMemT n_SW)) *t (EMemT n_SW)));,
SMemT n_prehTU (((((EMemT n_e) *t (EMemT n_e)) *t (EMemT n_mu)) *t (EMemT n_mu)) /t (((((EUn D2T (ELit (4 # 1))) *t (EMemT n_MW)) *t (EMemT n_MW)) *t (EMemT n_SW)) *t (EMemT n_SW)))).
(** uuhh::set_masses: SM/uuhh.cpp 46-59 *)
Definition uuhh_set_masses : meth := mkMeth n_set_masses [(n_massu, PkT); (n_massh, PkT); (n_massW, PkT)]
(SLoc rT n_sqrt2 (EUn D2T (EUn SqrtD (EUn I2D (EInt 2))));,
SMemT n_mu (ELocT n_massu);,
SPropMass n_propu (EMemT n_mu);,
SMemT n_mh (ELocT n_massh);,
SPropMass n_proph (EMemT n_mh);,
SMemT n_MW (ELocT n_massW);,
SSetMass 0 (EMemT n_mu);,
SSetMass 1 (EMemT n_mu);,
SSetMass 2 (EMemT n_mh);,
SSetMass 3 (EMemT n_mh);,
SMemT n_prehS (((((((EUn D2T (ELit (3 # 1))) *t (EMemT n_e)) *t (EMemT n_e)) *t (EMemT n_mu)) *t (EMemT n_mh)) *t (EMemT n_mh)) /t (((((EUn D2T (ELit (4 # 1))) *t (EMemT n_MW)) *t (EMemT n_MW)) *t (EMemT n_SW)) *t (EMemT n_SW)));,
SMemT n_prehTU (((((EMemT n_e) *t (EMemT n_e)) *t (EMemT n_mu)) *t (EMemT n_mu)) /t (((((EUn D2T (ELit (4 # 1))) *t (EMemT n_MW)) *t (EMemT n_MW)) *t (EMemT n_SW)) *t (EMemT n_SW)))).
(** uuhh::set_momenta: SM/uuhh.cpp 60-80 *)
Definition uuhh_set_momenta : meth := mkMeth n_set_momenta [(n_mom1, PkMom); (n_mom2, PkMom); (n_mom3, PkMom); (n_mom4, PkMom)]
(SSetMomentum 0 n_mom1;,
SSetMomentum 1 n_mom2;,
SSetMomentum 2 n_mom3;,
SSetMomentum 3 n_mom4;,
SUpdate n_s12s;,
SUpdate n_a12a;,
SUpdate n_s132a;,
SUpdate n_s231a;,
SDeclT n_propPS 4;,
SDeclT n_propPT 4;,
SDeclT n_propPU 4;,
(SFor n_j (EInt 0) (EBin (CmpI CLt) (ELocI n_j) (EInt 4)) (EBin (OpI IAdd) (ELocI n_j) (EInt 1))
(SArrT n_propPS (AVar n_j) ((EArrT n_mom1 (AVar n_j)) +t (EArrT n_mom2 (AVar n_j)));,
SArrT n_propPT (AVar n_j) ((EArrT n_mom1 (AVar n_j)) -t (EArrT n_mom3 (AVar n_j)));,
SArrT n_propPU (AVar n_j) ((EArrT n_mom1 (AVar n_j)) -t (EArrT n_mom4 (AVar n_j)))));,
SMemC n_pDenSh (EDen n_proph n_propPS);,
SMemC n_pDenTu (EDen n_propu n_propPT);,
SMemC n_pDenUu (EDen n_propu n_propPU)).
(** uuhh::amp: SM/uuhh.cpp 85-111 *)
Definition uuhh_amp : meth := mkMeth n_amp [(n_ds1, PkI); (n_ds2, PkI)]
(SLoc rT n_two (EUn I2T (EInt 2));,
SLoc rC n_amplitude (EBin OpTTC (EUn I2T (EInt 0)) (EUn I2T (EInt 0)));,
SLoc rC n_amplitude ((ELocC n_amplitude) +c (((EMemT n_prehS) *tc ((EV n_s12s [(AVar n_ds1); (AVar n_ds2)]) +c (EV n_a12a [(AVar n_ds1); (AVar n_ds2)]))) /c (EMemC n_pDenSh)));,
SLoc rC n_amplitude ((ELocC n_amplitude) +c (((EMemT n_prehTU) *tc (((((ELocT n_two) *t (EMemT n_mu)) *tc ((EV n_s12s [(AVar n_ds1); (AVar n_ds2)]) +c (EV n_a12a [(AVar n_ds1); (AVar n_ds2)]))) -c (EV n_s132a [(AVar n_ds1); (AVar n_ds2)])) -c (EV n_s231a [(AVar n_ds2); (AVar n_ds1)]))) /c (EMemC n_pDenTu)));,
SLoc rC n_amplitude ((ELocC n_amplitude) +c (((EMemT n_prehTU) *tc (((((ELocT n_two) *t (EMemT n_mu)) *tc ((EV n_s12s [(AVar n_ds1); (AVar n_ds2)]) +c (EV n_a12a [(AVar n_ds1); (AVar n_ds2)]))) +c (EV n_s132a [(AVar n_ds1); (AVar n_ds2)])) +c (EV n_s231a [(AVar n_ds2); (AVar n_ds1)]))) /c (EMemC n_pDenUu)));,
SReturnC (ELocC n_amplitude)).
(** uuhh::amp2: SM/uuhh.cpp 114-128 *)
Definition uuhh_amp2 : meth := mkMeth n_amp2 []
(SLoc rT n_amp2 (EUn I2T (EInt 0));,
SDecl rC n_M;,
(SFor n_j1 (EUn NegI (EInt 1)) (EBin (CmpI CLe) (ELocI n_j1) (EInt 1)) (EBin (OpI IAdd) (ELocI n_j1) (EInt 2))
(SFor n_j2 (EUn NegI (EInt 1)) (EBin (CmpI CLe) (ELocI n_j2) (EInt 1)) (EBin (OpI IAdd) (ELocI n_j2) (EInt 2))
(SLoc rC n_M (ECall n_amp [(AVar n_j1); (AVar n_j2)]);,
SLoc rT n_amp2 ((ELocT n_amp2) +t ((EUn D2T (ELit (3 # 1))) *t (EUn Pow2T (EUn AbsC (ELocC n_M))))))));,
SReturnT ((ELocT n_amp2) /t (EUn D2T (ELit (72 # 1))))).
(** members: SM/include/uuhh.h 26-32; initialisers: SM/uuhh.cpp 32-40 *)
Definition uuhh : cls := mkCls "uuhh"
[(n_e, KT);
(n_mu, KT);
(n_mh, KT);
(n_wh, KT);
(n_MW, KT);
(n_SW, KT);
(n_p1, (KPart 0));
(n_p2, (KPart 1));
(n_p3, (KPart 2));
(n_p4, (KPart 3));
(n_proph, KProp);
(n_propu, KProp);
(n_pDenSh, KC);
(n_pDenTu, KC);
(n_pDenUu, KC);
(n_s12s, KSprod);
(n_a12a, KSprod);
(n_s132a, KSprod);
(n_s231a, KSprod);
(n_prehS, KT);
(n_prehTU, KT)]
[n_echarge; n_massu; n_massh; n_widthh; n_massW; n_sinW]
[(n_e, NT (ELocT n_echarge));
(n_mu, NT (ELocT n_massu));
(n_mh, NT (ELocT n_massh));
(n_wh, NT (ELocT n_widthh));
(n_MW, NT (ELocT n_massW));
(n_SW, NT (ELocT n_sinW));
(n_propu, NProp (EMemT n_mu) (EUn I2T (EInt 0)));
(n_proph, NProp (EMemT n_mh) (EMemT n_wh));
(n_p1, NPart (EMemT n_mu));
(n_p2, NPart (EMemT n_mu));
(n_p3, NPart (EMemT n_mh));
(n_p4, NPart (EMemT n_mh));
(n_s12s, NSprod false 0 [] 1);
(n_a12a, NSprod true 0 [] 1);
(n_s132a, NSprod false 0 [2] 1);
(n_s231a, NSprod false 1 [2] 0)]
uuhh_ctor
[uuhh_set_masses; uuhh_set_momenta; uuhh_amp; uuhh_amp2].

(** uunn::uunn: SM/uunn.cpp 32-57 *)
Definition uunn_ctor : stmt :=
(SMemT n_MZ ((EMemT n_MW) /t (EMemT n_CW));,
SPropMass n_propZ (EMemT n_MZ);,
SMemT n_gLu ((EUn D2T (ELit (1 # 1))) -t (((EUn D2T ((ELit (4 # 1)) /d (ELit (3 # 1)))) *t (EMemT n_SW)) *t (EMemT n_SW)));,
SMemT n_gRu (((EUn D2T ((EUn NegD (ELit (4 # 1))) /d (ELit (3 # 1)))) *t (EMemT n_SW)) *t (EMemT n_SW));,
SMemT n_gLn (EUn D2T (ELit (1 # 1)));,
SMemT n_gRn (EUn I2T (EInt 0));,
SMemT n_preZ (((EMemT n_e) *t (EMemT n_e)) /t (((((EUn D2T (ELit (4 # 1))) *t (EMemT n_CW)) *t (EMemT n_CW)) *t (EMemT n_SW)) *t (EMemT n_SW)))).
(** uunn::set_masses: SM/uunn.cpp 58-65 *)
Definition uunn_set_masses : meth := mkMeth n_set_masses [(n_massu, PkT); (n_massW, PkT)]
(SMemT n_mu (ELocT n_massu);,
SMemT n_MW (ELocT n_massW);,
SMemT n_MZ ((EMemT n_MW) /t (EMemT n_CW));,
SPropMass n_propZ (EMemT n_MZ);,
SSetMass 0 (EMemT n_mu);,
SSetMass 1 (EMemT n_mu)).
(** uunn::set_momenta: SM/uunn.cpp 66-89 *)
Definition uunn_set_momenta : meth := mkMeth n_set_momenta [(n_mom1, PkMom); (n_mom2, PkMom); (n_mom3, PkMom); (n_mom4, PkMom)]
(SSetMomentum 0 n_mom1;,
SSetMomentum 1 n_mom2;,
SSetMomentum 2 n_mom3;,
SSetMomentum 3 n_mom4;,
SUpdate n_a13a;,
SUpdate n_s13s;,
SUpdate n_a14a;,
SUpdate n_s14s;,
SUpdate n_a23a;,
SUpdate n_s23s;,
SUpdate n_a24a;,
SUpdate n_s24s;,
SUpdate n_s12s;,
SUpdate n_a12a;,
SUpdate n_s34s;,
SUpdate n_a34a;,
SDeclT n_propP 4;,
(SFor n_j (EInt 0) (EBin (CmpI CLt) (ELocI n_j) (EInt 4)) (EBin (OpI IAdd) (ELocI n_j) (EInt 1))
(SArrT n_propP (AVar n_j) ((EArrT n_mom1 (AVar n_j)) +t (EArrT n_mom2 (AVar n_j)))));,
SMemC n_pDenSZ (EDen n_propZ n_propP)).
(** uunn::amp: SM/uunn.cpp 94-116 *)
Definition uunn_amp : meth := mkMeth n_amp [(n_ds1, PkI); (n_ds2, PkI)]
(SLoc rT n_two (EUn I2T (EInt 2));,
SLoc rC n_amplitude (EBin OpTTC (EUn I2T (EInt 0)) (EUn I2T (EInt 0)));,
SLoc rC n_amplitude ((ELocC n_amplitude) +c ((((ELocT n_two) *t (EMemT n_preZ)) *tc (((((EMemT n_gLu) *t (EMemT n_gLn)) *tc (EV n_s23s [(AVar n_ds2)])) *c (EV n_a14a [(AVar n_ds1)])) +c ((((EMemT n_gLn) *t (EMemT n_gRu)) *tc (EV n_s13s [(AVar n_ds1)])) *c (EV n_a24a [(AVar n_ds2)])))) /c (EMemC n_pDenSZ)));,
SReturnC (ELocC n_amplitude)).
(** uunn::amp2: SM/uunn.cpp 119-133 *)
Definition uunn_amp2 : meth := mkMeth n_amp2 []
(SLoc rT n_amp2 (EUn I2T (EInt 0));,
SLoc rT n_two (EUn I2T (EInt 2));,
SLoc rT n_three (EUn I2T (EInt 3));,
SDecl rC n_M;,
(SFor n_j1 (EUn NegI (EInt 1)) (EBin (CmpI CLe) (ELocI n_j1) (EInt 1)) (EBin (OpI IAdd) (ELocI n_j1) (EInt 2))
(SFor n_j2 (EUn NegI (EInt 1)) (EBin (CmpI CLe) (ELocI n_j2) (EInt 1)) (EBin (OpI IAdd) (ELocI n_j2) (EInt 2))
(SLoc rC n_M (ECall n_amp [(AVar n_j1); (AVar n_j2)]);,
SLoc rT n_amp2 ((ELocT n_amp2) +t ((ELocT n_three) *t (EUn Pow2T (EUn AbsC (ELocC n_M))))))));,
SReturnT ((ELocT n_amp2) /t (EUn D2T (ELit (36 # 1))))).
(** members: SM/include/uunn.h 26-33; initialisers: SM/uunn.cpp 32-47 *)
Definition uunn : cls := mkCls "uunn"
[(n_e, KT);
(n_mu, KT);
(n_MZ, KT);
(n_WZ, KT);
(n_MW, KT);
(n_SW, KT);
(n_CW, KT);
(n_p1, (KPart 0));
(n_p2, (KPart 1));
(n_p3, (KPart 2));
(n_p4, (KPart 3));
(n_propZ, KProp);
(n_pDenSZ, KC);
(n_a13a, KSprod);
(n_s13s, KSprod);
(n_a14a, KSprod);
(n_s14s, KSprod);
(n_a23a, KSprod);
(n_s23s, KSprod);
(n_a24a, KSprod);
(n_s24s, KSprod);
(n_s12s, KSprod);
(n_a12a, KSprod);
(n_s34s, KSprod);
(n_a34a, KSprod);
(n_preh, KT);
(n_gLu, KT);
(n_gRu, KT);
(n_gLn, KT);
(n_gRn, KT);
(n_preZ, KT);
(n_preZ0, KT)]
[n_echarge; n_massu; n_massW; n_sinW; n_widthZ]
[(n_e, NT (ELocT n_echarge));
(n_mu, NT (ELocT n_massu));
(n_MW, NT (ELocT n_massW));
(n_SW, NT (ELocT n_sinW));
(n_CW, NT (EUn SqrtT ((EUn D2T (ELit (1 # 1))) -t ((ELocT n_sinW) *t (ELocT n_sinW)))));
(n_WZ, NT (ELocT n_widthZ));
(n_p1, NPart (EMemT n_mu));
(n_p2, NPart (EMemT n_mu));
(n_p3, NPart (EUn I2T (EInt 0)));
(n_p4, NPart (EUn I2T (EInt 0)));
(n_a13a, NSprod true 0 [] 2);
(n_s13s, NSprod false 0 [] 2);
(n_a14a, NSprod true 0 [] 3);
(n_s14s, NSprod false 0 [] 3);
(n_a23a, NSprod true 1 [] 2);
(n_s23s, NSprod false 1 [] 2);
(n_a24a, NSprod true 1 [] 3);
(n_s24s, NSprod false 1 [] 3);
(n_s12s, NSprod false 0 [] 1);
(n_a12a, NSprod true 0 [] 1);
(n_s34s, NSprod false 2 [] 3);
(n_a34a, NSprod true 2 [] 3)]
uunn_ctor
[uunn_set_masses; uunn_set_momenta; uunn_amp; uunn_amp2].

(** uuss::uuss: SM/uuss.cpp 32-60 *)
Definition uuss_ctor : stmt :=
(SMemT n_MZ ((EMemT n_MW) /t (EMemT n_CW));,
SPropMass n_propZ (EMemT n_MZ);,
SMemT n_preh (((((EMemT n_e) *t (EMemT n_e)) *t (EMemT n_mu)) *t (EMemT n_ms)) /t (((((EUn D2T (ELit (4 # 1))) *t (EMemT n_MW)) *t (EMemT n_MW)) *t (EMemT n_SW)) *t (EMemT n_SW)));,
SMemT n_gLu ((EUn D2T (ELit (1 # 1))) -t (((EUn D2T ((ELit (4 # 1)) /d (ELit (3 # 1)))) *t (EMemT n_SW)) *t (EMemT n_SW)));,
SMemT n_gRu (((EUn D2T ((EUn NegD (ELit (4 # 1))) /d (ELit (3 # 1)))) *t (EMemT n_SW)) *t (EMemT n_SW));,
SMemT n_gLd ((EUn D2T (EUn NegD (ELit (1 # 1)))) +t (((EUn D2T ((ELit (2 # 1)) /d (ELit (3 # 1)))) *t (EMemT n_SW)) *t (EMemT n_SW)));,
SMemT n_gRd (((EUn D2T ((ELit (2 # 1)) /d (ELit (3 # 1)))) *t (EMemT n_SW)) *t (EMemT n_SW));,
SMemT n_preZ (((EMemT n_e) *t (EMemT n_e)) /t (((((EUn D2T (ELit (4 # 1))) *t (EMemT n_CW)) *t (EMemT n_CW)) *t (EMemT n_SW)) *t (EMemT n_SW)));,
SMemT n_preZ0 (((((((EMemT n_preZ) *t ((EMemT n_gLu) -t (EMemT n_gRu))) *t ((EMemT n_gLd) -t (EMemT n_gRd))) *t (EMemT n_mu)) *t (EMemT n_ms)) /t (EMemT n_MZ)) /t (EMemT n_MZ))).
(** uuss::set_masses: SM/uuss.cpp 61-75 *)
Definition uuss_set_masses : meth := mkMeth n_set_masses [(n_massu, PkT); (n_masss, PkT); (n_massh, PkT); (n_massW, PkT)]
(SMemT n_mu (ELocT n_massu);,
SMemT n_ms (ELocT n_masss);,
SMemT n_mh (ELocT n_massh);,
SPropMass n_proph (EMemT n_mh);,
SMemT n_MW (ELocT n_massW);,
SMemT n_MZ ((EMemT n_MW) /t (EMemT n_CW));,
SPropMass n_propZ (EMemT n_MZ);,
SSetMass 0 (EMemT n_mu);,
SSetMass 1 (EMemT n_mu);,
SSetMass 2 (EMemT n_ms);,
SSetMass 3 (EMemT n_ms);,
SMemT n_preh (((((EMemT n_e) *t (EMemT n_e)) *t (EMemT n_mu)) *t (EMemT n_ms)) /t (((((EUn I2T (EInt 4)) *t (EMemT n_MW)) *t (EMemT n_MW)) *t (EMemT n_SW)) *t (EMemT n_SW)));,
SMemT n_preZ0 (((((((EMemT n_preZ) *t ((EMemT n_gLu) -t (EMemT n_gRu))) *t ((EMemT n_gLd) -t (EMemT n_gRd))) *t (EMemT n_mu)) *t (EMemT n_ms)) /t (EMemT n_MZ)) /t (EMemT n_MZ))).
(** uuss::set_momenta: SM/uuss.cpp 76-101 *)
Definition uuss_set_momenta : meth := mkMeth n_set_momenta [(n_mom1, PkMom); (n_mom2, PkMom); (n_mom3, PkMom); (n_mom4, PkMom)]
(SSetMomentum 0 n_mom1;,
SSetMomentum 1 n_mom2;,
SSetMomentum 2 n_mom3;,
SSetMomentum 3 n_mom4;,
SUpdate n_a13a;,
SUpdate n_s13s;,
SUpdate n_a14a;,
SUpdate n_s14s;,
SUpdate n_a23a;,
SUpdate n_s23s;,
SUpdate n_a24a;,
SUpdate n_s24s;,
SUpdate n_s12s;,
SUpdate n_a12a;,
SUpdate n_s34s;,
SUpdate n_a34a;,
SDeclT n_propP 4;,
(SFor n_j (EInt 0) (EBin (CmpI CLt) (ELocI n_j) (EInt 4)) (EBin (OpI IAdd) (ELocI n_j) (EInt 1))
(SArrT n_propP (AVar n_j) ((EArrT n_mom1 (AVar n_j)) +t (EArrT n_mom2 (AVar n_j)))));,
SMemC n_pDenSAG (EDen n_propAG n_propP);,
SMemC n_pDenSh (EDen n_proph n_propP);,
SMemC n_pDenSZ (EDen n_propZ n_propP)).
(** uuss::amp_gluon: SM/uuss.cpp 109-122 *)
Definition uuss_amp_gluon : meth := mkMeth n_amp_gluon [(n_ds1, PkI); (n_ds2, PkI); (n_ds3, PkI); (n_ds4, PkI)]
(SLoc rT n_two (EUn I2T (EInt 2));,
SLoc rC n_amplitude (EBin OpTTC (EUn I2T (EInt 0)) (EUn I2T (EInt 0)));,
SLoc rC n_amplitude (((((ELocT n_two) *t (EMemT n_gs)) *t (EMemT n_gs)) *tc (((((EV n_a13a [(AVar n_ds1); (AVar n_ds3)]) *c (EV n_s24s [(AVar n_ds2); (AVar n_ds4)])) +c ((EV n_a14a [(AVar n_ds1); (AVar n_ds4)]) *c (EV n_s23s [(AVar n_ds2); (AVar n_ds3)]))) +c ((EV n_s13s [(AVar n_ds1); (AVar n_ds3)]) *c (EV n_a24a [(AVar n_ds2); (AVar n_ds4)]))) +c ((EV n_s14s [(AVar n_ds1); (AVar n_ds4)]) *c (EV n_a23a [(AVar n_ds2); (AVar n_ds3)])))) /c (EMemC n_pDenSAG));,
SReturnC (ELocC n_amplitude)).
(** uuss::amp_rest: SM/uuss.cpp 123-167 *)
Definition uuss_amp_rest : meth := mkMeth n_amp_rest [(n_ds1, PkI); (n_ds2, PkI); (n_ds3, PkI); (n_ds4, PkI)]
(SLoc rT n_two (EUn I2T (EInt 2));,
SLoc rC n_amplitude (EBin OpTTC (EUn I2T (EInt 0)) (EUn I2T (EInt 0)));,
SLoc rC n_amplitude (((((((EUn NegT (ELocT n_two)) *t (EMemT n_e)) *t (EMemT n_e)) *t (EUn D2T (ELit (2 # 1)))) /t (EUn D2T (ELit (9 # 1)))) *tc (((((EV n_a13a [(AVar n_ds1); (AVar n_ds3)]) *c (EV n_s24s [(AVar n_ds2); (AVar n_ds4)])) +c ((EV n_a14a [(AVar n_ds1); (AVar n_ds4)]) *c (EV n_s23s [(AVar n_ds2); (AVar n_ds3)]))) +c ((EV n_s13s [(AVar n_ds1); (AVar n_ds3)]) *c (EV n_a24a [(AVar n_ds2); (AVar n_ds4)]))) +c ((EV n_s14s [(AVar n_ds1); (AVar n_ds4)]) *c (EV n_a23a [(AVar n_ds2); (AVar n_ds3)])))) /c (EMemC n_pDenSAG));,
SLoc rC n_amplitude ((ELocC n_amplitude) +c ((((EMemT n_preh) *tc ((EV n_s12s [(AVar n_ds1); (AVar n_ds2)]) +c (EV n_a12a [(AVar n_ds1); (AVar n_ds2)]))) *c ((EV n_s34s [(AVar n_ds3); (AVar n_ds4)]) +c (EV n_a34a [(AVar n_ds3); (AVar n_ds4)]))) /c (EMemC n_pDenSh)));,
SLoc rC n_amplitude ((ELocC n_amplitude) +c (((((EUn NegT (EMemT n_preZ0)) *tc ((EV n_a12a [(AVar n_ds1); (AVar n_ds2)]) -c (EV n_s12s [(AVar n_ds1); (AVar n_ds2)]))) *c ((EV n_a34a [(AVar n_ds3); (AVar n_ds4)]) -c (EV n_s34s [(AVar n_ds3); (AVar n_ds4)]))) /c (EMemC n_pDenSZ)) +c ((((ELocT n_two) *t (EMemT n_preZ)) *tc (((((((EMemT n_gLu) *t (EMemT n_gLd)) *tc (EV n_s23s [(AVar n_ds2); (AVar n_ds3)])) *c (EV n_a14a [(AVar n_ds1); (AVar n_ds4)])) +c ((((EMemT n_gLd) *t (EMemT n_gRu)) *tc (EV n_s13s [(AVar n_ds1); (AVar n_ds3)])) *c (EV n_a24a [(AVar n_ds2); (AVar n_ds4)]))) +c ((((EMemT n_gLu) *t (EMemT n_gRd)) *tc (EV n_s24s [(AVar n_ds2); (AVar n_ds4)])) *c (EV n_a13a [(AVar n_ds1); (AVar n_ds3)]))) +c ((((EMemT n_gRu) *t (EMemT n_gRd)) *tc (EV n_s14s [(AVar n_ds1); (AVar n_ds4)])) *c (EV n_a23a [(AVar n_ds2); (AVar n_ds3)])))) /c (EMemC n_pDenSZ))));,
SReturnC (ELocC n_amplitude)).
(** uuss::amp2: SM/uuss.cpp 170-189 *)
Definition uuss_amp2 : meth := mkMeth n_amp2 []
(SLoc rT n_amp2 (EUn I2T (EInt 0));,
SLoc rT n_two (EUn I2T (EInt 2));,
SLoc rT n_three (EUn I2T (EInt 3));,
SLoc rT n_nine (EUn I2T (EInt 9));,
SDecl rC n_M_rest;,
SDecl rC n_M_gluon;,
(SFor n_j1 (EUn NegI (EInt 1)) (EBin (CmpI CLe) (ELocI n_j1) (EInt 1)) (EBin (OpI IAdd) (ELocI n_j1) (EInt 2))
(SFor n_j2 (EUn NegI (EInt 1)) (EBin (CmpI CLe) (ELocI n_j2) (EInt 1)) (EBin (OpI IAdd) (ELocI n_j2) (EInt 2))
(SFor n_j3 (EUn NegI (EInt 1)) (EBin (CmpI CLe) (ELocI n_j3) (EInt 1)) (EBin (OpI IAdd) (ELocI n_j3) (EInt 2))
(SFor n_j4 (EUn NegI (EInt 1)) (EBin (CmpI CLe) (ELocI n_j4) (EInt 1)) (EBin (OpI IAdd) (ELocI n_j4) (EInt 2))
(SLoc rC n_M_rest (ECall n_amp_rest [(AVar n_j1); (AVar n_j2); (AVar n_j3); (AVar n_j4)]);,
SLoc rC n_M_gluon (ECall n_amp_gluon [(AVar n_j1); (AVar n_j2); (AVar n_j3); (AVar n_j4)]);,
SLoc rT n_amp2 ((ELocT n_amp2) +t ((ELocT n_nine) *t (EUn Pow2T (EUn AbsC (ELocC n_M_rest)))));,
SLoc rT n_amp2 ((ELocT n_amp2) +t ((ELocT n_two) *t (EUn Pow2T (EUn AbsC (ELocC n_M_gluon))))))))));,
SReturnT ((ELocT n_amp2) /t (EUn D2T (ELit (36 # 1))))).
(** members: SM/include/uuss.h 26-33; initialisers: SM/uuss.cpp 32-48 *)
Definition uuss : cls := mkCls "uuss"
[(n_e, KT);
(n_gs, KT);
(n_mu, KT);
(n_ms, KT);
(n_mh, KT);
(n_wh, KT);
(n_MZ, KT);
(n_WZ, KT);
(n_MW, KT);
(n_SW, KT);
(n_CW, KT);
(n_p1, (KPart 0));
(n_p2, (KPart 1));
(n_p3, (KPart 2));
(n_p4, (KPart 3));
(n_propAG, KProp);
(n_proph, KProp);
(n_propZ, KProp);
(n_pDenSAG, KC);
(n_pDenSh, KC);
(n_pDenSZ, KC);
(n_a13a, KSprod);
(n_s13s, KSprod);
(n_a14a, KSprod);
(n_s14s, KSprod);
(n_a23a, KSprod);
(n_s23s, KSprod);
(n_a24a, KSprod);
(n_s24s, KSprod);
(n_s12s, KSprod);
(n_a12a, KSprod);
(n_s34s, KSprod);
(n_a34a, KSprod);
(n_preh, KT);
(n_gLu, KT);
(n_gRu, KT);
(n_gLd, KT);
(n_gRd, KT);
(n_preZ, KT);
(n_preZ0, KT)]
[n_echarge; n_gscharge; n_massu; n_masss; n_massh; n_widthh; n_massW; n_sinW; n_widthZ]
[(n_e, NT (ELocT n_echarge));
(n_gs, NT (ELocT n_gscharge));
(n_mu, NT (ELocT n_massu));
(n_ms, NT (ELocT n_masss));
(n_mh, NT (ELocT n_massh));
(n_wh, NT (ELocT n_widthh));
(n_MW, NT (ELocT n_massW));
(n_SW, NT (ELocT n_sinW));
(n_CW, NT (EUn SqrtT ((EUn D2T (ELit (1 # 1))) -t ((ELocT n_sinW) *t (ELocT n_sinW)))));
(n_WZ, NT (ELocT n_widthZ));
(n_propAG, NProp (EUn I2T (EInt 0)) (EUn I2T (EInt 0)));
(n_proph, NProp (EMemT n_mh) (EMemT n_wh));
(n_p1, NPart (EMemT n_mu));
(n_p2, NPart (EMemT n_mu));
(n_p3, NPart (EMemT n_ms));
(n_p4, NPart (EMemT n_ms));
(n_a13a, NSprod true 0 [] 2);
(n_s13s, NSprod false 0 [] 2);
(n_a14a, NSprod true 0 [] 3);
(n_s14s, NSprod false 0 [] 3);
(n_a23a, NSprod true 1 [] 2);
(n_s23s, NSprod false 1 [] 2);
(n_a24a, NSprod true 1 [] 3);
(n_s24s, NSprod false 1 [] 3);
(n_s12s, NSprod false 0 [] 1);
(n_a12a, NSprod true 0 [] 1);
(n_s34s, NSprod false 2 [] 3);
(n_a34a, NSprod true 2 [] 3)]
uuss_ctor
[uuss_set_masses; uuss_set_momenta; uuss_amp_gluon; uuss_amp_rest; uuss_amp2].

(** uuuu::uuuu: SM/uuuu.cpp 32-58 *)
Definition uuuu_ctor : stmt :=
(SMemT n_MZ ((EMemT n_MW) /t (EMemT n_CW));,
SPropMass n_propZ (EMemT n_MZ);,
SMemT n_preh (((((EMemT n_e) *t (EMemT n_e)) *t (EMemT n_mu)) *t (EMemT n_mu)) /t (((((EUn D2T (ELit (4 # 1))) *t (EMemT n_MW)) *t (EMemT n_MW)) *t (EMemT n_SW)) *t (EMemT n_SW)));,
SMemT n_gL ((EUn D2T (ELit (1 # 1))) -t (((EUn D2T ((ELit (4 # 1)) /d (ELit (3 # 1)))) *t (EMemT n_SW)) *t (EMemT n_SW)));,
SMemT n_gR (((EUn D2T ((EUn NegD (ELit (4 # 1))) /d (ELit (3 # 1)))) *t (EMemT n_SW)) *t (EMemT n_SW));,
SMemT n_preZ (((EMemT n_e) *t (EMemT n_e)) /t (((((EUn D2T (ELit (4 # 1))) *t (EMemT n_CW)) *t (EMemT n_CW)) *t (EMemT n_SW)) *t (EMemT n_SW)));,
SMemT n_preZ0 (((((((EMemT n_preZ) *t ((EMemT n_gL) -t (EMemT n_gR))) *t ((EMemT n_gL) -t (EMemT n_gR))) *t (EMemT n_mu)) *t (EMemT n_mu)) /t (EMemT n_MZ)) /t (EMemT n_MZ))).
(** uuuu::set_masses: SM/uuuu.cpp 59-72 *)
Definition uuuu_set_masses : meth := mkMeth n_set_masses [(n_massu, PkT); (n_massh, PkT); (n_massW, PkT)]
(SMemT n_mu (ELocT n_massu);,
SMemT n_mh (ELocT n_massh);,
SPropMass n_proph (EMemT n_mh);,
SMemT n_MW (ELocT n_massW);,
SMemT n_MZ ((EMemT n_MW) /t (EMemT n_CW));,
SPropMass n_propZ (EMemT n_MZ);,
SSetMass 0 (EMemT n_mu);,
SSetMass 1 (EMemT n_mu);,
SSetMass 2 (EMemT n_mu);,
SSetMass 3 (EMemT n_mu);,
SMemT n_preh (((((EMemT n_e) *t (EMemT n_e)) *t (EMemT n_mu)) *t (EMemT n_mu)) /t (((((EUn I2T (EInt 4)) *t (EMemT n_MW)) *t (EMemT n_MW)) *t (EMemT n_SW)) *t (EMemT n_SW)));,
SMemT n_preZ0 (((((((EMemT n_preZ) *t ((EMemT n_gL) -t (EMemT n_gR))) *t ((EMemT n_gL) -t (EMemT n_gR))) *t (EMemT n_mu)) *t (EMemT n_mu)) /t (EMemT n_MZ)) /t (EMemT n_MZ))).
(** uuuu::set_momenta: SM/uuuu.cpp 73-103 *)
Definition uuuu_set_momenta : meth := mkMeth n_set_momenta [(n_mom1, PkMom); (n_mom2, PkMom); (n_mom3, PkMom); (n_mom4, PkMom)]
(SSetMomentum 0 n_mom1;,
SSetMomentum 1 n_mom2;,
SSetMomentum 2 n_mom3;,
SSetMomentum 3 n_mom4;,
SUpdate n_a13a;,
SUpdate n_s13s;,
SUpdate n_a14a;,
SUpdate n_s14s;,
SUpdate n_a23a;,
SUpdate n_s23s;,
SUpdate n_a24a;,
SUpdate n_s24s;,
SUpdate n_s12s;,
SUpdate n_a12a;,
SUpdate n_s34s;,
SUpdate n_a34a;,
SDeclT n_propPS 4;,
SDeclT n_propPT 4;,
(SFor n_j (EInt 0) (EBin (CmpI CLt) (ELocI n_j) (EInt 4)) (EBin (OpI IAdd) (ELocI n_j) (EInt 1))
(SArrT n_propPS (AVar n_j) ((EArrT n_mom1 (AVar n_j)) +t (EArrT n_mom2 (AVar n_j)));,
SArrT n_propPT (AVar n_j) ((EArrT n_mom1 (AVar n_j)) -t (EArrT n_mom3 (AVar n_j)))));,
SMemC n_pDenSAG (EDen n_propAG n_propPS);,
SMemC n_pDenSh (EDen n_proph n_propPS);,
SMemC n_pDenSZ (EDen n_propZ n_propPS);,
SMemC n_pDenTAG (EDen n_propAG n_propPT);,
SMemC n_pDenTh (EDen n_proph n_propPT);,
SMemC n_pDenTZ (EDen n_propZ n_propPT)).
(** uuuu::amp_gluon_S: SM/uuuu.cpp 109-122 *)
Definition uuuu_amp_gluon_S : meth := mkMeth n_amp_gluon_S [(n_ds1, PkI); (n_ds2, PkI); (n_ds3, PkI); (n_ds4, PkI)]
(SLoc rT n_two (EUn I2T (EInt 2));,
SLoc rC n_amplitude (EBin OpTTC (EUn I2T (EInt 0)) (EUn I2T (EInt 0)));,
SLoc rC n_amplitude (((((ELocT n_two) *t (EMemT n_gs)) *t (EMemT n_gs)) *tc (((((EV n_a13a [(AVar n_ds1); (AVar n_ds3)]) *c (EV n_s24s [(AVar n_ds2); (AVar n_ds4)])) +c ((EV n_a14a [(AVar n_ds1); (AVar n_ds4)]) *c (EV n_s23s [(AVar n_ds2); (AVar n_ds3)]))) +c ((EV n_s13s [(AVar n_ds1); (AVar n_ds3)]) *c (EV n_a24a [(AVar n_ds2); (AVar n_ds4)]))) +c ((EV n_s14s [(AVar n_ds1); (AVar n_ds4)]) *c (EV n_a23a [(AVar n_ds2); (AVar n_ds3)])))) /c (EMemC n_pDenSAG));,
SReturnC (ELocC n_amplitude)).
(** uuuu::amp_gluon_T: SM/uuuu.cpp 123-137 *)
Definition uuuu_amp_gluon_T : meth := mkMeth n_amp_gluon_T [(n_ds1, PkI); (n_ds2, PkI); (n_ds3, PkI); (n_ds4, PkI)]
(SLoc rT n_two (EUn I2T (EInt 2));,
SLoc rC n_amplitude (EBin OpTTC (EUn I2T (EInt 0)) (EUn I2T (EInt 0)));,
SLoc rC n_amplitude (((((ELocT n_two) *t (EMemT n_gs)) *t (EMemT n_gs)) *tc (((((EV n_a12a [(AVar n_ds1); (AVar n_ds2)]) *c (EV n_s34s [(AVar n_ds3); (AVar n_ds4)])) +c ((EV n_a14a [(AVar n_ds1); (AVar n_ds4)]) *c (EV n_s23s [(AVar n_ds2); (AVar n_ds3)]))) +c ((EV n_s12s [(AVar n_ds1); (AVar n_ds2)]) *c (EV n_a34a [(AVar n_ds3); (AVar n_ds4)]))) +c ((EV n_s14s [(AVar n_ds1); (AVar n_ds4)]) *c (EV n_a23a [(AVar n_ds2); (AVar n_ds3)])))) /c (EMemC n_pDenTAG));,
SReturnC (ELocC n_amplitude)).
(** uuuu::amp_rest_S: SM/uuuu.cpp 138-178 *)
Definition uuuu_amp_rest_S : meth := mkMeth n_amp_rest_S [(n_ds1, PkI); (n_ds2, PkI); (n_ds3, PkI); (n_ds4, PkI)]
(SLoc rT n_two (EUn I2T (EInt 2));,
SLoc rC n_amplitude (EBin OpTTC (EUn I2T (EInt 0)) (EUn I2T (EInt 0)));,
SLoc rC n_amplitude (((((((ELocT n_two) *t (EMemT n_e)) *t (EMemT n_e)) *t (EUn D2T (ELit (4 # 1)))) /t (EUn D2T (ELit (9 # 1)))) *tc (((((EV n_a13a [(AVar n_ds1); (AVar n_ds3)]) *c (EV n_s24s [(AVar n_ds2); (AVar n_ds4)])) +c ((EV n_a14a [(AVar n_ds1); (AVar n_ds4)]) *c (EV n_s23s [(AVar n_ds2); (AVar n_ds3)]))) +c ((EV n_s13s [(AVar n_ds1); (AVar n_ds3)]) *c (EV n_a24a [(AVar n_ds2); (AVar n_ds4)]))) +c ((EV n_s14s [(AVar n_ds1); (AVar n_ds4)]) *c (EV n_a23a [(AVar n_ds2); (AVar n_ds3)])))) /c (EMemC n_pDenSAG));,
SLoc rC n_amplitude ((ELocC n_amplitude) +c ((((EMemT n_preh) *tc ((EV n_s12s [(AVar n_ds1); (AVar n_ds2)]) +c (EV n_a12a [(AVar n_ds1); (AVar n_ds2)]))) *c ((EV n_s34s [(AVar n_ds3); (AVar n_ds4)]) +c (EV n_a34a [(AVar n_ds3); (AVar n_ds4)]))) /c (EMemC n_pDenSh)));,
SLoc rC n_amplitude ((ELocC n_amplitude) +c (((((EUn NegT (EMemT n_preZ0)) *tc ((EV n_a12a [(AVar n_ds1); (AVar n_ds2)]) -c (EV n_s12s [(AVar n_ds1); (AVar n_ds2)]))) *c ((EV n_a34a [(AVar n_ds3); (AVar n_ds4)]) -c (EV n_s34s [(AVar n_ds3); (AVar n_ds4)]))) /c (EMemC n_pDenSZ)) +c ((((ELocT n_two) *t (EMemT n_preZ)) *tc ((((((EMemT n_gL) *t (EMemT n_gL)) *tc (EV n_s23s [(AVar n_ds2); (AVar n_ds3)])) *c (EV n_a14a [(AVar n_ds1); (AVar n_ds4)])) +c (((EMemT n_gL) *t (EMemT n_gR)) *tc (((EV n_s13s [(AVar n_ds1); (AVar n_ds3)]) *c (EV n_a24a [(AVar n_ds2); (AVar n_ds4)])) +c ((EV n_s24s [(AVar n_ds2); (AVar n_ds4)]) *c (EV n_a13a [(AVar n_ds1); (AVar n_ds3)]))))) +c ((((EMemT n_gR) *t (EMemT n_gR)) *tc (EV n_s14s [(AVar n_ds1); (AVar n_ds4)])) *c (EV n_a23a [(AVar n_ds2); (AVar n_ds3)])))) /c (EMemC n_pDenSZ))));,
SReturnC (ELocC n_amplitude)).
(** uuuu::amp_rest_T: SM/uuuu.cpp 179-218 *)
Definition uuuu_amp_rest_T : meth := mkMeth n_amp_rest_T [(n_ds1, PkI); (n_ds2, PkI); (n_ds3, PkI); (n_ds4, PkI)]
(SLoc rT n_two (EUn I2T (EInt 2));,
SLoc rC n_amplitude (EBin OpTTC (EUn I2T (EInt 0)) (EUn I2T (EInt 0)));,
SLoc rC n_amplitude ((ELocC n_amplitude) +c (((((((ELocT n_two) *t (EMemT n_e)) *t (EMemT n_e)) *t (EUn D2T (ELit (4 # 1)))) /t (EUn D2T (ELit (9 # 1)))) *tc (((((EV n_a12a [(AVar n_ds1); (AVar n_ds2)]) *c (EV n_s34s [(AVar n_ds3); (AVar n_ds4)])) +c ((EV n_a14a [(AVar n_ds1); (AVar n_ds4)]) *c (EV n_s23s [(AVar n_ds2); (AVar n_ds3)]))) +c ((EV n_s12s [(AVar n_ds1); (AVar n_ds2)]) *c (EV n_a34a [(AVar n_ds3); (AVar n_ds4)]))) +c ((EV n_s14s [(AVar n_ds1); (AVar n_ds4)]) *c (EV n_a23a [(AVar n_ds2); (AVar n_ds3)])))) /c (EMemC n_pDenTAG)));,
SLoc rC n_amplitude ((ELocC n_amplitude) +c ((((EUn NegT (EMemT n_preh)) *tc ((EV n_s13s [(AVar n_ds1); (AVar n_ds3)]) -c (EV n_a13a [(AVar n_ds1); (AVar n_ds3)]))) *c ((EV n_s24s [(AVar n_ds2); (AVar n_ds4)]) -c (EV n_a24a [(AVar n_ds2); (AVar n_ds4)]))) /c (EMemC n_pDenTh)));,
SLoc rC n_amplitude ((ELocC n_amplitude) +c (((((EMemT n_preZ0) *tc ((EV n_a13a [(AVar n_ds1); (AVar n_ds3)]) +c (EV n_s13s [(AVar n_ds1); (AVar n_ds3)]))) *c ((EV n_a24a [(AVar n_ds2); (AVar n_ds4)]) +c (EV n_s24s [(AVar n_ds2); (AVar n_ds4)]))) /c (EMemC n_pDenTZ)) +c ((((ELocT n_two) *t (EMemT n_preZ)) *tc ((((((EMemT n_gL) *t (EMemT n_gL)) *tc (EV n_s23s [(AVar n_ds2); (AVar n_ds3)])) *c (EV n_a14a [(AVar n_ds1); (AVar n_ds4)])) +c (((EMemT n_gL) *t (EMemT n_gR)) *tc (((EV n_s12s [(AVar n_ds1); (AVar n_ds2)]) *c (EV n_a34a [(AVar n_ds3); (AVar n_ds4)])) +c ((EV n_s34s [(AVar n_ds3); (AVar n_ds4)]) *c (EV n_a12a [(AVar n_ds1); (AVar n_ds2)]))))) +c ((((EMemT n_gR) *t (EMemT n_gR)) *tc (EV n_s14s [(AVar n_ds1); (AVar n_ds4)])) *c (EV n_a23a [(AVar n_ds2); (AVar n_ds3)])))) /c (EMemC n_pDenTZ))));,
SReturnC (ELocC n_amplitude)).
(** uuuu::amp2: SM/uuuu.cpp 221-250 *)
Definition uuuu_amp2 : meth := mkMeth n_amp2 []
(SLoc rT n_amp2 (EUn I2T (EInt 0));,
SLoc rT n_two (EUn I2T (EInt 2));,
SLoc rT n_three (EUn I2T (EInt 3));,
SLoc rT n_four (EUn I2T (EInt 4));,
SLoc rT n_nine (EUn I2T (EInt 9));,
SDecl rC n_M_rest_S;,
SDecl rC n_M_gluon_S;,
SDecl rC n_M_rest_T;,
SDecl rC n_M_gluon_T;,
(SFor n_j1 (EUn NegI (EInt 1)) (EBin (CmpI CLe) (ELocI n_j1) (EInt 1)) (EBin (OpI IAdd) (ELocI n_j1) (EInt 2))
(SFor n_j2 (EUn NegI (EInt 1)) (EBin (CmpI CLe) (ELocI n_j2) (EInt 1)) (EBin (OpI IAdd) (ELocI n_j2) (EInt 2))
(SFor n_j3 (EUn NegI (EInt 1)) (EBin (CmpI CLe) (ELocI n_j3) (EInt 1)) (EBin (OpI IAdd) (ELocI n_j3) (EInt 2))
(SFor n_j4 (EUn NegI (EInt 1)) (EBin (CmpI CLe) (ELocI n_j4) (EInt 1)) (EBin (OpI IAdd) (ELocI n_j4) (EInt 2))
(SLoc rC n_M_rest_S (ECall n_amp_rest_S [(AVar n_j1); (AVar n_j2); (AVar n_j3); (AVar n_j4)]);,
SLoc rC n_M_rest_T (ECall n_amp_rest_T [(AVar n_j1); (AVar n_j2); (AVar n_j3); (AVar n_j4)]);,
SLoc rC n_M_gluon_S (ECall n_amp_gluon_S [(AVar n_j1); (AVar n_j2); (AVar n_j3); (AVar n_j4)]);,
SLoc rC n_M_gluon_T (ECall n_amp_gluon_T [(AVar n_j1); (AVar n_j2); (AVar n_j3); (AVar n_j4)]);,
SLoc rT n_amp2 ((ELocT n_amp2) +t ((ELocT n_nine) *t (EUn Pow2T (EUn AbsC (ELocC n_M_rest_S)))));,
SLoc rT n_amp2 ((ELocT n_amp2) +t ((ELocT n_two) *t (EUn Pow2T (EUn AbsC (ELocC n_M_gluon_S)))));,
SLoc rT n_amp2 ((ELocT n_amp2) +t ((ELocT n_nine) *t (EUn Pow2T (EUn AbsC (ELocC n_M_rest_T)))));,
SLoc rT n_amp2 ((ELocT n_amp2) +t ((ELocT n_two) *t (EUn Pow2T (EUn AbsC (ELocC n_M_gluon_T)))));,
SLoc rT n_amp2 ((ELocT n_amp2) +t (((ELocT n_three) *t (ELocT n_two)) *t (EUn ReC ((ELocC n_M_rest_S) *c (EUn ConjC (ELocC n_M_rest_T))))));,
SLoc rT n_amp2 ((ELocT n_amp2) +t ((((EUn NegT (ELocT n_two)) /t (ELocT n_three)) *t (ELocT n_two)) *t (EUn ReC ((ELocC n_M_gluon_S) *c (EUn ConjC (ELocC n_M_gluon_T))))));,
SLoc rT n_amp2 ((ELocT n_amp2) +t (((ELocT n_four) *t (ELocT n_two)) *t (EUn ReC ((ELocC n_M_gluon_S) *c (EUn ConjC (ELocC n_M_rest_T))))));,
SLoc rT n_amp2 ((ELocT n_amp2) +t (((ELocT n_four) *t (ELocT n_two)) *t (EUn ReC ((ELocC n_M_gluon_T) *c (EUn ConjC (ELocC n_M_rest_S)))))))))));,
SReturnT ((ELocT n_amp2) /t (EUn D2T (ELit (36 # 1))))).
(** members: SM/include/uuuu.h 26-34; initialisers: SM/uuuu.cpp 32-48 *)
Definition uuuu : cls := mkCls "uuuu"
[(n_e, KT);
(n_gs, KT);
(n_mu, KT);
(n_mh, KT);
(n_wh, KT);
(n_MZ, KT);
(n_WZ, KT);
(n_MW, KT);
(n_SW, KT);
(n_CW, KT);
(n_p1, (KPart 0));
(n_p2, (KPart 1));
(n_p3, (KPart 2));
(n_p4, (KPart 3));
(n_propAG, KProp);
(n_proph, KProp);
(n_propZ, KProp);
(n_pDenSAG, KC);
(n_pDenSh, KC);
(n_pDenSZ, KC);
(n_pDenTAG, KC);
(n_pDenTh, KC);
(n_pDenTZ, KC);
(n_a13a, KSprod);
(n_s13s, KSprod);
(n_a14a, KSprod);
(n_s14s, KSprod);
(n_a23a, KSprod);
(n_s23s, KSprod);
(n_a24a, KSprod);
(n_s24s, KSprod);
(n_s12s, KSprod);
(n_a12a, KSprod);
(n_s34s, KSprod);
(n_a34a, KSprod);
(n_preh, KT);
(n_gL, KT);
(n_gR, KT);
(n_preZ, KT);
(n_preZ0, KT)]
[n_echarge; n_gscharge; n_massu; n_massh; n_widthh; n_massW; n_sinW; n_widthZ]
[(n_e, NT (ELocT n_echarge));
(n_gs, NT (ELocT n_gscharge));
(n_mu, NT (ELocT n_massu));
(n_mh, NT (ELocT n_massh));
(n_wh, NT (ELocT n_widthh));
(n_MW, NT (ELocT n_massW));
(n_SW, NT (ELocT n_sinW));
(n_CW, NT (EUn SqrtT ((EUn D2T (ELit (1 # 1))) -t ((ELocT n_sinW) *t (ELocT n_sinW)))));
(n_WZ, NT (ELocT n_widthZ));
(n_propAG, NProp (EUn I2T (EInt 0)) (EUn I2T (EInt 0)));
(n_proph, NProp (EMemT n_mh) (EMemT n_wh));
(n_p1, NPart (EMemT n_mu));
(n_p2, NPart (EMemT n_mu));
(n_p3, NPart (EMemT n_mu));
(n_p4, NPart (EMemT n_mu));
(n_a13a, NSprod true 0 [] 2);
(n_s13s, NSprod false 0 [] 2);
(n_a14a, NSprod true 0 [] 3);
(n_s14s, NSprod false 0 [] 3);
(n_a23a, NSprod true 1 [] 2);
(n_s23s, NSprod false 1 [] 2);
(n_a24a, NSprod true 1 [] 3);
(n_s24s, NSprod false 1 [] 3);
(n_s12s, NSprod false 0 [] 1);
(n_a12a, NSprod true 0 [] 1);
(n_s34s, NSprod false 2 [] 3);
(n_a34a, NSprod true 2 [] 3)]
uuuu_ctor
[uuuu_set_masses; uuuu_set_momenta; uuuu_amp_gluon_S; uuuu_amp_gluon_T; uuuu_amp_rest_S; uuuu_amp_rest_T; uuuu_amp2].

(** uuuu2::uuuu2: SM/uuuu2.cpp 32-58 *)
Definition uuuu2_ctor : stmt :=
(SMemT n_MZ ((EMemT n_MW) /t (EMemT n_CW));,
SPropMass n_propZ (EMemT n_MZ);,
SMemT n_preh (((((EMemT n_e) *t (EMemT n_e)) *t (EMemT n_mu)) *t (EMemT n_mu)) /t (((((EUn D2T (ELit (4 # 1))) *t (EMemT n_MW)) *t (EMemT n_MW)) *t (EMemT n_SW)) *t (EMemT n_SW)));,
SMemT n_gL ((EUn D2T (ELit (1 # 1))) -t (((EUn D2T ((ELit (4 # 1)) /d (ELit (3 # 1)))) *t (EMemT n_SW)) *t (EMemT n_SW)));,
SMemT n_gR (((EUn D2T ((EUn NegD (ELit (4 # 1))) /d (ELit (3 # 1)))) *t (EMemT n_SW)) *t (EMemT n_SW));,
SMemT n_preZ (((EMemT n_e) *t (EMemT n_e)) /t (((((EUn D2T (ELit (4 # 1))) *t (EMemT n_CW)) *t (EMemT n_CW)) *t (EMemT n_SW)) *t (EMemT n_SW)));,
SMemT n_preZ0 (((((((EMemT n_preZ) *t ((EMemT n_gL) -t (EMemT n_gR))) *t ((EMemT n_gL) -t (EMemT n_gR))) *t (EMemT n_mu)) *t (EMemT n_mu)) /t (EMemT n_MZ)) /t (EMemT n_MZ))).
(** uuuu2::set_masses: SM/uuuu2.cpp 59-72 *)
Definition uuuu2_set_masses : meth := mkMeth n_set_masses [(n_massu, PkT); (n_massh, PkT); (n_massW, PkT)]
(SMemT n_mu (ELocT n_massu);,
SMemT n_mh (ELocT n_massh);,
SPropMass n_proph (EMemT n_mh);,
SMemT n_MW (ELocT n_massW);,
SMemT n_MZ ((EMemT n_MW) /t (EMemT n_CW));,
SPropMass n_propZ (EMemT n_MZ);,
SSetMass 0 (EMemT n_mu);,
SSetMass 1 (EMemT n_mu);,
SSetMass 2 (EMemT n_mu);,
SSetMass 3 (EMemT n_mu);,
SMemT n_preh (((((EMemT n_e) *t (EMemT n_e)) *t (EMemT n_mu)) *t (EMemT n_mu)) /t (((((EUn I2T (EInt 4)) *t (EMemT n_MW)) *t (EMemT n_MW)) *t (EMemT n_SW)) *t (EMemT n_SW)));,
SMemT n_preZ0 (((((((EMemT n_preZ) *t ((EMemT n_gL) -t (EMemT n_gR))) *t ((EMemT n_gL) -t (EMemT n_gR))) *t (EMemT n_mu)) *t (EMemT n_mu)) /t (EMemT n_MZ)) /t (EMemT n_MZ))).
(** uuuu2::set_momenta: SM/uuuu2.cpp 73-103 *)
Definition uuuu2_set_momenta : meth := mkMeth n_set_momenta [(n_mom1, PkMom); (n_mom2, PkMom); (n_mom3, PkMom); (n_mom4, PkMom)]
(SSetMomentum 0 n_mom1;,
SSetMomentum 1 n_mom2;,
SSetMomentum 2 n_mom3;,
SSetMomentum 3 n_mom4;,
SUpdate n_a13a;,
SUpdate n_s13s;,
SUpdate n_a14a;,
SUpdate n_s14s;,
SUpdate n_a23a;,
SUpdate n_s23s;,
SUpdate n_a24a;,
SUpdate n_s24s;,
SUpdate n_s12s;,
SUpdate n_a12a;,
SUpdate n_s34s;,
SUpdate n_a34a;,
SDeclT n_propPU 4;,
SDeclT n_propPT 4;,
(SFor n_j (EInt 0) (EBin (CmpI CLt) (ELocI n_j) (EInt 4)) (EBin (OpI IAdd) (ELocI n_j) (EInt 1))
(SArrT n_propPU (AVar n_j) ((EArrT n_mom1 (AVar n_j)) -t (EArrT n_mom4 (AVar n_j)));,
SArrT n_propPT (AVar n_j) ((EArrT n_mom1 (AVar n_j)) -t (EArrT n_mom3 (AVar n_j)))));,
SMemC n_pDenUAG (EDen n_propAG n_propPU);,
SMemC n_pDenUh (EDen n_proph n_propPU);,
SMemC n_pDenUZ (EDen n_propZ n_propPU);,
SMemC n_pDenTAG (EDen n_propAG n_propPT);,
SMemC n_pDenTh (EDen n_proph n_propPT);,
SMemC n_pDenTZ (EDen n_propZ n_propPT)).
(** uuuu2::amp_gluon_U: SM/uuuu2.cpp 109-127 *)
Definition uuuu2_amp_gluon_U : meth := mkMeth n_amp_gluon_U [(n_ds1, PkI); (n_ds2, PkI); (n_ds3, PkI); (n_ds4, PkI)]
(SLoc rT n_two (EUn I2T (EInt 2));,
SLoc rC n_amplitude (EBin OpTTC (EUn I2T (EInt 0)) (EUn I2T (EInt 0)));,
SLoc rC n_amplitude (((((ELocT n_two) *t (EMemT n_gs)) *t (EMemT n_gs)) *tc (((((EUn NegC (EV n_a13a [(AVar n_ds1); (AVar n_ds3)])) *c (EV n_s24s [(AVar n_ds2); (AVar n_ds4)])) +c ((EV n_a12a [(AVar n_ds1); (AVar n_ds2)]) *c (EV n_s34s [(AVar n_ds3); (AVar n_ds4)]))) -c ((EV n_s13s [(AVar n_ds1); (AVar n_ds3)]) *c (EV n_a24a [(AVar n_ds2); (AVar n_ds4)]))) +c ((EV n_s12s [(AVar n_ds1); (AVar n_ds2)]) *c (EV n_a34a [(AVar n_ds3); (AVar n_ds4)])))) /c (EMemC n_pDenUAG));,
SReturnC (ELocC n_amplitude)).
(** uuuu2::amp_gluon_T: SM/uuuu2.cpp 128-146 *)
Definition uuuu2_amp_gluon_T : meth := mkMeth n_amp_gluon_T [(n_ds1, PkI); (n_ds2, PkI); (n_ds3, PkI); (n_ds4, PkI)]
(SLoc rT n_two (EUn I2T (EInt 2));,
SLoc rC n_amplitude (EBin OpTTC (EUn I2T (EInt 0)) (EUn I2T (EInt 0)));,
SLoc rC n_amplitude (((((ELocT n_two) *t (EMemT n_gs)) *t (EMemT n_gs)) *tc (((((EV n_a14a [(AVar n_ds1); (AVar n_ds4)]) *c (EV n_s23s [(AVar n_ds2); (AVar n_ds3)])) +c ((EV n_a12a [(AVar n_ds1); (AVar n_ds2)]) *c (EV n_s34s [(AVar n_ds3); (AVar n_ds4)]))) +c ((EV n_s14s [(AVar n_ds1); (AVar n_ds4)]) *c (EV n_a23a [(AVar n_ds2); (AVar n_ds3)]))) +c ((EV n_s12s [(AVar n_ds1); (AVar n_ds2)]) *c (EV n_a34a [(AVar n_ds3); (AVar n_ds4)])))) /c (EMemC n_pDenTAG));,
SReturnC (ELocC n_amplitude)).
(** uuuu2::amp_rest_U: SM/uuuu2.cpp 147-200 *)
Definition uuuu2_amp_rest_U : meth := mkMeth n_amp_rest_U [(n_ds1, PkI); (n_ds2, PkI); (n_ds3, PkI); (n_ds4, PkI)]
(SLoc rT n_two (EUn I2T (EInt 2));,
SLoc rC n_amplitude (EBin OpTTC (EUn I2T (EInt 0)) (EUn I2T (EInt 0)));,
SLoc rC n_amplitude (((((((ELocT n_two) *t (EMemT n_e)) *t (EMemT n_e)) *t (EUn D2T (ELit (4 # 1)))) /t (EUn D2T (ELit (9 # 1)))) *tc (((((EUn NegC (EV n_a13a [(AVar n_ds1); (AVar n_ds3)])) *c (EV n_s24s [(AVar n_ds2); (AVar n_ds4)])) +c ((EV n_a12a [(AVar n_ds1); (AVar n_ds2)]) *c (EV n_s34s [(AVar n_ds3); (AVar n_ds4)]))) -c ((EV n_s13s [(AVar n_ds1); (AVar n_ds3)]) *c (EV n_a24a [(AVar n_ds2); (AVar n_ds4)]))) +c ((EV n_s12s [(AVar n_ds1); (AVar n_ds2)]) *c (EV n_a34a [(AVar n_ds3); (AVar n_ds4)])))) /c (EMemC n_pDenUAG));,
SLoc rC n_amplitude ((ELocC n_amplitude) +c ((((EUn NegT (EMemT n_preh)) *tc ((EV n_s14s [(AVar n_ds1); (AVar n_ds4)]) -c (EV n_a14a [(AVar n_ds1); (AVar n_ds4)]))) *c ((EV n_s23s [(AVar n_ds2); (AVar n_ds3)]) -c (EV n_a23a [(AVar n_ds2); (AVar n_ds3)]))) /c (EMemC n_pDenUh)));,
SLoc rC n_amplitude ((ELocC n_amplitude) +c (((((EMemT n_preZ0) *tc ((EV n_a14a [(AVar n_ds1); (AVar n_ds4)]) +c (EV n_s14s [(AVar n_ds1); (AVar n_ds4)]))) *c ((EV n_a23a [(AVar n_ds2); (AVar n_ds3)]) +c (EV n_s23s [(AVar n_ds2); (AVar n_ds3)]))) /c (EMemC n_pDenUZ)) +c ((((ELocT n_two) *t (EMemT n_preZ)) *tc ((((((EMemT n_gL) *t (EMemT n_gL)) *tc (EV n_s34s [(AVar n_ds3); (AVar n_ds4)])) *c (EV n_a12a [(AVar n_ds1); (AVar n_ds2)])) -c (((EMemT n_gL) *t (EMemT n_gR)) *tc (((EV n_s13s [(AVar n_ds1); (AVar n_ds3)]) *c (EV n_a24a [(AVar n_ds2); (AVar n_ds4)])) +c ((EV n_s24s [(AVar n_ds2); (AVar n_ds4)]) *c (EV n_a13a [(AVar n_ds1); (AVar n_ds3)]))))) +c ((((EMemT n_gR) *t (EMemT n_gR)) *tc (EV n_s12s [(AVar n_ds1); (AVar n_ds2)])) *c (EV n_a34a [(AVar n_ds3); (AVar n_ds4)])))) /c (EMemC n_pDenUZ))));,
SReturnC (ELocC n_amplitude)).
(** uuuu2::amp_rest_T: SM/uuuu2.cpp 201-249 *)
Definition uuuu2_amp_rest_T : meth := mkMeth n_amp_rest_T [(n_ds1, PkI); (n_ds2, PkI); (n_ds3, PkI); (n_ds4, PkI)]
(SLoc rT n_two (EUn I2T (EInt 2));,
SLoc rC n_amplitude (EBin OpTTC (EUn I2T (EInt 0)) (EUn I2T (EInt 0)));,
SLoc rC n_amplitude ((ELocC n_amplitude) +c (((((((ELocT n_two) *t (EMemT n_e)) *t (EMemT n_e)) *t (EUn D2T (ELit (4 # 1)))) /t (EUn D2T (ELit (9 # 1)))) *tc (((((EV n_a14a [(AVar n_ds1); (AVar n_ds4)]) *c (EV n_s23s [(AVar n_ds2); (AVar n_ds3)])) +c ((EV n_a12a [(AVar n_ds1); (AVar n_ds2)]) *c (EV n_s34s [(AVar n_ds3); (AVar n_ds4)]))) +c ((EV n_s14s [(AVar n_ds1); (AVar n_ds4)]) *c (EV n_a23a [(AVar n_ds2); (AVar n_ds3)]))) +c ((EV n_s12s [(AVar n_ds1); (AVar n_ds2)]) *c (EV n_a34a [(AVar n_ds3); (AVar n_ds4)])))) /c (EMemC n_pDenTAG)));,
SLoc rC n_amplitude ((ELocC n_amplitude) +c ((((EMemT n_preh) *tc ((EV n_s13s [(AVar n_ds1); (AVar n_ds3)]) -c (EV n_a13a [(AVar n_ds1); (AVar n_ds3)]))) *c ((EV n_s24s [(AVar n_ds2); (AVar n_ds4)]) -c (EV n_a24a [(AVar n_ds2); (AVar n_ds4)]))) /c (EMemC n_pDenTh)));,
SLoc rC n_amplitude ((ELocC n_amplitude) +c (((((EUn NegT (EMemT n_preZ0)) *tc ((EV n_a13a [(AVar n_ds1); (AVar n_ds3)]) +c (EV n_s13s [(AVar n_ds1); (AVar n_ds3)]))) *c ((EV n_a24a [(AVar n_ds2); (AVar n_ds4)]) +c (EV n_s24s [(AVar n_ds2); (AVar n_ds4)]))) /c (EMemC n_pDenTZ)) +c ((((ELocT n_two) *t (EMemT n_preZ)) *tc ((((((EMemT n_gL) *t (EMemT n_gL)) *tc (EV n_s34s [(AVar n_ds3); (AVar n_ds4)])) *c (EV n_a12a [(AVar n_ds1); (AVar n_ds2)])) +c (((EMemT n_gL) *t (EMemT n_gR)) *tc (((EV n_s14s [(AVar n_ds1); (AVar n_ds4)]) *c (EV n_a23a [(AVar n_ds2); (AVar n_ds3)])) +c ((EV n_s23s [(AVar n_ds2); (AVar n_ds3)]) *c (EV n_a14a [(AVar n_ds1); (AVar n_ds4)]))))) +c ((((EMemT n_gR) *t (EMemT n_gR)) *tc (EV n_s12s [(AVar n_ds1); (AVar n_ds2)])) *c (EV n_a34a [(AVar n_ds3); (AVar n_ds4)])))) /c (EMemC n_pDenTZ))));,
SReturnC (ELocC n_amplitude)).
(** uuuu2::amp2: SM/uuuu2.cpp 252-282 *)
Definition uuuu2_amp2 : meth := mkMeth n_amp2 []
(SLoc rT n_amp2 (EUn I2T (EInt 0));,
SLoc rT n_two (EUn I2T (EInt 2));,
SLoc rT n_three (EUn I2T (EInt 3));,
SLoc rT n_four (EUn I2T (EInt 4));,
SLoc rT n_nine (EUn I2T (EInt 9));,
SDecl rC n_M_rest_U;,
SDecl rC n_M_gluon_U;,
SDecl rC n_M_rest_T;,
SDecl rC n_M_gluon_T;,
(SFor n_j1 (EUn NegI (EInt 1)) (EBin (CmpI CLe) (ELocI n_j1) (EInt 1)) (EBin (OpI IAdd) (ELocI n_j1) (EInt 2))
(SFor n_j2 (EUn NegI (EInt 1)) (EBin (CmpI CLe) (ELocI n_j2) (EInt 1)) (EBin (OpI IAdd) (ELocI n_j2) (EInt 2))
(SFor n_j3 (EUn NegI (EInt 1)) (EBin (CmpI CLe) (ELocI n_j3) (EInt 1)) (EBin (OpI IAdd) (ELocI n_j3) (EInt 2))
(SFor n_j4 (EUn NegI (EInt 1)) (EBin (CmpI CLe) (ELocI n_j4) (EInt 1)) (EBin (OpI IAdd) (ELocI n_j4) (EInt 2))
(SLoc rC n_M_rest_U (ECall n_amp_rest_U [(AVar n_j1); (AVar n_j2); (AVar n_j3); (AVar n_j4)]);,
SLoc rC n_M_rest_T (ECall n_amp_rest_T [(AVar n_j1); (AVar n_j2); (AVar n_j3); (AVar n_j4)]);,
SLoc rC n_M_gluon_U (ECall n_amp_gluon_U [(AVar n_j1); (AVar n_j2); (AVar n_j3); (AVar n_j4)]);,
SLoc rC n_M_gluon_T (ECall n_amp_gluon_T [(AVar n_j1); (AVar n_j2); (AVar n_j3); (AVar n_j4)]);,
SLoc rT n_amp2 ((ELocT n_amp2) +t ((ELocT n_nine) *t (EUn Pow2T (EUn AbsC (ELocC n_M_rest_U)))));,
SLoc rT n_amp2 ((ELocT n_amp2) +t ((ELocT n_two) *t (EUn Pow2T (EUn AbsC (ELocC n_M_gluon_U)))));,
SLoc rT n_amp2 ((ELocT n_amp2) +t ((ELocT n_nine) *t (EUn Pow2T (EUn AbsC (ELocC n_M_rest_T)))));,
SLoc rT n_amp2 ((ELocT n_amp2) +t ((ELocT n_two) *t (EUn Pow2T (EUn AbsC (ELocC n_M_gluon_T)))));,
SLoc rT n_amp2 ((ELocT n_amp2) +t (((ELocT n_three) *t (ELocT n_two)) *t (EUn ReC ((ELocC n_M_rest_U) *c (EUn ConjC (ELocC n_M_rest_T))))));,
SLoc rT n_amp2 ((ELocT n_amp2) +t ((((EUn NegT (ELocT n_two)) /t (ELocT n_three)) *t (ELocT n_two)) *t (EUn ReC ((ELocC n_M_gluon_U) *c (EUn ConjC (ELocC n_M_gluon_T))))));,
SLoc rT n_amp2 ((ELocT n_amp2) +t (((ELocT n_four) *t (ELocT n_two)) *t (EUn ReC ((ELocC n_M_gluon_U) *c (EUn ConjC (ELocC n_M_rest_T))))));,
SLoc rT n_amp2 ((ELocT n_amp2) +t (((ELocT n_four) *t (ELocT n_two)) *t (EUn ReC ((ELocC n_M_gluon_T) *c (EUn ConjC (ELocC n_M_rest_U)))))))))));,
SReturnT ((ELocT n_amp2) /t (EUn D2T (ELit (72 # 1))))).
(** members: SM/include/uuuu2.h 26-34; initialisers: SM/uuuu2.cpp 32-48 *)
Definition uuuu2 : cls := mkCls "uuuu2"
[(n_e, KT);
(n_gs, KT);
(n_mu, KT);
(n_mh, KT);
(n_wh, KT);
(n_MZ, KT);
(n_WZ, KT);
(n_MW, KT);
(n_SW, KT);
(n_CW, KT);
(n_p1, (KPart 0));
(n_p2, (KPart 1));
(n_p3, (KPart 2));
(n_p4, (KPart 3));
(n_propAG, KProp);
(n_proph, KProp);
(n_propZ, KProp);
(n_pDenUAG, KC);
(n_pDenUh, KC);
(n_pDenUZ, KC);
(n_pDenTAG, KC);
(n_pDenTh, KC);
(n_pDenTZ, KC);
(n_a13a, KSprod);
(n_s13s, KSprod);
(n_a14a, KSprod);
(n_s14s, KSprod);
(n_a23a, KSprod);
(n_s23s, KSprod);
(n_a24a, KSprod);
(n_s24s, KSprod);
(n_s12s, KSprod);
(n_a12a, KSprod);
(n_s34s, KSprod);
(n_a34a, KSprod);
(n_preh, KT);
(n_gL, KT);
(n_gR, KT);
(n_preZ, KT);
(n_preZ0, KT)]
[n_echarge; n_gscharge; n_massu; n_massh; n_widthh; n_massW; n_sinW; n_widthZ]
[(n_e, NT (ELocT n_echarge));
(n_gs, NT (ELocT n_gscharge));
(n_mu, NT (ELocT n_massu));
(n_mh, NT (ELocT n_massh));
(n_wh, NT (ELocT n_widthh));
(n_MW, NT (ELocT n_massW));
(n_SW, NT (ELocT n_sinW));
(n_CW, NT (EUn SqrtT ((EUn D2T (ELit (1 # 1))) -t ((ELocT n_sinW) *t (ELocT n_sinW)))));
(n_WZ, NT (ELocT n_widthZ));
(n_propAG, NProp (EUn I2T (EInt 0)) (EUn I2T (EInt 0)));
(n_proph, NProp (EMemT n_mh) (EMemT n_wh));
(n_p1, NPart (EMemT n_mu));
(n_p2, NPart (EMemT n_mu));
(n_p3, NPart (EMemT n_mu));
(n_p4, NPart (EMemT n_mu));
(n_a13a, NSprod true 0 [] 2);
(n_s13s, NSprod false 0 [] 2);
(n_a14a, NSprod true 0 [] 3);
(n_s14s, NSprod false 0 [] 3);
(n_a23a, NSprod true 1 [] 2);
(n_s23s, NSprod false 1 [] 2);
(n_a24a, NSprod true 1 [] 3);
(n_s24s, NSprod false 1 [] 3);
(n_s12s, NSprod false 0 [] 1);
(n_a12a, NSprod true 0 [] 1);
(n_s34s, NSprod false 2 [] 3);
(n_a34a, NSprod true 2 [] 3)]
uuuu2_ctor
[uuuu2_set_masses; uuuu2_set_momenta; uuuu2_amp_gluon_U; uuuu2_amp_gluon_T; uuuu2_amp_rest_U; uuuu2_amp_rest_T; uuuu2_amp2].

Definition SM12_classes : list cls := [uuZh; uucc; uudd; uuee; uuhh; uunn; uuss; uuuu; uuuu2].
