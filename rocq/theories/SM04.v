(** Generated by tools/translate.py from SM/ddZZ.cpp ... SM/dhdh.cpp.  Do not edit. *)
From Coq Require Import QArith String.
From Verif Require Import Base Scalar Particle Sproduct Lang SMSyntax SMNames.
Local Open Scope sm_scope.
Local Open Scope string_scope.

(** ddZZ::ddZZ: SM/ddZZ.cpp 32-63 *)
Definition ddZZ_ctor : stmt :=
(SLoc rT n_two (EUn I2T (EInt 2));,
SMemT n_sqrt2 (EUn SqrtT (ELocT n_two));,
SMemT n_MZ ((EMemT n_MW) /t (EMemT n_CW));,
SPropNew n_proph (EMemT n_mh) (EMemT n_wh);,
SParticle 0 (EMemT n_mf);,
SParticle 1 (EMemT n_mf);,
SParticle 2 (EMemT n_MZ);,
SParticle 3 (EMemT n_MZ);,
SSprod n_s12s false 0 [] 1;,
SSprod n_a12a true 0 [] 1;,
SSprod n_s23s false 1 [] 2;,
SSprod n_a23a true 1 [] 2;,
SSprod n_s13s false 0 [] 2;,
SSprod n_a13a true 0 [] 2;,
SSprod n_s34s false 2 [] 3;,
SSprod n_a34a true 2 [] 3;,
SSprod n_s24s false 1 [] 3;,
SSprod n_a24a true 1 [] 3;,
SSprod n_s14s false 0 [] 3;,
SSprod n_a14a true 0 [] 3;,
SSprod n_s314a false 2 [0] 3;,
SSprod n_s413a false 3 [0] 2;,
SMemT n_preTU (((EMemT n_e) *t (EMemT n_e)) /t (((((EUn D2T (ELit (2 # 1))) *t (EMemT n_MW)) *t (EMemT n_MW)) *t (EMemT n_SW)) *t (EMemT n_SW)));,
SMemT n_gL (((((EUn D2T (EUn NegD (ELit (2 # 1)))) *t (EMemT n_Qf)) *t (EMemT n_SW)) *t (EMemT n_SW)) -t (EUn D2T (ELit (1 # 1))));,
SMemT n_gR ((((EUn D2T (EUn NegD (ELit (2 # 1)))) *t (EMemT n_Qf)) *t (EMemT n_SW)) *t (EMemT n_SW));,
SMemT n_preh ((((EMemT n_e) *t (EMemT n_e)) *t (EMemT n_mf)) /t (((((EUn D2T (ELit (2 # 1))) *t (EMemT n_MW)) *t (EMemT n_MW)) *t (EMemT n_SW)) *t (EMemT n_SW)))).
(** ddZZ::set_masses: SM/ddZZ.cpp 64-78 *)
Definition ddZZ_set_masses : meth := mkMeth n_set_masses [(n_massf, PkT); (n_massh, PkT); (n_massW, PkT)]
(SMemT n_mf (ELocT n_massf);,
SMemT n_mh (ELocT n_massh);,
SMemT n_MW (ELocT n_massW);,
SMemT n_MZ ((EMemT n_MW) /t (EMemT n_CW));,
SSetMass 0 (EMemT n_mf);,
SSetMass 1 (EMemT n_mf);,
SSetMass 2 (EMemT n_MZ);,
SSetMass 3 (EMemT n_MZ);,
SPropMass n_propf (EMemT n_mf);,
SPropMass n_proph (EMemT n_mh);,
SMemT n_preTU (((EMemT n_e) *t (EMemT n_e)) /t (((((EUn D2T (ELit (2 # 1))) *t (EMemT n_MW)) *t (EMemT n_MW)) *t (EMemT n_SW)) *t (EMemT n_SW)));,
SMemT n_preh ((((EMemT n_e) *t (EMemT n_e)) *t (EMemT n_mf)) /t (((((EUn D2T (ELit (2 # 1))) *t (EMemT n_MW)) *t (EMemT n_MW)) *t (EMemT n_SW)) *t (EMemT n_SW)))).
(** ddZZ::set_momenta: SM/ddZZ.cpp 79-111 *)
Definition ddZZ_set_momenta : meth := mkMeth n_set_momenta [(n_mom1, PkMom); (n_mom2, PkMom); (n_mom3, PkMom); (n_mom4, PkMom)]
(SSetMomentum 0 n_mom1;,
SSetMomentum 1 n_mom2;,
SSetMomentum 2 n_mom3;,
SSetMomentum 3 n_mom4;,
SUpdate n_s12s;,
SUpdate n_a12a;,
SUpdate n_s23s;,
SUpdate n_a23a;,
SUpdate n_s13s;,
SUpdate n_a13a;,
SUpdate n_s34s;,
SUpdate n_a34a;,
SUpdate n_s24s;,
SUpdate n_a24a;,
SUpdate n_s14s;,
SUpdate n_a14a;,
SUpdate n_s314a;,
SUpdate n_s413a;,
SDeclT n_propSP 4;,
SDeclT n_propTP 4;,
SDeclT n_propUP 4;,
(SFor n_j (EInt 0) (EBin (CmpI CLt) (ELocI n_j) (EInt 4)) (EBin (OpI IAdd) (ELocI n_j) (EInt 1))
(SArrT n_propSP (AVar n_j) ((EArrT n_mom1 (AVar n_j)) +t (EArrT n_mom2 (AVar n_j)));,
SArrT n_propTP (AVar n_j) ((EArrT n_mom1 (AVar n_j)) -t (EArrT n_mom3 (AVar n_j)));,
SArrT n_propUP (AVar n_j) ((EArrT n_mom1 (AVar n_j)) -t (EArrT n_mom4 (AVar n_j)))));,
SMemC n_pDenS (EDen n_proph n_propSP);,
SMemC n_pDenT (EDen n_propf n_propTP);,
SMemC n_pDenU (EDen n_propf n_propUP)).
(** ddZZ::amp: SM/ddZZ.cpp 116-166 *)
Definition ddZZ_amp : meth := mkMeth n_amp [(n_ds1, PkI); (n_ds2, PkI); (n_ds3, PkI); (n_ds4, PkI)]
(SLoc rC n_amplitude (EBin OpTTC (EUn I2T (EInt 0)) (EUn I2T (EInt 0)));,
SDecl rI n_ds3a;,
SDecl rI n_ds3b;,
SDecl rI n_ds4a;,
SDecl rI n_ds4b;,
SLoc rI n_nCombs (ENLoops [(AVar n_ds3); (AVar n_ds4)]);,
SLoc rT n_normFactor (ENorm [(AVar n_ds3); (AVar n_ds4)]);,
(SFor n_i (EInt 0) (EBin (CmpI CLt) (ELocI n_i) (ELocI n_nCombs)) (EBin (OpI IAdd) (ELocI n_i) (EInt 1))
(SSpins [(n_ds3, n_ds3a, n_ds3b); (n_ds4, n_ds4a, n_ds4b)] (AVar n_i);,
SLoc rC n_amplitude ((ELocC n_amplitude) +c ((((((ELocT n_normFactor) *t (EMemT n_preh)) *tc (EV n_s34s [(AVar n_ds3a); (AVar n_ds4a)])) *c (EV n_a34a [(AVar n_ds3b); (AVar n_ds4b)])) *c ((EV n_s12s [(AVar n_ds1); (AVar n_ds2)]) +c (EV n_a12a [(AVar n_ds1); (AVar n_ds2)]))) /c (EMemC n_pDenS)));,
SLoc rC n_amplitude ((ELocC n_amplitude) +c ((((((((((ELocT n_normFactor) *t (EMemT n_preTU)) *t (EMemT n_gL)) *t (EMemT n_gL)) *tc (EV n_s24s [(AVar n_ds2); (AVar n_ds4a)])) *c (EV n_a13a [(AVar n_ds1); (AVar n_ds3a)])) *c (((EMemT n_MZ) *tc (EV n_a34a [(AVar n_ds3b); (AVar n_ds4b)])) -c (EV n_s314a [(AVar n_ds3b); (AVar n_ds4b)]))) /c (EMemC n_pDenT)) +c ((((((((ELocT n_normFactor) *t (EMemT n_preTU)) *t (EMemT n_gR)) *t (EMemT n_gR)) *tc (EV n_a24a [(AVar n_ds2); (AVar n_ds4a)])) *c (EV n_s13s [(AVar n_ds1); (AVar n_ds3a)])) *c (((EMemT n_MZ) *tc (EV n_s34s [(AVar n_ds3b); (AVar n_ds4b)])) -c (EV n_s413a [(AVar n_ds4b); (AVar n_ds3b)]))) /c (EMemC n_pDenT))) -c (((((((ELocT n_normFactor) *t (EMemT n_preTU)) *t (EMemT n_gL)) *t (EMemT n_gR)) *t (EMemT n_mf)) *tc ((((EV n_s13s [(AVar n_ds1); (AVar n_ds3a)]) *c (EV n_s24s [(AVar n_ds2); (AVar n_ds4a)])) *c (EV n_a34a [(AVar n_ds3b); (AVar n_ds4b)])) +c (((EV n_a13a [(AVar n_ds1); (AVar n_ds3a)]) *c (EV n_a24a [(AVar n_ds2); (AVar n_ds4a)])) *c (EV n_s34s [(AVar n_ds3b); (AVar n_ds4b)])))) /c (EMemC n_pDenT))));,
SLoc rC n_amplitude ((ELocC n_amplitude) +c ((((((((((EUn NegT (ELocT n_normFactor)) *t (EMemT n_preTU)) *t (EMemT n_gL)) *t (EMemT n_gL)) *tc (EV n_s23s [(AVar n_ds2); (AVar n_ds3a)])) *c (EV n_a14a [(AVar n_ds1); (AVar n_ds4a)])) *c (((EMemT n_MZ) *tc (EV n_a34a [(AVar n_ds3b); (AVar n_ds4b)])) +c (EV n_s413a [(AVar n_ds4b); (AVar n_ds3b)]))) /c (EMemC n_pDenU)) -c ((((((((ELocT n_normFactor) *t (EMemT n_preTU)) *t (EMemT n_gR)) *t (EMemT n_gR)) *tc (EV n_s14s [(AVar n_ds1); (AVar n_ds4a)])) *c (EV n_a23a [(AVar n_ds2); (AVar n_ds3a)])) *c (((EMemT n_MZ) *tc (EV n_s34s [(AVar n_ds3b); (AVar n_ds4b)])) +c (EV n_s314a [(AVar n_ds3b); (AVar n_ds4b)]))) /c (EMemC n_pDenU))) +c (((((((ELocT n_normFactor) *t (EMemT n_preTU)) *t (EMemT n_gL)) *t (EMemT n_gR)) *t (EMemT n_mf)) *tc ((((EV n_s14s [(AVar n_ds1); (AVar n_ds4a)]) *c (EV n_s23s [(AVar n_ds2); (AVar n_ds3a)])) *c (EV n_a34a [(AVar n_ds3b); (AVar n_ds4b)])) +c (((EV n_a14a [(AVar n_ds1); (AVar n_ds4a)]) *c (EV n_a23a [(AVar n_ds2); (AVar n_ds3a)])) *c (EV n_s34s [(AVar n_ds3b); (AVar n_ds4b)])))) /c (EMemC n_pDenU))))));,
SReturnC (ELocC n_amplitude)).
(** ddZZ::amp2: SM/ddZZ.cpp 169-185 *)
Definition ddZZ_amp2 : meth := mkMeth n_amp2 []
(SLoc rT n_amp2 (EUn I2T (EInt 0));,
SDecl rC n_M;,
(SFor n_j1 (EUn NegI (EInt 1)) (EBin (CmpI CLe) (ELocI n_j1) (EInt 1)) (EBin (OpI IAdd) (ELocI n_j1) (EInt 2))
(SFor n_j2 (EUn NegI (EInt 1)) (EBin (CmpI CLe) (ELocI n_j2) (EInt 1)) (EBin (OpI IAdd) (ELocI n_j2) (EInt 2))
(SFor n_j3 (EUn NegI (EInt 2)) (EBin (CmpI CLe) (ELocI n_j3) (EInt 2)) (EBin (OpI IAdd) (ELocI n_j3) (EInt 2))
(SFor n_j4 (EUn NegI (EInt 2)) (EBin (CmpI CLe) (ELocI n_j4) (EInt 2)) (EBin (OpI IAdd) (ELocI n_j4) (EInt 2))
(SLoc rC n_M (ECall n_amp [(AVar n_j1); (AVar n_j2); (AVar n_j3); (AVar n_j4)]);,
SLoc rT n_amp2 ((ELocT n_amp2) +t ((EUn D2T (ELit (3 # 1))) *t (EUn Pow2T (EUn AbsC (ELocC n_M))))))))));,
SReturnT ((ELocT n_amp2) /t (EUn D2T (ELit (72 # 1))))).
(** members: SM/include/ddZZ.h 26-36; initialisers: SM/ddZZ.cpp 32-33 *)
Definition ddZZ : cls := mkCls "ddZZ"
[(n_e, KT);
(n_Qf, KT);
(n_mf, KT);
(n_mh, KT);
(n_wh, KT);
(n_MW, KT);
(n_SW, KT);
(n_CW, KT);
(n_MZ, KT);
(n_WZ, KT);
(n_p1, (KPart 0));
(n_p2, (KPart 1));
(n_p3, (KPart 2));
(n_p4, (KPart 3));
(n_proph, KProp);
(n_propf, KProp);
(n_pDenS, KC);
(n_pDenT, KC);
(n_pDenU, KC);
(n_s12s, KSprod);
(n_a12a, KSprod);
(n_s23s, KSprod);
(n_a23a, KSprod);
(n_s13s, KSprod);
(n_a13a, KSprod);
(n_s34s, KSprod);
(n_a34a, KSprod);
(n_s24s, KSprod);
(n_a24a, KSprod);
(n_s14s, KSprod);
(n_a14a, KSprod);
(n_s314a, KSprod);
(n_s413a, KSprod);
(n_sqrt2, KT);
(n_preTU, KT);
(n_preh, KT);
(n_gL, KT);
(n_gR, KT)]
[n_echarge; n_massf; n_massh; n_widthh; n_massW; n_sinW; n_widthZ]
[(n_e, NT (ELocT n_echarge));
(n_Qf, NT (EUn D2T ((EUn NegD (ELit (1 # 1))) /d (ELit (3 # 1)))));
(n_mf, NT (ELocT n_massf));
(n_mh, NT (ELocT n_massh));
(n_wh, NT (ELocT n_widthh));
(n_MW, NT (ELocT n_massW));
(n_SW, NT (ELocT n_sinW));
(n_CW, NT (EUn SqrtT ((EUn D2T (ELit (1 # 1))) -t ((ELocT n_sinW) *t (ELocT n_sinW)))));
(n_MZ, NT ((ELocT n_massW) /t (EMemT n_CW)));
(n_WZ, NT (ELocT n_widthZ));
(n_propf, NProp (ELocT n_massf) (EUn I2T (EInt 0)))]
ddZZ_ctor
[ddZZ_set_masses; ddZZ_set_momenta; ddZZ_amp; ddZZ_amp2].

(** ddZh::ddZh: SM/ddZh.cpp 32-62 *)
Definition ddZh_ctor : stmt :=
(SLoc rT n_two (EUn I2T (EInt 2));,
SMemT n_sqrt2 (EUn SqrtT (ELocT n_two));,
SMemT n_MZ ((EMemT n_MW) /t (EMemT n_CW));,
SPropNew n_propZ (EMemT n_MZ) (EMemT n_WZ);,
SParticle 0 (EMemT n_md);,
SParticle 1 (EMemT n_md);,
SParticle 2 (EMemT n_MZ);,
SParticle 3 (EMemT n_mh);,
SSprod n_s12s false 0 [] 1;,
SSprod n_a12a true 0 [] 1;,
SSprod n_s23s false 1 [] 2;,
SSprod n_a23a true 1 [] 2;,
SSprod n_s13s false 0 [] 2;,
SSprod n_a13a true 0 [] 2;,
SSprod n_s312a false 2 [0] 1;,
SSprod n_s213a false 1 [0] 2;,
SSprod n_s343a false 2 [3] 2;,
SSprod n_s143a false 0 [3] 2;,
SSprod n_s341a false 2 [3] 0;,
SSprod n_s243a false 1 [3] 2;,
SSprod n_s342a false 2 [3] 1;,
SMemT n_preTU (((((EMemT n_sqrt2) *t (EMemT n_e)) *t (EMemT n_e)) *t (EMemT n_md)) /t (((((EUn D2T (ELit (4 # 1))) *t (EMemT n_MW)) *t (EMemT n_MW)) *t (EMemT n_SW)) *t (EMemT n_SW)));,
SMemT n_gL ((((EUn D2T ((ELit (2 # 1)) /d (ELit (3 # 1)))) *t (EMemT n_SW)) *t (EMemT n_SW)) -t (EUn D2T (ELit (1 # 1))));,
SMemT n_gR (((EUn D2T ((ELit (2 # 1)) /d (ELit (3 # 1)))) *t (EMemT n_SW)) *t (EMemT n_SW));,
SMemT n_preZ ((((EMemT n_sqrt2) *t (EMemT n_e)) *t (EMemT n_e)) /t (((((EUn D2T (ELit (4 # 1))) *t (EMemT n_MW)) *t (EMemT n_MW)) *t (EMemT n_SW)) *t (EMemT n_SW)))).
(** ddZh::set_masses: SM/ddZh.cpp 63-77 *)
Definition ddZh_set_masses : meth := mkMeth n_set_masses [(n_massd, PkT); (n_massh, PkT); (n_massW, PkT)]
(SMemT n_md (ELocT n_massd);,
SMemT n_mh (ELocT n_massh);,
SMemT n_MW (ELocT n_massW);,
SMemT n_MZ ((EMemT n_MW) /t (EMemT n_CW));,
SSetMass 0 (EMemT n_md);,
SSetMass 1 (EMemT n_md);,
SSetMass 2 (EMemT n_MZ);,
SSetMass 3 (EMemT n_mh);,
SPropMass n_propd (EMemT n_md);,
SPropMass n_propZ (EMemT n_MZ);,
SMemT n_preTU (((((EMemT n_sqrt2) *t (EMemT n_e)) *t (EMemT n_e)) *t (EMemT n_md)) /t (((((EUn D2T (ELit (4 # 1))) *t (EMemT n_MW)) *t (EMemT n_MW)) *t (EMemT n_SW)) *t (EMemT n_SW)));,
SMemT n_preZ ((((EMemT n_sqrt2) *t (EMemT n_e)) *t (EMemT n_e)) /t (((((EUn D2T (ELit (4 # 1))) *t (EMemT n_MW)) *t (EMemT n_MW)) *t (EMemT n_SW)) *t (EMemT n_SW)))).
(** ddZh::set_momenta: SM/ddZh.cpp 78-109 *)
Definition ddZh_set_momenta : meth := mkMeth n_set_momenta [(n_mom1, PkMom); (n_mom2, PkMom); (n_mom3, PkMom); (n_mom4, PkMom)]
(SSetMomentum 0 n_mom1;,
SSetMomentum 1 n_mom2;,
SSetMomentum 2 n_mom3;,
SSetMomentum 3 n_mom4;,
SUpdate n_s12s;,
SUpdate n_a12a;,
SUpdate n_s23s;,
SUpdate n_a23a;,
SUpdate n_s13s;,
SUpdate n_a13a;,
SUpdate n_s312a;,
SUpdate n_s213a;,
SUpdate n_s343a;,
SUpdate n_s143a;,
SUpdate n_s341a;,
SUpdate n_s243a;,
SUpdate n_s342a;,
SDeclT n_propSP 4;,
SDeclT n_propTP 4;,
SDeclT n_propUP 4;,
(SFor n_j (EInt 0) (EBin (CmpI CLt) (ELocI n_j) (EInt 4)) (EBin (OpI IAdd) (ELocI n_j) (EInt 1))
(SArrT n_propSP (AVar n_j) ((EArrT n_mom1 (AVar n_j)) +t (EArrT n_mom2 (AVar n_j)));,
SArrT n_propTP (AVar n_j) ((EArrT n_mom1 (AVar n_j)) -t (EArrT n_mom3 (AVar n_j)));,
SArrT n_propUP (AVar n_j) ((EArrT n_mom1 (AVar n_j)) -t (EArrT n_mom4 (AVar n_j)))));,
SMemC n_pDenS (EDen n_propZ n_propSP);,
SMemC n_pDenT (EDen n_propd n_propTP);,
SMemC n_pDenU (EDen n_propd n_propUP)).
(** ddZh::amp: SM/ddZh.cpp 114-159 *)
Definition ddZh_amp : meth := mkMeth n_amp [(n_ds1, PkI); (n_ds2, PkI); (n_ds3, PkI)]
(SLoc rC n_amplitude (EBin OpTTC (EUn I2T (EInt 0)) (EUn I2T (EInt 0)));,
SDecl rI n_ds3a;,
SDecl rI n_ds3b;,
SLoc rI n_nCombs (ENLoops [(AVar n_ds3)]);,
SLoc rT n_normFactor (ENorm [(AVar n_ds3)]);,
(SFor n_i (EInt 0) (EBin (CmpI CLt) (ELocI n_i) (ELocI n_nCombs)) (EBin (OpI IAdd) (ELocI n_i) (EInt 1))
(SSpins [(n_ds3, n_ds3a, n_ds3b)] (AVar n_i);,
SLoc rC n_amplitude ((ELocC n_amplitude) +c ((((ELocT n_normFactor) *t (EMemT n_preZ)) *tc (((((EMemT n_md) *t ((EMemT n_gL) -t (EMemT n_gR))) *tc ((EV n_a12a [(AVar n_ds1); (AVar n_ds2)]) -c (EV n_s12s [(AVar n_ds1); (AVar n_ds2)]))) *c (EV n_s343a [(AVar n_ds3a); (AVar n_ds3b)])) -c ((((EUn D2T (ELit (2 # 1))) *t (EMemT n_MZ)) *t (EMemT n_MZ)) *tc ((((EMemT n_gL) *tc (EV n_s23s [(AVar n_ds2); (AVar n_ds3a)])) *c (EV n_a13a [(AVar n_ds1); (AVar n_ds3b)])) +c (((EMemT n_gR) *tc (EV n_a23a [(AVar n_ds2); (AVar n_ds3a)])) *c (EV n_s13s [(AVar n_ds1); (AVar n_ds3b)])))))) /c (EMemC n_pDenS)));,
SLoc rC n_amplitude ((ELocC n_amplitude) +c ((((ELocT n_normFactor) *t (EMemT n_preTU)) *tc ((((EMemT n_gR) *tc (EV n_s13s [(AVar n_ds1); (AVar n_ds3a)])) *c ((((EUn D2T (EUn NegD (ELit (2 # 1)))) *t (EMemT n_md)) *tc (EV n_a23a [(AVar n_ds2); (AVar n_ds3b)])) +c (EV n_s243a [(AVar n_ds2); (AVar n_ds3b)]))) +c (((EMemT n_gL) *tc (EV n_a13a [(AVar n_ds1); (AVar n_ds3a)])) *c ((((EUn D2T (EUn NegD (ELit (2 # 1)))) *t (EMemT n_md)) *tc (EV n_s23s [(AVar n_ds2); (AVar n_ds3b)])) +c (EV n_s342a [(AVar n_ds3b); (AVar n_ds2)]))))) /c (EMemC n_pDenT)));,
SLoc rC n_amplitude ((ELocC n_amplitude) +c ((((ELocT n_normFactor) *t (EMemT n_preTU)) *tc ((((EMemT n_gL) *tc (EV n_s23s [(AVar n_ds2); (AVar n_ds3a)])) *c ((EV n_s143a [(AVar n_ds1); (AVar n_ds3b)]) -c (((EUn D2T (ELit (2 # 1))) *t (EMemT n_md)) *tc (EV n_a13a [(AVar n_ds1); (AVar n_ds3b)])))) +c (((EMemT n_gR) *tc (EV n_a23a [(AVar n_ds2); (AVar n_ds3a)])) *c ((EV n_s341a [(AVar n_ds3b); (AVar n_ds1)]) -c (((EUn D2T (ELit (2 # 1))) *t (EMemT n_md)) *tc (EV n_s13s [(AVar n_ds1); (AVar n_ds3b)])))))) /c (EMemC n_pDenU)))));,
SReturnC (ELocC n_amplitude)).
(** ddZh::amp2: SM/ddZh.cpp 162-176 *)
Definition ddZh_amp2 : meth := mkMeth n_amp2 []
(SLoc rT n_amp2 (EUn I2T (EInt 0));,
SDecl rC n_M;,
(SFor n_j1 (EUn NegI (EInt 1)) (EBin (CmpI CLe) (ELocI n_j1) (EInt 1)) (EBin (OpI IAdd) (ELocI n_j1) (EInt 2))
(SFor n_j2 (EUn NegI (EInt 1)) (EBin (CmpI CLe) (ELocI n_j2) (EInt 1)) (EBin (OpI IAdd) (ELocI n_j2) (EInt 2))
(SFor n_j3 (EUn NegI (EInt 2)) (EBin (CmpI CLe) (ELocI n_j3) (EInt 2)) (EBin (OpI IAdd) (ELocI n_j3) (EInt 2))
(SLoc rC n_M (ECall n_amp [(AVar n_j1); (AVar n_j2); (AVar n_j3)]);,
SLoc rT n_amp2 ((ELocT n_amp2) +t ((EUn D2T (ELit (3 # 1))) *t (EUn Pow2T (EUn AbsC (ELocC n_M)))))))));,
SReturnT ((ELocT n_amp2) /t (EUn D2T (ELit (36 # 1))))).
(** members: SM/include/ddZh.h 26-36; initialisers: SM/ddZh.cpp 32-33 *)
Definition ddZh : cls := mkCls "ddZh"
[(n_e, KT);
(n_md, KT);
(n_mh, KT);
(n_wh, KT);
(n_MW, KT);
(n_SW, KT);
(n_CW, KT);
(n_MZ, KT);
(n_WZ, KT);
(n_p1, (KPart 0));
(n_p2, (KPart 1));
(n_p3, (KPart 2));
(n_p4, (KPart 3));
(n_propZ, KProp);
(n_propd, KProp);
(n_pDenS, KC);
(n_pDenT, KC);
(n_pDenU, KC);
(n_s12s, KSprod);
(n_a12a, KSprod);
(n_s23s, KSprod);
(n_a23a, KSprod);
(n_s13s, KSprod);
(n_a13a, KSprod);
(n_s312a, KSprod);
(n_s213a, KSprod);
(n_s343a, KSprod);
(n_s143a, KSprod);
(n_s341a, KSprod);
(n_s243a, KSprod);
(n_s342a, KSprod);
(n_sqrt2, KT);
(n_preTU, KT);
(n_preZ, KT);
(n_gL, KT);
(n_gR, KT)]
[n_echarge; n_massd; n_massh; n_widthh; n_massW; n_sinW; n_widthZ]
[(n_e, NT (ELocT n_echarge));
(n_md, NT (ELocT n_massd));
(n_mh, NT (ELocT n_massh));
(n_wh, NT (ELocT n_widthh));
(n_MW, NT (ELocT n_massW));
(n_SW, NT (ELocT n_sinW));
(n_CW, NT (EUn SqrtT ((EUn D2T (ELit (1 # 1))) -t ((ELocT n_sinW) *t (ELocT n_sinW)))));
(n_MZ, NT ((ELocT n_massW) /t (EMemT n_CW)));
(n_WZ, NT (ELocT n_widthZ));
(n_propd, NProp (ELocT n_massd) (EUn I2T (EInt 0)))]
ddZh_ctor
[ddZh_set_masses; ddZh_set_momenta; ddZh_amp; ddZh_amp2].

(** dddd::dddd: SM/dddd.cpp 32-58 *)
Definition dddd_ctor : stmt :=
(SMemT n_MZ ((EMemT n_MW) /t (EMemT n_CW));,
SPropMass n_propZ (EMemT n_MZ);,
SMemT n_preh (((((EMemT n_e) *t (EMemT n_e)) *t (EMemT n_md)) *t (EMemT n_md)) /t (((((EUn D2T (ELit (4 # 1))) *t (EMemT n_MW)) *t (EMemT n_MW)) *t (EMemT n_SW)) *t (EMemT n_SW)));,
SMemT n_gL ((EUn D2T (EUn NegD (ELit (1 # 1)))) +t (((EUn D2T ((ELit (2 # 1)) /d (ELit (3 # 1)))) *t (EMemT n_SW)) *t (EMemT n_SW)));,
SMemT n_gR (((EUn D2T ((ELit (2 # 1)) /d (ELit (3 # 1)))) *t (EMemT n_SW)) *t (EMemT n_SW));,
SMemT n_preZ (((EMemT n_e) *t (EMemT n_e)) /t (((((EUn D2T (ELit (4 # 1))) *t (EMemT n_CW)) *t (EMemT n_CW)) *t (EMemT n_SW)) *t (EMemT n_SW)));,
SMemT n_preZ0 (((((((EMemT n_preZ) *t ((EMemT n_gL) -t (EMemT n_gR))) *t ((EMemT n_gL) -t (EMemT n_gR))) *t (EMemT n_md)) *t (EMemT n_md)) /t (EMemT n_MZ)) /t (EMemT n_MZ))).
(** dddd::set_masses: SM/dddd.cpp 59-72 *)
Definition dddd_set_masses : meth := mkMeth n_set_masses [(n_massd, PkT); (n_massh, PkT); (n_massW, PkT)]
(SMemT n_md (ELocT n_massd);,
SMemT n_mh (ELocT n_massh);,
SPropMass n_proph (EMemT n_mh);,
SMemT n_MW (ELocT n_massW);,
SMemT n_MZ ((EMemT n_MW) /t (EMemT n_CW));,
SPropMass n_propZ (EMemT n_MZ);,
SSetMass 0 (EMemT n_md);,
SSetMass 1 (EMemT n_md);,
SSetMass 2 (EMemT n_md);,
SSetMass 3 (EMemT n_md);,
SMemT n_preh (((((EMemT n_e) *t (EMemT n_e)) *t (EMemT n_md)) *t (EMemT n_md)) /t (((((EUn I2T (EInt 4)) *t (EMemT n_MW)) *t (EMemT n_MW)) *t (EMemT n_SW)) *t (EMemT n_SW)));,
SMemT n_preZ0 (((((((EMemT n_preZ) *t ((EMemT n_gL) -t (EMemT n_gR))) *t ((EMemT n_gL) -t (EMemT n_gR))) *t (EMemT n_md)) *t (EMemT n_md)) /t (EMemT n_MZ)) /t (EMemT n_MZ))).
(** dddd::set_momenta: SM/dddd.cpp 73-103 *)
Definition dddd_set_momenta : meth := mkMeth n_set_momenta [(n_mom1, PkMom); (n_mom2, PkMom); (n_mom3, PkMom); (n_mom4, PkMom)]
(SSetMomentum 0 n_mom1;,
SSetMomentum 1 n_mom2;,
SSetMomentum 2 n_mom3;,
SSetMomentum 3 n_mom4;,
SUpdate n_a13a;,
SUpdate n_s13s;,
SUpdate n_a14a;,
SUpdate n_s14s;,
SUpdate n_a23a;,
SUpdate n_s23s;,
SUpdate n_a24a;,
SUpdate n_s24s;,
SUpdate n_s12s;,
SUpdate n_a12a;,
SUpdate n_s34s;,
SUpdate n_a34a;,
SDeclT n_propPS 4;,
SDeclT n_propPT 4;,
(SFor n_j (EInt 0) (EBin (CmpI CLt) (ELocI n_j) (EInt 4)) (EBin (OpI IAdd) (ELocI n_j) (EInt 1))
(SArrT n_propPS (AVar n_j) ((EArrT n_mom1 (AVar n_j)) +t (EArrT n_mom2 (AVar n_j)));,
SArrT n_propPT (AVar n_j) ((EArrT n_mom1 (AVar n_j)) -t (EArrT n_mom3 (AVar n_j)))));,
SMemC n_pDenSAG (EDen n_propAG n_propPS);,
SMemC n_pDenSh (EDen n_proph n_propPS);,
SMemC n_pDenSZ (EDen n_propZ n_propPS);,
SMemC n_pDenTAG (EDen n_propAG n_propPT);,
SMemC n_pDenTh (EDen n_proph n_propPT);,
SMemC n_pDenTZ (EDen n_propZ n_propPT)).
(** dddd::amp_gluon_S: SM/dddd.cpp 109-122 *)
Definition dddd_amp_gluon_S : meth := mkMeth n_amp_gluon_S [(n_ds1, PkI); (n_ds2, PkI); (n_ds3, PkI); (n_ds4, PkI)]
(SLoc rT n_two (EUn I2T (EInt 2));,
SLoc rC n_amplitude (EBin OpTTC (EUn I2T (EInt 0)) (EUn I2T (EInt 0)));,
SLoc rC n_amplitude (((((ELocT n_two) *t (EMemT n_gs)) *t (EMemT n_gs)) *tc (((((EV n_a13a [(AVar n_ds1); (AVar n_ds3)]) *c (EV n_s24s [(AVar n_ds2); (AVar n_ds4)])) +c ((EV n_a14a [(AVar n_ds1); (AVar n_ds4)]) *c (EV n_s23s [(AVar n_ds2); (AVar n_ds3)]))) +c ((EV n_s13s [(AVar n_ds1); (AVar n_ds3)]) *c (EV n_a24a [(AVar n_ds2); (AVar n_ds4)]))) +c ((EV n_s14s [(AVar n_ds1); (AVar n_ds4)]) *c (EV n_a23a [(AVar n_ds2); (AVar n_ds3)])))) /c (EMemC n_pDenSAG));,
SReturnC (ELocC n_amplitude)).
(** dddd::amp_gluon_T: SM/dddd.cpp 123-137 *)
Definition dddd_amp_gluon_T : meth := mkMeth n_amp_gluon_T [(n_ds1, PkI); (n_ds2, PkI); (n_ds3, PkI); (n_ds4, PkI)]
(SLoc rT n_two (EUn I2T (EInt 2));,
SLoc rC n_amplitude (EBin OpTTC (EUn I2T (EInt 0)) (EUn I2T (EInt 0)));,
SLoc rC n_amplitude (((((ELocT n_two) *t (EMemT n_gs)) *t (EMemT n_gs)) *tc (((((EV n_a12a [(AVar n_ds1); (AVar n_ds2)]) *c (EV n_s34s [(AVar n_ds3); (AVar n_ds4)])) +c ((EV n_a14a [(AVar n_ds1); (AVar n_ds4)]) *c (EV n_s23s [(AVar n_ds2); (AVar n_ds3)]))) +c ((EV n_s12s [(AVar n_ds1); (AVar n_ds2)]) *c (EV n_a34a [(AVar n_ds3); (AVar n_ds4)]))) +c ((EV n_s14s [(AVar n_ds1); (AVar n_ds4)]) *c (EV n_a23a [(AVar n_ds2); (AVar n_ds3)])))) /c (EMemC n_pDenTAG));,
SReturnC (ELocC n_amplitude)).
(** dddd::amp_rest_S: SM/dddd.cpp 138-178 *)
Definition dddd_amp_rest_S : meth := mkMeth n_amp_rest_S [(n_ds1, PkI); (n_ds2, PkI); (n_ds3, PkI); (n_ds4, PkI)]
(SLoc rT n_two (EUn I2T (EInt 2));,
SLoc rC n_amplitude (EBin OpTTC (EUn I2T (EInt 0)) (EUn I2T (EInt 0)));,
SLoc rC n_amplitude (((((((ELocT n_two) *t (EMemT n_e)) *t (EMemT n_e)) *t (EUn D2T (ELit (1 # 1)))) /t (EUn D2T (ELit (9 # 1)))) *tc (((((EV n_a13a [(AVar n_ds1); (AVar n_ds3)]) *c (EV n_s24s [(AVar n_ds2); (AVar n_ds4)])) +c ((EV n_a14a [(AVar n_ds1); (AVar n_ds4)]) *c (EV n_s23s [(AVar n_ds2); (AVar n_ds3)]))) +c ((EV n_s13s [(AVar n_ds1); (AVar n_ds3)]) *c (EV n_a24a [(AVar n_ds2); (AVar n_ds4)]))) +c ((EV n_s14s [(AVar n_ds1); (AVar n_ds4)]) *c (EV n_a23a [(AVar n_ds2); (AVar n_ds3)])))) /c (EMemC n_pDenSAG));,
SLoc rC n_amplitude ((ELocC n_amplitude) +c ((((EMemT n_preh) *tc ((EV n_s12s [(AVar n_ds1); (AVar n_ds2)]) +c (EV n_a12a [(AVar n_ds1); (AVar n_ds2)]))) *c ((EV n_s34s [(AVar n_ds3); (AVar n_ds4)]) +c (EV n_a34a [(AVar n_ds3); (AVar n_ds4)]))) /c (EMemC n_pDenSh)));,
SLoc rC n_amplitude ((ELocC n_amplitude) +c (((((EUn NegT (EMemT n_preZ0)) *tc ((EV n_a12a [(AVar n_ds1); (AVar n_ds2)]) -c (EV n_s12s [(AVar n_ds1); (AVar n_ds2)]))) *c ((EV n_a34a [(AVar n_ds3); (AVar n_ds4)]) -c (EV n_s34s [(AVar n_ds3); (AVar n_ds4)]))) /c (EMemC n_pDenSZ)) +c ((((ELocT n_two) *t (EMemT n_preZ)) *tc ((((((EMemT n_gL) *t (EMemT n_gL)) *tc (EV n_s23s [(AVar n_ds2); (AVar n_ds3)])) *c (EV n_a14a [(AVar n_ds1); (AVar n_ds4)])) +c (((EMemT n_gL) *t (EMemT n_gR)) *tc (((EV n_s13s [(AVar n_ds1); (AVar n_ds3)]) *c (EV n_a24a [(AVar n_ds2); (AVar n_ds4)])) +c ((EV n_s24s [(AVar n_ds2); (AVar n_ds4)]) *c (EV n_a13a [(AVar n_ds1); (AVar n_ds3)]))))) +c ((((EMemT n_gR) *t (EMemT n_gR)) *tc (EV n_s14s [(AVar n_ds1); (AVar n_ds4)])) *c (EV n_a23a [(AVar n_ds2); (AVar n_ds3)])))) /c (EMemC n_pDenSZ))));,
SReturnC (ELocC n_amplitude)).
(** dddd::amp_rest_T: SM/dddd.cpp 179-218 *)
Definition dddd_amp_rest_T : meth := mkMeth n_amp_rest_T [(n_ds1, PkI); (n_ds2, PkI); (n_ds3, PkI); (n_ds4, PkI)]
(SLoc rT n_two (EUn I2T (EInt 2));,
SLoc rC n_amplitude (EBin OpTTC (EUn I2T (EInt 0)) (EUn I2T (EInt 0)));,
SLoc rC n_amplitude ((ELocC n_amplitude) +c (((((((ELocT n_two) *t (EMemT n_e)) *t (EMemT n_e)) *t (EUn D2T (ELit (1 # 1)))) /t (EUn D2T (ELit (9 # 1)))) *tc (((((EV n_a12a [(AVar n_ds1); (AVar n_ds2)]) *c (EV n_s34s [(AVar n_ds3); (AVar n_ds4)])) +c ((EV n_a14a [(AVar n_ds1); (AVar n_ds4)]) *c (EV n_s23s [(AVar n_ds2); (AVar n_ds3)]))) +c ((EV n_s12s [(AVar n_ds1); (AVar n_ds2)]) *c (EV n_a34a [(AVar n_ds3); (AVar n_ds4)]))) +c ((EV n_s14s [(AVar n_ds1); (AVar n_ds4)]) *c (EV n_a23a [(AVar n_ds2); (AVar n_ds3)])))) /c (EMemC n_pDenTAG)));,
SLoc rC n_amplitude ((ELocC n_amplitude) +c ((((EUn NegT (EMemT n_preh)) *tc ((EV n_s13s [(AVar n_ds1); (AVar n_ds3)]) -c (EV n_a13a [(AVar n_ds1); (AVar n_ds3)]))) *c ((EV n_s24s [(AVar n_ds2); (AVar n_ds4)]) -c (EV n_a24a [(AVar n_ds2); (AVar n_ds4)]))) /c (EMemC n_pDenTh)));,
SLoc rC n_amplitude ((ELocC n_amplitude) +c (((((EMemT n_preZ0) *tc ((EV n_a13a [(AVar n_ds1); (AVar n_ds3)]) +c (EV n_s13s [(AVar n_ds1); (AVar n_ds3)]))) *c ((EV n_a24a [(AVar n_ds2); (AVar n_ds4)]) +c (EV n_s24s [(AVar n_ds2); (AVar n_ds4)]))) /c (EMemC n_pDenTZ)) +c ((((ELocT n_two) *t (EMemT n_preZ)) *tc ((((((EMemT n_gL) *t (EMemT n_gL)) *tc (EV n_s23s [(AVar n_ds2); (AVar n_ds3)])) *c (EV n_a14a [(AVar n_ds1); (AVar n_ds4)])) +c (((EMemT n_gL) *t (EMemT n_gR)) *tc (((EV n_s12s [(AVar n_ds1); (AVar n_ds2)]) *c (EV n_a34a [(AVar n_ds3); (AVar n_ds4)])) +c ((EV n_s34s [(AVar n_ds3); (AVar n_ds4)]) *c (EV n_a12a [(AVar n_ds1); (AVar n_ds2)]))))) +c ((((EMemT n_gR) *t (EMemT n_gR)) *tc (EV n_s14s [(AVar n_ds1); (AVar n_ds4)])) *c (EV n_a23a [(AVar n_ds2); (AVar n_ds3)])))) /c (EMemC n_pDenTZ))));,
SReturnC (ELocC n_amplitude)).
(** dddd::amp2: SM/dddd.cpp 221-250 *)
Definition dddd_amp2 : meth := mkMeth n_amp2 []
(SLoc rT n_amp2 (EUn I2T (EInt 0));,
SLoc rT n_two (EUn I2T (EInt 2));,
SLoc rT n_three (EUn I2T (EInt 3));,
SLoc rT n_four (EUn I2T (EInt 4));,
SLoc rT n_nine (EUn I2T (EInt 9));,
SDecl rC n_M_rest_S;,
SDecl rC n_M_gluon_S;,
SDecl rC n_M_rest_T;,
SDecl rC n_M_gluon_T;,
(SFor n_j1 (EUn NegI (EInt 1)) (EBin (CmpI CLe) (ELocI n_j1) (EInt 1)) (EBin (OpI IAdd) (ELocI n_j1) (EInt 2))
(SFor n_j2 (EUn NegI (EInt 1)) (EBin (CmpI CLe) (ELocI n_j2) (EInt 1)) (EBin (OpI IAdd) (ELocI n_j2) (EInt 2))
(SFor n_j3 (EUn NegI (EInt 1)) (EBin (CmpI CLe) (ELocI n_j3) (EInt 1)) (EBin (OpI IAdd) (ELocI n_j3) (EInt 2))
(SFor n_j4 (EUn NegI (EInt 1)) (EBin (CmpI CLe) (ELocI n_j4) (EInt 1)) (EBin (OpI IAdd) (ELocI n_j4) (EInt 2))
(SLoc rC n_M_rest_S (ECall n_amp_rest_S [(AVar n_j1); (AVar n_j2); (AVar n_j3); (AVar n_j4)]);,
SLoc rC n_M_rest_T (ECall n_amp_rest_T [(AVar n_j1); (AVar n_j2); (AVar n_j3); (AVar n_j4)]);,
SLoc rC n_M_gluon_S (ECall n_amp_gluon_S [(AVar n_j1); (AVar n_j2); (AVar n_j3); (AVar n_j4)]);,
SLoc rC n_M_gluon_T (ECall n_amp_gluon_T [(AVar n_j1); (AVar n_j2); (AVar n_j3); (AVar n_j4)]);,
SLoc rT n_amp2 ((ELocT n_amp2) +t ((ELocT n_nine) *t (EUn Pow2T (EUn AbsC (ELocC n_M_rest_S)))));,
SLoc rT n_amp2 ((ELocT n_amp2) +t ((ELocT n_two) *t (EUn Pow2T (EUn AbsC (ELocC n_M_gluon_S)))));,
SLoc rT n_amp2 ((ELocT n_amp2) +t ((ELocT n_nine) *t (EUn Pow2T (EUn AbsC (ELocC n_M_rest_T)))));,
SLoc rT n_amp2 ((ELocT n_amp2) +t ((ELocT n_two) *t (EUn Pow2T (EUn AbsC (ELocC n_M_gluon_T)))));,
SLoc rT n_amp2 ((ELocT n_amp2) +t (((ELocT n_three) *t (ELocT n_two)) *t (EUn ReC ((ELocC n_M_rest_S) *c (EUn ConjC (ELocC n_M_rest_T))))));,
SLoc rT n_amp2 ((ELocT n_amp2) +t ((((EUn NegT (ELocT n_two)) /t (ELocT n_three)) *t (ELocT n_two)) *t (EUn ReC ((ELocC n_M_gluon_S) *c (EUn ConjC (ELocC n_M_gluon_T))))));,
SLoc rT n_amp2 ((ELocT n_amp2) +t (((ELocT n_four) *t (ELocT n_two)) *t (EUn ReC ((ELocC n_M_gluon_S) *c (EUn ConjC (ELocC n_M_rest_T))))));,
SLoc rT n_amp2 ((ELocT n_amp2) +t (((ELocT n_four) *t (ELocT n_two)) *t (EUn ReC ((ELocC n_M_gluon_T) *c (EUn ConjC (ELocC n_M_rest_S)))))))))));,
SReturnT ((ELocT n_amp2) /t (EUn D2T (ELit (36 # 1))))).
(** members: SM/include/dddd.h 26-34; initialisers: SM/dddd.cpp 32-48 *)
Definition dddd : cls := mkCls "dddd"
[(n_e, KT);
(n_gs, KT);
(n_md, KT);
(n_mh, KT);
(n_wh, KT);
(n_MZ, KT);
(n_WZ, KT);
(n_MW, KT);
(n_SW, KT);
(n_CW, KT);
(n_p1, (KPart 0));
(n_p2, (KPart 1));
(n_p3, (KPart 2));
(n_p4, (KPart 3));
(n_propAG, KProp);
(n_proph, KProp);
(n_propZ, KProp);
(n_pDenSAG, KC);
(n_pDenSh, KC);
(n_pDenSZ, KC);
(n_pDenTAG, KC);
(n_pDenTh, KC);
(n_pDenTZ, KC);
(n_a13a, KSprod);
(n_s13s, KSprod);
(n_a14a, KSprod);
(n_s14s, KSprod);
(n_a23a, KSprod);
(n_s23s, KSprod);
(n_a24a, KSprod);
(n_s24s, KSprod);
(n_s12s, KSprod);
(n_a12a, KSprod);
(n_s34s, KSprod);
(n_a34a, KSprod);
(n_preh, KT);
(n_gL, KT);
(n_gR, KT);
(n_preZ, KT);
(n_preZ0, KT)]
[n_echarge; n_gscharge; n_massd; n_massh; n_widthh; n_massW; n_sinW; n_widthZ]
[(n_e, NT (ELocT n_echarge));
(n_gs, NT (ELocT n_gscharge));
(n_md, NT (ELocT n_massd));
(n_mh, NT (ELocT n_massh));
(n_wh, NT (ELocT n_widthh));
(n_MW, NT (ELocT n_massW));
(n_SW, NT (ELocT n_sinW));
(n_CW, NT (EUn SqrtT ((EUn D2T (ELit (1 # 1))) -t ((ELocT n_sinW) *t (ELocT n_sinW)))));
(n_WZ, NT (ELocT n_widthZ));
(n_propAG, NProp (EUn I2T (EInt 0)) (EUn I2T (EInt 0)));
(n_proph, NProp (EMemT n_mh) (EMemT n_wh));
(n_propZ, NProp (EMemT n_MZ) (EMemT n_WZ));
(n_p1, NPart (EMemT n_md));
(n_p2, NPart (EMemT n_md));
(n_p3, NPart (EMemT n_md));
(n_p4, NPart (EMemT n_md));
(n_a13a, NSprod true 0 [] 2);
(n_s13s, NSprod false 0 [] 2);
(n_a14a, NSprod true 0 [] 3);
(n_s14s, NSprod false 0 [] 3);
(n_a23a, NSprod true 1 [] 2);
(n_s23s, NSprod false 1 [] 2);
(n_a24a, NSprod true 1 [] 3);
(n_s24s, NSprod false 1 [] 3);
(n_s12s, NSprod false 0 [] 1);
(n_a12a, NSprod true 0 [] 1);
(n_s34s, NSprod false 2 [] 3);
(n_a34a, NSprod true 2 [] 3)]
dddd_ctor
[dddd_set_masses; dddd_set_momenta; dddd_amp_gluon_S; dddd_amp_gluon_T; dddd_amp_rest_S; dddd_amp_rest_T; dddd_amp2].

(** dddd2::dddd2: SM/dddd2.cpp 32-58 *)
Definition dddd2_ctor : stmt :=
(SMemT n_MZ ((EMemT n_MW) /t (EMemT n_CW));,
SPropMass n_propZ (EMemT n_MZ);,
SMemT n_preh (((((EMemT n_e) *t (EMemT n_e)) *t (EMemT n_md)) *t (EMemT n_md)) /t (((((EUn D2T (ELit (4 # 1))) *t (EMemT n_MW)) *t (EMemT n_MW)) *t (EMemT n_SW)) *t (EMemT n_SW)));,
SMemT n_gL ((EUn D2T (EUn NegD (ELit (1 # 1)))) +t (((EUn D2T ((ELit (2 # 1)) /d (ELit (3 # 1)))) *t (EMemT n_SW)) *t (EMemT n_SW)));,
SMemT n_gR (((EUn D2T ((ELit (2 # 1)) /d (ELit (3 # 1)))) *t (EMemT n_SW)) *t (EMemT n_SW));,
SMemT n_preZ (((EMemT n_e) *t (EMemT n_e)) /t (((((EUn D2T (ELit (4 # 1))) *t (EMemT n_CW)) *t (EMemT n_CW)) *t (EMemT n_SW)) *t (EMemT n_SW)));,
SMemT n_preZ0 (((((((EMemT n_preZ) *t ((EMemT n_gL) -t (EMemT n_gR))) *t ((EMemT n_gL) -t (EMemT n_gR))) *t (EMemT n_md)) *t (EMemT n_md)) /t (EMemT n_MZ)) /t (EMemT n_MZ))).
(** dddd2::set_masses: SM/dddd2.cpp 59-72 *)
Definition dddd2_set_masses : meth := mkMeth n_set_masses [(n_massd, PkT); (n_massh, PkT); (n_massW, PkT)]
(SMemT n_md (ELocT n_massd);,
SMemT n_mh (ELocT n_massh);,
SPropMass n_proph (EMemT n_mh);,
SMemT n_MW (ELocT n_massW);,
SMemT n_MZ ((EMemT n_MW) /t (EMemT n_CW));,
SPropMass n_propZ (EMemT n_MZ);,
SSetMass 0 (EMemT n_md);,
SSetMass 1 (EMemT n_md);,
SSetMass 2 (EMemT n_md);,
SSetMass 3 (EMemT n_md);,
SMemT n_preh (((((EMemT n_e) *t (EMemT n_e)) *t (EMemT n_md)) *t (EMemT n_md)) /t (((((EUn I2T (EInt 4)) *t (EMemT n_MW)) *t (EMemT n_MW)) *t (EMemT n_SW)) *t (EMemT n_SW)));,
SMemT n_preZ0 (((((((EMemT n_preZ) *t ((EMemT n_gL) -t (EMemT n_gR))) *t ((EMemT n_gL) -t (EMemT n_gR))) *t (EMemT n_md)) *t (EMemT n_md)) /t (EMemT n_MZ)) /t (EMemT n_MZ))).
(** dddd2::set_momenta: SM/dddd2.cpp 73-103 *)
Definition dddd2_set_momenta : meth := mkMeth n_set_momenta [(n_mom1, PkMom); (n_mom2, PkMom); (n_mom3, PkMom); (n_mom4, PkMom)]
(SSetMomentum 0 n_mom1;,
SSetMomentum 1 n_mom2;,
SSetMomentum 2 n_mom3;,
SSetMomentum 3 n_mom4;,
SUpdate n_a13a;,
SUpdate n_s13s;,
SUpdate n_a14a;,
SUpdate n_s14s;,
SUpdate n_a23a;,
SUpdate n_s23s;,
SUpdate n_a24a;,
SUpdate n_s24s;,
SUpdate n_s12s;,
SUpdate n_a12a;,
SUpdate n_s34s;,
SUpdate n_a34a;,
SDeclT n_propPT 4;,
SDeclT n_propPU 4;,
(SFor n_j (EInt 0) (EBin (CmpI CLt) (ELocI n_j) (EInt 4)) (EBin (OpI IAdd) (ELocI n_j) (EInt 1))
(SArrT n_propPT (AVar n_j) ((EArrT n_mom1 (AVar n_j)) -t (EArrT n_mom3 (AVar n_j)));,
SArrT n_propPU (AVar n_j) ((EArrT n_mom1 (AVar n_j)) -t (EArrT n_mom4 (AVar n_j)))));,
SMemC n_pDenTAG (EDen n_propAG n_propPT);,
SMemC n_pDenTh (EDen n_proph n_propPT);,
SMemC n_pDenTZ (EDen n_propZ n_propPT);,
SMemC n_pDenUAG (EDen n_propAG n_propPU);,
SMemC n_pDenUh (EDen n_proph n_propPU);,
SMemC n_pDenUZ (EDen n_propZ n_propPU)).
(** dddd2::amp_gluon_T: SM/dddd2.cpp 109-126 *)
Definition dddd2_amp_gluon_T : meth := mkMeth n_amp_gluon_T [(n_ds1, PkI); (n_ds2, PkI); (n_ds3, PkI); (n_ds4, PkI)]
(SLoc rT n_two (EUn I2T (EInt 2));,
SLoc rC n_amplitude (EBin OpTTC (EUn I2T (EInt 0)) (EUn I2T (EInt 0)));,
SLoc rC n_amplitude (((((EUn NegT (ELocT n_two)) *t (EMemT n_gs)) *t (EMemT n_gs)) *tc (((((EV n_a14a [(AVar n_ds1); (AVar n_ds4)]) *c (EV n_s23s [(AVar n_ds2); (AVar n_ds3)])) +c ((EV n_a12a [(AVar n_ds1); (AVar n_ds2)]) *c (EV n_s34s [(AVar n_ds3); (AVar n_ds4)]))) +c ((EV n_s14s [(AVar n_ds1); (AVar n_ds4)]) *c (EV n_a23a [(AVar n_ds2); (AVar n_ds3)]))) +c ((EV n_s12s [(AVar n_ds1); (AVar n_ds2)]) *c (EV n_a34a [(AVar n_ds3); (AVar n_ds4)])))) /c (EMemC n_pDenTAG));,
SReturnC (ELocC n_amplitude)).
(** dddd2::amp_gluon_U: SM/dddd2.cpp 127-144 *)
Definition dddd2_amp_gluon_U : meth := mkMeth n_amp_gluon_U [(n_ds1, PkI); (n_ds2, PkI); (n_ds3, PkI); (n_ds4, PkI)]
(SLoc rT n_two (EUn I2T (EInt 2));,
SLoc rC n_amplitude (EBin OpTTC (EUn I2T (EInt 0)) (EUn I2T (EInt 0)));,
SLoc rC n_amplitude (((((ELocT n_two) *t (EMemT n_gs)) *t (EMemT n_gs)) *tc (((((EV n_a13a [(AVar n_ds1); (AVar n_ds3)]) *c (EV n_s24s [(AVar n_ds2); (AVar n_ds4)])) -c ((EV n_a12a [(AVar n_ds1); (AVar n_ds2)]) *c (EV n_s34s [(AVar n_ds3); (AVar n_ds4)]))) +c ((EV n_s13s [(AVar n_ds1); (AVar n_ds3)]) *c (EV n_a24a [(AVar n_ds2); (AVar n_ds4)]))) -c ((EV n_s12s [(AVar n_ds1); (AVar n_ds2)]) *c (EV n_a34a [(AVar n_ds3); (AVar n_ds4)])))) /c (EMemC n_pDenUAG));,
SReturnC (ELocC n_amplitude)).
(** dddd2::amp_rest_T: SM/dddd2.cpp 145-195 *)
Definition dddd2_amp_rest_T : meth := mkMeth n_amp_rest_T [(n_ds1, PkI); (n_ds2, PkI); (n_ds3, PkI); (n_ds4, PkI)]
(SLoc rT n_two (EUn I2T (EInt 2));,
SLoc rC n_amplitude (EBin OpTTC (EUn I2T (EInt 0)) (EUn I2T (EInt 0)));,
SLoc rC n_amplitude (((((((EUn NegT (ELocT n_two)) *t (EMemT n_e)) *t (EMemT n_e)) *t (EUn D2T (ELit (1 # 1)))) /t (EUn D2T (ELit (9 # 1)))) *tc (((((EV n_a14a [(AVar n_ds1); (AVar n_ds4)]) *c (EV n_s23s [(AVar n_ds2); (AVar n_ds3)])) +c ((EV n_a12a [(AVar n_ds1); (AVar n_ds2)]) *c (EV n_s34s [(AVar n_ds3); (AVar n_ds4)]))) +c ((EV n_s14s [(AVar n_ds1); (AVar n_ds4)]) *c (EV n_a23a [(AVar n_ds2); (AVar n_ds3)]))) +c ((EV n_s12s [(AVar n_ds1); (AVar n_ds2)]) *c (EV n_a34a [(AVar n_ds3); (AVar n_ds4)])))) /c (EMemC n_pDenTAG));,
SLoc rC n_amplitude ((ELocC n_amplitude) +c ((((EUn NegT (EMemT n_preh)) *tc ((EV n_s13s [(AVar n_ds1); (AVar n_ds3)]) -c (EV n_a13a [(AVar n_ds1); (AVar n_ds3)]))) *c ((EV n_s24s [(AVar n_ds2); (AVar n_ds4)]) -c (EV n_a24a [(AVar n_ds2); (AVar n_ds4)]))) /c (EMemC n_pDenTh)));,
SLoc rC n_amplitude ((ELocC n_amplitude) +c (((((EMemT n_preZ0) *tc ((EV n_a13a [(AVar n_ds1); (AVar n_ds3)]) +c (EV n_s13s [(AVar n_ds1); (AVar n_ds3)]))) *c ((EV n_a24a [(AVar n_ds2); (AVar n_ds4)]) +c (EV n_s24s [(AVar n_ds2); (AVar n_ds4)]))) /c (EMemC n_pDenTZ)) -c ((((ELocT n_two) *t (EMemT n_preZ)) *tc ((((((EMemT n_gL) *t (EMemT n_gL)) *tc (EV n_s34s [(AVar n_ds3); (AVar n_ds4)])) *c (EV n_a12a [(AVar n_ds1); (AVar n_ds2)])) +c (((EMemT n_gL) *t (EMemT n_gR)) *tc (((EV n_s14s [(AVar n_ds1); (AVar n_ds4)]) *c (EV n_a23a [(AVar n_ds2); (AVar n_ds3)])) +c ((EV n_s23s [(AVar n_ds2); (AVar n_ds3)]) *c (EV n_a14a [(AVar n_ds1); (AVar n_ds4)]))))) +c ((((EMemT n_gR) *t (EMemT n_gR)) *tc (EV n_s12s [(AVar n_ds1); (AVar n_ds2)])) *c (EV n_a34a [(AVar n_ds3); (AVar n_ds4)])))) /c (EMemC n_pDenTZ))));,
SReturnC (ELocC n_amplitude)).
(** dddd2::amp_rest_U: SM/dddd2.cpp 196-242 *)
Definition dddd2_amp_rest_U : meth := mkMeth n_amp_rest_U [(n_ds1, PkI); (n_ds2, PkI); (n_ds3, PkI); (n_ds4, PkI)]
(SLoc rT n_two (EUn I2T (EInt 2));,
SLoc rC n_amplitude (EBin OpTTC (EUn I2T (EInt 0)) (EUn I2T (EInt 0)));,
SLoc rC n_amplitude ((ELocC n_amplitude) +c (((((((ELocT n_two) *t (EMemT n_e)) *t (EMemT n_e)) *t (EUn D2T (ELit (1 # 1)))) /t (EUn D2T (ELit (9 # 1)))) *tc (((((EV n_a13a [(AVar n_ds1); (AVar n_ds3)]) *c (EV n_s24s [(AVar n_ds2); (AVar n_ds4)])) -c ((EV n_a12a [(AVar n_ds1); (AVar n_ds2)]) *c (EV n_s34s [(AVar n_ds3); (AVar n_ds4)]))) +c ((EV n_s13s [(AVar n_ds1); (AVar n_ds3)]) *c (EV n_a24a [(AVar n_ds2); (AVar n_ds4)]))) -c ((EV n_s12s [(AVar n_ds1); (AVar n_ds2)]) *c (EV n_a34a [(AVar n_ds3); (AVar n_ds4)])))) /c (EMemC n_pDenUAG)));,
SLoc rC n_amplitude ((ELocC n_amplitude) +c ((((EMemT n_preh) *tc ((EV n_s14s [(AVar n_ds1); (AVar n_ds4)]) -c (EV n_a14a [(AVar n_ds1); (AVar n_ds4)]))) *c ((EV n_s23s [(AVar n_ds2); (AVar n_ds3)]) -c (EV n_a23a [(AVar n_ds2); (AVar n_ds3)]))) /c (EMemC n_pDenUh)));,
SLoc rC n_amplitude ((ELocC n_amplitude) +c (((((EUn NegT (EMemT n_preZ0)) *tc ((EV n_a14a [(AVar n_ds1); (AVar n_ds4)]) +c (EV n_s14s [(AVar n_ds1); (AVar n_ds4)]))) *c ((EV n_a23a [(AVar n_ds2); (AVar n_ds3)]) +c (EV n_s23s [(AVar n_ds2); (AVar n_ds3)]))) /c (EMemC n_pDenUZ)) -c ((((ELocT n_two) *t (EMemT n_preZ)) *tc ((((((EMemT n_gL) *t (EMemT n_gL)) *tc (EV n_s34s [(AVar n_ds3); (AVar n_ds4)])) *c (EV n_a12a [(AVar n_ds1); (AVar n_ds2)])) -c (((EMemT n_gL) *t (EMemT n_gR)) *tc (((EV n_s13s [(AVar n_ds1); (AVar n_ds3)]) *c (EV n_a24a [(AVar n_ds2); (AVar n_ds4)])) +c ((EV n_s24s [(AVar n_ds2); (AVar n_ds4)]) *c (EV n_a13a [(AVar n_ds1); (AVar n_ds3)]))))) +c ((((EMemT n_gR) *t (EMemT n_gR)) *tc (EV n_s12s [(AVar n_ds1); (AVar n_ds2)])) *c (EV n_a34a [(AVar n_ds3); (AVar n_ds4)])))) /c (EMemC n_pDenUZ))));,
SReturnC (ELocC n_amplitude)).
(** dddd2::amp2: SM/dddd2.cpp 245-275 *)
Definition dddd2_amp2 : meth := mkMeth n_amp2 []
(SLoc rT n_amp2 (EUn I2T (EInt 0));,
SLoc rT n_two (EUn I2T (EInt 2));,
SLoc rT n_three (EUn I2T (EInt 3));,
SLoc rT n_four (EUn I2T (EInt 4));,
SLoc rT n_nine (EUn I2T (EInt 9));,
SDecl rC n_M_rest_S;,
SDecl rC n_M_gluon_S;,
SDecl rC n_M_rest_T;,
SDecl rC n_M_gluon_T;,
(SFor n_j1 (EUn NegI (EInt 1)) (EBin (CmpI CLe) (ELocI n_j1) (EInt 1)) (EBin (OpI IAdd) (ELocI n_j1) (EInt 2))
(SFor n_j2 (EUn NegI (EInt 1)) (EBin (CmpI CLe) (ELocI n_j2) (EInt 1)) (EBin (OpI IAdd) (ELocI n_j2) (EInt 2))
(SFor n_j3 (EUn NegI (EInt 1)) (EBin (CmpI CLe) (ELocI n_j3) (EInt 1)) (EBin (OpI IAdd) (ELocI n_j3) (EInt 2))
(SFor n_j4 (EUn NegI (EInt 1)) (EBin (CmpI CLe) (ELocI n_j4) (EInt 1)) (EBin (OpI IAdd) (ELocI n_j4) (EInt 2))
(SLoc rC n_M_rest_S (ECall n_amp_rest_T [(AVar n_j1); (AVar n_j2); (AVar n_j3); (AVar n_j4)]);,
SLoc rC n_M_rest_T (ECall n_amp_rest_U [(AVar n_j1); (AVar n_j2); (AVar n_j3); (AVar n_j4)]);,
SLoc rC n_M_gluon_S (ECall n_amp_gluon_T [(AVar n_j1); (AVar n_j2); (AVar n_j3); (AVar n_j4)]);,
SLoc rC n_M_gluon_T (ECall n_amp_gluon_U [(AVar n_j1); (AVar n_j2); (AVar n_j3); (AVar n_j4)]);,
SLoc rT n_amp2 ((ELocT n_amp2) +t ((ELocT n_nine) *t (EUn Pow2T (EUn AbsC (ELocC n_M_rest_S)))));,
SLoc rT n_amp2 ((ELocT n_amp2) +t ((ELocT n_two) *t (EUn Pow2T (EUn AbsC (ELocC n_M_gluon_S)))));,
SLoc rT n_amp2 ((ELocT n_amp2) +t ((ELocT n_nine) *t (EUn Pow2T (EUn AbsC (ELocC n_M_rest_T)))));,
SLoc rT n_amp2 ((ELocT n_amp2) +t ((ELocT n_two) *t (EUn Pow2T (EUn AbsC (ELocC n_M_gluon_T)))));,
SLoc rT n_amp2 ((ELocT n_amp2) +t (((ELocT n_three) *t (ELocT n_two)) *t (EUn ReC ((ELocC n_M_rest_S) *c (EUn ConjC (ELocC n_M_rest_T))))));,
SLoc rT n_amp2 ((ELocT n_amp2) +t ((((EUn NegT (ELocT n_two)) /t (ELocT n_three)) *t (ELocT n_two)) *t (EUn ReC ((ELocC n_M_gluon_S) *c (EUn ConjC (ELocC n_M_gluon_T))))));,
SLoc rT n_amp2 ((ELocT n_amp2) +t (((ELocT n_four) *t (ELocT n_two)) *t (EUn ReC ((ELocC n_M_gluon_S) *c (EUn ConjC (ELocC n_M_rest_T))))));,
SLoc rT n_amp2 ((ELocT n_amp2) +t (((ELocT n_four) *t (ELocT n_two)) *t (EUn ReC ((ELocC n_M_gluon_T) *c (EUn ConjC (ELocC n_M_rest_S)))))))))));,
SReturnT ((ELocT n_amp2) /t (EUn D2T (ELit (72 # 1))))).
(** members: SM/include/dddd2.h 26-34; initialisers: SM/dddd2.cpp 32-48 *)
Definition dddd2 : cls := mkCls "dddd2"
[(n_e, KT);
(n_gs, KT);
(n_md, KT);
(n_mh, KT);
(n_wh, KT);
(n_MZ, KT);
(n_WZ, KT);
(n_MW, KT);
(n_SW, KT);
(n_CW, KT);
(n_p1, (KPart 0));
(n_p2, (KPart 1));
(n_p3, (KPart 2));
(n_p4, (KPart 3));
(n_propAG, KProp);
(n_proph, KProp);
(n_propZ, KProp);
(n_pDenTAG, KC);
(n_pDenTh, KC);
(n_pDenTZ, KC);
(n_pDenUAG, KC);
(n_pDenUh, KC);
(n_pDenUZ, KC);
(n_a13a, KSprod);
(n_s13s, KSprod);
(n_a14a, KSprod);
(n_s14s, KSprod);
(n_a23a, KSprod);
(n_s23s, KSprod);
(n_a24a, KSprod);
(n_s24s, KSprod);
(n_s12s, KSprod);
(n_a12a, KSprod);
(n_s34s, KSprod);
(n_a34a, KSprod);
(n_preh, KT);
(n_gL, KT);
(n_gR, KT);
(n_preZ, KT);
(n_preZ0, KT)]
[n_echarge; n_gscharge; n_massd; n_massh; n_widthh; n_massW; n_sinW; n_widthZ]
[(n_e, NT (ELocT n_echarge));
(n_gs, NT (ELocT n_gscharge));
(n_md, NT (ELocT n_massd));
(n_mh, NT (ELocT n_massh));
(n_wh, NT (ELocT n_widthh));
(n_MW, NT (ELocT n_massW));
(n_SW, NT (ELocT n_sinW));
(n_CW, NT (EUn SqrtT ((EUn D2T (ELit (1 # 1))) -t ((ELocT n_sinW) *t (ELocT n_sinW)))));
(n_WZ, NT (ELocT n_widthZ));
(n_propAG, NProp (EUn I2T (EInt 0)) (EUn I2T (EInt 0)));
(n_proph, NProp (EMemT n_mh) (EMemT n_wh));
(n_p1, NPart (EMemT n_md));
(n_p2, NPart (EMemT n_md));
(n_p3, NPart (EMemT n_md));
(n_p4, NPart (EMemT n_md));
(n_a13a, NSprod true 0 [] 2);
(n_s13s, NSprod false 0 [] 2);
(n_a14a, NSprod true 0 [] 3);
(n_s14s, NSprod false 0 [] 3);
(n_a23a, NSprod true 1 [] 2);
(n_s23s, NSprod false 1 [] 2);
(n_a24a, NSprod true 1 [] 3);
(n_s24s, NSprod false 1 [] 3);
(n_s12s, NSprod false 0 [] 1);
(n_a12a, NSprod true 0 [] 1);
(n_s34s, NSprod false 2 [] 3);
(n_a34a, NSprod true 2 [] 3)]
dddd2_ctor
[dddd2_set_masses; dddd2_set_momenta; dddd2_amp_gluon_T; dddd2_amp_gluon_U; dddd2_amp_rest_T; dddd2_amp_rest_U; dddd2_amp2].

(** ddee::ddee: SM/ddee.cpp 32-60 *)
Definition ddee_ctor : stmt :=
(SMemT n_MZ ((EMemT n_MW) /t (EMemT n_CW));,
SPropMass n_propZ (EMemT n_MZ);,
SMemT n_preh (((((EMemT n_e) *t (EMemT n_e)) *t (EMemT n_md)) *t (EMemT n_me)) /t (((((EUn D2T (ELit (4 # 1))) *t (EMemT n_MW)) *t (EMemT n_MW)) *t (EMemT n_SW)) *t (EMemT n_SW)));,
SMemT n_gLd ((EUn D2T (EUn NegD (ELit (1 # 1)))) +t (((EUn D2T ((ELit (2 # 1)) /d (ELit (3 # 1)))) *t (EMemT n_SW)) *t (EMemT n_SW)));,
SMemT n_gRd (((EUn D2T ((ELit (2 # 1)) /d (ELit (3 # 1)))) *t (EMemT n_SW)) *t (EMemT n_SW));,
SMemT n_gLe ((EUn D2T (EUn NegD (ELit (1 # 1)))) +t (((EUn D2T (ELit (2 # 1))) *t (EMemT n_SW)) *t (EMemT n_SW)));,
SMemT n_gRe (((EUn D2T (ELit (2 # 1))) *t (EMemT n_SW)) *t (EMemT n_SW));,
SMemT n_preZ (((EMemT n_e) *t (EMemT n_e)) /t (((((EUn D2T (ELit (4 # 1))) *t (EMemT n_CW)) *t (EMemT n_CW)) *t (EMemT n_SW)) *t (EMemT n_SW)));,
SMemT n_preZ0 (((((((EMemT n_preZ) *t ((EMemT n_gLd) -t (EMemT n_gRd))) *t ((EMemT n_gLe) -t (EMemT n_gRe))) *t (EMemT n_md)) *t (EMemT n_me)) /t (EMemT n_MZ)) /t (EMemT n_MZ))).
(** ddee::set_masses: SM/ddee.cpp 61-75 *)
Definition ddee_set_masses : meth := mkMeth n_set_masses [(n_massd, PkT); (n_masse, PkT); (n_massh, PkT); (n_massW, PkT)]
(SMemT n_md (ELocT n_massd);,
SMemT n_me (ELocT n_masse);,
SMemT n_mh (ELocT n_massh);,
SPropMass n_proph (EMemT n_mh);,
SMemT n_MW (ELocT n_massW);,
SMemT n_MZ ((EMemT n_MW) /t (EMemT n_CW));,
SPropMass n_propZ (EMemT n_MZ);,
SSetMass 0 (EMemT n_md);,
SSetMass 1 (EMemT n_md);,
SSetMass 2 (EMemT n_me);,
SSetMass 3 (EMemT n_me);,
SMemT n_preh (((((EMemT n_e) *t (EMemT n_e)) *t (EMemT n_md)) *t (EMemT n_me)) /t (((((EUn I2T (EInt 4)) *t (EMemT n_MW)) *t (EMemT n_MW)) *t (EMemT n_SW)) *t (EMemT n_SW)));,
SMemT n_preZ0 (((((((EMemT n_preZ) *t ((EMemT n_gLd) -t (EMemT n_gRd))) *t ((EMemT n_gLe) -t (EMemT n_gRe))) *t (EMemT n_md)) *t (EMemT n_me)) /t (EMemT n_MZ)) /t (EMemT n_MZ))).
(** ddee::set_momenta: SM/ddee.cpp 76-101 *)
Definition ddee_set_momenta : meth := mkMeth n_set_momenta [(n_mom1, PkMom); (n_mom2, PkMom); (n_mom3, PkMom); (n_mom4, PkMom)]
(SSetMomentum 0 n_mom1;,
SSetMomentum 1 n_mom2;,
SSetMomentum 2 n_mom3;,
SSetMomentum 3 n_mom4;,
SUpdate n_a13a;,
SUpdate n_s13s;,
SUpdate n_a14a;,
SUpdate n_s14s;,
SUpdate n_a23a;,
SUpdate n_s23s;,
SUpdate n_a24a;,
SUpdate n_s24s;,
SUpdate n_s12s;,
SUpdate n_a12a;,
SUpdate n_s34s;,
SUpdate n_a34a;,
SDeclT n_propP 4;,
(SFor n_j (EInt 0) (EBin (CmpI CLt) (ELocI n_j) (EInt 4)) (EBin (OpI IAdd) (ELocI n_j) (EInt 1))
(SArrT n_propP (AVar n_j) ((EArrT n_mom1 (AVar n_j)) +t (EArrT n_mom2 (AVar n_j)))));,
SMemC n_pDenSA (EDen n_propA n_propP);,
SMemC n_pDenSh (EDen n_proph n_propP);,
SMemC n_pDenSZ (EDen n_propZ n_propP)).
(** ddee::amp: SM/ddee.cpp 106-150 *)
Definition ddee_amp : meth := mkMeth n_amp [(n_ds1, PkI); (n_ds2, PkI); (n_ds3, PkI); (n_ds4, PkI)]
(SLoc rT n_two (EUn I2T (EInt 2));,
SLoc rC n_amplitude (EBin OpTTC (EUn I2T (EInt 0)) (EUn I2T (EInt 0)));,
SLoc rC n_amplitude (((((((ELocT n_two) *t (EMemT n_e)) *t (EMemT n_e)) *t (EUn D2T (ELit (1 # 1)))) /t (EUn D2T (ELit (3 # 1)))) *tc (((((EV n_a13a [(AVar n_ds1); (AVar n_ds3)]) *c (EV n_s24s [(AVar n_ds2); (AVar n_ds4)])) +c ((EV n_a14a [(AVar n_ds1); (AVar n_ds4)]) *c (EV n_s23s [(AVar n_ds2); (AVar n_ds3)]))) +c ((EV n_s13s [(AVar n_ds1); (AVar n_ds3)]) *c (EV n_a24a [(AVar n_ds2); (AVar n_ds4)]))) +c ((EV n_s14s [(AVar n_ds1); (AVar n_ds4)]) *c (EV n_a23a [(AVar n_ds2); (AVar n_ds3)])))) /c (EMemC n_pDenSA));,
SLoc rC n_amplitude ((ELocC n_amplitude) +c ((((EMemT n_preh) *tc ((EV n_s12s [(AVar n_ds1); (AVar n_ds2)]) +c (EV n_a12a [(AVar n_ds1); (AVar n_ds2)]))) *c ((EV n_s34s [(AVar n_ds3); (AVar n_ds4)]) +c (EV n_a34a [(AVar n_ds3); (AVar n_ds4)]))) /c (EMemC n_pDenSh)));,
SLoc rC n_amplitude ((ELocC n_amplitude) +c (((((EUn NegT (EMemT n_preZ0)) *tc ((EV n_a12a [(AVar n_ds1); (AVar n_ds2)]) -c (EV n_s12s [(AVar n_ds1); (AVar n_ds2)]))) *c ((EV n_a34a [(AVar n_ds3); (AVar n_ds4)]) -c (EV n_s34s [(AVar n_ds3); (AVar n_ds4)]))) /c (EMemC n_pDenSZ)) +c ((((ELocT n_two) *t (EMemT n_preZ)) *tc (((((((EMemT n_gLd) *t (EMemT n_gLe)) *tc (EV n_s23s [(AVar n_ds2); (AVar n_ds3)])) *c (EV n_a14a [(AVar n_ds1); (AVar n_ds4)])) +c ((((EMemT n_gLe) *t (EMemT n_gRd)) *tc (EV n_s13s [(AVar n_ds1); (AVar n_ds3)])) *c (EV n_a24a [(AVar n_ds2); (AVar n_ds4)]))) +c ((((EMemT n_gLd) *t (EMemT n_gRe)) *tc (EV n_s24s [(AVar n_ds2); (AVar n_ds4)])) *c (EV n_a13a [(AVar n_ds1); (AVar n_ds3)]))) +c ((((EMemT n_gRd) *t (EMemT n_gRe)) *tc (EV n_s14s [(AVar n_ds1); (AVar n_ds4)])) *c (EV n_a23a [(AVar n_ds2); (AVar n_ds3)])))) /c (EMemC n_pDenSZ))));,
SReturnC (ELocC n_amplitude)).
(** ddee::amp2: SM/ddee.cpp 153-169 *)
Definition ddee_amp2 : meth := mkMeth n_amp2 []
(SLoc rT n_amp2 (EUn I2T (EInt 0));,
SLoc rT n_two (EUn I2T (EInt 2));,
SLoc rT n_three (EUn I2T (EInt 3));,
SDecl rC n_M;,
(SFor n_j1 (EUn NegI (EInt 1)) (EBin (CmpI CLe) (ELocI n_j1) (EInt 1)) (EBin (OpI IAdd) (ELocI n_j1) (EInt 2))
(SFor n_j2 (EUn NegI (EInt 1)) (EBin (CmpI CLe) (ELocI n_j2) (EInt 1)) (EBin (OpI IAdd) (ELocI n_j2) (EInt 2))
(SFor n_j3 (EUn NegI (EInt 1)) (EBin (CmpI CLe) (ELocI n_j3) (EInt 1)) (EBin (OpI IAdd) (ELocI n_j3) (EInt 2))
(SFor n_j4 (EUn NegI (EInt 1)) (EBin (CmpI CLe) (ELocI n_j4) (EInt 1)) (EBin (OpI IAdd) (ELocI n_j4) (EInt 2))
(SLoc rC n_M (ECall n_amp [(AVar n_j1); (AVar n_j2); (AVar n_j3); (AVar n_j4)]);,
SLoc rT n_amp2 ((ELocT n_amp2) +t ((ELocT n_three) *t (EUn Pow2T (EUn AbsC (ELocC n_M))))))))));,
SReturnT ((ELocT n_amp2) /t (EUn D2T (ELit (36 # 1))))).
(** members: SM/include/ddee.h 26-33; initialisers: SM/ddee.cpp 32-48 *)
Definition ddee : cls := mkCls "ddee"
[(n_e, KT);
(n_md, KT);
(n_me, KT);
(n_mh, KT);
(n_wh, KT);
(n_MZ, KT);
(n_WZ, KT);
(n_MW, KT);
(n_SW, KT);
(n_CW, KT);
(n_p1, (KPart 0));
(n_p2, (KPart 1));
(n_p3, (KPart 2));
(n_p4, (KPart 3));
(n_propA, KProp);
(n_proph, KProp);
(n_propZ, KProp);
(n_pDenSA, KC);
(n_pDenSh, KC);
(n_pDenSZ, KC);
(n_a13a, KSprod);
(n_s13s, KSprod);
(n_a14a, KSprod);
(n_s14s, KSprod);
(n_a23a, KSprod);
(n_s23s, KSprod);
(n_a24a, KSprod);
(n_s24s, KSprod);
(n_s12s, KSprod);
(n_a12a, KSprod);
(n_s34s, KSprod);
(n_a34a, KSprod);
(n_preh, KT);
(n_gLd, KT);
(n_gRd, KT);
(n_gLe, KT);
(n_gRe, KT);
(n_preZ, KT);
(n_preZ0, KT)]
[n_echarge; n_massd; n_masse; n_massh; n_widthh; n_massW; n_sinW; n_widthZ]
[(n_e, NT (ELocT n_echarge));
(n_md, NT (ELocT n_massd));
(n_me, NT (ELocT n_masse));
(n_mh, NT (ELocT n_massh));
(n_wh, NT (ELocT n_widthh));
(n_MW, NT (ELocT n_massW));
(n_SW, NT (ELocT n_sinW));
(n_CW, NT (EUn SqrtT ((EUn D2T (ELit (1 # 1))) -t ((ELocT n_sinW) *t (ELocT n_sinW)))));
(n_WZ, NT (ELocT n_widthZ));
(n_propA, NProp (EUn I2T (EInt 0)) (EUn I2T (EInt 0)));
(n_proph, NProp (EMemT n_mh) (EMemT n_wh));
(n_p1, NPart (EMemT n_md));
(n_p2, NPart (EMemT n_md));
(n_p3, NPart (EMemT n_me));
(n_p4, NPart (EMemT n_me));
(n_a13a, NSprod true 0 [] 2);
(n_s13s, NSprod false 0 [] 2);
(n_a14a, NSprod true 0 [] 3);
(n_s14s, NSprod false 0 [] 3);
(n_a23a, NSprod true 1 [] 2);
(n_s23s, NSprod false 1 [] 2);
(n_a24a, NSprod true 1 [] 3);
(n_s24s, NSprod false 1 [] 3);
(n_s12s, NSprod false 0 [] 1);
(n_a12a, NSprod true 0 [] 1);
(n_s34s, NSprod false 2 [] 3);
(n_a34a, NSprod true 2 [] 3)]
ddee_ctor
[ddee_set_masses; ddee_set_momenta; ddee_amp; ddee_amp2].

(** ddhh::ddhh: SM/ddhh.cpp 32-44 *)
Definition ddhh_ctor : stmt :=
(SMemT n_prehS (((((((EUn I2T (EInt 3)) *t (EMemT n_e)) *t (EMemT n_e)) *t (EMemT n_md)) *t (EMemT n_mh)) *t (EMemT n_mh)) /t (((((EUn I2T (EInt 4)) *t (EMemT n_MW)) *t (EMemT n_MW)) *t (EMemT n_SW)) *t (EMemT n_SW)));,
SMemT n_prehTU (((((EMemT n_e) *t (EMemT n_e)) *t (EMemT n_md)) *t (EMemT n_md)) /t (((((EUn D2T (ELit (4 # 1))) *t (EMemT n_MW)) *t (EMemT n_MW)) *t (EMemT n_SW)) *t (EMemT n_SW)))).
(** ddhh::set_masses: SM/ddhh.cpp 45-58 *)
Definition ddhh_set_masses : meth := mkMeth n_set_masses [(n_massd, PkT); (n_massh, PkT); (n_massW, PkT)]
(SMemT n_md (ELocT n_massd);,
SPropMass n_propd (EMemT n_md);,
SMemT n_mh (ELocT n_massh);,
SPropMass n_proph (EMemT n_mh);,
SMemT n_MW (ELocT n_massW);,
SSetMass 0 (EMemT n_md);,
SSetMass 1 (EMemT n_md);,
SSetMass 2 (EMemT n_mh);,
SSetMass 3 (EMemT n_mh);,
SMemT n_prehS (((((((EUn D2T (ELit (3 # 1))) *t (EMemT n_e)) *t (EMemT n_e)) *t (EMemT n_md)) *t (EMemT n_mh)) *t (EMemT n_mh)) /t (((((EUn D2T (ELit (4 # 1))) *t (EMemT n_MW)) *t (EMemT n_MW)) *t (EMemT n_SW)) *t (EMemT n_SW)));,
SMemT n_prehTU (((((EMemT n_e) *t (EMemT n_e)) *t (EMemT n_md)) *t (EMemT n_md)) /t (((((EUn D2T (ELit (4 # 1))) *t (EMemT n_MW)) *t (EMemT n_MW)) *t (EMemT n_SW)) *t (EMemT n_SW)))).
(** ddhh::set_momenta: SM/ddhh.cpp 59-79 *)
Definition ddhh_set_momenta : meth := mkMeth n_set_momenta [(n_mom1, PkMom); (n_mom2, PkMom); (n_mom3, PkMom); (n_mom4, PkMom)]
(SSetMomentum 0 n_mom1;,
SSetMomentum 1 n_mom2;,
SSetMomentum 2 n_mom3;,
SSetMomentum 3 n_mom4;,
SUpdate n_s12s;,
SUpdate n_a12a;,
SUpdate n_s132a;,
SUpdate n_s231a;,
SDeclT n_propPS 4;,
SDeclT n_propPT 4;,
SDeclT n_propPU 4;,
(SFor n_j (EInt 0) (EBin (CmpI CLt) (ELocI n_j) (EInt 4)) (EBin (OpI IAdd) (ELocI n_j) (EInt 1))
(SArrT n_propPS (AVar n_j) ((EArrT n_mom1 (AVar n_j)) +t (EArrT n_mom2 (AVar n_j)));,
SArrT n_propPT (AVar n_j) ((EArrT n_mom1 (AVar n_j)) -t (EArrT n_mom3 (AVar n_j)));,
SArrT n_propPU (AVar n_j) ((EArrT n_mom1 (AVar n_j)) -t (EArrT n_mom4 (AVar n_j)))));,
SMemC n_pDenSh (EDen n_proph n_propPS);,
SMemC n_pDenTd (EDen n_propd n_propPT);,
SMemC n_pDenUd (EDen n_propd n_propPU)).
(** ddhh::amp: SM/ddhh.cpp 84-107 *)
Definition ddhh_amp : meth := mkMeth n_amp [(n_ds1, PkI); (n_ds2, PkI)]
(SLoc rT n_two (EUn I2T (EInt 2));,
SLoc rC n_amplitude (EBin OpTTC (EUn I2T (EInt 0)) (EUn I2T (EInt 0)));,
SLoc rC n_amplitude ((ELocC n_amplitude) +c (((EMemT n_prehS) *tc ((EV n_s12s [(AVar n_ds1); (AVar n_ds2)]) +c (EV n_a12a [(AVar n_ds1); (AVar n_ds2)]))) /c (EMemC n_pDenSh)));,
SLoc rC n_amplitude ((ELocC n_amplitude) +c (((EMemT n_prehTU) *tc (((((ELocT n_two) *t (EMemT n_md)) *tc ((EV n_s12s [(AVar n_ds1); (AVar n_ds2)]) +c (EV n_a12a [(AVar n_ds1); (AVar n_ds2)]))) -c (EV n_s132a [(AVar n_ds1); (AVar n_ds2)])) -c (EV n_s231a [(AVar n_ds2); (AVar n_ds1)]))) /c (EMemC n_pDenTd)));,
SLoc rC n_amplitude ((ELocC n_amplitude) +c (((EMemT n_prehTU) *tc (((((ELocT n_two) *t (EMemT n_md)) *tc ((EV n_s12s [(AVar n_ds1); (AVar n_ds2)]) +c (EV n_a12a [(AVar n_ds1); (AVar n_ds2)]))) +c (EV n_s132a [(AVar n_ds1); (AVar n_ds2)])) +c (EV n_s231a [(AVar n_ds2); (AVar n_ds1)]))) /c (EMemC n_pDenUd)));,
SReturnC (ELocC n_amplitude)).
(** ddhh::amp2: SM/ddhh.cpp 110-124 *)
Definition ddhh_amp2 : meth := mkMeth n_amp2 []
(SLoc rT n_amp2 (EUn I2T (EInt 0));,
SDecl rC n_M;,
(SFor n_j1 (EUn NegI (EInt 1)) (EBin (CmpI CLe) (ELocI n_j1) (EInt 1)) (EBin (OpI IAdd) (ELocI n_j1) (EInt 2))
(SFor n_j2 (EUn NegI (EInt 1)) (EBin (CmpI CLe) (ELocI n_j2) (EInt 1)) (EBin (OpI IAdd) (ELocI n_j2) (EInt 2))
(SLoc rC n_M (ECall n_amp [(AVar n_j1); (AVar n_j2)]);,
SLoc rT n_amp2 ((ELocT n_amp2) +t ((EUn D2T (ELit (3 # 1))) *t (EUn Pow2T (EUn AbsC (ELocC n_M))))))));,
SReturnT ((ELocT n_amp2) /t (EUn D2T (ELit (72 # 1))))).
(** members: SM/include/ddhh.h 26-32; initialisers: SM/ddhh.cpp 32-40 *)
Definition ddhh : cls := mkCls "ddhh"
[(n_e, KT);
(n_md, KT);
(n_mh, KT);
(n_wh, KT);
(n_MW, KT);
(n_SW, KT);
(n_p1, (KPart 0));
(n_p2, (KPart 1));
(n_p3, (KPart 2));
(n_p4, (KPart 3));
(n_proph, KProp);
(n_propd, KProp);
(n_pDenSh, KC);
(n_pDenTd, KC);
(n_pDenUd, KC);
(n_s12s, KSprod);
(n_a12a, KSprod);
(n_s132a, KSprod);
(n_s231a, KSprod);
(n_prehS, KT);
(n_prehTU, KT)]
[n_echarge; n_massd; n_massh; n_widthh; n_massW; n_sinW]
[(n_e, NT (ELocT n_echarge));
(n_md, NT (ELocT n_massd));
(n_mh, NT (ELocT n_massh));
(n_wh, NT (ELocT n_widthh));
(n_MW, NT (ELocT n_massW));
(n_SW, NT (ELocT n_sinW));
(n_propd, NProp (EMemT n_md) (EUn I2T (EInt 0)));
(n_proph, NProp (EMemT n_mh) (EMemT n_wh));
(n_p1, NPart (EMemT n_md));
(n_p2, NPart (EMemT n_md));
(n_p3, NPart (EMemT n_mh));
(n_p4, NPart (EMemT n_mh));
(n_s12s, NSprod false 0 [] 1);
(n_a12a, NSprod true 0 [] 1);
(n_s132a, NSprod false 0 [2] 1);
(n_s231a, NSprod false 1 [2] 0)]
ddhh_ctor
[ddhh_set_masses; ddhh_set_momenta; ddhh_amp; ddhh_amp2].

(** ddnn::ddnn: SM/ddnn.cpp 32-49 *)
Definition ddnn_ctor : stmt :=
(SMemT n_MZ ((EMemT n_MW) /t (EMemT n_CW));,
SPropMass n_propZ (EMemT n_MZ);,
SMemT n_gLd ((EUn D2T (EUn NegD (ELit (1 # 1)))) +t (((EUn D2T ((ELit (2 # 1)) /d (ELit (3 # 1)))) *t (EMemT n_SW)) *t (EMemT n_SW)));,
SMemT n_gRd (((EUn D2T ((ELit (2 # 1)) /d (ELit (3 # 1)))) *t (EMemT n_SW)) *t (EMemT n_SW));,
SMemT n_gLn (EUn D2T (ELit (1 # 1)));,
SMemT n_gRn (EUn I2T (EInt 0));,
SMemT n_preZ (((EMemT n_e) *t (EMemT n_e)) /t (((((EUn D2T (ELit (4 # 1))) *t (EMemT n_CW)) *t (EMemT n_CW)) *t (EMemT n_SW)) *t (EMemT n_SW)))).
(** ddnn::set_masses: SM/ddnn.cpp 50-57 *)
Definition ddnn_set_masses : meth := mkMeth n_set_masses [(n_massd, PkT); (n_massW, PkT)]
(SMemT n_md (ELocT n_massd);,
SMemT n_MW (ELocT n_massW);,
SMemT n_MZ ((EMemT n_MW) /t (EMemT n_CW));,
SPropMass n_propZ (EMemT n_MZ);,
SSetMass 0 (EMemT n_md);,
SSetMass 1 (EMemT n_md)).
(** ddnn::set_momenta: SM/ddnn.cpp 58-73 *)
Definition ddnn_set_momenta : meth := mkMeth n_set_momenta [(n_mom1, PkMom); (n_mom2, PkMom); (n_mom3, PkMom); (n_mom4, PkMom)]
(SSetMomentum 0 n_mom1;,
SSetMomentum 1 n_mom2;,
SSetMomentum 2 n_mom3;,
SSetMomentum 3 n_mom4;,
SUpdate n_s23s;,
SUpdate n_a14a;,
SUpdate n_s13s;,
SUpdate n_a24a;,
SDeclT n_propP 4;,
(SFor n_j (EInt 0) (EBin (CmpI CLt) (ELocI n_j) (EInt 4)) (EBin (OpI IAdd) (ELocI n_j) (EInt 1))
(SArrT n_propP (AVar n_j) ((EArrT n_mom1 (AVar n_j)) +t (EArrT n_mom2 (AVar n_j)))));,
SMemC n_pDenSZ (EDen n_propZ n_propP)).
(** ddnn::amp: SM/ddnn.cpp 78-100 *)
Definition ddnn_amp : meth := mkMeth n_amp [(n_ds1, PkI); (n_ds2, PkI)]
(SLoc rT n_two (EUn I2T (EInt 2));,
SLoc rC n_amplitude (EBin OpTTC (EUn I2T (EInt 0)) (EUn I2T (EInt 0)));,
SLoc rC n_amplitude ((ELocC n_amplitude) +c ((((ELocT n_two) *t (EMemT n_preZ)) *tc (((((EMemT n_gLd) *t (EMemT n_gLn)) *tc (EV n_s23s [(AVar n_ds2)])) *c (EV n_a14a [(AVar n_ds1)])) +c ((((EMemT n_gLn) *t (EMemT n_gRd)) *tc (EV n_s13s [(AVar n_ds1)])) *c (EV n_a24a [(AVar n_ds2)])))) /c (EMemC n_pDenSZ)));,
SReturnC (ELocC n_amplitude)).
(** ddnn::amp2: SM/ddnn.cpp 103-117 *)
Definition ddnn_amp2 : meth := mkMeth n_amp2 []
(SLoc rT n_amp2 (EUn I2T (EInt 0));,
SLoc rT n_two (EUn I2T (EInt 2));,
SLoc rT n_three (EUn I2T (EInt 3));,
SDecl rC n_M;,
(SFor n_j1 (EUn NegI (EInt 1)) (EBin (CmpI CLe) (ELocI n_j1) (EInt 1)) (EBin (OpI IAdd) (ELocI n_j1) (EInt 2))
(SFor n_j2 (EUn NegI (EInt 1)) (EBin (CmpI CLe) (ELocI n_j2) (EInt 1)) (EBin (OpI IAdd) (ELocI n_j2) (EInt 2))
(SLoc rC n_M (ECall n_amp [(AVar n_j1); (AVar n_j2)]);,
SLoc rT n_amp2 ((ELocT n_amp2) +t ((ELocT n_three) *t (EUn Pow2T (EUn AbsC (ELocC n_M))))))));,
SReturnT ((ELocT n_amp2) /t (EUn D2T (ELit (36 # 1))))).
(** members: SM/include/ddnn.h 26-32; initialisers: SM/ddnn.cpp 32-39 *)
Definition ddnn : cls := mkCls "ddnn"
[(n_e, KT);
(n_md, KT);
(n_MZ, KT);
(n_WZ, KT);
(n_MW, KT);
(n_SW, KT);
(n_CW, KT);
(n_p1, (KPart 0));
(n_p2, (KPart 1));
(n_p3, (KPart 2));
(n_p4, (KPart 3));
(n_propZ, KProp);
(n_pDenSZ, KC);
(n_s23s, KSprod);
(n_a14a, KSprod);
(n_s13s, KSprod);
(n_a24a, KSprod);
(n_preh, KT);
(n_gLd, KT);
(n_gRd, KT);
(n_gLn, KT);
(n_gRn, KT);
(n_preZ, KT);
(n_preZ0, KT)]
[n_echarge; n_massd; n_massW; n_sinW; n_widthZ]
[(n_e, NT (ELocT n_echarge));
(n_md, NT (ELocT n_massd));
(n_MW, NT (ELocT n_massW));
(n_SW, NT (ELocT n_sinW));
(n_CW, NT (EUn SqrtT ((EUn D2T (ELit (1 # 1))) -t ((ELocT n_sinW) *t (ELocT n_sinW)))));
(n_WZ, NT (ELocT n_widthZ));
(n_p1, NPart (EMemT n_md));
(n_p2, NPart (EMemT n_md));
(n_p3, NPart (EUn I2T (EInt 0)));
(n_p4, NPart (EUn I2T (EInt 0)));
(n_s23s, NSprod false 1 [] 2);
(n_a14a, NSprod true 0 [] 3);
(n_s13s, NSprod false 0 [] 2);
(n_a24a, NSprod true 1 [] 3)]
ddnn_ctor
[ddnn_set_masses; ddnn_set_momenta; ddnn_amp; ddnn_amp2].

(** ddss::ddss: SM/ddss.cpp 32-58 *)
Definition ddss_ctor : stmt :=
(SMemT n_MZ ((EMemT n_MW) /t (EMemT n_CW));,
SPropMass n_propZ (EMemT n_MZ);,
SMemT n_preh (((((EMemT n_e) *t (EMemT n_e)) *t (EMemT n_md)) *t (EMemT n_ms)) /t (((((EUn D2T (ELit (4 # 1))) *t (EMemT n_MW)) *t (EMemT n_MW)) *t (EMemT n_SW)) *t (EMemT n_SW)));,
SMemT n_gL ((EUn D2T (EUn NegD (ELit (1 # 1)))) +t (((EUn D2T ((ELit (2 # 1)) /d (ELit (3 # 1)))) *t (EMemT n_SW)) *t (EMemT n_SW)));,
SMemT n_gR (((EUn D2T ((ELit (2 # 1)) /d (ELit (3 # 1)))) *t (EMemT n_SW)) *t (EMemT n_SW));,
SMemT n_preZ (((EMemT n_e) *t (EMemT n_e)) /t (((((EUn D2T (ELit (4 # 1))) *t (EMemT n_CW)) *t (EMemT n_CW)) *t (EMemT n_SW)) *t (EMemT n_SW)));,
SMemT n_preZ0 (((((((EMemT n_preZ) *t ((EMemT n_gL) -t (EMemT n_gR))) *t ((EMemT n_gL) -t (EMemT n_gR))) *t (EMemT n_md)) *t (EMemT n_ms)) /t (EMemT n_MZ)) /t (EMemT n_MZ))).
(** ddss::set_masses: SM/ddss.cpp 59-73 *)
Definition ddss_set_masses : meth := mkMeth n_set_masses [(n_massd, PkT); (n_masss, PkT); (n_massh, PkT); (n_massW, PkT)]
(SMemT n_md (ELocT n_massd);,
SMemT n_ms (ELocT n_masss);,
SMemT n_mh (ELocT n_massh);,
SPropMass n_proph (EMemT n_mh);,
SMemT n_MW (ELocT n_massW);,
SMemT n_MZ ((EMemT n_MW) /t (EMemT n_CW));,
SPropMass n_propZ (EMemT n_MZ);,
SSetMass 0 (EMemT n_md);,
SSetMass 1 (EMemT n_md);,
SSetMass 2 (EMemT n_ms);,
SSetMass 3 (EMemT n_ms);,
SMemT n_preh (((((EMemT n_e) *t (EMemT n_e)) *t (EMemT n_md)) *t (EMemT n_ms)) /t (((((EUn I2T (EInt 4)) *t (EMemT n_MW)) *t (EMemT n_MW)) *t (EMemT n_SW)) *t (EMemT n_SW)));,
SMemT n_preZ0 (((((((EMemT n_preZ) *t ((EMemT n_gL) -t (EMemT n_gR))) *t ((EMemT n_gL) -t (EMemT n_gR))) *t (EMemT n_md)) *t (EMemT n_ms)) /t (EMemT n_MZ)) /t (EMemT n_MZ))).
(** ddss::set_momenta: SM/ddss.cpp 74-99 *)
Definition ddss_set_momenta : meth := mkMeth n_set_momenta [(n_mom1, PkMom); (n_mom2, PkMom); (n_mom3, PkMom); (n_mom4, PkMom)]
(SSetMomentum 0 n_mom1;,
SSetMomentum 1 n_mom2;,
SSetMomentum 2 n_mom3;,
SSetMomentum 3 n_mom4;,
SUpdate n_a13a;,
SUpdate n_s13s;,
SUpdate n_a14a;,
SUpdate n_s14s;,
SUpdate n_a23a;,
SUpdate n_s23s;,
SUpdate n_a24a;,
SUpdate n_s24s;,
SUpdate n_s12s;,
SUpdate n_a12a;,
SUpdate n_s34s;,
SUpdate n_a34a;,
SDeclT n_propP 4;,
(SFor n_j (EInt 0) (EBin (CmpI CLt) (ELocI n_j) (EInt 4)) (EBin (OpI IAdd) (ELocI n_j) (EInt 1))
(SArrT n_propP (AVar n_j) ((EArrT n_mom1 (AVar n_j)) +t (EArrT n_mom2 (AVar n_j)))));,
SMemC n_pDenSAG (EDen n_propAG n_propP);,
SMemC n_pDenSh (EDen n_proph n_propP);,
SMemC n_pDenSZ (EDen n_propZ n_propP)).
(** ddss::amp_gluon: SM/ddss.cpp 107-120 *)
Definition ddss_amp_gluon : meth := mkMeth n_amp_gluon [(n_ds1, PkI); (n_ds2, PkI); (n_ds3, PkI); (n_ds4, PkI)]
(SLoc rT n_two (EUn I2T (EInt 2));,
SLoc rC n_amplitude (EBin OpTTC (EUn I2T (EInt 0)) (EUn I2T (EInt 0)));,
SLoc rC n_amplitude (((((ELocT n_two) *t (EMemT n_gs)) *t (EMemT n_gs)) *tc (((((EV n_a13a [(AVar n_ds1); (AVar n_ds3)]) *c (EV n_s24s [(AVar n_ds2); (AVar n_ds4)])) +c ((EV n_a14a [(AVar n_ds1); (AVar n_ds4)]) *c (EV n_s23s [(AVar n_ds2); (AVar n_ds3)]))) +c ((EV n_s13s [(AVar n_ds1); (AVar n_ds3)]) *c (EV n_a24a [(AVar n_ds2); (AVar n_ds4)]))) +c ((EV n_s14s [(AVar n_ds1); (AVar n_ds4)]) *c (EV n_a23a [(AVar n_ds2); (AVar n_ds3)])))) /c (EMemC n_pDenSAG));,
SReturnC (ELocC n_amplitude)).
(** ddss::amp_rest: SM/ddss.cpp 121-161 *)
Definition ddss_amp_rest : meth := mkMeth n_amp_rest [(n_ds1, PkI); (n_ds2, PkI); (n_ds3, PkI); (n_ds4, PkI)]
(SLoc rT n_two (EUn I2T (EInt 2));,
SLoc rC n_amplitude (EBin OpTTC (EUn I2T (EInt 0)) (EUn I2T (EInt 0)));,
SLoc rC n_amplitude (((((((ELocT n_two) *t (EMemT n_e)) *t (EMemT n_e)) *t (EUn D2T (ELit (1 # 1)))) /t (EUn D2T (ELit (9 # 1)))) *tc (((((EV n_a13a [(AVar n_ds1); (AVar n_ds3)]) *c (EV n_s24s [(AVar n_ds2); (AVar n_ds4)])) +c ((EV n_a14a [(AVar n_ds1); (AVar n_ds4)]) *c (EV n_s23s [(AVar n_ds2); (AVar n_ds3)]))) +c ((EV n_s13s [(AVar n_ds1); (AVar n_ds3)]) *c (EV n_a24a [(AVar n_ds2); (AVar n_ds4)]))) +c ((EV n_s14s [(AVar n_ds1); (AVar n_ds4)]) *c (EV n_a23a [(AVar n_ds2); (AVar n_ds3)])))) /c (EMemC n_pDenSAG));,
SLoc rC n_amplitude ((ELocC n_amplitude) +c ((((EMemT n_preh) *tc ((EV n_s12s [(AVar n_ds1); (AVar n_ds2)]) +c (EV n_a12a [(AVar n_ds1); (AVar n_ds2)]))) *c ((EV n_s34s [(AVar n_ds3); (AVar n_ds4)]) +c (EV n_a34a [(AVar n_ds3); (AVar n_ds4)]))) /c (EMemC n_pDenSh)));,
SLoc rC n_amplitude ((ELocC n_amplitude) +c (((((EUn NegT (EMemT n_preZ0)) *tc ((EV n_a12a [(AVar n_ds1); (AVar n_ds2)]) -c (EV n_s12s [(AVar n_ds1); (AVar n_ds2)]))) *c ((EV n_a34a [(AVar n_ds3); (AVar n_ds4)]) -c (EV n_s34s [(AVar n_ds3); (AVar n_ds4)]))) /c (EMemC n_pDenSZ)) +c ((((ELocT n_two) *t (EMemT n_preZ)) *tc ((((((EMemT n_gL) *t (EMemT n_gL)) *tc (EV n_s23s [(AVar n_ds2); (AVar n_ds3)])) *c (EV n_a14a [(AVar n_ds1); (AVar n_ds4)])) +c (((EMemT n_gL) *t (EMemT n_gR)) *tc (((EV n_s13s [(AVar n_ds1); (AVar n_ds3)]) *c (EV n_a24a [(AVar n_ds2); (AVar n_ds4)])) +c ((EV n_s24s [(AVar n_ds2); (AVar n_ds4)]) *c (EV n_a13a [(AVar n_ds1); (AVar n_ds3)]))))) +c ((((EMemT n_gR) *t (EMemT n_gR)) *tc (EV n_s14s [(AVar n_ds1); (AVar n_ds4)])) *c (EV n_a23a [(AVar n_ds2); (AVar n_ds3)])))) /c (EMemC n_pDenSZ))));,
SReturnC (ELocC n_amplitude)).
(** ddss::amp2: SM/ddss.cpp 164-182 *)
Definition ddss_amp2 : meth := mkMeth n_amp2 []
(SLoc rT n_amp2 (EUn I2T (EInt 0));,
SLoc rT n_two (EUn I2T (EInt 2));,
SLoc rT n_three (EUn I2T (EInt 3));,
SLoc rT n_nine (EUn I2T (EInt 9));,
SDecl rC n_M_rest;,
SDecl rC n_M_gluon;,
(SFor n_j1 (EUn NegI (EInt 1)) (EBin (CmpI CLe) (ELocI n_j1) (EInt 1)) (EBin (OpI IAdd) (ELocI n_j1) (EInt 2))
(SFor n_j2 (EUn NegI (EInt 1)) (EBin (CmpI CLe) (ELocI n_j2) (EInt 1)) (EBin (OpI IAdd) (ELocI n_j2) (EInt 2))
(SFor n_j3 (EUn NegI (EInt 1)) (EBin (CmpI CLe) (ELocI n_j3) (EInt 1)) (EBin (OpI IAdd) (ELocI n_j3) (EInt 2))
(SFor n_j4 (EUn NegI (EInt 1)) (EBin (CmpI CLe) (ELocI n_j4) (EInt 1)) (EBin (OpI IAdd) (ELocI n_j4) (EInt 2))
(SLoc rC n_M_rest (ECall n_amp_rest [(AVar n_j1); (AVar n_j2); (AVar n_j3); (AVar n_j4)]);,
SLoc rC n_M_gluon (ECall n_amp_gluon [(AVar n_j1); (AVar n_j2); (AVar n_j3); (AVar n_j4)]);,
SLoc rT n_amp2 ((ELocT n_amp2) +t ((ELocT n_nine) *t (EUn Pow2T (EUn AbsC (ELocC n_M_rest)))));,
SLoc rT n_amp2 ((ELocT n_amp2) +t ((ELocT n_two) *t (EUn Pow2T (EUn AbsC (ELocC n_M_gluon))))))))));,
SReturnT ((ELocT n_amp2) /t (EUn D2T (ELit (36 # 1))))).
(** members: SM/include/ddss.h 26-33; initialisers: SM/ddss.cpp 32-48 *)
Definition ddss : cls := mkCls "ddss"
[(n_e, KT);
(n_gs, KT);
(n_md, KT);
(n_ms, KT);
(n_mh, KT);
(n_wh, KT);
(n_MZ, KT);
(n_WZ, KT);
(n_MW, KT);
(n_SW, KT);
(n_CW, KT);
(n_p1, (KPart 0));
(n_p2, (KPart 1));
(n_p3, (KPart 2));
(n_p4, (KPart 3));
(n_propAG, KProp);
(n_proph, KProp);
(n_propZ, KProp);
(n_pDenSAG, KC);
(n_pDenSh, KC);
(n_pDenSZ, KC);
(n_a13a, KSprod);
(n_s13s, KSprod);
(n_a14a, KSprod);
(n_s14s, KSprod);
(n_a23a, KSprod);
(n_s23s, KSprod);
(n_a24a, KSprod);
(n_s24s, KSprod);
(n_s12s, KSprod);
(n_a12a, KSprod);
(n_s34s, KSprod);
(n_a34a, KSprod);
(n_preh, KT);
(n_gL, KT);
(n_gR, KT);
(n_preZ, KT);
(n_preZ0, KT)]
[n_echarge; n_gscharge; n_massd; n_masss; n_massh; n_widthh; n_massW; n_sinW; n_widthZ]
[(n_e, NT (ELocT n_echarge));
(n_gs, NT (ELocT n_gscharge));
(n_md, NT (ELocT n_massd));
(n_ms, NT (ELocT n_masss));
(n_mh, NT (ELocT n_massh));
(n_wh, NT (ELocT n_widthh));
(n_MW, NT (ELocT n_massW));
(n_SW, NT (ELocT n_sinW));
(n_CW, NT (EUn SqrtT ((EUn D2T (ELit (1 # 1))) -t ((ELocT n_sinW) *t (ELocT n_sinW)))));
(n_WZ, NT (ELocT n_widthZ));
(n_propAG, NProp (EUn I2T (EInt 0)) (EUn I2T (EInt 0)));
(n_proph, NProp (EMemT n_mh) (EMemT n_wh));
(n_p1, NPart (EMemT n_md));
(n_p2, NPart (EMemT n_md));
(n_p3, NPart (EMemT n_ms));
(n_p4, NPart (EMemT n_ms));
(n_a13a, NSprod true 0 [] 2);
(n_s13s, NSprod false 0 [] 2);
(n_a14a, NSprod true 0 [] 3);
(n_s14s, NSprod false 0 [] 3);
(n_a23a, NSprod true 1 [] 2);
(n_s23s, NSprod false 1 [] 2);
(n_a24a, NSprod true 1 [] 3);
(n_s24s, NSprod false 1 [] 3);
(n_s12s, NSprod false 0 [] 1);
(n_a12a, NSprod true 0 [] 1);
(n_s34s, NSprod false 2 [] 3);
(n_a34a, NSprod true 2 [] 3)]
ddss_ctor
[ddss_set_masses; ddss_set_momenta; ddss_amp_gluon; ddss_amp_rest; ddss_amp2].

(** deed::deed: SM/deed.cpp 32-60 *)
Definition deed_ctor : stmt :=
(SMemT n_MZ ((EMemT n_MW) /t (EMemT n_CW));,
SPropMass n_propZ (EMemT n_MZ);,
SMemT n_preh (((((EMemT n_e) *t (EMemT n_e)) *t (EMemT n_md)) *t (EMemT n_me)) /t (((((EUn D2T (ELit (4 # 1))) *t (EMemT n_MW)) *t (EMemT n_MW)) *t (EMemT n_SW)) *t (EMemT n_SW)));,
SMemT n_gLd ((EUn D2T (EUn NegD (ELit (1 # 1)))) +t (((EUn D2T ((ELit (2 # 1)) /d (ELit (3 # 1)))) *t (EMemT n_SW)) *t (EMemT n_SW)));,
SMemT n_gRd (((EUn D2T ((ELit (2 # 1)) /d (ELit (3 # 1)))) *t (EMemT n_SW)) *t (EMemT n_SW));,
SMemT n_gLe ((EUn D2T (EUn NegD (ELit (1 # 1)))) +t (((EUn D2T (ELit (2 # 1))) *t (EMemT n_SW)) *t (EMemT n_SW)));,
SMemT n_gRe (((EUn D2T (ELit (2 # 1))) *t (EMemT n_SW)) *t (EMemT n_SW));,
SMemT n_preZ (((EMemT n_e) *t (EMemT n_e)) /t (((((EUn D2T (ELit (4 # 1))) *t (EMemT n_CW)) *t (EMemT n_CW)) *t (EMemT n_SW)) *t (EMemT n_SW)));,
SMemT n_preZ0 (((((((EMemT n_preZ) *t ((EMemT n_gLd) -t (EMemT n_gRd))) *t ((EMemT n_gLe) -t (EMemT n_gRe))) *t (EMemT n_md)) *t (EMemT n_me)) /t (EMemT n_MZ)) /t (EMemT n_MZ))).
(** deed::set_masses: SM/deed.cpp 61-75 *)
Definition deed_set_masses : meth := mkMeth n_set_masses [(n_massd, PkT); (n_masse, PkT); (n_massh, PkT); (n_massW, PkT)]
(SMemT n_md (ELocT n_massd);,
SMemT n_me (ELocT n_masse);,
SMemT n_mh (ELocT n_massh);,
SPropMass n_proph (EMemT n_mh);,
SMemT n_MW (ELocT n_massW);,
SMemT n_MZ ((EMemT n_MW) /t (EMemT n_CW));,
SPropMass n_propZ (EMemT n_MZ);,
SSetMass 0 (EMemT n_md);,
SSetMass 1 (EMemT n_me);,
SSetMass 2 (EMemT n_me);,
SSetMass 3 (EMemT n_md);,
SMemT n_preh (((((EMemT n_e) *t (EMemT n_e)) *t (EMemT n_md)) *t (EMemT n_me)) /t (((((EUn I2T (EInt 4)) *t (EMemT n_MW)) *t (EMemT n_MW)) *t (EMemT n_SW)) *t (EMemT n_SW)));,
SMemT n_preZ0 (((((((EMemT n_preZ) *t ((EMemT n_gLd) -t (EMemT n_gRd))) *t ((EMemT n_gLe) -t (EMemT n_gRe))) *t (EMemT n_md)) *t (EMemT n_me)) /t (EMemT n_MZ)) /t (EMemT n_MZ))).
(** deed::set_momenta: SM/deed.cpp 76-101 *)
Definition deed_set_momenta : meth := mkMeth n_set_momenta [(n_mom1, PkMom); (n_mom2, PkMom); (n_mom3, PkMom); (n_mom4, PkMom)]
(SSetMomentum 0 n_mom1;,
SSetMomentum 1 n_mom2;,
SSetMomentum 2 n_mom3;,
SSetMomentum 3 n_mom4;,
SUpdate n_a13a;,
SUpdate n_s13s;,
SUpdate n_a14a;,
SUpdate n_s14s;,
SUpdate n_a23a;,
SUpdate n_s23s;,
SUpdate n_a24a;,
SUpdate n_s24s;,
SUpdate n_s12s;,
SUpdate n_a12a;,
SUpdate n_s34s;,
SUpdate n_a34a;,
SDeclT n_propP 4;,
(SFor n_j (EInt 0) (EBin (CmpI CLt) (ELocI n_j) (EInt 4)) (EBin (OpI IAdd) (ELocI n_j) (EInt 1))
(SArrT n_propP (AVar n_j) ((EArrT n_mom1 (AVar n_j)) -t (EArrT n_mom4 (AVar n_j)))));,
SMemC n_pDenUA (EDen n_propA n_propP);,
SMemC n_pDenUh (EDen n_proph n_propP);,
SMemC n_pDenUZ (EDen n_propZ n_propP)).
(** deed::amp: SM/deed.cpp 106-159 *)
Definition deed_amp : meth := mkMeth n_amp [(n_ds1, PkI); (n_ds2, PkI); (n_ds3, PkI); (n_ds4, PkI)]
(SLoc rT n_two (EUn I2T (EInt 2));,
SLoc rC n_amplitude (EBin OpTTC (EUn I2T (EInt 0)) (EUn I2T (EInt 0)));,
SLoc rC n_amplitude (((((((ELocT n_two) *t (EMemT n_e)) *t (EMemT n_e)) *t (EUn D2T (ELit (1 # 1)))) /t (EUn D2T (ELit (3 # 1)))) *tc (((((EUn NegC (EV n_a13a [(AVar n_ds1); (AVar n_ds3)])) *c (EV n_s24s [(AVar n_ds2); (AVar n_ds4)])) +c ((EV n_a12a [(AVar n_ds1); (AVar n_ds2)]) *c (EV n_s34s [(AVar n_ds3); (AVar n_ds4)]))) -c ((EV n_s13s [(AVar n_ds1); (AVar n_ds3)]) *c (EV n_a24a [(AVar n_ds2); (AVar n_ds4)]))) +c ((EV n_s12s [(AVar n_ds1); (AVar n_ds2)]) *c (EV n_a34a [(AVar n_ds3); (AVar n_ds4)])))) /c (EMemC n_pDenUA));,
SLoc rC n_amplitude ((ELocC n_amplitude) +c ((((EUn NegT (EMemT n_preh)) *tc ((EV n_s14s [(AVar n_ds1); (AVar n_ds4)]) -c (EV n_a14a [(AVar n_ds1); (AVar n_ds4)]))) *c ((EV n_s23s [(AVar n_ds2); (AVar n_ds3)]) -c (EV n_a23a [(AVar n_ds2); (AVar n_ds3)]))) /c (EMemC n_pDenUh)));,
SLoc rC n_amplitude ((ELocC n_amplitude) +c (((((EMemT n_preZ0) *tc ((EV n_a14a [(AVar n_ds1); (AVar n_ds4)]) +c (EV n_s14s [(AVar n_ds1); (AVar n_ds4)]))) *c ((EV n_a23a [(AVar n_ds2); (AVar n_ds3)]) +c (EV n_s23s [(AVar n_ds2); (AVar n_ds3)]))) /c (EMemC n_pDenUZ)) +c ((((ELocT n_two) *t (EMemT n_preZ)) *tc (((((((EMemT n_gLd) *t (EMemT n_gLe)) *tc (EV n_s34s [(AVar n_ds3); (AVar n_ds4)])) *c (EV n_a12a [(AVar n_ds1); (AVar n_ds2)])) -c ((((EMemT n_gLe) *t (EMemT n_gRd)) *tc (EV n_s13s [(AVar n_ds1); (AVar n_ds3)])) *c (EV n_a24a [(AVar n_ds2); (AVar n_ds4)]))) -c ((((EMemT n_gLd) *t (EMemT n_gRe)) *tc (EV n_s24s [(AVar n_ds2); (AVar n_ds4)])) *c (EV n_a13a [(AVar n_ds1); (AVar n_ds3)]))) +c ((((EMemT n_gRd) *t (EMemT n_gRe)) *tc (EV n_s12s [(AVar n_ds1); (AVar n_ds2)])) *c (EV n_a34a [(AVar n_ds3); (AVar n_ds4)])))) /c (EMemC n_pDenUZ))));,
SReturnC (ELocC n_amplitude)).
(** deed::amp2: SM/deed.cpp 162-177 *)
Definition deed_amp2 : meth := mkMeth n_amp2 []
(SLoc rT n_amp2 (EUn I2T (EInt 0));,
SLoc rT n_two (EUn I2T (EInt 2));,
SLoc rT n_three (EUn I2T (EInt 3));,
SDecl rC n_M;,
(SFor n_j1 (EUn NegI (EInt 1)) (EBin (CmpI CLe) (ELocI n_j1) (EInt 1)) (EBin (OpI IAdd) (ELocI n_j1) (EInt 2))
(SFor n_j2 (EUn NegI (EInt 1)) (EBin (CmpI CLe) (ELocI n_j2) (EInt 1)) (EBin (OpI IAdd) (ELocI n_j2) (EInt 2))
(SFor n_j3 (EUn NegI (EInt 1)) (EBin (CmpI CLe) (ELocI n_j3) (EInt 1)) (EBin (OpI IAdd) (ELocI n_j3) (EInt 2))
(SFor n_j4 (EUn NegI (EInt 1)) (EBin (CmpI CLe) (ELocI n_j4) (EInt 1)) (EBin (OpI IAdd) (ELocI n_j4) (EInt 2))
(SLoc rC n_M (ECall n_amp [(AVar n_j1); (AVar n_j2); (AVar n_j3); (AVar n_j4)]);,
SLoc rT n_amp2 ((ELocT n_amp2) +t ((ELocT n_three) *t (EUn Pow2T (EUn AbsC (ELocC n_M))))))))));,
SReturnT ((ELocT n_amp2) /t (EUn D2T (ELit (12 # 1))))).
(** members: SM/include/deed.h 26-33; initialisers: SM/deed.cpp 32-48 *)
Definition deed : cls := mkCls "deed"
[(n_e, KT);
(n_md, KT);
(n_me, KT);
(n_mh, KT);
(n_wh, KT);
(n_MZ, KT);
(n_WZ, KT);
(n_MW, KT);
(n_SW, KT);
(n_CW, KT);
(n_p1, (KPart 0));
(n_p2, (KPart 1));
(n_p3, (KPart 2));
(n_p4, (KPart 3));
(n_propA, KProp);
(n_proph, KProp);
(n_propZ, KProp);
(n_pDenUA, KC);
(n_pDenUh, KC);
(n_pDenUZ, KC);
(n_a13a, KSprod);
(n_s13s, KSprod);
(n_a14a, KSprod);
(n_s14s, KSprod);
(n_a23a, KSprod);
(n_s23s, KSprod);
(n_a24a, KSprod);
(n_s24s, KSprod);
(n_s12s, KSprod);
(n_a12a, KSprod);
(n_s34s, KSprod);
(n_a34a, KSprod);
(n_preh, KT);
(n_gLd, KT);
(n_gRd, KT);
(n_gLe, KT);
(n_gRe, KT);
(n_preZ, KT);
(n_preZ0, KT)]
[n_echarge; n_massd; n_masse; n_massh; n_widthh; n_massW; n_sinW; n_widthZ]
[(n_e, NT (ELocT n_echarge));
(n_md, NT (ELocT n_massd));
(n_me, NT (ELocT n_masse));
(n_mh, NT (ELocT n_massh));
(n_wh, NT (ELocT n_widthh));
(n_MW, NT (ELocT n_massW));
(n_SW, NT (ELocT n_sinW));
(n_CW, NT (EUn SqrtT ((EUn D2T (ELit (1 # 1))) -t ((ELocT n_sinW) *t (ELocT n_sinW)))));
(n_WZ, NT (ELocT n_widthZ));
(n_propA, NProp (EUn I2T (EInt 0)) (EUn I2T (EInt 0)));
(n_proph, NProp (EMemT n_mh) (EMemT n_wh));
(n_p1, NPart (EMemT n_md));
(n_p2, NPart (EMemT n_me));
(n_p3, NPart (EMemT n_me));
(n_p4, NPart (EMemT n_md));
(n_a13a, NSprod true 0 [] 2);
(n_s13s, NSprod false 0 [] 2);
(n_a14a, NSprod true 0 [] 3);
(n_s14s, NSprod false 0 [] 3);
(n_a23a, NSprod true 1 [] 2);
(n_s23s, NSprod false 1 [] 2);
(n_a24a, NSprod true 1 [] 3);
(n_s24s, NSprod false 1 [] 3);
(n_s12s, NSprod false 0 [] 1);
(n_a12a, NSprod true 0 [] 1);
(n_s34s, NSprod false 2 [] 3);
(n_a34a, NSprod true 2 [] 3)]
deed_ctor
[deed_set_masses; deed_set_momenta; deed_amp; deed_amp2].

(** dgdh::dgdh: SM/dgdh.cpp 32-53 *)
Definition dgdh_ctor : stmt :=
(SLoc rT n_two (EUn I2T (EInt 2));,
SMemT n_sqrt2 (EUn SqrtT (ELocT n_two));,
SParticle 0 (EMemT n_md);,
SParticle 1 (EUn I2T (EInt 0));,
SParticle 2 (EMemT n_md);,
SParticle 3 (EMemT n_mh);,
SSprod n_s12s false 0 [] 1;,
SSprod n_a12a true 0 [] 1;,
SSprod n_s23s false 1 [] 2;,
SSprod n_a23a true 1 [] 2;,
SSprod n_s13s false 0 [] 2;,
SSprod n_a13a true 0 [] 2;,
SSprod n_s243a false 1 [3] 2;,
SSprod n_a243s true 1 [3] 2;,
SSprod n_s241a false 1 [3] 0;,
SSprod n_a241s true 1 [3] 0;,
SSprod n_s2342s false 1 [2; 3] 1;,
SSprod n_a2342a true 1 [2; 3] 1;,
SMemT n_pre (((((EMemT n_sqrt2) *t (EMemT n_e)) *t (EMemT n_gs)) *t (EMemT n_md)) /t (((EUn D2T (ELit (2 # 1))) *t (EMemT n_MW)) *t (EMemT n_SW)))).
(** dgdh::set_masses: SM/dgdh.cpp 54-62 *)
Definition dgdh_set_masses : meth := mkMeth n_set_masses [(n_massd, PkT); (n_massh, PkT); (n_massW, PkT)]
(SMemT n_md (ELocT n_massd);,
SMemT n_mh (ELocT n_massh);,
SSetMass 0 (EMemT n_md);,
SSetMass 2 (EMemT n_md);,
SSetMass 3 (EMemT n_mh);,
SPropMass n_prop (EMemT n_md);,
SMemT n_pre (((((EMemT n_sqrt2) *t (EMemT n_e)) *t (EMemT n_gs)) *t (EMemT n_md)) /t (((EUn D2T (ELit (2 # 1))) *t (EMemT n_MW)) *t (EMemT n_SW)))).
(** dgdh::set_momenta: SM/dgdh.cpp 63-89 *)
Definition dgdh_set_momenta : meth := mkMeth n_set_momenta [(n_mom1, PkMom); (n_mom2, PkMom); (n_mom3, PkMom); (n_mom4, PkMom)]
(SSetMomentum 0 n_mom1;,
SSetMomentum 1 n_mom2;,
SSetMomentum 2 n_mom3;,
SSetMomentum 3 n_mom4;,
SUpdate n_s12s;,
SUpdate n_a12a;,
SUpdate n_s23s;,
SUpdate n_a23a;,
SUpdate n_s13s;,
SUpdate n_a13a;,
SUpdate n_s243a;,
SUpdate n_a243s;,
SUpdate n_s241a;,
SUpdate n_a241s;,
SUpdate n_s2342s;,
SUpdate n_a2342a;,
SDeclT n_propSP 4;,
SDeclT n_propUP 4;,
(SFor n_j (EInt 0) (EBin (CmpI CLt) (ELocI n_j) (EInt 4)) (EBin (OpI IAdd) (ELocI n_j) (EInt 1))
(SArrT n_propSP (AVar n_j) ((EArrT n_mom1 (AVar n_j)) +t (EArrT n_mom2 (AVar n_j)));,
SArrT n_propUP (AVar n_j) ((EArrT n_mom1 (AVar n_j)) -t (EArrT n_mom4 (AVar n_j)))));,
SMemC n_pDenS (EDen n_prop n_propSP);,
SMemC n_pDenU (EDen n_prop n_propUP)).
(** dgdh::amp: SM/dgdh.cpp 94-108 *)
Definition dgdh_amp : meth := mkMeth n_amp [(n_ds1, PkI); (n_ds2, PkI); (n_ds3, PkI)]
((SIf (EBin (CmpI CGt) (ELocI n_ds2) (EInt 0))
(SReturnC ((((EMemT n_pre) *tc (((((((EMemT n_mh) *t (EMemT n_mh)) *tc (EV n_s12s [(AVar n_ds1)])) *c (EV n_s23s [(AVar n_ds3)])) -c (((EMemT n_md) *tc (EV n_s12s [(AVar n_ds1)])) *c (EV n_s243a [(AVar n_ds3)]))) -c (((EMemT n_md) *tc (EV n_s23s [(AVar n_ds3)])) *c (EV n_s241a [(AVar n_ds1)]))) +c ((EV n_a13a [(AVar n_ds1); (AVar n_ds3)]) *c (EV n_s2342s [])))) /c (EMemC n_pDenS)) /c (EMemC n_pDenU)))
((SIf (EBin (CmpI CLt) (ELocI n_ds2) (EInt 0))
(SReturnC ((((EMemT n_pre) *tc (((((((EUn NegT (EMemT n_mh)) *t (EMemT n_mh)) *tc (EV n_a12a [(AVar n_ds1)])) *c (EV n_a23a [(AVar n_ds3)])) +c (((EMemT n_md) *tc (EV n_a12a [(AVar n_ds1)])) *c (EV n_a243s [(AVar n_ds3)]))) +c (((EMemT n_md) *tc (EV n_a23a [(AVar n_ds3)])) *c (EV n_a241s [(AVar n_ds1)]))) -c ((EV n_s13s [(AVar n_ds1); (AVar n_ds3)]) *c (EV n_a2342a [])))) /c (EMemC n_pDenS)) /c (EMemC n_pDenU)))
(SSkip))));,
SReturnC (EBin OpTTC (EUn I2T (EInt 0)) (EUn I2T (EInt 0)))).
(** dgdh::amp2: SM/dgdh.cpp 111-125 *)
Definition dgdh_amp2 : meth := mkMeth n_amp2 []
(SLoc rT n_amp2 (EUn I2T (EInt 0));,
SDecl rC n_M;,
(SFor n_j1 (EUn NegI (EInt 1)) (EBin (CmpI CLe) (ELocI n_j1) (EInt 1)) (EBin (OpI IAdd) (ELocI n_j1) (EInt 2))
(SFor n_j2 (EUn NegI (EInt 2)) (EBin (CmpI CLe) (ELocI n_j2) (EInt 2)) (EBin (OpI IAdd) (ELocI n_j2) (EInt 4))
(SFor n_j3 (EUn NegI (EInt 1)) (EBin (CmpI CLe) (ELocI n_j3) (EInt 1)) (EBin (OpI IAdd) (ELocI n_j3) (EInt 2))
(SLoc rC n_M (ECall n_amp [(AVar n_j1); (AVar n_j2); (AVar n_j3)]);,
SLoc rT n_amp2 ((ELocT n_amp2) +t ((EUn D2T (ELit (4 # 1))) *t (EUn Pow2T (EUn AbsC (ELocC n_M)))))))));,
SReturnT ((ELocT n_amp2) /t (EUn D2T (ELit (96 # 1))))).
(** dgdh::amp2_gplus: SM/dgdh.cpp 129-142 *)
Definition dgdh_amp2_gplus : meth := mkMeth n_amp2_gplus []
(SLoc rT n_amp2 (EUn I2T (EInt 0));,
SDecl rC n_M;,
(SFor n_j1 (EUn NegI (EInt 1)) (EBin (CmpI CLe) (ELocI n_j1) (EInt 1)) (EBin (OpI IAdd) (ELocI n_j1) (EInt 2))
(SFor n_j3 (EUn NegI (EInt 1)) (EBin (CmpI CLe) (ELocI n_j3) (EInt 1)) (EBin (OpI IAdd) (ELocI n_j3) (EInt 2))
(SLoc rC n_M (ECall n_amp [(AVar n_j1); (ALit 2); (AVar n_j3)]);,
SLoc rT n_amp2 ((ELocT n_amp2) +t ((EUn D2T (ELit (4 # 1))) *t (EUn Pow2T (EUn AbsC (ELocC n_M))))))));,
SReturnT ((ELocT n_amp2) /t (EUn D2T (ELit (48 # 1))))).
(** members: SM/include/dgdh.h 26-33; initialisers: SM/dgdh.cpp 32-33 *)
Definition dgdh : cls := mkCls "dgdh"
[(n_e, KT);
(n_gs, KT);
(n_md, KT);
(n_mh, KT);
(n_MW, KT);
(n_SW, KT);
(n_pre, KT);
(n_p1, (KPart 0));
(n_p2, (KPart 1));
(n_p3, (KPart 2));
(n_p4, (KPart 3));
(n_prop, KProp);
(n_pDenS, KC);
(n_pDenU, KC);
(n_s12s, KSprod);
(n_a12a, KSprod);
(n_s23s, KSprod);
(n_a23a, KSprod);
(n_s13s, KSprod);
(n_a13a, KSprod);
(n_s243a, KSprod);
(n_a243s, KSprod);
(n_s241a, KSprod);
(n_a241s, KSprod);
(n_s2342s, KSprod);
(n_a2342a, KSprod);
(n_sqrt2, KT)]
[n_echarge; n_gscharge; n_massd; n_massh; n_massW; n_sinW]
[(n_e, NT (ELocT n_echarge));
(n_gs, NT (ELocT n_gscharge));
(n_md, NT (ELocT n_massd));
(n_mh, NT (ELocT n_massh));
(n_prop, NProp (ELocT n_massd) (EUn I2T (EInt 0)));
(n_MW, NT (ELocT n_massW));
(n_SW, NT (ELocT n_sinW))]
dgdh_ctor
[dgdh_set_masses; dgdh_set_momenta; dgdh_amp; dgdh_amp2; dgdh_amp2_gplus].

(** dggd::dggd: SM/dggd.cpp 32-54 *)
Definition dggd_ctor : stmt :=
(SLoc rT n_two (EUn I2T (EInt 2));,
SMemT n_sqrt2 (EUn SqrtT (ELocT n_two));,
SParticle 0 (EMemT n_md);,
SParticle 1 (EUn I2T (EInt 0));,
SParticle 2 (EUn I2T (EInt 0));,
SParticle 3 (EMemT n_md);,
SSprod n_s34s false 2 [] 3;,
SSprod n_a34a true 2 [] 3;,
SSprod n_s12s false 0 [] 1;,
SSprod n_a12a true 0 [] 1;,
SSprod n_s13s false 0 [] 2;,
SSprod n_a13a true 0 [] 2;,
SSprod n_s24s false 1 [] 3;,
SSprod n_a24a true 1 [] 3;,
SSprod n_s23s false 1 [] 2;,
SSprod n_a23a true 1 [] 2;,
SSprod n_s14s false 0 [] 3;,
SSprod n_a14a true 0 [] 3;,
SSprod n_s312a false 2 [0] 1;,
SSprod n_s213a false 1 [0] 2).
(** dggd::set_masses: SM/dggd.cpp 55-60 *)
Definition dggd_set_masses : meth := mkMeth n_set_masses [(n_massd, PkT)]
(SMemT n_md (ELocT n_massd);,
SSetMass 0 (EMemT n_md);,
SSetMass 3 (EMemT n_md);,
SPropMass n_propd (EMemT n_md)).
(** dggd::set_momenta: SM/dggd.cpp 61-92 *)
Definition dggd_set_momenta : meth := mkMeth n_set_momenta [(n_mom1, PkMom); (n_mom2, PkMom); (n_mom3, PkMom); (n_mom4, PkMom)]
(SSetMomentum 0 n_mom1;,
SSetMomentum 1 n_mom2;,
SSetMomentum 2 n_mom3;,
SSetMomentum 3 n_mom4;,
SUpdate n_s34s;,
SUpdate n_a34a;,
SUpdate n_s12s;,
SUpdate n_a12a;,
SUpdate n_s13s;,
SUpdate n_a13a;,
SUpdate n_s24s;,
SUpdate n_a24a;,
SUpdate n_s23s;,
SUpdate n_a23a;,
SUpdate n_s14s;,
SUpdate n_a14a;,
SUpdate n_s312a;,
SUpdate n_s213a;,
SDeclT n_propSP 4;,
SDeclT n_propTP 4;,
SDeclT n_propUP 4;,
(SFor n_j (EInt 0) (EBin (CmpI CLt) (ELocI n_j) (EInt 4)) (EBin (OpI IAdd) (ELocI n_j) (EInt 1))
(SArrT n_propSP (AVar n_j) ((EArrT n_mom1 (AVar n_j)) +t (EArrT n_mom2 (AVar n_j)));,
SArrT n_propTP (AVar n_j) ((EArrT n_mom1 (AVar n_j)) -t (EArrT n_mom3 (AVar n_j)));,
SArrT n_propUP (AVar n_j) ((EArrT n_mom1 (AVar n_j)) -t (EArrT n_mom4 (AVar n_j)))));,
SMemT n_pDenS (EUn ReC (EDen n_propd n_propSP));,
SMemT n_pDenT (EUn ReC (EDen n_propd n_propTP));,
SMemT n_pDenU (EUn ReC (EDen n_propg n_propUP))).
(** dggd::amp_Num: SM/dggd.cpp 99-129 *)
Definition dggd_amp_Num : meth := mkMeth n_amp_Num [(n_ds1, PkI); (n_ds2, PkI); (n_ds3, PkI); (n_ds4, PkI)]
((SIf (EAnd (EBin (CmpI CGt) (ELocI n_ds3) (EInt 0)) (EBin (CmpI CGt) (ELocI n_ds2) (EInt 0)))
(SReturnC (((((((EUn D2T (EUn NegD (ELit (2 # 1)))) *t (EMemT n_gs)) *t (EMemT n_gs)) *t (EMemT n_md)) *tc (EV n_s23s [])) *c (EV n_s23s [])) *c (EV n_a14a [(AVar n_ds1); (AVar n_ds4)])))
((SIf (EAnd (EBin (CmpI CLt) (ELocI n_ds3) (EInt 0)) (EBin (CmpI CLt) (ELocI n_ds2) (EInt 0)))
(SReturnC (((((((EUn D2T (ELit (2 # 1))) *t (EMemT n_gs)) *t (EMemT n_gs)) *t (EMemT n_md)) *tc (EV n_a23a [])) *c (EV n_a23a [])) *c (EV n_s14s [(AVar n_ds1); (AVar n_ds4)])))
((SIf (EAnd (EBin (CmpI CGt) (ELocI n_ds3) (EInt 0)) (EBin (CmpI CLt) (ELocI n_ds2) (EInt 0)))
(SReturnC (((((EUn D2T (ELit (2 # 1))) *t (EMemT n_gs)) *t (EMemT n_gs)) *tc (((EV n_s13s [(AVar n_ds1)]) *c (EV n_a24a [(AVar n_ds4)])) -c ((EV n_s34s [(AVar n_ds4)]) *c (EV n_a12a [(AVar n_ds1)])))) *c (EV n_s312a [])))
((SIf (EAnd (EBin (CmpI CLt) (ELocI n_ds3) (EInt 0)) (EBin (CmpI CGt) (ELocI n_ds2) (EInt 0)))
(SReturnC (((((EUn D2T (EUn NegD (ELit (2 # 1)))) *t (EMemT n_gs)) *t (EMemT n_gs)) *tc (((EV n_a13a [(AVar n_ds1)]) *c (EV n_s24s [(AVar n_ds4)])) -c ((EV n_a34a [(AVar n_ds4)]) *c (EV n_s12s [(AVar n_ds1)])))) *c (EV n_s213a [])))
(SSkip))))))));,
SReturnC (EBin OpTTC (EUn I2T (EInt 0)) (EUn I2T (EInt 0)))).
(** dggd::amp2: SM/dggd.cpp 133-149 *)
Definition dggd_amp2 : meth := mkMeth n_amp2 []
(SLoc rT n_amp2 (EUn I2T (EInt 0));,
SDecl rC n_M_Num;,
(SFor n_j1 (EUn NegI (EInt 1)) (EBin (CmpI CLe) (ELocI n_j1) (EInt 1)) (EBin (OpI IAdd) (ELocI n_j1) (EInt 2))
(SFor n_j2 (EUn NegI (EInt 2)) (EBin (CmpI CLe) (ELocI n_j2) (EInt 2)) (EBin (OpI IAdd) (ELocI n_j2) (EInt 4))
(SFor n_j3 (EUn NegI (EInt 2)) (EBin (CmpI CLe) (ELocI n_j3) (EInt 2)) (EBin (OpI IAdd) (ELocI n_j3) (EInt 4))
(SFor n_j4 (EUn NegI (EInt 1)) (EBin (CmpI CLe) (ELocI n_j4) (EInt 1)) (EBin (OpI IAdd) (ELocI n_j4) (EInt 2))
(SLoc rC n_M_Num (ECall n_amp_Num [(AVar n_j1); (AVar n_j2); (AVar n_j3); (AVar n_j4)]);,
SLoc rT n_amp2 ((ELocT n_amp2) +t ((EUn Pow2T (EUn AbsC (ELocC n_M_Num))) *t ((((EUn D2T (ELit (6 # 1))) /t (EUn Pow2T ((EMemT n_pDenU) *t (EMemT n_pDenT)))) +t ((EUn D2T (ELit (6 # 1))) /t (EUn Pow2T ((EMemT n_pDenU) *t (EMemT n_pDenS))))) -t ((EUn D2T ((ELit (2 # 1)) /d (ELit (3 # 1)))) /t (EUn Pow2T ((EMemT n_pDenT) *t (EMemT n_pDenS))))))))))));,
SReturnT ((ELocT n_amp2) /t (EUn D2T (ELit (96 # 1))))).
(** dggd::amp2_gplus: SM/dggd.cpp 152-166 *)
Definition dggd_amp2_gplus : meth := mkMeth n_amp2_gplus []
(SLoc rT n_amp2 (EUn I2T (EInt 0));,
SDecl rC n_M_Num;,
(SFor n_j1 (EUn NegI (EInt 1)) (EBin (CmpI CLe) (ELocI n_j1) (EInt 1)) (EBin (OpI IAdd) (ELocI n_j1) (EInt 2))
(SFor n_j3 (EUn NegI (EInt 1)) (EBin (CmpI CLe) (ELocI n_j3) (EInt 1)) (EBin (OpI IAdd) (ELocI n_j3) (EInt 2))
(SFor n_j4 (EUn NegI (EInt 1)) (EBin (CmpI CLe) (ELocI n_j4) (EInt 1)) (EBin (OpI IAdd) (ELocI n_j4) (EInt 2))
(SLoc rC n_M_Num (ECall n_amp_Num [(AVar n_j1); (ALit 2); (AVar n_j3); (AVar n_j4)]);,
SLoc rT n_amp2 ((ELocT n_amp2) +t ((EUn Pow2T (EUn AbsC (ELocC n_M_Num))) *t ((((EUn D2T (ELit (6 # 1))) /t (EUn Pow2T ((EMemT n_pDenU) *t (EMemT n_pDenT)))) +t ((EUn D2T (ELit (6 # 1))) /t (EUn Pow2T ((EMemT n_pDenU) *t (EMemT n_pDenS))))) -t ((EUn D2T ((ELit (2 # 1)) /d (ELit (3 # 1)))) /t (EUn Pow2T ((EMemT n_pDenT) *t (EMemT n_pDenS)))))))))));,
SReturnT ((ELocT n_amp2) /t (EUn D2T (ELit (48 # 1))))).
(** dggd::amp2_gminus: SM/dggd.cpp 169-183 *)
Definition dggd_amp2_gminus : meth := mkMeth n_amp2_gminus []
(SLoc rT n_amp2 (EUn I2T (EInt 0));,
SDecl rC n_M_Num;,
(SFor n_j1 (EUn NegI (EInt 1)) (EBin (CmpI CLe) (ELocI n_j1) (EInt 1)) (EBin (OpI IAdd) (ELocI n_j1) (EInt 2))
(SFor n_j3 (EUn NegI (EInt 1)) (EBin (CmpI CLe) (ELocI n_j3) (EInt 1)) (EBin (OpI IAdd) (ELocI n_j3) (EInt 2))
(SFor n_j4 (EUn NegI (EInt 1)) (EBin (CmpI CLe) (ELocI n_j4) (EInt 1)) (EBin (OpI IAdd) (ELocI n_j4) (EInt 2))
(SLoc rC n_M_Num (ECall n_amp_Num [(AVar n_j1); (ALit (-2)); (AVar n_j3); (AVar n_j4)]);,
SLoc rT n_amp2 ((ELocT n_amp2) +t ((EUn Pow2T (EUn AbsC (ELocC n_M_Num))) *t ((((EUn D2T (ELit (6 # 1))) /t (EUn Pow2T ((EMemT n_pDenU) *t (EMemT n_pDenT)))) +t ((EUn D2T (ELit (6 # 1))) /t (EUn Pow2T ((EMemT n_pDenU) *t (EMemT n_pDenS))))) -t ((EUn D2T ((ELit (2 # 1)) /d (ELit (3 # 1)))) /t (EUn Pow2T ((EMemT n_pDenT) *t (EMemT n_pDenS)))))))))));,
SReturnT ((ELocT n_amp2) /t (EUn D2T (ELit (48 # 1))))).
(** members: SM/include/dggd.h 26-32; initialisers: SM/dggd.cpp 32-33 *)
Definition dggd : cls := mkCls "dggd"
[(n_gs, KT);
(n_md, KT);
(n_p1, (KPart 0));
(n_p2, (KPart 1));
(n_p3, (KPart 2));
(n_p4, (KPart 3));
(n_propd, KProp);
(n_propg, KProp);
(n_pDenS, KT);
(n_pDenT, KT);
(n_pDenU, KT);
(n_s34s, KSprod);
(n_a34a, KSprod);
(n_s12s, KSprod);
(n_a12a, KSprod);
(n_s13s, KSprod);
(n_a13a, KSprod);
(n_s24s, KSprod);
(n_a24a, KSprod);
(n_s23s, KSprod);
(n_a23a, KSprod);
(n_s14s, KSprod);
(n_a14a, KSprod);
(n_s312a, KSprod);
(n_s213a, KSprod);
(n_sqrt2, KT)]
[n_gcharge; n_massd]
[(n_gs, NT (ELocT n_gcharge));
(n_md, NT (ELocT n_massd));
(n_propd, NProp (ELocT n_massd) (EUn I2T (EInt 0)));
(n_propg, NProp (EUn I2T (EInt 0)) (EUn I2T (EInt 0)))]
dggd_ctor
[dggd_set_masses; dggd_set_momenta; dggd_amp_Num; dggd_amp2; dggd_amp2_gplus; dggd_amp2_gminus].

(** dhdh::dhdh: SM/dhdh.cpp 32-44 *)
Definition dhdh_ctor : stmt :=
(SMemT n_prehS (((((((EUn I2T (EInt 3)) *t (EMemT n_e)) *t (EMemT n_e)) *t (EMemT n_md)) *t (EMemT n_mh)) *t (EMemT n_mh)) /t (((((EUn I2T (EInt 4)) *t (EMemT n_MW)) *t (EMemT n_MW)) *t (EMemT n_SW)) *t (EMemT n_SW)));,
SMemT n_prehTU (((((EMemT n_e) *t (EMemT n_e)) *t (EMemT n_md)) *t (EMemT n_md)) /t (((((EUn D2T (ELit (4 # 1))) *t (EMemT n_MW)) *t (EMemT n_MW)) *t (EMemT n_SW)) *t (EMemT n_SW)))).
(** dhdh::set_masses: SM/dhdh.cpp 45-58 *)
Definition dhdh_set_masses : meth := mkMeth n_set_masses [(n_massd, PkT); (n_massh, PkT); (n_massW, PkT)]
(SMemT n_md (ELocT n_massd);,
SPropMass n_propd (EMemT n_md);,
SMemT n_mh (ELocT n_massh);,
SPropMass n_proph (EMemT n_mh);,
SMemT n_MW (ELocT n_massW);,
SSetMass 0 (EMemT n_md);,
SSetMass 1 (EMemT n_mh);,
SSetMass 2 (EMemT n_md);,
SSetMass 3 (EMemT n_mh);,
SMemT n_prehS (((((((EUn D2T (ELit (3 # 1))) *t (EMemT n_e)) *t (EMemT n_e)) *t (EMemT n_md)) *t (EMemT n_mh)) *t (EMemT n_mh)) /t (((((EUn D2T (ELit (4 # 1))) *t (EMemT n_MW)) *t (EMemT n_MW)) *t (EMemT n_SW)) *t (EMemT n_SW)));,
SMemT n_prehTU (((((EMemT n_e) *t (EMemT n_e)) *t (EMemT n_md)) *t (EMemT n_md)) /t (((((EUn D2T (ELit (4 # 1))) *t (EMemT n_MW)) *t (EMemT n_MW)) *t (EMemT n_SW)) *t (EMemT n_SW)))).
(** dhdh::set_momenta: SM/dhdh.cpp 59-79 *)
Definition dhdh_set_momenta : meth := mkMeth n_set_momenta [(n_mom1, PkMom); (n_mom2, PkMom); (n_mom3, PkMom); (n_mom4, PkMom)]
(SSetMomentum 0 n_mom1;,
SSetMomentum 1 n_mom2;,
SSetMomentum 2 n_mom3;,
SSetMomentum 3 n_mom4;,
SUpdate n_s13s;,
SUpdate n_a13a;,
SUpdate n_s123a;,
SUpdate n_s321a;,
SDeclT n_propPS 4;,
SDeclT n_propPT 4;,
SDeclT n_propPU 4;,
(SFor n_j (EInt 0) (EBin (CmpI CLt) (ELocI n_j) (EInt 4)) (EBin (OpI IAdd) (ELocI n_j) (EInt 1))
(SArrT n_propPS (AVar n_j) ((EArrT n_mom1 (AVar n_j)) +t (EArrT n_mom2 (AVar n_j)));,
SArrT n_propPT (AVar n_j) ((EArrT n_mom1 (AVar n_j)) -t (EArrT n_mom3 (AVar n_j)));,
SArrT n_propPU (AVar n_j) ((EArrT n_mom1 (AVar n_j)) -t (EArrT n_mom4 (AVar n_j)))));,
SMemC n_pDenTh (EDen n_proph n_propPT);,
SMemC n_pDenSd (EDen n_propd n_propPS);,
SMemC n_pDenUd (EDen n_propd n_propPU)).
(** dhdh::amp: SM/dhdh.cpp 84-110 *)
Definition dhdh_amp : meth := mkMeth n_amp [(n_ds1, PkI); (n_ds3, PkI)]
(SLoc rT n_two (EUn I2T (EInt 2));,
SLoc rC n_amplitude (EBin OpTTC (EUn I2T (EInt 0)) (EUn I2T (EInt 0)));,
SLoc rC n_amplitude ((ELocC n_amplitude) +c (((EMemT n_prehS) *tc ((EV n_s13s [(AVar n_ds1); (AVar n_ds3)]) -c (EV n_a13a [(AVar n_ds1); (AVar n_ds3)]))) /c (EMemC n_pDenTh)));,
SLoc rC n_amplitude ((ELocC n_amplitude) +c (((EMemT n_prehTU) *tc (((((ELocT n_two) *t (EMemT n_md)) *tc ((EV n_s13s [(AVar n_ds1); (AVar n_ds3)]) -c (EV n_a13a [(AVar n_ds1); (AVar n_ds3)]))) -c (EV n_s123a [(AVar n_ds1); (AVar n_ds3)])) +c (EV n_s321a [(AVar n_ds3); (AVar n_ds1)]))) /c (EMemC n_pDenSd)));,
SLoc rC n_amplitude ((ELocC n_amplitude) +c (((EMemT n_prehTU) *tc (((((ELocT n_two) *t (EMemT n_md)) *tc ((EV n_s13s [(AVar n_ds1); (AVar n_ds3)]) -c (EV n_a13a [(AVar n_ds1); (AVar n_ds3)]))) +c (EV n_s123a [(AVar n_ds1); (AVar n_ds3)])) -c (EV n_s321a [(AVar n_ds3); (AVar n_ds1)]))) /c (EMemC n_pDenUd)));,
SReturnC (ELocC n_amplitude)).
(** dhdh::amp2: SM/dhdh.cpp 113-126 *)
Definition dhdh_amp2 : meth := mkMeth n_amp2 []
(SLoc rT n_amp2 (EUn I2T (EInt 0));,
SDecl rC n_M;,
(SFor n_j1 (EUn NegI (EInt 1)) (EBin (CmpI CLe) (ELocI n_j1) (EInt 1)) (EBin (OpI IAdd) (ELocI n_j1) (EInt 2))
(SFor n_j3 (EUn NegI (EInt 1)) (EBin (CmpI CLe) (ELocI n_j3) (EInt 1)) (EBin (OpI IAdd) (ELocI n_j3) (EInt 2))
(SLoc rC n_M (ECall n_amp [(AVar n_j1); (AVar n_j3)]);,
SLoc rT n_amp2 ((ELocT n_amp2) +t ((EUn D2T (ELit (3 # 1))) *t (EUn Pow2T (EUn AbsC (ELocC n_M))))))));,
SReturnT ((ELocT n_amp2) /t (EUn D2T (ELit (6 # 1))))).
(** members: SM/include/dhdh.h 26-32; initialisers: SM/dhdh.cpp 32-40 *)
Definition dhdh : cls := mkCls "dhdh"
[(n_e, KT);
(n_md, KT);
(n_mh, KT);
(n_wh, KT);
(n_MW, KT);
(n_SW, KT);
(n_p1, (KPart 0));
(n_p2, (KPart 1));
(n_p3, (KPart 2));
(n_p4, (KPart 3));
(n_proph, KProp);
(n_propd, KProp);
(n_pDenTh, KC);
(n_pDenSd, KC);
(n_pDenUd, KC);
(n_s13s, KSprod);
(n_a13a, KSprod);
(n_s123a, KSprod);
(n_s321a, KSprod);
(n_prehS, KT);
(n_prehTU, KT)]
[n_echarge; n_massd; n_massh; n_widthh; n_massW; n_sinW]
[(n_e, NT (ELocT n_echarge));
(n_md, NT (ELocT n_massd));
(n_mh, NT (ELocT n_massh));
(n_wh, NT (ELocT n_widthh));
(n_MW, NT (ELocT n_massW));
(n_SW, NT (ELocT n_sinW));
(n_propd, NProp (EMemT n_md) (EUn I2T (EInt 0)));
(n_proph, NProp (EMemT n_mh) (EMemT n_wh));
(n_p1, NPart (EMemT n_md));
(n_p2, NPart (EMemT n_mh));
(n_p3, NPart (EMemT n_md));
(n_p4, NPart (EMemT n_mh));
(n_s13s, NSprod false 0 [] 2);
(n_a13a, NSprod true 0 [] 2);
(n_s123a, NSprod false 0 [1] 2);
(n_s321a, NSprod false 2 [1] 0)]
dhdh_ctor
[dhdh_set_masses; dhdh_set_momenta; dhdh_amp; dhdh_amp2].

Definition SM04_classes : list cls := [ddZZ; ddZh; dddd; dddd2; ddee; ddhh; ddnn; ddss; deed; dgdh; dggd; dhdh].
