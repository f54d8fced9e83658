(** Generated by tools/translate.py from SM/ZZZZ.cpp ... SM/ddWW.cpp.  Do not edit. *)
From Coq Require Import QArith String.
From Verif Require Import Base Scalar Particle Sproduct Lang SMSyntax SMNames.
Local Open Scope sm_scope.
Local Open Scope string_scope.

(** ZZZZ::ZZZZ: SM/ZZZZ.cpp 32-58 *)
Definition ZZZZ_ctor : stmt :=
(SLoc rT n_two (EUn I2T (EInt 2));,
SMemT n_sqrt2 (EUn SqrtT (ELocT n_two));,
SMemT n_CW (EUn SqrtT ((EUn D2T (ELit (1 # 1))) -t ((ELocT n_sinW) *t (ELocT n_sinW))));,
SMemT n_MZ ((EMemT n_MW) /t (EMemT n_CW));,
SPropNew n_proph (EMemT n_mh) (EMemT n_wh);,
SParticle 0 (EMemT n_MZ);,
SParticle 1 (EMemT n_MZ);,
SParticle 2 (EMemT n_MZ);,
SParticle 3 (EMemT n_MZ);,
SSprod n_s12s false 0 [] 1;,
SSprod n_a12a true 0 [] 1;,
SSprod n_s23s false 1 [] 2;,
SSprod n_a23a true 1 [] 2;,
SSprod n_s24s false 1 [] 3;,
SSprod n_a24a true 1 [] 3;,
SSprod n_s34s false 2 [] 3;,
SSprod n_a34a true 2 [] 3;,
SSprod n_s14s false 0 [] 3;,
SSprod n_a14a true 0 [] 3;,
SSprod n_s13s false 0 [] 2;,
SSprod n_a13a true 0 [] 2;,
SMemT n_pre (((EMemT n_e) *t (EMemT n_e)) /t ((((EMemT n_MW) *t (EMemT n_MW)) *t (EMemT n_SW)) *t (EMemT n_SW)))).
(** ZZZZ::set_masses: SM/ZZZZ.cpp 59-70 *)
Definition ZZZZ_set_masses : meth := mkMeth n_set_masses [(n_massh, PkT); (n_massW, PkT)]
(SMemT n_mh (ELocT n_massh);,
SMemT n_MW (ELocT n_massW);,
SMemT n_MZ ((EMemT n_MW) /t (EMemT n_CW));,
SSetMass 0 (EMemT n_MZ);,
SSetMass 1 (EMemT n_MZ);,
SSetMass 2 (EMemT n_MZ);,
SSetMass 3 (EMemT n_MZ);,
SPropMass n_proph (EMemT n_mh);,
SMemT n_pre (((EMemT n_e) *t (EMemT n_e)) /t ((((EMemT n_MW) *t (EMemT n_MW)) *t (EMemT n_SW)) *t (EMemT n_SW)))).
(** ZZZZ::set_momenta: SM/ZZZZ.cpp 71-100 *)
Definition ZZZZ_set_momenta : meth := mkMeth n_set_momenta [(n_mom1, PkMom); (n_mom2, PkMom); (n_mom3, PkMom); (n_mom4, PkMom)]
(SSetMomentum 0 n_mom1;,
SSetMomentum 1 n_mom2;,
SSetMomentum 2 n_mom3;,
SSetMomentum 3 n_mom4;,
SUpdate n_s12s;,
SUpdate n_a12a;,
SUpdate n_s23s;,
SUpdate n_a23a;,
SUpdate n_s24s;,
SUpdate n_a24a;,
SUpdate n_s34s;,
SUpdate n_a34a;,
SUpdate n_s14s;,
SUpdate n_a14a;,
SUpdate n_s13s;,
SUpdate n_a13a;,
SDeclT n_propSP 4;,
SDeclT n_propTP 4;,
SDeclT n_propUP 4;,
(SFor n_j (EInt 0) (EBin (CmpI CLt) (ELocI n_j) (EInt 4)) (EBin (OpI IAdd) (ELocI n_j) (EInt 1))
(SArrT n_propSP (AVar n_j) ((EArrT n_mom1 (AVar n_j)) +t (EArrT n_mom2 (AVar n_j)));,
SArrT n_propTP (AVar n_j) ((EArrT n_mom1 (AVar n_j)) -t (EArrT n_mom3 (AVar n_j)));,
SArrT n_propUP (AVar n_j) ((EArrT n_mom1 (AVar n_j)) -t (EArrT n_mom4 (AVar n_j)))));,
SMemC n_pDenS (EDen n_proph n_propSP);,
SMemC n_pDenT (EDen n_proph n_propTP);,
SMemC n_pDenU (EDen n_proph n_propUP)).
(** ZZZZ::amp: SM/ZZZZ.cpp 105-133 *)
Definition ZZZZ_amp : meth := mkMeth n_amp [(n_ds1, PkI); (n_ds2, PkI); (n_ds3, PkI); (n_ds4, PkI)]
(SLoc rC n_amplitude (EBin OpTTC (EUn I2T (EInt 0)) (EUn I2T (EInt 0)));,
SLoc rT n_one (EUn I2T (EInt 1));,
SDecl rI n_ds1a;,
SDecl rI n_ds1b;,
SDecl rI n_ds2a;,
SDecl rI n_ds2b;,
SDecl rI n_ds3a;,
SDecl rI n_ds3b;,
SDecl rI n_ds4a;,
SDecl rI n_ds4b;,
SLoc rI n_nCombs (ENLoops [(AVar n_ds1); (AVar n_ds2); (AVar n_ds3); (AVar n_ds4)]);,
SLoc rT n_normFactor (ENorm [(AVar n_ds1); (AVar n_ds2); (AVar n_ds3); (AVar n_ds4)]);,
(SFor n_i (EInt 0) (EBin (CmpI CLt) (ELocI n_i) (ELocI n_nCombs)) (EBin (OpI IAdd) (ELocI n_i) (EInt 1))
(SSpins [(n_ds1, n_ds1a, n_ds1b); (n_ds2, n_ds2a, n_ds2b); (n_ds3, n_ds3a, n_ds3b); (n_ds4, n_ds4a, n_ds4b)] (AVar n_i);,
SLoc rC n_amplitude ((ELocC n_amplitude) +c (((((((ELocT n_normFactor) *t (EMemT n_pre)) *tc (EV n_s12s [(AVar n_ds1a); (AVar n_ds2a)])) *c (EV n_a12a [(AVar n_ds1b); (AVar n_ds2b)])) *c (EV n_s34s [(AVar n_ds3a); (AVar n_ds4a)])) *c (EV n_a34a [(AVar n_ds3b); (AVar n_ds4b)])) /c (EMemC n_pDenS)));,
SLoc rC n_amplitude ((ELocC n_amplitude) +c (((((((ELocT n_normFactor) *t (EMemT n_pre)) *tc (EV n_s13s [(AVar n_ds1a); (AVar n_ds3a)])) *c (EV n_a13a [(AVar n_ds1b); (AVar n_ds3b)])) *c (EV n_s24s [(AVar n_ds2a); (AVar n_ds4a)])) *c (EV n_a24a [(AVar n_ds2b); (AVar n_ds4b)])) /c (EMemC n_pDenT)));,
SLoc rC n_amplitude ((ELocC n_amplitude) +c (((((((ELocT n_normFactor) *t (EMemT n_pre)) *tc (EV n_s14s [(AVar n_ds1a); (AVar n_ds4a)])) *c (EV n_a14a [(AVar n_ds1b); (AVar n_ds4b)])) *c (EV n_s23s [(AVar n_ds2a); (AVar n_ds3a)])) *c (EV n_a23a [(AVar n_ds2b); (AVar n_ds3b)])) /c (EMemC n_pDenU)))));,
SReturnC (ELocC n_amplitude)).
(** ZZZZ::amp2: SM/ZZZZ.cpp 136-151 *)
Definition ZZZZ_amp2 : meth := mkMeth n_amp2 []
(SLoc rT n_amp2 (EUn I2T (EInt 0));,
SDecl rC n_M;,
(SFor n_j1 (EUn NegI (EInt 2)) (EBin (CmpI CLe) (ELocI n_j1) (EInt 2)) (EBin (OpI IAdd) (ELocI n_j1) (EInt 2))
(SFor n_j2 (EUn NegI (EInt 2)) (EBin (CmpI CLe) (ELocI n_j2) (EInt 2)) (EBin (OpI IAdd) (ELocI n_j2) (EInt 2))
(SFor n_j3 (EUn NegI (EInt 2)) (EBin (CmpI CLe) (ELocI n_j3) (EInt 2)) (EBin (OpI IAdd) (ELocI n_j3) (EInt 2))
(SFor n_j4 (EUn NegI (EInt 2)) (EBin (CmpI CLe) (ELocI n_j4) (EInt 2)) (EBin (OpI IAdd) (ELocI n_j4) (EInt 2))
(SLoc rC n_M (ECall n_amp [(AVar n_j1); (AVar n_j2); (AVar n_j3); (AVar n_j4)]);,
SLoc rT n_amp2 ((ELocT n_amp2) +t (EUn Pow2T (EUn AbsC (ELocC n_M)))))))));,
SReturnT ((ELocT n_amp2) /t (EUn D2T (ELit (18 # 1))))).
(** members: SM/include/ZZZZ.h 26-34; initialisers: SM/ZZZZ.cpp 32-33 *)
Definition ZZZZ : cls := mkCls "ZZZZ"
[(n_e, KT);
(n_mh, KT);
(n_wh, KT);
(n_MW, KT);
(n_SW, KT);
(n_CW, KT);
(n_MZ, KT);
(n_p1, (KPart 0));
(n_p2, (KPart 1));
(n_p3, (KPart 2));
(n_p4, (KPart 3));
(n_proph, KProp);
(n_pDenS, KC);
(n_pDenT, KC);
(n_pDenU, KC);
(n_s12s, KSprod);
(n_a12a, KSprod);
(n_s24s, KSprod);
(n_a24a, KSprod);
(n_s23s, KSprod);
(n_a23a, KSprod);
(n_a34a, KSprod);
(n_s34s, KSprod);
(n_a14a, KSprod);
(n_s14s, KSprod);
(n_a13a, KSprod);
(n_s13s, KSprod);
(n_sqrt2, KT);
(n_pre, KT)]
[n_echarge; n_massh; n_widthh; n_massW; n_sinW]
[(n_e, NT (ELocT n_echarge));
(n_mh, NT (ELocT n_massh));
(n_wh, NT (ELocT n_widthh));
(n_MW, NT (ELocT n_massW));
(n_SW, NT (ELocT n_sinW));
(n_CW, NT (EUn SqrtT ((EUn D2T (ELit (1 # 1))) -t ((ELocT n_sinW) *t (ELocT n_sinW)))));
(n_MZ, NT ((ELocT n_massW) /t (EMemT n_CW)))]
ZZZZ_ctor
[ZZZZ_set_masses; ZZZZ_set_momenta; ZZZZ_amp; ZZZZ_amp2].

(** ZhWW::ZhWW: SM/ZhWW.cpp 32-66 *)
Definition ZhWW_ctor : stmt :=
(SLoc rT n_two (EUn I2T (EInt 2));,
SMemT n_sqrt2 (EUn SqrtT (ELocT n_two));,
SMemT n_CW (EUn SqrtT ((EUn D2T (ELit (1 # 1))) -t ((ELocT n_sinW) *t (ELocT n_sinW))));,
SMemT n_MZ ((EMemT n_MW) /t (EMemT n_CW));,
SPropNew n_propW (EMemT n_MW) (EMemT n_WW);,
SPropNew n_propZ (EMemT n_MZ) (EMemT n_WZ);,
SParticle 0 (EMemT n_MZ);,
SParticle 1 (EMemT n_mh);,
SParticle 2 (EMemT n_MW);,
SParticle 3 (EMemT n_MW);,
SSprod n_s34s false 2 [] 3;,
SSprod n_a34a true 2 [] 3;,
SSprod n_s14s false 0 [] 3;,
SSprod n_a14a true 0 [] 3;,
SSprod n_s13s false 0 [] 2;,
SSprod n_a13a true 0 [] 2;,
SSprod n_s131a false 0 [2] 0;,
SSprod n_s141a false 0 [3] 0;,
SSprod n_s431a false 3 [2] 0;,
SSprod n_s424a false 3 [1] 3;,
SSprod n_s341a false 2 [3] 0;,
SSprod n_s323a false 2 [1] 2;,
SSprod n_s123a false 0 [1] 2;,
SSprod n_s124a false 0 [1] 3;,
SSprod n_s321a false 2 [1] 0;,
SSprod n_s421a false 3 [1] 0;,
SMemT n_pre (((EMemT n_e) *t (EMemT n_e)) /t (((((EMemT n_sqrt2) *t (EMemT n_MW)) *t (EMemT n_MW)) *t (EMemT n_SW)) *t (EMemT n_SW)));,
SMemT n_preS (EMemT n_pre);,
SMemT n_preTU ((EMemT n_pre) /t ((EMemT n_MZ) *t (EMemT n_MZ)))).
(** ZhWW::set_masses: SM/ZhWW.cpp 67-80 *)
Definition ZhWW_set_masses : meth := mkMeth n_set_masses [(n_massh, PkT); (n_massW, PkT)]
(SMemT n_mh (ELocT n_massh);,
SMemT n_MW (ELocT n_massW);,
SMemT n_MZ ((EMemT n_MW) /t (EMemT n_CW));,
SSetMass 0 (EMemT n_MZ);,
SSetMass 1 (EMemT n_mh);,
SSetMass 2 (EMemT n_MW);,
SSetMass 3 (EMemT n_MW);,
SPropMass n_propW (EMemT n_MW);,
SMemT n_pre (((EMemT n_e) *t (EMemT n_e)) /t (((((EMemT n_sqrt2) *t (EMemT n_MW)) *t (EMemT n_MW)) *t (EMemT n_SW)) *t (EMemT n_SW)));,
SMemT n_preS (EMemT n_pre);,
SMemT n_preTU ((EMemT n_pre) /t ((EMemT n_MZ) *t (EMemT n_MZ)))).
(** ZhWW::set_momenta: SM/ZhWW.cpp 81-115 *)
Definition ZhWW_set_momenta : meth := mkMeth n_set_momenta [(n_mom1, PkMom); (n_mom2, PkMom); (n_mom3, PkMom); (n_mom4, PkMom)]
(SSetMomentum 0 n_mom1;,
SSetMomentum 1 n_mom2;,
SSetMomentum 2 n_mom3;,
SSetMomentum 3 n_mom4;,
SUpdate n_s34s;,
SUpdate n_a34a;,
SUpdate n_s14s;,
SUpdate n_a14a;,
SUpdate n_s13s;,
SUpdate n_a13a;,
SUpdate n_s131a;,
SUpdate n_s141a;,
SUpdate n_s431a;,
SUpdate n_s424a;,
SUpdate n_s341a;,
SUpdate n_s323a;,
SUpdate n_s123a;,
SUpdate n_s124a;,
SUpdate n_s321a;,
SUpdate n_s421a;,
SDeclT n_propSP 4;,
SDeclT n_propTP 4;,
SDeclT n_propUP 4;,
(SFor n_j (EInt 0) (EBin (CmpI CLt) (ELocI n_j) (EInt 4)) (EBin (OpI IAdd) (ELocI n_j) (EInt 1))
(SArrT n_propSP (AVar n_j) ((EArrT n_mom1 (AVar n_j)) +t (EArrT n_mom2 (AVar n_j)));,
SArrT n_propTP (AVar n_j) ((EArrT n_mom1 (AVar n_j)) -t (EArrT n_mom3 (AVar n_j)));,
SArrT n_propUP (AVar n_j) ((EArrT n_mom1 (AVar n_j)) -t (EArrT n_mom4 (AVar n_j)))));,
SMemC n_pDenS (EDen n_propZ n_propSP);,
SMemC n_pDenT (EDen n_propW n_propTP);,
SMemC n_pDenU (EDen n_propW n_propUP)).
(** ZhWW::amp: SM/ZhWW.cpp 120-174 *)
Definition ZhWW_amp : meth := mkMeth n_amp [(n_ds1, PkI); (n_ds3, PkI); (n_ds4, PkI)]
(SLoc rC n_amplitude (EBin OpTTC (EUn I2T (EInt 0)) (EUn I2T (EInt 0)));,
SLoc rT n_one (EUn I2T (EInt 1));,
SDecl rI n_ds1a;,
SDecl rI n_ds1b;,
SDecl rI n_ds3a;,
SDecl rI n_ds3b;,
SDecl rI n_ds4a;,
SDecl rI n_ds4b;,
SLoc rI n_nCombs (ENLoops [(AVar n_ds1); (AVar n_ds3); (AVar n_ds4)]);,
SLoc rT n_normFactor (ENorm [(AVar n_ds1); (AVar n_ds3); (AVar n_ds4)]);,
(SFor n_i (EInt 0) (EBin (CmpI CLt) (ELocI n_i) (ELocI n_nCombs)) (EBin (OpI IAdd) (ELocI n_i) (EInt 1))
(SSpins [(n_ds1, n_ds1a, n_ds1b); (n_ds3, n_ds3a, n_ds3b); (n_ds4, n_ds4a, n_ds4b)] (AVar n_i);,
SLoc rC n_amplitude ((ELocC n_amplitude) +c ((((ELocT n_normFactor) *t (EMemT n_preS)) *tc ((((EV n_s34s [(AVar n_ds3a); (AVar n_ds4a)]) *c (EV n_a34a [(AVar n_ds3b); (AVar n_ds4b)])) *c ((EV n_s131a [(AVar n_ds1a); (AVar n_ds1b)]) -c (EV n_s141a [(AVar n_ds1a); (AVar n_ds1b)]))) +c ((((EUn I2T (EInt 2)) *t (EMemT n_MW)) *tc (((EV n_s13s [(AVar n_ds1a); (AVar n_ds3a)]) *c (EV n_a14a [(AVar n_ds1b); (AVar n_ds4a)])) +c ((EV n_s14s [(AVar n_ds1a); (AVar n_ds4a)]) *c (EV n_a13a [(AVar n_ds1b); (AVar n_ds3a)])))) *c ((EV n_s34s [(AVar n_ds3b); (AVar n_ds4b)]) +c (EV n_a34a [(AVar n_ds3b); (AVar n_ds4b)]))))) /c (EMemC n_pDenS)));,
SLoc rC n_amplitude ((ELocC n_amplitude) +c ((((ELocT n_normFactor) *t (EMemT n_preTU)) *tc ((((((((((EUn D2T (ELit (2 # 1))) *t (EMemT n_MW)) *t (EMemT n_MW)) *tc (EV n_s13s [(AVar n_ds1a); (AVar n_ds3a)])) *c (EV n_a34a [(AVar n_ds3b); (AVar n_ds4a)])) *c (EV n_s431a [(AVar n_ds4b); (AVar n_ds1b)])) +c (((((EMemT n_MZ) *t (EMemT n_MZ)) *tc (EV n_s13s [(AVar n_ds1a); (AVar n_ds3a)])) *c (EV n_a13a [(AVar n_ds1b); (AVar n_ds3b)])) *c (EV n_s424a [(AVar n_ds4a); (AVar n_ds4b)]))) +c (((((((EUn D2T (ELit (2 # 1))) *t (EMemT n_MW)) *t (EMemT n_MW)) *t (EMemT n_MW)) *tc (EV n_s14s [(AVar n_ds1a); (AVar n_ds4a)])) *c (EV n_a13a [(AVar n_ds1b); (AVar n_ds3a)])) *c (EV n_a34a [(AVar n_ds3b); (AVar n_ds4b)]))) -c (((((((EUn D2T (ELit (2 # 1))) *t (EMemT n_MW)) *t (EMemT n_MW)) *t (EMemT n_MZ)) *tc (EV n_s13s [(AVar n_ds1a); (AVar n_ds3a)])) *c (EV n_s14s [(AVar n_ds1b); (AVar n_ds4a)])) *c (EV n_a34a [(AVar n_ds3b); (AVar n_ds4b)]))) -c (((((((EUn D2T (ELit (2 # 1))) *t (EMemT n_MW)) *t (EMemT n_MW)) *t (EMemT n_MZ)) *tc (EV n_a13a [(AVar n_ds1a); (AVar n_ds3a)])) *c (EV n_a14a [(AVar n_ds1b); (AVar n_ds4a)])) *c (EV n_s34s [(AVar n_ds3b); (AVar n_ds4b)])))) /c (EMemC n_pDenT)));,
SLoc rC n_amplitude ((ELocC n_amplitude) +c ((((ELocT n_normFactor) *t (EMemT n_preTU)) *tc ((((((((((EUn D2T (ELit (2 # 1))) *t (EMemT n_MW)) *t (EMemT n_MW)) *tc (EV n_s14s [(AVar n_ds1a); (AVar n_ds4a)])) *c (EV n_a34a [(AVar n_ds3a); (AVar n_ds4b)])) *c (EV n_s341a [(AVar n_ds3b); (AVar n_ds1b)])) -c (((((EMemT n_MZ) *t (EMemT n_MZ)) *tc (EV n_s14s [(AVar n_ds1a); (AVar n_ds4a)])) *c (EV n_a14a [(AVar n_ds1b); (AVar n_ds4b)])) *c (EV n_s323a [(AVar n_ds3a); (AVar n_ds3b)]))) +c (((((((EUn D2T (ELit (2 # 1))) *t (EMemT n_MW)) *t (EMemT n_MW)) *t (EMemT n_MW)) *tc (EV n_s13s [(AVar n_ds1a); (AVar n_ds3a)])) *c (EV n_a14a [(AVar n_ds1b); (AVar n_ds4a)])) *c (EV n_a34a [(AVar n_ds3b); (AVar n_ds4b)]))) -c (((((((EUn D2T (ELit (2 # 1))) *t (EMemT n_MW)) *t (EMemT n_MW)) *t (EMemT n_MZ)) *tc (EV n_s14s [(AVar n_ds1a); (AVar n_ds4a)])) *c (EV n_s13s [(AVar n_ds1b); (AVar n_ds3a)])) *c (EV n_a34a [(AVar n_ds3b); (AVar n_ds4b)]))) -c (((((((EUn D2T (ELit (2 # 1))) *t (EMemT n_MW)) *t (EMemT n_MW)) *t (EMemT n_MZ)) *tc (EV n_a14a [(AVar n_ds1a); (AVar n_ds4a)])) *c (EV n_a13a [(AVar n_ds1b); (AVar n_ds3a)])) *c (EV n_s34s [(AVar n_ds3b); (AVar n_ds4b)])))) /c (EMemC n_pDenU)))));,
SReturnC (ELocC n_amplitude)).
(** ZhWW::amp2: SM/ZhWW.cpp 177-190 *)
Definition ZhWW_amp2 : meth := mkMeth n_amp2 []
(SLoc rT n_amp2 (EUn I2T (EInt 0));,
SDecl rC n_M;,
(SFor n_j1 (EUn NegI (EInt 2)) (EBin (CmpI CLe) (ELocI n_j1) (EInt 2)) (EBin (OpI IAdd) (ELocI n_j1) (EInt 2))
(SFor n_j3 (EUn NegI (EInt 2)) (EBin (CmpI CLe) (ELocI n_j3) (EInt 2)) (EBin (OpI IAdd) (ELocI n_j3) (EInt 2))
(SFor n_j4 (EUn NegI (EInt 2)) (EBin (CmpI CLe) (ELocI n_j4) (EInt 2)) (EBin (OpI IAdd) (ELocI n_j4) (EInt 2))
(SLoc rC n_M (ECall n_amp [(AVar n_j1); (AVar n_j3); (AVar n_j4)]);,
SLoc rT n_amp2 ((ELocT n_amp2) +t (EUn Pow2T (EUn AbsC (ELocC n_M))))))));,
SReturnT ((ELocT n_amp2) /t (EUn D2T (ELit (3 # 1))))).
(** members: SM/include/ZhWW.h 26-36; initialisers: SM/ZhWW.cpp 32-33 *)
Definition ZhWW : cls := mkCls "ZhWW"
[(n_e, KT);
(n_mh, KT);
(n_MW, KT);
(n_MZ, KT);
(n_SW, KT);
(n_CW, KT);
(n_WW, KT);
(n_WZ, KT);
(n_p1, (KPart 0));
(n_p2, (KPart 1));
(n_p3, (KPart 2));
(n_p4, (KPart 3));
(n_propW, KProp);
(n_propZ, KProp);
(n_pDenS, KC);
(n_pDenT, KC);
(n_pDenU, KC);
(n_a34a, KSprod);
(n_s34s, KSprod);
(n_a14a, KSprod);
(n_s14s, KSprod);
(n_a13a, KSprod);
(n_s13s, KSprod);
(n_s131a, KSprod);
(n_s141a, KSprod);
(n_s431a, KSprod);
(n_s424a, KSprod);
(n_s341a, KSprod);
(n_s323a, KSprod);
(n_s123a, KSprod);
(n_s124a, KSprod);
(n_s321a, KSprod);
(n_s421a, KSprod);
(n_sqrt2, KT);
(n_pre, KT);
(n_preS, KT);
(n_preTU, KT)]
[n_echarge; n_massh; n_massW; n_sinW; n_widthW; n_widthZ]
[(n_e, NT (ELocT n_echarge));
(n_mh, NT (ELocT n_massh));
(n_MW, NT (ELocT n_massW));
(n_SW, NT (ELocT n_sinW));
(n_CW, NT (EUn SqrtT ((EUn D2T (ELit (1 # 1))) -t ((ELocT n_sinW) *t (ELocT n_sinW)))));
(n_WW, NT (ELocT n_widthW));
(n_WZ, NT (ELocT n_widthZ))]
ZhWW_ctor
[ZhWW_set_masses; ZhWW_set_momenta; ZhWW_amp; ZhWW_amp2].

(** ZnWe::ZnWe: SM/ZnWe.cpp 32-65 *)
Definition ZnWe_ctor : stmt :=
(SLoc rT n_one (EUn I2T (EInt 1));,
SLoc rT n_two (EUn I2T (EInt 2));,
SMemT n_CW (EUn SqrtT ((EUn I2T (EInt 1)) -t ((EMemT n_SW) *t (EMemT n_SW))));,
SMemT n_MZ ((EMemT n_MW) /t (EMemT n_CW));,
SPropNew n_propW (EMemT n_MW) (EMemT n_WW);,
SPropNew n_prope (EMemT n_me) (EUn I2T (EInt 0));,
SPropNew n_propne (EUn I2T (EInt 0)) (EUn I2T (EInt 0));,
SParticle 0 (EMemT n_MZ);,
SParticle 1 (EUn I2T (EInt 0));,
SParticle 2 (EMemT n_MW);,
SParticle 3 (EMemT n_me);,
SSprod n_a13a true 0 [] 2;,
SSprod n_s13s false 0 [] 2;,
SSprod n_a21a true 1 [] 0;,
SSprod n_s43s false 3 [] 2;,
SSprod n_a23a true 1 [] 2;,
SSprod n_s41s false 3 [] 0;,
SSprod n_a42a true 3 [] 1;,
SSprod n_s412a false 3 [0] 1;,
SSprod n_a41a true 3 [] 0;,
SSprod n_s341a false 2 [3] 0;,
SSprod n_s143a false 0 [3] 2;,
SMemT n_preW (((EMemT n_e) *t (EMemT n_e)) /t (((((((EUn D2T (EUn SqrtD (ELit (2 # 1)))) *t (EMemT n_MW)) *t (EMemT n_MW)) *t (EMemT n_MZ)) *t (EMemT n_MZ)) *t (EMemT n_SW)) *t (EMemT n_SW)));,
SMemT n_pree (((EMemT n_e) *t (EMemT n_e)) /t (((((EUn D2T (EUn SqrtD (ELit (2 # 1)))) *t (EMemT n_MW)) *t (EMemT n_MW)) *t (EMemT n_SW)) *t (EMemT n_SW)));,
SMemT n_pren (((EMemT n_e) *t (EMemT n_e)) /t (((((EUn D2T (EUn SqrtD (ELit (2 # 1)))) *t (EMemT n_MW)) *t (EMemT n_MW)) *t (EMemT n_SW)) *t (EMemT n_SW)));,
SMemT n_gL ((((ELocT n_two) *t (EMemT n_SW)) *t (EMemT n_SW)) -t (ELocT n_one));,
SMemT n_gR (((ELocT n_two) *t (EMemT n_SW)) *t (EMemT n_SW))).
(** ZnWe::set_masses: SM/ZnWe.cpp 66-80 *)
Definition ZnWe_set_masses : meth := mkMeth n_set_masses [(n_masse, PkT); (n_massW, PkT)]
(SLoc rT n_two (EUn I2T (EInt 2));,
SMemT n_me (ELocT n_masse);,
SMemT n_MW (ELocT n_massW);,
SMemT n_MZ ((EMemT n_MW) /t (EMemT n_CW));,
SSetMass 0 (EMemT n_MZ);,
SSetMass 2 (EMemT n_MW);,
SSetMass 3 (EMemT n_me);,
SPropMass n_propW (EMemT n_MW);,
SPropMass n_prope (EMemT n_me);,
SMemT n_preW (((EMemT n_e) *t (EMemT n_e)) /t (((((((EUn D2T (EUn SqrtD (ELit (2 # 1)))) *t (EMemT n_MW)) *t (EMemT n_MW)) *t (EMemT n_MZ)) *t (EMemT n_MZ)) *t (EMemT n_SW)) *t (EMemT n_SW)));,
SMemT n_pree (((EMemT n_e) *t (EMemT n_e)) /t (((((EUn D2T (EUn SqrtD (ELit (2 # 1)))) *t (EMemT n_MW)) *t (EMemT n_MW)) *t (EMemT n_SW)) *t (EMemT n_SW)));,
SMemT n_pren (((EMemT n_e) *t (EMemT n_e)) /t (((((EUn D2T (EUn SqrtD (ELit (2 # 1)))) *t (EMemT n_MW)) *t (EMemT n_MW)) *t (EMemT n_SW)) *t (EMemT n_SW)))).
(** ZnWe::set_momenta: SM/ZnWe.cpp 81-111 *)
Definition ZnWe_set_momenta : meth := mkMeth n_set_momenta [(n_mom1, PkMom); (n_mom2, PkMom); (n_mom3, PkMom); (n_mom4, PkMom)]
(SSetMomentum 0 n_mom1;,
SSetMomentum 1 n_mom2;,
SSetMomentum 2 n_mom3;,
SSetMomentum 3 n_mom4;,
SUpdate n_a13a;,
SUpdate n_s13s;,
SUpdate n_a21a;,
SUpdate n_s43s;,
SUpdate n_a23a;,
SUpdate n_s41s;,
SUpdate n_a42a;,
SUpdate n_s412a;,
SUpdate n_a41a;,
SUpdate n_s341a;,
SUpdate n_s143a;,
SDeclT n_propSP 4;,
SDeclT n_propTP 4;,
SDeclT n_propUP 4;,
(SFor n_j (EInt 0) (EBin (CmpI CLt) (ELocI n_j) (EInt 4)) (EBin (OpI IAdd) (ELocI n_j) (EInt 1))
(SArrT n_propSP (AVar n_j) ((EArrT n_mom1 (AVar n_j)) +t (EArrT n_mom2 (AVar n_j)));,
SArrT n_propTP (AVar n_j) ((EArrT n_mom1 (AVar n_j)) -t (EArrT n_mom3 (AVar n_j)));,
SArrT n_propUP (AVar n_j) ((EArrT n_mom1 (AVar n_j)) -t (EArrT n_mom4 (AVar n_j)))));,
SMemC n_pDenT (EDen n_propW n_propTP);,
SMemC n_pDenU (EDen n_prope n_propUP);,
SMemC n_pDenS (EDen n_propne n_propSP)).
(** ZnWe::amp: SM/ZnWe.cpp 116-173 *)
Definition ZnWe_amp : meth := mkMeth n_amp [(n_ds1, PkI); (n_ds3, PkI); (n_ds4, PkI)]
(SLoc rC n_amplitude (EBin OpTTC (EUn I2T (EInt 0)) (EUn I2T (EInt 0)));,
SDecl rI n_ds1a;,
SDecl rI n_ds1b;,
SDecl rI n_ds3a;,
SDecl rI n_ds3b;,
SLoc rT n_two (EUn I2T (EInt 2));,
SLoc rI n_nCombs (ENLoops [(AVar n_ds1); (AVar n_ds3)]);,
SLoc rT n_normFactor (ENorm [(AVar n_ds1); (AVar n_ds3)]);,
(SFor n_i (EInt 0) (EBin (CmpI CLt) (ELocI n_i) (ELocI n_nCombs)) (EBin (OpI IAdd) (ELocI n_i) (EInt 1))
(SSpins [(n_ds1, n_ds1a, n_ds1b); (n_ds3, n_ds3a, n_ds3b)] (AVar n_i);,
SLoc rC n_amplitude ((ELocC n_amplitude) +c ((((EUn NegT (ELocT n_normFactor)) *t (EMemT n_preW)) *tc ((((((((ELocT n_two) *tc (((EUn NegT (EMemT n_MZ)) *tc (EV n_a13a [(AVar n_ds1b); (AVar n_ds3a)])) +c ((EMemT n_MW) *tc (EV n_s13s [(AVar n_ds1b); (AVar n_ds3a)])))) *ct (EMemT n_MW)) *ct (EMemT n_MW)) *c (EV n_a21a [(AVar n_ds1a)])) *c (EV n_s43s [(AVar n_ds4); (AVar n_ds3b)])) +c ((((((ELocT n_two) *tc (((EMemT n_MW) *tc (EV n_a13a [(AVar n_ds1a); (AVar n_ds3b)])) -c ((EMemT n_MZ) *tc (EV n_s13s [(AVar n_ds1a); (AVar n_ds3b)])))) *ct (EMemT n_MW)) *ct (EMemT n_MW)) *c (EV n_a23a [(AVar n_ds3a)])) *c (EV n_s41s [(AVar n_ds4); (AVar n_ds1b)]))) +c ((((((((EUn NegT (EMemT n_MZ)) *t (EMemT n_MZ)) +t (((ELocT n_two) *t (EMemT n_MW)) *t (EMemT n_MW))) *t (EMemT n_me)) *tc (EV n_a42a [(AVar n_ds4)])) -c ((((ELocT n_two) *t (EMemT n_MW)) *t (EMemT n_MW)) *tc (EV n_s412a [(AVar n_ds4)]))) *c (EV n_a13a [(AVar n_ds1a); (AVar n_ds3a)])) *c (EV n_s13s [(AVar n_ds1b); (AVar n_ds3b)])))) /c (EMemC n_pDenT)));,
SLoc rC n_amplitude ((ELocC n_amplitude) +c (((((EUn NegT (ELocT n_normFactor)) *t (EMemT n_pree)) *tc (EV n_a23a [(AVar n_ds3a)])) *c (((((EUn NegT (EMemT n_gR)) *t (EMemT n_me)) *tc (EV n_a41a [(AVar n_ds4); (AVar n_ds1b)])) *c (EV n_s13s [(AVar n_ds1a); (AVar n_ds3b)])) +c (((EMemT n_gL) *tc (((EMemT n_MZ) *tc (EV n_s13s [(AVar n_ds1b); (AVar n_ds3b)])) -c (EV n_s341a [(AVar n_ds3b); (AVar n_ds1b)]))) *c (EV n_s41s [(AVar n_ds4); (AVar n_ds1a)])))) /c (EMemC n_pDenU)));,
SLoc rC n_amplitude ((ELocC n_amplitude) +c ((((((EUn NegT (ELocT n_normFactor)) *t (EMemT n_pren)) *tc (EV n_a21a [(AVar n_ds1a)])) *c (EV n_s43s [(AVar n_ds4); (AVar n_ds3a)])) *c (((EMemT n_MW) *tc (EV n_s13s [(AVar n_ds1b); (AVar n_ds3b)])) -c (EV n_s143a [(AVar n_ds1b); (AVar n_ds3b)]))) /c (EMemC n_pDenS)))));,
SReturnC (ELocC n_amplitude)).
(** ZnWe::amp2: SM/ZnWe.cpp 176-189 *)
Definition ZnWe_amp2 : meth := mkMeth n_amp2 []
(SLoc rT n_amp2 (EUn I2T (EInt 0));,
SDecl rC n_M;,
(SFor n_j1 (EUn NegI (EInt 2)) (EBin (CmpI CLe) (ELocI n_j1) (EInt 2)) (EBin (OpI IAdd) (ELocI n_j1) (EInt 2))
(SFor n_j3 (EUn NegI (EInt 2)) (EBin (CmpI CLe) (ELocI n_j3) (EInt 2)) (EBin (OpI IAdd) (ELocI n_j3) (EInt 2))
(SFor n_j4 (EUn NegI (EInt 1)) (EBin (CmpI CLe) (ELocI n_j4) (EInt 1)) (EBin (OpI IAdd) (ELocI n_j4) (EInt 2))
(SLoc rC n_M (ECall n_amp [(AVar n_j1); (AVar n_j3); (AVar n_j4)]);,
SLoc rT n_amp2 ((ELocT n_amp2) +t (EUn Pow2T (EUn AbsC (ELocC n_M))))))));,
SReturnT ((ELocT n_amp2) /t (EUn D2T (ELit (3 # 1))))).
(** members: SM/include/ZnWe.h 26-37; initialisers: SM/ZnWe.cpp 32-33 *)
Definition ZnWe : cls := mkCls "ZnWe"
[(n_e, KT);
(n_me, KT);
(n_MW, KT);
(n_MZ, KT);
(n_SW, KT);
(n_CW, KT);
(n_WW, KT);
(n_preW, KT);
(n_pree, KT);
(n_pren, KT);
(n_gL, KT);
(n_gR, KT);
(n_p1, (KPart 0));
(n_p2, (KPart 1));
(n_p3, (KPart 2));
(n_p4, (KPart 3));
(n_propW, KProp);
(n_prope, KProp);
(n_propne, KProp);
(n_pDenS, KC);
(n_pDenT, KC);
(n_pDenU, KC);
(n_a13a, KSprod);
(n_s13s, KSprod);
(n_a21a, KSprod);
(n_s43s, KSprod);
(n_a23a, KSprod);
(n_s41s, KSprod);
(n_a42a, KSprod);
(n_s412a, KSprod);
(n_a41a, KSprod);
(n_s341a, KSprod);
(n_s143a, KSprod)]
[n_echarge; n_masse; n_massW; n_sinW; n_widthW]
[(n_e, NT (ELocT n_echarge));
(n_me, NT (ELocT n_masse));
(n_MW, NT (ELocT n_massW));
(n_SW, NT (ELocT n_sinW));
(n_WW, NT (ELocT n_widthW))]
ZnWe_ctor
[ZnWe_set_masses; ZnWe_set_momenta; ZnWe_amp; ZnWe_amp2].

(** dAAd::dAAd: SM/dAAd.cpp 32-54 *)
Definition dAAd_ctor : stmt :=
(SLoc rT n_two (EUn I2T (EInt 2));,
SMemT n_sqrt2 (EUn SqrtT (ELocT n_two));,
SParticle 0 (EMemT n_md);,
SParticle 1 (EUn I2T (EInt 0));,
SParticle 2 (EUn I2T (EInt 0));,
SParticle 3 (EMemT n_md);,
SSprod n_s34s false 2 [] 3;,
SSprod n_a34a true 2 [] 3;,
SSprod n_s12s false 0 [] 1;,
SSprod n_a12a true 0 [] 1;,
SSprod n_s13s false 0 [] 2;,
SSprod n_a13a true 0 [] 2;,
SSprod n_s24s false 1 [] 3;,
SSprod n_a24a true 1 [] 3;,
SSprod n_s23s false 1 [] 2;,
SSprod n_a23a true 1 [] 2;,
SSprod n_s14s false 0 [] 3;,
SSprod n_a14a true 0 [] 3;,
SSprod n_s342a false 2 [3] 1;,
SSprod n_s243a false 1 [3] 2).
(** dAAd::set_masses: SM/dAAd.cpp 55-60 *)
Definition dAAd_set_masses : meth := mkMeth n_set_masses [(n_massd, PkT)]
(SMemT n_md (ELocT n_massd);,
SSetMass 0 (EMemT n_md);,
SSetMass 3 (EMemT n_md);,
SPropMass n_prop (EMemT n_md)).
(** dAAd::set_momenta: SM/dAAd.cpp 61-90 *)
Definition dAAd_set_momenta : meth := mkMeth n_set_momenta [(n_mom1, PkMom); (n_mom2, PkMom); (n_mom3, PkMom); (n_mom4, PkMom)]
(SSetMomentum 0 n_mom1;,
SSetMomentum 1 n_mom2;,
SSetMomentum 2 n_mom3;,
SSetMomentum 3 n_mom4;,
SUpdate n_s34s;,
SUpdate n_a34a;,
SUpdate n_s12s;,
SUpdate n_a12a;,
SUpdate n_s13s;,
SUpdate n_a13a;,
SUpdate n_s24s;,
SUpdate n_a24a;,
SUpdate n_s23s;,
SUpdate n_a23a;,
SUpdate n_s14s;,
SUpdate n_a14a;,
SUpdate n_s342a;,
SUpdate n_s243a;,
SDeclT n_propTP 4;,
SDeclT n_propSP 4;,
(SFor n_j (EInt 0) (EBin (CmpI CLt) (ELocI n_j) (EInt 4)) (EBin (OpI IAdd) (ELocI n_j) (EInt 1))
(SArrT n_propTP (AVar n_j) ((EArrT n_mom1 (AVar n_j)) -t (EArrT n_mom3 (AVar n_j)));,
SArrT n_propSP (AVar n_j) ((EArrT n_mom1 (AVar n_j)) +t (EArrT n_mom2 (AVar n_j)))));,
SMemC n_pDenT (EDen n_prop n_propTP);,
SMemC n_pDenS (EDen n_prop n_propSP)).
(** dAAd::amp: SM/dAAd.cpp 97-123 *)
Definition dAAd_amp : meth := mkMeth n_amp [(n_ds1, PkI); (n_ds2, PkI); (n_ds3, PkI); (n_ds4, PkI)]
((SIf (EAnd (EBin (CmpI CGt) (ELocI n_ds3) (EInt 0)) (EBin (CmpI CGt) (ELocI n_ds2) (EInt 0)))
(SReturnC (((((((((((EUn D2T (ELit (2 # 1))) *t (EMemT n_e)) *t (EMemT n_e)) *t (EMemT n_Qd)) *t (EMemT n_Qd)) *t (EMemT n_md)) *tc (EV n_s23s [])) *c (EV n_s23s [])) *c (EV n_a14a [(AVar n_ds1); (AVar n_ds4)])) /c (EMemC n_pDenS)) /c (EMemC n_pDenT)))
((SIf (EAnd (EBin (CmpI CLt) (ELocI n_ds3) (EInt 0)) (EBin (CmpI CLt) (ELocI n_ds2) (EInt 0)))
(SReturnC (((((((((((EUn D2T (EUn NegD (ELit (2 # 1)))) *t (EMemT n_e)) *t (EMemT n_e)) *t (EMemT n_Qd)) *t (EMemT n_Qd)) *t (EMemT n_md)) *tc (EV n_a23a [])) *c (EV n_a23a [])) *c (EV n_s14s [(AVar n_ds1); (AVar n_ds4)])) /c (EMemC n_pDenS)) /c (EMemC n_pDenT)))
((SIf (EAnd (EBin (CmpI CGt) (ELocI n_ds3) (EInt 0)) (EBin (CmpI CLt) (ELocI n_ds2) (EInt 0)))
(SReturnC (((((((((EUn D2T (EUn NegD (ELit (2 # 1)))) *t (EMemT n_e)) *t (EMemT n_e)) *t (EMemT n_Qd)) *t (EMemT n_Qd)) *tc (((EV n_s34s [(AVar n_ds4)]) *c (EV n_a12a [(AVar n_ds1)])) -c ((EV n_s13s [(AVar n_ds1)]) *c (EV n_a24a [(AVar n_ds4)])))) *c (EV n_s342a [])) /c (EMemC n_pDenS)) /c (EMemC n_pDenT)))
((SIf (EAnd (EBin (CmpI CLt) (ELocI n_ds3) (EInt 0)) (EBin (CmpI CGt) (ELocI n_ds2) (EInt 0)))
(SReturnC (((((((((EUn D2T (EUn NegD (ELit (2 # 1)))) *t (EMemT n_e)) *t (EMemT n_e)) *t (EMemT n_Qd)) *t (EMemT n_Qd)) *tc (((EV n_a34a [(AVar n_ds4)]) *c (EV n_s12s [(AVar n_ds1)])) -c ((EV n_a13a [(AVar n_ds1)]) *c (EV n_s24s [(AVar n_ds4)])))) *c (EV n_s243a [])) /c (EMemC n_pDenS)) /c (EMemC n_pDenT)))
(SSkip))))))));,
SReturnC (EBin OpTTC (EUn I2T (EInt 0)) (EUn I2T (EInt 0)))).
(** dAAd::amp2: SM/dAAd.cpp 127-142 *)
Definition dAAd_amp2 : meth := mkMeth n_amp2 []
(SLoc rT n_amp2 (EUn I2T (EInt 0));,
SDecl rC n_M;,
(SFor n_j1 (EUn NegI (EInt 1)) (EBin (CmpI CLe) (ELocI n_j1) (EInt 1)) (EBin (OpI IAdd) (ELocI n_j1) (EInt 2))
(SFor n_j2 (EUn NegI (EInt 2)) (EBin (CmpI CLe) (ELocI n_j2) (EInt 2)) (EBin (OpI IAdd) (ELocI n_j2) (EInt 4))
(SFor n_j3 (EUn NegI (EInt 2)) (EBin (CmpI CLe) (ELocI n_j3) (EInt 2)) (EBin (OpI IAdd) (ELocI n_j3) (EInt 4))
(SFor n_j4 (EUn NegI (EInt 1)) (EBin (CmpI CLe) (ELocI n_j4) (EInt 1)) (EBin (OpI IAdd) (ELocI n_j4) (EInt 2))
(SLoc rC n_M (ECall n_amp [(AVar n_j1); (AVar n_j2); (AVar n_j3); (AVar n_j4)]);,
SLoc rT n_amp2 ((ELocT n_amp2) +t ((EUn D2T (ELit (3 # 1))) *t (EUn Pow2T (EUn AbsC (ELocC n_M))))))))));,
SReturnT ((ELocT n_amp2) /t (EUn D2T (ELit (12 # 1))))).
(** dAAd::amp2_Aplus: SM/dAAd.cpp 145-159 *)
Definition dAAd_amp2_Aplus : meth := mkMeth n_amp2_Aplus []
(SLoc rT n_amp2 (EUn I2T (EInt 0));,
SDecl rC n_M;,
(SFor n_j1 (EUn NegI (EInt 1)) (EBin (CmpI CLe) (ELocI n_j1) (EInt 1)) (EBin (OpI IAdd) (ELocI n_j1) (EInt 2))
(SFor n_j3 (EUn NegI (EInt 2)) (EBin (CmpI CLe) (ELocI n_j3) (EInt 2)) (EBin (OpI IAdd) (ELocI n_j3) (EInt 4))
(SFor n_j4 (EUn NegI (EInt 1)) (EBin (CmpI CLe) (ELocI n_j4) (EInt 1)) (EBin (OpI IAdd) (ELocI n_j4) (EInt 2))
(SLoc rC n_M (ECall n_amp [(AVar n_j1); (ALit 2); (AVar n_j3); (AVar n_j4)]);,
SLoc rT n_amp2 ((ELocT n_amp2) +t ((EUn D2T (ELit (3 # 1))) *t (EUn Pow2T (EUn AbsC (ELocC n_M)))))))));,
SReturnT ((ELocT n_amp2) /t (EUn D2T (ELit (6 # 1))))).
(** dAAd::amp2_Aminus: SM/dAAd.cpp 162-176 *)
Definition dAAd_amp2_Aminus : meth := mkMeth n_amp2_Aminus []
(SLoc rT n_amp2 (EUn I2T (EInt 0));,
SDecl rC n_M;,
(SFor n_j1 (EUn NegI (EInt 1)) (EBin (CmpI CLe) (ELocI n_j1) (EInt 1)) (EBin (OpI IAdd) (ELocI n_j1) (EInt 2))
(SFor n_j3 (EUn NegI (EInt 2)) (EBin (CmpI CLe) (ELocI n_j3) (EInt 2)) (EBin (OpI IAdd) (ELocI n_j3) (EInt 4))
(SFor n_j4 (EUn NegI (EInt 1)) (EBin (CmpI CLe) (ELocI n_j4) (EInt 1)) (EBin (OpI IAdd) (ELocI n_j4) (EInt 2))
(SLoc rC n_M (ECall n_amp [(AVar n_j1); (ALit (-2)); (AVar n_j3); (AVar n_j4)]);,
SLoc rT n_amp2 ((ELocT n_amp2) +t ((EUn D2T (ELit (3 # 1))) *t (EUn Pow2T (EUn AbsC (ELocC n_M)))))))));,
SReturnT ((ELocT n_amp2) /t (EUn D2T (ELit (6 # 1))))).
(** members: SM/include/dAAd.h 26-32; initialisers: SM/dAAd.cpp 32-33 *)
Definition dAAd : cls := mkCls "dAAd"
[(n_e, KT);
(n_Qd, KT);
(n_md, KT);
(n_p1, (KPart 0));
(n_p2, (KPart 1));
(n_p3, (KPart 2));
(n_p4, (KPart 3));
(n_prop, KProp);
(n_pDenT, KC);
(n_pDenS, KC);
(n_s34s, KSprod);
(n_a34a, KSprod);
(n_s12s, KSprod);
(n_a12a, KSprod);
(n_s13s, KSprod);
(n_a13a, KSprod);
(n_s24s, KSprod);
(n_a24a, KSprod);
(n_s23s, KSprod);
(n_a23a, KSprod);
(n_s14s, KSprod);
(n_a14a, KSprod);
(n_s342a, KSprod);
(n_s243a, KSprod);
(n_sqrt2, KT)]
[n_echarge; n_massd]
[(n_e, NT (ELocT n_echarge));
(n_Qd, NT (EUn D2T ((EUn NegD (ELit (1 # 1))) /d (ELit (3 # 1)))));
(n_md, NT (ELocT n_massd));
(n_prop, NProp (ELocT n_massd) (EUn I2T (EInt 0)))]
dAAd_ctor
[dAAd_set_masses; dAAd_set_momenta; dAAd_amp; dAAd_amp2; dAAd_amp2_Aplus; dAAd_amp2_Aminus].

(** dAdh::dAdh: SM/dAdh.cpp 32-53 *)
Definition dAdh_ctor : stmt :=
(SLoc rT n_two (EUn I2T (EInt 2));,
SMemT n_sqrt2 (EUn SqrtT (ELocT n_two));,
SParticle 0 (EMemT n_md);,
SParticle 1 (EUn I2T (EInt 0));,
SParticle 2 (EMemT n_md);,
SParticle 3 (EMemT n_mh);,
SSprod n_s12s false 0 [] 1;,
SSprod n_a12a true 0 [] 1;,
SSprod n_s23s false 1 [] 2;,
SSprod n_a23a true 1 [] 2;,
SSprod n_s13s false 0 [] 2;,
SSprod n_a13a true 0 [] 2;,
SSprod n_s243a false 1 [3] 2;,
SSprod n_a243s true 1 [3] 2;,
SSprod n_s241a false 1 [3] 0;,
SSprod n_a241s true 1 [3] 0;,
SSprod n_s2342s false 1 [2; 3] 1;,
SSprod n_a2342a true 1 [2; 3] 1;,
SMemT n_pre ((((((EMemT n_sqrt2) *t (EMemT n_e)) *t (EMemT n_e)) *t (EMemT n_Qd)) *t (EMemT n_md)) /t (((EUn D2T (ELit (2 # 1))) *t (EMemT n_MW)) *t (EMemT n_SW)))).
(** dAdh::set_masses: SM/dAdh.cpp 54-62 *)
Definition dAdh_set_masses : meth := mkMeth n_set_masses [(n_massd, PkT); (n_massh, PkT); (n_massW, PkT)]
(SMemT n_md (ELocT n_massd);,
SMemT n_mh (ELocT n_massh);,
SSetMass 0 (EMemT n_md);,
SSetMass 2 (EMemT n_md);,
SSetMass 3 (EMemT n_mh);,
SPropMass n_prop (EMemT n_md);,
SMemT n_pre ((((((EMemT n_sqrt2) *t (EMemT n_e)) *t (EMemT n_e)) *t (EMemT n_Qd)) *t (EMemT n_md)) /t (((EUn D2T (ELit (2 # 1))) *t (EMemT n_MW)) *t (EMemT n_SW)))).
(** dAdh::set_momenta: SM/dAdh.cpp 63-89 *)
Definition dAdh_set_momenta : meth := mkMeth n_set_momenta [(n_mom1, PkMom); (n_mom2, PkMom); (n_mom3, PkMom); (n_mom4, PkMom)]
(SSetMomentum 0 n_mom1;,
SSetMomentum 1 n_mom2;,
SSetMomentum 2 n_mom3;,
SSetMomentum 3 n_mom4;,
SUpdate n_s12s;,
SUpdate n_a12a;,
SUpdate n_s23s;,
SUpdate n_a23a;,
SUpdate n_s13s;,
SUpdate n_a13a;,
SUpdate n_s243a;,
SUpdate n_a243s;,
SUpdate n_s241a;,
SUpdate n_a241s;,
SUpdate n_s2342s;,
SUpdate n_a2342a;,
SDeclT n_propSP 4;,
SDeclT n_propUP 4;,
(SFor n_j (EInt 0) (EBin (CmpI CLt) (ELocI n_j) (EInt 4)) (EBin (OpI IAdd) (ELocI n_j) (EInt 1))
(SArrT n_propSP (AVar n_j) ((EArrT n_mom1 (AVar n_j)) +t (EArrT n_mom2 (AVar n_j)));,
SArrT n_propUP (AVar n_j) ((EArrT n_mom1 (AVar n_j)) -t (EArrT n_mom4 (AVar n_j)))));,
SMemC n_pDenS (EDen n_prop n_propSP);,
SMemC n_pDenU (EDen n_prop n_propUP)).
(** dAdh::amp: SM/dAdh.cpp 94-108 *)
Definition dAdh_amp : meth := mkMeth n_amp [(n_ds1, PkI); (n_ds2, PkI); (n_ds3, PkI)]
((SIf (EBin (CmpI CGt) (ELocI n_ds2) (EInt 0))
(SReturnC ((((EMemT n_pre) *tc (((((((EMemT n_mh) *t (EMemT n_mh)) *tc (EV n_s12s [(AVar n_ds1)])) *c (EV n_s23s [(AVar n_ds3)])) -c (((EMemT n_md) *tc (EV n_s12s [(AVar n_ds1)])) *c (EV n_s243a [(AVar n_ds3)]))) -c (((EMemT n_md) *tc (EV n_s23s [(AVar n_ds3)])) *c (EV n_s241a [(AVar n_ds1)]))) +c ((EV n_a13a [(AVar n_ds1); (AVar n_ds3)]) *c (EV n_s2342s [])))) /c (EMemC n_pDenS)) /c (EMemC n_pDenU)))
((SIf (EBin (CmpI CLt) (ELocI n_ds2) (EInt 0))
(SReturnC ((((EMemT n_pre) *tc (((((((EUn NegT (EMemT n_mh)) *t (EMemT n_mh)) *tc (EV n_a12a [(AVar n_ds1)])) *c (EV n_a23a [(AVar n_ds3)])) +c (((EMemT n_md) *tc (EV n_a12a [(AVar n_ds1)])) *c (EV n_a243s [(AVar n_ds3)]))) +c (((EMemT n_md) *tc (EV n_a23a [(AVar n_ds3)])) *c (EV n_a241s [(AVar n_ds1)]))) -c ((EV n_s13s [(AVar n_ds1); (AVar n_ds3)]) *c (EV n_a2342a [])))) /c (EMemC n_pDenS)) /c (EMemC n_pDenU)))
(SSkip))));,
SReturnC (EBin OpTTC (EUn I2T (EInt 0)) (EUn I2T (EInt 0)))).
(** dAdh::amp2: SM/dAdh.cpp 111-125 *)
Definition dAdh_amp2 : meth := mkMeth n_amp2 []
(SLoc rT n_amp2 (EUn I2T (EInt 0));,
SDecl rC n_M;,
(SFor n_j1 (EUn NegI (EInt 1)) (EBin (CmpI CLe) (ELocI n_j1) (EInt 1)) (EBin (OpI IAdd) (ELocI n_j1) (EInt 2))
(SFor n_j2 (EUn NegI (EInt 2)) (EBin (CmpI CLe) (ELocI n_j2) (EInt 2)) (EBin (OpI IAdd) (ELocI n_j2) (EInt 4))
(SFor n_j3 (EUn NegI (EInt 1)) (EBin (CmpI CLe) (ELocI n_j3) (EInt 1)) (EBin (OpI IAdd) (ELocI n_j3) (EInt 2))
(SLoc rC n_M (ECall n_amp [(AVar n_j1); (AVar n_j2); (AVar n_j3)]);,
SLoc rT n_amp2 ((ELocT n_amp2) +t ((EUn D2T (ELit (3 # 1))) *t (EUn Pow2T (EUn AbsC (ELocC n_M)))))))));,
SReturnT ((ELocT n_amp2) /t (EUn D2T (ELit (12 # 1))))).
(** dAdh::amp2_Aplus: SM/dAdh.cpp 129-142 *)
Definition dAdh_amp2_Aplus : meth := mkMeth n_amp2_Aplus []
(SLoc rT n_amp2 (EUn I2T (EInt 0));,
SDecl rC n_M;,
(SFor n_j1 (EUn NegI (EInt 1)) (EBin (CmpI CLe) (ELocI n_j1) (EInt 1)) (EBin (OpI IAdd) (ELocI n_j1) (EInt 2))
(SFor n_j3 (EUn NegI (EInt 1)) (EBin (CmpI CLe) (ELocI n_j3) (EInt 1)) (EBin (OpI IAdd) (ELocI n_j3) (EInt 2))
(SLoc rC n_M (ECall n_amp [(AVar n_j1); (ALit 2); (AVar n_j3)]);,
SLoc rT n_amp2 ((ELocT n_amp2) +t ((EUn D2T (ELit (3 # 1))) *t (EUn Pow2T (EUn AbsC (ELocC n_M))))))));,
SReturnT ((ELocT n_amp2) /t (EUn D2T (ELit (6 # 1))))).
(** members: SM/include/dAdh.h 26-33; initialisers: SM/dAdh.cpp 32-33 *)
Definition dAdh : cls := mkCls "dAdh"
[(n_e, KT);
(n_Qd, KT);
(n_md, KT);
(n_mh, KT);
(n_MW, KT);
(n_SW, KT);
(n_pre, KT);
(n_p1, (KPart 0));
(n_p2, (KPart 1));
(n_p3, (KPart 2));
(n_p4, (KPart 3));
(n_prop, KProp);
(n_pDenS, KC);
(n_pDenU, KC);
(n_s12s, KSprod);
(n_a12a, KSprod);
(n_s23s, KSprod);
(n_a23a, KSprod);
(n_s13s, KSprod);
(n_a13a, KSprod);
(n_s243a, KSprod);
(n_a243s, KSprod);
(n_s241a, KSprod);
(n_a241s, KSprod);
(n_s2342s, KSprod);
(n_a2342a, KSprod);
(n_sqrt2, KT)]
[n_echarge; n_massd; n_massh; n_massW; n_sinW]
[(n_e, NT (ELocT n_echarge));
(n_Qd, NT (EUn D2T ((EUn NegD (ELit (1 # 1))) /d (ELit (3 # 1)))));
(n_md, NT (ELocT n_massd));
(n_mh, NT (ELocT n_massh));
(n_prop, NProp (ELocT n_massd) (EUn I2T (EInt 0)));
(n_MW, NT (ELocT n_massW));
(n_SW, NT (ELocT n_sinW))]
dAdh_ctor
[dAdh_set_masses; dAdh_set_momenta; dAdh_amp; dAdh_amp2; dAdh_amp2_Aplus].

(** dAgd::dAgd: SM/dAgd.cpp 32-54 *)
Definition dAgd_ctor : stmt :=
(SLoc rT n_two (EUn I2T (EInt 2));,
SMemT n_sqrt2 (EUn SqrtT (ELocT n_two));,
SParticle 0 (EMemT n_md);,
SParticle 1 (EUn I2T (EInt 0));,
SParticle 2 (EUn I2T (EInt 0));,
SParticle 3 (EMemT n_md);,
SSprod n_s34s false 2 [] 3;,
SSprod n_a34a true 2 [] 3;,
SSprod n_s12s false 0 [] 1;,
SSprod n_a12a true 0 [] 1;,
SSprod n_s13s false 0 [] 2;,
SSprod n_a13a true 0 [] 2;,
SSprod n_s24s false 1 [] 3;,
SSprod n_a24a true 1 [] 3;,
SSprod n_s23s false 1 [] 2;,
SSprod n_a23a true 1 [] 2;,
SSprod n_s14s false 0 [] 3;,
SSprod n_a14a true 0 [] 3;,
SSprod n_s342a false 2 [3] 1;,
SSprod n_s243a false 1 [3] 2).
(** dAgd::set_masses: SM/dAgd.cpp 55-60 *)
Definition dAgd_set_masses : meth := mkMeth n_set_masses [(n_massd, PkT)]
(SMemT n_md (ELocT n_massd);,
SSetMass 0 (EMemT n_md);,
SSetMass 3 (EMemT n_md);,
SPropMass n_prop (EMemT n_md)).
(** dAgd::set_momenta: SM/dAgd.cpp 61-90 *)
Definition dAgd_set_momenta : meth := mkMeth n_set_momenta [(n_mom1, PkMom); (n_mom2, PkMom); (n_mom3, PkMom); (n_mom4, PkMom)]
(SSetMomentum 0 n_mom1;,
SSetMomentum 1 n_mom2;,
SSetMomentum 2 n_mom3;,
SSetMomentum 3 n_mom4;,
SUpdate n_s34s;,
SUpdate n_a34a;,
SUpdate n_s12s;,
SUpdate n_a12a;,
SUpdate n_s13s;,
SUpdate n_a13a;,
SUpdate n_s24s;,
SUpdate n_a24a;,
SUpdate n_s23s;,
SUpdate n_a23a;,
SUpdate n_s14s;,
SUpdate n_a14a;,
SUpdate n_s342a;,
SUpdate n_s243a;,
SDeclT n_propTP 4;,
SDeclT n_propSP 4;,
(SFor n_j (EInt 0) (EBin (CmpI CLt) (ELocI n_j) (EInt 4)) (EBin (OpI IAdd) (ELocI n_j) (EInt 1))
(SArrT n_propTP (AVar n_j) ((EArrT n_mom1 (AVar n_j)) -t (EArrT n_mom3 (AVar n_j)));,
SArrT n_propSP (AVar n_j) ((EArrT n_mom1 (AVar n_j)) +t (EArrT n_mom2 (AVar n_j)))));,
SMemC n_pDenT (EDen n_prop n_propTP);,
SMemC n_pDenS (EDen n_prop n_propSP)).
(** dAgd::amp: SM/dAgd.cpp 97-123 *)
Definition dAgd_amp : meth := mkMeth n_amp [(n_ds1, PkI); (n_ds2, PkI); (n_ds3, PkI); (n_ds4, PkI)]
((SIf (EAnd (EBin (CmpI CGt) (ELocI n_ds3) (EInt 0)) (EBin (CmpI CGt) (ELocI n_ds2) (EInt 0)))
(SReturnC ((((((((((EUn D2T (ELit (2 # 1))) *t (EMemT n_e)) *t (EMemT n_Qd)) *t (EMemT n_gs)) *t (EMemT n_md)) *tc (EV n_s23s [])) *c (EV n_s23s [])) *c (EV n_a14a [(AVar n_ds1); (AVar n_ds4)])) /c (EMemC n_pDenS)) /c (EMemC n_pDenT)))
((SIf (EAnd (EBin (CmpI CLt) (ELocI n_ds3) (EInt 0)) (EBin (CmpI CLt) (ELocI n_ds2) (EInt 0)))
(SReturnC ((((((((((EUn D2T (EUn NegD (ELit (2 # 1)))) *t (EMemT n_e)) *t (EMemT n_Qd)) *t (EMemT n_gs)) *t (EMemT n_md)) *tc (EV n_a23a [])) *c (EV n_a23a [])) *c (EV n_s14s [(AVar n_ds1); (AVar n_ds4)])) /c (EMemC n_pDenS)) /c (EMemC n_pDenT)))
((SIf (EAnd (EBin (CmpI CGt) (ELocI n_ds3) (EInt 0)) (EBin (CmpI CLt) (ELocI n_ds2) (EInt 0)))
(SReturnC ((((((((EUn D2T (ELit (2 # 1))) *t (EMemT n_e)) *t (EMemT n_Qd)) *t (EMemT n_gs)) *tc (((EV n_s34s [(AVar n_ds4)]) *c (EV n_a12a [(AVar n_ds1)])) -c ((EV n_s13s [(AVar n_ds1)]) *c (EV n_a24a [(AVar n_ds4)])))) *c (EV n_s342a [])) /c (EMemC n_pDenS)) /c (EMemC n_pDenT)))
((SIf (EAnd (EBin (CmpI CLt) (ELocI n_ds3) (EInt 0)) (EBin (CmpI CGt) (ELocI n_ds2) (EInt 0)))
(SReturnC ((((((((EUn D2T (EUn NegD (ELit (2 # 1)))) *t (EMemT n_e)) *t (EMemT n_Qd)) *t (EMemT n_gs)) *tc (((EV n_a34a [(AVar n_ds4)]) *c (EV n_s12s [(AVar n_ds1)])) -c ((EV n_a13a [(AVar n_ds1)]) *c (EV n_s24s [(AVar n_ds4)])))) *c (EV n_s243a [])) /c (EMemC n_pDenS)) /c (EMemC n_pDenT)))
(SSkip))))))));,
SReturnC (EBin OpTTC (EUn I2T (EInt 0)) (EUn I2T (EInt 0)))).
(** dAgd::amp2: SM/dAgd.cpp 127-142 *)
Definition dAgd_amp2 : meth := mkMeth n_amp2 []
(SLoc rT n_amp2 (EUn I2T (EInt 0));,
SDecl rC n_M;,
(SFor n_j1 (EUn NegI (EInt 1)) (EBin (CmpI CLe) (ELocI n_j1) (EInt 1)) (EBin (OpI IAdd) (ELocI n_j1) (EInt 2))
(SFor n_j2 (EUn NegI (EInt 2)) (EBin (CmpI CLe) (ELocI n_j2) (EInt 2)) (EBin (OpI IAdd) (ELocI n_j2) (EInt 4))
(SFor n_j3 (EUn NegI (EInt 2)) (EBin (CmpI CLe) (ELocI n_j3) (EInt 2)) (EBin (OpI IAdd) (ELocI n_j3) (EInt 4))
(SFor n_j4 (EUn NegI (EInt 1)) (EBin (CmpI CLe) (ELocI n_j4) (EInt 1)) (EBin (OpI IAdd) (ELocI n_j4) (EInt 2))
(SLoc rC n_M (ECall n_amp [(AVar n_j1); (AVar n_j2); (AVar n_j3); (AVar n_j4)]);,
SLoc rT n_amp2 ((ELocT n_amp2) +t ((EUn D2T (ELit (4 # 1))) *t (EUn Pow2T (EUn AbsC (ELocC n_M))))))))));,
SReturnT ((ELocT n_amp2) /t (EUn D2T (ELit (12 # 1))))).
(** dAgd::amp2_Aplus: SM/dAgd.cpp 145-159 *)
Definition dAgd_amp2_Aplus : meth := mkMeth n_amp2_Aplus []
(SLoc rT n_amp2 (EUn I2T (EInt 0));,
SDecl rC n_M;,
(SFor n_j1 (EUn NegI (EInt 1)) (EBin (CmpI CLe) (ELocI n_j1) (EInt 1)) (EBin (OpI IAdd) (ELocI n_j1) (EInt 2))
(SFor n_j3 (EUn NegI (EInt 1)) (EBin (CmpI CLe) (ELocI n_j3) (EInt 1)) (EBin (OpI IAdd) (ELocI n_j3) (EInt 2))
(SFor n_j4 (EUn NegI (EInt 1)) (EBin (CmpI CLe) (ELocI n_j4) (EInt 1)) (EBin (OpI IAdd) (ELocI n_j4) (EInt 2))
(SLoc rC n_M (ECall n_amp [(AVar n_j1); (ALit 2); (AVar n_j3); (AVar n_j4)]);,
SLoc rT n_amp2 ((ELocT n_amp2) +t ((EUn D2T (ELit (4 # 1))) *t (EUn Pow2T (EUn AbsC (ELocC n_M)))))))));,
SReturnT ((ELocT n_amp2) /t (EUn D2T (ELit (6 # 1))))).
(** dAgd::amp2_Aminus: SM/dAgd.cpp 162-176 *)
Definition dAgd_amp2_Aminus : meth := mkMeth n_amp2_Aminus []
(SLoc rT n_amp2 (EUn I2T (EInt 0));,
SDecl rC n_M;,
(SFor n_j1 (EUn NegI (EInt 1)) (EBin (CmpI CLe) (ELocI n_j1) (EInt 1)) (EBin (OpI IAdd) (ELocI n_j1) (EInt 2))
(SFor n_j3 (EUn NegI (EInt 1)) (EBin (CmpI CLe) (ELocI n_j3) (EInt 1)) (EBin (OpI IAdd) (ELocI n_j3) (EInt 2))
(SFor n_j4 (EUn NegI (EInt 1)) (EBin (CmpI CLe) (ELocI n_j4) (EInt 1)) (EBin (OpI IAdd) (ELocI n_j4) (EInt 2))
(SLoc rC n_M (ECall n_amp [(AVar n_j1); (ALit (-2)); (AVar n_j3); (AVar n_j4)]);,
SLoc rT n_amp2 ((ELocT n_amp2) +t ((EUn D2T (ELit (4 # 1))) *t (EUn Pow2T (EUn AbsC (ELocC n_M)))))))));,
SReturnT ((ELocT n_amp2) /t (EUn D2T (ELit (6 # 1))))).
(** members: SM/include/dAgd.h 26-32; initialisers: SM/dAgd.cpp 32-33 *)
Definition dAgd : cls := mkCls "dAgd"
[(n_e, KT);
(n_Qd, KT);
(n_gs, KT);
(n_md, KT);
(n_p1, (KPart 0));
(n_p2, (KPart 1));
(n_p3, (KPart 2));
(n_p4, (KPart 3));
(n_prop, KProp);
(n_pDenT, KC);
(n_pDenS, KC);
(n_s34s, KSprod);
(n_a34a, KSprod);
(n_s12s, KSprod);
(n_a12a, KSprod);
(n_s13s, KSprod);
(n_a13a, KSprod);
(n_s24s, KSprod);
(n_a24a, KSprod);
(n_s23s, KSprod);
(n_a23a, KSprod);
(n_s14s, KSprod);
(n_a14a, KSprod);
(n_s342a, KSprod);
(n_s243a, KSprod);
(n_sqrt2, KT)]
[n_echarge; n_gscharge; n_massd]
[(n_e, NT (ELocT n_echarge));
(n_Qd, NT (EUn D2T ((EUn NegD (ELit (1 # 1))) /d (ELit (3 # 1)))));
(n_gs, NT (ELocT n_gscharge));
(n_md, NT (ELocT n_massd));
(n_prop, NProp (ELocT n_massd) (EUn I2T (EInt 0)))]
dAgd_ctor
[dAgd_set_masses; dAgd_set_momenta; dAgd_amp; dAgd_amp2; dAgd_amp2_Aplus; dAgd_amp2_Aminus].

(** dWgu::dWgu: SM/dWgu.cpp 32-51 *)
Definition dWgu_ctor : stmt :=
(SPropNew n_propu (EMemT n_mu) (EUn I2T (EInt 0));,
SPropNew n_propd (EMemT n_md) (EUn I2T (EInt 0));,
SParticle 0 (EMemT n_md);,
SParticle 1 (EMemT n_MW);,
SParticle 2 (EUn I2T (EInt 0));,
SParticle 3 (EMemT n_mu);,
SSprod n_a21a true 1 [] 0;,
SSprod n_s24s false 1 [] 3;,
SSprod n_s32s false 2 [] 1;,
SSprod n_s34s false 2 [] 3;,
SSprod n_s3413s false 2 [3; 0] 2;,
SSprod n_a32a true 2 [] 1;,
SSprod n_a31a true 2 [] 0;,
SSprod n_a3413a true 2 [3; 0] 2;,
SMemT n_pre ((((EUn D2T (EUn SqrtD (ELit (2 # 1)))) *t (EMemT n_e)) *t (EMemT n_gs)) /t ((EMemT n_MW) *t (EMemT n_SW)))).
(** dWgu::set_masses: SM/dWgu.cpp 52-63 *)
Definition dWgu_set_masses : meth := mkMeth n_set_masses [(n_massu, PkT); (n_massd, PkT); (n_massW, PkT)]
(SMemT n_mu (ELocT n_massu);,
SMemT n_md (ELocT n_massd);,
SMemT n_MW (ELocT n_massW);,
SSetMass 0 (EMemT n_md);,
SSetMass 1 (EMemT n_MW);,
SSetMass 3 (EMemT n_mu);,
SPropMass n_propu (EMemT n_mu);,
SPropMass n_propd (EMemT n_md);,
SMemT n_pre ((((EUn D2T (EUn SqrtD (ELit (2 # 1)))) *t (EMemT n_e)) *t (EMemT n_gs)) /t ((EMemT n_MW) *t (EMemT n_SW)))).
(** dWgu::set_momenta: SM/dWgu.cpp 64-88 *)
Definition dWgu_set_momenta : meth := mkMeth n_set_momenta [(n_mom1, PkMom); (n_mom2, PkMom); (n_mom3, PkMom); (n_mom4, PkMom)]
(SLoc rT n_one (EUn I2T (EInt 1));,
SSetMomentum 0 n_mom1;,
SSetMomentum 1 n_mom2;,
SSetMomentum 2 n_mom3;,
SSetMomentum 3 n_mom4;,
SUpdate n_a21a;,
SUpdate n_s24s;,
SUpdate n_s32s;,
SUpdate n_s34s;,
SUpdate n_s3413s;,
SUpdate n_a32a;,
SUpdate n_a31a;,
SUpdate n_a3413a;,
SDeclT n_propSP 4;,
SDeclT n_propTP 4;,
SDeclT n_propUP 4;,
(SFor n_j (EInt 0) (EBin (CmpI CLt) (ELocI n_j) (EInt 4)) (EBin (OpI IAdd) (ELocI n_j) (EInt 1))
(SArrT n_propSP (AVar n_j) ((EArrT n_mom1 (AVar n_j)) +t (EArrT n_mom2 (AVar n_j)));,
SArrT n_propTP (AVar n_j) ((EArrT n_mom1 (AVar n_j)) -t (EArrT n_mom3 (AVar n_j)));,
SArrT n_propUP (AVar n_j) ((EArrT n_mom1 (AVar n_j)) -t (EArrT n_mom4 (AVar n_j)))));,
SMemC n_pDenS (EDen n_propu n_propSP);,
SMemC n_pDenT (EDen n_propd n_propTP)).
(** dWgu::amp: SM/dWgu.cpp 93-134 *)
Definition dWgu_amp : meth := mkMeth n_amp [(n_ds1, PkI); (n_ds2, PkI); (n_ds3, PkI); (n_ds4, PkI)]
(SLoc rT n_one (EUn I2T (EInt 1));,
SLoc rT n_two (EUn I2T (EInt 2));,
SLoc rT n_three (EUn I2T (EInt 3));,
SLoc rC n_amplitude (EBin OpTTC (EUn I2T (EInt 0)) (EUn I2T (EInt 0)));,
SDecl rI n_ds2a;,
SDecl rI n_ds2b;,
SLoc rI n_nCombs (ENLoops [(AVar n_ds2)]);,
SLoc rT n_normFactor (ENorm [(AVar n_ds2)]);,
(SFor n_i (EInt 0) (EBin (CmpI CLt) (ELocI n_i) (ELocI n_nCombs)) (EBin (OpI IAdd) (ELocI n_i) (EInt 1))
(SSpins [(n_ds2, n_ds2a, n_ds2b)] (AVar n_i);,
(SIf (EBin (CmpI CGt) (ELocI n_ds3) (EInt 0))
(SLoc rC n_amplitude ((ELocC n_amplitude) +c ((((((((EUn NegT (ELocT n_normFactor)) *t (EMemT n_pre)) *tc (EV n_a21a [(AVar n_ds2a); (AVar n_ds1)])) *c (EV n_s24s [(AVar n_ds2b); (AVar n_ds4)])) *c (EV n_s3413s [])) /c (EMemC n_pDenS)) /c (EMemC n_pDenT)) -c ((((((ELocT n_normFactor) *t (EMemT n_pre)) *tc (EV n_s32s [(AVar n_ds2a)])) *c (EV n_s34s [(AVar n_ds4)])) *c (EV n_a21a [(AVar n_ds2b); (AVar n_ds1)])) /c (EMemC n_pDenS)))))
((SIf (EBin (CmpI CLt) (ELocI n_ds3) (EInt 0))
(SLoc rC n_amplitude ((ELocC n_amplitude) +c ((((((((EUn NegT (ELocT n_normFactor)) *t (EMemT n_pre)) *tc (EV n_a21a [(AVar n_ds2a); (AVar n_ds1)])) *c (EV n_s24s [(AVar n_ds2b); (AVar n_ds4)])) *c (EV n_a3413a [])) /c (EMemC n_pDenS)) /c (EMemC n_pDenT)) +c ((((((ELocT n_normFactor) *t (EMemT n_pre)) *tc (EV n_a32a [(AVar n_ds2a)])) *c (EV n_a31a [(AVar n_ds1)])) *c (EV n_s24s [(AVar n_ds2b); (AVar n_ds4)])) /c (EMemC n_pDenT)))))
(SSkip))))));,
SReturnC (ELocC n_amplitude)).
(** dWgu::amp2: SM/dWgu.cpp 137-154 *)
Definition dWgu_amp2 : meth := mkMeth n_amp2 []
(SLoc rT n_three (EUn I2T (EInt 3));,
SLoc rT n_four (EUn I2T (EInt 4));,
SLoc rT n_amp2 (EUn I2T (EInt 0));,
SDecl rC n_M;,
(SFor n_j1 (EUn NegI (EInt 1)) (EBin (CmpI CLe) (ELocI n_j1) (EInt 1)) (EBin (OpI IAdd) (ELocI n_j1) (EInt 2))
(SFor n_j2 (EUn NegI (EInt 2)) (EBin (CmpI CLe) (ELocI n_j2) (EInt 2)) (EBin (OpI IAdd) (ELocI n_j2) (EInt 2))
(SFor n_j3 (EUn NegI (EInt 2)) (EBin (CmpI CLe) (ELocI n_j3) (EInt 2)) (EBin (OpI IAdd) (ELocI n_j3) (EInt 4))
(SFor n_j4 (EUn NegI (EInt 1)) (EBin (CmpI CLe) (ELocI n_j4) (EInt 1)) (EBin (OpI IAdd) (ELocI n_j4) (EInt 2))
(SLoc rC n_M (ECall n_amp [(AVar n_j1); (AVar n_j2); (AVar n_j3); (AVar n_j4)]);,
SLoc rT n_amp2 ((ELocT n_amp2) +t ((ELocT n_four) *t (EUn Pow2T (EUn AbsC (ELocC n_M))))))))));,
SReturnT ((ELocT n_amp2) /t (EUn D2T (ELit (18 # 1))))).
(** members: SM/include/dWgu.h 26-33; initialisers: SM/dWgu.cpp 32-33 *)
Definition dWgu : cls := mkCls "dWgu"
[(n_e, KT);
(n_gs, KT);
(n_mu, KT);
(n_md, KT);
(n_MW, KT);
(n_SW, KT);
(n_pre, KT);
(n_p1, (KPart 0));
(n_p2, (KPart 1));
(n_p3, (KPart 2));
(n_p4, (KPart 3));
(n_propu, KProp);
(n_propd, KProp);
(n_pDenS, KC);
(n_pDenT, KC);
(n_pDenU, KC);
(n_a21a, KSprod);
(n_s24s, KSprod);
(n_s32s, KSprod);
(n_s34s, KSprod);
(n_s3413s, KSprod);
(n_a32a, KSprod);
(n_a31a, KSprod);
(n_a3413a, KSprod)]
[n_echarge; n_gscharge; n_massu; n_massd; n_massW; n_sinW]
[(n_e, NT (ELocT n_echarge));
(n_gs, NT (ELocT n_gscharge));
(n_mu, NT (ELocT n_massu));
(n_md, NT (ELocT n_massd));
(n_MW, NT (ELocT n_massW));
(n_SW, NT (ELocT n_sinW))]
dWgu_ctor
[dWgu_set_masses; dWgu_set_momenta; dWgu_amp; dWgu_amp2].

(** dZZd::dZZd: SM/dZZd.cpp 32-63 *)
Definition dZZd_ctor : stmt :=
(SLoc rT n_two (EUn I2T (EInt 2));,
SMemT n_sqrt2 (EUn SqrtT (ELocT n_two));,
SMemT n_MZ ((EMemT n_MW) /t (EMemT n_CW));,
SPropNew n_proph (EMemT n_mh) (EMemT n_wh);,
SParticle 0 (EMemT n_mf);,
SParticle 1 (EMemT n_MZ);,
SParticle 2 (EMemT n_MZ);,
SParticle 3 (EMemT n_mf);,
SSprod n_s12s false 0 [] 1;,
SSprod n_a12a true 0 [] 1;,
SSprod n_s23s false 1 [] 2;,
SSprod n_a23a true 1 [] 2;,
SSprod n_s13s false 0 [] 2;,
SSprod n_a13a true 0 [] 2;,
SSprod n_s34s false 2 [] 3;,
SSprod n_a34a true 2 [] 3;,
SSprod n_s24s false 1 [] 3;,
SSprod n_a24a true 1 [] 3;,
SSprod n_s14s false 0 [] 3;,
SSprod n_a14a true 0 [] 3;,
SSprod n_s312a false 2 [0] 1;,
SSprod n_s213a false 1 [0] 2;,
SMemT n_preTU (((EMemT n_e) *t (EMemT n_e)) /t (((((EUn D2T (ELit (2 # 1))) *t (EMemT n_MW)) *t (EMemT n_MW)) *t (EMemT n_SW)) *t (EMemT n_SW)));,
SMemT n_gL (((((EUn D2T (EUn NegD (ELit (2 # 1)))) *t (EMemT n_Qf)) *t (EMemT n_SW)) *t (EMemT n_SW)) -t (EUn D2T (ELit (1 # 1))));,
SMemT n_gR ((((EUn D2T (EUn NegD (ELit (2 # 1)))) *t (EMemT n_Qf)) *t (EMemT n_SW)) *t (EMemT n_SW));,
SMemT n_preh ((((EMemT n_e) *t (EMemT n_e)) *t (EMemT n_mf)) /t (((((EUn D2T (ELit (2 # 1))) *t (EMemT n_MW)) *t (EMemT n_MW)) *t (EMemT n_SW)) *t (EMemT n_SW)))).
(** dZZd::set_masses: SM/dZZd.cpp 64-78 *)
Definition dZZd_set_masses : meth := mkMeth n_set_masses [(n_massf, PkT); (n_massh, PkT); (n_massW, PkT)]
(SMemT n_mf (ELocT n_massf);,
SMemT n_mh (ELocT n_massh);,
SMemT n_MW (ELocT n_massW);,
SMemT n_MZ ((EMemT n_MW) /t (EMemT n_CW));,
SSetMass 0 (EMemT n_mf);,
SSetMass 1 (EMemT n_MZ);,
SSetMass 2 (EMemT n_MZ);,
SSetMass 3 (EMemT n_mf);,
SPropMass n_propf (EMemT n_mf);,
SPropMass n_proph (EMemT n_mh);,
SMemT n_preTU (((EMemT n_e) *t (EMemT n_e)) /t (((((EUn D2T (ELit (2 # 1))) *t (EMemT n_MW)) *t (EMemT n_MW)) *t (EMemT n_SW)) *t (EMemT n_SW)));,
SMemT n_preh ((((EMemT n_e) *t (EMemT n_e)) *t (EMemT n_mf)) /t (((((EUn D2T (ELit (2 # 1))) *t (EMemT n_MW)) *t (EMemT n_MW)) *t (EMemT n_SW)) *t (EMemT n_SW)))).
(** dZZd::set_momenta: SM/dZZd.cpp 79-111 *)
Definition dZZd_set_momenta : meth := mkMeth n_set_momenta [(n_mom1, PkMom); (n_mom2, PkMom); (n_mom3, PkMom); (n_mom4, PkMom)]
(SSetMomentum 0 n_mom1;,
SSetMomentum 1 n_mom2;,
SSetMomentum 2 n_mom3;,
SSetMomentum 3 n_mom4;,
SUpdate n_s12s;,
SUpdate n_a12a;,
SUpdate n_s23s;,
SUpdate n_a23a;,
SUpdate n_s13s;,
SUpdate n_a13a;,
SUpdate n_s34s;,
SUpdate n_a34a;,
SUpdate n_s24s;,
SUpdate n_a24a;,
SUpdate n_s14s;,
SUpdate n_a14a;,
SUpdate n_s312a;,
SUpdate n_s213a;,
SDeclT n_propSP 4;,
SDeclT n_propTP 4;,
SDeclT n_propUP 4;,
(SFor n_j (EInt 0) (EBin (CmpI CLt) (ELocI n_j) (EInt 4)) (EBin (OpI IAdd) (ELocI n_j) (EInt 1))
(SArrT n_propSP (AVar n_j) ((EArrT n_mom1 (AVar n_j)) +t (EArrT n_mom2 (AVar n_j)));,
SArrT n_propTP (AVar n_j) ((EArrT n_mom1 (AVar n_j)) -t (EArrT n_mom3 (AVar n_j)));,
SArrT n_propUP (AVar n_j) ((EArrT n_mom1 (AVar n_j)) -t (EArrT n_mom4 (AVar n_j)))));,
SMemC n_pDenS (EDen n_propf n_propSP);,
SMemC n_pDenT (EDen n_propf n_propTP);,
SMemC n_pDenU (EDen n_proph n_propUP)).
(** dZZd::amp: SM/dZZd.cpp 116-178 *)
Definition dZZd_amp : meth := mkMeth n_amp [(n_ds1, PkI); (n_ds2, PkI); (n_ds3, PkI); (n_ds4, PkI)]
(SLoc rC n_amplitude (EBin OpTTC (EUn I2T (EInt 0)) (EUn I2T (EInt 0)));,
SDecl rI n_ds3a;,
SDecl rI n_ds3b;,
SDecl rI n_ds2a;,
SDecl rI n_ds2b;,
SLoc rI n_nCombs (ENLoops [(AVar n_ds3); (AVar n_ds2)]);,
SLoc rT n_normFactor (ENorm [(AVar n_ds3); (AVar n_ds2)]);,
(SFor n_i (EInt 0) (EBin (CmpI CLt) (ELocI n_i) (ELocI n_nCombs)) (EBin (OpI IAdd) (ELocI n_i) (EInt 1))
(SSpins [(n_ds3, n_ds3a, n_ds3b); (n_ds2, n_ds2a, n_ds2b)] (AVar n_i);,
SLoc rC n_amplitude ((ELocC n_amplitude) +c ((((((EUn NegT (ELocT n_normFactor)) *t (EMemT n_preh)) *tc (EV n_s23s [(AVar n_ds2a); (AVar n_ds3a)])) *c (EV n_a23a [(AVar n_ds2b); (AVar n_ds3b)])) *c ((EV n_s14s [(AVar n_ds1); (AVar n_ds4)]) -c (EV n_a14a [(AVar n_ds1); (AVar n_ds4)]))) /c (EMemC n_pDenU)));,
SLoc rC n_amplitude ((ELocC n_amplitude) +c ((((((((((EUn NegT (ELocT n_normFactor)) *t (EMemT n_preTU)) *t (EMemT n_gL)) *t (EMemT n_gL)) *tc (EV n_s24s [(AVar n_ds2a); (AVar n_ds4)])) *c (EV n_a13a [(AVar n_ds1); (AVar n_ds3a)])) *c (((EMemT n_MZ) *tc (EV n_a23a [(AVar n_ds2b); (AVar n_ds3b)])) +c (EV n_s312a [(AVar n_ds3b); (AVar n_ds2b)]))) /c (EMemC n_pDenT)) +c ((((((((ELocT n_normFactor) *t (EMemT n_preTU)) *t (EMemT n_gR)) *t (EMemT n_gR)) *tc (EV n_a24a [(AVar n_ds2a); (AVar n_ds4)])) *c (EV n_s13s [(AVar n_ds1); (AVar n_ds3a)])) *c (((EMemT n_MZ) *tc (EV n_s23s [(AVar n_ds2b); (AVar n_ds3b)])) +c (EV n_s213a [(AVar n_ds2b); (AVar n_ds3b)]))) /c (EMemC n_pDenT))) +c (((((((ELocT n_normFactor) *t (EMemT n_preTU)) *t (EMemT n_gL)) *t (EMemT n_gR)) *t (EMemT n_mf)) *tc ((((EV n_s13s [(AVar n_ds1); (AVar n_ds3a)]) *c (EV n_s24s [(AVar n_ds2a); (AVar n_ds4)])) *c (EV n_a23a [(AVar n_ds2b); (AVar n_ds3b)])) -c (((EV n_a13a [(AVar n_ds1); (AVar n_ds3a)]) *c (EV n_a24a [(AVar n_ds2a); (AVar n_ds4)])) *c (EV n_s23s [(AVar n_ds2b); (AVar n_ds3b)])))) /c (EMemC n_pDenT))));,
SLoc rC n_amplitude ((ELocC n_amplitude) +c ((((((((((EUn NegT (ELocT n_normFactor)) *t (EMemT n_preTU)) *t (EMemT n_gL)) *t (EMemT n_gL)) *tc (EV n_s34s [(AVar n_ds3a); (AVar n_ds4)])) *c (EV n_a12a [(AVar n_ds1); (AVar n_ds2a)])) *c (((EMemT n_MZ) *tc (EV n_a23a [(AVar n_ds2b); (AVar n_ds3b)])) +c (EV n_s213a [(AVar n_ds2b); (AVar n_ds3b)]))) /c (EMemC n_pDenS)) +c ((((((((ELocT n_normFactor) *t (EMemT n_preTU)) *t (EMemT n_gR)) *t (EMemT n_gR)) *tc (EV n_s12s [(AVar n_ds1); (AVar n_ds2a)])) *c (EV n_a34a [(AVar n_ds3a); (AVar n_ds4)])) *c (((EMemT n_MZ) *tc (EV n_s23s [(AVar n_ds2b); (AVar n_ds3b)])) +c (EV n_s312a [(AVar n_ds3b); (AVar n_ds2b)]))) /c (EMemC n_pDenS))) +c (((((((ELocT n_normFactor) *t (EMemT n_preTU)) *t (EMemT n_gL)) *t (EMemT n_gR)) *t (EMemT n_mf)) *tc ((((EUn NegC (EV n_s12s [(AVar n_ds1); (AVar n_ds2a)])) *c (EV n_s34s [(AVar n_ds3a); (AVar n_ds4)])) *c (EV n_a23a [(AVar n_ds2b); (AVar n_ds3b)])) +c (((EV n_a12a [(AVar n_ds1); (AVar n_ds2a)]) *c (EV n_a34a [(AVar n_ds3a); (AVar n_ds4)])) *c (EV n_s23s [(AVar n_ds2b); (AVar n_ds3b)])))) /c (EMemC n_pDenS))))));,
SReturnC (ELocC n_amplitude)).
(** dZZd::amp2: SM/dZZd.cpp 181-196 *)
Definition dZZd_amp2 : meth := mkMeth n_amp2 []
(SLoc rT n_amp2 (EUn I2T (EInt 0));,
SDecl rC n_M;,
(SFor n_j1 (EUn NegI (EInt 1)) (EBin (CmpI CLe) (ELocI n_j1) (EInt 1)) (EBin (OpI IAdd) (ELocI n_j1) (EInt 2))
(SFor n_j2 (EUn NegI (EInt 2)) (EBin (CmpI CLe) (ELocI n_j2) (EInt 2)) (EBin (OpI IAdd) (ELocI n_j2) (EInt 2))
(SFor n_j3 (EUn NegI (EInt 2)) (EBin (CmpI CLe) (ELocI n_j3) (EInt 2)) (EBin (OpI IAdd) (ELocI n_j3) (EInt 2))
(SFor n_j4 (EUn NegI (EInt 1)) (EBin (CmpI CLe) (ELocI n_j4) (EInt 1)) (EBin (OpI IAdd) (ELocI n_j4) (EInt 2))
(SLoc rC n_M (ECall n_amp [(AVar n_j1); (AVar n_j2); (AVar n_j3); (AVar n_j4)]);,
SLoc rT n_amp2 ((ELocT n_amp2) +t ((EUn D2T (ELit (3 # 1))) *t (EUn Pow2T (EUn AbsC (ELocC n_M))))))))));,
SReturnT ((ELocT n_amp2) /t (EUn D2T (ELit (18 # 1))))).
(** members: SM/include/dZZd.h 26-36; initialisers: SM/dZZd.cpp 32-33 *)
Definition dZZd : cls := mkCls "dZZd"
[(n_e, KT);
(n_Qf, KT);
(n_mf, KT);
(n_mh, KT);
(n_wh, KT);
(n_MW, KT);
(n_SW, KT);
(n_CW, KT);
(n_MZ, KT);
(n_WZ, KT);
(n_p1, (KPart 0));
(n_p2, (KPart 1));
(n_p3, (KPart 2));
(n_p4, (KPart 3));
(n_proph, KProp);
(n_propf, KProp);
(n_pDenS, KC);
(n_pDenT, KC);
(n_pDenU, KC);
(n_s12s, KSprod);
(n_a12a, KSprod);
(n_s23s, KSprod);
(n_a23a, KSprod);
(n_s13s, KSprod);
(n_a13a, KSprod);
(n_s34s, KSprod);
(n_a34a, KSprod);
(n_s24s, KSprod);
(n_a24a, KSprod);
(n_s14s, KSprod);
(n_a14a, KSprod);
(n_s312a, KSprod);
(n_s213a, KSprod);
(n_sqrt2, KT);
(n_preTU, KT);
(n_preh, KT);
(n_gL, KT);
(n_gR, KT)]
[n_echarge; n_massf; n_massh; n_widthh; n_massW; n_sinW; n_widthZ]
[(n_e, NT (ELocT n_echarge));
(n_Qf, NT (EUn D2T ((EUn NegD (ELit (1 # 1))) /d (ELit (3 # 1)))));
(n_mf, NT (ELocT n_massf));
(n_mh, NT (ELocT n_massh));
(n_wh, NT (ELocT n_widthh));
(n_MW, NT (ELocT n_massW));
(n_SW, NT (ELocT n_sinW));
(n_CW, NT (EUn SqrtT ((EUn D2T (ELit (1 # 1))) -t ((ELocT n_sinW) *t (ELocT n_sinW)))));
(n_MZ, NT ((ELocT n_massW) /t (EMemT n_CW)));
(n_WZ, NT (ELocT n_widthZ));
(n_propf, NProp (ELocT n_massf) (EUn I2T (EInt 0)))]
dZZd_ctor
[dZZd_set_masses; dZZd_set_momenta; dZZd_amp; dZZd_amp2].

(** dZdh::dZdh: SM/dZdh.cpp 32-60 *)
Definition dZdh_ctor : stmt :=
(SLoc rT n_two (EUn I2T (EInt 2));,
SMemT n_sqrt2 (EUn SqrtT (ELocT n_two));,
SMemT n_MZ ((EMemT n_MW) /t (EMemT n_CW));,
SPropNew n_propZ (EMemT n_MZ) (EMemT n_WZ);,
SParticle 0 (EMemT n_md);,
SParticle 1 (EMemT n_MZ);,
SParticle 2 (EMemT n_md);,
SParticle 3 (EMemT n_mh);,
SSprod n_s12s false 0 [] 1;,
SSprod n_a12a true 0 [] 1;,
SSprod n_s23s false 1 [] 2;,
SSprod n_a23a true 1 [] 2;,
SSprod n_s13s false 0 [] 2;,
SSprod n_a13a true 0 [] 2;,
SSprod n_s312a false 2 [0] 1;,
SSprod n_s213a false 1 [0] 2;,
SSprod n_s242a false 1 [3] 1;,
SSprod n_s142a false 0 [3] 1;,
SSprod n_s241a false 1 [3] 0;,
SMemT n_preTU (((((EMemT n_sqrt2) *t (EMemT n_e)) *t (EMemT n_e)) *t (EMemT n_md)) /t (((((EUn D2T (ELit (4 # 1))) *t (EMemT n_MW)) *t (EMemT n_MW)) *t (EMemT n_SW)) *t (EMemT n_SW)));,
SMemT n_gL ((((EUn D2T ((ELit (2 # 1)) /d (ELit (3 # 1)))) *t (EMemT n_SW)) *t (EMemT n_SW)) -t (EUn D2T (ELit (1 # 1))));,
SMemT n_gR (((EUn D2T ((ELit (2 # 1)) /d (ELit (3 # 1)))) *t (EMemT n_SW)) *t (EMemT n_SW));,
SMemT n_preZ ((((EMemT n_sqrt2) *t (EMemT n_e)) *t (EMemT n_e)) /t (((((EUn D2T (ELit (4 # 1))) *t (EMemT n_MW)) *t (EMemT n_MW)) *t (EMemT n_SW)) *t (EMemT n_SW)))).
(** dZdh::set_masses: SM/dZdh.cpp 61-75 *)
Definition dZdh_set_masses : meth := mkMeth n_set_masses [(n_massd, PkT); (n_massh, PkT); (n_massW, PkT)]
(SMemT n_md (ELocT n_massd);,
SMemT n_mh (ELocT n_massh);,
SMemT n_MW (ELocT n_massW);,
SMemT n_MZ ((EMemT n_MW) /t (EMemT n_CW));,
SSetMass 0 (EMemT n_md);,
SSetMass 1 (EMemT n_MZ);,
SSetMass 2 (EMemT n_md);,
SSetMass 3 (EMemT n_mh);,
SPropMass n_propd (EMemT n_md);,
SPropMass n_propZ (EMemT n_MZ);,
SMemT n_preTU (((((EMemT n_sqrt2) *t (EMemT n_e)) *t (EMemT n_e)) *t (EMemT n_md)) /t (((((EUn D2T (ELit (4 # 1))) *t (EMemT n_MW)) *t (EMemT n_MW)) *t (EMemT n_SW)) *t (EMemT n_SW)));,
SMemT n_preZ ((((EMemT n_sqrt2) *t (EMemT n_e)) *t (EMemT n_e)) /t (((((EUn D2T (ELit (4 # 1))) *t (EMemT n_MW)) *t (EMemT n_MW)) *t (EMemT n_SW)) *t (EMemT n_SW)))).
(** dZdh::set_momenta: SM/dZdh.cpp 76-105 *)
Definition dZdh_set_momenta : meth := mkMeth n_set_momenta [(n_mom1, PkMom); (n_mom2, PkMom); (n_mom3, PkMom); (n_mom4, PkMom)]
(SSetMomentum 0 n_mom1;,
SSetMomentum 1 n_mom2;,
SSetMomentum 2 n_mom3;,
SSetMomentum 3 n_mom4;,
SUpdate n_s12s;,
SUpdate n_a12a;,
SUpdate n_s23s;,
SUpdate n_a23a;,
SUpdate n_s13s;,
SUpdate n_a13a;,
SUpdate n_s312a;,
SUpdate n_s213a;,
SUpdate n_s242a;,
SUpdate n_s142a;,
SUpdate n_s241a;,
SDeclT n_propSP 4;,
SDeclT n_propTP 4;,
SDeclT n_propUP 4;,
(SFor n_j (EInt 0) (EBin (CmpI CLt) (ELocI n_j) (EInt 4)) (EBin (OpI IAdd) (ELocI n_j) (EInt 1))
(SArrT n_propSP (AVar n_j) ((EArrT n_mom1 (AVar n_j)) +t (EArrT n_mom2 (AVar n_j)));,
SArrT n_propTP (AVar n_j) ((EArrT n_mom1 (AVar n_j)) -t (EArrT n_mom3 (AVar n_j)));,
SArrT n_propUP (AVar n_j) ((EArrT n_mom1 (AVar n_j)) -t (EArrT n_mom4 (AVar n_j)))));,
SMemC n_pDenS (EDen n_propd n_propSP);,
SMemC n_pDenT (EDen n_propZ n_propTP);,
SMemC n_pDenU (EDen n_propd n_propUP)).
(** dZdh::amp: SM/dZdh.cpp 110-152 *)
Definition dZdh_amp : meth := mkMeth n_amp [(n_ds1, PkI); (n_ds2, PkI); (n_ds3, PkI)]
(SLoc rC n_amplitude (EBin OpTTC (EUn I2T (EInt 0)) (EUn I2T (EInt 0)));,
SDecl rI n_ds2a;,
SDecl rI n_ds2b;,
SLoc rI n_nCombs (ENLoops [(AVar n_ds2)]);,
SLoc rT n_normFactor (ENorm [(AVar n_ds2)]);,
(SFor n_i (EInt 0) (EBin (CmpI CLt) (ELocI n_i) (ELocI n_nCombs)) (EBin (OpI IAdd) (ELocI n_i) (EInt 1))
(SSpins [(n_ds2, n_ds2a, n_ds2b)] (AVar n_i);,
SLoc rC n_amplitude ((ELocC n_amplitude) +c ((((ELocT n_normFactor) *t (EMemT n_preZ)) *tc (((((EMemT n_md) *t ((EMemT n_gL) -t (EMemT n_gR))) *tc ((EV n_a13a [(AVar n_ds1); (AVar n_ds3)]) +c (EV n_s13s [(AVar n_ds1); (AVar n_ds3)]))) *c (EV n_s242a [(AVar n_ds2a); (AVar n_ds2b)])) -c ((((EUn D2T (ELit (2 # 1))) *t (EMemT n_MZ)) *t (EMemT n_MZ)) *tc ((((EMemT n_gL) *tc (EV n_s23s [(AVar n_ds2a); (AVar n_ds3)])) *c (EV n_a12a [(AVar n_ds1); (AVar n_ds2b)])) -c (((EMemT n_gR) *tc (EV n_a23a [(AVar n_ds2a); (AVar n_ds3)])) *c (EV n_s12s [(AVar n_ds1); (AVar n_ds2b)])))))) /c (EMemC n_pDenT)));,
SLoc rC n_amplitude ((ELocC n_amplitude) +c ((((EUn NegT (ELocT n_normFactor)) *t (EMemT n_preTU)) *tc ((((EMemT n_gL) *tc (EV n_a12a [(AVar n_ds1); (AVar n_ds2a)])) *c ((((EMemT n_md) *tc (EV n_s23s [(AVar n_ds2b); (AVar n_ds3)])) -c (EV n_s213a [(AVar n_ds2b); (AVar n_ds3)])) -c ((EMemT n_MZ) *tc (EV n_a23a [(AVar n_ds2b); (AVar n_ds3)])))) +c (((EMemT n_gR) *tc (EV n_s12s [(AVar n_ds1); (AVar n_ds2a)])) *c ((((EUn NegT (EMemT n_md)) *tc (EV n_a23a [(AVar n_ds2b); (AVar n_ds3)])) +c (EV n_s312a [(AVar n_ds3); (AVar n_ds2b)])) +c ((EMemT n_MZ) *tc (EV n_s23s [(AVar n_ds2b); (AVar n_ds3)])))))) /c (EMemC n_pDenS)));,
SLoc rC n_amplitude ((ELocC n_amplitude) +c ((((EUn NegT (ELocT n_normFactor)) *t (EMemT n_preTU)) *tc ((((EMemT n_gL) *tc (EV n_s23s [(AVar n_ds2a); (AVar n_ds3)])) *c ((EUn NegC (EV n_s142a [(AVar n_ds1); (AVar n_ds2b)])) +c (((EUn D2T (ELit (2 # 1))) *t (EMemT n_md)) *tc (EV n_a12a [(AVar n_ds1); (AVar n_ds2b)])))) -c (((EMemT n_gR) *tc (EV n_a23a [(AVar n_ds2a); (AVar n_ds3)])) *c ((EUn NegC (EV n_s241a [(AVar n_ds2b); (AVar n_ds1)])) +c (((EUn D2T (ELit (2 # 1))) *t (EMemT n_md)) *tc (EV n_s12s [(AVar n_ds1); (AVar n_ds2b)])))))) /c (EMemC n_pDenU)))));,
SReturnC (ELocC n_amplitude)).
(** dZdh::amp2: SM/dZdh.cpp 155-169 *)
Definition dZdh_amp2 : meth := mkMeth n_amp2 []
(SLoc rT n_amp2 (EUn I2T (EInt 0));,
SDecl rC n_M;,
(SFor n_j1 (EUn NegI (EInt 1)) (EBin (CmpI CLe) (ELocI n_j1) (EInt 1)) (EBin (OpI IAdd) (ELocI n_j1) (EInt 2))
(SFor n_j2 (EUn NegI (EInt 2)) (EBin (CmpI CLe) (ELocI n_j2) (EInt 2)) (EBin (OpI IAdd) (ELocI n_j2) (EInt 2))
(SFor n_j3 (EUn NegI (EInt 1)) (EBin (CmpI CLe) (ELocI n_j3) (EInt 1)) (EBin (OpI IAdd) (ELocI n_j3) (EInt 2))
(SLoc rC n_M (ECall n_amp [(AVar n_j1); (AVar n_j2); (AVar n_j3)]);,
SLoc rT n_amp2 ((ELocT n_amp2) +t ((EUn D2T (ELit (3 # 1))) *t (EUn Pow2T (EUn AbsC (ELocC n_M)))))))));,
SReturnT ((ELocT n_amp2) /t (EUn D2T (ELit (18 # 1))))).
(** members: SM/include/dZdh.h 26-36; initialisers: SM/dZdh.cpp 32-33 *)
Definition dZdh : cls := mkCls "dZdh"
[(n_e, KT);
(n_md, KT);
(n_mh, KT);
(n_wh, KT);
(n_MW, KT);
(n_SW, KT);
(n_CW, KT);
(n_MZ, KT);
(n_WZ, KT);
(n_p1, (KPart 0));
(n_p2, (KPart 1));
(n_p3, (KPart 2));
(n_p4, (KPart 3));
(n_propZ, KProp);
(n_propd, KProp);
(n_pDenS, KC);
(n_pDenT, KC);
(n_pDenU, KC);
(n_s12s, KSprod);
(n_a12a, KSprod);
(n_s23s, KSprod);
(n_a23a, KSprod);
(n_s13s, KSprod);
(n_a13a, KSprod);
(n_s312a, KSprod);
(n_s213a, KSprod);
(n_s242a, KSprod);
(n_s142a, KSprod);
(n_s241a, KSprod);
(n_sqrt2, KT);
(n_preTU, KT);
(n_preZ, KT);
(n_gL, KT);
(n_gR, KT)]
[n_echarge; n_massd; n_massh; n_widthh; n_massW; n_sinW; n_widthZ]
[(n_e, NT (ELocT n_echarge));
(n_md, NT (ELocT n_massd));
(n_mh, NT (ELocT n_massh));
(n_wh, NT (ELocT n_widthh));
(n_MW, NT (ELocT n_massW));
(n_SW, NT (ELocT n_sinW));
(n_CW, NT (EUn SqrtT ((EUn D2T (ELit (1 # 1))) -t ((ELocT n_sinW) *t (ELocT n_sinW)))));
(n_MZ, NT ((ELocT n_massW) /t (EMemT n_CW)));
(n_WZ, NT (ELocT n_widthZ));
(n_propd, NProp (ELocT n_massd) (EUn I2T (EInt 0)))]
dZdh_ctor
[dZdh_set_masses; dZdh_set_momenta; dZdh_amp; dZdh_amp2].

(** ddAA::ddAA: SM/ddAA.cpp 32-54 *)
Definition ddAA_ctor : stmt :=
(SLoc rT n_two (EUn I2T (EInt 2));,
SMemT n_sqrt2 (EUn SqrtT (ELocT n_two));,
SParticle 0 (EMemT n_md);,
SParticle 1 (EMemT n_md);,
SParticle 2 (EUn I2T (EInt 0));,
SParticle 3 (EUn I2T (EInt 0));,
SSprod n_s34s false 2 [] 3;,
SSprod n_a34a true 2 [] 3;,
SSprod n_s12s false 0 [] 1;,
SSprod n_a12a true 0 [] 1;,
SSprod n_s13s false 0 [] 2;,
SSprod n_a13a true 0 [] 2;,
SSprod n_s24s false 1 [] 3;,
SSprod n_a24a true 1 [] 3;,
SSprod n_s23s false 1 [] 2;,
SSprod n_a23a true 1 [] 2;,
SSprod n_s14s false 0 [] 3;,
SSprod n_a14a true 0 [] 3;,
SSprod n_s314a false 2 [0] 3;,
SSprod n_s413a false 3 [0] 2).
(** ddAA::set_masses: SM/ddAA.cpp 55-60 *)
Definition ddAA_set_masses : meth := mkMeth n_set_masses [(n_massd, PkT)]
(SMemT n_md (ELocT n_massd);,
SSetMass 0 (EMemT n_md);,
SSetMass 1 (EMemT n_md);,
SPropMass n_prop (EMemT n_md)).
(** ddAA::set_momenta: SM/ddAA.cpp 61-90 *)
Definition ddAA_set_momenta : meth := mkMeth n_set_momenta [(n_mom1, PkMom); (n_mom2, PkMom); (n_mom3, PkMom); (n_mom4, PkMom)]
(SSetMomentum 0 n_mom1;,
SSetMomentum 1 n_mom2;,
SSetMomentum 2 n_mom3;,
SSetMomentum 3 n_mom4;,
SUpdate n_s34s;,
SUpdate n_a34a;,
SUpdate n_s12s;,
SUpdate n_a12a;,
SUpdate n_s13s;,
SUpdate n_a13a;,
SUpdate n_s24s;,
SUpdate n_a24a;,
SUpdate n_s23s;,
SUpdate n_a23a;,
SUpdate n_s14s;,
SUpdate n_a14a;,
SUpdate n_s314a;,
SUpdate n_s413a;,
SDeclT n_propTP 4;,
SDeclT n_propUP 4;,
(SFor n_j (EInt 0) (EBin (CmpI CLt) (ELocI n_j) (EInt 4)) (EBin (OpI IAdd) (ELocI n_j) (EInt 1))
(SArrT n_propTP (AVar n_j) ((EArrT n_mom1 (AVar n_j)) -t (EArrT n_mom3 (AVar n_j)));,
SArrT n_propUP (AVar n_j) ((EArrT n_mom1 (AVar n_j)) -t (EArrT n_mom4 (AVar n_j)))));,
SMemC n_pDenT (EDen n_prop n_propTP);,
SMemC n_pDenU (EDen n_prop n_propUP)).
(** ddAA::amp: SM/ddAA.cpp 97-116 *)
Definition ddAA_amp : meth := mkMeth n_amp [(n_ds1, PkI); (n_ds2, PkI); (n_ds3, PkI); (n_ds4, PkI)]
((SIf (EAnd (EBin (CmpI CGt) (ELocI n_ds3) (EInt 0)) (EBin (CmpI CGt) (ELocI n_ds4) (EInt 0)))
(SReturnC (((((((((((EUn D2T (ELit (2 # 1))) *t (EMemT n_e)) *t (EMemT n_e)) *t (EMemT n_Qd)) *t (EMemT n_Qd)) *t (EMemT n_md)) *tc (EV n_s34s [])) *c (EV n_s34s [])) *c (EV n_a12a [(AVar n_ds1); (AVar n_ds2)])) /c (EMemC n_pDenT)) /c (EMemC n_pDenU)))
((SIf (EAnd (EBin (CmpI CLt) (ELocI n_ds3) (EInt 0)) (EBin (CmpI CLt) (ELocI n_ds4) (EInt 0)))
(SReturnC (((((((((((EUn D2T (ELit (2 # 1))) *t (EMemT n_e)) *t (EMemT n_e)) *t (EMemT n_Qd)) *t (EMemT n_Qd)) *t (EMemT n_md)) *tc (EV n_a34a [])) *c (EV n_a34a [])) *c (EV n_s12s [(AVar n_ds1); (AVar n_ds2)])) /c (EMemC n_pDenT)) /c (EMemC n_pDenU)))
((SIf (EAnd (EBin (CmpI CGt) (ELocI n_ds3) (EInt 0)) (EBin (CmpI CLt) (ELocI n_ds4) (EInt 0)))
(SReturnC (((((((((EUn D2T (ELit (2 # 1))) *t (EMemT n_e)) *t (EMemT n_e)) *t (EMemT n_Qd)) *t (EMemT n_Qd)) *tc (((EV n_s13s [(AVar n_ds1)]) *c (EV n_a24a [(AVar n_ds2)])) +c ((EV n_s23s [(AVar n_ds2)]) *c (EV n_a14a [(AVar n_ds1)])))) *c (EV n_s314a [])) /c (EMemC n_pDenT)) /c (EMemC n_pDenU)))
((SIf (EAnd (EBin (CmpI CLt) (ELocI n_ds3) (EInt 0)) (EBin (CmpI CGt) (ELocI n_ds4) (EInt 0)))
(SReturnC (((((((((EUn D2T (ELit (2 # 1))) *t (EMemT n_e)) *t (EMemT n_e)) *t (EMemT n_Qd)) *t (EMemT n_Qd)) *tc (((EV n_a13a [(AVar n_ds1)]) *c (EV n_s24s [(AVar n_ds2)])) +c ((EV n_a23a [(AVar n_ds2)]) *c (EV n_s14s [(AVar n_ds1)])))) *c (EV n_s413a [])) /c (EMemC n_pDenT)) /c (EMemC n_pDenU)))
(SSkip))))))));,
SReturnC (EBin OpTTC (EUn I2T (EInt 0)) (EUn I2T (EInt 0)))).
(** ddAA::amp2: SM/ddAA.cpp 118-134 *)
Definition ddAA_amp2 : meth := mkMeth n_amp2 []
(SLoc rT n_amp2 (EUn I2T (EInt 0));,
SDecl rC n_M;,
(SFor n_j1 (EUn NegI (EInt 1)) (EBin (CmpI CLe) (ELocI n_j1) (EInt 1)) (EBin (OpI IAdd) (ELocI n_j1) (EInt 2))
(SFor n_j2 (EUn NegI (EInt 1)) (EBin (CmpI CLe) (ELocI n_j2) (EInt 1)) (EBin (OpI IAdd) (ELocI n_j2) (EInt 2))
(SFor n_j3 (EUn NegI (EInt 2)) (EBin (CmpI CLe) (ELocI n_j3) (EInt 2)) (EBin (OpI IAdd) (ELocI n_j3) (EInt 4))
(SFor n_j4 (EUn NegI (EInt 2)) (EBin (CmpI CLe) (ELocI n_j4) (EInt 2)) (EBin (OpI IAdd) (ELocI n_j4) (EInt 4))
(SLoc rC n_M (ECall n_amp [(AVar n_j1); (AVar n_j2); (AVar n_j3); (AVar n_j4)]);,
SLoc rT n_amp2 ((ELocT n_amp2) +t ((EUn D2T (ELit (3 # 1))) *t (EUn Pow2T (EUn AbsC (ELocC n_M))))))))));,
SReturnT ((ELocT n_amp2) /t (EUn D2T (ELit (72 # 1))))).
(** members: SM/include/ddAA.h 26-32; initialisers: SM/ddAA.cpp 32-33 *)
Definition ddAA : cls := mkCls "ddAA"
[(n_e, KT);
(n_Qd, KT);
(n_md, KT);
(n_p1, (KPart 0));
(n_p2, (KPart 1));
(n_p3, (KPart 2));
(n_p4, (KPart 3));
(n_prop, KProp);
(n_pDenT, KC);
(n_pDenU, KC);
(n_s34s, KSprod);
(n_a34a, KSprod);
(n_s12s, KSprod);
(n_a12a, KSprod);
(n_s13s, KSprod);
(n_a13a, KSprod);
(n_s24s, KSprod);
(n_a24a, KSprod);
(n_s23s, KSprod);
(n_a23a, KSprod);
(n_s14s, KSprod);
(n_a14a, KSprod);
(n_s314a, KSprod);
(n_s413a, KSprod);
(n_sqrt2, KT)]
[n_echarge; n_massd]
[(n_e, NT (ELocT n_echarge));
(n_Qd, NT (EUn D2T ((EUn NegD (ELit (1 # 1))) /d (ELit (3 # 1)))));
(n_md, NT (ELocT n_massd));
(n_prop, NProp (ELocT n_massd) (EUn I2T (EInt 0)))]
ddAA_ctor
[ddAA_set_masses; ddAA_set_momenta; ddAA_amp; ddAA_amp2].

(** ddAh::ddAh: SM/ddAh.cpp 32-54 *)
Definition ddAh_ctor : stmt :=
(SLoc rT n_two (EUn I2T (EInt 2));,
SMemT n_sqrt2 (EUn SqrtT (ELocT n_two));,
SParticle 0 (EMemT n_md);,
SParticle 1 (EMemT n_md);,
SParticle 2 (EUn I2T (EInt 0));,
SParticle 3 (EMemT n_mh);,
SSprod n_s13s false 0 [] 2;,
SSprod n_a13a true 0 [] 2;,
SSprod n_s23s false 1 [] 2;,
SSprod n_a23a true 1 [] 2;,
SSprod n_s12s false 0 [] 1;,
SSprod n_a12a true 0 [] 1;,
SSprod n_s342a false 2 [3] 1;,
SSprod n_a342s true 2 [3] 1;,
SSprod n_s341a false 2 [3] 0;,
SSprod n_a341s true 2 [3] 0;,
SSprod n_s3243s false 2 [1; 3] 2;,
SSprod n_a3243a true 2 [1; 3] 2;,
SMemT n_pre ((((((EMemT n_sqrt2) *t (EMemT n_e)) *t (EMemT n_e)) *t (EMemT n_Qd)) *t (EMemT n_md)) /t (((EUn D2T (ELit (2 # 1))) *t (EMemT n_MW)) *t (EMemT n_SW)))).
(** ddAh::set_masses: SM/ddAh.cpp 55-64 *)
Definition ddAh_set_masses : meth := mkMeth n_set_masses [(n_massd, PkT); (n_massh, PkT); (n_massW, PkT)]
(SMemT n_md (ELocT n_massd);,
SMemT n_mh (ELocT n_massh);,
SMemT n_MW (ELocT n_massW);,
SSetMass 0 (EMemT n_md);,
SSetMass 1 (EMemT n_md);,
SSetMass 3 (EMemT n_mh);,
SPropMass n_prop (EMemT n_md);,
SMemT n_pre ((((((EMemT n_sqrt2) *t (EMemT n_e)) *t (EMemT n_e)) *t (EMemT n_Qd)) *t (EMemT n_md)) /t (((EUn D2T (ELit (2 # 1))) *t (EMemT n_MW)) *t (EMemT n_SW)))).
(** ddAh::set_momenta: SM/ddAh.cpp 65-91 *)
Definition ddAh_set_momenta : meth := mkMeth n_set_momenta [(n_mom1, PkMom); (n_mom2, PkMom); (n_mom3, PkMom); (n_mom4, PkMom)]
(SSetMomentum 0 n_mom1;,
SSetMomentum 1 n_mom2;,
SSetMomentum 2 n_mom3;,
SSetMomentum 3 n_mom4;,
SUpdate n_s13s;,
SUpdate n_a13a;,
SUpdate n_s23s;,
SUpdate n_a23a;,
SUpdate n_s12s;,
SUpdate n_a12a;,
SUpdate n_s342a;,
SUpdate n_a342s;,
SUpdate n_s341a;,
SUpdate n_a341s;,
SUpdate n_s3243s;,
SUpdate n_a3243a;,
SDeclT n_propTP 4;,
SDeclT n_propUP 4;,
(SFor n_j (EInt 0) (EBin (CmpI CLt) (ELocI n_j) (EInt 4)) (EBin (OpI IAdd) (ELocI n_j) (EInt 1))
(SArrT n_propTP (AVar n_j) ((EArrT n_mom1 (AVar n_j)) -t (EArrT n_mom3 (AVar n_j)));,
SArrT n_propUP (AVar n_j) ((EArrT n_mom1 (AVar n_j)) -t (EArrT n_mom4 (AVar n_j)))));,
SMemC n_pDenT (EDen n_prop n_propTP);,
SMemC n_pDenU (EDen n_prop n_propUP)).
(** ddAh::amp: SM/ddAh.cpp 96-110 *)
Definition ddAh_amp : meth := mkMeth n_amp [(n_ds1, PkI); (n_ds2, PkI); (n_ds3, PkI)]
((SIf (EBin (CmpI CGt) (ELocI n_ds3) (EInt 0))
(SReturnC ((((EMemT n_pre) *tc (((((((EUn NegT (EMemT n_mh)) *t (EMemT n_mh)) *tc (EV n_s13s [(AVar n_ds1)])) *c (EV n_s23s [(AVar n_ds2)])) +c (((EMemT n_md) *tc (EV n_s13s [(AVar n_ds1)])) *c (EV n_s342a [(AVar n_ds2)]))) +c (((EMemT n_md) *tc (EV n_s23s [(AVar n_ds2)])) *c (EV n_s341a [(AVar n_ds1)]))) +c ((EV n_a12a [(AVar n_ds1); (AVar n_ds2)]) *c (EV n_s3243s [])))) /c (EMemC n_pDenT)) /c (EMemC n_pDenU)))
((SIf (EBin (CmpI CLt) (ELocI n_ds3) (EInt 0))
(SReturnC ((((EMemT n_pre) *tc (((((((EUn NegT (EMemT n_mh)) *t (EMemT n_mh)) *tc (EV n_a13a [(AVar n_ds1)])) *c (EV n_a23a [(AVar n_ds2)])) +c (((EMemT n_md) *tc (EV n_a13a [(AVar n_ds1)])) *c (EV n_a342s [(AVar n_ds2)]))) +c (((EMemT n_md) *tc (EV n_a23a [(AVar n_ds2)])) *c (EV n_a341s [(AVar n_ds1)]))) +c ((EV n_s12s [(AVar n_ds1); (AVar n_ds2)]) *c (EV n_a3243a [])))) /c (EMemC n_pDenT)) /c (EMemC n_pDenU)))
(SSkip))));,
SReturnC (EBin OpTTC (EUn I2T (EInt 0)) (EUn I2T (EInt 0)))).
(** ddAh::amp2: SM/ddAh.cpp 113-127 *)
Definition ddAh_amp2 : meth := mkMeth n_amp2 []
(SLoc rT n_amp2 (EUn I2T (EInt 0));,
SDecl rC n_M;,
(SFor n_j1 (EUn NegI (EInt 1)) (EBin (CmpI CLe) (ELocI n_j1) (EInt 1)) (EBin (OpI IAdd) (ELocI n_j1) (EInt 2))
(SFor n_j2 (EUn NegI (EInt 1)) (EBin (CmpI CLe) (ELocI n_j2) (EInt 1)) (EBin (OpI IAdd) (ELocI n_j2) (EInt 2))
(SFor n_j3 (EUn NegI (EInt 2)) (EBin (CmpI CLe) (ELocI n_j3) (EInt 2)) (EBin (OpI IAdd) (ELocI n_j3) (EInt 4))
(SLoc rC n_M (ECall n_amp [(AVar n_j1); (AVar n_j2); (AVar n_j3)]);,
SLoc rT n_amp2 ((ELocT n_amp2) +t ((EUn D2T (ELit (3 # 1))) *t (EUn Pow2T (EUn AbsC (ELocC n_M)))))))));,
SReturnT ((ELocT n_amp2) /t (EUn D2T (ELit (36 # 1))))).
(** members: SM/include/ddAh.h 26-33; initialisers: SM/ddAh.cpp 32-33 *)
Definition ddAh : cls := mkCls "ddAh"
[(n_e, KT);
(n_Qd, KT);
(n_md, KT);
(n_mh, KT);
(n_MW, KT);
(n_SW, KT);
(n_pre, KT);
(n_p1, (KPart 0));
(n_p2, (KPart 1));
(n_p3, (KPart 2));
(n_p4, (KPart 3));
(n_prop, KProp);
(n_pDenT, KC);
(n_pDenU, KC);
(n_s13s, KSprod);
(n_a13a, KSprod);
(n_s23s, KSprod);
(n_a23a, KSprod);
(n_s12s, KSprod);
(n_a12a, KSprod);
(n_s342a, KSprod);
(n_a342s, KSprod);
(n_s341a, KSprod);
(n_a341s, KSprod);
(n_s3243s, KSprod);
(n_a3243a, KSprod);
(n_sqrt2, KT)]
[n_echarge; n_massd; n_massh; n_massW; n_sinW]
[(n_e, NT (ELocT n_echarge));
(n_Qd, NT (EUn D2T ((EUn NegD (ELit (1 # 1))) /d (ELit (3 # 1)))));
(n_md, NT (ELocT n_massd));
(n_mh, NT (ELocT n_massh));
(n_prop, NProp (ELocT n_massd) (EUn I2T (EInt 0)));
(n_MW, NT (ELocT n_massW));
(n_SW, NT (ELocT n_sinW))]
ddAh_ctor
[ddAh_set_masses; ddAh_set_momenta; ddAh_amp; ddAh_amp2].

(** ddWW::ddWW: SM/ddWW.cpp 32-67 *)
Definition ddWW_ctor : stmt :=
(SLoc rT n_two (EUn I2T (EInt 2));,
SMemT n_sqrt2 (EUn SqrtT (ELocT n_two));,
SMemT n_MZ ((EMemT n_MW) /t (EMemT n_CW));,
SPropNew n_propZ (EMemT n_MZ) (EMemT n_WZ);,
SPropNew n_proph (EMemT n_mh) (EMemT n_wh);,
SParticle 0 (EMemT n_md);,
SParticle 1 (EMemT n_md);,
SParticle 2 (EMemT n_MW);,
SParticle 3 (EMemT n_MW);,
SSprod n_s12s false 0 [] 1;,
SSprod n_a12a true 0 [] 1;,
SSprod n_s23s false 1 [] 2;,
SSprod n_a23a true 1 [] 2;,
SSprod n_s13s false 0 [] 2;,
SSprod n_a13a true 0 [] 2;,
SSprod n_s34s false 2 [] 3;,
SSprod n_a34a true 2 [] 3;,
SSprod n_s24s false 1 [] 3;,
SSprod n_a24a true 1 [] 3;,
SSprod n_s14s false 0 [] 3;,
SSprod n_a14a true 0 [] 3;,
SSprod n_s413a false 3 [0] 2;,
SSprod n_s314a false 2 [0] 3;,
SSprod n_s231a false 1 [2] 0;,
SSprod n_s132a false 0 [2] 1;,
SMemT n_pred ((((EUn D2T (ELit (2 # 1))) *t (EMemT n_e)) *t (EMemT n_e)) /t (((((EUn D2T (ELit (2 # 1))) *t (EMemT n_MW)) *t (EMemT n_MW)) *t (EMemT n_SW)) *t (EMemT n_SW)));,
SMemT n_preh (((((EUn D2T (ELit (2 # 1))) *t (EMemT n_e)) *t (EMemT n_e)) *t (EMemT n_md)) /t (((((EUn D2T (ELit (4 # 1))) *t (EMemT n_MW)) *t (EMemT n_MW)) *t (EMemT n_SW)) *t (EMemT n_SW)));,
SMemT n_preZ (((EMemT n_e) *t (EMemT n_e)) /t (((((EUn D2T (ELit (2 # 1))) *t (EMemT n_MW)) *t (EMemT n_MW)) *t (EMemT n_SW)) *t (EMemT n_SW)));,
SMemT n_gL (((((EUn D2T (EUn NegD (ELit (2 # 1)))) *t (EMemT n_Qf)) *t (EMemT n_SW)) *t (EMemT n_SW)) -t (EUn D2T (ELit (1 # 1))));,
SMemT n_gR ((((EUn D2T (EUn NegD (ELit (2 # 1)))) *t (EMemT n_Qf)) *t (EMemT n_SW)) *t (EMemT n_SW))).
(** ddWW::set_masses: SM/ddWW.cpp 68-85 *)
Definition ddWW_set_masses : meth := mkMeth n_set_masses [(n_massd, PkT); (n_massu, PkT); (n_massh, PkT); (n_massW, PkT)]
(SMemT n_md (ELocT n_massd);,
SMemT n_mu (ELocT n_massu);,
SMemT n_mh (ELocT n_massh);,
SMemT n_MW (ELocT n_massW);,
SMemT n_MZ ((EMemT n_MW) /t (EMemT n_CW));,
SSetMass 0 (EMemT n_md);,
SSetMass 1 (EMemT n_md);,
SSetMass 2 (EMemT n_MW);,
SSetMass 3 (EMemT n_MW);,
SPropMass n_propu (EMemT n_mu);,
SPropMass n_proph (EMemT n_mh);,
SPropMass n_propZ (EMemT n_MZ);,
SMemT n_pred (((EMemT n_e) *t (EMemT n_e)) /t ((((EMemT n_MW) *t (EMemT n_MW)) *t (EMemT n_SW)) *t (EMemT n_SW)));,
SMemT n_preh ((((EMemT n_e) *t (EMemT n_e)) *t (EMemT n_md)) /t (((((EUn D2T (ELit (2 # 1))) *t (EMemT n_MW)) *t (EMemT n_MW)) *t (EMemT n_SW)) *t (EMemT n_SW)));,
SMemT n_preZ (((EMemT n_e) *t (EMemT n_e)) /t (((((EUn D2T (ELit (2 # 1))) *t (EMemT n_MW)) *t (EMemT n_MW)) *t (EMemT n_SW)) *t (EMemT n_SW)))).
(** ddWW::set_momenta: SM/ddWW.cpp 86-122 *)
Definition ddWW_set_momenta : meth := mkMeth n_set_momenta [(n_mom1, PkMom); (n_mom2, PkMom); (n_mom3, PkMom); (n_mom4, PkMom)]
(SSetMomentum 0 n_mom1;,
SSetMomentum 1 n_mom2;,
SSetMomentum 2 n_mom3;,
SSetMomentum 3 n_mom4;,
SUpdate n_s12s;,
SUpdate n_a12a;,
SUpdate n_s23s;,
SUpdate n_a23a;,
SUpdate n_s13s;,
SUpdate n_a13a;,
SUpdate n_s34s;,
SUpdate n_a34a;,
SUpdate n_s24s;,
SUpdate n_a24a;,
SUpdate n_s14s;,
SUpdate n_a14a;,
SUpdate n_s413a;,
SUpdate n_s314a;,
SUpdate n_s231a;,
SUpdate n_s132a;,
SDeclT n_propSP 4;,
SDeclT n_propTP 4;,
SDeclT n_propUP 4;,
(SFor n_j (EInt 0) (EBin (CmpI CLt) (ELocI n_j) (EInt 4)) (EBin (OpI IAdd) (ELocI n_j) (EInt 1))
(SArrT n_propSP (AVar n_j) ((EArrT n_mom1 (AVar n_j)) +t (EArrT n_mom2 (AVar n_j)));,
SArrT n_propTP (AVar n_j) ((EArrT n_mom1 (AVar n_j)) -t (EArrT n_mom3 (AVar n_j)));,
SArrT n_propUP (AVar n_j) ((EArrT n_mom1 (AVar n_j)) -t (EArrT n_mom4 (AVar n_j)))));,
SMemC n_pDenhS (EDen n_proph n_propSP);,
SMemC n_pDenuT (EDen n_propu n_propTP);,
SMemC n_pDenuU (EDen n_propu n_propUP);,
SMemC n_pDenZS (EDen n_propZ n_propSP);,
SMemC n_pDenAS (EDen n_propA n_propSP)).
(** ddWW::amp: SM/ddWW.cpp 127-188 *)
Definition ddWW_amp : meth := mkMeth n_amp [(n_ds1, PkI); (n_ds2, PkI); (n_ds3, PkI); (n_ds4, PkI)]
(SLoc rC n_amplitude (EBin OpTTC (EUn I2T (EInt 0)) (EUn I2T (EInt 0)));,
SDecl rI n_ds3a;,
SDecl rI n_ds3b;,
SDecl rI n_ds4a;,
SDecl rI n_ds4b;,
SLoc rT n_two (EUn I2T (EInt 2));,
SLoc rI n_nCombs (ENLoops [(AVar n_ds3); (AVar n_ds4)]);,
SLoc rT n_normFactor (ENorm [(AVar n_ds3); (AVar n_ds4)]);,
(SFor n_i (EInt 0) (EBin (CmpI CLt) (ELocI n_i) (ELocI n_nCombs)) (EBin (OpI IAdd) (ELocI n_i) (EInt 1))
(SSpins [(n_ds3, n_ds3a, n_ds3b); (n_ds4, n_ds4a, n_ds4b)] (AVar n_i);,
SLoc rC n_amplitude ((ELocC n_amplitude) +c ((((((ELocT n_normFactor) *t (EMemT n_preh)) *tc (EV n_s34s [(AVar n_ds3a); (AVar n_ds4a)])) *c (EV n_a34a [(AVar n_ds3b); (AVar n_ds4b)])) *c ((EV n_s12s [(AVar n_ds1); (AVar n_ds2)]) +c (EV n_a12a [(AVar n_ds1); (AVar n_ds2)]))) /c (EMemC n_pDenhS)));,
SLoc rC n_amplitude ((ELocC n_amplitude) +c ((((((EUn NegT (ELocT n_normFactor)) *t (EMemT n_pred)) *tc (EV n_a24a [(AVar n_ds2); (AVar n_ds4a)])) *c (EV n_s13s [(AVar n_ds1); (AVar n_ds3a)])) *c (((EUn NegT (EMemT n_MW)) *tc (EV n_s34s [(AVar n_ds3b); (AVar n_ds4b)])) +c (EV n_s413a [(AVar n_ds4b); (AVar n_ds3b)]))) /c (EMemC n_pDenuT)));,
SLoc rC n_amplitude ((ELocC n_amplitude) +c ((((((((((EUn NegT (ELocT n_normFactor)) *t (EMemT n_e)) *t (EMemT n_e)) *t (EMemT n_Qf)) *t (ELocT n_two)) /t (EMemT n_MW)) *tc (((((EV n_a13a [(AVar n_ds1); (AVar n_ds3a)]) *c (EV n_s24s [(AVar n_ds2); (AVar n_ds4a)])) +c ((EV n_s13s [(AVar n_ds1); (AVar n_ds3a)]) *c (EV n_a24a [(AVar n_ds2); (AVar n_ds4a)]))) +c ((EV n_a14a [(AVar n_ds1); (AVar n_ds4a)]) *c (EV n_s23s [(AVar n_ds2); (AVar n_ds3a)]))) +c ((EV n_s14s [(AVar n_ds1); (AVar n_ds4a)]) *c (EV n_a23a [(AVar n_ds2); (AVar n_ds3a)])))) *c ((EV n_s34s [(AVar n_ds3b); (AVar n_ds4b)]) +c (EV n_a34a [(AVar n_ds3b); (AVar n_ds4b)]))) /c (EMemC n_pDenAS)) -c (((((((((ELocT n_normFactor) *t (EMemT n_e)) *t (EMemT n_e)) *t (EMemT n_Qf)) *t (ELocT n_two)) /t (EMemT n_MW)) /t (EMemT n_MW)) *tc (((EV n_s34s [(AVar n_ds3a); (AVar n_ds4a)]) *c (EV n_a34a [(AVar n_ds3b); (AVar n_ds4b)])) *c ((EV n_s231a [(AVar n_ds2); (AVar n_ds1)]) +c (EV n_s132a [(AVar n_ds1); (AVar n_ds2)])))) /c (EMemC n_pDenAS))));,
SLoc rC n_amplitude ((ELocC n_amplitude) +c ((((ELocT n_normFactor) *t (EMemT n_preZ)) *tc ((((((((EMemT n_gR) -t (EMemT n_gL)) *t (EMemT n_md)) *tc (EV n_s34s [(AVar n_ds3a); (AVar n_ds4a)])) *c (EV n_a34a [(AVar n_ds3b); (AVar n_ds4b)])) *c ((EV n_s12s [(AVar n_ds1); (AVar n_ds2)]) -c (EV n_a12a [(AVar n_ds1); (AVar n_ds2)]))) -c ((((ELocT n_two) *tc (EV n_s34s [(AVar n_ds3a); (AVar n_ds4a)])) *c (EV n_a34a [(AVar n_ds3b); (AVar n_ds4b)])) *c (((EMemT n_gR) *tc (EV n_s231a [(AVar n_ds2); (AVar n_ds1)])) +c ((EMemT n_gL) *tc (EV n_s132a [(AVar n_ds1); (AVar n_ds2)]))))) -c ((((ELocT n_two) *t (EMemT n_MW)) *tc ((EV n_s34s [(AVar n_ds3a); (AVar n_ds4a)]) +c (EV n_a34a [(AVar n_ds3a); (AVar n_ds4a)]))) *c (((EMemT n_gR) *tc (((EV n_s23s [(AVar n_ds2); (AVar n_ds3b)]) *c (EV n_a14a [(AVar n_ds1); (AVar n_ds4b)])) +c ((EV n_s24s [(AVar n_ds2); (AVar n_ds4b)]) *c (EV n_a13a [(AVar n_ds1); (AVar n_ds3b)])))) +c ((EMemT n_gL) *tc (((EV n_s13s [(AVar n_ds1); (AVar n_ds3b)]) *c (EV n_a24a [(AVar n_ds2); (AVar n_ds4b)])) +c ((EV n_s14s [(AVar n_ds1); (AVar n_ds4b)]) *c (EV n_a23a [(AVar n_ds2); (AVar n_ds3b)])))))))) /c (EMemC n_pDenZS)))));,
SReturnC (ELocC n_amplitude)).
(** ddWW::amp2: SM/ddWW.cpp 191-206 *)
Definition ddWW_amp2 : meth := mkMeth n_amp2 []
(SLoc rT n_amp2 (EUn I2T (EInt 0));,
SDecl rC n_M;,
(SFor n_j1 (EUn NegI (EInt 1)) (EBin (CmpI CLe) (ELocI n_j1) (EInt 1)) (EBin (OpI IAdd) (ELocI n_j1) (EInt 2))
(SFor n_j2 (EUn NegI (EInt 1)) (EBin (CmpI CLe) (ELocI n_j2) (EInt 1)) (EBin (OpI IAdd) (ELocI n_j2) (EInt 2))
(SFor n_j3 (EUn NegI (EInt 2)) (EBin (CmpI CLe) (ELocI n_j3) (EInt 2)) (EBin (OpI IAdd) (ELocI n_j3) (EInt 2))
(SFor n_j4 (EUn NegI (EInt 2)) (EBin (CmpI CLe) (ELocI n_j4) (EInt 2)) (EBin (OpI IAdd) (ELocI n_j4) (EInt 2))
(SLoc rC n_M (ECall n_amp [(AVar n_j1); (AVar n_j2); (AVar n_j3); (AVar n_j4)]);,
SLoc rT n_amp2 ((ELocT n_amp2) +t ((EUn D2T (ELit (3 # 1))) *t (EUn Pow2T (EUn AbsC (ELocC n_M))))))))));,
SReturnT ((ELocT n_amp2) /t (EUn D2T (ELit (36 # 1))))).
(** members: SM/include/ddWW.h 26-36; initialisers: SM/ddWW.cpp 32-33 *)
Definition ddWW : cls := mkCls "ddWW"
[(n_e, KT);
(n_Qf, KT);
(n_mu, KT);
(n_md, KT);
(n_mh, KT);
(n_wh, KT);
(n_MW, KT);
(n_SW, KT);
(n_CW, KT);
(n_MZ, KT);
(n_WZ, KT);
(n_p1, (KPart 0));
(n_p2, (KPart 1));
(n_p3, (KPart 2));
(n_p4, (KPart 3));
(n_proph, KProp);
(n_propu, KProp);
(n_propZ, KProp);
(n_propA, KProp);
(n_pDenhS, KC);
(n_pDenuT, KC);
(n_pDenuU, KC);
(n_pDenZS, KC);
(n_pDenAS, KC);
(n_s12s, KSprod);
(n_a12a, KSprod);
(n_s23s, KSprod);
(n_a23a, KSprod);
(n_s13s, KSprod);
(n_a13a, KSprod);
(n_s34s, KSprod);
(n_a34a, KSprod);
(n_s24s, KSprod);
(n_a24a, KSprod);
(n_s14s, KSprod);
(n_a14a, KSprod);
(n_s413a, KSprod);
(n_s314a, KSprod);
(n_s231a, KSprod);
(n_s132a, KSprod);
(n_sqrt2, KT);
(n_pred, KT);
(n_preh, KT);
(n_preZ, KT);
(n_gL, KT);
(n_gR, KT)]
[n_echarge; n_massd; n_massu; n_massh; n_widthh; n_massW; n_sinW; n_widthZ]
[(n_e, NT (ELocT n_echarge));
(n_Qf, NT (EUn D2T ((EUn NegD (ELit (1 # 1))) /d (ELit (3 # 1)))));
(n_md, NT (ELocT n_massd));
(n_mu, NT (ELocT n_massu));
(n_mh, NT (ELocT n_massh));
(n_wh, NT (ELocT n_widthh));
(n_MW, NT (ELocT n_massW));
(n_SW, NT (ELocT n_sinW));
(n_CW, NT (EUn SqrtT ((EUn D2T (ELit (1 # 1))) -t ((ELocT n_sinW) *t (ELocT n_sinW)))));
(n_MZ, NT ((ELocT n_massW) /t (EMemT n_CW)));
(n_WZ, NT (ELocT n_widthZ));
(n_propu, NProp (EMemT n_mu) (EUn I2T (EInt 0)));
(n_propA, NProp (EUn I2T (EInt 0)) (EUn I2T (EInt 0)))]
ddWW_ctor
[ddWW_set_masses; ddWW_set_momenta; ddWW_amp; ddWW_amp2].

Definition SM03_classes : list cls := [ZZZZ; ZhWW; ZnWe; dAAd; dAdh; dAgd; dWgu; dZZd; dZdh; ddAA; ddAh; ddWW].
