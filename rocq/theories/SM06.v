(** Generated by tools/translate.py from SM/eeZh.cpp ... SM/enAW.cpp.  Do not edit. *)
From Coq Require Import QArith String.
From Verif Require Import Base Scalar Particle Sproduct Lang SMSyntax SMNames.
Local Open Scope sm_scope.
Local Open Scope string_scope.

(** eeZh::eeZh: SM/eeZh.cpp 32-62 *)
Definition eeZh_ctor : stmt :=
(SLoc rT n_two (EUn I2T (EInt 2));,
SMemT n_sqrt2 (EUn SqrtT (ELocT n_two));,
SMemT n_MZ ((EMemT n_MW) /t (EMemT n_CW));,
SPropNew n_propZ (EMemT n_MZ) (EMemT n_WZ);,
SParticle 0 (EMemT n_me);,
SParticle 1 (EMemT n_me);,
SParticle 2 (EMemT n_MZ);,
SParticle 3 (EMemT n_mh);,
SSprod n_s12s false 0 [] 1;,
SSprod n_a12a true 0 [] 1;,
SSprod n_s23s false 1 [] 2;,
SSprod n_a23a true 1 [] 2;,
SSprod n_s13s false 0 [] 2;,
SSprod n_a13a true 0 [] 2;,
SSprod n_s312a false 2 [0] 1;,
SSprod n_s213a false 1 [0] 2;,
SSprod n_s343a false 2 [3] 2;,
SSprod n_s143a false 0 [3] 2;,
SSprod n_s341a false 2 [3] 0;,
SSprod n_s243a false 1 [3] 2;,
SSprod n_s342a false 2 [3] 1;,
SMemT n_preTU (((((EMemT n_sqrt2) *t (EMemT n_e)) *t (EMemT n_e)) *t (EMemT n_me)) /t (((((EUn D2T (ELit (4 # 1))) *t (EMemT n_MW)) *t (EMemT n_MW)) *t (EMemT n_SW)) *t (EMemT n_SW)));,
SMemT n_gL ((((EUn D2T (ELit (2 # 1))) *t (EMemT n_SW)) *t (EMemT n_SW)) -t (EUn D2T (ELit (1 # 1))));,
SMemT n_gR (((EUn D2T (ELit (2 # 1))) *t (EMemT n_SW)) *t (EMemT n_SW));,
SMemT n_preZ ((((EMemT n_sqrt2) *t (EMemT n_e)) *t (EMemT n_e)) /t (((((EUn D2T (ELit (4 # 1))) *t (EMemT n_MW)) *t (EMemT n_MW)) *t (EMemT n_SW)) *t (EMemT n_SW)))).
(** eeZh::set_masses: SM/eeZh.cpp 63-77 *)
Definition eeZh_set_masses : meth := mkMeth n_set_masses [(n_masse, PkT); (n_massh, PkT); (n_massW, PkT)]
(SMemT n_me (ELocT n_masse);,
SMemT n_mh (ELocT n_massh);,
SMemT n_MW (ELocT n_massW);,
SMemT n_MZ ((EMemT n_MW) /t (EMemT n_CW));,
SSetMass 0 (EMemT n_me);,
SSetMass 1 (EMemT n_me);,
SSetMass 2 (EMemT n_MZ);,
SSetMass 3 (EMemT n_mh);,
SPropMass n_prope (EMemT n_me);,
SPropMass n_propZ (EMemT n_MZ);,
SMemT n_preTU (((((EMemT n_sqrt2) *t (EMemT n_e)) *t (EMemT n_e)) *t (EMemT n_me)) /t (((((EUn D2T (ELit (4 # 1))) *t (EMemT n_MW)) *t (EMemT n_MW)) *t (EMemT n_SW)) *t (EMemT n_SW)));,
SMemT n_preZ ((((EMemT n_sqrt2) *t (EMemT n_e)) *t (EMemT n_e)) /t (((((EUn D2T (ELit (4 # 1))) *t (EMemT n_MW)) *t (EMemT n_MW)) *t (EMemT n_SW)) *t (EMemT n_SW)))).
(** eeZh::set_momenta: SM/eeZh.cpp 78-109 *)
Definition eeZh_set_momenta : meth := mkMeth n_set_momenta [(n_mom1, PkMom); (n_mom2, PkMom); (n_mom3, PkMom); (n_mom4, PkMom)]
(SSetMomentum 0 n_mom1;,
SSetMomentum 1 n_mom2;,
SSetMomentum 2 n_mom3;,
SSetMomentum 3 n_mom4;,
SUpdate n_s12s;,
SUpdate n_a12a;,
SUpdate n_s23s;,
SUpdate n_a23a;,
SUpdate n_s13s;,
SUpdate n_a13a;,
SUpdate n_s312a;,
SUpdate n_s213a;,
SUpdate n_s343a;,
SUpdate n_s143a;,
SUpdate n_s341a;,
SUpdate n_s243a;,
SUpdate n_s342a;,
SDeclT n_propSP 4;,
SDeclT n_propTP 4;,
SDeclT n_propUP 4;,
(SFor n_j (EInt 0) (EBin (CmpI CLt) (ELocI n_j) (EInt 4)) (EBin (OpI IAdd) (ELocI n_j) (EInt 1))
(SArrT n_propSP (AVar n_j) ((EArrT n_mom1 (AVar n_j)) +t (EArrT n_mom2 (AVar n_j)));,
SArrT n_propTP (AVar n_j) ((EArrT n_mom1 (AVar n_j)) -t (EArrT n_mom3 (AVar n_j)));,
SArrT n_propUP (AVar n_j) ((EArrT n_mom1 (AVar n_j)) -t (EArrT n_mom4 (AVar n_j)))));,
SMemC n_pDenS (EDen n_propZ n_propSP);,
SMemC n_pDenT (EDen n_prope n_propTP);,
SMemC n_pDenU (EDen n_prope n_propUP)).
(** eeZh::amp: SM/eeZh.cpp 114-158 *)
Definition eeZh_amp : meth := mkMeth n_amp [(n_ds1, PkI); (n_ds2, PkI); (n_ds3, PkI)]
(SLoc rC n_amplitude (EBin OpTTC (EUn I2T (EInt 0)) (EUn I2T (EInt 0)));,
SDecl rI n_ds3a;,
SDecl rI n_ds3b;,
SLoc rI n_nCombs (ENLoops [(AVar n_ds3)]);,
SLoc rT n_normFactor (ENorm [(AVar n_ds3)]);,
(SFor n_i (EInt 0) (EBin (CmpI CLt) (ELocI n_i) (ELocI n_nCombs)) (EBin (OpI IAdd) (ELocI n_i) (EInt 1))
(SSpins [(n_ds3, n_ds3a, n_ds3b)] (AVar n_i);,
SLoc rC n_amplitude ((ELocC n_amplitude) +c ((((ELocT n_normFactor) *t (EMemT n_preZ)) *tc (((((EMemT n_me) *t ((EMemT n_gL) -t (EMemT n_gR))) *tc ((EV n_a12a [(AVar n_ds1); (AVar n_ds2)]) -c (EV n_s12s [(AVar n_ds1); (AVar n_ds2)]))) *c (EV n_s343a [(AVar n_ds3a); (AVar n_ds3b)])) -c ((((EUn D2T (ELit (2 # 1))) *t (EMemT n_MZ)) *t (EMemT n_MZ)) *tc ((((EMemT n_gL) *tc (EV n_s23s [(AVar n_ds2); (AVar n_ds3a)])) *c (EV n_a13a [(AVar n_ds1); (AVar n_ds3b)])) +c (((EMemT n_gR) *tc (EV n_a23a [(AVar n_ds2); (AVar n_ds3a)])) *c (EV n_s13s [(AVar n_ds1); (AVar n_ds3b)])))))) /c (EMemC n_pDenS)));,
SLoc rC n_amplitude ((ELocC n_amplitude) +c ((((ELocT n_normFactor) *t (EMemT n_preTU)) *tc ((((EMemT n_gR) *tc (EV n_s13s [(AVar n_ds1); (AVar n_ds3a)])) *c ((((EUn D2T (EUn NegD (ELit (2 # 1)))) *t (EMemT n_me)) *tc (EV n_a23a [(AVar n_ds2); (AVar n_ds3b)])) +c (EV n_s243a [(AVar n_ds2); (AVar n_ds3b)]))) +c (((EMemT n_gL) *tc (EV n_a13a [(AVar n_ds1); (AVar n_ds3a)])) *c ((((EUn D2T (EUn NegD (ELit (2 # 1)))) *t (EMemT n_me)) *tc (EV n_s23s [(AVar n_ds2); (AVar n_ds3b)])) +c (EV n_s342a [(AVar n_ds3b); (AVar n_ds2)]))))) /c (EMemC n_pDenT)));,
SLoc rC n_amplitude ((ELocC n_amplitude) +c ((((ELocT n_normFactor) *t (EMemT n_preTU)) *tc ((((EMemT n_gL) *tc (EV n_s23s [(AVar n_ds2); (AVar n_ds3a)])) *c ((EV n_s143a [(AVar n_ds1); (AVar n_ds3b)]) -c (((EUn D2T (ELit (2 # 1))) *t (EMemT n_me)) *tc (EV n_a13a [(AVar n_ds1); (AVar n_ds3b)])))) +c (((EMemT n_gR) *tc (EV n_a23a [(AVar n_ds2); (AVar n_ds3a)])) *c ((EV n_s341a [(AVar n_ds3b); (AVar n_ds1)]) -c (((EUn D2T (ELit (2 # 1))) *t (EMemT n_me)) *tc (EV n_s13s [(AVar n_ds1); (AVar n_ds3b)])))))) /c (EMemC n_pDenU)))));,
SReturnC (ELocC n_amplitude)).
(** eeZh::amp2: SM/eeZh.cpp 161-174 *)
Definition eeZh_amp2 : meth := mkMeth n_amp2 []
(SLoc rT n_amp2 (EUn I2T (EInt 0));,
SDecl rC n_M;,
(SFor n_j1 (EUn NegI (EInt 1)) (EBin (CmpI CLe) (ELocI n_j1) (EInt 1)) (EBin (OpI IAdd) (ELocI n_j1) (EInt 2))
(SFor n_j2 (EUn NegI (EInt 1)) (EBin (CmpI CLe) (ELocI n_j2) (EInt 1)) (EBin (OpI IAdd) (ELocI n_j2) (EInt 2))
(SFor n_j3 (EUn NegI (EInt 2)) (EBin (CmpI CLe) (ELocI n_j3) (EInt 2)) (EBin (OpI IAdd) (ELocI n_j3) (EInt 2))
(SLoc rC n_M (ECall n_amp [(AVar n_j1); (AVar n_j2); (AVar n_j3)]);,
SLoc rT n_amp2 ((ELocT n_amp2) +t (EUn Pow2T (EUn AbsC (ELocC n_M))))))));,
SReturnT ((ELocT n_amp2) /t (EUn D2T (ELit (4 # 1))))).
(** members: SM/include/eeZh.h 26-36; initialisers: SM/eeZh.cpp 32-33 *)
Definition eeZh : cls := mkCls "eeZh"
[(n_e, KT);
(n_me, KT);
(n_mh, KT);
(n_wh, KT);
(n_MW, KT);
(n_SW, KT);
(n_CW, KT);
(n_MZ, KT);
(n_WZ, KT);
(n_p1, (KPart 0));
(n_p2, (KPart 1));
(n_p3, (KPart 2));
(n_p4, (KPart 3));
(n_propZ, KProp);
(n_prope, KProp);
(n_pDenS, KC);
(n_pDenT, KC);
(n_pDenU, KC);
(n_s12s, KSprod);
(n_a12a, KSprod);
(n_s23s, KSprod);
(n_a23a, KSprod);
(n_s13s, KSprod);
(n_a13a, KSprod);
(n_s312a, KSprod);
(n_s213a, KSprod);
(n_s343a, KSprod);
(n_s143a, KSprod);
(n_s341a, KSprod);
(n_s243a, KSprod);
(n_s342a, KSprod);
(n_sqrt2, KT);
(n_preTU, KT);
(n_preZ, KT);
(n_gL, KT);
(n_gR, KT)]
[n_echarge; n_masse; n_massh; n_widthh; n_massW; n_sinW; n_widthZ]
[(n_e, NT (ELocT n_echarge));
(n_me, NT (ELocT n_masse));
(n_mh, NT (ELocT n_massh));
(n_wh, NT (ELocT n_widthh));
(n_MW, NT (ELocT n_massW));
(n_SW, NT (ELocT n_sinW));
(n_CW, NT (EUn SqrtT ((EUn D2T (ELit (1 # 1))) -t ((ELocT n_sinW) *t (ELocT n_sinW)))));
(n_MZ, NT ((ELocT n_massW) /t (EMemT n_CW)));
(n_WZ, NT (ELocT n_widthZ));
(n_prope, NProp (ELocT n_masse) (EUn I2T (EInt 0)))]
eeZh_ctor
[eeZh_set_masses; eeZh_set_momenta; eeZh_amp; eeZh_amp2].

(** eeee::eeee: SM/eeee.cpp 32-58 *)
Definition eeee_ctor : stmt :=
(SMemT n_MZ ((EMemT n_MW) /t (EMemT n_CW));,
SPropMass n_propZ (EMemT n_MZ);,
SMemT n_preh (((((EMemT n_e) *t (EMemT n_e)) *t (EMemT n_me)) *t (EMemT n_me)) /t (((((EUn D2T (ELit (4 # 1))) *t (EMemT n_MW)) *t (EMemT n_MW)) *t (EMemT n_SW)) *t (EMemT n_SW)));,
SMemT n_gL ((((EUn D2T (ELit (2 # 1))) *t (EMemT n_SW)) *t (EMemT n_SW)) -t (EUn D2T (ELit (1 # 1))));,
SMemT n_gR (((EUn D2T (ELit (2 # 1))) *t (EMemT n_SW)) *t (EMemT n_SW));,
SMemT n_preZ (((EMemT n_e) *t (EMemT n_e)) /t (((((EUn D2T (ELit (4 # 1))) *t (EMemT n_CW)) *t (EMemT n_CW)) *t (EMemT n_SW)) *t (EMemT n_SW)));,
SMemT n_preZ0 (((((((EMemT n_preZ) *t ((EMemT n_gL) -t (EMemT n_gR))) *t ((EMemT n_gL) -t (EMemT n_gR))) *t (EMemT n_me)) *t (EMemT n_me)) /t (EMemT n_MZ)) /t (EMemT n_MZ))).
(** eeee::set_masses: SM/eeee.cpp 59-72 *)
Definition eeee_set_masses : meth := mkMeth n_set_masses [(n_masse, PkT); (n_massh, PkT); (n_massW, PkT)]
(SMemT n_me (ELocT n_masse);,
SMemT n_mh (ELocT n_massh);,
SPropMass n_proph (EMemT n_mh);,
SMemT n_MW (ELocT n_massW);,
SMemT n_MZ ((EMemT n_MW) /t (EMemT n_CW));,
SPropMass n_propZ (EMemT n_MZ);,
SSetMass 0 (EMemT n_me);,
SSetMass 1 (EMemT n_me);,
SSetMass 2 (EMemT n_me);,
SSetMass 3 (EMemT n_me);,
SMemT n_preh (((((EMemT n_e) *t (EMemT n_e)) *t (EMemT n_me)) *t (EMemT n_me)) /t (((((EUn I2T (EInt 4)) *t (EMemT n_MW)) *t (EMemT n_MW)) *t (EMemT n_SW)) *t (EMemT n_SW)));,
SMemT n_preZ0 (((((((EMemT n_preZ) *t ((EMemT n_gL) -t (EMemT n_gR))) *t ((EMemT n_gL) -t (EMemT n_gR))) *t (EMemT n_me)) *t (EMemT n_me)) /t (EMemT n_MZ)) /t (EMemT n_MZ))).
(** eeee::set_momenta: SM/eeee.cpp 73-103 *)
Definition eeee_set_momenta : meth := mkMeth n_set_momenta [(n_mom1, PkMom); (n_mom2, PkMom); (n_mom3, PkMom); (n_mom4, PkMom)]
(SSetMomentum 0 n_mom1;,
SSetMomentum 1 n_mom2;,
SSetMomentum 2 n_mom3;,
SSetMomentum 3 n_mom4;,
SUpdate n_a13a;,
SUpdate n_s13s;,
SUpdate n_a14a;,
SUpdate n_s14s;,
SUpdate n_a23a;,
SUpdate n_s23s;,
SUpdate n_a24a;,
SUpdate n_s24s;,
SUpdate n_s12s;,
SUpdate n_a12a;,
SUpdate n_s34s;,
SUpdate n_a34a;,
SDeclT n_propPS 4;,
SDeclT n_propPT 4;,
(SFor n_j (EInt 0) (EBin (CmpI CLt) (ELocI n_j) (EInt 4)) (EBin (OpI IAdd) (ELocI n_j) (EInt 1))
(SArrT n_propPS (AVar n_j) ((EArrT n_mom1 (AVar n_j)) +t (EArrT n_mom2 (AVar n_j)));,
SArrT n_propPT (AVar n_j) ((EArrT n_mom1 (AVar n_j)) -t (EArrT n_mom3 (AVar n_j)))));,
SMemC n_pDenSA (EDen n_propA n_propPS);,
SMemC n_pDenSh (EDen n_proph n_propPS);,
SMemC n_pDenSZ (EDen n_propZ n_propPS);,
SMemC n_pDenTA (EDen n_propA n_propPT);,
SMemC n_pDenTh (EDen n_proph n_propPT);,
SMemC n_pDenTZ (EDen n_propZ n_propPT)).
(** eeee::amp: SM/eeee.cpp 108-184 *)
Definition eeee_amp : meth := mkMeth n_amp [(n_ds1, PkI); (n_ds2, PkI); (n_ds3, PkI); (n_ds4, PkI)]
(SLoc rT n_one (EUn I2T (EInt 1));,
SLoc rT n_two (EUn I2T (EInt 2));,
SLoc rT n_four (EUn I2T (EInt 4));,
SLoc rT n_eight (EUn I2T (EInt 8));,
SLoc rC n_amplitude (EBin OpTTC (EUn I2T (EInt 0)) (EUn I2T (EInt 0)));,
SLoc rC n_amplitude ((ELocC n_amplitude) +c (((((ELocT n_two) *t (EMemT n_e)) *t (EMemT n_e)) *tc (((((EV n_a13a [(AVar n_ds1); (AVar n_ds3)]) *c (EV n_s24s [(AVar n_ds2); (AVar n_ds4)])) +c ((EV n_a14a [(AVar n_ds1); (AVar n_ds4)]) *c (EV n_s23s [(AVar n_ds2); (AVar n_ds3)]))) +c ((EV n_s13s [(AVar n_ds1); (AVar n_ds3)]) *c (EV n_a24a [(AVar n_ds2); (AVar n_ds4)]))) +c ((EV n_s14s [(AVar n_ds1); (AVar n_ds4)]) *c (EV n_a23a [(AVar n_ds2); (AVar n_ds3)])))) /c (EMemC n_pDenSA)));,
SLoc rC n_amplitude ((ELocC n_amplitude) +c (((((ELocT n_two) *t (EMemT n_e)) *t (EMemT n_e)) *tc (((((EV n_a12a [(AVar n_ds1); (AVar n_ds2)]) *c (EV n_s34s [(AVar n_ds3); (AVar n_ds4)])) +c ((EV n_a14a [(AVar n_ds1); (AVar n_ds4)]) *c (EV n_s23s [(AVar n_ds2); (AVar n_ds3)]))) +c ((EV n_s12s [(AVar n_ds1); (AVar n_ds2)]) *c (EV n_a34a [(AVar n_ds3); (AVar n_ds4)]))) +c ((EV n_s14s [(AVar n_ds1); (AVar n_ds4)]) *c (EV n_a23a [(AVar n_ds2); (AVar n_ds3)])))) /c (EMemC n_pDenTA)));,
SLoc rC n_amplitude ((ELocC n_amplitude) +c ((((EMemT n_preh) *tc ((EV n_s12s [(AVar n_ds1); (AVar n_ds2)]) +c (EV n_a12a [(AVar n_ds1); (AVar n_ds2)]))) *c ((EV n_s34s [(AVar n_ds3); (AVar n_ds4)]) +c (EV n_a34a [(AVar n_ds3); (AVar n_ds4)]))) /c (EMemC n_pDenSh)));,
SLoc rC n_amplitude ((ELocC n_amplitude) +c ((((EUn NegT (EMemT n_preh)) *tc ((EV n_s13s [(AVar n_ds1); (AVar n_ds3)]) -c (EV n_a13a [(AVar n_ds1); (AVar n_ds3)]))) *c ((EV n_s24s [(AVar n_ds2); (AVar n_ds4)]) -c (EV n_a24a [(AVar n_ds2); (AVar n_ds4)]))) /c (EMemC n_pDenTh)));,
SLoc rC n_amplitude ((ELocC n_amplitude) +c (((((EUn NegT (EMemT n_preZ0)) *tc ((EV n_a12a [(AVar n_ds1); (AVar n_ds2)]) -c (EV n_s12s [(AVar n_ds1); (AVar n_ds2)]))) *c ((EV n_a34a [(AVar n_ds3); (AVar n_ds4)]) -c (EV n_s34s [(AVar n_ds3); (AVar n_ds4)]))) /c (EMemC n_pDenSZ)) +c ((((ELocT n_two) *t (EMemT n_preZ)) *tc ((((((EMemT n_gL) *t (EMemT n_gL)) *tc (EV n_s23s [(AVar n_ds2); (AVar n_ds3)])) *c (EV n_a14a [(AVar n_ds1); (AVar n_ds4)])) +c (((EMemT n_gL) *t (EMemT n_gR)) *tc (((EV n_s13s [(AVar n_ds1); (AVar n_ds3)]) *c (EV n_a24a [(AVar n_ds2); (AVar n_ds4)])) +c ((EV n_s24s [(AVar n_ds2); (AVar n_ds4)]) *c (EV n_a13a [(AVar n_ds1); (AVar n_ds3)]))))) +c ((((EMemT n_gR) *t (EMemT n_gR)) *tc (EV n_s14s [(AVar n_ds1); (AVar n_ds4)])) *c (EV n_a23a [(AVar n_ds2); (AVar n_ds3)])))) /c (EMemC n_pDenSZ))));,
SLoc rC n_amplitude ((ELocC n_amplitude) +c (((((EMemT n_preZ0) *tc ((EV n_a13a [(AVar n_ds1); (AVar n_ds3)]) +c (EV n_s13s [(AVar n_ds1); (AVar n_ds3)]))) *c ((EV n_a24a [(AVar n_ds2); (AVar n_ds4)]) +c (EV n_s24s [(AVar n_ds2); (AVar n_ds4)]))) /c (EMemC n_pDenTZ)) +c ((((ELocT n_two) *t (EMemT n_preZ)) *tc ((((((EMemT n_gL) *t (EMemT n_gL)) *tc (EV n_s23s [(AVar n_ds2); (AVar n_ds3)])) *c (EV n_a14a [(AVar n_ds1); (AVar n_ds4)])) +c (((EMemT n_gL) *t (EMemT n_gR)) *tc (((EV n_s12s [(AVar n_ds1); (AVar n_ds2)]) *c (EV n_a34a [(AVar n_ds3); (AVar n_ds4)])) +c ((EV n_s34s [(AVar n_ds3); (AVar n_ds4)]) *c (EV n_a12a [(AVar n_ds1); (AVar n_ds2)]))))) +c ((((EMemT n_gR) *t (EMemT n_gR)) *tc (EV n_s14s [(AVar n_ds1); (AVar n_ds4)])) *c (EV n_a23a [(AVar n_ds2); (AVar n_ds3)])))) /c (EMemC n_pDenTZ))));,
SReturnC (ELocC n_amplitude)).
(** eeee::amp2: SM/eeee.cpp 187-202 *)
Definition eeee_amp2 : meth := mkMeth n_amp2 []
(SLoc rT n_amp2 (EUn I2T (EInt 0));,
SDecl rC n_M;,
(SFor n_j1 (EUn NegI (EInt 1)) (EBin (CmpI CLe) (ELocI n_j1) (EInt 1)) (EBin (OpI IAdd) (ELocI n_j1) (EInt 2))
(SFor n_j2 (EUn NegI (EInt 1)) (EBin (CmpI CLe) (ELocI n_j2) (EInt 1)) (EBin (OpI IAdd) (ELocI n_j2) (EInt 2))
(SFor n_j3 (EUn NegI (EInt 1)) (EBin (CmpI CLe) (ELocI n_j3) (EInt 1)) (EBin (OpI IAdd) (ELocI n_j3) (EInt 2))
(SFor n_j4 (EUn NegI (EInt 1)) (EBin (CmpI CLe) (ELocI n_j4) (EInt 1)) (EBin (OpI IAdd) (ELocI n_j4) (EInt 2))
(SLoc rC n_M (ECall n_amp [(AVar n_j1); (AVar n_j2); (AVar n_j3); (AVar n_j4)]);,
SLoc rT n_amp2 ((ELocT n_amp2) +t (EUn Pow2T (EUn AbsC (ELocC n_M)))))))));,
SReturnT ((ELocT n_amp2) /t (EUn D2T (ELit (4 # 1))))).
(** members: SM/include/eeee.h 26-33; initialisers: SM/eeee.cpp 32-48 *)
Definition eeee : cls := mkCls "eeee"
[(n_e, KT);
(n_me, KT);
(n_mh, KT);
(n_wh, KT);
(n_MZ, KT);
(n_WZ, KT);
(n_MW, KT);
(n_SW, KT);
(n_CW, KT);
(n_p1, (KPart 0));
(n_p2, (KPart 1));
(n_p3, (KPart 2));
(n_p4, (KPart 3));
(n_propA, KProp);
(n_proph, KProp);
(n_propZ, KProp);
(n_pDenSA, KC);
(n_pDenSh, KC);
(n_pDenSZ, KC);
(n_pDenTA, KC);
(n_pDenTh, KC);
(n_pDenTZ, KC);
(n_a13a, KSprod);
(n_s13s, KSprod);
(n_a14a, KSprod);
(n_s14s, KSprod);
(n_a23a, KSprod);
(n_s23s, KSprod);
(n_a24a, KSprod);
(n_s24s, KSprod);
(n_s12s, KSprod);
(n_a12a, KSprod);
(n_s34s, KSprod);
(n_a34a, KSprod);
(n_preh, KT);
(n_gL, KT);
(n_gR, KT);
(n_preZ, KT);
(n_preZ0, KT)]
[n_echarge; n_masse; n_massh; n_widthh; n_massW; n_sinW; n_widthZ]
[(n_e, NT (ELocT n_echarge));
(n_me, NT (ELocT n_masse));
(n_mh, NT (ELocT n_massh));
(n_wh, NT (ELocT n_widthh));
(n_MW, NT (ELocT n_massW));
(n_SW, NT (ELocT n_sinW));
(n_CW, NT (EUn SqrtT ((EUn D2T (ELit (1 # 1))) -t ((ELocT n_sinW) *t (ELocT n_sinW)))));
(n_WZ, NT (ELocT n_widthZ));
(n_propA, NProp (EUn I2T (EInt 0)) (EUn I2T (EInt 0)));
(n_proph, NProp (EMemT n_mh) (EMemT n_wh));
(n_p1, NPart (EMemT n_me));
(n_p2, NPart (EMemT n_me));
(n_p3, NPart (EMemT n_me));
(n_p4, NPart (EMemT n_me));
(n_a13a, NSprod true 0 [] 2);
(n_s13s, NSprod false 0 [] 2);
(n_a14a, NSprod true 0 [] 3);
(n_s14s, NSprod false 0 [] 3);
(n_a23a, NSprod true 1 [] 2);
(n_s23s, NSprod false 1 [] 2);
(n_a24a, NSprod true 1 [] 3);
(n_s24s, NSprod false 1 [] 3);
(n_s12s, NSprod false 0 [] 1);
(n_a12a, NSprod true 0 [] 1);
(n_s34s, NSprod false 2 [] 3);
(n_a34a, NSprod true 2 [] 3)]
eeee_ctor
[eeee_set_masses; eeee_set_momenta; eeee_amp; eeee_amp2].

(** eeee2::eeee2: SM/eeee2.cpp 32-58 *)
Definition eeee2_ctor : stmt :=
(SMemT n_MZ ((EMemT n_MW) /t (EMemT n_CW));,
SPropMass n_propZ (EMemT n_MZ);,
SMemT n_preh (((((EMemT n_e) *t (EMemT n_e)) *t (EMemT n_me)) *t (EMemT n_me)) /t (((((EUn D2T (ELit (4 # 1))) *t (EMemT n_MW)) *t (EMemT n_MW)) *t (EMemT n_SW)) *t (EMemT n_SW)));,
SMemT n_gL ((((EUn D2T (ELit (2 # 1))) *t (EMemT n_SW)) *t (EMemT n_SW)) -t (EUn D2T (ELit (1 # 1))));,
SMemT n_gR (((EUn D2T (ELit (2 # 1))) *t (EMemT n_SW)) *t (EMemT n_SW));,
SMemT n_preZ (((EMemT n_e) *t (EMemT n_e)) /t (((((EUn D2T (ELit (4 # 1))) *t (EMemT n_CW)) *t (EMemT n_CW)) *t (EMemT n_SW)) *t (EMemT n_SW)));,
SMemT n_preZ0 (((((((EMemT n_preZ) *t ((EMemT n_gL) -t (EMemT n_gR))) *t ((EMemT n_gL) -t (EMemT n_gR))) *t (EMemT n_me)) *t (EMemT n_me)) /t (EMemT n_MZ)) /t (EMemT n_MZ))).
(** eeee2::set_masses: SM/eeee2.cpp 59-72 *)
Definition eeee2_set_masses : meth := mkMeth n_set_masses [(n_masse, PkT); (n_massh, PkT); (n_massW, PkT)]
(SMemT n_me (ELocT n_masse);,
SMemT n_mh (ELocT n_massh);,
SPropMass n_proph (EMemT n_mh);,
SMemT n_MW (ELocT n_massW);,
SMemT n_MZ ((EMemT n_MW) /t (EMemT n_CW));,
SPropMass n_propZ (EMemT n_MZ);,
SSetMass 0 (EMemT n_me);,
SSetMass 1 (EMemT n_me);,
SSetMass 2 (EMemT n_me);,
SSetMass 3 (EMemT n_me);,
SMemT n_preh (((((EMemT n_e) *t (EMemT n_e)) *t (EMemT n_me)) *t (EMemT n_me)) /t (((((EUn I2T (EInt 4)) *t (EMemT n_MW)) *t (EMemT n_MW)) *t (EMemT n_SW)) *t (EMemT n_SW)));,
SMemT n_preZ0 (((((((EMemT n_preZ) *t ((EMemT n_gL) -t (EMemT n_gR))) *t ((EMemT n_gL) -t (EMemT n_gR))) *t (EMemT n_me)) *t (EMemT n_me)) /t (EMemT n_MZ)) /t (EMemT n_MZ))).
(** eeee2::set_momenta: SM/eeee2.cpp 73-103 *)
Definition eeee2_set_momenta : meth := mkMeth n_set_momenta [(n_mom1, PkMom); (n_mom2, PkMom); (n_mom3, PkMom); (n_mom4, PkMom)]
(SSetMomentum 0 n_mom1;,
SSetMomentum 1 n_mom2;,
SSetMomentum 2 n_mom3;,
SSetMomentum 3 n_mom4;,
SUpdate n_a13a;,
SUpdate n_s13s;,
SUpdate n_a14a;,
SUpdate n_s14s;,
SUpdate n_a23a;,
SUpdate n_s23s;,
SUpdate n_a24a;,
SUpdate n_s24s;,
SUpdate n_s12s;,
SUpdate n_a12a;,
SUpdate n_s34s;,
SUpdate n_a34a;,
SDeclT n_propPU 4;,
SDeclT n_propPT 4;,
(SFor n_j (EInt 0) (EBin (CmpI CLt) (ELocI n_j) (EInt 4)) (EBin (OpI IAdd) (ELocI n_j) (EInt 1))
(SArrT n_propPU (AVar n_j) ((EArrT n_mom1 (AVar n_j)) -t (EArrT n_mom4 (AVar n_j)));,
SArrT n_propPT (AVar n_j) ((EArrT n_mom1 (AVar n_j)) -t (EArrT n_mom3 (AVar n_j)))));,
SMemC n_pDenUA (EDen n_propA n_propPU);,
SMemC n_pDenUh (EDen n_proph n_propPU);,
SMemC n_pDenUZ (EDen n_propZ n_propPU);,
SMemC n_pDenTA (EDen n_propA n_propPT);,
SMemC n_pDenTh (EDen n_proph n_propPT);,
SMemC n_pDenTZ (EDen n_propZ n_propPT)).
(** eeee2::amp: SM/eeee2.cpp 108-203 *)
Definition eeee2_amp : meth := mkMeth n_amp [(n_ds1, PkI); (n_ds2, PkI); (n_ds3, PkI); (n_ds4, PkI)]
(SLoc rT n_one (EUn I2T (EInt 1));,
SLoc rT n_two (EUn I2T (EInt 2));,
SLoc rT n_four (EUn I2T (EInt 4));,
SLoc rT n_eight (EUn I2T (EInt 8));,
SLoc rC n_amplitude (EBin OpTTC (EUn I2T (EInt 0)) (EUn I2T (EInt 0)));,
SLoc rC n_amplitude ((ELocC n_amplitude) +c (((((EUn NegT (ELocT n_two)) *t (EMemT n_e)) *t (EMemT n_e)) *tc (((((EV n_a13a [(AVar n_ds1); (AVar n_ds3)]) *c (EV n_s24s [(AVar n_ds2); (AVar n_ds4)])) -c ((EV n_a12a [(AVar n_ds1); (AVar n_ds2)]) *c (EV n_s34s [(AVar n_ds3); (AVar n_ds4)]))) +c ((EV n_s13s [(AVar n_ds1); (AVar n_ds3)]) *c (EV n_a24a [(AVar n_ds2); (AVar n_ds4)]))) -c ((EV n_s12s [(AVar n_ds1); (AVar n_ds2)]) *c (EV n_a34a [(AVar n_ds3); (AVar n_ds4)])))) /c (EMemC n_pDenUA)));,
SLoc rC n_amplitude ((ELocC n_amplitude) +c (((((ELocT n_two) *t (EMemT n_e)) *t (EMemT n_e)) *tc (((((EV n_a14a [(AVar n_ds1); (AVar n_ds4)]) *c (EV n_s23s [(AVar n_ds2); (AVar n_ds3)])) +c ((EV n_a12a [(AVar n_ds1); (AVar n_ds2)]) *c (EV n_s34s [(AVar n_ds3); (AVar n_ds4)]))) +c ((EV n_s14s [(AVar n_ds1); (AVar n_ds4)]) *c (EV n_a23a [(AVar n_ds2); (AVar n_ds3)]))) +c ((EV n_s12s [(AVar n_ds1); (AVar n_ds2)]) *c (EV n_a34a [(AVar n_ds3); (AVar n_ds4)])))) /c (EMemC n_pDenTA)));,
SLoc rC n_amplitude ((ELocC n_amplitude) +c ((((EUn NegT (EMemT n_preh)) *tc ((EV n_s14s [(AVar n_ds1); (AVar n_ds4)]) -c (EV n_a14a [(AVar n_ds1); (AVar n_ds4)]))) *c ((EV n_s23s [(AVar n_ds2); (AVar n_ds3)]) -c (EV n_a23a [(AVar n_ds2); (AVar n_ds3)]))) /c (EMemC n_pDenUh)));,
SLoc rC n_amplitude ((ELocC n_amplitude) +c ((((EMemT n_preh) *tc ((EV n_s13s [(AVar n_ds1); (AVar n_ds3)]) -c (EV n_a13a [(AVar n_ds1); (AVar n_ds3)]))) *c ((EV n_s24s [(AVar n_ds2); (AVar n_ds4)]) -c (EV n_a24a [(AVar n_ds2); (AVar n_ds4)]))) /c (EMemC n_pDenTh)));,
SLoc rC n_amplitude ((ELocC n_amplitude) +c (((((EMemT n_preZ0) *tc ((EV n_a14a [(AVar n_ds1); (AVar n_ds4)]) +c (EV n_s14s [(AVar n_ds1); (AVar n_ds4)]))) *c ((EV n_a23a [(AVar n_ds2); (AVar n_ds3)]) +c (EV n_s23s [(AVar n_ds2); (AVar n_ds3)]))) /c (EMemC n_pDenUZ)) +c ((((ELocT n_two) *t (EMemT n_preZ)) *tc ((((((EMemT n_gL) *t (EMemT n_gL)) *tc (EV n_s34s [(AVar n_ds3); (AVar n_ds4)])) *c (EV n_a12a [(AVar n_ds1); (AVar n_ds2)])) -c (((EMemT n_gL) *t (EMemT n_gR)) *tc (((EV n_s13s [(AVar n_ds1); (AVar n_ds3)]) *c (EV n_a24a [(AVar n_ds2); (AVar n_ds4)])) +c ((EV n_s24s [(AVar n_ds2); (AVar n_ds4)]) *c (EV n_a13a [(AVar n_ds1); (AVar n_ds3)]))))) +c ((((EMemT n_gR) *t (EMemT n_gR)) *tc (EV n_s12s [(AVar n_ds1); (AVar n_ds2)])) *c (EV n_a34a [(AVar n_ds3); (AVar n_ds4)])))) /c (EMemC n_pDenUZ))));,
SLoc rC n_amplitude ((ELocC n_amplitude) +c (((((EUn NegT (EMemT n_preZ0)) *tc ((EV n_a13a [(AVar n_ds1); (AVar n_ds3)]) +c (EV n_s13s [(AVar n_ds1); (AVar n_ds3)]))) *c ((EV n_a24a [(AVar n_ds2); (AVar n_ds4)]) +c (EV n_s24s [(AVar n_ds2); (AVar n_ds4)]))) /c (EMemC n_pDenTZ)) +c ((((ELocT n_two) *t (EMemT n_preZ)) *tc ((((((EMemT n_gL) *t (EMemT n_gL)) *tc (EV n_s34s [(AVar n_ds3); (AVar n_ds4)])) *c (EV n_a12a [(AVar n_ds1); (AVar n_ds2)])) +c (((EMemT n_gL) *t (EMemT n_gR)) *tc (((EV n_s14s [(AVar n_ds1); (AVar n_ds4)]) *c (EV n_a23a [(AVar n_ds2); (AVar n_ds3)])) +c ((EV n_s23s [(AVar n_ds2); (AVar n_ds3)]) *c (EV n_a14a [(AVar n_ds1); (AVar n_ds4)]))))) +c ((((EMemT n_gR) *t (EMemT n_gR)) *tc (EV n_s12s [(AVar n_ds1); (AVar n_ds2)])) *c (EV n_a34a [(AVar n_ds3); (AVar n_ds4)])))) /c (EMemC n_pDenTZ))));,
SReturnC (ELocC n_amplitude)).
(** eeee2::amp2: SM/eeee2.cpp 206-222 *)
Definition eeee2_amp2 : meth := mkMeth n_amp2 []
(SLoc rT n_amp2 (EUn I2T (EInt 0));,
SDecl rC n_M;,
(SFor n_j1 (EUn NegI (EInt 1)) (EBin (CmpI CLe) (ELocI n_j1) (EInt 1)) (EBin (OpI IAdd) (ELocI n_j1) (EInt 2))
(SFor n_j2 (EUn NegI (EInt 1)) (EBin (CmpI CLe) (ELocI n_j2) (EInt 1)) (EBin (OpI IAdd) (ELocI n_j2) (EInt 2))
(SFor n_j3 (EUn NegI (EInt 1)) (EBin (CmpI CLe) (ELocI n_j3) (EInt 1)) (EBin (OpI IAdd) (ELocI n_j3) (EInt 2))
(SFor n_j4 (EUn NegI (EInt 1)) (EBin (CmpI CLe) (ELocI n_j4) (EInt 1)) (EBin (OpI IAdd) (ELocI n_j4) (EInt 2))
(SLoc rC n_M (ECall n_amp [(AVar n_j1); (AVar n_j2); (AVar n_j3); (AVar n_j4)]);,
SLoc rT n_amp2 ((ELocT n_amp2) +t (EUn Pow2T (EUn AbsC (ELocC n_M)))))))));,
SReturnT ((ELocT n_amp2) /t (EUn D2T (ELit (8 # 1))))).
(** members: SM/include/eeee2.h 26-33; initialisers: SM/eeee2.cpp 32-48 *)
Definition eeee2 : cls := mkCls "eeee2"
[(n_e, KT);
(n_me, KT);
(n_mh, KT);
(n_wh, KT);
(n_MZ, KT);
(n_WZ, KT);
(n_MW, KT);
(n_SW, KT);
(n_CW, KT);
(n_p1, (KPart 0));
(n_p2, (KPart 1));
(n_p3, (KPart 2));
(n_p4, (KPart 3));
(n_propA, KProp);
(n_proph, KProp);
(n_propZ, KProp);
(n_pDenUA, KC);
(n_pDenUh, KC);
(n_pDenUZ, KC);
(n_pDenTA, KC);
(n_pDenTh, KC);
(n_pDenTZ, KC);
(n_a13a, KSprod);
(n_s13s, KSprod);
(n_a14a, KSprod);
(n_s14s, KSprod);
(n_a23a, KSprod);
(n_s23s, KSprod);
(n_a24a, KSprod);
(n_s24s, KSprod);
(n_s12s, KSprod);
(n_a12a, KSprod);
(n_s34s, KSprod);
(n_a34a, KSprod);
(n_preh, KT);
(n_gL, KT);
(n_gR, KT);
(n_preZ, KT);
(n_preZ0, KT)]
[n_echarge; n_masse; n_massh; n_widthh; n_massW; n_sinW; n_widthZ]
[(n_e, NT (ELocT n_echarge));
(n_me, NT (ELocT n_masse));
(n_mh, NT (ELocT n_massh));
(n_wh, NT (ELocT n_widthh));
(n_MW, NT (ELocT n_massW));
(n_SW, NT (ELocT n_sinW));
(n_CW, NT (EUn SqrtT ((EUn D2T (ELit (1 # 1))) -t ((ELocT n_sinW) *t (ELocT n_sinW)))));
(n_WZ, NT (ELocT n_widthZ));
(n_propA, NProp (EUn I2T (EInt 0)) (EUn I2T (EInt 0)));
(n_proph, NProp (EMemT n_mh) (EMemT n_wh));
(n_p1, NPart (EMemT n_me));
(n_p2, NPart (EMemT n_me));
(n_p3, NPart (EMemT n_me));
(n_p4, NPart (EMemT n_me));
(n_a13a, NSprod true 0 [] 2);
(n_s13s, NSprod false 0 [] 2);
(n_a14a, NSprod true 0 [] 3);
(n_s14s, NSprod false 0 [] 3);
(n_a23a, NSprod true 1 [] 2);
(n_s23s, NSprod false 1 [] 2);
(n_a24a, NSprod true 1 [] 3);
(n_s24s, NSprod false 1 [] 3);
(n_s12s, NSprod false 0 [] 1);
(n_a12a, NSprod true 0 [] 1);
(n_s34s, NSprod false 2 [] 3);
(n_a34a, NSprod true 2 [] 3)]
eeee2_ctor
[eeee2_set_masses; eeee2_set_momenta; eeee2_amp; eeee2_amp2].

(** eeeeQED::eeeeQED: SM/eeeeQED.cpp 32-50 *)
Definition eeeeQED_ctor : stmt :=
(SParticle 0 (EMemT n_me);,
SParticle 1 (EMemT n_me);,
SParticle 2 (EMemT n_me);,
SParticle 3 (EMemT n_me);,
SSprod n_a13a true 0 [] 2;,
SSprod n_s13s false 0 [] 2;,
SSprod n_a14a true 0 [] 3;,
SSprod n_s14s false 0 [] 3;,
SSprod n_a23a true 1 [] 2;,
SSprod n_s23s false 1 [] 2;,
SSprod n_a24a true 1 [] 3;,
SSprod n_s24s false 1 [] 3;,
SSprod n_a12a true 0 [] 1;,
SSprod n_s34s false 2 [] 3;,
SSprod n_s12s false 0 [] 1;,
SSprod n_a34a true 2 [] 3).
(** eeeeQED::set_masses: SM/eeeeQED.cpp 51-57 *)
Definition eeeeQED_set_masses : meth := mkMeth n_set_masses [(n_masse, PkT)]
(SMemT n_me (ELocT n_masse);,
SSetMass 0 (EMemT n_me);,
SSetMass 1 (EMemT n_me);,
SSetMass 2 (EMemT n_me);,
SSetMass 3 (EMemT n_me)).
(** eeeeQED::set_momenta: SM/eeeeQED.cpp 58-84 *)
Definition eeeeQED_set_momenta : meth := mkMeth n_set_momenta [(n_mom1, PkMom); (n_mom2, PkMom); (n_mom3, PkMom); (n_mom4, PkMom)]
(SSetMomentum 0 n_mom1;,
SSetMomentum 1 n_mom2;,
SSetMomentum 2 n_mom3;,
SSetMomentum 3 n_mom4;,
SUpdate n_a13a;,
SUpdate n_s13s;,
SUpdate n_a14a;,
SUpdate n_s14s;,
SUpdate n_a23a;,
SUpdate n_s23s;,
SUpdate n_a24a;,
SUpdate n_s24s;,
SUpdate n_a12a;,
SUpdate n_s34s;,
SUpdate n_s12s;,
SUpdate n_a34a;,
SDeclT n_propSP 4;,
SDeclT n_propTP 4;,
(SFor n_j (EInt 0) (EBin (CmpI CLt) (ELocI n_j) (EInt 4)) (EBin (OpI IAdd) (ELocI n_j) (EInt 1))
(SArrT n_propSP (AVar n_j) ((EArrT n_mom1 (AVar n_j)) +t (EArrT n_mom2 (AVar n_j)));,
SArrT n_propTP (AVar n_j) ((EArrT n_mom1 (AVar n_j)) -t (EArrT n_mom3 (AVar n_j)))));,
SMemC n_pDenS (EDen n_prop n_propSP);,
SMemC n_pDenT (EDen n_prop n_propTP)).
(** eeeeQED::amp: SM/eeeeQED.cpp 91-97 *)
Definition eeeeQED_amp : meth := mkMeth n_amp [(n_ds1, PkI); (n_ds2, PkI); (n_ds3, PkI); (n_ds4, PkI)]
(SReturnC ((((((EUn D2T (EUn NegD (ELit (2 # 1)))) *t (EMemT n_e)) *t (EMemT n_e)) *tc (((((EV n_a13a [(AVar n_ds1); (AVar n_ds3)]) *c (EV n_s24s [(AVar n_ds2); (AVar n_ds4)])) +c ((EV n_a14a [(AVar n_ds1); (AVar n_ds4)]) *c (EV n_s23s [(AVar n_ds2); (AVar n_ds3)]))) +c ((EV n_s13s [(AVar n_ds1); (AVar n_ds3)]) *c (EV n_a24a [(AVar n_ds2); (AVar n_ds4)]))) +c ((EV n_s14s [(AVar n_ds1); (AVar n_ds4)]) *c (EV n_a23a [(AVar n_ds2); (AVar n_ds3)])))) /c (EMemC n_pDenS)) -c (((((EUn D2T (ELit (2 # 1))) *t (EMemT n_e)) *t (EMemT n_e)) *tc (((((EV n_a12a [(AVar n_ds1); (AVar n_ds2)]) *c (EV n_s34s [(AVar n_ds3); (AVar n_ds4)])) +c ((EV n_a14a [(AVar n_ds1); (AVar n_ds4)]) *c (EV n_s23s [(AVar n_ds2); (AVar n_ds3)]))) +c ((EV n_s12s [(AVar n_ds1); (AVar n_ds2)]) *c (EV n_a34a [(AVar n_ds3); (AVar n_ds4)]))) +c ((EV n_s14s [(AVar n_ds1); (AVar n_ds4)]) *c (EV n_a23a [(AVar n_ds2); (AVar n_ds3)])))) /c (EMemC n_pDenT)))).
(** eeeeQED::amp2: SM/eeeeQED.cpp 99-113 *)
Definition eeeeQED_amp2 : meth := mkMeth n_amp2 []
(SLoc rT n_amp2 (EUn I2T (EInt 0));,
SDecl rC n_M;,
(SFor n_j1 (EUn NegI (EInt 1)) (EBin (CmpI CLe) (ELocI n_j1) (EInt 1)) (EBin (OpI IAdd) (ELocI n_j1) (EInt 2))
(SFor n_j2 (EUn NegI (EInt 1)) (EBin (CmpI CLe) (ELocI n_j2) (EInt 1)) (EBin (OpI IAdd) (ELocI n_j2) (EInt 2))
(SFor n_j3 (EUn NegI (EInt 1)) (EBin (CmpI CLe) (ELocI n_j3) (EInt 1)) (EBin (OpI IAdd) (ELocI n_j3) (EInt 2))
(SFor n_j4 (EUn NegI (EInt 1)) (EBin (CmpI CLe) (ELocI n_j4) (EInt 1)) (EBin (OpI IAdd) (ELocI n_j4) (EInt 2))
(SLoc rC n_M (ECall n_amp [(AVar n_j1); (AVar n_j2); (AVar n_j3); (AVar n_j4)]);,
SLoc rT n_amp2 ((ELocT n_amp2) +t (EUn Pow2T (EUn AbsC (ELocC n_M)))))))));,
SReturnT ((ELocT n_amp2) /t (EUn D2T (ELit (4 # 1))))).
(** eeeeQED::amp2_momenta: SM/eeeeQED.cpp 116-169 *)
Definition eeeeQED_amp2_momenta : meth := mkMeth n_amp2_momenta [(n_mom1, PkMom); (n_mom2, PkMom); (n_mom3, PkMom); (n_mom4, PkMom)]
(SSetMomentum 0 n_mom1;,
SSetMomentum 1 n_mom2;,
SSetMomentum 2 n_mom3;,
SSetMomentum 3 n_mom4;,
SDeclT n_propSP 4;,
SDeclT n_propTP 4;,
(SFor n_j (EInt 0) (EBin (CmpI CLt) (ELocI n_j) (EInt 4)) (EBin (OpI IAdd) (ELocI n_j) (EInt 1))
(SArrT n_propSP (AVar n_j) ((EArrT n_mom1 (AVar n_j)) +t (EArrT n_mom2 (AVar n_j)));,
SArrT n_propTP (AVar n_j) ((EArrT n_mom1 (AVar n_j)) -t (EArrT n_mom3 (AVar n_j)))));,
SMemC n_pDenS (EDen n_prop n_propSP);,
SMemC n_pDenT (EDen n_prop n_propTP);,
SLoc rT n_amp2 (EUn I2T (EInt 0));,
SDeclC n_a13 [2; 2];,
SDeclC n_s13 [2; 2];,
SDeclC n_a14 [2; 2];,
SDeclC n_s14 [2; 2];,
SDeclC n_a23 [2; 2];,
SDeclC n_s23 [2; 2];,
SDeclC n_a24 [2; 2];,
SDeclC n_s24 [2; 2];,
SDeclC n_a12 [2; 2];,
SDeclC n_s34 [2; 2];,
SDeclC n_s12 [2; 2];,
SDeclC n_a34 [2; 2];,
(SFor n_i (EInt 0) (EBin (CmpI CLt) (ELocI n_i) (EInt 2)) (EBin (OpI IAdd) (ELocI n_i) (EInt 1))
(SFor n_j (EInt 0) (EBin (CmpI CLt) (ELocI n_j) (EInt 2)) (EBin (OpI IAdd) (ELocI n_j) (EInt 1))
(SArrC n_a13 [(AVar n_i); (AVar n_j)] (EBin OpVV (ESpinor1 0 LAngle (EBin (OpI ISub) (EBin (OpI IMul) (EInt 2) (ELocI n_i)) (EInt 1))) (ESpinor1 2 RAngle (EBin (OpI ISub) (EBin (OpI IMul) (EInt 2) (ELocI n_j)) (EInt 1))));,
SArrC n_s13 [(AVar n_i); (AVar n_j)] (EBin OpVV (ESpinor1 0 LSquare (EBin (OpI ISub) (EBin (OpI IMul) (EInt 2) (ELocI n_i)) (EInt 1))) (ESpinor1 2 RSquare (EBin (OpI ISub) (EBin (OpI IMul) (EInt 2) (ELocI n_j)) (EInt 1))));,
SArrC n_a14 [(AVar n_i); (AVar n_j)] (EBin OpVV (ESpinor1 0 LAngle (EBin (OpI ISub) (EBin (OpI IMul) (EInt 2) (ELocI n_i)) (EInt 1))) (ESpinor1 3 RAngle (EBin (OpI ISub) (EBin (OpI IMul) (EInt 2) (ELocI n_j)) (EInt 1))));,
SArrC n_s14 [(AVar n_i); (AVar n_j)] (EBin OpVV (ESpinor1 0 LSquare (EBin (OpI ISub) (EBin (OpI IMul) (EInt 2) (ELocI n_i)) (EInt 1))) (ESpinor1 3 RSquare (EBin (OpI ISub) (EBin (OpI IMul) (EInt 2) (ELocI n_j)) (EInt 1))));,
SArrC n_a23 [(AVar n_i); (AVar n_j)] (EBin OpVV (ESpinor1 1 LAngle (EBin (OpI ISub) (EBin (OpI IMul) (EInt 2) (ELocI n_i)) (EInt 1))) (ESpinor1 2 RAngle (EBin (OpI ISub) (EBin (OpI IMul) (EInt 2) (ELocI n_j)) (EInt 1))));,
SArrC n_s23 [(AVar n_i); (AVar n_j)] (EBin OpVV (ESpinor1 1 LSquare (EBin (OpI ISub) (EBin (OpI IMul) (EInt 2) (ELocI n_i)) (EInt 1))) (ESpinor1 2 RSquare (EBin (OpI ISub) (EBin (OpI IMul) (EInt 2) (ELocI n_j)) (EInt 1))));,
SArrC n_a24 [(AVar n_i); (AVar n_j)] (EBin OpVV (ESpinor1 1 LAngle (EBin (OpI ISub) (EBin (OpI IMul) (EInt 2) (ELocI n_i)) (EInt 1))) (ESpinor1 3 RAngle (EBin (OpI ISub) (EBin (OpI IMul) (EInt 2) (ELocI n_j)) (EInt 1))));,
SArrC n_s24 [(AVar n_i); (AVar n_j)] (EBin OpVV (ESpinor1 1 LSquare (EBin (OpI ISub) (EBin (OpI IMul) (EInt 2) (ELocI n_i)) (EInt 1))) (ESpinor1 3 RSquare (EBin (OpI ISub) (EBin (OpI IMul) (EInt 2) (ELocI n_j)) (EInt 1))));,
SArrC n_a12 [(AVar n_i); (AVar n_j)] (EBin OpVV (ESpinor1 0 LAngle (EBin (OpI ISub) (EBin (OpI IMul) (EInt 2) (ELocI n_i)) (EInt 1))) (ESpinor1 1 RAngle (EBin (OpI ISub) (EBin (OpI IMul) (EInt 2) (ELocI n_j)) (EInt 1))));,
SArrC n_s34 [(AVar n_i); (AVar n_j)] (EBin OpVV (ESpinor1 2 LSquare (EBin (OpI ISub) (EBin (OpI IMul) (EInt 2) (ELocI n_i)) (EInt 1))) (ESpinor1 3 RSquare (EBin (OpI ISub) (EBin (OpI IMul) (EInt 2) (ELocI n_j)) (EInt 1))));,
SArrC n_s12 [(AVar n_i); (AVar n_j)] (EBin OpVV (ESpinor1 0 LSquare (EBin (OpI ISub) (EBin (OpI IMul) (EInt 2) (ELocI n_i)) (EInt 1))) (ESpinor1 1 RSquare (EBin (OpI ISub) (EBin (OpI IMul) (EInt 2) (ELocI n_j)) (EInt 1))));,
SArrC n_a34 [(AVar n_i); (AVar n_j)] (EBin OpVV (ESpinor1 2 LAngle (EBin (OpI ISub) (EBin (OpI IMul) (EInt 2) (ELocI n_i)) (EInt 1))) (ESpinor1 3 RAngle (EBin (OpI ISub) (EBin (OpI IMul) (EInt 2) (ELocI n_j)) (EInt 1)))))));,
SDecl rC n_M;,
SLoc rT n_two (EUn I2T (EInt 2));,
(SFor n_j1 (EInt 0) (EBin (CmpI CLt) (ELocI n_j1) (EInt 2)) (EBin (OpI IAdd) (ELocI n_j1) (EInt 1))
(SFor n_j2 (EInt 0) (EBin (CmpI CLt) (ELocI n_j2) (EInt 2)) (EBin (OpI IAdd) (ELocI n_j2) (EInt 1))
(SFor n_j3 (EInt 0) (EBin (CmpI CLt) (ELocI n_j3) (EInt 2)) (EBin (OpI IAdd) (ELocI n_j3) (EInt 1))
(SFor n_j4 (EInt 0) (EBin (CmpI CLt) (ELocI n_j4) (EInt 2)) (EBin (OpI IAdd) (ELocI n_j4) (EInt 1))
(SLoc rC n_M ((((EUn NegT (ELocT n_two)) *tc (((((EArrC n_a13 [(AVar n_j1); (AVar n_j3)]) *c (EArrC n_s24 [(AVar n_j2); (AVar n_j4)])) +c ((EArrC n_a14 [(AVar n_j1); (AVar n_j4)]) *c (EArrC n_s23 [(AVar n_j2); (AVar n_j3)]))) +c ((EArrC n_s13 [(AVar n_j1); (AVar n_j3)]) *c (EArrC n_a24 [(AVar n_j2); (AVar n_j4)]))) +c ((EArrC n_s14 [(AVar n_j1); (AVar n_j4)]) *c (EArrC n_a23 [(AVar n_j2); (AVar n_j3)])))) /c (EMemC n_pDenS)) -c (((ELocT n_two) *tc (((((EArrC n_a12 [(AVar n_j1); (AVar n_j2)]) *c (EArrC n_s34 [(AVar n_j3); (AVar n_j4)])) +c ((EArrC n_a14 [(AVar n_j1); (AVar n_j4)]) *c (EArrC n_s23 [(AVar n_j2); (AVar n_j3)]))) +c ((EArrC n_s12 [(AVar n_j1); (AVar n_j2)]) *c (EArrC n_a34 [(AVar n_j3); (AVar n_j4)]))) +c ((EArrC n_s14 [(AVar n_j1); (AVar n_j4)]) *c (EArrC n_a23 [(AVar n_j2); (AVar n_j3)])))) /c (EMemC n_pDenT)));,
SLoc rT n_amp2 ((ELocT n_amp2) +t (EUn Pow2T (EUn AbsC (ELocC n_M)))))))));,
SReturnT ((((((EMemT n_e) *t (EMemT n_e)) *t (EMemT n_e)) *t (EMemT n_e)) *t (ELocT n_amp2)) /t (EUn D2T (ELit (4 # 1))))).
(** members: SM/include/eeeeQED.h 26-32; initialisers: SM/eeeeQED.cpp 32-33 *)
Definition eeeeQED : cls := mkCls "eeeeQED"
[(n_e, KT);
(n_me, KT);
(n_p1, (KPart 0));
(n_p2, (KPart 1));
(n_p3, (KPart 2));
(n_p4, (KPart 3));
(n_prop, KProp);
(n_pDenS, KC);
(n_pDenT, KC);
(n_a13a, KSprod);
(n_s13s, KSprod);
(n_a14a, KSprod);
(n_s14s, KSprod);
(n_a23a, KSprod);
(n_s23s, KSprod);
(n_a24a, KSprod);
(n_s24s, KSprod);
(n_a12a, KSprod);
(n_s34s, KSprod);
(n_s12s, KSprod);
(n_a34a, KSprod)]
[n_echarge; n_masse]
[(n_e, NT (ELocT n_echarge));
(n_me, NT (ELocT n_masse));
(n_prop, NProp (EUn I2T (EInt 0)) (EUn I2T (EInt 0)))]
eeeeQED_ctor
[eeeeQED_set_masses; eeeeQED_set_momenta; eeeeQED_amp; eeeeQED_amp2; eeeeQED_amp2_momenta].

(** eehh::eehh: SM/eehh.cpp 32-44 *)
Definition eehh_ctor : stmt :=
(SMemT n_prehS (((((((EUn I2T (EInt 3)) *t (EMemT n_e)) *t (EMemT n_e)) *t (EMemT n_me)) *t (EMemT n_mh)) *t (EMemT n_mh)) /t (((((EUn I2T (EInt 4)) *t (EMemT n_MW)) *t (EMemT n_MW)) *t (EMemT n_SW)) *t (EMemT n_SW)));,
SMemT n_prehTU (((((EMemT n_e) *t (EMemT n_e)) *t (EMemT n_me)) *t (EMemT n_me)) /t (((((EUn D2T (ELit (4 # 1))) *t (EMemT n_MW)) *t (EMemT n_MW)) *t (EMemT n_SW)) *t (EMemT n_SW)))).
(** eehh::set_masses: SM/eehh.cpp 45-57 *)
Definition eehh_set_masses : meth := mkMeth n_set_masses [(n_masse, PkT); (n_massh, PkT); (n_massW, PkT)]
(SMemT n_me (ELocT n_masse);,
SPropMass n_prope (EMemT n_me);,
SMemT n_mh (ELocT n_massh);,
SPropMass n_proph (EMemT n_mh);,
SMemT n_MW (ELocT n_massW);,
SSetMass 0 (EMemT n_me);,
SSetMass 1 (EMemT n_me);,
SSetMass 2 (EMemT n_mh);,
SSetMass 3 (EMemT n_mh);,
SMemT n_prehS (((((((EUn D2T (ELit (3 # 1))) *t (EMemT n_e)) *t (EMemT n_e)) *t (EMemT n_me)) *t (EMemT n_mh)) *t (EMemT n_mh)) /t (((((EUn D2T (ELit (4 # 1))) *t (EMemT n_MW)) *t (EMemT n_MW)) *t (EMemT n_SW)) *t (EMemT n_SW)));,
SMemT n_prehTU (((((EMemT n_e) *t (EMemT n_e)) *t (EMemT n_me)) *t (EMemT n_me)) /t (((((EUn D2T (ELit (4 # 1))) *t (EMemT n_MW)) *t (EMemT n_MW)) *t (EMemT n_SW)) *t (EMemT n_SW)))).
(** eehh::set_momenta: SM/eehh.cpp 58-78 *)
Definition eehh_set_momenta : meth := mkMeth n_set_momenta [(n_mom1, PkMom); (n_mom2, PkMom); (n_mom3, PkMom); (n_mom4, PkMom)]
(SSetMomentum 0 n_mom1;,
SSetMomentum 1 n_mom2;,
SSetMomentum 2 n_mom3;,
SSetMomentum 3 n_mom4;,
SUpdate n_s12s;,
SUpdate n_a12a;,
SUpdate n_s132a;,
SUpdate n_s231a;,
SDeclT n_propPS 4;,
SDeclT n_propPT 4;,
SDeclT n_propPU 4;,
(SFor n_j (EInt 0) (EBin (CmpI CLt) (ELocI n_j) (EInt 4)) (EBin (OpI IAdd) (ELocI n_j) (EInt 1))
(SArrT n_propPS (AVar n_j) ((EArrT n_mom1 (AVar n_j)) +t (EArrT n_mom2 (AVar n_j)));,
SArrT n_propPT (AVar n_j) ((EArrT n_mom1 (AVar n_j)) -t (EArrT n_mom3 (AVar n_j)));,
SArrT n_propPU (AVar n_j) ((EArrT n_mom1 (AVar n_j)) -t (EArrT n_mom4 (AVar n_j)))));,
SMemC n_pDenSh (EDen n_proph n_propPS);,
SMemC n_pDenTe (EDen n_prope n_propPT);,
SMemC n_pDenUe (EDen n_prope n_propPU)).
(** eehh::amp: SM/eehh.cpp 83-106 *)
Definition eehh_amp : meth := mkMeth n_amp [(n_ds1, PkI); (n_ds2, PkI)]
(SLoc rT n_two (EUn I2T (EInt 2));,
SLoc rC n_amplitude (EBin OpTTC (EUn I2T (EInt 0)) (EUn I2T (EInt 0)));,
SLoc rC n_amplitude ((ELocC n_amplitude) +c (((EUn NegT (EMemT n_prehS)) *tc ((EV n_s12s [(AVar n_ds1); (AVar n_ds2)]) +c (EV n_a12a [(AVar n_ds1); (AVar n_ds2)]))) /c (EMemC n_pDenSh)));,
SLoc rC n_amplitude ((ELocC n_amplitude) +c (((EUn NegT (EMemT n_prehTU)) *tc (((((ELocT n_two) *t (EMemT n_me)) *tc ((EV n_s12s [(AVar n_ds1); (AVar n_ds2)]) +c (EV n_a12a [(AVar n_ds1); (AVar n_ds2)]))) -c (EV n_s132a [(AVar n_ds1); (AVar n_ds2)])) -c (EV n_s231a [(AVar n_ds2); (AVar n_ds1)]))) /c (EMemC n_pDenTe)));,
SLoc rC n_amplitude ((ELocC n_amplitude) +c (((EUn NegT (EMemT n_prehTU)) *tc (((((ELocT n_two) *t (EMemT n_me)) *tc ((EV n_s12s [(AVar n_ds1); (AVar n_ds2)]) +c (EV n_a12a [(AVar n_ds1); (AVar n_ds2)]))) +c (EV n_s132a [(AVar n_ds1); (AVar n_ds2)])) +c (EV n_s231a [(AVar n_ds2); (AVar n_ds1)]))) /c (EMemC n_pDenUe)));,
SReturnC (ELocC n_amplitude)).
(** eehh::amp2: SM/eehh.cpp 109-122 *)
Definition eehh_amp2 : meth := mkMeth n_amp2 []
(SLoc rT n_amp2 (EUn I2T (EInt 0));,
SDecl rC n_M;,
(SFor n_j1 (EUn NegI (EInt 1)) (EBin (CmpI CLe) (ELocI n_j1) (EInt 1)) (EBin (OpI IAdd) (ELocI n_j1) (EInt 2))
(SFor n_j2 (EUn NegI (EInt 1)) (EBin (CmpI CLe) (ELocI n_j2) (EInt 1)) (EBin (OpI IAdd) (ELocI n_j2) (EInt 2))
(SLoc rC n_M (ECall n_amp [(AVar n_j1); (AVar n_j2)]);,
SLoc rT n_amp2 ((ELocT n_amp2) +t (EUn Pow2T (EUn AbsC (ELocC n_M)))))));,
SReturnT ((ELocT n_amp2) /t (EUn D2T (ELit (8 # 1))))).
(** members: SM/include/eehh.h 26-32; initialisers: SM/eehh.cpp 32-40 *)
Definition eehh : cls := mkCls "eehh"
[(n_e, KT);
(n_me, KT);
(n_mh, KT);
(n_wh, KT);
(n_MW, KT);
(n_SW, KT);
(n_p1, (KPart 0));
(n_p2, (KPart 1));
(n_p3, (KPart 2));
(n_p4, (KPart 3));
(n_proph, KProp);
(n_prope, KProp);
(n_pDenSh, KC);
(n_pDenTe, KC);
(n_pDenUe, KC);
(n_s12s, KSprod);
(n_a12a, KSprod);
(n_s132a, KSprod);
(n_s231a, KSprod);
(n_prehS, KT);
(n_prehTU, KT)]
[n_echarge; n_masse; n_massh; n_widthh; n_massW; n_sinW]
[(n_e, NT (ELocT n_echarge));
(n_me, NT (ELocT n_masse));
(n_mh, NT (ELocT n_massh));
(n_wh, NT (ELocT n_widthh));
(n_MW, NT (ELocT n_massW));
(n_SW, NT (ELocT n_sinW));
(n_prope, NProp (EMemT n_me) (EUn I2T (EInt 0)));
(n_proph, NProp (EMemT n_mh) (EMemT n_wh));
(n_p1, NPart (EMemT n_me));
(n_p2, NPart (EMemT n_me));
(n_p3, NPart (EMemT n_mh));
(n_p4, NPart (EMemT n_mh));
(n_s12s, NSprod false 0 [] 1);
(n_a12a, NSprod true 0 [] 1);
(n_s132a, NSprod false 0 [2] 1);
(n_s231a, NSprod false 1 [2] 0)]
eehh_ctor
[eehh_set_masses; eehh_set_momenta; eehh_amp; eehh_amp2].

(** eemm::eemm: SM/eemm.cpp 32-61 *)
Definition eemm_ctor : stmt :=
(SMemT n_MZ ((EMemT n_MW) /t (EMemT n_CW));,
SPropMass n_propZ (EMemT n_MZ);,
SMemT n_preh (((((EMemT n_e) *t (EMemT n_e)) *t (EMemT n_me)) *t (EMemT n_mm)) /t (((((EUn D2T (ELit (4 # 1))) *t (EMemT n_MW)) *t (EMemT n_MW)) *t (EMemT n_SW)) *t (EMemT n_SW)));,
SMemT n_gL ((((EUn D2T (ELit (2 # 1))) *t (EMemT n_SW)) *t (EMemT n_SW)) -t (EUn D2T (ELit (1 # 1))));,
SMemT n_gR (((EUn D2T (ELit (2 # 1))) *t (EMemT n_SW)) *t (EMemT n_SW));,
SMemT n_preZ (((EMemT n_e) *t (EMemT n_e)) /t (((((EUn D2T (ELit (4 # 1))) *t (EMemT n_CW)) *t (EMemT n_CW)) *t (EMemT n_SW)) *t (EMemT n_SW)));,
SMemT n_preZ0 (((((((EMemT n_preZ) *t ((EMemT n_gL) -t (EMemT n_gR))) *t ((EMemT n_gL) -t (EMemT n_gR))) *t (EMemT n_me)) *t (EMemT n_mm)) /t (EMemT n_MZ)) /t (EMemT n_MZ));,
SMemT n_preZLL ((((EMemT n_preZ) *t (EUn D2T (ELit (2 # 1)))) *t (EMemT n_gL)) *t (EMemT n_gL));,
SMemT n_preZLR ((((EMemT n_preZ) *t (EUn D2T (ELit (2 # 1)))) *t (EMemT n_gL)) *t (EMemT n_gR));,
SMemT n_preZRR ((((EMemT n_preZ) *t (EUn D2T (ELit (2 # 1)))) *t (EMemT n_gR)) *t (EMemT n_gR))).
(** eemm::set_masses: SM/eemm.cpp 62-76 *)
Definition eemm_set_masses : meth := mkMeth n_set_masses [(n_masse, PkT); (n_massmu, PkT); (n_massh, PkT); (n_massW, PkT)]
(SMemT n_me (ELocT n_masse);,
SMemT n_mm (ELocT n_massmu);,
SMemT n_mh (ELocT n_massh);,
SPropMass n_proph (EMemT n_mh);,
SMemT n_MW (ELocT n_massW);,
SMemT n_MZ ((EMemT n_MW) /t (EMemT n_CW));,
SPropMass n_propZ (EMemT n_MZ);,
SSetMass 0 (EMemT n_me);,
SSetMass 1 (EMemT n_me);,
SSetMass 2 (EMemT n_mm);,
SSetMass 3 (EMemT n_mm);,
SMemT n_preh (((((EMemT n_e) *t (EMemT n_e)) *t (EMemT n_me)) *t (EMemT n_mm)) /t (((((EUn I2T (EInt 4)) *t (EMemT n_MW)) *t (EMemT n_MW)) *t (EMemT n_SW)) *t (EMemT n_SW)));,
SMemT n_preZ0 (((((((EMemT n_preZ) *t ((EMemT n_gL) -t (EMemT n_gR))) *t ((EMemT n_gL) -t (EMemT n_gR))) *t (EMemT n_me)) *t (EMemT n_mm)) /t (EMemT n_MZ)) /t (EMemT n_MZ))).
(** eemm::set_momenta: SM/eemm.cpp 77-102 *)
Definition eemm_set_momenta : meth := mkMeth n_set_momenta [(n_mom1, PkMom); (n_mom2, PkMom); (n_mom3, PkMom); (n_mom4, PkMom)]
(SSetMomentum 0 n_mom1;,
SSetMomentum 1 n_mom2;,
SSetMomentum 2 n_mom3;,
SSetMomentum 3 n_mom4;,
SUpdate n_a13a;,
SUpdate n_s13s;,
SUpdate n_a14a;,
SUpdate n_s14s;,
SUpdate n_a23a;,
SUpdate n_s23s;,
SUpdate n_a24a;,
SUpdate n_s24s;,
SUpdate n_s12s;,
SUpdate n_a12a;,
SUpdate n_s34s;,
SUpdate n_a34a;,
SDeclT n_propP 4;,
(SFor n_j (EInt 0) (EBin (CmpI CLt) (ELocI n_j) (EInt 4)) (EBin (OpI IAdd) (ELocI n_j) (EInt 1))
(SArrT n_propP (AVar n_j) ((EArrT n_mom1 (AVar n_j)) +t (EArrT n_mom2 (AVar n_j)))));,
SMemC n_pDenSA (EDen n_propA n_propP);,
SMemC n_pDenSh (EDen n_proph n_propP);,
SMemC n_pDenSZ (EDen n_propZ n_propP)).
(** eemm::amp: SM/eemm.cpp 107-150 *)
Definition eemm_amp : meth := mkMeth n_amp [(n_ds1, PkI); (n_ds2, PkI); (n_ds3, PkI); (n_ds4, PkI)]
(SLoc rT n_one (EUn I2T (EInt 1));,
SLoc rT n_two (EUn I2T (EInt 2));,
SLoc rT n_four (EUn I2T (EInt 4));,
SLoc rT n_eight (EUn I2T (EInt 8));,
SLoc rC n_amplitude (EBin OpTTC (EUn I2T (EInt 0)) (EUn I2T (EInt 0)));,
SLoc rC n_amplitude ((ELocC n_amplitude) +c (((((ELocT n_two) *t (EMemT n_e)) *t (EMemT n_e)) *tc (((((EV n_a13a [(AVar n_ds1); (AVar n_ds3)]) *c (EV n_s24s [(AVar n_ds2); (AVar n_ds4)])) +c ((EV n_a14a [(AVar n_ds1); (AVar n_ds4)]) *c (EV n_s23s [(AVar n_ds2); (AVar n_ds3)]))) +c ((EV n_s13s [(AVar n_ds1); (AVar n_ds3)]) *c (EV n_a24a [(AVar n_ds2); (AVar n_ds4)]))) +c ((EV n_s14s [(AVar n_ds1); (AVar n_ds4)]) *c (EV n_a23a [(AVar n_ds2); (AVar n_ds3)])))) /c (EMemC n_pDenSA)));,
SLoc rC n_amplitude ((ELocC n_amplitude) +c ((((EMemT n_preh) *tc ((EV n_s12s [(AVar n_ds1); (AVar n_ds2)]) +c (EV n_a12a [(AVar n_ds1); (AVar n_ds2)]))) *c ((EV n_s34s [(AVar n_ds3); (AVar n_ds4)]) +c (EV n_a34a [(AVar n_ds3); (AVar n_ds4)]))) /c (EMemC n_pDenSh)));,
SLoc rC n_amplitude ((ELocC n_amplitude) +c (((((EUn NegT (EMemT n_preZ0)) *tc ((EV n_a12a [(AVar n_ds1); (AVar n_ds2)]) -c (EV n_s12s [(AVar n_ds1); (AVar n_ds2)]))) *c ((EV n_a34a [(AVar n_ds3); (AVar n_ds4)]) -c (EV n_s34s [(AVar n_ds3); (AVar n_ds4)]))) /c (EMemC n_pDenSZ)) +c ((((ELocT n_two) *t (EMemT n_preZ)) *tc ((((((EMemT n_gL) *t (EMemT n_gL)) *tc (EV n_s23s [(AVar n_ds2); (AVar n_ds3)])) *c (EV n_a14a [(AVar n_ds1); (AVar n_ds4)])) +c (((EMemT n_gL) *t (EMemT n_gR)) *tc (((EV n_s13s [(AVar n_ds1); (AVar n_ds3)]) *c (EV n_a24a [(AVar n_ds2); (AVar n_ds4)])) +c ((EV n_s24s [(AVar n_ds2); (AVar n_ds4)]) *c (EV n_a13a [(AVar n_ds1); (AVar n_ds3)]))))) +c ((((EMemT n_gR) *t (EMemT n_gR)) *tc (EV n_s14s [(AVar n_ds1); (AVar n_ds4)])) *c (EV n_a23a [(AVar n_ds2); (AVar n_ds3)])))) /c (EMemC n_pDenSZ))));,
SReturnC (ELocC n_amplitude)).
(** eemm::amp2: SM/eemm.cpp 153-168 *)
Definition eemm_amp2 : meth := mkMeth n_amp2 []
(SLoc rT n_amp2 (EUn I2T (EInt 0));,
SDecl rC n_M;,
(SFor n_j1 (EUn NegI (EInt 1)) (EBin (CmpI CLe) (ELocI n_j1) (EInt 1)) (EBin (OpI IAdd) (ELocI n_j1) (EInt 2))
(SFor n_j2 (EUn NegI (EInt 1)) (EBin (CmpI CLe) (ELocI n_j2) (EInt 1)) (EBin (OpI IAdd) (ELocI n_j2) (EInt 2))
(SFor n_j3 (EUn NegI (EInt 1)) (EBin (CmpI CLe) (ELocI n_j3) (EInt 1)) (EBin (OpI IAdd) (ELocI n_j3) (EInt 2))
(SFor n_j4 (EUn NegI (EInt 1)) (EBin (CmpI CLe) (ELocI n_j4) (EInt 1)) (EBin (OpI IAdd) (ELocI n_j4) (EInt 2))
(SLoc rC n_M (ECall n_amp [(AVar n_j1); (AVar n_j2); (AVar n_j3); (AVar n_j4)]);,
SLoc rT n_amp2 ((ELocT n_amp2) +t (EUn Pow2T (EUn AbsC (ELocC n_M)))))))));,
SReturnT ((ELocT n_amp2) /t (EUn D2T (ELit (4 # 1))))).
(** members: SM/include/eemm.h 26-33; initialisers: SM/eemm.cpp 32-48 *)
Definition eemm : cls := mkCls "eemm"
[(n_e, KT);
(n_me, KT);
(n_mm, KT);
(n_mh, KT);
(n_wh, KT);
(n_MZ, KT);
(n_WZ, KT);
(n_MW, KT);
(n_SW, KT);
(n_CW, KT);
(n_p1, (KPart 0));
(n_p2, (KPart 1));
(n_p3, (KPart 2));
(n_p4, (KPart 3));
(n_propA, KProp);
(n_proph, KProp);
(n_propZ, KProp);
(n_pDenSA, KC);
(n_pDenSh, KC);
(n_pDenSZ, KC);
(n_a13a, KSprod);
(n_s13s, KSprod);
(n_a14a, KSprod);
(n_s14s, KSprod);
(n_a23a, KSprod);
(n_s23s, KSprod);
(n_a24a, KSprod);
(n_s24s, KSprod);
(n_s12s, KSprod);
(n_a12a, KSprod);
(n_s34s, KSprod);
(n_a34a, KSprod);
(n_preh, KT);
(n_gL, KT);
(n_gR, KT);
(n_preZ, KT);
(n_preZ0, KT);
(n_preZLL, KT);
(n_preZLR, KT);
(n_preZRR, KT)]
[n_echarge; n_masse; n_massmu; n_massh; n_widthh; n_massW; n_sinW; n_widthZ]
[(n_e, NT (ELocT n_echarge));
(n_me, NT (ELocT n_masse));
(n_mm, NT (ELocT n_massmu));
(n_mh, NT (ELocT n_massh));
(n_wh, NT (ELocT n_widthh));
(n_MW, NT (ELocT n_massW));
(n_SW, NT (ELocT n_sinW));
(n_CW, NT (EUn SqrtT ((EUn D2T (ELit (1 # 1))) -t ((ELocT n_sinW) *t (ELocT n_sinW)))));
(n_WZ, NT (ELocT n_widthZ));
(n_propA, NProp (EUn I2T (EInt 0)) (EUn I2T (EInt 0)));
(n_proph, NProp (EMemT n_mh) (EMemT n_wh));
(n_p1, NPart (EMemT n_me));
(n_p2, NPart (EMemT n_me));
(n_p3, NPart (EMemT n_mm));
(n_p4, NPart (EMemT n_mm));
(n_a13a, NSprod true 0 [] 2);
(n_s13s, NSprod false 0 [] 2);
(n_a14a, NSprod true 0 [] 3);
(n_s14s, NSprod false 0 [] 3);
(n_a23a, NSprod true 1 [] 2);
(n_s23s, NSprod false 1 [] 2);
(n_a24a, NSprod true 1 [] 3);
(n_s24s, NSprod false 1 [] 3);
(n_s12s, NSprod false 0 [] 1);
(n_a12a, NSprod true 0 [] 1);
(n_s34s, NSprod false 2 [] 3);
(n_a34a, NSprod true 2 [] 3)]
eemm_ctor
[eemm_set_masses; eemm_set_momenta; eemm_amp; eemm_amp2].

(** eemmQED::eemmQED: SM/eemmQED.cpp 32-44 *)
Definition eemmQED_ctor : stmt :=
SSkip.
(** eemmQED::set_masses: SM/eemmQED.cpp 45-52 *)
Definition eemmQED_set_masses : meth := mkMeth n_set_masses [(n_masse, PkT); (n_massmu, PkT)]
(SMemT n_me (ELocT n_masse);,
SMemT n_mm (ELocT n_massmu);,
SSetMass 0 (EMemT n_me);,
SSetMass 1 (EMemT n_me);,
SSetMass 2 (EMemT n_mm);,
SSetMass 3 (EMemT n_mm)).
(** eemmQED::set_momenta: SM/eemmQED.cpp 53-72 *)
Definition eemmQED_set_momenta : meth := mkMeth n_set_momenta [(n_mom1, PkMom); (n_mom2, PkMom); (n_mom3, PkMom); (n_mom4, PkMom)]
(SSetMomentum 0 n_mom1;,
SSetMomentum 1 n_mom2;,
SSetMomentum 2 n_mom3;,
SSetMomentum 3 n_mom4;,
SUpdate n_a13a;,
SUpdate n_s13s;,
SUpdate n_a14a;,
SUpdate n_s14s;,
SUpdate n_a23a;,
SUpdate n_s23s;,
SUpdate n_a24a;,
SUpdate n_s24s;,
SDeclT n_propP 4;,
(SFor n_j (EInt 0) (EBin (CmpI CLt) (ELocI n_j) (EInt 4)) (EBin (OpI IAdd) (ELocI n_j) (EInt 1))
(SArrT n_propP (AVar n_j) ((EArrT n_mom1 (AVar n_j)) +t (EArrT n_mom2 (AVar n_j)))));,
SMemC n_pDenS (EDen n_prop n_propP)).
(** eemmQED::amp: SM/eemmQED.cpp 77-81 *)
Definition eemmQED_amp : meth := mkMeth n_amp [(n_ds1, PkI); (n_ds2, PkI); (n_ds3, PkI); (n_ds4, PkI)]
(SReturnC (((((EUn D2T (EUn NegD (ELit (2 # 1)))) *t (EMemT n_e)) *t (EMemT n_e)) *tc (((((EV n_a13a [(AVar n_ds1); (AVar n_ds3)]) *c (EV n_s24s [(AVar n_ds2); (AVar n_ds4)])) +c ((EV n_a14a [(AVar n_ds1); (AVar n_ds4)]) *c (EV n_s23s [(AVar n_ds2); (AVar n_ds3)]))) +c ((EV n_s13s [(AVar n_ds1); (AVar n_ds3)]) *c (EV n_a24a [(AVar n_ds2); (AVar n_ds4)]))) +c ((EV n_s14s [(AVar n_ds1); (AVar n_ds4)]) *c (EV n_a23a [(AVar n_ds2); (AVar n_ds3)])))) /c (EMemC n_pDenS))).
(** eemmQED::amp2: SM/eemmQED.cpp 83-97 *)
Definition eemmQED_amp2 : meth := mkMeth n_amp2 []
(SLoc rT n_amp2 (EUn I2T (EInt 0));,
SDecl rC n_M;,
(SFor n_j1 (EUn NegI (EInt 1)) (EBin (CmpI CLe) (ELocI n_j1) (EInt 1)) (EBin (OpI IAdd) (ELocI n_j1) (EInt 2))
(SFor n_j2 (EUn NegI (EInt 1)) (EBin (CmpI CLe) (ELocI n_j2) (EInt 1)) (EBin (OpI IAdd) (ELocI n_j2) (EInt 2))
(SFor n_j3 (EUn NegI (EInt 1)) (EBin (CmpI CLe) (ELocI n_j3) (EInt 1)) (EBin (OpI IAdd) (ELocI n_j3) (EInt 2))
(SFor n_j4 (EUn NegI (EInt 1)) (EBin (CmpI CLe) (ELocI n_j4) (EInt 1)) (EBin (OpI IAdd) (ELocI n_j4) (EInt 2))
(SLoc rC n_M (ECall n_amp [(AVar n_j1); (AVar n_j2); (AVar n_j3); (AVar n_j4)]);,
SLoc rT n_amp2 ((ELocT n_amp2) +t (EUn Pow2T (EUn AbsC (ELocC n_M)))))))));,
SReturnT ((ELocT n_amp2) /t (EUn D2T (ELit (4 # 1))))).
(** eemmQED::amp2_momenta: SM/eemmQED.cpp 100-144 *)
Definition eemmQED_amp2_momenta : meth := mkMeth n_amp2_momenta [(n_mom1, PkMom); (n_mom2, PkMom); (n_mom3, PkMom); (n_mom4, PkMom)]
(SSetMomentum 0 n_mom1;,
SSetMomentum 1 n_mom2;,
SSetMomentum 2 n_mom3;,
SSetMomentum 3 n_mom4;,
SDeclT n_propP 4;,
(SFor n_j (EInt 0) (EBin (CmpI CLt) (ELocI n_j) (EInt 4)) (EBin (OpI IAdd) (ELocI n_j) (EInt 1))
(SArrT n_propP (AVar n_j) ((EArrT n_mom1 (AVar n_j)) +t (EArrT n_mom2 (AVar n_j)))));,
SLoc rT n_propSD (EUn ReC (EDen n_prop n_propP));,
SLoc rT n_amp2 (EUn I2T (EInt 0));,
SDeclC n_a13 [2; 2];,
SDeclC n_s13 [2; 2];,
SDeclC n_a14 [2; 2];,
SDeclC n_s14 [2; 2];,
SDeclC n_a23 [2; 2];,
SDeclC n_s23 [2; 2];,
SDeclC n_a24 [2; 2];,
SDeclC n_s24 [2; 2];,
(SFor n_i (EInt 0) (EBin (CmpI CLt) (ELocI n_i) (EInt 2)) (EBin (OpI IAdd) (ELocI n_i) (EInt 1))
(SFor n_j (EInt 0) (EBin (CmpI CLt) (ELocI n_j) (EInt 2)) (EBin (OpI IAdd) (ELocI n_j) (EInt 1))
(SArrC n_a13 [(AVar n_i); (AVar n_j)] (EBin OpVV (ESpinor1 0 LAngle (EBin (OpI ISub) (EBin (OpI IMul) (EInt 2) (ELocI n_i)) (EInt 1))) (ESpinor1 2 RAngle (EBin (OpI ISub) (EBin (OpI IMul) (EInt 2) (ELocI n_j)) (EInt 1))));,
SArrC n_s13 [(AVar n_i); (AVar n_j)] (EBin OpVV (ESpinor1 0 LSquare (EBin (OpI ISub) (EBin (OpI IMul) (EInt 2) (ELocI n_i)) (EInt 1))) (ESpinor1 2 RSquare (EBin (OpI ISub) (EBin (OpI IMul) (EInt 2) (ELocI n_j)) (EInt 1))));,
SArrC n_a14 [(AVar n_i); (AVar n_j)] (EBin OpVV (ESpinor1 0 LAngle (EBin (OpI ISub) (EBin (OpI IMul) (EInt 2) (ELocI n_i)) (EInt 1))) (ESpinor1 3 RAngle (EBin (OpI ISub) (EBin (OpI IMul) (EInt 2) (ELocI n_j)) (EInt 1))));,
SArrC n_s14 [(AVar n_i); (AVar n_j)] (EBin OpVV (ESpinor1 0 LSquare (EBin (OpI ISub) (EBin (OpI IMul) (EInt 2) (ELocI n_i)) (EInt 1))) (ESpinor1 3 RSquare (EBin (OpI ISub) (EBin (OpI IMul) (EInt 2) (ELocI n_j)) (EInt 1))));,
SArrC n_a23 [(AVar n_i); (AVar n_j)] (EBin OpVV (ESpinor1 1 LAngle (EBin (OpI ISub) (EBin (OpI IMul) (EInt 2) (ELocI n_i)) (EInt 1))) (ESpinor1 2 RAngle (EBin (OpI ISub) (EBin (OpI IMul) (EInt 2) (ELocI n_j)) (EInt 1))));,
SArrC n_s23 [(AVar n_i); (AVar n_j)] (EBin OpVV (ESpinor1 1 LSquare (EBin (OpI ISub) (EBin (OpI IMul) (EInt 2) (ELocI n_i)) (EInt 1))) (ESpinor1 2 RSquare (EBin (OpI ISub) (EBin (OpI IMul) (EInt 2) (ELocI n_j)) (EInt 1))));,
SArrC n_a24 [(AVar n_i); (AVar n_j)] (EBin OpVV (ESpinor1 1 LAngle (EBin (OpI ISub) (EBin (OpI IMul) (EInt 2) (ELocI n_i)) (EInt 1))) (ESpinor1 3 RAngle (EBin (OpI ISub) (EBin (OpI IMul) (EInt 2) (ELocI n_j)) (EInt 1))));,
SArrC n_s24 [(AVar n_i); (AVar n_j)] (EBin OpVV (ESpinor1 1 LSquare (EBin (OpI ISub) (EBin (OpI IMul) (EInt 2) (ELocI n_i)) (EInt 1))) (ESpinor1 3 RSquare (EBin (OpI ISub) (EBin (OpI IMul) (EInt 2) (ELocI n_j)) (EInt 1)))))));,
SDecl rC n_M;,
(SFor n_j1 (EInt 0) (EBin (CmpI CLt) (ELocI n_j1) (EInt 2)) (EBin (OpI IAdd) (ELocI n_j1) (EInt 1))
(SFor n_j2 (EInt 0) (EBin (CmpI CLt) (ELocI n_j2) (EInt 2)) (EBin (OpI IAdd) (ELocI n_j2) (EInt 1))
(SFor n_j3 (EInt 0) (EBin (CmpI CLt) (ELocI n_j3) (EInt 2)) (EBin (OpI IAdd) (ELocI n_j3) (EInt 1))
(SFor n_j4 (EInt 0) (EBin (CmpI CLt) (ELocI n_j4) (EInt 2)) (EBin (OpI IAdd) (ELocI n_j4) (EInt 1))
(SLoc rC n_M (EUn NegC (((((EArrC n_a13 [(AVar n_j1); (AVar n_j3)]) *c (EArrC n_s24 [(AVar n_j2); (AVar n_j4)])) +c ((EArrC n_a14 [(AVar n_j1); (AVar n_j4)]) *c (EArrC n_s23 [(AVar n_j2); (AVar n_j3)]))) +c ((EArrC n_s13 [(AVar n_j1); (AVar n_j3)]) *c (EArrC n_a24 [(AVar n_j2); (AVar n_j4)]))) +c ((EArrC n_s14 [(AVar n_j1); (AVar n_j4)]) *c (EArrC n_a23 [(AVar n_j2); (AVar n_j3)]))));,
SLoc rT n_amp2 ((ELocT n_amp2) +t (EUn Pow2T (EUn AbsC (ELocC n_M)))))))));,
SReturnT (((((((((EUn D2T (ELit (4 # 1))) *t (EMemT n_e)) *t (EMemT n_e)) *t (EMemT n_e)) *t (EMemT n_e)) *t (ELocT n_amp2)) /t (ELocT n_propSD)) /t (ELocT n_propSD)) /t (EUn D2T (ELit (4 # 1))))).
(** members: SM/include/eemmQED.h 26-31; initialisers: SM/eemmQED.cpp 32-43 *)
Definition eemmQED : cls := mkCls "eemmQED"
[(n_e, KT);
(n_me, KT);
(n_mm, KT);
(n_p1, (KPart 0));
(n_p2, (KPart 1));
(n_p3, (KPart 2));
(n_p4, (KPart 3));
(n_prop, KProp);
(n_pDenS, KC);
(n_a13a, KSprod);
(n_s13s, KSprod);
(n_a14a, KSprod);
(n_s14s, KSprod);
(n_a23a, KSprod);
(n_s23s, KSprod);
(n_a24a, KSprod);
(n_s24s, KSprod)]
[n_echarge; n_masse; n_massmu]
[(n_e, NT (ELocT n_echarge));
(n_me, NT (ELocT n_masse));
(n_mm, NT (ELocT n_massmu));
(n_prop, NProp (EUn I2T (EInt 0)) (EUn I2T (EInt 0)));
(n_p1, NPart (EMemT n_me));
(n_p2, NPart (EMemT n_me));
(n_p3, NPart (EMemT n_mm));
(n_p4, NPart (EMemT n_mm));
(n_a13a, NSprod true 0 [] 2);
(n_s13s, NSprod false 0 [] 2);
(n_a14a, NSprod true 0 [] 3);
(n_s14s, NSprod false 0 [] 3);
(n_a23a, NSprod true 1 [] 2);
(n_s23s, NSprod false 1 [] 2);
(n_a24a, NSprod true 1 [] 3);
(n_s24s, NSprod false 1 [] 3)]
eemmQED_ctor
[eemmQED_set_masses; eemmQED_set_momenta; eemmQED_amp; eemmQED_amp2; eemmQED_amp2_momenta].

(** eenene::eenene: SM/eenene.cpp 32-56 *)
Definition eenene_ctor : stmt :=
(SMemT n_MZ ((EMemT n_MW) /t (EMemT n_CW));,
SPropMass n_propZ (EMemT n_MZ);,
SMemT n_gL ((((EUn D2T (ELit (2 # 1))) *t (EMemT n_SW)) *t (EMemT n_SW)) -t (EUn D2T (ELit (1 # 1))));,
SMemT n_gR (((EUn D2T (ELit (2 # 1))) *t (EMemT n_SW)) *t (EMemT n_SW));,
SMemT n_preZ (((EMemT n_e) *t (EMemT n_e)) /t (((((EUn D2T (ELit (4 # 1))) *t (EMemT n_CW)) *t (EMemT n_CW)) *t (EMemT n_SW)) *t (EMemT n_SW)))).
(** eenene::set_masses: SM/eenene.cpp 57-65 *)
Definition eenene_set_masses : meth := mkMeth n_set_masses [(n_masse, PkT); (n_massW, PkT)]
(SMemT n_me (ELocT n_masse);,
SMemT n_MW (ELocT n_massW);,
SPropMass n_propW (EMemT n_MW);,
SMemT n_MZ ((EMemT n_MW) /t (EMemT n_CW));,
SPropMass n_propZ (EMemT n_MZ);,
SSetMass 0 (EMemT n_me);,
SSetMass 1 (EMemT n_me)).
(** eenene::set_momenta: SM/eenene.cpp 66-92 *)
Definition eenene_set_momenta : meth := mkMeth n_set_momenta [(n_mom1, PkMom); (n_mom2, PkMom); (n_mom3, PkMom); (n_mom4, PkMom)]
(SSetMomentum 0 n_mom1;,
SSetMomentum 1 n_mom2;,
SSetMomentum 2 n_mom3;,
SSetMomentum 3 n_mom4;,
SUpdate n_a13a;,
SUpdate n_s13s;,
SUpdate n_a14a;,
SUpdate n_s14s;,
SUpdate n_a23a;,
SUpdate n_s23s;,
SUpdate n_a24a;,
SUpdate n_s24s;,
SUpdate n_s12s;,
SUpdate n_a12a;,
SUpdate n_s34s;,
SUpdate n_a34a;,
SDeclT n_propPS 4;,
SDeclT n_propPT 4;,
(SFor n_j (EInt 0) (EBin (CmpI CLt) (ELocI n_j) (EInt 4)) (EBin (OpI IAdd) (ELocI n_j) (EInt 1))
(SArrT n_propPS (AVar n_j) ((EArrT n_mom1 (AVar n_j)) +t (EArrT n_mom2 (AVar n_j)));,
SArrT n_propPT (AVar n_j) ((EArrT n_mom1 (AVar n_j)) -t (EArrT n_mom3 (AVar n_j)))));,
SMemC n_pDenSZ (EDen n_propZ n_propPS);,
SMemC n_pDenTW (EDen n_propW n_propPT)).
(** eenene::amp: SM/eenene.cpp 97-121 *)
Definition eenene_amp : meth := mkMeth n_amp [(n_ds1, PkI); (n_ds2, PkI)]
(SLoc rT n_two (EUn I2T (EInt 2));,
SLoc rC n_amplitude (EBin OpTTC (EUn I2T (EInt 0)) (EUn I2T (EInt 0)));,
SLoc rC n_amplitude ((((ELocT n_two) *t (EMemT n_preZ)) *tc ((((EMemT n_gL) *tc (EV n_s23s [(AVar n_ds2)])) *c (EV n_a14a [(AVar n_ds1)])) +c (((EMemT n_gR) *tc (EV n_s13s [(AVar n_ds1)])) *c (EV n_a24a [(AVar n_ds2)])))) /c (EMemC n_pDenSZ));,
SLoc rC n_amplitude ((ELocC n_amplitude) +c ((((((EMemT n_e) *t (EMemT n_e)) /t (EMemT n_SW)) /t (EMemT n_SW)) *tc ((((((EUn D2T (ELit (2 # 1))) *t (EMemT n_MW)) *t (EMemT n_MW)) *tc (EV n_a14a [(AVar n_ds1)])) *c (EV n_s23s [(AVar n_ds2)])) +c ((((EMemT n_me) *t (EMemT n_me)) *tc (EV n_s13s [(AVar n_ds1)])) *c (EV n_a24a [(AVar n_ds2)])))) /c ((((EUn D2T (ELit (2 # 1))) *t (EMemT n_MW)) *t (EMemT n_MW)) *tc (EMemC n_pDenTW))));,
SReturnC (ELocC n_amplitude)).
(** eenene::amp2: SM/eenene.cpp 124-136 *)
Definition eenene_amp2 : meth := mkMeth n_amp2 []
(SLoc rT n_amp2 (EUn I2T (EInt 0));,
SDecl rC n_M;,
(SFor n_j1 (EUn NegI (EInt 1)) (EBin (CmpI CLe) (ELocI n_j1) (EInt 1)) (EBin (OpI IAdd) (ELocI n_j1) (EInt 2))
(SFor n_j2 (EUn NegI (EInt 1)) (EBin (CmpI CLe) (ELocI n_j2) (EInt 1)) (EBin (OpI IAdd) (ELocI n_j2) (EInt 2))
(SLoc rC n_M (ECall n_amp [(AVar n_j1); (AVar n_j2)]);,
SLoc rT n_amp2 ((ELocT n_amp2) +t (EUn Pow2T (EUn AbsC (ELocC n_M)))))));,
SReturnT ((ELocT n_amp2) /t (EUn D2T (ELit (4 # 1))))).
(** members: SM/include/eenene.h 26-33; initialisers: SM/eenene.cpp 32-48 *)
Definition eenene : cls := mkCls "eenene"
[(n_e, KT);
(n_me, KT);
(n_MZ, KT);
(n_WZ, KT);
(n_MW, KT);
(n_WW, KT);
(n_SW, KT);
(n_CW, KT);
(n_p1, (KPart 0));
(n_p2, (KPart 1));
(n_p3, (KPart 2));
(n_p4, (KPart 3));
(n_propZ, KProp);
(n_propW, KProp);
(n_pDenSZ, KC);
(n_pDenTW, KC);
(n_a13a, KSprod);
(n_s13s, KSprod);
(n_a14a, KSprod);
(n_s14s, KSprod);
(n_a23a, KSprod);
(n_s23s, KSprod);
(n_a24a, KSprod);
(n_s24s, KSprod);
(n_s12s, KSprod);
(n_a12a, KSprod);
(n_s34s, KSprod);
(n_a34a, KSprod);
(n_gL, KT);
(n_gR, KT);
(n_preZ, KT)]
[n_echarge; n_masse; n_massW; n_widthW; n_sinW; n_widthZ]
[(n_e, NT (ELocT n_echarge));
(n_me, NT (ELocT n_masse));
(n_MW, NT (ELocT n_massW));
(n_WW, NT (ELocT n_widthW));
(n_SW, NT (ELocT n_sinW));
(n_CW, NT (EUn SqrtT ((EUn D2T (ELit (1 # 1))) -t ((ELocT n_sinW) *t (ELocT n_sinW)))));
(n_WZ, NT (ELocT n_widthZ));
(n_propW, NProp (EMemT n_MW) (EMemT n_WW));
(n_p1, NPart (EMemT n_me));
(n_p2, NPart (EMemT n_me));
(n_p3, NPart (EUn I2T (EInt 0)));
(n_p4, NPart (EUn I2T (EInt 0)));
(n_a13a, NSprod true 0 [] 2);
(n_s13s, NSprod false 0 [] 2);
(n_a14a, NSprod true 0 [] 3);
(n_s14s, NSprod false 0 [] 3);
(n_a23a, NSprod true 1 [] 2);
(n_s23s, NSprod false 1 [] 2);
(n_a24a, NSprod true 1 [] 3);
(n_s24s, NSprod false 1 [] 3);
(n_s12s, NSprod false 0 [] 1);
(n_a12a, NSprod true 0 [] 1);
(n_s34s, NSprod false 2 [] 3);
(n_a34a, NSprod true 2 [] 3)]
eenene_ctor
[eenene_set_masses; eenene_set_momenta; eenene_amp; eenene_amp2].

(** eenmnm::eenmnm: SM/eenmnm.cpp 32-55 *)
Definition eenmnm_ctor : stmt :=
(SMemT n_MZ ((EMemT n_MW) /t (EMemT n_CW));,
SPropMass n_propZ (EMemT n_MZ);,
SMemT n_gL ((((EUn D2T (ELit (2 # 1))) *t (EMemT n_SW)) *t (EMemT n_SW)) -t (EUn D2T (ELit (1 # 1))));,
SMemT n_gR (((EUn D2T (ELit (2 # 1))) *t (EMemT n_SW)) *t (EMemT n_SW));,
SMemT n_preZ (((EMemT n_e) *t (EMemT n_e)) /t (((((EUn D2T (ELit (4 # 1))) *t (EMemT n_CW)) *t (EMemT n_CW)) *t (EMemT n_SW)) *t (EMemT n_SW)))).
(** eenmnm::set_masses: SM/eenmnm.cpp 56-63 *)
Definition eenmnm_set_masses : meth := mkMeth n_set_masses [(n_masse, PkT); (n_massW, PkT)]
(SMemT n_me (ELocT n_masse);,
SMemT n_MW (ELocT n_massW);,
SMemT n_MZ ((EMemT n_MW) /t (EMemT n_CW));,
SPropMass n_propZ (EMemT n_MZ);,
SSetMass 0 (EMemT n_me);,
SSetMass 1 (EMemT n_me)).
(** eenmnm::set_momenta: SM/eenmnm.cpp 64-87 *)
Definition eenmnm_set_momenta : meth := mkMeth n_set_momenta [(n_mom1, PkMom); (n_mom2, PkMom); (n_mom3, PkMom); (n_mom4, PkMom)]
(SSetMomentum 0 n_mom1;,
SSetMomentum 1 n_mom2;,
SSetMomentum 2 n_mom3;,
SSetMomentum 3 n_mom4;,
SUpdate n_a13a;,
SUpdate n_s13s;,
SUpdate n_a14a;,
SUpdate n_s14s;,
SUpdate n_a23a;,
SUpdate n_s23s;,
SUpdate n_a24a;,
SUpdate n_s24s;,
SUpdate n_s12s;,
SUpdate n_a12a;,
SUpdate n_s34s;,
SUpdate n_a34a;,
SDeclT n_propP 4;,
(SFor n_j (EInt 0) (EBin (CmpI CLt) (ELocI n_j) (EInt 4)) (EBin (OpI IAdd) (ELocI n_j) (EInt 1))
(SArrT n_propP (AVar n_j) ((EArrT n_mom1 (AVar n_j)) +t (EArrT n_mom2 (AVar n_j)))));,
SMemC n_pDenSZ (EDen n_propZ n_propP)).
(** eenmnm::amp: SM/eenmnm.cpp 92-106 *)
Definition eenmnm_amp : meth := mkMeth n_amp [(n_ds1, PkI); (n_ds2, PkI)]
(SLoc rT n_two (EUn I2T (EInt 2));,
SReturnC ((((EUn NegT (ELocT n_two)) *t (EMemT n_preZ)) *tc ((((EMemT n_gL) *tc (EV n_s23s [(AVar n_ds2)])) *c (EV n_a14a [(AVar n_ds1)])) +c (((EMemT n_gR) *tc (EV n_s13s [(AVar n_ds1)])) *c (EV n_a24a [(AVar n_ds2)])))) /c (EMemC n_pDenSZ))).
(** eenmnm::amp2: SM/eenmnm.cpp 109-121 *)
Definition eenmnm_amp2 : meth := mkMeth n_amp2 []
(SLoc rT n_amp2 (EUn I2T (EInt 0));,
SDecl rC n_M;,
(SFor n_j1 (EUn NegI (EInt 1)) (EBin (CmpI CLe) (ELocI n_j1) (EInt 1)) (EBin (OpI IAdd) (ELocI n_j1) (EInt 2))
(SFor n_j2 (EUn NegI (EInt 1)) (EBin (CmpI CLe) (ELocI n_j2) (EInt 1)) (EBin (OpI IAdd) (ELocI n_j2) (EInt 2))
(SLoc rC n_M (ECall n_amp [(AVar n_j1); (AVar n_j2)]);,
SLoc rT n_amp2 ((ELocT n_amp2) +t (EUn Pow2T (EUn AbsC (ELocC n_M)))))));,
SReturnT ((ELocT n_amp2) /t (EUn D2T (ELit (4 # 1))))).
(** members: SM/include/eenmnm.h 26-33; initialisers: SM/eenmnm.cpp 32-47 *)
Definition eenmnm : cls := mkCls "eenmnm"
[(n_e, KT);
(n_me, KT);
(n_MZ, KT);
(n_WZ, KT);
(n_MW, KT);
(n_SW, KT);
(n_CW, KT);
(n_p1, (KPart 0));
(n_p2, (KPart 1));
(n_p3, (KPart 2));
(n_p4, (KPart 3));
(n_propZ, KProp);
(n_pDenSZ, KC);
(n_a13a, KSprod);
(n_s13s, KSprod);
(n_a14a, KSprod);
(n_s14s, KSprod);
(n_a23a, KSprod);
(n_s23s, KSprod);
(n_a24a, KSprod);
(n_s24s, KSprod);
(n_s12s, KSprod);
(n_a12a, KSprod);
(n_s34s, KSprod);
(n_a34a, KSprod);
(n_gL, KT);
(n_gR, KT);
(n_preZ, KT)]
[n_echarge; n_masse; n_massW; n_sinW; n_widthZ]
[(n_e, NT (ELocT n_echarge));
(n_me, NT (ELocT n_masse));
(n_MW, NT (ELocT n_massW));
(n_SW, NT (ELocT n_sinW));
(n_CW, NT (EUn SqrtT ((EUn D2T (ELit (1 # 1))) -t ((ELocT n_sinW) *t (ELocT n_sinW)))));
(n_WZ, NT (ELocT n_widthZ));
(n_p1, NPart (EMemT n_me));
(n_p2, NPart (EMemT n_me));
(n_p3, NPart (EUn I2T (EInt 0)));
(n_p4, NPart (EUn I2T (EInt 0)));
(n_a13a, NSprod true 0 [] 2);
(n_s13s, NSprod false 0 [] 2);
(n_a14a, NSprod true 0 [] 3);
(n_s14s, NSprod false 0 [] 3);
(n_a23a, NSprod true 1 [] 2);
(n_s23s, NSprod false 1 [] 2);
(n_a24a, NSprod true 1 [] 3);
(n_s24s, NSprod false 1 [] 3);
(n_s12s, NSprod false 0 [] 1);
(n_a12a, NSprod true 0 [] 1);
(n_s34s, NSprod false 2 [] 3);
(n_a34a, NSprod true 2 [] 3)]
eenmnm_ctor
[eenmnm_set_masses; eenmnm_set_momenta; eenmnm_amp; eenmnm_amp2].

(** eheh::eheh: SM/eheh.cpp 32-44 *)
Definition eheh_ctor : stmt :=
(SMemT n_prehT (((((((EUn I2T (EInt 3)) *t (EMemT n_e)) *t (EMemT n_e)) *t (EMemT n_me)) *t (EMemT n_mh)) *t (EMemT n_mh)) /t (((((EUn I2T (EInt 4)) *t (EMemT n_MW)) *t (EMemT n_MW)) *t (EMemT n_SW)) *t (EMemT n_SW)));,
SMemT n_prehSU (((((EMemT n_e) *t (EMemT n_e)) *t (EMemT n_me)) *t (EMemT n_me)) /t (((((EUn D2T (ELit (4 # 1))) *t (EMemT n_MW)) *t (EMemT n_MW)) *t (EMemT n_SW)) *t (EMemT n_SW)))).
(** eheh::set_masses: SM/eheh.cpp 45-57 *)
Definition eheh_set_masses : meth := mkMeth n_set_masses [(n_masse, PkT); (n_massh, PkT); (n_massW, PkT)]
(SMemT n_me (ELocT n_masse);,
SPropMass n_prope (EMemT n_me);,
SMemT n_mh (ELocT n_massh);,
SPropMass n_proph (EMemT n_mh);,
SMemT n_MW (ELocT n_massW);,
SSetMass 0 (EMemT n_me);,
SSetMass 1 (EMemT n_mh);,
SSetMass 2 (EMemT n_me);,
SSetMass 3 (EMemT n_mh);,
SMemT n_prehT (((((((EUn D2T (ELit (3 # 1))) *t (EMemT n_e)) *t (EMemT n_e)) *t (EMemT n_me)) *t (EMemT n_mh)) *t (EMemT n_mh)) /t (((((EUn D2T (ELit (4 # 1))) *t (EMemT n_MW)) *t (EMemT n_MW)) *t (EMemT n_SW)) *t (EMemT n_SW)));,
SMemT n_prehSU (((((EMemT n_e) *t (EMemT n_e)) *t (EMemT n_me)) *t (EMemT n_me)) /t (((((EUn D2T (ELit (4 # 1))) *t (EMemT n_MW)) *t (EMemT n_MW)) *t (EMemT n_SW)) *t (EMemT n_SW)))).
(** eheh::set_momenta: SM/eheh.cpp 58-78 *)
Definition eheh_set_momenta : meth := mkMeth n_set_momenta [(n_mom1, PkMom); (n_mom2, PkMom); (n_mom3, PkMom); (n_mom4, PkMom)]
(SSetMomentum 0 n_mom1;,
SSetMomentum 1 n_mom2;,
SSetMomentum 2 n_mom3;,
SSetMomentum 3 n_mom4;,
SUpdate n_s13s;,
SUpdate n_a13a;,
SUpdate n_s123a;,
SUpdate n_s321a;,
SDeclT n_propPS 4;,
SDeclT n_propPT 4;,
SDeclT n_propPU 4;,
(SFor n_j (EInt 0) (EBin (CmpI CLt) (ELocI n_j) (EInt 4)) (EBin (OpI IAdd) (ELocI n_j) (EInt 1))
(SArrT n_propPS (AVar n_j) ((EArrT n_mom1 (AVar n_j)) +t (EArrT n_mom2 (AVar n_j)));,
SArrT n_propPT (AVar n_j) ((EArrT n_mom1 (AVar n_j)) -t (EArrT n_mom3 (AVar n_j)));,
SArrT n_propPU (AVar n_j) ((EArrT n_mom1 (AVar n_j)) -t (EArrT n_mom4 (AVar n_j)))));,
SMemC n_pDenTh (EDen n_proph n_propPT);,
SMemC n_pDenSe (EDen n_prope n_propPS);,
SMemC n_pDenUe (EDen n_prope n_propPU)).
(** eheh::amp: SM/eheh.cpp 83-119 *)
Definition eheh_amp : meth := mkMeth n_amp [(n_ds1, PkI); (n_ds3, PkI)]
(SLoc rT n_two (EUn I2T (EInt 2));,
SLoc rC n_amplitude (EBin OpTTC (EUn I2T (EInt 0)) (EUn I2T (EInt 0)));,
SLoc rC n_amplitude ((ELocC n_amplitude) +c (((EMemT n_prehT) *tc ((EV n_s13s [(AVar n_ds1); (AVar n_ds3)]) -c (EV n_a13a [(AVar n_ds1); (AVar n_ds3)]))) /c (EMemC n_pDenTh)));,
SLoc rC n_amplitude ((ELocC n_amplitude) +c (((EMemT n_prehSU) *tc (((((ELocT n_two) *t (EMemT n_me)) *tc ((EV n_s13s [(AVar n_ds1); (AVar n_ds3)]) -c (EV n_a13a [(AVar n_ds1); (AVar n_ds3)]))) -c (EV n_s123a [(AVar n_ds1); (AVar n_ds3)])) +c (EV n_s321a [(AVar n_ds3); (AVar n_ds1)]))) /c (EMemC n_pDenSe)));,
SLoc rC n_amplitude ((ELocC n_amplitude) +c (((EMemT n_prehSU) *tc (((((ELocT n_two) *t (EMemT n_me)) *tc ((EV n_s13s [(AVar n_ds1); (AVar n_ds3)]) -c (EV n_a13a [(AVar n_ds1); (AVar n_ds3)]))) +c (EV n_s123a [(AVar n_ds1); (AVar n_ds3)])) -c (EV n_s321a [(AVar n_ds3); (AVar n_ds1)]))) /c (EMemC n_pDenUe)));,
SReturnC (ELocC n_amplitude)).
(** eheh::amp2: SM/eheh.cpp 122-134 *)
Definition eheh_amp2 : meth := mkMeth n_amp2 []
(SLoc rT n_amp2 (EUn I2T (EInt 0));,
SDecl rC n_M;,
(SFor n_j1 (EUn NegI (EInt 1)) (EBin (CmpI CLe) (ELocI n_j1) (EInt 1)) (EBin (OpI IAdd) (ELocI n_j1) (EInt 2))
(SFor n_j3 (EUn NegI (EInt 1)) (EBin (CmpI CLe) (ELocI n_j3) (EInt 1)) (EBin (OpI IAdd) (ELocI n_j3) (EInt 2))
(SLoc rC n_M (ECall n_amp [(AVar n_j1); (AVar n_j3)]);,
SLoc rT n_amp2 ((ELocT n_amp2) +t (EUn Pow2T (EUn AbsC (ELocC n_M)))))));,
SReturnT ((ELocT n_amp2) /t (EUn D2T (ELit (2 # 1))))).
(** members: SM/include/eheh.h 26-32; initialisers: SM/eheh.cpp 32-40 *)
Definition eheh : cls := mkCls "eheh"
[(n_e, KT);
(n_me, KT);
(n_mh, KT);
(n_wh, KT);
(n_MW, KT);
(n_SW, KT);
(n_p1, (KPart 0));
(n_p2, (KPart 1));
(n_p3, (KPart 2));
(n_p4, (KPart 3));
(n_proph, KProp);
(n_prope, KProp);
(n_pDenTh, KC);
(n_pDenSe, KC);
(n_pDenUe, KC);
(n_s13s, KSprod);
(n_a13a, KSprod);
(n_s123a, KSprod);
(n_s321a, KSprod);
(n_prehT, KT);
(n_prehSU, KT)]
[n_echarge; n_masse; n_massh; n_widthh; n_massW; n_sinW]
[(n_e, NT (ELocT n_echarge));
(n_me, NT (ELocT n_masse));
(n_mh, NT (ELocT n_massh));
(n_wh, NT (ELocT n_widthh));
(n_MW, NT (ELocT n_massW));
(n_SW, NT (ELocT n_sinW));
(n_prope, NProp (EMemT n_me) (EUn I2T (EInt 0)));
(n_proph, NProp (EMemT n_mh) (EMemT n_wh));
(n_p1, NPart (EMemT n_me));
(n_p2, NPart (EMemT n_mh));
(n_p3, NPart (EMemT n_me));
(n_p4, NPart (EMemT n_mh));
(n_s13s, NSprod false 0 [] 2);
(n_a13a, NSprod true 0 [] 2);
(n_s123a, NSprod false 0 [1] 2);
(n_s321a, NSprod false 2 [1] 0)]
eheh_ctor
[eheh_set_masses; eheh_set_momenta; eheh_amp; eheh_amp2].

(** emem::emem: SM/emem.cpp 32-61 *)
Definition emem_ctor : stmt :=
(SMemT n_MZ ((EMemT n_MW) /t (EMemT n_CW));,
SPropMass n_propZ (EMemT n_MZ);,
SMemT n_preh (((((EMemT n_e) *t (EMemT n_e)) *t (EMemT n_me)) *t (EMemT n_mm)) /t (((((EUn D2T (ELit (4 # 1))) *t (EMemT n_MW)) *t (EMemT n_MW)) *t (EMemT n_SW)) *t (EMemT n_SW)));,
SMemT n_gL ((((EUn D2T (ELit (2 # 1))) *t (EMemT n_SW)) *t (EMemT n_SW)) -t (EUn D2T (ELit (1 # 1))));,
SMemT n_gR (((EUn D2T (ELit (2 # 1))) *t (EMemT n_SW)) *t (EMemT n_SW));,
SMemT n_preZ (((EMemT n_e) *t (EMemT n_e)) /t (((((EUn D2T (ELit (4 # 1))) *t (EMemT n_CW)) *t (EMemT n_CW)) *t (EMemT n_SW)) *t (EMemT n_SW)));,
SMemT n_preZ0 (((((((EMemT n_preZ) *t ((EMemT n_gL) -t (EMemT n_gR))) *t ((EMemT n_gL) -t (EMemT n_gR))) *t (EMemT n_me)) *t (EMemT n_mm)) /t (EMemT n_MZ)) /t (EMemT n_MZ));,
SMemT n_preZLL ((((EMemT n_preZ) *t (EUn D2T (ELit (2 # 1)))) *t (EMemT n_gL)) *t (EMemT n_gL));,
SMemT n_preZLR ((((EMemT n_preZ) *t (EUn D2T (ELit (2 # 1)))) *t (EMemT n_gL)) *t (EMemT n_gR));,
SMemT n_preZRR ((((EMemT n_preZ) *t (EUn D2T (ELit (2 # 1)))) *t (EMemT n_gR)) *t (EMemT n_gR))).
(** emem::set_masses: SM/emem.cpp 62-76 *)
Definition emem_set_masses : meth := mkMeth n_set_masses [(n_masse, PkT); (n_massmu, PkT); (n_massh, PkT); (n_massW, PkT)]
(SMemT n_me (ELocT n_masse);,
SMemT n_mm (ELocT n_massmu);,
SMemT n_mh (ELocT n_massh);,
SPropMass n_proph (EMemT n_mh);,
SMemT n_MW (ELocT n_massW);,
SMemT n_MZ ((EMemT n_MW) /t (EMemT n_CW));,
SPropMass n_propZ (EMemT n_MZ);,
SSetMass 0 (EMemT n_me);,
SSetMass 1 (EMemT n_mm);,
SSetMass 2 (EMemT n_me);,
SSetMass 3 (EMemT n_mm);,
SMemT n_preh (((((EMemT n_e) *t (EMemT n_e)) *t (EMemT n_me)) *t (EMemT n_mm)) /t (((((EUn I2T (EInt 4)) *t (EMemT n_MW)) *t (EMemT n_MW)) *t (EMemT n_SW)) *t (EMemT n_SW)));,
SMemT n_preZ0 (((((((EMemT n_preZ) *t ((EMemT n_gL) -t (EMemT n_gR))) *t ((EMemT n_gL) -t (EMemT n_gR))) *t (EMemT n_me)) *t (EMemT n_mm)) /t (EMemT n_MZ)) /t (EMemT n_MZ))).
(** emem::set_momenta: SM/emem.cpp 77-102 *)
Definition emem_set_momenta : meth := mkMeth n_set_momenta [(n_mom1, PkMom); (n_mom2, PkMom); (n_mom3, PkMom); (n_mom4, PkMom)]
(SSetMomentum 0 n_mom1;,
SSetMomentum 1 n_mom2;,
SSetMomentum 2 n_mom3;,
SSetMomentum 3 n_mom4;,
SUpdate n_a13a;,
SUpdate n_s13s;,
SUpdate n_a14a;,
SUpdate n_s14s;,
SUpdate n_a23a;,
SUpdate n_s23s;,
SUpdate n_a24a;,
SUpdate n_s24s;,
SUpdate n_s12s;,
SUpdate n_a12a;,
SUpdate n_s34s;,
SUpdate n_a34a;,
SDeclT n_propP 4;,
(SFor n_j (EInt 0) (EBin (CmpI CLt) (ELocI n_j) (EInt 4)) (EBin (OpI IAdd) (ELocI n_j) (EInt 1))
(SArrT n_propP (AVar n_j) ((EArrT n_mom1 (AVar n_j)) -t (EArrT n_mom3 (AVar n_j)))));,
SMemC n_pDenTA (EDen n_propA n_propP);,
SMemC n_pDenTh (EDen n_proph n_propP);,
SMemC n_pDenTZ (EDen n_propZ n_propP)).
(** emem::amp: SM/emem.cpp 107-160 *)
Definition emem_amp : meth := mkMeth n_amp [(n_ds1, PkI); (n_ds2, PkI); (n_ds3, PkI); (n_ds4, PkI)]
(SLoc rT n_one (EUn I2T (EInt 1));,
SLoc rT n_two (EUn I2T (EInt 2));,
SLoc rT n_four (EUn I2T (EInt 4));,
SLoc rT n_eight (EUn I2T (EInt 8));,
SLoc rC n_amplitude (EBin OpTTC (EUn I2T (EInt 0)) (EUn I2T (EInt 0)));,
SLoc rC n_amplitude ((ELocC n_amplitude) +c (((((EUn NegT (ELocT n_two)) *t (EMemT n_e)) *t (EMemT n_e)) *tc (((((EV n_a14a [(AVar n_ds1); (AVar n_ds4)]) *c (EV n_s23s [(AVar n_ds2); (AVar n_ds3)])) +c ((EV n_a12a [(AVar n_ds1); (AVar n_ds2)]) *c (EV n_s34s [(AVar n_ds3); (AVar n_ds4)]))) +c ((EV n_s14s [(AVar n_ds1); (AVar n_ds4)]) *c (EV n_a23a [(AVar n_ds2); (AVar n_ds3)]))) +c ((EV n_s12s [(AVar n_ds1); (AVar n_ds2)]) *c (EV n_a34a [(AVar n_ds3); (AVar n_ds4)])))) /c (EMemC n_pDenTA)));,
SLoc rC n_amplitude ((ELocC n_amplitude) +c ((((EUn NegT (EMemT n_preh)) *tc ((EV n_s13s [(AVar n_ds1); (AVar n_ds3)]) -c (EV n_a13a [(AVar n_ds1); (AVar n_ds3)]))) *c ((EV n_s24s [(AVar n_ds2); (AVar n_ds4)]) -c (EV n_a24a [(AVar n_ds2); (AVar n_ds4)]))) /c (EMemC n_pDenTh)));,
SLoc rC n_amplitude ((ELocC n_amplitude) +c (((((EMemT n_preZ0) *tc ((EV n_a13a [(AVar n_ds1); (AVar n_ds3)]) +c (EV n_s13s [(AVar n_ds1); (AVar n_ds3)]))) *c ((EV n_a24a [(AVar n_ds2); (AVar n_ds4)]) +c (EV n_s24s [(AVar n_ds2); (AVar n_ds4)]))) /c (EMemC n_pDenTZ)) -c ((((ELocT n_two) *t (EMemT n_preZ)) *tc ((((((EMemT n_gL) *t (EMemT n_gL)) *tc (EV n_s34s [(AVar n_ds3); (AVar n_ds4)])) *c (EV n_a12a [(AVar n_ds1); (AVar n_ds2)])) +c (((EMemT n_gL) *t (EMemT n_gR)) *tc (((EV n_s14s [(AVar n_ds1); (AVar n_ds4)]) *c (EV n_a23a [(AVar n_ds2); (AVar n_ds3)])) +c ((EV n_s23s [(AVar n_ds2); (AVar n_ds3)]) *c (EV n_a14a [(AVar n_ds1); (AVar n_ds4)]))))) +c ((((EMemT n_gR) *t (EMemT n_gR)) *tc (EV n_s12s [(AVar n_ds1); (AVar n_ds2)])) *c (EV n_a34a [(AVar n_ds3); (AVar n_ds4)])))) /c (EMemC n_pDenTZ))));,
SReturnC (ELocC n_amplitude)).
(** emem::amp2: SM/emem.cpp 163-178 *)
Definition emem_amp2 : meth := mkMeth n_amp2 []
(SLoc rT n_amp2 (EUn I2T (EInt 0));,
SDecl rC n_M;,
(SFor n_j1 (EUn NegI (EInt 1)) (EBin (CmpI CLe) (ELocI n_j1) (EInt 1)) (EBin (OpI IAdd) (ELocI n_j1) (EInt 2))
(SFor n_j2 (EUn NegI (EInt 1)) (EBin (CmpI CLe) (ELocI n_j2) (EInt 1)) (EBin (OpI IAdd) (ELocI n_j2) (EInt 2))
(SFor n_j3 (EUn NegI (EInt 1)) (EBin (CmpI CLe) (ELocI n_j3) (EInt 1)) (EBin (OpI IAdd) (ELocI n_j3) (EInt 2))
(SFor n_j4 (EUn NegI (EInt 1)) (EBin (CmpI CLe) (ELocI n_j4) (EInt 1)) (EBin (OpI IAdd) (ELocI n_j4) (EInt 2))
(SLoc rC n_M (ECall n_amp [(AVar n_j1); (AVar n_j2); (AVar n_j3); (AVar n_j4)]);,
SLoc rT n_amp2 ((ELocT n_amp2) +t (EUn Pow2T (EUn AbsC (ELocC n_M)))))))));,
SReturnT ((ELocT n_amp2) /t (EUn D2T (ELit (4 # 1))))).
(** members: SM/include/emem.h 26-33; initialisers: SM/emem.cpp 32-48 *)
Definition emem : cls := mkCls "emem"
[(n_e, KT);
(n_me, KT);
(n_mm, KT);
(n_mh, KT);
(n_wh, KT);
(n_MZ, KT);
(n_WZ, KT);
(n_MW, KT);
(n_SW, KT);
(n_CW, KT);
(n_p1, (KPart 0));
(n_p2, (KPart 1));
(n_p3, (KPart 2));
(n_p4, (KPart 3));
(n_propA, KProp);
(n_proph, KProp);
(n_propZ, KProp);
(n_pDenTA, KC);
(n_pDenTh, KC);
(n_pDenTZ, KC);
(n_a13a, KSprod);
(n_s13s, KSprod);
(n_a14a, KSprod);
(n_s14s, KSprod);
(n_a23a, KSprod);
(n_s23s, KSprod);
(n_a24a, KSprod);
(n_s24s, KSprod);
(n_s12s, KSprod);
(n_a12a, KSprod);
(n_s34s, KSprod);
(n_a34a, KSprod);
(n_preh, KT);
(n_gL, KT);
(n_gR, KT);
(n_preZ, KT);
(n_preZ0, KT);
(n_preZLL, KT);
(n_preZLR, KT);
(n_preZRR, KT)]
[n_echarge; n_masse; n_massmu; n_massh; n_widthh; n_massW; n_sinW; n_widthZ]
[(n_e, NT (ELocT n_echarge));
(n_me, NT (ELocT n_masse));
(n_mm, NT (ELocT n_massmu));
(n_mh, NT (ELocT n_massh));
(n_wh, NT (ELocT n_widthh));
(n_MW, NT (ELocT n_massW));
(n_SW, NT (ELocT n_sinW));
(n_CW, NT (EUn SqrtT ((EUn D2T (ELit (1 # 1))) -t ((ELocT n_sinW) *t (ELocT n_sinW)))));
(n_WZ, NT (ELocT n_widthZ));
(n_propA, NProp (EUn I2T (EInt 0)) (EUn I2T (EInt 0)));
(n_proph, NProp (EMemT n_mh) (EMemT n_wh));
(n_p1, NPart (EMemT n_me));
(n_p2, NPart (EMemT n_mm));
(n_p3, NPart (EMemT n_me));
(n_p4, NPart (EMemT n_mm));
(n_a13a, NSprod true 0 [] 2);
(n_s13s, NSprod false 0 [] 2);
(n_a14a, NSprod true 0 [] 3);
(n_s14s, NSprod false 0 [] 3);
(n_a23a, NSprod true 1 [] 2);
(n_s23s, NSprod false 1 [] 2);
(n_a24a, NSprod true 1 [] 3);
(n_s24s, NSprod false 1 [] 3);
(n_s12s, NSprod false 0 [] 1);
(n_a12a, NSprod true 0 [] 1);
(n_s34s, NSprod false 2 [] 3);
(n_a34a, NSprod true 2 [] 3)]
emem_ctor
[emem_set_masses; emem_set_momenta; emem_amp; emem_amp2].

(** enAW::enAW: SM/enAW.cpp 32-54 *)
Definition enAW_ctor : stmt :=
(SPropNew n_propW (EMemT n_MW) (EMemT n_WW);,
SPropNew n_prope (EMemT n_me) (EUn I2T (EInt 0));,
SParticle 0 (EMemT n_me);,
SParticle 1 (EUn I2T (EInt 0));,
SParticle 2 (EUn I2T (EInt 0));,
SParticle 3 (EMemT n_MW);,
SSprod n_s34s false 2 [] 3;,
SSprod n_a12a true 0 [] 1;,
SSprod n_a24a true 1 [] 3;,
SSprod n_s13s false 0 [] 2;,
SSprod n_s314a false 2 [0] 3;,
SSprod n_a23a true 1 [] 2;,
SSprod n_s14s false 0 [] 3;,
SSprod n_a34a true 2 [] 3;,
SSprod n_s413a false 3 [0] 2;,
SMemT n_pre ((((EUn D2T (EUn SqrtD (ELit (2 # 1)))) *t (EMemT n_e)) *t (EMemT n_e)) /t ((EMemT n_MW) *t (EMemT n_SW)))).
(** enAW::set_masses: SM/enAW.cpp 55-64 *)
Definition enAW_set_masses : meth := mkMeth n_set_masses [(n_masse, PkT); (n_massW, PkT)]
(SMemT n_me (ELocT n_masse);,
SMemT n_MW (ELocT n_massW);,
SSetMass 0 (EMemT n_me);,
SSetMass 3 (EMemT n_MW);,
SPropMass n_propW (EMemT n_MW);,
SPropMass n_prope (EMemT n_me);,
SMemT n_pre ((((EUn D2T (EUn SqrtD (ELit (2 # 1)))) *t (EMemT n_e)) *t (EMemT n_e)) /t ((EMemT n_MW) *t (EMemT n_SW)))).
(** enAW::set_momenta: SM/enAW.cpp 65-90 *)
Definition enAW_set_momenta : meth := mkMeth n_set_momenta [(n_mom1, PkMom); (n_mom2, PkMom); (n_mom3, PkMom); (n_mom4, PkMom)]
(SSetMomentum 0 n_mom1;,
SSetMomentum 1 n_mom2;,
SSetMomentum 2 n_mom3;,
SSetMomentum 3 n_mom4;,
SUpdate n_s34s;,
SUpdate n_a12a;,
SUpdate n_a24a;,
SUpdate n_s13s;,
SUpdate n_s314a;,
SUpdate n_a23a;,
SUpdate n_s14s;,
SUpdate n_a34a;,
SUpdate n_s413a;,
SDeclT n_propSP 4;,
SDeclT n_propTP 4;,
(SFor n_j (EInt 0) (EBin (CmpI CLt) (ELocI n_j) (EInt 4)) (EBin (OpI IAdd) (ELocI n_j) (EInt 1))
(SArrT n_propSP (AVar n_j) ((EArrT n_mom1 (AVar n_j)) +t (EArrT n_mom2 (AVar n_j)));,
SArrT n_propTP (AVar n_j) ((EArrT n_mom1 (AVar n_j)) -t (EArrT n_mom3 (AVar n_j)))));,
SMemC n_pDenS (EDen n_propW n_propSP);,
SMemC n_pDenT (EDen n_prope n_propTP)).
(** enAW::amp: SM/enAW.cpp 95-134 *)
Definition enAW_amp : meth := mkMeth n_amp [(n_ds1, PkI); (n_ds3, PkI); (n_ds4, PkI)]
(SLoc rC n_amplitude (EBin OpTTC (EUn I2T (EInt 0)) (EUn I2T (EInt 0)));,
SDecl rI n_ds4a;,
SDecl rI n_ds4b;,
SLoc rI n_nCombs (ENLoops [(AVar n_ds4)]);,
SLoc rT n_normFactor (ENorm [(AVar n_ds4)]);,
(SFor n_i (EInt 0) (EBin (CmpI CLt) (ELocI n_i) (ELocI n_nCombs)) (EBin (OpI IAdd) (ELocI n_i) (EInt 1))
(SSpins [(n_ds4, n_ds4a, n_ds4b)] (AVar n_i);,
(SIf (EBin (CmpI CGt) (ELocI n_ds3) (EInt 0))
(SLoc rC n_amplitude ((ELocC n_amplitude) +c ((((((EUn NegT (ELocT n_normFactor)) *t (EMemT n_pre)) *tc ((((EMemT n_me) *tc (EV n_s34s [(AVar n_ds4a)])) *c (EV n_a12a [(AVar n_ds1)])) -c (((EMemT n_MW) *tc (EV n_a24a [(AVar n_ds4a)])) *c (EV n_s13s [(AVar n_ds1)])))) *c (((EMemT n_MW) *tc (EV n_s34s [(AVar n_ds4b)])) +c (EV n_s314a [(AVar n_ds4b)]))) /c (EMemC n_pDenS)) /c (EMemC n_pDenT))))
((SIf (EBin (CmpI CLt) (ELocI n_ds3) (EInt 0))
(SLoc rC n_amplitude ((ELocC n_amplitude) +c (((((((ELocT n_normFactor) *t (EMemT n_pre)) *tc (EV n_a23a [])) *c (EV n_s14s [(AVar n_ds1); (AVar n_ds4a)])) *c ((((EMemT n_me) *t (EMemT n_me)) *tc (EV n_a34a [(AVar n_ds4b)])) +c ((EMemT n_MW) *tc (EV n_s413a [(AVar n_ds4b)])))) /c (EMemC n_pDenS)) /c (EMemC n_pDenT))))
(SSkip))))));,
SReturnC (ELocC n_amplitude)).
(** enAW::amp2: SM/enAW.cpp 137-150 *)
Definition enAW_amp2 : meth := mkMeth n_amp2 []
(SLoc rT n_amp2 (EUn I2T (EInt 0));,
SDecl rC n_M;,
(SFor n_j1 (EUn NegI (EInt 1)) (EBin (CmpI CLe) (ELocI n_j1) (EInt 1)) (EBin (OpI IAdd) (ELocI n_j1) (EInt 2))
(SFor n_j3 (EUn NegI (EInt 2)) (EBin (CmpI CLe) (ELocI n_j3) (EInt 2)) (EBin (OpI IAdd) (ELocI n_j3) (EInt 4))
(SFor n_j4 (EUn NegI (EInt 2)) (EBin (CmpI CLe) (ELocI n_j4) (EInt 2)) (EBin (OpI IAdd) (ELocI n_j4) (EInt 2))
(SLoc rC n_M (ECall n_amp [(AVar n_j1); (AVar n_j3); (AVar n_j4)]);,
SLoc rT n_amp2 ((ELocT n_amp2) +t (EUn Pow2T (EUn AbsC (ELocC n_M))))))));,
SReturnT ((ELocT n_amp2) /t (EUn D2T (ELit (2 # 1))))).
(** members: SM/include/enAW.h 26-35; initialisers: SM/enAW.cpp 32-33 *)
Definition enAW : cls := mkCls "enAW"
[(n_e, KT);
(n_me, KT);
(n_MW, KT);
(n_SW, KT);
(n_WW, KT);
(n_pre, KT);
(n_p1, (KPart 0));
(n_p2, (KPart 1));
(n_p3, (KPart 2));
(n_p4, (KPart 3));
(n_propW, KProp);
(n_prope, KProp);
(n_pDenS, KC);
(n_pDenT, KC);
(n_s34s, KSprod);
(n_a12a, KSprod);
(n_a24a, KSprod);
(n_s13s, KSprod);
(n_s314a, KSprod);
(n_a23a, KSprod);
(n_s14s, KSprod);
(n_a34a, KSprod);
(n_s413a, KSprod)]
[n_echarge; n_masse; n_massW; n_sinW; n_widthW]
[(n_e, NT (ELocT n_echarge));
(n_me, NT (ELocT n_masse));
(n_MW, NT (ELocT n_massW));
(n_SW, NT (ELocT n_sinW));
(n_WW, NT (ELocT n_widthW))]
enAW_ctor
[enAW_set_masses; enAW_set_momenta; enAW_amp; enAW_amp2].

Definition SM06_classes : list cls := [eeZh; eeee; eeee2; eeeeQED; eehh; eemm; eemmQED; eenene; eenmnm; eheh; emem; enAW].
