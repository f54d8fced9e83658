(** Generated by tools/translate.py from SM/enWh.cpp ... SM/gggg.cpp.  Do not edit. *)
From Coq Require Import QArith String.
From Verif Require Import Base Scalar Particle Sproduct Lang SMSyntax SMNames.
Local Open Scope sm_scope.
Local Open Scope string_scope.

(** enWh::enWh: SM/enWh.cpp 32-47 *)
Definition enWh_ctor : stmt :=
(SParticle 0 (EMemT n_me);,
SParticle 1 (EUn I2T (EInt 0));,
SParticle 2 (EMemT n_MW);,
SParticle 3 (EMemT n_mh);,
SSprod n_a23a true 1 [] 2;,
SSprod n_s13s false 0 [] 2;,
SSprod n_a12a true 0 [] 1;,
SSprod n_s343a false 2 [3] 2;,
SSprod n_s341a false 2 [3] 0;,
SMemT n_preW (((EMemT n_e) *t (EMemT n_e)) /t (((((EUn D2T (ELit (2 # 1))) *t (EMemT n_MW)) *t (EMemT n_MW)) *t (EMemT n_SW)) *t (EMemT n_SW)));,
SMemT n_pree ((EMemT n_me) *t (EMemT n_preW))).
(** enWh::set_masses: SM/enWh.cpp 48-60 *)
Definition enWh_set_masses : meth := mkMeth n_set_masses [(n_masse, PkT); (n_massh, PkT); (n_massW, PkT)]
(SMemT n_me (ELocT n_masse);,
SMemT n_mh (ELocT n_massh);,
SMemT n_MW (ELocT n_massW);,
SSetMass 0 (EMemT n_me);,
SSetMass 2 (EMemT n_MW);,
SSetMass 3 (EMemT n_mh);,
SPropMass n_prope (EMemT n_me);,
SPropMass n_propW (EMemT n_MW);,
SMemT n_preW (((EMemT n_e) *t (EMemT n_e)) /t (((((EUn D2T (ELit (2 # 1))) *t (EMemT n_MW)) *t (EMemT n_MW)) *t (EMemT n_SW)) *t (EMemT n_SW)));,
SMemT n_pree ((EMemT n_me) *t (EMemT n_preW))).
(** enWh::set_momenta: SM/enWh.cpp 61-82 *)
Definition enWh_set_momenta : meth := mkMeth n_set_momenta [(n_mom1, PkMom); (n_mom2, PkMom); (n_mom3, PkMom); (n_mom4, PkMom)]
(SSetMomentum 0 n_mom1;,
SSetMomentum 1 n_mom2;,
SSetMomentum 2 n_mom3;,
SSetMomentum 3 n_mom4;,
SUpdate n_a23a;,
SUpdate n_s13s;,
SUpdate n_a12a;,
SUpdate n_s343a;,
SUpdate n_s341a;,
SDeclT n_propSP 4;,
SDeclT n_propTP 4;,
SDeclT n_propUP 4;,
(SFor n_j (EInt 0) (EBin (CmpI CLt) (ELocI n_j) (EInt 4)) (EBin (OpI IAdd) (ELocI n_j) (EInt 1))
(SArrT n_propSP (AVar n_j) ((EArrT n_mom1 (AVar n_j)) +t (EArrT n_mom2 (AVar n_j)));,
SArrT n_propUP (AVar n_j) ((EArrT n_mom1 (AVar n_j)) -t (EArrT n_mom4 (AVar n_j)))));,
SMemC n_pDenWS (EDen n_propW n_propSP);,
SMemC n_pDeneU (EDen n_prope n_propUP)).
(** enWh::amp: SM/enWh.cpp 87-118 *)
Definition enWh_amp : meth := mkMeth n_amp [(n_ds1, PkI); (n_ds3, PkI)]
(SLoc rC n_amplitude (EBin OpTTC (EUn I2T (EInt 0)) (EUn I2T (EInt 0)));,
SDecl rI n_ds3a;,
SDecl rI n_ds3b;,
SLoc rT n_two (EUn I2T (EInt 2));,
SLoc rI n_nCombs (ENLoops [(AVar n_ds3)]);,
SLoc rT n_normFactor (ENorm [(AVar n_ds3)]);,
(SFor n_i (EInt 0) (EBin (CmpI CLt) (ELocI n_i) (ELocI n_nCombs)) (EBin (OpI IAdd) (ELocI n_i) (EInt 1))
(SSpins [(n_ds3, n_ds3a, n_ds3b)] (AVar n_i);,
SLoc rC n_amplitude ((ELocC n_amplitude) +c ((((ELocT n_normFactor) *t (EMemT n_preW)) *tc ((((((ELocT n_two) *t (EMemT n_MW)) *t (EMemT n_MW)) *tc (EV n_a23a [(AVar n_ds3a)])) *c (EV n_s13s [(AVar n_ds1); (AVar n_ds3b)])) +c (((EMemT n_me) *tc (EV n_a12a [(AVar n_ds1)])) *c (EV n_s343a [(AVar n_ds3a); (AVar n_ds3b)])))) /c (EMemC n_pDenWS)));,
SLoc rC n_amplitude ((ELocC n_amplitude) +c (((((ELocT n_normFactor) *t (EMemT n_pree)) *tc (EV n_a23a [(AVar n_ds3a)])) *c ((((ELocT n_two) *t (EMemT n_me)) *tc (EV n_s13s [(AVar n_ds1); (AVar n_ds3b)])) -c (EV n_s341a [(AVar n_ds3b); (AVar n_ds1)]))) /c (EMemC n_pDeneU)))));,
SReturnC (ELocC n_amplitude)).
(** enWh::amp2: SM/enWh.cpp 121-133 *)
Definition enWh_amp2 : meth := mkMeth n_amp2 []
(SLoc rT n_amp2 (EUn I2T (EInt 0));,
SDecl rC n_M;,
(SFor n_j1 (EUn NegI (EInt 1)) (EBin (CmpI CLe) (ELocI n_j1) (EInt 1)) (EBin (OpI IAdd) (ELocI n_j1) (EInt 2))
(SFor n_j3 (EUn NegI (EInt 2)) (EBin (CmpI CLe) (ELocI n_j3) (EInt 2)) (EBin (OpI IAdd) (ELocI n_j3) (EInt 2))
(SLoc rC n_M (ECall n_amp [(AVar n_j1); (AVar n_j3)]);,
SLoc rT n_amp2 ((ELocT n_amp2) +t (EUn Pow2T (EUn AbsC (ELocC n_M)))))));,
SReturnT ((ELocT n_amp2) /t (EUn D2T (ELit (2 # 1))))).
(** members: SM/include/enWh.h 26-32; initialisers: SM/enWh.cpp 32-33 *)
Definition enWh : cls := mkCls "enWh"
[(n_e, KT);
(n_me, KT);
(n_mh, KT);
(n_MW, KT);
(n_WW, KT);
(n_SW, KT);
(n_p1, (KPart 0));
(n_p2, (KPart 1));
(n_p3, (KPart 2));
(n_p4, (KPart 3));
(n_prope, KProp);
(n_propW, KProp);
(n_pDenWS, KC);
(n_pDeneU, KC);
(n_a23a, KSprod);
(n_s13s, KSprod);
(n_a12a, KSprod);
(n_s343a, KSprod);
(n_s341a, KSprod);
(n_pree, KT);
(n_preW, KT)]
[n_echarge; n_masse; n_massh; n_massW; n_widthW; n_sinW]
[(n_e, NT (ELocT n_echarge));
(n_me, NT (ELocT n_masse));
(n_mh, NT (ELocT n_massh));
(n_MW, NT (ELocT n_massW));
(n_WW, NT (ELocT n_widthW));
(n_SW, NT (ELocT n_sinW));
(n_prope, NProp (ELocT n_masse) (EUn I2T (EInt 0)));
(n_propW, NProp (ELocT n_massW) (ELocT n_widthW))]
enWh_ctor
[enWh_set_masses; enWh_set_momenta; enWh_amp; enWh_amp2].

(** enZW::enZW: SM/enZW.cpp 32-65 *)
Definition enZW_ctor : stmt :=
(SLoc rT n_one (EUn I2T (EInt 1));,
SLoc rT n_two (EUn I2T (EInt 2));,
SMemT n_CW (EUn SqrtT ((EUn I2T (EInt 1)) -t ((EMemT n_SW) *t (EMemT n_SW))));,
SMemT n_MZ ((EMemT n_MW) /t (EMemT n_CW));,
SPropNew n_propW (EMemT n_MW) (EMemT n_WW);,
SPropNew n_prope (EMemT n_me) (EUn I2T (EInt 0));,
SPropNew n_propne (EUn I2T (EInt 0)) (EUn I2T (EInt 0));,
SParticle 0 (EMemT n_me);,
SParticle 1 (EUn I2T (EInt 0));,
SParticle 2 (EMemT n_MZ);,
SParticle 3 (EMemT n_MW);,
SSprod n_a34a true 2 [] 3;,
SSprod n_s34s false 2 [] 3;,
SSprod n_a23a true 1 [] 2;,
SSprod n_s14s false 0 [] 3;,
SSprod n_a24a true 1 [] 3;,
SSprod n_s13s false 0 [] 2;,
SSprod n_a12a true 0 [] 1;,
SSprod n_s132a false 0 [2] 1;,
SSprod n_a13a true 0 [] 2;,
SSprod n_s413a false 3 [0] 2;,
SSprod n_s314a false 2 [0] 3;,
SMemT n_preW (((EMemT n_e) *t (EMemT n_e)) /t (((((((EUn D2T (EUn SqrtD (ELit (2 # 1)))) *t (EMemT n_MW)) *t (EMemT n_MW)) *t (EMemT n_MZ)) *t (EMemT n_MZ)) *t (EMemT n_SW)) *t (EMemT n_SW)));,
SMemT n_pree (((EMemT n_e) *t (EMemT n_e)) /t (((((EUn D2T (EUn SqrtD (ELit (2 # 1)))) *t (EMemT n_MW)) *t (EMemT n_MW)) *t (EMemT n_SW)) *t (EMemT n_SW)));,
SMemT n_pren (((EMemT n_e) *t (EMemT n_e)) /t (((((EUn D2T (EUn SqrtD (ELit (2 # 1)))) *t (EMemT n_MW)) *t (EMemT n_MW)) *t (EMemT n_SW)) *t (EMemT n_SW)));,
SMemT n_gL ((((ELocT n_two) *t (EMemT n_SW)) *t (EMemT n_SW)) -t (ELocT n_one));,
SMemT n_gR (((ELocT n_two) *t (EMemT n_SW)) *t (EMemT n_SW))).
(** enZW::set_masses: SM/enZW.cpp 66-80 *)
Definition enZW_set_masses : meth := mkMeth n_set_masses [(n_masse, PkT); (n_massW, PkT)]
(SLoc rT n_two (EUn I2T (EInt 2));,
SMemT n_me (ELocT n_masse);,
SMemT n_MW (ELocT n_massW);,
SMemT n_MZ ((EMemT n_MW) /t (EMemT n_CW));,
SSetMass 0 (EMemT n_me);,
SSetMass 2 (EMemT n_MZ);,
SSetMass 3 (EMemT n_MW);,
SPropMass n_propW (EMemT n_MW);,
SPropMass n_prope (EMemT n_me);,
SMemT n_preW (((EMemT n_e) *t (EMemT n_e)) /t (((((((EUn D2T (EUn SqrtD (ELit (2 # 1)))) *t (EMemT n_MW)) *t (EMemT n_MW)) *t (EMemT n_MZ)) *t (EMemT n_MZ)) *t (EMemT n_SW)) *t (EMemT n_SW)));,
SMemT n_pree (((EMemT n_e) *t (EMemT n_e)) /t (((((EUn D2T (EUn SqrtD (ELit (2 # 1)))) *t (EMemT n_MW)) *t (EMemT n_MW)) *t (EMemT n_SW)) *t (EMemT n_SW)));,
SMemT n_pren (((EMemT n_e) *t (EMemT n_e)) /t (((((EUn D2T (EUn SqrtD (ELit (2 # 1)))) *t (EMemT n_MW)) *t (EMemT n_MW)) *t (EMemT n_SW)) *t (EMemT n_SW)))).
(** enZW::set_momenta: SM/enZW.cpp 81-111 *)
Definition enZW_set_momenta : meth := mkMeth n_set_momenta [(n_mom1, PkMom); (n_mom2, PkMom); (n_mom3, PkMom); (n_mom4, PkMom)]
(SSetMomentum 0 n_mom1;,
SSetMomentum 1 n_mom2;,
SSetMomentum 2 n_mom3;,
SSetMomentum 3 n_mom4;,
SUpdate n_a34a;,
SUpdate n_s34s;,
SUpdate n_a23a;,
SUpdate n_s14s;,
SUpdate n_a24a;,
SUpdate n_s13s;,
SUpdate n_a12a;,
SUpdate n_s132a;,
SUpdate n_a13a;,
SUpdate n_s413a;,
SUpdate n_s314a;,
SDeclT n_propSP 4;,
SDeclT n_propTP 4;,
SDeclT n_propUP 4;,
(SFor n_j (EInt 0) (EBin (CmpI CLt) (ELocI n_j) (EInt 4)) (EBin (OpI IAdd) (ELocI n_j) (EInt 1))
(SArrT n_propSP (AVar n_j) ((EArrT n_mom1 (AVar n_j)) +t (EArrT n_mom2 (AVar n_j)));,
SArrT n_propTP (AVar n_j) ((EArrT n_mom1 (AVar n_j)) -t (EArrT n_mom3 (AVar n_j)));,
SArrT n_propUP (AVar n_j) ((EArrT n_mom1 (AVar n_j)) -t (EArrT n_mom4 (AVar n_j)))));,
SMemC n_pDenS (EDen n_propW n_propSP);,
SMemC n_pDenT (EDen n_prope n_propTP);,
SMemC n_pDenU (EDen n_propne n_propUP)).
(** enZW::amp: SM/enZW.cpp 116-167 *)
Definition enZW_amp : meth := mkMeth n_amp [(n_ds1, PkI); (n_ds3, PkI); (n_ds4, PkI)]
(SLoc rC n_amplitude (EBin OpTTC (EUn I2T (EInt 0)) (EUn I2T (EInt 0)));,
SDecl rI n_ds3a;,
SDecl rI n_ds3b;,
SDecl rI n_ds4a;,
SDecl rI n_ds4b;,
SLoc rT n_two (EUn I2T (EInt 2));,
SLoc rI n_nCombs (ENLoops [(AVar n_ds3); (AVar n_ds4)]);,
SLoc rT n_normFactor (ENorm [(AVar n_ds3); (AVar n_ds4)]);,
(SFor n_i (EInt 0) (EBin (CmpI CLt) (ELocI n_i) (ELocI n_nCombs)) (EBin (OpI IAdd) (ELocI n_i) (EInt 1))
(SSpins [(n_ds3, n_ds3a, n_ds3b); (n_ds4, n_ds4a, n_ds4b)] (AVar n_i);,
SLoc rC n_amplitude ((ELocC n_amplitude) +c ((((ELocT n_normFactor) *t (EMemT n_preW)) *tc ((((((((ELocT n_two) *tc (((EMemT n_MZ) *tc (EV n_a34a [(AVar n_ds3b); (AVar n_ds4a)])) +c ((EMemT n_MW) *tc (EV n_s34s [(AVar n_ds3b); (AVar n_ds4a)])))) *ct (EMemT n_MW)) *ct (EMemT n_MW)) *c (EV n_a23a [(AVar n_ds3a)])) *c (EV n_s14s [(AVar n_ds1); (AVar n_ds4b)])) +c ((((((ELocT n_two) *tc (((EMemT n_MW) *tc (EV n_a34a [(AVar n_ds3a); (AVar n_ds4b)])) +c ((EMemT n_MZ) *tc (EV n_s34s [(AVar n_ds3a); (AVar n_ds4b)])))) *ct (EMemT n_MW)) *ct (EMemT n_MW)) *c (EV n_a24a [(AVar n_ds4a)])) *c (EV n_s13s [(AVar n_ds1); (AVar n_ds3b)]))) +c ((((((((EMemT n_MZ) *t (EMemT n_MZ)) -t (((ELocT n_two) *t (EMemT n_MW)) *t (EMemT n_MW))) *t (EMemT n_me)) *tc (EV n_a12a [(AVar n_ds1)])) +c ((((ELocT n_two) *t (EMemT n_MW)) *t (EMemT n_MW)) *tc (EV n_s132a [(AVar n_ds1)]))) *c (EV n_a34a [(AVar n_ds3a); (AVar n_ds4a)])) *c (EV n_s34s [(AVar n_ds3b); (AVar n_ds4b)])))) /c (EMemC n_pDenS)));,
SLoc rC n_amplitude ((ELocC n_amplitude) +c (((((ELocT n_normFactor) *t (EMemT n_pree)) *tc (EV n_a24a [(AVar n_ds4a)])) *c (((((EMemT n_gR) *t (EMemT n_me)) *tc (EV n_a13a [(AVar n_ds1); (AVar n_ds3b)])) *c (EV n_s34s [(AVar n_ds3a); (AVar n_ds4b)])) +c (((EMemT n_gL) *tc (((EUn NegT (EMemT n_MZ)) *tc (EV n_s34s [(AVar n_ds3b); (AVar n_ds4b)])) +c (EV n_s413a [(AVar n_ds4b); (AVar n_ds3b)]))) *c (EV n_s13s [(AVar n_ds1); (AVar n_ds3a)])))) /c (EMemC n_pDenT)));,
SLoc rC n_amplitude ((ELocC n_amplitude) +c ((((((ELocT n_normFactor) *t (EMemT n_pren)) *tc (EV n_a23a [(AVar n_ds3a)])) *c (EV n_s14s [(AVar n_ds1); (AVar n_ds4a)])) *c (((EMemT n_MW) *tc (EV n_s34s [(AVar n_ds3b); (AVar n_ds4b)])) +c (EV n_s314a [(AVar n_ds3b); (AVar n_ds4b)]))) /c (EMemC n_pDenU)))));,
SReturnC (ELocC n_amplitude)).
(** enZW::amp2: SM/enZW.cpp 170-183 *)
Definition enZW_amp2 : meth := mkMeth n_amp2 []
(SLoc rT n_amp2 (EUn I2T (EInt 0));,
SDecl rC n_M;,
(SFor n_j1 (EUn NegI (EInt 1)) (EBin (CmpI CLe) (ELocI n_j1) (EInt 1)) (EBin (OpI IAdd) (ELocI n_j1) (EInt 2))
(SFor n_j3 (EUn NegI (EInt 2)) (EBin (CmpI CLe) (ELocI n_j3) (EInt 2)) (EBin (OpI IAdd) (ELocI n_j3) (EInt 2))
(SFor n_j4 (EUn NegI (EInt 2)) (EBin (CmpI CLe) (ELocI n_j4) (EInt 2)) (EBin (OpI IAdd) (ELocI n_j4) (EInt 2))
(SLoc rC n_M (ECall n_amp [(AVar n_j1); (AVar n_j3); (AVar n_j4)]);,
SLoc rT n_amp2 ((ELocT n_amp2) +t (EUn Pow2T (EUn AbsC (ELocC n_M))))))));,
SReturnT ((ELocT n_amp2) /t (EUn D2T (ELit (2 # 1))))).
(** members: SM/include/enZW.h 26-37; initialisers: SM/enZW.cpp 32-33 *)
Definition enZW : cls := mkCls "enZW"
[(n_e, KT);
(n_me, KT);
(n_MW, KT);
(n_MZ, KT);
(n_SW, KT);
(n_CW, KT);
(n_WW, KT);
(n_preW, KT);
(n_pree, KT);
(n_pren, KT);
(n_gL, KT);
(n_gR, KT);
(n_p1, (KPart 0));
(n_p2, (KPart 1));
(n_p3, (KPart 2));
(n_p4, (KPart 3));
(n_propW, KProp);
(n_prope, KProp);
(n_propne, KProp);
(n_pDenS, KC);
(n_pDenT, KC);
(n_pDenU, KC);
(n_a34a, KSprod);
(n_s34s, KSprod);
(n_a23a, KSprod);
(n_s14s, KSprod);
(n_a24a, KSprod);
(n_s13s, KSprod);
(n_a12a, KSprod);
(n_s132a, KSprod);
(n_a13a, KSprod);
(n_s413a, KSprod);
(n_s314a, KSprod)]
[n_echarge; n_masse; n_massW; n_sinW; n_widthW]
[(n_e, NT (ELocT n_echarge));
(n_me, NT (ELocT n_masse));
(n_MW, NT (ELocT n_massW));
(n_SW, NT (ELocT n_sinW));
(n_WW, NT (ELocT n_widthW))]
enZW_ctor
[enZW_set_masses; enZW_set_momenta; enZW_amp; enZW_amp2].

(** enenee::enenee: SM/enenee.cpp 32-57 *)
Definition enenee_ctor : stmt :=
(SMemT n_MZ ((EMemT n_MW) /t (EMemT n_CW));,
SPropMass n_propZ (EMemT n_MZ);,
SMemT n_gL ((((EUn D2T (ELit (2 # 1))) *t (EMemT n_SW)) *t (EMemT n_SW)) -t (EUn D2T (ELit (1 # 1))));,
SMemT n_gR (((EUn D2T (ELit (2 # 1))) *t (EMemT n_SW)) *t (EMemT n_SW));,
SMemT n_preZ (((EMemT n_e) *t (EMemT n_e)) /t (((((EUn D2T (ELit (4 # 1))) *t (EMemT n_CW)) *t (EMemT n_CW)) *t (EMemT n_SW)) *t (EMemT n_SW)));,
SMemT n_preW (((((EMemT n_e) *t (EMemT n_e)) /t (EMemT n_SW)) /t (EMemT n_SW)) /t (((EUn D2T (ELit (4 # 1))) *t (EMemT n_MW)) *t (EMemT n_MW)))).
(** enenee::set_masses: SM/enenee.cpp 58-67 *)
Definition enenee_set_masses : meth := mkMeth n_set_masses [(n_masse, PkT); (n_massW, PkT)]
(SMemT n_me (ELocT n_masse);,
SMemT n_MW (ELocT n_massW);,
SPropMass n_propW (EMemT n_MW);,
SMemT n_MZ ((EMemT n_MW) /t (EMemT n_CW));,
SPropMass n_propZ (EMemT n_MZ);,
SSetMass 0 (EMemT n_me);,
SSetMass 3 (EMemT n_me);,
SMemT n_preW (((((EMemT n_e) *t (EMemT n_e)) /t (EMemT n_SW)) /t (EMemT n_SW)) /t (((EUn D2T (ELit (4 # 1))) *t (EMemT n_MW)) *t (EMemT n_MW)))).
(** enenee::set_momenta: SM/enenee.cpp 68-94 *)
Definition enenee_set_momenta : meth := mkMeth n_set_momenta [(n_mom1, PkMom); (n_mom2, PkMom); (n_mom3, PkMom); (n_mom4, PkMom)]
(SSetMomentum 0 n_mom1;,
SSetMomentum 1 n_mom2;,
SSetMomentum 2 n_mom3;,
SSetMomentum 3 n_mom4;,
SUpdate n_a13a;,
SUpdate n_s13s;,
SUpdate n_a14a;,
SUpdate n_s14s;,
SUpdate n_a23a;,
SUpdate n_s23s;,
SUpdate n_a24a;,
SUpdate n_s24s;,
SUpdate n_s12s;,
SUpdate n_a12a;,
SUpdate n_s34s;,
SUpdate n_a34a;,
SDeclT n_propPU 4;,
SDeclT n_propPT 4;,
(SFor n_j (EInt 0) (EBin (CmpI CLt) (ELocI n_j) (EInt 4)) (EBin (OpI IAdd) (ELocI n_j) (EInt 1))
(SArrT n_propPU (AVar n_j) ((EArrT n_mom1 (AVar n_j)) -t (EArrT n_mom4 (AVar n_j)));,
SArrT n_propPT (AVar n_j) ((EArrT n_mom1 (AVar n_j)) -t (EArrT n_mom3 (AVar n_j)))));,
SMemC n_pDenUZ (EDen n_propZ n_propPU);,
SMemC n_pDenTW (EDen n_propW n_propPT)).
(** enenee::amp: SM/enenee.cpp 99-133 *)
Definition enenee_amp : meth := mkMeth n_amp [(n_ds1, PkI); (n_ds4, PkI)]
(SLoc rT n_two (EUn I2T (EInt 2));,
SLoc rC n_amplitude (EBin OpTTC (EUn I2T (EInt 0)) (EUn I2T (EInt 0)));,
SLoc rC n_amplitude ((((EUn NegT (ELocT n_two)) *t (EMemT n_preZ)) *tc ((((EMemT n_gL) *tc (EV n_s34s [(AVar n_ds4)])) *c (EV n_a12a [(AVar n_ds1)])) -c (((EMemT n_gR) *tc (EV n_s13s [(AVar n_ds1)])) *c (EV n_a24a [(AVar n_ds4)])))) /c (EMemC n_pDenUZ));,
SLoc rC n_amplitude ((ELocC n_amplitude) +c ((((EUn NegT (ELocT n_two)) *t (EMemT n_preW)) *tc ((((((EUn D2T (ELit (2 # 1))) *t (EMemT n_MW)) *t (EMemT n_MW)) *tc (EV n_s34s [(AVar n_ds4)])) *c (EV n_a12a [(AVar n_ds1)])) -c ((((EMemT n_me) *t (EMemT n_me)) *tc (EV n_s13s [(AVar n_ds1)])) *c (EV n_a24a [(AVar n_ds4)])))) /c (EMemC n_pDenTW)));,
SReturnC (ELocC n_amplitude)).
(** enenee::amp2: SM/enenee.cpp 136-148 *)
Definition enenee_amp2 : meth := mkMeth n_amp2 []
(SLoc rT n_amp2 (EUn I2T (EInt 0));,
SDecl rC n_M;,
(SFor n_j1 (EUn NegI (EInt 1)) (EBin (CmpI CLe) (ELocI n_j1) (EInt 1)) (EBin (OpI IAdd) (ELocI n_j1) (EInt 2))
(SFor n_j2 (EUn NegI (EInt 1)) (EBin (CmpI CLe) (ELocI n_j2) (EInt 1)) (EBin (OpI IAdd) (ELocI n_j2) (EInt 2))
(SLoc rC n_M (ECall n_amp [(AVar n_j1); (AVar n_j2)]);,
SLoc rT n_amp2 ((ELocT n_amp2) +t (EUn Pow2T (EUn AbsC (ELocC n_M)))))));,
SReturnT ((ELocT n_amp2) /t (EUn D2T (ELit (2 # 1))))).
(** members: SM/include/enenee.h 26-33; initialisers: SM/enenee.cpp 32-48 *)
Definition enenee : cls := mkCls "enenee"
[(n_e, KT);
(n_me, KT);
(n_MZ, KT);
(n_WZ, KT);
(n_MW, KT);
(n_WW, KT);
(n_SW, KT);
(n_CW, KT);
(n_p1, (KPart 0));
(n_p2, (KPart 1));
(n_p3, (KPart 2));
(n_p4, (KPart 3));
(n_propZ, KProp);
(n_propW, KProp);
(n_pDenUZ, KC);
(n_pDenTW, KC);
(n_a13a, KSprod);
(n_s13s, KSprod);
(n_a14a, KSprod);
(n_s14s, KSprod);
(n_a23a, KSprod);
(n_s23s, KSprod);
(n_a24a, KSprod);
(n_s24s, KSprod);
(n_s12s, KSprod);
(n_a12a, KSprod);
(n_s34s, KSprod);
(n_a34a, KSprod);
(n_gL, KT);
(n_gR, KT);
(n_preZ, KT);
(n_preW, KT)]
[n_echarge; n_masse; n_massW; n_widthW; n_sinW; n_widthZ]
[(n_e, NT (ELocT n_echarge));
(n_me, NT (ELocT n_masse));
(n_MW, NT (ELocT n_massW));
(n_WW, NT (ELocT n_widthW));
(n_SW, NT (ELocT n_sinW));
(n_CW, NT (EUn SqrtT ((EUn D2T (ELit (1 # 1))) -t ((ELocT n_sinW) *t (ELocT n_sinW)))));
(n_WZ, NT (ELocT n_widthZ));
(n_propW, NProp (EMemT n_MW) (EMemT n_WW));
(n_p1, NPart (EMemT n_me));
(n_p2, NPart (EUn I2T (EInt 0)));
(n_p3, NPart (EUn I2T (EInt 0)));
(n_p4, NPart (EMemT n_me));
(n_a13a, NSprod true 0 [] 2);
(n_s13s, NSprod false 0 [] 2);
(n_a14a, NSprod true 0 [] 3);
(n_s14s, NSprod false 0 [] 3);
(n_a23a, NSprod true 1 [] 2);
(n_s23s, NSprod false 1 [] 2);
(n_a24a, NSprod true 1 [] 3);
(n_s24s, NSprod false 1 [] 3);
(n_s12s, NSprod false 0 [] 1);
(n_a12a, NSprod true 0 [] 1);
(n_s34s, NSprod false 2 [] 3);
(n_a34a, NSprod true 2 [] 3)]
enenee_ctor
[enenee_set_masses; enenee_set_momenta; enenee_amp; enenee_amp2].

(** enmenm::enmenm: SM/enmenm.cpp 32-55 *)
Definition enmenm_ctor : stmt :=
(SMemT n_MZ ((EMemT n_MW) /t (EMemT n_CW));,
SPropMass n_propZ (EMemT n_MZ);,
SMemT n_gL ((((EUn D2T (ELit (2 # 1))) *t (EMemT n_SW)) *t (EMemT n_SW)) -t (EUn D2T (ELit (1 # 1))));,
SMemT n_gR (((EUn D2T (ELit (2 # 1))) *t (EMemT n_SW)) *t (EMemT n_SW));,
SMemT n_preZ (((EMemT n_e) *t (EMemT n_e)) /t (((((EUn D2T (ELit (4 # 1))) *t (EMemT n_CW)) *t (EMemT n_CW)) *t (EMemT n_SW)) *t (EMemT n_SW)))).
(** enmenm::set_masses: SM/enmenm.cpp 56-63 *)
Definition enmenm_set_masses : meth := mkMeth n_set_masses [(n_masse, PkT); (n_massW, PkT)]
(SMemT n_me (ELocT n_masse);,
SMemT n_MW (ELocT n_massW);,
SMemT n_MZ ((EMemT n_MW) /t (EMemT n_CW));,
SPropMass n_propZ (EMemT n_MZ);,
SSetMass 0 (EMemT n_me);,
SSetMass 2 (EMemT n_me)).
(** enmenm::set_momenta: SM/enmenm.cpp 64-87 *)
Definition enmenm_set_momenta : meth := mkMeth n_set_momenta [(n_mom1, PkMom); (n_mom2, PkMom); (n_mom3, PkMom); (n_mom4, PkMom)]
(SSetMomentum 0 n_mom1;,
SSetMomentum 1 n_mom2;,
SSetMomentum 2 n_mom3;,
SSetMomentum 3 n_mom4;,
SUpdate n_a13a;,
SUpdate n_s13s;,
SUpdate n_a14a;,
SUpdate n_s14s;,
SUpdate n_a23a;,
SUpdate n_s23s;,
SUpdate n_a24a;,
SUpdate n_s24s;,
SUpdate n_s12s;,
SUpdate n_a12a;,
SUpdate n_s34s;,
SUpdate n_a34a;,
SDeclT n_propP 4;,
(SFor n_j (EInt 0) (EBin (CmpI CLt) (ELocI n_j) (EInt 4)) (EBin (OpI IAdd) (ELocI n_j) (EInt 1))
(SArrT n_propP (AVar n_j) ((EArrT n_mom1 (AVar n_j)) -t (EArrT n_mom3 (AVar n_j)))));,
SMemC n_pDenTZ (EDen n_propZ n_propP)).
(** enmenm::amp: SM/enmenm.cpp 92-107 *)
Definition enmenm_amp : meth := mkMeth n_amp [(n_ds1, PkI); (n_ds3, PkI)]
(SLoc rT n_two (EUn I2T (EInt 2));,
SReturnC ((((EUn NegT (ELocT n_two)) *t (EMemT n_preZ)) *tc ((((EMemT n_gL) *tc (EV n_s34s [(AVar n_ds3)])) *c (EV n_a12a [(AVar n_ds1)])) +c (((EMemT n_gR) *tc (EV n_s14s [(AVar n_ds1)])) *c (EV n_a23a [(AVar n_ds3)])))) /c (EMemC n_pDenTZ))).
(** enmenm::amp2: SM/enmenm.cpp 110-122 *)
Definition enmenm_amp2 : meth := mkMeth n_amp2 []
(SLoc rT n_amp2 (EUn I2T (EInt 0));,
SDecl rC n_M;,
(SFor n_j1 (EUn NegI (EInt 1)) (EBin (CmpI CLe) (ELocI n_j1) (EInt 1)) (EBin (OpI IAdd) (ELocI n_j1) (EInt 2))
(SFor n_j3 (EUn NegI (EInt 1)) (EBin (CmpI CLe) (ELocI n_j3) (EInt 1)) (EBin (OpI IAdd) (ELocI n_j3) (EInt 2))
(SLoc rC n_M (ECall n_amp [(AVar n_j1); (AVar n_j3)]);,
SLoc rT n_amp2 ((ELocT n_amp2) +t (EUn Pow2T (EUn AbsC (ELocC n_M)))))));,
SReturnT ((ELocT n_amp2) /t (EUn D2T (ELit (2 # 1))))).
(** members: SM/include/enmenm.h 26-33; initialisers: SM/enmenm.cpp 32-47 *)
Definition enmenm : cls := mkCls "enmenm"
[(n_e, KT);
(n_me, KT);
(n_MZ, KT);
(n_WZ, KT);
(n_MW, KT);
(n_SW, KT);
(n_CW, KT);
(n_p1, (KPart 0));
(n_p2, (KPart 1));
(n_p3, (KPart 2));
(n_p4, (KPart 3));
(n_propZ, KProp);
(n_pDenTZ, KC);
(n_a13a, KSprod);
(n_s13s, KSprod);
(n_a14a, KSprod);
(n_s14s, KSprod);
(n_a23a, KSprod);
(n_s23s, KSprod);
(n_a24a, KSprod);
(n_s24s, KSprod);
(n_s12s, KSprod);
(n_a12a, KSprod);
(n_s34s, KSprod);
(n_a34a, KSprod);
(n_gL, KT);
(n_gR, KT);
(n_preZ, KT)]
[n_echarge; n_masse; n_massW; n_sinW; n_widthZ]
[(n_e, NT (ELocT n_echarge));
(n_me, NT (ELocT n_masse));
(n_MW, NT (ELocT n_massW));
(n_SW, NT (ELocT n_sinW));
(n_CW, NT (EUn SqrtT ((EUn D2T (ELit (1 # 1))) -t ((ELocT n_sinW) *t (ELocT n_sinW)))));
(n_WZ, NT (ELocT n_widthZ));
(n_p1, NPart (EMemT n_me));
(n_p2, NPart (EUn I2T (EInt 0)));
(n_p3, NPart (EMemT n_me));
(n_p4, NPart (EUn I2T (EInt 0)));
(n_a13a, NSprod true 0 [] 2);
(n_s13s, NSprod false 0 [] 2);
(n_a14a, NSprod true 0 [] 3);
(n_s14s, NSprod false 0 [] 3);
(n_a23a, NSprod true 1 [] 2);
(n_s23s, NSprod false 1 [] 2);
(n_a24a, NSprod true 1 [] 3);
(n_s24s, NSprod false 1 [] 3);
(n_s12s, NSprod false 0 [] 1);
(n_a12a, NSprod true 0 [] 1);
(n_s34s, NSprod false 2 [] 3);
(n_a34a, NSprod true 2 [] 3)]
enmenm_ctor
[enmenm_set_masses; enmenm_set_momenta; enmenm_amp; enmenm_amp2].

(** gAdd::gAdd: SM/gAdd.cpp 32-54 *)
Definition gAdd_ctor : stmt :=
(SLoc rT n_two (EUn I2T (EInt 2));,
SMemT n_sqrt2 (EUn SqrtT (ELocT n_two));,
SParticle 0 (EUn I2T (EInt 0));,
SParticle 1 (EUn I2T (EInt 0));,
SParticle 2 (EMemT n_md);,
SParticle 3 (EMemT n_md);,
SSprod n_s34s false 2 [] 3;,
SSprod n_a34a true 2 [] 3;,
SSprod n_s12s false 0 [] 1;,
SSprod n_a12a true 0 [] 1;,
SSprod n_s13s false 0 [] 2;,
SSprod n_a13a true 0 [] 2;,
SSprod n_s24s false 1 [] 3;,
SSprod n_a24a true 1 [] 3;,
SSprod n_s23s false 1 [] 2;,
SSprod n_a23a true 1 [] 2;,
SSprod n_s14s false 0 [] 3;,
SSprod n_a14a true 0 [] 3;,
SSprod n_s132a false 0 [2] 1;,
SSprod n_s231a false 1 [2] 0).
(** gAdd::set_masses: SM/gAdd.cpp 55-60 *)
Definition gAdd_set_masses : meth := mkMeth n_set_masses [(n_massd, PkT)]
(SMemT n_md (ELocT n_massd);,
SSetMass 2 (EMemT n_md);,
SSetMass 3 (EMemT n_md);,
SPropMass n_prop (EMemT n_md)).
(** gAdd::set_momenta: SM/gAdd.cpp 61-90 *)
Definition gAdd_set_momenta : meth := mkMeth n_set_momenta [(n_mom1, PkMom); (n_mom2, PkMom); (n_mom3, PkMom); (n_mom4, PkMom)]
(SSetMomentum 0 n_mom1;,
SSetMomentum 1 n_mom2;,
SSetMomentum 2 n_mom3;,
SSetMomentum 3 n_mom4;,
SUpdate n_s34s;,
SUpdate n_a34a;,
SUpdate n_s12s;,
SUpdate n_a12a;,
SUpdate n_s13s;,
SUpdate n_a13a;,
SUpdate n_s24s;,
SUpdate n_a24a;,
SUpdate n_s23s;,
SUpdate n_a23a;,
SUpdate n_s14s;,
SUpdate n_a14a;,
SUpdate n_s132a;,
SUpdate n_s231a;,
SDeclT n_propTP 4;,
SDeclT n_propUP 4;,
(SFor n_j (EInt 0) (EBin (CmpI CLt) (ELocI n_j) (EInt 4)) (EBin (OpI IAdd) (ELocI n_j) (EInt 1))
(SArrT n_propTP (AVar n_j) ((EArrT n_mom1 (AVar n_j)) -t (EArrT n_mom3 (AVar n_j)));,
SArrT n_propUP (AVar n_j) ((EArrT n_mom1 (AVar n_j)) -t (EArrT n_mom4 (AVar n_j)))));,
SMemC n_pDenT (EDen n_prop n_propTP);,
SMemC n_pDenU (EDen n_prop n_propUP)).
(** gAdd::amp: SM/gAdd.cpp 97-119 *)
Definition gAdd_amp : meth := mkMeth n_amp [(n_ds1, PkI); (n_ds2, PkI); (n_ds3, PkI); (n_ds4, PkI)]
((SIf (EAnd (EBin (CmpI CGt) (ELocI n_ds1) (EInt 0)) (EBin (CmpI CGt) (ELocI n_ds2) (EInt 0)))
(SReturnC ((((((((((EUn D2T (ELit (2 # 1))) *t (EMemT n_e)) *t (EMemT n_Qd)) *t (EMemT n_gs)) *t (EMemT n_md)) *tc (EV n_s12s [])) *c (EV n_s12s [])) *c (EV n_a34a [(AVar n_ds3); (AVar n_ds4)])) /c (EMemC n_pDenT)) /c (EMemC n_pDenU)))
((SIf (EAnd (EBin (CmpI CLt) (ELocI n_ds1) (EInt 0)) (EBin (CmpI CLt) (ELocI n_ds2) (EInt 0)))
(SReturnC ((((((((((EUn D2T (ELit (2 # 1))) *t (EMemT n_e)) *t (EMemT n_Qd)) *t (EMemT n_gs)) *t (EMemT n_md)) *tc (EV n_a12a [])) *c (EV n_a12a [])) *c (EV n_s34s [(AVar n_ds3); (AVar n_ds4)])) /c (EMemC n_pDenT)) /c (EMemC n_pDenU)))
((SIf (EAnd (EBin (CmpI CGt) (ELocI n_ds1) (EInt 0)) (EBin (CmpI CLt) (ELocI n_ds2) (EInt 0)))
(SReturnC ((((((((EUn D2T (EUn NegD (ELit (2 # 1)))) *t (EMemT n_e)) *t (EMemT n_Qd)) *t (EMemT n_gs)) *tc (((EV n_s13s [(AVar n_ds3)]) *c (EV n_a24a [(AVar n_ds4)])) +c ((EV n_s14s [(AVar n_ds4)]) *c (EV n_a23a [(AVar n_ds3)])))) *c (EV n_s132a [])) /c (EMemC n_pDenT)) /c (EMemC n_pDenU)))
((SIf (EAnd (EBin (CmpI CLt) (ELocI n_ds1) (EInt 0)) (EBin (CmpI CGt) (ELocI n_ds2) (EInt 0)))
(SReturnC ((((((((EUn D2T (EUn NegD (ELit (2 # 1)))) *t (EMemT n_e)) *t (EMemT n_Qd)) *t (EMemT n_gs)) *tc (((EV n_a13a [(AVar n_ds3)]) *c (EV n_s24s [(AVar n_ds4)])) +c ((EV n_a14a [(AVar n_ds4)]) *c (EV n_s23s [(AVar n_ds3)])))) *c (EV n_s231a [])) /c (EMemC n_pDenT)) /c (EMemC n_pDenU)))
(SSkip))))))));,
SReturnC (EBin OpTTC (EUn I2T (EInt 0)) (EUn I2T (EInt 0)))).
(** gAdd::amp2: SM/gAdd.cpp 123-138 *)
Definition gAdd_amp2 : meth := mkMeth n_amp2 []
(SLoc rT n_amp2 (EUn I2T (EInt 0));,
SDecl rC n_M;,
(SFor n_j1 (EUn NegI (EInt 2)) (EBin (CmpI CLe) (ELocI n_j1) (EInt 2)) (EBin (OpI IAdd) (ELocI n_j1) (EInt 4))
(SFor n_j2 (EUn NegI (EInt 2)) (EBin (CmpI CLe) (ELocI n_j2) (EInt 2)) (EBin (OpI IAdd) (ELocI n_j2) (EInt 4))
(SFor n_j3 (EUn NegI (EInt 1)) (EBin (CmpI CLe) (ELocI n_j3) (EInt 1)) (EBin (OpI IAdd) (ELocI n_j3) (EInt 2))
(SFor n_j4 (EUn NegI (EInt 1)) (EBin (CmpI CLe) (ELocI n_j4) (EInt 1)) (EBin (OpI IAdd) (ELocI n_j4) (EInt 2))
(SLoc rC n_M (ECall n_amp [(AVar n_j1); (AVar n_j2); (AVar n_j3); (AVar n_j4)]);,
SLoc rT n_amp2 ((ELocT n_amp2) +t ((EUn D2T (ELit (4 # 1))) *t (EUn Pow2T (EUn AbsC (ELocC n_M))))))))));,
SReturnT ((ELocT n_amp2) /t (EUn D2T (ELit (32 # 1))))).
(** gAdd::amp2_gplus_Aplus: SM/gAdd.cpp 141-153 *)
Definition gAdd_amp2_gplus_Aplus : meth := mkMeth n_amp2_gplus_Aplus []
(SLoc rT n_amp2 (EUn I2T (EInt 0));,
SDecl rC n_M;,
(SFor n_j3 (EUn NegI (EInt 1)) (EBin (CmpI CLe) (ELocI n_j3) (EInt 1)) (EBin (OpI IAdd) (ELocI n_j3) (EInt 2))
(SFor n_j4 (EUn NegI (EInt 1)) (EBin (CmpI CLe) (ELocI n_j4) (EInt 1)) (EBin (OpI IAdd) (ELocI n_j4) (EInt 2))
(SLoc rC n_M (ECall n_amp [(ALit 2); (ALit 2); (AVar n_j3); (AVar n_j4)]);,
SLoc rT n_amp2 ((ELocT n_amp2) +t ((EUn D2T (ELit (4 # 1))) *t (EUn Pow2T (EUn AbsC (ELocC n_M))))))));,
SReturnT ((ELocT n_amp2) /t (EUn D2T (ELit (8 # 1))))).
(** gAdd::amp2_gplus_Aminus: SM/gAdd.cpp 156-168 *)
Definition gAdd_amp2_gplus_Aminus : meth := mkMeth n_amp2_gplus_Aminus []
(SLoc rT n_amp2 (EUn I2T (EInt 0));,
SDecl rC n_M;,
(SFor n_j3 (EUn NegI (EInt 1)) (EBin (CmpI CLe) (ELocI n_j3) (EInt 1)) (EBin (OpI IAdd) (ELocI n_j3) (EInt 2))
(SFor n_j4 (EUn NegI (EInt 1)) (EBin (CmpI CLe) (ELocI n_j4) (EInt 1)) (EBin (OpI IAdd) (ELocI n_j4) (EInt 2))
(SLoc rC n_M (ECall n_amp [(ALit 2); (ALit (-2)); (AVar n_j3); (AVar n_j4)]);,
SLoc rT n_amp2 ((ELocT n_amp2) +t ((EUn D2T (ELit (4 # 1))) *t (EUn Pow2T (EUn AbsC (ELocC n_M))))))));,
SReturnT ((ELocT n_amp2) /t (EUn D2T (ELit (8 # 1))))).
(** members: SM/include/gAdd.h 26-32; initialisers: SM/gAdd.cpp 32-33 *)
Definition gAdd : cls := mkCls "gAdd"
[(n_e, KT);
(n_Qd, KT);
(n_gs, KT);
(n_md, KT);
(n_p1, (KPart 0));
(n_p2, (KPart 1));
(n_p3, (KPart 2));
(n_p4, (KPart 3));
(n_prop, KProp);
(n_pDenT, KC);
(n_pDenU, KC);
(n_s34s, KSprod);
(n_a34a, KSprod);
(n_s12s, KSprod);
(n_a12a, KSprod);
(n_s13s, KSprod);
(n_a13a, KSprod);
(n_s24s, KSprod);
(n_a24a, KSprod);
(n_s23s, KSprod);
(n_a23a, KSprod);
(n_s14s, KSprod);
(n_a14a, KSprod);
(n_s132a, KSprod);
(n_s231a, KSprod);
(n_sqrt2, KT)]
[n_echarge; n_gscharge; n_massd]
[(n_e, NT (ELocT n_echarge));
(n_Qd, NT (EUn D2T ((EUn NegD (ELit (1 # 1))) /d (ELit (3 # 1)))));
(n_gs, NT (ELocT n_gscharge));
(n_md, NT (ELocT n_massd));
(n_prop, NProp (ELocT n_massd) (EUn I2T (EInt 0)))]
gAdd_ctor
[gAdd_set_masses; gAdd_set_momenta; gAdd_amp; gAdd_amp2; gAdd_amp2_gplus_Aplus; gAdd_amp2_gplus_Aminus].

(** gAuu::gAuu: SM/gAuu.cpp 32-54 *)
Definition gAuu_ctor : stmt :=
(SLoc rT n_two (EUn I2T (EInt 2));,
SMemT n_sqrt2 (EUn SqrtT (ELocT n_two));,
SParticle 0 (EUn I2T (EInt 0));,
SParticle 1 (EUn I2T (EInt 0));,
SParticle 2 (EMemT n_mu);,
SParticle 3 (EMemT n_mu);,
SSprod n_s34s false 2 [] 3;,
SSprod n_a34a true 2 [] 3;,
SSprod n_s12s false 0 [] 1;,
SSprod n_a12a true 0 [] 1;,
SSprod n_s13s false 0 [] 2;,
SSprod n_a13a true 0 [] 2;,
SSprod n_s24s false 1 [] 3;,
SSprod n_a24a true 1 [] 3;,
SSprod n_s23s false 1 [] 2;,
SSprod n_a23a true 1 [] 2;,
SSprod n_s14s false 0 [] 3;,
SSprod n_a14a true 0 [] 3;,
SSprod n_s132a false 0 [2] 1;,
SSprod n_s231a false 1 [2] 0).
(** gAuu::set_masses: SM/gAuu.cpp 55-60 *)
Definition gAuu_set_masses : meth := mkMeth n_set_masses [(n_massu, PkT)]
(SMemT n_mu (ELocT n_massu);,
SSetMass 2 (EMemT n_mu);,
SSetMass 3 (EMemT n_mu);,
SPropMass n_prop (EMemT n_mu)).
(** gAuu::set_momenta: SM/gAuu.cpp 61-90 *)
Definition gAuu_set_momenta : meth := mkMeth n_set_momenta [(n_mom1, PkMom); (n_mom2, PkMom); (n_mom3, PkMom); (n_mom4, PkMom)]
(SSetMomentum 0 n_mom1;,
SSetMomentum 1 n_mom2;,
SSetMomentum 2 n_mom3;,
SSetMomentum 3 n_mom4;,
SUpdate n_s34s;,
SUpdate n_a34a;,
SUpdate n_s12s;,
SUpdate n_a12a;,
SUpdate n_s13s;,
SUpdate n_a13a;,
SUpdate n_s24s;,
SUpdate n_a24a;,
SUpdate n_s23s;,
SUpdate n_a23a;,
SUpdate n_s14s;,
SUpdate n_a14a;,
SUpdate n_s132a;,
SUpdate n_s231a;,
SDeclT n_propTP 4;,
SDeclT n_propUP 4;,
(SFor n_j (EInt 0) (EBin (CmpI CLt) (ELocI n_j) (EInt 4)) (EBin (OpI IAdd) (ELocI n_j) (EInt 1))
(SArrT n_propTP (AVar n_j) ((EArrT n_mom1 (AVar n_j)) -t (EArrT n_mom3 (AVar n_j)));,
SArrT n_propUP (AVar n_j) ((EArrT n_mom1 (AVar n_j)) -t (EArrT n_mom4 (AVar n_j)))));,
SMemC n_pDenT (EDen n_prop n_propTP);,
SMemC n_pDenU (EDen n_prop n_propUP)).
(** gAuu::amp: SM/gAuu.cpp 97-119 *)
Definition gAuu_amp : meth := mkMeth n_amp [(n_ds1, PkI); (n_ds2, PkI); (n_ds3, PkI); (n_ds4, PkI)]
((SIf (EAnd (EBin (CmpI CGt) (ELocI n_ds1) (EInt 0)) (EBin (CmpI CGt) (ELocI n_ds2) (EInt 0)))
(SReturnC ((((((((((EUn D2T (ELit (2 # 1))) *t (EMemT n_e)) *t (EMemT n_Qu)) *t (EMemT n_gs)) *t (EMemT n_mu)) *tc (EV n_s12s [])) *c (EV n_s12s [])) *c (EV n_a34a [(AVar n_ds3); (AVar n_ds4)])) /c (EMemC n_pDenT)) /c (EMemC n_pDenU)))
((SIf (EAnd (EBin (CmpI CLt) (ELocI n_ds1) (EInt 0)) (EBin (CmpI CLt) (ELocI n_ds2) (EInt 0)))
(SReturnC ((((((((((EUn D2T (ELit (2 # 1))) *t (EMemT n_e)) *t (EMemT n_Qu)) *t (EMemT n_gs)) *t (EMemT n_mu)) *tc (EV n_a12a [])) *c (EV n_a12a [])) *c (EV n_s34s [(AVar n_ds3); (AVar n_ds4)])) /c (EMemC n_pDenT)) /c (EMemC n_pDenU)))
((SIf (EAnd (EBin (CmpI CGt) (ELocI n_ds1) (EInt 0)) (EBin (CmpI CLt) (ELocI n_ds2) (EInt 0)))
(SReturnC ((((((((EUn D2T (EUn NegD (ELit (2 # 1)))) *t (EMemT n_e)) *t (EMemT n_Qu)) *t (EMemT n_gs)) *tc (((EV n_s13s [(AVar n_ds3)]) *c (EV n_a24a [(AVar n_ds4)])) +c ((EV n_s14s [(AVar n_ds4)]) *c (EV n_a23a [(AVar n_ds3)])))) *c (EV n_s132a [])) /c (EMemC n_pDenT)) /c (EMemC n_pDenU)))
((SIf (EAnd (EBin (CmpI CLt) (ELocI n_ds1) (EInt 0)) (EBin (CmpI CGt) (ELocI n_ds2) (EInt 0)))
(SReturnC ((((((((EUn D2T (EUn NegD (ELit (2 # 1)))) *t (EMemT n_e)) *t (EMemT n_Qu)) *t (EMemT n_gs)) *tc (((EV n_a13a [(AVar n_ds3)]) *c (EV n_s24s [(AVar n_ds4)])) +c ((EV n_a14a [(AVar n_ds4)]) *c (EV n_s23s [(AVar n_ds3)])))) *c (EV n_s231a [])) /c (EMemC n_pDenT)) /c (EMemC n_pDenU)))
(SSkip))))))));,
SReturnC (EBin OpTTC (EUn I2T (EInt 0)) (EUn I2T (EInt 0)))).
(** gAuu::amp2: SM/gAuu.cpp 123-138 *)
Definition gAuu_amp2 : meth := mkMeth n_amp2 []
(SLoc rT n_amp2 (EUn I2T (EInt 0));,
SDecl rC n_M;,
(SFor n_j1 (EUn NegI (EInt 2)) (EBin (CmpI CLe) (ELocI n_j1) (EInt 2)) (EBin (OpI IAdd) (ELocI n_j1) (EInt 4))
(SFor n_j2 (EUn NegI (EInt 2)) (EBin (CmpI CLe) (ELocI n_j2) (EInt 2)) (EBin (OpI IAdd) (ELocI n_j2) (EInt 4))
(SFor n_j3 (EUn NegI (EInt 1)) (EBin (CmpI CLe) (ELocI n_j3) (EInt 1)) (EBin (OpI IAdd) (ELocI n_j3) (EInt 2))
(SFor n_j4 (EUn NegI (EInt 1)) (EBin (CmpI CLe) (ELocI n_j4) (EInt 1)) (EBin (OpI IAdd) (ELocI n_j4) (EInt 2))
(SLoc rC n_M (ECall n_amp [(AVar n_j1); (AVar n_j2); (AVar n_j3); (AVar n_j4)]);,
SLoc rT n_amp2 ((ELocT n_amp2) +t ((EUn D2T (ELit (4 # 1))) *t (EUn Pow2T (EUn AbsC (ELocC n_M))))))))));,
SReturnT ((ELocT n_amp2) /t (EUn D2T (ELit (32 # 1))))).
(** gAuu::amp2_gplus_Aplus: SM/gAuu.cpp 141-153 *)
Definition gAuu_amp2_gplus_Aplus : meth := mkMeth n_amp2_gplus_Aplus []
(SLoc rT n_amp2 (EUn I2T (EInt 0));,
SDecl rC n_M;,
(SFor n_j3 (EUn NegI (EInt 1)) (EBin (CmpI CLe) (ELocI n_j3) (EInt 1)) (EBin (OpI IAdd) (ELocI n_j3) (EInt 2))
(SFor n_j4 (EUn NegI (EInt 1)) (EBin (CmpI CLe) (ELocI n_j4) (EInt 1)) (EBin (OpI IAdd) (ELocI n_j4) (EInt 2))
(SLoc rC n_M (ECall n_amp [(ALit 2); (ALit 2); (AVar n_j3); (AVar n_j4)]);,
SLoc rT n_amp2 ((ELocT n_amp2) +t ((EUn D2T (ELit (4 # 1))) *t (EUn Pow2T (EUn AbsC (ELocC n_M))))))));,
SReturnT ((ELocT n_amp2) /t (EUn D2T (ELit (8 # 1))))).
(** gAuu::amp2_gplus_Aminus: SM/gAuu.cpp 156-168 *)
Definition gAuu_amp2_gplus_Aminus : meth := mkMeth n_amp2_gplus_Aminus []
(SLoc rT n_amp2 (EUn I2T (EInt 0));,
SDecl rC n_M;,
(SFor n_j3 (EUn NegI (EInt 1)) (EBin (CmpI CLe) (ELocI n_j3) (EInt 1)) (EBin (OpI IAdd) (ELocI n_j3) (EInt 2))
(SFor n_j4 (EUn NegI (EInt 1)) (EBin (CmpI CLe) (ELocI n_j4) (EInt 1)) (EBin (OpI IAdd) (ELocI n_j4) (EInt 2))
(SLoc rC n_M (ECall n_amp [(ALit 2); (ALit (-2)); (AVar n_j3); (AVar n_j4)]);,
SLoc rT n_amp2 ((ELocT n_amp2) +t ((EUn D2T (ELit (4 # 1))) *t (EUn Pow2T (EUn AbsC (ELocC n_M))))))));,
SReturnT ((ELocT n_amp2) /t (EUn D2T (ELit (8 # 1))))).
(** members: SM/include/gAuu.h 26-32; initialisers: SM/gAuu.cpp 32-33 *)
Definition gAuu : cls := mkCls "gAuu"
[(n_e, KT);
(n_Qu, KT);
(n_gs, KT);
(n_mu, KT);
(n_p1, (KPart 0));
(n_p2, (KPart 1));
(n_p3, (KPart 2));
(n_p4, (KPart 3));
(n_prop, KProp);
(n_pDenT, KC);
(n_pDenU, KC);
(n_s34s, KSprod);
(n_a34a, KSprod);
(n_s12s, KSprod);
(n_a12a, KSprod);
(n_s13s, KSprod);
(n_a13a, KSprod);
(n_s24s, KSprod);
(n_a24a, KSprod);
(n_s23s, KSprod);
(n_a23a, KSprod);
(n_s14s, KSprod);
(n_a14a, KSprod);
(n_s132a, KSprod);
(n_s231a, KSprod);
(n_sqrt2, KT)]
[n_echarge; n_gscharge; n_massu]
[(n_e, NT (ELocT n_echarge));
(n_Qu, NT (EUn D2T ((ELit (2 # 1)) /d (ELit (3 # 1)))));
(n_gs, NT (ELocT n_gscharge));
(n_mu, NT (ELocT n_massu));
(n_prop, NProp (ELocT n_massu) (EUn I2T (EInt 0)))]
gAuu_ctor
[gAuu_set_masses; gAuu_set_momenta; gAuu_amp; gAuu_amp2; gAuu_amp2_gplus_Aplus; gAuu_amp2_gplus_Aminus].

(** gWud::gWud: SM/gWud.cpp 32-55 *)
Definition gWud_ctor : stmt :=
(SPropNew n_propu (EMemT n_mu) (EUn I2T (EInt 0));,
SPropNew n_propd (EMemT n_md) (EUn I2T (EInt 0));,
SParticle 0 (EUn I2T (EInt 0));,
SParticle 1 (EMemT n_MW);,
SParticle 2 (EMemT n_mu);,
SParticle 3 (EMemT n_md);,
SSprod n_s12s false 0 [] 1;,
SSprod n_s13s false 0 [] 2;,
SSprod n_a24a true 1 [] 3;,
SSprod n_s142a false 0 [3] 1;,
SSprod n_s143a false 0 [3] 2;,
SSprod n_a12a true 0 [] 1;,
SSprod n_a14a true 0 [] 3;,
SSprod n_s23s false 1 [] 2;,
SSprod n_s231a false 1 [2] 0;,
SSprod n_s431a false 3 [2] 0;,
SMemT n_pre ((((EUn D2T (EUn SqrtD (ELit (2 # 1)))) *t (EMemT n_e)) *t (EMemT n_gs)) /t ((EMemT n_MW) *t (EMemT n_SW)))).
(** gWud::set_masses: SM/gWud.cpp 56-67 *)
Definition gWud_set_masses : meth := mkMeth n_set_masses [(n_massu, PkT); (n_massd, PkT); (n_massW, PkT)]
(SMemT n_mu (ELocT n_massu);,
SMemT n_md (ELocT n_massd);,
SMemT n_MW (ELocT n_massW);,
SSetMass 1 (EMemT n_MW);,
SSetMass 2 (EMemT n_mu);,
SSetMass 3 (EMemT n_md);,
SPropMass n_propu (EMemT n_mu);,
SPropMass n_propd (EMemT n_md);,
SMemT n_pre ((((EUn D2T (EUn SqrtD (ELit (2 # 1)))) *t (EMemT n_e)) *t (EMemT n_gs)) /t ((EMemT n_MW) *t (EMemT n_SW)))).
(** gWud::set_momenta: SM/gWud.cpp 68-96 *)
Definition gWud_set_momenta : meth := mkMeth n_set_momenta [(n_mom1, PkMom); (n_mom2, PkMom); (n_mom3, PkMom); (n_mom4, PkMom)]
(SLoc rT n_one (EUn I2T (EInt 1));,
SSetMomentum 0 n_mom1;,
SSetMomentum 1 n_mom2;,
SSetMomentum 2 n_mom3;,
SSetMomentum 3 n_mom4;,
SUpdate n_s12s;,
SUpdate n_s13s;,
SUpdate n_a24a;,
SUpdate n_s142a;,
SUpdate n_s143a;,
SUpdate n_a12a;,
SUpdate n_a14a;,
SUpdate n_s23s;,
SUpdate n_s231a;,
SUpdate n_s431a;,
SDeclT n_propSP 4;,
SDeclT n_propTP 4;,
SDeclT n_propUP 4;,
(SFor n_j (EInt 0) (EBin (CmpI CLt) (ELocI n_j) (EInt 4)) (EBin (OpI IAdd) (ELocI n_j) (EInt 1))
(SArrT n_propSP (AVar n_j) ((EArrT n_mom1 (AVar n_j)) +t (EArrT n_mom2 (AVar n_j)));,
SArrT n_propTP (AVar n_j) ((EArrT n_mom1 (AVar n_j)) -t (EArrT n_mom3 (AVar n_j)));,
SArrT n_propUP (AVar n_j) ((EArrT n_mom1 (AVar n_j)) -t (EArrT n_mom4 (AVar n_j)))));,
SMemC n_pDenT (EDen n_propu n_propTP);,
SMemC n_pDenU (EDen n_propd n_propUP)).
(** gWud::amp: SM/gWud.cpp 101-131 *)
Definition gWud_amp : meth := mkMeth n_amp [(n_ds1, PkI); (n_ds2, PkI); (n_ds3, PkI); (n_ds4, PkI)]
(SLoc rT n_one (EUn I2T (EInt 1));,
SLoc rT n_two (EUn I2T (EInt 2));,
SLoc rT n_three (EUn I2T (EInt 3));,
SLoc rC n_amplitude (EBin OpTTC (EUn I2T (EInt 0)) (EUn I2T (EInt 0)));,
SDecl rI n_ds2a;,
SDecl rI n_ds2b;,
SLoc rI n_nCombs (ENLoops [(AVar n_ds2)]);,
SLoc rT n_normFactor (ENorm [(AVar n_ds2)]);,
(SFor n_i (EInt 0) (EBin (CmpI CLt) (ELocI n_i) (ELocI n_nCombs)) (EBin (OpI IAdd) (ELocI n_i) (EInt 1))
(SSpins [(n_ds2, n_ds2a, n_ds2b)] (AVar n_i);,
(SIf (EBin (CmpI CGt) (ELocI n_ds1) (EInt 0))
(SLoc rC n_amplitude ((ELocC n_amplitude) +c ((((((ELocT n_normFactor) *t (EMemT n_pre)) *tc (EV n_a24a [(AVar n_ds2a); (AVar n_ds4)])) *c ((((EMemT n_MW) *tc (EV n_s13s [(AVar n_ds3)])) *c (EV n_s142a [(AVar n_ds2b)])) +c ((EV n_s12s [(AVar n_ds2b)]) *c ((((EMemT n_md) *t (EMemT n_md)) *tc (EV n_s13s [(AVar n_ds3)])) -c ((EMemT n_mu) *tc (EV n_s143a [(AVar n_ds3)])))))) /c (EMemC n_pDenT)) /c (EMemC n_pDenU))))
((SIf (EBin (CmpI CLt) (ELocI n_ds1) (EInt 0))
(SLoc rC n_amplitude ((ELocC n_amplitude) +c ((((((ELocT n_normFactor) *t (EMemT n_pre)) *tc (EV n_s23s [(AVar n_ds2a); (AVar n_ds3)])) *c ((((EUn NegT (EMemT n_MW)) *tc (EV n_a14a [(AVar n_ds4)])) *c (EV n_s231a [(AVar n_ds2b)])) +c ((EV n_a12a [(AVar n_ds2b)]) *c ((((EUn NegT (EMemT n_mu)) *t (EMemT n_mu)) *tc (EV n_a14a [(AVar n_ds4)])) +c ((EMemT n_md) *tc (EV n_s431a [(AVar n_ds4)])))))) /c (EMemC n_pDenT)) /c (EMemC n_pDenU))))
(SSkip))))));,
SReturnC (ELocC n_amplitude)).
(** gWud::amp2: SM/gWud.cpp 134-151 *)
Definition gWud_amp2 : meth := mkMeth n_amp2 []
(SLoc rT n_three (EUn I2T (EInt 3));,
SLoc rT n_four (EUn I2T (EInt 4));,
SLoc rT n_amp2 (EUn I2T (EInt 0));,
SDecl rC n_M;,
(SFor n_j1 (EUn NegI (EInt 2)) (EBin (CmpI CLe) (ELocI n_j1) (EInt 2)) (EBin (OpI IAdd) (ELocI n_j1) (EInt 4))
(SFor n_j2 (EUn NegI (EInt 2)) (EBin (CmpI CLe) (ELocI n_j2) (EInt 2)) (EBin (OpI IAdd) (ELocI n_j2) (EInt 2))
(SFor n_j3 (EUn NegI (EInt 1)) (EBin (CmpI CLe) (ELocI n_j3) (EInt 1)) (EBin (OpI IAdd) (ELocI n_j3) (EInt 2))
(SFor n_j4 (EUn NegI (EInt 1)) (EBin (CmpI CLe) (ELocI n_j4) (EInt 1)) (EBin (OpI IAdd) (ELocI n_j4) (EInt 2))
(SLoc rC n_M (ECall n_amp [(AVar n_j1); (AVar n_j2); (AVar n_j3); (AVar n_j4)]);,
SLoc rT n_amp2 ((ELocT n_amp2) +t ((ELocT n_four) *t (EUn Pow2T (EUn AbsC (ELocC n_M))))))))));,
SReturnT ((ELocT n_amp2) /t (EUn D2T (ELit (48 # 1))))).
(** gWud::amp2_gplus: SM/gWud.cpp 154-170 *)
Definition gWud_amp2_gplus : meth := mkMeth n_amp2_gplus []
(SLoc rT n_one (EUn I2T (EInt 1));,
SLoc rT n_three (EUn I2T (EInt 3));,
SLoc rT n_four (EUn I2T (EInt 4));,
SLoc rT n_amp2 (EUn I2T (EInt 0));,
SDecl rC n_M;,
(SFor n_j2 (EUn NegI (EInt 2)) (EBin (CmpI CLe) (ELocI n_j2) (EInt 2)) (EBin (OpI IAdd) (ELocI n_j2) (EInt 2))
(SFor n_j3 (EUn NegI (EInt 1)) (EBin (CmpI CLe) (ELocI n_j3) (EInt 1)) (EBin (OpI IAdd) (ELocI n_j3) (EInt 2))
(SFor n_j4 (EUn NegI (EInt 1)) (EBin (CmpI CLe) (ELocI n_j4) (EInt 1)) (EBin (OpI IAdd) (ELocI n_j4) (EInt 2))
(SLoc rC n_M (ECall n_amp [(ALit 1); (AVar n_j2); (AVar n_j3); (AVar n_j4)]);,
SLoc rT n_amp2 ((ELocT n_amp2) +t ((ELocT n_four) *t (EUn Pow2T (EUn AbsC (ELocC n_M)))))))));,
SReturnT ((ELocT n_amp2) /t (EUn D2T (ELit (24 # 1))))).
(** members: SM/include/gWud.h 26-34; initialisers: SM/gWud.cpp 32-33 *)
Definition gWud : cls := mkCls "gWud"
[(n_e, KT);
(n_gs, KT);
(n_mu, KT);
(n_md, KT);
(n_MW, KT);
(n_SW, KT);
(n_pre, KT);
(n_p1, (KPart 0));
(n_p2, (KPart 1));
(n_p3, (KPart 2));
(n_p4, (KPart 3));
(n_propu, KProp);
(n_propd, KProp);
(n_pDenS, KC);
(n_pDenT, KC);
(n_pDenU, KC);
(n_s12s, KSprod);
(n_s13s, KSprod);
(n_a24a, KSprod);
(n_s142a, KSprod);
(n_s143a, KSprod);
(n_a12a, KSprod);
(n_a14a, KSprod);
(n_s23s, KSprod);
(n_s231a, KSprod);
(n_s431a, KSprod)]
[n_echarge; n_gscharge; n_massu; n_massd; n_massW; n_sinW]
[(n_e, NT (ELocT n_echarge));
(n_gs, NT (ELocT n_gscharge));
(n_mu, NT (ELocT n_massu));
(n_md, NT (ELocT n_massd));
(n_MW, NT (ELocT n_massW));
(n_SW, NT (ELocT n_sinW))]
gWud_ctor
[gWud_set_masses; gWud_set_momenta; gWud_amp; gWud_amp2; gWud_amp2_gplus].

(** gZdd::gZdd: SM/gZdd.cpp 32-59 *)
Definition gZdd_ctor : stmt :=
(SLoc rT n_two (EUn I2T (EInt 2));,
SMemT n_sqrt2 (EUn SqrtT (ELocT n_two));,
SMemT n_MZ ((EMemT n_MW) /t (EMemT n_CW));,
SParticle 0 (EUn I2T (EInt 0));,
SParticle 1 (EMemT n_MZ);,
SParticle 2 (EMemT n_md);,
SParticle 3 (EMemT n_md);,
SSprod n_s12s false 0 [] 1;,
SSprod n_a12a true 0 [] 1;,
SSprod n_s23s false 1 [] 2;,
SSprod n_a23a true 1 [] 2;,
SSprod n_s13s false 0 [] 2;,
SSprod n_a13a true 0 [] 2;,
SSprod n_s24s false 1 [] 3;,
SSprod n_a24a true 1 [] 3;,
SSprod n_s14s false 0 [] 3;,
SSprod n_a14a true 0 [] 3;,
SSprod n_s1341s false 0 [2; 3] 0;,
SSprod n_a1341a true 0 [2; 3] 0;,
SMemT n_preTU ((((EUn D2T (ELit (2 # 1))) *t (EMemT n_e)) *t (EMemT n_gs)) /t (((EUn D2T (ELit (2 # 1))) *t (EMemT n_MW)) *t (EMemT n_SW)));,
SMemT n_gL (((((EUn D2T (EUn NegD (ELit (2 # 1)))) *t (EMemT n_Qd)) *t (EMemT n_SW)) *t (EMemT n_SW)) -t (EUn D2T (ELit (1 # 1))));,
SMemT n_gR ((((EUn D2T (EUn NegD (ELit (2 # 1)))) *t (EMemT n_Qd)) *t (EMemT n_SW)) *t (EMemT n_SW))).
(** gZdd::set_masses: SM/gZdd.cpp 60-71 *)
Definition gZdd_set_masses : meth := mkMeth n_set_masses [(n_massd, PkT); (n_massW, PkT)]
(SMemT n_md (ELocT n_massd);,
SMemT n_MW (ELocT n_massW);,
SMemT n_MZ ((EMemT n_MW) /t (EMemT n_CW));,
SSetMass 0 (EUn I2T (EInt 0));,
SSetMass 1 (EMemT n_MZ);,
SSetMass 2 (EMemT n_md);,
SSetMass 3 (EMemT n_md);,
SPropMass n_propd (EMemT n_md);,
SMemT n_preTU ((((EUn D2T (ELit (2 # 1))) *t (EMemT n_e)) *t (EMemT n_gs)) /t (((EUn D2T (ELit (2 # 1))) *t (EMemT n_MW)) *t (EMemT n_SW)))).
(** gZdd::set_momenta: SM/gZdd.cpp 72-100 *)
Definition gZdd_set_momenta : meth := mkMeth n_set_momenta [(n_mom1, PkMom); (n_mom2, PkMom); (n_mom3, PkMom); (n_mom4, PkMom)]
(SSetMomentum 0 n_mom1;,
SSetMomentum 1 n_mom2;,
SSetMomentum 2 n_mom3;,
SSetMomentum 3 n_mom4;,
SUpdate n_s12s;,
SUpdate n_a12a;,
SUpdate n_s23s;,
SUpdate n_a23a;,
SUpdate n_s13s;,
SUpdate n_a13a;,
SUpdate n_s24s;,
SUpdate n_a24a;,
SUpdate n_s14s;,
SUpdate n_a14a;,
SUpdate n_s1341s;,
SUpdate n_a1341a;,
SDeclT n_propTP 4;,
SDeclT n_propUP 4;,
(SFor n_j (EInt 0) (EBin (CmpI CLt) (ELocI n_j) (EInt 4)) (EBin (OpI IAdd) (ELocI n_j) (EInt 1))
(SArrT n_propTP (AVar n_j) ((EArrT n_mom1 (AVar n_j)) -t (EArrT n_mom3 (AVar n_j)));,
SArrT n_propUP (AVar n_j) ((EArrT n_mom1 (AVar n_j)) -t (EArrT n_mom4 (AVar n_j)))));,
SMemC n_pDenT (EDen n_propd n_propTP);,
SMemC n_pDenU (EDen n_propd n_propUP)).
(** gZdd::amp: SM/gZdd.cpp 105-149 *)
Definition gZdd_amp : meth := mkMeth n_amp [(n_ds1, PkI); (n_ds2, PkI); (n_ds3, PkI); (n_ds4, PkI)]
(SLoc rC n_amplitude (EBin OpTTC (EUn I2T (EInt 0)) (EUn I2T (EInt 0)));,
SDecl rI n_ds2a;,
SDecl rI n_ds2b;,
SLoc rT n_two (EUn I2T (EInt 2));,
SLoc rI n_nCombs (ENLoops [(AVar n_ds2)]);,
SLoc rT n_normFactor (ENorm [(AVar n_ds2)]);,
(SFor n_i (EInt 0) (EBin (CmpI CLt) (ELocI n_i) (ELocI n_nCombs)) (EBin (OpI IAdd) (ELocI n_i) (EInt 1))
(SSpins [(n_ds2, n_ds2a, n_ds2b)] (AVar n_i);,
(SIf (EBin (CmpI CGt) (ELocI n_ds1) (EInt 0))
(SLoc rC n_amplitude ((ELocC n_amplitude) +c ((((((ELocT n_normFactor) *t (EMemT n_preTU)) *tc (EV n_s1341s [])) *c ((((EMemT n_gR) *tc (EV n_s24s [(AVar n_ds2a); (AVar n_ds4)])) *c (EV n_a23a [(AVar n_ds2b); (AVar n_ds3)])) +c (((EMemT n_gL) *tc (EV n_s23s [(AVar n_ds2a); (AVar n_ds3)])) *c (EV n_a24a [(AVar n_ds2b); (AVar n_ds4)])))) /c (EMemC n_pDenT)) /c (EMemC n_pDenU)));,
SLoc rC n_amplitude ((ELocC n_amplitude) +c ((((ELocT n_normFactor) *t (EMemT n_preTU)) *tc (EV n_s12s [(AVar n_ds2a)])) *c (((((EMemT n_gR) *tc (EV n_s14s [(AVar n_ds4)])) *c (EV n_a23a [(AVar n_ds2b); (AVar n_ds3)])) /c (EMemC n_pDenU)) -c ((((EMemT n_gL) *tc (EV n_s13s [(AVar n_ds3)])) *c (EV n_a24a [(AVar n_ds2b); (AVar n_ds4)])) /c (EMemC n_pDenT))))))
(SIf (EBin (CmpI CLt) (ELocI n_ds1) (EInt 0))
(SLoc rC n_amplitude ((ELocC n_amplitude) +c ((((((ELocT n_normFactor) *t (EMemT n_preTU)) *tc (EV n_a1341a [])) *c ((((EMemT n_gR) *tc (EV n_s24s [(AVar n_ds2a); (AVar n_ds4)])) *c (EV n_a23a [(AVar n_ds2b); (AVar n_ds3)])) +c (((EMemT n_gL) *tc (EV n_s23s [(AVar n_ds2a); (AVar n_ds3)])) *c (EV n_a24a [(AVar n_ds2b); (AVar n_ds4)])))) /c (EMemC n_pDenT)) /c (EMemC n_pDenU)));,
SLoc rC n_amplitude ((ELocC n_amplitude) +c ((((ELocT n_normFactor) *t (EMemT n_preTU)) *tc (EV n_a12a [(AVar n_ds2a)])) *c (((((EMemT n_gL) *tc (EV n_a14a [(AVar n_ds4)])) *c (EV n_s23s [(AVar n_ds2b); (AVar n_ds3)])) /c (EMemC n_pDenU)) -c ((((EMemT n_gR) *tc (EV n_a13a [(AVar n_ds3)])) *c (EV n_s24s [(AVar n_ds2b); (AVar n_ds4)])) /c (EMemC n_pDenT))))))
(SSkip)))));,
SReturnC (ELocC n_amplitude)).
(** gZdd::amp2: SM/gZdd.cpp 152-167 *)
Definition gZdd_amp2 : meth := mkMeth n_amp2 []
(SLoc rT n_amp2 (EUn I2T (EInt 0));,
SDecl rC n_M;,
(SFor n_j1 (EUn NegI (EInt 2)) (EBin (CmpI CLe) (ELocI n_j1) (EInt 2)) (EBin (OpI IAdd) (ELocI n_j1) (EInt 4))
(SFor n_j2 (EUn NegI (EInt 2)) (EBin (CmpI CLe) (ELocI n_j2) (EInt 2)) (EBin (OpI IAdd) (ELocI n_j2) (EInt 2))
(SFor n_j3 (EUn NegI (EInt 1)) (EBin (CmpI CLe) (ELocI n_j3) (EInt 1)) (EBin (OpI IAdd) (ELocI n_j3) (EInt 2))
(SFor n_j4 (EUn NegI (EInt 1)) (EBin (CmpI CLe) (ELocI n_j4) (EInt 1)) (EBin (OpI IAdd) (ELocI n_j4) (EInt 2))
(SLoc rC n_M (ECall n_amp [(AVar n_j1); (AVar n_j2); (AVar n_j3); (AVar n_j4)]);,
SLoc rT n_amp2 ((ELocT n_amp2) +t ((EUn D2T (ELit (4 # 1))) *t (EUn Pow2T (EUn AbsC (ELocC n_M))))))))));,
SReturnT ((ELocT n_amp2) /t (EUn D2T (ELit (48 # 1))))).
(** gZdd::amp2_gplus: SM/gZdd.cpp 169-183 *)
Definition gZdd_amp2_gplus : meth := mkMeth n_amp2_gplus []
(SLoc rT n_amp2 (EUn I2T (EInt 0));,
SDecl rC n_M;,
(SFor n_j2 (EUn NegI (EInt 2)) (EBin (CmpI CLe) (ELocI n_j2) (EInt 2)) (EBin (OpI IAdd) (ELocI n_j2) (EInt 2))
(SFor n_j3 (EUn NegI (EInt 1)) (EBin (CmpI CLe) (ELocI n_j3) (EInt 1)) (EBin (OpI IAdd) (ELocI n_j3) (EInt 2))
(SFor n_j4 (EUn NegI (EInt 1)) (EBin (CmpI CLe) (ELocI n_j4) (EInt 1)) (EBin (OpI IAdd) (ELocI n_j4) (EInt 2))
(SLoc rC n_M (ECall n_amp [(ALit 2); (AVar n_j2); (AVar n_j3); (AVar n_j4)]);,
SLoc rT n_amp2 ((ELocT n_amp2) +t ((EUn D2T (ELit (4 # 1))) *t (EUn Pow2T (EUn AbsC (ELocC n_M)))))))));,
SReturnT ((ELocT n_amp2) /t (EUn D2T (ELit (24 # 1))))).
(** gZdd::amp2_gminus: SM/gZdd.cpp 185-199 *)
Definition gZdd_amp2_gminus : meth := mkMeth n_amp2_gminus []
(SLoc rT n_amp2 (EUn I2T (EInt 0));,
SDecl rC n_M;,
(SFor n_j2 (EUn NegI (EInt 2)) (EBin (CmpI CLe) (ELocI n_j2) (EInt 2)) (EBin (OpI IAdd) (ELocI n_j2) (EInt 2))
(SFor n_j3 (EUn NegI (EInt 1)) (EBin (CmpI CLe) (ELocI n_j3) (EInt 1)) (EBin (OpI IAdd) (ELocI n_j3) (EInt 2))
(SFor n_j4 (EUn NegI (EInt 1)) (EBin (CmpI CLe) (ELocI n_j4) (EInt 1)) (EBin (OpI IAdd) (ELocI n_j4) (EInt 2))
(SLoc rC n_M (ECall n_amp [(ALit (-2)); (AVar n_j2); (AVar n_j3); (AVar n_j4)]);,
SLoc rT n_amp2 ((ELocT n_amp2) +t ((EUn D2T (ELit (4 # 1))) *t (EUn Pow2T (EUn AbsC (ELocC n_M)))))))));,
SReturnT ((ELocT n_amp2) /t (EUn D2T (ELit (24 # 1))))).
(** members: SM/include/gZdd.h 26-36; initialisers: SM/gZdd.cpp 32-33 *)
Definition gZdd : cls := mkCls "gZdd"
[(n_e, KT);
(n_Qd, KT);
(n_gs, KT);
(n_md, KT);
(n_MW, KT);
(n_SW, KT);
(n_CW, KT);
(n_MZ, KT);
(n_p1, (KPart 0));
(n_p2, (KPart 1));
(n_p3, (KPart 2));
(n_p4, (KPart 3));
(n_propd, KProp);
(n_pDenT, KC);
(n_pDenU, KC);
(n_s12s, KSprod);
(n_a12a, KSprod);
(n_s23s, KSprod);
(n_a23a, KSprod);
(n_s13s, KSprod);
(n_a13a, KSprod);
(n_s24s, KSprod);
(n_a24a, KSprod);
(n_s14s, KSprod);
(n_a14a, KSprod);
(n_s1341s, KSprod);
(n_a1341a, KSprod);
(n_sqrt2, KT);
(n_preTU, KT);
(n_preh, KT);
(n_gL, KT);
(n_gR, KT)]
[n_echarge; n_gscharge; n_massd; n_massW; n_sinW]
[(n_e, NT (ELocT n_echarge));
(n_Qd, NT (EUn D2T ((EUn NegD (ELit (1 # 1))) /d (ELit (3 # 1)))));
(n_gs, NT (ELocT n_gscharge));
(n_md, NT (ELocT n_massd));
(n_MW, NT (ELocT n_massW));
(n_SW, NT (ELocT n_sinW));
(n_CW, NT (EUn SqrtT ((EUn D2T (ELit (1 # 1))) -t ((ELocT n_sinW) *t (ELocT n_sinW)))));
(n_MZ, NT ((ELocT n_massW) /t (EMemT n_CW)));
(n_propd, NProp (ELocT n_massd) (EUn I2T (EInt 0)))]
gZdd_ctor
[gZdd_set_masses; gZdd_set_momenta; gZdd_amp; gZdd_amp2; gZdd_amp2_gplus; gZdd_amp2_gminus].

(** gZuu::gZuu: SM/gZuu.cpp 32-59 *)
Definition gZuu_ctor : stmt :=
(SLoc rT n_two (EUn I2T (EInt 2));,
SMemT n_sqrt2 (EUn SqrtT (ELocT n_two));,
SMemT n_MZ ((EMemT n_MW) /t (EMemT n_CW));,
SParticle 0 (EUn I2T (EInt 0));,
SParticle 1 (EMemT n_MZ);,
SParticle 2 (EMemT n_mu);,
SParticle 3 (EMemT n_mu);,
SSprod n_s12s false 0 [] 1;,
SSprod n_a12a true 0 [] 1;,
SSprod n_s23s false 1 [] 2;,
SSprod n_a23a true 1 [] 2;,
SSprod n_s13s false 0 [] 2;,
SSprod n_a13a true 0 [] 2;,
SSprod n_s24s false 1 [] 3;,
SSprod n_a24a true 1 [] 3;,
SSprod n_s14s false 0 [] 3;,
SSprod n_a14a true 0 [] 3;,
SSprod n_s1341s false 0 [2; 3] 0;,
SSprod n_a1341a true 0 [2; 3] 0;,
SMemT n_preTU ((((EUn D2T (ELit (2 # 1))) *t (EMemT n_e)) *t (EMemT n_gs)) /t (((EUn D2T (ELit (2 # 1))) *t (EMemT n_MW)) *t (EMemT n_SW)));,
SMemT n_gL (((((EUn D2T (EUn NegD (ELit (2 # 1)))) *t (EMemT n_Qu)) *t (EMemT n_SW)) *t (EMemT n_SW)) +t (EUn D2T (ELit (1 # 1))));,
SMemT n_gR ((((EUn D2T (EUn NegD (ELit (2 # 1)))) *t (EMemT n_Qu)) *t (EMemT n_SW)) *t (EMemT n_SW))).
(** gZuu::set_masses: SM/gZuu.cpp 60-71 *)
Definition gZuu_set_masses : meth := mkMeth n_set_masses [(n_massu, PkT); (n_massW, PkT)]
(SMemT n_mu (ELocT n_massu);,
SMemT n_MW (ELocT n_massW);,
SMemT n_MZ ((EMemT n_MW) /t (EMemT n_CW));,
SSetMass 0 (EUn I2T (EInt 0));,
SSetMass 1 (EMemT n_MZ);,
SSetMass 2 (EMemT n_mu);,
SSetMass 3 (EMemT n_mu);,
SPropMass n_prope (EMemT n_mu);,
SMemT n_preTU ((((EUn D2T (ELit (2 # 1))) *t (EMemT n_e)) *t (EMemT n_gs)) /t (((EUn D2T (ELit (2 # 1))) *t (EMemT n_MW)) *t (EMemT n_SW)))).
(** gZuu::set_momenta: SM/gZuu.cpp 72-100 *)
Definition gZuu_set_momenta : meth := mkMeth n_set_momenta [(n_mom1, PkMom); (n_mom2, PkMom); (n_mom3, PkMom); (n_mom4, PkMom)]
(SSetMomentum 0 n_mom1;,
SSetMomentum 1 n_mom2;,
SSetMomentum 2 n_mom3;,
SSetMomentum 3 n_mom4;,
SUpdate n_s12s;,
SUpdate n_a12a;,
SUpdate n_s23s;,
SUpdate n_a23a;,
SUpdate n_s13s;,
SUpdate n_a13a;,
SUpdate n_s24s;,
SUpdate n_a24a;,
SUpdate n_s14s;,
SUpdate n_a14a;,
SUpdate n_s1341s;,
SUpdate n_a1341a;,
SDeclT n_propTP 4;,
SDeclT n_propUP 4;,
(SFor n_j (EInt 0) (EBin (CmpI CLt) (ELocI n_j) (EInt 4)) (EBin (OpI IAdd) (ELocI n_j) (EInt 1))
(SArrT n_propTP (AVar n_j) ((EArrT n_mom1 (AVar n_j)) -t (EArrT n_mom3 (AVar n_j)));,
SArrT n_propUP (AVar n_j) ((EArrT n_mom1 (AVar n_j)) -t (EArrT n_mom4 (AVar n_j)))));,
SMemC n_pDenT (EDen n_prope n_propTP);,
SMemC n_pDenU (EDen n_prope n_propUP)).
(** gZuu::amp: SM/gZuu.cpp 105-149 *)
Definition gZuu_amp : meth := mkMeth n_amp [(n_ds1, PkI); (n_ds2, PkI); (n_ds3, PkI); (n_ds4, PkI)]
(SLoc rC n_amplitude (EBin OpTTC (EUn I2T (EInt 0)) (EUn I2T (EInt 0)));,
SDecl rI n_ds2a;,
SDecl rI n_ds2b;,
SLoc rT n_two (EUn I2T (EInt 2));,
SLoc rI n_nCombs (ENLoops [(AVar n_ds2)]);,
SLoc rT n_normFactor (ENorm [(AVar n_ds2)]);,
(SFor n_i (EInt 0) (EBin (CmpI CLt) (ELocI n_i) (ELocI n_nCombs)) (EBin (OpI IAdd) (ELocI n_i) (EInt 1))
(SSpins [(n_ds2, n_ds2a, n_ds2b)] (AVar n_i);,
(SIf (EBin (CmpI CGt) (ELocI n_ds1) (EInt 0))
(SLoc rC n_amplitude ((ELocC n_amplitude) +c ((((((ELocT n_normFactor) *t (EMemT n_preTU)) *tc (EV n_s1341s [])) *c ((((EMemT n_gR) *tc (EV n_s24s [(AVar n_ds2a); (AVar n_ds4)])) *c (EV n_a23a [(AVar n_ds2b); (AVar n_ds3)])) +c (((EMemT n_gL) *tc (EV n_s23s [(AVar n_ds2a); (AVar n_ds3)])) *c (EV n_a24a [(AVar n_ds2b); (AVar n_ds4)])))) /c (EMemC n_pDenT)) /c (EMemC n_pDenU)));,
SLoc rC n_amplitude ((ELocC n_amplitude) +c ((((ELocT n_normFactor) *t (EMemT n_preTU)) *tc (EV n_s12s [(AVar n_ds2a)])) *c (((((EMemT n_gR) *tc (EV n_s14s [(AVar n_ds4)])) *c (EV n_a23a [(AVar n_ds2b); (AVar n_ds3)])) /c (EMemC n_pDenU)) -c ((((EMemT n_gL) *tc (EV n_s13s [(AVar n_ds3)])) *c (EV n_a24a [(AVar n_ds2b); (AVar n_ds4)])) /c (EMemC n_pDenT))))))
(SIf (EBin (CmpI CLt) (ELocI n_ds1) (EInt 0))
(SLoc rC n_amplitude ((ELocC n_amplitude) +c ((((((ELocT n_normFactor) *t (EMemT n_preTU)) *tc (EV n_a1341a [])) *c ((((EMemT n_gR) *tc (EV n_s24s [(AVar n_ds2a); (AVar n_ds4)])) *c (EV n_a23a [(AVar n_ds2b); (AVar n_ds3)])) +c (((EMemT n_gL) *tc (EV n_s23s [(AVar n_ds2a); (AVar n_ds3)])) *c (EV n_a24a [(AVar n_ds2b); (AVar n_ds4)])))) /c (EMemC n_pDenT)) /c (EMemC n_pDenU)));,
SLoc rC n_amplitude ((ELocC n_amplitude) +c ((((ELocT n_normFactor) *t (EMemT n_preTU)) *tc (EV n_a12a [(AVar n_ds2a)])) *c (((((EMemT n_gL) *tc (EV n_a14a [(AVar n_ds4)])) *c (EV n_s23s [(AVar n_ds2b); (AVar n_ds3)])) /c (EMemC n_pDenU)) -c ((((EMemT n_gR) *tc (EV n_a13a [(AVar n_ds3)])) *c (EV n_s24s [(AVar n_ds2b); (AVar n_ds4)])) /c (EMemC n_pDenT))))))
(SSkip)))));,
SReturnC (ELocC n_amplitude)).
(** gZuu::amp2: SM/gZuu.cpp 152-167 *)
Definition gZuu_amp2 : meth := mkMeth n_amp2 []
(SLoc rT n_amp2 (EUn I2T (EInt 0));,
SDecl rC n_M;,
(SFor n_j1 (EUn NegI (EInt 2)) (EBin (CmpI CLe) (ELocI n_j1) (EInt 2)) (EBin (OpI IAdd) (ELocI n_j1) (EInt 4))
(SFor n_j2 (EUn NegI (EInt 2)) (EBin (CmpI CLe) (ELocI n_j2) (EInt 2)) (EBin (OpI IAdd) (ELocI n_j2) (EInt 2))
(SFor n_j3 (EUn NegI (EInt 1)) (EBin (CmpI CLe) (ELocI n_j3) (EInt 1)) (EBin (OpI IAdd) (ELocI n_j3) (EInt 2))
(SFor n_j4 (EUn NegI (EInt 1)) (EBin (CmpI CLe) (ELocI n_j4) (EInt 1)) (EBin (OpI IAdd) (ELocI n_j4) (EInt 2))
(SLoc rC n_M (ECall n_amp [(AVar n_j1); (AVar n_j2); (AVar n_j3); (AVar n_j4)]);,
SLoc rT n_amp2 ((ELocT n_amp2) +t ((EUn D2T (ELit (4 # 1))) *t (EUn Pow2T (EUn AbsC (ELocC n_M))))))))));,
SReturnT ((ELocT n_amp2) /t (EUn D2T (ELit (48 # 1))))).
(** gZuu::amp2_gplus: SM/gZuu.cpp 169-183 *)
Definition gZuu_amp2_gplus : meth := mkMeth n_amp2_gplus []
(SLoc rT n_amp2 (EUn I2T (EInt 0));,
SDecl rC n_M;,
(SFor n_j2 (EUn NegI (EInt 2)) (EBin (CmpI CLe) (ELocI n_j2) (EInt 2)) (EBin (OpI IAdd) (ELocI n_j2) (EInt 2))
(SFor n_j3 (EUn NegI (EInt 1)) (EBin (CmpI CLe) (ELocI n_j3) (EInt 1)) (EBin (OpI IAdd) (ELocI n_j3) (EInt 2))
(SFor n_j4 (EUn NegI (EInt 1)) (EBin (CmpI CLe) (ELocI n_j4) (EInt 1)) (EBin (OpI IAdd) (ELocI n_j4) (EInt 2))
(SLoc rC n_M (ECall n_amp [(ALit 2); (AVar n_j2); (AVar n_j3); (AVar n_j4)]);,
SLoc rT n_amp2 ((ELocT n_amp2) +t ((EUn D2T (ELit (4 # 1))) *t (EUn Pow2T (EUn AbsC (ELocC n_M)))))))));,
SReturnT ((ELocT n_amp2) /t (EUn D2T (ELit (24 # 1))))).
(** gZuu::amp2_gminus: SM/gZuu.cpp 185-199 *)
Definition gZuu_amp2_gminus : meth := mkMeth n_amp2_gminus []
(SLoc rT n_amp2 (EUn I2T (EInt 0));,
SDecl rC n_M;,
(SFor n_j2 (EUn NegI (EInt 2)) (EBin (CmpI CLe) (ELocI n_j2) (EInt 2)) (EBin (OpI IAdd) (ELocI n_j2) (EInt 2))
(SFor n_j3 (EUn NegI (EInt 1)) (EBin (CmpI CLe) (ELocI n_j3) (EInt 1)) (EBin (OpI IAdd) (ELocI n_j3) (EInt 2))
(SFor n_j4 (EUn NegI (EInt 1)) (EBin (CmpI CLe) (ELocI n_j4) (EInt 1)) (EBin (OpI IAdd) (ELocI n_j4) (EInt 2))
(SLoc rC n_M (ECall n_amp [(ALit (-2)); (AVar n_j2); (AVar n_j3); (AVar n_j4)]);,
SLoc rT n_amp2 ((ELocT n_amp2) +t ((EUn D2T (ELit (4 # 1))) *t (EUn Pow2T (EUn AbsC (ELocC n_M)))))))));,
SReturnT ((ELocT n_amp2) /t (EUn D2T (ELit (24 # 1))))).
(** members: SM/include/gZuu.h 26-36; initialisers: SM/gZuu.cpp 32-33 *)
Definition gZuu : cls := mkCls "gZuu"
[(n_e, KT);
(n_Qu, KT);
(n_gs, KT);
(n_mu, KT);
(n_MW, KT);
(n_SW, KT);
(n_CW, KT);
(n_MZ, KT);
(n_p1, (KPart 0));
(n_p2, (KPart 1));
(n_p3, (KPart 2));
(n_p4, (KPart 3));
(n_prope, KProp);
(n_pDenT, KC);
(n_pDenU, KC);
(n_s12s, KSprod);
(n_a12a, KSprod);
(n_s23s, KSprod);
(n_a23a, KSprod);
(n_s13s, KSprod);
(n_a13a, KSprod);
(n_s24s, KSprod);
(n_a24a, KSprod);
(n_s14s, KSprod);
(n_a14a, KSprod);
(n_s1341s, KSprod);
(n_a1341a, KSprod);
(n_sqrt2, KT);
(n_preTU, KT);
(n_preh, KT);
(n_gL, KT);
(n_gR, KT)]
[n_echarge; n_gscharge; n_massu; n_massW; n_sinW]
[(n_e, NT (ELocT n_echarge));
(n_Qu, NT (EUn D2T ((ELit (2 # 1)) /d (ELit (3 # 1)))));
(n_gs, NT (ELocT n_gscharge));
(n_mu, NT (ELocT n_massu));
(n_MW, NT (ELocT n_massW));
(n_SW, NT (ELocT n_sinW));
(n_CW, NT (EUn SqrtT ((EUn D2T (ELit (1 # 1))) -t ((ELocT n_sinW) *t (ELocT n_sinW)))));
(n_MZ, NT ((ELocT n_massW) /t (EMemT n_CW)));
(n_prope, NProp (ELocT n_massu) (EUn I2T (EInt 0)))]
gZuu_ctor
[gZuu_set_masses; gZuu_set_momenta; gZuu_amp; gZuu_amp2; gZuu_amp2_gplus; gZuu_amp2_gminus].

(** gdZd::gdZd: SM/gdZd.cpp 32-65 *)
Definition gdZd_ctor : stmt :=
(SLoc rT n_two (EUn I2T (EInt 2));,
SMemT n_sqrt2 (EUn SqrtT (ELocT n_two));,
SMemT n_MZ ((EMemT n_MW) /t (EMemT n_CW));,
SParticle 0 (EUn I2T (EInt 0));,
SParticle 1 (EMemT n_md);,
SParticle 2 (EMemT n_MZ);,
SParticle 3 (EMemT n_md);,
SSprod n_s12s false 0 [] 1;,
SSprod n_s13s false 0 [] 2;,
SSprod n_s14s false 0 [] 3;,
SSprod n_a23a true 1 [] 2;,
SSprod n_a34a true 2 [] 3;,
SSprod n_s123a false 0 [1] 2;,
SSprod n_s132a false 0 [2] 1;,
SSprod n_s134a false 0 [2] 3;,
SSprod n_s143a false 0 [3] 2;,
SSprod n_a12a true 0 [] 1;,
SSprod n_a13a true 0 [] 2;,
SSprod n_a14a true 0 [] 3;,
SSprod n_s23s false 1 [] 2;,
SSprod n_s34s false 2 [] 3;,
SSprod n_a123s true 0 [1] 2;,
SSprod n_a132s true 0 [2] 1;,
SSprod n_a134s true 0 [2] 3;,
SSprod n_a143s true 0 [3] 2;,
SMemT n_preTU ((((EUn D2T (ELit (2 # 1))) *t (EMemT n_e)) *t (EMemT n_gs)) /t (((EUn D2T (ELit (2 # 1))) *t (EMemT n_MW)) *t (EMemT n_SW)));,
SMemT n_gL (((((EUn D2T (EUn NegD (ELit (2 # 1)))) *t (EMemT n_Qd)) *t (EMemT n_SW)) *t (EMemT n_SW)) -t (EUn D2T (ELit (1 # 1))));,
SMemT n_gR ((((EUn D2T (EUn NegD (ELit (2 # 1)))) *t (EMemT n_Qd)) *t (EMemT n_SW)) *t (EMemT n_SW))).
(** gdZd::set_masses: SM/gdZd.cpp 66-76 *)
Definition gdZd_set_masses : meth := mkMeth n_set_masses [(n_massd, PkT); (n_massW, PkT)]
(SMemT n_md (ELocT n_massd);,
SMemT n_MW (ELocT n_massW);,
SMemT n_MZ ((EMemT n_MW) /t (EMemT n_CW));,
SSetMass 1 (EMemT n_md);,
SSetMass 2 (EMemT n_MZ);,
SSetMass 3 (EMemT n_md);,
SPropMass n_propd (EMemT n_md);,
SMemT n_preTU ((((EUn D2T (ELit (2 # 1))) *t (EMemT n_e)) *t (EMemT n_gs)) /t (((EUn D2T (ELit (2 # 1))) *t (EMemT n_MW)) *t (EMemT n_SW)))).
(** gdZd::set_momenta: SM/gdZd.cpp 77-111 *)
Definition gdZd_set_momenta : meth := mkMeth n_set_momenta [(n_mom1, PkMom); (n_mom2, PkMom); (n_mom3, PkMom); (n_mom4, PkMom)]
(SSetMomentum 0 n_mom1;,
SSetMomentum 1 n_mom2;,
SSetMomentum 2 n_mom3;,
SSetMomentum 3 n_mom4;,
SUpdate n_s12s;,
SUpdate n_s13s;,
SUpdate n_s14s;,
SUpdate n_a23a;,
SUpdate n_a34a;,
SUpdate n_s123a;,
SUpdate n_s132a;,
SUpdate n_s134a;,
SUpdate n_s143a;,
SUpdate n_a12a;,
SUpdate n_a13a;,
SUpdate n_a14a;,
SUpdate n_s23s;,
SUpdate n_s34s;,
SUpdate n_a123s;,
SUpdate n_a132s;,
SUpdate n_a134s;,
SUpdate n_a143s;,
SDeclT n_propSP 4;,
SDeclT n_propUP 4;,
(SFor n_j (EInt 0) (EBin (CmpI CLt) (ELocI n_j) (EInt 4)) (EBin (OpI IAdd) (ELocI n_j) (EInt 1))
(SArrT n_propSP (AVar n_j) ((EArrT n_mom1 (AVar n_j)) +t (EArrT n_mom2 (AVar n_j)));,
SArrT n_propUP (AVar n_j) ((EArrT n_mom1 (AVar n_j)) -t (EArrT n_mom4 (AVar n_j)))));,
SMemC n_pDenS (EDen n_propd n_propSP);,
SMemC n_pDenU (EDen n_propd n_propUP)).
(** gdZd::amp: SM/gdZd.cpp 116-150 *)
Definition gdZd_amp : meth := mkMeth n_amp [(n_ds1, PkI); (n_ds2, PkI); (n_ds3, PkI); (n_ds4, PkI)]
(SLoc rC n_amplitude (EBin OpTTC (EUn I2T (EInt 0)) (EUn I2T (EInt 0)));,
SDecl rI n_ds3a;,
SDecl rI n_ds3b;,
SLoc rT n_two (EUn I2T (EInt 2));,
SLoc rI n_nCombs (ENLoops [(AVar n_ds3)]);,
SLoc rT n_normFactor (ENorm [(AVar n_ds3)]);,
(SFor n_i (EInt 0) (EBin (CmpI CLt) (ELocI n_i) (ELocI n_nCombs)) (EBin (OpI IAdd) (ELocI n_i) (EInt 1))
(SSpins [(n_ds3, n_ds3a, n_ds3b)] (AVar n_i);,
(SIf (EBin (CmpI CGt) (ELocI n_ds1) (EInt 0))
(SLoc rC n_amplitude ((ELocC n_amplitude) +c (((((ELocT n_normFactor) *t (EMemT n_preTU)) *tc ((((EMemT n_gL) *tc (EV n_a23a [(AVar n_ds2); (AVar n_ds3a)])) *c ((((EMemT n_MZ) *tc (EV n_s14s [(AVar n_ds4)])) *c (EV n_s123a [(AVar n_ds3b)])) +c (((EMemT n_md) *tc (EV n_s13s [(AVar n_ds3b)])) *c (EV n_s134a [(AVar n_ds4)])))) +c (((EMemT n_gR) *tc (EV n_a34a [(AVar n_ds3a); (AVar n_ds4)])) *c ((((EMemT n_md) *tc (EV n_s13s [(AVar n_ds3b)])) *c (EV n_s132a [(AVar n_ds2)])) +c (((EMemT n_MZ) *tc (EV n_s12s [(AVar n_ds2)])) *c (EV n_s143a [(AVar n_ds3b)])))))) /c (EMemC n_pDenU)) /c (EMemC n_pDenS))))
((SIf (EBin (CmpI CLt) (ELocI n_ds1) (EInt 0))
(SLoc rC n_amplitude ((ELocC n_amplitude) +c (((((ELocT n_normFactor) *t (EMemT n_preTU)) *tc ((((EMemT n_gR) *tc (EV n_s23s [(AVar n_ds2); (AVar n_ds3a)])) *c ((((EMemT n_MZ) *tc (EV n_a14a [(AVar n_ds4)])) *c (EV n_a123s [(AVar n_ds3b)])) +c (((EMemT n_md) *tc (EV n_a13a [(AVar n_ds3b)])) *c (EV n_a134s [(AVar n_ds4)])))) +c (((EMemT n_gL) *tc (EV n_s34s [(AVar n_ds3a); (AVar n_ds4)])) *c ((((EMemT n_md) *tc (EV n_a13a [(AVar n_ds3b)])) *c (EV n_a132s [(AVar n_ds2)])) +c (((EMemT n_MZ) *tc (EV n_a12a [(AVar n_ds2)])) *c (EV n_a143s [(AVar n_ds3b)])))))) /c (EMemC n_pDenU)) /c (EMemC n_pDenS))))
(SSkip))))));,
SReturnC (ELocC n_amplitude)).
(** gdZd::amp2: SM/gdZd.cpp 153-168 *)
Definition gdZd_amp2 : meth := mkMeth n_amp2 []
(SLoc rT n_amp2 (EUn I2T (EInt 0));,
SDecl rC n_M;,
(SFor n_j1 (EUn NegI (EInt 2)) (EBin (CmpI CLe) (ELocI n_j1) (EInt 2)) (EBin (OpI IAdd) (ELocI n_j1) (EInt 4))
(SFor n_j2 (EUn NegI (EInt 1)) (EBin (CmpI CLe) (ELocI n_j2) (EInt 1)) (EBin (OpI IAdd) (ELocI n_j2) (EInt 2))
(SFor n_j3 (EUn NegI (EInt 2)) (EBin (CmpI CLe) (ELocI n_j3) (EInt 2)) (EBin (OpI IAdd) (ELocI n_j3) (EInt 2))
(SFor n_j4 (EUn NegI (EInt 1)) (EBin (CmpI CLe) (ELocI n_j4) (EInt 1)) (EBin (OpI IAdd) (ELocI n_j4) (EInt 2))
(SLoc rC n_M (ECall n_amp [(AVar n_j1); (AVar n_j2); (AVar n_j3); (AVar n_j4)]);,
SLoc rT n_amp2 ((ELocT n_amp2) +t ((EUn D2T (ELit (4 # 1))) *t (EUn Pow2T (EUn AbsC (ELocC n_M))))))))));,
SReturnT ((ELocT n_amp2) /t (EUn D2T (ELit (96 # 1))))).
(** gdZd::amp2_gplus: SM/gdZd.cpp 170-184 *)
Definition gdZd_amp2_gplus : meth := mkMeth n_amp2_gplus []
(SLoc rT n_amp2 (EUn I2T (EInt 0));,
SDecl rC n_M;,
(SFor n_j2 (EUn NegI (EInt 1)) (EBin (CmpI CLe) (ELocI n_j2) (EInt 1)) (EBin (OpI IAdd) (ELocI n_j2) (EInt 2))
(SFor n_j3 (EUn NegI (EInt 2)) (EBin (CmpI CLe) (ELocI n_j3) (EInt 2)) (EBin (OpI IAdd) (ELocI n_j3) (EInt 2))
(SFor n_j4 (EUn NegI (EInt 1)) (EBin (CmpI CLe) (ELocI n_j4) (EInt 1)) (EBin (OpI IAdd) (ELocI n_j4) (EInt 2))
(SLoc rC n_M (ECall n_amp [(ALit 2); (AVar n_j2); (AVar n_j3); (AVar n_j4)]);,
SLoc rT n_amp2 ((ELocT n_amp2) +t ((EUn D2T (ELit (4 # 1))) *t (EUn Pow2T (EUn AbsC (ELocC n_M)))))))));,
SReturnT ((ELocT n_amp2) /t (EUn D2T (ELit (48 # 1))))).
(** gdZd::amp2_gminus: SM/gdZd.cpp 186-200 *)
Definition gdZd_amp2_gminus : meth := mkMeth n_amp2_gminus []
(SLoc rT n_amp2 (EUn I2T (EInt 0));,
SDecl rC n_M;,
(SFor n_j2 (EUn NegI (EInt 1)) (EBin (CmpI CLe) (ELocI n_j2) (EInt 1)) (EBin (OpI IAdd) (ELocI n_j2) (EInt 2))
(SFor n_j3 (EUn NegI (EInt 2)) (EBin (CmpI CLe) (ELocI n_j3) (EInt 2)) (EBin (OpI IAdd) (ELocI n_j3) (EInt 2))
(SFor n_j4 (EUn NegI (EInt 1)) (EBin (CmpI CLe) (ELocI n_j4) (EInt 1)) (EBin (OpI IAdd) (ELocI n_j4) (EInt 2))
(SLoc rC n_M (ECall n_amp [(ALit (-2)); (AVar n_j2); (AVar n_j3); (AVar n_j4)]);,
SLoc rT n_amp2 ((ELocT n_amp2) +t ((EUn D2T (ELit (4 # 1))) *t (EUn Pow2T (EUn AbsC (ELocC n_M)))))))));,
SReturnT ((ELocT n_amp2) /t (EUn D2T (ELit (48 # 1))))).
(** members: SM/include/gdZd.h 26-35; initialisers: SM/gdZd.cpp 32-33 *)
Definition gdZd : cls := mkCls "gdZd"
[(n_e, KT);
(n_Qd, KT);
(n_gs, KT);
(n_md, KT);
(n_MW, KT);
(n_SW, KT);
(n_CW, KT);
(n_MZ, KT);
(n_p1, (KPart 0));
(n_p2, (KPart 1));
(n_p3, (KPart 2));
(n_p4, (KPart 3));
(n_propd, KProp);
(n_pDenS, KC);
(n_pDenU, KC);
(n_s12s, KSprod);
(n_s13s, KSprod);
(n_s14s, KSprod);
(n_a23a, KSprod);
(n_a34a, KSprod);
(n_s123a, KSprod);
(n_s132a, KSprod);
(n_s134a, KSprod);
(n_s143a, KSprod);
(n_a12a, KSprod);
(n_a13a, KSprod);
(n_a14a, KSprod);
(n_s23s, KSprod);
(n_s34s, KSprod);
(n_a123s, KSprod);
(n_a132s, KSprod);
(n_a134s, KSprod);
(n_a143s, KSprod);
(n_sqrt2, KT);
(n_preTU, KT);
(n_preh, KT);
(n_gL, KT);
(n_gR, KT)]
[n_echarge; n_gscharge; n_massd; n_massW; n_sinW]
[(n_e, NT (ELocT n_echarge));
(n_Qd, NT (EUn D2T ((EUn NegD (ELit (1 # 1))) /d (ELit (3 # 1)))));
(n_gs, NT (ELocT n_gscharge));
(n_md, NT (ELocT n_massd));
(n_MW, NT (ELocT n_massW));
(n_SW, NT (ELocT n_sinW));
(n_CW, NT (EUn SqrtT ((EUn D2T (ELit (1 # 1))) -t ((ELocT n_sinW) *t (ELocT n_sinW)))));
(n_MZ, NT ((ELocT n_massW) /t (EMemT n_CW)));
(n_propd, NProp (ELocT n_massd) (EUn I2T (EInt 0)))]
gdZd_ctor
[gdZd_set_masses; gdZd_set_momenta; gdZd_amp; gdZd_amp2; gdZd_amp2_gplus; gdZd_amp2_gminus].

(** ggdd::ggdd: SM/ggdd.cpp 32-54 *)
Definition ggdd_ctor : stmt :=
(SLoc rT n_two (EUn I2T (EInt 2));,
SMemT n_sqrt2 (EUn SqrtT (ELocT n_two));,
SParticle 0 (EUn I2T (EInt 0));,
SParticle 1 (EUn I2T (EInt 0));,
SParticle 2 (EMemT n_md);,
SParticle 3 (EMemT n_md);,
SSprod n_s34s false 2 [] 3;,
SSprod n_a34a true 2 [] 3;,
SSprod n_s12s false 0 [] 1;,
SSprod n_a12a true 0 [] 1;,
SSprod n_s13s false 0 [] 2;,
SSprod n_a13a true 0 [] 2;,
SSprod n_s24s false 1 [] 3;,
SSprod n_a24a true 1 [] 3;,
SSprod n_s23s false 1 [] 2;,
SSprod n_a23a true 1 [] 2;,
SSprod n_s14s false 0 [] 3;,
SSprod n_a14a true 0 [] 3;,
SSprod n_s132a false 0 [2] 1;,
SSprod n_s231a false 1 [2] 0).
(** ggdd::set_masses: SM/ggdd.cpp 55-60 *)
Definition ggdd_set_masses : meth := mkMeth n_set_masses [(n_massd, PkT)]
(SMemT n_md (ELocT n_massd);,
SSetMass 2 (EMemT n_md);,
SSetMass 3 (EMemT n_md);,
SPropMass n_propd (EMemT n_md)).
(** ggdd::set_momenta: SM/ggdd.cpp 61-91 *)
Definition ggdd_set_momenta : meth := mkMeth n_set_momenta [(n_mom1, PkMom); (n_mom2, PkMom); (n_mom3, PkMom); (n_mom4, PkMom)]
(SSetMomentum 0 n_mom1;,
SSetMomentum 1 n_mom2;,
SSetMomentum 2 n_mom3;,
SSetMomentum 3 n_mom4;,
SUpdate n_s34s;,
SUpdate n_a34a;,
SUpdate n_s12s;,
SUpdate n_a12a;,
SUpdate n_s13s;,
SUpdate n_a13a;,
SUpdate n_s24s;,
SUpdate n_a24a;,
SUpdate n_s23s;,
SUpdate n_a23a;,
SUpdate n_s14s;,
SUpdate n_a14a;,
SUpdate n_s132a;,
SUpdate n_s231a;,
SDeclT n_propSP 4;,
SDeclT n_propTP 4;,
SDeclT n_propUP 4;,
(SFor n_j (EInt 0) (EBin (CmpI CLt) (ELocI n_j) (EInt 4)) (EBin (OpI IAdd) (ELocI n_j) (EInt 1))
(SArrT n_propSP (AVar n_j) ((EArrT n_mom1 (AVar n_j)) +t (EArrT n_mom2 (AVar n_j)));,
SArrT n_propTP (AVar n_j) ((EArrT n_mom1 (AVar n_j)) -t (EArrT n_mom3 (AVar n_j)));,
SArrT n_propUP (AVar n_j) ((EArrT n_mom1 (AVar n_j)) -t (EArrT n_mom4 (AVar n_j)))));,
SMemT n_pDenS (EUn ReC (EDen n_propg n_propSP));,
SMemT n_pDenT (EUn ReC (EDen n_propd n_propTP));,
SMemT n_pDenU (EUn ReC (EDen n_propd n_propUP))).
(** ggdd::amp_Num: SM/ggdd.cpp 98-128 *)
Definition ggdd_amp_Num : meth := mkMeth n_amp_Num [(n_ds1, PkI); (n_ds2, PkI); (n_ds3, PkI); (n_ds4, PkI)]
((SIf (EAnd (EBin (CmpI CGt) (ELocI n_ds1) (EInt 0)) (EBin (CmpI CGt) (ELocI n_ds2) (EInt 0)))
(SReturnC (((((((EUn D2T (ELit (2 # 1))) *t (EMemT n_gs)) *t (EMemT n_gs)) *t (EMemT n_md)) *tc (EV n_s12s [])) *c (EV n_s12s [])) *c (EV n_a34a [(AVar n_ds3); (AVar n_ds4)])))
((SIf (EAnd (EBin (CmpI CLt) (ELocI n_ds1) (EInt 0)) (EBin (CmpI CLt) (ELocI n_ds2) (EInt 0)))
(SReturnC (((((((EUn D2T (ELit (2 # 1))) *t (EMemT n_gs)) *t (EMemT n_gs)) *t (EMemT n_md)) *tc (EV n_a12a [])) *c (EV n_a12a [])) *c (EV n_s34s [(AVar n_ds3); (AVar n_ds4)])))
((SIf (EAnd (EBin (CmpI CGt) (ELocI n_ds1) (EInt 0)) (EBin (CmpI CLt) (ELocI n_ds2) (EInt 0)))
(SReturnC (((((EUn D2T (EUn NegD (ELit (2 # 1)))) *t (EMemT n_gs)) *t (EMemT n_gs)) *tc (((EV n_s13s [(AVar n_ds3)]) *c (EV n_a24a [(AVar n_ds4)])) +c ((EV n_s14s [(AVar n_ds4)]) *c (EV n_a23a [(AVar n_ds3)])))) *c (EV n_s132a [])))
((SIf (EAnd (EBin (CmpI CLt) (ELocI n_ds1) (EInt 0)) (EBin (CmpI CGt) (ELocI n_ds2) (EInt 0)))
(SReturnC (((((EUn D2T (EUn NegD (ELit (2 # 1)))) *t (EMemT n_gs)) *t (EMemT n_gs)) *tc (((EV n_a13a [(AVar n_ds3)]) *c (EV n_s24s [(AVar n_ds4)])) +c ((EV n_a14a [(AVar n_ds4)]) *c (EV n_s23s [(AVar n_ds3)])))) *c (EV n_s231a [])))
(SSkip))))))));,
SReturnC (EBin OpTTC (EUn I2T (EInt 0)) (EUn I2T (EInt 0)))).
(** ggdd::amp2_Feynman: SM/ggdd.cpp 134-139 *)
Definition ggdd_amp2_Feynman : meth := mkMeth n_amp2_Feynman []
(SLoc rT n_pre ((((EMemT n_gs) *t (EMemT n_gs)) *t (EMemT n_gs)) *t (EMemT n_gs));,
SLoc rT n_oneSixth (EUn D2T ((ELit (1 # 1)) /d (ELit (6 # 1))));,
SLoc rT n_threeEights (EUn D2T ((ELit (3 # 1)) /d (ELit (8 # 1))));,
SLoc rC n_M2 (EUn T2C (((ELocT n_pre) *t (((EMemT n_pDenT) *t (EMemT n_pDenT)) +t ((EMemT n_pDenU) *t (EMemT n_pDenU)))) *t ((((ELocT n_oneSixth) /t (EMemT n_pDenT)) /t (EMemT n_pDenU)) -t (((ELocT n_threeEights) /t (EMemT n_pDenS)) /t (EMemT n_pDenS)))));,
SReturnT (EUn AbsC (ELocC n_M2))).
(** ggdd::amp2: SM/ggdd.cpp 143-158 *)
Definition ggdd_amp2 : meth := mkMeth n_amp2 []
(SLoc rT n_amp2 (EUn I2T (EInt 0));,
SDecl rC n_M_Num;,
(SFor n_j1 (EUn NegI (EInt 2)) (EBin (CmpI CLe) (ELocI n_j1) (EInt 2)) (EBin (OpI IAdd) (ELocI n_j1) (EInt 4))
(SFor n_j2 (EUn NegI (EInt 2)) (EBin (CmpI CLe) (ELocI n_j2) (EInt 2)) (EBin (OpI IAdd) (ELocI n_j2) (EInt 4))
(SFor n_j3 (EUn NegI (EInt 1)) (EBin (CmpI CLe) (ELocI n_j3) (EInt 1)) (EBin (OpI IAdd) (ELocI n_j3) (EInt 2))
(SFor n_j4 (EUn NegI (EInt 1)) (EBin (CmpI CLe) (ELocI n_j4) (EInt 1)) (EBin (OpI IAdd) (ELocI n_j4) (EInt 2))
(SLoc rC n_M_Num (ECall n_amp_Num [(AVar n_j1); (AVar n_j2); (AVar n_j3); (AVar n_j4)]);,
SLoc rT n_amp2 ((ELocT n_amp2) +t ((EUn Pow2T (EUn AbsC (ELocC n_M_Num))) *t ((((EUn D2T (ELit (6 # 1))) /t (EUn Pow2T ((EMemT n_pDenS) *t (EMemT n_pDenT)))) +t ((EUn D2T (ELit (6 # 1))) /t (EUn Pow2T ((EMemT n_pDenS) *t (EMemT n_pDenU))))) -t ((EUn D2T ((ELit (2 # 1)) /d (ELit (3 # 1)))) /t (EUn Pow2T ((EMemT n_pDenT) *t (EMemT n_pDenU))))))))))));,
SReturnT ((ELocT n_amp2) /t (EUn D2T (ELit (256 # 1))))).
(** ggdd::amp2_gplus_gplus: SM/ggdd.cpp 161-173 *)
Definition ggdd_amp2_gplus_gplus : meth := mkMeth n_amp2_gplus_gplus []
(SLoc rT n_amp2 (EUn I2T (EInt 0));,
SDecl rC n_M_Num;,
(SFor n_j3 (EUn NegI (EInt 1)) (EBin (CmpI CLe) (ELocI n_j3) (EInt 1)) (EBin (OpI IAdd) (ELocI n_j3) (EInt 2))
(SFor n_j4 (EUn NegI (EInt 1)) (EBin (CmpI CLe) (ELocI n_j4) (EInt 1)) (EBin (OpI IAdd) (ELocI n_j4) (EInt 2))
(SLoc rC n_M_Num (ECall n_amp_Num [(ALit 2); (ALit 2); (AVar n_j3); (AVar n_j4)]);,
SLoc rT n_amp2 ((ELocT n_amp2) +t ((EUn Pow2T (EUn AbsC (ELocC n_M_Num))) *t ((((EUn D2T (ELit (6 # 1))) /t (EUn Pow2T ((EMemT n_pDenS) *t (EMemT n_pDenT)))) +t ((EUn D2T (ELit (6 # 1))) /t (EUn Pow2T ((EMemT n_pDenS) *t (EMemT n_pDenU))))) -t ((EUn D2T ((ELit (2 # 1)) /d (ELit (3 # 1)))) /t (EUn Pow2T ((EMemT n_pDenT) *t (EMemT n_pDenU))))))))));,
SReturnT ((ELocT n_amp2) /t (EUn D2T (ELit (64 # 1))))).
(** ggdd::amp2_gplus_gminus: SM/ggdd.cpp 176-188 *)
Definition ggdd_amp2_gplus_gminus : meth := mkMeth n_amp2_gplus_gminus []
(SLoc rT n_amp2 (EUn I2T (EInt 0));,
SDecl rC n_M_Num;,
(SFor n_j3 (EUn NegI (EInt 1)) (EBin (CmpI CLe) (ELocI n_j3) (EInt 1)) (EBin (OpI IAdd) (ELocI n_j3) (EInt 2))
(SFor n_j4 (EUn NegI (EInt 1)) (EBin (CmpI CLe) (ELocI n_j4) (EInt 1)) (EBin (OpI IAdd) (ELocI n_j4) (EInt 2))
(SLoc rC n_M_Num (ECall n_amp_Num [(ALit 2); (ALit (-2)); (AVar n_j3); (AVar n_j4)]);,
SLoc rT n_amp2 ((ELocT n_amp2) +t ((EUn Pow2T (EUn AbsC (ELocC n_M_Num))) *t ((((EUn D2T (ELit (6 # 1))) /t (EUn Pow2T ((EMemT n_pDenS) *t (EMemT n_pDenT)))) +t ((EUn D2T (ELit (6 # 1))) /t (EUn Pow2T ((EMemT n_pDenS) *t (EMemT n_pDenU))))) -t ((EUn D2T ((ELit (2 # 1)) /d (ELit (3 # 1)))) /t (EUn Pow2T ((EMemT n_pDenT) *t (EMemT n_pDenU))))))))));,
SReturnT ((ELocT n_amp2) /t (EUn D2T (ELit (64 # 1))))).
(** members: SM/include/ggdd.h 26-32; initialisers: SM/ggdd.cpp 32-33 *)
Definition ggdd : cls := mkCls "ggdd"
[(n_gs, KT);
(n_md, KT);
(n_p1, (KPart 0));
(n_p2, (KPart 1));
(n_p3, (KPart 2));
(n_p4, (KPart 3));
(n_propd, KProp);
(n_propg, KProp);
(n_pDenS, KT);
(n_pDenT, KT);
(n_pDenU, KT);
(n_s34s, KSprod);
(n_a34a, KSprod);
(n_s12s, KSprod);
(n_a12a, KSprod);
(n_s13s, KSprod);
(n_a13a, KSprod);
(n_s24s, KSprod);
(n_a24a, KSprod);
(n_s23s, KSprod);
(n_a23a, KSprod);
(n_s14s, KSprod);
(n_a14a, KSprod);
(n_s132a, KSprod);
(n_s231a, KSprod);
(n_sqrt2, KT)]
[n_gcharge; n_massd]
[(n_gs, NT (ELocT n_gcharge));
(n_md, NT (ELocT n_massd));
(n_propd, NProp (ELocT n_massd) (EUn I2T (EInt 0)));
(n_propg, NProp (EUn I2T (EInt 0)) (EUn I2T (EInt 0)))]
ggdd_ctor
[ggdd_set_masses; ggdd_set_momenta; ggdd_amp_Num; ggdd_amp2_Feynman; ggdd_amp2; ggdd_amp2_gplus_gplus; ggdd_amp2_gplus_gminus].

(** gggg::gggg: SM/gggg.cpp 32-55 *)
Definition gggg_ctor : stmt :=
(SParticle 0 (EUn I2T (EInt 0));,
SParticle 1 (EUn I2T (EInt 0));,
SParticle 2 (EUn I2T (EInt 0));,
SParticle 3 (EUn I2T (EInt 0));,
SSprod n_s12s false 0 [] 1;,
SSprod n_a12a true 0 [] 1;,
SSprod n_s13s false 0 [] 2;,
SSprod n_a13a true 0 [] 2;,
SSprod n_s41s false 3 [] 0;,
SSprod n_a41a true 3 [] 0;,
SSprod n_s23s false 1 [] 2;,
SSprod n_a23a true 1 [] 2;,
SSprod n_s24s false 1 [] 3;,
SSprod n_a24a true 1 [] 3;,
SSprod n_s34s false 2 [] 3;,
SSprod n_a34a true 2 [] 3;,
SSprod n_s1432s false 0 [3; 2] 1;,
SSprod n_a1432a true 0 [3; 2] 1;,
SSprod n_s3214s false 2 [1; 0] 3;,
SSprod n_a3214a true 2 [1; 0] 3;,
SSprod n_a3124a true 2 [0; 1] 3).
(** gggg::set_momenta: SM/gggg.cpp 56-89 *)
Definition gggg_set_momenta : meth := mkMeth n_set_momenta [(n_mom1, PkMom); (n_mom2, PkMom); (n_mom3, PkMom); (n_mom4, PkMom)]
(SSetMomentum 0 n_mom1;,
SSetMomentum 1 n_mom2;,
SSetMomentum 2 n_mom3;,
SSetMomentum 3 n_mom4;,
SUpdate n_s34s;,
SUpdate n_a34a;,
SUpdate n_s12s;,
SUpdate n_a12a;,
SUpdate n_s13s;,
SUpdate n_a13a;,
SUpdate n_s24s;,
SUpdate n_a24a;,
SUpdate n_s23s;,
SUpdate n_a23a;,
SUpdate n_s41s;,
SUpdate n_a41a;,
SUpdate n_s1432s;,
SUpdate n_a1432a;,
SUpdate n_s3214s;,
SUpdate n_a3214a;,
SUpdate n_a3124a;,
SDeclT n_propSP 4;,
SDeclT n_propTP 4;,
SDeclT n_propUP 4;,
(SFor n_j (EInt 0) (EBin (CmpI CLt) (ELocI n_j) (EInt 4)) (EBin (OpI IAdd) (ELocI n_j) (EInt 1))
(SArrT n_propSP (AVar n_j) ((EArrT n_mom1 (AVar n_j)) +t (EArrT n_mom2 (AVar n_j)));,
SArrT n_propTP (AVar n_j) ((EArrT n_mom1 (AVar n_j)) -t (EArrT n_mom3 (AVar n_j)));,
SArrT n_propUP (AVar n_j) ((EArrT n_mom1 (AVar n_j)) -t (EArrT n_mom4 (AVar n_j)))));,
SMemT n_pDenS (EUn ReC (EDen n_prop n_propSP));,
SMemT n_pDenT (EUn ReC (EDen n_prop n_propTP));,
SMemT n_pDenU (EUn ReC (EDen n_prop n_propUP))).
(** gggg::amp: SM/gggg.cpp 103-171 *)
Definition gggg_amp : meth := mkMeth n_amp [(n_ds1, PkI); (n_ds2, PkI); (n_ds3, PkI); (n_ds4, PkI)]
(SLoc rC n_zero (EBin OpTTC (EUn I2T (EInt 0)) (EUn I2T (EInt 0)));,
SLoc rC n_one (EBin OpTTC (EUn I2T (EInt 1)) (EUn I2T (EInt 0)));,
SLoc rT n_two (EUn I2T (EInt 2));,
SLoc rT n_oneHalf (EUn D2T ((ELit (1 # 1)) /d (ELit (2 # 1))));,
(SIf (EAnd (EAnd (EAnd (EBin (CmpI CGt) (ELocI n_ds1) (EInt 0)) (EBin (CmpI CGt) (ELocI n_ds2) (EInt 0))) (EBin (CmpI CGt) (ELocI n_ds3) (EInt 0))) (EBin (CmpI CGt) (ELocI n_ds4) (EInt 0)))
(SReturnC (ELocC n_zero))
((SIf (EOr (EOr (EOr (EAnd (EAnd (EAnd (EBin (CmpI CGt) (ELocI n_ds1) (EInt 0)) (EBin (CmpI CGt) (ELocI n_ds2) (EInt 0))) (EBin (CmpI CGt) (ELocI n_ds3) (EInt 0))) (EBin (CmpI CLt) (ELocI n_ds4) (EInt 0))) (EAnd (EAnd (EAnd (EBin (CmpI CGt) (ELocI n_ds1) (EInt 0)) (EBin (CmpI CGt) (ELocI n_ds2) (EInt 0))) (EBin (CmpI CLt) (ELocI n_ds3) (EInt 0))) (EBin (CmpI CGt) (ELocI n_ds4) (EInt 0)))) (EAnd (EAnd (EAnd (EBin (CmpI CGt) (ELocI n_ds1) (EInt 0)) (EBin (CmpI CLt) (ELocI n_ds2) (EInt 0))) (EBin (CmpI CGt) (ELocI n_ds3) (EInt 0))) (EBin (CmpI CGt) (ELocI n_ds4) (EInt 0)))) (EAnd (EAnd (EAnd (EBin (CmpI CLt) (ELocI n_ds1) (EInt 0)) (EBin (CmpI CGt) (ELocI n_ds2) (EInt 0))) (EBin (CmpI CGt) (ELocI n_ds3) (EInt 0))) (EBin (CmpI CGt) (ELocI n_ds4) (EInt 0))))
(SReturnC (ELocC n_zero))
((SIf (EAnd (EAnd (EAnd (EBin (CmpI CGt) (ELocI n_ds1) (EInt 0)) (EBin (CmpI CGt) (ELocI n_ds2) (EInt 0))) (EBin (CmpI CLt) (ELocI n_ds3) (EInt 0))) (EBin (CmpI CLt) (ELocI n_ds4) (EInt 0)))
(SReturnC (((((((ELocT n_two) *t (EMemT n_gs)) *t (EMemT n_gs)) *tc (EV n_s12s [])) *c (EV n_s12s [])) *c (EV n_a34a [])) *c (EV n_a34a [])))
((SIf (EAnd (EAnd (EAnd (EBin (CmpI CGt) (ELocI n_ds1) (EInt 0)) (EBin (CmpI CLt) (ELocI n_ds2) (EInt 0))) (EBin (CmpI CGt) (ELocI n_ds3) (EInt 0))) (EBin (CmpI CLt) (ELocI n_ds4) (EInt 0)))
(SReturnC (((((((ELocT n_two) *t (EMemT n_gs)) *t (EMemT n_gs)) *tc (EV n_s13s [])) *c (EV n_s13s [])) *c (EV n_a24a [])) *c (EV n_a24a [])))
((SIf (EAnd (EAnd (EAnd (EBin (CmpI CGt) (ELocI n_ds1) (EInt 0)) (EBin (CmpI CLt) (ELocI n_ds2) (EInt 0))) (EBin (CmpI CLt) (ELocI n_ds3) (EInt 0))) (EBin (CmpI CGt) (ELocI n_ds4) (EInt 0)))
(SReturnC (((((((ELocT n_two) *t (EMemT n_gs)) *t (EMemT n_gs)) *tc (EV n_s41s [])) *c (EV n_s41s [])) *c (EV n_a23a [])) *c (EV n_a23a [])))
((SIf (EAnd (EAnd (EAnd (EBin (CmpI CLt) (ELocI n_ds1) (EInt 0)) (EBin (CmpI CGt) (ELocI n_ds2) (EInt 0))) (EBin (CmpI CGt) (ELocI n_ds3) (EInt 0))) (EBin (CmpI CLt) (ELocI n_ds4) (EInt 0)))
(SReturnC (((((((ELocT n_two) *t (EMemT n_gs)) *t (EMemT n_gs)) *tc (EV n_s23s [])) *c (EV n_s23s [])) *c (EV n_a41a [])) *c (EV n_a41a [])))
((SIf (EAnd (EAnd (EAnd (EBin (CmpI CLt) (ELocI n_ds1) (EInt 0)) (EBin (CmpI CGt) (ELocI n_ds2) (EInt 0))) (EBin (CmpI CLt) (ELocI n_ds3) (EInt 0))) (EBin (CmpI CGt) (ELocI n_ds4) (EInt 0)))
(SReturnC (((((((ELocT n_two) *t (EMemT n_gs)) *t (EMemT n_gs)) *tc (EV n_s24s [])) *c (EV n_s24s [])) *c (EV n_a13a [])) *c (EV n_a13a [])))
((SIf (EAnd (EAnd (EAnd (EBin (CmpI CLt) (ELocI n_ds1) (EInt 0)) (EBin (CmpI CLt) (ELocI n_ds2) (EInt 0))) (EBin (CmpI CGt) (ELocI n_ds3) (EInt 0))) (EBin (CmpI CGt) (ELocI n_ds4) (EInt 0)))
(SReturnC (((((((ELocT n_two) *t (EMemT n_gs)) *t (EMemT n_gs)) *tc (EV n_s34s [])) *c (EV n_s34s [])) *c (EV n_a12a [])) *c (EV n_a12a [])))
((SIf (EOr (EOr (EOr (EAnd (EAnd (EAnd (EBin (CmpI CGt) (ELocI n_ds1) (EInt 0)) (EBin (CmpI CLt) (ELocI n_ds2) (EInt 0))) (EBin (CmpI CLt) (ELocI n_ds3) (EInt 0))) (EBin (CmpI CLt) (ELocI n_ds4) (EInt 0))) (EAnd (EAnd (EAnd (EBin (CmpI CLt) (ELocI n_ds1) (EInt 0)) (EBin (CmpI CGt) (ELocI n_ds2) (EInt 0))) (EBin (CmpI CLt) (ELocI n_ds3) (EInt 0))) (EBin (CmpI CLt) (ELocI n_ds4) (EInt 0)))) (EAnd (EAnd (EAnd (EBin (CmpI CLt) (ELocI n_ds1) (EInt 0)) (EBin (CmpI CLt) (ELocI n_ds2) (EInt 0))) (EBin (CmpI CGt) (ELocI n_ds3) (EInt 0))) (EBin (CmpI CLt) (ELocI n_ds4) (EInt 0)))) (EAnd (EAnd (EAnd (EBin (CmpI CLt) (ELocI n_ds1) (EInt 0)) (EBin (CmpI CLt) (ELocI n_ds2) (EInt 0))) (EBin (CmpI CLt) (ELocI n_ds3) (EInt 0))) (EBin (CmpI CGt) (ELocI n_ds4) (EInt 0))))
(SReturnC (ELocC n_zero))
((SIf (EAnd (EAnd (EAnd (EBin (CmpI CLt) (ELocI n_ds1) (EInt 0)) (EBin (CmpI CLt) (ELocI n_ds2) (EInt 0))) (EBin (CmpI CLt) (ELocI n_ds3) (EInt 0))) (EBin (CmpI CLt) (ELocI n_ds4) (EInt 0)))
(SReturnC (ELocC n_zero))
(SSkip))))))))))))))))))));,
SThrow HelicityMissing).
(** gggg::amp2_Feynman: SM/gggg.cpp 177-182 *)
Definition gggg_amp2_Feynman : meth := mkMeth n_amp2_Feynman []
(SLoc rT n_pre (((((EUn D2T ((ELit (9 # 1)) /d (ELit (4 # 1)))) *t (EMemT n_gs)) *t (EMemT n_gs)) *t (EMemT n_gs)) *t (EMemT n_gs));,
SLoc rT n_three (EUn D2T (ELit (3 # 1)));,
SLoc rC n_M2 (EUn T2C ((ELocT n_pre) *t ((((ELocT n_three) -t ((((EMemT n_pDenT) *t (EMemT n_pDenU)) /t (EMemT n_pDenS)) /t (EMemT n_pDenS))) -t ((((EMemT n_pDenS) *t (EMemT n_pDenU)) /t (EMemT n_pDenT)) /t (EMemT n_pDenT))) -t ((((EMemT n_pDenS) *t (EMemT n_pDenT)) /t (EMemT n_pDenU)) /t (EMemT n_pDenU)))));,
SReturnT (EUn AbsC (ELocC n_M2))).
(** gggg::amp2: SM/gggg.cpp 189-206 *)
Definition gggg_amp2 : meth := mkMeth n_amp2 []
(SLoc rT n_amp2 (EUn I2T (EInt 0));,
SDecl rC n_M;,
(SFor n_j1 (EUn NegI (EInt 2)) (EBin (CmpI CLe) (ELocI n_j1) (EInt 2)) (EBin (OpI IAdd) (ELocI n_j1) (EInt 4))
(SFor n_j2 (EUn NegI (EInt 2)) (EBin (CmpI CLe) (ELocI n_j2) (EInt 2)) (EBin (OpI IAdd) (ELocI n_j2) (EInt 4))
(SFor n_j3 (EUn NegI (EInt 2)) (EBin (CmpI CLe) (ELocI n_j3) (EInt 2)) (EBin (OpI IAdd) (ELocI n_j3) (EInt 4))
(SFor n_j4 (EUn NegI (EInt 2)) (EBin (CmpI CLe) (ELocI n_j4) (EInt 2)) (EBin (OpI IAdd) (ELocI n_j4) (EInt 4))
(SLoc rC n_M (ECall n_amp [(AVar n_j1); (AVar n_j2); (AVar n_j3); (AVar n_j4)]);,
SLoc rT n_amp2 ((ELocT n_amp2) +t ((EUn Pow2T (EUn AbsC (ELocC n_M))) *t ((((EUn D2T (ELit (36 # 1))) /t (EUn Pow2T ((EMemT n_pDenS) *t (EMemT n_pDenT)))) +t ((EUn D2T (ELit (36 # 1))) /t (EUn Pow2T ((EMemT n_pDenS) *t (EMemT n_pDenU))))) +t ((EUn D2T (ELit (36 # 1))) /t (EUn Pow2T ((EMemT n_pDenT) *t (EMemT n_pDenU))))))))))));,
SReturnT ((ELocT n_amp2) /t (EUn D2T (ELit (512 # 1))))).
(** gggg::amp2_gplus_gplus: SM/gggg.cpp 208-222 *)
Definition gggg_amp2_gplus_gplus : meth := mkMeth n_amp2_gplus_gplus []
(SLoc rT n_amp2 (EUn I2T (EInt 0));,
SDecl rC n_M;,
(SFor n_j3 (EUn NegI (EInt 2)) (EBin (CmpI CLe) (ELocI n_j3) (EInt 2)) (EBin (OpI IAdd) (ELocI n_j3) (EInt 4))
(SFor n_j4 (EUn NegI (EInt 2)) (EBin (CmpI CLe) (ELocI n_j4) (EInt 2)) (EBin (OpI IAdd) (ELocI n_j4) (EInt 4))
(SLoc rC n_M (ECall n_amp [(ALit 2); (ALit 2); (AVar n_j3); (AVar n_j4)]);,
SLoc rT n_amp2 ((ELocT n_amp2) +t ((EUn Pow2T (EUn AbsC (ELocC n_M))) *t ((((EUn D2T (ELit (36 # 1))) /t (EUn Pow2T ((EMemT n_pDenS) *t (EMemT n_pDenT)))) +t ((EUn D2T (ELit (36 # 1))) /t (EUn Pow2T ((EMemT n_pDenS) *t (EMemT n_pDenU))))) +t ((EUn D2T (ELit (36 # 1))) /t (EUn Pow2T ((EMemT n_pDenT) *t (EMemT n_pDenU))))))))));,
SReturnT ((ELocT n_amp2) /t (EUn D2T (ELit (128 # 1))))).
(** gggg::amp2_gplus_gminus: SM/gggg.cpp 224-238 *)
Definition gggg_amp2_gplus_gminus : meth := mkMeth n_amp2_gplus_gminus []
(SLoc rT n_amp2 (EUn I2T (EInt 0));,
SDecl rC n_M;,
(SFor n_j3 (EUn NegI (EInt 2)) (EBin (CmpI CLe) (ELocI n_j3) (EInt 2)) (EBin (OpI IAdd) (ELocI n_j3) (EInt 4))
(SFor n_j4 (EUn NegI (EInt 2)) (EBin (CmpI CLe) (ELocI n_j4) (EInt 2)) (EBin (OpI IAdd) (ELocI n_j4) (EInt 4))
(SLoc rC n_M (ECall n_amp [(ALit 2); (ALit (-2)); (AVar n_j3); (AVar n_j4)]);,
SLoc rT n_amp2 ((ELocT n_amp2) +t ((EUn Pow2T (EUn AbsC (ELocC n_M))) *t ((((EUn D2T (ELit (36 # 1))) /t (EUn Pow2T ((EMemT n_pDenS) *t (EMemT n_pDenT)))) +t ((EUn D2T (ELit (36 # 1))) /t (EUn Pow2T ((EMemT n_pDenS) *t (EMemT n_pDenU))))) +t ((EUn D2T (ELit (36 # 1))) /t (EUn Pow2T ((EMemT n_pDenT) *t (EMemT n_pDenU))))))))));,
SReturnT ((ELocT n_amp2) /t (EUn D2T (ELit (128 # 1))))).
(** gggg::amp2_gminus_gplus: SM/gggg.cpp 240-254 *)
Definition gggg_amp2_gminus_gplus : meth := mkMeth n_amp2_gminus_gplus []
(SLoc rT n_amp2 (EUn I2T (EInt 0));,
SDecl rC n_M;,
(SFor n_j3 (EUn NegI (EInt 2)) (EBin (CmpI CLe) (ELocI n_j3) (EInt 2)) (EBin (OpI IAdd) (ELocI n_j3) (EInt 4))
(SFor n_j4 (EUn NegI (EInt 2)) (EBin (CmpI CLe) (ELocI n_j4) (EInt 2)) (EBin (OpI IAdd) (ELocI n_j4) (EInt 4))
(SLoc rC n_M (ECall n_amp [(ALit (-2)); (ALit 2); (AVar n_j3); (AVar n_j4)]);,
SLoc rT n_amp2 ((ELocT n_amp2) +t ((EUn Pow2T (EUn AbsC (ELocC n_M))) *t ((((EUn D2T (ELit (36 # 1))) /t (EUn Pow2T ((EMemT n_pDenS) *t (EMemT n_pDenT)))) +t ((EUn D2T (ELit (36 # 1))) /t (EUn Pow2T ((EMemT n_pDenS) *t (EMemT n_pDenU))))) +t ((EUn D2T (ELit (36 # 1))) /t (EUn Pow2T ((EMemT n_pDenT) *t (EMemT n_pDenU))))))))));,
SReturnT ((ELocT n_amp2) /t (EUn D2T (ELit (128 # 1))))).
(** gggg::amp2_gminus_gminus: SM/gggg.cpp 256-270 *)
Definition gggg_amp2_gminus_gminus : meth := mkMeth n_amp2_gminus_gminus []
(SLoc rT n_amp2 (EUn I2T (EInt 0));,
SDecl rC n_M;,
(SFor n_j3 (EUn NegI (EInt 2)) (EBin (CmpI CLe) (ELocI n_j3) (EInt 2)) (EBin (OpI IAdd) (ELocI n_j3) (EInt 4))
(SFor n_j4 (EUn NegI (EInt 2)) (EBin (CmpI CLe) (ELocI n_j4) (EInt 2)) (EBin (OpI IAdd) (ELocI n_j4) (EInt 4))
(SLoc rC n_M (ECall n_amp [(ALit (-2)); (ALit (-2)); (AVar n_j3); (AVar n_j4)]);,
SLoc rT n_amp2 ((ELocT n_amp2) +t ((EUn Pow2T (EUn AbsC (ELocC n_M))) *t ((((EUn D2T (ELit (36 # 1))) /t (EUn Pow2T ((EMemT n_pDenS) *t (EMemT n_pDenT)))) +t ((EUn D2T (ELit (36 # 1))) /t (EUn Pow2T ((EMemT n_pDenS) *t (EMemT n_pDenU))))) +t ((EUn D2T (ELit (36 # 1))) /t (EUn Pow2T ((EMemT n_pDenT) *t (EMemT n_pDenU))))))))));,
SReturnT ((ELocT n_amp2) /t (EUn D2T (ELit (128 # 1))))).
(** members: SM/include/gggg.h 26-32; initialisers: SM/gggg.cpp 32-33 *)
Definition gggg : cls := mkCls "gggg"
[(n_gs, KT);
(n_p1, (KPart 0));
(n_p2, (KPart 1));
(n_p3, (KPart 2));
(n_p4, (KPart 3));
(n_s12s, KSprod);
(n_a12a, KSprod);
(n_s13s, KSprod);
(n_a13a, KSprod);
(n_s41s, KSprod);
(n_a41a, KSprod);
(n_s24s, KSprod);
(n_a24a, KSprod);
(n_s23s, KSprod);
(n_a23a, KSprod);
(n_s34s, KSprod);
(n_a34a, KSprod);
(n_s1432s, KSprod);
(n_a1432a, KSprod);
(n_s3214s, KSprod);
(n_a3214a, KSprod);
(n_a3124a, KSprod);
(n_prop, KProp);
(n_pDenS, KT);
(n_pDenT, KT);
(n_pDenU, KT)]
[n_gcharge]
[(n_gs, NT (ELocT n_gcharge));
(n_prop, NProp0)]
gggg_ctor
[gggg_set_momenta; gggg_amp; gggg_amp2_Feynman; gggg_amp2; gggg_amp2_gplus_gplus; gggg_amp2_gplus_gminus; gggg_amp2_gminus_gplus; gggg_amp2_gminus_gminus].

Definition SM07_classes : list cls := [enWh; enZW; enenee; enmenm; gAdd; gAuu; gWud; gZdd; gZuu; gdZd; ggdd; gggg].
