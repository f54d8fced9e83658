(** Generated by tools/translate.py from SM/menn.cpp ... SM/nnZh.cpp.  Do not edit. *)
From Coq Require Import QArith String.
From Verif Require Import Base Scalar Particle Sproduct Lang SMSyntax SMNames.
Local Open Scope sm_scope.
Local Open Scope string_scope.

(** menn::menn: SM/menn.cpp 32-41 *)
Definition menn_ctor : stmt :=
SSkip.
(** menn::set_masses: SM/menn.cpp 42-51 *)
Definition menn_set_masses : meth := mkMeth n_set_masses [(n_masse, PkT); (n_massmu, PkT); (n_massW, PkT)]
(SMemT n_me (ELocT n_masse);,
SMemT n_mm (ELocT n_massmu);,
SMemT n_MW (ELocT n_massW);,
SSetMass 0 (EMemT n_mm);,
SSetMass 1 (EMemT n_me);,
SSetMass 2 (EUn I2T (EInt 0));,
SSetMass 3 (EUn I2T (EInt 0));,
SPropMass n_prop (ELocT n_massW)).
(** menn::set_momenta: SM/menn.cpp 52-67 *)
Definition menn_set_momenta : meth := mkMeth n_set_momenta [(n_mom1, PkMom); (n_mom2, PkMom); (n_mom3, PkMom); (n_mom4, PkMom)]
(SSetMomentum 0 n_mom1;,
SSetMomentum 1 n_mom2;,
SSetMomentum 2 n_mom3;,
SSetMomentum 3 n_mom4;,
SUpdate n_s24s;,
SUpdate n_a13a;,
SUpdate n_s14s;,
SUpdate n_a23a;,
SDeclT n_propP 4;,
(SFor n_j (EInt 0) (EBin (CmpI CLt) (ELocI n_j) (EInt 4)) (EBin (OpI IAdd) (ELocI n_j) (EInt 1))
(SArrT n_propP (AVar n_j) ((EArrT n_mom1 (AVar n_j)) -t (EArrT n_mom4 (AVar n_j)))));,
SMemC n_pDenU (EDen n_prop n_propP)).
(** menn::amp: SM/menn.cpp 72-77 *)
Definition menn_amp : meth := mkMeth n_amp [(n_ds1, PkI); (n_ds2, PkI)]
(SReturnC (((((((EMemT n_e) *t (EMemT n_e)) /t (EUn D2T (ELit (2 # 1)))) /t (EMemT n_SW)) /t (EMemT n_SW)) *tc ((((((EUn D2T (ELit (2 # 1))) *t (EMemT n_MW)) *t (EMemT n_MW)) *tc (EV n_s24s [(AVar n_ds2)])) *c (EV n_a13a [(AVar n_ds1)])) +c ((((EMemT n_mm) *t (EMemT n_me)) *tc (EV n_s14s [(AVar n_ds1)])) *c (EV n_a23a [(AVar n_ds2)])))) /c (((EMemT n_MW) *t (EMemT n_MW)) *tc (EMemC n_pDenU)))).
(** menn::amp2: SM/menn.cpp 80-92 *)
Definition menn_amp2 : meth := mkMeth n_amp2 []
(SLoc rT n_amp2 (EUn I2T (EInt 0));,
SDecl rC n_M;,
(SFor n_j1 (EUn NegI (EInt 1)) (EBin (CmpI CLe) (ELocI n_j1) (EInt 1)) (EBin (OpI IAdd) (ELocI n_j1) (EInt 2))
(SFor n_j2 (EUn NegI (EInt 1)) (EBin (CmpI CLe) (ELocI n_j2) (EInt 1)) (EBin (OpI IAdd) (ELocI n_j2) (EInt 2))
(SLoc rC n_M (ECall n_amp [(AVar n_j1); (AVar n_j2)]);,
SLoc rT n_amp2 ((ELocT n_amp2) +t (EUn Pow2T (EUn AbsC (ELocC n_M)))))));,
SReturnT ((ELocT n_amp2) /t (EUn D2T (ELit (4 # 1))))).
(** members: SM/include/menn.h 26-31; initialisers: SM/menn.cpp 32-40 *)
Definition menn : cls := mkCls "menn"
[(n_e, KT);
(n_me, KT);
(n_mm, KT);
(n_MW, KT);
(n_WW, KT);
(n_SW, KT);
(n_p1, (KPart 0));
(n_p2, (KPart 1));
(n_p3, (KPart 2));
(n_p4, (KPart 3));
(n_prop, KProp);
(n_pDenU, KC);
(n_s24s, KSprod);
(n_a13a, KSprod);
(n_s14s, KSprod);
(n_a23a, KSprod)]
[n_echarge; n_masse; n_massmu; n_massW; n_widthW; n_sinW]
[(n_e, NT (ELocT n_echarge));
(n_me, NT (ELocT n_masse));
(n_mm, NT (ELocT n_massmu));
(n_MW, NT (ELocT n_massW));
(n_WW, NT (ELocT n_widthW));
(n_SW, NT (ELocT n_sinW));
(n_prop, NProp (ELocT n_massW) (ELocT n_widthW));
(n_p1, NPart (EMemT n_mm));
(n_p2, NPart (EMemT n_me));
(n_p3, NPart (EUn I2T (EInt 0)));
(n_p4, NPart (EUn I2T (EInt 0)));
(n_s24s, NSprod false 1 [] 3);
(n_a13a, NSprod true 0 [] 2);
(n_s14s, NSprod false 0 [] 3);
(n_a23a, NSprod true 1 [] 2)]
menn_ctor
[menn_set_masses; menn_set_momenta; menn_amp; menn_amp2].

(** mnen::mnen: SM/mnen.cpp 32-43 *)
Definition mnen_ctor : stmt :=
SMemT n_preW (((EMemT n_e) *t (EMemT n_e)) /t (((((EUn D2T (ELit (4 # 1))) *t (EMemT n_MW)) *t (EMemT n_MW)) *t (EMemT n_SW)) *t (EMemT n_SW))).
(** mnen::set_masses: SM/mnen.cpp 44-52 *)
Definition mnen_set_masses : meth := mkMeth n_set_masses [(n_masse, PkT); (n_massmu, PkT); (n_massW, PkT)]
(SMemT n_me (ELocT n_masse);,
SMemT n_mm (ELocT n_massmu);,
SMemT n_MW (ELocT n_massW);,
SSetMass 0 (EMemT n_mm);,
SSetMass 2 (EMemT n_me);,
SPropMass n_prop (ELocT n_massW);,
SMemT n_preW (((EMemT n_e) *t (EMemT n_e)) /t (((((EUn D2T (ELit (4 # 1))) *t (EMemT n_MW)) *t (EMemT n_MW)) *t (EMemT n_SW)) *t (EMemT n_SW)))).
(** mnen::set_momenta: SM/mnen.cpp 53-68 *)
Definition mnen_set_momenta : meth := mkMeth n_set_momenta [(n_mom1, PkMom); (n_mom2, PkMom); (n_mom3, PkMom); (n_mom4, PkMom)]
(SSetMomentum 0 n_mom1;,
SSetMomentum 1 n_mom2;,
SSetMomentum 2 n_mom3;,
SSetMomentum 3 n_mom4;,
SUpdate n_s34s;,
SUpdate n_a12a;,
SUpdate n_s14s;,
SUpdate n_a23a;,
SDeclT n_propP 4;,
(SFor n_j (EInt 0) (EBin (CmpI CLt) (ELocI n_j) (EInt 4)) (EBin (OpI IAdd) (ELocI n_j) (EInt 1))
(SArrT n_propP (AVar n_j) ((EArrT n_mom1 (AVar n_j)) -t (EArrT n_mom4 (AVar n_j)))));,
SMemC n_pDenU (EDen n_prop n_propP)).
(** mnen::amp: SM/mnen.cpp 73-85 *)
Definition mnen_amp : meth := mkMeth n_amp [(n_ds1, PkI); (n_ds3, PkI)]
(SReturnC ((((EUn NegT (EMemT n_preW)) *t (EUn D2T (ELit (2 # 1)))) *tc ((((((EUn D2T (ELit (2 # 1))) *t (EMemT n_MW)) *t (EMemT n_MW)) *tc (EV n_s34s [(AVar n_ds3)])) *c (EV n_a12a [(AVar n_ds1)])) +c ((((EMemT n_mm) *t (EMemT n_me)) *tc (EV n_s14s [(AVar n_ds1)])) *c (EV n_a23a [(AVar n_ds3)])))) /c (EMemC n_pDenU))).
(** mnen::amp2: SM/mnen.cpp 88-100 *)
Definition mnen_amp2 : meth := mkMeth n_amp2 []
(SLoc rT n_amp2 (EUn I2T (EInt 0));,
SDecl rC n_M;,
(SFor n_j1 (EUn NegI (EInt 1)) (EBin (CmpI CLe) (ELocI n_j1) (EInt 1)) (EBin (OpI IAdd) (ELocI n_j1) (EInt 2))
(SFor n_j2 (EUn NegI (EInt 1)) (EBin (CmpI CLe) (ELocI n_j2) (EInt 1)) (EBin (OpI IAdd) (ELocI n_j2) (EInt 2))
(SLoc rC n_M (ECall n_amp [(AVar n_j1); (AVar n_j2)]);,
SLoc rT n_amp2 ((ELocT n_amp2) +t (EUn Pow2T (EUn AbsC (ELocC n_M)))))));,
SReturnT ((ELocT n_amp2) /t (EUn D2T (ELit (2 # 1))))).
(** members: SM/include/mnen.h 26-32; initialisers: SM/mnen.cpp 32-40 *)
Definition mnen : cls := mkCls "mnen"
[(n_e, KT);
(n_me, KT);
(n_mm, KT);
(n_MW, KT);
(n_WW, KT);
(n_SW, KT);
(n_preW, KT);
(n_p1, (KPart 0));
(n_p2, (KPart 1));
(n_p3, (KPart 2));
(n_p4, (KPart 3));
(n_prop, KProp);
(n_pDenU, KC);
(n_s34s, KSprod);
(n_a12a, KSprod);
(n_s14s, KSprod);
(n_a23a, KSprod)]
[n_echarge; n_masse; n_massmu; n_massW; n_widthW; n_sinW]
[(n_e, NT (ELocT n_echarge));
(n_me, NT (ELocT n_masse));
(n_mm, NT (ELocT n_massmu));
(n_MW, NT (ELocT n_massW));
(n_WW, NT (ELocT n_widthW));
(n_SW, NT (ELocT n_sinW));
(n_prop, NProp (ELocT n_massW) (ELocT n_widthW));
(n_p1, NPart (EMemT n_mm));
(n_p2, NPart (EUn I2T (EInt 0)));
(n_p3, NPart (EMemT n_me));
(n_p4, NPart (EUn I2T (EInt 0)));
(n_s34s, NSprod false 2 [] 3);
(n_a12a, NSprod true 0 [] 1);
(n_s14s, NSprod false 0 [] 3);
(n_a23a, NSprod true 1 [] 2)]
mnen_ctor
[mnen_set_masses; mnen_set_momenta; mnen_amp; mnen_amp2].

(** nWWn::nWWn: SM/nWWn.cpp 32-55 *)
Definition nWWn_ctor : stmt :=
(SLoc rT n_two (EUn I2T (EInt 2));,
SMemT n_sqrt2 (EUn SqrtT (ELocT n_two));,
SMemT n_MZ ((EMemT n_MW) /t (EMemT n_CW));,
SPropNew n_propZ (EMemT n_MZ) (EMemT n_WZ);,
SParticle 0 (EUn I2T (EInt 0));,
SParticle 1 (EMemT n_MW);,
SParticle 2 (EMemT n_MW);,
SParticle 3 (EUn I2T (EInt 0));,
SSprod n_s34s false 2 [] 3;,
SSprod n_a13a true 0 [] 2;,
SSprod n_s23s false 1 [] 2;,
SSprod n_a23a true 1 [] 2;,
SSprod n_s24s false 1 [] 3;,
SSprod n_a12a true 0 [] 1;,
SSprod n_s312a false 2 [0] 1;,
SSprod n_s431a false 3 [2] 0;,
SMemT n_pree ((((EUn D2T (ELit (2 # 1))) *t (EMemT n_e)) *t (EMemT n_e)) /t (((((EUn D2T (ELit (2 # 1))) *t (EMemT n_MW)) *t (EMemT n_MW)) *t (EMemT n_SW)) *t (EMemT n_SW)));,
SMemT n_preZ ((((EUn D2T (ELit (2 # 1))) *t (EMemT n_e)) *t (EMemT n_e)) /t (((((EUn D2T (ELit (2 # 1))) *t (EMemT n_MW)) *t (EMemT n_MW)) *t (EMemT n_SW)) *t (EMemT n_SW)))).
(** nWWn::set_masses: SM/nWWn.cpp 56-67 *)
Definition nWWn_set_masses : meth := mkMeth n_set_masses [(n_masse, PkT); (n_massW, PkT)]
(SMemT n_me (ELocT n_masse);,
SPropMass n_prope (EMemT n_me);,
SMemT n_MW (ELocT n_massW);,
SMemT n_MZ ((EMemT n_MW) /t (EMemT n_CW));,
SSetMass 1 (EMemT n_MW);,
SSetMass 2 (EMemT n_MW);,
SPropMass n_propZ (EMemT n_MZ);,
SMemT n_pree ((((EUn D2T (ELit (2 # 1))) *t (EMemT n_e)) *t (EMemT n_e)) /t (((((EUn D2T (ELit (2 # 1))) *t (EMemT n_MW)) *t (EMemT n_MW)) *t (EMemT n_SW)) *t (EMemT n_SW)));,
SMemT n_preZ ((((EUn D2T (ELit (2 # 1))) *t (EMemT n_e)) *t (EMemT n_e)) /t (((((EUn D2T (ELit (2 # 1))) *t (EMemT n_MW)) *t (EMemT n_MW)) *t (EMemT n_SW)) *t (EMemT n_SW)))).
(** nWWn::set_momenta: SM/nWWn.cpp 68-92 *)
Definition nWWn_set_momenta : meth := mkMeth n_set_momenta [(n_mom1, PkMom); (n_mom2, PkMom); (n_mom3, PkMom); (n_mom4, PkMom)]
(SSetMomentum 0 n_mom1;,
SSetMomentum 1 n_mom2;,
SSetMomentum 2 n_mom3;,
SSetMomentum 3 n_mom4;,
SUpdate n_s34s;,
SUpdate n_a13a;,
SUpdate n_s23s;,
SUpdate n_a23a;,
SUpdate n_s24s;,
SUpdate n_a12a;,
SUpdate n_s312a;,
SUpdate n_s431a;,
SDeclT n_propUP 4;,
SDeclT n_propTP 4;,
(SFor n_j (EInt 0) (EBin (CmpI CLt) (ELocI n_j) (EInt 4)) (EBin (OpI IAdd) (ELocI n_j) (EInt 1))
(SArrT n_propUP (AVar n_j) ((EArrT n_mom1 (AVar n_j)) -t (EArrT n_mom4 (AVar n_j)));,
SArrT n_propTP (AVar n_j) ((EArrT n_mom1 (AVar n_j)) -t (EArrT n_mom3 (AVar n_j)))));,
SMemC n_pDeneT (EDen n_prope n_propTP);,
SMemC n_pDenZU (EDen n_propZ n_propUP)).
(** nWWn::amp: SM/nWWn.cpp 97-136 *)
Definition nWWn_amp : meth := mkMeth n_amp [(n_ds3, PkI); (n_ds2, PkI)]
(SLoc rC n_amplitude (EBin OpTTC (EUn I2T (EInt 0)) (EUn I2T (EInt 0)));,
SDecl rI n_ds3a;,
SDecl rI n_ds3b;,
SDecl rI n_ds2a;,
SDecl rI n_ds2b;,
SLoc rT n_two (EUn I2T (EInt 2));,
SLoc rI n_nCombs (ENLoops [(AVar n_ds3); (AVar n_ds2)]);,
SLoc rT n_normFactor (ENorm [(AVar n_ds3); (AVar n_ds2)]);,
(SFor n_i (EInt 0) (EBin (CmpI CLt) (ELocI n_i) (ELocI n_nCombs)) (EBin (OpI IAdd) (ELocI n_i) (EInt 1))
(SSpins [(n_ds3, n_ds3a, n_ds3b); (n_ds2, n_ds2a, n_ds2b)] (AVar n_i);,
SLoc rC n_amplitude ((ELocC n_amplitude) +c ((((((EUn NegT (ELocT n_normFactor)) *t (EMemT n_pree)) *tc (EV n_s24s [(AVar n_ds2a)])) *c (EV n_a13a [(AVar n_ds3a)])) *c (((EMemT n_MW) *tc (EV n_a23a [(AVar n_ds2b); (AVar n_ds3b)])) +c (EV n_s312a [(AVar n_ds3b); (AVar n_ds2b)]))) /c (EMemC n_pDeneT)));,
SLoc rC n_amplitude ((ELocC n_amplitude) +c ((((EUn NegT (ELocT n_normFactor)) *t (EMemT n_preZ)) *tc ((((EV n_s23s [(AVar n_ds2a); (AVar n_ds3a)]) *c (EV n_a23a [(AVar n_ds2b); (AVar n_ds3b)])) *c (EV n_s431a [])) +c (((EMemT n_MW) *tc ((EV n_s23s [(AVar n_ds2a); (AVar n_ds3a)]) -c (EV n_a23a [(AVar n_ds2a); (AVar n_ds3a)]))) *c (((EV n_s34s [(AVar n_ds3b)]) *c (EV n_a12a [(AVar n_ds2b)])) -c ((EV n_s24s [(AVar n_ds2b)]) *c (EV n_a13a [(AVar n_ds3b)])))))) /c (EMemC n_pDenZU)))));,
SReturnC (ELocC n_amplitude)).
(** nWWn::amp2: SM/nWWn.cpp 139-151 *)
Definition nWWn_amp2 : meth := mkMeth n_amp2 []
(SLoc rT n_amp2 (EUn I2T (EInt 0));,
SDecl rC n_M;,
(SFor n_j2 (EUn NegI (EInt 2)) (EBin (CmpI CLe) (ELocI n_j2) (EInt 2)) (EBin (OpI IAdd) (ELocI n_j2) (EInt 2))
(SFor n_j3 (EUn NegI (EInt 2)) (EBin (CmpI CLe) (ELocI n_j3) (EInt 2)) (EBin (OpI IAdd) (ELocI n_j3) (EInt 2))
(SLoc rC n_M (ECall n_amp [(AVar n_j2); (AVar n_j3)]);,
SLoc rT n_amp2 ((ELocT n_amp2) +t (EUn Pow2T (EUn AbsC (ELocC n_M)))))));,
SReturnT ((ELocT n_amp2) /t (EUn D2T (ELit (3 # 1))))).
(** members: SM/include/nWWn.h 26-36; initialisers: SM/nWWn.cpp 32-33 *)
Definition nWWn : cls := mkCls "nWWn"
[(n_e, KT);
(n_me, KT);
(n_MW, KT);
(n_SW, KT);
(n_CW, KT);
(n_MZ, KT);
(n_WZ, KT);
(n_p1, (KPart 0));
(n_p2, (KPart 1));
(n_p3, (KPart 2));
(n_p4, (KPart 3));
(n_prope, KProp);
(n_propZ, KProp);
(n_pDeneT, KC);
(n_pDenZU, KC);
(n_s34s, KSprod);
(n_a13a, KSprod);
(n_s23s, KSprod);
(n_a23a, KSprod);
(n_s24s, KSprod);
(n_a12a, KSprod);
(n_s312a, KSprod);
(n_s431a, KSprod);
(n_sqrt2, KT);
(n_pree, KT);
(n_preZ, KT)]
[n_echarge; n_masse; n_massW; n_sinW; n_widthZ]
[(n_e, NT (ELocT n_echarge));
(n_me, NT (ELocT n_masse));
(n_MW, NT (ELocT n_massW));
(n_SW, NT (ELocT n_sinW));
(n_CW, NT (EUn SqrtT ((EUn D2T (ELit (1 # 1))) -t ((ELocT n_sinW) *t (ELocT n_sinW)))));
(n_MZ, NT ((ELocT n_massW) /t (EMemT n_CW)));
(n_WZ, NT (ELocT n_widthZ));
(n_prope, NProp (EUn I2T (EInt 0)) (EUn I2T (EInt 0)))]
nWWn_ctor
[nWWn_set_masses; nWWn_set_momenta; nWWn_amp; nWWn_amp2].

(** nZZn::nZZn: SM/nZZn.cpp 32-52 *)
Definition nZZn_ctor : stmt :=
(SLoc rT n_two (EUn I2T (EInt 2));,
SMemT n_sqrt2 (EUn SqrtT (ELocT n_two));,
SMemT n_MZ ((EMemT n_MW) /t (EMemT n_CW));,
SParticle 0 (EUn I2T (EInt 0));,
SParticle 1 (EMemT n_MZ);,
SParticle 2 (EMemT n_MZ);,
SParticle 3 (EUn I2T (EInt 0));,
SSprod n_s34s false 2 [] 3;,
SSprod n_s24s false 1 [] 3;,
SSprod n_a13a true 0 [] 2;,
SSprod n_a12a true 0 [] 1;,
SSprod n_a23a true 1 [] 2;,
SSprod n_s312a false 2 [0] 1;,
SSprod n_s213a false 1 [0] 2;,
SMemT n_preTU (((EMemT n_e) *t (EMemT n_e)) /t (((((EUn D2T (ELit (2 # 1))) *t (EMemT n_MW)) *t (EMemT n_MW)) *t (EMemT n_SW)) *t (EMemT n_SW)))).
(** nZZn::set_masses: SM/nZZn.cpp 53-60 *)
Definition nZZn_set_masses : meth := mkMeth n_set_masses [(n_massW, PkT)]
(SMemT n_MW (ELocT n_massW);,
SMemT n_MZ ((EMemT n_MW) /t (EMemT n_CW));,
SSetMass 1 (EMemT n_MZ);,
SSetMass 2 (EMemT n_MZ);,
SMemT n_preTU (((EMemT n_e) *t (EMemT n_e)) /t (((((EUn D2T (ELit (2 # 1))) *t (EMemT n_MW)) *t (EMemT n_MW)) *t (EMemT n_SW)) *t (EMemT n_SW)))).
(** nZZn::set_momenta: SM/nZZn.cpp 61-84 *)
Definition nZZn_set_momenta : meth := mkMeth n_set_momenta [(n_mom1, PkMom); (n_mom2, PkMom); (n_mom3, PkMom); (n_mom4, PkMom)]
(SSetMomentum 0 n_mom1;,
SSetMomentum 1 n_mom2;,
SSetMomentum 2 n_mom3;,
SSetMomentum 3 n_mom4;,
SUpdate n_s34s;,
SUpdate n_s24s;,
SUpdate n_a13a;,
SUpdate n_a12a;,
SUpdate n_a23a;,
SUpdate n_s312a;,
SUpdate n_s213a;,
SDeclT n_propTP 4;,
SDeclT n_propSP 4;,
(SFor n_j (EInt 0) (EBin (CmpI CLt) (ELocI n_j) (EInt 4)) (EBin (OpI IAdd) (ELocI n_j) (EInt 1))
(SArrT n_propTP (AVar n_j) ((EArrT n_mom1 (AVar n_j)) -t (EArrT n_mom3 (AVar n_j)));,
SArrT n_propSP (AVar n_j) ((EArrT n_mom1 (AVar n_j)) +t (EArrT n_mom2 (AVar n_j)))));,
SMemC n_pDenT (EDen n_propne n_propTP);,
SMemC n_pDenS (EDen n_propne n_propSP)).
(** nZZn::amp: SM/nZZn.cpp 89-123 *)
Definition nZZn_amp : meth := mkMeth n_amp [(n_ds2, PkI); (n_ds3, PkI)]
(SLoc rC n_amplitude (EBin OpTTC (EUn I2T (EInt 0)) (EUn I2T (EInt 0)));,
SDecl rI n_ds2a;,
SDecl rI n_ds2b;,
SDecl rI n_ds3a;,
SDecl rI n_ds3b;,
SLoc rI n_nCombs (ENLoops [(AVar n_ds2); (AVar n_ds3)]);,
SLoc rT n_normFactor (ENorm [(AVar n_ds2); (AVar n_ds3)]);,
(SFor n_i (EInt 0) (EBin (CmpI CLt) (ELocI n_i) (ELocI n_nCombs)) (EBin (OpI IAdd) (ELocI n_i) (EInt 1))
(SSpins [(n_ds2, n_ds2a, n_ds2b); (n_ds3, n_ds3a, n_ds3b)] (AVar n_i);,
SLoc rC n_amplitude ((ELocC n_amplitude) +c ((((((EUn NegT (ELocT n_normFactor)) *t (EMemT n_preTU)) *tc (EV n_s24s [(AVar n_ds2a)])) *c (EV n_a13a [(AVar n_ds3a)])) *c (((EMemT n_MZ) *tc (EV n_a23a [(AVar n_ds2b); (AVar n_ds3b)])) +c (EV n_s312a [(AVar n_ds3b); (AVar n_ds2b)]))) /c (EMemC n_pDenT)));,
SLoc rC n_amplitude ((ELocC n_amplitude) +c ((((((EUn NegT (ELocT n_normFactor)) *t (EMemT n_preTU)) *tc (EV n_s34s [(AVar n_ds3a)])) *c (EV n_a12a [(AVar n_ds2a)])) *c (((EMemT n_MZ) *tc (EV n_a23a [(AVar n_ds2b); (AVar n_ds3b)])) +c (EV n_s213a [(AVar n_ds2b); (AVar n_ds3b)]))) /c (EMemC n_pDenS)))));,
SReturnC (ELocC n_amplitude)).
(** nZZn::amp2: SM/nZZn.cpp 126-138 *)
Definition nZZn_amp2 : meth := mkMeth n_amp2 []
(SLoc rT n_amp2 (EUn I2T (EInt 0));,
SDecl rC n_M;,
(SFor n_j2 (EUn NegI (EInt 2)) (EBin (CmpI CLe) (ELocI n_j2) (EInt 2)) (EBin (OpI IAdd) (ELocI n_j2) (EInt 2))
(SFor n_j3 (EUn NegI (EInt 2)) (EBin (CmpI CLe) (ELocI n_j3) (EInt 2)) (EBin (OpI IAdd) (ELocI n_j3) (EInt 2))
(SLoc rC n_M (ECall n_amp [(AVar n_j2); (AVar n_j3)]);,
SLoc rT n_amp2 ((ELocT n_amp2) +t (EUn Pow2T (EUn AbsC (ELocC n_M)))))));,
SReturnT ((ELocT n_amp2) /t (EUn D2T (ELit (3 # 1))))).
(** members: SM/include/nZZn.h 26-36; initialisers: SM/nZZn.cpp 32-33 *)
Definition nZZn : cls := mkCls "nZZn"
[(n_e, KT);
(n_MW, KT);
(n_SW, KT);
(n_CW, KT);
(n_MZ, KT);
(n_WZ, KT);
(n_p1, (KPart 0));
(n_p2, (KPart 1));
(n_p3, (KPart 2));
(n_p4, (KPart 3));
(n_propne, KProp);
(n_pDenT, KC);
(n_pDenS, KC);
(n_s34s, KSprod);
(n_s24s, KSprod);
(n_a13a, KSprod);
(n_a12a, KSprod);
(n_a23a, KSprod);
(n_s312a, KSprod);
(n_s213a, KSprod);
(n_sqrt2, KT);
(n_preTU, KT)]
[n_echarge; n_massW; n_sinW; n_widthZ]
[(n_e, NT (ELocT n_echarge));
(n_MW, NT (ELocT n_massW));
(n_SW, NT (ELocT n_sinW));
(n_CW, NT (EUn SqrtT ((EUn D2T (ELit (1 # 1))) -t ((ELocT n_sinW) *t (ELocT n_sinW)))));
(n_MZ, NT ((ELocT n_massW) /t (EMemT n_CW)));
(n_WZ, NT (ELocT n_widthZ));
(n_propne, NProp (EUn I2T (EInt 0)) (EUn I2T (EInt 0)))]
nZZn_ctor
[nZZn_set_masses; nZZn_set_momenta; nZZn_amp; nZZn_amp2].

(** nZnh::nZnh: SM/nZnh.cpp 32-47 *)
Definition nZnh_ctor : stmt :=
(SLoc rT n_two (EUn I2T (EInt 2));,
SMemT n_sqrt2 (EUn SqrtT (ELocT n_two));,
SMemT n_MZ ((EMemT n_MW) /t (EMemT n_CW));,
SPropNew n_propZ (EMemT n_MZ) (EMemT n_WZ);,
SParticle 0 (EUn I2T (EInt 0));,
SParticle 1 (EMemT n_MZ);,
SParticle 2 (EUn I2T (EInt 0));,
SParticle 3 (EMemT n_mh);,
SSprod n_s23s false 1 [] 2;,
SSprod n_a12a true 0 [] 1;,
SMemT n_preZ (((((EMemT n_sqrt2) *t (ELocT n_two)) *t (EMemT n_e)) *t (EMemT n_e)) /t (((((EUn D2T (ELit (4 # 1))) *t (EMemT n_CW)) *t (EMemT n_CW)) *t (EMemT n_SW)) *t (EMemT n_SW)))).
(** nZnh::set_masses: SM/nZnh.cpp 48-55 *)
Definition nZnh_set_masses : meth := mkMeth n_set_masses [(n_massh, PkT); (n_massW, PkT)]
(SMemT n_mh (ELocT n_massh);,
SMemT n_MW (ELocT n_massW);,
SMemT n_MZ ((EMemT n_MW) /t (EMemT n_CW));,
SSetMass 1 (EMemT n_MZ);,
SSetMass 3 (EMemT n_mh);,
SPropMass n_propZ (EMemT n_MZ)).
(** nZnh::set_momenta: SM/nZnh.cpp 56-70 *)
Definition nZnh_set_momenta : meth := mkMeth n_set_momenta [(n_mom1, PkMom); (n_mom2, PkMom); (n_mom3, PkMom); (n_mom4, PkMom)]
(SSetMomentum 0 n_mom1;,
SSetMomentum 1 n_mom2;,
SSetMomentum 2 n_mom3;,
SSetMomentum 3 n_mom4;,
SUpdate n_s23s;,
SUpdate n_a12a;,
SDeclT n_propTP 4;,
(SFor n_j (EInt 0) (EBin (CmpI CLt) (ELocI n_j) (EInt 4)) (EBin (OpI IAdd) (ELocI n_j) (EInt 1))
(SArrT n_propTP (AVar n_j) ((EArrT n_mom1 (AVar n_j)) -t (EArrT n_mom3 (AVar n_j)))));,
SMemC n_pDenT (EDen n_propZ n_propTP)).
(** nZnh::amp: SM/nZnh.cpp 75-98 *)
Definition nZnh_amp : meth := mkMeth n_amp [(n_ds2, PkI)]
(SLoc rC n_amplitude (EBin OpTTC (EUn I2T (EInt 0)) (EUn I2T (EInt 0)));,
SDecl rI n_ds2a;,
SDecl rI n_ds2b;,
SLoc rI n_nCombs (ENLoops [(AVar n_ds2)]);,
SLoc rT n_normFactor (ENorm [(AVar n_ds2)]);,
(SFor n_i (EInt 0) (EBin (CmpI CLt) (ELocI n_i) (ELocI n_nCombs)) (EBin (OpI IAdd) (ELocI n_i) (EInt 1))
(SSpins [(n_ds2, n_ds2a, n_ds2b)] (AVar n_i);,
SLoc rC n_amplitude ((ELocC n_amplitude) +c (((((EUn NegT (ELocT n_normFactor)) *t (EMemT n_preZ)) *tc (EV n_s23s [(AVar n_ds2a)])) *c (EV n_a12a [(AVar n_ds2b)])) /c (EMemC n_pDenT)))));,
SReturnC (ELocC n_amplitude)).
(** nZnh::amp2: SM/nZnh.cpp 101-112 *)
Definition nZnh_amp2 : meth := mkMeth n_amp2 []
(SLoc rT n_amp2 (EUn I2T (EInt 0));,
SDecl rC n_M;,
(SFor n_j2 (EUn NegI (EInt 2)) (EBin (CmpI CLe) (ELocI n_j2) (EInt 2)) (EBin (OpI IAdd) (ELocI n_j2) (EInt 2))
(SLoc rC n_M (ECall n_amp [(AVar n_j2)]);,
SLoc rT n_amp2 ((ELocT n_amp2) +t (EUn Pow2T (EUn AbsC (ELocC n_M))))));,
SReturnT ((ELocT n_amp2) /t (EUn D2T (ELit (3 # 1))))).
(** members: SM/include/nZnh.h 26-34; initialisers: SM/nZnh.cpp 32-33 *)
Definition nZnh : cls := mkCls "nZnh"
[(n_e, KT);
(n_mh, KT);
(n_MW, KT);
(n_SW, KT);
(n_CW, KT);
(n_MZ, KT);
(n_WZ, KT);
(n_p1, (KPart 0));
(n_p2, (KPart 1));
(n_p3, (KPart 2));
(n_p4, (KPart 3));
(n_propZ, KProp);
(n_pDenT, KC);
(n_s23s, KSprod);
(n_a12a, KSprod);
(n_sqrt2, KT);
(n_preZ, KT)]
[n_echarge; n_massh; n_massW; n_sinW; n_widthZ]
[(n_e, NT (ELocT n_echarge));
(n_mh, NT (ELocT n_massh));
(n_MW, NT (ELocT n_massW));
(n_SW, NT (ELocT n_sinW));
(n_CW, NT (EUn SqrtT ((EUn D2T (ELit (1 # 1))) -t ((ELocT n_sinW) *t (ELocT n_sinW)))));
(n_MZ, NT ((ELocT n_massW) /t (EMemT n_CW)));
(n_WZ, NT (ELocT n_widthZ))]
nZnh_ctor
[nZnh_set_masses; nZnh_set_momenta; nZnh_amp; nZnh_amp2].

(** nenenene::nenenene: SM/nenenene.cpp 32-43 *)
Definition nenenene_ctor : stmt :=
(SMemT n_MZ ((EMemT n_MW) /t (EMemT n_CW));,
SPropMass n_propZ (EMemT n_MZ);,
SMemT n_preZ (((EMemT n_e) *t (EMemT n_e)) /t (((((EUn D2T (ELit (4 # 1))) *t (EMemT n_CW)) *t (EMemT n_CW)) *t (EMemT n_SW)) *t (EMemT n_SW)))).
(** nenenene::set_masses: SM/nenenene.cpp 44-48 *)
Definition nenenene_set_masses : meth := mkMeth n_set_masses [(n_massW, PkT)]
(SMemT n_MW (ELocT n_massW);,
SMemT n_MZ ((EMemT n_MW) /t (EMemT n_CW));,
SPropMass n_propZ (EMemT n_MZ)).
(** nenenene::set_momenta: SM/nenenene.cpp 49-65 *)
Definition nenenene_set_momenta : meth := mkMeth n_set_momenta [(n_mom1, PkMom); (n_mom2, PkMom); (n_mom3, PkMom); (n_mom4, PkMom)]
(SSetMomentum 0 n_mom1;,
SSetMomentum 1 n_mom2;,
SSetMomentum 2 n_mom3;,
SSetMomentum 3 n_mom4;,
SUpdate n_a14a;,
SUpdate n_s23s;,
SDeclT n_propPS 4;,
SDeclT n_propPT 4;,
(SFor n_j (EInt 0) (EBin (CmpI CLt) (ELocI n_j) (EInt 4)) (EBin (OpI IAdd) (ELocI n_j) (EInt 1))
(SArrT n_propPS (AVar n_j) ((EArrT n_mom1 (AVar n_j)) +t (EArrT n_mom2 (AVar n_j)));,
SArrT n_propPT (AVar n_j) ((EArrT n_mom1 (AVar n_j)) -t (EArrT n_mom3 (AVar n_j)))));,
SMemC n_pDenSZ (EDen n_propZ n_propPS);,
SMemC n_pDenTZ (EDen n_propZ n_propPT)).
(** nenenene::amp: SM/nenenene.cpp 70-85 *)
Definition nenenene_amp : meth := mkMeth n_amp []
(SLoc rT n_one (EUn I2T (EInt 1));,
SLoc rT n_two (EUn I2T (EInt 2));,
SLoc rC n_amplitude (EBin OpTTC (EUn I2T (EInt 0)) (EUn I2T (EInt 0)));,
SLoc rC n_amplitude ((ELocC n_amplitude) +c (((((EUn NegT (ELocT n_two)) *t (EMemT n_preZ)) *tc (EV n_s23s [])) *c (EV n_a14a [])) *c (((ELocT n_one) /tc (EMemC n_pDenSZ)) +c ((ELocT n_one) /tc (EMemC n_pDenTZ)))));,
SReturnC (ELocC n_amplitude)).
(** nenenene::amp2: SM/nenenene.cpp 88-96 *)
Definition nenenene_amp2 : meth := mkMeth n_amp2 []
(SLoc rT n_amp2 (EUn I2T (EInt 0));,
SDecl rC n_M;,
SLoc rC n_M (ECall n_amp []);,
SLoc rT n_amp2 (EUn Pow2T (EUn AbsC (ELocC n_M)));,
SReturnT (ELocT n_amp2)).
(** members: SM/include/nenenene.h 26-32; initialisers: SM/nenenene.cpp 32-37 *)
Definition nenenene : cls := mkCls "nenenene"
[(n_e, KT);
(n_MZ, KT);
(n_WZ, KT);
(n_MW, KT);
(n_SW, KT);
(n_CW, KT);
(n_p1, (KPart 0));
(n_p2, (KPart 1));
(n_p3, (KPart 2));
(n_p4, (KPart 3));
(n_propZ, KProp);
(n_pDenSZ, KC);
(n_pDenTZ, KC);
(n_a14a, KSprod);
(n_s23s, KSprod);
(n_preZ, KT)]
[n_echarge; n_massW; n_sinW; n_widthZ]
[(n_e, NT (ELocT n_echarge));
(n_MW, NT (ELocT n_massW));
(n_SW, NT (ELocT n_sinW));
(n_CW, NT (EUn SqrtT ((EUn D2T (ELit (1 # 1))) -t ((ELocT n_sinW) *t (ELocT n_sinW)))));
(n_WZ, NT (ELocT n_widthZ));
(n_p1, NPart (EUn I2T (EInt 0)));
(n_p2, NPart (EUn I2T (EInt 0)));
(n_p3, NPart (EUn I2T (EInt 0)));
(n_p4, NPart (EUn I2T (EInt 0)));
(n_a14a, NSprod true 0 [] 3);
(n_s23s, NSprod false 1 [] 2)]
nenenene_ctor
[nenenene_set_masses; nenenene_set_momenta; nenenene_amp; nenenene_amp2].

(** nenenene2::nenenene2: SM/nenenene2.cpp 32-43 *)
Definition nenenene2_ctor : stmt :=
(SMemT n_MZ ((EMemT n_MW) /t (EMemT n_CW));,
SPropMass n_propZ (EMemT n_MZ);,
SMemT n_preZ (((EMemT n_e) *t (EMemT n_e)) /t (((((EUn D2T (ELit (4 # 1))) *t (EMemT n_CW)) *t (EMemT n_CW)) *t (EMemT n_SW)) *t (EMemT n_SW)))).
(** nenenene2::set_masses: SM/nenenene2.cpp 44-48 *)
Definition nenenene2_set_masses : meth := mkMeth n_set_masses [(n_massW, PkT)]
(SMemT n_MW (ELocT n_massW);,
SMemT n_MZ ((EMemT n_MW) /t (EMemT n_CW));,
SPropMass n_propZ (EMemT n_MZ)).
(** nenenene2::set_momenta: SM/nenenene2.cpp 49-65 *)
Definition nenenene2_set_momenta : meth := mkMeth n_set_momenta [(n_mom1, PkMom); (n_mom2, PkMom); (n_mom3, PkMom); (n_mom4, PkMom)]
(SSetMomentum 0 n_mom1;,
SSetMomentum 1 n_mom2;,
SSetMomentum 2 n_mom3;,
SSetMomentum 3 n_mom4;,
SUpdate n_a12a;,
SUpdate n_s34s;,
SDeclT n_propPU 4;,
SDeclT n_propPT 4;,
(SFor n_j (EInt 0) (EBin (CmpI CLt) (ELocI n_j) (EInt 4)) (EBin (OpI IAdd) (ELocI n_j) (EInt 1))
(SArrT n_propPU (AVar n_j) ((EArrT n_mom1 (AVar n_j)) -t (EArrT n_mom4 (AVar n_j)));,
SArrT n_propPT (AVar n_j) ((EArrT n_mom1 (AVar n_j)) -t (EArrT n_mom3 (AVar n_j)))));,
SMemC n_pDenUZ (EDen n_propZ n_propPU);,
SMemC n_pDenTZ (EDen n_propZ n_propPT)).
(** nenenene2::amp: SM/nenenene2.cpp 70-86 *)
Definition nenenene2_amp : meth := mkMeth n_amp []
(SLoc rT n_one (EUn I2T (EInt 1));,
SLoc rT n_two (EUn I2T (EInt 2));,
SLoc rC n_amplitude (EBin OpTTC (EUn I2T (EInt 0)) (EUn I2T (EInt 0)));,
SLoc rC n_amplitude ((ELocC n_amplitude) +c (((((EUn NegT (ELocT n_two)) *t (EMemT n_preZ)) *tc (EV n_s34s [])) *c (EV n_a12a [])) *c (((ELocT n_one) /tc (EMemC n_pDenUZ)) +c ((ELocT n_one) /tc (EMemC n_pDenTZ)))));,
SReturnC (ELocC n_amplitude)).
(** nenenene2::amp2: SM/nenenene2.cpp 89-98 *)
Definition nenenene2_amp2 : meth := mkMeth n_amp2 []
(SLoc rT n_amp2 (EUn I2T (EInt 0));,
SDecl rC n_M;,
SLoc rC n_M (ECall n_amp []);,
SLoc rT n_amp2 (EUn Pow2T (EUn AbsC (ELocC n_M)));,
SReturnT ((ELocT n_amp2) /t (EUn D2T (ELit (2 # 1))))).
(** members: SM/include/nenenene2.h 26-32; initialisers: SM/nenenene2.cpp 32-37 *)
Definition nenenene2 : cls := mkCls "nenenene2"
[(n_e, KT);
(n_MZ, KT);
(n_WZ, KT);
(n_MW, KT);
(n_SW, KT);
(n_CW, KT);
(n_p1, (KPart 0));
(n_p2, (KPart 1));
(n_p3, (KPart 2));
(n_p4, (KPart 3));
(n_propZ, KProp);
(n_pDenUZ, KC);
(n_pDenTZ, KC);
(n_a12a, KSprod);
(n_s34s, KSprod);
(n_preZ, KT)]
[n_echarge; n_massW; n_sinW; n_widthZ]
[(n_e, NT (ELocT n_echarge));
(n_MW, NT (ELocT n_massW));
(n_SW, NT (ELocT n_sinW));
(n_CW, NT (EUn SqrtT ((EUn D2T (ELit (1 # 1))) -t ((ELocT n_sinW) *t (ELocT n_sinW)))));
(n_WZ, NT (ELocT n_widthZ));
(n_p1, NPart (EUn I2T (EInt 0)));
(n_p2, NPart (EUn I2T (EInt 0)));
(n_p3, NPart (EUn I2T (EInt 0)));
(n_p4, NPart (EUn I2T (EInt 0)));
(n_a12a, NSprod true 0 [] 1);
(n_s34s, NSprod false 2 [] 3)]
nenenene2_ctor
[nenenene2_set_masses; nenenene2_set_momenta; nenenene2_amp; nenenene2_amp2].

(** nenenmnm::nenenmnm: SM/nenenmnm.cpp 32-43 *)
Definition nenenmnm_ctor : stmt :=
(SMemT n_MZ ((EMemT n_MW) /t (EMemT n_CW));,
SPropMass n_propZ (EMemT n_MZ);,
SMemT n_preZ (((EMemT n_e) *t (EMemT n_e)) /t (((((EUn D2T (ELit (4 # 1))) *t (EMemT n_CW)) *t (EMemT n_CW)) *t (EMemT n_SW)) *t (EMemT n_SW)))).
(** nenenmnm::set_masses: SM/nenenmnm.cpp 44-48 *)
Definition nenenmnm_set_masses : meth := mkMeth n_set_masses [(n_massW, PkT)]
(SMemT n_MW (ELocT n_massW);,
SMemT n_MZ ((EMemT n_MW) /t (EMemT n_CW));,
SPropMass n_propZ (EMemT n_MZ)).
(** nenenmnm::set_momenta: SM/nenenmnm.cpp 49-62 *)
Definition nenenmnm_set_momenta : meth := mkMeth n_set_momenta [(n_mom1, PkMom); (n_mom2, PkMom); (n_mom3, PkMom); (n_mom4, PkMom)]
(SSetMomentum 0 n_mom1;,
SSetMomentum 1 n_mom2;,
SSetMomentum 2 n_mom3;,
SSetMomentum 3 n_mom4;,
SUpdate n_a14a;,
SUpdate n_s23s;,
SDeclT n_propP 4;,
(SFor n_j (EInt 0) (EBin (CmpI CLt) (ELocI n_j) (EInt 4)) (EBin (OpI IAdd) (ELocI n_j) (EInt 1))
(SArrT n_propP (AVar n_j) ((EArrT n_mom1 (AVar n_j)) +t (EArrT n_mom2 (AVar n_j)))));,
SMemC n_pDenSZ (EDen n_propZ n_propP)).
(** nenenmnm::amp: SM/nenenmnm.cpp 67-81 *)
Definition nenenmnm_amp : meth := mkMeth n_amp []
(SLoc rT n_two (EUn I2T (EInt 2));,
SReturnC (((((ELocT n_two) *t (EMemT n_preZ)) *tc (EV n_s23s [])) *c (EV n_a14a [])) /c (EMemC n_pDenSZ))).
(** nenenmnm::amp2: SM/nenenmnm.cpp 84-92 *)
Definition nenenmnm_amp2 : meth := mkMeth n_amp2 []
(SLoc rT n_amp2 (EUn I2T (EInt 0));,
SDecl rC n_M;,
SLoc rC n_M (ECall n_amp []);,
SLoc rT n_amp2 (EUn Pow2T (EUn AbsC (ELocC n_M)));,
SReturnT (ELocT n_amp2)).
(** members: SM/include/nenenmnm.h 26-32; initialisers: SM/nenenmnm.cpp 32-37 *)
Definition nenenmnm : cls := mkCls "nenenmnm"
[(n_e, KT);
(n_MZ, KT);
(n_WZ, KT);
(n_MW, KT);
(n_SW, KT);
(n_CW, KT);
(n_p1, (KPart 0));
(n_p2, (KPart 1));
(n_p3, (KPart 2));
(n_p4, (KPart 3));
(n_propZ, KProp);
(n_pDenSZ, KC);
(n_a14a, KSprod);
(n_s23s, KSprod);
(n_preZ, KT)]
[n_echarge; n_massW; n_sinW; n_widthZ]
[(n_e, NT (ELocT n_echarge));
(n_MW, NT (ELocT n_massW));
(n_SW, NT (ELocT n_sinW));
(n_CW, NT (EUn SqrtT ((EUn D2T (ELit (1 # 1))) -t ((ELocT n_sinW) *t (ELocT n_sinW)))));
(n_WZ, NT (ELocT n_widthZ));
(n_p1, NPart (EUn I2T (EInt 0)));
(n_p2, NPart (EUn I2T (EInt 0)));
(n_p3, NPart (EUn I2T (EInt 0)));
(n_p4, NPart (EUn I2T (EInt 0)));
(n_a14a, NSprod true 0 [] 3);
(n_s23s, NSprod false 1 [] 2)]
nenenmnm_ctor
[nenenmnm_set_masses; nenenmnm_set_momenta; nenenmnm_amp; nenenmnm_amp2].

(** nenmnenm::nenmnenm: SM/nenmnenm.cpp 32-43 *)
Definition nenmnenm_ctor : stmt :=
(SMemT n_MZ ((EMemT n_MW) /t (EMemT n_CW));,
SPropMass n_propZ (EMemT n_MZ);,
SMemT n_preZ (((EMemT n_e) *t (EMemT n_e)) /t (((((EUn D2T (ELit (4 # 1))) *t (EMemT n_CW)) *t (EMemT n_CW)) *t (EMemT n_SW)) *t (EMemT n_SW)))).
(** nenmnenm::set_masses: SM/nenmnenm.cpp 44-48 *)
Definition nenmnenm_set_masses : meth := mkMeth n_set_masses [(n_massW, PkT)]
(SMemT n_MW (ELocT n_massW);,
SMemT n_MZ ((EMemT n_MW) /t (EMemT n_CW));,
SPropMass n_propZ (EMemT n_MZ)).
(** nenmnenm::set_momenta: SM/nenmnenm.cpp 49-62 *)
Definition nenmnenm_set_momenta : meth := mkMeth n_set_momenta [(n_mom1, PkMom); (n_mom2, PkMom); (n_mom3, PkMom); (n_mom4, PkMom)]
(SSetMomentum 0 n_mom1;,
SSetMomentum 1 n_mom2;,
SSetMomentum 2 n_mom3;,
SSetMomentum 3 n_mom4;,
SUpdate n_a12a;,
SUpdate n_s34s;,
SDeclT n_propP 4;,
(SFor n_j (EInt 0) (EBin (CmpI CLt) (ELocI n_j) (EInt 4)) (EBin (OpI IAdd) (ELocI n_j) (EInt 1))
(SArrT n_propP (AVar n_j) ((EArrT n_mom1 (AVar n_j)) -t (EArrT n_mom3 (AVar n_j)))));,
SMemC n_pDenTZ (EDen n_propZ n_propP)).
(** nenmnenm::amp: SM/nenmnenm.cpp 67-82 *)
Definition nenmnenm_amp : meth := mkMeth n_amp []
(SLoc rT n_two (EUn I2T (EInt 2));,
SReturnC (((((ELocT n_two) *t (EMemT n_preZ)) *tc (EV n_s34s [])) *c (EV n_a12a [])) /c (EMemC n_pDenTZ))).
(** nenmnenm::amp2: SM/nenmnenm.cpp 85-93 *)
Definition nenmnenm_amp2 : meth := mkMeth n_amp2 []
(SLoc rT n_amp2 (EUn I2T (EInt 0));,
SDecl rC n_M;,
SLoc rC n_M (ECall n_amp []);,
SLoc rT n_amp2 (EUn Pow2T (EUn AbsC (ELocC n_M)));,
SReturnT (ELocT n_amp2)).
(** members: SM/include/nenmnenm.h 26-32; initialisers: SM/nenmnenm.cpp 32-37 *)
Definition nenmnenm : cls := mkCls "nenmnenm"
[(n_e, KT);
(n_MZ, KT);
(n_WZ, KT);
(n_MW, KT);
(n_SW, KT);
(n_CW, KT);
(n_p1, (KPart 0));
(n_p2, (KPart 1));
(n_p3, (KPart 2));
(n_p4, (KPart 3));
(n_propZ, KProp);
(n_pDenTZ, KC);
(n_a12a, KSprod);
(n_s34s, KSprod);
(n_preZ, KT)]
[n_echarge; n_massW; n_sinW; n_widthZ]
[(n_e, NT (ELocT n_echarge));
(n_MW, NT (ELocT n_massW));
(n_SW, NT (ELocT n_sinW));
(n_CW, NT (EUn SqrtT ((EUn D2T (ELit (1 # 1))) -t ((ELocT n_sinW) *t (ELocT n_sinW)))));
(n_WZ, NT (ELocT n_widthZ));
(n_p1, NPart (EUn I2T (EInt 0)));
(n_p2, NPart (EUn I2T (EInt 0)));
(n_p3, NPart (EUn I2T (EInt 0)));
(n_p4, NPart (EUn I2T (EInt 0)));
(n_a12a, NSprod true 0 [] 1);
(n_s34s, NSprod false 2 [] 3)]
nenmnenm_ctor
[nenmnenm_set_masses; nenmnenm_set_momenta; nenmnenm_amp; nenmnenm_amp2].

(** nnWW::nnWW: SM/nnWW.cpp 32-55 *)
Definition nnWW_ctor : stmt :=
(SLoc rT n_two (EUn I2T (EInt 2));,
SMemT n_sqrt2 (EUn SqrtT (ELocT n_two));,
SMemT n_MZ ((EMemT n_MW) /t (EMemT n_CW));,
SPropNew n_propZ (EMemT n_MZ) (EMemT n_WZ);,
SParticle 0 (EUn I2T (EInt 0));,
SParticle 1 (EUn I2T (EInt 0));,
SParticle 2 (EMemT n_MW);,
SParticle 3 (EMemT n_MW);,
SSprod n_s23s false 1 [] 2;,
SSprod n_a13a true 0 [] 2;,
SSprod n_s34s false 2 [] 3;,
SSprod n_a34a true 2 [] 3;,
SSprod n_s24s false 1 [] 3;,
SSprod n_a14a true 0 [] 3;,
SSprod n_s314a false 2 [0] 3;,
SSprod n_s231a false 1 [2] 0;,
SMemT n_pree (((EMemT n_e) *t (EMemT n_e)) /t ((((EMemT n_MW) *t (EMemT n_MW)) *t (EMemT n_SW)) *t (EMemT n_SW)));,
SMemT n_preZ (((EMemT n_e) *t (EMemT n_e)) /t ((((EMemT n_MW) *t (EMemT n_MW)) *t (EMemT n_SW)) *t (EMemT n_SW)))).
(** nnWW::set_masses: SM/nnWW.cpp 56-67 *)
Definition nnWW_set_masses : meth := mkMeth n_set_masses [(n_masse, PkT); (n_massW, PkT)]
(SMemT n_me (ELocT n_masse);,
SPropMass n_prope (EMemT n_me);,
SMemT n_MW (ELocT n_massW);,
SMemT n_MZ ((EMemT n_MW) /t (EMemT n_CW));,
SSetMass 2 (EMemT n_MW);,
SSetMass 3 (EMemT n_MW);,
SPropMass n_propZ (EMemT n_MZ);,
SMemT n_pree (((EMemT n_e) *t (EMemT n_e)) /t ((((EMemT n_MW) *t (EMemT n_MW)) *t (EMemT n_SW)) *t (EMemT n_SW)));,
SMemT n_preZ (((EMemT n_e) *t (EMemT n_e)) /t ((((EMemT n_MW) *t (EMemT n_MW)) *t (EMemT n_SW)) *t (EMemT n_SW)))).
(** nnWW::set_momenta: SM/nnWW.cpp 68-92 *)
Definition nnWW_set_momenta : meth := mkMeth n_set_momenta [(n_mom1, PkMom); (n_mom2, PkMom); (n_mom3, PkMom); (n_mom4, PkMom)]
(SSetMomentum 0 n_mom1;,
SSetMomentum 1 n_mom2;,
SSetMomentum 2 n_mom3;,
SSetMomentum 3 n_mom4;,
SUpdate n_s23s;,
SUpdate n_a13a;,
SUpdate n_s34s;,
SUpdate n_a34a;,
SUpdate n_s24s;,
SUpdate n_a14a;,
SUpdate n_s314a;,
SUpdate n_s231a;,
SDeclT n_propSP 4;,
SDeclT n_propTP 4;,
(SFor n_j (EInt 0) (EBin (CmpI CLt) (ELocI n_j) (EInt 4)) (EBin (OpI IAdd) (ELocI n_j) (EInt 1))
(SArrT n_propSP (AVar n_j) ((EArrT n_mom1 (AVar n_j)) +t (EArrT n_mom2 (AVar n_j)));,
SArrT n_propTP (AVar n_j) ((EArrT n_mom1 (AVar n_j)) -t (EArrT n_mom3 (AVar n_j)))));,
SMemC n_pDeneT (EDen n_prope n_propTP);,
SMemC n_pDenZS (EDen n_propZ n_propSP)).
(** nnWW::amp: SM/nnWW.cpp 97-132 *)
Definition nnWW_amp : meth := mkMeth n_amp [(n_ds3, PkI); (n_ds4, PkI)]
(SLoc rC n_amplitude (EBin OpTTC (EUn I2T (EInt 0)) (EUn I2T (EInt 0)));,
SDecl rI n_ds3a;,
SDecl rI n_ds3b;,
SDecl rI n_ds4a;,
SDecl rI n_ds4b;,
SLoc rT n_two (EUn I2T (EInt 2));,
SLoc rI n_nCombs (ENLoops [(AVar n_ds3); (AVar n_ds4)]);,
SLoc rT n_normFactor (ENorm [(AVar n_ds3); (AVar n_ds4)]);,
(SFor n_i (EInt 0) (EBin (CmpI CLt) (ELocI n_i) (ELocI n_nCombs)) (EBin (OpI IAdd) (ELocI n_i) (EInt 1))
(SSpins [(n_ds3, n_ds3a, n_ds3b); (n_ds4, n_ds4a, n_ds4b)] (AVar n_i);,
SLoc rC n_amplitude ((ELocC n_amplitude) +c ((((((EUn NegT (ELocT n_normFactor)) *t (EMemT n_pree)) *tc (EV n_s24s [(AVar n_ds4a)])) *c (EV n_a13a [(AVar n_ds3a)])) *c (((EMemT n_MW) *tc (EV n_a34a [(AVar n_ds3b); (AVar n_ds4b)])) -c (EV n_s314a [(AVar n_ds3b); (AVar n_ds4b)]))) /c (EMemC n_pDeneT)));,
SLoc rC n_amplitude ((ELocC n_amplitude) +c ((((EUn NegT (ELocT n_normFactor)) *t (EMemT n_preZ)) *tc ((((EV n_s34s [(AVar n_ds3a); (AVar n_ds4a)]) *c (EV n_a34a [(AVar n_ds3b); (AVar n_ds4b)])) *c (EV n_s231a [])) +c (((EMemT n_MW) *tc ((EV n_s34s [(AVar n_ds3a); (AVar n_ds4a)]) +c (EV n_a34a [(AVar n_ds3a); (AVar n_ds4a)]))) *c (((EV n_s23s [(AVar n_ds3b)]) *c (EV n_a14a [(AVar n_ds4b)])) +c ((EV n_s24s [(AVar n_ds4b)]) *c (EV n_a13a [(AVar n_ds3b)])))))) /c (EMemC n_pDenZS)))));,
SReturnC (ELocC n_amplitude)).
(** nnWW::amp2: SM/nnWW.cpp 135-147 *)
Definition nnWW_amp2 : meth := mkMeth n_amp2 []
(SLoc rT n_amp2 (EUn I2T (EInt 0));,
SDecl rC n_M;,
(SFor n_j3 (EUn NegI (EInt 2)) (EBin (CmpI CLe) (ELocI n_j3) (EInt 2)) (EBin (OpI IAdd) (ELocI n_j3) (EInt 2))
(SFor n_j4 (EUn NegI (EInt 2)) (EBin (CmpI CLe) (ELocI n_j4) (EInt 2)) (EBin (OpI IAdd) (ELocI n_j4) (EInt 2))
(SLoc rC n_M (ECall n_amp [(AVar n_j3); (AVar n_j4)]);,
SLoc rT n_amp2 ((ELocT n_amp2) +t (EUn Pow2T (EUn AbsC (ELocC n_M)))))));,
SReturnT (ELocT n_amp2)).
(** members: SM/include/nnWW.h 26-36; initialisers: SM/nnWW.cpp 32-33 *)
Definition nnWW : cls := mkCls "nnWW"
[(n_e, KT);
(n_me, KT);
(n_MW, KT);
(n_SW, KT);
(n_CW, KT);
(n_MZ, KT);
(n_WZ, KT);
(n_p1, (KPart 0));
(n_p2, (KPart 1));
(n_p3, (KPart 2));
(n_p4, (KPart 3));
(n_prope, KProp);
(n_propZ, KProp);
(n_pDeneT, KC);
(n_pDenZS, KC);
(n_s23s, KSprod);
(n_a13a, KSprod);
(n_s34s, KSprod);
(n_a34a, KSprod);
(n_s24s, KSprod);
(n_a14a, KSprod);
(n_s314a, KSprod);
(n_s231a, KSprod);
(n_sqrt2, KT);
(n_pree, KT);
(n_preZ, KT)]
[n_echarge; n_masse; n_massW; n_sinW; n_widthZ]
[(n_e, NT (ELocT n_echarge));
(n_me, NT (ELocT n_masse));
(n_MW, NT (ELocT n_massW));
(n_SW, NT (ELocT n_sinW));
(n_CW, NT (EUn SqrtT ((EUn D2T (ELit (1 # 1))) -t ((ELocT n_sinW) *t (ELocT n_sinW)))));
(n_MZ, NT ((ELocT n_massW) /t (EMemT n_CW)));
(n_WZ, NT (ELocT n_widthZ));
(n_prope, NProp (EUn I2T (EInt 0)) (EUn I2T (EInt 0)))]
nnWW_ctor
[nnWW_set_masses; nnWW_set_momenta; nnWW_amp; nnWW_amp2].

(** nnZZ::nnZZ: SM/nnZZ.cpp 32-52 *)
Definition nnZZ_ctor : stmt :=
(SLoc rT n_two (EUn I2T (EInt 2));,
SMemT n_sqrt2 (EUn SqrtT (ELocT n_two));,
SMemT n_MZ ((EMemT n_MW) /t (EMemT n_CW));,
SParticle 0 (EUn I2T (EInt 0));,
SParticle 1 (EUn I2T (EInt 0));,
SParticle 2 (EMemT n_MZ);,
SParticle 3 (EMemT n_MZ);,
SSprod n_s23s false 1 [] 2;,
SSprod n_s24s false 1 [] 3;,
SSprod n_a13a true 0 [] 2;,
SSprod n_a14a true 0 [] 3;,
SSprod n_a34a true 2 [] 3;,
SSprod n_s314a false 2 [0] 3;,
SSprod n_s413a false 3 [0] 2;,
SMemT n_preTU (((EMemT n_e) *t (EMemT n_e)) /t (((((EUn D2T (ELit (2 # 1))) *t (EMemT n_MW)) *t (EMemT n_MW)) *t (EMemT n_SW)) *t (EMemT n_SW)))).
(** nnZZ::set_masses: SM/nnZZ.cpp 53-60 *)
Definition nnZZ_set_masses : meth := mkMeth n_set_masses [(n_massW, PkT)]
(SMemT n_MW (ELocT n_massW);,
SMemT n_MZ ((EMemT n_MW) /t (EMemT n_CW));,
SSetMass 2 (EMemT n_MZ);,
SSetMass 3 (EMemT n_MZ);,
SMemT n_preTU (((EMemT n_e) *t (EMemT n_e)) /t (((((EUn D2T (ELit (2 # 1))) *t (EMemT n_MW)) *t (EMemT n_MW)) *t (EMemT n_SW)) *t (EMemT n_SW)))).
(** nnZZ::set_momenta: SM/nnZZ.cpp 61-84 *)
Definition nnZZ_set_momenta : meth := mkMeth n_set_momenta [(n_mom1, PkMom); (n_mom2, PkMom); (n_mom3, PkMom); (n_mom4, PkMom)]
(SSetMomentum 0 n_mom1;,
SSetMomentum 1 n_mom2;,
SSetMomentum 2 n_mom3;,
SSetMomentum 3 n_mom4;,
SUpdate n_s23s;,
SUpdate n_s24s;,
SUpdate n_a13a;,
SUpdate n_a14a;,
SUpdate n_a34a;,
SUpdate n_s314a;,
SUpdate n_s413a;,
SDeclT n_propTP 4;,
SDeclT n_propUP 4;,
(SFor n_j (EInt 0) (EBin (CmpI CLt) (ELocI n_j) (EInt 4)) (EBin (OpI IAdd) (ELocI n_j) (EInt 1))
(SArrT n_propTP (AVar n_j) ((EArrT n_mom1 (AVar n_j)) -t (EArrT n_mom3 (AVar n_j)));,
SArrT n_propUP (AVar n_j) ((EArrT n_mom1 (AVar n_j)) -t (EArrT n_mom4 (AVar n_j)))));,
SMemC n_pDenT (EDen n_propne n_propTP);,
SMemC n_pDenU (EDen n_propne n_propUP)).
(** nnZZ::amp: SM/nnZZ.cpp 89-119 *)
Definition nnZZ_amp : meth := mkMeth n_amp [(n_ds3, PkI); (n_ds4, PkI)]
(SLoc rC n_amplitude (EBin OpTTC (EUn I2T (EInt 0)) (EUn I2T (EInt 0)));,
SDecl rI n_ds3a;,
SDecl rI n_ds3b;,
SDecl rI n_ds4a;,
SDecl rI n_ds4b;,
SLoc rI n_nCombs (ENLoops [(AVar n_ds3); (AVar n_ds4)]);,
SLoc rT n_normFactor (ENorm [(AVar n_ds3); (AVar n_ds4)]);,
(SFor n_i (EInt 0) (EBin (CmpI CLt) (ELocI n_i) (ELocI n_nCombs)) (EBin (OpI IAdd) (ELocI n_i) (EInt 1))
(SSpins [(n_ds3, n_ds3a, n_ds3b); (n_ds4, n_ds4a, n_ds4b)] (AVar n_i);,
SLoc rC n_amplitude ((ELocC n_amplitude) +c ((((((ELocT n_normFactor) *t (EMemT n_preTU)) *tc (EV n_s24s [(AVar n_ds4a)])) *c (EV n_a13a [(AVar n_ds3a)])) *c (((EMemT n_MZ) *tc (EV n_a34a [(AVar n_ds3b); (AVar n_ds4b)])) -c (EV n_s314a [(AVar n_ds3b); (AVar n_ds4b)]))) /c (EMemC n_pDenT)));,
SLoc rC n_amplitude ((ELocC n_amplitude) +c ((((((EUn NegT (ELocT n_normFactor)) *t (EMemT n_preTU)) *tc (EV n_s23s [(AVar n_ds3a)])) *c (EV n_a14a [(AVar n_ds4a)])) *c (((EMemT n_MZ) *tc (EV n_a34a [(AVar n_ds3b); (AVar n_ds4b)])) +c (EV n_s413a [(AVar n_ds4b); (AVar n_ds3b)]))) /c (EMemC n_pDenU)))));,
SReturnC (ELocC n_amplitude)).
(** nnZZ::amp2: SM/nnZZ.cpp 122-135 *)
Definition nnZZ_amp2 : meth := mkMeth n_amp2 []
(SLoc rT n_amp2 (EUn I2T (EInt 0));,
SDecl rC n_M;,
(SFor n_j3 (EUn NegI (EInt 2)) (EBin (CmpI CLe) (ELocI n_j3) (EInt 2)) (EBin (OpI IAdd) (ELocI n_j3) (EInt 2))
(SFor n_j4 (EUn NegI (EInt 2)) (EBin (CmpI CLe) (ELocI n_j4) (EInt 2)) (EBin (OpI IAdd) (ELocI n_j4) (EInt 2))
(SLoc rC n_M (ECall n_amp [(AVar n_j3); (AVar n_j4)]);,
SLoc rT n_amp2 ((ELocT n_amp2) +t (EUn Pow2T (EUn AbsC (ELocC n_M)))))));,
SReturnT ((ELocT n_amp2) /t (EUn D2T (ELit (2 # 1))))).
(** members: SM/include/nnZZ.h 26-36; initialisers: SM/nnZZ.cpp 32-33 *)
Definition nnZZ : cls := mkCls "nnZZ"
[(n_e, KT);
(n_MW, KT);
(n_SW, KT);
(n_CW, KT);
(n_MZ, KT);
(n_WZ, KT);
(n_p1, (KPart 0));
(n_p2, (KPart 1));
(n_p3, (KPart 2));
(n_p4, (KPart 3));
(n_propne, KProp);
(n_pDenT, KC);
(n_pDenU, KC);
(n_s23s, KSprod);
(n_s24s, KSprod);
(n_a13a, KSprod);
(n_a14a, KSprod);
(n_a34a, KSprod);
(n_s314a, KSprod);
(n_s413a, KSprod);
(n_sqrt2, KT);
(n_preTU, KT)]
[n_echarge; n_massW; n_sinW; n_widthZ]
[(n_e, NT (ELocT n_echarge));
(n_MW, NT (ELocT n_massW));
(n_SW, NT (ELocT n_sinW));
(n_CW, NT (EUn SqrtT ((EUn D2T (ELit (1 # 1))) -t ((ELocT n_sinW) *t (ELocT n_sinW)))));
(n_MZ, NT ((ELocT n_massW) /t (EMemT n_CW)));
(n_WZ, NT (ELocT n_widthZ));
(n_propne, NProp (EUn I2T (EInt 0)) (EUn I2T (EInt 0)))]
nnZZ_ctor
[nnZZ_set_masses; nnZZ_set_momenta; nnZZ_amp; nnZZ_amp2].

(** nnZh::nnZh: SM/nnZh.cpp 32-47 *)
Definition nnZh_ctor : stmt :=
(SLoc rT n_two (EUn I2T (EInt 2));,
SMemT n_sqrt2 (EUn SqrtT (ELocT n_two));,
SMemT n_MZ ((EMemT n_MW) /t (EMemT n_CW));,
SPropNew n_propZ (EMemT n_MZ) (EMemT n_WZ);,
SParticle 0 (EUn I2T (EInt 0));,
SParticle 1 (EUn I2T (EInt 0));,
SParticle 2 (EMemT n_MZ);,
SParticle 3 (EMemT n_mh);,
SSprod n_s23s false 1 [] 2;,
SSprod n_a13a true 0 [] 2;,
SMemT n_preZ (((EMemT n_e) *t (EMemT n_e)) /t (((((EMemT n_sqrt2) *t (EMemT n_CW)) *t (EMemT n_CW)) *t (EMemT n_SW)) *t (EMemT n_SW)))).
(** nnZh::set_masses: SM/nnZh.cpp 48-55 *)
Definition nnZh_set_masses : meth := mkMeth n_set_masses [(n_massh, PkT); (n_massW, PkT)]
(SMemT n_mh (ELocT n_massh);,
SMemT n_MW (ELocT n_massW);,
SMemT n_MZ ((EMemT n_MW) /t (EMemT n_CW));,
SSetMass 2 (EMemT n_MZ);,
SSetMass 3 (EMemT n_mh);,
SPropMass n_propZ (EMemT n_MZ)).
(** nnZh::set_momenta: SM/nnZh.cpp 56-70 *)
Definition nnZh_set_momenta : meth := mkMeth n_set_momenta [(n_mom1, PkMom); (n_mom2, PkMom); (n_mom3, PkMom); (n_mom4, PkMom)]
(SSetMomentum 0 n_mom1;,
SSetMomentum 1 n_mom2;,
SSetMomentum 2 n_mom3;,
SSetMomentum 3 n_mom4;,
SUpdate n_s23s;,
SUpdate n_a13a;,
SDeclT n_propSP 4;,
(SFor n_j (EInt 0) (EBin (CmpI CLt) (ELocI n_j) (EInt 4)) (EBin (OpI IAdd) (ELocI n_j) (EInt 1))
(SArrT n_propSP (AVar n_j) ((EArrT n_mom1 (AVar n_j)) +t (EArrT n_mom2 (AVar n_j)))));,
SMemC n_pDenS (EDen n_propZ n_propSP)).
(** nnZh::amp: SM/nnZh.cpp 75-96 *)
Definition nnZh_amp : meth := mkMeth n_amp [(n_ds3, PkI)]
(SLoc rC n_amplitude (EBin OpTTC (EUn I2T (EInt 0)) (EUn I2T (EInt 0)));,
SDecl rI n_ds3a;,
SDecl rI n_ds3b;,
SLoc rI n_nCombs (ENLoops [(AVar n_ds3)]);,
SLoc rT n_normFactor (ENorm [(AVar n_ds3)]);,
(SFor n_i (EInt 0) (EBin (CmpI CLt) (ELocI n_i) (ELocI n_nCombs)) (EBin (OpI IAdd) (ELocI n_i) (EInt 1))
(SSpins [(n_ds3, n_ds3a, n_ds3b)] (AVar n_i);,
SLoc rC n_amplitude ((ELocC n_amplitude) +c (((((EUn NegT (ELocT n_normFactor)) *t (EMemT n_preZ)) *tc (EV n_s23s [(AVar n_ds3a)])) *c (EV n_a13a [(AVar n_ds3b)])) /c (EMemC n_pDenS)))));,
SReturnC (ELocC n_amplitude)).
(** nnZh::amp2: SM/nnZh.cpp 99-110 *)
Definition nnZh_amp2 : meth := mkMeth n_amp2 []
(SLoc rT n_amp2 (EUn I2T (EInt 0));,
SDecl rC n_M;,
(SFor n_j3 (EUn NegI (EInt 2)) (EBin (CmpI CLe) (ELocI n_j3) (EInt 2)) (EBin (OpI IAdd) (ELocI n_j3) (EInt 2))
(SLoc rC n_M (ECall n_amp [(AVar n_j3)]);,
SLoc rT n_amp2 ((ELocT n_amp2) +t (EUn Pow2T (EUn AbsC (ELocC n_M))))));,
SReturnT (ELocT n_amp2)).
(** members: SM/include/nnZh.h 26-34; initialisers: SM/nnZh.cpp 32-33 *)
Definition nnZh : cls := mkCls "nnZh"
[(n_e, KT);
(n_mh, KT);
(n_MW, KT);
(n_SW, KT);
(n_CW, KT);
(n_MZ, KT);
(n_WZ, KT);
(n_p1, (KPart 0));
(n_p2, (KPart 1));
(n_p3, (KPart 2));
(n_p4, (KPart 3));
(n_propZ, KProp);
(n_pDenS, KC);
(n_s23s, KSprod);
(n_a13a, KSprod);
(n_sqrt2, KT);
(n_preZ, KT)]
[n_echarge; n_massh; n_massW; n_sinW; n_widthZ]
[(n_e, NT (ELocT n_echarge));
(n_mh, NT (ELocT n_massh));
(n_MW, NT (ELocT n_massW));
(n_SW, NT (ELocT n_sinW));
(n_CW, NT (EUn SqrtT ((EUn D2T (ELit (1 # 1))) -t ((ELocT n_sinW) *t (ELocT n_sinW)))));
(n_MZ, NT ((ELocT n_massW) /t (EMemT n_CW)));
(n_WZ, NT (ELocT n_widthZ))]
nnZh_ctor
[nnZh_set_masses; nnZh_set_momenta; nnZh_amp; nnZh_amp2].

Definition SM09_classes : list cls := [menn; mnen; nWWn; nZZn; nZnh; nenenene; nenenene2; nenenmnm; nenmnenm; nnWW; nnZZ; nnZh].
