(** Generated by tools/translate.py from SM/gguu.cpp ... SM/hnWe.cpp.  Do not edit. *)
From Coq Require Import QArith String.
From Verif Require Import Base Scalar Particle Sproduct Lang SMSyntax SMNames.
Local Open Scope sm_scope.
Local Open Scope string_scope.

(** gguu::gguu: SM/gguu.cpp 32-54 *)
Definition gguu_ctor : stmt :=
(SLoc rT n_two (EUn I2T (EInt 2));,
SMemT n_sqrt2 (EUn SqrtT (ELocT n_two));,
SParticle 0 (EUn I2T (EInt 0));,
SParticle 1 (EUn I2T (EInt 0));,
SParticle 2 (EMemT n_mu);,
SParticle 3 (EMemT n_mu);,
SSprod n_s34s false 2 [] 3;,
SSprod n_a34a true 2 [] 3;,
SSprod n_s12s false 0 [] 1;,
SSprod n_a12a true 0 [] 1;,
SSprod n_s13s false 0 [] 2;,
SSprod n_a13a true 0 [] 2;,
SSprod n_s24s false 1 [] 3;,
SSprod n_a24a true 1 [] 3;,
SSprod n_s23s false 1 [] 2;,
SSprod n_a23a true 1 [] 2;,
SSprod n_s14s false 0 [] 3;,
SSprod n_a14a true 0 [] 3;,
SSprod n_s132a false 0 [2] 1;,
SSprod n_s231a false 1 [2] 0).
(** gguu::set_masses: SM/gguu.cpp 55-60 *)
Definition gguu_set_masses : meth := mkMeth n_set_masses [(n_massu, PkT)]
(SMemT n_mu (ELocT n_massu);,
SSetMass 2 (EMemT n_mu);,
SSetMass 3 (EMemT n_mu);,
SPropMass n_propu (EMemT n_mu)).
(** gguu::set_momenta: SM/gguu.cpp 61-92 *)
Definition gguu_set_momenta : meth := mkMeth n_set_momenta [(n_mom1, PkMom); (n_mom2, PkMom); (n_mom3, PkMom); (n_mom4, PkMom)]
(SSetMomentum 0 n_mom1;,
SSetMomentum 1 n_mom2;,
SSetMomentum 2 n_mom3;,
SSetMomentum 3 n_mom4;,
SUpdate n_s34s;,
SUpdate n_a34a;,
SUpdate n_s12s;,
SUpdate n_a12a;,
SUpdate n_s13s;,
SUpdate n_a13a;,
SUpdate n_s24s;,
SUpdate n_a24a;,
SUpdate n_s23s;,
SUpdate n_a23a;,
SUpdate n_s14s;,
SUpdate n_a14a;,
SUpdate n_s132a;,
SUpdate n_s231a;,
SDeclT n_propSP 4;,
SDeclT n_propTP 4;,
SDeclT n_propUP 4;,
(SFor n_j (EInt 0) (EBin (CmpI CLt) (ELocI n_j) (EInt 4)) (EBin (OpI IAdd) (ELocI n_j) (EInt 1))
(SArrT n_propSP (AVar n_j) ((EArrT n_mom1 (AVar n_j)) +t (EArrT n_mom2 (AVar n_j)));,
SArrT n_propTP (AVar n_j) ((EArrT n_mom1 (AVar n_j)) -t (EArrT n_mom3 (AVar n_j)));,
SArrT n_propUP (AVar n_j) ((EArrT n_mom1 (AVar n_j)) -t (EArrT n_mom4 (AVar n_j)))));,
SMemT n_pDenS (EUn ReC (EDen n_propg n_propSP));,
SMemT n_pDenT (EUn ReC (EDen n_propu n_propTP));,
SMemT n_pDenU (EUn ReC (EDen n_propu n_propUP))).
(** gguu::amp_Num: SM/gguu.cpp 99-125 *)
Definition gguu_amp_Num : meth := mkMeth n_amp_Num [(n_ds1, PkI); (n_ds2, PkI); (n_ds3, PkI); (n_ds4, PkI)]
((SIf (EAnd (EBin (CmpI CGt) (ELocI n_ds1) (EInt 0)) (EBin (CmpI CGt) (ELocI n_ds2) (EInt 0)))
(SReturnC (((((((EUn D2T (ELit (2 # 1))) *t (EMemT n_gs)) *t (EMemT n_gs)) *t (EMemT n_mu)) *tc (EV n_s12s [])) *c (EV n_s12s [])) *c (EV n_a34a [(AVar n_ds3); (AVar n_ds4)])))
((SIf (EAnd (EBin (CmpI CLt) (ELocI n_ds1) (EInt 0)) (EBin (CmpI CLt) (ELocI n_ds2) (EInt 0)))
(SReturnC (((((((EUn D2T (ELit (2 # 1))) *t (EMemT n_gs)) *t (EMemT n_gs)) *t (EMemT n_mu)) *tc (EV n_a12a [])) *c (EV n_a12a [])) *c (EV n_s34s [(AVar n_ds3); (AVar n_ds4)])))
((SIf (EAnd (EBin (CmpI CGt) (ELocI n_ds1) (EInt 0)) (EBin (CmpI CLt) (ELocI n_ds2) (EInt 0)))
(SReturnC (((((EUn D2T (EUn NegD (ELit (2 # 1)))) *t (EMemT n_gs)) *t (EMemT n_gs)) *tc (((EV n_s13s [(AVar n_ds3)]) *c (EV n_a24a [(AVar n_ds4)])) +c ((EV n_s14s [(AVar n_ds4)]) *c (EV n_a23a [(AVar n_ds3)])))) *c (EV n_s132a [])))
((SIf (EAnd (EBin (CmpI CLt) (ELocI n_ds1) (EInt 0)) (EBin (CmpI CGt) (ELocI n_ds2) (EInt 0)))
(SReturnC (((((EUn D2T (EUn NegD (ELit (2 # 1)))) *t (EMemT n_gs)) *t (EMemT n_gs)) *tc (((EV n_a13a [(AVar n_ds3)]) *c (EV n_s24s [(AVar n_ds4)])) +c ((EV n_a14a [(AVar n_ds4)]) *c (EV n_s23s [(AVar n_ds3)])))) *c (EV n_s231a [])))
(SSkip))))))));,
SReturnC (EBin OpTTC (EUn I2T (EInt 0)) (EUn I2T (EInt 0)))).
(** gguu::amp2_Feynman: SM/gguu.cpp 133-138 *)
Definition gguu_amp2_Feynman : meth := mkMeth n_amp2_Feynman []
(SLoc rT n_pre ((((EMemT n_gs) *t (EMemT n_gs)) *t (EMemT n_gs)) *t (EMemT n_gs));,
SLoc rT n_oneSixth (EUn D2T ((ELit (1 # 1)) /d (ELit (6 # 1))));,
SLoc rT n_threeEights (EUn D2T ((ELit (3 # 1)) /d (ELit (8 # 1))));,
SLoc rC n_M2 (EUn T2C (((ELocT n_pre) *t (((EMemT n_pDenT) *t (EMemT n_pDenT)) +t ((EMemT n_pDenU) *t (EMemT n_pDenU)))) *t ((((ELocT n_oneSixth) /t (EMemT n_pDenT)) /t (EMemT n_pDenU)) -t (((ELocT n_threeEights) /t (EMemT n_pDenS)) /t (EMemT n_pDenS)))));,
SReturnT (EUn AbsC (ELocC n_M2))).
(** gguu::amp2: SM/gguu.cpp 142-157 *)
Definition gguu_amp2 : meth := mkMeth n_amp2 []
(SLoc rT n_amp2 (EUn I2T (EInt 0));,
SDecl rC n_M_Num;,
(SFor n_j1 (EUn NegI (EInt 2)) (EBin (CmpI CLe) (ELocI n_j1) (EInt 2)) (EBin (OpI IAdd) (ELocI n_j1) (EInt 4))
(SFor n_j2 (EUn NegI (EInt 2)) (EBin (CmpI CLe) (ELocI n_j2) (EInt 2)) (EBin (OpI IAdd) (ELocI n_j2) (EInt 4))
(SFor n_j3 (EUn NegI (EInt 1)) (EBin (CmpI CLe) (ELocI n_j3) (EInt 1)) (EBin (OpI IAdd) (ELocI n_j3) (EInt 2))
(SFor n_j4 (EUn NegI (EInt 1)) (EBin (CmpI CLe) (ELocI n_j4) (EInt 1)) (EBin (OpI IAdd) (ELocI n_j4) (EInt 2))
(SLoc rC n_M_Num (ECall n_amp_Num [(AVar n_j1); (AVar n_j2); (AVar n_j3); (AVar n_j4)]);,
SLoc rT n_amp2 ((ELocT n_amp2) +t ((EUn Pow2T (EUn AbsC (ELocC n_M_Num))) *t ((((EUn D2T (ELit (6 # 1))) /t (EUn Pow2T ((EMemT n_pDenS) *t (EMemT n_pDenT)))) +t ((EUn D2T (ELit (6 # 1))) /t (EUn Pow2T ((EMemT n_pDenS) *t (EMemT n_pDenU))))) -t ((EUn D2T ((ELit (2 # 1)) /d (ELit (3 # 1)))) /t (EUn Pow2T ((EMemT n_pDenT) *t (EMemT n_pDenU))))))))))));,
SReturnT ((ELocT n_amp2) /t (EUn D2T (ELit (256 # 1))))).
(** gguu::amp2_gplus_gplus: SM/gguu.cpp 160-172 *)
Definition gguu_amp2_gplus_gplus : meth := mkMeth n_amp2_gplus_gplus []
(SLoc rT n_amp2 (EUn I2T (EInt 0));,
SDecl rC n_M_Num;,
(SFor n_j3 (EUn NegI (EInt 1)) (EBin (CmpI CLe) (ELocI n_j3) (EInt 1)) (EBin (OpI IAdd) (ELocI n_j3) (EInt 2))
(SFor n_j4 (EUn NegI (EInt 1)) (EBin (CmpI CLe) (ELocI n_j4) (EInt 1)) (EBin (OpI IAdd) (ELocI n_j4) (EInt 2))
(SLoc rC n_M_Num (ECall n_amp_Num [(ALit 2); (ALit 2); (AVar n_j3); (AVar n_j4)]);,
SLoc rT n_amp2 ((ELocT n_amp2) +t ((EUn Pow2T (EUn AbsC (ELocC n_M_Num))) *t ((((EUn D2T (ELit (6 # 1))) /t (EUn Pow2T ((EMemT n_pDenS) *t (EMemT n_pDenT)))) +t ((EUn D2T (ELit (6 # 1))) /t (EUn Pow2T ((EMemT n_pDenS) *t (EMemT n_pDenU))))) -t ((EUn D2T ((ELit (2 # 1)) /d (ELit (3 # 1)))) /t (EUn Pow2T ((EMemT n_pDenT) *t (EMemT n_pDenU))))))))));,
SReturnT ((ELocT n_amp2) /t (EUn D2T (ELit (64 # 1))))).
(** gguu::amp2_gplus_gminus: SM/gguu.cpp 175-187 *)
Definition gguu_amp2_gplus_gminus : meth := mkMeth n_amp2_gplus_gminus []
(SLoc rT n_amp2 (EUn I2T (EInt 0));,
SDecl rC n_M_Num;,
(SFor n_j3 (EUn NegI (EInt 1)) (EBin (CmpI CLe) (ELocI n_j3) (EInt 1)) (EBin (OpI IAdd) (ELocI n_j3) (EInt 2))
(SFor n_j4 (EUn NegI (EInt 1)) (EBin (CmpI CLe) (ELocI n_j4) (EInt 1)) (EBin (OpI IAdd) (ELocI n_j4) (EInt 2))
(SLoc rC n_M_Num (ECall n_amp_Num [(ALit 2); (ALit (-2)); (AVar n_j3); (AVar n_j4)]);,
SLoc rT n_amp2 ((ELocT n_amp2) +t ((EUn Pow2T (EUn AbsC (ELocC n_M_Num))) *t ((((EUn D2T (ELit (6 # 1))) /t (EUn Pow2T ((EMemT n_pDenS) *t (EMemT n_pDenT)))) +t ((EUn D2T (ELit (6 # 1))) /t (EUn Pow2T ((EMemT n_pDenS) *t (EMemT n_pDenU))))) -t ((EUn D2T ((ELit (2 # 1)) /d (ELit (3 # 1)))) /t (EUn Pow2T ((EMemT n_pDenT) *t (EMemT n_pDenU))))))))));,
SReturnT ((ELocT n_amp2) /t (EUn D2T (ELit (64 # 1))))).
(** members: SM/include/gguu.h 26-32; initialisers: SM/gguu.cpp 32-33 *)
Definition gguu : cls := mkCls "gguu"
[(n_gs, KT);
(n_mu, KT);
(n_p1, (KPart 0));
(n_p2, (KPart 1));
(n_p3, (KPart 2));
(n_p4, (KPart 3));
(n_propu, KProp);
(n_propg, KProp);
(n_pDenS, KT);
(n_pDenT, KT);
(n_pDenU, KT);
(n_s34s, KSprod);
(n_a34a, KSprod);
(n_s12s, KSprod);
(n_a12a, KSprod);
(n_s13s, KSprod);
(n_a13a, KSprod);
(n_s24s, KSprod);
(n_a24a, KSprod);
(n_s23s, KSprod);
(n_a23a, KSprod);
(n_s14s, KSprod);
(n_a14a, KSprod);
(n_s132a, KSprod);
(n_s231a, KSprod);
(n_sqrt2, KT)]
[n_gcharge; n_massu]
[(n_gs, NT (ELocT n_gcharge));
(n_mu, NT (ELocT n_massu));
(n_propu, NProp (ELocT n_massu) (EUn I2T (EInt 0)));
(n_propg, NProp (EUn I2T (EInt 0)) (EUn I2T (EInt 0)))]
gguu_ctor
[gguu_set_masses; gguu_set_momenta; gguu_amp_Num; gguu_amp2_Feynman; gguu_amp2; gguu_amp2_gplus_gplus; gguu_amp2_gplus_gminus].

(** guAu::guAu: SM/guAu.cpp 32-54 *)
Definition guAu_ctor : stmt :=
(SLoc rT n_two (EUn I2T (EInt 2));,
SMemT n_sqrt2 (EUn SqrtT (ELocT n_two));,
SParticle 0 (EUn I2T (EInt 0));,
SParticle 1 (EMemT n_mu);,
SParticle 2 (EUn I2T (EInt 0));,
SParticle 3 (EMemT n_mu);,
SSprod n_s34s false 2 [] 3;,
SSprod n_a34a true 2 [] 3;,
SSprod n_s12s false 0 [] 1;,
SSprod n_a12a true 0 [] 1;,
SSprod n_s13s false 0 [] 2;,
SSprod n_a13a true 0 [] 2;,
SSprod n_s24s false 1 [] 3;,
SSprod n_a24a true 1 [] 3;,
SSprod n_s23s false 1 [] 2;,
SSprod n_a23a true 1 [] 2;,
SSprod n_s14s false 0 [] 3;,
SSprod n_a14a true 0 [] 3;,
SSprod n_s143a false 0 [3] 2;,
SSprod n_s341a false 2 [3] 0).
(** guAu::set_masses: SM/guAu.cpp 55-60 *)
Definition guAu_set_masses : meth := mkMeth n_set_masses [(n_massu, PkT)]
(SMemT n_mu (ELocT n_massu);,
SSetMass 1 (EMemT n_mu);,
SSetMass 3 (EMemT n_mu);,
SPropMass n_prop (EMemT n_mu)).
(** guAu::set_momenta: SM/guAu.cpp 61-90 *)
Definition guAu_set_momenta : meth := mkMeth n_set_momenta [(n_mom1, PkMom); (n_mom2, PkMom); (n_mom3, PkMom); (n_mom4, PkMom)]
(SSetMomentum 0 n_mom1;,
SSetMomentum 1 n_mom2;,
SSetMomentum 2 n_mom3;,
SSetMomentum 3 n_mom4;,
SUpdate n_s34s;,
SUpdate n_a34a;,
SUpdate n_s12s;,
SUpdate n_a12a;,
SUpdate n_s13s;,
SUpdate n_a13a;,
SUpdate n_s24s;,
SUpdate n_a24a;,
SUpdate n_s23s;,
SUpdate n_a23a;,
SUpdate n_s14s;,
SUpdate n_a14a;,
SUpdate n_s143a;,
SUpdate n_s341a;,
SDeclT n_propSP 4;,
SDeclT n_propUP 4;,
(SFor n_j (EInt 0) (EBin (CmpI CLt) (ELocI n_j) (EInt 4)) (EBin (OpI IAdd) (ELocI n_j) (EInt 1))
(SArrT n_propSP (AVar n_j) ((EArrT n_mom1 (AVar n_j)) +t (EArrT n_mom2 (AVar n_j)));,
SArrT n_propUP (AVar n_j) ((EArrT n_mom1 (AVar n_j)) -t (EArrT n_mom4 (AVar n_j)))));,
SMemC n_pDenS (EDen n_prop n_propSP);,
SMemC n_pDenU (EDen n_prop n_propUP)).
(** guAu::amp: SM/guAu.cpp 97-123 *)
Definition guAu_amp : meth := mkMeth n_amp [(n_ds1, PkI); (n_ds2, PkI); (n_ds3, PkI); (n_ds4, PkI)]
((SIf (EAnd (EBin (CmpI CGt) (ELocI n_ds1) (EInt 0)) (EBin (CmpI CGt) (ELocI n_ds3) (EInt 0)))
(SReturnC ((((((((((EUn D2T (ELit (2 # 1))) *t (EMemT n_e)) *t (EMemT n_Qu)) *t (EMemT n_gs)) *t (EMemT n_mu)) *tc (EV n_s13s [])) *c (EV n_s13s [])) *c (EV n_a24a [(AVar n_ds2); (AVar n_ds4)])) /c (EMemC n_pDenU)) /c (EMemC n_pDenS)))
((SIf (EAnd (EBin (CmpI CLt) (ELocI n_ds1) (EInt 0)) (EBin (CmpI CLt) (ELocI n_ds3) (EInt 0)))
(SReturnC ((((((((((EUn D2T (EUn NegD (ELit (2 # 1)))) *t (EMemT n_e)) *t (EMemT n_Qu)) *t (EMemT n_gs)) *t (EMemT n_mu)) *tc (EV n_a13a [])) *c (EV n_a13a [])) *c (EV n_s24s [(AVar n_ds2); (AVar n_ds4)])) /c (EMemC n_pDenU)) /c (EMemC n_pDenS)))
((SIf (EAnd (EBin (CmpI CGt) (ELocI n_ds1) (EInt 0)) (EBin (CmpI CLt) (ELocI n_ds3) (EInt 0)))
(SReturnC ((((((((EUn D2T (ELit (2 # 1))) *t (EMemT n_e)) *t (EMemT n_Qu)) *t (EMemT n_gs)) *tc (((EV n_s14s [(AVar n_ds4)]) *c (EV n_a23a [(AVar n_ds2)])) +c ((EV n_s12s [(AVar n_ds2)]) *c (EV n_a34a [(AVar n_ds4)])))) *c (EV n_s143a [])) /c (EMemC n_pDenU)) /c (EMemC n_pDenS)))
((SIf (EAnd (EBin (CmpI CLt) (ELocI n_ds1) (EInt 0)) (EBin (CmpI CGt) (ELocI n_ds3) (EInt 0)))
(SReturnC ((((((((EUn D2T (EUn NegD (ELit (2 # 1)))) *t (EMemT n_e)) *t (EMemT n_Qu)) *t (EMemT n_gs)) *tc (((EV n_a14a [(AVar n_ds4)]) *c (EV n_s23s [(AVar n_ds2)])) +c ((EV n_a12a [(AVar n_ds2)]) *c (EV n_s34s [(AVar n_ds4)])))) *c (EV n_s341a [])) /c (EMemC n_pDenU)) /c (EMemC n_pDenS)))
(SSkip))))))));,
SReturnC (EBin OpTTC (EUn I2T (EInt 0)) (EUn I2T (EInt 0)))).
(** guAu::amp2: SM/guAu.cpp 127-142 *)
Definition guAu_amp2 : meth := mkMeth n_amp2 []
(SLoc rT n_amp2 (EUn I2T (EInt 0));,
SDecl rC n_M;,
(SFor n_j1 (EUn NegI (EInt 2)) (EBin (CmpI CLe) (ELocI n_j1) (EInt 2)) (EBin (OpI IAdd) (ELocI n_j1) (EInt 4))
(SFor n_j2 (EUn NegI (EInt 1)) (EBin (CmpI CLe) (ELocI n_j2) (EInt 1)) (EBin (OpI IAdd) (ELocI n_j2) (EInt 2))
(SFor n_j3 (EUn NegI (EInt 2)) (EBin (CmpI CLe) (ELocI n_j3) (EInt 2)) (EBin (OpI IAdd) (ELocI n_j3) (EInt 4))
(SFor n_j4 (EUn NegI (EInt 1)) (EBin (CmpI CLe) (ELocI n_j4) (EInt 1)) (EBin (OpI IAdd) (ELocI n_j4) (EInt 2))
(SLoc rC n_M (ECall n_amp [(AVar n_j1); (AVar n_j2); (AVar n_j3); (AVar n_j4)]);,
SLoc rT n_amp2 ((ELocT n_amp2) +t ((EUn D2T (ELit (4 # 1))) *t (EUn Pow2T (EUn AbsC (ELocC n_M))))))))));,
SReturnT ((ELocT n_amp2) /t (EUn D2T (ELit (96 # 1))))).
(** guAu::amp2_gplus: SM/guAu.cpp 145-159 *)
Definition guAu_amp2_gplus : meth := mkMeth n_amp2_gplus []
(SLoc rT n_amp2 (EUn I2T (EInt 0));,
SDecl rC n_M;,
(SFor n_j2 (EUn NegI (EInt 1)) (EBin (CmpI CLe) (ELocI n_j2) (EInt 1)) (EBin (OpI IAdd) (ELocI n_j2) (EInt 2))
(SFor n_j3 (EUn NegI (EInt 2)) (EBin (CmpI CLe) (ELocI n_j3) (EInt 2)) (EBin (OpI IAdd) (ELocI n_j3) (EInt 4))
(SFor n_j4 (EUn NegI (EInt 1)) (EBin (CmpI CLe) (ELocI n_j4) (EInt 1)) (EBin (OpI IAdd) (ELocI n_j4) (EInt 2))
(SLoc rC n_M (ECall n_amp [(ALit 2); (AVar n_j2); (AVar n_j3); (AVar n_j4)]);,
SLoc rT n_amp2 ((ELocT n_amp2) +t ((EUn D2T (ELit (4 # 1))) *t (EUn Pow2T (EUn AbsC (ELocC n_M)))))))));,
SReturnT ((ELocT n_amp2) /t (EUn D2T (ELit (48 # 1))))).
(** guAu::amp2_gminus: SM/guAu.cpp 162-176 *)
Definition guAu_amp2_gminus : meth := mkMeth n_amp2_gminus []
(SLoc rT n_amp2 (EUn I2T (EInt 0));,
SDecl rC n_M;,
(SFor n_j2 (EUn NegI (EInt 1)) (EBin (CmpI CLe) (ELocI n_j2) (EInt 1)) (EBin (OpI IAdd) (ELocI n_j2) (EInt 2))
(SFor n_j3 (EUn NegI (EInt 2)) (EBin (CmpI CLe) (ELocI n_j3) (EInt 2)) (EBin (OpI IAdd) (ELocI n_j3) (EInt 4))
(SFor n_j4 (EUn NegI (EInt 1)) (EBin (CmpI CLe) (ELocI n_j4) (EInt 1)) (EBin (OpI IAdd) (ELocI n_j4) (EInt 2))
(SLoc rC n_M (ECall n_amp [(ALit (-2)); (AVar n_j2); (AVar n_j3); (AVar n_j4)]);,
SLoc rT n_amp2 ((ELocT n_amp2) +t ((EUn D2T (ELit (4 # 1))) *t (EUn Pow2T (EUn AbsC (ELocC n_M)))))))));,
SReturnT ((ELocT n_amp2) /t (EUn D2T (ELit (48 # 1))))).
(** members: SM/include/guAu.h 26-32; initialisers: SM/guAu.cpp 32-33 *)
Definition guAu : cls := mkCls "guAu"
[(n_e, KT);
(n_Qu, KT);
(n_gs, KT);
(n_mu, KT);
(n_p1, (KPart 0));
(n_p2, (KPart 1));
(n_p3, (KPart 2));
(n_p4, (KPart 3));
(n_prop, KProp);
(n_pDenS, KC);
(n_pDenU, KC);
(n_s34s, KSprod);
(n_a34a, KSprod);
(n_s12s, KSprod);
(n_a12a, KSprod);
(n_s13s, KSprod);
(n_a13a, KSprod);
(n_s24s, KSprod);
(n_a24a, KSprod);
(n_s23s, KSprod);
(n_a23a, KSprod);
(n_s14s, KSprod);
(n_a14a, KSprod);
(n_s143a, KSprod);
(n_s341a, KSprod);
(n_sqrt2, KT)]
[n_echarge; n_gscharge; n_massu]
[(n_e, NT (ELocT n_echarge));
(n_Qu, NT (EUn D2T ((ELit (2 # 1)) /d (ELit (3 # 1)))));
(n_gs, NT (ELocT n_gscharge));
(n_mu, NT (ELocT n_massu));
(n_prop, NProp (ELocT n_massu) (EUn I2T (EInt 0)))]
guAu_ctor
[guAu_set_masses; guAu_set_momenta; guAu_amp; guAu_amp2; guAu_amp2_gplus; guAu_amp2_gminus].

(** guZu::guZu: SM/guZu.cpp 32-65 *)
Definition guZu_ctor : stmt :=
(SLoc rT n_two (EUn I2T (EInt 2));,
SMemT n_sqrt2 (EUn SqrtT (ELocT n_two));,
SMemT n_MZ ((EMemT n_MW) /t (EMemT n_CW));,
SParticle 0 (EUn I2T (EInt 0));,
SParticle 1 (EMemT n_mu);,
SParticle 2 (EMemT n_MZ);,
SParticle 3 (EMemT n_mu);,
SSprod n_s12s false 0 [] 1;,
SSprod n_s13s false 0 [] 2;,
SSprod n_s14s false 0 [] 3;,
SSprod n_a23a true 1 [] 2;,
SSprod n_a34a true 2 [] 3;,
SSprod n_s123a false 0 [1] 2;,
SSprod n_s132a false 0 [2] 1;,
SSprod n_s134a false 0 [2] 3;,
SSprod n_s143a false 0 [3] 2;,
SSprod n_a12a true 0 [] 1;,
SSprod n_a13a true 0 [] 2;,
SSprod n_a14a true 0 [] 3;,
SSprod n_s23s false 1 [] 2;,
SSprod n_s34s false 2 [] 3;,
SSprod n_a123s true 0 [1] 2;,
SSprod n_a132s true 0 [2] 1;,
SSprod n_a134s true 0 [2] 3;,
SSprod n_a143s true 0 [3] 2;,
SMemT n_preTU ((((EUn D2T (ELit (2 # 1))) *t (EMemT n_e)) *t (EMemT n_gs)) /t (((EUn D2T (ELit (2 # 1))) *t (EMemT n_MW)) *t (EMemT n_SW)));,
SMemT n_gL (((((EUn D2T (EUn NegD (ELit (2 # 1)))) *t (EMemT n_Qu)) *t (EMemT n_SW)) *t (EMemT n_SW)) +t (EUn D2T (ELit (1 # 1))));,
SMemT n_gR ((((EUn D2T (EUn NegD (ELit (2 # 1)))) *t (EMemT n_Qu)) *t (EMemT n_SW)) *t (EMemT n_SW))).
(** guZu::set_masses: SM/guZu.cpp 66-77 *)
Definition guZu_set_masses : meth := mkMeth n_set_masses [(n_massu, PkT); (n_massW, PkT)]
(SMemT n_mu (ELocT n_massu);,
SMemT n_MW (ELocT n_massW);,
SMemT n_MZ ((EMemT n_MW) /t (EMemT n_CW));,
SSetMass 0 (EUn I2T (EInt 0));,
SSetMass 1 (EMemT n_mu);,
SSetMass 2 (EMemT n_MZ);,
SSetMass 3 (EMemT n_mu);,
SPropMass n_prope (EMemT n_mu);,
SMemT n_preTU ((((EUn D2T (ELit (2 # 1))) *t (EMemT n_e)) *t (EMemT n_gs)) /t (((EUn D2T (ELit (2 # 1))) *t (EMemT n_MW)) *t (EMemT n_SW)))).
(** guZu::set_momenta: SM/guZu.cpp 78-112 *)
Definition guZu_set_momenta : meth := mkMeth n_set_momenta [(n_mom1, PkMom); (n_mom2, PkMom); (n_mom3, PkMom); (n_mom4, PkMom)]
(SSetMomentum 0 n_mom1;,
SSetMomentum 1 n_mom2;,
SSetMomentum 2 n_mom3;,
SSetMomentum 3 n_mom4;,
SUpdate n_s12s;,
SUpdate n_s13s;,
SUpdate n_s14s;,
SUpdate n_a23a;,
SUpdate n_a34a;,
SUpdate n_s123a;,
SUpdate n_s132a;,
SUpdate n_s134a;,
SUpdate n_s143a;,
SUpdate n_a12a;,
SUpdate n_a13a;,
SUpdate n_a14a;,
SUpdate n_s23s;,
SUpdate n_s34s;,
SUpdate n_a123s;,
SUpdate n_a132s;,
SUpdate n_a134s;,
SUpdate n_a143s;,
SDeclT n_propSP 4;,
SDeclT n_propUP 4;,
(SFor n_j (EInt 0) (EBin (CmpI CLt) (ELocI n_j) (EInt 4)) (EBin (OpI IAdd) (ELocI n_j) (EInt 1))
(SArrT n_propSP (AVar n_j) ((EArrT n_mom1 (AVar n_j)) +t (EArrT n_mom2 (AVar n_j)));,
SArrT n_propUP (AVar n_j) ((EArrT n_mom1 (AVar n_j)) -t (EArrT n_mom4 (AVar n_j)))));,
SMemC n_pDenS (EDen n_prope n_propSP);,
SMemC n_pDenU (EDen n_prope n_propUP)).
(** guZu::amp: SM/guZu.cpp 117-176 *)
Definition guZu_amp : meth := mkMeth n_amp [(n_ds1, PkI); (n_ds2, PkI); (n_ds3, PkI); (n_ds4, PkI)]
(SLoc rC n_amplitude (EBin OpTTC (EUn I2T (EInt 0)) (EUn I2T (EInt 0)));,
SDecl rI n_ds3a;,
SDecl rI n_ds3b;,
SLoc rT n_two (EUn I2T (EInt 2));,
SLoc rI n_nCombs (ENLoops [(AVar n_ds3)]);,
SLoc rT n_normFactor (ENorm [(AVar n_ds3)]);,
(SFor n_i (EInt 0) (EBin (CmpI CLt) (ELocI n_i) (ELocI n_nCombs)) (EBin (OpI IAdd) (ELocI n_i) (EInt 1))
(SSpins [(n_ds3, n_ds3a, n_ds3b)] (AVar n_i);,
(SIf (EBin (CmpI CGt) (ELocI n_ds1) (EInt 0))
(SLoc rC n_amplitude ((ELocC n_amplitude) +c (((((ELocT n_normFactor) *t (EMemT n_preTU)) *tc ((((EMemT n_gL) *tc (EV n_a23a [(AVar n_ds2); (AVar n_ds3a)])) *c ((((EUn NegT (EMemT n_MZ)) *tc (EV n_s14s [(AVar n_ds4)])) *c (EV n_s123a [(AVar n_ds3b)])) -c (((EMemT n_mu) *tc (EV n_s13s [(AVar n_ds3b)])) *c (EV n_s134a [(AVar n_ds4)])))) +c (((EMemT n_gR) *tc (EV n_a34a [(AVar n_ds3a); (AVar n_ds4)])) *c ((((EUn NegT (EMemT n_mu)) *tc (EV n_s13s [(AVar n_ds3b)])) *c (EV n_s132a [(AVar n_ds2)])) -c (((EMemT n_MZ) *tc (EV n_s12s [(AVar n_ds2)])) *c (EV n_s143a [(AVar n_ds3b)])))))) /c (EMemC n_pDenU)) /c (EMemC n_pDenS))))
((SIf (EBin (CmpI CLt) (ELocI n_ds1) (EInt 0))
(SLoc rC n_amplitude ((ELocC n_amplitude) +c (((((ELocT n_normFactor) *t (EMemT n_preTU)) *tc ((((EMemT n_gR) *tc (EV n_s23s [(AVar n_ds2); (AVar n_ds3a)])) *c ((((EUn NegT (EMemT n_MZ)) *tc (EV n_a14a [(AVar n_ds4)])) *c (EV n_a123s [(AVar n_ds3b)])) -c (((EMemT n_mu) *tc (EV n_a13a [(AVar n_ds3b)])) *c (EV n_a134s [(AVar n_ds4)])))) +c (((EMemT n_gL) *tc (EV n_s34s [(AVar n_ds3a); (AVar n_ds4)])) *c ((((EUn NegT (EMemT n_mu)) *tc (EV n_a13a [(AVar n_ds3b)])) *c (EV n_a132s [(AVar n_ds2)])) -c (((EMemT n_MZ) *tc (EV n_a12a [(AVar n_ds2)])) *c (EV n_a143s [(AVar n_ds3b)])))))) /c (EMemC n_pDenU)) /c (EMemC n_pDenS))))
(SSkip))))));,
SReturnC (ELocC n_amplitude)).
(** guZu::amp2: SM/guZu.cpp 179-194 *)
Definition guZu_amp2 : meth := mkMeth n_amp2 []
(SLoc rT n_amp2 (EUn I2T (EInt 0));,
SDecl rC n_M;,
(SFor n_j1 (EUn NegI (EInt 2)) (EBin (CmpI CLe) (ELocI n_j1) (EInt 2)) (EBin (OpI IAdd) (ELocI n_j1) (EInt 4))
(SFor n_j2 (EUn NegI (EInt 1)) (EBin (CmpI CLe) (ELocI n_j2) (EInt 1)) (EBin (OpI IAdd) (ELocI n_j2) (EInt 2))
(SFor n_j3 (EUn NegI (EInt 2)) (EBin (CmpI CLe) (ELocI n_j3) (EInt 2)) (EBin (OpI IAdd) (ELocI n_j3) (EInt 2))
(SFor n_j4 (EUn NegI (EInt 1)) (EBin (CmpI CLe) (ELocI n_j4) (EInt 1)) (EBin (OpI IAdd) (ELocI n_j4) (EInt 2))
(SLoc rC n_M (ECall n_amp [(AVar n_j1); (AVar n_j2); (AVar n_j3); (AVar n_j4)]);,
SLoc rT n_amp2 ((ELocT n_amp2) +t ((EUn D2T (ELit (4 # 1))) *t (EUn Pow2T (EUn AbsC (ELocC n_M))))))))));,
SReturnT ((ELocT n_amp2) /t (EUn D2T (ELit (96 # 1))))).
(** guZu::amp2_gplus: SM/guZu.cpp 196-210 *)
Definition guZu_amp2_gplus : meth := mkMeth n_amp2_gplus []
(SLoc rT n_amp2 (EUn I2T (EInt 0));,
SDecl rC n_M;,
(SFor n_j2 (EUn NegI (EInt 1)) (EBin (CmpI CLe) (ELocI n_j2) (EInt 1)) (EBin (OpI IAdd) (ELocI n_j2) (EInt 2))
(SFor n_j3 (EUn NegI (EInt 2)) (EBin (CmpI CLe) (ELocI n_j3) (EInt 2)) (EBin (OpI IAdd) (ELocI n_j3) (EInt 2))
(SFor n_j4 (EUn NegI (EInt 1)) (EBin (CmpI CLe) (ELocI n_j4) (EInt 1)) (EBin (OpI IAdd) (ELocI n_j4) (EInt 2))
(SLoc rC n_M (ECall n_amp [(ALit 2); (AVar n_j2); (AVar n_j3); (AVar n_j4)]);,
SLoc rT n_amp2 ((ELocT n_amp2) +t ((EUn D2T (ELit (4 # 1))) *t (EUn Pow2T (EUn AbsC (ELocC n_M)))))))));,
SReturnT ((ELocT n_amp2) /t (EUn D2T (ELit (48 # 1))))).
(** guZu::amp2_gminus: SM/guZu.cpp 212-226 *)
Definition guZu_amp2_gminus : meth := mkMeth n_amp2_gminus []
(SLoc rT n_amp2 (EUn I2T (EInt 0));,
SDecl rC n_M;,
(SFor n_j2 (EUn NegI (EInt 1)) (EBin (CmpI CLe) (ELocI n_j2) (EInt 1)) (EBin (OpI IAdd) (ELocI n_j2) (EInt 2))
(SFor n_j3 (EUn NegI (EInt 2)) (EBin (CmpI CLe) (ELocI n_j3) (EInt 2)) (EBin (OpI IAdd) (ELocI n_j3) (EInt 2))
(SFor n_j4 (EUn NegI (EInt 1)) (EBin (CmpI CLe) (ELocI n_j4) (EInt 1)) (EBin (OpI IAdd) (ELocI n_j4) (EInt 2))
(SLoc rC n_M (ECall n_amp [(ALit (-2)); (AVar n_j2); (AVar n_j3); (AVar n_j4)]);,
SLoc rT n_amp2 ((ELocT n_amp2) +t ((EUn D2T (ELit (4 # 1))) *t (EUn Pow2T (EUn AbsC (ELocC n_M)))))))));,
SReturnT ((ELocT n_amp2) /t (EUn D2T (ELit (48 # 1))))).
(** members: SM/include/guZu.h 26-35; initialisers: SM/guZu.cpp 32-33 *)
Definition guZu : cls := mkCls "guZu"
[(n_e, KT);
(n_Qu, KT);
(n_gs, KT);
(n_mu, KT);
(n_MW, KT);
(n_SW, KT);
(n_CW, KT);
(n_MZ, KT);
(n_p1, (KPart 0));
(n_p2, (KPart 1));
(n_p3, (KPart 2));
(n_p4, (KPart 3));
(n_prope, KProp);
(n_pDenS, KC);
(n_pDenU, KC);
(n_s12s, KSprod);
(n_s13s, KSprod);
(n_s14s, KSprod);
(n_a23a, KSprod);
(n_a34a, KSprod);
(n_s123a, KSprod);
(n_s132a, KSprod);
(n_s134a, KSprod);
(n_s143a, KSprod);
(n_a12a, KSprod);
(n_a13a, KSprod);
(n_a14a, KSprod);
(n_s23s, KSprod);
(n_s34s, KSprod);
(n_a123s, KSprod);
(n_a132s, KSprod);
(n_a134s, KSprod);
(n_a143s, KSprod);
(n_sqrt2, KT);
(n_preTU, KT);
(n_preh, KT);
(n_gL, KT);
(n_gR, KT)]
[n_echarge; n_gscharge; n_massu; n_massW; n_sinW]
[(n_e, NT (ELocT n_echarge));
(n_Qu, NT (EUn D2T ((ELit (2 # 1)) /d (ELit (3 # 1)))));
(n_gs, NT (ELocT n_gscharge));
(n_mu, NT (ELocT n_massu));
(n_MW, NT (ELocT n_massW));
(n_SW, NT (ELocT n_sinW));
(n_CW, NT (EUn SqrtT ((EUn D2T (ELit (1 # 1))) -t ((ELocT n_sinW) *t (ELocT n_sinW)))));
(n_MZ, NT ((ELocT n_massW) /t (EMemT n_CW)));
(n_prope, NProp (ELocT n_massu) (EUn I2T (EInt 0)))]
guZu_ctor
[guZu_set_masses; guZu_set_momenta; guZu_amp; guZu_amp2; guZu_amp2_gplus; guZu_amp2_gminus].

(** gugu::gugu: SM/gugu.cpp 32-54 *)
Definition gugu_ctor : stmt :=
(SLoc rT n_two (EUn I2T (EInt 2));,
SMemT n_sqrt2 (EUn SqrtT (ELocT n_two));,
SParticle 0 (EUn I2T (EInt 0));,
SParticle 1 (EMemT n_mu);,
SParticle 2 (EUn I2T (EInt 0));,
SParticle 3 (EMemT n_mu);,
SSprod n_s34s false 2 [] 3;,
SSprod n_a34a true 2 [] 3;,
SSprod n_s12s false 0 [] 1;,
SSprod n_a12a true 0 [] 1;,
SSprod n_s13s false 0 [] 2;,
SSprod n_a13a true 0 [] 2;,
SSprod n_s24s false 1 [] 3;,
SSprod n_a24a true 1 [] 3;,
SSprod n_s23s false 1 [] 2;,
SSprod n_a23a true 1 [] 2;,
SSprod n_s14s false 0 [] 3;,
SSprod n_a14a true 0 [] 3;,
SSprod n_s143a false 0 [3] 2;,
SSprod n_s341a false 2 [3] 0).
(** gugu::set_masses: SM/gugu.cpp 55-60 *)
Definition gugu_set_masses : meth := mkMeth n_set_masses [(n_massu, PkT)]
(SMemT n_mu (ELocT n_massu);,
SSetMass 1 (EMemT n_mu);,
SSetMass 3 (EMemT n_mu);,
SPropMass n_propu (EMemT n_mu)).
(** gugu::set_momenta: SM/gugu.cpp 61-92 *)
Definition gugu_set_momenta : meth := mkMeth n_set_momenta [(n_mom1, PkMom); (n_mom2, PkMom); (n_mom3, PkMom); (n_mom4, PkMom)]
(SSetMomentum 0 n_mom1;,
SSetMomentum 1 n_mom2;,
SSetMomentum 2 n_mom3;,
SSetMomentum 3 n_mom4;,
SUpdate n_s34s;,
SUpdate n_a34a;,
SUpdate n_s12s;,
SUpdate n_a12a;,
SUpdate n_s13s;,
SUpdate n_a13a;,
SUpdate n_s24s;,
SUpdate n_a24a;,
SUpdate n_s23s;,
SUpdate n_a23a;,
SUpdate n_s14s;,
SUpdate n_a14a;,
SUpdate n_s143a;,
SUpdate n_s341a;,
SDeclT n_propSP 4;,
SDeclT n_propTP 4;,
SDeclT n_propUP 4;,
(SFor n_j (EInt 0) (EBin (CmpI CLt) (ELocI n_j) (EInt 4)) (EBin (OpI IAdd) (ELocI n_j) (EInt 1))
(SArrT n_propSP (AVar n_j) ((EArrT n_mom1 (AVar n_j)) +t (EArrT n_mom2 (AVar n_j)));,
SArrT n_propTP (AVar n_j) ((EArrT n_mom1 (AVar n_j)) -t (EArrT n_mom3 (AVar n_j)));,
SArrT n_propUP (AVar n_j) ((EArrT n_mom1 (AVar n_j)) -t (EArrT n_mom4 (AVar n_j)))));,
SMemT n_pDenT (EUn ReC (EDen n_propg n_propTP));,
SMemT n_pDenU (EUn ReC (EDen n_propu n_propUP));,
SMemT n_pDenS (EUn ReC (EDen n_propu n_propSP))).
(** gugu::amp_Num: SM/gugu.cpp 99-125 *)
Definition gugu_amp_Num : meth := mkMeth n_amp_Num [(n_ds1, PkI); (n_ds2, PkI); (n_ds3, PkI); (n_ds4, PkI)]
((SIf (EAnd (EBin (CmpI CGt) (ELocI n_ds1) (EInt 0)) (EBin (CmpI CGt) (ELocI n_ds3) (EInt 0)))
(SReturnC (((((((EUn D2T (ELit (2 # 1))) *t (EMemT n_gs)) *t (EMemT n_gs)) *t (EMemT n_mu)) *tc (EV n_s13s [])) *c (EV n_s13s [])) *c (EV n_a24a [(AVar n_ds2); (AVar n_ds4)])))
((SIf (EAnd (EBin (CmpI CLt) (ELocI n_ds1) (EInt 0)) (EBin (CmpI CLt) (ELocI n_ds3) (EInt 0)))
(SReturnC (((((((EUn D2T (EUn NegD (ELit (2 # 1)))) *t (EMemT n_gs)) *t (EMemT n_gs)) *t (EMemT n_mu)) *tc (EV n_a13a [])) *c (EV n_a13a [])) *c (EV n_s24s [(AVar n_ds2); (AVar n_ds4)])))
((SIf (EAnd (EBin (CmpI CGt) (ELocI n_ds1) (EInt 0)) (EBin (CmpI CLt) (ELocI n_ds3) (EInt 0)))
(SReturnC (((((EUn D2T (ELit (2 # 1))) *t (EMemT n_gs)) *t (EMemT n_gs)) *tc (((EV n_s14s [(AVar n_ds4)]) *c (EV n_a23a [(AVar n_ds2)])) +c ((EV n_s12s [(AVar n_ds2)]) *c (EV n_a34a [(AVar n_ds4)])))) *c (EV n_s143a [])))
((SIf (EAnd (EBin (CmpI CLt) (ELocI n_ds1) (EInt 0)) (EBin (CmpI CGt) (ELocI n_ds3) (EInt 0)))
(SReturnC (((((EUn D2T (EUn NegD (ELit (2 # 1)))) *t (EMemT n_gs)) *t (EMemT n_gs)) *tc (((EV n_a14a [(AVar n_ds4)]) *c (EV n_s23s [(AVar n_ds2)])) +c ((EV n_a12a [(AVar n_ds2)]) *c (EV n_s34s [(AVar n_ds4)])))) *c (EV n_s341a [])))
(SSkip))))))));,
SReturnC (EBin OpTTC (EUn I2T (EInt 0)) (EUn I2T (EInt 0)))).
(** gugu::amp2: SM/gugu.cpp 129-144 *)
Definition gugu_amp2 : meth := mkMeth n_amp2 []
(SLoc rT n_amp2 (EUn I2T (EInt 0));,
SDecl rC n_M_Num;,
(SFor n_j1 (EUn NegI (EInt 2)) (EBin (CmpI CLe) (ELocI n_j1) (EInt 2)) (EBin (OpI IAdd) (ELocI n_j1) (EInt 4))
(SFor n_j2 (EUn NegI (EInt 1)) (EBin (CmpI CLe) (ELocI n_j2) (EInt 1)) (EBin (OpI IAdd) (ELocI n_j2) (EInt 2))
(SFor n_j3 (EUn NegI (EInt 2)) (EBin (CmpI CLe) (ELocI n_j3) (EInt 2)) (EBin (OpI IAdd) (ELocI n_j3) (EInt 4))
(SFor n_j4 (EUn NegI (EInt 1)) (EBin (CmpI CLe) (ELocI n_j4) (EInt 1)) (EBin (OpI IAdd) (ELocI n_j4) (EInt 2))
(SLoc rC n_M_Num (ECall n_amp_Num [(AVar n_j1); (AVar n_j2); (AVar n_j3); (AVar n_j4)]);,
SLoc rT n_amp2 ((ELocT n_amp2) +t ((EUn Pow2T (EUn AbsC (ELocC n_M_Num))) *t ((((EUn D2T (ELit (6 # 1))) /t (EUn Pow2T ((EMemT n_pDenT) *t (EMemT n_pDenU)))) +t ((EUn D2T (ELit (6 # 1))) /t (EUn Pow2T ((EMemT n_pDenT) *t (EMemT n_pDenS))))) -t ((EUn D2T ((ELit (2 # 1)) /d (ELit (3 # 1)))) /t (EUn Pow2T ((EMemT n_pDenU) *t (EMemT n_pDenS))))))))))));,
SReturnT ((ELocT n_amp2) /t (EUn D2T (ELit (96 # 1))))).
(** gugu::amp2_gplus: SM/gugu.cpp 147-161 *)
Definition gugu_amp2_gplus : meth := mkMeth n_amp2_gplus []
(SLoc rT n_amp2 (EUn I2T (EInt 0));,
SDecl rC n_M_Num;,
(SFor n_j2 (EUn NegI (EInt 1)) (EBin (CmpI CLe) (ELocI n_j2) (EInt 1)) (EBin (OpI IAdd) (ELocI n_j2) (EInt 2))
(SFor n_j3 (EUn NegI (EInt 2)) (EBin (CmpI CLe) (ELocI n_j3) (EInt 2)) (EBin (OpI IAdd) (ELocI n_j3) (EInt 4))
(SFor n_j4 (EUn NegI (EInt 1)) (EBin (CmpI CLe) (ELocI n_j4) (EInt 1)) (EBin (OpI IAdd) (ELocI n_j4) (EInt 2))
(SLoc rC n_M_Num (ECall n_amp_Num [(ALit 2); (AVar n_j2); (AVar n_j3); (AVar n_j4)]);,
SLoc rT n_amp2 ((ELocT n_amp2) +t ((EUn Pow2T (EUn AbsC (ELocC n_M_Num))) *t ((((EUn D2T (ELit (6 # 1))) /t (EUn Pow2T ((EMemT n_pDenT) *t (EMemT n_pDenU)))) +t ((EUn D2T (ELit (6 # 1))) /t (EUn Pow2T ((EMemT n_pDenT) *t (EMemT n_pDenS))))) -t ((EUn D2T ((ELit (2 # 1)) /d (ELit (3 # 1)))) /t (EUn Pow2T ((EMemT n_pDenU) *t (EMemT n_pDenS)))))))))));,
SReturnT ((ELocT n_amp2) /t (EUn D2T (ELit (48 # 1))))).
(** gugu::amp2_gminus: SM/gugu.cpp 164-178 *)
Definition gugu_amp2_gminus : meth := mkMeth n_amp2_gminus []
(SLoc rT n_amp2 (EUn I2T (EInt 0));,
SDecl rC n_M_Num;,
(SFor n_j2 (EUn NegI (EInt 1)) (EBin (CmpI CLe) (ELocI n_j2) (EInt 1)) (EBin (OpI IAdd) (ELocI n_j2) (EInt 2))
(SFor n_j3 (EUn NegI (EInt 2)) (EBin (CmpI CLe) (ELocI n_j3) (EInt 2)) (EBin (OpI IAdd) (ELocI n_j3) (EInt 4))
(SFor n_j4 (EUn NegI (EInt 1)) (EBin (CmpI CLe) (ELocI n_j4) (EInt 1)) (EBin (OpI IAdd) (ELocI n_j4) (EInt 2))
(SLoc rC n_M_Num (ECall n_amp_Num [(ALit (-2)); (AVar n_j2); (AVar n_j3); (AVar n_j4)]);,
SLoc rT n_amp2 ((ELocT n_amp2) +t ((EUn Pow2T (EUn AbsC (ELocC n_M_Num))) *t ((((EUn D2T (ELit (6 # 1))) /t (EUn Pow2T ((EMemT n_pDenT) *t (EMemT n_pDenU)))) +t ((EUn D2T (ELit (6 # 1))) /t (EUn Pow2T ((EMemT n_pDenT) *t (EMemT n_pDenS))))) -t ((EUn D2T ((ELit (2 # 1)) /d (ELit (3 # 1)))) /t (EUn Pow2T ((EMemT n_pDenU) *t (EMemT n_pDenS)))))))))));,
SReturnT ((ELocT n_amp2) /t (EUn D2T (ELit (48 # 1))))).
(** members: SM/include/gugu.h 26-32; initialisers: SM/gugu.cpp 32-33 *)
Definition gugu : cls := mkCls "gugu"
[(n_gs, KT);
(n_mu, KT);
(n_p1, (KPart 0));
(n_p2, (KPart 1));
(n_p3, (KPart 2));
(n_p4, (KPart 3));
(n_propu, KProp);
(n_propg, KProp);
(n_pDenS, KT);
(n_pDenT, KT);
(n_pDenU, KT);
(n_s34s, KSprod);
(n_a34a, KSprod);
(n_s12s, KSprod);
(n_a12a, KSprod);
(n_s13s, KSprod);
(n_a13a, KSprod);
(n_s24s, KSprod);
(n_a24a, KSprod);
(n_s23s, KSprod);
(n_a23a, KSprod);
(n_s14s, KSprod);
(n_a14a, KSprod);
(n_s143a, KSprod);
(n_s341a, KSprod);
(n_sqrt2, KT)]
[n_gcharge; n_massu]
[(n_gs, NT (ELocT n_gcharge));
(n_mu, NT (ELocT n_massu));
(n_propu, NProp (ELocT n_massu) (EUn I2T (EInt 0)));
(n_propg, NProp (EUn I2T (EInt 0)) (EUn I2T (EInt 0)))]
gugu_ctor
[gugu_set_masses; gugu_set_momenta; gugu_amp_Num; gugu_amp2; gugu_amp2_gplus; gugu_amp2_gminus].

(** hWWh::hWWh: SM/hWWh.cpp 32-52 *)
Definition hWWh_ctor : stmt :=
(SLoc rT n_two (EUn I2T (EInt 2));,
SMemT n_sqrt2 (EUn SqrtT (ELocT n_two));,
SMemT n_CW (EUn SqrtT ((EUn D2T (ELit (1 # 1))) -t ((ELocT n_sinW) *t (ELocT n_sinW))));,
SPropNew n_propW (EMemT n_MW) (EMemT n_WW);,
SPropNew n_proph (EMemT n_mh) (EMemT n_wh);,
SParticle 0 (EMemT n_mh);,
SParticle 1 (EMemT n_MW);,
SParticle 2 (EMemT n_MW);,
SParticle 3 (EMemT n_mh);,
SSprod n_s23s false 1 [] 2;,
SSprod n_a23a true 1 [] 2;,
SSprod n_s312a false 2 [0] 1;,
SSprod n_s213a false 1 [0] 2;,
SMemT n_pre ((((EUn D2T (ELit (2 # 1))) *t (EMemT n_e)) *t (EMemT n_e)) /t (((((EUn D2T (ELit (4 # 1))) *t (EMemT n_MW)) *t (EMemT n_MW)) *t (EMemT n_SW)) *t (EMemT n_SW)));,
SMemT n_preS ((((EUn D2T (ELit (3 # 1))) *t (EMemT n_pre)) *t (EMemT n_mh)) *t (EMemT n_mh))).
(** hWWh::set_masses: SM/hWWh.cpp 53-65 *)
Definition hWWh_set_masses : meth := mkMeth n_set_masses [(n_massh, PkT); (n_massW, PkT)]
(SMemT n_mh (ELocT n_massh);,
SMemT n_MW (ELocT n_massW);,
SSetMass 0 (EMemT n_mh);,
SSetMass 1 (EMemT n_MW);,
SSetMass 2 (EMemT n_MW);,
SSetMass 3 (EMemT n_mh);,
SPropMass n_propW (EMemT n_MW);,
SPropMass n_proph (EMemT n_mh);,
SMemT n_pre ((((EUn D2T (ELit (2 # 1))) *t (EMemT n_e)) *t (EMemT n_e)) /t (((((EUn D2T (ELit (4 # 1))) *t (EMemT n_MW)) *t (EMemT n_MW)) *t (EMemT n_SW)) *t (EMemT n_SW)));,
SMemT n_preS ((((EUn D2T (ELit (3 # 1))) *t (EMemT n_pre)) *t (EMemT n_mh)) *t (EMemT n_mh))).
(** hWWh::set_momenta: SM/hWWh.cpp 66-88 *)
Definition hWWh_set_momenta : meth := mkMeth n_set_momenta [(n_mom1, PkMom); (n_mom2, PkMom); (n_mom3, PkMom); (n_mom4, PkMom)]
(SSetMomentum 0 n_mom1;,
SSetMomentum 1 n_mom2;,
SSetMomentum 2 n_mom3;,
SSetMomentum 3 n_mom4;,
SUpdate n_s23s;,
SUpdate n_a23a;,
SUpdate n_s312a;,
SUpdate n_s213a;,
SDeclT n_propSP 4;,
SDeclT n_propTP 4;,
SDeclT n_propUP 4;,
(SFor n_j (EInt 0) (EBin (CmpI CLt) (ELocI n_j) (EInt 4)) (EBin (OpI IAdd) (ELocI n_j) (EInt 1))
(SArrT n_propSP (AVar n_j) ((EArrT n_mom1 (AVar n_j)) +t (EArrT n_mom2 (AVar n_j)));,
SArrT n_propTP (AVar n_j) ((EArrT n_mom1 (AVar n_j)) -t (EArrT n_mom3 (AVar n_j)));,
SArrT n_propUP (AVar n_j) ((EArrT n_mom1 (AVar n_j)) -t (EArrT n_mom4 (AVar n_j)))));,
SMemC n_pDenS (EDen n_propW n_propSP);,
SMemC n_pDenT (EDen n_propW n_propTP);,
SMemC n_pDenU (EDen n_proph n_propUP)).
(** hWWh::amp: SM/hWWh.cpp 93-151 *)
Definition hWWh_amp : meth := mkMeth n_amp [(n_ds2, PkI); (n_ds3, PkI)]
(SLoc rC n_amplitude (EBin OpTTC (EUn I2T (EInt 0)) (EUn I2T (EInt 0)));,
SLoc rT n_one (EUn I2T (EInt 1));,
SDecl rI n_ds3a;,
SDecl rI n_ds3b;,
SDecl rI n_ds2a;,
SDecl rI n_ds2b;,
SLoc rI n_nCombs (ENLoops [(AVar n_ds3); (AVar n_ds2)]);,
SLoc rT n_normFactor (ENorm [(AVar n_ds3); (AVar n_ds2)]);,
(SFor n_i (EInt 0) (EBin (CmpI CLt) (ELocI n_i) (ELocI n_nCombs)) (EBin (OpI IAdd) (ELocI n_i) (EInt 1))
(SSpins [(n_ds3, n_ds3a, n_ds3b); (n_ds2, n_ds2a, n_ds2b)] (AVar n_i);,
SLoc rC n_amplitude ((ELocC n_amplitude) +c ((((ELocT n_normFactor) *t (EMemT n_pre)) *tc (EV n_s23s [(AVar n_ds2a); (AVar n_ds3a)])) *c (EV n_a23a [(AVar n_ds2b); (AVar n_ds3b)])));,
SLoc rC n_amplitude ((ELocC n_amplitude) +c (((((EUn NegT (ELocT n_normFactor)) *t (EMemT n_preS)) *tc (EV n_s23s [(AVar n_ds2a); (AVar n_ds3a)])) *c (EV n_a23a [(AVar n_ds2b); (AVar n_ds3b)])) /c (EMemC n_pDenU)));,
SLoc rC n_amplitude ((ELocC n_amplitude) +c ((((((((((EUn NegT (ELocT n_normFactor)) *t (EMemT n_pre)) *t (EUn D2T (ELit (2 # 1)))) *t (EMemT n_MW)) *t (EMemT n_MW)) *tc (EV n_s23s [(AVar n_ds2a); (AVar n_ds3a)])) *c (EV n_a23a [(AVar n_ds2b); (AVar n_ds3b)])) /c (EMemC n_pDenT)) -c (((((ELocT n_normFactor) *t (EMemT n_pre)) *t (EMemT n_MW)) *tc (((EV n_s23s [(AVar n_ds2a); (AVar n_ds3a)]) *c (EV n_s312a [(AVar n_ds3b); (AVar n_ds2b)])) +c ((EV n_a23a [(AVar n_ds2a); (AVar n_ds3a)]) *c (EV n_s213a [(AVar n_ds2b); (AVar n_ds3b)])))) /c (EMemC n_pDenT))) -c (((((ELocT n_normFactor) *t (EMemT n_pre)) *tc (EV n_s312a [(AVar n_ds3a); (AVar n_ds2a)])) *c (EV n_s213a [(AVar n_ds2b); (AVar n_ds3b)])) /c (EMemC n_pDenT))));,
SLoc rC n_amplitude ((ELocC n_amplitude) +c ((((((((((EUn NegT (ELocT n_normFactor)) *t (EMemT n_pre)) *t (EUn D2T (ELit (2 # 1)))) *t (EMemT n_MW)) *t (EMemT n_MW)) *tc (EV n_s23s [(AVar n_ds2a); (AVar n_ds3a)])) *c (EV n_a23a [(AVar n_ds2b); (AVar n_ds3b)])) /c (EMemC n_pDenS)) -c (((((ELocT n_normFactor) *t (EMemT n_pre)) *t (EMemT n_MW)) *tc (((EV n_s23s [(AVar n_ds2a); (AVar n_ds3a)]) *c (EV n_s213a [(AVar n_ds2b); (AVar n_ds3b)])) +c ((EV n_a23a [(AVar n_ds2a); (AVar n_ds3a)]) *c (EV n_s312a [(AVar n_ds3b); (AVar n_ds2b)])))) /c (EMemC n_pDenS))) -c (((((ELocT n_normFactor) *t (EMemT n_pre)) *tc (EV n_s312a [(AVar n_ds3a); (AVar n_ds2a)])) *c (EV n_s213a [(AVar n_ds2b); (AVar n_ds3b)])) /c (EMemC n_pDenS))))));,
SReturnC (ELocC n_amplitude)).
(** hWWh::amp2: SM/hWWh.cpp 154-166 *)
Definition hWWh_amp2 : meth := mkMeth n_amp2 []
(SLoc rT n_amp2 (EUn I2T (EInt 0));,
SDecl rC n_M;,
(SFor n_j2 (EUn NegI (EInt 2)) (EBin (CmpI CLe) (ELocI n_j2) (EInt 2)) (EBin (OpI IAdd) (ELocI n_j2) (EInt 2))
(SFor n_j3 (EUn NegI (EInt 2)) (EBin (CmpI CLe) (ELocI n_j3) (EInt 2)) (EBin (OpI IAdd) (ELocI n_j3) (EInt 2))
(SLoc rC n_M (ECall n_amp [(AVar n_j2); (AVar n_j3)]);,
SLoc rT n_amp2 ((ELocT n_amp2) +t (EUn Pow2T (EUn AbsC (ELocC n_M)))))));,
SReturnT ((ELocT n_amp2) /t (EUn D2T (ELit (3 # 1))))).
(** members: SM/include/hWWh.h 26-36; initialisers: SM/hWWh.cpp 32-33 *)
Definition hWWh : cls := mkCls "hWWh"
[(n_e, KT);
(n_mh, KT);
(n_wh, KT);
(n_MW, KT);
(n_SW, KT);
(n_CW, KT);
(n_WW, KT);
(n_p1, (KPart 0));
(n_p2, (KPart 1));
(n_p3, (KPart 2));
(n_p4, (KPart 3));
(n_proph, KProp);
(n_propW, KProp);
(n_pDenS, KC);
(n_pDenT, KC);
(n_pDenU, KC);
(n_s23s, KSprod);
(n_a23a, KSprod);
(n_s312a, KSprod);
(n_s213a, KSprod);
(n_sqrt2, KT);
(n_pre, KT);
(n_preS, KT)]
[n_echarge; n_massh; n_widthh; n_massW; n_sinW; n_widthW]
[(n_e, NT (ELocT n_echarge));
(n_mh, NT (ELocT n_massh));
(n_wh, NT (ELocT n_widthh));
(n_MW, NT (ELocT n_massW));
(n_SW, NT (ELocT n_sinW));
(n_CW, NT (EUn SqrtT ((EUn D2T (ELit (1 # 1))) -t ((ELocT n_sinW) *t (ELocT n_sinW)))));
(n_WW, NT (ELocT n_widthW))]
hWWh_ctor
[hWWh_set_masses; hWWh_set_momenta; hWWh_amp; hWWh_amp2].

(** hZZh::hZZh: SM/hZZh.cpp 32-53 *)
Definition hZZh_ctor : stmt :=
(SLoc rT n_two (EUn I2T (EInt 2));,
SMemT n_sqrt2 (EUn SqrtT (ELocT n_two));,
SMemT n_CW (EUn SqrtT ((EUn D2T (ELit (1 # 1))) -t ((ELocT n_sinW) *t (ELocT n_sinW))));,
SMemT n_MZ ((EMemT n_MW) /t (EMemT n_CW));,
SPropNew n_propZ (EMemT n_MZ) (EMemT n_WZ);,
SPropNew n_proph (EMemT n_mh) (EMemT n_wh);,
SParticle 0 (EMemT n_mh);,
SParticle 1 (EMemT n_MZ);,
SParticle 2 (EMemT n_MZ);,
SParticle 3 (EMemT n_mh);,
SSprod n_s23s false 1 [] 2;,
SSprod n_a23a true 1 [] 2;,
SSprod n_s312a false 2 [0] 1;,
SSprod n_s213a false 1 [0] 2;,
SMemT n_pre ((((EUn D2T (ELit (2 # 1))) *t (EMemT n_e)) *t (EMemT n_e)) /t (((((EUn D2T (ELit (4 # 1))) *t (EMemT n_MW)) *t (EMemT n_MW)) *t (EMemT n_SW)) *t (EMemT n_SW)));,
SMemT n_preS ((((EUn D2T (ELit (3 # 1))) *t (EMemT n_pre)) *t (EMemT n_mh)) *t (EMemT n_mh))).
(** hZZh::set_masses: SM/hZZh.cpp 54-67 *)
Definition hZZh_set_masses : meth := mkMeth n_set_masses [(n_massh, PkT); (n_massW, PkT)]
(SMemT n_mh (ELocT n_massh);,
SMemT n_MW (ELocT n_massW);,
SMemT n_MZ ((EMemT n_MW) /t (EMemT n_CW));,
SSetMass 0 (EMemT n_mh);,
SSetMass 1 (EMemT n_MZ);,
SSetMass 2 (EMemT n_MZ);,
SSetMass 3 (EMemT n_mh);,
SPropMass n_propZ (EMemT n_MZ);,
SPropMass n_proph (EMemT n_mh);,
SMemT n_pre ((((EUn D2T (ELit (2 # 1))) *t (EMemT n_e)) *t (EMemT n_e)) /t (((((EUn D2T (ELit (4 # 1))) *t (EMemT n_MW)) *t (EMemT n_MW)) *t (EMemT n_SW)) *t (EMemT n_SW)));,
SMemT n_preS ((((EUn D2T (ELit (3 # 1))) *t (EMemT n_pre)) *t (EMemT n_mh)) *t (EMemT n_mh))).
(** hZZh::set_momenta: SM/hZZh.cpp 68-90 *)
Definition hZZh_set_momenta : meth := mkMeth n_set_momenta [(n_mom1, PkMom); (n_mom2, PkMom); (n_mom3, PkMom); (n_mom4, PkMom)]
(SSetMomentum 0 n_mom1;,
SSetMomentum 1 n_mom2;,
SSetMomentum 2 n_mom3;,
SSetMomentum 3 n_mom4;,
SUpdate n_s23s;,
SUpdate n_a23a;,
SUpdate n_s312a;,
SUpdate n_s213a;,
SDeclT n_propSP 4;,
SDeclT n_propTP 4;,
SDeclT n_propUP 4;,
(SFor n_j (EInt 0) (EBin (CmpI CLt) (ELocI n_j) (EInt 4)) (EBin (OpI IAdd) (ELocI n_j) (EInt 1))
(SArrT n_propSP (AVar n_j) ((EArrT n_mom1 (AVar n_j)) +t (EArrT n_mom2 (AVar n_j)));,
SArrT n_propTP (AVar n_j) ((EArrT n_mom1 (AVar n_j)) -t (EArrT n_mom3 (AVar n_j)));,
SArrT n_propUP (AVar n_j) ((EArrT n_mom1 (AVar n_j)) -t (EArrT n_mom4 (AVar n_j)))));,
SMemC n_pDenS (EDen n_propZ n_propSP);,
SMemC n_pDenT (EDen n_propZ n_propTP);,
SMemC n_pDenU (EDen n_proph n_propUP)).
(** hZZh::amp: SM/hZZh.cpp 95-154 *)
Definition hZZh_amp : meth := mkMeth n_amp [(n_ds2, PkI); (n_ds3, PkI)]
(SLoc rC n_amplitude (EBin OpTTC (EUn I2T (EInt 0)) (EUn I2T (EInt 0)));,
SLoc rT n_one (EUn I2T (EInt 1));,
SDecl rI n_ds3a;,
SDecl rI n_ds3b;,
SDecl rI n_ds2a;,
SDecl rI n_ds2b;,
SLoc rI n_nCombs (ENLoops [(AVar n_ds3); (AVar n_ds2)]);,
SLoc rT n_normFactor (ENorm [(AVar n_ds3); (AVar n_ds2)]);,
(SFor n_i (EInt 0) (EBin (CmpI CLt) (ELocI n_i) (ELocI n_nCombs)) (EBin (OpI IAdd) (ELocI n_i) (EInt 1))
(SSpins [(n_ds3, n_ds3a, n_ds3b); (n_ds2, n_ds2a, n_ds2b)] (AVar n_i);,
SLoc rC n_amplitude ((ELocC n_amplitude) +c ((((ELocT n_normFactor) *t (EMemT n_pre)) *tc (EV n_s23s [(AVar n_ds2a); (AVar n_ds3a)])) *c (EV n_a23a [(AVar n_ds2b); (AVar n_ds3b)])));,
SLoc rC n_amplitude ((ELocC n_amplitude) +c (((((EUn NegT (ELocT n_normFactor)) *t (EMemT n_preS)) *tc (EV n_s23s [(AVar n_ds2a); (AVar n_ds3a)])) *c (EV n_a23a [(AVar n_ds2b); (AVar n_ds3b)])) /c (EMemC n_pDenU)));,
SLoc rC n_amplitude ((ELocC n_amplitude) +c ((((((((((EUn NegT (ELocT n_normFactor)) *t (EMemT n_pre)) *t (EUn D2T (ELit (2 # 1)))) *t (EMemT n_MZ)) *t (EMemT n_MZ)) *tc (EV n_s23s [(AVar n_ds2a); (AVar n_ds3a)])) *c (EV n_a23a [(AVar n_ds2b); (AVar n_ds3b)])) /c (EMemC n_pDenT)) -c (((((ELocT n_normFactor) *t (EMemT n_pre)) *t (EMemT n_MZ)) *tc (((EV n_s23s [(AVar n_ds2a); (AVar n_ds3a)]) *c (EV n_s312a [(AVar n_ds3b); (AVar n_ds2b)])) +c ((EV n_a23a [(AVar n_ds2a); (AVar n_ds3a)]) *c (EV n_s213a [(AVar n_ds2b); (AVar n_ds3b)])))) /c (EMemC n_pDenT))) -c (((((ELocT n_normFactor) *t (EMemT n_pre)) *tc (EV n_s312a [(AVar n_ds3a); (AVar n_ds2a)])) *c (EV n_s213a [(AVar n_ds2b); (AVar n_ds3b)])) /c (EMemC n_pDenT))));,
SLoc rC n_amplitude ((ELocC n_amplitude) +c ((((((((((EUn NegT (ELocT n_normFactor)) *t (EMemT n_pre)) *t (EUn D2T (ELit (2 # 1)))) *t (EMemT n_MZ)) *t (EMemT n_MZ)) *tc (EV n_s23s [(AVar n_ds2a); (AVar n_ds3a)])) *c (EV n_a23a [(AVar n_ds2b); (AVar n_ds3b)])) /c (EMemC n_pDenS)) -c (((((ELocT n_normFactor) *t (EMemT n_pre)) *t (EMemT n_MZ)) *tc (((EV n_s23s [(AVar n_ds2a); (AVar n_ds3a)]) *c (EV n_s213a [(AVar n_ds2b); (AVar n_ds3b)])) +c ((EV n_a23a [(AVar n_ds2a); (AVar n_ds3a)]) *c (EV n_s312a [(AVar n_ds3b); (AVar n_ds2b)])))) /c (EMemC n_pDenS))) -c (((((ELocT n_normFactor) *t (EMemT n_pre)) *tc (EV n_s312a [(AVar n_ds3a); (AVar n_ds2a)])) *c (EV n_s213a [(AVar n_ds2b); (AVar n_ds3b)])) /c (EMemC n_pDenS))))));,
SReturnC (ELocC n_amplitude)).
(** hZZh::amp2: SM/hZZh.cpp 157-169 *)
Definition hZZh_amp2 : meth := mkMeth n_amp2 []
(SLoc rT n_amp2 (EUn I2T (EInt 0));,
SDecl rC n_M;,
(SFor n_j2 (EUn NegI (EInt 2)) (EBin (CmpI CLe) (ELocI n_j2) (EInt 2)) (EBin (OpI IAdd) (ELocI n_j2) (EInt 2))
(SFor n_j3 (EUn NegI (EInt 2)) (EBin (CmpI CLe) (ELocI n_j3) (EInt 2)) (EBin (OpI IAdd) (ELocI n_j3) (EInt 2))
(SLoc rC n_M (ECall n_amp [(AVar n_j2); (AVar n_j3)]);,
SLoc rT n_amp2 ((ELocT n_amp2) +t (EUn Pow2T (EUn AbsC (ELocC n_M)))))));,
SReturnT ((ELocT n_amp2) /t (EUn D2T (ELit (3 # 1))))).
(** members: SM/include/hZZh.h 26-36; initialisers: SM/hZZh.cpp 32-33 *)
Definition hZZh : cls := mkCls "hZZh"
[(n_e, KT);
(n_mh, KT);
(n_wh, KT);
(n_MW, KT);
(n_SW, KT);
(n_CW, KT);
(n_MZ, KT);
(n_WZ, KT);
(n_p1, (KPart 0));
(n_p2, (KPart 1));
(n_p3, (KPart 2));
(n_p4, (KPart 3));
(n_proph, KProp);
(n_propZ, KProp);
(n_pDenS, KC);
(n_pDenT, KC);
(n_pDenU, KC);
(n_s23s, KSprod);
(n_a23a, KSprod);
(n_s312a, KSprod);
(n_s213a, KSprod);
(n_sqrt2, KT);
(n_pre, KT);
(n_preS, KT)]
[n_echarge; n_massh; n_widthh; n_massW; n_sinW; n_widthZ]
[(n_e, NT (ELocT n_echarge));
(n_mh, NT (ELocT n_massh));
(n_wh, NT (ELocT n_widthh));
(n_MW, NT (ELocT n_massW));
(n_SW, NT (ELocT n_sinW));
(n_CW, NT (EUn SqrtT ((EUn D2T (ELit (1 # 1))) -t ((ELocT n_sinW) *t (ELocT n_sinW)))));
(n_MZ, NT ((ELocT n_massW) /t (EMemT n_CW)));
(n_WZ, NT (ELocT n_widthZ))]
hZZh_ctor
[hZZh_set_masses; hZZh_set_momenta; hZZh_amp; hZZh_amp2].

(** hgdd::hgdd: SM/hgdd.cpp 32-53 *)
Definition hgdd_ctor : stmt :=
(SLoc rT n_two (EUn I2T (EInt 2));,
SMemT n_sqrt2 (EUn SqrtT (ELocT n_two));,
SParticle 0 (EMemT n_mh);,
SParticle 1 (EUn I2T (EInt 0));,
SParticle 2 (EMemT n_md);,
SParticle 3 (EMemT n_md);,
SSprod n_s24s false 1 [] 3;,
SSprod n_a24a true 1 [] 3;,
SSprod n_s23s false 1 [] 2;,
SSprod n_a23a true 1 [] 2;,
SSprod n_s34s false 2 [] 3;,
SSprod n_a34a true 2 [] 3;,
SSprod n_s213a false 1 [0] 2;,
SSprod n_a213s true 1 [0] 2;,
SSprod n_s214a false 1 [0] 3;,
SSprod n_a214s true 1 [0] 3;,
SSprod n_s2312s false 1 [2; 0] 1;,
SSprod n_a2312a true 1 [2; 0] 1;,
SMemT n_pre ((((EMemT n_e) *t (EMemT n_gs)) *t (EMemT n_md)) /t (((EMemT n_sqrt2) *t (EMemT n_MW)) *t (EMemT n_SW)))).
(** hgdd::set_masses: SM/hgdd.cpp 54-62 *)
Definition hgdd_set_masses : meth := mkMeth n_set_masses [(n_massd, PkT); (n_massh, PkT); (n_massW, PkT)]
(SMemT n_md (ELocT n_massd);,
SMemT n_mh (ELocT n_massh);,
SSetMass 0 (EMemT n_mh);,
SSetMass 2 (EMemT n_md);,
SSetMass 3 (EMemT n_md);,
SPropMass n_prop (EMemT n_md);,
SMemT n_pre ((((EMemT n_e) *t (EMemT n_gs)) *t (EMemT n_md)) /t (((EMemT n_sqrt2) *t (EMemT n_MW)) *t (EMemT n_SW)))).
(** hgdd::set_momenta: SM/hgdd.cpp 63-89 *)
Definition hgdd_set_momenta : meth := mkMeth n_set_momenta [(n_mom1, PkMom); (n_mom2, PkMom); (n_mom3, PkMom); (n_mom4, PkMom)]
(SSetMomentum 0 n_mom1;,
SSetMomentum 1 n_mom2;,
SSetMomentum 2 n_mom3;,
SSetMomentum 3 n_mom4;,
SUpdate n_s24s;,
SUpdate n_a24a;,
SUpdate n_s23s;,
SUpdate n_a23a;,
SUpdate n_s34s;,
SUpdate n_a34a;,
SUpdate n_s213a;,
SUpdate n_a213s;,
SUpdate n_s214a;,
SUpdate n_a214s;,
SUpdate n_s2312s;,
SUpdate n_a2312a;,
SDeclT n_propTP 4;,
SDeclT n_propUP 4;,
(SFor n_j (EInt 0) (EBin (CmpI CLt) (ELocI n_j) (EInt 4)) (EBin (OpI IAdd) (ELocI n_j) (EInt 1))
(SArrT n_propTP (AVar n_j) ((EArrT n_mom1 (AVar n_j)) -t (EArrT n_mom3 (AVar n_j)));,
SArrT n_propUP (AVar n_j) ((EArrT n_mom1 (AVar n_j)) -t (EArrT n_mom4 (AVar n_j)))));,
SMemC n_pDenT (EDen n_prop n_propTP);,
SMemC n_pDenU (EDen n_prop n_propUP)).
(** hgdd::amp: SM/hgdd.cpp 94-115 *)
Definition hgdd_amp : meth := mkMeth n_amp [(n_ds2, PkI); (n_ds3, PkI); (n_ds4, PkI)]
((SIf (EBin (CmpI CGt) (ELocI n_ds2) (EInt 0))
(SReturnC ((((EUn NegT (EMemT n_pre)) *tc (((((((EMemT n_mh) *t (EMemT n_mh)) *tc (EV n_s24s [(AVar n_ds4)])) *c (EV n_s23s [(AVar n_ds3)])) +c (((EMemT n_md) *tc (EV n_s24s [(AVar n_ds4)])) *c (EV n_s213a [(AVar n_ds3)]))) +c (((EMemT n_md) *tc (EV n_s23s [(AVar n_ds3)])) *c (EV n_s214a [(AVar n_ds4)]))) +c ((EV n_a34a [(AVar n_ds3); (AVar n_ds4)]) *c (EV n_s2312s [])))) /c (EMemC n_pDenT)) /c (EMemC n_pDenU)))
((SIf (EBin (CmpI CLt) (ELocI n_ds2) (EInt 0))
(SReturnC ((((EUn NegT (EMemT n_pre)) *tc (((((((EMemT n_mh) *t (EMemT n_mh)) *tc (EV n_a24a [(AVar n_ds4)])) *c (EV n_a23a [(AVar n_ds3)])) +c (((EMemT n_md) *tc (EV n_a24a [(AVar n_ds4)])) *c (EV n_a213s [(AVar n_ds3)]))) +c (((EMemT n_md) *tc (EV n_a23a [(AVar n_ds3)])) *c (EV n_a214s [(AVar n_ds4)]))) +c ((EV n_s34s [(AVar n_ds3); (AVar n_ds4)]) *c (EV n_a2312a [])))) /c (EMemC n_pDenT)) /c (EMemC n_pDenU)))
(SSkip))));,
SReturnC (EBin OpTTC (EUn I2T (EInt 0)) (EUn I2T (EInt 0)))).
(** hgdd::amp2: SM/hgdd.cpp 118-132 *)
Definition hgdd_amp2 : meth := mkMeth n_amp2 []
(SLoc rT n_amp2 (EUn I2T (EInt 0));,
SDecl rC n_M;,
(SFor n_j2 (EUn NegI (EInt 2)) (EBin (CmpI CLe) (ELocI n_j2) (EInt 2)) (EBin (OpI IAdd) (ELocI n_j2) (EInt 4))
(SFor n_j3 (EUn NegI (EInt 1)) (EBin (CmpI CLe) (ELocI n_j3) (EInt 1)) (EBin (OpI IAdd) (ELocI n_j3) (EInt 2))
(SFor n_j4 (EUn NegI (EInt 1)) (EBin (CmpI CLe) (ELocI n_j4) (EInt 1)) (EBin (OpI IAdd) (ELocI n_j4) (EInt 2))
(SLoc rC n_M (ECall n_amp [(AVar n_j2); (AVar n_j3); (AVar n_j4)]);,
SLoc rT n_amp2 ((ELocT n_amp2) +t ((EUn D2T (ELit (4 # 1))) *t (EUn Pow2T (EUn AbsC (ELocC n_M)))))))));,
SReturnT ((ELocT n_amp2) /t (EUn D2T (ELit (16 # 1))))).
(** hgdd::amp2_gplus: SM/hgdd.cpp 136-148 *)
Definition hgdd_amp2_gplus : meth := mkMeth n_amp2_gplus []
(SLoc rT n_amp2 (EUn I2T (EInt 0));,
SDecl rC n_M;,
(SFor n_j3 (EUn NegI (EInt 1)) (EBin (CmpI CLe) (ELocI n_j3) (EInt 1)) (EBin (OpI IAdd) (ELocI n_j3) (EInt 2))
(SFor n_j4 (EUn NegI (EInt 1)) (EBin (CmpI CLe) (ELocI n_j4) (EInt 1)) (EBin (OpI IAdd) (ELocI n_j4) (EInt 2))
(SLoc rC n_M (ECall n_amp [(ALit 2); (AVar n_j3); (AVar n_j4)]);,
SLoc rT n_amp2 ((ELocT n_amp2) +t ((EUn D2T (ELit (4 # 1))) *t (EUn Pow2T (EUn AbsC (ELocC n_M))))))));,
SReturnT ((ELocT n_amp2) /t (EUn D2T (ELit (8 # 1))))).
(** members: SM/include/hgdd.h 26-33; initialisers: SM/hgdd.cpp 32-33 *)
Definition hgdd : cls := mkCls "hgdd"
[(n_e, KT);
(n_gs, KT);
(n_md, KT);
(n_mh, KT);
(n_MW, KT);
(n_SW, KT);
(n_pre, KT);
(n_p1, (KPart 0));
(n_p2, (KPart 1));
(n_p3, (KPart 2));
(n_p4, (KPart 3));
(n_prop, KProp);
(n_pDenT, KC);
(n_pDenU, KC);
(n_s24s, KSprod);
(n_a24a, KSprod);
(n_s23s, KSprod);
(n_a23a, KSprod);
(n_s34s, KSprod);
(n_a34a, KSprod);
(n_s213a, KSprod);
(n_a213s, KSprod);
(n_s214a, KSprod);
(n_a214s, KSprod);
(n_s2312s, KSprod);
(n_a2312a, KSprod);
(n_sqrt2, KT)]
[n_echarge; n_gscharge; n_massd; n_massh; n_massW; n_sinW]
[(n_e, NT (ELocT n_echarge));
(n_gs, NT (ELocT n_gscharge));
(n_md, NT (ELocT n_massd));
(n_mh, NT (ELocT n_massh));
(n_prop, NProp (ELocT n_massd) (EUn I2T (EInt 0)));
(n_MW, NT (ELocT n_massW));
(n_SW, NT (ELocT n_sinW))]
hgdd_ctor
[hgdd_set_masses; hgdd_set_momenta; hgdd_amp; hgdd_amp2; hgdd_amp2_gplus].

(** hguu::hguu: SM/hguu.cpp 32-53 *)
Definition hguu_ctor : stmt :=
(SLoc rT n_two (EUn I2T (EInt 2));,
SMemT n_sqrt2 (EUn SqrtT (ELocT n_two));,
SParticle 0 (EMemT n_mh);,
SParticle 1 (EUn I2T (EInt 0));,
SParticle 2 (EMemT n_mu);,
SParticle 3 (EMemT n_mu);,
SSprod n_s24s false 1 [] 3;,
SSprod n_a24a true 1 [] 3;,
SSprod n_s23s false 1 [] 2;,
SSprod n_a23a true 1 [] 2;,
SSprod n_s34s false 2 [] 3;,
SSprod n_a34a true 2 [] 3;,
SSprod n_s213a false 1 [0] 2;,
SSprod n_a213s true 1 [0] 2;,
SSprod n_s214a false 1 [0] 3;,
SSprod n_a214s true 1 [0] 3;,
SSprod n_s2312s false 1 [2; 0] 1;,
SSprod n_a2312a true 1 [2; 0] 1;,
SMemT n_pre ((((EMemT n_e) *t (EMemT n_gs)) *t (EMemT n_mu)) /t (((EMemT n_sqrt2) *t (EMemT n_MW)) *t (EMemT n_SW)))).
(** hguu::set_masses: SM/hguu.cpp 54-62 *)
Definition hguu_set_masses : meth := mkMeth n_set_masses [(n_massu, PkT); (n_massh, PkT); (n_massW, PkT)]
(SMemT n_mu (ELocT n_massu);,
SMemT n_mh (ELocT n_massh);,
SSetMass 0 (EMemT n_mh);,
SSetMass 2 (EMemT n_mu);,
SSetMass 3 (EMemT n_mu);,
SPropMass n_prop (EMemT n_mu);,
SMemT n_pre ((((EMemT n_e) *t (EMemT n_gs)) *t (EMemT n_mu)) /t (((EMemT n_sqrt2) *t (EMemT n_MW)) *t (EMemT n_SW)))).
(** hguu::set_momenta: SM/hguu.cpp 63-89 *)
Definition hguu_set_momenta : meth := mkMeth n_set_momenta [(n_mom1, PkMom); (n_mom2, PkMom); (n_mom3, PkMom); (n_mom4, PkMom)]
(SSetMomentum 0 n_mom1;,
SSetMomentum 1 n_mom2;,
SSetMomentum 2 n_mom3;,
SSetMomentum 3 n_mom4;,
SUpdate n_s24s;,
SUpdate n_a24a;,
SUpdate n_s23s;,
SUpdate n_a23a;,
SUpdate n_s34s;,
SUpdate n_a34a;,
SUpdate n_s213a;,
SUpdate n_a213s;,
SUpdate n_s214a;,
SUpdate n_a214s;,
SUpdate n_s2312s;,
SUpdate n_a2312a;,
SDeclT n_propTP 4;,
SDeclT n_propUP 4;,
(SFor n_j (EInt 0) (EBin (CmpI CLt) (ELocI n_j) (EInt 4)) (EBin (OpI IAdd) (ELocI n_j) (EInt 1))
(SArrT n_propTP (AVar n_j) ((EArrT n_mom1 (AVar n_j)) -t (EArrT n_mom3 (AVar n_j)));,
SArrT n_propUP (AVar n_j) ((EArrT n_mom1 (AVar n_j)) -t (EArrT n_mom4 (AVar n_j)))));,
SMemC n_pDenT (EDen n_prop n_propTP);,
SMemC n_pDenU (EDen n_prop n_propUP)).
(** hguu::amp: SM/hguu.cpp 94-107 *)
Definition hguu_amp : meth := mkMeth n_amp [(n_ds2, PkI); (n_ds3, PkI); (n_ds4, PkI)]
(SLoc rT n_two (EUn I2T (EInt 2));,
(SIf (EBin (CmpI CGt) (ELocI n_ds2) (EInt 0))
(SReturnC ((((EMemT n_pre) *tc ((((((EMemT n_mh) *t (EMemT n_mh)) *tc (EV n_s23s [(AVar n_ds3)])) *c (EV n_s24s [(AVar n_ds4)])) -c ((EV n_s213a [(AVar n_ds3)]) *c (EV n_s214a [(AVar n_ds4)]))) +c (((ELocT n_two) *tc (EV n_a34a [(AVar n_ds3); (AVar n_ds4)])) *c (EV n_s2312s [])))) /c (EMemC n_pDenT)) /c (EMemC n_pDenU)))
((SIf (EBin (CmpI CLt) (ELocI n_ds2) (EInt 0))
(SReturnC ((((EMemT n_pre) *tc ((((((EMemT n_mh) *t (EMemT n_mh)) *tc (EV n_a23a [(AVar n_ds3)])) *c (EV n_a24a [(AVar n_ds4)])) -c ((EV n_a213s [(AVar n_ds3)]) *c (EV n_a214s [(AVar n_ds4)]))) +c (((ELocT n_two) *tc (EV n_s34s [(AVar n_ds3); (AVar n_ds4)])) *c (EV n_a2312a [])))) /c (EMemC n_pDenT)) /c (EMemC n_pDenU)))
(SSkip))));,
SReturnC (EBin OpTTC (EUn I2T (EInt 0)) (EUn I2T (EInt 0)))).
(** hguu::amp2: SM/hguu.cpp 110-124 *)
Definition hguu_amp2 : meth := mkMeth n_amp2 []
(SLoc rT n_amp2 (EUn I2T (EInt 0));,
SDecl rC n_M;,
(SFor n_j2 (EUn NegI (EInt 2)) (EBin (CmpI CLe) (ELocI n_j2) (EInt 2)) (EBin (OpI IAdd) (ELocI n_j2) (EInt 4))
(SFor n_j3 (EUn NegI (EInt 1)) (EBin (CmpI CLe) (ELocI n_j3) (EInt 1)) (EBin (OpI IAdd) (ELocI n_j3) (EInt 2))
(SFor n_j4 (EUn NegI (EInt 1)) (EBin (CmpI CLe) (ELocI n_j4) (EInt 1)) (EBin (OpI IAdd) (ELocI n_j4) (EInt 2))
(SLoc rC n_M (ECall n_amp [(AVar n_j2); (AVar n_j3); (AVar n_j4)]);,
SLoc rT n_amp2 ((ELocT n_amp2) +t ((EUn D2T (ELit (4 # 1))) *t (EUn Pow2T (EUn AbsC (ELocC n_M)))))))));,
SReturnT ((ELocT n_amp2) /t (EUn D2T (ELit (16 # 1))))).
(** hguu::amp2_gplus: SM/hguu.cpp 128-140 *)
Definition hguu_amp2_gplus : meth := mkMeth n_amp2_gplus []
(SLoc rT n_amp2 (EUn I2T (EInt 0));,
SDecl rC n_M;,
(SFor n_j3 (EUn NegI (EInt 1)) (EBin (CmpI CLe) (ELocI n_j3) (EInt 1)) (EBin (OpI IAdd) (ELocI n_j3) (EInt 2))
(SFor n_j4 (EUn NegI (EInt 1)) (EBin (CmpI CLe) (ELocI n_j4) (EInt 1)) (EBin (OpI IAdd) (ELocI n_j4) (EInt 2))
(SLoc rC n_M (ECall n_amp [(ALit 2); (AVar n_j3); (AVar n_j4)]);,
SLoc rT n_amp2 ((ELocT n_amp2) +t ((EUn D2T (ELit (4 # 1))) *t (EUn Pow2T (EUn AbsC (ELocC n_M))))))));,
SReturnT ((ELocT n_amp2) /t (EUn D2T (ELit (8 # 1))))).
(** members: SM/include/hguu.h 26-33; initialisers: SM/hguu.cpp 32-33 *)
Definition hguu : cls := mkCls "hguu"
[(n_e, KT);
(n_gs, KT);
(n_mu, KT);
(n_mh, KT);
(n_MW, KT);
(n_SW, KT);
(n_pre, KT);
(n_p1, (KPart 0));
(n_p2, (KPart 1));
(n_p3, (KPart 2));
(n_p4, (KPart 3));
(n_prop, KProp);
(n_pDenT, KC);
(n_pDenU, KC);
(n_s24s, KSprod);
(n_a24a, KSprod);
(n_s23s, KSprod);
(n_a23a, KSprod);
(n_s34s, KSprod);
(n_a34a, KSprod);
(n_s213a, KSprod);
(n_a213s, KSprod);
(n_s214a, KSprod);
(n_a214s, KSprod);
(n_s2312s, KSprod);
(n_a2312a, KSprod);
(n_sqrt2, KT)]
[n_echarge; n_gscharge; n_massu; n_massh; n_massW; n_sinW]
[(n_e, NT (ELocT n_echarge));
(n_gs, NT (ELocT n_gscharge));
(n_mu, NT (ELocT n_massu));
(n_mh, NT (ELocT n_massh));
(n_prop, NProp (ELocT n_massu) (EUn I2T (EInt 0)));
(n_MW, NT (ELocT n_massW));
(n_SW, NT (ELocT n_sinW))]
hguu_ctor
[hguu_set_masses; hguu_set_momenta; hguu_amp; hguu_amp2; hguu_amp2_gplus].

(** hhWW::hhWW: SM/hhWW.cpp 32-52 *)
Definition hhWW_ctor : stmt :=
(SLoc rT n_two (EUn I2T (EInt 2));,
SMemT n_sqrt2 (EUn SqrtT (ELocT n_two));,
SMemT n_CW (EUn SqrtT ((EUn D2T (ELit (1 # 1))) -t ((ELocT n_sinW) *t (ELocT n_sinW))));,
SPropNew n_propW (EMemT n_MW) (EMemT n_WW);,
SPropNew n_proph (EMemT n_mh) (EMemT n_wh);,
SParticle 0 (EMemT n_mh);,
SParticle 1 (EMemT n_mh);,
SParticle 2 (EMemT n_MW);,
SParticle 3 (EMemT n_MW);,
SSprod n_s34s false 2 [] 3;,
SSprod n_a34a true 2 [] 3;,
SSprod n_s314a false 2 [0] 3;,
SSprod n_s413a false 3 [0] 2;,
SMemT n_pre (((EMemT n_e) *t (EMemT n_e)) /t (((((EUn D2T (ELit (2 # 1))) *t (EMemT n_MW)) *t (EMemT n_MW)) *t (EMemT n_SW)) *t (EMemT n_SW)));,
SMemT n_preS ((((EUn D2T (ELit (3 # 1))) *t (EMemT n_pre)) *t (EMemT n_mh)) *t (EMemT n_mh))).
(** hhWW::set_masses: SM/hhWW.cpp 53-65 *)
Definition hhWW_set_masses : meth := mkMeth n_set_masses [(n_massh, PkT); (n_massW, PkT)]
(SMemT n_mh (ELocT n_massh);,
SMemT n_MW (ELocT n_massW);,
SSetMass 0 (EMemT n_mh);,
SSetMass 1 (EMemT n_mh);,
SSetMass 2 (EMemT n_MW);,
SSetMass 3 (EMemT n_MW);,
SPropMass n_propW (EMemT n_MW);,
SPropMass n_proph (EMemT n_mh);,
SMemT n_pre (((EMemT n_e) *t (EMemT n_e)) /t (((((EUn D2T (ELit (2 # 1))) *t (EMemT n_MW)) *t (EMemT n_MW)) *t (EMemT n_SW)) *t (EMemT n_SW)));,
SMemT n_preS ((((EUn D2T (ELit (3 # 1))) *t (EMemT n_pre)) *t (EMemT n_mh)) *t (EMemT n_mh))).
(** hhWW::set_momenta: SM/hhWW.cpp 66-88 *)
Definition hhWW_set_momenta : meth := mkMeth n_set_momenta [(n_mom1, PkMom); (n_mom2, PkMom); (n_mom3, PkMom); (n_mom4, PkMom)]
(SSetMomentum 0 n_mom1;,
SSetMomentum 1 n_mom2;,
SSetMomentum 2 n_mom3;,
SSetMomentum 3 n_mom4;,
SUpdate n_s34s;,
SUpdate n_a34a;,
SUpdate n_s314a;,
SUpdate n_s413a;,
SDeclT n_propSP 4;,
SDeclT n_propTP 4;,
SDeclT n_propUP 4;,
(SFor n_j (EInt 0) (EBin (CmpI CLt) (ELocI n_j) (EInt 4)) (EBin (OpI IAdd) (ELocI n_j) (EInt 1))
(SArrT n_propSP (AVar n_j) ((EArrT n_mom1 (AVar n_j)) +t (EArrT n_mom2 (AVar n_j)));,
SArrT n_propTP (AVar n_j) ((EArrT n_mom1 (AVar n_j)) -t (EArrT n_mom3 (AVar n_j)));,
SArrT n_propUP (AVar n_j) ((EArrT n_mom1 (AVar n_j)) -t (EArrT n_mom4 (AVar n_j)))));,
SMemC n_pDenS (EDen n_proph n_propSP);,
SMemC n_pDenT (EDen n_propW n_propTP);,
SMemC n_pDenU (EDen n_propW n_propUP)).
(** hhWW::amp: SM/hhWW.cpp 93-140 *)
Definition hhWW_amp : meth := mkMeth n_amp [(n_ds3, PkI); (n_ds4, PkI)]
(SLoc rC n_amplitude (EBin OpTTC (EUn I2T (EInt 0)) (EUn I2T (EInt 0)));,
SLoc rT n_one (EUn I2T (EInt 1));,
SDecl rI n_ds3a;,
SDecl rI n_ds3b;,
SDecl rI n_ds4a;,
SDecl rI n_ds4b;,
SLoc rI n_nCombs (ENLoops [(AVar n_ds3); (AVar n_ds4)]);,
SLoc rT n_normFactor (ENorm [(AVar n_ds3); (AVar n_ds4)]);,
(SFor n_i (EInt 0) (EBin (CmpI CLt) (ELocI n_i) (ELocI n_nCombs)) (EBin (OpI IAdd) (ELocI n_i) (EInt 1))
(SSpins [(n_ds3, n_ds3a, n_ds3b); (n_ds4, n_ds4a, n_ds4b)] (AVar n_i);,
SLoc rC n_amplitude ((ELocC n_amplitude) +c ((((EUn NegT (ELocT n_normFactor)) *t (EMemT n_pre)) *tc (EV n_s34s [(AVar n_ds3a); (AVar n_ds4a)])) *c (EV n_a34a [(AVar n_ds3b); (AVar n_ds4b)])));,
SLoc rC n_amplitude ((ELocC n_amplitude) +c (((((ELocT n_normFactor) *t (EMemT n_preS)) *tc (EV n_s34s [(AVar n_ds3a); (AVar n_ds4a)])) *c (EV n_a34a [(AVar n_ds3b); (AVar n_ds4b)])) /c (EMemC n_pDenS)));,
SLoc rC n_amplitude ((ELocC n_amplitude) +c ((((((((((ELocT n_normFactor) *t (EMemT n_pre)) *t (EUn D2T (ELit (2 # 1)))) *t (EMemT n_MW)) *t (EMemT n_MW)) *tc (EV n_s34s [(AVar n_ds3a); (AVar n_ds4a)])) *c (EV n_a34a [(AVar n_ds3b); (AVar n_ds4b)])) /c (EMemC n_pDenT)) -c (((((ELocT n_normFactor) *t (EMemT n_pre)) *t (EMemT n_MW)) *tc (((EV n_s34s [(AVar n_ds3a); (AVar n_ds4a)]) *c (EV n_s314a [(AVar n_ds3b); (AVar n_ds4b)])) +c ((EV n_a34a [(AVar n_ds3a); (AVar n_ds4a)]) *c (EV n_s413a [(AVar n_ds4b); (AVar n_ds3b)])))) /c (EMemC n_pDenT))) +c (((((ELocT n_normFactor) *t (EMemT n_pre)) *tc (EV n_s314a [(AVar n_ds3a); (AVar n_ds4a)])) *c (EV n_s413a [(AVar n_ds4b); (AVar n_ds3b)])) /c (EMemC n_pDenT))));,
SLoc rC n_amplitude ((ELocC n_amplitude) +c ((((((((((ELocT n_normFactor) *t (EMemT n_pre)) *t (EUn D2T (ELit (2 # 1)))) *t (EMemT n_MW)) *t (EMemT n_MW)) *tc (EV n_s34s [(AVar n_ds3a); (AVar n_ds4a)])) *c (EV n_a34a [(AVar n_ds3b); (AVar n_ds4b)])) /c (EMemC n_pDenU)) +c (((((ELocT n_normFactor) *t (EMemT n_pre)) *t (EMemT n_MW)) *tc (((EV n_s34s [(AVar n_ds3a); (AVar n_ds4a)]) *c (EV n_s413a [(AVar n_ds4b); (AVar n_ds3b)])) +c ((EV n_a34a [(AVar n_ds3a); (AVar n_ds4a)]) *c (EV n_s314a [(AVar n_ds3b); (AVar n_ds4b)])))) /c (EMemC n_pDenU))) +c (((((ELocT n_normFactor) *t (EMemT n_pre)) *tc (EV n_s314a [(AVar n_ds3a); (AVar n_ds4a)])) *c (EV n_s413a [(AVar n_ds4b); (AVar n_ds3b)])) /c (EMemC n_pDenU))))));,
SReturnC (ELocC n_amplitude)).
(** hhWW::amp2: SM/hhWW.cpp 143-154 *)
Definition hhWW_amp2 : meth := mkMeth n_amp2 []
(SLoc rT n_amp2 (EUn I2T (EInt 0));,
SDecl rC n_M;,
(SFor n_j3 (EUn NegI (EInt 2)) (EBin (CmpI CLe) (ELocI n_j3) (EInt 2)) (EBin (OpI IAdd) (ELocI n_j3) (EInt 2))
(SFor n_j4 (EUn NegI (EInt 2)) (EBin (CmpI CLe) (ELocI n_j4) (EInt 2)) (EBin (OpI IAdd) (ELocI n_j4) (EInt 2))
(SLoc rC n_M (ECall n_amp [(AVar n_j3); (AVar n_j4)]);,
SLoc rT n_amp2 ((ELocT n_amp2) +t (EUn Pow2T (EUn AbsC (ELocC n_M)))))));,
SReturnT (ELocT n_amp2)).
(** members: SM/include/hhWW.h 26-36; initialisers: SM/hhWW.cpp 32-33 *)
Definition hhWW : cls := mkCls "hhWW"
[(n_e, KT);
(n_mh, KT);
(n_wh, KT);
(n_MW, KT);
(n_SW, KT);
(n_CW, KT);
(n_WW, KT);
(n_p1, (KPart 0));
(n_p2, (KPart 1));
(n_p3, (KPart 2));
(n_p4, (KPart 3));
(n_proph, KProp);
(n_propW, KProp);
(n_pDenS, KC);
(n_pDenT, KC);
(n_pDenU, KC);
(n_s34s, KSprod);
(n_a34a, KSprod);
(n_s314a, KSprod);
(n_s413a, KSprod);
(n_sqrt2, KT);
(n_pre, KT);
(n_preS, KT)]
[n_echarge; n_massh; n_widthh; n_massW; n_sinW; n_widthW]
[(n_e, NT (ELocT n_echarge));
(n_mh, NT (ELocT n_massh));
(n_wh, NT (ELocT n_widthh));
(n_MW, NT (ELocT n_massW));
(n_SW, NT (ELocT n_sinW));
(n_CW, NT (EUn SqrtT ((EUn D2T (ELit (1 # 1))) -t ((ELocT n_sinW) *t (ELocT n_sinW)))));
(n_WW, NT (ELocT n_widthW))]
hhWW_ctor
[hhWW_set_masses; hhWW_set_momenta; hhWW_amp; hhWW_amp2].

(** hhZZ::hhZZ: SM/hhZZ.cpp 32-53 *)
Definition hhZZ_ctor : stmt :=
(SLoc rT n_two (EUn I2T (EInt 2));,
SMemT n_sqrt2 (EUn SqrtT (ELocT n_two));,
SMemT n_CW (EUn SqrtT ((EUn D2T (ELit (1 # 1))) -t ((ELocT n_sinW) *t (ELocT n_sinW))));,
SMemT n_MZ ((EMemT n_MW) /t (EMemT n_CW));,
SPropNew n_propZ (EMemT n_MZ) (EMemT n_WZ);,
SPropNew n_proph (EMemT n_mh) (EMemT n_wh);,
SParticle 0 (EMemT n_mh);,
SParticle 1 (EMemT n_mh);,
SParticle 2 (EMemT n_MZ);,
SParticle 3 (EMemT n_MZ);,
SSprod n_s34s false 2 [] 3;,
SSprod n_a34a true 2 [] 3;,
SSprod n_s314a false 2 [0] 3;,
SSprod n_s413a false 3 [0] 2;,
SMemT n_pre (((EMemT n_e) *t (EMemT n_e)) /t (((((EUn D2T (ELit (2 # 1))) *t (EMemT n_MW)) *t (EMemT n_MW)) *t (EMemT n_SW)) *t (EMemT n_SW)));,
SMemT n_preS ((((EUn D2T (ELit (3 # 1))) *t (EMemT n_pre)) *t (EMemT n_mh)) *t (EMemT n_mh))).
(** hhZZ::set_masses: SM/hhZZ.cpp 54-67 *)
Definition hhZZ_set_masses : meth := mkMeth n_set_masses [(n_massh, PkT); (n_massW, PkT)]
(SMemT n_mh (ELocT n_massh);,
SMemT n_MW (ELocT n_massW);,
SMemT n_MZ ((EMemT n_MW) /t (EMemT n_CW));,
SSetMass 0 (EMemT n_mh);,
SSetMass 1 (EMemT n_mh);,
SSetMass 2 (EMemT n_MZ);,
SSetMass 3 (EMemT n_MZ);,
SPropMass n_propZ (EMemT n_MZ);,
SPropMass n_proph (EMemT n_mh);,
SMemT n_pre (((EMemT n_e) *t (EMemT n_e)) /t (((((EUn D2T (ELit (2 # 1))) *t (EMemT n_MW)) *t (EMemT n_MW)) *t (EMemT n_SW)) *t (EMemT n_SW)));,
SMemT n_preS ((((EUn D2T (ELit (3 # 1))) *t (EMemT n_pre)) *t (EMemT n_mh)) *t (EMemT n_mh))).
(** hhZZ::set_momenta: SM/hhZZ.cpp 68-90 *)
Definition hhZZ_set_momenta : meth := mkMeth n_set_momenta [(n_mom1, PkMom); (n_mom2, PkMom); (n_mom3, PkMom); (n_mom4, PkMom)]
(SSetMomentum 0 n_mom1;,
SSetMomentum 1 n_mom2;,
SSetMomentum 2 n_mom3;,
SSetMomentum 3 n_mom4;,
SUpdate n_s34s;,
SUpdate n_a34a;,
SUpdate n_s314a;,
SUpdate n_s413a;,
SDeclT n_propSP 4;,
SDeclT n_propTP 4;,
SDeclT n_propUP 4;,
(SFor n_j (EInt 0) (EBin (CmpI CLt) (ELocI n_j) (EInt 4)) (EBin (OpI IAdd) (ELocI n_j) (EInt 1))
(SArrT n_propSP (AVar n_j) ((EArrT n_mom1 (AVar n_j)) +t (EArrT n_mom2 (AVar n_j)));,
SArrT n_propTP (AVar n_j) ((EArrT n_mom1 (AVar n_j)) -t (EArrT n_mom3 (AVar n_j)));,
SArrT n_propUP (AVar n_j) ((EArrT n_mom1 (AVar n_j)) -t (EArrT n_mom4 (AVar n_j)))));,
SMemC n_pDenS (EDen n_proph n_propSP);,
SMemC n_pDenT (EDen n_propZ n_propTP);,
SMemC n_pDenU (EDen n_propZ n_propUP)).
(** hhZZ::amp: SM/hhZZ.cpp 95-143 *)
Definition hhZZ_amp : meth := mkMeth n_amp [(n_ds3, PkI); (n_ds4, PkI)]
(SLoc rC n_amplitude (EBin OpTTC (EUn I2T (EInt 0)) (EUn I2T (EInt 0)));,
SLoc rT n_one (EUn I2T (EInt 1));,
SDecl rI n_ds3a;,
SDecl rI n_ds3b;,
SDecl rI n_ds4a;,
SDecl rI n_ds4b;,
SLoc rI n_nCombs (ENLoops [(AVar n_ds3); (AVar n_ds4)]);,
SLoc rT n_normFactor (ENorm [(AVar n_ds3); (AVar n_ds4)]);,
(SFor n_i (EInt 0) (EBin (CmpI CLt) (ELocI n_i) (ELocI n_nCombs)) (EBin (OpI IAdd) (ELocI n_i) (EInt 1))
(SSpins [(n_ds3, n_ds3a, n_ds3b); (n_ds4, n_ds4a, n_ds4b)] (AVar n_i);,
SLoc rC n_amplitude ((ELocC n_amplitude) +c ((((EUn NegT (ELocT n_normFactor)) *t (EMemT n_pre)) *tc (EV n_s34s [(AVar n_ds3a); (AVar n_ds4a)])) *c (EV n_a34a [(AVar n_ds3b); (AVar n_ds4b)])));,
SLoc rC n_amplitude ((ELocC n_amplitude) +c (((((ELocT n_normFactor) *t (EMemT n_preS)) *tc (EV n_s34s [(AVar n_ds3a); (AVar n_ds4a)])) *c (EV n_a34a [(AVar n_ds3b); (AVar n_ds4b)])) /c (EMemC n_pDenS)));,
SLoc rC n_amplitude ((ELocC n_amplitude) +c ((((((((((ELocT n_normFactor) *t (EMemT n_pre)) *t (EUn D2T (ELit (2 # 1)))) *t (EMemT n_MZ)) *t (EMemT n_MZ)) *tc (EV n_s34s [(AVar n_ds3a); (AVar n_ds4a)])) *c (EV n_a34a [(AVar n_ds3b); (AVar n_ds4b)])) /c (EMemC n_pDenT)) -c (((((ELocT n_normFactor) *t (EMemT n_pre)) *t (EMemT n_MZ)) *tc (((EV n_s34s [(AVar n_ds3a); (AVar n_ds4a)]) *c (EV n_s314a [(AVar n_ds3b); (AVar n_ds4b)])) +c ((EV n_a34a [(AVar n_ds3a); (AVar n_ds4a)]) *c (EV n_s413a [(AVar n_ds4b); (AVar n_ds3b)])))) /c (EMemC n_pDenT))) +c (((((ELocT n_normFactor) *t (EMemT n_pre)) *tc (EV n_s314a [(AVar n_ds3a); (AVar n_ds4a)])) *c (EV n_s413a [(AVar n_ds4b); (AVar n_ds3b)])) /c (EMemC n_pDenT))));,
SLoc rC n_amplitude ((ELocC n_amplitude) +c ((((((((((ELocT n_normFactor) *t (EMemT n_pre)) *t (EUn D2T (ELit (2 # 1)))) *t (EMemT n_MZ)) *t (EMemT n_MZ)) *tc (EV n_s34s [(AVar n_ds3a); (AVar n_ds4a)])) *c (EV n_a34a [(AVar n_ds3b); (AVar n_ds4b)])) /c (EMemC n_pDenU)) +c (((((ELocT n_normFactor) *t (EMemT n_pre)) *t (EMemT n_MZ)) *tc (((EV n_s34s [(AVar n_ds3a); (AVar n_ds4a)]) *c (EV n_s413a [(AVar n_ds4b); (AVar n_ds3b)])) +c ((EV n_a34a [(AVar n_ds3a); (AVar n_ds4a)]) *c (EV n_s314a [(AVar n_ds3b); (AVar n_ds4b)])))) /c (EMemC n_pDenU))) +c (((((ELocT n_normFactor) *t (EMemT n_pre)) *tc (EV n_s314a [(AVar n_ds3a); (AVar n_ds4a)])) *c (EV n_s413a [(AVar n_ds4b); (AVar n_ds3b)])) /c (EMemC n_pDenU))))));,
SReturnC (ELocC n_amplitude)).
(** hhZZ::amp2: SM/hhZZ.cpp 146-158 *)
Definition hhZZ_amp2 : meth := mkMeth n_amp2 []
(SLoc rT n_amp2 (EUn I2T (EInt 0));,
SDecl rC n_M;,
(SFor n_j3 (EUn NegI (EInt 2)) (EBin (CmpI CLe) (ELocI n_j3) (EInt 2)) (EBin (OpI IAdd) (ELocI n_j3) (EInt 2))
(SFor n_j4 (EUn NegI (EInt 2)) (EBin (CmpI CLe) (ELocI n_j4) (EInt 2)) (EBin (OpI IAdd) (ELocI n_j4) (EInt 2))
(SLoc rC n_M (ECall n_amp [(AVar n_j3); (AVar n_j4)]);,
SLoc rT n_amp2 ((ELocT n_amp2) +t (EUn Pow2T (EUn AbsC (ELocC n_M)))))));,
SReturnT ((ELocT n_amp2) /t (EUn D2T (ELit (2 # 1))))).
(** members: SM/include/hhZZ.h 26-36; initialisers: SM/hhZZ.cpp 32-33 *)
Definition hhZZ : cls := mkCls "hhZZ"
[(n_e, KT);
(n_mh, KT);
(n_wh, KT);
(n_MW, KT);
(n_SW, KT);
(n_CW, KT);
(n_MZ, KT);
(n_WZ, KT);
(n_p1, (KPart 0));
(n_p2, (KPart 1));
(n_p3, (KPart 2));
(n_p4, (KPart 3));
(n_proph, KProp);
(n_propZ, KProp);
(n_pDenS, KC);
(n_pDenT, KC);
(n_pDenU, KC);
(n_s34s, KSprod);
(n_a34a, KSprod);
(n_s314a, KSprod);
(n_s413a, KSprod);
(n_sqrt2, KT);
(n_pre, KT);
(n_preS, KT)]
[n_echarge; n_massh; n_widthh; n_massW; n_sinW; n_widthZ]
[(n_e, NT (ELocT n_echarge));
(n_mh, NT (ELocT n_massh));
(n_wh, NT (ELocT n_widthh));
(n_MW, NT (ELocT n_massW));
(n_SW, NT (ELocT n_sinW));
(n_CW, NT (EUn SqrtT ((EUn D2T (ELit (1 # 1))) -t ((ELocT n_sinW) *t (ELocT n_sinW)))));
(n_MZ, NT ((ELocT n_massW) /t (EMemT n_CW)));
(n_WZ, NT (ELocT n_widthZ))]
hhZZ_ctor
[hhZZ_set_masses; hhZZ_set_momenta; hhZZ_amp; hhZZ_amp2].

(** hhhh::hhhh: SM/hhhh.cpp 32-41 *)
Definition hhhh_ctor : stmt :=
(SMemT n_preh ((((((EUn I2T (EInt 3)) *t (EMemT n_e)) *t (EMemT n_e)) *t (EMemT n_mh)) *t (EMemT n_mh)) /t (((((EUn I2T (EInt 4)) *t (EMemT n_MW)) *t (EMemT n_MW)) *t (EMemT n_SW)) *t (EMemT n_SW)));,
SMemT n_prehSTU ((((EUn I2T (EInt 3)) *t (EMemT n_mh)) *t (EMemT n_mh)) *t (EMemT n_preh))).
(** hhhh::set_masses: SM/hhhh.cpp 42-53 *)
Definition hhhh_set_masses : meth := mkMeth n_set_masses [(n_massh, PkT); (n_massW, PkT)]
(SMemT n_mh (ELocT n_massh);,
SPropMass n_proph (EMemT n_mh);,
SMemT n_MW (ELocT n_massW);,
SSetMass 0 (EMemT n_mh);,
SSetMass 1 (EMemT n_mh);,
SSetMass 2 (EMemT n_mh);,
SSetMass 3 (EMemT n_mh);,
SMemT n_preh ((((((EUn I2T (EInt 3)) *t (EMemT n_e)) *t (EMemT n_e)) *t (EMemT n_mh)) *t (EMemT n_mh)) /t (((((EUn I2T (EInt 4)) *t (EMemT n_MW)) *t (EMemT n_MW)) *t (EMemT n_SW)) *t (EMemT n_SW)));,
SMemT n_prehSTU ((((EUn I2T (EInt 3)) *t (EMemT n_mh)) *t (EMemT n_mh)) *t (EMemT n_preh))).
(** hhhh::set_momenta: SM/hhhh.cpp 54-70 *)
Definition hhhh_set_momenta : meth := mkMeth n_set_momenta [(n_mom1, PkMom); (n_mom2, PkMom); (n_mom3, PkMom); (n_mom4, PkMom)]
(SSetMomentum 0 n_mom1;,
SSetMomentum 1 n_mom2;,
SSetMomentum 2 n_mom3;,
SSetMomentum 3 n_mom4;,
SDeclT n_propPS 4;,
SDeclT n_propPT 4;,
SDeclT n_propPU 4;,
(SFor n_j (EInt 0) (EBin (CmpI CLt) (ELocI n_j) (EInt 4)) (EBin (OpI IAdd) (ELocI n_j) (EInt 1))
(SArrT n_propPS (AVar n_j) ((EArrT n_mom1 (AVar n_j)) +t (EArrT n_mom2 (AVar n_j)));,
SArrT n_propPT (AVar n_j) ((EArrT n_mom1 (AVar n_j)) -t (EArrT n_mom3 (AVar n_j)));,
SArrT n_propPU (AVar n_j) ((EArrT n_mom1 (AVar n_j)) -t (EArrT n_mom4 (AVar n_j)))));,
SMemC n_pDenS (EDen n_proph n_propPS);,
SMemC n_pDenT (EDen n_proph n_propPT);,
SMemC n_pDenU (EDen n_proph n_propPU)).
(** hhhh::amp: SM/hhhh.cpp 75-82 *)
Definition hhhh_amp : meth := mkMeth n_amp []
(SLoc rT n_one (EUn I2T (EInt 1));,
SLoc rC n_amplitude (EBin OpTTC (EUn I2T (EInt 0)) (EUn I2T (EInt 0)));,
SLoc rC n_amplitude ((ELocC n_amplitude) +c (((EMemT n_prehSTU) *tc ((((ELocT n_one) /tc (EMemC n_pDenS)) +c ((ELocT n_one) /tc (EMemC n_pDenT))) +c ((ELocT n_one) /tc (EMemC n_pDenU)))) +ct (EMemT n_preh)));,
SReturnC (ELocC n_amplitude)).
(** hhhh::amp2: SM/hhhh.cpp 85-94 *)
Definition hhhh_amp2 : meth := mkMeth n_amp2 []
(SLoc rT n_amp2 (EUn I2T (EInt 0));,
SDecl rC n_M;,
SLoc rC n_M (ECall n_amp []);,
SLoc rT n_amp2 ((ELocT n_amp2) +t (EUn Pow2T (EUn AbsC (ELocC n_M))));,
SReturnT ((ELocT n_amp2) /t (EUn D2T (ELit (2 # 1))))).
(** members: SM/include/hhhh.h 26-31; initialisers: SM/hhhh.cpp 32-36 *)
Definition hhhh : cls := mkCls "hhhh"
[(n_e, KT);
(n_mh, KT);
(n_wh, KT);
(n_MW, KT);
(n_SW, KT);
(n_p1, (KPart 0));
(n_p2, (KPart 1));
(n_p3, (KPart 2));
(n_p4, (KPart 3));
(n_proph, KProp);
(n_pDenS, KC);
(n_pDenT, KC);
(n_pDenU, KC);
(n_preh, KT);
(n_prehSTU, KT)]
[n_echarge; n_massh; n_widthh; n_massW; n_sinW]
[(n_e, NT (ELocT n_echarge));
(n_mh, NT (ELocT n_massh));
(n_wh, NT (ELocT n_widthh));
(n_MW, NT (ELocT n_massW));
(n_SW, NT (ELocT n_sinW));
(n_proph, NProp (EMemT n_mh) (EMemT n_wh));
(n_p1, NPart (EMemT n_mh));
(n_p2, NPart (EMemT n_mh));
(n_p3, NPart (EMemT n_mh));
(n_p4, NPart (EMemT n_mh))]
hhhh_ctor
[hhhh_set_masses; hhhh_set_momenta; hhhh_amp; hhhh_amp2].

(** hnWe::hnWe: SM/hnWe.cpp 32-47 *)
Definition hnWe_ctor : stmt :=
(SParticle 0 (EMemT n_mh);,
SParticle 1 (EUn I2T (EInt 0));,
SParticle 2 (EMemT n_MW);,
SParticle 3 (EMemT n_me);,
SSprod n_a23a true 1 [] 2;,
SSprod n_s43s false 3 [] 2;,
SSprod n_a42a true 3 [] 1;,
SSprod n_s313a false 2 [0] 2;,
SSprod n_s314a false 2 [0] 3;,
SMemT n_preW (((EMemT n_e) *t (EMemT n_e)) /t (((((EUn D2T (ELit (2 # 1))) *t (EMemT n_MW)) *t (EMemT n_MW)) *t (EMemT n_SW)) *t (EMemT n_SW)));,
SMemT n_pree ((EMemT n_me) *t (EMemT n_preW))).
(** hnWe::set_masses: SM/hnWe.cpp 48-60 *)
Definition hnWe_set_masses : meth := mkMeth n_set_masses [(n_masse, PkT); (n_massh, PkT); (n_massW, PkT)]
(SMemT n_me (ELocT n_masse);,
SMemT n_mh (ELocT n_massh);,
SMemT n_MW (ELocT n_massW);,
SSetMass 0 (EMemT n_mh);,
SSetMass 2 (EMemT n_MW);,
SSetMass 3 (EMemT n_me);,
SPropMass n_prope (EMemT n_me);,
SPropMass n_propW (EMemT n_MW);,
SMemT n_preW (((EMemT n_e) *t (EMemT n_e)) /t (((((EUn D2T (ELit (2 # 1))) *t (EMemT n_MW)) *t (EMemT n_MW)) *t (EMemT n_SW)) *t (EMemT n_SW)));,
SMemT n_pree ((EMemT n_me) *t (EMemT n_preW))).
(** hnWe::set_momenta: SM/hnWe.cpp 61-82 *)
Definition hnWe_set_momenta : meth := mkMeth n_set_momenta [(n_mom1, PkMom); (n_mom2, PkMom); (n_mom3, PkMom); (n_mom4, PkMom)]
(SSetMomentum 0 n_mom1;,
SSetMomentum 1 n_mom2;,
SSetMomentum 2 n_mom3;,
SSetMomentum 3 n_mom4;,
SUpdate n_a23a;,
SUpdate n_s43s;,
SUpdate n_a42a;,
SUpdate n_s313a;,
SUpdate n_s314a;,
SDeclT n_propSP 4;,
SDeclT n_propTP 4;,
SDeclT n_propUP 4;,
(SFor n_j (EInt 0) (EBin (CmpI CLt) (ELocI n_j) (EInt 4)) (EBin (OpI IAdd) (ELocI n_j) (EInt 1))
(SArrT n_propTP (AVar n_j) ((EArrT n_mom1 (AVar n_j)) -t (EArrT n_mom3 (AVar n_j)));,
SArrT n_propUP (AVar n_j) ((EArrT n_mom1 (AVar n_j)) -t (EArrT n_mom4 (AVar n_j)))));,
SMemC n_pDenWT (EDen n_propW n_propTP);,
SMemC n_pDeneU (EDen n_prope n_propUP)).
(** hnWe::amp: SM/hnWe.cpp 87-122 *)
Definition hnWe_amp : meth := mkMeth n_amp [(n_ds3, PkI); (n_ds4, PkI)]
(SLoc rC n_amplitude (EBin OpTTC (EUn I2T (EInt 0)) (EUn I2T (EInt 0)));,
SDecl rI n_ds3a;,
SDecl rI n_ds3b;,
SLoc rT n_two (EUn I2T (EInt 2));,
SLoc rI n_nCombs (ENLoops [(AVar n_ds3)]);,
SLoc rT n_normFactor (ENorm [(AVar n_ds3)]);,
(SFor n_i (EInt 0) (EBin (CmpI CLt) (ELocI n_i) (ELocI n_nCombs)) (EBin (OpI IAdd) (ELocI n_i) (EInt 1))
(SSpins [(n_ds3, n_ds3a, n_ds3b)] (AVar n_i);,
SLoc rC n_amplitude ((ELocC n_amplitude) +c ((((ELocT n_normFactor) *t (EMemT n_preW)) *tc ((((((ELocT n_two) *t (EMemT n_MW)) *t (EMemT n_MW)) *tc (EV n_a23a [(AVar n_ds3a)])) *c (EV n_s43s [(AVar n_ds4); (AVar n_ds3b)])) +c (((EMemT n_me) *tc (EV n_a42a [(AVar n_ds4)])) *c (EV n_s313a [(AVar n_ds3a); (AVar n_ds3b)])))) /c (EMemC n_pDenWT)));,
SLoc rC n_amplitude ((ELocC n_amplitude) +c (((((ELocT n_normFactor) *t (EMemT n_pree)) *tc (EV n_a23a [(AVar n_ds3a)])) *c ((((ELocT n_two) *t (EMemT n_me)) *tc (EV n_s43s [(AVar n_ds4); (AVar n_ds3b)])) -c (EV n_s314a [(AVar n_ds3b); (AVar n_ds4)]))) /c (EMemC n_pDeneU)))));,
SReturnC (ELocC n_amplitude)).
(** hnWe::amp2: SM/hnWe.cpp 125-137 *)
Definition hnWe_amp2 : meth := mkMeth n_amp2 []
(SLoc rT n_amp2 (EUn I2T (EInt 0));,
SDecl rC n_M;,
(SFor n_j3 (EUn NegI (EInt 2)) (EBin (CmpI CLe) (ELocI n_j3) (EInt 2)) (EBin (OpI IAdd) (ELocI n_j3) (EInt 2))
(SFor n_j4 (EUn NegI (EInt 1)) (EBin (CmpI CLe) (ELocI n_j4) (EInt 1)) (EBin (OpI IAdd) (ELocI n_j4) (EInt 2))
(SLoc rC n_M (ECall n_amp [(AVar n_j3); (AVar n_j4)]);,
SLoc rT n_amp2 ((ELocT n_amp2) +t (EUn Pow2T (EUn AbsC (ELocC n_M)))))));,
SReturnT (ELocT n_amp2)).
(** members: SM/include/hnWe.h 26-32; initialisers: SM/hnWe.cpp 32-33 *)
Definition hnWe : cls := mkCls "hnWe"
[(n_e, KT);
(n_me, KT);
(n_mh, KT);
(n_MW, KT);
(n_WW, KT);
(n_SW, KT);
(n_p1, (KPart 0));
(n_p2, (KPart 1));
(n_p3, (KPart 2));
(n_p4, (KPart 3));
(n_prope, KProp);
(n_propW, KProp);
(n_pDenWT, KC);
(n_pDeneU, KC);
(n_a23a, KSprod);
(n_s43s, KSprod);
(n_a42a, KSprod);
(n_s313a, KSprod);
(n_s314a, KSprod);
(n_pree, KT);
(n_preW, KT)]
[n_echarge; n_masse; n_massh; n_massW; n_widthW; n_sinW]
[(n_e, NT (ELocT n_echarge));
(n_me, NT (ELocT n_masse));
(n_mh, NT (ELocT n_massh));
(n_MW, NT (ELocT n_massW));
(n_WW, NT (ELocT n_widthW));
(n_SW, NT (ELocT n_sinW));
(n_prope, NProp (ELocT n_masse) (EUn I2T (EInt 0)));
(n_propW, NProp (ELocT n_massW) (ELocT n_widthW))]
hnWe_ctor
[hnWe_set_masses; hnWe_set_momenta; hnWe_amp; hnWe_amp2].

Definition SM08_classes : list cls := [gguu; guAu; guZu; gugu; hWWh; hZZh; hgdd; hguu; hhWW; hhZZ; hhhh; hnWe].
