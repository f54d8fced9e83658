(** Generated by tools/translate.py from SM/AdZd.cpp ... SM/ZZWW.cpp.  Do not edit. *)
From Coq Require Import QArith String.
From Verif Require Import Base Scalar Particle Sproduct Lang SMSyntax SMNames.
Local Open Scope sm_scope.
Local Open Scope string_scope.

(** AdZd::AdZd: SM/AdZd.cpp 32-65 *)
Definition AdZd_ctor : stmt :=
(SLoc rT n_two (EUn I2T (EInt 2));,
SMemT n_sqrt2 (EUn SqrtT (ELocT n_two));,
SMemT n_MZ ((EMemT n_MW) /t (EMemT n_CW));,
SParticle 0 (EUn I2T (EInt 0));,
SParticle 1 (EMemT n_md);,
SParticle 2 (EMemT n_MZ);,
SParticle 3 (EMemT n_md);,
SSprod n_s12s false 0 [] 1;,
SSprod n_s13s false 0 [] 2;,
SSprod n_s14s false 0 [] 3;,
SSprod n_a23a true 1 [] 2;,
SSprod n_a34a true 2 [] 3;,
SSprod n_s123a false 0 [1] 2;,
SSprod n_s132a false 0 [2] 1;,
SSprod n_s134a false 0 [2] 3;,
SSprod n_s143a false 0 [3] 2;,
SSprod n_a12a true 0 [] 1;,
SSprod n_a13a true 0 [] 2;,
SSprod n_a14a true 0 [] 3;,
SSprod n_s23s false 1 [] 2;,
SSprod n_s34s false 2 [] 3;,
SSprod n_a123s true 0 [1] 2;,
SSprod n_a132s true 0 [2] 1;,
SSprod n_a134s true 0 [2] 3;,
SSprod n_a143s true 0 [3] 2;,
SMemT n_preTU (((((EUn D2T (ELit (2 # 1))) *t (EMemT n_e)) *t (EMemT n_e)) *t (EMemT n_Qd)) /t (((EUn D2T (ELit (2 # 1))) *t (EMemT n_MW)) *t (EMemT n_SW)));,
SMemT n_gLd (((((EUn D2T (EUn NegD (ELit (2 # 1)))) *t (EMemT n_Qd)) *t (EMemT n_SW)) *t (EMemT n_SW)) -t (EUn D2T (ELit (1 # 1))));,
SMemT n_gRd ((((EUn D2T (EUn NegD (ELit (2 # 1)))) *t (EMemT n_Qd)) *t (EMemT n_SW)) *t (EMemT n_SW))).
(** AdZd::set_masses: SM/AdZd.cpp 66-76 *)
Definition AdZd_set_masses : meth := mkMeth n_set_masses [(n_massd, PkT); (n_massW, PkT)]
(SMemT n_md (ELocT n_massd);,
SMemT n_MW (ELocT n_massW);,
SMemT n_MZ ((EMemT n_MW) /t (EMemT n_CW));,
SSetMass 1 (EMemT n_md);,
SSetMass 2 (EMemT n_MZ);,
SSetMass 3 (EMemT n_md);,
SPropMass n_prope (EMemT n_md);,
SMemT n_preTU (((((EUn D2T (ELit (2 # 1))) *t (EMemT n_e)) *t (EMemT n_e)) *t (EMemT n_Qd)) /t (((EUn D2T (ELit (2 # 1))) *t (EMemT n_MW)) *t (EMemT n_SW)))).
(** AdZd::set_momenta: SM/AdZd.cpp 77-111 *)
Definition AdZd_set_momenta : meth := mkMeth n_set_momenta [(n_mom1, PkMom); (n_mom2, PkMom); (n_mom3, PkMom); (n_mom4, PkMom)]
(SSetMomentum 0 n_mom1;,
SSetMomentum 1 n_mom2;,
SSetMomentum 2 n_mom3;,
SSetMomentum 3 n_mom4;,
SUpdate n_s12s;,
SUpdate n_s13s;,
SUpdate n_s14s;,
SUpdate n_a23a;,
SUpdate n_a34a;,
SUpdate n_s123a;,
SUpdate n_s132a;,
SUpdate n_s134a;,
SUpdate n_s143a;,
SUpdate n_a12a;,
SUpdate n_a13a;,
SUpdate n_a14a;,
SUpdate n_s23s;,
SUpdate n_s34s;,
SUpdate n_a123s;,
SUpdate n_a132s;,
SUpdate n_a134s;,
SUpdate n_a143s;,
SDeclT n_propSP 4;,
SDeclT n_propUP 4;,
(SFor n_j (EInt 0) (EBin (CmpI CLt) (ELocI n_j) (EInt 4)) (EBin (OpI IAdd) (ELocI n_j) (EInt 1))
(SArrT n_propSP (AVar n_j) ((EArrT n_mom1 (AVar n_j)) +t (EArrT n_mom2 (AVar n_j)));,
SArrT n_propUP (AVar n_j) ((EArrT n_mom1 (AVar n_j)) -t (EArrT n_mom4 (AVar n_j)))));,
SMemC n_pDenS (EDen n_prope n_propSP);,
SMemC n_pDenU (EDen n_prope n_propUP)).
(** AdZd::amp: SM/AdZd.cpp 116-152 *)
Definition AdZd_amp : meth := mkMeth n_amp [(n_ds1, PkI); (n_ds2, PkI); (n_ds3, PkI); (n_ds4, PkI)]
(SLoc rC n_amplitude (EBin OpTTC (EUn I2T (EInt 0)) (EUn I2T (EInt 0)));,
SDecl rI n_ds3a;,
SDecl rI n_ds3b;,
SLoc rT n_two (EUn I2T (EInt 2));,
SLoc rI n_nCombs (ENLoops [(AVar n_ds3)]);,
SLoc rT n_normFactor (ENorm [(AVar n_ds3)]);,
(SFor n_i (EInt 0) (EBin (CmpI CLt) (ELocI n_i) (ELocI n_nCombs)) (EBin (OpI IAdd) (ELocI n_i) (EInt 1))
(SSpins [(n_ds3, n_ds3a, n_ds3b)] (AVar n_i);,
(SIf (EBin (CmpI CGt) (ELocI n_ds1) (EInt 0))
(SLoc rC n_amplitude ((ELocC n_amplitude) +c (((((ELocT n_normFactor) *t (EMemT n_preTU)) *tc ((((EMemT n_gLd) *tc (EV n_a23a [(AVar n_ds2); (AVar n_ds3a)])) *c ((((EMemT n_MZ) *tc (EV n_s14s [(AVar n_ds4)])) *c (EV n_s123a [(AVar n_ds3b)])) +c (((EMemT n_md) *tc (EV n_s13s [(AVar n_ds3b)])) *c (EV n_s134a [(AVar n_ds4)])))) +c (((EMemT n_gRd) *tc (EV n_a34a [(AVar n_ds3a); (AVar n_ds4)])) *c ((((EMemT n_md) *tc (EV n_s13s [(AVar n_ds3b)])) *c (EV n_s132a [(AVar n_ds2)])) +c (((EMemT n_MZ) *tc (EV n_s12s [(AVar n_ds2)])) *c (EV n_s143a [(AVar n_ds3b)])))))) /c (EMemC n_pDenU)) /c (EMemC n_pDenS))))
((SIf (EBin (CmpI CLt) (ELocI n_ds1) (EInt 0))
(SLoc rC n_amplitude ((ELocC n_amplitude) +c (((((ELocT n_normFactor) *t (EMemT n_preTU)) *tc ((((EMemT n_gRd) *tc (EV n_s23s [(AVar n_ds2); (AVar n_ds3a)])) *c ((((EMemT n_MZ) *tc (EV n_a14a [(AVar n_ds4)])) *c (EV n_a123s [(AVar n_ds3b)])) +c (((EMemT n_md) *tc (EV n_a13a [(AVar n_ds3b)])) *c (EV n_a134s [(AVar n_ds4)])))) +c (((EMemT n_gLd) *tc (EV n_s34s [(AVar n_ds3a); (AVar n_ds4)])) *c ((((EMemT n_md) *tc (EV n_a13a [(AVar n_ds3b)])) *c (EV n_a132s [(AVar n_ds2)])) +c (((EMemT n_MZ) *tc (EV n_a12a [(AVar n_ds2)])) *c (EV n_a143s [(AVar n_ds3b)])))))) /c (EMemC n_pDenU)) /c (EMemC n_pDenS))))
(SSkip))))));,
SReturnC (ELocC n_amplitude)).
(** AdZd::amp2: SM/AdZd.cpp 155-170 *)
Definition AdZd_amp2 : meth := mkMeth n_amp2 []
(SLoc rT n_amp2 (EUn I2T (EInt 0));,
SDecl rC n_M;,
(SFor n_j1 (EUn NegI (EInt 2)) (EBin (CmpI CLe) (ELocI n_j1) (EInt 2)) (EBin (OpI IAdd) (ELocI n_j1) (EInt 4))
(SFor n_j2 (EUn NegI (EInt 1)) (EBin (CmpI CLe) (ELocI n_j2) (EInt 1)) (EBin (OpI IAdd) (ELocI n_j2) (EInt 2))
(SFor n_j3 (EUn NegI (EInt 2)) (EBin (CmpI CLe) (ELocI n_j3) (EInt 2)) (EBin (OpI IAdd) (ELocI n_j3) (EInt 2))
(SFor n_j4 (EUn NegI (EInt 1)) (EBin (CmpI CLe) (ELocI n_j4) (EInt 1)) (EBin (OpI IAdd) (ELocI n_j4) (EInt 2))
(SLoc rC n_M (ECall n_amp [(AVar n_j1); (AVar n_j2); (AVar n_j3); (AVar n_j4)]);,
SLoc rT n_amp2 ((ELocT n_amp2) +t ((EUn D2T (ELit (3 # 1))) *t (EUn Pow2T (EUn AbsC (ELocC n_M))))))))));,
SReturnT ((ELocT n_amp2) /t (EUn D2T (ELit (12 # 1))))).
(** AdZd::amp2_Aplus: SM/AdZd.cpp 172-186 *)
Definition AdZd_amp2_Aplus : meth := mkMeth n_amp2_Aplus []
(SLoc rT n_amp2 (EUn I2T (EInt 0));,
SDecl rC n_M;,
(SFor n_j2 (EUn NegI (EInt 1)) (EBin (CmpI CLe) (ELocI n_j2) (EInt 1)) (EBin (OpI IAdd) (ELocI n_j2) (EInt 2))
(SFor n_j3 (EUn NegI (EInt 2)) (EBin (CmpI CLe) (ELocI n_j3) (EInt 2)) (EBin (OpI IAdd) (ELocI n_j3) (EInt 2))
(SFor n_j4 (EUn NegI (EInt 1)) (EBin (CmpI CLe) (ELocI n_j4) (EInt 1)) (EBin (OpI IAdd) (ELocI n_j4) (EInt 2))
(SLoc rC n_M (ECall n_amp [(ALit 2); (AVar n_j2); (AVar n_j3); (AVar n_j4)]);,
SLoc rT n_amp2 ((ELocT n_amp2) +t ((EUn D2T (ELit (3 # 1))) *t (EUn Pow2T (EUn AbsC (ELocC n_M)))))))));,
SReturnT ((ELocT n_amp2) /t (EUn D2T (ELit (6 # 1))))).
(** AdZd::amp2_Aminus: SM/AdZd.cpp 188-202 *)
Definition AdZd_amp2_Aminus : meth := mkMeth n_amp2_Aminus []
(SLoc rT n_amp2 (EUn I2T (EInt 0));,
SDecl rC n_M;,
(SFor n_j2 (EUn NegI (EInt 1)) (EBin (CmpI CLe) (ELocI n_j2) (EInt 1)) (EBin (OpI IAdd) (ELocI n_j2) (EInt 2))
(SFor n_j3 (EUn NegI (EInt 2)) (EBin (CmpI CLe) (ELocI n_j3) (EInt 2)) (EBin (OpI IAdd) (ELocI n_j3) (EInt 2))
(SFor n_j4 (EUn NegI (EInt 1)) (EBin (CmpI CLe) (ELocI n_j4) (EInt 1)) (EBin (OpI IAdd) (ELocI n_j4) (EInt 2))
(SLoc rC n_M (ECall n_amp [(ALit (-2)); (AVar n_j2); (AVar n_j3); (AVar n_j4)]);,
SLoc rT n_amp2 ((ELocT n_amp2) +t ((EUn D2T (ELit (3 # 1))) *t (EUn Pow2T (EUn AbsC (ELocC n_M)))))))));,
SReturnT ((ELocT n_amp2) /t (EUn D2T (ELit (6 # 1))))).
(** members: SM/include/AdZd.h 26-35; initialisers: SM/AdZd.cpp 32-33 *)
Definition AdZd : cls := mkCls "AdZd"
[(n_e, KT);
(n_Qd, KT);
(n_md, KT);
(n_MW, KT);
(n_SW, KT);
(n_CW, KT);
(n_MZ, KT);
(n_p1, (KPart 0));
(n_p2, (KPart 1));
(n_p3, (KPart 2));
(n_p4, (KPart 3));
(n_prope, KProp);
(n_pDenS, KC);
(n_pDenU, KC);
(n_s12s, KSprod);
(n_s13s, KSprod);
(n_s14s, KSprod);
(n_a23a, KSprod);
(n_a34a, KSprod);
(n_s123a, KSprod);
(n_s132a, KSprod);
(n_s134a, KSprod);
(n_s143a, KSprod);
(n_a12a, KSprod);
(n_a13a, KSprod);
(n_a14a, KSprod);
(n_s23s, KSprod);
(n_s34s, KSprod);
(n_a123s, KSprod);
(n_a132s, KSprod);
(n_a134s, KSprod);
(n_a143s, KSprod);
(n_sqrt2, KT);
(n_preTU, KT);
(n_preh, KT);
(n_gLd, KT);
(n_gRd, KT)]
[n_echarge; n_massd; n_massW; n_sinW]
[(n_e, NT (ELocT n_echarge));
(n_Qd, NT (EUn D2T ((EUn NegD (ELit (1 # 1))) /d (ELit (3 # 1)))));
(n_md, NT (ELocT n_massd));
(n_MW, NT (ELocT n_massW));
(n_SW, NT (ELocT n_sinW));
(n_CW, NT (EUn SqrtT ((EUn D2T (ELit (1 # 1))) -t ((ELocT n_sinW) *t (ELocT n_sinW)))));
(n_MZ, NT ((ELocT n_massW) /t (EMemT n_CW)));
(n_prope, NProp (ELocT n_massd) (EUn I2T (EInt 0)))]
AdZd_ctor
[AdZd_set_masses; AdZd_set_momenta; AdZd_amp; AdZd_amp2; AdZd_amp2_Aplus; AdZd_amp2_Aminus].

(** AeZe::AeZe: SM/AeZe.cpp 32-65 *)
Definition AeZe_ctor : stmt :=
(SLoc rT n_two (EUn I2T (EInt 2));,
SMemT n_sqrt2 (EUn SqrtT (ELocT n_two));,
SMemT n_MZ ((EMemT n_MW) /t (EMemT n_CW));,
SParticle 0 (EUn I2T (EInt 0));,
SParticle 1 (EMemT n_me);,
SParticle 2 (EMemT n_MZ);,
SParticle 3 (EMemT n_me);,
SSprod n_s12s false 0 [] 1;,
SSprod n_s13s false 0 [] 2;,
SSprod n_s14s false 0 [] 3;,
SSprod n_a23a true 1 [] 2;,
SSprod n_a34a true 2 [] 3;,
SSprod n_s123a false 0 [1] 2;,
SSprod n_s132a false 0 [2] 1;,
SSprod n_s134a false 0 [2] 3;,
SSprod n_s143a false 0 [3] 2;,
SSprod n_a12a true 0 [] 1;,
SSprod n_a13a true 0 [] 2;,
SSprod n_a14a true 0 [] 3;,
SSprod n_s23s false 1 [] 2;,
SSprod n_s34s false 2 [] 3;,
SSprod n_a123s true 0 [1] 2;,
SSprod n_a132s true 0 [2] 1;,
SSprod n_a134s true 0 [2] 3;,
SSprod n_a143s true 0 [3] 2;,
SMemT n_preSU (((EMemT n_e) *t (EMemT n_e)) /t ((EMemT n_MW) *t (EMemT n_SW)));,
SMemT n_gL ((((EUn D2T (ELit (2 # 1))) *t (EMemT n_SW)) *t (EMemT n_SW)) -t (EUn D2T (ELit (1 # 1))));,
SMemT n_gR (((EUn D2T (ELit (2 # 1))) *t (EMemT n_SW)) *t (EMemT n_SW))).
(** AeZe::set_masses: SM/AeZe.cpp 66-76 *)
Definition AeZe_set_masses : meth := mkMeth n_set_masses [(n_masse, PkT); (n_massW, PkT)]
(SMemT n_me (ELocT n_masse);,
SMemT n_MW (ELocT n_massW);,
SMemT n_MZ ((EMemT n_MW) /t (EMemT n_CW));,
SSetMass 1 (EMemT n_me);,
SSetMass 2 (EMemT n_MZ);,
SSetMass 3 (EMemT n_me);,
SPropMass n_prope (EMemT n_me);,
SMemT n_preSU (((EMemT n_e) *t (EMemT n_e)) /t ((EMemT n_MW) *t (EMemT n_SW)))).
(** AeZe::set_momenta: SM/AeZe.cpp 77-111 *)
Definition AeZe_set_momenta : meth := mkMeth n_set_momenta [(n_mom1, PkMom); (n_mom2, PkMom); (n_mom3, PkMom); (n_mom4, PkMom)]
(SSetMomentum 0 n_mom1;,
SSetMomentum 1 n_mom2;,
SSetMomentum 2 n_mom3;,
SSetMomentum 3 n_mom4;,
SUpdate n_s12s;,
SUpdate n_s13s;,
SUpdate n_s14s;,
SUpdate n_a23a;,
SUpdate n_a34a;,
SUpdate n_s123a;,
SUpdate n_s132a;,
SUpdate n_s134a;,
SUpdate n_s143a;,
SUpdate n_a12a;,
SUpdate n_a13a;,
SUpdate n_a14a;,
SUpdate n_s23s;,
SUpdate n_s34s;,
SUpdate n_a123s;,
SUpdate n_a132s;,
SUpdate n_a134s;,
SUpdate n_a143s;,
SDeclT n_propUP 4;,
SDeclT n_propSP 4;,
(SFor n_j (EInt 0) (EBin (CmpI CLt) (ELocI n_j) (EInt 4)) (EBin (OpI IAdd) (ELocI n_j) (EInt 1))
(SArrT n_propUP (AVar n_j) ((EArrT n_mom1 (AVar n_j)) -t (EArrT n_mom4 (AVar n_j)));,
SArrT n_propSP (AVar n_j) ((EArrT n_mom1 (AVar n_j)) +t (EArrT n_mom2 (AVar n_j)))));,
SMemC n_pDenU (EDen n_prope n_propUP);,
SMemC n_pDenS (EDen n_prope n_propSP)).
(** AeZe::amp: SM/AeZe.cpp 116-154 *)
Definition AeZe_amp : meth := mkMeth n_amp [(n_ds1, PkI); (n_ds2, PkI); (n_ds3, PkI); (n_ds4, PkI)]
(SLoc rC n_amplitude (EBin OpTTC (EUn I2T (EInt 0)) (EUn I2T (EInt 0)));,
SDecl rI n_ds3a;,
SDecl rI n_ds3b;,
SLoc rT n_two (EUn I2T (EInt 2));,
SLoc rI n_nCombs (ENLoops [(AVar n_ds3)]);,
SLoc rT n_normFactor (ENorm [(AVar n_ds3)]);,
(SFor n_i (EInt 0) (EBin (CmpI CLt) (ELocI n_i) (ELocI n_nCombs)) (EBin (OpI IAdd) (ELocI n_i) (EInt 1))
(SSpins [(n_ds3, n_ds3a, n_ds3b)] (AVar n_i);,
(SIf (EBin (CmpI CGt) (ELocI n_ds1) (EInt 0))
(SLoc rC n_amplitude ((ELocC n_amplitude) +c (((((ELocT n_normFactor) *t (EMemT n_preSU)) *tc ((((EMemT n_gL) *tc (EV n_a23a [(AVar n_ds2); (AVar n_ds3a)])) *c ((((EMemT n_MZ) *tc (EV n_s14s [(AVar n_ds4)])) *c (EV n_s123a [(AVar n_ds3b)])) +c (((EMemT n_me) *tc (EV n_s13s [(AVar n_ds3b)])) *c (EV n_s134a [(AVar n_ds4)])))) +c (((EMemT n_gR) *tc (EV n_a34a [(AVar n_ds3a); (AVar n_ds4)])) *c ((((EMemT n_me) *tc (EV n_s13s [(AVar n_ds3b)])) *c (EV n_s132a [(AVar n_ds2)])) +c (((EMemT n_MZ) *tc (EV n_s12s [(AVar n_ds2)])) *c (EV n_s143a [(AVar n_ds3b)])))))) /c (EMemC n_pDenS)) /c (EMemC n_pDenU))))
((SIf (EBin (CmpI CLt) (ELocI n_ds1) (EInt 0))
(SLoc rC n_amplitude ((ELocC n_amplitude) +c (((((ELocT n_normFactor) *t (EMemT n_preSU)) *tc (((EMemT n_gR) *tc (((((EMemT n_MZ) *tc (EV n_a14a [(AVar n_ds4)])) *c (EV n_s23s [(AVar n_ds2); (AVar n_ds3a)])) *c (EV n_a123s [(AVar n_ds3b)])) +c ((((EMemT n_me) *tc (EV n_a13a [(AVar n_ds3a)])) *c (EV n_s23s [(AVar n_ds2); (AVar n_ds3b)])) *c (EV n_a134s [(AVar n_ds4)])))) +c ((EMemT n_gL) *tc (((((EMemT n_me) *tc (EV n_a13a [(AVar n_ds3a)])) *c (EV n_s34s [(AVar n_ds3b); (AVar n_ds4)])) *c (EV n_a132s [(AVar n_ds2)])) +c ((((EMemT n_MZ) *tc (EV n_a12a [(AVar n_ds2)])) *c (EV n_s34s [(AVar n_ds3a); (AVar n_ds4)])) *c (EV n_a143s [(AVar n_ds3b)])))))) /c (EMemC n_pDenS)) /c (EMemC n_pDenU))))
(SSkip))))));,
SReturnC (ELocC n_amplitude)).
(** AeZe::amp2: SM/AeZe.cpp 157-171 *)
Definition AeZe_amp2 : meth := mkMeth n_amp2 []
(SLoc rT n_amp2 (EUn I2T (EInt 0));,
SDecl rC n_M;,
(SFor n_j1 (EUn NegI (EInt 2)) (EBin (CmpI CLe) (ELocI n_j1) (EInt 2)) (EBin (OpI IAdd) (ELocI n_j1) (EInt 4))
(SFor n_j2 (EUn NegI (EInt 1)) (EBin (CmpI CLe) (ELocI n_j2) (EInt 1)) (EBin (OpI IAdd) (ELocI n_j2) (EInt 2))
(SFor n_j3 (EUn NegI (EInt 2)) (EBin (CmpI CLe) (ELocI n_j3) (EInt 2)) (EBin (OpI IAdd) (ELocI n_j3) (EInt 2))
(SFor n_j4 (EUn NegI (EInt 1)) (EBin (CmpI CLe) (ELocI n_j4) (EInt 1)) (EBin (OpI IAdd) (ELocI n_j4) (EInt 2))
(SLoc rC n_M (ECall n_amp [(AVar n_j1); (AVar n_j2); (AVar n_j3); (AVar n_j4)]);,
SLoc rT n_amp2 ((ELocT n_amp2) +t (EUn Pow2T (EUn AbsC (ELocC n_M)))))))));,
SReturnT ((ELocT n_amp2) /t (EUn D2T (ELit (4 # 1))))).
(** AeZe::amp2_Aplus: SM/AeZe.cpp 173-186 *)
Definition AeZe_amp2_Aplus : meth := mkMeth n_amp2_Aplus []
(SLoc rT n_amp2 (EUn I2T (EInt 0));,
SDecl rC n_M;,
(SFor n_j2 (EUn NegI (EInt 1)) (EBin (CmpI CLe) (ELocI n_j2) (EInt 1)) (EBin (OpI IAdd) (ELocI n_j2) (EInt 2))
(SFor n_j3 (EUn NegI (EInt 2)) (EBin (CmpI CLe) (ELocI n_j3) (EInt 2)) (EBin (OpI IAdd) (ELocI n_j3) (EInt 2))
(SFor n_j4 (EUn NegI (EInt 1)) (EBin (CmpI CLe) (ELocI n_j4) (EInt 1)) (EBin (OpI IAdd) (ELocI n_j4) (EInt 2))
(SLoc rC n_M (ECall n_amp [(ALit 2); (AVar n_j2); (AVar n_j3); (AVar n_j4)]);,
SLoc rT n_amp2 ((ELocT n_amp2) +t (EUn Pow2T (EUn AbsC (ELocC n_M))))))));,
SReturnT ((ELocT n_amp2) /t (EUn D2T (ELit (2 # 1))))).
(** AeZe::amp2_Aminus: SM/AeZe.cpp 188-201 *)
Definition AeZe_amp2_Aminus : meth := mkMeth n_amp2_Aminus []
(SLoc rT n_amp2 (EUn I2T (EInt 0));,
SDecl rC n_M;,
(SFor n_j2 (EUn NegI (EInt 1)) (EBin (CmpI CLe) (ELocI n_j2) (EInt 1)) (EBin (OpI IAdd) (ELocI n_j2) (EInt 2))
(SFor n_j3 (EUn NegI (EInt 2)) (EBin (CmpI CLe) (ELocI n_j3) (EInt 2)) (EBin (OpI IAdd) (ELocI n_j3) (EInt 2))
(SFor n_j4 (EUn NegI (EInt 1)) (EBin (CmpI CLe) (ELocI n_j4) (EInt 1)) (EBin (OpI IAdd) (ELocI n_j4) (EInt 2))
(SLoc rC n_M (ECall n_amp [(ALit (-2)); (AVar n_j2); (AVar n_j3); (AVar n_j4)]);,
SLoc rT n_amp2 ((ELocT n_amp2) +t (EUn Pow2T (EUn AbsC (ELocC n_M))))))));,
SReturnT ((ELocT n_amp2) /t (EUn D2T (ELit (2 # 1))))).
(** members: SM/include/AeZe.h 26-34; initialisers: SM/AeZe.cpp 32-33 *)
Definition AeZe : cls := mkCls "AeZe"
[(n_e, KT);
(n_me, KT);
(n_MW, KT);
(n_SW, KT);
(n_CW, KT);
(n_MZ, KT);
(n_p1, (KPart 0));
(n_p2, (KPart 1));
(n_p3, (KPart 2));
(n_p4, (KPart 3));
(n_prope, KProp);
(n_pDenU, KC);
(n_pDenS, KC);
(n_s12s, KSprod);
(n_a12a, KSprod);
(n_s13s, KSprod);
(n_a13a, KSprod);
(n_s14s, KSprod);
(n_a14a, KSprod);
(n_a23a, KSprod);
(n_s23s, KSprod);
(n_a34a, KSprod);
(n_s34s, KSprod);
(n_s123a, KSprod);
(n_a123s, KSprod);
(n_s132a, KSprod);
(n_a132s, KSprod);
(n_s134a, KSprod);
(n_a134s, KSprod);
(n_s143a, KSprod);
(n_a143s, KSprod);
(n_sqrt2, KT);
(n_preSU, KT);
(n_preh, KT);
(n_gL, KT);
(n_gR, KT)]
[n_echarge; n_masse; n_massW; n_sinW]
[(n_e, NT (ELocT n_echarge));
(n_me, NT (ELocT n_masse));
(n_MW, NT (ELocT n_massW));
(n_SW, NT (ELocT n_sinW));
(n_CW, NT (EUn SqrtT ((EUn D2T (ELit (1 # 1))) -t ((ELocT n_sinW) *t (ELocT n_sinW)))));
(n_MZ, NT ((ELocT n_massW) /t (EMemT n_CW)));
(n_prope, NProp (ELocT n_masse) (EUn I2T (EInt 0)))]
AeZe_ctor
[AeZe_set_masses; AeZe_set_momenta; AeZe_amp; AeZe_amp2; AeZe_amp2_Aplus; AeZe_amp2_Aminus].

(** AhWW::AhWW: SM/AhWW.cpp 32-56 *)
Definition AhWW_ctor : stmt :=
(SLoc rT n_two (EUn I2T (EInt 2));,
SMemT n_sqrt2 (EUn SqrtT (ELocT n_two));,
SMemT n_CW (EUn SqrtT ((EUn D2T (ELit (1 # 1))) -t ((ELocT n_sinW) *t (ELocT n_sinW))));,
SPropNew n_propW (EMemT n_MW) (EMemT n_WW);,
SParticle 0 (EUn I2T (EInt 0));,
SParticle 1 (EMemT n_mh);,
SParticle 2 (EMemT n_MW);,
SParticle 3 (EMemT n_MW);,
SSprod n_s34s false 2 [] 3;,
SSprod n_a34a true 2 [] 3;,
SSprod n_s14s false 0 [] 3;,
SSprod n_a14a true 0 [] 3;,
SSprod n_s13s false 0 [] 2;,
SSprod n_a13a true 0 [] 2;,
SSprod n_s123a false 0 [1] 2;,
SSprod n_s124a false 0 [1] 3;,
SSprod n_s321a false 2 [1] 0;,
SSprod n_s421a false 3 [1] 0;,
SMemT n_pre ((((EMemT n_sqrt2) *t (EMemT n_e)) *t (EMemT n_e)) /t ((EMemT n_MW) *t (EMemT n_SW)))).
(** AhWW::set_masses: SM/AhWW.cpp 57-66 *)
Definition AhWW_set_masses : meth := mkMeth n_set_masses [(n_massh, PkT); (n_massW, PkT)]
(SMemT n_mh (ELocT n_massh);,
SMemT n_MW (ELocT n_massW);,
SSetMass 1 (EMemT n_mh);,
SSetMass 2 (EMemT n_MW);,
SSetMass 3 (EMemT n_MW);,
SPropMass n_propW (EMemT n_MW);,
SMemT n_pre ((((EMemT n_sqrt2) *t (EMemT n_e)) *t (EMemT n_e)) /t ((EMemT n_MW) *t (EMemT n_SW)))).
(** AhWW::set_momenta: SM/AhWW.cpp 67-93 *)
Definition AhWW_set_momenta : meth := mkMeth n_set_momenta [(n_mom1, PkMom); (n_mom2, PkMom); (n_mom3, PkMom); (n_mom4, PkMom)]
(SSetMomentum 0 n_mom1;,
SSetMomentum 1 n_mom2;,
SSetMomentum 2 n_mom3;,
SSetMomentum 3 n_mom4;,
SUpdate n_s34s;,
SUpdate n_a34a;,
SUpdate n_s14s;,
SUpdate n_a14a;,
SUpdate n_s13s;,
SUpdate n_a13a;,
SUpdate n_s123a;,
SUpdate n_s124a;,
SUpdate n_s321a;,
SUpdate n_s421a;,
SDeclT n_propTP 4;,
SDeclT n_propUP 4;,
(SFor n_j (EInt 0) (EBin (CmpI CLt) (ELocI n_j) (EInt 4)) (EBin (OpI IAdd) (ELocI n_j) (EInt 1))
(SArrT n_propTP (AVar n_j) ((EArrT n_mom1 (AVar n_j)) -t (EArrT n_mom3 (AVar n_j)));,
SArrT n_propUP (AVar n_j) ((EArrT n_mom1 (AVar n_j)) -t (EArrT n_mom4 (AVar n_j)))));,
SMemC n_pDenT (EDen n_propW n_propTP);,
SMemC n_pDenU (EDen n_propW n_propUP)).
(** AhWW::amp: SM/AhWW.cpp 98-135 *)
Definition AhWW_amp : meth := mkMeth n_amp [(n_ds1, PkI); (n_ds3, PkI); (n_ds4, PkI)]
(SLoc rC n_amplitude (EBin OpTTC (EUn I2T (EInt 0)) (EUn I2T (EInt 0)));,
SLoc rT n_one (EUn I2T (EInt 1));,
SDecl rI n_ds3a;,
SDecl rI n_ds3b;,
SDecl rI n_ds4a;,
SDecl rI n_ds4b;,
SLoc rI n_nCombs (ENLoops [(AVar n_ds3); (AVar n_ds4)]);,
SLoc rT n_normFactor (ENorm [(AVar n_ds3); (AVar n_ds4)]);,
(SFor n_i (EInt 0) (EBin (CmpI CLt) (ELocI n_i) (ELocI n_nCombs)) (EBin (OpI IAdd) (ELocI n_i) (EInt 1))
(SSpins [(n_ds3, n_ds3a, n_ds3b); (n_ds4, n_ds4a, n_ds4b)] (AVar n_i);,
(SIf (EBin (CmpI CGt) (ELocI n_ds1) (EInt 0))
(SLoc rC n_amplitude ((ELocC n_amplitude) +c ((((((ELocT n_normFactor) *t (EMemT n_pre)) *tc (EV n_a34a [(AVar n_ds3a); (AVar n_ds4a)])) *c (((((EMemT n_mh) *t (EMemT n_mh)) *tc (EV n_s13s [(AVar n_ds3b)])) *c (EV n_s14s [(AVar n_ds4b)])) +c ((EMemT n_MW) *tc (((EV n_s14s [(AVar n_ds4b)]) *c (EV n_s123a [(AVar n_ds3b)])) +c ((EV n_s13s [(AVar n_ds3b)]) *c (EV n_s124a [(AVar n_ds4b)])))))) /c (EMemC n_pDenT)) /c (EMemC n_pDenU))))
((SIf (EBin (CmpI CLt) (ELocI n_ds1) (EInt 0))
(SLoc rC n_amplitude ((ELocC n_amplitude) +c ((((((ELocT n_normFactor) *t (EMemT n_pre)) *tc (EV n_s34s [(AVar n_ds3a); (AVar n_ds4a)])) *c (((((EMemT n_mh) *t (EMemT n_mh)) *tc (EV n_a13a [(AVar n_ds3b)])) *c (EV n_a14a [(AVar n_ds4b)])) +c ((EMemT n_MW) *tc (((EV n_a14a [(AVar n_ds4b)]) *c (EV n_s321a [(AVar n_ds3b)])) +c ((EV n_a13a [(AVar n_ds3b)]) *c (EV n_s421a [(AVar n_ds4b)])))))) /c (EMemC n_pDenT)) /c (EMemC n_pDenU))))
(SSkip))))));,
SReturnC (ELocC n_amplitude)).
(** AhWW::amp2: SM/AhWW.cpp 138-151 *)
Definition AhWW_amp2 : meth := mkMeth n_amp2 []
(SLoc rT n_amp2 (EUn I2T (EInt 0));,
SDecl rC n_M;,
(SFor n_j1 (EUn NegI (EInt 2)) (EBin (CmpI CLe) (ELocI n_j1) (EInt 2)) (EBin (OpI IAdd) (ELocI n_j1) (EInt 4))
(SFor n_j3 (EUn NegI (EInt 2)) (EBin (CmpI CLe) (ELocI n_j3) (EInt 2)) (EBin (OpI IAdd) (ELocI n_j3) (EInt 2))
(SFor n_j4 (EUn NegI (EInt 2)) (EBin (CmpI CLe) (ELocI n_j4) (EInt 2)) (EBin (OpI IAdd) (ELocI n_j4) (EInt 2))
(SLoc rC n_M (ECall n_amp [(AVar n_j1); (AVar n_j3); (AVar n_j4)]);,
SLoc rT n_amp2 ((ELocT n_amp2) +t (EUn Pow2T (EUn AbsC (ELocC n_M))))))));,
SReturnT ((ELocT n_amp2) /t (EUn D2T (ELit (2 # 1))))).
(** AhWW::amp2_Aplus: SM/AhWW.cpp 154-165 *)
Definition AhWW_amp2_Aplus : meth := mkMeth n_amp2_Aplus []
(SLoc rT n_amp2 (EUn I2T (EInt 0));,
SDecl rC n_M;,
(SFor n_j3 (EUn NegI (EInt 2)) (EBin (CmpI CLe) (ELocI n_j3) (EInt 2)) (EBin (OpI IAdd) (ELocI n_j3) (EInt 2))
(SFor n_j4 (EUn NegI (EInt 2)) (EBin (CmpI CLe) (ELocI n_j4) (EInt 2)) (EBin (OpI IAdd) (ELocI n_j4) (EInt 2))
(SLoc rC n_M (ECall n_amp [(ALit 2); (AVar n_j3); (AVar n_j4)]);,
SLoc rT n_amp2 ((ELocT n_amp2) +t (EUn Pow2T (EUn AbsC (ELocC n_M)))))));,
SReturnT (ELocT n_amp2)).
(** members: SM/include/AhWW.h 26-36; initialisers: SM/AhWW.cpp 32-33 *)
Definition AhWW : cls := mkCls "AhWW"
[(n_e, KT);
(n_mh, KT);
(n_MW, KT);
(n_SW, KT);
(n_CW, KT);
(n_WW, KT);
(n_p1, (KPart 0));
(n_p2, (KPart 1));
(n_p3, (KPart 2));
(n_p4, (KPart 3));
(n_propW, KProp);
(n_pDenS, KC);
(n_pDenT, KC);
(n_pDenU, KC);
(n_a34a, KSprod);
(n_s34s, KSprod);
(n_a14a, KSprod);
(n_s14s, KSprod);
(n_a13a, KSprod);
(n_s13s, KSprod);
(n_s123a, KSprod);
(n_s124a, KSprod);
(n_s321a, KSprod);
(n_s421a, KSprod);
(n_sqrt2, KT);
(n_pre, KT)]
[n_echarge; n_massh; n_massW; n_sinW; n_widthW]
[(n_e, NT (ELocT n_echarge));
(n_mh, NT (ELocT n_massh));
(n_MW, NT (ELocT n_massW));
(n_SW, NT (ELocT n_sinW));
(n_CW, NT (EUn SqrtT ((EUn D2T (ELit (1 # 1))) -t ((ELocT n_sinW) *t (ELocT n_sinW)))));
(n_WW, NT (ELocT n_widthW))]
AhWW_ctor
[AhWW_set_masses; AhWW_set_momenta; AhWW_amp; AhWW_amp2; AhWW_amp2_Aplus].

(** AnWe::AnWe: SM/AnWe.cpp 32-54 *)
Definition AnWe_ctor : stmt :=
(SPropNew n_propW (EMemT n_MW) (EMemT n_WW);,
SPropNew n_prope (EMemT n_me) (EUn I2T (EInt 0));,
SParticle 0 (EUn I2T (EInt 0));,
SParticle 1 (EUn I2T (EInt 0));,
SParticle 2 (EMemT n_MW);,
SParticle 3 (EMemT n_me);,
SSprod n_s13s false 0 [] 2;,
SSprod n_a42a true 3 [] 1;,
SSprod n_a23a true 1 [] 2;,
SSprod n_s41s false 3 [] 0;,
SSprod n_s143a false 0 [3] 2;,
SSprod n_a21a true 1 [] 0;,
SSprod n_s43s false 3 [] 2;,
SSprod n_a13a true 0 [] 2;,
SSprod n_s341a false 2 [3] 0;,
SMemT n_pre ((((EUn D2T (EUn SqrtD (ELit (2 # 1)))) *t (EMemT n_e)) *t (EMemT n_e)) /t ((EMemT n_MW) *t (EMemT n_SW)))).
(** AnWe::set_masses: SM/AnWe.cpp 55-64 *)
Definition AnWe_set_masses : meth := mkMeth n_set_masses [(n_masse, PkT); (n_massW, PkT)]
(SMemT n_me (ELocT n_masse);,
SMemT n_MW (ELocT n_massW);,
SSetMass 2 (EMemT n_MW);,
SSetMass 3 (EMemT n_me);,
SPropMass n_propW (EMemT n_MW);,
SPropMass n_prope (EMemT n_me);,
SMemT n_pre ((((EUn D2T (EUn SqrtD (ELit (2 # 1)))) *t (EMemT n_e)) *t (EMemT n_e)) /t ((EMemT n_MW) *t (EMemT n_SW)))).
(** AnWe::set_momenta: SM/AnWe.cpp 65-90 *)
Definition AnWe_set_momenta : meth := mkMeth n_set_momenta [(n_mom1, PkMom); (n_mom2, PkMom); (n_mom3, PkMom); (n_mom4, PkMom)]
(SSetMomentum 0 n_mom1;,
SSetMomentum 1 n_mom2;,
SSetMomentum 2 n_mom3;,
SSetMomentum 3 n_mom4;,
SUpdate n_s13s;,
SUpdate n_a42a;,
SUpdate n_a23a;,
SUpdate n_s41s;,
SUpdate n_s143a;,
SUpdate n_a21a;,
SUpdate n_s43s;,
SUpdate n_a13a;,
SUpdate n_s341a;,
SDeclT n_propTP 4;,
SDeclT n_propUP 4;,
(SFor n_j (EInt 0) (EBin (CmpI CLt) (ELocI n_j) (EInt 4)) (EBin (OpI IAdd) (ELocI n_j) (EInt 1))
(SArrT n_propTP (AVar n_j) ((EArrT n_mom1 (AVar n_j)) -t (EArrT n_mom3 (AVar n_j)));,
SArrT n_propUP (AVar n_j) ((EArrT n_mom1 (AVar n_j)) -t (EArrT n_mom4 (AVar n_j)))));,
SMemC n_pDenT (EDen n_propW n_propTP);,
SMemC n_pDenU (EDen n_prope n_propUP)).
(** AnWe::amp: SM/AnWe.cpp 95-138 *)
Definition AnWe_amp : meth := mkMeth n_amp [(n_ds1, PkI); (n_ds3, PkI); (n_ds4, PkI)]
(SLoc rC n_amplitude (EBin OpTTC (EUn I2T (EInt 0)) (EUn I2T (EInt 0)));,
SDecl rI n_ds3a;,
SDecl rI n_ds3b;,
SLoc rI n_nCombs (ENLoops [(AVar n_ds3)]);,
SLoc rT n_normFactor (ENorm [(AVar n_ds3)]);,
(SFor n_i (EInt 0) (EBin (CmpI CLt) (ELocI n_i) (ELocI n_nCombs)) (EBin (OpI IAdd) (ELocI n_i) (EInt 1))
(SSpins [(n_ds3, n_ds3a, n_ds3b)] (AVar n_i);,
(SIf (EBin (CmpI CGt) (ELocI n_ds1) (EInt 0))
(SLoc rC n_amplitude ((ELocC n_amplitude) +c ((((((ELocT n_normFactor) *t (EMemT n_pre)) *tc ((((EMemT n_me) *tc (EV n_s13s [(AVar n_ds3a)])) *c (EV n_a42a [(AVar n_ds4)])) +c (((EMemT n_MW) *tc (EV n_a23a [(AVar n_ds3a)])) *c (EV n_s41s [(AVar n_ds4)])))) *c (((EMemT n_MW) *tc (EV n_s13s [(AVar n_ds3b)])) -c (EV n_s143a [(AVar n_ds3b)]))) /c (EMemC n_pDenT)) /c (EMemC n_pDenU))))
((SIf (EBin (CmpI CLt) (ELocI n_ds1) (EInt 0))
(SLoc rC n_amplitude ((ELocC n_amplitude) +c (((((((ELocT n_normFactor) *t (EMemT n_pre)) *tc (EV n_a21a [])) *c (EV n_s43s [(AVar n_ds4); (AVar n_ds3a)])) *c ((((EMemT n_me) *t (EMemT n_me)) *tc (EV n_a13a [(AVar n_ds3b)])) -c ((EMemT n_MW) *tc (EV n_s341a [(AVar n_ds3b)])))) /c (EMemC n_pDenT)) /c (EMemC n_pDenU))))
(SSkip))))));,
SReturnC (ELocC n_amplitude)).
(** AnWe::amp2: SM/AnWe.cpp 141-154 *)
Definition AnWe_amp2 : meth := mkMeth n_amp2 []
(SLoc rT n_amp2 (EUn I2T (EInt 0));,
SDecl rC n_M;,
(SFor n_j1 (EUn NegI (EInt 2)) (EBin (CmpI CLe) (ELocI n_j1) (EInt 2)) (EBin (OpI IAdd) (ELocI n_j1) (EInt 4))
(SFor n_j3 (EUn NegI (EInt 2)) (EBin (CmpI CLe) (ELocI n_j3) (EInt 2)) (EBin (OpI IAdd) (ELocI n_j3) (EInt 2))
(SFor n_j4 (EUn NegI (EInt 1)) (EBin (CmpI CLe) (ELocI n_j4) (EInt 1)) (EBin (OpI IAdd) (ELocI n_j4) (EInt 2))
(SLoc rC n_M (ECall n_amp [(AVar n_j1); (AVar n_j3); (AVar n_j4)]);,
SLoc rT n_amp2 ((ELocT n_amp2) +t (EUn Pow2T (EUn AbsC (ELocC n_M))))))));,
SReturnT ((ELocT n_amp2) /t (EUn D2T (ELit (2 # 1))))).
(** AnWe::amp2_Aplus: SM/AnWe.cpp 159-171 *)
Definition AnWe_amp2_Aplus : meth := mkMeth n_amp2_Aplus []
(SLoc rT n_amp2 (EUn I2T (EInt 0));,
SDecl rC n_M;,
(SFor n_j3 (EUn NegI (EInt 2)) (EBin (CmpI CLe) (ELocI n_j3) (EInt 2)) (EBin (OpI IAdd) (ELocI n_j3) (EInt 2))
(SFor n_j4 (EUn NegI (EInt 1)) (EBin (CmpI CLe) (ELocI n_j4) (EInt 1)) (EBin (OpI IAdd) (ELocI n_j4) (EInt 2))
(SLoc rC n_M (ECall n_amp [(ALit 1); (AVar n_j3); (AVar n_j4)]);,
SLoc rT n_amp2 ((ELocT n_amp2) +t (EUn Pow2T (EUn AbsC (ELocC n_M)))))));,
SReturnT (ELocT n_amp2)).
(** members: SM/include/AnWe.h 26-35; initialisers: SM/AnWe.cpp 32-33 *)
Definition AnWe : cls := mkCls "AnWe"
[(n_e, KT);
(n_me, KT);
(n_MW, KT);
(n_SW, KT);
(n_WW, KT);
(n_pre, KT);
(n_p1, (KPart 0));
(n_p2, (KPart 1));
(n_p3, (KPart 2));
(n_p4, (KPart 3));
(n_propW, KProp);
(n_prope, KProp);
(n_pDenT, KC);
(n_pDenU, KC);
(n_s13s, KSprod);
(n_a42a, KSprod);
(n_a23a, KSprod);
(n_s41s, KSprod);
(n_s143a, KSprod);
(n_a21a, KSprod);
(n_s43s, KSprod);
(n_a13a, KSprod);
(n_s341a, KSprod)]
[n_echarge; n_masse; n_massW; n_sinW; n_widthW]
[(n_e, NT (ELocT n_echarge));
(n_me, NT (ELocT n_masse));
(n_MW, NT (ELocT n_massW));
(n_SW, NT (ELocT n_sinW));
(n_WW, NT (ELocT n_widthW))]
AnWe_ctor
[AnWe_set_masses; AnWe_set_momenta; AnWe_amp; AnWe_amp2; AnWe_amp2_Aplus].

(** AuZu::AuZu: SM/AuZu.cpp 32-65 *)
Definition AuZu_ctor : stmt :=
(SLoc rT n_two (EUn I2T (EInt 2));,
SMemT n_sqrt2 (EUn SqrtT (ELocT n_two));,
SMemT n_MZ ((EMemT n_MW) /t (EMemT n_CW));,
SParticle 0 (EUn I2T (EInt 0));,
SParticle 1 (EMemT n_mu);,
SParticle 2 (EMemT n_MZ);,
SParticle 3 (EMemT n_mu);,
SSprod n_s12s false 0 [] 1;,
SSprod n_s13s false 0 [] 2;,
SSprod n_s14s false 0 [] 3;,
SSprod n_a23a true 1 [] 2;,
SSprod n_a34a true 2 [] 3;,
SSprod n_s123a false 0 [1] 2;,
SSprod n_s132a false 0 [2] 1;,
SSprod n_s134a false 0 [2] 3;,
SSprod n_s143a false 0 [3] 2;,
SSprod n_a12a true 0 [] 1;,
SSprod n_a13a true 0 [] 2;,
SSprod n_a14a true 0 [] 3;,
SSprod n_s23s false 1 [] 2;,
SSprod n_s34s false 2 [] 3;,
SSprod n_a123s true 0 [1] 2;,
SSprod n_a132s true 0 [2] 1;,
SSprod n_a134s true 0 [2] 3;,
SSprod n_a143s true 0 [3] 2;,
SMemT n_preTU ((((EMemT n_e) *t (EMemT n_e)) *t (EMemT n_Qu)) /t ((EMemT n_MW) *t (EMemT n_SW)));,
SMemT n_gLu (((((EUn D2T (EUn NegD (ELit (2 # 1)))) *t (EMemT n_Qu)) *t (EMemT n_SW)) *t (EMemT n_SW)) +t (EUn D2T (ELit (1 # 1))));,
SMemT n_gRu ((((EUn D2T (EUn NegD (ELit (2 # 1)))) *t (EMemT n_Qu)) *t (EMemT n_SW)) *t (EMemT n_SW))).
(** AuZu::set_masses: SM/AuZu.cpp 66-77 *)
Definition AuZu_set_masses : meth := mkMeth n_set_masses [(n_massu, PkT); (n_massW, PkT)]
(SMemT n_mu (ELocT n_massu);,
SMemT n_MW (ELocT n_massW);,
SMemT n_MZ ((EMemT n_MW) /t (EMemT n_CW));,
SSetMass 0 (EUn I2T (EInt 0));,
SSetMass 1 (EMemT n_mu);,
SSetMass 2 (EMemT n_MZ);,
SSetMass 3 (EMemT n_mu);,
SPropMass n_prope (EMemT n_mu);,
SMemT n_preTU ((((EMemT n_e) *t (EMemT n_e)) *t (EMemT n_Qu)) /t ((EMemT n_MW) *t (EMemT n_SW)))).
(** AuZu::set_momenta: SM/AuZu.cpp 78-112 *)
Definition AuZu_set_momenta : meth := mkMeth n_set_momenta [(n_mom1, PkMom); (n_mom2, PkMom); (n_mom3, PkMom); (n_mom4, PkMom)]
(SSetMomentum 0 n_mom1;,
SSetMomentum 1 n_mom2;,
SSetMomentum 2 n_mom3;,
SSetMomentum 3 n_mom4;,
SUpdate n_s12s;,
SUpdate n_s13s;,
SUpdate n_s14s;,
SUpdate n_a23a;,
SUpdate n_a34a;,
SUpdate n_s123a;,
SUpdate n_s132a;,
SUpdate n_s134a;,
SUpdate n_s143a;,
SUpdate n_a12a;,
SUpdate n_a13a;,
SUpdate n_a14a;,
SUpdate n_s23s;,
SUpdate n_s34s;,
SUpdate n_a123s;,
SUpdate n_a132s;,
SUpdate n_a134s;,
SUpdate n_a143s;,
SDeclT n_propSP 4;,
SDeclT n_propUP 4;,
(SFor n_j (EInt 0) (EBin (CmpI CLt) (ELocI n_j) (EInt 4)) (EBin (OpI IAdd) (ELocI n_j) (EInt 1))
(SArrT n_propSP (AVar n_j) ((EArrT n_mom1 (AVar n_j)) +t (EArrT n_mom2 (AVar n_j)));,
SArrT n_propUP (AVar n_j) ((EArrT n_mom1 (AVar n_j)) -t (EArrT n_mom4 (AVar n_j)))));,
SMemC n_pDenS (EDen n_prope n_propSP);,
SMemC n_pDenU (EDen n_prope n_propUP)).
(** AuZu::amp: SM/AuZu.cpp 117-154 *)
Definition AuZu_amp : meth := mkMeth n_amp [(n_ds1, PkI); (n_ds2, PkI); (n_ds3, PkI); (n_ds4, PkI)]
(SLoc rC n_amplitude (EBin OpTTC (EUn I2T (EInt 0)) (EUn I2T (EInt 0)));,
SDecl rI n_ds3a;,
SDecl rI n_ds3b;,
SLoc rT n_two (EUn I2T (EInt 2));,
SLoc rI n_nCombs (ENLoops [(AVar n_ds3)]);,
SLoc rT n_normFactor (ENorm [(AVar n_ds3)]);,
(SFor n_i (EInt 0) (EBin (CmpI CLt) (ELocI n_i) (ELocI n_nCombs)) (EBin (OpI IAdd) (ELocI n_i) (EInt 1))
(SSpins [(n_ds3, n_ds3a, n_ds3b)] (AVar n_i);,
(SIf (EBin (CmpI CGt) (ELocI n_ds1) (EInt 0))
(SLoc rC n_amplitude ((ELocC n_amplitude) +c (((((ELocT n_normFactor) *t (EMemT n_preTU)) *tc ((((EUn NegT (EMemT n_gLu)) *tc (EV n_a23a [(AVar n_ds2); (AVar n_ds3a)])) *c ((((EMemT n_MZ) *tc (EV n_s14s [(AVar n_ds4)])) *c (EV n_s123a [(AVar n_ds3b)])) +c (((EMemT n_mu) *tc (EV n_s13s [(AVar n_ds3b)])) *c (EV n_s134a [(AVar n_ds4)])))) -c (((EMemT n_gRu) *tc (EV n_a34a [(AVar n_ds3a); (AVar n_ds4)])) *c ((((EMemT n_mu) *tc (EV n_s13s [(AVar n_ds3b)])) *c (EV n_s132a [(AVar n_ds2)])) +c (((EMemT n_MZ) *tc (EV n_s12s [(AVar n_ds2)])) *c (EV n_s143a [(AVar n_ds3b)])))))) /c (EMemC n_pDenU)) /c (EMemC n_pDenS))))
((SIf (EBin (CmpI CLt) (ELocI n_ds1) (EInt 0))
(SLoc rC n_amplitude ((ELocC n_amplitude) +c (((((ELocT n_normFactor) *t (EMemT n_preTU)) *tc ((((EUn NegT (EMemT n_gRu)) *tc (EV n_s23s [(AVar n_ds2); (AVar n_ds3a)])) *c ((((EMemT n_MZ) *tc (EV n_a14a [(AVar n_ds4)])) *c (EV n_a123s [(AVar n_ds3b)])) +c (((EMemT n_mu) *tc (EV n_a13a [(AVar n_ds3b)])) *c (EV n_a134s [(AVar n_ds4)])))) -c (((EMemT n_gLu) *tc (EV n_s34s [(AVar n_ds3a); (AVar n_ds4)])) *c ((((EMemT n_mu) *tc (EV n_a13a [(AVar n_ds3b)])) *c (EV n_a132s [(AVar n_ds2)])) +c (((EMemT n_MZ) *tc (EV n_a12a [(AVar n_ds2)])) *c (EV n_a143s [(AVar n_ds3b)])))))) /c (EMemC n_pDenU)) /c (EMemC n_pDenS))))
(SSkip))))));,
SReturnC (ELocC n_amplitude)).
(** AuZu::amp2: SM/AuZu.cpp 157-172 *)
Definition AuZu_amp2 : meth := mkMeth n_amp2 []
(SLoc rT n_amp2 (EUn I2T (EInt 0));,
SDecl rC n_M;,
(SFor n_j1 (EUn NegI (EInt 2)) (EBin (CmpI CLe) (ELocI n_j1) (EInt 2)) (EBin (OpI IAdd) (ELocI n_j1) (EInt 4))
(SFor n_j2 (EUn NegI (EInt 1)) (EBin (CmpI CLe) (ELocI n_j2) (EInt 1)) (EBin (OpI IAdd) (ELocI n_j2) (EInt 2))
(SFor n_j3 (EUn NegI (EInt 2)) (EBin (CmpI CLe) (ELocI n_j3) (EInt 2)) (EBin (OpI IAdd) (ELocI n_j3) (EInt 2))
(SFor n_j4 (EUn NegI (EInt 1)) (EBin (CmpI CLe) (ELocI n_j4) (EInt 1)) (EBin (OpI IAdd) (ELocI n_j4) (EInt 2))
(SLoc rC n_M (ECall n_amp [(AVar n_j1); (AVar n_j2); (AVar n_j3); (AVar n_j4)]);,
SLoc rT n_amp2 ((ELocT n_amp2) +t ((EUn D2T (ELit (3 # 1))) *t (EUn Pow2T (EUn AbsC (ELocC n_M))))))))));,
SReturnT ((ELocT n_amp2) /t (EUn D2T (ELit (12 # 1))))).
(** AuZu::amp2_Aplus: SM/AuZu.cpp 174-188 *)
Definition AuZu_amp2_Aplus : meth := mkMeth n_amp2_Aplus []
(SLoc rT n_amp2 (EUn I2T (EInt 0));,
SDecl rC n_M;,
(SFor n_j2 (EUn NegI (EInt 1)) (EBin (CmpI CLe) (ELocI n_j2) (EInt 1)) (EBin (OpI IAdd) (ELocI n_j2) (EInt 2))
(SFor n_j3 (EUn NegI (EInt 2)) (EBin (CmpI CLe) (ELocI n_j3) (EInt 2)) (EBin (OpI IAdd) (ELocI n_j3) (EInt 2))
(SFor n_j4 (EUn NegI (EInt 1)) (EBin (CmpI CLe) (ELocI n_j4) (EInt 1)) (EBin (OpI IAdd) (ELocI n_j4) (EInt 2))
(SLoc rC n_M (ECall n_amp [(ALit 2); (AVar n_j2); (AVar n_j3); (AVar n_j4)]);,
SLoc rT n_amp2 ((ELocT n_amp2) +t ((EUn D2T (ELit (3 # 1))) *t (EUn Pow2T (EUn AbsC (ELocC n_M)))))))));,
SReturnT ((ELocT n_amp2) /t (EUn D2T (ELit (6 # 1))))).
(** AuZu::amp2_Aminus: SM/AuZu.cpp 190-204 *)
Definition AuZu_amp2_Aminus : meth := mkMeth n_amp2_Aminus []
(SLoc rT n_amp2 (EUn I2T (EInt 0));,
SDecl rC n_M;,
(SFor n_j2 (EUn NegI (EInt 1)) (EBin (CmpI CLe) (ELocI n_j2) (EInt 1)) (EBin (OpI IAdd) (ELocI n_j2) (EInt 2))
(SFor n_j3 (EUn NegI (EInt 2)) (EBin (CmpI CLe) (ELocI n_j3) (EInt 2)) (EBin (OpI IAdd) (ELocI n_j3) (EInt 2))
(SFor n_j4 (EUn NegI (EInt 1)) (EBin (CmpI CLe) (ELocI n_j4) (EInt 1)) (EBin (OpI IAdd) (ELocI n_j4) (EInt 2))
(SLoc rC n_M (ECall n_amp [(ALit (-2)); (AVar n_j2); (AVar n_j3); (AVar n_j4)]);,
SLoc rT n_amp2 ((ELocT n_amp2) +t ((EUn D2T (ELit (3 # 1))) *t (EUn Pow2T (EUn AbsC (ELocC n_M)))))))));,
SReturnT ((ELocT n_amp2) /t (EUn D2T (ELit (6 # 1))))).
(** members: SM/include/AuZu.h 26-35; initialisers: SM/AuZu.cpp 32-33 *)
Definition AuZu : cls := mkCls "AuZu"
[(n_e, KT);
(n_Qu, KT);
(n_mu, KT);
(n_MW, KT);
(n_SW, KT);
(n_CW, KT);
(n_MZ, KT);
(n_p1, (KPart 0));
(n_p2, (KPart 1));
(n_p3, (KPart 2));
(n_p4, (KPart 3));
(n_prope, KProp);
(n_pDenS, KC);
(n_pDenU, KC);
(n_s12s, KSprod);
(n_s13s, KSprod);
(n_s14s, KSprod);
(n_a23a, KSprod);
(n_a34a, KSprod);
(n_s123a, KSprod);
(n_s132a, KSprod);
(n_s134a, KSprod);
(n_s143a, KSprod);
(n_a12a, KSprod);
(n_a13a, KSprod);
(n_a14a, KSprod);
(n_s23s, KSprod);
(n_s34s, KSprod);
(n_a123s, KSprod);
(n_a132s, KSprod);
(n_a134s, KSprod);
(n_a143s, KSprod);
(n_sqrt2, KT);
(n_preTU, KT);
(n_preh, KT);
(n_gLu, KT);
(n_gRu, KT)]
[n_echarge; n_massu; n_massW; n_sinW]
[(n_e, NT (ELocT n_echarge));
(n_Qu, NT (EUn D2T ((ELit (2 # 1)) /d (ELit (3 # 1)))));
(n_mu, NT (ELocT n_massu));
(n_MW, NT (ELocT n_massW));
(n_SW, NT (ELocT n_sinW));
(n_CW, NT (EUn SqrtT ((EUn D2T (ELit (1 # 1))) -t ((ELocT n_sinW) *t (ELocT n_sinW)))));
(n_MZ, NT ((ELocT n_massW) /t (EMemT n_CW)));
(n_prope, NProp (ELocT n_massu) (EUn I2T (EInt 0)))]
AuZu_ctor
[AuZu_set_masses; AuZu_set_momenta; AuZu_amp; AuZu_amp2; AuZu_amp2_Aplus; AuZu_amp2_Aminus].

(** WWWW::WWWW: SM/WWWW.cpp 32-67 *)
Definition WWWW_ctor : stmt :=
(SMemT n_CW (EUn SqrtT ((EUn D2T (ELit (1 # 1))) -t ((ELocT n_sinW) *t (ELocT n_sinW))));,
SMemT n_MZ ((EMemT n_MW) /t (EMemT n_CW));,
SPropNew n_proph (EMemT n_mh) (EMemT n_wh);,
SPropNew n_propZ (EMemT n_MZ) (EMemT n_WZ);,
SPropNew n_propA (EUn I2T (EInt 0)) (EUn I2T (EInt 0));,
SParticle 0 (EMemT n_MW);,
SParticle 1 (EMemT n_MW);,
SParticle 2 (EMemT n_MW);,
SParticle 3 (EMemT n_MW);,
SSprod n_s12s false 0 [] 1;,
SSprod n_a12a true 0 [] 1;,
SSprod n_s34s false 2 [] 3;,
SSprod n_a34a true 2 [] 3;,
SSprod n_s23s false 1 [] 2;,
SSprod n_a23a true 1 [] 2;,
SSprod n_s24s false 1 [] 3;,
SSprod n_a24a true 1 [] 3;,
SSprod n_s14s false 0 [] 3;,
SSprod n_a14a true 0 [] 3;,
SSprod n_s13s false 0 [] 2;,
SSprod n_a13a true 0 [] 2;,
SSprod n_s431a false 3 [2] 0;,
SSprod n_s134a false 0 [2] 3;,
SSprod n_s341a false 2 [3] 0;,
SSprod n_s143a false 0 [3] 2;,
SSprod n_s43s false 3 [] 2;,
SSprod n_a43a true 3 [] 2;,
SMemT n_preh (((EMemT n_e) *t (EMemT n_e)) /t ((((EMemT n_MW) *t (EMemT n_MW)) *t (EMemT n_SW)) *t (EMemT n_SW)));,
SMemT n_preA (((EMemT n_e) *t (EMemT n_e)) /t (((EMemT n_MW) *t (EMemT n_MW)) *t (EMemT n_MW)));,
SMemT n_preZ (((EMemT n_e) *t (EMemT n_e)) /t ((((((EUn D2T (ELit (2 # 1))) *t (EMemT n_MW)) *t (EMemT n_MW)) *t (EMemT n_MZ)) *t (EMemT n_SW)) *t (EMemT n_SW)))).
(** WWWW::set_masses: SM/WWWW.cpp 68-82 *)
Definition WWWW_set_masses : meth := mkMeth n_set_masses [(n_massh, PkT); (n_massW, PkT)]
(SMemT n_mh (ELocT n_massh);,
SMemT n_MW (ELocT n_massW);,
SMemT n_MZ ((EMemT n_MW) /t (EMemT n_CW));,
SSetMass 0 (EMemT n_MW);,
SSetMass 1 (EMemT n_MW);,
SSetMass 2 (EMemT n_MW);,
SSetMass 3 (EMemT n_MW);,
SPropMass n_proph (EMemT n_mh);,
SPropMass n_propZ (EMemT n_MZ);,
SMemT n_preh (((EMemT n_e) *t (EMemT n_e)) /t ((((EMemT n_MW) *t (EMemT n_MW)) *t (EMemT n_SW)) *t (EMemT n_SW)));,
SMemT n_preA (((EMemT n_e) *t (EMemT n_e)) /t (((EMemT n_MW) *t (EMemT n_MW)) *t (EMemT n_MW)));,
SMemT n_preZ (((EMemT n_e) *t (EMemT n_e)) /t ((((((EUn D2T (ELit (2 # 1))) *t (EMemT n_MW)) *t (EMemT n_MW)) *t (EMemT n_MZ)) *t (EMemT n_SW)) *t (EMemT n_SW)))).
(** WWWW::set_momenta: SM/WWWW.cpp 83-120 *)
Definition WWWW_set_momenta : meth := mkMeth n_set_momenta [(n_mom1, PkMom); (n_mom2, PkMom); (n_mom3, PkMom); (n_mom4, PkMom)]
(SSetMomentum 0 n_mom1;,
SSetMomentum 1 n_mom2;,
SSetMomentum 2 n_mom3;,
SSetMomentum 3 n_mom4;,
SUpdate n_s12s;,
SUpdate n_a12a;,
SUpdate n_s34s;,
SUpdate n_a34a;,
SUpdate n_s23s;,
SUpdate n_a23a;,
SUpdate n_s24s;,
SUpdate n_a24a;,
SUpdate n_s14s;,
SUpdate n_a14a;,
SUpdate n_s13s;,
SUpdate n_a13a;,
SUpdate n_s431a;,
SUpdate n_s134a;,
SUpdate n_s341a;,
SUpdate n_s143a;,
SDeclT n_propSP 4;,
SDeclT n_propTP 4;,
SDeclT n_propUP 4;,
(SFor n_j (EInt 0) (EBin (CmpI CLt) (ELocI n_j) (EInt 4)) (EBin (OpI IAdd) (ELocI n_j) (EInt 1))
(SArrT n_propSP (AVar n_j) ((EArrT n_mom1 (AVar n_j)) +t (EArrT n_mom2 (AVar n_j)));,
SArrT n_propTP (AVar n_j) ((EArrT n_mom1 (AVar n_j)) -t (EArrT n_mom3 (AVar n_j)));,
SArrT n_propUP (AVar n_j) ((EArrT n_mom1 (AVar n_j)) -t (EArrT n_mom4 (AVar n_j)))));,
SMemC n_pDenTh (EDen n_proph n_propTP);,
SMemC n_pDenUh (EDen n_proph n_propUP);,
SMemC n_pDenTZ (EDen n_propZ n_propTP);,
SMemC n_pDenUZ (EDen n_propZ n_propUP);,
SMemC n_pDenTA (EDen n_propA n_propTP);,
SMemC n_pDenUA (EDen n_propA n_propUP)).
(** WWWW::amp: SM/WWWW.cpp 125-270 *)
Definition WWWW_amp : meth := mkMeth n_amp [(n_ds1, PkI); (n_ds2, PkI); (n_ds3, PkI); (n_ds4, PkI)]
(SLoc rC n_amplitude (EBin OpTTC (EUn I2T (EInt 0)) (EUn I2T (EInt 0)));,
SLoc rT n_one (EUn I2T (EInt 1));,
SLoc rT n_two (EUn I2T (EInt 2));,
SLoc rT n_three (EUn I2T (EInt 3));,
SLoc rT n_four (EUn I2T (EInt 4));,
SLoc rT n_five (EUn I2T (EInt 5));,
SLoc rT n_six (EUn I2T (EInt 6));,
SLoc rT n_eight (EUn I2T (EInt 8));,
SLoc rT n_nine (EUn I2T (EInt 9));,
SLoc rT n_eleven (EUn I2T (EInt 11));,
SDecl rI n_ds1a;,
SDecl rI n_ds1b;,
SDecl rI n_ds2a;,
SDecl rI n_ds2b;,
SDecl rI n_ds3a;,
SDecl rI n_ds3b;,
SDecl rI n_ds4a;,
SDecl rI n_ds4b;,
SLoc rI n_nCombs (ENLoops [(AVar n_ds1); (AVar n_ds2); (AVar n_ds3); (AVar n_ds4)]);,
SLoc rT n_normFactor (ENorm [(AVar n_ds1); (AVar n_ds2); (AVar n_ds3); (AVar n_ds4)]);,
(SFor n_i (EInt 0) (EBin (CmpI CLt) (ELocI n_i) (ELocI n_nCombs)) (EBin (OpI IAdd) (ELocI n_i) (EInt 1))
(SSpins [(n_ds1, n_ds1a, n_ds1b); (n_ds2, n_ds2a, n_ds2b); (n_ds3, n_ds3a, n_ds3b); (n_ds4, n_ds4a, n_ds4b)] (AVar n_i);,
SLoc rC n_amplitude ((ELocC n_amplitude) +c (((((((EUn NegT (ELocT n_normFactor)) *t (EMemT n_preh)) *tc (EV n_s13s [(AVar n_ds1a); (AVar n_ds3a)])) *c (EV n_a13a [(AVar n_ds1b); (AVar n_ds3b)])) *c (EV n_s24s [(AVar n_ds2a); (AVar n_ds4a)])) *c (EV n_a24a [(AVar n_ds2b); (AVar n_ds4b)])) /c (EMemC n_pDenTh)));,
SLoc rC n_amplitude ((ELocC n_amplitude) +c (((((((EUn NegT (ELocT n_normFactor)) *t (EMemT n_preh)) *tc (EV n_s14s [(AVar n_ds1a); (AVar n_ds4a)])) *c (EV n_a14a [(AVar n_ds1b); (AVar n_ds4b)])) *c (EV n_s23s [(AVar n_ds2a); (AVar n_ds3a)])) *c (EV n_a23a [(AVar n_ds2b); (AVar n_ds3b)])) /c (EMemC n_pDenUh)));,
SLoc rC n_amplitude ((ELocC n_amplitude) +c ((((ELocT n_normFactor) *t (EMemT n_preA)) *tc ((((((((((((((((((((((((((((ELocT n_two) *t (EMemT n_MW)) *tc (EV n_a24a [(AVar n_ds2a); (AVar n_ds4a)])) *c (EV n_a34a [(AVar n_ds3a); (AVar n_ds4b)])) *c (EV n_s12s [(AVar n_ds1a); (AVar n_ds2b)])) *c (EV n_s13s [(AVar n_ds1b); (AVar n_ds3b)])) -c (((((EMemT n_MW) *tc (EV n_a13a [(AVar n_ds1a); (AVar n_ds3a)])) *c (EV n_a23a [(AVar n_ds2a); (AVar n_ds3b)])) *c (EV n_a24a [(AVar n_ds2b); (AVar n_ds4a)])) *c (EV n_s14s [(AVar n_ds1b); (AVar n_ds4b)]))) +c ((((((ELocT n_two) *t (EMemT n_MW)) *tc (EV n_a23a [(AVar n_ds2a); (AVar n_ds3a)])) *c (EV n_a24a [(AVar n_ds2b); (AVar n_ds4a)])) *c (EV n_s13s [(AVar n_ds1a); (AVar n_ds3b)])) *c (EV n_s14s [(AVar n_ds1b); (AVar n_ds4b)]))) +c (((((EMemT n_MW) *tc (EV n_a12a [(AVar n_ds1a); (AVar n_ds2b)])) *c (EV n_a34a [(AVar n_ds3a); (AVar n_ds4a)])) *c (EV n_s13s [(AVar n_ds1b); (AVar n_ds3b)])) *c (EV n_s24s [(AVar n_ds2a); (AVar n_ds4b)]))) +c (((((EMemT n_MW) *tc (EV n_a14a [(AVar n_ds1a); (AVar n_ds4a)])) *c (EV n_a24a [(AVar n_ds2a); (AVar n_ds4b)])) *c (EV n_s13s [(AVar n_ds1b); (AVar n_ds3a)])) *c (EV n_s23s [(AVar n_ds2b); (AVar n_ds3b)]))) +c ((((((ELocT n_two) *t (EMemT n_MW)) *tc (EV n_a13a [(AVar n_ds1a); (AVar n_ds3a)])) *c (EV n_a24a [(AVar n_ds2a); (AVar n_ds4a)])) *c (EV n_s14s [(AVar n_ds1b); (AVar n_ds4b)])) *c (EV n_s23s [(AVar n_ds2b); (AVar n_ds3b)]))) -c (((((EMemT n_MW) *tc (EV n_a24a [(AVar n_ds2a); (AVar n_ds4a)])) *c (EV n_s13s [(AVar n_ds1a); (AVar n_ds3a)])) *c (EV n_s14s [(AVar n_ds1b); (AVar n_ds4b)])) *c (EV n_s23s [(AVar n_ds2b); (AVar n_ds3b)]))) -c (((((EMemT n_MW) *tc (EV n_a13a [(AVar n_ds1a); (AVar n_ds3a)])) *c (EV n_a14a [(AVar n_ds1b); (AVar n_ds4a)])) *c (EV n_a23a [(AVar n_ds2a); (AVar n_ds3b)])) *c (EV n_s24s [(AVar n_ds2b); (AVar n_ds4b)]))) +c ((((((ELocT n_two) *t (EMemT n_MW)) *tc (EV n_a14a [(AVar n_ds1a); (AVar n_ds4a)])) *c (EV n_a23a [(AVar n_ds2a); (AVar n_ds3a)])) *c (EV n_s13s [(AVar n_ds1b); (AVar n_ds3b)])) *c (EV n_s24s [(AVar n_ds2b); (AVar n_ds4b)]))) -c ((((((ELocT n_two) *t (EMemT n_MW)) *tc (EV n_a13a [(AVar n_ds1a); (AVar n_ds3a)])) *c (EV n_a24a [(AVar n_ds2a); (AVar n_ds4a)])) *c (EV n_s13s [(AVar n_ds1b); (AVar n_ds3b)])) *c (EV n_s24s [(AVar n_ds2b); (AVar n_ds4b)]))) +c (((((EMemT n_MW) *tc (EV n_a13a [(AVar n_ds1a); (AVar n_ds3a)])) *c (EV n_a23a [(AVar n_ds2a); (AVar n_ds3b)])) *c (EV n_s14s [(AVar n_ds1b); (AVar n_ds4a)])) *c (EV n_s24s [(AVar n_ds2b); (AVar n_ds4b)]))) +c ((((((ELocT n_two) *t (EMemT n_MW)) *tc (EV n_a13a [(AVar n_ds1a); (AVar n_ds3a)])) *c (EV n_a14a [(AVar n_ds1b); (AVar n_ds4a)])) *c (EV n_s23s [(AVar n_ds2a); (AVar n_ds3b)])) *c (EV n_s24s [(AVar n_ds2b); (AVar n_ds4b)]))) -c (((((EMemT n_MW) *tc (EV n_a14a [(AVar n_ds1a); (AVar n_ds4a)])) *c (EV n_s13s [(AVar n_ds1b); (AVar n_ds3a)])) *c (EV n_s23s [(AVar n_ds2a); (AVar n_ds3b)])) *c (EV n_s24s [(AVar n_ds2b); (AVar n_ds4b)]))) +c (((((EMemT n_MW) *tc (EV n_a13a [(AVar n_ds1a); (AVar n_ds3b)])) *c (EV n_a24a [(AVar n_ds2a); (AVar n_ds4a)])) *c (EV n_s12s [(AVar n_ds1b); (AVar n_ds2b)])) *c (EV n_s34s [(AVar n_ds3a); (AVar n_ds4b)]))) +c ((((((ELocT n_two) *t (EMemT n_MW)) *tc (EV n_a12a [(AVar n_ds1a); (AVar n_ds2b)])) *c (EV n_a13a [(AVar n_ds1b); (AVar n_ds3b)])) *c (EV n_s24s [(AVar n_ds2a); (AVar n_ds4a)])) *c (EV n_s34s [(AVar n_ds3a); (AVar n_ds4b)]))) +c ((((EV n_a13a [(AVar n_ds1a); (AVar n_ds3a)]) *c (EV n_a24a [(AVar n_ds2a); (AVar n_ds4a)])) *c (EV n_s23s [(AVar n_ds2b); (AVar n_ds3b)])) *c (EV n_s134a [(AVar n_ds1b); (AVar n_ds4b)]))) +c ((((EV n_a13a [(AVar n_ds1a); (AVar n_ds3a)]) *c (EV n_a23a [(AVar n_ds2a); (AVar n_ds3b)])) *c (EV n_s24s [(AVar n_ds2b); (AVar n_ds4a)])) *c (EV n_s134a [(AVar n_ds1b); (AVar n_ds4b)]))) -c ((((EV n_a23a [(AVar n_ds2a); (AVar n_ds3a)]) *c (EV n_s13s [(AVar n_ds1a); (AVar n_ds3b)])) *c (EV n_s24s [(AVar n_ds2b); (AVar n_ds4a)])) *c (EV n_s134a [(AVar n_ds1b); (AVar n_ds4b)]))) -c ((((EV n_a13a [(AVar n_ds1a); (AVar n_ds3a)]) *c (EV n_s23s [(AVar n_ds2a); (AVar n_ds3b)])) *c (EV n_s24s [(AVar n_ds2b); (AVar n_ds4a)])) *c (EV n_s134a [(AVar n_ds1b); (AVar n_ds4b)]))) -c ((((EV n_a23a [(AVar n_ds2a); (AVar n_ds3a)]) *c (EV n_a24a [(AVar n_ds2b); (AVar n_ds4a)])) *c (EV n_s13s [(AVar n_ds1a); (AVar n_ds3b)])) *c (EV n_s431a [(AVar n_ds4b); (AVar n_ds1b)]))) -c ((((EV n_a13a [(AVar n_ds1a); (AVar n_ds3a)]) *c (EV n_a24a [(AVar n_ds2a); (AVar n_ds4a)])) *c (EV n_s23s [(AVar n_ds2b); (AVar n_ds3b)])) *c (EV n_s431a [(AVar n_ds4b); (AVar n_ds1b)]))) +c ((((EV n_a24a [(AVar n_ds2a); (AVar n_ds4a)]) *c (EV n_s13s [(AVar n_ds1a); (AVar n_ds3a)])) *c (EV n_s23s [(AVar n_ds2b); (AVar n_ds3b)])) *c (EV n_s431a [(AVar n_ds4b); (AVar n_ds1b)]))) +c ((((EV n_a23a [(AVar n_ds2a); (AVar n_ds3a)]) *c (EV n_s13s [(AVar n_ds1a); (AVar n_ds3b)])) *c (EV n_s24s [(AVar n_ds2b); (AVar n_ds4a)])) *c (EV n_s431a [(AVar n_ds4b); (AVar n_ds1b)])))) /c (EMemC n_pDenTA)));,
SLoc rC n_amplitude ((ELocC n_amplitude) +c ((((ELocT n_normFactor) *t (EMemT n_preA)) *tc (((((((((((((((((((((((((((EUn NegT (EMemT n_MW)) *tc (EV n_a14a [(AVar n_ds1a); (AVar n_ds4a)])) *c (EV n_a23a [(AVar n_ds2a); (AVar n_ds3a)])) *c (EV n_a24a [(AVar n_ds2b); (AVar n_ds4b)])) *c (EV n_s13s [(AVar n_ds1b); (AVar n_ds3b)])) -c ((((((ELocT n_two) *t (EMemT n_MW)) *tc (EV n_a23a [(AVar n_ds2a); (AVar n_ds3b)])) *c (EV n_a34a [(AVar n_ds3a); (AVar n_ds4a)])) *c (EV n_s12s [(AVar n_ds1a); (AVar n_ds2b)])) *c (EV n_s14s [(AVar n_ds1b); (AVar n_ds4b)]))) +c ((((((ELocT n_two) *t (EMemT n_MW)) *tc (EV n_a23a [(AVar n_ds2a); (AVar n_ds3a)])) *c (EV n_a24a [(AVar n_ds2b); (AVar n_ds4a)])) *c (EV n_s13s [(AVar n_ds1a); (AVar n_ds3b)])) *c (EV n_s14s [(AVar n_ds1b); (AVar n_ds4b)]))) -c (((((EMemT n_MW) *tc (EV n_a12a [(AVar n_ds1a); (AVar n_ds2b)])) *c (EV n_a34a [(AVar n_ds3a); (AVar n_ds4a)])) *c (EV n_s14s [(AVar n_ds1b); (AVar n_ds4b)])) *c (EV n_s23s [(AVar n_ds2a); (AVar n_ds3b)]))) -c (((((EMemT n_MW) *tc (EV n_a13a [(AVar n_ds1a); (AVar n_ds3a)])) *c (EV n_a14a [(AVar n_ds1b); (AVar n_ds4a)])) *c (EV n_a24a [(AVar n_ds2a); (AVar n_ds4b)])) *c (EV n_s23s [(AVar n_ds2b); (AVar n_ds3b)]))) +c (((((EMemT n_MW) *tc (EV n_a14a [(AVar n_ds1a); (AVar n_ds4a)])) *c (EV n_a24a [(AVar n_ds2a); (AVar n_ds4b)])) *c (EV n_s13s [(AVar n_ds1b); (AVar n_ds3a)])) *c (EV n_s23s [(AVar n_ds2b); (AVar n_ds3b)]))) -c ((((((ELocT n_two) *t (EMemT n_MW)) *tc (EV n_a14a [(AVar n_ds1a); (AVar n_ds4a)])) *c (EV n_a23a [(AVar n_ds2a); (AVar n_ds3a)])) *c (EV n_s14s [(AVar n_ds1b); (AVar n_ds4b)])) *c (EV n_s23s [(AVar n_ds2b); (AVar n_ds3b)]))) +c ((((((ELocT n_two) *t (EMemT n_MW)) *tc (EV n_a13a [(AVar n_ds1a); (AVar n_ds3a)])) *c (EV n_a24a [(AVar n_ds2a); (AVar n_ds4a)])) *c (EV n_s14s [(AVar n_ds1b); (AVar n_ds4b)])) *c (EV n_s23s [(AVar n_ds2b); (AVar n_ds3b)]))) +c ((((((ELocT n_two) *t (EMemT n_MW)) *tc (EV n_a14a [(AVar n_ds1a); (AVar n_ds4a)])) *c (EV n_a23a [(AVar n_ds2a); (AVar n_ds3a)])) *c (EV n_s13s [(AVar n_ds1b); (AVar n_ds3b)])) *c (EV n_s24s [(AVar n_ds2b); (AVar n_ds4b)]))) +c (((((EMemT n_MW) *tc (EV n_a13a [(AVar n_ds1a); (AVar n_ds3a)])) *c (EV n_a23a [(AVar n_ds2a); (AVar n_ds3b)])) *c (EV n_s14s [(AVar n_ds1b); (AVar n_ds4a)])) *c (EV n_s24s [(AVar n_ds2b); (AVar n_ds4b)]))) -c (((((EMemT n_MW) *tc (EV n_a23a [(AVar n_ds2a); (AVar n_ds3a)])) *c (EV n_s13s [(AVar n_ds1a); (AVar n_ds3b)])) *c (EV n_s14s [(AVar n_ds1b); (AVar n_ds4a)])) *c (EV n_s24s [(AVar n_ds2b); (AVar n_ds4b)]))) +c ((((((ELocT n_two) *t (EMemT n_MW)) *tc (EV n_a13a [(AVar n_ds1a); (AVar n_ds3a)])) *c (EV n_a14a [(AVar n_ds1b); (AVar n_ds4a)])) *c (EV n_s23s [(AVar n_ds2a); (AVar n_ds3b)])) *c (EV n_s24s [(AVar n_ds2b); (AVar n_ds4b)]))) -c (((((EMemT n_MW) *tc (EV n_a13a [(AVar n_ds1a); (AVar n_ds3a)])) *c (EV n_s14s [(AVar n_ds1b); (AVar n_ds4a)])) *c (EV n_s23s [(AVar n_ds2a); (AVar n_ds3b)])) *c (EV n_s24s [(AVar n_ds2b); (AVar n_ds4b)]))) -c (((((EMemT n_MW) *tc (EV n_a14a [(AVar n_ds1a); (AVar n_ds4a)])) *c (EV n_a23a [(AVar n_ds2a); (AVar n_ds3b)])) *c (EV n_s12s [(AVar n_ds1b); (AVar n_ds2b)])) *c (EV n_s34s [(AVar n_ds3a); (AVar n_ds4b)]))) -c ((((((ELocT n_two) *t (EMemT n_MW)) *tc (EV n_a12a [(AVar n_ds1a); (AVar n_ds2b)])) *c (EV n_a14a [(AVar n_ds1b); (AVar n_ds4a)])) *c (EV n_s23s [(AVar n_ds2a); (AVar n_ds3b)])) *c (EV n_s34s [(AVar n_ds3a); (AVar n_ds4b)]))) +c ((((EV n_a14a [(AVar n_ds1a); (AVar n_ds4a)]) *c (EV n_a24a [(AVar n_ds2a); (AVar n_ds4b)])) *c (EV n_s23s [(AVar n_ds2b); (AVar n_ds3a)])) *c (EV n_s143a [(AVar n_ds1b); (AVar n_ds3b)]))) -c ((((EV n_a24a [(AVar n_ds2a); (AVar n_ds4a)]) *c (EV n_s14s [(AVar n_ds1a); (AVar n_ds4b)])) *c (EV n_s23s [(AVar n_ds2b); (AVar n_ds3a)])) *c (EV n_s143a [(AVar n_ds1b); (AVar n_ds3b)]))) +c ((((EV n_a14a [(AVar n_ds1a); (AVar n_ds4a)]) *c (EV n_a23a [(AVar n_ds2a); (AVar n_ds3a)])) *c (EV n_s24s [(AVar n_ds2b); (AVar n_ds4b)])) *c (EV n_s143a [(AVar n_ds1b); (AVar n_ds3b)]))) -c ((((EV n_a14a [(AVar n_ds1a); (AVar n_ds4a)]) *c (EV n_s23s [(AVar n_ds2a); (AVar n_ds3a)])) *c (EV n_s24s [(AVar n_ds2b); (AVar n_ds4b)])) *c (EV n_s143a [(AVar n_ds1b); (AVar n_ds3b)]))) -c ((((EV n_a23a [(AVar n_ds2a); (AVar n_ds3a)]) *c (EV n_a24a [(AVar n_ds2b); (AVar n_ds4a)])) *c (EV n_s14s [(AVar n_ds1a); (AVar n_ds4b)])) *c (EV n_s341a [(AVar n_ds3b); (AVar n_ds1b)]))) +c ((((EV n_a24a [(AVar n_ds2a); (AVar n_ds4a)]) *c (EV n_s14s [(AVar n_ds1a); (AVar n_ds4b)])) *c (EV n_s23s [(AVar n_ds2b); (AVar n_ds3a)])) *c (EV n_s341a [(AVar n_ds3b); (AVar n_ds1b)]))) -c ((((EV n_a14a [(AVar n_ds1a); (AVar n_ds4a)]) *c (EV n_a23a [(AVar n_ds2a); (AVar n_ds3a)])) *c (EV n_s24s [(AVar n_ds2b); (AVar n_ds4b)])) *c (EV n_s341a [(AVar n_ds3b); (AVar n_ds1b)]))) +c ((((EV n_a23a [(AVar n_ds2a); (AVar n_ds3a)]) *c (EV n_s14s [(AVar n_ds1a); (AVar n_ds4a)])) *c (EV n_s24s [(AVar n_ds2b); (AVar n_ds4b)])) *c (EV n_s341a [(AVar n_ds3b); (AVar n_ds1b)])))) /c (EMemC n_pDenUA)));,
SLoc rC n_amplitude ((ELocC n_amplitude) +c ((((EUn NegT (ELocT n_normFactor)) *t (EMemT n_preZ)) *tc ((((((((((ELocT n_two) *tc (EV n_a12a [(AVar n_ds1a); (AVar n_ds2b)])) *c (EV n_a34a [(AVar n_ds3a); (AVar n_ds4a)])) *c (EV n_s13s [(AVar n_ds1b); (AVar n_ds3b)])) *c (EV n_s24s [(AVar n_ds2a); (AVar n_ds4b)])) -c ((((EV n_a13a [(AVar n_ds1a); (AVar n_ds3a)]) *c (EV n_a24a [(AVar n_ds2a); (AVar n_ds4a)])) *c (EV n_s14s [(AVar n_ds1b); (AVar n_ds4b)])) *c (EV n_s23s [(AVar n_ds2b); (AVar n_ds3b)]))) -c ((((EV n_a14a [(AVar n_ds1a); (AVar n_ds4a)]) *c (EV n_a23a [(AVar n_ds2a); (AVar n_ds3a)])) *c (EV n_s13s [(AVar n_ds1b); (AVar n_ds3b)])) *c (EV n_s24s [(AVar n_ds2b); (AVar n_ds4b)]))) +c ((((((((((((((((((((EUn NegT (ELocT n_four)) *tc (EV n_a24a [(AVar n_ds2a); (AVar n_ds4a)])) *c (EV n_a34a [(AVar n_ds3a); (AVar n_ds4b)])) *c (EV n_s12s [(AVar n_ds1a); (AVar n_ds2b)])) *c (EV n_s13s [(AVar n_ds1b); (AVar n_ds3b)])) +c (((((ELocT n_three) *tc (EV n_a13a [(AVar n_ds1a); (AVar n_ds3a)])) *c (EV n_a23a [(AVar n_ds2a); (AVar n_ds3b)])) *c (EV n_a24a [(AVar n_ds2b); (AVar n_ds4a)])) *c (EV n_s14s [(AVar n_ds1b); (AVar n_ds4b)]))) -c (((((ELocT n_four) *tc (EV n_a23a [(AVar n_ds2a); (AVar n_ds3a)])) *c (EV n_a24a [(AVar n_ds2b); (AVar n_ds4a)])) *c (EV n_s13s [(AVar n_ds1a); (AVar n_ds3b)])) *c (EV n_s14s [(AVar n_ds1b); (AVar n_ds4b)]))) -c (((((ELocT n_two) *tc (EV n_a12a [(AVar n_ds1a); (AVar n_ds2b)])) *c (EV n_a34a [(AVar n_ds3a); (AVar n_ds4a)])) *c (EV n_s13s [(AVar n_ds1b); (AVar n_ds3b)])) *c (EV n_s24s [(AVar n_ds2a); (AVar n_ds4b)]))) -c (((((ELocT n_three) *tc (EV n_a14a [(AVar n_ds1a); (AVar n_ds4a)])) *c (EV n_a24a [(AVar n_ds2a); (AVar n_ds4b)])) *c (EV n_s13s [(AVar n_ds1b); (AVar n_ds3a)])) *c (EV n_s23s [(AVar n_ds2b); (AVar n_ds3b)]))) -c (((((ELocT n_three) *tc (EV n_a13a [(AVar n_ds1a); (AVar n_ds3a)])) *c (EV n_a24a [(AVar n_ds2a); (AVar n_ds4a)])) *c (EV n_s14s [(AVar n_ds1b); (AVar n_ds4b)])) *c (EV n_s23s [(AVar n_ds2b); (AVar n_ds3b)]))) +c ((((EV n_a24a [(AVar n_ds2a); (AVar n_ds4a)]) *c (EV n_s13s [(AVar n_ds1a); (AVar n_ds3a)])) *c (EV n_s14s [(AVar n_ds1b); (AVar n_ds4b)])) *c (EV n_s23s [(AVar n_ds2b); (AVar n_ds3b)]))) +c (((((ELocT n_three) *tc (EV n_a13a [(AVar n_ds1a); (AVar n_ds3a)])) *c (EV n_a14a [(AVar n_ds1b); (AVar n_ds4a)])) *c (EV n_a23a [(AVar n_ds2a); (AVar n_ds3b)])) *c (EV n_s24s [(AVar n_ds2b); (AVar n_ds4b)]))) -c (((((ELocT n_three) *tc (EV n_a14a [(AVar n_ds1a); (AVar n_ds4a)])) *c (EV n_a23a [(AVar n_ds2a); (AVar n_ds3a)])) *c (EV n_s13s [(AVar n_ds1b); (AVar n_ds3b)])) *c (EV n_s24s [(AVar n_ds2b); (AVar n_ds4b)]))) +c (((((ELocT n_two) *tc (EV n_a13a [(AVar n_ds1a); (AVar n_ds3a)])) *c (EV n_a24a [(AVar n_ds2a); (AVar n_ds4a)])) *c (EV n_s13s [(AVar n_ds1b); (AVar n_ds3b)])) *c (EV n_s24s [(AVar n_ds2b); (AVar n_ds4b)]))) -c ((((EV n_a13a [(AVar n_ds1a); (AVar n_ds3a)]) *c (EV n_a23a [(AVar n_ds2a); (AVar n_ds3b)])) *c (EV n_s14s [(AVar n_ds1b); (AVar n_ds4a)])) *c (EV n_s24s [(AVar n_ds2b); (AVar n_ds4b)]))) -c (((((ELocT n_four) *tc (EV n_a13a [(AVar n_ds1a); (AVar n_ds3a)])) *c (EV n_a14a [(AVar n_ds1b); (AVar n_ds4a)])) *c (EV n_s23s [(AVar n_ds2a); (AVar n_ds3b)])) *c (EV n_s24s [(AVar n_ds2b); (AVar n_ds4b)]))) +c ((((EV n_a14a [(AVar n_ds1a); (AVar n_ds4a)]) *c (EV n_s13s [(AVar n_ds1b); (AVar n_ds3a)])) *c (EV n_s23s [(AVar n_ds2a); (AVar n_ds3b)])) *c (EV n_s24s [(AVar n_ds2b); (AVar n_ds4b)]))) -c (((((ELocT n_four) *tc (EV n_a12a [(AVar n_ds1a); (AVar n_ds2b)])) *c (EV n_a13a [(AVar n_ds1b); (AVar n_ds3b)])) *c (EV n_s24s [(AVar n_ds2a); (AVar n_ds4a)])) *c (EV n_s34s [(AVar n_ds3a); (AVar n_ds4b)]))) *ct (EMemT n_CW)) *ct (EMemT n_CW))) *ct (EMemT n_MZ)) +c (((((((((((((EUn NegT (ELocT n_three)) *tc (EV n_a13a [(AVar n_ds1a); (AVar n_ds3a)])) *c (EV n_a24a [(AVar n_ds2a); (AVar n_ds4a)])) *c (EV n_s23s [(AVar n_ds2b); (AVar n_ds3b)])) *c (EV n_s134a [(AVar n_ds1b); (AVar n_ds4b)])) -c (((((ELocT n_three) *tc (EV n_a13a [(AVar n_ds1a); (AVar n_ds3a)])) *c (EV n_a23a [(AVar n_ds2a); (AVar n_ds3b)])) *c (EV n_s24s [(AVar n_ds2b); (AVar n_ds4a)])) *c (EV n_s134a [(AVar n_ds1b); (AVar n_ds4b)]))) +c ((((EV n_a23a [(AVar n_ds2a); (AVar n_ds3a)]) *c (EV n_s13s [(AVar n_ds1a); (AVar n_ds3b)])) *c (EV n_s24s [(AVar n_ds2b); (AVar n_ds4a)])) *c (EV n_s134a [(AVar n_ds1b); (AVar n_ds4b)]))) +c ((((EV n_a13a [(AVar n_ds1a); (AVar n_ds3a)]) *c (EV n_s23s [(AVar n_ds2a); (AVar n_ds3b)])) *c (EV n_s24s [(AVar n_ds2b); (AVar n_ds4a)])) *c (EV n_s134a [(AVar n_ds1b); (AVar n_ds4b)]))) +c (((((ELocT n_three) *tc (EV n_a23a [(AVar n_ds2a); (AVar n_ds3a)])) *c (EV n_a24a [(AVar n_ds2b); (AVar n_ds4a)])) *c (EV n_s13s [(AVar n_ds1a); (AVar n_ds3b)])) *c (EV n_s431a [(AVar n_ds4b); (AVar n_ds1b)]))) +c (((((ELocT n_three) *tc (EV n_a13a [(AVar n_ds1a); (AVar n_ds3a)])) *c (EV n_a24a [(AVar n_ds2a); (AVar n_ds4a)])) *c (EV n_s23s [(AVar n_ds2b); (AVar n_ds3b)])) *c (EV n_s431a [(AVar n_ds4b); (AVar n_ds1b)]))) -c ((((EV n_a24a [(AVar n_ds2a); (AVar n_ds4a)]) *c (EV n_s13s [(AVar n_ds1a); (AVar n_ds3a)])) *c (EV n_s23s [(AVar n_ds2b); (AVar n_ds3b)])) *c (EV n_s431a [(AVar n_ds4b); (AVar n_ds1b)]))) -c ((((EV n_a23a [(AVar n_ds2a); (AVar n_ds3a)]) *c (EV n_s13s [(AVar n_ds1a); (AVar n_ds3b)])) *c (EV n_s24s [(AVar n_ds2b); (AVar n_ds4a)])) *c (EV n_s431a [(AVar n_ds4b); (AVar n_ds1b)]))) *ct (EMemT n_CW)))) /c (EMemC n_pDenTZ)));,
SLoc rC n_amplitude ((ELocC n_amplitude) +c ((((EUn NegT (ELocT n_normFactor)) *t (EMemT n_preZ)) *tc ((((((((((EUn NegT (ELocT n_two)) *tc (EV n_a12a [(AVar n_ds1a); (AVar n_ds2b)])) *c (EV n_a34a [(AVar n_ds3a); (AVar n_ds4a)])) *c (EV n_s14s [(AVar n_ds1b); (AVar n_ds4b)])) *c (EV n_s23s [(AVar n_ds2a); (AVar n_ds3b)])) -c ((((EV n_a13a [(AVar n_ds1a); (AVar n_ds3a)]) *c (EV n_a24a [(AVar n_ds2a); (AVar n_ds4a)])) *c (EV n_s14s [(AVar n_ds1b); (AVar n_ds4b)])) *c (EV n_s23s [(AVar n_ds2b); (AVar n_ds3b)]))) -c ((((EV n_a14a [(AVar n_ds1a); (AVar n_ds4a)]) *c (EV n_a23a [(AVar n_ds2a); (AVar n_ds3a)])) *c (EV n_s13s [(AVar n_ds1b); (AVar n_ds3b)])) *c (EV n_s24s [(AVar n_ds2b); (AVar n_ds4b)]))) +c ((((((((((((((((((((ELocT n_three) *tc (EV n_a14a [(AVar n_ds1a); (AVar n_ds4a)])) *c (EV n_a23a [(AVar n_ds2a); (AVar n_ds3a)])) *c (EV n_a24a [(AVar n_ds2b); (AVar n_ds4b)])) *c (EV n_s13s [(AVar n_ds1b); (AVar n_ds3b)])) +c (((((ELocT n_four) *tc (EV n_a23a [(AVar n_ds2a); (AVar n_ds3b)])) *c (EV n_a34a [(AVar n_ds3a); (AVar n_ds4a)])) *c (EV n_s12s [(AVar n_ds1a); (AVar n_ds2b)])) *c (EV n_s14s [(AVar n_ds1b); (AVar n_ds4b)]))) -c (((((ELocT n_four) *tc (EV n_a23a [(AVar n_ds2a); (AVar n_ds3a)])) *c (EV n_a24a [(AVar n_ds2b); (AVar n_ds4a)])) *c (EV n_s13s [(AVar n_ds1a); (AVar n_ds3b)])) *c (EV n_s14s [(AVar n_ds1b); (AVar n_ds4b)]))) +c (((((ELocT n_two) *tc (EV n_a12a [(AVar n_ds1a); (AVar n_ds2b)])) *c (EV n_a34a [(AVar n_ds3a); (AVar n_ds4a)])) *c (EV n_s14s [(AVar n_ds1b); (AVar n_ds4b)])) *c (EV n_s23s [(AVar n_ds2a); (AVar n_ds3b)]))) +c (((((ELocT n_three) *tc (EV n_a13a [(AVar n_ds1a); (AVar n_ds3a)])) *c (EV n_a14a [(AVar n_ds1b); (AVar n_ds4a)])) *c (EV n_a24a [(AVar n_ds2a); (AVar n_ds4b)])) *c (EV n_s23s [(AVar n_ds2b); (AVar n_ds3b)]))) -c ((((EV n_a14a [(AVar n_ds1a); (AVar n_ds4a)]) *c (EV n_a24a [(AVar n_ds2a); (AVar n_ds4b)])) *c (EV n_s13s [(AVar n_ds1b); (AVar n_ds3a)])) *c (EV n_s23s [(AVar n_ds2b); (AVar n_ds3b)]))) +c (((((ELocT n_two) *tc (EV n_a14a [(AVar n_ds1a); (AVar n_ds4a)])) *c (EV n_a23a [(AVar n_ds2a); (AVar n_ds3a)])) *c (EV n_s14s [(AVar n_ds1b); (AVar n_ds4b)])) *c (EV n_s23s [(AVar n_ds2b); (AVar n_ds3b)]))) -c (((((ELocT n_three) *tc (EV n_a13a [(AVar n_ds1a); (AVar n_ds3a)])) *c (EV n_a24a [(AVar n_ds2a); (AVar n_ds4a)])) *c (EV n_s14s [(AVar n_ds1b); (AVar n_ds4b)])) *c (EV n_s23s [(AVar n_ds2b); (AVar n_ds3b)]))) -c (((((ELocT n_three) *tc (EV n_a14a [(AVar n_ds1a); (AVar n_ds4a)])) *c (EV n_a23a [(AVar n_ds2a); (AVar n_ds3a)])) *c (EV n_s13s [(AVar n_ds1b); (AVar n_ds3b)])) *c (EV n_s24s [(AVar n_ds2b); (AVar n_ds4b)]))) -c (((((ELocT n_three) *tc (EV n_a13a [(AVar n_ds1a); (AVar n_ds3a)])) *c (EV n_a23a [(AVar n_ds2a); (AVar n_ds3b)])) *c (EV n_s14s [(AVar n_ds1b); (AVar n_ds4a)])) *c (EV n_s24s [(AVar n_ds2b); (AVar n_ds4b)]))) +c ((((EV n_a23a [(AVar n_ds2a); (AVar n_ds3a)]) *c (EV n_s13s [(AVar n_ds1a); (AVar n_ds3b)])) *c (EV n_s14s [(AVar n_ds1b); (AVar n_ds4a)])) *c (EV n_s24s [(AVar n_ds2b); (AVar n_ds4b)]))) -c (((((ELocT n_four) *tc (EV n_a13a [(AVar n_ds1a); (AVar n_ds3a)])) *c (EV n_a14a [(AVar n_ds1b); (AVar n_ds4a)])) *c (EV n_s23s [(AVar n_ds2a); (AVar n_ds3b)])) *c (EV n_s24s [(AVar n_ds2b); (AVar n_ds4b)]))) +c ((((EV n_a13a [(AVar n_ds1a); (AVar n_ds3a)]) *c (EV n_s14s [(AVar n_ds1b); (AVar n_ds4a)])) *c (EV n_s23s [(AVar n_ds2a); (AVar n_ds3b)])) *c (EV n_s24s [(AVar n_ds2b); (AVar n_ds4b)]))) +c (((((ELocT n_four) *tc (EV n_a12a [(AVar n_ds1a); (AVar n_ds2b)])) *c (EV n_a14a [(AVar n_ds1b); (AVar n_ds4a)])) *c (EV n_s23s [(AVar n_ds2a); (AVar n_ds3b)])) *c (EV n_s34s [(AVar n_ds3a); (AVar n_ds4b)]))) *ct (EMemT n_CW)) *ct (EMemT n_CW))) *ct (EMemT n_MZ)) +c (((((((((((((EUn NegT (ELocT n_three)) *tc (EV n_a14a [(AVar n_ds1a); (AVar n_ds4a)])) *c (EV n_a24a [(AVar n_ds2a); (AVar n_ds4b)])) *c (EV n_s23s [(AVar n_ds2b); (AVar n_ds3a)])) *c (EV n_s143a [(AVar n_ds1b); (AVar n_ds3b)])) +c ((((EV n_a24a [(AVar n_ds2a); (AVar n_ds4a)]) *c (EV n_s14s [(AVar n_ds1a); (AVar n_ds4b)])) *c (EV n_s23s [(AVar n_ds2b); (AVar n_ds3a)])) *c (EV n_s143a [(AVar n_ds1b); (AVar n_ds3b)]))) -c (((((ELocT n_three) *tc (EV n_a14a [(AVar n_ds1a); (AVar n_ds4a)])) *c (EV n_a23a [(AVar n_ds2a); (AVar n_ds3a)])) *c (EV n_s24s [(AVar n_ds2b); (AVar n_ds4b)])) *c (EV n_s143a [(AVar n_ds1b); (AVar n_ds3b)]))) +c ((((EV n_a14a [(AVar n_ds1a); (AVar n_ds4a)]) *c (EV n_s23s [(AVar n_ds2a); (AVar n_ds3a)])) *c (EV n_s24s [(AVar n_ds2b); (AVar n_ds4b)])) *c (EV n_s143a [(AVar n_ds1b); (AVar n_ds3b)]))) +c (((((ELocT n_three) *tc (EV n_a23a [(AVar n_ds2a); (AVar n_ds3a)])) *c (EV n_a24a [(AVar n_ds2b); (AVar n_ds4a)])) *c (EV n_s14s [(AVar n_ds1a); (AVar n_ds4b)])) *c (EV n_s341a [(AVar n_ds3b); (AVar n_ds1b)]))) -c ((((EV n_a24a [(AVar n_ds2a); (AVar n_ds4a)]) *c (EV n_s14s [(AVar n_ds1a); (AVar n_ds4b)])) *c (EV n_s23s [(AVar n_ds2b); (AVar n_ds3a)])) *c (EV n_s341a [(AVar n_ds3b); (AVar n_ds1b)]))) +c (((((ELocT n_three) *tc (EV n_a14a [(AVar n_ds1a); (AVar n_ds4a)])) *c (EV n_a23a [(AVar n_ds2a); (AVar n_ds3a)])) *c (EV n_s24s [(AVar n_ds2b); (AVar n_ds4b)])) *c (EV n_s341a [(AVar n_ds3b); (AVar n_ds1b)]))) -c ((((EV n_a23a [(AVar n_ds2a); (AVar n_ds3a)]) *c (EV n_s14s [(AVar n_ds1a); (AVar n_ds4a)])) *c (EV n_s24s [(AVar n_ds2b); (AVar n_ds4b)])) *c (EV n_s341a [(AVar n_ds3b); (AVar n_ds1b)]))) *ct (EMemT n_CW)))) /c (EMemC n_pDenUZ)))));,
SReturnC (ELocC n_amplitude)).
(** WWWW::amp2: SM/WWWW.cpp 273-288 *)
Definition WWWW_amp2 : meth := mkMeth n_amp2 []
(SLoc rT n_amp2 (EUn I2T (EInt 0));,
SDecl rC n_M;,
(SFor n_j1 (EUn NegI (EInt 2)) (EBin (CmpI CLe) (ELocI n_j1) (EInt 2)) (EBin (OpI IAdd) (ELocI n_j1) (EInt 2))
(SFor n_j2 (EUn NegI (EInt 2)) (EBin (CmpI CLe) (ELocI n_j2) (EInt 2)) (EBin (OpI IAdd) (ELocI n_j2) (EInt 2))
(SFor n_j3 (EUn NegI (EInt 2)) (EBin (CmpI CLe) (ELocI n_j3) (EInt 2)) (EBin (OpI IAdd) (ELocI n_j3) (EInt 2))
(SFor n_j4 (EUn NegI (EInt 2)) (EBin (CmpI CLe) (ELocI n_j4) (EInt 2)) (EBin (OpI IAdd) (ELocI n_j4) (EInt 2))
(SLoc rC n_M (ECall n_amp [(AVar n_j1); (AVar n_j2); (AVar n_j3); (AVar n_j4)]);,
SLoc rT n_amp2 ((ELocT n_amp2) +t (EUn Pow2T (EUn AbsC (ELocC n_M)))))))));,
SReturnT ((ELocT n_amp2) /t (EUn D2T (ELit (18 # 1))))).
(** members: SM/include/WWWW.h 26-34; initialisers: SM/WWWW.cpp 32-33 *)
Definition WWWW : cls := mkCls "WWWW"
[(n_e, KT);
(n_mh, KT);
(n_wh, KT);
(n_MW, KT);
(n_WZ, KT);
(n_SW, KT);
(n_CW, KT);
(n_MZ, KT);
(n_p1, (KPart 0));
(n_p2, (KPart 1));
(n_p3, (KPart 2));
(n_p4, (KPart 3));
(n_proph, KProp);
(n_propZ, KProp);
(n_propA, KProp);
(n_pDenTh, KC);
(n_pDenUh, KC);
(n_pDenTZ, KC);
(n_pDenUZ, KC);
(n_pDenTA, KC);
(n_pDenUA, KC);
(n_s12s, KSprod);
(n_a12a, KSprod);
(n_a34a, KSprod);
(n_s34s, KSprod);
(n_s24s, KSprod);
(n_a24a, KSprod);
(n_s23s, KSprod);
(n_a23a, KSprod);
(n_a14a, KSprod);
(n_s14s, KSprod);
(n_a13a, KSprod);
(n_s13s, KSprod);
(n_s431a, KSprod);
(n_s134a, KSprod);
(n_s341a, KSprod);
(n_s143a, KSprod);
(n_s43s, KSprod);
(n_a43a, KSprod);
(n_preh, KT);
(n_preA, KT);
(n_preZ, KT)]
[n_echarge; n_massh; n_widthh; n_massW; n_widthZ; n_sinW]
[(n_e, NT (ELocT n_echarge));
(n_mh, NT (ELocT n_massh));
(n_wh, NT (ELocT n_widthh));
(n_MW, NT (ELocT n_massW));
(n_WZ, NT (ELocT n_widthZ));
(n_SW, NT (ELocT n_sinW));
(n_CW, NT (EUn SqrtT ((EUn D2T (ELit (1 # 1))) -t ((ELocT n_sinW) *t (ELocT n_sinW)))));
(n_MZ, NT ((ELocT n_massW) /t (EMemT n_CW)))]
WWWW_ctor
[WWWW_set_masses; WWWW_set_momenta; WWWW_amp; WWWW_amp2].

(** WWWW2::WWWW2: SM/WWWW2.cpp 32-65 *)
Definition WWWW2_ctor : stmt :=
(SMemT n_CW (EUn SqrtT ((EUn D2T (ELit (1 # 1))) -t ((ELocT n_sinW) *t (ELocT n_sinW))));,
SMemT n_MZ ((EMemT n_MW) /t (EMemT n_CW));,
SPropNew n_proph (EMemT n_mh) (EMemT n_wh);,
SPropNew n_propZ (EMemT n_MZ) (EMemT n_WZ);,
SPropNew n_propA (EUn I2T (EInt 0)) (EUn I2T (EInt 0));,
SParticle 0 (EMemT n_MW);,
SParticle 1 (EMemT n_MW);,
SParticle 2 (EMemT n_MW);,
SParticle 3 (EMemT n_MW);,
SSprod n_s14s false 0 [] 3;,
SSprod n_a14a true 0 [] 3;,
SSprod n_s32s false 2 [] 1;,
SSprod n_a32a true 2 [] 1;,
SSprod n_s43s false 3 [] 2;,
SSprod n_a43a true 3 [] 2;,
SSprod n_s42s false 3 [] 1;,
SSprod n_a42a true 3 [] 1;,
SSprod n_s12s false 0 [] 1;,
SSprod n_a12a true 0 [] 1;,
SSprod n_s13s false 0 [] 2;,
SSprod n_a13a true 0 [] 2;,
SSprod n_s132a false 0 [2] 1;,
SSprod n_s231a false 1 [2] 0;,
SSprod n_s123a false 0 [1] 2;,
SSprod n_s321a false 2 [1] 0;,
SMemT n_preh (((EMemT n_e) *t (EMemT n_e)) /t ((((EMemT n_MW) *t (EMemT n_MW)) *t (EMemT n_SW)) *t (EMemT n_SW)));,
SMemT n_preA (((EMemT n_e) *t (EMemT n_e)) /t ((((EUn D2T (ELit (2 # 1))) *t (EMemT n_MW)) *t (EMemT n_MW)) *t (EMemT n_MW)));,
SMemT n_preZ (((EMemT n_e) *t (EMemT n_e)) /t ((((((EUn D2T (ELit (2 # 1))) *t (EMemT n_MW)) *t (EMemT n_MW)) *t (EMemT n_MZ)) *t (EMemT n_SW)) *t (EMemT n_SW)))).
(** WWWW2::set_masses: SM/WWWW2.cpp 66-80 *)
Definition WWWW2_set_masses : meth := mkMeth n_set_masses [(n_massh, PkT); (n_massW, PkT)]
(SMemT n_mh (ELocT n_massh);,
SMemT n_MW (ELocT n_massW);,
SMemT n_MZ ((EMemT n_MW) /t (EMemT n_CW));,
SSetMass 0 (EMemT n_MW);,
SSetMass 1 (EMemT n_MW);,
SSetMass 2 (EMemT n_MW);,
SSetMass 3 (EMemT n_MW);,
SPropMass n_proph (EMemT n_mh);,
SPropMass n_propZ (EMemT n_MZ);,
SMemT n_preh (((EMemT n_e) *t (EMemT n_e)) /t ((((EMemT n_MW) *t (EMemT n_MW)) *t (EMemT n_SW)) *t (EMemT n_SW)));,
SMemT n_preA (((EMemT n_e) *t (EMemT n_e)) /t ((((EUn D2T (ELit (2 # 1))) *t (EMemT n_MW)) *t (EMemT n_MW)) *t (EMemT n_MW)));,
SMemT n_preZ (((EMemT n_e) *t (EMemT n_e)) /t ((((((EUn D2T (ELit (2 # 1))) *t (EMemT n_MW)) *t (EMemT n_MW)) *t (EMemT n_MZ)) *t (EMemT n_SW)) *t (EMemT n_SW)))).
(** WWWW2::set_momenta: SM/WWWW2.cpp 81-118 *)
Definition WWWW2_set_momenta : meth := mkMeth n_set_momenta [(n_mom1, PkMom); (n_mom2, PkMom); (n_mom3, PkMom); (n_mom4, PkMom)]
(SSetMomentum 0 n_mom1;,
SSetMomentum 1 n_mom2;,
SSetMomentum 2 n_mom3;,
SSetMomentum 3 n_mom4;,
SUpdate n_s14s;,
SUpdate n_a14a;,
SUpdate n_s32s;,
SUpdate n_a32a;,
SUpdate n_s43s;,
SUpdate n_a43a;,
SUpdate n_s42s;,
SUpdate n_a42a;,
SUpdate n_s12s;,
SUpdate n_a12a;,
SUpdate n_s13s;,
SUpdate n_a13a;,
SUpdate n_s231a;,
SUpdate n_s132a;,
SUpdate n_s123a;,
SUpdate n_s321a;,
SDeclT n_propSP 4;,
SDeclT n_propTP 4;,
SDeclT n_propUP 4;,
(SFor n_j (EInt 0) (EBin (CmpI CLt) (ELocI n_j) (EInt 4)) (EBin (OpI IAdd) (ELocI n_j) (EInt 1))
(SArrT n_propSP (AVar n_j) ((EArrT n_mom1 (AVar n_j)) +t (EArrT n_mom2 (AVar n_j)));,
SArrT n_propTP (AVar n_j) ((EArrT n_mom1 (AVar n_j)) -t (EArrT n_mom3 (AVar n_j)));,
SArrT n_propUP (AVar n_j) ((EArrT n_mom1 (AVar n_j)) -t (EArrT n_mom4 (AVar n_j)))));,
SMemC n_pDenTh (EDen n_proph n_propTP);,
SMemC n_pDenSh (EDen n_proph n_propSP);,
SMemC n_pDenTZ (EDen n_propZ n_propTP);,
SMemC n_pDenSZ (EDen n_propZ n_propSP);,
SMemC n_pDenTA (EDen n_propA n_propTP);,
SMemC n_pDenSA (EDen n_propA n_propSP)).
(** WWWW2::amp: SM/WWWW2.cpp 123-275 *)
Definition WWWW2_amp : meth := mkMeth n_amp [(n_ds1, PkI); (n_ds2, PkI); (n_ds3, PkI); (n_ds4, PkI)]
(SLoc rC n_amplitude (EBin OpTTC (EUn I2T (EInt 0)) (EUn I2T (EInt 0)));,
SLoc rT n_one (EUn I2T (EInt 1));,
SLoc rT n_two (EUn I2T (EInt 2));,
SLoc rT n_three (EUn I2T (EInt 3));,
SLoc rT n_four (EUn I2T (EInt 4));,
SLoc rT n_six (EUn I2T (EInt 6));,
SDecl rI n_ds1a;,
SDecl rI n_ds1b;,
SDecl rI n_ds2a;,
SDecl rI n_ds2b;,
SDecl rI n_ds3a;,
SDecl rI n_ds3b;,
SDecl rI n_ds4a;,
SDecl rI n_ds4b;,
SLoc rI n_nCombs (ENLoops [(AVar n_ds1); (AVar n_ds2); (AVar n_ds3); (AVar n_ds4)]);,
SLoc rT n_normFactor (ENorm [(AVar n_ds1); (AVar n_ds2); (AVar n_ds3); (AVar n_ds4)]);,
(SFor n_i (EInt 0) (EBin (CmpI CLt) (ELocI n_i) (ELocI n_nCombs)) (EBin (OpI IAdd) (ELocI n_i) (EInt 1))
(SSpins [(n_ds1, n_ds1a, n_ds1b); (n_ds2, n_ds2a, n_ds2b); (n_ds3, n_ds3a, n_ds3b); (n_ds4, n_ds4a, n_ds4b)] (AVar n_i);,
SLoc rC n_amplitude ((ELocC n_amplitude) +c (((((((EUn NegT (ELocT n_normFactor)) *t (EMemT n_preh)) *tc (EV n_s13s [(AVar n_ds1a); (AVar n_ds3a)])) *c (EV n_a13a [(AVar n_ds1b); (AVar n_ds3b)])) *c (EV n_s42s [(AVar n_ds4a); (AVar n_ds2a)])) *c (EV n_a42a [(AVar n_ds4b); (AVar n_ds2b)])) /c (EMemC n_pDenTh)));,
SLoc rC n_amplitude ((ELocC n_amplitude) +c (((((((EUn NegT (ELocT n_normFactor)) *t (EMemT n_preh)) *tc (EV n_s12s [(AVar n_ds1a); (AVar n_ds2a)])) *c (EV n_a12a [(AVar n_ds1b); (AVar n_ds2b)])) *c (EV n_s43s [(AVar n_ds4a); (AVar n_ds3a)])) *c (EV n_a43a [(AVar n_ds4b); (AVar n_ds3b)])) /c (EMemC n_pDenSh)));,
SLoc rC n_amplitude ((ELocC n_amplitude) +c ((((EUn NegT (ELocT n_normFactor)) *t (EMemT n_preZ)) *tc ((((((((((ELocT n_two) *tc (EV n_a14a [(AVar n_ds1a); (AVar n_ds4b)])) *c (EV n_a32a [(AVar n_ds3a); (AVar n_ds2a)])) *c (EV n_s13s [(AVar n_ds1b); (AVar n_ds3b)])) *c (EV n_s42s [(AVar n_ds4a); (AVar n_ds2b)])) -c ((((EV n_a12a [(AVar n_ds1a); (AVar n_ds2b)]) *c (EV n_a43a [(AVar n_ds4a); (AVar n_ds3a)])) *c (EV n_s13s [(AVar n_ds1b); (AVar n_ds3b)])) *c (EV n_s42s [(AVar n_ds4b); (AVar n_ds2a)]))) -c ((((EV n_a13a [(AVar n_ds1a); (AVar n_ds3b)]) *c (EV n_a42a [(AVar n_ds4a); (AVar n_ds2a)])) *c (EV n_s12s [(AVar n_ds1b); (AVar n_ds2b)])) *c (EV n_s43s [(AVar n_ds4b); (AVar n_ds3a)]))) +c ((((((((((((((((((((EUn NegT (ELocT n_three)) *tc (EV n_a13a [(AVar n_ds1a); (AVar n_ds3b)])) *c (EV n_a42a [(AVar n_ds4a); (AVar n_ds2a)])) *c (EV n_a43a [(AVar n_ds4b); (AVar n_ds3a)])) *c (EV n_s12s [(AVar n_ds1b); (AVar n_ds2b)])) +c (((((ELocT n_four) *tc (EV n_a42a [(AVar n_ds4a); (AVar n_ds2a)])) *c (EV n_a43a [(AVar n_ds4b); (AVar n_ds3a)])) *c (EV n_s12s [(AVar n_ds1a); (AVar n_ds2b)])) *c (EV n_s13s [(AVar n_ds1b); (AVar n_ds3b)]))) +c (((((ELocT n_four) *tc (EV n_a32a [(AVar n_ds3a); (AVar n_ds2a)])) *c (EV n_a42a [(AVar n_ds4a); (AVar n_ds2b)])) *c (EV n_s13s [(AVar n_ds1a); (AVar n_ds3b)])) *c (EV n_s14s [(AVar n_ds1b); (AVar n_ds4b)]))) -c (((((ELocT n_two) *tc (EV n_a14a [(AVar n_ds1a); (AVar n_ds4b)])) *c (EV n_a32a [(AVar n_ds3a); (AVar n_ds2a)])) *c (EV n_s13s [(AVar n_ds1b); (AVar n_ds3b)])) *c (EV n_s42s [(AVar n_ds4a); (AVar n_ds2b)]))) +c (((((ELocT n_four) *tc (EV n_a13a [(AVar n_ds1a); (AVar n_ds3b)])) *c (EV n_a14a [(AVar n_ds1b); (AVar n_ds4b)])) *c (EV n_s32s [(AVar n_ds3a); (AVar n_ds2a)])) *c (EV n_s42s [(AVar n_ds4a); (AVar n_ds2b)]))) +c (((((ELocT n_three) *tc (EV n_a12a [(AVar n_ds1a); (AVar n_ds2b)])) *c (EV n_a13a [(AVar n_ds1b); (AVar n_ds3b)])) *c (EV n_a43a [(AVar n_ds4a); (AVar n_ds3a)])) *c (EV n_s42s [(AVar n_ds4b); (AVar n_ds2a)]))) +c ((((EV n_a13a [(AVar n_ds1a); (AVar n_ds3b)]) *c (EV n_a43a [(AVar n_ds4a); (AVar n_ds3a)])) *c (EV n_s12s [(AVar n_ds1b); (AVar n_ds2b)])) *c (EV n_s42s [(AVar n_ds4b); (AVar n_ds2a)]))) -c (((((ELocT n_three) *tc (EV n_a12a [(AVar n_ds1a); (AVar n_ds2b)])) *c (EV n_a43a [(AVar n_ds4a); (AVar n_ds3a)])) *c (EV n_s13s [(AVar n_ds1b); (AVar n_ds3b)])) *c (EV n_s42s [(AVar n_ds4b); (AVar n_ds2a)]))) +c (((((ELocT n_two) *tc (EV n_a13a [(AVar n_ds1a); (AVar n_ds3a)])) *c (EV n_a42a [(AVar n_ds4a); (AVar n_ds2a)])) *c (EV n_s13s [(AVar n_ds1b); (AVar n_ds3b)])) *c (EV n_s42s [(AVar n_ds4b); (AVar n_ds2b)]))) -c (((((ELocT n_three) *tc (EV n_a13a [(AVar n_ds1a); (AVar n_ds3b)])) *c (EV n_a42a [(AVar n_ds4a); (AVar n_ds2a)])) *c (EV n_s12s [(AVar n_ds1b); (AVar n_ds2b)])) *c (EV n_s43s [(AVar n_ds4b); (AVar n_ds3a)]))) +c (((((ELocT n_three) *tc (EV n_a12a [(AVar n_ds1a); (AVar n_ds2b)])) *c (EV n_a42a [(AVar n_ds4a); (AVar n_ds2a)])) *c (EV n_s13s [(AVar n_ds1b); (AVar n_ds3b)])) *c (EV n_s43s [(AVar n_ds4b); (AVar n_ds3a)]))) +c ((((EV n_a42a [(AVar n_ds4a); (AVar n_ds2a)]) *c (EV n_s12s [(AVar n_ds1a); (AVar n_ds2b)])) *c (EV n_s13s [(AVar n_ds1b); (AVar n_ds3b)])) *c (EV n_s43s [(AVar n_ds4b); (AVar n_ds3a)]))) +c (((((ELocT n_four) *tc (EV n_a12a [(AVar n_ds1a); (AVar n_ds2b)])) *c (EV n_a13a [(AVar n_ds1b); (AVar n_ds3b)])) *c (EV n_s42s [(AVar n_ds4a); (AVar n_ds2a)])) *c (EV n_s43s [(AVar n_ds4b); (AVar n_ds3a)]))) -c ((((EV n_a12a [(AVar n_ds1a); (AVar n_ds2b)]) *c (EV n_s13s [(AVar n_ds1b); (AVar n_ds3b)])) *c (EV n_s42s [(AVar n_ds4a); (AVar n_ds2a)])) *c (EV n_s43s [(AVar n_ds4b); (AVar n_ds3a)]))) *ct (EMemT n_CW)) *ct (EMemT n_CW))) *ct (EMemT n_MZ)) +c (((((((((((((EUn NegT (ELocT n_three)) *tc (EV n_a13a [(AVar n_ds1a); (AVar n_ds3b)])) *c (EV n_a43a [(AVar n_ds4a); (AVar n_ds3a)])) *c (EV n_s42s [(AVar n_ds4b); (AVar n_ds2a)])) *c (EV n_s132a [(AVar n_ds1b); (AVar n_ds2b)])) +c ((((EV n_a43a [(AVar n_ds4a); (AVar n_ds3a)]) *c (EV n_s13s [(AVar n_ds1a); (AVar n_ds3b)])) *c (EV n_s42s [(AVar n_ds4b); (AVar n_ds2a)])) *c (EV n_s132a [(AVar n_ds1b); (AVar n_ds2b)]))) +c (((((ELocT n_three) *tc (EV n_a13a [(AVar n_ds1a); (AVar n_ds3b)])) *c (EV n_a42a [(AVar n_ds4a); (AVar n_ds2a)])) *c (EV n_s43s [(AVar n_ds4b); (AVar n_ds3a)])) *c (EV n_s132a [(AVar n_ds1b); (AVar n_ds2b)]))) -c ((((EV n_a13a [(AVar n_ds1a); (AVar n_ds3b)]) *c (EV n_s42s [(AVar n_ds4a); (AVar n_ds2a)])) *c (EV n_s43s [(AVar n_ds4b); (AVar n_ds3a)])) *c (EV n_s132a [(AVar n_ds1b); (AVar n_ds2b)]))) -c (((((ELocT n_three) *tc (EV n_a42a [(AVar n_ds4a); (AVar n_ds2a)])) *c (EV n_a43a [(AVar n_ds4b); (AVar n_ds3a)])) *c (EV n_s13s [(AVar n_ds1a); (AVar n_ds3b)])) *c (EV n_s231a [(AVar n_ds2b); (AVar n_ds1b)]))) +c ((((EV n_a43a [(AVar n_ds4a); (AVar n_ds3a)]) *c (EV n_s13s [(AVar n_ds1a); (AVar n_ds3b)])) *c (EV n_s42s [(AVar n_ds4b); (AVar n_ds2a)])) *c (EV n_s231a [(AVar n_ds2b); (AVar n_ds1b)]))) +c (((((ELocT n_three) *tc (EV n_a13a [(AVar n_ds1a); (AVar n_ds3b)])) *c (EV n_a42a [(AVar n_ds4a); (AVar n_ds2a)])) *c (EV n_s43s [(AVar n_ds4b); (AVar n_ds3a)])) *c (EV n_s231a [(AVar n_ds2b); (AVar n_ds1b)]))) -c ((((EV n_a42a [(AVar n_ds4a); (AVar n_ds2a)]) *c (EV n_s13s [(AVar n_ds1a); (AVar n_ds3b)])) *c (EV n_s43s [(AVar n_ds4b); (AVar n_ds3a)])) *c (EV n_s231a [(AVar n_ds2b); (AVar n_ds1b)]))) *ct (EMemT n_CW)))) /c (EMemC n_pDenTZ)));,
SLoc rC n_amplitude ((ELocC n_amplitude) +c ((((EUn NegT (ELocT n_normFactor)) *t (EMemT n_preZ)) *tc ((((((((((EUn NegT (ELocT n_two)) *tc (EV n_a14a [(AVar n_ds1a); (AVar n_ds4b)])) *c (EV n_a32a [(AVar n_ds3a); (AVar n_ds2a)])) *c (EV n_s12s [(AVar n_ds1b); (AVar n_ds2b)])) *c (EV n_s43s [(AVar n_ds4a); (AVar n_ds3b)])) -c ((((EV n_a12a [(AVar n_ds1a); (AVar n_ds2b)]) *c (EV n_a43a [(AVar n_ds4a); (AVar n_ds3a)])) *c (EV n_s13s [(AVar n_ds1b); (AVar n_ds3b)])) *c (EV n_s42s [(AVar n_ds4b); (AVar n_ds2a)]))) -c ((((EV n_a13a [(AVar n_ds1a); (AVar n_ds3b)]) *c (EV n_a42a [(AVar n_ds4a); (AVar n_ds2a)])) *c (EV n_s12s [(AVar n_ds1b); (AVar n_ds2b)])) *c (EV n_s43s [(AVar n_ds4b); (AVar n_ds3a)]))) +c ((((((((((((((((((((ELocT n_three) *tc (EV n_a12a [(AVar n_ds1a); (AVar n_ds2b)])) *c (EV n_a42a [(AVar n_ds4a); (AVar n_ds2a)])) *c (EV n_a43a [(AVar n_ds4b); (AVar n_ds3a)])) *c (EV n_s13s [(AVar n_ds1b); (AVar n_ds3b)])) +c (((((ELocT n_four) *tc (EV n_a42a [(AVar n_ds4a); (AVar n_ds2a)])) *c (EV n_a43a [(AVar n_ds4b); (AVar n_ds3a)])) *c (EV n_s12s [(AVar n_ds1a); (AVar n_ds2b)])) *c (EV n_s13s [(AVar n_ds1b); (AVar n_ds3b)]))) +c (((((ELocT n_four) *tc (EV n_a32a [(AVar n_ds3a); (AVar n_ds2a)])) *c (EV n_a43a [(AVar n_ds4a); (AVar n_ds3b)])) *c (EV n_s12s [(AVar n_ds1a); (AVar n_ds2b)])) *c (EV n_s14s [(AVar n_ds1b); (AVar n_ds4b)]))) +c (((((ELocT n_two) *tc (EV n_a14a [(AVar n_ds1a); (AVar n_ds4b)])) *c (EV n_a32a [(AVar n_ds3a); (AVar n_ds2a)])) *c (EV n_s12s [(AVar n_ds1b); (AVar n_ds2b)])) *c (EV n_s43s [(AVar n_ds4a); (AVar n_ds3b)]))) +c (((((ELocT n_four) *tc (EV n_a12a [(AVar n_ds1a); (AVar n_ds2b)])) *c (EV n_a14a [(AVar n_ds1b); (AVar n_ds4b)])) *c (EV n_s32s [(AVar n_ds3a); (AVar n_ds2a)])) *c (EV n_s43s [(AVar n_ds4a); (AVar n_ds3b)]))) +c (((((ELocT n_three) *tc (EV n_a13a [(AVar n_ds1a); (AVar n_ds3b)])) *c (EV n_a43a [(AVar n_ds4a); (AVar n_ds3a)])) *c (EV n_s12s [(AVar n_ds1b); (AVar n_ds2b)])) *c (EV n_s42s [(AVar n_ds4b); (AVar n_ds2a)]))) -c (((((ELocT n_three) *tc (EV n_a12a [(AVar n_ds1a); (AVar n_ds2b)])) *c (EV n_a43a [(AVar n_ds4a); (AVar n_ds3a)])) *c (EV n_s13s [(AVar n_ds1b); (AVar n_ds3b)])) *c (EV n_s42s [(AVar n_ds4b); (AVar n_ds2a)]))) -c ((((EV n_a43a [(AVar n_ds4a); (AVar n_ds3a)]) *c (EV n_s12s [(AVar n_ds1a); (AVar n_ds2b)])) *c (EV n_s13s [(AVar n_ds1b); (AVar n_ds3b)])) *c (EV n_s42s [(AVar n_ds4b); (AVar n_ds2a)]))) -c (((((ELocT n_three) *tc (EV n_a12a [(AVar n_ds1a); (AVar n_ds2b)])) *c (EV n_a13a [(AVar n_ds1b); (AVar n_ds3b)])) *c (EV n_a42a [(AVar n_ds4a); (AVar n_ds2a)])) *c (EV n_s43s [(AVar n_ds4b); (AVar n_ds3a)]))) -c (((((ELocT n_three) *tc (EV n_a13a [(AVar n_ds1a); (AVar n_ds3b)])) *c (EV n_a42a [(AVar n_ds4a); (AVar n_ds2a)])) *c (EV n_s12s [(AVar n_ds1b); (AVar n_ds2b)])) *c (EV n_s43s [(AVar n_ds4b); (AVar n_ds3a)]))) +c ((((EV n_a12a [(AVar n_ds1a); (AVar n_ds2b)]) *c (EV n_a42a [(AVar n_ds4a); (AVar n_ds2a)])) *c (EV n_s13s [(AVar n_ds1b); (AVar n_ds3b)])) *c (EV n_s43s [(AVar n_ds4b); (AVar n_ds3a)]))) +c (((((ELocT n_four) *tc (EV n_a12a [(AVar n_ds1a); (AVar n_ds2b)])) *c (EV n_a13a [(AVar n_ds1b); (AVar n_ds3b)])) *c (EV n_s42s [(AVar n_ds4a); (AVar n_ds2a)])) *c (EV n_s43s [(AVar n_ds4b); (AVar n_ds3a)]))) +c ((((EV n_a13a [(AVar n_ds1a); (AVar n_ds3b)]) *c (EV n_s12s [(AVar n_ds1b); (AVar n_ds2b)])) *c (EV n_s42s [(AVar n_ds4a); (AVar n_ds2a)])) *c (EV n_s43s [(AVar n_ds4b); (AVar n_ds3a)]))) +c (((((ELocT n_two) *tc (EV n_a12a [(AVar n_ds1a); (AVar n_ds2a)])) *c (EV n_a43a [(AVar n_ds4a); (AVar n_ds3a)])) *c (EV n_s12s [(AVar n_ds1b); (AVar n_ds2b)])) *c (EV n_s43s [(AVar n_ds4b); (AVar n_ds3b)]))) *ct (EMemT n_CW)) *ct (EMemT n_CW))) *ct (EMemT n_MZ)) +c (((((((((((((ELocT n_three) *tc (EV n_a12a [(AVar n_ds1a); (AVar n_ds2b)])) *c (EV n_a43a [(AVar n_ds4a); (AVar n_ds3a)])) *c (EV n_s42s [(AVar n_ds4b); (AVar n_ds2a)])) *c (EV n_s123a [(AVar n_ds1b); (AVar n_ds3b)])) -c (((((ELocT n_three) *tc (EV n_a12a [(AVar n_ds1a); (AVar n_ds2b)])) *c (EV n_a42a [(AVar n_ds4a); (AVar n_ds2a)])) *c (EV n_s43s [(AVar n_ds4b); (AVar n_ds3a)])) *c (EV n_s123a [(AVar n_ds1b); (AVar n_ds3b)]))) -c ((((EV n_a42a [(AVar n_ds4a); (AVar n_ds2a)]) *c (EV n_s12s [(AVar n_ds1a); (AVar n_ds2b)])) *c (EV n_s43s [(AVar n_ds4b); (AVar n_ds3a)])) *c (EV n_s123a [(AVar n_ds1b); (AVar n_ds3b)]))) +c ((((EV n_a12a [(AVar n_ds1a); (AVar n_ds2b)]) *c (EV n_s42s [(AVar n_ds4a); (AVar n_ds2a)])) *c (EV n_s43s [(AVar n_ds4b); (AVar n_ds3a)])) *c (EV n_s123a [(AVar n_ds1b); (AVar n_ds3b)]))) +c (((((ELocT n_three) *tc (EV n_a42a [(AVar n_ds4a); (AVar n_ds2a)])) *c (EV n_a43a [(AVar n_ds4b); (AVar n_ds3a)])) *c (EV n_s12s [(AVar n_ds1a); (AVar n_ds2b)])) *c (EV n_s321a [(AVar n_ds3b); (AVar n_ds1b)]))) -c (((((ELocT n_three) *tc (EV n_a12a [(AVar n_ds1a); (AVar n_ds2b)])) *c (EV n_a43a [(AVar n_ds4a); (AVar n_ds3a)])) *c (EV n_s42s [(AVar n_ds4b); (AVar n_ds2a)])) *c (EV n_s321a [(AVar n_ds3b); (AVar n_ds1b)]))) -c ((((EV n_a43a [(AVar n_ds4a); (AVar n_ds3a)]) *c (EV n_s12s [(AVar n_ds1a); (AVar n_ds2b)])) *c (EV n_s42s [(AVar n_ds4b); (AVar n_ds2a)])) *c (EV n_s321a [(AVar n_ds3b); (AVar n_ds1b)]))) +c ((((EV n_a42a [(AVar n_ds4a); (AVar n_ds2a)]) *c (EV n_s12s [(AVar n_ds1a); (AVar n_ds2b)])) *c (EV n_s43s [(AVar n_ds4b); (AVar n_ds3a)])) *c (EV n_s321a [(AVar n_ds3b); (AVar n_ds1b)]))) *ct (EMemT n_CW)))) /c (EMemC n_pDenSZ)));,
SLoc rC n_amplitude ((ELocC n_amplitude) +c ((((ELocT n_normFactor) *t (EMemT n_preA)) *tc (((((((((((((((((((((((((((ELocT n_three) *tc (EV n_a13a [(AVar n_ds1a); (AVar n_ds3b)])) *c (EV n_a42a [(AVar n_ds4a); (AVar n_ds2a)])) *c (EV n_a43a [(AVar n_ds4b); (AVar n_ds3a)])) *c (EV n_s12s [(AVar n_ds1b); (AVar n_ds2b)])) -c (((((ELocT n_four) *tc (EV n_a42a [(AVar n_ds4a); (AVar n_ds2a)])) *c (EV n_a43a [(AVar n_ds4b); (AVar n_ds3a)])) *c (EV n_s12s [(AVar n_ds1a); (AVar n_ds2b)])) *c (EV n_s13s [(AVar n_ds1b); (AVar n_ds3b)]))) -c (((((ELocT n_four) *tc (EV n_a32a [(AVar n_ds3a); (AVar n_ds2a)])) *c (EV n_a42a [(AVar n_ds4a); (AVar n_ds2b)])) *c (EV n_s13s [(AVar n_ds1a); (AVar n_ds3b)])) *c (EV n_s14s [(AVar n_ds1b); (AVar n_ds4b)]))) +c (((((ELocT n_two) *tc (EV n_a14a [(AVar n_ds1a); (AVar n_ds4b)])) *c (EV n_a32a [(AVar n_ds3a); (AVar n_ds2a)])) *c (EV n_s13s [(AVar n_ds1b); (AVar n_ds3b)])) *c (EV n_s42s [(AVar n_ds4a); (AVar n_ds2b)]))) -c (((((ELocT n_four) *tc (EV n_a13a [(AVar n_ds1a); (AVar n_ds3b)])) *c (EV n_a14a [(AVar n_ds1b); (AVar n_ds4b)])) *c (EV n_s32s [(AVar n_ds3a); (AVar n_ds2a)])) *c (EV n_s42s [(AVar n_ds4a); (AVar n_ds2b)]))) -c (((((ELocT n_three) *tc (EV n_a12a [(AVar n_ds1a); (AVar n_ds2b)])) *c (EV n_a13a [(AVar n_ds1b); (AVar n_ds3b)])) *c (EV n_a43a [(AVar n_ds4a); (AVar n_ds3a)])) *c (EV n_s42s [(AVar n_ds4b); (AVar n_ds2a)]))) -c ((((EV n_a13a [(AVar n_ds1a); (AVar n_ds3b)]) *c (EV n_a43a [(AVar n_ds4a); (AVar n_ds3a)])) *c (EV n_s12s [(AVar n_ds1b); (AVar n_ds2b)])) *c (EV n_s42s [(AVar n_ds4b); (AVar n_ds2a)]))) +c (((((ELocT n_three) *tc (EV n_a12a [(AVar n_ds1a); (AVar n_ds2b)])) *c (EV n_a43a [(AVar n_ds4a); (AVar n_ds3a)])) *c (EV n_s13s [(AVar n_ds1b); (AVar n_ds3b)])) *c (EV n_s42s [(AVar n_ds4b); (AVar n_ds2a)]))) -c (((((ELocT n_two) *tc (EV n_a13a [(AVar n_ds1a); (AVar n_ds3a)])) *c (EV n_a42a [(AVar n_ds4a); (AVar n_ds2a)])) *c (EV n_s13s [(AVar n_ds1b); (AVar n_ds3b)])) *c (EV n_s42s [(AVar n_ds4b); (AVar n_ds2b)]))) +c (((((ELocT n_three) *tc (EV n_a13a [(AVar n_ds1a); (AVar n_ds3b)])) *c (EV n_a42a [(AVar n_ds4a); (AVar n_ds2a)])) *c (EV n_s12s [(AVar n_ds1b); (AVar n_ds2b)])) *c (EV n_s43s [(AVar n_ds4b); (AVar n_ds3a)]))) -c (((((ELocT n_three) *tc (EV n_a12a [(AVar n_ds1a); (AVar n_ds2b)])) *c (EV n_a42a [(AVar n_ds4a); (AVar n_ds2a)])) *c (EV n_s13s [(AVar n_ds1b); (AVar n_ds3b)])) *c (EV n_s43s [(AVar n_ds4b); (AVar n_ds3a)]))) -c ((((EV n_a42a [(AVar n_ds4a); (AVar n_ds2a)]) *c (EV n_s12s [(AVar n_ds1a); (AVar n_ds2b)])) *c (EV n_s13s [(AVar n_ds1b); (AVar n_ds3b)])) *c (EV n_s43s [(AVar n_ds4b); (AVar n_ds3a)]))) -c (((((ELocT n_four) *tc (EV n_a12a [(AVar n_ds1a); (AVar n_ds2b)])) *c (EV n_a13a [(AVar n_ds1b); (AVar n_ds3b)])) *c (EV n_s42s [(AVar n_ds4a); (AVar n_ds2a)])) *c (EV n_s43s [(AVar n_ds4b); (AVar n_ds3a)]))) +c ((((EV n_a12a [(AVar n_ds1a); (AVar n_ds2b)]) *c (EV n_s13s [(AVar n_ds1b); (AVar n_ds3b)])) *c (EV n_s42s [(AVar n_ds4a); (AVar n_ds2a)])) *c (EV n_s43s [(AVar n_ds4b); (AVar n_ds3a)]))) *ct (EMemT n_MW)) +c (((((ELocT n_three) *tc (EV n_a13a [(AVar n_ds1a); (AVar n_ds3b)])) *c (EV n_a43a [(AVar n_ds4a); (AVar n_ds3a)])) *c (EV n_s42s [(AVar n_ds4b); (AVar n_ds2a)])) *c (EV n_s132a [(AVar n_ds1b); (AVar n_ds2b)]))) -c ((((EV n_a43a [(AVar n_ds4a); (AVar n_ds3a)]) *c (EV n_s13s [(AVar n_ds1a); (AVar n_ds3b)])) *c (EV n_s42s [(AVar n_ds4b); (AVar n_ds2a)])) *c (EV n_s132a [(AVar n_ds1b); (AVar n_ds2b)]))) -c (((((ELocT n_three) *tc (EV n_a13a [(AVar n_ds1a); (AVar n_ds3b)])) *c (EV n_a42a [(AVar n_ds4a); (AVar n_ds2a)])) *c (EV n_s43s [(AVar n_ds4b); (AVar n_ds3a)])) *c (EV n_s132a [(AVar n_ds1b); (AVar n_ds2b)]))) +c ((((EV n_a13a [(AVar n_ds1a); (AVar n_ds3b)]) *c (EV n_s42s [(AVar n_ds4a); (AVar n_ds2a)])) *c (EV n_s43s [(AVar n_ds4b); (AVar n_ds3a)])) *c (EV n_s132a [(AVar n_ds1b); (AVar n_ds2b)]))) +c (((((ELocT n_three) *tc (EV n_a42a [(AVar n_ds4a); (AVar n_ds2a)])) *c (EV n_a43a [(AVar n_ds4b); (AVar n_ds3a)])) *c (EV n_s13s [(AVar n_ds1a); (AVar n_ds3b)])) *c (EV n_s231a [(AVar n_ds2b); (AVar n_ds1b)]))) -c ((((EV n_a43a [(AVar n_ds4a); (AVar n_ds3a)]) *c (EV n_s13s [(AVar n_ds1a); (AVar n_ds3b)])) *c (EV n_s42s [(AVar n_ds4b); (AVar n_ds2a)])) *c (EV n_s231a [(AVar n_ds2b); (AVar n_ds1b)]))) -c (((((ELocT n_three) *tc (EV n_a13a [(AVar n_ds1a); (AVar n_ds3b)])) *c (EV n_a42a [(AVar n_ds4a); (AVar n_ds2a)])) *c (EV n_s43s [(AVar n_ds4b); (AVar n_ds3a)])) *c (EV n_s231a [(AVar n_ds2b); (AVar n_ds1b)]))) +c ((((EV n_a42a [(AVar n_ds4a); (AVar n_ds2a)]) *c (EV n_s13s [(AVar n_ds1a); (AVar n_ds3b)])) *c (EV n_s43s [(AVar n_ds4b); (AVar n_ds3a)])) *c (EV n_s231a [(AVar n_ds2b); (AVar n_ds1b)])))) /c (EMemC n_pDenTA)));,
SLoc rC n_amplitude ((ELocC n_amplitude) +c ((((ELocT n_normFactor) *t (EMemT n_preA)) *tc (((((((((((((((((((((((((((EUn NegT (ELocT n_three)) *tc (EV n_a12a [(AVar n_ds1a); (AVar n_ds2b)])) *c (EV n_a42a [(AVar n_ds4a); (AVar n_ds2a)])) *c (EV n_a43a [(AVar n_ds4b); (AVar n_ds3a)])) *c (EV n_s13s [(AVar n_ds1b); (AVar n_ds3b)])) -c (((((ELocT n_four) *tc (EV n_a42a [(AVar n_ds4a); (AVar n_ds2a)])) *c (EV n_a43a [(AVar n_ds4b); (AVar n_ds3a)])) *c (EV n_s12s [(AVar n_ds1a); (AVar n_ds2b)])) *c (EV n_s13s [(AVar n_ds1b); (AVar n_ds3b)]))) -c (((((ELocT n_four) *tc (EV n_a32a [(AVar n_ds3a); (AVar n_ds2a)])) *c (EV n_a43a [(AVar n_ds4a); (AVar n_ds3b)])) *c (EV n_s12s [(AVar n_ds1a); (AVar n_ds2b)])) *c (EV n_s14s [(AVar n_ds1b); (AVar n_ds4b)]))) -c (((((ELocT n_two) *tc (EV n_a14a [(AVar n_ds1a); (AVar n_ds4b)])) *c (EV n_a32a [(AVar n_ds3a); (AVar n_ds2a)])) *c (EV n_s12s [(AVar n_ds1b); (AVar n_ds2b)])) *c (EV n_s43s [(AVar n_ds4a); (AVar n_ds3b)]))) -c (((((ELocT n_four) *tc (EV n_a12a [(AVar n_ds1a); (AVar n_ds2b)])) *c (EV n_a14a [(AVar n_ds1b); (AVar n_ds4b)])) *c (EV n_s32s [(AVar n_ds3a); (AVar n_ds2a)])) *c (EV n_s43s [(AVar n_ds4a); (AVar n_ds3b)]))) -c (((((ELocT n_three) *tc (EV n_a13a [(AVar n_ds1a); (AVar n_ds3b)])) *c (EV n_a43a [(AVar n_ds4a); (AVar n_ds3a)])) *c (EV n_s12s [(AVar n_ds1b); (AVar n_ds2b)])) *c (EV n_s42s [(AVar n_ds4b); (AVar n_ds2a)]))) +c (((((ELocT n_three) *tc (EV n_a12a [(AVar n_ds1a); (AVar n_ds2b)])) *c (EV n_a43a [(AVar n_ds4a); (AVar n_ds3a)])) *c (EV n_s13s [(AVar n_ds1b); (AVar n_ds3b)])) *c (EV n_s42s [(AVar n_ds4b); (AVar n_ds2a)]))) +c ((((EV n_a43a [(AVar n_ds4a); (AVar n_ds3a)]) *c (EV n_s12s [(AVar n_ds1a); (AVar n_ds2b)])) *c (EV n_s13s [(AVar n_ds1b); (AVar n_ds3b)])) *c (EV n_s42s [(AVar n_ds4b); (AVar n_ds2a)]))) +c (((((ELocT n_three) *tc (EV n_a12a [(AVar n_ds1a); (AVar n_ds2b)])) *c (EV n_a13a [(AVar n_ds1b); (AVar n_ds3b)])) *c (EV n_a42a [(AVar n_ds4a); (AVar n_ds2a)])) *c (EV n_s43s [(AVar n_ds4b); (AVar n_ds3a)]))) +c (((((ELocT n_three) *tc (EV n_a13a [(AVar n_ds1a); (AVar n_ds3b)])) *c (EV n_a42a [(AVar n_ds4a); (AVar n_ds2a)])) *c (EV n_s12s [(AVar n_ds1b); (AVar n_ds2b)])) *c (EV n_s43s [(AVar n_ds4b); (AVar n_ds3a)]))) -c ((((EV n_a12a [(AVar n_ds1a); (AVar n_ds2b)]) *c (EV n_a42a [(AVar n_ds4a); (AVar n_ds2a)])) *c (EV n_s13s [(AVar n_ds1b); (AVar n_ds3b)])) *c (EV n_s43s [(AVar n_ds4b); (AVar n_ds3a)]))) -c (((((ELocT n_four) *tc (EV n_a12a [(AVar n_ds1a); (AVar n_ds2b)])) *c (EV n_a13a [(AVar n_ds1b); (AVar n_ds3b)])) *c (EV n_s42s [(AVar n_ds4a); (AVar n_ds2a)])) *c (EV n_s43s [(AVar n_ds4b); (AVar n_ds3a)]))) -c ((((EV n_a13a [(AVar n_ds1a); (AVar n_ds3b)]) *c (EV n_s12s [(AVar n_ds1b); (AVar n_ds2b)])) *c (EV n_s42s [(AVar n_ds4a); (AVar n_ds2a)])) *c (EV n_s43s [(AVar n_ds4b); (AVar n_ds3a)]))) -c (((((ELocT n_two) *tc (EV n_a12a [(AVar n_ds1a); (AVar n_ds2a)])) *c (EV n_a43a [(AVar n_ds4a); (AVar n_ds3a)])) *c (EV n_s12s [(AVar n_ds1b); (AVar n_ds2b)])) *c (EV n_s43s [(AVar n_ds4b); (AVar n_ds3b)]))) *ct (EMemT n_MW)) -c (((((ELocT n_three) *tc (EV n_a12a [(AVar n_ds1a); (AVar n_ds2b)])) *c (EV n_a43a [(AVar n_ds4a); (AVar n_ds3a)])) *c (EV n_s42s [(AVar n_ds4b); (AVar n_ds2a)])) *c (EV n_s123a [(AVar n_ds1b); (AVar n_ds3b)]))) +c (((((ELocT n_three) *tc (EV n_a12a [(AVar n_ds1a); (AVar n_ds2b)])) *c (EV n_a42a [(AVar n_ds4a); (AVar n_ds2a)])) *c (EV n_s43s [(AVar n_ds4b); (AVar n_ds3a)])) *c (EV n_s123a [(AVar n_ds1b); (AVar n_ds3b)]))) +c ((((EV n_a42a [(AVar n_ds4a); (AVar n_ds2a)]) *c (EV n_s12s [(AVar n_ds1a); (AVar n_ds2b)])) *c (EV n_s43s [(AVar n_ds4b); (AVar n_ds3a)])) *c (EV n_s123a [(AVar n_ds1b); (AVar n_ds3b)]))) -c ((((EV n_a12a [(AVar n_ds1a); (AVar n_ds2b)]) *c (EV n_s42s [(AVar n_ds4a); (AVar n_ds2a)])) *c (EV n_s43s [(AVar n_ds4b); (AVar n_ds3a)])) *c (EV n_s123a [(AVar n_ds1b); (AVar n_ds3b)]))) -c (((((ELocT n_three) *tc (EV n_a42a [(AVar n_ds4a); (AVar n_ds2a)])) *c (EV n_a43a [(AVar n_ds4b); (AVar n_ds3a)])) *c (EV n_s12s [(AVar n_ds1a); (AVar n_ds2b)])) *c (EV n_s321a [(AVar n_ds3b); (AVar n_ds1b)]))) +c (((((ELocT n_three) *tc (EV n_a12a [(AVar n_ds1a); (AVar n_ds2b)])) *c (EV n_a43a [(AVar n_ds4a); (AVar n_ds3a)])) *c (EV n_s42s [(AVar n_ds4b); (AVar n_ds2a)])) *c (EV n_s321a [(AVar n_ds3b); (AVar n_ds1b)]))) +c ((((EV n_a43a [(AVar n_ds4a); (AVar n_ds3a)]) *c (EV n_s12s [(AVar n_ds1a); (AVar n_ds2b)])) *c (EV n_s42s [(AVar n_ds4b); (AVar n_ds2a)])) *c (EV n_s321a [(AVar n_ds3b); (AVar n_ds1b)]))) -c ((((EV n_a42a [(AVar n_ds4a); (AVar n_ds2a)]) *c (EV n_s12s [(AVar n_ds1a); (AVar n_ds2b)])) *c (EV n_s43s [(AVar n_ds4b); (AVar n_ds3a)])) *c (EV n_s321a [(AVar n_ds3b); (AVar n_ds1b)])))) /c (EMemC n_pDenSA)))));,
SReturnC (ELocC n_amplitude)).
(** WWWW2::amp2: SM/WWWW2.cpp 278-292 *)
Definition WWWW2_amp2 : meth := mkMeth n_amp2 []
(SLoc rT n_amp2 (EUn I2T (EInt 0));,
SDecl rC n_M;,
(SFor n_j1 (EUn NegI (EInt 2)) (EBin (CmpI CLe) (ELocI n_j1) (EInt 2)) (EBin (OpI IAdd) (ELocI n_j1) (EInt 2))
(SFor n_j2 (EUn NegI (EInt 2)) (EBin (CmpI CLe) (ELocI n_j2) (EInt 2)) (EBin (OpI IAdd) (ELocI n_j2) (EInt 2))
(SFor n_j3 (EUn NegI (EInt 2)) (EBin (CmpI CLe) (ELocI n_j3) (EInt 2)) (EBin (OpI IAdd) (ELocI n_j3) (EInt 2))
(SFor n_j4 (EUn NegI (EInt 2)) (EBin (CmpI CLe) (ELocI n_j4) (EInt 2)) (EBin (OpI IAdd) (ELocI n_j4) (EInt 2))
(SLoc rC n_M (ECall n_amp [(AVar n_j1); (AVar n_j2); (AVar n_j3); (AVar n_j4)]);,
SLoc rT n_amp2 ((ELocT n_amp2) +t (EUn Pow2T (EUn AbsC (ELocC n_M)))))))));,
SReturnT ((ELocT n_amp2) /t (EUn D2T (ELit (9 # 1))))).
(** members: SM/include/WWWW2.h 26-34; initialisers: SM/WWWW2.cpp 32-33 *)
Definition WWWW2 : cls := mkCls "WWWW2"
[(n_e, KT);
(n_mh, KT);
(n_wh, KT);
(n_MW, KT);
(n_WZ, KT);
(n_SW, KT);
(n_CW, KT);
(n_MZ, KT);
(n_p1, (KPart 0));
(n_p2, (KPart 1));
(n_p3, (KPart 2));
(n_p4, (KPart 3));
(n_proph, KProp);
(n_propZ, KProp);
(n_propA, KProp);
(n_pDenTh, KC);
(n_pDenSh, KC);
(n_pDenTZ, KC);
(n_pDenSZ, KC);
(n_pDenTA, KC);
(n_pDenSA, KC);
(n_s14s, KSprod);
(n_a14a, KSprod);
(n_a32a, KSprod);
(n_s32s, KSprod);
(n_s42s, KSprod);
(n_a42a, KSprod);
(n_s43s, KSprod);
(n_a43a, KSprod);
(n_a12a, KSprod);
(n_s12s, KSprod);
(n_a13a, KSprod);
(n_s13s, KSprod);
(n_s231a, KSprod);
(n_s132a, KSprod);
(n_s123a, KSprod);
(n_s321a, KSprod);
(n_preh, KT);
(n_preA, KT);
(n_preZ, KT)]
[n_echarge; n_massh; n_widthh; n_massW; n_widthZ; n_sinW]
[(n_e, NT (ELocT n_echarge));
(n_mh, NT (ELocT n_massh));
(n_wh, NT (ELocT n_widthh));
(n_MW, NT (ELocT n_massW));
(n_WZ, NT (ELocT n_widthZ));
(n_SW, NT (ELocT n_sinW));
(n_CW, NT (EUn SqrtT ((EUn D2T (ELit (1 # 1))) -t ((ELocT n_sinW) *t (ELocT n_sinW)))));
(n_MZ, NT ((ELocT n_massW) /t (EMemT n_CW)))]
WWWW2_ctor
[WWWW2_set_masses; WWWW2_set_momenta; WWWW2_amp; WWWW2_amp2].

(** WdWd::WdWd: SM/WdWd.cpp 32-67 *)
Definition WdWd_ctor : stmt :=
(SLoc rT n_two (EUn I2T (EInt 2));,
SMemT n_sqrt2 (EUn SqrtT (ELocT n_two));,
SMemT n_MZ ((EMemT n_MW) /t (EMemT n_CW));,
SPropNew n_propZ (EMemT n_MZ) (EMemT n_WZ);,
SPropNew n_proph (EMemT n_mh) (EMemT n_wh);,
SParticle 0 (EMemT n_MW);,
SParticle 1 (EMemT n_md);,
SParticle 2 (EMemT n_MW);,
SParticle 3 (EMemT n_md);,
SSprod n_s12s false 0 [] 1;,
SSprod n_a12a true 0 [] 1;,
SSprod n_s23s false 1 [] 2;,
SSprod n_a23a true 1 [] 2;,
SSprod n_s13s false 0 [] 2;,
SSprod n_a13a true 0 [] 2;,
SSprod n_s34s false 2 [] 3;,
SSprod n_a34a true 2 [] 3;,
SSprod n_s24s false 1 [] 3;,
SSprod n_a24a true 1 [] 3;,
SSprod n_s14s false 0 [] 3;,
SSprod n_a14a true 0 [] 3;,
SSprod n_s143a false 0 [3] 2;,
SSprod n_s341a false 2 [3] 0;,
SSprod n_s234a false 1 [2] 3;,
SSprod n_s432a false 3 [2] 1;,
SMemT n_pred ((((EUn D2T (ELit (2 # 1))) *t (EMemT n_e)) *t (EMemT n_e)) /t (((((EUn D2T (ELit (2 # 1))) *t (EMemT n_MW)) *t (EMemT n_MW)) *t (EMemT n_SW)) *t (EMemT n_SW)));,
SMemT n_preh (((((EUn D2T (ELit (2 # 1))) *t (EMemT n_e)) *t (EMemT n_e)) *t (EMemT n_md)) /t (((((EUn D2T (ELit (4 # 1))) *t (EMemT n_MW)) *t (EMemT n_MW)) *t (EMemT n_SW)) *t (EMemT n_SW)));,
SMemT n_preZ (((EMemT n_e) *t (EMemT n_e)) /t (((((EUn D2T (ELit (2 # 1))) *t (EMemT n_MW)) *t (EMemT n_MW)) *t (EMemT n_SW)) *t (EMemT n_SW)));,
SMemT n_gL (((((EUn D2T (EUn NegD (ELit (2 # 1)))) *t (EMemT n_Qf)) *t (EMemT n_SW)) *t (EMemT n_SW)) -t (EUn D2T (ELit (1 # 1))));,
SMemT n_gR ((((EUn D2T (EUn NegD (ELit (2 # 1)))) *t (EMemT n_Qf)) *t (EMemT n_SW)) *t (EMemT n_SW))).
(** WdWd::set_masses: SM/WdWd.cpp 68-85 *)
Definition WdWd_set_masses : meth := mkMeth n_set_masses [(n_massd, PkT); (n_massu, PkT); (n_massh, PkT); (n_massW, PkT)]
(SMemT n_md (ELocT n_massd);,
SMemT n_mu (ELocT n_massu);,
SMemT n_mh (ELocT n_massh);,
SMemT n_MW (ELocT n_massW);,
SMemT n_MZ ((EMemT n_MW) /t (EMemT n_CW));,
SSetMass 0 (EMemT n_MW);,
SSetMass 1 (EMemT n_md);,
SSetMass 2 (EMemT n_MW);,
SSetMass 3 (EMemT n_md);,
SPropMass n_propu (EMemT n_mu);,
SPropMass n_proph (EMemT n_mh);,
SPropMass n_propZ (EMemT n_MZ);,
SMemT n_pred ((((EUn D2T (ELit (2 # 1))) *t (EMemT n_e)) *t (EMemT n_e)) /t (((((EUn D2T (ELit (2 # 1))) *t (EMemT n_MW)) *t (EMemT n_MW)) *t (EMemT n_SW)) *t (EMemT n_SW)));,
SMemT n_preh (((((EUn D2T (ELit (2 # 1))) *t (EMemT n_e)) *t (EMemT n_e)) *t (EMemT n_md)) /t (((((EUn D2T (ELit (4 # 1))) *t (EMemT n_MW)) *t (EMemT n_MW)) *t (EMemT n_SW)) *t (EMemT n_SW)));,
SMemT n_preZ (((EMemT n_e) *t (EMemT n_e)) /t (((((EUn D2T (ELit (2 # 1))) *t (EMemT n_MW)) *t (EMemT n_MW)) *t (EMemT n_SW)) *t (EMemT n_SW)))).
(** WdWd::set_momenta: SM/WdWd.cpp 86-122 *)
Definition WdWd_set_momenta : meth := mkMeth n_set_momenta [(n_mom1, PkMom); (n_mom2, PkMom); (n_mom3, PkMom); (n_mom4, PkMom)]
(SSetMomentum 0 n_mom1;,
SSetMomentum 1 n_mom2;,
SSetMomentum 2 n_mom3;,
SSetMomentum 3 n_mom4;,
SUpdate n_s12s;,
SUpdate n_a12a;,
SUpdate n_s23s;,
SUpdate n_a23a;,
SUpdate n_s13s;,
SUpdate n_a13a;,
SUpdate n_s34s;,
SUpdate n_a34a;,
SUpdate n_s24s;,
SUpdate n_a24a;,
SUpdate n_s14s;,
SUpdate n_a14a;,
SUpdate n_s143a;,
SUpdate n_s341a;,
SUpdate n_s234a;,
SUpdate n_s432a;,
SDeclT n_propSP 4;,
SDeclT n_propTP 4;,
SDeclT n_propUP 4;,
(SFor n_j (EInt 0) (EBin (CmpI CLt) (ELocI n_j) (EInt 4)) (EBin (OpI IAdd) (ELocI n_j) (EInt 1))
(SArrT n_propSP (AVar n_j) ((EArrT n_mom1 (AVar n_j)) +t (EArrT n_mom2 (AVar n_j)));,
SArrT n_propTP (AVar n_j) ((EArrT n_mom1 (AVar n_j)) -t (EArrT n_mom3 (AVar n_j)));,
SArrT n_propUP (AVar n_j) ((EArrT n_mom1 (AVar n_j)) -t (EArrT n_mom4 (AVar n_j)))));,
SMemC n_pDenhT (EDen n_proph n_propTP);,
SMemC n_pDendS (EDen n_propu n_propSP);,
SMemC n_pDendU (EDen n_propu n_propUP);,
SMemC n_pDenZT (EDen n_propZ n_propTP);,
SMemC n_pDenAT (EDen n_propA n_propTP)).
(** WdWd::amp: SM/WdWd.cpp 127-207 *)
Definition WdWd_amp : meth := mkMeth n_amp [(n_ds1, PkI); (n_ds2, PkI); (n_ds3, PkI); (n_ds4, PkI)]
(SLoc rC n_amplitude (EBin OpTTC (EUn I2T (EInt 0)) (EUn I2T (EInt 0)));,
SDecl rI n_ds3a;,
SDecl rI n_ds3b;,
SDecl rI n_ds1a;,
SDecl rI n_ds1b;,
SLoc rT n_two (EUn I2T (EInt 2));,
SLoc rI n_nCombs (ENLoops [(AVar n_ds3); (AVar n_ds1)]);,
SLoc rT n_normFactor (ENorm [(AVar n_ds3); (AVar n_ds1)]);,
(SFor n_i (EInt 0) (EBin (CmpI CLt) (ELocI n_i) (ELocI n_nCombs)) (EBin (OpI IAdd) (ELocI n_i) (EInt 1))
(SSpins [(n_ds3, n_ds3a, n_ds3b); (n_ds1, n_ds1a, n_ds1b)] (AVar n_i);,
SLoc rC n_amplitude ((ELocC n_amplitude) +c ((((((ELocT n_normFactor) *t (EMemT n_preh)) *tc (EV n_s13s [(AVar n_ds1a); (AVar n_ds3a)])) *c (EV n_a13a [(AVar n_ds1b); (AVar n_ds3b)])) *c ((EV n_s24s [(AVar n_ds2); (AVar n_ds4)]) -c (EV n_a24a [(AVar n_ds2); (AVar n_ds4)]))) /c (EMemC n_pDenhT)));,
SLoc rC n_amplitude ((ELocC n_amplitude) +c ((((((ELocT n_normFactor) *t (EMemT n_pred)) *tc (EV n_s12s [(AVar n_ds1a); (AVar n_ds2)])) *c (EV n_a34a [(AVar n_ds3a); (AVar n_ds4)])) *c (((EUn NegT (EMemT n_MW)) *tc (EV n_a13a [(AVar n_ds1b); (AVar n_ds3b)])) +c (EV n_s341a [(AVar n_ds3b); (AVar n_ds1b)]))) /c (EMemC n_pDendS)));,
SLoc rC n_amplitude ((ELocC n_amplitude) +c ((((((((((EUn NegT (ELocT n_normFactor)) *t (EMemT n_e)) *t (EMemT n_e)) *t (EMemT n_Qf)) *t (ELocT n_two)) /t (EMemT n_MW)) *tc (((((EV n_a34a [(AVar n_ds3a); (AVar n_ds4)]) *c (EV n_s12s [(AVar n_ds1a); (AVar n_ds2)])) +c ((EV n_s34s [(AVar n_ds3a); (AVar n_ds4)]) *c (EV n_a12a [(AVar n_ds1a); (AVar n_ds2)]))) +c ((EV n_a14a [(AVar n_ds1a); (AVar n_ds4)]) *c (EV n_s23s [(AVar n_ds2); (AVar n_ds3a)]))) +c ((EV n_s14s [(AVar n_ds1a); (AVar n_ds4)]) *c (EV n_a23a [(AVar n_ds2); (AVar n_ds3a)])))) *c ((EV n_s13s [(AVar n_ds1b); (AVar n_ds3b)]) -c (EV n_a13a [(AVar n_ds1b); (AVar n_ds3b)]))) /c (EMemC n_pDenAT)) -c (((((((((ELocT n_normFactor) *t (EMemT n_e)) *t (EMemT n_e)) *t (EMemT n_Qf)) *t (ELocT n_two)) /t (EMemT n_MW)) /t (EMemT n_MW)) *tc (((EV n_s13s [(AVar n_ds1a); (AVar n_ds3a)]) *c (EV n_a13a [(AVar n_ds1b); (AVar n_ds3b)])) *c ((EV n_s234a [(AVar n_ds2); (AVar n_ds4)]) -c (EV n_s432a [(AVar n_ds4); (AVar n_ds2)])))) /c (EMemC n_pDenAT))));,
SLoc rC n_amplitude ((ELocC n_amplitude) +c ((((ELocT n_normFactor) *t (EMemT n_preZ)) *tc ((((((((EMemT n_gL) -t (EMemT n_gR)) *t (EMemT n_md)) *tc (EV n_s13s [(AVar n_ds1a); (AVar n_ds3a)])) *c (EV n_a13a [(AVar n_ds1b); (AVar n_ds3b)])) *c ((EV n_s24s [(AVar n_ds2); (AVar n_ds4)]) +c (EV n_a24a [(AVar n_ds2); (AVar n_ds4)]))) -c ((((ELocT n_two) *tc (EV n_s13s [(AVar n_ds1a); (AVar n_ds3a)])) *c (EV n_a13a [(AVar n_ds1b); (AVar n_ds3b)])) *c (((EMemT n_gL) *tc (EV n_s234a [(AVar n_ds2); (AVar n_ds4)])) -c ((EMemT n_gR) *tc (EV n_s432a [(AVar n_ds4); (AVar n_ds2)]))))) -c ((((ELocT n_two) *t (EMemT n_MW)) *tc ((EV n_s13s [(AVar n_ds1a); (AVar n_ds3a)]) -c (EV n_a13a [(AVar n_ds1a); (AVar n_ds3a)]))) *c (((EMemT n_gL) *tc (((EV n_s23s [(AVar n_ds2); (AVar n_ds3b)]) *c (EV n_a14a [(AVar n_ds1b); (AVar n_ds4)])) +c ((EV n_s12s [(AVar n_ds1b); (AVar n_ds2)]) *c (EV n_a34a [(AVar n_ds3b); (AVar n_ds4)])))) +c ((EMemT n_gR) *tc (((EV n_s34s [(AVar n_ds3b); (AVar n_ds4)]) *c (EV n_a12a [(AVar n_ds1b); (AVar n_ds2)])) +c ((EV n_s14s [(AVar n_ds1b); (AVar n_ds4)]) *c (EV n_a23a [(AVar n_ds2); (AVar n_ds3b)])))))))) /c (EMemC n_pDenZT)))));,
SReturnC (ELocC n_amplitude)).
(** WdWd::amp2: SM/WdWd.cpp 210-225 *)
Definition WdWd_amp2 : meth := mkMeth n_amp2 []
(SLoc rT n_amp2 (EUn I2T (EInt 0));,
SDecl rC n_M;,
(SFor n_j1 (EUn NegI (EInt 2)) (EBin (CmpI CLe) (ELocI n_j1) (EInt 2)) (EBin (OpI IAdd) (ELocI n_j1) (EInt 2))
(SFor n_j2 (EUn NegI (EInt 1)) (EBin (CmpI CLe) (ELocI n_j2) (EInt 1)) (EBin (OpI IAdd) (ELocI n_j2) (EInt 2))
(SFor n_j3 (EUn NegI (EInt 2)) (EBin (CmpI CLe) (ELocI n_j3) (EInt 2)) (EBin (OpI IAdd) (ELocI n_j3) (EInt 2))
(SFor n_j4 (EUn NegI (EInt 1)) (EBin (CmpI CLe) (ELocI n_j4) (EInt 1)) (EBin (OpI IAdd) (ELocI n_j4) (EInt 2))
(SLoc rC n_M (ECall n_amp [(AVar n_j1); (AVar n_j2); (AVar n_j3); (AVar n_j4)]);,
SLoc rT n_amp2 ((ELocT n_amp2) +t ((EUn D2T (ELit (3 # 1))) *t (EUn Pow2T (EUn AbsC (ELocC n_M))))))))));,
SReturnT ((ELocT n_amp2) /t (EUn D2T (ELit (18 # 1))))).
(** members: SM/include/WdWd.h 26-36; initialisers: SM/WdWd.cpp 32-33 *)
Definition WdWd : cls := mkCls "WdWd"
[(n_e, KT);
(n_Qf, KT);
(n_mu, KT);
(n_md, KT);
(n_mh, KT);
(n_wh, KT);
(n_MW, KT);
(n_SW, KT);
(n_CW, KT);
(n_MZ, KT);
(n_WZ, KT);
(n_p1, (KPart 0));
(n_p2, (KPart 1));
(n_p3, (KPart 2));
(n_p4, (KPart 3));
(n_proph, KProp);
(n_propu, KProp);
(n_propZ, KProp);
(n_propA, KProp);
(n_pDenhT, KC);
(n_pDendS, KC);
(n_pDendU, KC);
(n_pDenZT, KC);
(n_pDenAT, KC);
(n_s12s, KSprod);
(n_a12a, KSprod);
(n_s23s, KSprod);
(n_a23a, KSprod);
(n_s13s, KSprod);
(n_a13a, KSprod);
(n_s34s, KSprod);
(n_a34a, KSprod);
(n_s24s, KSprod);
(n_a24a, KSprod);
(n_s14s, KSprod);
(n_a14a, KSprod);
(n_s143a, KSprod);
(n_s341a, KSprod);
(n_s234a, KSprod);
(n_s432a, KSprod);
(n_sqrt2, KT);
(n_pred, KT);
(n_preh, KT);
(n_preZ, KT);
(n_gL, KT);
(n_gR, KT)]
[n_echarge; n_massd; n_massu; n_massh; n_widthh; n_massW; n_sinW; n_widthZ]
[(n_e, NT (ELocT n_echarge));
(n_Qf, NT (EUn D2T ((EUn NegD (ELit (1 # 1))) /d (ELit (3 # 1)))));
(n_md, NT (ELocT n_massd));
(n_mu, NT (ELocT n_massu));
(n_mh, NT (ELocT n_massh));
(n_wh, NT (ELocT n_widthh));
(n_MW, NT (ELocT n_massW));
(n_SW, NT (ELocT n_sinW));
(n_CW, NT (EUn SqrtT ((EUn D2T (ELit (1 # 1))) -t ((ELocT n_sinW) *t (ELocT n_sinW)))));
(n_MZ, NT ((ELocT n_massW) /t (EMemT n_CW)));
(n_WZ, NT (ELocT n_widthZ));
(n_propu, NProp (EMemT n_mu) (EUn I2T (EInt 0)));
(n_propA, NProp (EUn I2T (EInt 0)) (EUn I2T (EInt 0)))]
WdWd_ctor
[WdWd_set_masses; WdWd_set_momenta; WdWd_amp; WdWd_amp2].

(** WdZu::WdZu: SM/WdZu.cpp 32-65 *)
Definition WdZu_ctor : stmt :=
(SMemT n_CW (EUn SqrtT ((EUn D2T (ELit (1 # 1))) -t ((EMemT n_SW) *t (EMemT n_SW))));,
SMemT n_MZ ((EMemT n_MW) /t (EMemT n_CW));,
SPropNew n_propW (EMemT n_MW) (EMemT n_WW);,
SPropNew n_propu (EMemT n_mu) (EUn I2T (EInt 0));,
SPropNew n_propd (EMemT n_md) (EUn I2T (EInt 0));,
SParticle 0 (EMemT n_MW);,
SParticle 1 (EMemT n_md);,
SParticle 2 (EMemT n_MZ);,
SParticle 3 (EMemT n_mu);,
SSprod n_a42a true 3 [] 1;,
SSprod n_a43a true 3 [] 2;,
SSprod n_a23a true 1 [] 2;,
SSprod n_a21a true 1 [] 0;,
SSprod n_a31a true 2 [] 0;,
SSprod n_s42s false 3 [] 1;,
SSprod n_s43s false 3 [] 2;,
SSprod n_s41s false 3 [] 0;,
SSprod n_s23s false 1 [] 2;,
SSprod n_s31s false 2 [] 0;,
SSprod n_s432a false 3 [2] 1;,
SSprod n_s341a false 2 [3] 0;,
SSprod n_s143a false 0 [3] 2;,
SMemT n_preud (((EMemT n_e) *t (EMemT n_e)) /t (((((EUn D2T (EUn SqrtD (ELit (2 # 1)))) *t (EMemT n_MW)) *t (EMemT n_MW)) *t (EMemT n_SW)) *t (EMemT n_SW)));,
SMemT n_preW ((EMemT n_preud) /t ((EMemT n_MZ) *t (EMemT n_MZ)));,
SMemT n_gLu (((((EUn D2T (EUn NegD (ELit (2 # 1)))) *t (EMemT n_Qu)) *t (EMemT n_SW)) *t (EMemT n_SW)) +t (EUn D2T (ELit (1 # 1))));,
SMemT n_gRu ((((EUn D2T (EUn NegD (ELit (2 # 1)))) *t (EMemT n_Qu)) *t (EMemT n_SW)) *t (EMemT n_SW));,
SMemT n_gLd (((((EUn D2T (EUn NegD (ELit (2 # 1)))) *t (EMemT n_Qd)) *t (EMemT n_SW)) *t (EMemT n_SW)) -t (EUn D2T (ELit (1 # 1))));,
SMemT n_gRd ((((EUn D2T (EUn NegD (ELit (2 # 1)))) *t (EMemT n_Qd)) *t (EMemT n_SW)) *t (EMemT n_SW))).
(** WdZu::set_masses: SM/WdZu.cpp 66-81 *)
Definition WdZu_set_masses : meth := mkMeth n_set_masses [(n_massu, PkT); (n_massd, PkT); (n_massW, PkT)]
(SMemT n_mu (ELocT n_massu);,
SMemT n_md (ELocT n_massd);,
SMemT n_MW (ELocT n_massW);,
SMemT n_MZ ((EMemT n_MW) /t (EMemT n_CW));,
SSetMass 0 (EMemT n_MW);,
SSetMass 1 (EMemT n_md);,
SSetMass 2 (EMemT n_MZ);,
SSetMass 3 (EMemT n_mu);,
SPropMass n_propW (EMemT n_MW);,
SPropMass n_propu (EMemT n_mu);,
SPropMass n_propd (EMemT n_md);,
SMemT n_preud (((EMemT n_e) *t (EMemT n_e)) /t (((((EUn D2T (EUn SqrtD (ELit (2 # 1)))) *t (EMemT n_MW)) *t (EMemT n_MW)) *t (EMemT n_SW)) *t (EMemT n_SW)));,
SMemT n_preW ((EMemT n_preud) /t ((EMemT n_MZ) *t (EMemT n_MZ)))).
(** WdZu::set_momenta: SM/WdZu.cpp 82-113 *)
Definition WdZu_set_momenta : meth := mkMeth n_set_momenta [(n_mom1, PkMom); (n_mom2, PkMom); (n_mom3, PkMom); (n_mom4, PkMom)]
(SLoc rT n_one (EUn I2T (EInt 1));,
SLoc rT n_two (EUn I2T (EInt 2));,
SLoc rT n_three (EUn I2T (EInt 3));,
SSetMomentum 0 n_mom1;,
SSetMomentum 1 n_mom2;,
SSetMomentum 2 n_mom3;,
SSetMomentum 3 n_mom4;,
SUpdate n_a42a;,
SUpdate n_a43a;,
SUpdate n_a23a;,
SUpdate n_a21a;,
SUpdate n_a31a;,
SUpdate n_s42s;,
SUpdate n_s43s;,
SUpdate n_s41s;,
SUpdate n_s23s;,
SUpdate n_s31s;,
SUpdate n_s432a;,
SUpdate n_s341a;,
SUpdate n_s143a;,
SDeclT n_propSP 4;,
SDeclT n_propTP 4;,
SDeclT n_propUP 4;,
(SFor n_j (EInt 0) (EBin (CmpI CLt) (ELocI n_j) (EInt 4)) (EBin (OpI IAdd) (ELocI n_j) (EInt 1))
(SArrT n_propSP (AVar n_j) ((EArrT n_mom1 (AVar n_j)) +t (EArrT n_mom2 (AVar n_j)));,
SArrT n_propTP (AVar n_j) ((EArrT n_mom1 (AVar n_j)) -t (EArrT n_mom3 (AVar n_j)));,
SArrT n_propUP (AVar n_j) ((EArrT n_mom1 (AVar n_j)) -t (EArrT n_mom4 (AVar n_j)))));,
SMemC n_pDenS (EDen n_propu n_propSP);,
SMemC n_pDenT (EDen n_propW n_propTP);,
SMemC n_pDenU (EDen n_propd n_propUP)).
(** WdZu::amp: SM/WdZu.cpp 118-183 *)
Definition WdZu_amp : meth := mkMeth n_amp [(n_ds1, PkI); (n_ds2, PkI); (n_ds3, PkI); (n_ds4, PkI)]
(SLoc rT n_two (EUn I2T (EInt 2));,
SLoc rC n_amplitude (EBin OpTTC (EUn I2T (EInt 0)) (EUn I2T (EInt 0)));,
SDecl rI n_ds3a;,
SDecl rI n_ds3b;,
SDecl rI n_ds1a;,
SDecl rI n_ds1b;,
SLoc rI n_nCombs (ENLoops [(AVar n_ds3); (AVar n_ds1)]);,
SLoc rT n_normFactor (ENorm [(AVar n_ds3); (AVar n_ds1)]);,
(SFor n_i (EInt 0) (EBin (CmpI CLt) (ELocI n_i) (ELocI n_nCombs)) (EBin (OpI IAdd) (ELocI n_i) (EInt 1))
(SSpins [(n_ds3, n_ds3a, n_ds3b); (n_ds1, n_ds1a, n_ds1b)] (AVar n_i);,
SLoc rC n_amplitude ((ELocC n_amplitude) +c ((((EUn NegT (ELocT n_normFactor)) *t (EMemT n_preW)) *tc ((((((((ELocT n_two) *tc (((EMemT n_MZ) *tc (EV n_a31a [(AVar n_ds3a); (AVar n_ds1b)])) -c ((EMemT n_MW) *tc (EV n_s31s [(AVar n_ds3a); (AVar n_ds1b)])))) *ct (EMemT n_MW)) *ct (EMemT n_MW)) *c (EV n_a23a [(AVar n_ds2); (AVar n_ds3b)])) *c (EV n_s41s [(AVar n_ds4); (AVar n_ds1a)])) +c ((((((ELocT n_two) *tc (((EUn NegT (EMemT n_MW)) *tc (EV n_a31a [(AVar n_ds3a); (AVar n_ds1b)])) +c ((EMemT n_MZ) *tc (EV n_s31s [(AVar n_ds3a); (AVar n_ds1b)])))) *ct (EMemT n_MW)) *ct (EMemT n_MW)) *c (EV n_a21a [(AVar n_ds2); (AVar n_ds1a)])) *c (EV n_s43s [(AVar n_ds4); (AVar n_ds3b)]))) +c (((EV n_a31a [(AVar n_ds3a); (AVar n_ds1a)]) *c (EV n_s31s [(AVar n_ds3b); (AVar n_ds1b)])) *c ((((((ELocT n_two) *t (EMemT n_MW)) *t (EMemT n_MW)) -t ((EMemT n_MZ) *t (EMemT n_MZ))) *tc (((EMemT n_mu) *tc (EV n_a42a [(AVar n_ds4); (AVar n_ds2)])) +c ((EMemT n_md) *tc (EV n_s42s [(AVar n_ds4); (AVar n_ds2)])))) +c ((((ELocT n_two) *t (EMemT n_MW)) *t (EMemT n_MW)) *tc (EV n_s432a [(AVar n_ds4); (AVar n_ds2)])))))) /c (EMemC n_pDenT)));,
SLoc rC n_amplitude ((ELocC n_amplitude) +c (((((EUn NegT (ELocT n_normFactor)) *t (EMemT n_preud)) *tc (EV n_a21a [(AVar n_ds2); (AVar n_ds1a)])) *c (((((EMemT n_gRu) *t (EMemT n_mu)) *tc (EV n_a43a [(AVar n_ds4); (AVar n_ds3b)])) *c (EV n_s31s [(AVar n_ds3a); (AVar n_ds1b)])) +c (((EMemT n_gLu) *tc (EV n_s43s [(AVar n_ds4); (AVar n_ds3a)])) *c (((EMemT n_MZ) *tc (EV n_s31s [(AVar n_ds3b); (AVar n_ds1b)])) +c (EV n_s143a [(AVar n_ds1b); (AVar n_ds3b)]))))) /c (EMemC n_pDenS)));,
SLoc rC n_amplitude ((ELocC n_amplitude) +c (((((EUn NegT (ELocT n_normFactor)) *t (EMemT n_preud)) *tc (EV n_s41s [(AVar n_ds4); (AVar n_ds1a)])) *c (((((EMemT n_gRd) *t (EMemT n_md)) *tc (EV n_a31a [(AVar n_ds3a); (AVar n_ds1b)])) *c (EV n_s23s [(AVar n_ds2); (AVar n_ds3b)])) +c (((EMemT n_gLd) *tc (EV n_a23a [(AVar n_ds2); (AVar n_ds3a)])) *c (((EMemT n_MW) *tc (EV n_s31s [(AVar n_ds3b); (AVar n_ds1b)])) +c (EV n_s341a [(AVar n_ds3b); (AVar n_ds1b)]))))) /c (EMemC n_pDenU)))));,
SReturnC (ELocC n_amplitude)).
(** WdZu::amp2: SM/WdZu.cpp 186-203 *)
Definition WdZu_amp2 : meth := mkMeth n_amp2 []
(SLoc rT n_three (EUn I2T (EInt 3));,
SLoc rT n_amp2 (EUn I2T (EInt 0));,
SDecl rC n_M;,
(SFor n_j1 (EUn NegI (EInt 2)) (EBin (CmpI CLe) (ELocI n_j1) (EInt 2)) (EBin (OpI IAdd) (ELocI n_j1) (EInt 2))
(SFor n_j2 (EUn NegI (EInt 1)) (EBin (CmpI CLe) (ELocI n_j2) (EInt 1)) (EBin (OpI IAdd) (ELocI n_j2) (EInt 2))
(SFor n_j3 (EUn NegI (EInt 2)) (EBin (CmpI CLe) (ELocI n_j3) (EInt 2)) (EBin (OpI IAdd) (ELocI n_j3) (EInt 2))
(SFor n_j4 (EUn NegI (EInt 1)) (EBin (CmpI CLe) (ELocI n_j4) (EInt 1)) (EBin (OpI IAdd) (ELocI n_j4) (EInt 2))
(SLoc rC n_M (ECall n_amp [(AVar n_j1); (AVar n_j2); (AVar n_j3); (AVar n_j4)]);,
SLoc rT n_amp2 ((ELocT n_amp2) +t ((ELocT n_three) *t (EUn Pow2T (EUn AbsC (ELocC n_M))))))))));,
SReturnT ((ELocT n_amp2) /t (EUn D2T (ELit (18 # 1))))).
(** members: SM/include/WdZu.h 26-33; initialisers: SM/WdZu.cpp 32-33 *)
Definition WdZu : cls := mkCls "WdZu"
[(n_e, KT);
(n_Qu, KT);
(n_Qd, KT);
(n_gLu, KT);
(n_gRu, KT);
(n_gLd, KT);
(n_gRd, KT);
(n_mu, KT);
(n_md, KT);
(n_MW, KT);
(n_SW, KT);
(n_WW, KT);
(n_MZ, KT);
(n_CW, KT);
(n_preW, KT);
(n_preud, KT);
(n_p1, (KPart 0));
(n_p2, (KPart 1));
(n_p3, (KPart 2));
(n_p4, (KPart 3));
(n_propW, KProp);
(n_propu, KProp);
(n_propd, KProp);
(n_pDenS, KC);
(n_pDenT, KC);
(n_pDenU, KC);
(n_a42a, KSprod);
(n_a43a, KSprod);
(n_a23a, KSprod);
(n_a21a, KSprod);
(n_a31a, KSprod);
(n_s42s, KSprod);
(n_s43s, KSprod);
(n_s41s, KSprod);
(n_s23s, KSprod);
(n_s31s, KSprod);
(n_s432a, KSprod);
(n_s341a, KSprod);
(n_s143a, KSprod)]
[n_echarge; n_massu; n_massd; n_massW; n_sinW; n_widthW]
[(n_e, NT (ELocT n_echarge));
(n_Qu, NT (EUn D2T ((ELit (2 # 1)) /d (ELit (3 # 1)))));
(n_Qd, NT (EUn D2T ((EUn NegD (ELit (1 # 1))) /d (ELit (3 # 1)))));
(n_mu, NT (ELocT n_massu));
(n_md, NT (ELocT n_massd));
(n_MW, NT (ELocT n_massW));
(n_SW, NT (ELocT n_sinW));
(n_WW, NT (ELocT n_widthW))]
WdZu_ctor
[WdZu_set_masses; WdZu_set_momenta; WdZu_amp; WdZu_amp2].

(** ZWWh::ZWWh: SM/ZWWh.cpp 32-66 *)
Definition ZWWh_ctor : stmt :=
(SLoc rT n_two (EUn I2T (EInt 2));,
SMemT n_sqrt2 (EUn SqrtT (ELocT n_two));,
SMemT n_CW (EUn SqrtT ((EUn D2T (ELit (1 # 1))) -t ((ELocT n_sinW) *t (ELocT n_sinW))));,
SMemT n_MZ ((EMemT n_MW) /t (EMemT n_CW));,
SPropNew n_propW (EMemT n_MW) (EMemT n_WW);,
SPropNew n_propZ (EMemT n_MZ) (EMemT n_WZ);,
SParticle 0 (EMemT n_MZ);,
SParticle 1 (EMemT n_MW);,
SParticle 2 (EMemT n_MW);,
SParticle 3 (EMemT n_mh);,
SSprod n_s23s false 1 [] 2;,
SSprod n_a23a true 1 [] 2;,
SSprod n_s12s false 0 [] 1;,
SSprod n_a12a true 0 [] 1;,
SSprod n_s13s false 0 [] 2;,
SSprod n_a13a true 0 [] 2;,
SSprod n_s131a false 0 [2] 0;,
SSprod n_s121a false 0 [1] 0;,
SSprod n_s231a false 1 [2] 0;,
SSprod n_s242a false 1 [3] 1;,
SSprod n_s321a false 2 [1] 0;,
SSprod n_s343a false 2 [3] 2;,
SSprod n_s143a false 0 [3] 2;,
SSprod n_s142a false 0 [3] 1;,
SSprod n_s341a false 2 [3] 0;,
SSprod n_s241a false 1 [3] 0;,
SMemT n_pre ((((EMemT n_sqrt2) *t (EMemT n_e)) *t (EMemT n_e)) /t (((((EUn D2T (ELit (2 # 1))) *t (EMemT n_MW)) *t (EMemT n_MW)) *t (EMemT n_SW)) *t (EMemT n_SW)));,
SMemT n_preS (EMemT n_pre);,
SMemT n_preTU ((EMemT n_pre) /t ((EMemT n_MZ) *t (EMemT n_MZ)))).
(** ZWWh::set_masses: SM/ZWWh.cpp 67-80 *)
Definition ZWWh_set_masses : meth := mkMeth n_set_masses [(n_massh, PkT); (n_massW, PkT)]
(SMemT n_mh (ELocT n_massh);,
SMemT n_MW (ELocT n_massW);,
SMemT n_MZ ((EMemT n_MW) /t (EMemT n_CW));,
SSetMass 0 (EMemT n_MZ);,
SSetMass 1 (EMemT n_MW);,
SSetMass 2 (EMemT n_MW);,
SSetMass 3 (EMemT n_mh);,
SPropMass n_propW (EMemT n_MW);,
SMemT n_pre ((((EMemT n_sqrt2) *t (EMemT n_e)) *t (EMemT n_e)) /t (((((EUn D2T (ELit (2 # 1))) *t (EMemT n_MW)) *t (EMemT n_MW)) *t (EMemT n_SW)) *t (EMemT n_SW)));,
SMemT n_preS (EMemT n_pre);,
SMemT n_preTU ((EMemT n_pre) /t ((EMemT n_MZ) *t (EMemT n_MZ)))).
(** ZWWh::set_momenta: SM/ZWWh.cpp 81-115 *)
Definition ZWWh_set_momenta : meth := mkMeth n_set_momenta [(n_mom1, PkMom); (n_mom2, PkMom); (n_mom3, PkMom); (n_mom4, PkMom)]
(SSetMomentum 0 n_mom1;,
SSetMomentum 1 n_mom2;,
SSetMomentum 2 n_mom3;,
SSetMomentum 3 n_mom4;,
SUpdate n_s23s;,
SUpdate n_a23a;,
SUpdate n_s12s;,
SUpdate n_a12a;,
SUpdate n_s13s;,
SUpdate n_a13a;,
SUpdate n_s131a;,
SUpdate n_s121a;,
SUpdate n_s231a;,
SUpdate n_s242a;,
SUpdate n_s321a;,
SUpdate n_s343a;,
SUpdate n_s143a;,
SUpdate n_s142a;,
SUpdate n_s341a;,
SUpdate n_s241a;,
SDeclT n_propSP 4;,
SDeclT n_propTP 4;,
SDeclT n_propUP 4;,
(SFor n_j (EInt 0) (EBin (CmpI CLt) (ELocI n_j) (EInt 4)) (EBin (OpI IAdd) (ELocI n_j) (EInt 1))
(SArrT n_propSP (AVar n_j) ((EArrT n_mom1 (AVar n_j)) +t (EArrT n_mom2 (AVar n_j)));,
SArrT n_propTP (AVar n_j) ((EArrT n_mom1 (AVar n_j)) -t (EArrT n_mom3 (AVar n_j)));,
SArrT n_propUP (AVar n_j) ((EArrT n_mom1 (AVar n_j)) -t (EArrT n_mom4 (AVar n_j)))));,
SMemC n_pDenS (EDen n_propW n_propSP);,
SMemC n_pDenT (EDen n_propW n_propTP);,
SMemC n_pDenU (EDen n_propZ n_propUP)).
(** ZWWh::amp: SM/ZWWh.cpp 120-181 *)
Definition ZWWh_amp : meth := mkMeth n_amp [(n_ds1, PkI); (n_ds2, PkI); (n_ds3, PkI)]
(SLoc rC n_amplitude (EBin OpTTC (EUn I2T (EInt 0)) (EUn I2T (EInt 0)));,
SLoc rT n_one (EUn I2T (EInt 1));,
SDecl rI n_ds1a;,
SDecl rI n_ds1b;,
SDecl rI n_ds3a;,
SDecl rI n_ds3b;,
SDecl rI n_ds2a;,
SDecl rI n_ds2b;,
SLoc rI n_nCombs (ENLoops [(AVar n_ds1); (AVar n_ds3); (AVar n_ds2)]);,
SLoc rT n_normFactor (ENorm [(AVar n_ds1); (AVar n_ds3); (AVar n_ds2)]);,
(SFor n_i (EInt 0) (EBin (CmpI CLt) (ELocI n_i) (ELocI n_nCombs)) (EBin (OpI IAdd) (ELocI n_i) (EInt 1))
(SSpins [(n_ds1, n_ds1a, n_ds1b); (n_ds3, n_ds3a, n_ds3b); (n_ds2, n_ds2a, n_ds2b)] (AVar n_i);,
SLoc rC n_amplitude ((ELocC n_amplitude) +c ((((ELocT n_normFactor) *t (EMemT n_preS)) *tc ((((EUn NegC (EV n_s23s [(AVar n_ds2a); (AVar n_ds3a)])) *c (EV n_a23a [(AVar n_ds2b); (AVar n_ds3b)])) *c ((EV n_s131a [(AVar n_ds1a); (AVar n_ds1b)]) +c (EV n_s121a [(AVar n_ds1a); (AVar n_ds1b)]))) +c ((((EUn I2T (EInt 2)) *t (EMemT n_MW)) *tc (((EV n_s13s [(AVar n_ds1a); (AVar n_ds3a)]) *c (EV n_a12a [(AVar n_ds1b); (AVar n_ds2a)])) -c ((EV n_s12s [(AVar n_ds1a); (AVar n_ds2a)]) *c (EV n_a13a [(AVar n_ds1b); (AVar n_ds3a)])))) *c ((EV n_s23s [(AVar n_ds2b); (AVar n_ds3b)]) -c (EV n_a23a [(AVar n_ds2b); (AVar n_ds3b)]))))) /c (EMemC n_pDenU)));,
SLoc rC n_amplitude ((ELocC n_amplitude) +c ((((ELocT n_normFactor) *t (EMemT n_preTU)) *tc ((((((((((EUn D2T (ELit (2 # 1))) *t (EMemT n_MW)) *t (EMemT n_MW)) *tc (EV n_s13s [(AVar n_ds1a); (AVar n_ds3a)])) *c (EV n_a23a [(AVar n_ds2a); (AVar n_ds3b)])) *c (EV n_s231a [(AVar n_ds2b); (AVar n_ds1b)])) +c (((((EMemT n_MZ) *t (EMemT n_MZ)) *tc (EV n_s13s [(AVar n_ds1a); (AVar n_ds3a)])) *c (EV n_a13a [(AVar n_ds1b); (AVar n_ds3b)])) *c (EV n_s242a [(AVar n_ds2a); (AVar n_ds2b)]))) +c (((((((EUn D2T (ELit (2 # 1))) *t (EMemT n_MW)) *t (EMemT n_MW)) *t (EMemT n_MW)) *tc (EV n_s12s [(AVar n_ds1a); (AVar n_ds2a)])) *c (EV n_a13a [(AVar n_ds1b); (AVar n_ds3a)])) *c (EV n_a23a [(AVar n_ds2b); (AVar n_ds3b)]))) -c (((((((EUn D2T (ELit (2 # 1))) *t (EMemT n_MW)) *t (EMemT n_MW)) *t (EMemT n_MZ)) *tc (EV n_s13s [(AVar n_ds1a); (AVar n_ds3a)])) *c (EV n_s12s [(AVar n_ds1b); (AVar n_ds2a)])) *c (EV n_a23a [(AVar n_ds2b); (AVar n_ds3b)]))) -c (((((((EUn D2T (ELit (2 # 1))) *t (EMemT n_MW)) *t (EMemT n_MW)) *t (EMemT n_MZ)) *tc (EV n_a13a [(AVar n_ds1a); (AVar n_ds3a)])) *c (EV n_a12a [(AVar n_ds1b); (AVar n_ds2a)])) *c (EV n_s23s [(AVar n_ds2b); (AVar n_ds3b)])))) /c (EMemC n_pDenT)));,
SLoc rC n_amplitude ((ELocC n_amplitude) +c ((((EUn NegT (ELocT n_normFactor)) *t (EMemT n_preTU)) *tc ((((((((((EUn D2T (ELit (2 # 1))) *t (EMemT n_MW)) *t (EMemT n_MW)) *tc (EV n_s12s [(AVar n_ds1a); (AVar n_ds2a)])) *c (EV n_a23a [(AVar n_ds2b); (AVar n_ds3a)])) *c (EV n_s321a [(AVar n_ds3b); (AVar n_ds1b)])) +c (((((EMemT n_MZ) *t (EMemT n_MZ)) *tc (EV n_s12s [(AVar n_ds1a); (AVar n_ds2a)])) *c (EV n_a12a [(AVar n_ds1b); (AVar n_ds2b)])) *c (EV n_s343a [(AVar n_ds3a); (AVar n_ds3b)]))) +c (((((((EUn D2T (ELit (2 # 1))) *t (EMemT n_MW)) *t (EMemT n_MW)) *t (EMemT n_MW)) *tc (EV n_s13s [(AVar n_ds1a); (AVar n_ds3a)])) *c (EV n_a12a [(AVar n_ds1b); (AVar n_ds2a)])) *c (EV n_a23a [(AVar n_ds2b); (AVar n_ds3b)]))) +c (((((((EUn D2T (ELit (2 # 1))) *t (EMemT n_MW)) *t (EMemT n_MW)) *t (EMemT n_MZ)) *tc (EV n_s12s [(AVar n_ds1a); (AVar n_ds2a)])) *c (EV n_s13s [(AVar n_ds1b); (AVar n_ds3a)])) *c (EV n_a23a [(AVar n_ds2b); (AVar n_ds3b)]))) +c (((((((EUn D2T (ELit (2 # 1))) *t (EMemT n_MW)) *t (EMemT n_MW)) *t (EMemT n_MZ)) *tc (EV n_a12a [(AVar n_ds1a); (AVar n_ds2a)])) *c (EV n_a13a [(AVar n_ds1b); (AVar n_ds3a)])) *c (EV n_s23s [(AVar n_ds2b); (AVar n_ds3b)])))) /c (EMemC n_pDenS)))));,
SReturnC (ELocC n_amplitude)).
(** ZWWh::amp2: SM/ZWWh.cpp 184-197 *)
Definition ZWWh_amp2 : meth := mkMeth n_amp2 []
(SLoc rT n_amp2 (EUn I2T (EInt 0));,
SDecl rC n_M;,
(SFor n_j1 (EUn NegI (EInt 2)) (EBin (CmpI CLe) (ELocI n_j1) (EInt 2)) (EBin (OpI IAdd) (ELocI n_j1) (EInt 2))
(SFor n_j2 (EUn NegI (EInt 2)) (EBin (CmpI CLe) (ELocI n_j2) (EInt 2)) (EBin (OpI IAdd) (ELocI n_j2) (EInt 2))
(SFor n_j3 (EUn NegI (EInt 2)) (EBin (CmpI CLe) (ELocI n_j3) (EInt 2)) (EBin (OpI IAdd) (ELocI n_j3) (EInt 2))
(SLoc rC n_M (ECall n_amp [(AVar n_j1); (AVar n_j2); (AVar n_j3)]);,
SLoc rT n_amp2 ((ELocT n_amp2) +t (EUn Pow2T (EUn AbsC (ELocC n_M))))))));,
SReturnT ((ELocT n_amp2) /t (EUn D2T (ELit (9 # 1))))).
(** members: SM/include/ZWWh.h 26-36; initialisers: SM/ZWWh.cpp 32-33 *)
Definition ZWWh : cls := mkCls "ZWWh"
[(n_e, KT);
(n_mh, KT);
(n_MW, KT);
(n_MZ, KT);
(n_SW, KT);
(n_CW, KT);
(n_WW, KT);
(n_WZ, KT);
(n_p1, (KPart 0));
(n_p2, (KPart 1));
(n_p3, (KPart 2));
(n_p4, (KPart 3));
(n_propW, KProp);
(n_propZ, KProp);
(n_pDenS, KC);
(n_pDenT, KC);
(n_pDenU, KC);
(n_a23a, KSprod);
(n_s23s, KSprod);
(n_a12a, KSprod);
(n_s12s, KSprod);
(n_a13a, KSprod);
(n_s13s, KSprod);
(n_s131a, KSprod);
(n_s121a, KSprod);
(n_s231a, KSprod);
(n_s242a, KSprod);
(n_s321a, KSprod);
(n_s343a, KSprod);
(n_s143a, KSprod);
(n_s142a, KSprod);
(n_s341a, KSprod);
(n_s241a, KSprod);
(n_sqrt2, KT);
(n_pre, KT);
(n_preS, KT);
(n_preTU, KT)]
[n_echarge; n_massh; n_massW; n_sinW; n_widthW; n_widthZ]
[(n_e, NT (ELocT n_echarge));
(n_mh, NT (ELocT n_massh));
(n_MW, NT (ELocT n_massW));
(n_SW, NT (ELocT n_sinW));
(n_CW, NT (EUn SqrtT ((EUn D2T (ELit (1 # 1))) -t ((ELocT n_sinW) *t (ELocT n_sinW)))));
(n_WW, NT (ELocT n_widthW));
(n_WZ, NT (ELocT n_widthZ))]
ZWWh_ctor
[ZWWh_set_masses; ZWWh_set_momenta; ZWWh_amp; ZWWh_amp2].

(** ZWZW::ZWZW: SM/ZWZW.cpp 32-63 *)
Definition ZWZW_ctor : stmt :=
(SMemT n_CW (EUn SqrtT ((EUn D2T (ELit (1 # 1))) -t ((ELocT n_sinW) *t (ELocT n_sinW))));,
SMemT n_MZ ((EMemT n_MW) /t (EMemT n_CW));,
SPropNew n_proph (EMemT n_mh) (EMemT n_wh);,
SPropNew n_propW (EMemT n_MW) (EMemT n_WW);,
SParticle 0 (EMemT n_MZ);,
SParticle 1 (EMemT n_MW);,
SParticle 2 (EMemT n_MZ);,
SParticle 3 (EMemT n_MW);,
SSprod n_s13s false 0 [] 2;,
SSprod n_a13a true 0 [] 2;,
SSprod n_s42s false 3 [] 1;,
SSprod n_a42a true 3 [] 1;,
SSprod n_s34s false 2 [] 3;,
SSprod n_a34a true 2 [] 3;,
SSprod n_s32s false 2 [] 1;,
SSprod n_a32a true 2 [] 1;,
SSprod n_s12s false 0 [] 1;,
SSprod n_a12a true 0 [] 1;,
SSprod n_s14s false 0 [] 3;,
SSprod n_a14a true 0 [] 3;,
SSprod n_s241a false 1 [3] 0;,
SSprod n_s142a false 0 [3] 1;,
SSprod n_s421a false 3 [1] 0;,
SSprod n_s124a false 0 [1] 3;,
SMemT n_preh (((EMemT n_e) *t (EMemT n_e)) /t ((((EMemT n_MW) *t (EMemT n_MW)) *t (EMemT n_SW)) *t (EMemT n_SW)));,
SMemT n_preW (((EMemT n_e) *t (EMemT n_e)) /t ((((((EUn D2T (ELit (2 # 1))) *t (EMemT n_MW)) *t (EMemT n_MW)) *t (EMemT n_MW)) *t (EMemT n_SW)) *t (EMemT n_SW)))).
(** ZWZW::set_masses: SM/ZWZW.cpp 64-77 *)
Definition ZWZW_set_masses : meth := mkMeth n_set_masses [(n_massh, PkT); (n_massW, PkT)]
(SMemT n_mh (ELocT n_massh);,
SMemT n_MW (ELocT n_massW);,
SMemT n_MZ ((EMemT n_MW) /t (EMemT n_CW));,
SSetMass 0 (EMemT n_MZ);,
SSetMass 1 (EMemT n_MW);,
SSetMass 2 (EMemT n_MZ);,
SSetMass 3 (EMemT n_MW);,
SPropMass n_proph (EMemT n_mh);,
SPropMass n_propW (EMemT n_MW);,
SMemT n_preh (((EMemT n_e) *t (EMemT n_e)) /t ((((EMemT n_MW) *t (EMemT n_MW)) *t (EMemT n_SW)) *t (EMemT n_SW)));,
SMemT n_preW (((EMemT n_e) *t (EMemT n_e)) /t ((((((EUn D2T (ELit (2 # 1))) *t (EMemT n_MW)) *t (EMemT n_MW)) *t (EMemT n_MW)) *t (EMemT n_SW)) *t (EMemT n_SW)))).
(** ZWZW::set_momenta: SM/ZWZW.cpp 78-112 *)
Definition ZWZW_set_momenta : meth := mkMeth n_set_momenta [(n_mom1, PkMom); (n_mom2, PkMom); (n_mom3, PkMom); (n_mom4, PkMom)]
(SSetMomentum 0 n_mom1;,
SSetMomentum 1 n_mom2;,
SSetMomentum 2 n_mom3;,
SSetMomentum 3 n_mom4;,
SUpdate n_s13s;,
SUpdate n_a13a;,
SUpdate n_s42s;,
SUpdate n_a42a;,
SUpdate n_s34s;,
SUpdate n_a34a;,
SUpdate n_s32s;,
SUpdate n_a32a;,
SUpdate n_s12s;,
SUpdate n_a12a;,
SUpdate n_s14s;,
SUpdate n_a14a;,
SUpdate n_s241a;,
SUpdate n_s142a;,
SUpdate n_s421a;,
SUpdate n_s124a;,
SDeclT n_propSP 4;,
SDeclT n_propTP 4;,
SDeclT n_propUP 4;,
(SFor n_j (EInt 0) (EBin (CmpI CLt) (ELocI n_j) (EInt 4)) (EBin (OpI IAdd) (ELocI n_j) (EInt 1))
(SArrT n_propSP (AVar n_j) ((EArrT n_mom1 (AVar n_j)) +t (EArrT n_mom2 (AVar n_j)));,
SArrT n_propTP (AVar n_j) ((EArrT n_mom1 (AVar n_j)) -t (EArrT n_mom3 (AVar n_j)));,
SArrT n_propUP (AVar n_j) ((EArrT n_mom1 (AVar n_j)) -t (EArrT n_mom4 (AVar n_j)))));,
SMemC n_pDenS (EDen n_propW n_propSP);,
SMemC n_pDenT (EDen n_proph n_propTP);,
SMemC n_pDenU (EDen n_propW n_propUP)).
(** ZWZW::amp: SM/ZWZW.cpp 117-211 *)
Definition ZWZW_amp : meth := mkMeth n_amp [(n_ds1, PkI); (n_ds2, PkI); (n_ds3, PkI); (n_ds4, PkI)]
(SLoc rC n_amplitude (EBin OpTTC (EUn I2T (EInt 0)) (EUn I2T (EInt 0)));,
SLoc rT n_one (EUn I2T (EInt 1));,
SLoc rT n_two (EUn I2T (EInt 2));,
SLoc rT n_three (EUn I2T (EInt 3));,
SLoc rT n_four (EUn I2T (EInt 4));,
SLoc rT n_six (EUn I2T (EInt 6));,
SDecl rI n_ds1a;,
SDecl rI n_ds1b;,
SDecl rI n_ds2a;,
SDecl rI n_ds2b;,
SDecl rI n_ds3a;,
SDecl rI n_ds3b;,
SDecl rI n_ds4a;,
SDecl rI n_ds4b;,
SLoc rI n_nCombs (ENLoops [(AVar n_ds1); (AVar n_ds2); (AVar n_ds3); (AVar n_ds4)]);,
SLoc rT n_normFactor (ENorm [(AVar n_ds1); (AVar n_ds2); (AVar n_ds3); (AVar n_ds4)]);,
(SFor n_i (EInt 0) (EBin (CmpI CLt) (ELocI n_i) (ELocI n_nCombs)) (EBin (OpI IAdd) (ELocI n_i) (EInt 1))
(SSpins [(n_ds1, n_ds1a, n_ds1b); (n_ds2, n_ds2a, n_ds2b); (n_ds3, n_ds3a, n_ds3b); (n_ds4, n_ds4a, n_ds4b)] (AVar n_i);,
SLoc rC n_amplitude ((ELocC n_amplitude) +c (((((((ELocT n_normFactor) *t (EMemT n_preh)) *tc (EV n_s13s [(AVar n_ds1a); (AVar n_ds3a)])) *c (EV n_a13a [(AVar n_ds1b); (AVar n_ds3b)])) *c (EV n_s42s [(AVar n_ds4a); (AVar n_ds2a)])) *c (EV n_a42a [(AVar n_ds4b); (AVar n_ds2b)])) /c (EMemC n_pDenT)));,
SLoc rC n_amplitude ((ELocC n_amplitude) +c ((((ELocT n_normFactor) *t (EMemT n_preW)) *tc (((((((((ELocT n_two) *t (EMemT n_MW)) *tc (EV n_a14a [(AVar n_ds1a); (AVar n_ds4a)])) *c (EV n_a32a [(AVar n_ds3a); (AVar n_ds2a)])) *c (EV n_s14s [(AVar n_ds1b); (AVar n_ds4b)])) *c (EV n_s32s [(AVar n_ds3b); (AVar n_ds2b)])) +c (((((((((((((EUn NegT (ELocT n_four)) *t (EMemT n_MW)) *tc (EV n_a34a [(AVar n_ds3a); (AVar n_ds4a)])) *c (EV n_a32a [(AVar n_ds3b); (AVar n_ds2a)])) *c (EV n_s12s [(AVar n_ds1a); (AVar n_ds2b)])) *c (EV n_s14s [(AVar n_ds1b); (AVar n_ds4b)])) +c ((((((ELocT n_two) *t (EMemT n_MW)) *tc (EV n_a13a [(AVar n_ds1a); (AVar n_ds3b)])) *c (EV n_a42a [(AVar n_ds4a); (AVar n_ds2a)])) *c (EV n_s14s [(AVar n_ds1b); (AVar n_ds4b)])) *c (EV n_s32s [(AVar n_ds3a); (AVar n_ds2b)]))) +c ((((((ELocT n_three) *t (EMemT n_MW)) *tc (EV n_a12a [(AVar n_ds1a); (AVar n_ds2b)])) *c (EV n_a34a [(AVar n_ds3a); (AVar n_ds4a)])) *c (EV n_s14s [(AVar n_ds1b); (AVar n_ds4b)])) *c (EV n_s32s [(AVar n_ds3b); (AVar n_ds2a)]))) -c ((((((ELocT n_four) *t (EMemT n_MW)) *tc (EV n_a12a [(AVar n_ds1a); (AVar n_ds2b)])) *c (EV n_a14a [(AVar n_ds1b); (AVar n_ds4a)])) *c (EV n_s34s [(AVar n_ds3a); (AVar n_ds4b)])) *c (EV n_s32s [(AVar n_ds3b); (AVar n_ds2a)]))) -c ((((((ELocT n_six) *t (EMemT n_MW)) *tc (EV n_a14a [(AVar n_ds1a); (AVar n_ds4a)])) *c (EV n_a32a [(AVar n_ds3a); (AVar n_ds2a)])) *c (EV n_s14s [(AVar n_ds1b); (AVar n_ds4b)])) *c (EV n_s32s [(AVar n_ds3b); (AVar n_ds2b)]))) +c ((((((ELocT n_three) *t (EMemT n_MW)) *tc (EV n_a14a [(AVar n_ds1a); (AVar n_ds4a)])) *c (EV n_a32a [(AVar n_ds3a); (AVar n_ds2a)])) *c (EV n_s12s [(AVar n_ds1b); (AVar n_ds2b)])) *c (EV n_s34s [(AVar n_ds3b); (AVar n_ds4b)]))) *ct (EMemT n_CW)) *ct (EMemT n_CW))) +c ((((((((((((((((((ELocT n_three) *t (EMemT n_MW)) *tc (EV n_a14a [(AVar n_ds1a); (AVar n_ds4a)])) *c (EV n_a34a [(AVar n_ds3a); (AVar n_ds4b)])) *c (EV n_a32a [(AVar n_ds3b); (AVar n_ds2a)])) *c (EV n_s12s [(AVar n_ds1b); (AVar n_ds2b)])) -c ((((((ELocT n_four) *t (EMemT n_MW)) *tc (EV n_a32a [(AVar n_ds3a); (AVar n_ds2a)])) *c (EV n_a42a [(AVar n_ds4a); (AVar n_ds2b)])) *c (EV n_s13s [(AVar n_ds1a); (AVar n_ds3b)])) *c (EV n_s14s [(AVar n_ds1b); (AVar n_ds4b)]))) -c ((((((ELocT n_three) *t (EMemT n_MW)) *tc (EV n_a12a [(AVar n_ds1a); (AVar n_ds2b)])) *c (EV n_a14a [(AVar n_ds1b); (AVar n_ds4a)])) *c (EV n_a34a [(AVar n_ds3a); (AVar n_ds4b)])) *c (EV n_s32s [(AVar n_ds3b); (AVar n_ds2a)]))) +c (((((EMemT n_MW) *tc (EV n_a12a [(AVar n_ds1a); (AVar n_ds2b)])) *c (EV n_s14s [(AVar n_ds1b); (AVar n_ds4a)])) *c (EV n_s34s [(AVar n_ds3a); (AVar n_ds4b)])) *c (EV n_s32s [(AVar n_ds3b); (AVar n_ds2a)]))) -c (((((EMemT n_MW) *tc (EV n_a32a [(AVar n_ds3a); (AVar n_ds2a)])) *c (EV n_s12s [(AVar n_ds1a); (AVar n_ds2b)])) *c (EV n_s14s [(AVar n_ds1b); (AVar n_ds4a)])) *c (EV n_s34s [(AVar n_ds3b); (AVar n_ds4b)]))) -c ((((((ELocT n_four) *t (EMemT n_MW)) *tc (EV n_a13a [(AVar n_ds1a); (AVar n_ds3b)])) *c (EV n_a14a [(AVar n_ds1b); (AVar n_ds4b)])) *c (EV n_s32s [(AVar n_ds3a); (AVar n_ds2a)])) *c (EV n_s42s [(AVar n_ds4a); (AVar n_ds2b)]))) -c ((((EV n_a34a [(AVar n_ds3a); (AVar n_ds4a)]) *c (EV n_s14s [(AVar n_ds1a); (AVar n_ds4b)])) *c (EV n_s32s [(AVar n_ds3b); (AVar n_ds2a)])) *c (EV n_s142a [(AVar n_ds1b); (AVar n_ds2b)]))) +c ((((EV n_a14a [(AVar n_ds1a); (AVar n_ds4a)]) *c (EV n_s34s [(AVar n_ds3a); (AVar n_ds4b)])) *c (EV n_s32s [(AVar n_ds3b); (AVar n_ds2a)])) *c (EV n_s142a [(AVar n_ds1b); (AVar n_ds2b)]))) +c (((((ELocT n_three) *tc (EV n_a34a [(AVar n_ds3a); (AVar n_ds4a)])) *c (EV n_a32a [(AVar n_ds3b); (AVar n_ds2a)])) *c (EV n_s14s [(AVar n_ds1a); (AVar n_ds4b)])) *c (EV n_s241a [(AVar n_ds2b); (AVar n_ds1b)]))) -c (((((ELocT n_three) *tc (EV n_a14a [(AVar n_ds1a); (AVar n_ds4a)])) *c (EV n_a32a [(AVar n_ds3a); (AVar n_ds2a)])) *c (EV n_s34s [(AVar n_ds3b); (AVar n_ds4b)])) *c (EV n_s241a [(AVar n_ds2b); (AVar n_ds1b)]))) *ct (EMemT n_CW)) *ct (EMemT n_CW)) *ct (EMemT n_CW))) +c (((((((((((((((((((EUn NegT (ELocT n_two)) *t (EMemT n_MW)) *tc (EV n_a13a [(AVar n_ds1a); (AVar n_ds3b)])) *c (EV n_a42a [(AVar n_ds4a); (AVar n_ds2a)])) *c (EV n_s14s [(AVar n_ds1b); (AVar n_ds4b)])) *c (EV n_s32s [(AVar n_ds3a); (AVar n_ds2b)])) -c (((((EMemT n_MW) *tc (EV n_a14a [(AVar n_ds1a); (AVar n_ds4a)])) *c (EV n_a34a [(AVar n_ds3a); (AVar n_ds4b)])) *c (EV n_s12s [(AVar n_ds1b); (AVar n_ds2b)])) *c (EV n_s32s [(AVar n_ds3b); (AVar n_ds2a)]))) +c (((((EMemT n_MW) *tc (EV n_a12a [(AVar n_ds1a); (AVar n_ds2b)])) *c (EV n_a34a [(AVar n_ds3a); (AVar n_ds4a)])) *c (EV n_s14s [(AVar n_ds1b); (AVar n_ds4b)])) *c (EV n_s32s [(AVar n_ds3b); (AVar n_ds2a)]))) +c ((((((ELocT n_two) *t (EMemT n_MW)) *tc (EV n_a14a [(AVar n_ds1a); (AVar n_ds4a)])) *c (EV n_a32a [(AVar n_ds3a); (AVar n_ds2a)])) *c (EV n_s14s [(AVar n_ds1b); (AVar n_ds4b)])) *c (EV n_s32s [(AVar n_ds3b); (AVar n_ds2b)]))) +c (((((EMemT n_MW) *tc (EV n_a14a [(AVar n_ds1a); (AVar n_ds4a)])) *c (EV n_a32a [(AVar n_ds3a); (AVar n_ds2a)])) *c (EV n_s12s [(AVar n_ds1b); (AVar n_ds2b)])) *c (EV n_s34s [(AVar n_ds3b); (AVar n_ds4b)]))) -c ((((((ELocT n_three) *t (EMemT n_MW)) *tc (EV n_a12a [(AVar n_ds1a); (AVar n_ds2b)])) *c (EV n_a32a [(AVar n_ds3a); (AVar n_ds2a)])) *c (EV n_s14s [(AVar n_ds1b); (AVar n_ds4a)])) *c (EV n_s34s [(AVar n_ds3b); (AVar n_ds4b)]))) +c (((((ELocT n_three) *tc (EV n_a14a [(AVar n_ds1a); (AVar n_ds4a)])) *c (EV n_a34a [(AVar n_ds3a); (AVar n_ds4b)])) *c (EV n_s32s [(AVar n_ds3b); (AVar n_ds2a)])) *c (EV n_s142a [(AVar n_ds1b); (AVar n_ds2b)]))) -c (((((ELocT n_three) *tc (EV n_a14a [(AVar n_ds1a); (AVar n_ds4a)])) *c (EV n_a32a [(AVar n_ds3a); (AVar n_ds2a)])) *c (EV n_s34s [(AVar n_ds3b); (AVar n_ds4b)])) *c (EV n_s142a [(AVar n_ds1b); (AVar n_ds2b)]))) -c ((((EV n_a34a [(AVar n_ds3a); (AVar n_ds4a)]) *c (EV n_s14s [(AVar n_ds1a); (AVar n_ds4b)])) *c (EV n_s32s [(AVar n_ds3b); (AVar n_ds2a)])) *c (EV n_s241a [(AVar n_ds2b); (AVar n_ds1b)]))) +c ((((EV n_a32a [(AVar n_ds3a); (AVar n_ds2a)]) *c (EV n_s14s [(AVar n_ds1a); (AVar n_ds4a)])) *c (EV n_s34s [(AVar n_ds3b); (AVar n_ds4b)])) *c (EV n_s241a [(AVar n_ds2b); (AVar n_ds1b)]))) *ct (EMemT n_CW)) *ct (EMemT n_CW)) *ct (EMemT n_CW)) *ct (EMemT n_CW)))) /c (EMemC n_pDenU)));,
SLoc rC n_amplitude ((ELocC n_amplitude) +c ((((ELocT n_normFactor) *t (EMemT n_preW)) *tc (((((((((ELocT n_two) *t (EMemT n_MW)) *tc (EV n_a12a [(AVar n_ds1a); (AVar n_ds2a)])) *c (EV n_a34a [(AVar n_ds3a); (AVar n_ds4a)])) *c (EV n_s12s [(AVar n_ds1b); (AVar n_ds2b)])) *c (EV n_s34s [(AVar n_ds3b); (AVar n_ds4b)])) +c (((((((((((((EUn NegT (ELocT n_four)) *t (EMemT n_MW)) *tc (EV n_a34a [(AVar n_ds3a); (AVar n_ds4a)])) *c (EV n_a32a [(AVar n_ds3b); (AVar n_ds2a)])) *c (EV n_s12s [(AVar n_ds1a); (AVar n_ds2b)])) *c (EV n_s14s [(AVar n_ds1b); (AVar n_ds4b)])) -c ((((((ELocT n_two) *t (EMemT n_MW)) *tc (EV n_a13a [(AVar n_ds1a); (AVar n_ds3b)])) *c (EV n_a42a [(AVar n_ds4a); (AVar n_ds2a)])) *c (EV n_s12s [(AVar n_ds1b); (AVar n_ds2b)])) *c (EV n_s34s [(AVar n_ds3a); (AVar n_ds4b)]))) +c ((((((ELocT n_three) *t (EMemT n_MW)) *tc (EV n_a12a [(AVar n_ds1a); (AVar n_ds2b)])) *c (EV n_a34a [(AVar n_ds3a); (AVar n_ds4a)])) *c (EV n_s14s [(AVar n_ds1b); (AVar n_ds4b)])) *c (EV n_s32s [(AVar n_ds3b); (AVar n_ds2a)]))) -c ((((((ELocT n_four) *t (EMemT n_MW)) *tc (EV n_a12a [(AVar n_ds1a); (AVar n_ds2b)])) *c (EV n_a14a [(AVar n_ds1b); (AVar n_ds4a)])) *c (EV n_s34s [(AVar n_ds3a); (AVar n_ds4b)])) *c (EV n_s32s [(AVar n_ds3b); (AVar n_ds2a)]))) +c ((((((ELocT n_three) *t (EMemT n_MW)) *tc (EV n_a14a [(AVar n_ds1a); (AVar n_ds4a)])) *c (EV n_a32a [(AVar n_ds3a); (AVar n_ds2a)])) *c (EV n_s12s [(AVar n_ds1b); (AVar n_ds2b)])) *c (EV n_s34s [(AVar n_ds3b); (AVar n_ds4b)]))) -c ((((((ELocT n_six) *t (EMemT n_MW)) *tc (EV n_a12a [(AVar n_ds1a); (AVar n_ds2a)])) *c (EV n_a34a [(AVar n_ds3a); (AVar n_ds4a)])) *c (EV n_s12s [(AVar n_ds1b); (AVar n_ds2b)])) *c (EV n_s34s [(AVar n_ds3b); (AVar n_ds4b)]))) *ct (EMemT n_CW)) *ct (EMemT n_CW))) +c ((((((((((((((((((EUn NegT (ELocT n_four)) *t (EMemT n_MW)) *tc (EV n_a34a [(AVar n_ds3a); (AVar n_ds4b)])) *c (EV n_a42a [(AVar n_ds4a); (AVar n_ds2a)])) *c (EV n_s12s [(AVar n_ds1a); (AVar n_ds2b)])) *c (EV n_s13s [(AVar n_ds1b); (AVar n_ds3b)])) -c ((((((ELocT n_three) *t (EMemT n_MW)) *tc (EV n_a12a [(AVar n_ds1a); (AVar n_ds2b)])) *c (EV n_a34a [(AVar n_ds3a); (AVar n_ds4a)])) *c (EV n_a32a [(AVar n_ds3b); (AVar n_ds2a)])) *c (EV n_s14s [(AVar n_ds1b); (AVar n_ds4b)]))) +c (((((EMemT n_MW) *tc (EV n_a34a [(AVar n_ds3a); (AVar n_ds4a)])) *c (EV n_s12s [(AVar n_ds1a); (AVar n_ds2b)])) *c (EV n_s14s [(AVar n_ds1b); (AVar n_ds4b)])) *c (EV n_s32s [(AVar n_ds3b); (AVar n_ds2a)]))) -c (((((EMemT n_MW) *tc (EV n_a14a [(AVar n_ds1a); (AVar n_ds4a)])) *c (EV n_s12s [(AVar n_ds1b); (AVar n_ds2b)])) *c (EV n_s34s [(AVar n_ds3a); (AVar n_ds4b)])) *c (EV n_s32s [(AVar n_ds3b); (AVar n_ds2a)]))) +c ((((((ELocT n_three) *t (EMemT n_MW)) *tc (EV n_a12a [(AVar n_ds1a); (AVar n_ds2b)])) *c (EV n_a14a [(AVar n_ds1b); (AVar n_ds4a)])) *c (EV n_a32a [(AVar n_ds3a); (AVar n_ds2a)])) *c (EV n_s34s [(AVar n_ds3b); (AVar n_ds4b)]))) -c ((((((ELocT n_four) *t (EMemT n_MW)) *tc (EV n_a12a [(AVar n_ds1a); (AVar n_ds2b)])) *c (EV n_a13a [(AVar n_ds1b); (AVar n_ds3b)])) *c (EV n_s34s [(AVar n_ds3a); (AVar n_ds4b)])) *c (EV n_s42s [(AVar n_ds4a); (AVar n_ds2a)]))) -c ((((EV n_a12a [(AVar n_ds1a); (AVar n_ds2b)]) *c (EV n_s34s [(AVar n_ds3a); (AVar n_ds4a)])) *c (EV n_s32s [(AVar n_ds3b); (AVar n_ds2a)])) *c (EV n_s124a [(AVar n_ds1b); (AVar n_ds4b)]))) +c ((((EV n_a32a [(AVar n_ds3a); (AVar n_ds2a)]) *c (EV n_s12s [(AVar n_ds1a); (AVar n_ds2b)])) *c (EV n_s34s [(AVar n_ds3b); (AVar n_ds4a)])) *c (EV n_s124a [(AVar n_ds1b); (AVar n_ds4b)]))) -c (((((ELocT n_three) *tc (EV n_a34a [(AVar n_ds3a); (AVar n_ds4a)])) *c (EV n_a32a [(AVar n_ds3b); (AVar n_ds2a)])) *c (EV n_s12s [(AVar n_ds1a); (AVar n_ds2b)])) *c (EV n_s421a [(AVar n_ds4b); (AVar n_ds1b)]))) +c (((((ELocT n_three) *tc (EV n_a12a [(AVar n_ds1a); (AVar n_ds2b)])) *c (EV n_a34a [(AVar n_ds3a); (AVar n_ds4a)])) *c (EV n_s32s [(AVar n_ds3b); (AVar n_ds2a)])) *c (EV n_s421a [(AVar n_ds4b); (AVar n_ds1b)]))) *ct (EMemT n_CW)) *ct (EMemT n_CW)) *ct (EMemT n_CW))) +c (((((((((((((((((((ELocT n_two) *t (EMemT n_MW)) *tc (EV n_a13a [(AVar n_ds1a); (AVar n_ds3b)])) *c (EV n_a42a [(AVar n_ds4a); (AVar n_ds2a)])) *c (EV n_s12s [(AVar n_ds1b); (AVar n_ds2b)])) *c (EV n_s34s [(AVar n_ds3a); (AVar n_ds4b)])) -c ((((((ELocT n_three) *t (EMemT n_MW)) *tc (EV n_a14a [(AVar n_ds1a); (AVar n_ds4a)])) *c (EV n_a34a [(AVar n_ds3a); (AVar n_ds4b)])) *c (EV n_s12s [(AVar n_ds1b); (AVar n_ds2b)])) *c (EV n_s32s [(AVar n_ds3b); (AVar n_ds2a)]))) +c (((((EMemT n_MW) *tc (EV n_a12a [(AVar n_ds1a); (AVar n_ds2b)])) *c (EV n_a34a [(AVar n_ds3a); (AVar n_ds4a)])) *c (EV n_s14s [(AVar n_ds1b); (AVar n_ds4b)])) *c (EV n_s32s [(AVar n_ds3b); (AVar n_ds2a)]))) +c (((((EMemT n_MW) *tc (EV n_a14a [(AVar n_ds1a); (AVar n_ds4a)])) *c (EV n_a32a [(AVar n_ds3a); (AVar n_ds2a)])) *c (EV n_s12s [(AVar n_ds1b); (AVar n_ds2b)])) *c (EV n_s34s [(AVar n_ds3b); (AVar n_ds4b)]))) +c ((((((ELocT n_two) *t (EMemT n_MW)) *tc (EV n_a12a [(AVar n_ds1a); (AVar n_ds2a)])) *c (EV n_a34a [(AVar n_ds3a); (AVar n_ds4a)])) *c (EV n_s12s [(AVar n_ds1b); (AVar n_ds2b)])) *c (EV n_s34s [(AVar n_ds3b); (AVar n_ds4b)]))) -c (((((EMemT n_MW) *tc (EV n_a12a [(AVar n_ds1a); (AVar n_ds2b)])) *c (EV n_a32a [(AVar n_ds3a); (AVar n_ds2a)])) *c (EV n_s14s [(AVar n_ds1b); (AVar n_ds4a)])) *c (EV n_s34s [(AVar n_ds3b); (AVar n_ds4b)]))) -c (((((ELocT n_three) *tc (EV n_a12a [(AVar n_ds1a); (AVar n_ds2b)])) *c (EV n_a34a [(AVar n_ds3a); (AVar n_ds4a)])) *c (EV n_s32s [(AVar n_ds3b); (AVar n_ds2a)])) *c (EV n_s124a [(AVar n_ds1b); (AVar n_ds4b)]))) +c (((((ELocT n_three) *tc (EV n_a12a [(AVar n_ds1a); (AVar n_ds2b)])) *c (EV n_a32a [(AVar n_ds3a); (AVar n_ds2a)])) *c (EV n_s34s [(AVar n_ds3b); (AVar n_ds4a)])) *c (EV n_s124a [(AVar n_ds1b); (AVar n_ds4b)]))) +c ((((EV n_a34a [(AVar n_ds3a); (AVar n_ds4a)]) *c (EV n_s12s [(AVar n_ds1a); (AVar n_ds2b)])) *c (EV n_s32s [(AVar n_ds3b); (AVar n_ds2a)])) *c (EV n_s421a [(AVar n_ds4b); (AVar n_ds1b)]))) -c ((((EV n_a32a [(AVar n_ds3a); (AVar n_ds2a)]) *c (EV n_s12s [(AVar n_ds1a); (AVar n_ds2b)])) *c (EV n_s34s [(AVar n_ds3b); (AVar n_ds4a)])) *c (EV n_s421a [(AVar n_ds4b); (AVar n_ds1b)]))) *ct (EMemT n_CW)) *ct (EMemT n_CW)) *ct (EMemT n_CW)) *ct (EMemT n_CW)))) /c (EMemC n_pDenS)))));,
SReturnC (ELocC n_amplitude)).
(** ZWZW::amp2: SM/ZWZW.cpp 214-228 *)
Definition ZWZW_amp2 : meth := mkMeth n_amp2 []
(SLoc rT n_amp2 (EUn I2T (EInt 0));,
SDecl rC n_M;,
(SFor n_j1 (EUn NegI (EInt 2)) (EBin (CmpI CLe) (ELocI n_j1) (EInt 2)) (EBin (OpI IAdd) (ELocI n_j1) (EInt 2))
(SFor n_j2 (EUn NegI (EInt 2)) (EBin (CmpI CLe) (ELocI n_j2) (EInt 2)) (EBin (OpI IAdd) (ELocI n_j2) (EInt 2))
(SFor n_j3 (EUn NegI (EInt 2)) (EBin (CmpI CLe) (ELocI n_j3) (EInt 2)) (EBin (OpI IAdd) (ELocI n_j3) (EInt 2))
(SFor n_j4 (EUn NegI (EInt 2)) (EBin (CmpI CLe) (ELocI n_j4) (EInt 2)) (EBin (OpI IAdd) (ELocI n_j4) (EInt 2))
(SLoc rC n_M (ECall n_amp [(AVar n_j1); (AVar n_j2); (AVar n_j3); (AVar n_j4)]);,
SLoc rT n_amp2 ((ELocT n_amp2) +t (EUn Pow2T (EUn AbsC (ELocC n_M)))))))));,
SReturnT ((ELocT n_amp2) /t (EUn D2T (ELit (9 # 1))))).
(** members: SM/include/ZWZW.h 26-34; initialisers: SM/ZWZW.cpp 32-33 *)
Definition ZWZW : cls := mkCls "ZWZW"
[(n_e, KT);
(n_mh, KT);
(n_wh, KT);
(n_MW, KT);
(n_WW, KT);
(n_SW, KT);
(n_CW, KT);
(n_MZ, KT);
(n_p1, (KPart 0));
(n_p2, (KPart 1));
(n_p3, (KPart 2));
(n_p4, (KPart 3));
(n_proph, KProp);
(n_propW, KProp);
(n_pDenS, KC);
(n_pDenT, KC);
(n_pDenU, KC);
(n_s13s, KSprod);
(n_a13a, KSprod);
(n_a42a, KSprod);
(n_s42s, KSprod);
(n_s32s, KSprod);
(n_a32a, KSprod);
(n_s34s, KSprod);
(n_a34a, KSprod);
(n_a12a, KSprod);
(n_s12s, KSprod);
(n_a14a, KSprod);
(n_s14s, KSprod);
(n_s241a, KSprod);
(n_s142a, KSprod);
(n_s421a, KSprod);
(n_s124a, KSprod);
(n_preh, KT);
(n_preW, KT)]
[n_echarge; n_massh; n_widthh; n_massW; n_widthW; n_sinW]
[(n_e, NT (ELocT n_echarge));
(n_mh, NT (ELocT n_massh));
(n_wh, NT (ELocT n_widthh));
(n_MW, NT (ELocT n_massW));
(n_WW, NT (ELocT n_widthW));
(n_SW, NT (ELocT n_sinW));
(n_CW, NT (EUn SqrtT ((EUn D2T (ELit (1 # 1))) -t ((ELocT n_sinW) *t (ELocT n_sinW)))));
(n_MZ, NT ((ELocT n_massW) /t (EMemT n_CW)))]
ZWZW_ctor
[ZWZW_set_masses; ZWZW_set_momenta; ZWZW_amp; ZWZW_amp2].

(** ZZWW::ZZWW: SM/ZZWW.cpp 32-63 *)
Definition ZZWW_ctor : stmt :=
(SMemT n_CW (EUn SqrtT ((EUn D2T (ELit (1 # 1))) -t ((ELocT n_sinW) *t (ELocT n_sinW))));,
SMemT n_MZ ((EMemT n_MW) /t (EMemT n_CW));,
SPropNew n_proph (EMemT n_mh) (EMemT n_wh);,
SPropNew n_propW (EMemT n_MW) (EMemT n_WW);,
SParticle 0 (EMemT n_MZ);,
SParticle 1 (EMemT n_MZ);,
SParticle 2 (EMemT n_MW);,
SParticle 3 (EMemT n_MW);,
SSprod n_s12s false 0 [] 1;,
SSprod n_a12a true 0 [] 1;,
SSprod n_s34s false 2 [] 3;,
SSprod n_a34a true 2 [] 3;,
SSprod n_s23s false 1 [] 2;,
SSprod n_a23a true 1 [] 2;,
SSprod n_s24s false 1 [] 3;,
SSprod n_a24a true 1 [] 3;,
SSprod n_s14s false 0 [] 3;,
SSprod n_a14a true 0 [] 3;,
SSprod n_s13s false 0 [] 2;,
SSprod n_a13a true 0 [] 2;,
SSprod n_s431a false 3 [2] 0;,
SSprod n_s134a false 0 [2] 3;,
SSprod n_s341a false 2 [3] 0;,
SSprod n_s143a false 0 [3] 2;,
SMemT n_preh (((EMemT n_e) *t (EMemT n_e)) /t ((((EMemT n_MW) *t (EMemT n_MW)) *t (EMemT n_SW)) *t (EMemT n_SW)));,
SMemT n_preW (((EMemT n_e) *t (EMemT n_e)) /t ((((((EUn D2T (ELit (2 # 1))) *t (EMemT n_MW)) *t (EMemT n_MW)) *t (EMemT n_MW)) *t (EMemT n_SW)) *t (EMemT n_SW)))).
(** ZZWW::set_masses: SM/ZZWW.cpp 64-77 *)
Definition ZZWW_set_masses : meth := mkMeth n_set_masses [(n_massh, PkT); (n_massW, PkT)]
(SMemT n_mh (ELocT n_massh);,
SMemT n_MW (ELocT n_massW);,
SMemT n_MZ ((EMemT n_MW) /t (EMemT n_CW));,
SSetMass 0 (EMemT n_MZ);,
SSetMass 1 (EMemT n_MZ);,
SSetMass 2 (EMemT n_MW);,
SSetMass 3 (EMemT n_MW);,
SPropMass n_proph (EMemT n_mh);,
SPropMass n_propW (EMemT n_MW);,
SMemT n_preh (((EMemT n_e) *t (EMemT n_e)) /t ((((EMemT n_MW) *t (EMemT n_MW)) *t (EMemT n_SW)) *t (EMemT n_SW)));,
SMemT n_preW (((EMemT n_e) *t (EMemT n_e)) /t ((((((EUn D2T (ELit (2 # 1))) *t (EMemT n_MW)) *t (EMemT n_MW)) *t (EMemT n_MW)) *t (EMemT n_SW)) *t (EMemT n_SW)))).
(** ZZWW::set_momenta: SM/ZZWW.cpp 78-112 *)
Definition ZZWW_set_momenta : meth := mkMeth n_set_momenta [(n_mom1, PkMom); (n_mom2, PkMom); (n_mom3, PkMom); (n_mom4, PkMom)]
(SSetMomentum 0 n_mom1;,
SSetMomentum 1 n_mom2;,
SSetMomentum 2 n_mom3;,
SSetMomentum 3 n_mom4;,
SUpdate n_s12s;,
SUpdate n_a12a;,
SUpdate n_s34s;,
SUpdate n_a34a;,
SUpdate n_s23s;,
SUpdate n_a23a;,
SUpdate n_s24s;,
SUpdate n_a24a;,
SUpdate n_s14s;,
SUpdate n_a14a;,
SUpdate n_s13s;,
SUpdate n_a13a;,
SUpdate n_s431a;,
SUpdate n_s134a;,
SUpdate n_s341a;,
SUpdate n_s143a;,
SDeclT n_propSP 4;,
SDeclT n_propTP 4;,
SDeclT n_propUP 4;,
(SFor n_j (EInt 0) (EBin (CmpI CLt) (ELocI n_j) (EInt 4)) (EBin (OpI IAdd) (ELocI n_j) (EInt 1))
(SArrT n_propSP (AVar n_j) ((EArrT n_mom1 (AVar n_j)) +t (EArrT n_mom2 (AVar n_j)));,
SArrT n_propTP (AVar n_j) ((EArrT n_mom1 (AVar n_j)) -t (EArrT n_mom3 (AVar n_j)));,
SArrT n_propUP (AVar n_j) ((EArrT n_mom1 (AVar n_j)) -t (EArrT n_mom4 (AVar n_j)))));,
SMemC n_pDenS (EDen n_proph n_propSP);,
SMemC n_pDenT (EDen n_propW n_propTP);,
SMemC n_pDenU (EDen n_propW n_propUP)).
(** ZZWW::amp: SM/ZZWW.cpp 117-207 *)
Definition ZZWW_amp : meth := mkMeth n_amp [(n_ds1, PkI); (n_ds2, PkI); (n_ds3, PkI); (n_ds4, PkI)]
(SLoc rC n_amplitude (EBin OpTTC (EUn I2T (EInt 0)) (EUn I2T (EInt 0)));,
SLoc rT n_one (EUn I2T (EInt 1));,
SLoc rT n_two (EUn I2T (EInt 2));,
SLoc rT n_three (EUn I2T (EInt 3));,
SLoc rT n_four (EUn I2T (EInt 4));,
SLoc rT n_six (EUn I2T (EInt 6));,
SDecl rI n_ds1a;,
SDecl rI n_ds1b;,
SDecl rI n_ds2a;,
SDecl rI n_ds2b;,
SDecl rI n_ds3a;,
SDecl rI n_ds3b;,
SDecl rI n_ds4a;,
SDecl rI n_ds4b;,
SLoc rI n_nCombs (ENLoops [(AVar n_ds1); (AVar n_ds2); (AVar n_ds3); (AVar n_ds4)]);,
SLoc rT n_normFactor (ENorm [(AVar n_ds1); (AVar n_ds2); (AVar n_ds3); (AVar n_ds4)]);,
(SFor n_i (EInt 0) (EBin (CmpI CLt) (ELocI n_i) (ELocI n_nCombs)) (EBin (OpI IAdd) (ELocI n_i) (EInt 1))
(SSpins [(n_ds1, n_ds1a, n_ds1b); (n_ds2, n_ds2a, n_ds2b); (n_ds3, n_ds3a, n_ds3b); (n_ds4, n_ds4a, n_ds4b)] (AVar n_i);,
SLoc rC n_amplitude ((ELocC n_amplitude) +c (((((((ELocT n_normFactor) *t (EMemT n_preh)) *tc (EV n_s12s [(AVar n_ds1a); (AVar n_ds2a)])) *c (EV n_a12a [(AVar n_ds1b); (AVar n_ds2b)])) *c (EV n_s34s [(AVar n_ds3a); (AVar n_ds4a)])) *c (EV n_a34a [(AVar n_ds3b); (AVar n_ds4b)])) /c (EMemC n_pDenS)));,
SLoc rC n_amplitude ((ELocC n_amplitude) +c ((((ELocT n_normFactor) *t (EMemT n_preW)) *tc (((((((((ELocT n_two) *t (EMemT n_MW)) *tc (EV n_a13a [(AVar n_ds1a); (AVar n_ds3a)])) *c (EV n_a24a [(AVar n_ds2a); (AVar n_ds4a)])) *c (EV n_s13s [(AVar n_ds1b); (AVar n_ds3b)])) *c (EV n_s24s [(AVar n_ds2b); (AVar n_ds4b)])) +c (((((((((((((ELocT n_four) *t (EMemT n_MW)) *tc (EV n_a23a [(AVar n_ds2a); (AVar n_ds3a)])) *c (EV n_a24a [(AVar n_ds2b); (AVar n_ds4a)])) *c (EV n_s13s [(AVar n_ds1a); (AVar n_ds3b)])) *c (EV n_s14s [(AVar n_ds1b); (AVar n_ds4b)])) +c ((((((ELocT n_two) *t (EMemT n_MW)) *tc (EV n_a12a [(AVar n_ds1a); (AVar n_ds2b)])) *c (EV n_a34a [(AVar n_ds3a); (AVar n_ds4a)])) *c (EV n_s13s [(AVar n_ds1b); (AVar n_ds3b)])) *c (EV n_s24s [(AVar n_ds2a); (AVar n_ds4b)]))) +c ((((((ELocT n_three) *t (EMemT n_MW)) *tc (EV n_a13a [(AVar n_ds1a); (AVar n_ds3a)])) *c (EV n_a24a [(AVar n_ds2a); (AVar n_ds4a)])) *c (EV n_s14s [(AVar n_ds1b); (AVar n_ds4b)])) *c (EV n_s23s [(AVar n_ds2b); (AVar n_ds3b)]))) +c ((((((ELocT n_three) *t (EMemT n_MW)) *tc (EV n_a14a [(AVar n_ds1a); (AVar n_ds4a)])) *c (EV n_a23a [(AVar n_ds2a); (AVar n_ds3a)])) *c (EV n_s13s [(AVar n_ds1b); (AVar n_ds3b)])) *c (EV n_s24s [(AVar n_ds2b); (AVar n_ds4b)]))) -c ((((((ELocT n_six) *t (EMemT n_MW)) *tc (EV n_a13a [(AVar n_ds1a); (AVar n_ds3a)])) *c (EV n_a24a [(AVar n_ds2a); (AVar n_ds4a)])) *c (EV n_s13s [(AVar n_ds1b); (AVar n_ds3b)])) *c (EV n_s24s [(AVar n_ds2b); (AVar n_ds4b)]))) +c ((((((ELocT n_four) *t (EMemT n_MW)) *tc (EV n_a13a [(AVar n_ds1a); (AVar n_ds3a)])) *c (EV n_a14a [(AVar n_ds1b); (AVar n_ds4a)])) *c (EV n_s23s [(AVar n_ds2a); (AVar n_ds3b)])) *c (EV n_s24s [(AVar n_ds2b); (AVar n_ds4b)]))) *ct (EMemT n_CW)) *ct (EMemT n_CW))) +c ((((((((((((((((((ELocT n_four) *t (EMemT n_MW)) *tc (EV n_a24a [(AVar n_ds2a); (AVar n_ds4a)])) *c (EV n_a34a [(AVar n_ds3a); (AVar n_ds4b)])) *c (EV n_s12s [(AVar n_ds1a); (AVar n_ds2b)])) *c (EV n_s13s [(AVar n_ds1b); (AVar n_ds3b)])) -c ((((((ELocT n_three) *t (EMemT n_MW)) *tc (EV n_a13a [(AVar n_ds1a); (AVar n_ds3a)])) *c (EV n_a23a [(AVar n_ds2a); (AVar n_ds3b)])) *c (EV n_a24a [(AVar n_ds2b); (AVar n_ds4a)])) *c (EV n_s14s [(AVar n_ds1b); (AVar n_ds4b)]))) -c (((((EMemT n_MW) *tc (EV n_a24a [(AVar n_ds2a); (AVar n_ds4a)])) *c (EV n_s13s [(AVar n_ds1a); (AVar n_ds3a)])) *c (EV n_s14s [(AVar n_ds1b); (AVar n_ds4b)])) *c (EV n_s23s [(AVar n_ds2b); (AVar n_ds3b)]))) -c ((((((ELocT n_three) *t (EMemT n_MW)) *tc (EV n_a13a [(AVar n_ds1a); (AVar n_ds3a)])) *c (EV n_a14a [(AVar n_ds1b); (AVar n_ds4a)])) *c (EV n_a23a [(AVar n_ds2a); (AVar n_ds3b)])) *c (EV n_s24s [(AVar n_ds2b); (AVar n_ds4b)]))) -c (((((EMemT n_MW) *tc (EV n_a14a [(AVar n_ds1a); (AVar n_ds4a)])) *c (EV n_s13s [(AVar n_ds1b); (AVar n_ds3a)])) *c (EV n_s23s [(AVar n_ds2a); (AVar n_ds3b)])) *c (EV n_s24s [(AVar n_ds2b); (AVar n_ds4b)]))) +c ((((((ELocT n_four) *t (EMemT n_MW)) *tc (EV n_a12a [(AVar n_ds1a); (AVar n_ds2b)])) *c (EV n_a13a [(AVar n_ds1b); (AVar n_ds3b)])) *c (EV n_s24s [(AVar n_ds2a); (AVar n_ds4a)])) *c (EV n_s34s [(AVar n_ds3a); (AVar n_ds4b)]))) -c ((((EV n_a23a [(AVar n_ds2a); (AVar n_ds3a)]) *c (EV n_s13s [(AVar n_ds1a); (AVar n_ds3b)])) *c (EV n_s24s [(AVar n_ds2b); (AVar n_ds4a)])) *c (EV n_s134a [(AVar n_ds1b); (AVar n_ds4b)]))) -c ((((EV n_a13a [(AVar n_ds1a); (AVar n_ds3a)]) *c (EV n_s23s [(AVar n_ds2a); (AVar n_ds3b)])) *c (EV n_s24s [(AVar n_ds2b); (AVar n_ds4a)])) *c (EV n_s134a [(AVar n_ds1b); (AVar n_ds4b)]))) -c (((((ELocT n_three) *tc (EV n_a23a [(AVar n_ds2a); (AVar n_ds3a)])) *c (EV n_a24a [(AVar n_ds2b); (AVar n_ds4a)])) *c (EV n_s13s [(AVar n_ds1a); (AVar n_ds3b)])) *c (EV n_s431a [(AVar n_ds4b); (AVar n_ds1b)]))) +c (((((EUn NegT (ELocT n_three)) *tc (EV n_a13a [(AVar n_ds1a); (AVar n_ds3a)])) *c (EV n_a24a [(AVar n_ds2a); (AVar n_ds4a)])) *c (EV n_s23s [(AVar n_ds2b); (AVar n_ds3b)])) *c (EV n_s431a [(AVar n_ds4b); (AVar n_ds1b)]))) *ct (EMemT n_CW)) *ct (EMemT n_CW)) *ct (EMemT n_CW))) +c (((((((((((((((((((EUn NegT (ELocT n_two)) *t (EMemT n_MW)) *tc (EV n_a12a [(AVar n_ds1a); (AVar n_ds2b)])) *c (EV n_a34a [(AVar n_ds3a); (AVar n_ds4a)])) *c (EV n_s13s [(AVar n_ds1b); (AVar n_ds3b)])) *c (EV n_s24s [(AVar n_ds2a); (AVar n_ds4b)])) +c ((((((ELocT n_three) *t (EMemT n_MW)) *tc (EV n_a14a [(AVar n_ds1a); (AVar n_ds4a)])) *c (EV n_a24a [(AVar n_ds2a); (AVar n_ds4b)])) *c (EV n_s13s [(AVar n_ds1b); (AVar n_ds3a)])) *c (EV n_s23s [(AVar n_ds2b); (AVar n_ds3b)]))) +c (((((EMemT n_MW) *tc (EV n_a13a [(AVar n_ds1a); (AVar n_ds3a)])) *c (EV n_a24a [(AVar n_ds2a); (AVar n_ds4a)])) *c (EV n_s14s [(AVar n_ds1b); (AVar n_ds4b)])) *c (EV n_s23s [(AVar n_ds2b); (AVar n_ds3b)]))) +c (((((EMemT n_MW) *tc (EV n_a14a [(AVar n_ds1a); (AVar n_ds4a)])) *c (EV n_a23a [(AVar n_ds2a); (AVar n_ds3a)])) *c (EV n_s13s [(AVar n_ds1b); (AVar n_ds3b)])) *c (EV n_s24s [(AVar n_ds2b); (AVar n_ds4b)]))) +c ((((((ELocT n_two) *t (EMemT n_MW)) *tc (EV n_a13a [(AVar n_ds1a); (AVar n_ds3a)])) *c (EV n_a24a [(AVar n_ds2a); (AVar n_ds4a)])) *c (EV n_s13s [(AVar n_ds1b); (AVar n_ds3b)])) *c (EV n_s24s [(AVar n_ds2b); (AVar n_ds4b)]))) +c (((((EMemT n_MW) *tc (EV n_a13a [(AVar n_ds1a); (AVar n_ds3a)])) *c (EV n_a23a [(AVar n_ds2a); (AVar n_ds3b)])) *c (EV n_s14s [(AVar n_ds1b); (AVar n_ds4a)])) *c (EV n_s24s [(AVar n_ds2b); (AVar n_ds4b)]))) +c (((((ELocT n_three) *tc (EV n_a13a [(AVar n_ds1a); (AVar n_ds3a)])) *c (EV n_a24a [(AVar n_ds2a); (AVar n_ds4a)])) *c (EV n_s23s [(AVar n_ds2b); (AVar n_ds3b)])) *c (EV n_s134a [(AVar n_ds1b); (AVar n_ds4b)]))) +c (((((ELocT n_three) *tc (EV n_a13a [(AVar n_ds1a); (AVar n_ds3a)])) *c (EV n_a23a [(AVar n_ds2a); (AVar n_ds3b)])) *c (EV n_s24s [(AVar n_ds2b); (AVar n_ds4a)])) *c (EV n_s134a [(AVar n_ds1b); (AVar n_ds4b)]))) +c ((((EV n_a24a [(AVar n_ds2a); (AVar n_ds4a)]) *c (EV n_s13s [(AVar n_ds1a); (AVar n_ds3a)])) *c (EV n_s23s [(AVar n_ds2b); (AVar n_ds3b)])) *c (EV n_s431a [(AVar n_ds4b); (AVar n_ds1b)]))) +c ((((EV n_a23a [(AVar n_ds2a); (AVar n_ds3a)]) *c (EV n_s13s [(AVar n_ds1a); (AVar n_ds3b)])) *c (EV n_s24s [(AVar n_ds2b); (AVar n_ds4a)])) *c (EV n_s431a [(AVar n_ds4b); (AVar n_ds1b)]))) *ct (EMemT n_CW)) *ct (EMemT n_CW)) *ct (EMemT n_CW)) *ct (EMemT n_CW)))) /c (EMemC n_pDenT)));,
SLoc rC n_amplitude ((ELocC n_amplitude) +c ((((ELocT n_normFactor) *t (EMemT n_preW)) *tc (((((((((ELocT n_two) *t (EMemT n_MW)) *tc (EV n_a14a [(AVar n_ds1a); (AVar n_ds4a)])) *c (EV n_a23a [(AVar n_ds2a); (AVar n_ds3a)])) *c (EV n_s14s [(AVar n_ds1b); (AVar n_ds4b)])) *c (EV n_s23s [(AVar n_ds2b); (AVar n_ds3b)])) +c (((((((((((((ELocT n_four) *t (EMemT n_MW)) *tc (EV n_a23a [(AVar n_ds2a); (AVar n_ds3a)])) *c (EV n_a24a [(AVar n_ds2b); (AVar n_ds4a)])) *c (EV n_s13s [(AVar n_ds1a); (AVar n_ds3b)])) *c (EV n_s14s [(AVar n_ds1b); (AVar n_ds4b)])) -c ((((((ELocT n_two) *t (EMemT n_MW)) *tc (EV n_a12a [(AVar n_ds1a); (AVar n_ds2b)])) *c (EV n_a34a [(AVar n_ds3a); (AVar n_ds4a)])) *c (EV n_s14s [(AVar n_ds1b); (AVar n_ds4b)])) *c (EV n_s23s [(AVar n_ds2a); (AVar n_ds3b)]))) -c ((((((ELocT n_six) *t (EMemT n_MW)) *tc (EV n_a14a [(AVar n_ds1a); (AVar n_ds4a)])) *c (EV n_a23a [(AVar n_ds2a); (AVar n_ds3a)])) *c (EV n_s14s [(AVar n_ds1b); (AVar n_ds4b)])) *c (EV n_s23s [(AVar n_ds2b); (AVar n_ds3b)]))) +c ((((((ELocT n_three) *t (EMemT n_MW)) *tc (EV n_a13a [(AVar n_ds1a); (AVar n_ds3a)])) *c (EV n_a24a [(AVar n_ds2a); (AVar n_ds4a)])) *c (EV n_s14s [(AVar n_ds1b); (AVar n_ds4b)])) *c (EV n_s23s [(AVar n_ds2b); (AVar n_ds3b)]))) +c ((((((ELocT n_three) *t (EMemT n_MW)) *tc (EV n_a14a [(AVar n_ds1a); (AVar n_ds4a)])) *c (EV n_a23a [(AVar n_ds2a); (AVar n_ds3a)])) *c (EV n_s13s [(AVar n_ds1b); (AVar n_ds3b)])) *c (EV n_s24s [(AVar n_ds2b); (AVar n_ds4b)]))) +c ((((((ELocT n_four) *t (EMemT n_MW)) *tc (EV n_a13a [(AVar n_ds1a); (AVar n_ds3a)])) *c (EV n_a14a [(AVar n_ds1b); (AVar n_ds4a)])) *c (EV n_s23s [(AVar n_ds2a); (AVar n_ds3b)])) *c (EV n_s24s [(AVar n_ds2b); (AVar n_ds4b)]))) *ct (EMemT n_CW)) *ct (EMemT n_CW))) +c ((((((((((((((((((EUn NegT (ELocT n_three)) *t (EMemT n_MW)) *tc (EV n_a14a [(AVar n_ds1a); (AVar n_ds4a)])) *c (EV n_a23a [(AVar n_ds2a); (AVar n_ds3a)])) *c (EV n_a24a [(AVar n_ds2b); (AVar n_ds4b)])) *c (EV n_s13s [(AVar n_ds1b); (AVar n_ds3b)])) -c ((((((ELocT n_four) *t (EMemT n_MW)) *tc (EV n_a23a [(AVar n_ds2a); (AVar n_ds3b)])) *c (EV n_a34a [(AVar n_ds3a); (AVar n_ds4a)])) *c (EV n_s12s [(AVar n_ds1a); (AVar n_ds2b)])) *c (EV n_s14s [(AVar n_ds1b); (AVar n_ds4b)]))) -c ((((((ELocT n_three) *t (EMemT n_MW)) *tc (EV n_a13a [(AVar n_ds1a); (AVar n_ds3a)])) *c (EV n_a14a [(AVar n_ds1b); (AVar n_ds4a)])) *c (EV n_a24a [(AVar n_ds2a); (AVar n_ds4b)])) *c (EV n_s23s [(AVar n_ds2b); (AVar n_ds3b)]))) -c (((((EMemT n_MW) *tc (EV n_a23a [(AVar n_ds2a); (AVar n_ds3a)])) *c (EV n_s13s [(AVar n_ds1a); (AVar n_ds3b)])) *c (EV n_s14s [(AVar n_ds1b); (AVar n_ds4a)])) *c (EV n_s24s [(AVar n_ds2b); (AVar n_ds4b)]))) -c (((((EMemT n_MW) *tc (EV n_a13a [(AVar n_ds1a); (AVar n_ds3a)])) *c (EV n_s14s [(AVar n_ds1b); (AVar n_ds4a)])) *c (EV n_s23s [(AVar n_ds2a); (AVar n_ds3b)])) *c (EV n_s24s [(AVar n_ds2b); (AVar n_ds4b)]))) -c ((((((ELocT n_four) *t (EMemT n_MW)) *tc (EV n_a12a [(AVar n_ds1a); (AVar n_ds2b)])) *c (EV n_a14a [(AVar n_ds1b); (AVar n_ds4a)])) *c (EV n_s23s [(AVar n_ds2a); (AVar n_ds3b)])) *c (EV n_s34s [(AVar n_ds3a); (AVar n_ds4b)]))) -c ((((EV n_a24a [(AVar n_ds2a); (AVar n_ds4a)]) *c (EV n_s14s [(AVar n_ds1a); (AVar n_ds4b)])) *c (EV n_s23s [(AVar n_ds2b); (AVar n_ds3a)])) *c (EV n_s143a [(AVar n_ds1b); (AVar n_ds3b)]))) -c ((((EV n_a14a [(AVar n_ds1a); (AVar n_ds4a)]) *c (EV n_s23s [(AVar n_ds2a); (AVar n_ds3a)])) *c (EV n_s24s [(AVar n_ds2b); (AVar n_ds4b)])) *c (EV n_s143a [(AVar n_ds1b); (AVar n_ds3b)]))) -c (((((ELocT n_three) *tc (EV n_a23a [(AVar n_ds2a); (AVar n_ds3a)])) *c (EV n_a24a [(AVar n_ds2b); (AVar n_ds4a)])) *c (EV n_s14s [(AVar n_ds1a); (AVar n_ds4b)])) *c (EV n_s341a [(AVar n_ds3b); (AVar n_ds1b)]))) -c (((((ELocT n_three) *tc (EV n_a14a [(AVar n_ds1a); (AVar n_ds4a)])) *c (EV n_a23a [(AVar n_ds2a); (AVar n_ds3a)])) *c (EV n_s24s [(AVar n_ds2b); (AVar n_ds4b)])) *c (EV n_s341a [(AVar n_ds3b); (AVar n_ds1b)]))) *ct (EMemT n_CW)) *ct (EMemT n_CW)) *ct (EMemT n_CW))) +c (((((((((((((((((((ELocT n_two) *t (EMemT n_MW)) *tc (EV n_a12a [(AVar n_ds1a); (AVar n_ds2b)])) *c (EV n_a34a [(AVar n_ds3a); (AVar n_ds4a)])) *c (EV n_s14s [(AVar n_ds1b); (AVar n_ds4b)])) *c (EV n_s23s [(AVar n_ds2a); (AVar n_ds3b)])) +c (((((EMemT n_MW) *tc (EV n_a14a [(AVar n_ds1a); (AVar n_ds4a)])) *c (EV n_a24a [(AVar n_ds2a); (AVar n_ds4b)])) *c (EV n_s13s [(AVar n_ds1b); (AVar n_ds3a)])) *c (EV n_s23s [(AVar n_ds2b); (AVar n_ds3b)]))) +c ((((((ELocT n_two) *t (EMemT n_MW)) *tc (EV n_a14a [(AVar n_ds1a); (AVar n_ds4a)])) *c (EV n_a23a [(AVar n_ds2a); (AVar n_ds3a)])) *c (EV n_s14s [(AVar n_ds1b); (AVar n_ds4b)])) *c (EV n_s23s [(AVar n_ds2b); (AVar n_ds3b)]))) +c (((((EMemT n_MW) *tc (EV n_a13a [(AVar n_ds1a); (AVar n_ds3a)])) *c (EV n_a24a [(AVar n_ds2a); (AVar n_ds4a)])) *c (EV n_s14s [(AVar n_ds1b); (AVar n_ds4b)])) *c (EV n_s23s [(AVar n_ds2b); (AVar n_ds3b)]))) +c (((((EMemT n_MW) *tc (EV n_a14a [(AVar n_ds1a); (AVar n_ds4a)])) *c (EV n_a23a [(AVar n_ds2a); (AVar n_ds3a)])) *c (EV n_s13s [(AVar n_ds1b); (AVar n_ds3b)])) *c (EV n_s24s [(AVar n_ds2b); (AVar n_ds4b)]))) +c ((((((ELocT n_three) *t (EMemT n_MW)) *tc (EV n_a13a [(AVar n_ds1a); (AVar n_ds3a)])) *c (EV n_a23a [(AVar n_ds2a); (AVar n_ds3b)])) *c (EV n_s14s [(AVar n_ds1b); (AVar n_ds4a)])) *c (EV n_s24s [(AVar n_ds2b); (AVar n_ds4b)]))) +c (((((ELocT n_three) *tc (EV n_a14a [(AVar n_ds1a); (AVar n_ds4a)])) *c (EV n_a24a [(AVar n_ds2a); (AVar n_ds4b)])) *c (EV n_s23s [(AVar n_ds2b); (AVar n_ds3a)])) *c (EV n_s143a [(AVar n_ds1b); (AVar n_ds3b)]))) +c (((((ELocT n_three) *tc (EV n_a14a [(AVar n_ds1a); (AVar n_ds4a)])) *c (EV n_a23a [(AVar n_ds2a); (AVar n_ds3a)])) *c (EV n_s24s [(AVar n_ds2b); (AVar n_ds4b)])) *c (EV n_s143a [(AVar n_ds1b); (AVar n_ds3b)]))) +c ((((EV n_a24a [(AVar n_ds2a); (AVar n_ds4a)]) *c (EV n_s14s [(AVar n_ds1a); (AVar n_ds4b)])) *c (EV n_s23s [(AVar n_ds2b); (AVar n_ds3a)])) *c (EV n_s341a [(AVar n_ds3b); (AVar n_ds1b)]))) +c ((((EV n_a23a [(AVar n_ds2a); (AVar n_ds3a)]) *c (EV n_s14s [(AVar n_ds1a); (AVar n_ds4a)])) *c (EV n_s24s [(AVar n_ds2b); (AVar n_ds4b)])) *c (EV n_s341a [(AVar n_ds3b); (AVar n_ds1b)]))) *ct (EMemT n_CW)) *ct (EMemT n_CW)) *ct (EMemT n_CW)) *ct (EMemT n_CW)))) /c (EMemC n_pDenU)))));,
SReturnC (ELocC n_amplitude)).
(** ZZWW::amp2: SM/ZZWW.cpp 210-224 *)
Definition ZZWW_amp2 : meth := mkMeth n_amp2 []
(SLoc rT n_amp2 (EUn I2T (EInt 0));,
SDecl rC n_M;,
(SFor n_j1 (EUn NegI (EInt 2)) (EBin (CmpI CLe) (ELocI n_j1) (EInt 2)) (EBin (OpI IAdd) (ELocI n_j1) (EInt 2))
(SFor n_j2 (EUn NegI (EInt 2)) (EBin (CmpI CLe) (ELocI n_j2) (EInt 2)) (EBin (OpI IAdd) (ELocI n_j2) (EInt 2))
(SFor n_j3 (EUn NegI (EInt 2)) (EBin (CmpI CLe) (ELocI n_j3) (EInt 2)) (EBin (OpI IAdd) (ELocI n_j3) (EInt 2))
(SFor n_j4 (EUn NegI (EInt 2)) (EBin (CmpI CLe) (ELocI n_j4) (EInt 2)) (EBin (OpI IAdd) (ELocI n_j4) (EInt 2))
(SLoc rC n_M (ECall n_amp [(AVar n_j1); (AVar n_j2); (AVar n_j3); (AVar n_j4)]);,
SLoc rT n_amp2 ((ELocT n_amp2) +t (EUn Pow2T (EUn AbsC (ELocC n_M)))))))));,
SReturnT ((ELocT n_amp2) /t (EUn D2T (ELit (9 # 1))))).
(** members: SM/include/ZZWW.h 26-35; initialisers: SM/ZZWW.cpp 32-33 *)
Definition ZZWW : cls := mkCls "ZZWW"
[(n_e, KT);
(n_mh, KT);
(n_wh, KT);
(n_MW, KT);
(n_WW, KT);
(n_SW, KT);
(n_CW, KT);
(n_MZ, KT);
(n_p1, (KPart 0));
(n_p2, (KPart 1));
(n_p3, (KPart 2));
(n_p4, (KPart 3));
(n_proph, KProp);
(n_propW, KProp);
(n_pDenS, KC);
(n_pDenT, KC);
(n_pDenU, KC);
(n_s12s, KSprod);
(n_a12a, KSprod);
(n_a34a, KSprod);
(n_s34s, KSprod);
(n_s24s, KSprod);
(n_a24a, KSprod);
(n_s23s, KSprod);
(n_a23a, KSprod);
(n_a14a, KSprod);
(n_s14s, KSprod);
(n_a13a, KSprod);
(n_s13s, KSprod);
(n_s431a, KSprod);
(n_s134a, KSprod);
(n_s341a, KSprod);
(n_s143a, KSprod);
(n_m12, KT);
(n_preh, KT);
(n_preW, KT)]
[n_echarge; n_massh; n_widthh; n_massW; n_widthW; n_sinW]
[(n_e, NT (ELocT n_echarge));
(n_mh, NT (ELocT n_massh));
(n_wh, NT (ELocT n_widthh));
(n_MW, NT (ELocT n_massW));
(n_WW, NT (ELocT n_widthW));
(n_SW, NT (ELocT n_sinW));
(n_CW, NT (EUn SqrtT ((EUn D2T (ELit (1 # 1))) -t ((ELocT n_sinW) *t (ELocT n_sinW)))));
(n_MZ, NT ((ELocT n_massW) /t (EMemT n_CW)))]
ZZWW_ctor
[ZZWW_set_masses; ZZWW_set_momenta; ZZWW_amp; ZZWW_amp2].

Definition SM02_classes : list cls := [AdZd; AeZe; AhWW; AnWe; AuZu; WWWW; WWWW2; WdWd; WdZu; ZWWh; ZWZW; ZZWW].
