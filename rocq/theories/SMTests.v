(** * The test functions of the process classes

    Generated by tools/tests.py from /repo/SM and /repo/user-dir.  Do not edit. *)
From Coq Require Import QArith.
From Verif Require Import Base Scalar Lang SMNames TestLang SM01 SM02 SM03 SM04 SM05 SM06 SM07 SM08 SM09 SM10 SM11 SM12 SMUser.
Close Scope Q_scope.

Definition v_EE : id := 1%positive.
Definition v_MW : id := 2%positive.
Definition v_SW : id := 3%positive.
Definition v_pspatial : id := 4%positive.
Definition v_md : id := 5%positive.
Definition v_me : id := 6%positive.
Definition v_mu : id := 7%positive.
Definition v_mh : id := 8%positive.
Definition v_MZ : id := 9%positive.
Definition v_CW : id := 10%positive.
Definition v_gs : id := 11%positive.
Definition v_mf : id := 12%positive.
Definition v_wh : id := 13%positive.
Definition v_WZ : id := 14%positive.
Definition v_ms : id := 15%positive.
Definition v_gg : id := 16%positive.
Definition v_vev : id := 17%positive.
Definition v_mmu : id := 18%positive.
Definition v_WW : id := 19%positive.
Definition v_sinW : id := 20%positive.
Definition v_mt : id := 21%positive.
Definition v_mb : id := 22%positive.
Definition v_mc : id := 23%positive.
Definition v_mtau : id := 24%positive.
Definition v_e : id := 25%positive.

(** SM/AAWW.cpp 195-244 *)
Definition test_AAWW : test := mkTest AAWW
  [ TLoc v_EE (XLit (31333 # 100000));
    TLoc v_MW (XLit (16077 # 200));
    TLoc v_SW (XLit (237 # 500));
    TNew [(XVar v_EE); (XVar v_MW); (XVar v_SW); (XInt 0)];
    TLoc v_pspatial (XInt 250);
    TRuns (XInt 0) (XInt 0) (XVar v_MW) (XVar v_MW) (XVar v_pspatial)
      [(HLab, n_amp2, 0%nat); (HRot, n_amp2, 0%nat); (HBoost, n_amp2, 0%nat); (HBoth, n_amp2, 0%nat); (HLab, n_amp2_Aplus_Aplus, 1%nat); (HRot, n_amp2_Aplus_Aplus, 1%nat); (HBoost, n_amp2_Aplus_Aplus, 1%nat); (HBoth, n_amp2_Aplus_Aplus, 1%nat); (HLab, n_amp2_Aplus_Aminus, 2%nat); (HRot, n_amp2_Aplus_Aminus, 2%nat); (HBoost, n_amp2_Aplus_Aminus, 2%nat); (HBoth, n_amp2_Aplus_Aminus, 2%nat)];
    TLoc v_pspatial (XInt 81);
    TRuns (XInt 0) (XInt 0) (XVar v_MW) (XVar v_MW) (XVar v_pspatial)
      [(HLab, n_amp2, 3%nat); (HRot, n_amp2, 3%nat); (HBoost, n_amp2, 3%nat); (HBoth, n_amp2, 3%nat); (HLab, n_amp2_Aplus_Aplus, 4%nat); (HRot, n_amp2_Aplus_Aplus, 4%nat); (HBoost, n_amp2_Aplus_Aplus, 4%nat); (HBoth, n_amp2_Aplus_Aplus, 4%nat); (HLab, n_amp2_Aplus_Aminus, 5%nat); (HRot, n_amp2_Aplus_Aminus, 5%nat); (HBoost, n_amp2_Aplus_Aminus, 5%nat); (HBoth, n_amp2_Aplus_Aminus, 5%nat)] ].

(** SM/AAdd.cpp 174-228 *)
Definition test_AAdd : test := mkTest AAdd
  [ TLoc v_md (XLit (3 # 400));
    TLoc v_EE (XLit (31333 # 100000));
    TNew [(XVar v_EE); (XVar v_md)];
    TLoc v_pspatial (XInt 250);
    TRuns (XInt 0) (XInt 0) (XVar v_md) (XVar v_md) (XVar v_pspatial)
      [(HLab, n_amp2, 0%nat); (HRot, n_amp2, 0%nat); (HBoost, n_amp2, 0%nat); (HBoth, n_amp2, 0%nat); (HLab, n_amp2_Aplus_Aplus, 1%nat); (HRot, n_amp2_Aplus_Aplus, 1%nat); (HBoost, n_amp2_Aplus_Aplus, 1%nat); (HBoth, n_amp2_Aplus_Aplus, 1%nat); (HLab, n_amp2_Aplus_Aminus, 2%nat); (HRot, n_amp2_Aplus_Aminus, 2%nat); (HBoost, n_amp2_Aplus_Aminus, 2%nat); (HBoth, n_amp2_Aplus_Aminus, 2%nat)];
    TLoc v_pspatial (XLit (1 # 125));
    TRuns (XInt 0) (XInt 0) (XVar v_md) (XVar v_md) (XVar v_pspatial)
      [(HLab, n_amp2, 3%nat); (HRot, n_amp2, 3%nat); (HBoost, n_amp2, 3%nat); (HBoth, n_amp2, 3%nat); (HLab, n_amp2_Aplus_Aplus, 4%nat); (HRot, n_amp2_Aplus_Aplus, 4%nat); (HBoost, n_amp2_Aplus_Aplus, 4%nat); (HBoth, n_amp2_Aplus_Aplus, 4%nat); (HLab, n_amp2_Aplus_Aminus, 5%nat); (HRot, n_amp2_Aplus_Aminus, 5%nat); (HBoost, n_amp2_Aplus_Aminus, 5%nat); (HBoth, n_amp2_Aplus_Aminus, 5%nat)] ].

(** SM/AAee.cpp 174-228 *)
Definition test_AAee : test := mkTest AAee
  [ TLoc v_me (XLit (1 # 2000));
    TLoc v_EE (XLit (31333 # 100000));
    TNew [(XVar v_EE); (XVar v_me)];
    TLoc v_pspatial (XInt 250);
    TRuns (XInt 0) (XInt 0) (XVar v_me) (XVar v_me) (XVar v_pspatial)
      [(HLab, n_amp2, 0%nat); (HRot, n_amp2, 0%nat); (HBoost, n_amp2, 0%nat); (HBoth, n_amp2, 0%nat); (HLab, n_amp2_Aplus_Aplus, 1%nat); (HRot, n_amp2_Aplus_Aplus, 1%nat); (HBoost, n_amp2_Aplus_Aplus, 1%nat); (HBoth, n_amp2_Aplus_Aplus, 1%nat); (HLab, n_amp2_Aplus_Aminus, 2%nat); (HRot, n_amp2_Aplus_Aminus, 2%nat); (HBoost, n_amp2_Aplus_Aminus, 2%nat); (HBoth, n_amp2_Aplus_Aminus, 2%nat)];
    TLoc v_pspatial (XLit (3 # 5000));
    TRuns (XInt 0) (XInt 0) (XVar v_me) (XVar v_me) (XVar v_pspatial)
      [(HLab, n_amp2, 3%nat); (HRot, n_amp2, 3%nat); (HBoost, n_amp2, 3%nat); (HBoth, n_amp2, 3%nat); (HLab, n_amp2_Aplus_Aplus, 4%nat); (HRot, n_amp2_Aplus_Aplus, 4%nat); (HBoost, n_amp2_Aplus_Aplus, 4%nat); (HBoth, n_amp2_Aplus_Aplus, 4%nat); (HLab, n_amp2_Aplus_Aminus, 5%nat); (HRot, n_amp2_Aplus_Aminus, 5%nat); (HBoost, n_amp2_Aplus_Aminus, 5%nat); (HBoth, n_amp2_Aplus_Aminus, 5%nat)] ].

(** SM/AAuu.cpp 174-228 *)
Definition test_AAuu : test := mkTest AAuu
  [ TLoc v_mu (XLit (21 # 5000));
    TLoc v_EE (XLit (31333 # 100000));
    TNew [(XVar v_EE); (XVar v_mu)];
    TLoc v_pspatial (XInt 250);
    TRuns (XInt 0) (XInt 0) (XVar v_mu) (XVar v_mu) (XVar v_pspatial)
      [(HLab, n_amp2, 0%nat); (HRot, n_amp2, 0%nat); (HBoost, n_amp2, 0%nat); (HBoth, n_amp2, 0%nat); (HLab, n_amp2_Aplus_Aplus, 1%nat); (HRot, n_amp2_Aplus_Aplus, 1%nat); (HBoost, n_amp2_Aplus_Aplus, 1%nat); (HBoth, n_amp2_Aplus_Aplus, 1%nat); (HLab, n_amp2_Aplus_Aminus, 2%nat); (HRot, n_amp2_Aplus_Aminus, 2%nat); (HBoost, n_amp2_Aplus_Aminus, 2%nat); (HBoth, n_amp2_Aplus_Aminus, 2%nat)];
    TLoc v_pspatial (XLit (3 # 500));
    TRuns (XInt 0) (XInt 0) (XVar v_mu) (XVar v_mu) (XVar v_pspatial)
      [(HLab, n_amp2, 3%nat); (HRot, n_amp2, 3%nat); (HBoost, n_amp2, 3%nat); (HBoth, n_amp2, 3%nat); (HLab, n_amp2_Aplus_Aplus, 4%nat); (HRot, n_amp2_Aplus_Aplus, 4%nat); (HBoost, n_amp2_Aplus_Aplus, 4%nat); (HBoth, n_amp2_Aplus_Aplus, 4%nat); (HLab, n_amp2_Aplus_Aminus, 5%nat); (HRot, n_amp2_Aplus_Aminus, 5%nat); (HBoost, n_amp2_Aplus_Aminus, 5%nat); (HBoth, n_amp2_Aplus_Aminus, 5%nat)] ].

(** SM/AWAW.cpp 211-260 *)
Definition test_AWAW : test := mkTest AWAW
  [ TLoc v_EE (XLit (31333 # 100000));
    TLoc v_MW (XLit (16077 # 200));
    TLoc v_SW (XLit (237 # 500));
    TNew [(XVar v_EE); (XVar v_MW); (XVar v_SW); (XInt 0)];
    TLoc v_pspatial (XInt 250);
    TRuns (XInt 0) (XVar v_MW) (XInt 0) (XVar v_MW) (XVar v_pspatial)
      [(HLab, n_amp2, 0%nat); (HRot, n_amp2, 0%nat); (HBoost, n_amp2, 0%nat); (HBoth, n_amp2, 0%nat); (HLab, n_amp2_Aplus, 1%nat); (HRot, n_amp2_Aplus, 1%nat); (HBoost, n_amp2_Aplus, 1%nat); (HBoth, n_amp2_Aplus, 1%nat); (HLab, n_amp2_Aminus, 2%nat); (HRot, n_amp2_Aminus, 2%nat); (HBoost, n_amp2_Aminus, 2%nat); (HBoth, n_amp2_Aminus, 2%nat)];
    TLoc v_pspatial (XInt 81);
    TRuns (XInt 0) (XVar v_MW) (XInt 0) (XVar v_MW) (XVar v_pspatial)
      [(HLab, n_amp2, 3%nat); (HRot, n_amp2, 3%nat); (HBoost, n_amp2, 3%nat); (HBoth, n_amp2, 3%nat); (HLab, n_amp2_Aplus, 4%nat); (HRot, n_amp2_Aplus, 4%nat); (HBoost, n_amp2_Aplus, 4%nat); (HBoth, n_amp2_Aplus, 4%nat); (HLab, n_amp2_Aminus, 5%nat); (HRot, n_amp2_Aminus, 5%nat); (HBoost, n_amp2_Aminus, 5%nat); (HBoth, n_amp2_Aminus, 5%nat)] ].

(** SM/AWWh.cpp 176-237 *)
Definition test_AWWh : test := mkTest AWWh
  [ TLoc v_mh (XInt 125);
    TLoc v_EE (XLit (31333 # 100000));
    TLoc v_MW (XLit (16077 # 200));
    TLoc v_SW (XLit (237 # 500));
    TNew [(XVar v_EE); (XVar v_mh); (XVar v_MW); (XVar v_SW); (XInt 0)];
    TLoc v_pspatial (XInt 250);
    TRuns (XInt 0) (XVar v_MW) (XVar v_MW) (XVar v_mh) (XVar v_pspatial)
      [(HLab, n_amp2, 0%nat); (HRot, n_amp2, 0%nat); (HBoost, n_amp2, 0%nat); (HBoth, n_amp2, 0%nat); (HLab, n_amp2_Aplus, 0%nat); (HRot, n_amp2_Aplus, 0%nat); (HBoost, n_amp2_Aplus, 0%nat); (HBoth, n_amp2_Aplus, 0%nat)];
    TLoc v_pspatial (XInt 125);
    TRuns (XInt 0) (XVar v_MW) (XVar v_MW) (XVar v_mh) (XVar v_pspatial)
      [(HLab, n_amp2, 1%nat); (HRot, n_amp2, 1%nat); (HBoost, n_amp2, 1%nat); (HBoth, n_amp2, 1%nat); (HLab, n_amp2_Aplus, 1%nat); (HRot, n_amp2_Aplus, 1%nat); (HBoost, n_amp2_Aplus, 1%nat); (HBoth, n_amp2_Aplus, 1%nat)];
    TLoc v_pspatial (XInt 90);
    TRuns (XInt 0) (XVar v_MW) (XVar v_MW) (XVar v_mh) (XVar v_pspatial)
      [(HLab, n_amp2, 2%nat); (HRot, n_amp2, 2%nat); (HBoost, n_amp2, 2%nat); (HBoth, n_amp2, 2%nat); (HLab, n_amp2_Aplus, 2%nat); (HRot, n_amp2_Aplus, 2%nat); (HBoost, n_amp2_Aplus, 2%nat); (HBoth, n_amp2_Aplus, 2%nat)];
    TLoc v_mh (XLit (1 # 2000));
    TLoc v_pspatial (XInt 95);
    TSet n_set_masses [(XVar v_mh); (XVar v_MW)];
    TRuns (XInt 0) (XVar v_MW) (XVar v_MW) (XVar v_mh) (XVar v_pspatial)
      [(HLab, n_amp2, 3%nat); (HRot, n_amp2, 3%nat); (HBoost, n_amp2, 3%nat); (HBoth, n_amp2, 3%nat); (HLab, n_amp2_Aplus, 3%nat); (HRot, n_amp2_Aplus, 3%nat); (HBoost, n_amp2_Aplus, 3%nat); (HBoth, n_amp2_Aplus, 3%nat)] ].

(** SM/AWZW.cpp 191-239 *)
Definition test_AWZW : test := mkTest AWZW
  [ TLoc v_EE (XLit (31333 # 100000));
    TLoc v_MW (XLit (16077 # 200));
    TLoc v_SW (XLit (237 # 500));
    TLoc v_MZ (XOp Div (XVar v_MW) (XSqrt (XOp Sub (XLit (1 # 1)) (XOp Mul (XVar v_SW) (XVar v_SW)))));
    TNew [(XVar v_EE); (XVar v_MW); (XVar v_SW); (XInt 0)];
    TLoc v_pspatial (XInt 250);
    TRuns (XInt 0) (XVar v_MW) (XVar v_MZ) (XVar v_MW) (XVar v_pspatial)
      [(HLab, n_amp2, 0%nat); (HRot, n_amp2, 0%nat); (HBoost, n_amp2, 0%nat); (HBoth, n_amp2, 0%nat); (HLab, n_amp2_Aplus, 0%nat); (HRot, n_amp2_Aplus, 0%nat); (HBoost, n_amp2_Aplus, 0%nat); (HBoth, n_amp2_Aplus, 0%nat)];
    TLoc v_pspatial (XInt 125);
    TRuns (XInt 0) (XVar v_MW) (XVar v_MZ) (XVar v_MW) (XVar v_pspatial)
      [(HLab, n_amp2, 1%nat); (HRot, n_amp2, 1%nat); (HBoost, n_amp2, 1%nat); (HBoth, n_amp2, 1%nat); (HLab, n_amp2_Aplus, 1%nat); (HRot, n_amp2_Aplus, 1%nat); (HBoost, n_amp2_Aplus, 1%nat); (HBoth, n_amp2_Aplus, 1%nat)];
    TLoc v_pspatial (XInt 70);
    TRuns (XInt 0) (XVar v_MW) (XVar v_MZ) (XVar v_MW) (XVar v_pspatial)
      [(HLab, n_amp2, 2%nat); (HRot, n_amp2, 2%nat); (HBoost, n_amp2, 2%nat); (HBoth, n_amp2, 2%nat); (HLab, n_amp2_Aplus, 2%nat); (HRot, n_amp2_Aplus, 2%nat); (HBoost, n_amp2_Aplus, 2%nat); (HBoth, n_amp2_Aplus, 2%nat)] ].

(** SM/AWud.cpp 192-286 *)
Definition test_AWud : test := mkTest AWud
  [ TLoc v_EE (XLit (31333 # 100000));
    TLoc v_mu (XLit (21 # 5000));
    TLoc v_md (XLit (3 # 400));
    TLoc v_MW (XLit (16077 # 200));
    TLoc v_SW (XLit (237 # 500));
    TNew [(XVar v_EE); (XVar v_mu); (XVar v_md); (XVar v_MW); (XVar v_SW); (XInt 0)];
    TLoc v_pspatial (XInt 250);
    TRuns (XInt 0) (XVar v_MW) (XVar v_mu) (XVar v_md) (XVar v_pspatial)
      [(HLab, n_amp2, 0%nat); (HRot, n_amp2, 0%nat); (HBoost, n_amp2, 0%nat); (HBoth, n_amp2, 0%nat); (HLab, n_amp2_Aplus, 1%nat); (HRot, n_amp2_Aplus, 1%nat); (HBoost, n_amp2_Aplus, 1%nat); (HBoth, n_amp2_Aplus, 1%nat)];
    TLoc v_pspatial (XInt 81);
    TRuns (XInt 0) (XVar v_MW) (XVar v_mu) (XVar v_md) (XVar v_pspatial)
      [(HLab, n_amp2, 2%nat); (HRot, n_amp2, 2%nat); (HBoost, n_amp2, 2%nat); (HBoth, n_amp2, 2%nat); (HLab, n_amp2_Aplus, 3%nat); (HRot, n_amp2_Aplus, 3%nat); (HBoost, n_amp2_Aplus, 3%nat); (HBoth, n_amp2_Aplus, 3%nat)];
    TLoc v_mu (XInt 80);
    TSet n_set_masses [(XVar v_mu); (XVar v_md); (XVar v_MW)];
    TLoc v_pspatial (XInt 250);
    TRuns (XInt 0) (XVar v_MW) (XVar v_mu) (XVar v_md) (XVar v_pspatial)
      [(HLab, n_amp2, 4%nat); (HRot, n_amp2, 4%nat); (HBoost, n_amp2, 4%nat); (HBoth, n_amp2, 4%nat); (HLab, n_amp2_Aplus, 5%nat); (HRot, n_amp2_Aplus, 5%nat); (HBoost, n_amp2_Aplus, 5%nat); (HBoth, n_amp2_Aplus, 5%nat)];
    TLoc v_pspatial (XInt 1);
    TRuns (XInt 0) (XVar v_MW) (XVar v_mu) (XVar v_md) (XVar v_pspatial)
      [(HLab, n_amp2, 6%nat); (HRot, n_amp2, 6%nat); (HBoost, n_amp2, 6%nat); (HBoth, n_amp2, 6%nat); (HLab, n_amp2_Aplus, 7%nat); (HRot, n_amp2_Aplus, 7%nat); (HBoost, n_amp2_Aplus, 7%nat); (HBoth, n_amp2_Aplus, 7%nat)];
    TLoc v_MW (XInt 1);
    TSet n_set_masses [(XVar v_mu); (XVar v_md); (XVar v_MW)];
    TLoc v_pspatial (XInt 250);
    TRuns (XInt 0) (XVar v_MW) (XVar v_mu) (XVar v_md) (XVar v_pspatial)
      [(HLab, n_amp2, 8%nat); (HRot, n_amp2, 8%nat); (HBoost, n_amp2, 8%nat); (HBoth, n_amp2, 8%nat); (HLab, n_amp2_Aplus, 9%nat); (HRot, n_amp2_Aplus, 9%nat); (HBoost, n_amp2_Aplus, 9%nat); (HBoth, n_amp2_Aplus, 9%nat)];
    TLoc v_mu (XInt 40);
    TLoc v_md (XInt 10);
    TSet n_set_masses [(XVar v_mu); (XVar v_md); (XVar v_MW)];
    TLoc v_pspatial (XInt 50);
    TRuns (XInt 0) (XVar v_MW) (XVar v_mu) (XVar v_md) (XVar v_pspatial)
      [(HLab, n_amp2, 10%nat); (HRot, n_amp2, 10%nat); (HBoost, n_amp2, 10%nat); (HBoth, n_amp2, 10%nat); (HLab, n_amp2_Aplus, 11%nat); (HRot, n_amp2_Aplus, 11%nat); (HBoost, n_amp2_Aplus, 11%nat); (HBoth, n_amp2_Aplus, 11%nat)] ].

(** SM/AZWW.cpp 189-237 *)
Definition test_AZWW : test := mkTest AZWW
  [ TLoc v_EE (XLit (31333 # 100000));
    TLoc v_MW (XLit (16077 # 200));
    TLoc v_SW (XLit (237 # 500));
    TLoc v_MZ (XOp Div (XVar v_MW) (XSqrt (XOp Sub (XLit (1 # 1)) (XOp Mul (XVar v_SW) (XVar v_SW)))));
    TNew [(XVar v_EE); (XVar v_MW); (XVar v_SW); (XInt 0)];
    TLoc v_pspatial (XInt 250);
    TRuns (XInt 0) (XVar v_MZ) (XVar v_MW) (XVar v_MW) (XVar v_pspatial)
      [(HLab, n_amp2, 0%nat); (HRot, n_amp2, 0%nat); (HBoost, n_amp2, 0%nat); (HBoth, n_amp2, 0%nat); (HLab, n_amp2_Aplus, 0%nat); (HRot, n_amp2_Aplus, 0%nat); (HBoost, n_amp2_Aplus, 0%nat); (HBoth, n_amp2_Aplus, 0%nat)];
    TLoc v_pspatial (XInt 125);
    TRuns (XInt 0) (XVar v_MZ) (XVar v_MW) (XVar v_MW) (XVar v_pspatial)
      [(HLab, n_amp2, 1%nat); (HRot, n_amp2, 1%nat); (HBoost, n_amp2, 1%nat); (HBoth, n_amp2, 1%nat); (HLab, n_amp2_Aplus, 1%nat); (HRot, n_amp2_Aplus, 1%nat); (HBoost, n_amp2_Aplus, 1%nat); (HBoth, n_amp2_Aplus, 1%nat)];
    TLoc v_pspatial (XInt 60);
    TRuns (XInt 0) (XVar v_MZ) (XVar v_MW) (XVar v_MW) (XVar v_pspatial)
      [(HLab, n_amp2, 2%nat); (HRot, n_amp2, 2%nat); (HBoost, n_amp2, 2%nat); (HBoth, n_amp2, 2%nat); (HLab, n_amp2_Aplus, 2%nat); (HRot, n_amp2_Aplus, 2%nat); (HBoost, n_amp2_Aplus, 2%nat); (HBoth, n_amp2_Aplus, 2%nat)] ].

(** SM/AZdd.cpp 201-290 *)
Definition test_AZdd : test := mkTest AZdd
  [ TLoc v_md (XLit (3 # 400));
    TLoc v_EE (XLit (31333 # 100000));
    TLoc v_MW (XLit (16077 # 200));
    TLoc v_SW (XLit (237 # 500));
    TLoc v_CW (XSqrt (XOp Sub (XInt 1) (XOp Mul (XVar v_SW) (XVar v_SW))));
    TLoc v_MZ (XOp Div (XVar v_MW) (XVar v_CW));
    TNew [(XVar v_EE); (XVar v_md); (XVar v_MW); (XVar v_SW)];
    TLoc v_pspatial (XInt 250);
    TRuns (XInt 0) (XVar v_MZ) (XVar v_md) (XVar v_md) (XVar v_pspatial)
      [(HLab, n_amp2_Aplus, 0%nat); (HRot, n_amp2_Aplus, 0%nat); (HBoost, n_amp2_Aplus, 0%nat); (HBoth, n_amp2_Aplus, 0%nat); (HLab, n_amp2_Aminus, 1%nat); (HRot, n_amp2_Aminus, 1%nat); (HBoost, n_amp2_Aminus, 1%nat); (HBoth, n_amp2_Aminus, 1%nat); (HLab, n_amp2, 2%nat); (HRot, n_amp2, 2%nat); (HBoost, n_amp2, 2%nat); (HBoth, n_amp2, 2%nat)];
    TLoc v_pspatial (XLit (1251 # 10));
    TRuns (XInt 0) (XVar v_MZ) (XVar v_md) (XVar v_md) (XVar v_pspatial)
      [(HLab, n_amp2_Aplus, 3%nat); (HRot, n_amp2_Aplus, 3%nat); (HBoost, n_amp2_Aplus, 3%nat); (HBoth, n_amp2_Aplus, 3%nat); (HLab, n_amp2_Aminus, 4%nat); (HRot, n_amp2_Aminus, 4%nat); (HBoost, n_amp2_Aminus, 4%nat); (HBoth, n_amp2_Aminus, 4%nat); (HLab, n_amp2, 5%nat); (HRot, n_amp2, 5%nat); (HBoost, n_amp2, 5%nat); (HBoth, n_amp2, 5%nat)];
    TLoc v_md (XInt 125);
    TLoc v_pspatial (XInt 250);
    TSet n_set_masses [(XVar v_md); (XVar v_MW)];
    TRuns (XInt 0) (XVar v_MZ) (XVar v_md) (XVar v_md) (XVar v_pspatial)
      [(HLab, n_amp2_Aplus, 6%nat); (HRot, n_amp2_Aplus, 6%nat); (HBoost, n_amp2_Aplus, 6%nat); (HBoth, n_amp2_Aplus, 6%nat); (HLab, n_amp2_Aminus, 7%nat); (HRot, n_amp2_Aminus, 7%nat); (HBoost, n_amp2_Aminus, 7%nat); (HBoth, n_amp2_Aminus, 7%nat); (HLab, n_amp2, 8%nat); (HRot, n_amp2, 8%nat); (HBoost, n_amp2, 8%nat); (HBoth, n_amp2, 8%nat)];
    TLoc v_md (XInt 125);
    TLoc v_pspatial (XLit (1251 # 10));
    TSet n_set_masses [(XVar v_md); (XVar v_MW)];
    TRuns (XInt 0) (XVar v_MZ) (XVar v_md) (XVar v_md) (XVar v_pspatial)
      [(HLab, n_amp2_Aplus, 9%nat); (HRot, n_amp2_Aplus, 9%nat); (HBoost, n_amp2_Aplus, 9%nat); (HBoth, n_amp2_Aplus, 9%nat); (HLab, n_amp2_Aminus, 10%nat); (HRot, n_amp2_Aminus, 10%nat); (HBoost, n_amp2_Aminus, 10%nat); (HBoth, n_amp2_Aminus, 10%nat); (HLab, n_amp2, 11%nat); (HRot, n_amp2, 11%nat); (HBoost, n_amp2, 11%nat); (HBoth, n_amp2, 11%nat)] ].

(** SM/AZee.cpp 201-290 *)
Definition test_AZee : test := mkTest AZee
  [ TLoc v_me (XLit (1 # 2000));
    TLoc v_EE (XLit (31333 # 100000));
    TLoc v_MW (XLit (16077 # 200));
    TLoc v_SW (XLit (237 # 500));
    TLoc v_CW (XSqrt (XOp Sub (XInt 1) (XOp Mul (XVar v_SW) (XVar v_SW))));
    TLoc v_MZ (XOp Div (XVar v_MW) (XVar v_CW));
    TNew [(XVar v_EE); (XVar v_me); (XVar v_MW); (XVar v_SW)];
    TLoc v_pspatial (XInt 250);
    TRuns (XInt 0) (XVar v_MZ) (XVar v_me) (XVar v_me) (XVar v_pspatial)
      [(HLab, n_amp2_Aplus, 0%nat); (HRot, n_amp2_Aplus, 0%nat); (HBoost, n_amp2_Aplus, 0%nat); (HBoth, n_amp2_Aplus, 0%nat); (HLab, n_amp2_Aminus, 1%nat); (HRot, n_amp2_Aminus, 1%nat); (HBoost, n_amp2_Aminus, 1%nat); (HBoth, n_amp2_Aminus, 1%nat); (HLab, n_amp2, 2%nat); (HRot, n_amp2, 2%nat); (HBoost, n_amp2, 2%nat); (HBoth, n_amp2, 2%nat)];
    TLoc v_pspatial (XLit (1251 # 10));
    TRuns (XInt 0) (XVar v_MZ) (XVar v_me) (XVar v_me) (XVar v_pspatial)
      [(HLab, n_amp2_Aplus, 3%nat); (HRot, n_amp2_Aplus, 3%nat); (HBoost, n_amp2_Aplus, 3%nat); (HBoth, n_amp2_Aplus, 3%nat); (HLab, n_amp2_Aminus, 4%nat); (HRot, n_amp2_Aminus, 4%nat); (HBoost, n_amp2_Aminus, 4%nat); (HBoth, n_amp2_Aminus, 4%nat); (HLab, n_amp2, 5%nat); (HRot, n_amp2, 5%nat); (HBoost, n_amp2, 5%nat); (HBoth, n_amp2, 5%nat)];
    TLoc v_me (XInt 125);
    TLoc v_pspatial (XInt 250);
    TSet n_set_masses [(XVar v_me); (XVar v_MW)];
    TRuns (XInt 0) (XVar v_MZ) (XVar v_me) (XVar v_me) (XVar v_pspatial)
      [(HLab, n_amp2_Aplus, 6%nat); (HRot, n_amp2_Aplus, 6%nat); (HBoost, n_amp2_Aplus, 6%nat); (HBoth, n_amp2_Aplus, 6%nat); (HLab, n_amp2_Aminus, 7%nat); (HRot, n_amp2_Aminus, 7%nat); (HBoost, n_amp2_Aminus, 7%nat); (HBoth, n_amp2_Aminus, 7%nat); (HLab, n_amp2, 8%nat); (HRot, n_amp2, 8%nat); (HBoost, n_amp2, 8%nat); (HBoth, n_amp2, 8%nat)];
    TLoc v_me (XInt 125);
    TLoc v_pspatial (XLit (1251 # 10));
    TSet n_set_masses [(XVar v_me); (XVar v_MW)];
    TRuns (XInt 0) (XVar v_MZ) (XVar v_me) (XVar v_me) (XVar v_pspatial)
      [(HLab, n_amp2_Aplus, 9%nat); (HRot, n_amp2_Aplus, 9%nat); (HBoost, n_amp2_Aplus, 9%nat); (HBoth, n_amp2_Aplus, 9%nat); (HLab, n_amp2_Aminus, 10%nat); (HRot, n_amp2_Aminus, 10%nat); (HBoost, n_amp2_Aminus, 10%nat); (HBoth, n_amp2_Aminus, 10%nat); (HLab, n_amp2, 11%nat); (HRot, n_amp2, 11%nat); (HBoost, n_amp2, 11%nat); (HBoth, n_amp2, 11%nat)] ].

(** SM/AZuu.cpp 201-290 *)
Definition test_AZuu : test := mkTest AZuu
  [ TLoc v_mu (XLit (21 # 5000));
    TLoc v_EE (XLit (31333 # 100000));
    TLoc v_MW (XLit (16077 # 200));
    TLoc v_SW (XLit (237 # 500));
    TLoc v_CW (XSqrt (XOp Sub (XInt 1) (XOp Mul (XVar v_SW) (XVar v_SW))));
    TLoc v_MZ (XOp Div (XVar v_MW) (XVar v_CW));
    TNew [(XVar v_EE); (XVar v_mu); (XVar v_MW); (XVar v_SW)];
    TLoc v_pspatial (XInt 250);
    TRuns (XInt 0) (XVar v_MZ) (XVar v_mu) (XVar v_mu) (XVar v_pspatial)
      [(HLab, n_amp2_Aplus, 0%nat); (HRot, n_amp2_Aplus, 0%nat); (HBoost, n_amp2_Aplus, 0%nat); (HBoth, n_amp2_Aplus, 0%nat); (HLab, n_amp2_Aminus, 1%nat); (HRot, n_amp2_Aminus, 1%nat); (HBoost, n_amp2_Aminus, 1%nat); (HBoth, n_amp2_Aminus, 1%nat); (HLab, n_amp2, 2%nat); (HRot, n_amp2, 2%nat); (HBoost, n_amp2, 2%nat); (HBoth, n_amp2, 2%nat)];
    TLoc v_pspatial (XLit (1251 # 10));
    TRuns (XInt 0) (XVar v_MZ) (XVar v_mu) (XVar v_mu) (XVar v_pspatial)
      [(HLab, n_amp2_Aplus, 3%nat); (HRot, n_amp2_Aplus, 3%nat); (HBoost, n_amp2_Aplus, 3%nat); (HBoth, n_amp2_Aplus, 3%nat); (HLab, n_amp2_Aminus, 4%nat); (HRot, n_amp2_Aminus, 4%nat); (HBoost, n_amp2_Aminus, 4%nat); (HBoth, n_amp2_Aminus, 4%nat); (HLab, n_amp2, 5%nat); (HRot, n_amp2, 5%nat); (HBoost, n_amp2, 5%nat); (HBoth, n_amp2, 5%nat)];
    TLoc v_mu (XInt 125);
    TLoc v_pspatial (XInt 250);
    TSet n_set_masses [(XVar v_mu); (XVar v_MW)];
    TRuns (XInt 0) (XVar v_MZ) (XVar v_mu) (XVar v_mu) (XVar v_pspatial)
      [(HLab, n_amp2_Aplus, 6%nat); (HRot, n_amp2_Aplus, 6%nat); (HBoost, n_amp2_Aplus, 6%nat); (HBoth, n_amp2_Aplus, 6%nat); (HLab, n_amp2_Aminus, 7%nat); (HRot, n_amp2_Aminus, 7%nat); (HBoost, n_amp2_Aminus, 7%nat); (HBoth, n_amp2_Aminus, 7%nat); (HLab, n_amp2, 8%nat); (HRot, n_amp2, 8%nat); (HBoost, n_amp2, 8%nat); (HBoth, n_amp2, 8%nat)];
    TLoc v_mu (XInt 125);
    TLoc v_pspatial (XLit (1251 # 10));
    TSet n_set_masses [(XVar v_mu); (XVar v_MW)];
    TRuns (XInt 0) (XVar v_MZ) (XVar v_mu) (XVar v_mu) (XVar v_pspatial)
      [(HLab, n_amp2_Aplus, 9%nat); (HRot, n_amp2_Aplus, 9%nat); (HBoost, n_amp2_Aplus, 9%nat); (HBoth, n_amp2_Aplus, 9%nat); (HLab, n_amp2_Aminus, 10%nat); (HRot, n_amp2_Aminus, 10%nat); (HBoost, n_amp2_Aminus, 10%nat); (HBoth, n_amp2_Aminus, 10%nat); (HLab, n_amp2, 11%nat); (HRot, n_amp2, 11%nat); (HBoost, n_amp2, 11%nat); (HBoth, n_amp2, 11%nat)] ].

(** SM/AdZd.cpp 207-296 *)
Definition test_AdZd : test := mkTest AdZd
  [ TLoc v_md (XLit (3 # 400));
    TLoc v_EE (XLit (31333 # 100000));
    TLoc v_MW (XLit (16077 # 200));
    TLoc v_SW (XLit (237 # 500));
    TLoc v_CW (XSqrt (XOp Sub (XInt 1) (XOp Mul (XVar v_SW) (XVar v_SW))));
    TLoc v_MZ (XOp Div (XVar v_MW) (XVar v_CW));
    TNew [(XVar v_EE); (XVar v_md); (XVar v_MW); (XVar v_SW)];
    TLoc v_pspatial (XInt 250);
    TRuns (XInt 0) (XVar v_md) (XVar v_MZ) (XVar v_md) (XVar v_pspatial)
      [(HLab, n_amp2_Aplus, 0%nat); (HRot, n_amp2_Aplus, 0%nat); (HBoost, n_amp2_Aplus, 0%nat); (HBoth, n_amp2_Aplus, 0%nat); (HLab, n_amp2_Aminus, 1%nat); (HRot, n_amp2_Aminus, 1%nat); (HBoost, n_amp2_Aminus, 1%nat); (HBoth, n_amp2_Aminus, 1%nat); (HLab, n_amp2, 2%nat); (HRot, n_amp2, 2%nat); (HBoost, n_amp2, 2%nat); (HBoth, n_amp2, 2%nat)];
    TLoc v_pspatial (XLit (1251 # 10));
    TRuns (XInt 0) (XVar v_md) (XVar v_MZ) (XVar v_md) (XVar v_pspatial)
      [(HLab, n_amp2_Aplus, 3%nat); (HRot, n_amp2_Aplus, 3%nat); (HBoost, n_amp2_Aplus, 3%nat); (HBoth, n_amp2_Aplus, 3%nat); (HLab, n_amp2_Aminus, 4%nat); (HRot, n_amp2_Aminus, 4%nat); (HBoost, n_amp2_Aminus, 4%nat); (HBoth, n_amp2_Aminus, 4%nat); (HLab, n_amp2, 5%nat); (HRot, n_amp2, 5%nat); (HBoost, n_amp2, 5%nat); (HBoth, n_amp2, 5%nat)];
    TLoc v_md (XInt 125);
    TLoc v_pspatial (XInt 250);
    TSet n_set_masses [(XVar v_md); (XVar v_MW)];
    TRuns (XInt 0) (XVar v_md) (XVar v_MZ) (XVar v_md) (XVar v_pspatial)
      [(HLab, n_amp2_Aplus, 6%nat); (HRot, n_amp2_Aplus, 6%nat); (HBoost, n_amp2_Aplus, 6%nat); (HBoth, n_amp2_Aplus, 6%nat); (HLab, n_amp2_Aminus, 7%nat); (HRot, n_amp2_Aminus, 7%nat); (HBoost, n_amp2_Aminus, 7%nat); (HBoth, n_amp2_Aminus, 7%nat); (HLab, n_amp2, 8%nat); (HRot, n_amp2, 8%nat); (HBoost, n_amp2, 8%nat); (HBoth, n_amp2, 8%nat)];
    TLoc v_md (XInt 125);
    TLoc v_pspatial (XLit (1251 # 10));
    TSet n_set_masses [(XVar v_md); (XVar v_MW)];
    TRuns (XInt 0) (XVar v_md) (XVar v_MZ) (XVar v_md) (XVar v_pspatial)
      [(HLab, n_amp2_Aplus, 9%nat); (HRot, n_amp2_Aplus, 9%nat); (HBoost, n_amp2_Aplus, 9%nat); (HBoth, n_amp2_Aplus, 9%nat); (HLab, n_amp2_Aminus, 10%nat); (HRot, n_amp2_Aminus, 10%nat); (HBoost, n_amp2_Aminus, 10%nat); (HBoth, n_amp2_Aminus, 10%nat); (HLab, n_amp2, 11%nat); (HRot, n_amp2, 11%nat); (HBoost, n_amp2, 11%nat); (HBoth, n_amp2, 11%nat)] ].

(** SM/AeZe.cpp 206-293 *)
Definition test_AeZe : test := mkTest AeZe
  [ TLoc v_me (XLit (1 # 2000));
    TLoc v_EE (XLit (31333 # 100000));
    TLoc v_MW (XLit (16077 # 200));
    TLoc v_SW (XLit (237 # 500));
    TLoc v_CW (XSqrt (XOp Sub (XInt 1) (XOp Mul (XVar v_SW) (XVar v_SW))));
    TLoc v_MZ (XOp Div (XVar v_MW) (XVar v_CW));
    TNew [(XVar v_EE); (XVar v_me); (XVar v_MW); (XVar v_SW)];
    TLoc v_pspatial (XInt 250);
    TRuns (XInt 0) (XVar v_me) (XVar v_MZ) (XVar v_me) (XVar v_pspatial)
      [(HLab, n_amp2_Aplus, 0%nat); (HRot, n_amp2_Aplus, 0%nat); (HBoost, n_amp2_Aplus, 0%nat); (HBoth, n_amp2_Aplus, 0%nat); (HLab, n_amp2_Aminus, 1%nat); (HRot, n_amp2_Aminus, 1%nat); (HBoost, n_amp2_Aminus, 1%nat); (HBoth, n_amp2_Aminus, 1%nat); (HLab, n_amp2, 2%nat); (HRot, n_amp2, 2%nat); (HBoost, n_amp2, 2%nat); (HBoth, n_amp2, 2%nat)];
    TLoc v_pspatial (XInt 92);
    TRuns (XInt 0) (XVar v_me) (XVar v_MZ) (XVar v_me) (XVar v_pspatial)
      [(HLab, n_amp2_Aplus, 3%nat); (HRot, n_amp2_Aplus, 3%nat); (HBoost, n_amp2_Aplus, 3%nat); (HBoth, n_amp2_Aplus, 3%nat); (HLab, n_amp2_Aminus, 4%nat); (HRot, n_amp2_Aminus, 4%nat); (HBoost, n_amp2_Aminus, 4%nat); (HBoth, n_amp2_Aminus, 4%nat); (HLab, n_amp2, 5%nat); (HRot, n_amp2, 5%nat); (HBoost, n_amp2, 5%nat); (HBoth, n_amp2, 5%nat)];
    TLoc v_me (XInt 125);
    TLoc v_pspatial (XInt 250);
    TSet n_set_masses [(XVar v_me); (XVar v_MW)];
    TRuns (XInt 0) (XVar v_me) (XVar v_MZ) (XVar v_me) (XVar v_pspatial)
      [(HLab, n_amp2_Aplus, 6%nat); (HRot, n_amp2_Aplus, 6%nat); (HBoost, n_amp2_Aplus, 6%nat); (HBoth, n_amp2_Aplus, 6%nat); (HLab, n_amp2_Aminus, 7%nat); (HRot, n_amp2_Aminus, 7%nat); (HBoost, n_amp2_Aminus, 7%nat); (HBoth, n_amp2_Aminus, 7%nat); (HLab, n_amp2, 8%nat); (HRot, n_amp2, 8%nat); (HBoost, n_amp2, 8%nat); (HBoth, n_amp2, 8%nat)];
    TLoc v_pspatial (XInt 92);
    TRuns (XInt 0) (XVar v_me) (XVar v_MZ) (XVar v_me) (XVar v_pspatial)
      [(HLab, n_amp2_Aplus, 9%nat); (HRot, n_amp2_Aplus, 9%nat); (HBoost, n_amp2_Aplus, 9%nat); (HBoth, n_amp2_Aplus, 9%nat); (HLab, n_amp2_Aminus, 10%nat); (HRot, n_amp2_Aminus, 10%nat); (HBoost, n_amp2_Aminus, 10%nat); (HBoth, n_amp2_Aminus, 10%nat); (HLab, n_amp2, 11%nat); (HRot, n_amp2, 11%nat); (HBoost, n_amp2, 11%nat); (HBoth, n_amp2, 11%nat)] ].

(** SM/AhWW.cpp 173-234 *)
Definition test_AhWW : test := mkTest AhWW
  [ TLoc v_mh (XInt 125);
    TLoc v_EE (XLit (31333 # 100000));
    TLoc v_MW (XLit (16077 # 200));
    TLoc v_SW (XLit (237 # 500));
    TNew [(XVar v_EE); (XVar v_mh); (XVar v_MW); (XVar v_SW); (XInt 0)];
    TLoc v_pspatial (XInt 250);
    TRuns (XInt 0) (XVar v_mh) (XVar v_MW) (XVar v_MW) (XVar v_pspatial)
      [(HLab, n_amp2, 0%nat); (HRot, n_amp2, 0%nat); (HBoost, n_amp2, 0%nat); (HBoth, n_amp2, 0%nat); (HLab, n_amp2_Aplus, 0%nat); (HRot, n_amp2_Aplus, 0%nat); (HBoost, n_amp2_Aplus, 0%nat); (HBoth, n_amp2_Aplus, 0%nat)];
    TLoc v_pspatial (XInt 125);
    TRuns (XInt 0) (XVar v_mh) (XVar v_MW) (XVar v_MW) (XVar v_pspatial)
      [(HLab, n_amp2, 1%nat); (HRot, n_amp2, 1%nat); (HBoost, n_amp2, 1%nat); (HBoth, n_amp2, 1%nat); (HLab, n_amp2_Aplus, 1%nat); (HRot, n_amp2_Aplus, 1%nat); (HBoost, n_amp2_Aplus, 1%nat); (HBoth, n_amp2_Aplus, 1%nat)];
    TLoc v_pspatial (XInt 40);
    TRuns (XInt 0) (XVar v_mh) (XVar v_MW) (XVar v_MW) (XVar v_pspatial)
      [(HLab, n_amp2, 2%nat); (HRot, n_amp2, 2%nat); (HBoost, n_amp2, 2%nat); (HBoth, n_amp2, 2%nat); (HLab, n_amp2_Aplus, 2%nat); (HRot, n_amp2_Aplus, 2%nat); (HBoost, n_amp2_Aplus, 2%nat); (HBoth, n_amp2_Aplus, 2%nat)];
    TLoc v_mh (XLit (1 # 2000));
    TLoc v_pspatial (XInt 95);
    TSet n_set_masses [(XVar v_mh); (XVar v_MW)];
    TRuns (XInt 0) (XVar v_mh) (XVar v_MW) (XVar v_MW) (XVar v_pspatial)
      [(HLab, n_amp2, 3%nat); (HRot, n_amp2, 3%nat); (HBoost, n_amp2, 3%nat); (HBoth, n_amp2, 3%nat); (HLab, n_amp2_Aplus, 3%nat); (HRot, n_amp2_Aplus, 3%nat); (HBoost, n_amp2_Aplus, 3%nat); (HBoth, n_amp2_Aplus, 3%nat)] ].

(** SM/AnWe.cpp 179-269 *)
Definition test_AnWe : test := mkTest AnWe
  [ TLoc v_EE (XLit (31333 # 100000));
    TLoc v_me (XLit (1 # 2000));
    TLoc v_MW (XLit (16077 # 200));
    TLoc v_SW (XLit (237 # 500));
    TNew [(XVar v_EE); (XVar v_me); (XVar v_MW); (XVar v_SW); (XInt 0)];
    TLoc v_pspatial (XInt 250);
    TRuns (XInt 0) (XInt 0) (XVar v_MW) (XVar v_me) (XVar v_pspatial)
      [(HLab, n_amp2, 0%nat); (HRot, n_amp2, 0%nat); (HBoost, n_amp2, 0%nat); (HBoth, n_amp2, 0%nat); (HLab, n_amp2_Aplus, 1%nat); (HRot, n_amp2_Aplus, 1%nat); (HBoost, n_amp2_Aplus, 1%nat); (HBoth, n_amp2_Aplus, 1%nat)];
    TLoc v_pspatial (XInt 81);
    TRuns (XInt 0) (XInt 0) (XVar v_MW) (XVar v_me) (XVar v_pspatial)
      [(HLab, n_amp2, 2%nat); (HRot, n_amp2, 2%nat); (HBoost, n_amp2, 2%nat); (HBoth, n_amp2, 2%nat); (HLab, n_amp2_Aplus, 3%nat); (HRot, n_amp2_Aplus, 3%nat); (HBoost, n_amp2_Aplus, 3%nat); (HBoth, n_amp2_Aplus, 3%nat)];
    TLoc v_me (XInt 80);
    TSet n_set_masses [(XVar v_me); (XVar v_MW)];
    TLoc v_pspatial (XInt 250);
    TRuns (XInt 0) (XInt 0) (XVar v_MW) (XVar v_me) (XVar v_pspatial)
      [(HLab, n_amp2, 4%nat); (HRot, n_amp2, 4%nat); (HBoost, n_amp2, 4%nat); (HBoth, n_amp2, 4%nat); (HLab, n_amp2_Aplus, 5%nat); (HRot, n_amp2_Aplus, 5%nat); (HBoost, n_amp2_Aplus, 5%nat); (HBoth, n_amp2_Aplus, 5%nat)];
    TLoc v_pspatial (XInt 81);
    TRuns (XInt 0) (XInt 0) (XVar v_MW) (XVar v_me) (XVar v_pspatial)
      [(HLab, n_amp2, 6%nat); (HRot, n_amp2, 6%nat); (HBoost, n_amp2, 6%nat); (HBoth, n_amp2, 6%nat); (HLab, n_amp2_Aplus, 7%nat); (HRot, n_amp2_Aplus, 7%nat); (HBoost, n_amp2_Aplus, 7%nat); (HBoth, n_amp2_Aplus, 7%nat)];
    TLoc v_MW (XInt 1);
    TSet n_set_masses [(XVar v_me); (XVar v_MW)];
    TLoc v_pspatial (XInt 250);
    TRuns (XInt 0) (XInt 0) (XVar v_MW) (XVar v_me) (XVar v_pspatial)
      [(HLab, n_amp2, 8%nat); (HRot, n_amp2, 8%nat); (HBoost, n_amp2, 8%nat); (HBoth, n_amp2, 8%nat); (HLab, n_amp2_Aplus, 9%nat); (HRot, n_amp2_Aplus, 9%nat); (HBoost, n_amp2_Aplus, 9%nat); (HBoth, n_amp2_Aplus, 9%nat)];
    TLoc v_pspatial (XInt 81);
    TRuns (XInt 0) (XInt 0) (XVar v_MW) (XVar v_me) (XVar v_pspatial)
      [(HLab, n_amp2, 10%nat); (HRot, n_amp2, 10%nat); (HBoost, n_amp2, 10%nat); (HBoth, n_amp2, 10%nat); (HLab, n_amp2_Aplus, 11%nat); (HRot, n_amp2_Aplus, 11%nat); (HBoost, n_amp2_Aplus, 11%nat); (HBoth, n_amp2_Aplus, 11%nat)] ].

(** SM/AuZu.cpp 209-298 *)
Definition test_AuZu : test := mkTest AuZu
  [ TLoc v_mu (XLit (21 # 5000));
    TLoc v_EE (XLit (31333 # 100000));
    TLoc v_MW (XLit (16077 # 200));
    TLoc v_SW (XLit (237 # 500));
    TLoc v_CW (XSqrt (XOp Sub (XInt 1) (XOp Mul (XVar v_SW) (XVar v_SW))));
    TLoc v_MZ (XOp Div (XVar v_MW) (XVar v_CW));
    TNew [(XVar v_EE); (XVar v_mu); (XVar v_MW); (XVar v_SW)];
    TLoc v_pspatial (XInt 250);
    TRuns (XInt 0) (XVar v_mu) (XVar v_MZ) (XVar v_mu) (XVar v_pspatial)
      [(HLab, n_amp2_Aplus, 0%nat); (HRot, n_amp2_Aplus, 0%nat); (HBoost, n_amp2_Aplus, 0%nat); (HBoth, n_amp2_Aplus, 0%nat); (HLab, n_amp2_Aminus, 1%nat); (HRot, n_amp2_Aminus, 1%nat); (HBoost, n_amp2_Aminus, 1%nat); (HBoth, n_amp2_Aminus, 1%nat); (HLab, n_amp2, 2%nat); (HRot, n_amp2, 2%nat); (HBoost, n_amp2, 2%nat); (HBoth, n_amp2, 2%nat)];
    TLoc v_pspatial (XLit (1251 # 10));
    TRuns (XInt 0) (XVar v_mu) (XVar v_MZ) (XVar v_mu) (XVar v_pspatial)
      [(HLab, n_amp2_Aplus, 3%nat); (HRot, n_amp2_Aplus, 3%nat); (HBoost, n_amp2_Aplus, 3%nat); (HBoth, n_amp2_Aplus, 3%nat); (HLab, n_amp2_Aminus, 4%nat); (HRot, n_amp2_Aminus, 4%nat); (HBoost, n_amp2_Aminus, 4%nat); (HBoth, n_amp2_Aminus, 4%nat); (HLab, n_amp2, 5%nat); (HRot, n_amp2, 5%nat); (HBoost, n_amp2, 5%nat); (HBoth, n_amp2, 5%nat)];
    TLoc v_mu (XInt 125);
    TLoc v_pspatial (XInt 250);
    TSet n_set_masses [(XVar v_mu); (XVar v_MW)];
    TRuns (XInt 0) (XVar v_mu) (XVar v_MZ) (XVar v_mu) (XVar v_pspatial)
      [(HLab, n_amp2_Aplus, 6%nat); (HRot, n_amp2_Aplus, 6%nat); (HBoost, n_amp2_Aplus, 6%nat); (HBoth, n_amp2_Aplus, 6%nat); (HLab, n_amp2_Aminus, 7%nat); (HRot, n_amp2_Aminus, 7%nat); (HBoost, n_amp2_Aminus, 7%nat); (HBoth, n_amp2_Aminus, 7%nat); (HLab, n_amp2, 8%nat); (HRot, n_amp2, 8%nat); (HBoost, n_amp2, 8%nat); (HBoth, n_amp2, 8%nat)];
    TLoc v_mu (XInt 125);
    TLoc v_pspatial (XLit (1251 # 10));
    TSet n_set_masses [(XVar v_mu); (XVar v_MW)];
    TRuns (XInt 0) (XVar v_mu) (XVar v_MZ) (XVar v_mu) (XVar v_pspatial)
      [(HLab, n_amp2_Aplus, 9%nat); (HRot, n_amp2_Aplus, 9%nat); (HBoost, n_amp2_Aplus, 9%nat); (HBoth, n_amp2_Aplus, 9%nat); (HLab, n_amp2_Aminus, 10%nat); (HRot, n_amp2_Aminus, 10%nat); (HBoost, n_amp2_Aminus, 10%nat); (HBoth, n_amp2_Aminus, 10%nat); (HLab, n_amp2, 11%nat); (HRot, n_amp2, 11%nat); (HBoost, n_amp2, 11%nat); (HBoth, n_amp2, 11%nat)] ].

(** SM/WWWW.cpp 294-391 *)
Definition test_WWWW : test := mkTest WWWW
  [ TLoc v_mh (XInt 125);
    TLoc v_EE (XLit (31333 # 100000));
    TLoc v_MW (XLit (16077 # 200));
    TLoc v_SW (XLit (237 # 500));
    TLoc v_CW (XSqrt (XOp Sub (XInt 1) (XOp Mul (XVar v_SW) (XVar v_SW))));
    TLoc v_MZ (XOp Div (XVar v_MW) (XVar v_CW));
    TNew [(XVar v_EE); (XVar v_mh); (XInt 0); (XVar v_MW); (XInt 0); (XVar v_SW)];
    TLoc v_pspatial (XInt 250);
    TRuns (XVar v_MW) (XVar v_MW) (XVar v_MW) (XVar v_MW) (XVar v_pspatial)
      [(HLab, n_amp2, 0%nat); (HRot, n_amp2, 0%nat); (HBoost, n_amp2, 0%nat); (HBoth, n_amp2, 0%nat)];
    TLoc v_pspatial (XInt 125);
    TRuns (XVar v_MW) (XVar v_MW) (XVar v_MW) (XVar v_MW) (XVar v_pspatial)
      [(HLab, n_amp2, 1%nat); (HRot, n_amp2, 1%nat); (HBoost, n_amp2, 1%nat); (HBoth, n_amp2, 1%nat)];
    TLoc v_pspatial (XInt 1);
    TRuns (XVar v_MW) (XVar v_MW) (XVar v_MW) (XVar v_MW) (XVar v_pspatial)
      [(HLab, n_amp2, 2%nat); (HRot, n_amp2, 2%nat); (HBoost, n_amp2, 2%nat); (HBoth, n_amp2, 2%nat)];
    TLoc v_mh (XInt 1);
    TSet n_set_masses [(XVar v_mh); (XVar v_MW)];
    TLoc v_pspatial (XInt 250);
    TRuns (XVar v_MW) (XVar v_MW) (XVar v_MW) (XVar v_MW) (XVar v_pspatial)
      [(HLab, n_amp2, 3%nat); (HRot, n_amp2, 3%nat); (HBoost, n_amp2, 3%nat); (HBoth, n_amp2, 3%nat)];
    TLoc v_pspatial (XInt 125);
    TRuns (XVar v_MW) (XVar v_MW) (XVar v_MW) (XVar v_MW) (XVar v_pspatial)
      [(HLab, n_amp2, 4%nat); (HRot, n_amp2, 4%nat); (HBoost, n_amp2, 4%nat); (HBoth, n_amp2, 4%nat)];
    TLoc v_pspatial (XInt 1);
    TRuns (XVar v_MW) (XVar v_MW) (XVar v_MW) (XVar v_MW) (XVar v_pspatial)
      [(HLab, n_amp2, 5%nat); (HRot, n_amp2, 5%nat); (HBoost, n_amp2, 5%nat); (HBoth, n_amp2, 5%nat)];
    TLoc v_mh (XInt 125);
    TLoc v_MW (XInt 50);
    TLoc v_MZ (XOp Div (XVar v_MW) (XVar v_CW));
    TSet n_set_masses [(XVar v_mh); (XVar v_MW)];
    TLoc v_pspatial (XInt 125);
    TRuns (XVar v_MW) (XVar v_MW) (XVar v_MW) (XVar v_MW) (XVar v_pspatial)
      [(HLab, n_amp2, 6%nat); (HRot, n_amp2, 6%nat); (HBoost, n_amp2, 6%nat); (HBoth, n_amp2, 6%nat)];
    TLoc v_pspatial (XInt 1);
    TRuns (XVar v_MW) (XVar v_MW) (XVar v_MW) (XVar v_MW) (XVar v_pspatial)
      [(HLab, n_amp2, 7%nat); (HRot, n_amp2, 7%nat); (HBoost, n_amp2, 7%nat); (HBoth, n_amp2, 7%nat)];
    TLoc v_mh (XInt 1);
    TLoc v_MW (XInt 50);
    TLoc v_MZ (XOp Div (XVar v_MW) (XVar v_CW));
    TSet n_set_masses [(XVar v_mh); (XVar v_MW)];
    TLoc v_pspatial (XInt 125);
    TRuns (XVar v_MW) (XVar v_MW) (XVar v_MW) (XVar v_MW) (XVar v_pspatial)
      [(HLab, n_amp2, 8%nat); (HRot, n_amp2, 8%nat); (HBoost, n_amp2, 8%nat); (HBoth, n_amp2, 8%nat)];
    TLoc v_pspatial (XInt 1);
    TRuns (XVar v_MW) (XVar v_MW) (XVar v_MW) (XVar v_MW) (XVar v_pspatial)
      [(HLab, n_amp2, 9%nat); (HRot, n_amp2, 9%nat); (HBoost, n_amp2, 9%nat); (HBoth, n_amp2, 9%nat)] ].

(** SM/WWWW2.cpp 298-395 *)
Definition test_WWWW2 : test := mkTest WWWW2
  [ TLoc v_mh (XInt 125);
    TLoc v_EE (XLit (31333 # 100000));
    TLoc v_MW (XLit (16077 # 200));
    TLoc v_SW (XLit (237 # 500));
    TLoc v_CW (XSqrt (XOp Sub (XInt 1) (XOp Mul (XVar v_SW) (XVar v_SW))));
    TLoc v_MZ (XOp Div (XVar v_MW) (XVar v_CW));
    TNew [(XVar v_EE); (XVar v_mh); (XInt 0); (XVar v_MW); (XInt 0); (XVar v_SW)];
    TLoc v_pspatial (XInt 250);
    TRuns (XVar v_MW) (XVar v_MW) (XVar v_MW) (XVar v_MW) (XVar v_pspatial)
      [(HLab, n_amp2, 0%nat); (HRot, n_amp2, 0%nat); (HBoost, n_amp2, 0%nat); (HBoth, n_amp2, 0%nat)];
    TLoc v_pspatial (XInt 125);
    TRuns (XVar v_MW) (XVar v_MW) (XVar v_MW) (XVar v_MW) (XVar v_pspatial)
      [(HLab, n_amp2, 1%nat); (HRot, n_amp2, 1%nat); (HBoost, n_amp2, 1%nat); (HBoth, n_amp2, 1%nat)];
    TLoc v_pspatial (XInt 1);
    TRuns (XVar v_MW) (XVar v_MW) (XVar v_MW) (XVar v_MW) (XVar v_pspatial)
      [(HLab, n_amp2, 2%nat); (HRot, n_amp2, 2%nat); (HBoost, n_amp2, 2%nat); (HBoth, n_amp2, 2%nat)];
    TLoc v_mh (XInt 1);
    TSet n_set_masses [(XVar v_mh); (XVar v_MW)];
    TLoc v_pspatial (XInt 250);
    TRuns (XVar v_MW) (XVar v_MW) (XVar v_MW) (XVar v_MW) (XVar v_pspatial)
      [(HLab, n_amp2, 3%nat); (HRot, n_amp2, 3%nat); (HBoost, n_amp2, 3%nat); (HBoth, n_amp2, 3%nat)];
    TLoc v_pspatial (XInt 125);
    TRuns (XVar v_MW) (XVar v_MW) (XVar v_MW) (XVar v_MW) (XVar v_pspatial)
      [(HLab, n_amp2, 4%nat); (HRot, n_amp2, 4%nat); (HBoost, n_amp2, 4%nat); (HBoth, n_amp2, 4%nat)];
    TLoc v_pspatial (XInt 1);
    TRuns (XVar v_MW) (XVar v_MW) (XVar v_MW) (XVar v_MW) (XVar v_pspatial)
      [(HLab, n_amp2, 5%nat); (HRot, n_amp2, 5%nat); (HBoost, n_amp2, 5%nat); (HBoth, n_amp2, 5%nat)];
    TLoc v_mh (XInt 125);
    TLoc v_MW (XInt 50);
    TLoc v_MZ (XOp Div (XVar v_MW) (XVar v_CW));
    TSet n_set_masses [(XVar v_mh); (XVar v_MW)];
    TLoc v_pspatial (XInt 125);
    TRuns (XVar v_MW) (XVar v_MW) (XVar v_MW) (XVar v_MW) (XVar v_pspatial)
      [(HLab, n_amp2, 6%nat); (HRot, n_amp2, 6%nat); (HBoost, n_amp2, 6%nat); (HBoth, n_amp2, 6%nat)];
    TLoc v_pspatial (XInt 1);
    TRuns (XVar v_MW) (XVar v_MW) (XVar v_MW) (XVar v_MW) (XVar v_pspatial)
      [(HLab, n_amp2, 7%nat); (HRot, n_amp2, 7%nat); (HBoost, n_amp2, 7%nat); (HBoth, n_amp2, 7%nat)];
    TLoc v_mh (XInt 1);
    TLoc v_MW (XInt 50);
    TLoc v_MZ (XOp Div (XVar v_MW) (XVar v_CW));
    TSet n_set_masses [(XVar v_mh); (XVar v_MW)];
    TLoc v_pspatial (XInt 125);
    TRuns (XVar v_MW) (XVar v_MW) (XVar v_MW) (XVar v_MW) (XVar v_pspatial)
      [(HLab, n_amp2, 8%nat); (HRot, n_amp2, 8%nat); (HBoost, n_amp2, 8%nat); (HBoth, n_amp2, 8%nat)];
    TLoc v_pspatial (XInt 1);
    TRuns (XVar v_MW) (XVar v_MW) (XVar v_MW) (XVar v_MW) (XVar v_pspatial)
      [(HLab, n_amp2, 9%nat); (HRot, n_amp2, 9%nat); (HBoost, n_amp2, 9%nat); (HBoth, n_amp2, 9%nat)] ].

(** SM/WdWd.cpp 231-283 *)
Definition test_WdWd : test := mkTest WdWd
  [ TLoc v_md (XLit (3 # 400));
    TLoc v_mu (XLit (21 # 5000));
    TLoc v_mh (XInt 125);
    TLoc v_EE (XLit (31333 # 100000));
    TLoc v_MW (XLit (16077 # 200));
    TLoc v_SW (XLit (237 # 500));
    TLoc v_CW (XSqrt (XOp Sub (XInt 1) (XOp Mul (XVar v_SW) (XVar v_SW))));
    TLoc v_MZ (XOp Div (XVar v_MW) (XVar v_CW));
    TNew [(XVar v_EE); (XVar v_md); (XVar v_mu); (XVar v_mh); (XInt 0); (XVar v_MW); (XVar v_SW); (XInt 0)];
    TLoc v_pspatial (XInt 250);
    TRuns (XVar v_MW) (XVar v_md) (XVar v_MW) (XVar v_md) (XVar v_pspatial)
      [(HLab, n_amp2, 0%nat); (HRot, n_amp2, 0%nat); (HBoost, n_amp2, 0%nat); (HBoth, n_amp2, 0%nat)];
    TLoc v_pspatial (XLit (1251 # 10));
    TRuns (XVar v_MW) (XVar v_md) (XVar v_MW) (XVar v_md) (XVar v_pspatial)
      [(HLab, n_amp2, 1%nat); (HRot, n_amp2, 1%nat); (HBoost, n_amp2, 1%nat); (HBoth, n_amp2, 1%nat)];
    TLoc v_md (XLit (1251 # 10));
    TLoc v_mh (XInt 125);
    TLoc v_pspatial (XInt 95);
    TSet n_set_masses [(XVar v_md); (XVar v_mu); (XVar v_mh); (XVar v_MW)];
    TRuns (XVar v_MW) (XVar v_md) (XVar v_MW) (XVar v_md) (XVar v_pspatial)
      [(HLab, n_amp2, 2%nat); (HRot, n_amp2, 2%nat); (HBoost, n_amp2, 2%nat); (HBoth, n_amp2, 2%nat)];
    TLoc v_md (XInt 125);
    TLoc v_mh (XLit (1 # 2000));
    TLoc v_pspatial (XLit (1251 # 10));
    TSet n_set_masses [(XVar v_md); (XVar v_mu); (XVar v_mh); (XVar v_MW)];
    TRuns (XVar v_MW) (XVar v_md) (XVar v_MW) (XVar v_md) (XVar v_pspatial)
      [(HLab, n_amp2, 3%nat); (HRot, n_amp2, 3%nat); (HBoost, n_amp2, 3%nat); (HBoth, n_amp2, 3%nat)] ].

(** SM/WdZu.cpp 212-282 *)
Definition test_WdZu : test := mkTest WdZu
  [ TLoc v_EE (XLit (31333 # 100000));
    TLoc v_mu (XLit (21 # 5000));
    TLoc v_md (XLit (3 # 400));
    TLoc v_MW (XLit (16077 # 200));
    TLoc v_SW (XLit (237 # 500));
    TLoc v_CW (XSqrt (XOp Sub (XInt 1) (XOp Mul (XVar v_SW) (XVar v_SW))));
    TLoc v_MZ (XOp Div (XVar v_MW) (XVar v_CW));
    TNew [(XVar v_EE); (XVar v_mu); (XVar v_md); (XVar v_MW); (XVar v_SW); (XInt 0)];
    TLoc v_pspatial (XInt 250);
    TRuns (XVar v_MW) (XVar v_md) (XVar v_MZ) (XVar v_mu) (XVar v_pspatial)
      [(HLab, n_amp2, 0%nat); (HRot, n_amp2, 0%nat); (HBoost, n_amp2, 0%nat); (HBoth, n_amp2, 0%nat)];
    TLoc v_pspatial (XInt 90);
    TRuns (XVar v_MW) (XVar v_md) (XVar v_MZ) (XVar v_mu) (XVar v_pspatial)
      [(HLab, n_amp2, 1%nat); (HRot, n_amp2, 1%nat); (HBoost, n_amp2, 1%nat); (HBoth, n_amp2, 1%nat)];
    TLoc v_mu (XInt 80);
    TSet n_set_masses [(XVar v_mu); (XVar v_md); (XVar v_MW)];
    TLoc v_pspatial (XInt 250);
    TRuns (XVar v_MW) (XVar v_md) (XVar v_MZ) (XVar v_mu) (XVar v_pspatial)
      [(HLab, n_amp2, 2%nat); (HRot, n_amp2, 2%nat); (HBoost, n_amp2, 2%nat); (HBoth, n_amp2, 2%nat)];
    TLoc v_pspatial (XInt 70);
    TRuns (XVar v_MW) (XVar v_md) (XVar v_MZ) (XVar v_mu) (XVar v_pspatial)
      [(HLab, n_amp2, 3%nat); (HRot, n_amp2, 3%nat); (HBoost, n_amp2, 3%nat); (HBoth, n_amp2, 3%nat)];
    TLoc v_mu (XInt 80);
    TLoc v_md (XInt 40);
    TLoc v_MW (XInt 30);
    TLoc v_MZ (XOp Div (XVar v_MW) (XVar v_CW));
    TSet n_set_masses [(XVar v_mu); (XVar v_md); (XVar v_MW)];
    TLoc v_pspatial (XInt 250);
    TRuns (XVar v_MW) (XVar v_md) (XVar v_MZ) (XVar v_mu) (XVar v_pspatial)
      [(HLab, n_amp2, 4%nat); (HRot, n_amp2, 4%nat); (HBoost, n_amp2, 4%nat); (HBoth, n_amp2, 4%nat)];
    TLoc v_mu (XInt 80);
    TLoc v_md (XInt 40);
    TLoc v_MW (XInt 1);
    TLoc v_MZ (XOp Div (XVar v_MW) (XVar v_CW));
    TSet n_set_masses [(XVar v_mu); (XVar v_md); (XVar v_MW)];
    TLoc v_pspatial (XInt 70);
    TRuns (XVar v_MW) (XVar v_md) (XVar v_MZ) (XVar v_mu) (XVar v_pspatial)
      [(HLab, n_amp2, 5%nat); (HRot, n_amp2, 5%nat); (HBoost, n_amp2, 5%nat); (HBoth, n_amp2, 5%nat)] ].

(** SM/ZWWh.cpp 205-254 *)
Definition test_ZWWh : test := mkTest ZWWh
  [ TLoc v_mh (XInt 125);
    TLoc v_EE (XLit (31333 # 100000));
    TLoc v_MW (XLit (16077 # 200));
    TLoc v_SW (XLit (237 # 500));
    TLoc v_CW (XSqrt (XOp Sub (XLit (1 # 1)) (XOp Mul (XVar v_SW) (XVar v_SW))));
    TLoc v_MZ (XOp Div (XVar v_MW) (XVar v_CW));
    TNew [(XVar v_EE); (XVar v_mh); (XVar v_MW); (XVar v_SW); (XInt 0); (XInt 0)];
    TLoc v_pspatial (XInt 250);
    TRuns (XVar v_MZ) (XVar v_MW) (XVar v_MW) (XVar v_mh) (XVar v_pspatial)
      [(HLab, n_amp2, 0%nat); (HRot, n_amp2, 0%nat); (HBoost, n_amp2, 0%nat); (HBoth, n_amp2, 0%nat)];
    TLoc v_pspatial (XInt 125);
    TRuns (XVar v_MZ) (XVar v_MW) (XVar v_MW) (XVar v_mh) (XVar v_pspatial)
      [(HLab, n_amp2, 1%nat); (HRot, n_amp2, 1%nat); (HBoost, n_amp2, 1%nat); (HBoth, n_amp2, 1%nat)];
    TLoc v_pspatial (XInt 60);
    TRuns (XVar v_MZ) (XVar v_MW) (XVar v_MW) (XVar v_mh) (XVar v_pspatial)
      [(HLab, n_amp2, 2%nat); (HRot, n_amp2, 2%nat); (HBoost, n_amp2, 2%nat); (HBoth, n_amp2, 2%nat)];
    TLoc v_mh (XLit (1 # 2000));
    TLoc v_pspatial (XInt 95);
    TSet n_set_masses [(XVar v_mh); (XVar v_MW)];
    TRuns (XVar v_MZ) (XVar v_MW) (XVar v_MW) (XVar v_mh) (XVar v_pspatial)
      [(HLab, n_amp2, 3%nat); (HRot, n_amp2, 3%nat); (HBoost, n_amp2, 3%nat); (HBoth, n_amp2, 3%nat)] ].

(** SM/ZWZW.cpp 234-331 *)
Definition test_ZWZW : test := mkTest ZWZW
  [ TLoc v_mh (XInt 125);
    TLoc v_EE (XLit (31333 # 100000));
    TLoc v_MW (XLit (16077 # 200));
    TLoc v_SW (XLit (237 # 500));
    TLoc v_CW (XSqrt (XOp Sub (XInt 1) (XOp Mul (XVar v_SW) (XVar v_SW))));
    TLoc v_MZ (XOp Div (XVar v_MW) (XVar v_CW));
    TNew [(XVar v_EE); (XVar v_mh); (XInt 0); (XVar v_MW); (XInt 0); (XVar v_SW)];
    TLoc v_pspatial (XInt 250);
    TRuns (XVar v_MZ) (XVar v_MW) (XVar v_MZ) (XVar v_MW) (XVar v_pspatial)
      [(HLab, n_amp2, 0%nat); (HRot, n_amp2, 0%nat); (HBoost, n_amp2, 0%nat); (HBoth, n_amp2, 0%nat)];
    TLoc v_pspatial (XInt 125);
    TRuns (XVar v_MZ) (XVar v_MW) (XVar v_MZ) (XVar v_MW) (XVar v_pspatial)
      [(HLab, n_amp2, 1%nat); (HRot, n_amp2, 1%nat); (HBoost, n_amp2, 1%nat); (HBoth, n_amp2, 1%nat)];
    TLoc v_pspatial (XInt 1);
    TRuns (XVar v_MZ) (XVar v_MW) (XVar v_MZ) (XVar v_MW) (XVar v_pspatial)
      [(HLab, n_amp2, 2%nat); (HRot, n_amp2, 2%nat); (HBoost, n_amp2, 2%nat); (HBoth, n_amp2, 2%nat)];
    TLoc v_mh (XInt 1);
    TSet n_set_masses [(XVar v_mh); (XVar v_MW)];
    TLoc v_pspatial (XInt 250);
    TRuns (XVar v_MZ) (XVar v_MW) (XVar v_MZ) (XVar v_MW) (XVar v_pspatial)
      [(HLab, n_amp2, 3%nat); (HRot, n_amp2, 3%nat); (HBoost, n_amp2, 3%nat); (HBoth, n_amp2, 3%nat)];
    TLoc v_pspatial (XInt 125);
    TRuns (XVar v_MZ) (XVar v_MW) (XVar v_MZ) (XVar v_MW) (XVar v_pspatial)
      [(HLab, n_amp2, 4%nat); (HRot, n_amp2, 4%nat); (HBoost, n_amp2, 4%nat); (HBoth, n_amp2, 4%nat)];
    TLoc v_pspatial (XInt 1);
    TRuns (XVar v_MZ) (XVar v_MW) (XVar v_MZ) (XVar v_MW) (XVar v_pspatial)
      [(HLab, n_amp2, 5%nat); (HRot, n_amp2, 5%nat); (HBoost, n_amp2, 5%nat); (HBoth, n_amp2, 5%nat)];
    TLoc v_mh (XInt 125);
    TLoc v_MW (XInt 50);
    TLoc v_MZ (XOp Div (XVar v_MW) (XVar v_CW));
    TSet n_set_masses [(XVar v_mh); (XVar v_MW)];
    TLoc v_pspatial (XInt 125);
    TRuns (XVar v_MZ) (XVar v_MW) (XVar v_MZ) (XVar v_MW) (XVar v_pspatial)
      [(HLab, n_amp2, 6%nat); (HRot, n_amp2, 6%nat); (HBoost, n_amp2, 6%nat); (HBoth, n_amp2, 6%nat)];
    TLoc v_pspatial (XInt 1);
    TRuns (XVar v_MZ) (XVar v_MW) (XVar v_MZ) (XVar v_MW) (XVar v_pspatial)
      [(HLab, n_amp2, 7%nat); (HRot, n_amp2, 7%nat); (HBoost, n_amp2, 7%nat); (HBoth, n_amp2, 7%nat)];
    TLoc v_mh (XInt 1);
    TLoc v_MW (XInt 50);
    TLoc v_MZ (XOp Div (XVar v_MW) (XVar v_CW));
    TSet n_set_masses [(XVar v_mh); (XVar v_MW)];
    TLoc v_pspatial (XInt 125);
    TRuns (XVar v_MZ) (XVar v_MW) (XVar v_MZ) (XVar v_MW) (XVar v_pspatial)
      [(HLab, n_amp2, 8%nat); (HRot, n_amp2, 8%nat); (HBoost, n_amp2, 8%nat); (HBoth, n_amp2, 8%nat)];
    TLoc v_pspatial (XInt 1);
    TRuns (XVar v_MZ) (XVar v_MW) (XVar v_MZ) (XVar v_MW) (XVar v_pspatial)
      [(HLab, n_amp2, 9%nat); (HRot, n_amp2, 9%nat); (HBoost, n_amp2, 9%nat); (HBoth, n_amp2, 9%nat)] ].

(** SM/ZZWW.cpp 230-327 *)
Definition test_ZZWW : test := mkTest ZZWW
  [ TLoc v_mh (XInt 125);
    TLoc v_EE (XLit (31333 # 100000));
    TLoc v_MW (XLit (16077 # 200));
    TLoc v_SW (XLit (237 # 500));
    TLoc v_CW (XSqrt (XOp Sub (XInt 1) (XOp Mul (XVar v_SW) (XVar v_SW))));
    TLoc v_MZ (XOp Div (XVar v_MW) (XVar v_CW));
    TNew [(XVar v_EE); (XVar v_mh); (XInt 0); (XVar v_MW); (XInt 0); (XVar v_SW)];
    TLoc v_pspatial (XInt 250);
    TRuns (XVar v_MZ) (XVar v_MZ) (XVar v_MW) (XVar v_MW) (XVar v_pspatial)
      [(HLab, n_amp2, 0%nat); (HRot, n_amp2, 0%nat); (HBoost, n_amp2, 0%nat); (HBoth, n_amp2, 0%nat)];
    TLoc v_pspatial (XInt 125);
    TRuns (XVar v_MZ) (XVar v_MZ) (XVar v_MW) (XVar v_MW) (XVar v_pspatial)
      [(HLab, n_amp2, 1%nat); (HRot, n_amp2, 1%nat); (HBoost, n_amp2, 1%nat); (HBoth, n_amp2, 1%nat)];
    TLoc v_pspatial (XInt 1);
    TRuns (XVar v_MZ) (XVar v_MZ) (XVar v_MW) (XVar v_MW) (XVar v_pspatial)
      [(HLab, n_amp2, 2%nat); (HRot, n_amp2, 2%nat); (HBoost, n_amp2, 2%nat); (HBoth, n_amp2, 2%nat)];
    TLoc v_mh (XInt 1);
    TSet n_set_masses [(XVar v_mh); (XVar v_MW)];
    TLoc v_pspatial (XInt 250);
    TRuns (XVar v_MZ) (XVar v_MZ) (XVar v_MW) (XVar v_MW) (XVar v_pspatial)
      [(HLab, n_amp2, 3%nat); (HRot, n_amp2, 3%nat); (HBoost, n_amp2, 3%nat); (HBoth, n_amp2, 3%nat)];
    TLoc v_pspatial (XInt 125);
    TRuns (XVar v_MZ) (XVar v_MZ) (XVar v_MW) (XVar v_MW) (XVar v_pspatial)
      [(HLab, n_amp2, 4%nat); (HRot, n_amp2, 4%nat); (HBoost, n_amp2, 4%nat); (HBoth, n_amp2, 4%nat)];
    TLoc v_pspatial (XInt 1);
    TRuns (XVar v_MZ) (XVar v_MZ) (XVar v_MW) (XVar v_MW) (XVar v_pspatial)
      [(HLab, n_amp2, 5%nat); (HRot, n_amp2, 5%nat); (HBoost, n_amp2, 5%nat); (HBoth, n_amp2, 5%nat)];
    TLoc v_mh (XInt 125);
    TLoc v_MW (XInt 50);
    TLoc v_MZ (XOp Div (XVar v_MW) (XVar v_CW));
    TSet n_set_masses [(XVar v_mh); (XVar v_MW)];
    TLoc v_pspatial (XInt 125);
    TRuns (XVar v_MZ) (XVar v_MZ) (XVar v_MW) (XVar v_MW) (XVar v_pspatial)
      [(HLab, n_amp2, 6%nat); (HRot, n_amp2, 6%nat); (HBoost, n_amp2, 6%nat); (HBoth, n_amp2, 6%nat)];
    TLoc v_pspatial (XInt 1);
    TRuns (XVar v_MZ) (XVar v_MZ) (XVar v_MW) (XVar v_MW) (XVar v_pspatial)
      [(HLab, n_amp2, 7%nat); (HRot, n_amp2, 7%nat); (HBoost, n_amp2, 7%nat); (HBoth, n_amp2, 7%nat)];
    TLoc v_mh (XInt 1);
    TLoc v_MW (XInt 50);
    TLoc v_MZ (XOp Div (XVar v_MW) (XVar v_CW));
    TSet n_set_masses [(XVar v_mh); (XVar v_MW)];
    TLoc v_pspatial (XInt 125);
    TRuns (XVar v_MZ) (XVar v_MZ) (XVar v_MW) (XVar v_MW) (XVar v_pspatial)
      [(HLab, n_amp2, 8%nat); (HRot, n_amp2, 8%nat); (HBoost, n_amp2, 8%nat); (HBoth, n_amp2, 8%nat)];
    TLoc v_pspatial (XInt 1);
    TRuns (XVar v_MZ) (XVar v_MZ) (XVar v_MW) (XVar v_MW) (XVar v_pspatial)
      [(HLab, n_amp2, 9%nat); (HRot, n_amp2, 9%nat); (HBoost, n_amp2, 9%nat); (HBoth, n_amp2, 9%nat)] ].

(** SM/ZZZZ.cpp 156-199 *)
Definition test_ZZZZ : test := mkTest ZZZZ
  [ TLoc v_mh (XInt 125);
    TLoc v_EE (XLit (31333 # 100000));
    TLoc v_MW (XLit (16077 # 200));
    TLoc v_SW (XLit (237 # 500));
    TLoc v_CW (XSqrt (XOp Sub (XInt 1) (XOp Mul (XVar v_SW) (XVar v_SW))));
    TLoc v_MZ (XOp Div (XVar v_MW) (XVar v_CW));
    TNew [(XVar v_EE); (XVar v_mh); (XInt 0); (XVar v_MW); (XVar v_SW)];
    TLoc v_pspatial (XInt 250);
    TRuns (XVar v_MZ) (XVar v_MZ) (XVar v_MZ) (XVar v_MZ) (XVar v_pspatial)
      [(HLab, n_amp2, 0%nat); (HRot, n_amp2, 0%nat); (HBoost, n_amp2, 0%nat); (HBoth, n_amp2, 0%nat)];
    TLoc v_pspatial (XInt 2500);
    TRuns (XVar v_MZ) (XVar v_MZ) (XVar v_MZ) (XVar v_MZ) (XVar v_pspatial)
      [(HLab, n_amp2, 1%nat); (HRot, n_amp2, 1%nat)];
    TLoc v_pspatial (XInt 125);
    TRuns (XVar v_MZ) (XVar v_MZ) (XVar v_MZ) (XVar v_MZ) (XVar v_pspatial)
      [(HLab, n_amp2, 2%nat); (HRot, n_amp2, 2%nat); (HBoost, n_amp2, 2%nat); (HBoth, n_amp2, 2%nat)];
    TLoc v_pspatial (XInt 1);
    TRuns (XVar v_MZ) (XVar v_MZ) (XVar v_MZ) (XVar v_MZ) (XVar v_pspatial)
      [(HLab, n_amp2, 3%nat); (HRot, n_amp2, 3%nat); (HBoost, n_amp2, 3%nat); (HBoth, n_amp2, 3%nat)] ].

(** SM/ZhWW.cpp 198-245 *)
Definition test_ZhWW : test := mkTest ZhWW
  [ TLoc v_mh (XInt 125);
    TLoc v_EE (XLit (31333 # 100000));
    TLoc v_MW (XLit (16077 # 200));
    TLoc v_SW (XLit (237 # 500));
    TLoc v_CW (XSqrt (XOp Sub (XLit (1 # 1)) (XOp Mul (XVar v_SW) (XVar v_SW))));
    TLoc v_MZ (XOp Div (XVar v_MW) (XVar v_CW));
    TNew [(XVar v_EE); (XVar v_mh); (XVar v_MW); (XVar v_SW); (XInt 0); (XInt 0)];
    TLoc v_pspatial (XInt 250);
    TRuns (XVar v_MZ) (XVar v_mh) (XVar v_MW) (XVar v_MW) (XVar v_pspatial)
      [(HLab, n_amp2, 0%nat); (HRot, n_amp2, 0%nat); (HBoost, n_amp2, 0%nat); (HBoth, n_amp2, 0%nat)];
    TLoc v_pspatial (XInt 125);
    TRuns (XVar v_MZ) (XVar v_mh) (XVar v_MW) (XVar v_MW) (XVar v_pspatial)
      [(HLab, n_amp2, 1%nat); (HRot, n_amp2, 1%nat); (HBoost, n_amp2, 1%nat); (HBoth, n_amp2, 1%nat)];
    TLoc v_pspatial (XInt 1);
    TRuns (XVar v_MZ) (XVar v_mh) (XVar v_MW) (XVar v_MW) (XVar v_pspatial)
      [(HLab, n_amp2, 2%nat); (HRot, n_amp2, 2%nat); (HBoost, n_amp2, 2%nat); (HBoth, n_amp2, 2%nat)];
    TLoc v_mh (XLit (1 # 2000));
    TLoc v_pspatial (XInt 95);
    TSet n_set_masses [(XVar v_mh); (XVar v_MW)];
    TRuns (XVar v_MZ) (XVar v_mh) (XVar v_MW) (XVar v_MW) (XVar v_pspatial)
      [(HLab, n_amp2, 3%nat); (HRot, n_amp2, 3%nat); (HBoost, n_amp2, 3%nat); (HBoth, n_amp2, 3%nat)] ].

(** SM/ZnWe.cpp 198-261 *)
Definition test_ZnWe : test := mkTest ZnWe
  [ TLoc v_EE (XLit (31333 # 100000));
    TLoc v_me (XLit (1 # 2000));
    TLoc v_MW (XLit (16077 # 200));
    TLoc v_SW (XLit (237 # 500));
    TLoc v_CW (XSqrt (XOp Sub (XInt 1) (XOp Mul (XVar v_SW) (XVar v_SW))));
    TLoc v_MZ (XOp Div (XVar v_MW) (XVar v_CW));
    TNew [(XVar v_EE); (XVar v_me); (XVar v_MW); (XVar v_SW); (XInt 0)];
    TLoc v_pspatial (XInt 250);
    TRuns (XVar v_MZ) (XInt 0) (XVar v_MW) (XVar v_me) (XVar v_pspatial)
      [(HLab, n_amp2, 0%nat); (HRot, n_amp2, 0%nat); (HBoost, n_amp2, 0%nat); (HBoth, n_amp2, 0%nat)];
    TLoc v_pspatial (XInt 90);
    TRuns (XVar v_MZ) (XInt 0) (XVar v_MW) (XVar v_me) (XVar v_pspatial)
      [(HLab, n_amp2, 1%nat); (HRot, n_amp2, 1%nat); (HBoost, n_amp2, 1%nat); (HBoth, n_amp2, 1%nat)];
    TLoc v_me (XInt 80);
    TSet n_set_masses [(XVar v_me); (XVar v_MW)];
    TLoc v_pspatial (XInt 250);
    TRuns (XVar v_MZ) (XInt 0) (XVar v_MW) (XVar v_me) (XVar v_pspatial)
      [(HLab, n_amp2, 2%nat); (HRot, n_amp2, 2%nat); (HBoost, n_amp2, 2%nat); (HBoth, n_amp2, 2%nat)];
    TLoc v_pspatial (XInt 70);
    TRuns (XVar v_MZ) (XInt 0) (XVar v_MW) (XVar v_me) (XVar v_pspatial)
      [(HLab, n_amp2, 3%nat); (HRot, n_amp2, 3%nat); (HBoost, n_amp2, 3%nat); (HBoth, n_amp2, 3%nat)];
    TLoc v_MW (XInt 1);
    TLoc v_MZ (XOp Div (XVar v_MW) (XVar v_CW));
    TSet n_set_masses [(XVar v_me); (XVar v_MW)];
    TLoc v_pspatial (XInt 250);
    TRuns (XVar v_MZ) (XInt 0) (XVar v_MW) (XVar v_me) (XVar v_pspatial)
      [(HLab, n_amp2, 4%nat); (HRot, n_amp2, 4%nat); (HBoost, n_amp2, 4%nat); (HBoth, n_amp2, 4%nat)];
    TLoc v_pspatial (XInt 50);
    TRuns (XVar v_MZ) (XInt 0) (XVar v_MW) (XVar v_me) (XVar v_pspatial)
      [(HLab, n_amp2, 5%nat); (HRot, n_amp2, 5%nat); (HBoost, n_amp2, 5%nat); (HBoth, n_amp2, 5%nat)] ].

(** SM/dAAd.cpp 181-235 *)
Definition test_dAAd : test := mkTest dAAd
  [ TLoc v_md (XLit (3 # 400));
    TLoc v_EE (XLit (31333 # 100000));
    TNew [(XVar v_EE); (XVar v_md)];
    TLoc v_pspatial (XInt 250);
    TRuns (XVar v_md) (XInt 0) (XInt 0) (XVar v_md) (XVar v_pspatial)
      [(HLab, n_amp2, 0%nat); (HRot, n_amp2, 0%nat); (HBoost, n_amp2, 0%nat); (HBoth, n_amp2, 0%nat); (HLab, n_amp2_Aplus, 1%nat); (HRot, n_amp2_Aplus, 1%nat); (HBoost, n_amp2_Aplus, 1%nat); (HBoth, n_amp2_Aplus, 1%nat); (HLab, n_amp2_Aminus, 2%nat); (HRot, n_amp2_Aminus, 2%nat); (HBoost, n_amp2_Aminus, 2%nat); (HBoth, n_amp2_Aminus, 2%nat)];
    TLoc v_pspatial (XLit (1 # 125));
    TRuns (XVar v_md) (XInt 0) (XInt 0) (XVar v_md) (XVar v_pspatial)
      [(HLab, n_amp2, 3%nat); (HRot, n_amp2, 3%nat); (HBoost, n_amp2, 3%nat); (HBoth, n_amp2, 3%nat); (HLab, n_amp2_Aplus, 4%nat); (HRot, n_amp2_Aplus, 4%nat); (HBoost, n_amp2_Aplus, 4%nat); (HBoth, n_amp2_Aplus, 4%nat); (HLab, n_amp2_Aminus, 5%nat); (HRot, n_amp2_Aminus, 5%nat); (HBoost, n_amp2_Aminus, 5%nat); (HBoth, n_amp2_Aminus, 5%nat)] ].

(** SM/dAdh.cpp 148-218 *)
Definition test_dAdh : test := mkTest dAdh
  [ TLoc v_md (XLit (3 # 400));
    TLoc v_mh (XInt 125);
    TLoc v_EE (XLit (31333 # 100000));
    TLoc v_MW (XLit (16077 # 200));
    TLoc v_SW (XLit (237 # 500));
    TNew [(XVar v_EE); (XVar v_md); (XVar v_mh); (XVar v_MW); (XVar v_SW)];
    TLoc v_pspatial (XInt 250);
    TRuns (XVar v_md) (XInt 0) (XVar v_md) (XVar v_mh) (XVar v_pspatial)
      [(HLab, n_amp2, 0%nat); (HRot, n_amp2, 0%nat); (HBoost, n_amp2, 0%nat); (HBoth, n_amp2, 0%nat); (HLab, n_amp2_Aplus, 0%nat); (HRot, n_amp2_Aplus, 0%nat); (HBoost, n_amp2_Aplus, 0%nat); (HBoth, n_amp2_Aplus, 0%nat)];
    TLoc v_pspatial (XLit (1251 # 10));
    TRuns (XVar v_md) (XInt 0) (XVar v_md) (XVar v_mh) (XVar v_pspatial)
      [(HLab, n_amp2, 1%nat); (HRot, n_amp2, 1%nat); (HBoost, n_amp2, 1%nat); (HBoth, n_amp2, 1%nat); (HLab, n_amp2_Aplus, 1%nat); (HRot, n_amp2_Aplus, 1%nat); (HBoost, n_amp2_Aplus, 1%nat); (HBoth, n_amp2_Aplus, 1%nat)];
    TLoc v_md (XLit (1251 # 10));
    TLoc v_mh (XInt 125);
    TLoc v_pspatial (XInt 95);
    TSet n_set_masses [(XVar v_md); (XVar v_mh); (XVar v_MW)];
    TRuns (XVar v_md) (XInt 0) (XVar v_md) (XVar v_mh) (XVar v_pspatial)
      [(HLab, n_amp2, 2%nat); (HRot, n_amp2, 2%nat); (HBoost, n_amp2, 2%nat); (HBoth, n_amp2, 2%nat); (HLab, n_amp2_Aplus, 2%nat); (HRot, n_amp2_Aplus, 2%nat); (HBoost, n_amp2_Aplus, 2%nat); (HBoth, n_amp2_Aplus, 2%nat)];
    TLoc v_md (XInt 125);
    TLoc v_mh (XLit (1 # 2000));
    TLoc v_pspatial (XLit (1251 # 10));
    TSet n_set_masses [(XVar v_md); (XVar v_mh); (XVar v_MW)];
    TRuns (XVar v_md) (XInt 0) (XVar v_md) (XVar v_mh) (XVar v_pspatial)
      [(HLab, n_amp2, 3%nat); (HRot, n_amp2, 3%nat); (HBoost, n_amp2, 3%nat); (HBoth, n_amp2, 3%nat); (HLab, n_amp2_Aplus, 3%nat); (HRot, n_amp2_Aplus, 3%nat); (HBoost, n_amp2_Aplus, 3%nat); (HBoth, n_amp2_Aplus, 3%nat)] ].

(** SM/dAgd.cpp 181-235 *)
Definition test_dAgd : test := mkTest dAgd
  [ TLoc v_md (XLit (3 # 400));
    TLoc v_EE (XLit (31333 # 100000));
    TLoc v_gs (XLit (619 # 500));
    TNew [(XVar v_EE); (XVar v_gs); (XVar v_md)];
    TLoc v_pspatial (XInt 250);
    TRuns (XVar v_md) (XInt 0) (XInt 0) (XVar v_md) (XVar v_pspatial)
      [(HLab, n_amp2, 0%nat); (HRot, n_amp2, 0%nat); (HBoost, n_amp2, 0%nat); (HBoth, n_amp2, 0%nat); (HLab, n_amp2_Aplus, 1%nat); (HRot, n_amp2_Aplus, 1%nat); (HBoost, n_amp2_Aplus, 1%nat); (HBoth, n_amp2_Aplus, 1%nat); (HLab, n_amp2_Aminus, 2%nat); (HRot, n_amp2_Aminus, 2%nat); (HBoost, n_amp2_Aminus, 2%nat); (HBoth, n_amp2_Aminus, 2%nat)];
    TLoc v_pspatial (XLit (1 # 125));
    TRuns (XVar v_md) (XInt 0) (XInt 0) (XVar v_md) (XVar v_pspatial)
      [(HLab, n_amp2, 3%nat); (HRot, n_amp2, 3%nat); (HBoost, n_amp2, 3%nat); (HBoth, n_amp2, 3%nat); (HLab, n_amp2_Aplus, 4%nat); (HRot, n_amp2_Aplus, 4%nat); (HBoost, n_amp2_Aplus, 4%nat); (HBoth, n_amp2_Aplus, 4%nat); (HLab, n_amp2_Aminus, 5%nat); (HRot, n_amp2_Aminus, 5%nat); (HBoost, n_amp2_Aminus, 5%nat); (HBoth, n_amp2_Aminus, 5%nat)] ].

(** SM/dWgu.cpp 162-233 *)
Definition test_dWgu : test := mkTest dWgu
  [ TLoc v_EE (XLit (31333 # 100000));
    TLoc v_gs (XLit (619 # 500));
    TLoc v_mu (XLit (21 # 5000));
    TLoc v_md (XLit (3 # 400));
    TLoc v_MW (XLit (16077 # 200));
    TLoc v_SW (XLit (237 # 500));
    TNew [(XVar v_EE); (XVar v_gs); (XVar v_mu); (XVar v_md); (XVar v_MW); (XVar v_SW)];
    TLoc v_pspatial (XInt 250);
    TRuns (XVar v_md) (XVar v_MW) (XInt 0) (XVar v_mu) (XVar v_pspatial)
      [(HLab, n_amp2, 0%nat); (HRot, n_amp2, 0%nat); (HBoost, n_amp2, 0%nat); (HBoth, n_amp2, 0%nat)];
    TLoc v_pspatial (XInt 81);
    TRuns (XVar v_md) (XVar v_MW) (XInt 0) (XVar v_mu) (XVar v_pspatial)
      [(HLab, n_amp2, 1%nat); (HRot, n_amp2, 1%nat); (HBoost, n_amp2, 1%nat); (HBoth, n_amp2, 1%nat)];
    TLoc v_mu (XInt 80);
    TSet n_set_masses [(XVar v_mu); (XVar v_md); (XVar v_MW)];
    TLoc v_pspatial (XInt 250);
    TRuns (XVar v_md) (XVar v_MW) (XInt 0) (XVar v_mu) (XVar v_pspatial)
      [(HLab, n_amp2, 2%nat); (HRot, n_amp2, 2%nat); (HBoost, n_amp2, 2%nat); (HBoth, n_amp2, 2%nat)];
    TLoc v_pspatial (XInt 1);
    TRuns (XVar v_md) (XVar v_MW) (XInt 0) (XVar v_mu) (XVar v_pspatial)
      [(HLab, n_amp2, 3%nat); (HRot, n_amp2, 3%nat); (HBoost, n_amp2, 3%nat); (HBoth, n_amp2, 3%nat)];
    TLoc v_MW (XInt 1);
    TSet n_set_masses [(XVar v_mu); (XVar v_md); (XVar v_MW)];
    TLoc v_pspatial (XInt 250);
    TRuns (XVar v_md) (XVar v_MW) (XInt 0) (XVar v_mu) (XVar v_pspatial)
      [(HLab, n_amp2, 4%nat); (HRot, n_amp2, 4%nat); (HBoost, n_amp2, 4%nat); (HBoth, n_amp2, 4%nat)];
    TLoc v_pspatial (XInt 50);
    TRuns (XVar v_md) (XVar v_MW) (XInt 0) (XVar v_mu) (XVar v_pspatial)
      [(HLab, n_amp2, 5%nat); (HRot, n_amp2, 5%nat); (HBoost, n_amp2, 5%nat); (HBoth, n_amp2, 5%nat)];
    TLoc v_mu (XLit (21 # 5000));
    TLoc v_md (XLit (21 # 5000));
    TLoc v_MW (XLit (16077 # 200));
    TSet n_set_masses [(XVar v_mu); (XVar v_md); (XVar v_MW)];
    TLoc v_pspatial (XInt 250);
    TRuns (XVar v_md) (XVar v_MW) (XInt 0) (XVar v_mu) (XVar v_pspatial)
      [(HLab, n_amp2, 6%nat); (HRot, n_amp2, 6%nat); (HBoost, n_amp2, 6%nat); (HBoth, n_amp2, 6%nat)] ].

(** SM/dZZd.cpp 202-253 *)
Definition test_dZZd : test := mkTest dZZd
  [ TLoc v_mf (XLit (3 # 400));
    TLoc v_mh (XInt 125);
    TLoc v_EE (XLit (31333 # 100000));
    TLoc v_MW (XLit (16077 # 200));
    TLoc v_SW (XLit (237 # 500));
    TLoc v_CW (XSqrt (XOp Sub (XInt 1) (XOp Mul (XVar v_SW) (XVar v_SW))));
    TLoc v_MZ (XOp Div (XVar v_MW) (XVar v_CW));
    TNew [(XVar v_EE); (XVar v_mf); (XVar v_mh); (XInt 0); (XVar v_MW); (XVar v_SW); (XInt 0)];
    TLoc v_pspatial (XInt 250);
    TRuns (XVar v_mf) (XVar v_MZ) (XVar v_MZ) (XVar v_mf) (XVar v_pspatial)
      [(HLab, n_amp2, 0%nat); (HRot, n_amp2, 0%nat); (HBoost, n_amp2, 0%nat); (HBoth, n_amp2, 0%nat)];
    TLoc v_pspatial (XLit (1251 # 10));
    TRuns (XVar v_mf) (XVar v_MZ) (XVar v_MZ) (XVar v_mf) (XVar v_pspatial)
      [(HLab, n_amp2, 1%nat); (HRot, n_amp2, 1%nat); (HBoost, n_amp2, 1%nat); (HBoth, n_amp2, 1%nat)];
    TLoc v_mf (XLit (1251 # 10));
    TLoc v_mh (XInt 125);
    TLoc v_pspatial (XInt 95);
    TSet n_set_masses [(XVar v_mf); (XVar v_mh); (XVar v_MW)];
    TRuns (XVar v_mf) (XVar v_MZ) (XVar v_MZ) (XVar v_mf) (XVar v_pspatial)
      [(HLab, n_amp2, 2%nat); (HRot, n_amp2, 2%nat); (HBoost, n_amp2, 2%nat); (HBoth, n_amp2, 2%nat)];
    TLoc v_mf (XInt 125);
    TLoc v_mh (XLit (1 # 2000));
    TLoc v_pspatial (XLit (1251 # 10));
    TSet n_set_masses [(XVar v_mf); (XVar v_mh); (XVar v_MW)];
    TRuns (XVar v_mf) (XVar v_MZ) (XVar v_MZ) (XVar v_mf) (XVar v_pspatial)
      [(HLab, n_amp2, 3%nat); (HRot, n_amp2, 3%nat); (HBoost, n_amp2, 3%nat); (HBoth, n_amp2, 3%nat)] ].

(** SM/dZdh.cpp 175-226 *)
Definition test_dZdh : test := mkTest dZdh
  [ TLoc v_md (XLit (3 # 400));
    TLoc v_mh (XInt 125);
    TLoc v_EE (XLit (31333 # 100000));
    TLoc v_MW (XLit (16077 # 200));
    TLoc v_SW (XLit (237 # 500));
    TLoc v_CW (XSqrt (XOp Sub (XInt 1) (XOp Mul (XVar v_SW) (XVar v_SW))));
    TLoc v_MZ (XOp Div (XVar v_MW) (XVar v_CW));
    TNew [(XVar v_EE); (XVar v_md); (XVar v_mh); (XInt 0); (XVar v_MW); (XVar v_SW); (XInt 0)];
    TLoc v_pspatial (XInt 250);
    TRuns (XVar v_md) (XVar v_MZ) (XVar v_md) (XVar v_mh) (XVar v_pspatial)
      [(HLab, n_amp2, 0%nat); (HRot, n_amp2, 0%nat); (HBoost, n_amp2, 0%nat); (HBoth, n_amp2, 0%nat)];
    TLoc v_pspatial (XLit (1251 # 10));
    TRuns (XVar v_md) (XVar v_MZ) (XVar v_md) (XVar v_mh) (XVar v_pspatial)
      [(HLab, n_amp2, 1%nat); (HRot, n_amp2, 1%nat); (HBoost, n_amp2, 1%nat); (HBoth, n_amp2, 1%nat)];
    TLoc v_md (XLit (1251 # 10));
    TLoc v_mh (XInt 125);
    TLoc v_pspatial (XInt 95);
    TSet n_set_masses [(XVar v_md); (XVar v_mh); (XVar v_MW)];
    TRuns (XVar v_md) (XVar v_MZ) (XVar v_md) (XVar v_mh) (XVar v_pspatial)
      [(HLab, n_amp2, 2%nat); (HRot, n_amp2, 2%nat); (HBoost, n_amp2, 2%nat); (HBoth, n_amp2, 2%nat)];
    TLoc v_md (XInt 125);
    TLoc v_mh (XLit (1 # 2000));
    TLoc v_pspatial (XLit (1251 # 10));
    TSet n_set_masses [(XVar v_md); (XVar v_mh); (XVar v_MW)];
    TRuns (XVar v_md) (XVar v_MZ) (XVar v_md) (XVar v_mh) (XVar v_pspatial)
      [(HLab, n_amp2, 3%nat); (HRot, n_amp2, 3%nat); (HBoost, n_amp2, 3%nat); (HBoth, n_amp2, 3%nat)] ].

(** SM/ddAA.cpp 142-171 *)
Definition test_ddAA : test := mkTest ddAA
  [ TLoc v_md (XLit (3 # 400));
    TLoc v_EE (XLit (31333 # 100000));
    TNew [(XVar v_EE); (XVar v_md)];
    TLoc v_pspatial (XInt 250);
    TRuns (XVar v_md) (XVar v_md) (XInt 0) (XInt 0) (XVar v_pspatial)
      [(HLab, n_amp2, 0%nat); (HRot, n_amp2, 0%nat); (HBoost, n_amp2, 0%nat); (HBoth, n_amp2, 0%nat)];
    TLoc v_pspatial (XLit (1 # 1000));
    TRuns (XVar v_md) (XVar v_md) (XInt 0) (XInt 0) (XVar v_pspatial)
      [(HLab, n_amp2, 1%nat); (HRot, n_amp2, 1%nat); (HBoost, n_amp2, 1%nat); (HBoth, n_amp2, 1%nat)] ].

(** SM/ddAh.cpp 133-182 *)
Definition test_ddAh : test := mkTest ddAh
  [ TLoc v_md (XLit (3 # 400));
    TLoc v_mh (XInt 125);
    TLoc v_EE (XLit (31333 # 100000));
    TLoc v_MW (XLit (16077 # 200));
    TLoc v_SW (XLit (237 # 500));
    TNew [(XVar v_EE); (XVar v_md); (XVar v_mh); (XVar v_MW); (XVar v_SW)];
    TLoc v_pspatial (XInt 250);
    TRuns (XVar v_md) (XVar v_md) (XInt 0) (XVar v_mh) (XVar v_pspatial)
      [(HLab, n_amp2, 0%nat); (HRot, n_amp2, 0%nat); (HBoost, n_amp2, 0%nat); (HBoth, n_amp2, 0%nat)];
    TLoc v_pspatial (XLit (1251 # 10));
    TRuns (XVar v_md) (XVar v_md) (XInt 0) (XVar v_mh) (XVar v_pspatial)
      [(HLab, n_amp2, 1%nat); (HRot, n_amp2, 1%nat); (HBoost, n_amp2, 1%nat); (HBoth, n_amp2, 1%nat)];
    TLoc v_md (XLit (1251 # 10));
    TLoc v_mh (XInt 125);
    TLoc v_pspatial (XInt 95);
    TSet n_set_masses [(XVar v_md); (XVar v_mh); (XVar v_MW)];
    TRuns (XVar v_md) (XVar v_md) (XInt 0) (XVar v_mh) (XVar v_pspatial)
      [(HLab, n_amp2, 2%nat); (HRot, n_amp2, 2%nat); (HBoost, n_amp2, 2%nat); (HBoth, n_amp2, 2%nat)];
    TLoc v_md (XInt 125);
    TLoc v_mh (XLit (1 # 2000));
    TLoc v_pspatial (XLit (1251 # 10));
    TSet n_set_masses [(XVar v_md); (XVar v_mh); (XVar v_MW)];
    TRuns (XVar v_md) (XVar v_md) (XInt 0) (XVar v_mh) (XVar v_pspatial)
      [(HLab, n_amp2, 3%nat); (HRot, n_amp2, 3%nat); (HBoost, n_amp2, 3%nat); (HBoth, n_amp2, 3%nat)] ].

(** SM/ddWW.cpp 212-263 *)
Definition test_ddWW : test := mkTest ddWW
  [ TLoc v_md (XLit (3 # 400));
    TLoc v_mu (XLit (21 # 5000));
    TLoc v_mh (XInt 125);
    TLoc v_EE (XLit (31333 # 100000));
    TLoc v_MW (XLit (16077 # 200));
    TLoc v_SW (XLit (237 # 500));
    TLoc v_CW (XSqrt (XOp Sub (XInt 1) (XOp Mul (XVar v_SW) (XVar v_SW))));
    TLoc v_MZ (XOp Div (XVar v_MW) (XVar v_CW));
    TNew [(XVar v_EE); (XVar v_md); (XVar v_mu); (XVar v_mh); (XInt 0); (XVar v_MW); (XVar v_SW); (XInt 0)];
    TLoc v_pspatial (XInt 250);
    TRuns (XVar v_md) (XVar v_md) (XVar v_MW) (XVar v_MW) (XVar v_pspatial)
      [(HLab, n_amp2, 0%nat); (HRot, n_amp2, 0%nat); (HBoost, n_amp2, 0%nat); (HBoth, n_amp2, 0%nat)];
    TLoc v_pspatial (XLit (1251 # 10));
    TRuns (XVar v_md) (XVar v_md) (XVar v_MW) (XVar v_MW) (XVar v_pspatial)
      [(HLab, n_amp2, 1%nat); (HRot, n_amp2, 1%nat); (HBoost, n_amp2, 1%nat); (HBoth, n_amp2, 1%nat)];
    TLoc v_md (XLit (1251 # 10));
    TLoc v_mh (XInt 125);
    TLoc v_pspatial (XInt 95);
    TSet n_set_masses [(XVar v_md); (XVar v_mu); (XVar v_mh); (XVar v_MW)];
    TRuns (XVar v_md) (XVar v_md) (XVar v_MW) (XVar v_MW) (XVar v_pspatial)
      [(HLab, n_amp2, 2%nat); (HRot, n_amp2, 2%nat); (HBoost, n_amp2, 2%nat); (HBoth, n_amp2, 2%nat)];
    TLoc v_md (XInt 125);
    TLoc v_mh (XLit (1 # 2000));
    TLoc v_pspatial (XLit (1251 # 10));
    TSet n_set_masses [(XVar v_md); (XVar v_mu); (XVar v_mh); (XVar v_MW)];
    TRuns (XVar v_md) (XVar v_md) (XVar v_MW) (XVar v_MW) (XVar v_pspatial)
      [(HLab, n_amp2, 3%nat); (HRot, n_amp2, 3%nat); (HBoost, n_amp2, 3%nat); (HBoth, n_amp2, 3%nat)] ].

(** SM/ddZZ.cpp 191-242 *)
Definition test_ddZZ : test := mkTest ddZZ
  [ TLoc v_mf (XLit (3 # 400));
    TLoc v_mh (XInt 125);
    TLoc v_EE (XLit (31333 # 100000));
    TLoc v_MW (XLit (16077 # 200));
    TLoc v_SW (XLit (237 # 500));
    TLoc v_CW (XSqrt (XOp Sub (XInt 1) (XOp Mul (XVar v_SW) (XVar v_SW))));
    TLoc v_MZ (XOp Div (XVar v_MW) (XVar v_CW));
    TNew [(XVar v_EE); (XVar v_mf); (XVar v_mh); (XInt 0); (XVar v_MW); (XVar v_SW); (XInt 0)];
    TLoc v_pspatial (XInt 250);
    TRuns (XVar v_mf) (XVar v_mf) (XVar v_MZ) (XVar v_MZ) (XVar v_pspatial)
      [(HLab, n_amp2, 0%nat); (HRot, n_amp2, 0%nat); (HBoost, n_amp2, 0%nat); (HBoth, n_amp2, 0%nat)];
    TLoc v_pspatial (XLit (1251 # 10));
    TRuns (XVar v_mf) (XVar v_mf) (XVar v_MZ) (XVar v_MZ) (XVar v_pspatial)
      [(HLab, n_amp2, 1%nat); (HRot, n_amp2, 1%nat); (HBoost, n_amp2, 1%nat); (HBoth, n_amp2, 1%nat)];
    TLoc v_mf (XLit (1251 # 10));
    TLoc v_mh (XInt 125);
    TLoc v_pspatial (XInt 95);
    TSet n_set_masses [(XVar v_mf); (XVar v_mh); (XVar v_MW)];
    TRuns (XVar v_mf) (XVar v_mf) (XVar v_MZ) (XVar v_MZ) (XVar v_pspatial)
      [(HLab, n_amp2, 2%nat); (HRot, n_amp2, 2%nat); (HBoost, n_amp2, 2%nat); (HBoth, n_amp2, 2%nat)];
    TLoc v_mf (XInt 125);
    TLoc v_mh (XLit (1 # 2000));
    TLoc v_pspatial (XLit (1251 # 10));
    TSet n_set_masses [(XVar v_mf); (XVar v_mh); (XVar v_MW)];
    TRuns (XVar v_mf) (XVar v_mf) (XVar v_MZ) (XVar v_MZ) (XVar v_pspatial)
      [(HLab, n_amp2, 3%nat); (HRot, n_amp2, 3%nat); (HBoost, n_amp2, 3%nat); (HBoth, n_amp2, 3%nat)] ].

(** SM/ddZh.cpp 182-233 *)
Definition test_ddZh : test := mkTest ddZh
  [ TLoc v_md (XLit (3 # 400));
    TLoc v_mh (XInt 125);
    TLoc v_EE (XLit (31333 # 100000));
    TLoc v_MW (XLit (16077 # 200));
    TLoc v_SW (XLit (237 # 500));
    TLoc v_CW (XSqrt (XOp Sub (XInt 1) (XOp Mul (XVar v_SW) (XVar v_SW))));
    TLoc v_MZ (XOp Div (XVar v_MW) (XVar v_CW));
    TNew [(XVar v_EE); (XVar v_md); (XVar v_mh); (XInt 0); (XVar v_MW); (XVar v_SW); (XInt 0)];
    TLoc v_pspatial (XInt 250);
    TRuns (XVar v_md) (XVar v_md) (XVar v_MZ) (XVar v_mh) (XVar v_pspatial)
      [(HLab, n_amp2, 0%nat); (HRot, n_amp2, 0%nat); (HBoost, n_amp2, 0%nat); (HBoth, n_amp2, 0%nat)];
    TLoc v_pspatial (XLit (1251 # 10));
    TRuns (XVar v_md) (XVar v_md) (XVar v_MZ) (XVar v_mh) (XVar v_pspatial)
      [(HLab, n_amp2, 1%nat); (HRot, n_amp2, 1%nat); (HBoost, n_amp2, 1%nat); (HBoth, n_amp2, 1%nat)];
    TLoc v_md (XLit (1251 # 10));
    TLoc v_mh (XInt 125);
    TLoc v_pspatial (XInt 95);
    TSet n_set_masses [(XVar v_md); (XVar v_mh); (XVar v_MW)];
    TRuns (XVar v_md) (XVar v_md) (XVar v_MZ) (XVar v_mh) (XVar v_pspatial)
      [(HLab, n_amp2, 2%nat); (HRot, n_amp2, 2%nat); (HBoost, n_amp2, 2%nat); (HBoth, n_amp2, 2%nat)];
    TLoc v_md (XInt 125);
    TLoc v_mh (XLit (1 # 2000));
    TLoc v_pspatial (XLit (1251 # 10));
    TSet n_set_masses [(XVar v_md); (XVar v_mh); (XVar v_MW)];
    TRuns (XVar v_md) (XVar v_md) (XVar v_MZ) (XVar v_mh) (XVar v_pspatial)
      [(HLab, n_amp2, 3%nat); (HRot, n_amp2, 3%nat); (HBoost, n_amp2, 3%nat); (HBoth, n_amp2, 3%nat)] ].

(** SM/dddd.cpp 257-336 *)
Definition test_dddd : test := mkTest dddd
  [ TLoc v_md (XLit (21 # 5000));
    TLoc v_mh (XInt 125);
    TLoc v_wh (XInt 0);
    TLoc v_MW (XLit (16077 # 200));
    TLoc v_SW (XLit (237 # 500));
    TLoc v_WZ (XInt 0);
    TNew [(XLit (31333 # 100000)); (XLit (619 # 500)); (XVar v_md); (XVar v_mh); (XVar v_wh); (XVar v_MW); (XVar v_SW); (XVar v_WZ)];
    TLoc v_pspatial (XInt 250);
    TRuns (XVar v_md) (XVar v_md) (XVar v_md) (XVar v_md) (XVar v_pspatial)
      [(HLab, n_amp2, 0%nat); (HRot, n_amp2, 0%nat); (HBoost, n_amp2, 0%nat); (HBoth, n_amp2, 0%nat)];
    TLoc v_pspatial (XLit (1 # 200));
    TRuns (XVar v_md) (XVar v_md) (XVar v_md) (XVar v_md) (XVar v_pspatial)
      [(HLab, n_amp2, 1%nat); (HRot, n_amp2, 1%nat); (HBoost, n_amp2, 1%nat); (HBoth, n_amp2, 1%nat)];
    TLoc v_md (XLit (6 # 5));
    TLoc v_pspatial (XLit (3 # 10));
    TSet n_set_masses [(XVar v_md); (XVar v_mh); (XVar v_MW)];
    TRuns (XVar v_md) (XVar v_md) (XVar v_md) (XVar v_md) (XVar v_pspatial)
      [(HLab, n_amp2, 2%nat); (HRot, n_amp2, 2%nat); (HBoost, n_amp2, 2%nat); (HBoth, n_amp2, 2%nat)];
    TLoc v_md (XLit (6 # 5));
    TLoc v_MW (XLit (211 # 100));
    TLoc v_pspatial (XLit (3 # 10));
    TSet n_set_masses [(XVar v_md); (XVar v_mh); (XVar v_MW)];
    TRuns (XVar v_md) (XVar v_md) (XVar v_md) (XVar v_md) (XVar v_pspatial)
      [(HLab, n_amp2, 3%nat); (HRot, n_amp2, 3%nat); (HBoost, n_amp2, 3%nat); (HBoth, n_amp2, 3%nat)];
    TLoc v_md (XLit (6 # 5));
    TLoc v_MW (XLit (3 # 500));
    TLoc v_pspatial (XLit (3 # 10));
    TSet n_set_masses [(XVar v_md); (XVar v_mh); (XVar v_MW)];
    TRuns (XVar v_md) (XVar v_md) (XVar v_md) (XVar v_md) (XVar v_pspatial)
      [(HLab, n_amp2, 4%nat); (HRot, n_amp2, 4%nat); (HBoost, n_amp2, 4%nat); (HBoth, n_amp2, 4%nat)];
    TLoc v_md (XLit (6 # 5));
    TLoc v_MW (XLit (211 # 100));
    TLoc v_mh (XLit (25 # 8));
    TLoc v_pspatial (XLit (3 # 10));
    TSet n_set_masses [(XVar v_md); (XVar v_mh); (XVar v_MW)];
    TRuns (XVar v_md) (XVar v_md) (XVar v_md) (XVar v_md) (XVar v_pspatial)
      [(HLab, n_amp2, 5%nat); (HRot, n_amp2, 5%nat); (HBoost, n_amp2, 5%nat); (HBoth, n_amp2, 5%nat)];
    TLoc v_md (XLit (6 # 5));
    TLoc v_MW (XLit (3 # 500));
    TLoc v_pspatial (XLit (3 # 10));
    TSet n_set_masses [(XVar v_md); (XVar v_mh); (XVar v_MW)];
    TRuns (XVar v_md) (XVar v_md) (XVar v_md) (XVar v_md) (XVar v_pspatial)
      [(HLab, n_amp2, 6%nat); (HRot, n_amp2, 6%nat); (HBoost, n_amp2, 6%nat); (HBoth, n_amp2, 6%nat)] ].

(** SM/dddd2.cpp 282-361 *)
Definition test_dddd2 : test := mkTest dddd2
  [ TLoc v_md (XLit (21 # 5000));
    TLoc v_mh (XInt 125);
    TLoc v_wh (XInt 0);
    TLoc v_MW (XLit (16077 # 200));
    TLoc v_SW (XLit (237 # 500));
    TLoc v_WZ (XInt 0);
    TNew [(XLit (31333 # 100000)); (XLit (619 # 500)); (XVar v_md); (XVar v_mh); (XVar v_wh); (XVar v_MW); (XVar v_SW); (XVar v_WZ)];
    TLoc v_pspatial (XInt 250);
    TRuns (XVar v_md) (XVar v_md) (XVar v_md) (XVar v_md) (XVar v_pspatial)
      [(HLab, n_amp2, 0%nat); (HRot, n_amp2, 0%nat); (HBoost, n_amp2, 0%nat); (HBoth, n_amp2, 0%nat)];
    TLoc v_pspatial (XLit (1 # 200));
    TRuns (XVar v_md) (XVar v_md) (XVar v_md) (XVar v_md) (XVar v_pspatial)
      [(HLab, n_amp2, 1%nat); (HRot, n_amp2, 1%nat); (HBoost, n_amp2, 1%nat); (HBoth, n_amp2, 1%nat)];
    TLoc v_md (XLit (6 # 5));
    TLoc v_pspatial (XLit (3 # 10));
    TSet n_set_masses [(XVar v_md); (XVar v_mh); (XVar v_MW)];
    TRuns (XVar v_md) (XVar v_md) (XVar v_md) (XVar v_md) (XVar v_pspatial)
      [(HLab, n_amp2, 2%nat); (HRot, n_amp2, 2%nat); (HBoost, n_amp2, 2%nat); (HBoth, n_amp2, 2%nat)];
    TLoc v_md (XLit (6 # 5));
    TLoc v_MW (XLit (211 # 100));
    TLoc v_pspatial (XLit (3 # 10));
    TSet n_set_masses [(XVar v_md); (XVar v_mh); (XVar v_MW)];
    TRuns (XVar v_md) (XVar v_md) (XVar v_md) (XVar v_md) (XVar v_pspatial)
      [(HLab, n_amp2, 3%nat); (HRot, n_amp2, 3%nat); (HBoost, n_amp2, 3%nat); (HBoth, n_amp2, 3%nat)];
    TLoc v_md (XLit (6 # 5));
    TLoc v_MW (XLit (3 # 500));
    TLoc v_pspatial (XLit (3 # 10));
    TSet n_set_masses [(XVar v_md); (XVar v_mh); (XVar v_MW)];
    TRuns (XVar v_md) (XVar v_md) (XVar v_md) (XVar v_md) (XVar v_pspatial)
      [(HLab, n_amp2, 4%nat); (HRot, n_amp2, 4%nat); (HBoost, n_amp2, 4%nat); (HBoth, n_amp2, 4%nat)];
    TLoc v_md (XLit (6 # 5));
    TLoc v_MW (XLit (211 # 100));
    TLoc v_mh (XLit (25 # 8));
    TLoc v_pspatial (XLit (3 # 10));
    TSet n_set_masses [(XVar v_md); (XVar v_mh); (XVar v_MW)];
    TRuns (XVar v_md) (XVar v_md) (XVar v_md) (XVar v_md) (XVar v_pspatial)
      [(HLab, n_amp2, 5%nat); (HRot, n_amp2, 5%nat); (HBoost, n_amp2, 5%nat); (HBoth, n_amp2, 5%nat)];
    TLoc v_md (XLit (6 # 5));
    TLoc v_MW (XLit (3 # 500));
    TLoc v_pspatial (XLit (3 # 10));
    TSet n_set_masses [(XVar v_md); (XVar v_mh); (XVar v_MW)];
    TRuns (XVar v_md) (XVar v_md) (XVar v_md) (XVar v_md) (XVar v_pspatial)
      [(HLab, n_amp2, 6%nat); (HRot, n_amp2, 6%nat); (HBoost, n_amp2, 6%nat); (HBoth, n_amp2, 6%nat)] ].

(** SM/ddee.cpp 176-272 *)
Definition test_ddee : test := mkTest ddee
  [ TLoc v_md (XLit (21 # 5000));
    TLoc v_me (XLit (1 # 2000));
    TLoc v_mh (XInt 125);
    TLoc v_wh (XInt 0);
    TLoc v_MW (XLit (16077 # 200));
    TLoc v_SW (XLit (237 # 500));
    TLoc v_WZ (XInt 0);
    TNew [(XLit (31333 # 100000)); (XVar v_md); (XVar v_me); (XVar v_mh); (XVar v_wh); (XVar v_MW); (XVar v_SW); (XVar v_WZ)];
    TLoc v_pspatial (XInt 250);
    TRuns (XVar v_md) (XVar v_md) (XVar v_me) (XVar v_me) (XVar v_pspatial)
      [(HLab, n_amp2, 0%nat); (HRot, n_amp2, 0%nat); (HBoost, n_amp2, 0%nat); (HBoth, n_amp2, 0%nat)];
    TLoc v_me (XLit (123 # 100));
    TLoc v_pspatial (XLit (5 # 4));
    TSet n_set_masses [(XVar v_md); (XVar v_me); (XVar v_mh); (XVar v_MW)];
    TRuns (XVar v_md) (XVar v_md) (XVar v_me) (XVar v_me) (XVar v_pspatial)
      [(HLab, n_amp2, 1%nat); (HRot, n_amp2, 1%nat); (HBoost, n_amp2, 1%nat); (HBoth, n_amp2, 1%nat)];
    TLoc v_md (XLit (123 # 100));
    TLoc v_me (XLit (21 # 5000));
    TLoc v_pspatial (XLit (1 # 200));
    TSet n_set_masses [(XVar v_md); (XVar v_me); (XVar v_mh); (XVar v_MW)];
    TRuns (XVar v_md) (XVar v_md) (XVar v_me) (XVar v_me) (XVar v_pspatial)
      [(HLab, n_amp2, 2%nat); (HRot, n_amp2, 2%nat); (HBoost, n_amp2, 2%nat); (HBoth, n_amp2, 2%nat)];
    TLoc v_md (XLit (6 # 5));
    TLoc v_me (XLit (123 # 100));
    TLoc v_pspatial (XLit (3 # 10));
    TSet n_set_masses [(XVar v_md); (XVar v_me); (XVar v_mh); (XVar v_MW)];
    TRuns (XVar v_md) (XVar v_md) (XVar v_me) (XVar v_me) (XVar v_pspatial)
      [(HLab, n_amp2, 3%nat); (HRot, n_amp2, 3%nat); (HBoost, n_amp2, 3%nat); (HBoth, n_amp2, 3%nat)];
    TLoc v_md (XLit (6 # 5));
    TLoc v_me (XLit (123 # 100));
    TLoc v_MW (XLit (211 # 100));
    TLoc v_pspatial (XLit (3 # 10));
    TSet n_set_masses [(XVar v_md); (XVar v_me); (XVar v_mh); (XVar v_MW)];
    TRuns (XVar v_md) (XVar v_md) (XVar v_me) (XVar v_me) (XVar v_pspatial)
      [(HLab, n_amp2, 4%nat); (HRot, n_amp2, 4%nat); (HBoost, n_amp2, 4%nat); (HBoth, n_amp2, 4%nat)];
    TLoc v_md (XLit (6 # 5));
    TLoc v_me (XLit (123 # 100));
    TLoc v_MW (XLit (3 # 500));
    TLoc v_pspatial (XLit (3 # 10));
    TSet n_set_masses [(XVar v_md); (XVar v_me); (XVar v_mh); (XVar v_MW)];
    TRuns (XVar v_md) (XVar v_md) (XVar v_me) (XVar v_me) (XVar v_pspatial)
      [(HLab, n_amp2, 5%nat); (HRot, n_amp2, 5%nat); (HBoost, n_amp2, 5%nat); (HBoth, n_amp2, 5%nat)];
    TLoc v_md (XLit (6 # 5));
    TLoc v_me (XLit (123 # 100));
    TLoc v_MW (XLit (211 # 100));
    TLoc v_mh (XLit (25 # 8));
    TLoc v_pspatial (XLit (3 # 10));
    TSet n_set_masses [(XVar v_md); (XVar v_me); (XVar v_mh); (XVar v_MW)];
    TRuns (XVar v_md) (XVar v_md) (XVar v_me) (XVar v_me) (XVar v_pspatial)
      [(HLab, n_amp2, 6%nat); (HRot, n_amp2, 6%nat); (HBoost, n_amp2, 6%nat); (HBoth, n_amp2, 6%nat)];
    TLoc v_md (XLit (6 # 5));
    TLoc v_me (XLit (123 # 100));
    TLoc v_MW (XLit (3 # 500));
    TLoc v_pspatial (XLit (3 # 10));
    TSet n_set_masses [(XVar v_md); (XVar v_me); (XVar v_mh); (XVar v_MW)];
    TRuns (XVar v_md) (XVar v_md) (XVar v_me) (XVar v_me) (XVar v_pspatial)
      [(HLab, n_amp2, 7%nat); (HRot, n_amp2, 7%nat); (HBoost, n_amp2, 7%nat); (HBoth, n_amp2, 7%nat)] ].

(** SM/ddhh.cpp 131-192 *)
Definition test_ddhh : test := mkTest ddhh
  [ TLoc v_md (XLit (3 # 400));
    TLoc v_mh (XInt 125);
    TLoc v_wh (XInt 0);
    TLoc v_MW (XLit (16077 # 200));
    TLoc v_SW (XLit (237 # 500));
    TNew [(XLit (31333 # 100000)); (XVar v_md); (XVar v_mh); (XVar v_wh); (XVar v_MW); (XVar v_SW)];
    TLoc v_pspatial (XInt 250);
    TRuns (XVar v_md) (XVar v_md) (XVar v_mh) (XVar v_mh) (XVar v_pspatial)
      [(HLab, n_amp2, 0%nat); (HRot, n_amp2, 0%nat); (HBoost, n_amp2, 0%nat); (HBoth, n_amp2, 0%nat)];
    TLoc v_pspatial (XInt 126);
    TRuns (XVar v_md) (XVar v_md) (XVar v_mh) (XVar v_mh) (XVar v_pspatial)
      [(HLab, n_amp2, 1%nat); (HRot, n_amp2, 1%nat); (HBoost, n_amp2, 1%nat); (HBoth, n_amp2, 1%nat)];
    TLoc v_md (XLit (1 # 10));
    TLoc v_mh (XLit (3 # 20));
    TLoc v_pspatial (XLit (1 # 5));
    TSet n_set_masses [(XVar v_md); (XVar v_mh); (XVar v_MW)];
    TRuns (XVar v_md) (XVar v_md) (XVar v_mh) (XVar v_mh) (XVar v_pspatial)
      [(HLab, n_amp2, 2%nat); (HRot, n_amp2, 2%nat); (HBoost, n_amp2, 2%nat); (HBoth, n_amp2, 2%nat)];
    TLoc v_md (XLit (1 # 10));
    TLoc v_mh (XLit (3 # 20));
    TLoc v_MW (XLit (11 # 100));
    TLoc v_pspatial (XLit (1 # 5));
    TSet n_set_masses [(XVar v_md); (XVar v_mh); (XVar v_MW)];
    TRuns (XVar v_md) (XVar v_md) (XVar v_mh) (XVar v_mh) (XVar v_pspatial)
      [(HLab, n_amp2, 3%nat); (HRot, n_amp2, 3%nat); (HBoost, n_amp2, 3%nat); (HBoth, n_amp2, 3%nat)];
    TLoc v_md (XLit (1 # 10));
    TLoc v_mh (XLit (3 # 20));
    TLoc v_MW (XLit (3 # 500));
    TLoc v_pspatial (XLit (1 # 5));
    TSet n_set_masses [(XVar v_md); (XVar v_mh); (XVar v_MW)];
    TRuns (XVar v_md) (XVar v_md) (XVar v_mh) (XVar v_mh) (XVar v_pspatial)
      [(HLab, n_amp2, 4%nat); (HRot, n_amp2, 4%nat); (HBoost, n_amp2, 4%nat); (HBoth, n_amp2, 4%nat)] ].

(** SM/ddnn.cpp 124-169 *)
Definition test_ddnn : test := mkTest ddnn
  [ TLoc v_md (XLit (21 # 5000));
    TLoc v_MW (XLit (16077 # 200));
    TLoc v_SW (XLit (237 # 500));
    TLoc v_WZ (XInt 0);
    TNew [(XLit (31333 # 100000)); (XVar v_md); (XVar v_MW); (XVar v_SW); (XVar v_WZ)];
    TLoc v_pspatial (XInt 250);
    TRuns (XVar v_md) (XVar v_md) (XInt 0) (XInt 0) (XVar v_pspatial)
      [(HLab, n_amp2, 0%nat); (HRot, n_amp2, 0%nat); (HBoost, n_amp2, 0%nat); (HBoth, n_amp2, 0%nat)];
    TLoc v_pspatial (XLit (1 # 1000));
    TRuns (XVar v_md) (XVar v_md) (XInt 0) (XInt 0) (XVar v_pspatial)
      [(HLab, n_amp2, 1%nat); (HRot, n_amp2, 1%nat); (HBoost, n_amp2, 1%nat); (HBoth, n_amp2, 1%nat)];
    TLoc v_MW (XLit (3 # 200));
    TSet n_set_masses [(XVar v_md); (XVar v_MW)];
    TRuns (XVar v_md) (XVar v_md) (XInt 0) (XInt 0) (XVar v_pspatial)
      [(HLab, n_amp2, 2%nat); (HRot, n_amp2, 2%nat); (HBoost, n_amp2, 2%nat); (HBoth, n_amp2, 2%nat)];
    TLoc v_MW (XLit (3 # 5000));
    TSet n_set_masses [(XVar v_md); (XVar v_MW)];
    TRuns (XVar v_md) (XVar v_md) (XInt 0) (XInt 0) (XVar v_pspatial)
      [(HLab, n_amp2, 3%nat); (HRot, n_amp2, 3%nat); (HBoost, n_amp2, 3%nat); (HBoth, n_amp2, 3%nat)] ].

(** SM/ddss.cpp 189-283 *)
Definition test_ddss : test := mkTest ddss
  [ TLoc v_md (XLit (21 # 5000));
    TLoc v_ms (XLit (123 # 100));
    TLoc v_mh (XInt 125);
    TLoc v_wh (XInt 0);
    TLoc v_MW (XLit (16077 # 200));
    TLoc v_SW (XLit (237 # 500));
    TLoc v_WZ (XInt 0);
    TNew [(XLit (31333 # 100000)); (XLit (619 # 500)); (XVar v_md); (XVar v_ms); (XVar v_mh); (XVar v_wh); (XVar v_MW); (XVar v_SW); (XVar v_WZ)];
    TLoc v_pspatial (XInt 250);
    TRuns (XVar v_md) (XVar v_md) (XVar v_ms) (XVar v_ms) (XVar v_pspatial)
      [(HLab, n_amp2, 0%nat); (HRot, n_amp2, 0%nat); (HBoost, n_amp2, 0%nat); (HBoth, n_amp2, 0%nat)];
    TLoc v_pspatial (XLit (5 # 4));
    TRuns (XVar v_md) (XVar v_md) (XVar v_ms) (XVar v_ms) (XVar v_pspatial)
      [(HLab, n_amp2, 1%nat); (HRot, n_amp2, 1%nat); (HBoost, n_amp2, 1%nat); (HBoth, n_amp2, 1%nat)];
    TLoc v_md (XLit (123 # 100));
    TLoc v_ms (XLit (21 # 5000));
    TLoc v_pspatial (XLit (1 # 200));
    TSet n_set_masses [(XVar v_md); (XVar v_ms); (XVar v_mh); (XVar v_MW)];
    TRuns (XVar v_md) (XVar v_md) (XVar v_ms) (XVar v_ms) (XVar v_pspatial)
      [(HLab, n_amp2, 2%nat); (HRot, n_amp2, 2%nat); (HBoost, n_amp2, 2%nat); (HBoth, n_amp2, 2%nat)];
    TLoc v_md (XLit (6 # 5));
    TLoc v_ms (XLit (123 # 100));
    TLoc v_pspatial (XLit (3 # 10));
    TSet n_set_masses [(XVar v_md); (XVar v_ms); (XVar v_mh); (XVar v_MW)];
    TRuns (XVar v_md) (XVar v_md) (XVar v_ms) (XVar v_ms) (XVar v_pspatial)
      [(HLab, n_amp2, 3%nat); (HRot, n_amp2, 3%nat); (HBoost, n_amp2, 3%nat); (HBoth, n_amp2, 3%nat)];
    TLoc v_md (XLit (6 # 5));
    TLoc v_ms (XLit (123 # 100));
    TLoc v_MW (XLit (211 # 100));
    TLoc v_pspatial (XLit (3 # 10));
    TSet n_set_masses [(XVar v_md); (XVar v_ms); (XVar v_mh); (XVar v_MW)];
    TRuns (XVar v_md) (XVar v_md) (XVar v_ms) (XVar v_ms) (XVar v_pspatial)
      [(HLab, n_amp2, 4%nat); (HRot, n_amp2, 4%nat); (HBoost, n_amp2, 4%nat); (HBoth, n_amp2, 4%nat)];
    TLoc v_md (XLit (6 # 5));
    TLoc v_ms (XLit (123 # 100));
    TLoc v_MW (XLit (3 # 500));
    TLoc v_pspatial (XLit (3 # 10));
    TSet n_set_masses [(XVar v_md); (XVar v_ms); (XVar v_mh); (XVar v_MW)];
    TRuns (XVar v_md) (XVar v_md) (XVar v_ms) (XVar v_ms) (XVar v_pspatial)
      [(HLab, n_amp2, 5%nat); (HRot, n_amp2, 5%nat); (HBoost, n_amp2, 5%nat); (HBoth, n_amp2, 5%nat)];
    TLoc v_md (XLit (6 # 5));
    TLoc v_ms (XLit (123 # 100));
    TLoc v_MW (XLit (211 # 100));
    TLoc v_mh (XLit (25 # 8));
    TLoc v_pspatial (XLit (3 # 10));
    TSet n_set_masses [(XVar v_md); (XVar v_ms); (XVar v_mh); (XVar v_MW)];
    TRuns (XVar v_md) (XVar v_md) (XVar v_ms) (XVar v_ms) (XVar v_pspatial)
      [(HLab, n_amp2, 6%nat); (HRot, n_amp2, 6%nat); (HBoost, n_amp2, 6%nat); (HBoth, n_amp2, 6%nat)];
    TLoc v_md (XLit (6 # 5));
    TLoc v_ms (XLit (123 # 100));
    TLoc v_MW (XLit (3 # 500));
    TLoc v_pspatial (XLit (3 # 10));
    TSet n_set_masses [(XVar v_md); (XVar v_ms); (XVar v_mh); (XVar v_MW)];
    TRuns (XVar v_md) (XVar v_md) (XVar v_ms) (XVar v_ms) (XVar v_pspatial)
      [(HLab, n_amp2, 7%nat); (HRot, n_amp2, 7%nat); (HBoost, n_amp2, 7%nat); (HBoth, n_amp2, 7%nat)] ].

(** SM/deed.cpp 184-280 *)
Definition test_deed : test := mkTest deed
  [ TLoc v_md (XLit (21 # 5000));
    TLoc v_me (XLit (1 # 2000));
    TLoc v_mh (XInt 125);
    TLoc v_wh (XInt 0);
    TLoc v_MW (XLit (16077 # 200));
    TLoc v_SW (XLit (237 # 500));
    TLoc v_WZ (XInt 0);
    TNew [(XLit (31333 # 100000)); (XVar v_md); (XVar v_me); (XVar v_mh); (XVar v_wh); (XVar v_MW); (XVar v_SW); (XVar v_WZ)];
    TLoc v_pspatial (XInt 250);
    TRuns (XVar v_md) (XVar v_me) (XVar v_me) (XVar v_md) (XVar v_pspatial)
      [(HLab, n_amp2, 0%nat); (HRot, n_amp2, 0%nat); (HBoost, n_amp2, 0%nat); (HBoth, n_amp2, 0%nat)];
    TLoc v_me (XLit (123 # 100));
    TLoc v_pspatial (XLit (5 # 4));
    TSet n_set_masses [(XVar v_md); (XVar v_me); (XVar v_mh); (XVar v_MW)];
    TRuns (XVar v_md) (XVar v_me) (XVar v_me) (XVar v_md) (XVar v_pspatial)
      [(HLab, n_amp2, 1%nat); (HRot, n_amp2, 1%nat); (HBoost, n_amp2, 1%nat); (HBoth, n_amp2, 1%nat)];
    TLoc v_md (XLit (123 # 100));
    TLoc v_me (XLit (21 # 5000));
    TLoc v_pspatial (XLit (1 # 200));
    TSet n_set_masses [(XVar v_md); (XVar v_me); (XVar v_mh); (XVar v_MW)];
    TRuns (XVar v_md) (XVar v_me) (XVar v_me) (XVar v_md) (XVar v_pspatial)
      [(HLab, n_amp2, 2%nat); (HRot, n_amp2, 2%nat); (HBoost, n_amp2, 2%nat); (HBoth, n_amp2, 2%nat)];
    TLoc v_md (XLit (6 # 5));
    TLoc v_me (XLit (123 # 100));
    TLoc v_pspatial (XLit (3 # 10));
    TSet n_set_masses [(XVar v_md); (XVar v_me); (XVar v_mh); (XVar v_MW)];
    TRuns (XVar v_md) (XVar v_me) (XVar v_me) (XVar v_md) (XVar v_pspatial)
      [(HLab, n_amp2, 3%nat); (HRot, n_amp2, 3%nat); (HBoost, n_amp2, 3%nat); (HBoth, n_amp2, 3%nat)];
    TLoc v_md (XLit (6 # 5));
    TLoc v_me (XLit (123 # 100));
    TLoc v_MW (XLit (211 # 100));
    TLoc v_pspatial (XLit (3 # 10));
    TSet n_set_masses [(XVar v_md); (XVar v_me); (XVar v_mh); (XVar v_MW)];
    TRuns (XVar v_md) (XVar v_me) (XVar v_me) (XVar v_md) (XVar v_pspatial)
      [(HLab, n_amp2, 4%nat); (HRot, n_amp2, 4%nat); (HBoost, n_amp2, 4%nat); (HBoth, n_amp2, 4%nat)];
    TLoc v_md (XLit (6 # 5));
    TLoc v_me (XLit (123 # 100));
    TLoc v_MW (XLit (3 # 500));
    TLoc v_pspatial (XLit (3 # 10));
    TSet n_set_masses [(XVar v_md); (XVar v_me); (XVar v_mh); (XVar v_MW)];
    TRuns (XVar v_md) (XVar v_me) (XVar v_me) (XVar v_md) (XVar v_pspatial)
      [(HLab, n_amp2, 5%nat); (HRot, n_amp2, 5%nat); (HBoost, n_amp2, 5%nat); (HBoth, n_amp2, 5%nat)];
    TLoc v_md (XLit (6 # 5));
    TLoc v_me (XLit (123 # 100));
    TLoc v_MW (XLit (211 # 100));
    TLoc v_mh (XLit (25 # 8));
    TLoc v_pspatial (XLit (3 # 10));
    TSet n_set_masses [(XVar v_md); (XVar v_me); (XVar v_mh); (XVar v_MW)];
    TRuns (XVar v_md) (XVar v_me) (XVar v_me) (XVar v_md) (XVar v_pspatial)
      [(HLab, n_amp2, 6%nat); (HRot, n_amp2, 6%nat); (HBoost, n_amp2, 6%nat); (HBoth, n_amp2, 6%nat)];
    TLoc v_md (XLit (6 # 5));
    TLoc v_me (XLit (123 # 100));
    TLoc v_MW (XLit (3 # 500));
    TLoc v_pspatial (XLit (3 # 10));
    TSet n_set_masses [(XVar v_md); (XVar v_me); (XVar v_mh); (XVar v_MW)];
    TRuns (XVar v_md) (XVar v_me) (XVar v_me) (XVar v_md) (XVar v_pspatial)
      [(HLab, n_amp2, 7%nat); (HRot, n_amp2, 7%nat); (HBoost, n_amp2, 7%nat); (HBoth, n_amp2, 7%nat)] ].

(** SM/dgdh.cpp 148-219 *)
Definition test_dgdh : test := mkTest dgdh
  [ TLoc v_md (XLit (3 # 400));
    TLoc v_mh (XInt 125);
    TLoc v_EE (XLit (31333 # 100000));
    TLoc v_MW (XLit (16077 # 200));
    TLoc v_SW (XLit (237 # 500));
    TLoc v_gs (XLit (619 # 500));
    TNew [(XVar v_EE); (XVar v_gs); (XVar v_md); (XVar v_mh); (XVar v_MW); (XVar v_SW)];
    TLoc v_pspatial (XInt 250);
    TRuns (XVar v_md) (XInt 0) (XVar v_md) (XVar v_mh) (XVar v_pspatial)
      [(HLab, n_amp2, 0%nat); (HRot, n_amp2, 0%nat); (HBoost, n_amp2, 0%nat); (HBoth, n_amp2, 0%nat); (HLab, n_amp2_gplus, 0%nat); (HRot, n_amp2_gplus, 0%nat); (HBoost, n_amp2_gplus, 0%nat); (HBoth, n_amp2_gplus, 0%nat)];
    TLoc v_pspatial (XLit (1251 # 10));
    TRuns (XVar v_md) (XInt 0) (XVar v_md) (XVar v_mh) (XVar v_pspatial)
      [(HLab, n_amp2, 1%nat); (HRot, n_amp2, 1%nat); (HBoost, n_amp2, 1%nat); (HBoth, n_amp2, 1%nat); (HLab, n_amp2_gplus, 1%nat); (HRot, n_amp2_gplus, 1%nat); (HBoost, n_amp2_gplus, 1%nat); (HBoth, n_amp2_gplus, 1%nat)];
    TLoc v_md (XLit (1251 # 10));
    TLoc v_mh (XInt 125);
    TLoc v_pspatial (XInt 95);
    TSet n_set_masses [(XVar v_md); (XVar v_mh); (XVar v_MW)];
    TRuns (XVar v_md) (XInt 0) (XVar v_md) (XVar v_mh) (XVar v_pspatial)
      [(HLab, n_amp2, 2%nat); (HRot, n_amp2, 2%nat); (HBoost, n_amp2, 2%nat); (HBoth, n_amp2, 2%nat); (HLab, n_amp2_gplus, 2%nat); (HRot, n_amp2_gplus, 2%nat); (HBoost, n_amp2_gplus, 2%nat); (HBoth, n_amp2_gplus, 2%nat)];
    TLoc v_md (XInt 125);
    TLoc v_mh (XLit (1 # 2000));
    TLoc v_pspatial (XLit (1251 # 10));
    TSet n_set_masses [(XVar v_md); (XVar v_mh); (XVar v_MW)];
    TRuns (XVar v_md) (XInt 0) (XVar v_md) (XVar v_mh) (XVar v_pspatial)
      [(HLab, n_amp2, 3%nat); (HRot, n_amp2, 3%nat); (HBoost, n_amp2, 3%nat); (HBoth, n_amp2, 3%nat); (HLab, n_amp2_gplus, 3%nat); (HRot, n_amp2_gplus, 3%nat); (HBoost, n_amp2_gplus, 3%nat); (HBoth, n_amp2_gplus, 3%nat)] ].

(** SM/dggd.cpp 189-242 *)
Definition test_dggd : test := mkTest dggd
  [ TLoc v_md (XLit (3 # 400));
    TLoc v_gg (XLit (619 # 500));
    TNew [(XVar v_gg); (XVar v_md)];
    TLoc v_pspatial (XInt 250);
    TRuns (XVar v_md) (XInt 0) (XInt 0) (XVar v_md) (XVar v_pspatial)
      [(HLab, n_amp2, 0%nat); (HRot, n_amp2, 0%nat); (HBoost, n_amp2, 0%nat); (HBoth, n_amp2, 0%nat); (HLab, n_amp2_gplus, 1%nat); (HRot, n_amp2_gplus, 1%nat); (HBoost, n_amp2_gplus, 1%nat); (HBoth, n_amp2_gplus, 1%nat); (HLab, n_amp2_gminus, 2%nat); (HRot, n_amp2_gminus, 2%nat); (HBoost, n_amp2_gminus, 2%nat); (HBoth, n_amp2_gminus, 2%nat)];
    TLoc v_pspatial (XLit (1 # 125));
    TRuns (XVar v_md) (XInt 0) (XInt 0) (XVar v_md) (XVar v_pspatial)
      [(HLab, n_amp2, 3%nat); (HRot, n_amp2, 3%nat); (HBoost, n_amp2, 3%nat); (HBoth, n_amp2, 3%nat); (HLab, n_amp2_gplus, 4%nat); (HRot, n_amp2_gplus, 4%nat); (HBoost, n_amp2_gplus, 4%nat); (HBoth, n_amp2_gplus, 4%nat); (HLab, n_amp2_gminus, 5%nat); (HRot, n_amp2_gminus, 5%nat); (HBoost, n_amp2_gminus, 5%nat); (HBoth, n_amp2_gminus, 5%nat)] ].

(** SM/dhdh.cpp 133-194 *)
Definition test_dhdh : test := mkTest dhdh
  [ TLoc v_md (XLit (3 # 400));
    TLoc v_mh (XInt 125);
    TLoc v_wh (XInt 0);
    TLoc v_MW (XLit (16077 # 200));
    TLoc v_SW (XLit (237 # 500));
    TNew [(XLit (31333 # 100000)); (XVar v_md); (XVar v_mh); (XVar v_wh); (XVar v_MW); (XVar v_SW)];
    TLoc v_pspatial (XInt 250);
    TRuns (XVar v_md) (XVar v_mh) (XVar v_md) (XVar v_mh) (XVar v_pspatial)
      [(HLab, n_amp2, 0%nat); (HRot, n_amp2, 0%nat); (HBoost, n_amp2, 0%nat); (HBoth, n_amp2, 0%nat)];
    TLoc v_pspatial (XInt 126);
    TRuns (XVar v_md) (XVar v_mh) (XVar v_md) (XVar v_mh) (XVar v_pspatial)
      [(HLab, n_amp2, 1%nat); (HRot, n_amp2, 1%nat); (HBoost, n_amp2, 1%nat); (HBoth, n_amp2, 1%nat)];
    TLoc v_md (XLit (1 # 10));
    TLoc v_mh (XLit (3 # 20));
    TLoc v_pspatial (XLit (1 # 5));
    TSet n_set_masses [(XVar v_md); (XVar v_mh); (XVar v_MW)];
    TRuns (XVar v_md) (XVar v_mh) (XVar v_md) (XVar v_mh) (XVar v_pspatial)
      [(HLab, n_amp2, 2%nat); (HRot, n_amp2, 2%nat); (HBoost, n_amp2, 2%nat); (HBoth, n_amp2, 2%nat)];
    TLoc v_md (XLit (1 # 10));
    TLoc v_mh (XLit (3 # 20));
    TLoc v_MW (XLit (11 # 100));
    TLoc v_pspatial (XLit (1 # 5));
    TSet n_set_masses [(XVar v_md); (XVar v_mh); (XVar v_MW)];
    TRuns (XVar v_md) (XVar v_mh) (XVar v_md) (XVar v_mh) (XVar v_pspatial)
      [(HLab, n_amp2, 3%nat); (HRot, n_amp2, 3%nat); (HBoost, n_amp2, 3%nat); (HBoth, n_amp2, 3%nat)];
    TLoc v_md (XLit (1 # 10));
    TLoc v_mh (XLit (3 # 20));
    TLoc v_MW (XLit (3 # 500));
    TLoc v_pspatial (XLit (1 # 5));
    TSet n_set_masses [(XVar v_md); (XVar v_mh); (XVar v_MW)];
    TRuns (XVar v_md) (XVar v_mh) (XVar v_md) (XVar v_mh) (XVar v_pspatial)
      [(HLab, n_amp2, 4%nat); (HRot, n_amp2, 4%nat); (HBoost, n_amp2, 4%nat); (HBoth, n_amp2, 4%nat)] ].

(** SM/dnnd.cpp 125-170 *)
Definition test_dnnd : test := mkTest dnnd
  [ TLoc v_md (XLit (21 # 5000));
    TLoc v_MW (XLit (16077 # 200));
    TLoc v_SW (XLit (237 # 500));
    TLoc v_WZ (XInt 0);
    TNew [(XLit (31333 # 100000)); (XVar v_md); (XVar v_MW); (XVar v_SW); (XVar v_WZ)];
    TLoc v_pspatial (XInt 250);
    TRuns (XVar v_md) (XInt 0) (XInt 0) (XVar v_md) (XVar v_pspatial)
      [(HLab, n_amp2, 0%nat); (HRot, n_amp2, 0%nat); (HBoost, n_amp2, 0%nat); (HBoth, n_amp2, 0%nat)];
    TLoc v_pspatial (XLit (1 # 1000));
    TRuns (XVar v_md) (XInt 0) (XInt 0) (XVar v_md) (XVar v_pspatial)
      [(HLab, n_amp2, 1%nat); (HRot, n_amp2, 1%nat); (HBoost, n_amp2, 1%nat); (HBoth, n_amp2, 1%nat)];
    TLoc v_MW (XLit (3 # 200));
    TSet n_set_masses [(XVar v_md); (XVar v_MW)];
    TRuns (XVar v_md) (XInt 0) (XInt 0) (XVar v_md) (XVar v_pspatial)
      [(HLab, n_amp2, 2%nat); (HRot, n_amp2, 2%nat); (HBoost, n_amp2, 2%nat); (HBoth, n_amp2, 2%nat)];
    TLoc v_MW (XLit (3 # 5000));
    TSet n_set_masses [(XVar v_md); (XVar v_MW)];
    TRuns (XVar v_md) (XInt 0) (XInt 0) (XVar v_md) (XVar v_pspatial)
      [(HLab, n_amp2, 3%nat); (HRot, n_amp2, 3%nat); (HBoost, n_amp2, 3%nat); (HBoth, n_amp2, 3%nat)] ].

(** SM/dsds.cpp 205-299 *)
Definition test_dsds : test := mkTest dsds
  [ TLoc v_md (XLit (21 # 5000));
    TLoc v_ms (XLit (123 # 100));
    TLoc v_mh (XInt 125);
    TLoc v_wh (XInt 0);
    TLoc v_MW (XLit (16077 # 200));
    TLoc v_SW (XLit (237 # 500));
    TLoc v_WZ (XInt 0);
    TNew [(XLit (31333 # 100000)); (XLit (619 # 500)); (XVar v_md); (XVar v_ms); (XVar v_mh); (XVar v_wh); (XVar v_MW); (XVar v_SW); (XVar v_WZ)];
    TLoc v_pspatial (XInt 250);
    TRuns (XVar v_md) (XVar v_ms) (XVar v_md) (XVar v_ms) (XVar v_pspatial)
      [(HLab, n_amp2, 0%nat); (HRot, n_amp2, 0%nat); (HBoost, n_amp2, 0%nat); (HBoth, n_amp2, 0%nat)];
    TLoc v_pspatial (XLit (5 # 4));
    TRuns (XVar v_md) (XVar v_ms) (XVar v_md) (XVar v_ms) (XVar v_pspatial)
      [(HLab, n_amp2, 1%nat); (HRot, n_amp2, 1%nat); (HBoost, n_amp2, 1%nat); (HBoth, n_amp2, 1%nat)];
    TLoc v_md (XLit (123 # 100));
    TLoc v_ms (XLit (21 # 5000));
    TLoc v_pspatial (XLit (1 # 200));
    TSet n_set_masses [(XVar v_md); (XVar v_ms); (XVar v_mh); (XVar v_MW)];
    TRuns (XVar v_md) (XVar v_ms) (XVar v_md) (XVar v_ms) (XVar v_pspatial)
      [(HLab, n_amp2, 2%nat); (HRot, n_amp2, 2%nat); (HBoost, n_amp2, 2%nat); (HBoth, n_amp2, 2%nat)];
    TLoc v_md (XLit (6 # 5));
    TLoc v_ms (XLit (123 # 100));
    TLoc v_pspatial (XLit (3 # 10));
    TSet n_set_masses [(XVar v_md); (XVar v_ms); (XVar v_mh); (XVar v_MW)];
    TRuns (XVar v_md) (XVar v_ms) (XVar v_md) (XVar v_ms) (XVar v_pspatial)
      [(HLab, n_amp2, 3%nat); (HRot, n_amp2, 3%nat); (HBoost, n_amp2, 3%nat); (HBoth, n_amp2, 3%nat)];
    TLoc v_md (XLit (6 # 5));
    TLoc v_ms (XLit (123 # 100));
    TLoc v_MW (XLit (211 # 100));
    TLoc v_pspatial (XLit (3 # 10));
    TSet n_set_masses [(XVar v_md); (XVar v_ms); (XVar v_mh); (XVar v_MW)];
    TRuns (XVar v_md) (XVar v_ms) (XVar v_md) (XVar v_ms) (XVar v_pspatial)
      [(HLab, n_amp2, 4%nat); (HRot, n_amp2, 4%nat); (HBoost, n_amp2, 4%nat); (HBoth, n_amp2, 4%nat)];
    TLoc v_md (XLit (6 # 5));
    TLoc v_ms (XLit (123 # 100));
    TLoc v_MW (XLit (3 # 500));
    TLoc v_pspatial (XLit (3 # 10));
    TSet n_set_masses [(XVar v_md); (XVar v_ms); (XVar v_mh); (XVar v_MW)];
    TRuns (XVar v_md) (XVar v_ms) (XVar v_md) (XVar v_ms) (XVar v_pspatial)
      [(HLab, n_amp2, 5%nat); (HRot, n_amp2, 5%nat); (HBoost, n_amp2, 5%nat); (HBoth, n_amp2, 5%nat)];
    TLoc v_md (XLit (6 # 5));
    TLoc v_ms (XLit (123 # 100));
    TLoc v_MW (XLit (211 # 100));
    TLoc v_mh (XLit (25 # 8));
    TLoc v_pspatial (XLit (3 # 10));
    TSet n_set_masses [(XVar v_md); (XVar v_ms); (XVar v_mh); (XVar v_MW)];
    TRuns (XVar v_md) (XVar v_ms) (XVar v_md) (XVar v_ms) (XVar v_pspatial)
      [(HLab, n_amp2, 6%nat); (HRot, n_amp2, 6%nat); (HBoost, n_amp2, 6%nat); (HBoth, n_amp2, 6%nat)];
    TLoc v_md (XLit (6 # 5));
    TLoc v_ms (XLit (123 # 100));
    TLoc v_MW (XLit (3 # 500));
    TLoc v_pspatial (XLit (3 # 10));
    TSet n_set_masses [(XVar v_md); (XVar v_ms); (XVar v_mh); (XVar v_MW)];
    TRuns (XVar v_md) (XVar v_ms) (XVar v_md) (XVar v_ms) (XVar v_pspatial)
      [(HLab, n_amp2, 7%nat); (HRot, n_amp2, 7%nat); (HBoost, n_amp2, 7%nat); (HBoth, n_amp2, 7%nat)] ].

(** SM/eAAe.cpp 174-216 *)
Definition test_eAAe : test := mkTest eAAe
  [ TLoc v_me (XLit (1 # 2000));
    TLoc v_EE (XLit (31333 # 100000));
    TNew [(XVar v_EE); (XVar v_me)];
    TLoc v_pspatial (XInt 250);
    TRuns (XVar v_me) (XInt 0) (XInt 0) (XVar v_me) (XVar v_pspatial)
      [(HLab, n_amp2, 0%nat); (HRot, n_amp2, 0%nat); (HBoost, n_amp2, 0%nat); (HBoth, n_amp2, 0%nat); (HLab, n_amp2_Aplus, 1%nat); (HRot, n_amp2_Aplus, 1%nat); (HBoost, n_amp2_Aplus, 1%nat); (HBoth, n_amp2_Aplus, 1%nat)];
    TLoc v_pspatial (XLit (1 # 10000));
    TRuns (XVar v_me) (XInt 0) (XInt 0) (XVar v_me) (XVar v_pspatial)
      [(HLab, n_amp2, 2%nat); (HRot, n_amp2, 2%nat); (HBoost, n_amp2, 2%nat); (HBoth, n_amp2, 2%nat); (HLab, n_amp2_Aplus, 3%nat); (HRot, n_amp2_Aplus, 3%nat); (HBoost, n_amp2_Aplus, 3%nat); (HBoth, n_amp2_Aplus, 3%nat)] ].

(** SM/eAeh.cpp 203-273 *)
Definition test_eAeh : test := mkTest eAeh
  [ TLoc v_me (XLit (1 # 2000));
    TLoc v_mh (XInt 125);
    TLoc v_EE (XLit (31333 # 100000));
    TLoc v_MW (XLit (16077 # 200));
    TLoc v_SW (XLit (237 # 500));
    TLoc v_vev (XOp Div (XOp Mul (XOp Mul (XLit (2 # 1)) (XVar v_MW)) (XVar v_SW)) (XVar v_EE));
    TNew [(XVar v_EE); (XVar v_me); (XVar v_mh); (XVar v_vev)];
    TLoc v_pspatial (XInt 250);
    TRuns (XVar v_me) (XInt 0) (XVar v_me) (XVar v_mh) (XVar v_pspatial)
      [(HLab, n_amp2, 0%nat); (HRot, n_amp2, 0%nat); (HBoost, n_amp2, 0%nat); (HBoth, n_amp2, 0%nat); (HLab, n_amp2_Aplus, 0%nat); (HRot, n_amp2_Aplus, 0%nat); (HBoost, n_amp2_Aplus, 0%nat); (HBoth, n_amp2_Aplus, 0%nat)];
    TLoc v_pspatial (XLit (1251 # 10));
    TRuns (XVar v_me) (XInt 0) (XVar v_me) (XVar v_mh) (XVar v_pspatial)
      [(HLab, n_amp2, 1%nat); (HRot, n_amp2, 1%nat); (HBoost, n_amp2, 1%nat); (HBoth, n_amp2, 1%nat); (HLab, n_amp2_Aplus, 1%nat); (HRot, n_amp2_Aplus, 1%nat); (HBoost, n_amp2_Aplus, 1%nat); (HBoth, n_amp2_Aplus, 1%nat)];
    TLoc v_me (XLit (1251 # 10));
    TLoc v_mh (XInt 125);
    TLoc v_pspatial (XInt 95);
    TSet n_set_masses [(XVar v_me); (XVar v_mh)];
    TRuns (XVar v_me) (XInt 0) (XVar v_me) (XVar v_mh) (XVar v_pspatial)
      [(HLab, n_amp2, 2%nat); (HRot, n_amp2, 2%nat); (HBoost, n_amp2, 2%nat); (HBoth, n_amp2, 2%nat); (HLab, n_amp2_Aplus, 2%nat); (HRot, n_amp2_Aplus, 2%nat); (HBoost, n_amp2_Aplus, 2%nat); (HBoth, n_amp2_Aplus, 2%nat)];
    TLoc v_me (XInt 125);
    TLoc v_mh (XLit (1 # 2000));
    TLoc v_pspatial (XLit (1251 # 10));
    TSet n_set_masses [(XVar v_me); (XVar v_mh)];
    TRuns (XVar v_me) (XInt 0) (XVar v_me) (XVar v_mh) (XVar v_pspatial)
      [(HLab, n_amp2, 3%nat); (HRot, n_amp2, 3%nat); (HBoost, n_amp2, 3%nat); (HBoth, n_amp2, 3%nat); (HLab, n_amp2_Aplus, 3%nat); (HRot, n_amp2_Aplus, 3%nat); (HBoost, n_amp2_Aplus, 3%nat); (HBoth, n_amp2_Aplus, 3%nat)] ].

(** SM/eWWe.cpp 227-278 *)
Definition test_eWWe : test := mkTest eWWe
  [ TLoc v_me (XLit (1 # 2000));
    TLoc v_mh (XInt 125);
    TLoc v_EE (XLit (31333 # 100000));
    TLoc v_MW (XLit (16077 # 200));
    TLoc v_SW (XLit (237 # 500));
    TLoc v_CW (XSqrt (XOp Sub (XInt 1) (XOp Mul (XVar v_SW) (XVar v_SW))));
    TLoc v_MZ (XOp Div (XVar v_MW) (XVar v_CW));
    TNew [(XVar v_EE); (XVar v_me); (XVar v_mh); (XInt 0); (XVar v_MW); (XVar v_SW); (XInt 0)];
    TLoc v_pspatial (XInt 250);
    TRuns (XVar v_me) (XVar v_MW) (XVar v_MW) (XVar v_me) (XVar v_pspatial)
      [(HLab, n_amp2, 0%nat); (HRot, n_amp2, 0%nat); (HBoost, n_amp2, 0%nat); (HBoth, n_amp2, 0%nat)];
    TLoc v_pspatial (XLit (1251 # 10));
    TRuns (XVar v_me) (XVar v_MW) (XVar v_MW) (XVar v_me) (XVar v_pspatial)
      [(HLab, n_amp2, 1%nat); (HRot, n_amp2, 1%nat); (HBoost, n_amp2, 1%nat); (HBoth, n_amp2, 1%nat)];
    TLoc v_me (XLit (1251 # 10));
    TLoc v_mh (XInt 125);
    TLoc v_pspatial (XInt 95);
    TSet n_set_masses [(XVar v_me); (XVar v_mh); (XVar v_MW)];
    TRuns (XVar v_me) (XVar v_MW) (XVar v_MW) (XVar v_me) (XVar v_pspatial)
      [(HLab, n_amp2, 2%nat); (HRot, n_amp2, 2%nat); (HBoost, n_amp2, 2%nat); (HBoth, n_amp2, 2%nat)];
    TLoc v_me (XInt 125);
    TLoc v_mh (XLit (1 # 2000));
    TLoc v_pspatial (XLit (1251 # 10));
    TSet n_set_masses [(XVar v_me); (XVar v_mh); (XVar v_MW)];
    TRuns (XVar v_me) (XVar v_MW) (XVar v_MW) (XVar v_me) (XVar v_pspatial)
      [(HLab, n_amp2, 3%nat); (HRot, n_amp2, 3%nat); (HBoost, n_amp2, 3%nat); (HBoth, n_amp2, 3%nat)] ].

(** SM/eZZe.cpp 199-250 *)
Definition test_eZZe : test := mkTest eZZe
  [ TLoc v_me (XLit (1 # 2000));
    TLoc v_mh (XInt 125);
    TLoc v_EE (XLit (31333 # 100000));
    TLoc v_MW (XLit (16077 # 200));
    TLoc v_SW (XLit (237 # 500));
    TLoc v_CW (XSqrt (XOp Sub (XInt 1) (XOp Mul (XVar v_SW) (XVar v_SW))));
    TLoc v_MZ (XOp Div (XVar v_MW) (XVar v_CW));
    TNew [(XVar v_EE); (XVar v_me); (XVar v_mh); (XInt 0); (XVar v_MW); (XVar v_SW); (XInt 0)];
    TLoc v_pspatial (XInt 250);
    TRuns (XVar v_me) (XVar v_MZ) (XVar v_MZ) (XVar v_me) (XVar v_pspatial)
      [(HLab, n_amp2, 0%nat); (HRot, n_amp2, 0%nat); (HBoost, n_amp2, 0%nat); (HBoth, n_amp2, 0%nat)];
    TLoc v_pspatial (XLit (1251 # 10));
    TRuns (XVar v_me) (XVar v_MZ) (XVar v_MZ) (XVar v_me) (XVar v_pspatial)
      [(HLab, n_amp2, 1%nat); (HRot, n_amp2, 1%nat); (HBoost, n_amp2, 1%nat); (HBoth, n_amp2, 1%nat)];
    TLoc v_me (XLit (1251 # 10));
    TLoc v_mh (XInt 125);
    TLoc v_pspatial (XInt 95);
    TSet n_set_masses [(XVar v_me); (XVar v_mh); (XVar v_MW)];
    TRuns (XVar v_me) (XVar v_MZ) (XVar v_MZ) (XVar v_me) (XVar v_pspatial)
      [(HLab, n_amp2, 2%nat); (HRot, n_amp2, 2%nat); (HBoost, n_amp2, 2%nat); (HBoth, n_amp2, 2%nat)];
    TLoc v_me (XInt 125);
    TLoc v_mh (XLit (1 # 2000));
    TLoc v_pspatial (XLit (1251 # 10));
    TSet n_set_masses [(XVar v_me); (XVar v_mh); (XVar v_MW)];
    TRuns (XVar v_me) (XVar v_MZ) (XVar v_MZ) (XVar v_me) (XVar v_pspatial)
      [(HLab, n_amp2, 3%nat); (HRot, n_amp2, 3%nat); (HBoost, n_amp2, 3%nat); (HBoth, n_amp2, 3%nat)] ].

(** SM/eZeh.cpp 184-235 *)
Definition test_eZeh : test := mkTest eZeh
  [ TLoc v_me (XLit (1 # 2000));
    TLoc v_mh (XInt 125);
    TLoc v_EE (XLit (31333 # 100000));
    TLoc v_MW (XLit (16077 # 200));
    TLoc v_SW (XLit (237 # 500));
    TLoc v_CW (XSqrt (XOp Sub (XInt 1) (XOp Mul (XVar v_SW) (XVar v_SW))));
    TLoc v_MZ (XOp Div (XVar v_MW) (XVar v_CW));
    TNew [(XVar v_EE); (XVar v_me); (XVar v_mh); (XInt 0); (XVar v_MW); (XVar v_SW); (XInt 0)];
    TLoc v_pspatial (XInt 250);
    TRuns (XVar v_me) (XVar v_MZ) (XVar v_me) (XVar v_mh) (XVar v_pspatial)
      [(HLab, n_amp2, 0%nat); (HRot, n_amp2, 0%nat); (HBoost, n_amp2, 0%nat); (HBoth, n_amp2, 0%nat)];
    TLoc v_pspatial (XInt 35);
    TRuns (XVar v_me) (XVar v_MZ) (XVar v_me) (XVar v_mh) (XVar v_pspatial)
      [(HLab, n_amp2, 1%nat); (HRot, n_amp2, 1%nat); (HBoost, n_amp2, 1%nat); (HBoth, n_amp2, 1%nat)];
    TLoc v_me (XLit (1251 # 10));
    TLoc v_mh (XInt 125);
    TLoc v_pspatial (XInt 65);
    TSet n_set_masses [(XVar v_me); (XVar v_mh); (XVar v_MW)];
    TRuns (XVar v_me) (XVar v_MZ) (XVar v_me) (XVar v_mh) (XVar v_pspatial)
      [(HLab, n_amp2, 2%nat); (HRot, n_amp2, 2%nat); (HBoost, n_amp2, 2%nat); (HBoth, n_amp2, 2%nat)];
    TLoc v_me (XInt 125);
    TLoc v_mh (XLit (1 # 2000));
    TLoc v_pspatial (XInt 1);
    TSet n_set_masses [(XVar v_me); (XVar v_mh); (XVar v_MW)];
    TRuns (XVar v_me) (XVar v_MZ) (XVar v_me) (XVar v_mh) (XVar v_pspatial)
      [(HLab, n_amp2, 3%nat); (HRot, n_amp2, 3%nat); (HBoost, n_amp2, 3%nat); (HBoth, n_amp2, 3%nat)] ].

(** SM/eeAA.cpp 197-226 *)
Definition test_eeAA : test := mkTest eeAA
  [ TLoc v_me (XLit (1 # 2000));
    TLoc v_EE (XLit (31333 # 100000));
    TNew [(XVar v_EE); (XVar v_me)];
    TLoc v_pspatial (XInt 250);
    TRuns (XVar v_me) (XVar v_me) (XInt 0) (XInt 0) (XVar v_pspatial)
      [(HLab, n_amp2, 0%nat); (HRot, n_amp2, 0%nat); (HBoost, n_amp2, 0%nat); (HBoth, n_amp2, 0%nat)];
    TLoc v_pspatial (XLit (1 # 10000));
    TRuns (XVar v_me) (XVar v_me) (XInt 0) (XInt 0) (XVar v_pspatial)
      [(HLab, n_amp2, 1%nat); (HRot, n_amp2, 1%nat); (HBoost, n_amp2, 1%nat); (HBoth, n_amp2, 1%nat)] ].

(** SM/eeAZ.cpp 177-226 *)
Definition test_eeAZ : test := mkTest eeAZ
  [ TLoc v_me (XLit (1 # 2000));
    TLoc v_EE (XLit (31333 # 100000));
    TLoc v_MW (XLit (16077 # 200));
    TLoc v_SW (XLit (237 # 500));
    TLoc v_CW (XSqrt (XOp Sub (XInt 1) (XOp Mul (XVar v_SW) (XVar v_SW))));
    TLoc v_MZ (XOp Div (XVar v_MW) (XVar v_CW));
    TNew [(XVar v_EE); (XVar v_me); (XVar v_MW); (XVar v_SW)];
    TLoc v_pspatial (XInt 250);
    TRuns (XVar v_me) (XVar v_me) (XVar v_MZ) (XVar v_MZ) (XVar v_pspatial)
      [(HLab, n_amp2, 0%nat)];
    TLoc v_pspatial (XLit (1251 # 10));
    TRuns (XVar v_me) (XVar v_me) (XVar v_MZ) (XVar v_MZ) (XVar v_pspatial)
      [(HLab, n_amp2, 1%nat)];
    TLoc v_me (XLit (1251 # 10));
    TLoc v_pspatial (XInt 95);
    TSet n_set_masses [(XVar v_me); (XVar v_MW)];
    TRuns (XVar v_me) (XVar v_me) (XVar v_MZ) (XVar v_MZ) (XVar v_pspatial)
      [(HLab, n_amp2, 2%nat)];
    TLoc v_me (XInt 125);
    TLoc v_pspatial (XLit (1251 # 10));
    TSet n_set_masses [(XVar v_me); (XVar v_MW)];
    TRuns (XVar v_me) (XVar v_me) (XVar v_MZ) (XVar v_MZ) (XVar v_pspatial)
      [(HLab, n_amp2, 3%nat)] ].

(** SM/eeAh.cpp 130-180 *)
Definition test_eeAh : test := mkTest eeAh
  [ TLoc v_me (XLit (1 # 2000));
    TLoc v_mh (XInt 125);
    TLoc v_EE (XLit (31333 # 100000));
    TLoc v_MW (XLit (16077 # 200));
    TLoc v_SW (XLit (237 # 500));
    TLoc v_vev (XOp Div (XOp Mul (XOp Mul (XLit (2 # 1)) (XVar v_MW)) (XVar v_SW)) (XVar v_EE));
    TNew [(XVar v_EE); (XVar v_me); (XVar v_mh); (XVar v_vev)];
    TLoc v_pspatial (XInt 250);
    TRuns (XVar v_me) (XVar v_me) (XInt 0) (XVar v_mh) (XVar v_pspatial)
      [(HLab, n_amp2, 0%nat); (HRot, n_amp2, 0%nat); (HBoost, n_amp2, 0%nat); (HBoth, n_amp2, 0%nat)];
    TLoc v_pspatial (XLit (1251 # 10));
    TRuns (XVar v_me) (XVar v_me) (XInt 0) (XVar v_mh) (XVar v_pspatial)
      [(HLab, n_amp2, 1%nat); (HRot, n_amp2, 1%nat); (HBoost, n_amp2, 1%nat); (HBoth, n_amp2, 1%nat)];
    TLoc v_me (XLit (1251 # 10));
    TLoc v_mh (XInt 125);
    TLoc v_pspatial (XInt 95);
    TSet n_set_masses [(XVar v_me); (XVar v_mh)];
    TRuns (XVar v_me) (XVar v_me) (XInt 0) (XVar v_mh) (XVar v_pspatial)
      [(HLab, n_amp2, 2%nat); (HRot, n_amp2, 2%nat); (HBoost, n_amp2, 2%nat); (HBoth, n_amp2, 2%nat)];
    TLoc v_me (XInt 125);
    TLoc v_mh (XLit (1 # 2000));
    TLoc v_pspatial (XLit (1251 # 10));
    TSet n_set_masses [(XVar v_me); (XVar v_mh)];
    TRuns (XVar v_me) (XVar v_me) (XInt 0) (XVar v_mh) (XVar v_pspatial)
      [(HLab, n_amp2, 3%nat); (HRot, n_amp2, 3%nat); (HBoost, n_amp2, 3%nat); (HBoth, n_amp2, 3%nat)] ].

(** SM/eeWW.cpp 210-266 *)
Definition test_eeWW : test := mkTest eeWW
  [ TLoc v_me (XLit (1 # 2000));
    TLoc v_mh (XInt 125);
    TLoc v_EE (XLit (31333 # 100000));
    TLoc v_MW (XLit (16077 # 200));
    TLoc v_SW (XLit (237 # 500));
    TLoc v_CW (XSqrt (XOp Sub (XInt 1) (XOp Mul (XVar v_SW) (XVar v_SW))));
    TLoc v_MZ (XOp Div (XVar v_MW) (XVar v_CW));
    TNew [(XVar v_EE); (XVar v_me); (XVar v_mh); (XInt 0); (XVar v_MW); (XVar v_SW); (XInt 0)];
    TLoc v_pspatial (XInt 250);
    TRuns (XVar v_me) (XVar v_me) (XVar v_MW) (XVar v_MW) (XVar v_pspatial)
      [(HLab, n_amp2, 0%nat); (HRot, n_amp2, 0%nat); (HBoost, n_amp2, 0%nat); (HBoth, n_amp2, 0%nat)];
    TLoc v_pspatial (XInt 2500);
    TRuns (XVar v_me) (XVar v_me) (XVar v_MW) (XVar v_MW) (XVar v_pspatial)
      [(HLab, n_amp2, 1%nat); (HRot, n_amp2, 1%nat)];
    TLoc v_pspatial (XLit (1251 # 10));
    TRuns (XVar v_me) (XVar v_me) (XVar v_MW) (XVar v_MW) (XVar v_pspatial)
      [(HLab, n_amp2, 2%nat); (HRot, n_amp2, 2%nat); (HBoost, n_amp2, 2%nat); (HBoth, n_amp2, 2%nat)];
    TLoc v_me (XLit (1251 # 10));
    TLoc v_mh (XInt 125);
    TLoc v_pspatial (XInt 95);
    TSet n_set_masses [(XVar v_me); (XVar v_mh); (XVar v_MW)];
    TRuns (XVar v_me) (XVar v_me) (XVar v_MW) (XVar v_MW) (XVar v_pspatial)
      [(HLab, n_amp2, 3%nat); (HRot, n_amp2, 3%nat); (HBoost, n_amp2, 3%nat); (HBoth, n_amp2, 3%nat)];
    TLoc v_me (XInt 125);
    TLoc v_mh (XLit (1 # 2000));
    TLoc v_pspatial (XLit (1251 # 10));
    TSet n_set_masses [(XVar v_me); (XVar v_mh); (XVar v_MW)];
    TRuns (XVar v_me) (XVar v_me) (XVar v_MW) (XVar v_MW) (XVar v_pspatial)
      [(HLab, n_amp2, 4%nat); (HRot, n_amp2, 4%nat); (HBoost, n_amp2, 4%nat); (HBoth, n_amp2, 4%nat)] ].

(** SM/eeZZ.cpp 190-241 *)
Definition test_eeZZ : test := mkTest eeZZ
  [ TLoc v_me (XLit (1 # 2000));
    TLoc v_mh (XInt 125);
    TLoc v_EE (XLit (31333 # 100000));
    TLoc v_MW (XLit (16077 # 200));
    TLoc v_SW (XLit (237 # 500));
    TLoc v_CW (XSqrt (XOp Sub (XInt 1) (XOp Mul (XVar v_SW) (XVar v_SW))));
    TLoc v_MZ (XOp Div (XVar v_MW) (XVar v_CW));
    TNew [(XVar v_EE); (XVar v_me); (XVar v_mh); (XInt 0); (XVar v_MW); (XVar v_SW); (XInt 0)];
    TLoc v_pspatial (XInt 250);
    TRuns (XVar v_me) (XVar v_me) (XVar v_MZ) (XVar v_MZ) (XVar v_pspatial)
      [(HLab, n_amp2, 0%nat); (HRot, n_amp2, 0%nat); (HBoost, n_amp2, 0%nat); (HBoth, n_amp2, 0%nat)];
    TLoc v_pspatial (XLit (1251 # 10));
    TRuns (XVar v_me) (XVar v_me) (XVar v_MZ) (XVar v_MZ) (XVar v_pspatial)
      [(HLab, n_amp2, 1%nat); (HRot, n_amp2, 1%nat); (HBoost, n_amp2, 1%nat); (HBoth, n_amp2, 1%nat)];
    TLoc v_me (XLit (1251 # 10));
    TLoc v_mh (XInt 125);
    TLoc v_pspatial (XInt 95);
    TSet n_set_masses [(XVar v_me); (XVar v_mh); (XVar v_MW)];
    TRuns (XVar v_me) (XVar v_me) (XVar v_MZ) (XVar v_MZ) (XVar v_pspatial)
      [(HLab, n_amp2, 2%nat); (HRot, n_amp2, 2%nat); (HBoost, n_amp2, 2%nat); (HBoth, n_amp2, 2%nat)];
    TLoc v_me (XInt 125);
    TLoc v_mh (XLit (1 # 2000));
    TLoc v_pspatial (XLit (1251 # 10));
    TSet n_set_masses [(XVar v_me); (XVar v_mh); (XVar v_MW)];
    TRuns (XVar v_me) (XVar v_me) (XVar v_MZ) (XVar v_MZ) (XVar v_pspatial)
      [(HLab, n_amp2, 3%nat); (HRot, n_amp2, 3%nat); (HBoost, n_amp2, 3%nat); (HBoth, n_amp2, 3%nat)] ].

(** SM/eeZh.cpp 180-231 *)
Definition test_eeZh : test := mkTest eeZh
  [ TLoc v_me (XLit (1 # 2000));
    TLoc v_mh (XInt 125);
    TLoc v_EE (XLit (31333 # 100000));
    TLoc v_MW (XLit (16077 # 200));
    TLoc v_SW (XLit (237 # 500));
    TLoc v_CW (XSqrt (XOp Sub (XInt 1) (XOp Mul (XVar v_SW) (XVar v_SW))));
    TLoc v_MZ (XOp Div (XVar v_MW) (XVar v_CW));
    TNew [(XVar v_EE); (XVar v_me); (XVar v_mh); (XInt 0); (XVar v_MW); (XVar v_SW); (XInt 0)];
    TLoc v_pspatial (XInt 250);
    TRuns (XVar v_me) (XVar v_me) (XVar v_MZ) (XVar v_mh) (XVar v_pspatial)
      [(HLab, n_amp2, 0%nat); (HRot, n_amp2, 0%nat); (HBoost, n_amp2, 0%nat); (HBoth, n_amp2, 0%nat)];
    TLoc v_pspatial (XLit (1251 # 10));
    TRuns (XVar v_me) (XVar v_me) (XVar v_MZ) (XVar v_mh) (XVar v_pspatial)
      [(HLab, n_amp2, 1%nat); (HRot, n_amp2, 1%nat); (HBoost, n_amp2, 1%nat); (HBoth, n_amp2, 1%nat)];
    TLoc v_me (XLit (1251 # 10));
    TLoc v_mh (XInt 125);
    TLoc v_pspatial (XInt 95);
    TSet n_set_masses [(XVar v_me); (XVar v_mh); (XVar v_MW)];
    TRuns (XVar v_me) (XVar v_me) (XVar v_MZ) (XVar v_mh) (XVar v_pspatial)
      [(HLab, n_amp2, 2%nat); (HRot, n_amp2, 2%nat); (HBoost, n_amp2, 2%nat); (HBoth, n_amp2, 2%nat)];
    TLoc v_me (XInt 125);
    TLoc v_mh (XLit (1 # 2000));
    TLoc v_pspatial (XLit (1251 # 10));
    TSet n_set_masses [(XVar v_me); (XVar v_mh); (XVar v_MW)];
    TRuns (XVar v_me) (XVar v_me) (XVar v_MZ) (XVar v_mh) (XVar v_pspatial)
      [(HLab, n_amp2, 3%nat); (HRot, n_amp2, 3%nat); (HBoost, n_amp2, 3%nat); (HBoth, n_amp2, 3%nat)] ].

(** SM/eeee.cpp 209-289 *)
Definition test_eeee : test := mkTest eeee
  [ TLoc v_me (XLit (1 # 2000));
    TLoc v_mh (XInt 125);
    TLoc v_wh (XInt 0);
    TLoc v_MW (XLit (16077 # 200));
    TLoc v_SW (XLit (237 # 500));
    TLoc v_WZ (XInt 0);
    TNew [(XLit (31333 # 100000)); (XVar v_me); (XVar v_mh); (XVar v_wh); (XVar v_MW); (XVar v_SW); (XVar v_WZ)];
    TLoc v_pspatial (XInt 250);
    TRuns (XVar v_me) (XVar v_me) (XVar v_me) (XVar v_me) (XVar v_pspatial)
      [(HLab, n_amp2, 0%nat); (HRot, n_amp2, 0%nat); (HBoost, n_amp2, 0%nat); (HBoth, n_amp2, 0%nat)];
    TLoc v_pspatial (XLit (1 # 200));
    TRuns (XVar v_me) (XVar v_me) (XVar v_me) (XVar v_me) (XVar v_pspatial)
      [(HLab, n_amp2, 1%nat); (HRot, n_amp2, 1%nat); (HBoost, n_amp2, 1%nat); (HBoth, n_amp2, 1%nat)];
    TLoc v_me (XLit (1 # 10));
    TLoc v_pspatial (XLit (1 # 20));
    TSet n_set_masses [(XVar v_me); (XVar v_mh); (XVar v_MW)];
    TRuns (XVar v_me) (XVar v_me) (XVar v_me) (XVar v_me) (XVar v_pspatial)
      [(HLab, n_amp2, 2%nat); (HRot, n_amp2, 2%nat); (HBoost, n_amp2, 2%nat); (HBoth, n_amp2, 2%nat)];
    TLoc v_me (XLit (1 # 10));
    TLoc v_MW (XLit (11 # 100));
    TLoc v_pspatial (XLit (1 # 20));
    TSet n_set_masses [(XVar v_me); (XVar v_mh); (XVar v_MW)];
    TRuns (XVar v_me) (XVar v_me) (XVar v_me) (XVar v_me) (XVar v_pspatial)
      [(HLab, n_amp2, 3%nat); (HRot, n_amp2, 3%nat); (HBoost, n_amp2, 3%nat); (HBoth, n_amp2, 3%nat)];
    TLoc v_me (XLit (1 # 10));
    TLoc v_MW (XLit (3 # 500));
    TLoc v_pspatial (XLit (1 # 20));
    TSet n_set_masses [(XVar v_me); (XVar v_mh); (XVar v_MW)];
    TRuns (XVar v_me) (XVar v_me) (XVar v_me) (XVar v_me) (XVar v_pspatial)
      [(HLab, n_amp2, 4%nat); (HRot, n_amp2, 4%nat); (HBoost, n_amp2, 4%nat); (HBoth, n_amp2, 4%nat)];
    TLoc v_me (XLit (1 # 10));
    TLoc v_MW (XLit (11 # 100));
    TLoc v_mh (XLit (1 # 8));
    TLoc v_pspatial (XLit (1 # 20));
    TSet n_set_masses [(XVar v_me); (XVar v_mh); (XVar v_MW)];
    TRuns (XVar v_me) (XVar v_me) (XVar v_me) (XVar v_me) (XVar v_pspatial)
      [(HLab, n_amp2, 5%nat); (HRot, n_amp2, 5%nat); (HBoost, n_amp2, 5%nat); (HBoth, n_amp2, 5%nat)];
    TLoc v_me (XLit (1 # 10));
    TLoc v_MW (XLit (3 # 500));
    TLoc v_mh (XLit (1 # 8));
    TLoc v_pspatial (XLit (1 # 20));
    TSet n_set_masses [(XVar v_me); (XVar v_mh); (XVar v_MW)];
    TRuns (XVar v_me) (XVar v_me) (XVar v_me) (XVar v_me) (XVar v_pspatial)
      [(HLab, n_amp2, 6%nat); (HRot, n_amp2, 6%nat); (HBoost, n_amp2, 6%nat); (HBoth, n_amp2, 6%nat)] ].

(** SM/eeee2.cpp 229-309 *)
Definition test_eeee2 : test := mkTest eeee2
  [ TLoc v_me (XLit (1 # 2000));
    TLoc v_mh (XInt 125);
    TLoc v_wh (XInt 0);
    TLoc v_MW (XLit (16077 # 200));
    TLoc v_SW (XLit (237 # 500));
    TLoc v_WZ (XInt 0);
    TNew [(XLit (31333 # 100000)); (XVar v_me); (XVar v_mh); (XVar v_wh); (XVar v_MW); (XVar v_SW); (XVar v_WZ)];
    TLoc v_pspatial (XInt 250);
    TRuns (XVar v_me) (XVar v_me) (XVar v_me) (XVar v_me) (XVar v_pspatial)
      [(HLab, n_amp2, 0%nat); (HRot, n_amp2, 0%nat); (HBoost, n_amp2, 0%nat); (HBoth, n_amp2, 0%nat)];
    TLoc v_pspatial (XLit (1 # 200));
    TRuns (XVar v_me) (XVar v_me) (XVar v_me) (XVar v_me) (XVar v_pspatial)
      [(HLab, n_amp2, 1%nat); (HRot, n_amp2, 1%nat); (HBoost, n_amp2, 1%nat); (HBoth, n_amp2, 1%nat)];
    TLoc v_me (XLit (1 # 10));
    TLoc v_pspatial (XLit (1 # 20));
    TSet n_set_masses [(XVar v_me); (XVar v_mh); (XVar v_MW)];
    TRuns (XVar v_me) (XVar v_me) (XVar v_me) (XVar v_me) (XVar v_pspatial)
      [(HLab, n_amp2, 2%nat); (HRot, n_amp2, 2%nat); (HBoost, n_amp2, 2%nat); (HBoth, n_amp2, 2%nat)];
    TLoc v_me (XLit (1 # 10));
    TLoc v_MW (XLit (11 # 100));
    TLoc v_pspatial (XLit (1 # 20));
    TSet n_set_masses [(XVar v_me); (XVar v_mh); (XVar v_MW)];
    TRuns (XVar v_me) (XVar v_me) (XVar v_me) (XVar v_me) (XVar v_pspatial)
      [(HLab, n_amp2, 3%nat); (HRot, n_amp2, 3%nat); (HBoost, n_amp2, 3%nat); (HBoth, n_amp2, 3%nat)];
    TLoc v_me (XLit (1 # 10));
    TLoc v_MW (XLit (3 # 500));
    TLoc v_pspatial (XLit (1 # 20));
    TSet n_set_masses [(XVar v_me); (XVar v_mh); (XVar v_MW)];
    TRuns (XVar v_me) (XVar v_me) (XVar v_me) (XVar v_me) (XVar v_pspatial)
      [(HLab, n_amp2, 4%nat); (HRot, n_amp2, 4%nat); (HBoost, n_amp2, 4%nat); (HBoth, n_amp2, 4%nat)];
    TLoc v_me (XLit (1 # 10));
    TLoc v_MW (XLit (11 # 100));
    TLoc v_mh (XLit (1 # 8));
    TLoc v_pspatial (XLit (1 # 20));
    TSet n_set_masses [(XVar v_me); (XVar v_mh); (XVar v_MW)];
    TRuns (XVar v_me) (XVar v_me) (XVar v_me) (XVar v_me) (XVar v_pspatial)
      [(HLab, n_amp2, 5%nat); (HRot, n_amp2, 5%nat); (HBoost, n_amp2, 5%nat); (HBoth, n_amp2, 5%nat)];
    TLoc v_me (XLit (1 # 10));
    TLoc v_MW (XLit (3 # 500));
    TLoc v_mh (XLit (1 # 8));
    TLoc v_pspatial (XLit (1 # 20));
    TSet n_set_masses [(XVar v_me); (XVar v_mh); (XVar v_MW)];
    TRuns (XVar v_me) (XVar v_me) (XVar v_me) (XVar v_me) (XVar v_pspatial)
      [(HLab, n_amp2, 6%nat); (HRot, n_amp2, 6%nat); (HBoost, n_amp2, 6%nat); (HBoth, n_amp2, 6%nat)] ].

(** SM/eeeeQED.cpp 177-214 *)
Definition test_eeeeQED : test := mkTest eeeeQED
  [ TLoc v_me (XLit (1 # 2000));
    TNew [(XLit (31333 # 100000)); (XVar v_me)];
    TLoc v_pspatial (XInt 250);
    TRuns (XVar v_me) (XVar v_me) (XVar v_me) (XVar v_me) (XVar v_pspatial)
      [(HLab, n_amp2, 0%nat); (HRot, n_amp2, 0%nat); (HBoost, n_amp2, 0%nat); (HBoth, n_amp2, 0%nat)];
    TLoc v_pspatial (XLit (1 # 10000));
    TRuns (XVar v_me) (XVar v_me) (XVar v_me) (XVar v_me) (XVar v_pspatial)
      [(HLab, n_amp2, 1%nat); (HRot, n_amp2, 1%nat); (HBoost, n_amp2, 1%nat); (HBoth, n_amp2, 1%nat)];
    TLoc v_me (XLit (1 # 10));
    TLoc v_pspatial (XLit (1 # 20));
    TSet n_set_masses [(XVar v_me)];
    TRuns (XVar v_me) (XVar v_me) (XVar v_me) (XVar v_me) (XVar v_pspatial)
      [(HLab, n_amp2, 2%nat); (HRot, n_amp2, 2%nat); (HBoost, n_amp2, 2%nat); (HBoth, n_amp2, 2%nat)] ].

(** SM/eehh.cpp 129-190 *)
Definition test_eehh : test := mkTest eehh
  [ TLoc v_me (XLit (1 # 2000));
    TLoc v_mh (XInt 125);
    TLoc v_wh (XInt 0);
    TLoc v_MW (XLit (16077 # 200));
    TLoc v_SW (XLit (237 # 500));
    TNew [(XLit (31333 # 100000)); (XVar v_me); (XVar v_mh); (XVar v_wh); (XVar v_MW); (XVar v_SW)];
    TLoc v_pspatial (XInt 250);
    TRuns (XVar v_me) (XVar v_me) (XVar v_mh) (XVar v_mh) (XVar v_pspatial)
      [(HLab, n_amp2, 0%nat); (HRot, n_amp2, 0%nat); (HBoost, n_amp2, 0%nat); (HBoth, n_amp2, 0%nat)];
    TLoc v_pspatial (XInt 126);
    TRuns (XVar v_me) (XVar v_me) (XVar v_mh) (XVar v_mh) (XVar v_pspatial)
      [(HLab, n_amp2, 1%nat); (HRot, n_amp2, 1%nat); (HBoost, n_amp2, 1%nat); (HBoth, n_amp2, 1%nat)];
    TLoc v_me (XLit (1 # 10));
    TLoc v_mh (XLit (3 # 20));
    TLoc v_pspatial (XLit (1 # 5));
    TSet n_set_masses [(XVar v_me); (XVar v_mh); (XVar v_MW)];
    TRuns (XVar v_me) (XVar v_me) (XVar v_mh) (XVar v_mh) (XVar v_pspatial)
      [(HLab, n_amp2, 2%nat); (HRot, n_amp2, 2%nat); (HBoost, n_amp2, 2%nat); (HBoth, n_amp2, 2%nat)];
    TLoc v_me (XLit (1 # 10));
    TLoc v_mh (XLit (3 # 20));
    TLoc v_MW (XLit (11 # 100));
    TLoc v_pspatial (XLit (1 # 5));
    TSet n_set_masses [(XVar v_me); (XVar v_mh); (XVar v_MW)];
    TRuns (XVar v_me) (XVar v_me) (XVar v_mh) (XVar v_mh) (XVar v_pspatial)
      [(HLab, n_amp2, 3%nat); (HRot, n_amp2, 3%nat); (HBoost, n_amp2, 3%nat); (HBoth, n_amp2, 3%nat)];
    TLoc v_me (XLit (1 # 10));
    TLoc v_mh (XLit (3 # 20));
    TLoc v_MW (XLit (3 # 500));
    TLoc v_pspatial (XLit (1 # 5));
    TSet n_set_masses [(XVar v_me); (XVar v_mh); (XVar v_MW)];
    TRuns (XVar v_me) (XVar v_me) (XVar v_mh) (XVar v_mh) (XVar v_pspatial)
      [(HLab, n_amp2, 4%nat); (HRot, n_amp2, 4%nat); (HBoost, n_amp2, 4%nat); (HBoth, n_amp2, 4%nat)] ].

(** SM/eemm.cpp 175-269 *)
Definition test_eemm : test := mkTest eemm
  [ TLoc v_me (XLit (1 # 2000));
    TLoc v_mmu (XLit (21 # 200));
    TLoc v_mh (XInt 125);
    TLoc v_wh (XInt 0);
    TLoc v_MW (XLit (16077 # 200));
    TLoc v_SW (XLit (237 # 500));
    TLoc v_WZ (XInt 0);
    TNew [(XLit (31333 # 100000)); (XVar v_me); (XVar v_mmu); (XVar v_mh); (XVar v_wh); (XVar v_MW); (XVar v_SW); (XVar v_WZ)];
    TLoc v_pspatial (XInt 250);
    TRuns (XVar v_me) (XVar v_me) (XVar v_mmu) (XVar v_mmu) (XVar v_pspatial)
      [(HLab, n_amp2, 0%nat); (HRot, n_amp2, 0%nat); (HBoost, n_amp2, 0%nat); (HBoth, n_amp2, 0%nat)];
    TLoc v_pspatial (XLit (11 # 100));
    TRuns (XVar v_me) (XVar v_me) (XVar v_mmu) (XVar v_mmu) (XVar v_pspatial)
      [(HLab, n_amp2, 1%nat); (HRot, n_amp2, 1%nat); (HBoost, n_amp2, 1%nat); (HBoth, n_amp2, 1%nat)];
    TLoc v_me (XLit (21 # 200));
    TLoc v_mmu (XLit (1 # 2000));
    TLoc v_pspatial (XLit (1 # 200));
    TSet n_set_masses [(XVar v_me); (XVar v_mmu); (XVar v_mh); (XVar v_MW)];
    TRuns (XVar v_me) (XVar v_me) (XVar v_mmu) (XVar v_mmu) (XVar v_pspatial)
      [(HLab, n_amp2, 2%nat); (HRot, n_amp2, 2%nat); (HBoost, n_amp2, 2%nat); (HBoth, n_amp2, 2%nat)];
    TLoc v_me (XLit (1 # 10));
    TLoc v_mmu (XLit (21 # 200));
    TLoc v_pspatial (XLit (1 # 20));
    TSet n_set_masses [(XVar v_me); (XVar v_mmu); (XVar v_mh); (XVar v_MW)];
    TRuns (XVar v_me) (XVar v_me) (XVar v_mmu) (XVar v_mmu) (XVar v_pspatial)
      [(HLab, n_amp2, 3%nat); (HRot, n_amp2, 3%nat); (HBoost, n_amp2, 3%nat); (HBoth, n_amp2, 3%nat)];
    TLoc v_me (XLit (1 # 10));
    TLoc v_mmu (XLit (21 # 200));
    TLoc v_MW (XLit (11 # 100));
    TLoc v_pspatial (XLit (1 # 20));
    TSet n_set_masses [(XVar v_me); (XVar v_mmu); (XVar v_mh); (XVar v_MW)];
    TRuns (XVar v_me) (XVar v_me) (XVar v_mmu) (XVar v_mmu) (XVar v_pspatial)
      [(HLab, n_amp2, 4%nat); (HRot, n_amp2, 4%nat); (HBoost, n_amp2, 4%nat); (HBoth, n_amp2, 4%nat)];
    TLoc v_me (XLit (1 # 10));
    TLoc v_mmu (XLit (21 # 200));
    TLoc v_MW (XLit (3 # 500));
    TLoc v_pspatial (XLit (1 # 20));
    TSet n_set_masses [(XVar v_me); (XVar v_mmu); (XVar v_mh); (XVar v_MW)];
    TRuns (XVar v_me) (XVar v_me) (XVar v_mmu) (XVar v_mmu) (XVar v_pspatial)
      [(HLab, n_amp2, 5%nat); (HRot, n_amp2, 5%nat); (HBoost, n_amp2, 5%nat); (HBoth, n_amp2, 5%nat)];
    TLoc v_me (XLit (1 # 10));
    TLoc v_mmu (XLit (21 # 200));
    TLoc v_MW (XLit (11 # 100));
    TLoc v_mh (XLit (1 # 8));
    TLoc v_pspatial (XLit (1 # 20));
    TSet n_set_masses [(XVar v_me); (XVar v_mmu); (XVar v_mh); (XVar v_MW)];
    TRuns (XVar v_me) (XVar v_me) (XVar v_mmu) (XVar v_mmu) (XVar v_pspatial)
      [(HLab, n_amp2, 6%nat); (HRot, n_amp2, 6%nat); (HBoost, n_amp2, 6%nat); (HBoth, n_amp2, 6%nat)];
    TLoc v_me (XLit (1 # 10));
    TLoc v_mmu (XLit (21 # 200));
    TLoc v_MW (XLit (3 # 500));
    TLoc v_pspatial (XLit (1 # 20));
    TSet n_set_masses [(XVar v_me); (XVar v_mmu); (XVar v_mh); (XVar v_MW)];
    TRuns (XVar v_me) (XVar v_me) (XVar v_mmu) (XVar v_mmu) (XVar v_pspatial)
      [(HLab, n_amp2, 7%nat); (HRot, n_amp2, 7%nat); (HBoost, n_amp2, 7%nat); (HBoth, n_amp2, 7%nat)] ].

(** SM/eemmQED.cpp 152-200 *)
Definition test_eemmQED : test := mkTest eemmQED
  [ TLoc v_me (XLit (1 # 2000));
    TLoc v_mmu (XLit (21 # 200));
    TNew [(XLit (31333 # 100000)); (XVar v_me); (XVar v_mmu)];
    TLoc v_pspatial (XInt 250);
    TRuns (XVar v_me) (XVar v_me) (XVar v_mmu) (XVar v_mmu) (XVar v_pspatial)
      [(HLab, n_amp2, 0%nat); (HRot, n_amp2, 0%nat); (HBoost, n_amp2, 0%nat); (HBoth, n_amp2, 0%nat)];
    TLoc v_pspatial (XLit (11 # 100));
    TRuns (XVar v_me) (XVar v_me) (XVar v_mmu) (XVar v_mmu) (XVar v_pspatial)
      [(HLab, n_amp2, 1%nat); (HRot, n_amp2, 1%nat); (HBoost, n_amp2, 1%nat); (HBoth, n_amp2, 1%nat)];
    TLoc v_me (XLit (21 # 200));
    TLoc v_mmu (XLit (1 # 2000));
    TLoc v_pspatial (XLit (1 # 200));
    TSet n_set_masses [(XVar v_me); (XVar v_mmu)];
    TRuns (XVar v_me) (XVar v_me) (XVar v_mmu) (XVar v_mmu) (XVar v_pspatial)
      [(HLab, n_amp2, 2%nat); (HRot, n_amp2, 2%nat); (HBoost, n_amp2, 2%nat); (HBoth, n_amp2, 2%nat)];
    TLoc v_me (XLit (1 # 10));
    TLoc v_mmu (XLit (21 # 200));
    TLoc v_pspatial (XLit (1 # 20));
    TSet n_set_masses [(XVar v_me); (XVar v_mmu)];
    TRuns (XVar v_me) (XVar v_me) (XVar v_mmu) (XVar v_mmu) (XVar v_pspatial)
      [(HLab, n_amp2, 3%nat); (HRot, n_amp2, 3%nat); (HBoost, n_amp2, 3%nat); (HBoth, n_amp2, 3%nat)] ].

(** SM/eenene.cpp 143-188 *)
Definition test_eenene : test := mkTest eenene
  [ TLoc v_me (XLit (1 # 2000));
    TLoc v_MW (XLit (16077 # 200));
    TLoc v_WW (XInt 0);
    TLoc v_SW (XLit (237 # 500));
    TLoc v_WZ (XInt 0);
    TNew [(XLit (31333 # 100000)); (XVar v_me); (XVar v_MW); (XVar v_WW); (XVar v_SW); (XVar v_WZ)];
    TLoc v_pspatial (XInt 250);
    TRuns (XVar v_me) (XVar v_me) (XInt 0) (XInt 0) (XVar v_pspatial)
      [(HLab, n_amp2, 0%nat); (HRot, n_amp2, 0%nat); (HBoost, n_amp2, 0%nat); (HBoth, n_amp2, 0%nat)];
    TLoc v_pspatial (XLit (1 # 1000));
    TRuns (XVar v_me) (XVar v_me) (XInt 0) (XInt 0) (XVar v_pspatial)
      [(HLab, n_amp2, 1%nat); (HRot, n_amp2, 1%nat); (HBoost, n_amp2, 1%nat); (HBoth, n_amp2, 1%nat)];
    TLoc v_MW (XLit (3 # 200));
    TSet n_set_masses [(XVar v_me); (XVar v_MW)];
    TRuns (XVar v_me) (XVar v_me) (XInt 0) (XInt 0) (XVar v_pspatial)
      [(HLab, n_amp2, 2%nat); (HRot, n_amp2, 2%nat); (HBoost, n_amp2, 2%nat); (HBoth, n_amp2, 2%nat)];
    TLoc v_MW (XLit (3 # 5000));
    TSet n_set_masses [(XVar v_me); (XVar v_MW)];
    TRuns (XVar v_me) (XVar v_me) (XInt 0) (XInt 0) (XVar v_pspatial)
      [(HLab, n_amp2, 3%nat); (HRot, n_amp2, 3%nat); (HBoost, n_amp2, 3%nat); (HBoth, n_amp2, 3%nat)] ].

(** SM/eenmnm.cpp 128-173 *)
Definition test_eenmnm : test := mkTest eenmnm
  [ TLoc v_me (XLit (1 # 2000));
    TLoc v_MW (XLit (16077 # 200));
    TLoc v_SW (XLit (237 # 500));
    TLoc v_WZ (XInt 0);
    TNew [(XLit (31333 # 100000)); (XVar v_me); (XVar v_MW); (XVar v_SW); (XVar v_WZ)];
    TLoc v_pspatial (XInt 250);
    TRuns (XVar v_me) (XVar v_me) (XInt 0) (XInt 0) (XVar v_pspatial)
      [(HLab, n_amp2, 0%nat); (HRot, n_amp2, 0%nat); (HBoost, n_amp2, 0%nat); (HBoth, n_amp2, 0%nat)];
    TLoc v_pspatial (XLit (1 # 1000));
    TRuns (XVar v_me) (XVar v_me) (XInt 0) (XInt 0) (XVar v_pspatial)
      [(HLab, n_amp2, 1%nat); (HRot, n_amp2, 1%nat); (HBoost, n_amp2, 1%nat); (HBoth, n_amp2, 1%nat)];
    TLoc v_MW (XLit (3 # 200));
    TSet n_set_masses [(XVar v_me); (XVar v_MW)];
    TRuns (XVar v_me) (XVar v_me) (XInt 0) (XInt 0) (XVar v_pspatial)
      [(HLab, n_amp2, 2%nat); (HRot, n_amp2, 2%nat); (HBoost, n_amp2, 2%nat); (HBoth, n_amp2, 2%nat)];
    TLoc v_MW (XLit (3 # 5000));
    TSet n_set_masses [(XVar v_me); (XVar v_MW)];
    TRuns (XVar v_me) (XVar v_me) (XInt 0) (XInt 0) (XVar v_pspatial)
      [(HLab, n_amp2, 3%nat); (HRot, n_amp2, 3%nat); (HBoost, n_amp2, 3%nat); (HBoth, n_amp2, 3%nat)] ].

(** SM/eheh.cpp 141-202 *)
Definition test_eheh : test := mkTest eheh
  [ TLoc v_me (XLit (1 # 2000));
    TLoc v_mh (XInt 125);
    TLoc v_wh (XInt 0);
    TLoc v_MW (XLit (16077 # 200));
    TLoc v_SW (XLit (237 # 500));
    TNew [(XLit (31333 # 100000)); (XVar v_me); (XVar v_mh); (XVar v_wh); (XVar v_MW); (XVar v_SW)];
    TLoc v_pspatial (XInt 250);
    TRuns (XVar v_me) (XVar v_mh) (XVar v_me) (XVar v_mh) (XVar v_pspatial)
      [(HLab, n_amp2, 0%nat); (HRot, n_amp2, 0%nat); (HBoost, n_amp2, 0%nat); (HBoth, n_amp2, 0%nat)];
    TLoc v_pspatial (XInt 126);
    TRuns (XVar v_me) (XVar v_mh) (XVar v_me) (XVar v_mh) (XVar v_pspatial)
      [(HLab, n_amp2, 1%nat); (HRot, n_amp2, 1%nat); (HBoost, n_amp2, 1%nat); (HBoth, n_amp2, 1%nat)];
    TLoc v_me (XLit (1 # 10));
    TLoc v_mh (XLit (3 # 20));
    TLoc v_pspatial (XLit (1 # 5));
    TSet n_set_masses [(XVar v_me); (XVar v_mh); (XVar v_MW)];
    TRuns (XVar v_me) (XVar v_mh) (XVar v_me) (XVar v_mh) (XVar v_pspatial)
      [(HLab, n_amp2, 2%nat); (HRot, n_amp2, 2%nat); (HBoost, n_amp2, 2%nat); (HBoth, n_amp2, 2%nat)];
    TLoc v_me (XLit (1 # 10));
    TLoc v_mh (XLit (3 # 20));
    TLoc v_MW (XLit (11 # 100));
    TLoc v_pspatial (XLit (1 # 5));
    TSet n_set_masses [(XVar v_me); (XVar v_mh); (XVar v_MW)];
    TRuns (XVar v_me) (XVar v_mh) (XVar v_me) (XVar v_mh) (XVar v_pspatial)
      [(HLab, n_amp2, 3%nat); (HRot, n_amp2, 3%nat); (HBoost, n_amp2, 3%nat); (HBoth, n_amp2, 3%nat)];
    TLoc v_me (XLit (1 # 10));
    TLoc v_mh (XLit (3 # 20));
    TLoc v_MW (XLit (3 # 500));
    TLoc v_pspatial (XLit (1 # 5));
    TSet n_set_masses [(XVar v_me); (XVar v_mh); (XVar v_MW)];
    TRuns (XVar v_me) (XVar v_mh) (XVar v_me) (XVar v_mh) (XVar v_pspatial)
      [(HLab, n_amp2, 4%nat); (HRot, n_amp2, 4%nat); (HBoost, n_amp2, 4%nat); (HBoth, n_amp2, 4%nat)] ].

(** SM/emem.cpp 185-279 *)
Definition test_emem : test := mkTest emem
  [ TLoc v_me (XLit (1 # 2000));
    TLoc v_mmu (XLit (21 # 200));
    TLoc v_mh (XInt 125);
    TLoc v_wh (XInt 0);
    TLoc v_MW (XLit (16077 # 200));
    TLoc v_SW (XLit (237 # 500));
    TLoc v_WZ (XInt 0);
    TNew [(XLit (31333 # 100000)); (XVar v_me); (XVar v_mmu); (XVar v_mh); (XVar v_wh); (XVar v_MW); (XVar v_SW); (XVar v_WZ)];
    TLoc v_pspatial (XInt 250);
    TRuns (XVar v_me) (XVar v_mmu) (XVar v_me) (XVar v_mmu) (XVar v_pspatial)
      [(HLab, n_amp2, 0%nat); (HRot, n_amp2, 0%nat); (HBoost, n_amp2, 0%nat); (HBoth, n_amp2, 0%nat)];
    TLoc v_pspatial (XLit (11 # 100));
    TRuns (XVar v_me) (XVar v_mmu) (XVar v_me) (XVar v_mmu) (XVar v_pspatial)
      [(HLab, n_amp2, 1%nat); (HRot, n_amp2, 1%nat); (HBoost, n_amp2, 1%nat); (HBoth, n_amp2, 1%nat)];
    TLoc v_me (XLit (21 # 200));
    TLoc v_mmu (XLit (1 # 2000));
    TLoc v_pspatial (XLit (1 # 200));
    TSet n_set_masses [(XVar v_me); (XVar v_mmu); (XVar v_mh); (XVar v_MW)];
    TRuns (XVar v_me) (XVar v_mmu) (XVar v_me) (XVar v_mmu) (XVar v_pspatial)
      [(HLab, n_amp2, 2%nat); (HRot, n_amp2, 2%nat); (HBoost, n_amp2, 2%nat); (HBoth, n_amp2, 2%nat)];
    TLoc v_me (XLit (1 # 10));
    TLoc v_mmu (XLit (21 # 200));
    TLoc v_pspatial (XLit (1 # 20));
    TSet n_set_masses [(XVar v_me); (XVar v_mmu); (XVar v_mh); (XVar v_MW)];
    TRuns (XVar v_me) (XVar v_mmu) (XVar v_me) (XVar v_mmu) (XVar v_pspatial)
      [(HLab, n_amp2, 3%nat); (HRot, n_amp2, 3%nat); (HBoost, n_amp2, 3%nat); (HBoth, n_amp2, 3%nat)];
    TLoc v_me (XLit (1 # 10));
    TLoc v_mmu (XLit (21 # 200));
    TLoc v_MW (XLit (11 # 100));
    TLoc v_pspatial (XLit (1 # 20));
    TSet n_set_masses [(XVar v_me); (XVar v_mmu); (XVar v_mh); (XVar v_MW)];
    TRuns (XVar v_me) (XVar v_mmu) (XVar v_me) (XVar v_mmu) (XVar v_pspatial)
      [(HLab, n_amp2, 4%nat); (HRot, n_amp2, 4%nat); (HBoost, n_amp2, 4%nat); (HBoth, n_amp2, 4%nat)];
    TLoc v_me (XLit (1 # 10));
    TLoc v_mmu (XLit (21 # 200));
    TLoc v_MW (XLit (3 # 500));
    TLoc v_pspatial (XLit (1 # 20));
    TSet n_set_masses [(XVar v_me); (XVar v_mmu); (XVar v_mh); (XVar v_MW)];
    TRuns (XVar v_me) (XVar v_mmu) (XVar v_me) (XVar v_mmu) (XVar v_pspatial)
      [(HLab, n_amp2, 5%nat); (HRot, n_amp2, 5%nat); (HBoost, n_amp2, 5%nat); (HBoth, n_amp2, 5%nat)];
    TLoc v_me (XLit (1 # 10));
    TLoc v_mmu (XLit (21 # 200));
    TLoc v_MW (XLit (11 # 100));
    TLoc v_mh (XLit (1 # 8));
    TLoc v_pspatial (XLit (1 # 20));
    TSet n_set_masses [(XVar v_me); (XVar v_mmu); (XVar v_mh); (XVar v_MW)];
    TRuns (XVar v_me) (XVar v_mmu) (XVar v_me) (XVar v_mmu) (XVar v_pspatial)
      [(HLab, n_amp2, 6%nat); (HRot, n_amp2, 6%nat); (HBoost, n_amp2, 6%nat); (HBoth, n_amp2, 6%nat)];
    TLoc v_me (XLit (1 # 10));
    TLoc v_mmu (XLit (21 # 200));
    TLoc v_MW (XLit (3 # 500));
    TLoc v_pspatial (XLit (1 # 20));
    TSet n_set_masses [(XVar v_me); (XVar v_mmu); (XVar v_mh); (XVar v_MW)];
    TRuns (XVar v_me) (XVar v_mmu) (XVar v_me) (XVar v_mmu) (XVar v_pspatial)
      [(HLab, n_amp2, 7%nat); (HRot, n_amp2, 7%nat); (HBoost, n_amp2, 7%nat); (HBoth, n_amp2, 7%nat)] ].

(** SM/enAW.cpp 159-217 *)
Definition test_enAW : test := mkTest enAW
  [ TLoc v_EE (XLit (31333 # 100000));
    TLoc v_me (XLit (1 # 2000));
    TLoc v_MW (XLit (16077 # 200));
    TLoc v_SW (XLit (237 # 500));
    TNew [(XVar v_EE); (XVar v_me); (XVar v_MW); (XVar v_SW); (XInt 0)];
    TLoc v_pspatial (XInt 250);
    TRuns (XVar v_me) (XInt 0) (XInt 0) (XVar v_MW) (XVar v_pspatial)
      [(HLab, n_amp2, 0%nat); (HRot, n_amp2, 0%nat); (HBoost, n_amp2, 0%nat); (HBoth, n_amp2, 0%nat)];
    TLoc v_pspatial (XInt 81);
    TRuns (XVar v_me) (XInt 0) (XInt 0) (XVar v_MW) (XVar v_pspatial)
      [(HLab, n_amp2, 1%nat); (HRot, n_amp2, 1%nat); (HBoost, n_amp2, 1%nat); (HBoth, n_amp2, 1%nat)];
    TLoc v_me (XInt 80);
    TSet n_set_masses [(XVar v_me); (XVar v_MW)];
    TLoc v_pspatial (XInt 250);
    TRuns (XVar v_me) (XInt 0) (XInt 0) (XVar v_MW) (XVar v_pspatial)
      [(HLab, n_amp2, 2%nat); (HRot, n_amp2, 2%nat); (HBoost, n_amp2, 2%nat); (HBoth, n_amp2, 2%nat)];
    TLoc v_pspatial (XInt 1);
    TRuns (XVar v_me) (XInt 0) (XInt 0) (XVar v_MW) (XVar v_pspatial)
      [(HLab, n_amp2, 3%nat); (HRot, n_amp2, 3%nat); (HBoost, n_amp2, 3%nat); (HBoth, n_amp2, 3%nat)];
    TLoc v_MW (XInt 1);
    TSet n_set_masses [(XVar v_me); (XVar v_MW)];
    TLoc v_pspatial (XInt 250);
    TRuns (XVar v_me) (XInt 0) (XInt 0) (XVar v_MW) (XVar v_pspatial)
      [(HLab, n_amp2, 4%nat); (HRot, n_amp2, 4%nat); (HBoost, n_amp2, 4%nat); (HBoth, n_amp2, 4%nat)];
    TLoc v_pspatial (XInt 1);
    TRuns (XVar v_me) (XInt 0) (XInt 0) (XVar v_MW) (XVar v_pspatial)
      [(HLab, n_amp2, 5%nat); (HRot, n_amp2, 5%nat); (HBoost, n_amp2, 5%nat); (HBoth, n_amp2, 5%nat)] ].

(** SM/enWh.cpp 139-204 *)
Definition test_enWh : test := mkTest enWh
  [ TLoc v_me (XLit (1 # 2000));
    TLoc v_mh (XInt 125);
    TLoc v_EE (XLit (31333 # 100000));
    TLoc v_MW (XLit (16077 # 200));
    TLoc v_SW (XLit (237 # 500));
    TNew [(XVar v_EE); (XVar v_me); (XVar v_mh); (XVar v_MW); (XInt 0); (XVar v_SW)];
    TLoc v_pspatial (XInt 2500);
    TRuns (XVar v_me) (XInt 0) (XVar v_MW) (XVar v_mh) (XVar v_pspatial)
      [(HLab, n_amp2, 0%nat); (HRot, n_amp2, 0%nat)];
    TLoc v_pspatial (XInt 250);
    TRuns (XVar v_me) (XInt 0) (XVar v_MW) (XVar v_mh) (XVar v_pspatial)
      [(HLab, n_amp2, 1%nat); (HRot, n_amp2, 1%nat); (HBoost, n_amp2, 1%nat); (HBoth, n_amp2, 1%nat)];
    TLoc v_pspatial (XLit (1251 # 10));
    TRuns (XVar v_me) (XInt 0) (XVar v_MW) (XVar v_mh) (XVar v_pspatial)
      [(HLab, n_amp2, 2%nat); (HRot, n_amp2, 2%nat); (HBoost, n_amp2, 2%nat); (HBoth, n_amp2, 2%nat)];
    TLoc v_me (XLit (1251 # 10));
    TLoc v_mh (XInt 125);
    TLoc v_pspatial (XInt 95);
    TSet n_set_masses [(XVar v_me); (XVar v_mh); (XVar v_MW)];
    TRuns (XVar v_me) (XInt 0) (XVar v_MW) (XVar v_mh) (XVar v_pspatial)
      [(HLab, n_amp2, 3%nat); (HRot, n_amp2, 3%nat); (HBoost, n_amp2, 3%nat); (HBoth, n_amp2, 3%nat)];
    TLoc v_me (XInt 125);
    TLoc v_mh (XLit (1 # 2000));
    TLoc v_pspatial (XLit (1251 # 10));
    TSet n_set_masses [(XVar v_me); (XVar v_mh); (XVar v_MW)];
    TRuns (XVar v_me) (XInt 0) (XVar v_MW) (XVar v_mh) (XVar v_pspatial)
      [(HLab, n_amp2, 4%nat); (HRot, n_amp2, 4%nat); (HBoost, n_amp2, 4%nat); (HBoth, n_amp2, 4%nat)];
    TLoc v_me (XInt 125);
    TLoc v_mh (XLit (1 # 2000));
    TLoc v_MW (XLit (1 # 2500));
    TLoc v_pspatial (XLit (1251 # 10));
    TSet n_set_masses [(XVar v_me); (XVar v_mh); (XVar v_MW)];
    TRuns (XVar v_me) (XInt 0) (XVar v_MW) (XVar v_mh) (XVar v_pspatial)
      [(HLab, n_amp2, 5%nat); (HRot, n_amp2, 5%nat); (HBoost, n_amp2, 5%nat); (HBoth, n_amp2, 5%nat)] ].

(** SM/enZW.cpp 192-255 *)
Definition test_enZW : test := mkTest enZW
  [ TLoc v_EE (XLit (31333 # 100000));
    TLoc v_me (XLit (1 # 2000));
    TLoc v_MW (XLit (16077 # 200));
    TLoc v_SW (XLit (237 # 500));
    TLoc v_CW (XSqrt (XOp Sub (XInt 1) (XOp Mul (XVar v_SW) (XVar v_SW))));
    TLoc v_MZ (XOp Div (XVar v_MW) (XVar v_CW));
    TNew [(XVar v_EE); (XVar v_me); (XVar v_MW); (XVar v_SW); (XInt 0)];
    TLoc v_pspatial (XInt 250);
    TRuns (XVar v_me) (XInt 0) (XVar v_MZ) (XVar v_MW) (XVar v_pspatial)
      [(HLab, n_amp2, 0%nat); (HRot, n_amp2, 0%nat); (HBoost, n_amp2, 0%nat); (HBoth, n_amp2, 0%nat)];
    TLoc v_pspatial (XInt 90);
    TRuns (XVar v_me) (XInt 0) (XVar v_MZ) (XVar v_MW) (XVar v_pspatial)
      [(HLab, n_amp2, 1%nat); (HRot, n_amp2, 1%nat); (HBoost, n_amp2, 1%nat); (HBoth, n_amp2, 1%nat)];
    TLoc v_me (XInt 80);
    TSet n_set_masses [(XVar v_me); (XVar v_MW)];
    TLoc v_pspatial (XInt 250);
    TRuns (XVar v_me) (XInt 0) (XVar v_MZ) (XVar v_MW) (XVar v_pspatial)
      [(HLab, n_amp2, 2%nat); (HRot, n_amp2, 2%nat); (HBoost, n_amp2, 2%nat); (HBoth, n_amp2, 2%nat)];
    TLoc v_pspatial (XInt 70);
    TRuns (XVar v_me) (XInt 0) (XVar v_MZ) (XVar v_MW) (XVar v_pspatial)
      [(HLab, n_amp2, 3%nat); (HRot, n_amp2, 3%nat); (HBoost, n_amp2, 3%nat); (HBoth, n_amp2, 3%nat)];
    TLoc v_MW (XInt 1);
    TLoc v_MZ (XOp Div (XVar v_MW) (XVar v_CW));
    TSet n_set_masses [(XVar v_me); (XVar v_MW)];
    TLoc v_pspatial (XInt 250);
    TRuns (XVar v_me) (XInt 0) (XVar v_MZ) (XVar v_MW) (XVar v_pspatial)
      [(HLab, n_amp2, 4%nat); (HRot, n_amp2, 4%nat); (HBoost, n_amp2, 4%nat); (HBoth, n_amp2, 4%nat)];
    TLoc v_pspatial (XInt 1);
    TRuns (XVar v_me) (XInt 0) (XVar v_MZ) (XVar v_MW) (XVar v_pspatial)
      [(HLab, n_amp2, 5%nat); (HRot, n_amp2, 5%nat); (HBoost, n_amp2, 5%nat); (HBoth, n_amp2, 5%nat)] ].

(** SM/enenee.cpp 155-200 *)
Definition test_enenee : test := mkTest enenee
  [ TLoc v_me (XLit (1 # 2000));
    TLoc v_MW (XLit (16077 # 200));
    TLoc v_WW (XInt 0);
    TLoc v_SW (XLit (237 # 500));
    TLoc v_WZ (XInt 0);
    TNew [(XLit (31333 # 100000)); (XVar v_me); (XVar v_MW); (XVar v_WW); (XVar v_SW); (XVar v_WZ)];
    TLoc v_pspatial (XInt 250);
    TRuns (XVar v_me) (XInt 0) (XInt 0) (XVar v_me) (XVar v_pspatial)
      [(HLab, n_amp2, 0%nat); (HRot, n_amp2, 0%nat); (HBoost, n_amp2, 0%nat); (HBoth, n_amp2, 0%nat)];
    TLoc v_pspatial (XLit (1 # 1000));
    TRuns (XVar v_me) (XInt 0) (XInt 0) (XVar v_me) (XVar v_pspatial)
      [(HLab, n_amp2, 1%nat); (HRot, n_amp2, 1%nat); (HBoost, n_amp2, 1%nat); (HBoth, n_amp2, 1%nat)];
    TLoc v_MW (XLit (3 # 200));
    TSet n_set_masses [(XVar v_me); (XVar v_MW)];
    TRuns (XVar v_me) (XInt 0) (XInt 0) (XVar v_me) (XVar v_pspatial)
      [(HLab, n_amp2, 2%nat); (HRot, n_amp2, 2%nat); (HBoost, n_amp2, 2%nat); (HBoth, n_amp2, 2%nat)];
    TLoc v_MW (XLit (3 # 5000));
    TSet n_set_masses [(XVar v_me); (XVar v_MW)];
    TRuns (XVar v_me) (XInt 0) (XInt 0) (XVar v_me) (XVar v_pspatial)
      [(HLab, n_amp2, 3%nat); (HRot, n_amp2, 3%nat); (HBoost, n_amp2, 3%nat); (HBoth, n_amp2, 3%nat)] ].

(** SM/enmenm.cpp 129-174 *)
Definition test_enmenm : test := mkTest enmenm
  [ TLoc v_me (XLit (1 # 2000));
    TLoc v_MW (XLit (16077 # 200));
    TLoc v_SW (XLit (237 # 500));
    TLoc v_WZ (XInt 0);
    TNew [(XLit (31333 # 100000)); (XVar v_me); (XVar v_MW); (XVar v_SW); (XVar v_WZ)];
    TLoc v_pspatial (XInt 250);
    TRuns (XVar v_me) (XInt 0) (XVar v_me) (XInt 0) (XVar v_pspatial)
      [(HLab, n_amp2, 0%nat); (HRot, n_amp2, 0%nat); (HBoost, n_amp2, 0%nat); (HBoth, n_amp2, 0%nat)];
    TLoc v_pspatial (XLit (1 # 1000));
    TRuns (XVar v_me) (XInt 0) (XVar v_me) (XInt 0) (XVar v_pspatial)
      [(HLab, n_amp2, 1%nat); (HRot, n_amp2, 1%nat); (HBoost, n_amp2, 1%nat); (HBoth, n_amp2, 1%nat)];
    TLoc v_MW (XLit (3 # 200));
    TSet n_set_masses [(XVar v_me); (XVar v_MW)];
    TRuns (XVar v_me) (XInt 0) (XVar v_me) (XInt 0) (XVar v_pspatial)
      [(HLab, n_amp2, 2%nat); (HRot, n_amp2, 2%nat); (HBoost, n_amp2, 2%nat); (HBoth, n_amp2, 2%nat)];
    TLoc v_MW (XLit (3 # 5000));
    TSet n_set_masses [(XVar v_me); (XVar v_MW)];
    TRuns (XVar v_me) (XInt 0) (XVar v_me) (XInt 0) (XVar v_pspatial)
      [(HLab, n_amp2, 3%nat); (HRot, n_amp2, 3%nat); (HBoost, n_amp2, 3%nat); (HBoth, n_amp2, 3%nat)] ].

(** SM/gAdd.cpp 173-227 *)
Definition test_gAdd : test := mkTest gAdd
  [ TLoc v_md (XLit (3 # 400));
    TLoc v_EE (XLit (31333 # 100000));
    TLoc v_gs (XLit (619 # 500));
    TNew [(XVar v_EE); (XVar v_gs); (XVar v_md)];
    TLoc v_pspatial (XInt 250);
    TRuns (XInt 0) (XInt 0) (XVar v_md) (XVar v_md) (XVar v_pspatial)
      [(HLab, n_amp2, 0%nat); (HRot, n_amp2, 0%nat); (HBoost, n_amp2, 0%nat); (HBoth, n_amp2, 0%nat); (HLab, n_amp2_gplus_Aplus, 1%nat); (HRot, n_amp2_gplus_Aplus, 1%nat); (HBoost, n_amp2_gplus_Aplus, 1%nat); (HBoth, n_amp2_gplus_Aplus, 1%nat); (HLab, n_amp2_gplus_Aminus, 2%nat); (HRot, n_amp2_gplus_Aminus, 2%nat); (HBoost, n_amp2_gplus_Aminus, 2%nat); (HBoth, n_amp2_gplus_Aminus, 2%nat)];
    TLoc v_pspatial (XLit (1 # 125));
    TRuns (XInt 0) (XInt 0) (XVar v_md) (XVar v_md) (XVar v_pspatial)
      [(HLab, n_amp2, 3%nat); (HRot, n_amp2, 3%nat); (HBoost, n_amp2, 3%nat); (HBoth, n_amp2, 3%nat); (HLab, n_amp2_gplus_Aplus, 4%nat); (HRot, n_amp2_gplus_Aplus, 4%nat); (HBoost, n_amp2_gplus_Aplus, 4%nat); (HBoth, n_amp2_gplus_Aplus, 4%nat); (HLab, n_amp2_gplus_Aminus, 5%nat); (HRot, n_amp2_gplus_Aminus, 5%nat); (HBoost, n_amp2_gplus_Aminus, 5%nat); (HBoth, n_amp2_gplus_Aminus, 5%nat)] ].

(** SM/gAuu.cpp 173-227 *)
Definition test_gAuu : test := mkTest gAuu
  [ TLoc v_mu (XLit (21 # 5000));
    TLoc v_EE (XLit (31333 # 100000));
    TLoc v_gs (XLit (619 # 500));
    TNew [(XVar v_EE); (XVar v_gs); (XVar v_mu)];
    TLoc v_pspatial (XInt 250);
    TRuns (XInt 0) (XInt 0) (XVar v_mu) (XVar v_mu) (XVar v_pspatial)
      [(HLab, n_amp2, 0%nat); (HRot, n_amp2, 0%nat); (HBoost, n_amp2, 0%nat); (HBoth, n_amp2, 0%nat); (HLab, n_amp2_gplus_Aplus, 1%nat); (HRot, n_amp2_gplus_Aplus, 1%nat); (HBoost, n_amp2_gplus_Aplus, 1%nat); (HBoth, n_amp2_gplus_Aplus, 1%nat); (HLab, n_amp2_gplus_Aminus, 2%nat); (HRot, n_amp2_gplus_Aminus, 2%nat); (HBoost, n_amp2_gplus_Aminus, 2%nat); (HBoth, n_amp2_gplus_Aminus, 2%nat)];
    TLoc v_pspatial (XLit (3 # 500));
    TRuns (XInt 0) (XInt 0) (XVar v_mu) (XVar v_mu) (XVar v_pspatial)
      [(HLab, n_amp2, 3%nat); (HRot, n_amp2, 3%nat); (HBoost, n_amp2, 3%nat); (HBoth, n_amp2, 3%nat); (HLab, n_amp2_gplus_Aplus, 4%nat); (HRot, n_amp2_gplus_Aplus, 4%nat); (HBoost, n_amp2_gplus_Aplus, 4%nat); (HBoth, n_amp2_gplus_Aplus, 4%nat); (HLab, n_amp2_gplus_Aminus, 5%nat); (HRot, n_amp2_gplus_Aminus, 5%nat); (HBoost, n_amp2_gplus_Aminus, 5%nat); (HBoth, n_amp2_gplus_Aminus, 5%nat)] ].

(** SM/gWud.cpp 178-284 *)
Definition test_gWud : test := mkTest gWud
  [ TLoc v_EE (XLit (31333 # 100000));
    TLoc v_gs (XLit (619 # 500));
    TLoc v_mu (XLit (21 # 5000));
    TLoc v_md (XLit (3 # 400));
    TLoc v_MW (XLit (16077 # 200));
    TLoc v_SW (XLit (237 # 500));
    TNew [(XVar v_EE); (XVar v_gs); (XVar v_mu); (XVar v_md); (XVar v_MW); (XVar v_SW)];
    TLoc v_pspatial (XInt 250);
    TRuns (XInt 0) (XVar v_MW) (XVar v_mu) (XVar v_md) (XVar v_pspatial)
      [(HLab, n_amp2, 0%nat); (HRot, n_amp2, 0%nat); (HBoost, n_amp2, 0%nat); (HBoth, n_amp2, 0%nat); (HLab, n_amp2_gplus, 1%nat); (HRot, n_amp2_gplus, 1%nat); (HBoost, n_amp2_gplus, 1%nat); (HBoth, n_amp2_gplus, 1%nat)];
    TLoc v_pspatial (XInt 81);
    TRuns (XInt 0) (XVar v_MW) (XVar v_mu) (XVar v_md) (XVar v_pspatial)
      [(HLab, n_amp2, 2%nat); (HRot, n_amp2, 2%nat); (HBoost, n_amp2, 2%nat); (HBoth, n_amp2, 2%nat); (HLab, n_amp2_gplus, 3%nat); (HRot, n_amp2_gplus, 3%nat); (HBoost, n_amp2_gplus, 3%nat); (HBoth, n_amp2_gplus, 3%nat)];
    TLoc v_mu (XInt 80);
    TSet n_set_masses [(XVar v_mu); (XVar v_md); (XVar v_MW)];
    TLoc v_pspatial (XInt 250);
    TRuns (XInt 0) (XVar v_MW) (XVar v_mu) (XVar v_md) (XVar v_pspatial)
      [(HLab, n_amp2, 4%nat); (HRot, n_amp2, 4%nat); (HBoost, n_amp2, 4%nat); (HBoth, n_amp2, 4%nat); (HLab, n_amp2_gplus, 5%nat); (HRot, n_amp2_gplus, 5%nat); (HBoost, n_amp2_gplus, 5%nat); (HBoth, n_amp2_gplus, 5%nat)];
    TLoc v_pspatial (XInt 1);
    TRuns (XInt 0) (XVar v_MW) (XVar v_mu) (XVar v_md) (XVar v_pspatial)
      [(HLab, n_amp2, 6%nat); (HRot, n_amp2, 6%nat); (HBoost, n_amp2, 6%nat); (HBoth, n_amp2, 6%nat); (HLab, n_amp2_gplus, 7%nat); (HRot, n_amp2_gplus, 7%nat); (HBoost, n_amp2_gplus, 7%nat); (HBoth, n_amp2_gplus, 7%nat)];
    TLoc v_MW (XInt 1);
    TSet n_set_masses [(XVar v_mu); (XVar v_md); (XVar v_MW)];
    TLoc v_pspatial (XInt 250);
    TRuns (XInt 0) (XVar v_MW) (XVar v_mu) (XVar v_md) (XVar v_pspatial)
      [(HLab, n_amp2, 8%nat); (HRot, n_amp2, 8%nat); (HBoost, n_amp2, 8%nat); (HBoth, n_amp2, 8%nat); (HLab, n_amp2_gplus, 9%nat); (HRot, n_amp2_gplus, 9%nat); (HBoost, n_amp2_gplus, 9%nat); (HBoth, n_amp2_gplus, 9%nat)];
    TLoc v_pspatial (XInt 50);
    TRuns (XInt 0) (XVar v_MW) (XVar v_mu) (XVar v_md) (XVar v_pspatial)
      [(HLab, n_amp2, 10%nat); (HRot, n_amp2, 10%nat); (HBoost, n_amp2, 10%nat); (HBoth, n_amp2, 10%nat); (HLab, n_amp2_gplus, 11%nat); (HRot, n_amp2_gplus, 11%nat); (HBoost, n_amp2_gplus, 11%nat); (HBoth, n_amp2_gplus, 11%nat)];
    TLoc v_mu (XLit (21 # 5000));
    TLoc v_md (XLit (21 # 5000));
    TLoc v_MW (XLit (16077 # 200));
    TSet n_set_masses [(XVar v_mu); (XVar v_md); (XVar v_MW)];
    TLoc v_pspatial (XInt 250);
    TRuns (XInt 0) (XVar v_MW) (XVar v_mu) (XVar v_md) (XVar v_pspatial)
      [(HLab, n_amp2, 12%nat); (HRot, n_amp2, 12%nat); (HBoost, n_amp2, 12%nat); (HBoth, n_amp2, 12%nat); (HLab, n_amp2_gplus, 13%nat); (HRot, n_amp2_gplus, 13%nat); (HBoost, n_amp2_gplus, 13%nat); (HBoth, n_amp2_gplus, 13%nat)] ].

(** SM/gZdd.cpp 204-293 *)
Definition test_gZdd : test := mkTest gZdd
  [ TLoc v_md (XLit (3 # 400));
    TLoc v_EE (XLit (31333 # 100000));
    TLoc v_gs (XLit (619 # 500));
    TLoc v_MW (XLit (16077 # 200));
    TLoc v_SW (XLit (237 # 500));
    TLoc v_CW (XSqrt (XOp Sub (XInt 1) (XOp Mul (XVar v_SW) (XVar v_SW))));
    TLoc v_MZ (XOp Div (XVar v_MW) (XVar v_CW));
    TNew [(XVar v_EE); (XVar v_gs); (XVar v_md); (XVar v_MW); (XVar v_SW)];
    TLoc v_pspatial (XInt 250);
    TRuns (XInt 0) (XVar v_MZ) (XVar v_md) (XVar v_md) (XVar v_pspatial)
      [(HLab, n_amp2_gplus, 0%nat); (HRot, n_amp2_gplus, 0%nat); (HBoost, n_amp2_gplus, 0%nat); (HBoth, n_amp2_gplus, 0%nat); (HLab, n_amp2_gminus, 1%nat); (HRot, n_amp2_gminus, 1%nat); (HBoost, n_amp2_gminus, 1%nat); (HBoth, n_amp2_gminus, 1%nat); (HLab, n_amp2, 2%nat); (HRot, n_amp2, 2%nat); (HBoost, n_amp2, 2%nat); (HBoth, n_amp2, 2%nat)];
    TLoc v_pspatial (XLit (1251 # 10));
    TRuns (XInt 0) (XVar v_MZ) (XVar v_md) (XVar v_md) (XVar v_pspatial)
      [(HLab, n_amp2_gplus, 3%nat); (HRot, n_amp2_gplus, 3%nat); (HBoost, n_amp2_gplus, 3%nat); (HBoth, n_amp2_gplus, 3%nat); (HLab, n_amp2_gminus, 4%nat); (HRot, n_amp2_gminus, 4%nat); (HBoost, n_amp2_gminus, 4%nat); (HBoth, n_amp2_gminus, 4%nat); (HLab, n_amp2, 5%nat); (HRot, n_amp2, 5%nat); (HBoost, n_amp2, 5%nat); (HBoth, n_amp2, 5%nat)];
    TLoc v_md (XInt 125);
    TLoc v_pspatial (XInt 250);
    TSet n_set_masses [(XVar v_md); (XVar v_MW)];
    TRuns (XInt 0) (XVar v_MZ) (XVar v_md) (XVar v_md) (XVar v_pspatial)
      [(HLab, n_amp2_gplus, 6%nat); (HRot, n_amp2_gplus, 6%nat); (HBoost, n_amp2_gplus, 6%nat); (HBoth, n_amp2_gplus, 6%nat); (HLab, n_amp2_gminus, 7%nat); (HRot, n_amp2_gminus, 7%nat); (HBoost, n_amp2_gminus, 7%nat); (HBoth, n_amp2_gminus, 7%nat); (HLab, n_amp2, 8%nat); (HRot, n_amp2, 8%nat); (HBoost, n_amp2, 8%nat); (HBoth, n_amp2, 8%nat)];
    TLoc v_md (XInt 125);
    TLoc v_pspatial (XLit (1251 # 10));
    TSet n_set_masses [(XVar v_md); (XVar v_MW)];
    TRuns (XInt 0) (XVar v_MZ) (XVar v_md) (XVar v_md) (XVar v_pspatial)
      [(HLab, n_amp2_gplus, 9%nat); (HRot, n_amp2_gplus, 9%nat); (HBoost, n_amp2_gplus, 9%nat); (HBoth, n_amp2_gplus, 9%nat); (HLab, n_amp2_gminus, 10%nat); (HRot, n_amp2_gminus, 10%nat); (HBoost, n_amp2_gminus, 10%nat); (HBoth, n_amp2_gminus, 10%nat); (HLab, n_amp2, 11%nat); (HRot, n_amp2, 11%nat); (HBoost, n_amp2, 11%nat); (HBoth, n_amp2, 11%nat)] ].

(** SM/gZuu.cpp 204-293 *)
Definition test_gZuu : test := mkTest gZuu
  [ TLoc v_mu (XLit (21 # 5000));
    TLoc v_EE (XLit (31333 # 100000));
    TLoc v_gs (XLit (619 # 500));
    TLoc v_MW (XLit (16077 # 200));
    TLoc v_SW (XLit (237 # 500));
    TLoc v_CW (XSqrt (XOp Sub (XInt 1) (XOp Mul (XVar v_SW) (XVar v_SW))));
    TLoc v_MZ (XOp Div (XVar v_MW) (XVar v_CW));
    TNew [(XVar v_EE); (XVar v_gs); (XVar v_mu); (XVar v_MW); (XVar v_SW)];
    TLoc v_pspatial (XInt 250);
    TRuns (XInt 0) (XVar v_MZ) (XVar v_mu) (XVar v_mu) (XVar v_pspatial)
      [(HLab, n_amp2_gplus, 0%nat); (HRot, n_amp2_gplus, 0%nat); (HBoost, n_amp2_gplus, 0%nat); (HBoth, n_amp2_gplus, 0%nat); (HLab, n_amp2_gminus, 1%nat); (HRot, n_amp2_gminus, 1%nat); (HBoost, n_amp2_gminus, 1%nat); (HBoth, n_amp2_gminus, 1%nat); (HLab, n_amp2, 2%nat); (HRot, n_amp2, 2%nat); (HBoost, n_amp2, 2%nat); (HBoth, n_amp2, 2%nat)];
    TLoc v_pspatial (XLit (1251 # 10));
    TRuns (XInt 0) (XVar v_MZ) (XVar v_mu) (XVar v_mu) (XVar v_pspatial)
      [(HLab, n_amp2_gplus, 3%nat); (HRot, n_amp2_gplus, 3%nat); (HBoost, n_amp2_gplus, 3%nat); (HBoth, n_amp2_gplus, 3%nat); (HLab, n_amp2_gminus, 4%nat); (HRot, n_amp2_gminus, 4%nat); (HBoost, n_amp2_gminus, 4%nat); (HBoth, n_amp2_gminus, 4%nat); (HLab, n_amp2, 5%nat); (HRot, n_amp2, 5%nat); (HBoost, n_amp2, 5%nat); (HBoth, n_amp2, 5%nat)];
    TLoc v_mu (XInt 125);
    TLoc v_pspatial (XInt 250);
    TSet n_set_masses [(XVar v_mu); (XVar v_MW)];
    TRuns (XInt 0) (XVar v_MZ) (XVar v_mu) (XVar v_mu) (XVar v_pspatial)
      [(HLab, n_amp2_gplus, 6%nat); (HRot, n_amp2_gplus, 6%nat); (HBoost, n_amp2_gplus, 6%nat); (HBoth, n_amp2_gplus, 6%nat); (HLab, n_amp2_gminus, 7%nat); (HRot, n_amp2_gminus, 7%nat); (HBoost, n_amp2_gminus, 7%nat); (HBoth, n_amp2_gminus, 7%nat); (HLab, n_amp2, 8%nat); (HRot, n_amp2, 8%nat); (HBoost, n_amp2, 8%nat); (HBoth, n_amp2, 8%nat)];
    TLoc v_mu (XInt 125);
    TLoc v_pspatial (XLit (1251 # 10));
    TSet n_set_masses [(XVar v_mu); (XVar v_MW)];
    TRuns (XInt 0) (XVar v_MZ) (XVar v_mu) (XVar v_mu) (XVar v_pspatial)
      [(HLab, n_amp2_gplus, 9%nat); (HRot, n_amp2_gplus, 9%nat); (HBoost, n_amp2_gplus, 9%nat); (HBoth, n_amp2_gplus, 9%nat); (HLab, n_amp2_gminus, 10%nat); (HRot, n_amp2_gminus, 10%nat); (HBoost, n_amp2_gminus, 10%nat); (HBoth, n_amp2_gminus, 10%nat); (HLab, n_amp2, 11%nat); (HRot, n_amp2, 11%nat); (HBoost, n_amp2, 11%nat); (HBoth, n_amp2, 11%nat)] ].

(** SM/gdZd.cpp 205-294 *)
Definition test_gdZd : test := mkTest gdZd
  [ TLoc v_md (XLit (3 # 400));
    TLoc v_EE (XLit (31333 # 100000));
    TLoc v_gs (XLit (619 # 500));
    TLoc v_MW (XLit (16077 # 200));
    TLoc v_SW (XLit (237 # 500));
    TLoc v_CW (XSqrt (XOp Sub (XInt 1) (XOp Mul (XVar v_SW) (XVar v_SW))));
    TLoc v_MZ (XOp Div (XVar v_MW) (XVar v_CW));
    TNew [(XVar v_EE); (XVar v_gs); (XVar v_md); (XVar v_MW); (XVar v_SW)];
    TLoc v_pspatial (XInt 250);
    TRuns (XInt 0) (XVar v_md) (XVar v_MZ) (XVar v_md) (XVar v_pspatial)
      [(HLab, n_amp2_gplus, 0%nat); (HRot, n_amp2_gplus, 0%nat); (HBoost, n_amp2_gplus, 0%nat); (HBoth, n_amp2_gplus, 0%nat); (HLab, n_amp2_gminus, 1%nat); (HRot, n_amp2_gminus, 1%nat); (HBoost, n_amp2_gminus, 1%nat); (HBoth, n_amp2_gminus, 1%nat); (HLab, n_amp2, 2%nat); (HRot, n_amp2, 2%nat); (HBoost, n_amp2, 2%nat); (HBoth, n_amp2, 2%nat)];
    TLoc v_pspatial (XLit (1251 # 10));
    TRuns (XInt 0) (XVar v_md) (XVar v_MZ) (XVar v_md) (XVar v_pspatial)
      [(HLab, n_amp2_gplus, 3%nat); (HRot, n_amp2_gplus, 3%nat); (HBoost, n_amp2_gplus, 3%nat); (HBoth, n_amp2_gplus, 3%nat); (HLab, n_amp2_gminus, 4%nat); (HRot, n_amp2_gminus, 4%nat); (HBoost, n_amp2_gminus, 4%nat); (HBoth, n_amp2_gminus, 4%nat); (HLab, n_amp2, 5%nat); (HRot, n_amp2, 5%nat); (HBoost, n_amp2, 5%nat); (HBoth, n_amp2, 5%nat)];
    TLoc v_md (XInt 125);
    TLoc v_pspatial (XInt 250);
    TSet n_set_masses [(XVar v_md); (XVar v_MW)];
    TRuns (XInt 0) (XVar v_md) (XVar v_MZ) (XVar v_md) (XVar v_pspatial)
      [(HLab, n_amp2_gplus, 6%nat); (HRot, n_amp2_gplus, 6%nat); (HBoost, n_amp2_gplus, 6%nat); (HBoth, n_amp2_gplus, 6%nat); (HLab, n_amp2_gminus, 7%nat); (HRot, n_amp2_gminus, 7%nat); (HBoost, n_amp2_gminus, 7%nat); (HBoth, n_amp2_gminus, 7%nat); (HLab, n_amp2, 8%nat); (HRot, n_amp2, 8%nat); (HBoost, n_amp2, 8%nat); (HBoth, n_amp2, 8%nat)];
    TLoc v_md (XInt 125);
    TLoc v_pspatial (XLit (1251 # 10));
    TSet n_set_masses [(XVar v_md); (XVar v_MW)];
    TRuns (XInt 0) (XVar v_md) (XVar v_MZ) (XVar v_md) (XVar v_pspatial)
      [(HLab, n_amp2_gplus, 9%nat); (HRot, n_amp2_gplus, 9%nat); (HBoost, n_amp2_gplus, 9%nat); (HBoth, n_amp2_gplus, 9%nat); (HLab, n_amp2_gminus, 10%nat); (HRot, n_amp2_gminus, 10%nat); (HBoost, n_amp2_gminus, 10%nat); (HBoth, n_amp2_gminus, 10%nat); (HLab, n_amp2, 11%nat); (HRot, n_amp2, 11%nat); (HBoost, n_amp2, 11%nat); (HBoth, n_amp2, 11%nat)] ].

(** SM/ggdd.cpp 194-248 *)
Definition test_ggdd : test := mkTest ggdd
  [ TLoc v_md (XLit (3 # 400));
    TLoc v_gg (XLit (619 # 500));
    TNew [(XVar v_gg); (XVar v_md)];
    TLoc v_pspatial (XInt 250);
    TRuns (XInt 0) (XInt 0) (XVar v_md) (XVar v_md) (XVar v_pspatial)
      [(HLab, n_amp2_Feynman, 0%nat); (HLab, n_amp2, 0%nat); (HRot, n_amp2, 0%nat); (HBoost, n_amp2, 0%nat); (HBoth, n_amp2, 0%nat); (HLab, n_amp2_gplus_gplus, 1%nat); (HRot, n_amp2_gplus_gplus, 1%nat); (HBoost, n_amp2_gplus_gplus, 1%nat); (HBoth, n_amp2_gplus_gplus, 1%nat); (HLab, n_amp2_gplus_gminus, 2%nat); (HRot, n_amp2_gplus_gminus, 2%nat); (HBoost, n_amp2_gplus_gminus, 2%nat); (HBoth, n_amp2_gplus_gminus, 2%nat)];
    TLoc v_pspatial (XLit (1 # 125));
    TRuns (XInt 0) (XInt 0) (XVar v_md) (XVar v_md) (XVar v_pspatial)
      [(HLab, n_amp2, 3%nat); (HRot, n_amp2, 3%nat); (HBoost, n_amp2, 3%nat); (HBoth, n_amp2, 3%nat); (HLab, n_amp2_gplus_gplus, 4%nat); (HRot, n_amp2_gplus_gplus, 4%nat); (HBoost, n_amp2_gplus_gplus, 4%nat); (HBoth, n_amp2_gplus_gplus, 4%nat); (HLab, n_amp2_gplus_gminus, 5%nat); (HRot, n_amp2_gplus_gminus, 5%nat); (HBoost, n_amp2_gplus_gminus, 5%nat); (HBoth, n_amp2_gplus_gminus, 5%nat)] ].

(** SM/gggg.cpp 274-326 *)
Definition test_gggg : test := mkTest gggg
  [ TLoc v_gs (XLit (619 # 500));
    TNew [(XVar v_gs)];
    TLoc v_pspatial (XInt 250);
    TRuns (XInt 0) (XInt 0) (XInt 0) (XInt 0) (XVar v_pspatial)
      [(HLab, n_amp2_Feynman, 0%nat); (HLab, n_amp2, 0%nat); (HRot, n_amp2, 0%nat); (HBoost, n_amp2, 0%nat); (HBoth, n_amp2, 0%nat); (HLab, n_amp2_gplus_gplus, 1%nat); (HRot, n_amp2_gplus_gplus, 1%nat); (HBoost, n_amp2_gplus_gplus, 1%nat); (HBoth, n_amp2_gplus_gplus, 1%nat); (HLab, n_amp2_gplus_gminus, 2%nat); (HRot, n_amp2_gplus_gminus, 2%nat); (HBoost, n_amp2_gplus_gminus, 2%nat); (HBoth, n_amp2_gplus_gminus, 2%nat); (HLab, n_amp2_gminus_gplus, 3%nat); (HRot, n_amp2_gminus_gplus, 3%nat); (HBoost, n_amp2_gminus_gplus, 3%nat); (HBoth, n_amp2_gminus_gplus, 3%nat); (HLab, n_amp2_gminus_gminus, 4%nat); (HRot, n_amp2_gminus_gminus, 4%nat); (HBoost, n_amp2_gminus_gminus, 4%nat); (HBoth, n_amp2_gminus_gminus, 4%nat)] ].

(** SM/gguu.cpp 194-249 *)
Definition test_gguu : test := mkTest gguu
  [ TLoc v_mu (XLit (21 # 5000));
    TLoc v_gg (XLit (619 # 500));
    TNew [(XVar v_gg); (XVar v_mu)];
    TLoc v_pspatial (XInt 250);
    TRuns (XInt 0) (XInt 0) (XVar v_mu) (XVar v_mu) (XVar v_pspatial)
      [(HLab, n_amp2_Feynman, 0%nat); (HLab, n_amp2, 0%nat); (HRot, n_amp2, 0%nat); (HBoost, n_amp2, 0%nat); (HBoth, n_amp2, 0%nat); (HLab, n_amp2_gplus_gplus, 1%nat); (HRot, n_amp2_gplus_gplus, 1%nat); (HBoost, n_amp2_gplus_gplus, 1%nat); (HBoth, n_amp2_gplus_gplus, 1%nat); (HLab, n_amp2_gplus_gminus, 2%nat); (HRot, n_amp2_gplus_gminus, 2%nat); (HBoost, n_amp2_gplus_gminus, 2%nat); (HBoth, n_amp2_gplus_gminus, 2%nat)];
    TLoc v_pspatial (XLit (1 # 200));
    TRuns (XInt 0) (XInt 0) (XVar v_mu) (XVar v_mu) (XVar v_pspatial)
      [(HLab, n_amp2, 3%nat); (HRot, n_amp2, 3%nat); (HBoost, n_amp2, 3%nat); (HBoth, n_amp2, 3%nat); (HLab, n_amp2_gplus_gplus, 4%nat); (HRot, n_amp2_gplus_gplus, 4%nat); (HBoost, n_amp2_gplus_gplus, 4%nat); (HBoth, n_amp2_gplus_gplus, 4%nat); (HLab, n_amp2_gplus_gminus, 5%nat); (HRot, n_amp2_gplus_gminus, 5%nat); (HBoost, n_amp2_gplus_gminus, 5%nat); (HBoth, n_amp2_gplus_gminus, 5%nat)] ].

(** SM/guAu.cpp 181-235 *)
Definition test_guAu : test := mkTest guAu
  [ TLoc v_mu (XLit (21 # 5000));
    TLoc v_EE (XLit (31333 # 100000));
    TLoc v_gs (XLit (619 # 500));
    TNew [(XVar v_EE); (XVar v_gs); (XVar v_mu)];
    TLoc v_pspatial (XInt 250);
    TRuns (XInt 0) (XVar v_mu) (XInt 0) (XVar v_mu) (XVar v_pspatial)
      [(HLab, n_amp2, 0%nat); (HRot, n_amp2, 0%nat); (HBoost, n_amp2, 0%nat); (HBoth, n_amp2, 0%nat); (HLab, n_amp2_gplus, 1%nat); (HRot, n_amp2_gplus, 1%nat); (HBoost, n_amp2_gplus, 1%nat); (HBoth, n_amp2_gplus, 1%nat); (HLab, n_amp2_gminus, 2%nat); (HRot, n_amp2_gminus, 2%nat); (HBoost, n_amp2_gminus, 2%nat); (HBoth, n_amp2_gminus, 2%nat)];
    TLoc v_pspatial (XLit (3 # 500));
    TRuns (XInt 0) (XVar v_mu) (XInt 0) (XVar v_mu) (XVar v_pspatial)
      [(HLab, n_amp2, 3%nat); (HRot, n_amp2, 3%nat); (HBoost, n_amp2, 3%nat); (HBoth, n_amp2, 3%nat); (HLab, n_amp2_gplus, 4%nat); (HRot, n_amp2_gplus, 4%nat); (HBoost, n_amp2_gplus, 4%nat); (HBoth, n_amp2_gplus, 4%nat); (HLab, n_amp2_gminus, 5%nat); (HRot, n_amp2_gminus, 5%nat); (HBoost, n_amp2_gminus, 5%nat); (HBoth, n_amp2_gminus, 5%nat)] ].

(** SM/guZu.cpp 231-320 *)
Definition test_guZu : test := mkTest guZu
  [ TLoc v_mu (XLit (21 # 5000));
    TLoc v_EE (XLit (31333 # 100000));
    TLoc v_gs (XLit (619 # 500));
    TLoc v_MW (XLit (16077 # 200));
    TLoc v_SW (XLit (237 # 500));
    TLoc v_CW (XSqrt (XOp Sub (XInt 1) (XOp Mul (XVar v_SW) (XVar v_SW))));
    TLoc v_MZ (XOp Div (XVar v_MW) (XVar v_CW));
    TNew [(XVar v_EE); (XVar v_gs); (XVar v_mu); (XVar v_MW); (XVar v_SW)];
    TLoc v_pspatial (XInt 250);
    TRuns (XInt 0) (XVar v_mu) (XVar v_MZ) (XVar v_mu) (XVar v_pspatial)
      [(HLab, n_amp2_gplus, 0%nat); (HRot, n_amp2_gplus, 0%nat); (HBoost, n_amp2_gplus, 0%nat); (HBoth, n_amp2_gplus, 0%nat); (HLab, n_amp2_gminus, 1%nat); (HRot, n_amp2_gminus, 1%nat); (HBoost, n_amp2_gminus, 1%nat); (HBoth, n_amp2_gminus, 1%nat); (HLab, n_amp2, 2%nat); (HRot, n_amp2, 2%nat); (HBoost, n_amp2, 2%nat); (HBoth, n_amp2, 2%nat)];
    TLoc v_pspatial (XLit (1251 # 10));
    TRuns (XInt 0) (XVar v_mu) (XVar v_MZ) (XVar v_mu) (XVar v_pspatial)
      [(HLab, n_amp2_gplus, 3%nat); (HRot, n_amp2_gplus, 3%nat); (HBoost, n_amp2_gplus, 3%nat); (HBoth, n_amp2_gplus, 3%nat); (HLab, n_amp2_gminus, 4%nat); (HRot, n_amp2_gminus, 4%nat); (HBoost, n_amp2_gminus, 4%nat); (HBoth, n_amp2_gminus, 4%nat); (HLab, n_amp2, 5%nat); (HRot, n_amp2, 5%nat); (HBoost, n_amp2, 5%nat); (HBoth, n_amp2, 5%nat)];
    TLoc v_mu (XInt 125);
    TLoc v_pspatial (XInt 250);
    TSet n_set_masses [(XVar v_mu); (XVar v_MW)];
    TRuns (XInt 0) (XVar v_mu) (XVar v_MZ) (XVar v_mu) (XVar v_pspatial)
      [(HLab, n_amp2_gplus, 6%nat); (HRot, n_amp2_gplus, 6%nat); (HBoost, n_amp2_gplus, 6%nat); (HBoth, n_amp2_gplus, 6%nat); (HLab, n_amp2_gminus, 7%nat); (HRot, n_amp2_gminus, 7%nat); (HBoost, n_amp2_gminus, 7%nat); (HBoth, n_amp2_gminus, 7%nat); (HLab, n_amp2, 8%nat); (HRot, n_amp2, 8%nat); (HBoost, n_amp2, 8%nat); (HBoth, n_amp2, 8%nat)];
    TLoc v_mu (XInt 125);
    TLoc v_pspatial (XLit (1251 # 10));
    TSet n_set_masses [(XVar v_mu); (XVar v_MW)];
    TRuns (XInt 0) (XVar v_mu) (XVar v_MZ) (XVar v_mu) (XVar v_pspatial)
      [(HLab, n_amp2_gplus, 9%nat); (HRot, n_amp2_gplus, 9%nat); (HBoost, n_amp2_gplus, 9%nat); (HBoth, n_amp2_gplus, 9%nat); (HLab, n_amp2_gminus, 10%nat); (HRot, n_amp2_gminus, 10%nat); (HBoost, n_amp2_gminus, 10%nat); (HBoth, n_amp2_gminus, 10%nat); (HLab, n_amp2, 11%nat); (HRot, n_amp2, 11%nat); (HBoost, n_amp2, 11%nat); (HBoth, n_amp2, 11%nat)] ].

(** SM/gugu.cpp 184-233 *)
Definition test_gugu : test := mkTest gugu
  [ TLoc v_mu (XLit (21 # 5000));
    TLoc v_gg (XLit (619 # 500));
    TNew [(XVar v_gg); (XVar v_mu)];
    TLoc v_pspatial (XInt 250);
    TRuns (XInt 0) (XVar v_mu) (XInt 0) (XVar v_mu) (XVar v_pspatial)
      [(HLab, n_amp2, 0%nat); (HRot, n_amp2, 0%nat); (HBoost, n_amp2, 0%nat); (HBoth, n_amp2, 0%nat); (HLab, n_amp2_gplus, 0%nat); (HRot, n_amp2_gplus, 0%nat); (HBoost, n_amp2_gplus, 0%nat); (HBoth, n_amp2_gplus, 0%nat); (HLab, n_amp2_gminus, 0%nat); (HRot, n_amp2_gminus, 0%nat); (HBoost, n_amp2_gminus, 0%nat); (HBoth, n_amp2_gminus, 0%nat)];
    TLoc v_pspatial (XLit (1 # 200));
    TRuns (XInt 0) (XVar v_mu) (XInt 0) (XVar v_mu) (XVar v_pspatial)
      [(HLab, n_amp2, 1%nat); (HRot, n_amp2, 1%nat); (HBoost, n_amp2, 1%nat); (HBoth, n_amp2, 1%nat); (HLab, n_amp2_gplus, 1%nat); (HRot, n_amp2_gplus, 1%nat); (HBoost, n_amp2_gplus, 1%nat); (HBoth, n_amp2_gplus, 1%nat); (HLab, n_amp2_gminus, 1%nat); (HRot, n_amp2_gminus, 1%nat); (HBoost, n_amp2_gminus, 1%nat); (HBoth, n_amp2_gminus, 1%nat)] ].

(** SM/hWWh.cpp 173-257 *)
Definition test_hWWh : test := mkTest hWWh
  [ TLoc v_mh (XInt 125);
    TLoc v_EE (XLit (31333 # 100000));
    TLoc v_MW (XLit (16077 # 200));
    TLoc v_SW (XLit (237 # 500));
    TNew [(XVar v_EE); (XVar v_mh); (XInt 0); (XVar v_MW); (XVar v_SW); (XInt 0)];
    TLoc v_pspatial (XInt 250);
    TRuns (XVar v_mh) (XVar v_MW) (XVar v_MW) (XVar v_mh) (XVar v_pspatial)
      [(HLab, n_amp2, 0%nat); (HRot, n_amp2, 0%nat); (HBoost, n_amp2, 0%nat); (HBoth, n_amp2, 0%nat)];
    TLoc v_pspatial (XInt 125);
    TRuns (XVar v_mh) (XVar v_MW) (XVar v_MW) (XVar v_mh) (XVar v_pspatial)
      [(HLab, n_amp2, 1%nat); (HRot, n_amp2, 1%nat); (HBoost, n_amp2, 1%nat); (HBoth, n_amp2, 1%nat)];
    TLoc v_pspatial (XInt 1);
    TRuns (XVar v_mh) (XVar v_MW) (XVar v_MW) (XVar v_mh) (XVar v_pspatial)
      [(HLab, n_amp2, 2%nat); (HRot, n_amp2, 2%nat); (HBoost, n_amp2, 2%nat); (HBoth, n_amp2, 2%nat)];
    TLoc v_mh (XInt 5);
    TLoc v_pspatial (XInt 95);
    TSet n_set_masses [(XVar v_mh); (XVar v_MW)];
    TRuns (XVar v_mh) (XVar v_MW) (XVar v_MW) (XVar v_mh) (XVar v_pspatial)
      [(HLab, n_amp2, 3%nat); (HRot, n_amp2, 3%nat); (HBoost, n_amp2, 3%nat); (HBoth, n_amp2, 3%nat)];
    TLoc v_pspatial (XInt 250);
    TRuns (XVar v_mh) (XVar v_MW) (XVar v_MW) (XVar v_mh) (XVar v_pspatial)
      [(HLab, n_amp2, 4%nat); (HRot, n_amp2, 4%nat); (HBoost, n_amp2, 4%nat); (HBoth, n_amp2, 4%nat)];
    TLoc v_mh (XLit (1 # 2000));
    TLoc v_pspatial (XInt 95);
    TSet n_set_masses [(XVar v_mh); (XVar v_MW)];
    TRuns (XVar v_mh) (XVar v_MW) (XVar v_MW) (XVar v_mh) (XVar v_pspatial)
      [(HLab, n_amp2, 5%nat); (HRot, n_amp2, 5%nat); (HBoost, n_amp2, 5%nat); (HBoth, n_amp2, 5%nat)];
    TLoc v_pspatial (XInt 250);
    TRuns (XVar v_mh) (XVar v_MW) (XVar v_MW) (XVar v_mh) (XVar v_pspatial)
      [(HLab, n_amp2, 6%nat); (HRot, n_amp2, 6%nat); (HBoost, n_amp2, 6%nat); (HBoth, n_amp2, 6%nat)];
    TLoc v_mh (XInt 0);
    TLoc v_pspatial (XInt 95);
    TSet n_set_masses [(XVar v_mh); (XVar v_MW)];
    TRuns (XVar v_mh) (XVar v_MW) (XVar v_MW) (XVar v_mh) (XVar v_pspatial)
      [(HLab, n_amp2, 7%nat); (HRot, n_amp2, 7%nat); (HBoost, n_amp2, 7%nat); (HBoth, n_amp2, 7%nat)];
    TLoc v_pspatial (XInt 250);
    TRuns (XVar v_mh) (XVar v_MW) (XVar v_MW) (XVar v_mh) (XVar v_pspatial)
      [(HLab, n_amp2, 8%nat); (HRot, n_amp2, 8%nat); (HBoost, n_amp2, 8%nat); (HBoth, n_amp2, 8%nat)] ].

(** SM/hZZh.cpp 175-261 *)
Definition test_hZZh : test := mkTest hZZh
  [ TLoc v_mh (XInt 125);
    TLoc v_EE (XLit (31333 # 100000));
    TLoc v_MW (XLit (16077 # 200));
    TLoc v_SW (XLit (237 # 500));
    TLoc v_CW (XSqrt (XOp Sub (XInt 1) (XOp Mul (XVar v_SW) (XVar v_SW))));
    TLoc v_MZ (XOp Div (XVar v_MW) (XVar v_CW));
    TNew [(XVar v_EE); (XVar v_mh); (XInt 0); (XVar v_MW); (XVar v_SW); (XInt 0)];
    TLoc v_pspatial (XInt 250);
    TRuns (XVar v_mh) (XVar v_MZ) (XVar v_MZ) (XVar v_mh) (XVar v_pspatial)
      [(HLab, n_amp2, 0%nat); (HRot, n_amp2, 0%nat); (HBoost, n_amp2, 0%nat); (HBoth, n_amp2, 0%nat)];
    TLoc v_pspatial (XLit (1251 # 10));
    TRuns (XVar v_mh) (XVar v_MZ) (XVar v_MZ) (XVar v_mh) (XVar v_pspatial)
      [(HLab, n_amp2, 1%nat); (HRot, n_amp2, 1%nat); (HBoost, n_amp2, 1%nat); (HBoth, n_amp2, 1%nat)];
    TLoc v_pspatial (XInt 1);
    TRuns (XVar v_mh) (XVar v_MZ) (XVar v_MZ) (XVar v_mh) (XVar v_pspatial)
      [(HLab, n_amp2, 2%nat); (HRot, n_amp2, 2%nat); (HBoost, n_amp2, 2%nat); (HBoth, n_amp2, 2%nat)];
    TLoc v_mh (XInt 5);
    TLoc v_pspatial (XInt 95);
    TSet n_set_masses [(XVar v_mh); (XVar v_MW)];
    TRuns (XVar v_mh) (XVar v_MZ) (XVar v_MZ) (XVar v_mh) (XVar v_pspatial)
      [(HLab, n_amp2, 3%nat); (HRot, n_amp2, 3%nat); (HBoost, n_amp2, 3%nat); (HBoth, n_amp2, 3%nat)];
    TLoc v_pspatial (XInt 250);
    TRuns (XVar v_mh) (XVar v_MZ) (XVar v_MZ) (XVar v_mh) (XVar v_pspatial)
      [(HLab, n_amp2, 4%nat); (HRot, n_amp2, 4%nat); (HBoost, n_amp2, 4%nat); (HBoth, n_amp2, 4%nat)];
    TLoc v_mh (XLit (1 # 2000));
    TLoc v_pspatial (XInt 95);
    TSet n_set_masses [(XVar v_mh); (XVar v_MW)];
    TRuns (XVar v_mh) (XVar v_MZ) (XVar v_MZ) (XVar v_mh) (XVar v_pspatial)
      [(HLab, n_amp2, 5%nat); (HRot, n_amp2, 5%nat); (HBoost, n_amp2, 5%nat); (HBoth, n_amp2, 5%nat)];
    TLoc v_pspatial (XInt 250);
    TRuns (XVar v_mh) (XVar v_MZ) (XVar v_MZ) (XVar v_mh) (XVar v_pspatial)
      [(HLab, n_amp2, 6%nat); (HRot, n_amp2, 6%nat); (HBoost, n_amp2, 6%nat); (HBoth, n_amp2, 6%nat)];
    TLoc v_mh (XInt 0);
    TLoc v_pspatial (XInt 95);
    TSet n_set_masses [(XVar v_mh); (XVar v_MW)];
    TRuns (XVar v_mh) (XVar v_MZ) (XVar v_MZ) (XVar v_mh) (XVar v_pspatial)
      [(HLab, n_amp2, 7%nat); (HRot, n_amp2, 7%nat); (HBoost, n_amp2, 7%nat); (HBoth, n_amp2, 7%nat)];
    TLoc v_pspatial (XInt 250);
    TRuns (XVar v_mh) (XVar v_MZ) (XVar v_MZ) (XVar v_mh) (XVar v_pspatial)
      [(HLab, n_amp2, 8%nat); (HRot, n_amp2, 8%nat); (HBoost, n_amp2, 8%nat); (HBoth, n_amp2, 8%nat)] ].

(** SM/hgdd.cpp 154-224 *)
Definition test_hgdd : test := mkTest hgdd
  [ TLoc v_md (XLit (3 # 400));
    TLoc v_mh (XInt 125);
    TLoc v_EE (XLit (31333 # 100000));
    TLoc v_MW (XLit (16077 # 200));
    TLoc v_SW (XLit (237 # 500));
    TLoc v_gs (XLit (619 # 500));
    TNew [(XVar v_EE); (XVar v_gs); (XVar v_md); (XVar v_mh); (XVar v_MW); (XVar v_SW)];
    TLoc v_pspatial (XInt 250);
    TRuns (XVar v_mh) (XInt 0) (XVar v_md) (XVar v_md) (XVar v_pspatial)
      [(HLab, n_amp2, 0%nat); (HRot, n_amp2, 0%nat); (HBoost, n_amp2, 0%nat); (HBoth, n_amp2, 0%nat); (HLab, n_amp2_gplus, 0%nat); (HRot, n_amp2_gplus, 0%nat); (HBoost, n_amp2_gplus, 0%nat); (HBoth, n_amp2_gplus, 0%nat)];
    TLoc v_pspatial (XLit (1251 # 10));
    TRuns (XVar v_mh) (XInt 0) (XVar v_md) (XVar v_md) (XVar v_pspatial)
      [(HLab, n_amp2, 1%nat); (HRot, n_amp2, 1%nat); (HBoost, n_amp2, 1%nat); (HBoth, n_amp2, 1%nat); (HLab, n_amp2_gplus, 1%nat); (HRot, n_amp2_gplus, 1%nat); (HBoost, n_amp2_gplus, 1%nat); (HBoth, n_amp2_gplus, 1%nat)];
    TLoc v_md (XLit (1251 # 10));
    TLoc v_mh (XInt 125);
    TLoc v_pspatial (XInt 95);
    TSet n_set_masses [(XVar v_md); (XVar v_mh); (XVar v_MW)];
    TRuns (XVar v_mh) (XInt 0) (XVar v_md) (XVar v_md) (XVar v_pspatial)
      [(HLab, n_amp2, 2%nat); (HRot, n_amp2, 2%nat); (HBoost, n_amp2, 2%nat); (HBoth, n_amp2, 2%nat); (HLab, n_amp2_gplus, 2%nat); (HRot, n_amp2_gplus, 2%nat); (HBoost, n_amp2_gplus, 2%nat); (HBoth, n_amp2_gplus, 2%nat)];
    TLoc v_md (XInt 125);
    TLoc v_mh (XLit (1 # 2000));
    TLoc v_pspatial (XLit (1251 # 10));
    TSet n_set_masses [(XVar v_md); (XVar v_mh); (XVar v_MW)];
    TRuns (XVar v_mh) (XInt 0) (XVar v_md) (XVar v_md) (XVar v_pspatial)
      [(HLab, n_amp2, 3%nat); (HRot, n_amp2, 3%nat); (HBoost, n_amp2, 3%nat); (HBoth, n_amp2, 3%nat); (HLab, n_amp2_gplus, 3%nat); (HRot, n_amp2_gplus, 3%nat); (HBoost, n_amp2_gplus, 3%nat); (HBoth, n_amp2_gplus, 3%nat)] ].

(** SM/hguu.cpp 146-217 *)
Definition test_hguu : test := mkTest hguu
  [ TLoc v_mu (XLit (21 # 5000));
    TLoc v_mh (XInt 125);
    TLoc v_EE (XLit (31333 # 100000));
    TLoc v_MW (XLit (16077 # 200));
    TLoc v_SW (XLit (237 # 500));
    TLoc v_gs (XLit (619 # 500));
    TNew [(XVar v_EE); (XVar v_gs); (XVar v_mu); (XVar v_mh); (XVar v_MW); (XVar v_SW)];
    TLoc v_pspatial (XInt 250);
    TRuns (XVar v_mh) (XInt 0) (XVar v_mu) (XVar v_mu) (XVar v_pspatial)
      [(HLab, n_amp2, 0%nat); (HRot, n_amp2, 0%nat); (HBoost, n_amp2, 0%nat); (HBoth, n_amp2, 0%nat); (HLab, n_amp2_gplus, 0%nat); (HRot, n_amp2_gplus, 0%nat); (HBoost, n_amp2_gplus, 0%nat); (HBoth, n_amp2_gplus, 0%nat)];
    TLoc v_pspatial (XLit (1251 # 10));
    TRuns (XVar v_mh) (XInt 0) (XVar v_mu) (XVar v_mu) (XVar v_pspatial)
      [(HLab, n_amp2, 1%nat); (HRot, n_amp2, 1%nat); (HBoost, n_amp2, 1%nat); (HBoth, n_amp2, 1%nat); (HLab, n_amp2_gplus, 1%nat); (HRot, n_amp2_gplus, 1%nat); (HBoost, n_amp2_gplus, 1%nat); (HBoth, n_amp2_gplus, 1%nat)];
    TLoc v_mu (XLit (1251 # 10));
    TLoc v_mh (XInt 125);
    TLoc v_pspatial (XInt 95);
    TSet n_set_masses [(XVar v_mu); (XVar v_mh); (XVar v_MW)];
    TRuns (XVar v_mh) (XInt 0) (XVar v_mu) (XVar v_mu) (XVar v_pspatial)
      [(HLab, n_amp2, 2%nat); (HRot, n_amp2, 2%nat); (HBoost, n_amp2, 2%nat); (HBoth, n_amp2, 2%nat); (HLab, n_amp2_gplus, 2%nat); (HRot, n_amp2_gplus, 2%nat); (HBoost, n_amp2_gplus, 2%nat); (HBoth, n_amp2_gplus, 2%nat)];
    TLoc v_mu (XInt 125);
    TLoc v_mh (XLit (1 # 2000));
    TLoc v_pspatial (XLit (1251 # 10));
    TSet n_set_masses [(XVar v_mu); (XVar v_mh); (XVar v_MW)];
    TRuns (XVar v_mh) (XInt 0) (XVar v_mu) (XVar v_mu) (XVar v_pspatial)
      [(HLab, n_amp2, 3%nat); (HRot, n_amp2, 3%nat); (HBoost, n_amp2, 3%nat); (HBoth, n_amp2, 3%nat); (HLab, n_amp2_gplus, 3%nat); (HRot, n_amp2_gplus, 3%nat); (HBoost, n_amp2_gplus, 3%nat); (HBoth, n_amp2_gplus, 3%nat)] ].

(** SM/hhWW.cpp 161-245 *)
Definition test_hhWW : test := mkTest hhWW
  [ TLoc v_mh (XInt 125);
    TLoc v_EE (XLit (31333 # 100000));
    TLoc v_MW (XLit (16077 # 200));
    TLoc v_SW (XLit (237 # 500));
    TNew [(XVar v_EE); (XVar v_mh); (XInt 0); (XVar v_MW); (XVar v_SW); (XInt 0)];
    TLoc v_pspatial (XInt 250);
    TRuns (XVar v_mh) (XVar v_mh) (XVar v_MW) (XVar v_MW) (XVar v_pspatial)
      [(HLab, n_amp2, 0%nat); (HRot, n_amp2, 0%nat); (HBoost, n_amp2, 0%nat); (HBoth, n_amp2, 0%nat)];
    TLoc v_pspatial (XInt 125);
    TRuns (XVar v_mh) (XVar v_mh) (XVar v_MW) (XVar v_MW) (XVar v_pspatial)
      [(HLab, n_amp2, 1%nat); (HRot, n_amp2, 1%nat); (HBoost, n_amp2, 1%nat); (HBoth, n_amp2, 1%nat)];
    TLoc v_pspatial (XInt 1);
    TRuns (XVar v_mh) (XVar v_mh) (XVar v_MW) (XVar v_MW) (XVar v_pspatial)
      [(HLab, n_amp2, 2%nat); (HRot, n_amp2, 2%nat); (HBoost, n_amp2, 2%nat); (HBoth, n_amp2, 2%nat)];
    TLoc v_mh (XInt 5);
    TLoc v_pspatial (XInt 95);
    TSet n_set_masses [(XVar v_mh); (XVar v_MW)];
    TRuns (XVar v_mh) (XVar v_mh) (XVar v_MW) (XVar v_MW) (XVar v_pspatial)
      [(HLab, n_amp2, 3%nat); (HRot, n_amp2, 3%nat); (HBoost, n_amp2, 3%nat); (HBoth, n_amp2, 3%nat)];
    TLoc v_pspatial (XInt 250);
    TRuns (XVar v_mh) (XVar v_mh) (XVar v_MW) (XVar v_MW) (XVar v_pspatial)
      [(HLab, n_amp2, 4%nat); (HRot, n_amp2, 4%nat); (HBoost, n_amp2, 4%nat); (HBoth, n_amp2, 4%nat)];
    TLoc v_mh (XLit (1 # 2000));
    TLoc v_pspatial (XInt 95);
    TSet n_set_masses [(XVar v_mh); (XVar v_MW)];
    TRuns (XVar v_mh) (XVar v_mh) (XVar v_MW) (XVar v_MW) (XVar v_pspatial)
      [(HLab, n_amp2, 5%nat); (HRot, n_amp2, 5%nat); (HBoost, n_amp2, 5%nat); (HBoth, n_amp2, 5%nat)];
    TLoc v_pspatial (XInt 250);
    TRuns (XVar v_mh) (XVar v_mh) (XVar v_MW) (XVar v_MW) (XVar v_pspatial)
      [(HLab, n_amp2, 6%nat); (HRot, n_amp2, 6%nat); (HBoost, n_amp2, 6%nat); (HBoth, n_amp2, 6%nat)];
    TLoc v_mh (XInt 0);
    TLoc v_pspatial (XInt 95);
    TSet n_set_masses [(XVar v_mh); (XVar v_MW)];
    TRuns (XVar v_mh) (XVar v_mh) (XVar v_MW) (XVar v_MW) (XVar v_pspatial)
      [(HLab, n_amp2, 7%nat); (HRot, n_amp2, 7%nat); (HBoost, n_amp2, 7%nat); (HBoth, n_amp2, 7%nat)];
    TLoc v_pspatial (XInt 250);
    TRuns (XVar v_mh) (XVar v_mh) (XVar v_MW) (XVar v_MW) (XVar v_pspatial)
      [(HLab, n_amp2, 8%nat); (HRot, n_amp2, 8%nat); (HBoost, n_amp2, 8%nat); (HBoth, n_amp2, 8%nat)] ].

(** SM/hhZZ.cpp 164-250 *)
Definition test_hhZZ : test := mkTest hhZZ
  [ TLoc v_mh (XInt 125);
    TLoc v_EE (XLit (31333 # 100000));
    TLoc v_MW (XLit (16077 # 200));
    TLoc v_SW (XLit (237 # 500));
    TLoc v_CW (XSqrt (XOp Sub (XInt 1) (XOp Mul (XVar v_SW) (XVar v_SW))));
    TLoc v_MZ (XOp Div (XVar v_MW) (XVar v_CW));
    TNew [(XVar v_EE); (XVar v_mh); (XInt 0); (XVar v_MW); (XVar v_SW); (XInt 0)];
    TLoc v_pspatial (XInt 250);
    TRuns (XVar v_mh) (XVar v_mh) (XVar v_MZ) (XVar v_MZ) (XVar v_pspatial)
      [(HLab, n_amp2, 0%nat); (HRot, n_amp2, 0%nat); (HBoost, n_amp2, 0%nat); (HBoth, n_amp2, 0%nat)];
    TLoc v_pspatial (XLit (1251 # 10));
    TRuns (XVar v_mh) (XVar v_mh) (XVar v_MZ) (XVar v_MZ) (XVar v_pspatial)
      [(HLab, n_amp2, 1%nat); (HRot, n_amp2, 1%nat); (HBoost, n_amp2, 1%nat); (HBoth, n_amp2, 1%nat)];
    TLoc v_pspatial (XInt 1);
    TRuns (XVar v_mh) (XVar v_mh) (XVar v_MZ) (XVar v_MZ) (XVar v_pspatial)
      [(HLab, n_amp2, 2%nat); (HRot, n_amp2, 2%nat); (HBoost, n_amp2, 2%nat); (HBoth, n_amp2, 2%nat)];
    TLoc v_mh (XInt 5);
    TLoc v_pspatial (XInt 95);
    TSet n_set_masses [(XVar v_mh); (XVar v_MW)];
    TRuns (XVar v_mh) (XVar v_mh) (XVar v_MZ) (XVar v_MZ) (XVar v_pspatial)
      [(HLab, n_amp2, 3%nat); (HRot, n_amp2, 3%nat); (HBoost, n_amp2, 3%nat); (HBoth, n_amp2, 3%nat)];
    TLoc v_pspatial (XInt 250);
    TRuns (XVar v_mh) (XVar v_mh) (XVar v_MZ) (XVar v_MZ) (XVar v_pspatial)
      [(HLab, n_amp2, 4%nat); (HRot, n_amp2, 4%nat); (HBoost, n_amp2, 4%nat); (HBoth, n_amp2, 4%nat)];
    TLoc v_mh (XLit (1 # 2000));
    TLoc v_pspatial (XInt 95);
    TSet n_set_masses [(XVar v_mh); (XVar v_MW)];
    TRuns (XVar v_mh) (XVar v_mh) (XVar v_MZ) (XVar v_MZ) (XVar v_pspatial)
      [(HLab, n_amp2, 5%nat); (HRot, n_amp2, 5%nat); (HBoost, n_amp2, 5%nat); (HBoth, n_amp2, 5%nat)];
    TLoc v_pspatial (XInt 250);
    TRuns (XVar v_mh) (XVar v_mh) (XVar v_MZ) (XVar v_MZ) (XVar v_pspatial)
      [(HLab, n_amp2, 6%nat); (HRot, n_amp2, 6%nat); (HBoost, n_amp2, 6%nat); (HBoth, n_amp2, 6%nat)];
    TLoc v_mh (XInt 0);
    TLoc v_pspatial (XInt 95);
    TSet n_set_masses [(XVar v_mh); (XVar v_MW)];
    TRuns (XVar v_mh) (XVar v_mh) (XVar v_MZ) (XVar v_MZ) (XVar v_pspatial)
      [(HLab, n_amp2, 7%nat); (HRot, n_amp2, 7%nat); (HBoost, n_amp2, 7%nat); (HBoth, n_amp2, 7%nat)];
    TLoc v_pspatial (XInt 250);
    TRuns (XVar v_mh) (XVar v_mh) (XVar v_MZ) (XVar v_MZ) (XVar v_pspatial)
      [(HLab, n_amp2, 8%nat); (HRot, n_amp2, 8%nat); (HBoost, n_amp2, 8%nat); (HBoth, n_amp2, 8%nat)] ].

(** SM/hhhh.cpp 101-130 *)
Definition test_hhhh : test := mkTest hhhh
  [ TLoc v_mh (XInt 125);
    TLoc v_wh (XInt 0);
    TLoc v_MW (XLit (16077 # 200));
    TLoc v_SW (XLit (237 # 500));
    TNew [(XLit (31333 # 100000)); (XVar v_mh); (XVar v_wh); (XVar v_MW); (XVar v_SW)];
    TLoc v_pspatial (XInt 250);
    TRuns (XVar v_mh) (XVar v_mh) (XVar v_mh) (XVar v_mh) (XVar v_pspatial)
      [(HLab, n_amp2, 0%nat); (HRot, n_amp2, 0%nat); (HBoost, n_amp2, 0%nat); (HBoth, n_amp2, 0%nat)];
    TLoc v_pspatial (XLit (1 # 125));
    TRuns (XVar v_mh) (XVar v_mh) (XVar v_mh) (XVar v_mh) (XVar v_pspatial)
      [(HLab, n_amp2, 1%nat); (HRot, n_amp2, 1%nat); (HBoost, n_amp2, 1%nat); (HBoth, n_amp2, 1%nat)] ].

(** SM/hnWe.cpp 143-208 *)
Definition test_hnWe : test := mkTest hnWe
  [ TLoc v_me (XLit (1 # 2000));
    TLoc v_mh (XInt 125);
    TLoc v_EE (XLit (31333 # 100000));
    TLoc v_MW (XLit (16077 # 200));
    TLoc v_SW (XLit (237 # 500));
    TNew [(XVar v_EE); (XVar v_me); (XVar v_mh); (XVar v_MW); (XInt 0); (XVar v_SW)];
    TLoc v_pspatial (XInt 2500);
    TRuns (XVar v_mh) (XInt 0) (XVar v_MW) (XVar v_me) (XVar v_pspatial)
      [(HLab, n_amp2, 0%nat); (HRot, n_amp2, 0%nat)];
    TLoc v_pspatial (XInt 250);
    TRuns (XVar v_mh) (XInt 0) (XVar v_MW) (XVar v_me) (XVar v_pspatial)
      [(HLab, n_amp2, 1%nat); (HRot, n_amp2, 1%nat); (HBoost, n_amp2, 1%nat); (HBoth, n_amp2, 1%nat)];
    TLoc v_pspatial (XLit (1251 # 10));
    TRuns (XVar v_mh) (XInt 0) (XVar v_MW) (XVar v_me) (XVar v_pspatial)
      [(HLab, n_amp2, 2%nat); (HRot, n_amp2, 2%nat); (HBoost, n_amp2, 2%nat); (HBoth, n_amp2, 2%nat)];
    TLoc v_me (XLit (1251 # 10));
    TLoc v_mh (XInt 125);
    TLoc v_pspatial (XInt 95);
    TSet n_set_masses [(XVar v_me); (XVar v_mh); (XVar v_MW)];
    TRuns (XVar v_mh) (XInt 0) (XVar v_MW) (XVar v_me) (XVar v_pspatial)
      [(HLab, n_amp2, 3%nat); (HRot, n_amp2, 3%nat); (HBoost, n_amp2, 3%nat); (HBoth, n_amp2, 3%nat)];
    TLoc v_me (XInt 125);
    TLoc v_mh (XLit (1 # 2000));
    TLoc v_pspatial (XLit (1251 # 10));
    TSet n_set_masses [(XVar v_me); (XVar v_mh); (XVar v_MW)];
    TRuns (XVar v_mh) (XInt 0) (XVar v_MW) (XVar v_me) (XVar v_pspatial)
      [(HLab, n_amp2, 4%nat); (HRot, n_amp2, 4%nat); (HBoost, n_amp2, 4%nat); (HBoth, n_amp2, 4%nat)];
    TLoc v_me (XInt 125);
    TLoc v_mh (XLit (1 # 2000));
    TLoc v_MW (XLit (1 # 2500));
    TLoc v_pspatial (XLit (1251 # 10));
    TSet n_set_masses [(XVar v_me); (XVar v_mh); (XVar v_MW)];
    TRuns (XVar v_mh) (XInt 0) (XVar v_MW) (XVar v_me) (XVar v_pspatial)
      [(HLab, n_amp2, 5%nat); (HRot, n_amp2, 5%nat); (HBoost, n_amp2, 5%nat); (HBoth, n_amp2, 5%nat)] ].

(** SM/menn.cpp 99-201 *)
Definition test_menn : test := mkTest menn
  [ TLoc v_me (XLit (1 # 2000));
    TLoc v_mmu (XLit (53 # 500));
    TLoc v_MW (XLit (16077 # 200));
    TLoc v_WW (XLit (0 # 1));
    TLoc v_sinW (XLit (237 # 500));
    TNew [(XLit (31333 # 100000)); (XVar v_me); (XVar v_mmu); (XVar v_MW); (XVar v_WW); (XVar v_sinW)];
    TLoc v_pspatial (XInt 250);
    TRuns (XVar v_mmu) (XVar v_me) (XInt 0) (XInt 0) (XVar v_pspatial)
      [(HLab, n_amp2, 0%nat); (HRot, n_amp2, 0%nat); (HBoost, n_amp2, 0%nat); (HBoth, n_amp2, 0%nat)];
    TLoc v_pspatial (XLit (1 # 20));
    TRuns (XVar v_mmu) (XVar v_me) (XInt 0) (XInt 0) (XVar v_pspatial)
      [(HLab, n_amp2, 1%nat); (HRot, n_amp2, 1%nat); (HBoost, n_amp2, 1%nat); (HBoth, n_amp2, 1%nat)];
    TLoc v_me (XLit (53 # 500));
    TLoc v_mmu (XLit (1 # 2000));
    TLoc v_pspatial (XInt 250);
    TSet n_set_masses [(XVar v_me); (XVar v_mmu); (XVar v_MW)];
    TRuns (XVar v_mmu) (XVar v_me) (XInt 0) (XInt 0) (XVar v_pspatial)
      [(HLab, n_amp2, 2%nat); (HRot, n_amp2, 2%nat); (HBoost, n_amp2, 2%nat); (HBoth, n_amp2, 2%nat)];
    TLoc v_me (XLit (53 # 500));
    TLoc v_mmu (XLit (1 # 2000));
    TLoc v_pspatial (XLit (1 # 20));
    TSet n_set_masses [(XVar v_me); (XVar v_mmu); (XVar v_MW)];
    TRuns (XVar v_mmu) (XVar v_me) (XInt 0) (XInt 0) (XVar v_pspatial)
      [(HLab, n_amp2, 3%nat); (HRot, n_amp2, 3%nat); (HBoost, n_amp2, 3%nat); (HBoth, n_amp2, 3%nat)];
    TLoc v_me (XLit (21 # 200));
    TLoc v_mmu (XLit (53 # 500));
    TLoc v_pspatial (XInt 250);
    TSet n_set_masses [(XVar v_me); (XVar v_mmu); (XVar v_MW)];
    TRuns (XVar v_mmu) (XVar v_me) (XInt 0) (XInt 0) (XVar v_pspatial)
      [(HLab, n_amp2, 4%nat); (HRot, n_amp2, 4%nat); (HBoost, n_amp2, 4%nat); (HBoth, n_amp2, 4%nat)];
    TLoc v_pspatial (XLit (1 # 20));
    TRuns (XVar v_mmu) (XVar v_me) (XInt 0) (XInt 0) (XVar v_pspatial)
      [(HLab, n_amp2, 5%nat); (HRot, n_amp2, 5%nat); (HBoost, n_amp2, 5%nat); (HBoth, n_amp2, 5%nat)];
    TLoc v_me (XInt 105);
    TLoc v_mmu (XInt 106);
    TLoc v_MW (XLit (1 # 10));
    TLoc v_pspatial (XInt 500);
    TSet n_set_masses [(XVar v_me); (XVar v_mmu); (XVar v_MW)];
    TRuns (XVar v_mmu) (XVar v_me) (XInt 0) (XInt 0) (XVar v_pspatial)
      [(HLab, n_amp2, 6%nat); (HRot, n_amp2, 6%nat); (HBoost, n_amp2, 6%nat); (HBoth, n_amp2, 6%nat)];
    TLoc v_pspatial (XInt 5);
    TRuns (XVar v_mmu) (XVar v_me) (XInt 0) (XInt 0) (XVar v_pspatial)
      [(HLab, n_amp2, 7%nat); (HRot, n_amp2, 7%nat); (HBoost, n_amp2, 7%nat); (HBoth, n_amp2, 7%nat)];
    TLoc v_me (XLit (21 # 200));
    TLoc v_mmu (XLit (53 # 500));
    TLoc v_MW (XLit (11 # 100));
    TLoc v_pspatial (XInt 250);
    TSet n_set_masses [(XVar v_me); (XVar v_mmu); (XVar v_MW)];
    TRuns (XVar v_mmu) (XVar v_me) (XInt 0) (XInt 0) (XVar v_pspatial)
      [(HLab, n_amp2, 8%nat); (HRot, n_amp2, 8%nat); (HBoost, n_amp2, 8%nat); (HBoth, n_amp2, 8%nat)];
    TLoc v_pspatial (XLit (1 # 200));
    TRuns (XVar v_mmu) (XVar v_me) (XInt 0) (XInt 0) (XVar v_pspatial)
      [(HLab, n_amp2, 9%nat); (HRot, n_amp2, 9%nat); (HBoost, n_amp2, 9%nat); (HBoth, n_amp2, 9%nat)] ].

(** SM/mnen.cpp 107-209 *)
Definition test_mnen : test := mkTest mnen
  [ TLoc v_me (XLit (1 # 2000));
    TLoc v_mmu (XLit (53 # 500));
    TLoc v_MW (XLit (16077 # 200));
    TLoc v_WW (XLit (0 # 1));
    TLoc v_sinW (XLit (237 # 500));
    TNew [(XLit (31333 # 100000)); (XVar v_me); (XVar v_mmu); (XVar v_MW); (XVar v_WW); (XVar v_sinW)];
    TLoc v_pspatial (XInt 250);
    TRuns (XVar v_mmu) (XInt 0) (XVar v_me) (XInt 0) (XVar v_pspatial)
      [(HLab, n_amp2, 0%nat); (HRot, n_amp2, 0%nat); (HBoost, n_amp2, 0%nat); (HBoth, n_amp2, 0%nat)];
    TLoc v_pspatial (XLit (1 # 20));
    TRuns (XVar v_mmu) (XInt 0) (XVar v_me) (XInt 0) (XVar v_pspatial)
      [(HLab, n_amp2, 1%nat); (HRot, n_amp2, 1%nat); (HBoost, n_amp2, 1%nat); (HBoth, n_amp2, 1%nat)];
    TLoc v_me (XLit (53 # 500));
    TLoc v_mmu (XLit (1 # 2000));
    TLoc v_pspatial (XInt 250);
    TSet n_set_masses [(XVar v_me); (XVar v_mmu); (XVar v_MW)];
    TRuns (XVar v_mmu) (XInt 0) (XVar v_me) (XInt 0) (XVar v_pspatial)
      [(HLab, n_amp2, 2%nat); (HRot, n_amp2, 2%nat); (HBoost, n_amp2, 2%nat); (HBoth, n_amp2, 2%nat)];
    TLoc v_me (XLit (53 # 500));
    TLoc v_mmu (XLit (1 # 2000));
    TLoc v_pspatial (XLit (11 # 100));
    TSet n_set_masses [(XVar v_me); (XVar v_mmu); (XVar v_MW)];
    TRuns (XVar v_mmu) (XInt 0) (XVar v_me) (XInt 0) (XVar v_pspatial)
      [(HLab, n_amp2, 3%nat); (HRot, n_amp2, 3%nat); (HBoost, n_amp2, 3%nat); (HBoth, n_amp2, 3%nat)];
    TLoc v_me (XLit (21 # 200));
    TLoc v_mmu (XLit (53 # 500));
    TLoc v_pspatial (XInt 250);
    TSet n_set_masses [(XVar v_me); (XVar v_mmu); (XVar v_MW)];
    TRuns (XVar v_mmu) (XInt 0) (XVar v_me) (XInt 0) (XVar v_pspatial)
      [(HLab, n_amp2, 4%nat); (HRot, n_amp2, 4%nat); (HBoost, n_amp2, 4%nat); (HBoth, n_amp2, 4%nat)];
    TLoc v_pspatial (XLit (1 # 20));
    TRuns (XVar v_mmu) (XInt 0) (XVar v_me) (XInt 0) (XVar v_pspatial)
      [(HLab, n_amp2, 5%nat); (HRot, n_amp2, 5%nat); (HBoost, n_amp2, 5%nat); (HBoth, n_amp2, 5%nat)];
    TLoc v_me (XInt 105);
    TLoc v_mmu (XInt 106);
    TLoc v_MW (XLit (1 # 10));
    TLoc v_pspatial (XInt 500);
    TSet n_set_masses [(XVar v_me); (XVar v_mmu); (XVar v_MW)];
    TRuns (XVar v_mmu) (XInt 0) (XVar v_me) (XInt 0) (XVar v_pspatial)
      [(HLab, n_amp2, 6%nat); (HRot, n_amp2, 6%nat); (HBoost, n_amp2, 6%nat); (HBoth, n_amp2, 6%nat)];
    TLoc v_pspatial (XInt 5);
    TRuns (XVar v_mmu) (XInt 0) (XVar v_me) (XInt 0) (XVar v_pspatial)
      [(HLab, n_amp2, 7%nat); (HRot, n_amp2, 7%nat); (HBoost, n_amp2, 7%nat); (HBoth, n_amp2, 7%nat)];
    TLoc v_me (XLit (21 # 200));
    TLoc v_mmu (XLit (53 # 500));
    TLoc v_MW (XLit (11 # 100));
    TLoc v_pspatial (XInt 250);
    TSet n_set_masses [(XVar v_me); (XVar v_mmu); (XVar v_MW)];
    TRuns (XVar v_mmu) (XInt 0) (XVar v_me) (XInt 0) (XVar v_pspatial)
      [(HLab, n_amp2, 8%nat); (HRot, n_amp2, 8%nat); (HBoost, n_amp2, 8%nat); (HBoth, n_amp2, 8%nat)];
    TLoc v_pspatial (XLit (1 # 200));
    TRuns (XVar v_mmu) (XInt 0) (XVar v_me) (XInt 0) (XVar v_pspatial)
      [(HLab, n_amp2, 9%nat); (HRot, n_amp2, 9%nat); (HBoost, n_amp2, 9%nat); (HBoth, n_amp2, 9%nat)] ].

(** SM/nWWn.cpp 157-207 *)
Definition test_nWWn : test := mkTest nWWn
  [ TLoc v_me (XLit (1 # 2000));
    TLoc v_EE (XLit (31333 # 100000));
    TLoc v_MW (XLit (16077 # 200));
    TLoc v_SW (XLit (237 # 500));
    TLoc v_CW (XSqrt (XOp Sub (XInt 1) (XOp Mul (XVar v_SW) (XVar v_SW))));
    TLoc v_MZ (XOp Div (XVar v_MW) (XVar v_CW));
    TNew [(XVar v_EE); (XVar v_me); (XVar v_MW); (XVar v_SW); (XInt 0)];
    TLoc v_pspatial (XInt 250);
    TRuns (XInt 0) (XVar v_MW) (XVar v_MW) (XInt 0) (XVar v_pspatial)
      [(HLab, n_amp2, 0%nat); (HRot, n_amp2, 0%nat); (HBoost, n_amp2, 0%nat); (HBoth, n_amp2, 0%nat)];
    TLoc v_pspatial (XLit (1251 # 10));
    TRuns (XInt 0) (XVar v_MW) (XVar v_MW) (XInt 0) (XVar v_pspatial)
      [(HLab, n_amp2, 1%nat); (HRot, n_amp2, 1%nat); (HBoost, n_amp2, 1%nat); (HBoth, n_amp2, 1%nat)];
    TLoc v_me (XLit (1251 # 10));
    TLoc v_pspatial (XInt 95);
    TSet n_set_masses [(XVar v_me); (XVar v_MW)];
    TRuns (XInt 0) (XVar v_MW) (XVar v_MW) (XInt 0) (XVar v_pspatial)
      [(HLab, n_amp2, 2%nat); (HRot, n_amp2, 2%nat); (HBoost, n_amp2, 2%nat); (HBoth, n_amp2, 2%nat)];
    TLoc v_me (XInt 125);
    TLoc v_MW (XInt 8);
    TLoc v_pspatial (XLit (1251 # 10));
    TSet n_set_masses [(XVar v_me); (XVar v_MW)];
    TRuns (XInt 0) (XVar v_MW) (XVar v_MW) (XInt 0) (XVar v_pspatial)
      [(HLab, n_amp2, 3%nat); (HRot, n_amp2, 3%nat); (HBoost, n_amp2, 3%nat); (HBoth, n_amp2, 3%nat)] ].

(** SM/nZZn.cpp 144-191 *)
Definition test_nZZn : test := mkTest nZZn
  [ TLoc v_EE (XLit (31333 # 100000));
    TLoc v_MW (XLit (16077 # 200));
    TLoc v_SW (XLit (237 # 500));
    TLoc v_CW (XSqrt (XOp Sub (XInt 1) (XOp Mul (XVar v_SW) (XVar v_SW))));
    TLoc v_MZ (XOp Div (XVar v_MW) (XVar v_CW));
    TNew [(XVar v_EE); (XVar v_MW); (XVar v_SW); (XInt 0)];
    TLoc v_pspatial (XInt 250);
    TRuns (XInt 0) (XVar v_MZ) (XVar v_MZ) (XInt 0) (XVar v_pspatial)
      [(HLab, n_amp2, 0%nat); (HRot, n_amp2, 0%nat); (HBoost, n_amp2, 0%nat); (HBoth, n_amp2, 0%nat)];
    TLoc v_pspatial (XLit (1251 # 10));
    TRuns (XInt 0) (XVar v_MZ) (XVar v_MZ) (XInt 0) (XVar v_pspatial)
      [(HLab, n_amp2, 1%nat); (HRot, n_amp2, 1%nat); (HBoost, n_amp2, 1%nat); (HBoth, n_amp2, 1%nat)];
    TLoc v_pspatial (XInt 95);
    TRuns (XInt 0) (XVar v_MZ) (XVar v_MZ) (XInt 0) (XVar v_pspatial)
      [(HLab, n_amp2, 2%nat); (HRot, n_amp2, 2%nat); (HBoost, n_amp2, 2%nat); (HBoth, n_amp2, 2%nat)];
    TLoc v_pspatial (XLit (1251 # 10));
    TLoc v_MW (XInt 8);
    TLoc v_MZ (XOp Div (XVar v_MW) (XVar v_CW));
    TSet n_set_masses [(XVar v_MW)];
    TRuns (XInt 0) (XVar v_MZ) (XVar v_MZ) (XInt 0) (XVar v_pspatial)
      [(HLab, n_amp2, 3%nat); (HRot, n_amp2, 3%nat); (HBoost, n_amp2, 3%nat); (HBoth, n_amp2, 3%nat)] ].

(** SM/nZnh.cpp 118-158 *)
Definition test_nZnh : test := mkTest nZnh
  [ TLoc v_mh (XInt 125);
    TLoc v_EE (XLit (31333 # 100000));
    TLoc v_MW (XLit (16077 # 200));
    TLoc v_SW (XLit (237 # 500));
    TLoc v_CW (XSqrt (XOp Sub (XInt 1) (XOp Mul (XVar v_SW) (XVar v_SW))));
    TLoc v_MZ (XOp Div (XVar v_MW) (XVar v_CW));
    TNew [(XVar v_EE); (XVar v_mh); (XVar v_MW); (XVar v_SW); (XInt 0)];
    TLoc v_pspatial (XInt 250);
    TRuns (XInt 0) (XVar v_MZ) (XInt 0) (XVar v_mh) (XVar v_pspatial)
      [(HLab, n_amp2, 0%nat); (HRot, n_amp2, 0%nat); (HBoost, n_amp2, 0%nat); (HBoth, n_amp2, 0%nat)];
    TLoc v_pspatial (XLit (1251 # 10));
    TRuns (XInt 0) (XVar v_MZ) (XInt 0) (XVar v_mh) (XVar v_pspatial)
      [(HLab, n_amp2, 1%nat); (HRot, n_amp2, 1%nat); (HBoost, n_amp2, 1%nat); (HBoth, n_amp2, 1%nat)];
    TLoc v_mh (XLit (1 # 2000));
    TLoc v_pspatial (XLit (1251 # 10));
    TSet n_set_masses [(XVar v_mh); (XVar v_MW)];
    TRuns (XInt 0) (XVar v_MZ) (XInt 0) (XVar v_mh) (XVar v_pspatial)
      [(HLab, n_amp2, 2%nat); (HRot, n_amp2, 2%nat); (HBoost, n_amp2, 2%nat); (HBoth, n_amp2, 2%nat)] ].

(** SM/nenenene.cpp 103-148 *)
Definition test_nenenene : test := mkTest nenenene
  [ TLoc v_MW (XLit (16077 # 200));
    TLoc v_SW (XLit (237 # 500));
    TLoc v_WZ (XInt 0);
    TNew [(XLit (31333 # 100000)); (XVar v_MW); (XVar v_SW); (XVar v_WZ)];
    TLoc v_pspatial (XInt 250);
    TRuns (XInt 0) (XInt 0) (XInt 0) (XInt 0) (XVar v_pspatial)
      [(HLab, n_amp2, 0%nat); (HRot, n_amp2, 0%nat); (HBoost, n_amp2, 0%nat); (HBoth, n_amp2, 0%nat)];
    TLoc v_pspatial (XLit (1 # 1000));
    TRuns (XInt 0) (XInt 0) (XInt 0) (XInt 0) (XVar v_pspatial)
      [(HLab, n_amp2, 1%nat); (HRot, n_amp2, 1%nat); (HBoost, n_amp2, 1%nat); (HBoth, n_amp2, 1%nat)];
    TLoc v_MW (XLit (3 # 200));
    TSet n_set_masses [(XVar v_MW)];
    TRuns (XInt 0) (XInt 0) (XInt 0) (XInt 0) (XVar v_pspatial)
      [(HLab, n_amp2, 2%nat); (HRot, n_amp2, 2%nat); (HBoost, n_amp2, 2%nat); (HBoth, n_amp2, 2%nat)];
    TLoc v_MW (XLit (3 # 5000));
    TSet n_set_masses [(XVar v_MW)];
    TRuns (XInt 0) (XInt 0) (XInt 0) (XInt 0) (XVar v_pspatial)
      [(HLab, n_amp2, 3%nat); (HRot, n_amp2, 3%nat); (HBoost, n_amp2, 3%nat); (HBoth, n_amp2, 3%nat)] ].

(** SM/nenenene2.cpp 105-150 *)
Definition test_nenenene2 : test := mkTest nenenene2
  [ TLoc v_MW (XLit (16077 # 200));
    TLoc v_SW (XLit (237 # 500));
    TLoc v_WZ (XInt 0);
    TNew [(XLit (31333 # 100000)); (XVar v_MW); (XVar v_SW); (XVar v_WZ)];
    TLoc v_pspatial (XInt 250);
    TRuns (XInt 0) (XInt 0) (XInt 0) (XInt 0) (XVar v_pspatial)
      [(HLab, n_amp2, 0%nat); (HRot, n_amp2, 0%nat); (HBoost, n_amp2, 0%nat); (HBoth, n_amp2, 0%nat)];
    TLoc v_pspatial (XLit (1 # 1000));
    TRuns (XInt 0) (XInt 0) (XInt 0) (XInt 0) (XVar v_pspatial)
      [(HLab, n_amp2, 1%nat); (HRot, n_amp2, 1%nat); (HBoost, n_amp2, 1%nat); (HBoth, n_amp2, 1%nat)];
    TLoc v_MW (XLit (3 # 200));
    TSet n_set_masses [(XVar v_MW)];
    TRuns (XInt 0) (XInt 0) (XInt 0) (XInt 0) (XVar v_pspatial)
      [(HLab, n_amp2, 2%nat); (HRot, n_amp2, 2%nat); (HBoost, n_amp2, 2%nat); (HBoth, n_amp2, 2%nat)];
    TLoc v_MW (XLit (3 # 5000));
    TSet n_set_masses [(XVar v_MW)];
    TRuns (XInt 0) (XInt 0) (XInt 0) (XInt 0) (XVar v_pspatial)
      [(HLab, n_amp2, 3%nat); (HRot, n_amp2, 3%nat); (HBoost, n_amp2, 3%nat); (HBoth, n_amp2, 3%nat)] ].

(** SM/nenenmnm.cpp 99-144 *)
Definition test_nenenmnm : test := mkTest nenenmnm
  [ TLoc v_MW (XLit (16077 # 200));
    TLoc v_SW (XLit (237 # 500));
    TLoc v_WZ (XInt 0);
    TNew [(XLit (31333 # 100000)); (XVar v_MW); (XVar v_SW); (XVar v_WZ)];
    TLoc v_pspatial (XInt 250);
    TRuns (XInt 0) (XInt 0) (XInt 0) (XInt 0) (XVar v_pspatial)
      [(HLab, n_amp2, 0%nat); (HRot, n_amp2, 0%nat); (HBoost, n_amp2, 0%nat); (HBoth, n_amp2, 0%nat)];
    TLoc v_pspatial (XLit (1 # 1000));
    TRuns (XInt 0) (XInt 0) (XInt 0) (XInt 0) (XVar v_pspatial)
      [(HLab, n_amp2, 1%nat); (HRot, n_amp2, 1%nat); (HBoost, n_amp2, 1%nat); (HBoth, n_amp2, 1%nat)];
    TLoc v_MW (XLit (3 # 200));
    TSet n_set_masses [(XVar v_MW)];
    TRuns (XInt 0) (XInt 0) (XInt 0) (XInt 0) (XVar v_pspatial)
      [(HLab, n_amp2, 2%nat); (HRot, n_amp2, 2%nat); (HBoost, n_amp2, 2%nat); (HBoth, n_amp2, 2%nat)];
    TLoc v_MW (XLit (3 # 5000));
    TSet n_set_masses [(XVar v_MW)];
    TRuns (XInt 0) (XInt 0) (XInt 0) (XInt 0) (XVar v_pspatial)
      [(HLab, n_amp2, 3%nat); (HRot, n_amp2, 3%nat); (HBoost, n_amp2, 3%nat); (HBoth, n_amp2, 3%nat)] ].

(** SM/nenmnenm.cpp 100-145 *)
Definition test_nenmnenm : test := mkTest nenmnenm
  [ TLoc v_MW (XLit (16077 # 200));
    TLoc v_SW (XLit (237 # 500));
    TLoc v_WZ (XInt 0);
    TNew [(XLit (31333 # 100000)); (XVar v_MW); (XVar v_SW); (XVar v_WZ)];
    TLoc v_pspatial (XInt 250);
    TRuns (XInt 0) (XInt 0) (XInt 0) (XInt 0) (XVar v_pspatial)
      [(HLab, n_amp2, 0%nat); (HRot, n_amp2, 0%nat); (HBoost, n_amp2, 0%nat); (HBoth, n_amp2, 0%nat)];
    TLoc v_pspatial (XLit (1 # 1000));
    TRuns (XInt 0) (XInt 0) (XInt 0) (XInt 0) (XVar v_pspatial)
      [(HLab, n_amp2, 1%nat); (HRot, n_amp2, 1%nat); (HBoost, n_amp2, 1%nat); (HBoth, n_amp2, 1%nat)];
    TLoc v_MW (XLit (3 # 200));
    TSet n_set_masses [(XVar v_MW)];
    TRuns (XInt 0) (XInt 0) (XInt 0) (XInt 0) (XVar v_pspatial)
      [(HLab, n_amp2, 2%nat); (HRot, n_amp2, 2%nat); (HBoost, n_amp2, 2%nat); (HBoth, n_amp2, 2%nat)];
    TLoc v_MW (XLit (3 # 5000));
    TSet n_set_masses [(XVar v_MW)];
    TRuns (XInt 0) (XInt 0) (XInt 0) (XInt 0) (XVar v_pspatial)
      [(HLab, n_amp2, 3%nat); (HRot, n_amp2, 3%nat); (HBoost, n_amp2, 3%nat); (HBoth, n_amp2, 3%nat)] ].

(** SM/nnWW.cpp 153-203 *)
Definition test_nnWW : test := mkTest nnWW
  [ TLoc v_me (XLit (1 # 2000));
    TLoc v_EE (XLit (31333 # 100000));
    TLoc v_MW (XLit (16077 # 200));
    TLoc v_SW (XLit (237 # 500));
    TLoc v_CW (XSqrt (XOp Sub (XInt 1) (XOp Mul (XVar v_SW) (XVar v_SW))));
    TLoc v_MZ (XOp Div (XVar v_MW) (XVar v_CW));
    TNew [(XVar v_EE); (XVar v_me); (XVar v_MW); (XVar v_SW); (XInt 0)];
    TLoc v_pspatial (XInt 250);
    TRuns (XInt 0) (XInt 0) (XVar v_MW) (XVar v_MW) (XVar v_pspatial)
      [(HLab, n_amp2, 0%nat); (HRot, n_amp2, 0%nat); (HBoost, n_amp2, 0%nat); (HBoth, n_amp2, 0%nat)];
    TLoc v_pspatial (XLit (1251 # 10));
    TRuns (XInt 0) (XInt 0) (XVar v_MW) (XVar v_MW) (XVar v_pspatial)
      [(HLab, n_amp2, 1%nat); (HRot, n_amp2, 1%nat); (HBoost, n_amp2, 1%nat); (HBoth, n_amp2, 1%nat)];
    TLoc v_me (XLit (1251 # 10));
    TLoc v_pspatial (XInt 95);
    TSet n_set_masses [(XVar v_me); (XVar v_MW)];
    TRuns (XInt 0) (XInt 0) (XVar v_MW) (XVar v_MW) (XVar v_pspatial)
      [(HLab, n_amp2, 2%nat); (HRot, n_amp2, 2%nat); (HBoost, n_amp2, 2%nat); (HBoth, n_amp2, 2%nat)];
    TLoc v_me (XInt 125);
    TLoc v_MW (XInt 8);
    TLoc v_pspatial (XLit (1251 # 10));
    TSet n_set_masses [(XVar v_me); (XVar v_MW)];
    TRuns (XInt 0) (XInt 0) (XVar v_MW) (XVar v_MW) (XVar v_pspatial)
      [(HLab, n_amp2, 3%nat); (HRot, n_amp2, 3%nat); (HBoost, n_amp2, 3%nat); (HBoth, n_amp2, 3%nat)] ].

(** SM/nnZZ.cpp 141-188 *)
Definition test_nnZZ : test := mkTest nnZZ
  [ TLoc v_EE (XLit (31333 # 100000));
    TLoc v_MW (XLit (16077 # 200));
    TLoc v_SW (XLit (237 # 500));
    TLoc v_CW (XSqrt (XOp Sub (XInt 1) (XOp Mul (XVar v_SW) (XVar v_SW))));
    TLoc v_MZ (XOp Div (XVar v_MW) (XVar v_CW));
    TNew [(XVar v_EE); (XVar v_MW); (XVar v_SW); (XInt 0)];
    TLoc v_pspatial (XInt 250);
    TRuns (XInt 0) (XInt 0) (XVar v_MZ) (XVar v_MZ) (XVar v_pspatial)
      [(HLab, n_amp2, 0%nat); (HRot, n_amp2, 0%nat); (HBoost, n_amp2, 0%nat); (HBoth, n_amp2, 0%nat)];
    TLoc v_pspatial (XLit (1251 # 10));
    TRuns (XInt 0) (XInt 0) (XVar v_MZ) (XVar v_MZ) (XVar v_pspatial)
      [(HLab, n_amp2, 1%nat); (HRot, n_amp2, 1%nat); (HBoost, n_amp2, 1%nat); (HBoth, n_amp2, 1%nat)];
    TLoc v_pspatial (XInt 95);
    TRuns (XInt 0) (XInt 0) (XVar v_MZ) (XVar v_MZ) (XVar v_pspatial)
      [(HLab, n_amp2, 2%nat); (HRot, n_amp2, 2%nat); (HBoost, n_amp2, 2%nat); (HBoth, n_amp2, 2%nat)];
    TLoc v_pspatial (XLit (1251 # 10));
    TLoc v_MW (XInt 8);
    TLoc v_MZ (XOp Div (XVar v_MW) (XVar v_CW));
    TSet n_set_masses [(XVar v_MW)];
    TRuns (XInt 0) (XInt 0) (XVar v_MZ) (XVar v_MZ) (XVar v_pspatial)
      [(HLab, n_amp2, 3%nat); (HRot, n_amp2, 3%nat); (HBoost, n_amp2, 3%nat); (HBoth, n_amp2, 3%nat)] ].

(** SM/nnZh.cpp 116-156 *)
Definition test_nnZh : test := mkTest nnZh
  [ TLoc v_mh (XInt 125);
    TLoc v_EE (XLit (31333 # 100000));
    TLoc v_MW (XLit (16077 # 200));
    TLoc v_SW (XLit (237 # 500));
    TLoc v_CW (XSqrt (XOp Sub (XInt 1) (XOp Mul (XVar v_SW) (XVar v_SW))));
    TLoc v_MZ (XOp Div (XVar v_MW) (XVar v_CW));
    TNew [(XVar v_EE); (XVar v_mh); (XVar v_MW); (XVar v_SW); (XInt 0)];
    TLoc v_pspatial (XInt 250);
    TRuns (XInt 0) (XInt 0) (XVar v_MZ) (XVar v_mh) (XVar v_pspatial)
      [(HLab, n_amp2, 0%nat); (HRot, n_amp2, 0%nat); (HBoost, n_amp2, 0%nat); (HBoth, n_amp2, 0%nat)];
    TLoc v_pspatial (XLit (1251 # 10));
    TRuns (XInt 0) (XInt 0) (XVar v_MZ) (XVar v_mh) (XVar v_pspatial)
      [(HLab, n_amp2, 1%nat); (HRot, n_amp2, 1%nat); (HBoost, n_amp2, 1%nat); (HBoth, n_amp2, 1%nat)];
    TLoc v_mh (XLit (1 # 2000));
    TLoc v_pspatial (XLit (1251 # 10));
    TSet n_set_masses [(XVar v_mh); (XVar v_MW)];
    TRuns (XInt 0) (XInt 0) (XVar v_MZ) (XVar v_mh) (XVar v_pspatial)
      [(HLab, n_amp2, 2%nat); (HRot, n_amp2, 2%nat); (HBoost, n_amp2, 2%nat); (HBoth, n_amp2, 2%nat)] ].

(** SM/uAAu.cpp 181-235 *)
Definition test_uAAu : test := mkTest uAAu
  [ TLoc v_mu (XLit (21 # 5000));
    TLoc v_EE (XLit (31333 # 100000));
    TNew [(XVar v_EE); (XVar v_mu)];
    TLoc v_pspatial (XInt 250);
    TRuns (XVar v_mu) (XInt 0) (XInt 0) (XVar v_mu) (XVar v_pspatial)
      [(HLab, n_amp2, 0%nat); (HRot, n_amp2, 0%nat); (HBoost, n_amp2, 0%nat); (HBoth, n_amp2, 0%nat); (HLab, n_amp2_Aplus, 1%nat); (HRot, n_amp2_Aplus, 1%nat); (HBoost, n_amp2_Aplus, 1%nat); (HBoth, n_amp2_Aplus, 1%nat); (HLab, n_amp2_Aminus, 2%nat); (HRot, n_amp2_Aminus, 2%nat); (HBoost, n_amp2_Aminus, 2%nat); (HBoth, n_amp2_Aminus, 2%nat)];
    TLoc v_pspatial (XLit (3 # 500));
    TRuns (XVar v_mu) (XInt 0) (XInt 0) (XVar v_mu) (XVar v_pspatial)
      [(HLab, n_amp2, 3%nat); (HRot, n_amp2, 3%nat); (HBoost, n_amp2, 3%nat); (HBoth, n_amp2, 3%nat); (HLab, n_amp2_Aplus, 4%nat); (HRot, n_amp2_Aplus, 4%nat); (HBoost, n_amp2_Aplus, 4%nat); (HBoth, n_amp2_Aplus, 4%nat); (HLab, n_amp2_Aminus, 5%nat); (HRot, n_amp2_Aminus, 5%nat); (HBoost, n_amp2_Aminus, 5%nat); (HBoth, n_amp2_Aminus, 5%nat)] ].

(** SM/uAuh.cpp 148-218 *)
Definition test_uAuh : test := mkTest uAuh
  [ TLoc v_mu (XLit (21 # 5000));
    TLoc v_mh (XInt 125);
    TLoc v_EE (XLit (31333 # 100000));
    TLoc v_MW (XLit (16077 # 200));
    TLoc v_SW (XLit (237 # 500));
    TNew [(XVar v_EE); (XVar v_mu); (XVar v_mh); (XVar v_MW); (XVar v_SW)];
    TLoc v_pspatial (XInt 250);
    TRuns (XVar v_mu) (XInt 0) (XVar v_mu) (XVar v_mh) (XVar v_pspatial)
      [(HLab, n_amp2, 0%nat); (HRot, n_amp2, 0%nat); (HBoost, n_amp2, 0%nat); (HBoth, n_amp2, 0%nat); (HLab, n_amp2_Aplus, 0%nat); (HRot, n_amp2_Aplus, 0%nat); (HBoost, n_amp2_Aplus, 0%nat); (HBoth, n_amp2_Aplus, 0%nat)];
    TLoc v_pspatial (XLit (1251 # 10));
    TRuns (XVar v_mu) (XInt 0) (XVar v_mu) (XVar v_mh) (XVar v_pspatial)
      [(HLab, n_amp2, 1%nat); (HRot, n_amp2, 1%nat); (HBoost, n_amp2, 1%nat); (HBoth, n_amp2, 1%nat); (HLab, n_amp2_Aplus, 1%nat); (HRot, n_amp2_Aplus, 1%nat); (HBoost, n_amp2_Aplus, 1%nat); (HBoth, n_amp2_Aplus, 1%nat)];
    TLoc v_mu (XLit (1251 # 10));
    TLoc v_mh (XInt 125);
    TLoc v_pspatial (XInt 95);
    TSet n_set_masses [(XVar v_mu); (XVar v_mh); (XVar v_MW)];
    TRuns (XVar v_mu) (XInt 0) (XVar v_mu) (XVar v_mh) (XVar v_pspatial)
      [(HLab, n_amp2, 2%nat); (HRot, n_amp2, 2%nat); (HBoost, n_amp2, 2%nat); (HBoth, n_amp2, 2%nat); (HLab, n_amp2_Aplus, 2%nat); (HRot, n_amp2_Aplus, 2%nat); (HBoost, n_amp2_Aplus, 2%nat); (HBoth, n_amp2_Aplus, 2%nat)];
    TLoc v_mu (XInt 125);
    TLoc v_mh (XLit (1 # 2000));
    TLoc v_pspatial (XLit (1251 # 10));
    TSet n_set_masses [(XVar v_mu); (XVar v_mh); (XVar v_MW)];
    TRuns (XVar v_mu) (XInt 0) (XVar v_mu) (XVar v_mh) (XVar v_pspatial)
      [(HLab, n_amp2, 3%nat); (HRot, n_amp2, 3%nat); (HBoost, n_amp2, 3%nat); (HBoth, n_amp2, 3%nat); (HLab, n_amp2_Aplus, 3%nat); (HRot, n_amp2_Aplus, 3%nat); (HBoost, n_amp2_Aplus, 3%nat); (HBoth, n_amp2_Aplus, 3%nat)] ].

(** SM/uWWu.cpp 230-281 *)
Definition test_uWWu : test := mkTest uWWu
  [ TLoc v_mu (XLit (21 # 5000));
    TLoc v_md (XLit (3 # 400));
    TLoc v_mh (XInt 125);
    TLoc v_EE (XLit (31333 # 100000));
    TLoc v_MW (XLit (16077 # 200));
    TLoc v_SW (XLit (237 # 500));
    TLoc v_CW (XSqrt (XOp Sub (XInt 1) (XOp Mul (XVar v_SW) (XVar v_SW))));
    TLoc v_MZ (XOp Div (XVar v_MW) (XVar v_CW));
    TNew [(XVar v_EE); (XVar v_mu); (XVar v_md); (XVar v_mh); (XInt 0); (XVar v_MW); (XVar v_SW); (XInt 0)];
    TLoc v_pspatial (XInt 250);
    TRuns (XVar v_mu) (XVar v_MW) (XVar v_MW) (XVar v_mu) (XVar v_pspatial)
      [(HLab, n_amp2, 0%nat)];
    TLoc v_pspatial (XLit (1251 # 10));
    TLoc v_mu (XLit (1251 # 10));
    TLoc v_mh (XInt 125);
    TLoc v_pspatial (XInt 95);
    TSet n_set_masses [(XVar v_mu); (XVar v_md); (XVar v_mh); (XVar v_MW)];
    TLoc v_mu (XInt 125);
    TLoc v_mh (XLit (1 # 2000));
    TLoc v_pspatial (XLit (1251 # 10));
    TSet n_set_masses [(XVar v_mu); (XVar v_md); (XVar v_mh); (XVar v_MW)] ].

(** SM/uZZu.cpp 202-253 *)
Definition test_uZZu : test := mkTest uZZu
  [ TLoc v_mf (XLit (21 # 5000));
    TLoc v_mh (XInt 125);
    TLoc v_EE (XLit (31333 # 100000));
    TLoc v_MW (XLit (16077 # 200));
    TLoc v_SW (XLit (237 # 500));
    TLoc v_CW (XSqrt (XOp Sub (XInt 1) (XOp Mul (XVar v_SW) (XVar v_SW))));
    TLoc v_MZ (XOp Div (XVar v_MW) (XVar v_CW));
    TNew [(XVar v_EE); (XVar v_mf); (XVar v_mh); (XInt 0); (XVar v_MW); (XVar v_SW); (XInt 0)];
    TLoc v_pspatial (XInt 250);
    TRuns (XVar v_mf) (XVar v_MZ) (XVar v_MZ) (XVar v_mf) (XVar v_pspatial)
      [(HLab, n_amp2, 0%nat); (HRot, n_amp2, 0%nat); (HBoost, n_amp2, 0%nat); (HBoth, n_amp2, 0%nat)];
    TLoc v_pspatial (XLit (1251 # 10));
    TRuns (XVar v_mf) (XVar v_MZ) (XVar v_MZ) (XVar v_mf) (XVar v_pspatial)
      [(HLab, n_amp2, 1%nat); (HRot, n_amp2, 1%nat); (HBoost, n_amp2, 1%nat); (HBoth, n_amp2, 1%nat)];
    TLoc v_mf (XLit (1251 # 10));
    TLoc v_mh (XInt 125);
    TLoc v_pspatial (XInt 95);
    TSet n_set_masses [(XVar v_mf); (XVar v_mh); (XVar v_MW)];
    TRuns (XVar v_mf) (XVar v_MZ) (XVar v_MZ) (XVar v_mf) (XVar v_pspatial)
      [(HLab, n_amp2, 2%nat); (HRot, n_amp2, 2%nat); (HBoost, n_amp2, 2%nat); (HBoth, n_amp2, 2%nat)];
    TLoc v_mf (XInt 125);
    TLoc v_mh (XLit (1 # 2000));
    TLoc v_pspatial (XLit (1251 # 10));
    TSet n_set_masses [(XVar v_mf); (XVar v_mh); (XVar v_MW)];
    TRuns (XVar v_mf) (XVar v_MZ) (XVar v_MZ) (XVar v_mf) (XVar v_pspatial)
      [(HLab, n_amp2, 3%nat); (HRot, n_amp2, 3%nat); (HBoost, n_amp2, 3%nat); (HBoth, n_amp2, 3%nat)] ].

(** SM/uZuh.cpp 175-226 *)
Definition test_uZuh : test := mkTest uZuh
  [ TLoc v_mu (XLit (21 # 5000));
    TLoc v_mh (XInt 125);
    TLoc v_EE (XLit (31333 # 100000));
    TLoc v_MW (XLit (16077 # 200));
    TLoc v_SW (XLit (237 # 500));
    TLoc v_CW (XSqrt (XOp Sub (XInt 1) (XOp Mul (XVar v_SW) (XVar v_SW))));
    TLoc v_MZ (XOp Div (XVar v_MW) (XVar v_CW));
    TNew [(XVar v_EE); (XVar v_mu); (XVar v_mh); (XInt 0); (XVar v_MW); (XVar v_SW); (XInt 0)];
    TLoc v_pspatial (XInt 250);
    TRuns (XVar v_mu) (XVar v_MZ) (XVar v_mu) (XVar v_mh) (XVar v_pspatial)
      [(HLab, n_amp2, 0%nat)];
    TLoc v_pspatial (XLit (1251 # 10));
    TLoc v_mu (XLit (1251 # 10));
    TLoc v_mh (XInt 125);
    TLoc v_pspatial (XInt 95);
    TSet n_set_masses [(XVar v_mu); (XVar v_mh); (XVar v_MW)];
    TLoc v_mu (XInt 125);
    TLoc v_mh (XLit (1 # 2000));
    TLoc v_pspatial (XLit (1251 # 10));
    TSet n_set_masses [(XVar v_mu); (XVar v_mh); (XVar v_MW)] ].

(** SM/ubdt.cpp 122-194 *)
Definition test_ubdt : test := mkTest ubdt
  [ TLoc v_mu (XLit (21 # 5000));
    TLoc v_md (XLit (3 # 400));
    TLoc v_mt (XLit (345 # 2));
    TLoc v_mb (XLit (17 # 4));
    TLoc v_MW (XLit (16077 # 200));
    TLoc v_WW (XInt 0);
    TLoc v_sinW (XLit (237 # 500));
    TNew [(XLit (31333 # 100000)); (XVar v_mu); (XVar v_md); (XVar v_mt); (XVar v_mb); (XVar v_MW); (XVar v_WW); (XVar v_sinW)];
    TLoc v_pspatial (XInt 250);
    TRuns (XVar v_mu) (XVar v_mb) (XVar v_md) (XVar v_mt) (XVar v_pspatial)
      [(HLab, n_amp2, 0%nat); (HRot, n_amp2, 0%nat); (HBoost, n_amp2, 0%nat); (HBoth, n_amp2, 0%nat)];
    TLoc v_pspatial (XInt 173);
    TRuns (XVar v_mu) (XVar v_mb) (XVar v_md) (XVar v_mt) (XVar v_pspatial)
      [(HLab, n_amp2, 1%nat); (HRot, n_amp2, 1%nat); (HBoost, n_amp2, 1%nat); (HBoth, n_amp2, 1%nat)];
    TLoc v_mu (XLit (21 # 5000));
    TLoc v_md (XLit (3 # 400));
    TLoc v_mt (XLit (1 # 200));
    TLoc v_mb (XLit (47 # 10000));
    TLoc v_pspatial (XInt 250);
    TSet n_set_masses [(XVar v_mu); (XVar v_md); (XVar v_mt); (XVar v_mb); (XVar v_MW)];
    TRuns (XVar v_mu) (XVar v_mb) (XVar v_md) (XVar v_mt) (XVar v_pspatial)
      [(HLab, n_amp2, 2%nat); (HRot, n_amp2, 2%nat); (HBoost, n_amp2, 2%nat); (HBoth, n_amp2, 2%nat)];
    TLoc v_pspatial (XLit (1 # 200));
    TRuns (XVar v_mu) (XVar v_mb) (XVar v_md) (XVar v_mt) (XVar v_pspatial)
      [(HLab, n_amp2, 3%nat); (HRot, n_amp2, 3%nat); (HBoost, n_amp2, 3%nat); (HBoth, n_amp2, 3%nat)];
    TLoc v_MW (XLit (3 # 500));
    TLoc v_pspatial (XInt 250);
    TSet n_set_masses [(XVar v_mu); (XVar v_md); (XVar v_mt); (XVar v_mb); (XVar v_MW)];
    TRuns (XVar v_mu) (XVar v_mb) (XVar v_md) (XVar v_mt) (XVar v_pspatial)
      [(HLab, n_amp2, 4%nat); (HRot, n_amp2, 4%nat); (HBoost, n_amp2, 4%nat); (HBoth, n_amp2, 4%nat)];
    TLoc v_pspatial (XLit (1 # 200));
    TRuns (XVar v_mu) (XVar v_mb) (XVar v_md) (XVar v_mt) (XVar v_pspatial)
      [(HLab, n_amp2, 5%nat); (HRot, n_amp2, 5%nat); (HBoost, n_amp2, 5%nat); (HBoth, n_amp2, 5%nat)];
    TLoc v_MW (XLit (3 # 5000));
    TSet n_set_masses [(XVar v_mu); (XVar v_md); (XVar v_mt); (XVar v_mb); (XVar v_MW)];
    TRuns (XVar v_mu) (XVar v_mb) (XVar v_md) (XVar v_mt) (XVar v_pspatial)
      [(HLab, n_amp2, 6%nat); (HRot, n_amp2, 6%nat); (HBoost, n_amp2, 6%nat); (HBoth, n_amp2, 6%nat)] ].

(** SM/ucuc.cpp 212-306 *)
Definition test_ucuc : test := mkTest ucuc
  [ TLoc v_mu (XLit (21 # 5000));
    TLoc v_mc (XLit (123 # 100));
    TLoc v_mh (XInt 125);
    TLoc v_wh (XInt 0);
    TLoc v_MW (XLit (16077 # 200));
    TLoc v_SW (XLit (237 # 500));
    TLoc v_WZ (XInt 0);
    TNew [(XLit (31333 # 100000)); (XLit (619 # 500)); (XVar v_mu); (XVar v_mc); (XVar v_mh); (XVar v_wh); (XVar v_MW); (XVar v_SW); (XVar v_WZ)];
    TLoc v_pspatial (XInt 250);
    TRuns (XVar v_mu) (XVar v_mc) (XVar v_mu) (XVar v_mc) (XVar v_pspatial)
      [(HLab, n_amp2, 0%nat); (HRot, n_amp2, 0%nat); (HBoost, n_amp2, 0%nat); (HBoth, n_amp2, 0%nat)];
    TLoc v_pspatial (XLit (5 # 4));
    TRuns (XVar v_mu) (XVar v_mc) (XVar v_mu) (XVar v_mc) (XVar v_pspatial)
      [(HLab, n_amp2, 1%nat); (HRot, n_amp2, 1%nat); (HBoost, n_amp2, 1%nat); (HBoth, n_amp2, 1%nat)];
    TLoc v_mu (XLit (123 # 100));
    TLoc v_mc (XLit (21 # 5000));
    TLoc v_pspatial (XLit (1 # 200));
    TSet n_set_masses [(XVar v_mu); (XVar v_mc); (XVar v_mh); (XVar v_MW)];
    TRuns (XVar v_mu) (XVar v_mc) (XVar v_mu) (XVar v_mc) (XVar v_pspatial)
      [(HLab, n_amp2, 2%nat); (HRot, n_amp2, 2%nat); (HBoost, n_amp2, 2%nat); (HBoth, n_amp2, 2%nat)];
    TLoc v_mu (XLit (6 # 5));
    TLoc v_mc (XLit (123 # 100));
    TLoc v_pspatial (XLit (3 # 10));
    TSet n_set_masses [(XVar v_mu); (XVar v_mc); (XVar v_mh); (XVar v_MW)];
    TRuns (XVar v_mu) (XVar v_mc) (XVar v_mu) (XVar v_mc) (XVar v_pspatial)
      [(HLab, n_amp2, 3%nat); (HRot, n_amp2, 3%nat); (HBoost, n_amp2, 3%nat); (HBoth, n_amp2, 3%nat)];
    TLoc v_mu (XLit (6 # 5));
    TLoc v_mc (XLit (123 # 100));
    TLoc v_MW (XLit (211 # 100));
    TLoc v_pspatial (XLit (3 # 10));
    TSet n_set_masses [(XVar v_mu); (XVar v_mc); (XVar v_mh); (XVar v_MW)];
    TRuns (XVar v_mu) (XVar v_mc) (XVar v_mu) (XVar v_mc) (XVar v_pspatial)
      [(HLab, n_amp2, 4%nat); (HRot, n_amp2, 4%nat); (HBoost, n_amp2, 4%nat); (HBoth, n_amp2, 4%nat)];
    TLoc v_mu (XLit (6 # 5));
    TLoc v_mc (XLit (123 # 100));
    TLoc v_MW (XLit (3 # 500));
    TLoc v_pspatial (XLit (3 # 10));
    TSet n_set_masses [(XVar v_mu); (XVar v_mc); (XVar v_mh); (XVar v_MW)];
    TRuns (XVar v_mu) (XVar v_mc) (XVar v_mu) (XVar v_mc) (XVar v_pspatial)
      [(HLab, n_amp2, 5%nat); (HRot, n_amp2, 5%nat); (HBoost, n_amp2, 5%nat); (HBoth, n_amp2, 5%nat)];
    TLoc v_mu (XLit (6 # 5));
    TLoc v_mc (XLit (123 # 100));
    TLoc v_MW (XLit (211 # 100));
    TLoc v_mh (XLit (25 # 8));
    TLoc v_pspatial (XLit (3 # 10));
    TSet n_set_masses [(XVar v_mu); (XVar v_mc); (XVar v_mh); (XVar v_MW)];
    TRuns (XVar v_mu) (XVar v_mc) (XVar v_mu) (XVar v_mc) (XVar v_pspatial)
      [(HLab, n_amp2, 6%nat); (HRot, n_amp2, 6%nat); (HBoost, n_amp2, 6%nat); (HBoth, n_amp2, 6%nat)];
    TLoc v_mu (XLit (6 # 5));
    TLoc v_mc (XLit (123 # 100));
    TLoc v_MW (XLit (3 # 500));
    TLoc v_pspatial (XLit (3 # 10));
    TSet n_set_masses [(XVar v_mu); (XVar v_mc); (XVar v_mh); (XVar v_MW)];
    TRuns (XVar v_mu) (XVar v_mc) (XVar v_mu) (XVar v_mc) (XVar v_pspatial)
      [(HLab, n_amp2, 7%nat); (HRot, n_amp2, 7%nat); (HBoost, n_amp2, 7%nat); (HBoth, n_amp2, 7%nat)] ].

(** SM/udAW.cpp 197-263 *)
Definition test_udAW : test := mkTest udAW
  [ TLoc v_EE (XLit (31333 # 100000));
    TLoc v_mu (XLit (21 # 5000));
    TLoc v_md (XLit (3 # 400));
    TLoc v_MW (XLit (16077 # 200));
    TLoc v_SW (XLit (237 # 500));
    TNew [(XVar v_EE); (XVar v_mu); (XVar v_md); (XVar v_MW); (XVar v_SW); (XInt 0)];
    TLoc v_pspatial (XInt 250);
    TRuns (XVar v_mu) (XVar v_md) (XInt 0) (XVar v_MW) (XVar v_pspatial)
      [(HLab, n_amp2, 0%nat); (HRot, n_amp2, 0%nat); (HBoost, n_amp2, 0%nat); (HBoth, n_amp2, 0%nat)];
    TLoc v_pspatial (XInt 81);
    TRuns (XVar v_mu) (XVar v_md) (XInt 0) (XVar v_MW) (XVar v_pspatial)
      [(HLab, n_amp2, 1%nat); (HRot, n_amp2, 1%nat); (HBoost, n_amp2, 1%nat); (HBoth, n_amp2, 1%nat)];
    TLoc v_mu (XInt 80);
    TSet n_set_masses [(XVar v_mu); (XVar v_md); (XVar v_MW)];
    TLoc v_pspatial (XInt 250);
    TRuns (XVar v_mu) (XVar v_md) (XInt 0) (XVar v_MW) (XVar v_pspatial)
      [(HLab, n_amp2, 2%nat); (HRot, n_amp2, 2%nat); (HBoost, n_amp2, 2%nat); (HBoth, n_amp2, 2%nat)];
    TLoc v_pspatial (XInt 1);
    TRuns (XVar v_mu) (XVar v_md) (XInt 0) (XVar v_MW) (XVar v_pspatial)
      [(HLab, n_amp2, 3%nat); (HRot, n_amp2, 3%nat); (HBoost, n_amp2, 3%nat); (HBoth, n_amp2, 3%nat)];
    TLoc v_mu (XInt 80);
    TLoc v_md (XInt 40);
    TLoc v_MW (XInt 30);
    TSet n_set_masses [(XVar v_mu); (XVar v_md); (XVar v_MW)];
    TLoc v_pspatial (XInt 250);
    TRuns (XVar v_mu) (XVar v_md) (XInt 0) (XVar v_MW) (XVar v_pspatial)
      [(HLab, n_amp2, 4%nat); (HRot, n_amp2, 4%nat); (HBoost, n_amp2, 4%nat); (HBoth, n_amp2, 4%nat)];
    TLoc v_mu (XInt 80);
    TLoc v_md (XLit (3 # 400));
    TLoc v_MW (XInt 1);
    TSet n_set_masses [(XVar v_mu); (XVar v_md); (XVar v_MW)];
    TLoc v_pspatial (XInt 1);
    TRuns (XVar v_mu) (XVar v_md) (XInt 0) (XVar v_MW) (XVar v_pspatial)
      [(HLab, n_amp2, 5%nat); (HRot, n_amp2, 5%nat); (HBoost, n_amp2, 5%nat); (HBoth, n_amp2, 5%nat)] ].

(** SM/udWh.cpp 165-264 *)
Definition test_udWh : test := mkTest udWh
  [ TLoc v_mu (XLit (21 # 5000));
    TLoc v_md (XLit (3 # 400));
    TLoc v_mh (XInt 125);
    TLoc v_EE (XLit (31333 # 100000));
    TLoc v_MW (XLit (16077 # 200));
    TLoc v_SW (XLit (237 # 500));
    TNew [(XVar v_EE); (XVar v_mu); (XVar v_md); (XVar v_mh); (XVar v_MW); (XInt 0); (XVar v_SW)];
    TLoc v_pspatial (XInt 2500);
    TRuns (XVar v_mu) (XVar v_md) (XVar v_MW) (XVar v_mh) (XVar v_pspatial)
      [(HLab, n_amp2, 0%nat); (HRot, n_amp2, 0%nat)];
    TLoc v_pspatial (XInt 250);
    TRuns (XVar v_mu) (XVar v_md) (XVar v_MW) (XVar v_mh) (XVar v_pspatial)
      [(HLab, n_amp2, 1%nat); (HRot, n_amp2, 1%nat); (HBoost, n_amp2, 1%nat); (HBoth, n_amp2, 1%nat)];
    TLoc v_pspatial (XLit (1251 # 10));
    TRuns (XVar v_mu) (XVar v_md) (XVar v_MW) (XVar v_mh) (XVar v_pspatial)
      [(HLab, n_amp2, 2%nat); (HRot, n_amp2, 2%nat); (HBoost, n_amp2, 2%nat); (HBoth, n_amp2, 2%nat)];
    TLoc v_mu (XLit (1251 # 10));
    TLoc v_md (XInt 130);
    TLoc v_mh (XInt 125);
    TLoc v_pspatial (XInt 1);
    TSet n_set_masses [(XVar v_mu); (XVar v_md); (XVar v_mh); (XVar v_MW)];
    TRuns (XVar v_mu) (XVar v_md) (XVar v_MW) (XVar v_mh) (XVar v_pspatial)
      [(HLab, n_amp2, 3%nat); (HRot, n_amp2, 3%nat); (HBoost, n_amp2, 3%nat); (HBoth, n_amp2, 3%nat)];
    TLoc v_mu (XInt 125);
    TLoc v_mh (XLit (1 # 2000));
    TLoc v_pspatial (XInt 250);
    TSet n_set_masses [(XVar v_mu); (XVar v_md); (XVar v_mh); (XVar v_MW)];
    TRuns (XVar v_mu) (XVar v_md) (XVar v_MW) (XVar v_mh) (XVar v_pspatial)
      [(HLab, n_amp2, 4%nat); (HRot, n_amp2, 4%nat); (HBoost, n_amp2, 4%nat); (HBoth, n_amp2, 4%nat)];
    TLoc v_pspatial (XInt 1);
    TRuns (XVar v_mu) (XVar v_md) (XVar v_MW) (XVar v_mh) (XVar v_pspatial)
      [(HLab, n_amp2, 5%nat); (HRot, n_amp2, 5%nat); (HBoost, n_amp2, 5%nat); (HBoth, n_amp2, 5%nat)];
    TLoc v_mu (XLit (1 # 250));
    TLoc v_mh (XLit (1 # 2000));
    TLoc v_MW (XLit (1 # 2500));
    TLoc v_pspatial (XInt 250);
    TSet n_set_masses [(XVar v_mu); (XVar v_md); (XVar v_mh); (XVar v_MW)];
    TRuns (XVar v_mu) (XVar v_md) (XVar v_MW) (XVar v_mh) (XVar v_pspatial)
      [(HLab, n_amp2, 6%nat); (HRot, n_amp2, 6%nat); (HBoost, n_amp2, 6%nat); (HBoth, n_amp2, 6%nat)];
    TLoc v_pspatial (XInt 1);
    TRuns (XVar v_mu) (XVar v_md) (XVar v_MW) (XVar v_mh) (XVar v_pspatial)
      [(HLab, n_amp2, 7%nat); (HRot, n_amp2, 7%nat); (HBoost, n_amp2, 7%nat); (HBoth, n_amp2, 7%nat)];
    TLoc v_mu (XLit (1 # 250));
    TLoc v_md (XLit (7 # 1000));
    TLoc v_mh (XLit (1 # 2000));
    TLoc v_MW (XLit (1 # 2500));
    TLoc v_pspatial (XLit (5 # 2));
    TSet n_set_masses [(XVar v_mu); (XVar v_md); (XVar v_mh); (XVar v_MW)];
    TRuns (XVar v_mu) (XVar v_md) (XVar v_MW) (XVar v_mh) (XVar v_pspatial)
      [(HLab, n_amp2, 8%nat); (HRot, n_amp2, 8%nat); (HBoost, n_amp2, 8%nat); (HBoth, n_amp2, 8%nat)];
    TLoc v_pspatial (XLit (1 # 1000));
    TRuns (XVar v_mu) (XVar v_md) (XVar v_MW) (XVar v_mh) (XVar v_pspatial)
      [(HLab, n_amp2, 9%nat); (HRot, n_amp2, 9%nat); (HBoost, n_amp2, 9%nat); (HBoth, n_amp2, 9%nat)] ].

(** SM/udZW.cpp 200-270 *)
Definition test_udZW : test := mkTest udZW
  [ TLoc v_EE (XLit (31333 # 100000));
    TLoc v_mu (XLit (21 # 5000));
    TLoc v_md (XLit (3 # 400));
    TLoc v_MW (XLit (16077 # 200));
    TLoc v_SW (XLit (237 # 500));
    TLoc v_CW (XSqrt (XOp Sub (XInt 1) (XOp Mul (XVar v_SW) (XVar v_SW))));
    TLoc v_MZ (XOp Div (XVar v_MW) (XVar v_CW));
    TNew [(XVar v_EE); (XVar v_mu); (XVar v_md); (XVar v_MW); (XVar v_SW); (XInt 0)];
    TLoc v_pspatial (XInt 250);
    TRuns (XVar v_mu) (XVar v_md) (XVar v_MZ) (XVar v_MW) (XVar v_pspatial)
      [(HLab, n_amp2, 0%nat); (HRot, n_amp2, 0%nat); (HBoost, n_amp2, 0%nat); (HBoth, n_amp2, 0%nat)];
    TLoc v_pspatial (XInt 90);
    TRuns (XVar v_mu) (XVar v_md) (XVar v_MZ) (XVar v_MW) (XVar v_pspatial)
      [(HLab, n_amp2, 1%nat); (HRot, n_amp2, 1%nat); (HBoost, n_amp2, 1%nat); (HBoth, n_amp2, 1%nat)];
    TLoc v_mu (XInt 80);
    TSet n_set_masses [(XVar v_mu); (XVar v_md); (XVar v_MW)];
    TLoc v_pspatial (XInt 250);
    TRuns (XVar v_mu) (XVar v_md) (XVar v_MZ) (XVar v_MW) (XVar v_pspatial)
      [(HLab, n_amp2, 2%nat); (HRot, n_amp2, 2%nat); (HBoost, n_amp2, 2%nat); (HBoth, n_amp2, 2%nat)];
    TLoc v_pspatial (XInt 70);
    TRuns (XVar v_mu) (XVar v_md) (XVar v_MZ) (XVar v_MW) (XVar v_pspatial)
      [(HLab, n_amp2, 3%nat); (HRot, n_amp2, 3%nat); (HBoost, n_amp2, 3%nat); (HBoth, n_amp2, 3%nat)];
    TLoc v_mu (XInt 80);
    TLoc v_md (XInt 40);
    TLoc v_MW (XInt 30);
    TLoc v_MZ (XOp Div (XVar v_MW) (XVar v_CW));
    TSet n_set_masses [(XVar v_mu); (XVar v_md); (XVar v_MW)];
    TLoc v_pspatial (XInt 250);
    TRuns (XVar v_mu) (XVar v_md) (XVar v_MZ) (XVar v_MW) (XVar v_pspatial)
      [(HLab, n_amp2, 4%nat); (HRot, n_amp2, 4%nat); (HBoost, n_amp2, 4%nat); (HBoth, n_amp2, 4%nat)];
    TLoc v_mu (XInt 80);
    TLoc v_md (XInt 40);
    TLoc v_MW (XInt 1);
    TLoc v_MZ (XOp Div (XVar v_MW) (XVar v_CW));
    TSet n_set_masses [(XVar v_mu); (XVar v_md); (XVar v_MW)];
    TLoc v_pspatial (XInt 1);
    TRuns (XVar v_mu) (XVar v_md) (XVar v_MZ) (XVar v_MW) (XVar v_pspatial)
      [(HLab, n_amp2, 5%nat); (HRot, n_amp2, 5%nat); (HBoost, n_amp2, 5%nat); (HBoth, n_amp2, 5%nat)] ].

(** SM/udnl.cpp 106-181 *)
Definition test_udnl : test := mkTest udnl
  [ TLoc v_mu (XLit (21 # 5000));
    TLoc v_md (XLit (3 # 400));
    TLoc v_mtau (XLit (1777 # 1000));
    TLoc v_MW (XLit (16077 # 200));
    TLoc v_WW (XInt 0);
    TLoc v_sinW (XLit (237 # 500));
    TNew [(XLit (31333 # 100000)); (XVar v_mu); (XVar v_md); (XVar v_mtau); (XVar v_MW); (XVar v_WW); (XVar v_sinW)];
    TLoc v_pspatial (XInt 250);
    TRuns (XVar v_mu) (XVar v_md) (XInt 0) (XVar v_mtau) (XVar v_pspatial)
      [(HLab, n_amp2, 0%nat); (HRot, n_amp2, 0%nat); (HBoost, n_amp2, 0%nat); (HBoth, n_amp2, 0%nat)];
    TLoc v_pspatial (XLit (9 # 5));
    TRuns (XVar v_mu) (XVar v_md) (XInt 0) (XVar v_mtau) (XVar v_pspatial)
      [(HLab, n_amp2, 1%nat); (HRot, n_amp2, 1%nat); (HBoost, n_amp2, 1%nat); (HBoth, n_amp2, 1%nat)];
    TLoc v_mu (XLit (21 # 5000));
    TLoc v_md (XLit (3 # 400));
    TLoc v_mtau (XLit (1 # 200));
    TLoc v_pspatial (XInt 250);
    TSet n_set_masses [(XVar v_mu); (XVar v_md); (XVar v_mtau); (XVar v_MW)];
    TRuns (XVar v_mu) (XVar v_md) (XInt 0) (XVar v_mtau) (XVar v_pspatial)
      [(HLab, n_amp2, 2%nat); (HRot, n_amp2, 2%nat); (HBoost, n_amp2, 2%nat); (HBoth, n_amp2, 2%nat)];
    TLoc v_pspatial (XLit (1 # 1000));
    TRuns (XVar v_mu) (XVar v_md) (XInt 0) (XVar v_mtau) (XVar v_pspatial)
      [(HLab, n_amp2, 3%nat); (HRot, n_amp2, 3%nat); (HBoost, n_amp2, 3%nat); (HBoth, n_amp2, 3%nat)];
    TLoc v_MW (XLit (3 # 500));
    TLoc v_pspatial (XInt 250);
    TSet n_set_masses [(XVar v_mu); (XVar v_md); (XVar v_mtau); (XVar v_MW)];
    TRuns (XVar v_mu) (XVar v_md) (XInt 0) (XVar v_mtau) (XVar v_pspatial)
      [(HLab, n_amp2, 4%nat); (HRot, n_amp2, 4%nat); (HBoost, n_amp2, 4%nat); (HBoth, n_amp2, 4%nat)];
    TLoc v_pspatial (XLit (1 # 1000));
    TRuns (XVar v_mu) (XVar v_md) (XInt 0) (XVar v_mtau) (XVar v_pspatial)
      [(HLab, n_amp2, 5%nat); (HRot, n_amp2, 5%nat); (HBoost, n_amp2, 5%nat); (HBoth, n_amp2, 5%nat)];
    TLoc v_MW (XLit (3 # 5000));
    TSet n_set_masses [(XVar v_mu); (XVar v_md); (XVar v_mtau); (XVar v_MW)];
    TRuns (XVar v_mu) (XVar v_md) (XInt 0) (XVar v_mtau) (XVar v_pspatial)
      [(HLab, n_amp2, 6%nat); (HRot, n_amp2, 6%nat); (HBoost, n_amp2, 6%nat); (HBoth, n_amp2, 6%nat)] ].

(** SM/udtb.cpp 113-189 *)
Definition test_udtb : test := mkTest udtb
  [ TLoc v_mu (XLit (21 # 5000));
    TLoc v_md (XLit (3 # 400));
    TLoc v_mt (XLit (345 # 2));
    TLoc v_mb (XLit (17 # 4));
    TLoc v_MW (XLit (16077 # 200));
    TLoc v_WW (XInt 0);
    TLoc v_sinW (XLit (237 # 500));
    TNew [(XLit (31333 # 100000)); (XVar v_mu); (XVar v_md); (XVar v_mt); (XVar v_mb); (XVar v_MW); (XVar v_WW); (XVar v_sinW)];
    TLoc v_pspatial (XInt 250);
    TRuns (XVar v_mu) (XVar v_md) (XVar v_mt) (XVar v_mb) (XVar v_pspatial)
      [(HLab, n_amp2, 0%nat); (HRot, n_amp2, 0%nat); (HBoost, n_amp2, 0%nat); (HBoth, n_amp2, 0%nat)];
    TLoc v_pspatial (XInt 173);
    TRuns (XVar v_mu) (XVar v_md) (XVar v_mt) (XVar v_mb) (XVar v_pspatial)
      [(HLab, n_amp2, 1%nat); (HRot, n_amp2, 1%nat); (HBoost, n_amp2, 1%nat); (HBoth, n_amp2, 1%nat)];
    TLoc v_mu (XLit (21 # 5000));
    TLoc v_md (XLit (3 # 400));
    TLoc v_mt (XLit (1 # 200));
    TLoc v_mb (XLit (47 # 10000));
    TLoc v_pspatial (XInt 250);
    TSet n_set_masses [(XVar v_mu); (XVar v_md); (XVar v_mt); (XVar v_mb); (XVar v_MW)];
    TRuns (XVar v_mu) (XVar v_md) (XVar v_mt) (XVar v_mb) (XVar v_pspatial)
      [(HLab, n_amp2, 2%nat); (HRot, n_amp2, 2%nat); (HBoost, n_amp2, 2%nat); (HBoth, n_amp2, 2%nat)];
    TLoc v_pspatial (XLit (1 # 1000));
    TRuns (XVar v_mu) (XVar v_md) (XVar v_mt) (XVar v_mb) (XVar v_pspatial)
      [(HLab, n_amp2, 3%nat); (HRot, n_amp2, 3%nat); (HBoost, n_amp2, 3%nat); (HBoth, n_amp2, 3%nat)];
    TLoc v_MW (XLit (3 # 500));
    TLoc v_pspatial (XInt 250);
    TSet n_set_masses [(XVar v_mu); (XVar v_md); (XVar v_mt); (XVar v_mb); (XVar v_MW)];
    TRuns (XVar v_mu) (XVar v_md) (XVar v_mt) (XVar v_mb) (XVar v_pspatial)
      [(HLab, n_amp2, 4%nat); (HRot, n_amp2, 4%nat); (HBoost, n_amp2, 4%nat); (HBoth, n_amp2, 4%nat)];
    TLoc v_pspatial (XLit (1 # 1000));
    TRuns (XVar v_mu) (XVar v_md) (XVar v_mt) (XVar v_mb) (XVar v_pspatial)
      [(HLab, n_amp2, 5%nat); (HRot, n_amp2, 5%nat); (HBoost, n_amp2, 5%nat); (HBoth, n_amp2, 5%nat)];
    TLoc v_MW (XLit (3 # 5000));
    TSet n_set_masses [(XVar v_mu); (XVar v_md); (XVar v_mt); (XVar v_mb); (XVar v_MW)];
    TRuns (XVar v_mu) (XVar v_md) (XVar v_mt) (XVar v_mb) (XVar v_pspatial)
      [(HLab, n_amp2, 6%nat); (HRot, n_amp2, 6%nat); (HBoost, n_amp2, 6%nat); (HBoth, n_amp2, 6%nat)] ].

(** SM/udud.cpp 241-335 *)
Definition test_udud : test := mkTest udud
  [ TLoc v_mu (XLit (21 # 5000));
    TLoc v_md (XLit (3 # 400));
    TLoc v_mh (XInt 125);
    TLoc v_wh (XInt 0);
    TLoc v_MW (XLit (16077 # 200));
    TLoc v_WW (XInt 0);
    TLoc v_SW (XLit (237 # 500));
    TLoc v_WZ (XInt 0);
    TNew [(XLit (31333 # 100000)); (XLit (619 # 500)); (XVar v_mu); (XVar v_md); (XVar v_mh); (XVar v_wh); (XVar v_MW); (XVar v_WW); (XVar v_SW); (XVar v_WZ)];
    TLoc v_pspatial (XInt 250);
    TRuns (XVar v_mu) (XVar v_md) (XVar v_mu) (XVar v_md) (XVar v_pspatial)
      [(HLab, n_amp2, 0%nat); (HRot, n_amp2, 0%nat); (HBoost, n_amp2, 0%nat); (HBoth, n_amp2, 0%nat)];
    TLoc v_pspatial (XLit (1 # 250));
    TRuns (XVar v_mu) (XVar v_md) (XVar v_mu) (XVar v_md) (XVar v_pspatial)
      [(HLab, n_amp2, 1%nat); (HRot, n_amp2, 1%nat); (HBoost, n_amp2, 1%nat); (HBoth, n_amp2, 1%nat)];
    TLoc v_mu (XLit (123 # 100));
    TLoc v_md (XLit (21 # 5000));
    TLoc v_pspatial (XLit (1 # 200));
    TSet n_set_masses [(XVar v_mu); (XVar v_md); (XVar v_mh); (XVar v_MW)];
    TRuns (XVar v_mu) (XVar v_md) (XVar v_mu) (XVar v_md) (XVar v_pspatial)
      [(HLab, n_amp2, 2%nat); (HRot, n_amp2, 2%nat); (HBoost, n_amp2, 2%nat); (HBoth, n_amp2, 2%nat)];
    TLoc v_mu (XLit (6 # 5));
    TLoc v_md (XLit (123 # 100));
    TLoc v_pspatial (XLit (3 # 10));
    TSet n_set_masses [(XVar v_mu); (XVar v_md); (XVar v_mh); (XVar v_MW)];
    TRuns (XVar v_mu) (XVar v_md) (XVar v_mu) (XVar v_md) (XVar v_pspatial)
      [(HLab, n_amp2, 3%nat); (HRot, n_amp2, 3%nat); (HBoost, n_amp2, 3%nat); (HBoth, n_amp2, 3%nat)];
    TLoc v_mu (XLit (6 # 5));
    TLoc v_md (XLit (123 # 100));
    TLoc v_MW (XLit (211 # 100));
    TLoc v_pspatial (XLit (3 # 10));
    TSet n_set_masses [(XVar v_mu); (XVar v_md); (XVar v_mh); (XVar v_MW)];
    TRuns (XVar v_mu) (XVar v_md) (XVar v_mu) (XVar v_md) (XVar v_pspatial)
      [(HLab, n_amp2, 4%nat); (HRot, n_amp2, 4%nat); (HBoost, n_amp2, 4%nat); (HBoth, n_amp2, 4%nat)];
    TLoc v_mu (XLit (6 # 5));
    TLoc v_md (XLit (123 # 100));
    TLoc v_MW (XLit (3 # 500));
    TLoc v_pspatial (XLit (3 # 10));
    TSet n_set_masses [(XVar v_mu); (XVar v_md); (XVar v_mh); (XVar v_MW)];
    TRuns (XVar v_mu) (XVar v_md) (XVar v_mu) (XVar v_md) (XVar v_pspatial)
      [(HLab, n_amp2, 5%nat); (HRot, n_amp2, 5%nat); (HBoost, n_amp2, 5%nat); (HBoth, n_amp2, 5%nat)];
    TLoc v_mu (XLit (6 # 5));
    TLoc v_md (XLit (123 # 100));
    TLoc v_MW (XLit (211 # 100));
    TLoc v_mh (XLit (25 # 8));
    TLoc v_pspatial (XLit (3 # 10));
    TSet n_set_masses [(XVar v_mu); (XVar v_md); (XVar v_mh); (XVar v_MW)];
    TRuns (XVar v_mu) (XVar v_md) (XVar v_mu) (XVar v_md) (XVar v_pspatial)
      [(HLab, n_amp2, 6%nat); (HRot, n_amp2, 6%nat); (HBoost, n_amp2, 6%nat); (HBoth, n_amp2, 6%nat)];
    TLoc v_mu (XLit (6 # 5));
    TLoc v_md (XLit (123 # 100));
    TLoc v_MW (XLit (3 # 500));
    TLoc v_pspatial (XLit (3 # 10));
    TSet n_set_masses [(XVar v_mu); (XVar v_md); (XVar v_mh); (XVar v_MW)];
    TRuns (XVar v_mu) (XVar v_md) (XVar v_mu) (XVar v_md) (XVar v_pspatial)
      [(HLab, n_amp2, 7%nat); (HRot, n_amp2, 7%nat); (HBoost, n_amp2, 7%nat); (HBoth, n_amp2, 7%nat)] ].

(** SM/ueeu.cpp 187-283 *)
Definition test_ueeu : test := mkTest ueeu
  [ TLoc v_mu (XLit (21 # 5000));
    TLoc v_me (XLit (1 # 2000));
    TLoc v_mh (XInt 125);
    TLoc v_wh (XInt 0);
    TLoc v_MW (XLit (16077 # 200));
    TLoc v_SW (XLit (237 # 500));
    TLoc v_WZ (XInt 0);
    TNew [(XLit (31333 # 100000)); (XVar v_mu); (XVar v_me); (XVar v_mh); (XVar v_wh); (XVar v_MW); (XVar v_SW); (XVar v_WZ)];
    TLoc v_pspatial (XInt 250);
    TRuns (XVar v_mu) (XVar v_me) (XVar v_me) (XVar v_mu) (XVar v_pspatial)
      [(HLab, n_amp2, 0%nat); (HRot, n_amp2, 0%nat); (HBoost, n_amp2, 0%nat); (HBoth, n_amp2, 0%nat)];
    TLoc v_me (XLit (123 # 100));
    TLoc v_pspatial (XLit (5 # 4));
    TSet n_set_masses [(XVar v_mu); (XVar v_me); (XVar v_mh); (XVar v_MW)];
    TRuns (XVar v_mu) (XVar v_me) (XVar v_me) (XVar v_mu) (XVar v_pspatial)
      [(HLab, n_amp2, 1%nat); (HRot, n_amp2, 1%nat); (HBoost, n_amp2, 1%nat); (HBoth, n_amp2, 1%nat)];
    TLoc v_mu (XLit (123 # 100));
    TLoc v_me (XLit (21 # 5000));
    TLoc v_pspatial (XLit (1 # 200));
    TSet n_set_masses [(XVar v_mu); (XVar v_me); (XVar v_mh); (XVar v_MW)];
    TRuns (XVar v_mu) (XVar v_me) (XVar v_me) (XVar v_mu) (XVar v_pspatial)
      [(HLab, n_amp2, 2%nat); (HRot, n_amp2, 2%nat); (HBoost, n_amp2, 2%nat); (HBoth, n_amp2, 2%nat)];
    TLoc v_mu (XLit (6 # 5));
    TLoc v_me (XLit (123 # 100));
    TLoc v_pspatial (XLit (3 # 10));
    TSet n_set_masses [(XVar v_mu); (XVar v_me); (XVar v_mh); (XVar v_MW)];
    TRuns (XVar v_mu) (XVar v_me) (XVar v_me) (XVar v_mu) (XVar v_pspatial)
      [(HLab, n_amp2, 3%nat); (HRot, n_amp2, 3%nat); (HBoost, n_amp2, 3%nat); (HBoth, n_amp2, 3%nat)];
    TLoc v_mu (XLit (6 # 5));
    TLoc v_me (XLit (123 # 100));
    TLoc v_MW (XLit (211 # 100));
    TLoc v_pspatial (XLit (3 # 10));
    TSet n_set_masses [(XVar v_mu); (XVar v_me); (XVar v_mh); (XVar v_MW)];
    TRuns (XVar v_mu) (XVar v_me) (XVar v_me) (XVar v_mu) (XVar v_pspatial)
      [(HLab, n_amp2, 4%nat); (HRot, n_amp2, 4%nat); (HBoost, n_amp2, 4%nat); (HBoth, n_amp2, 4%nat)];
    TLoc v_mu (XLit (6 # 5));
    TLoc v_me (XLit (123 # 100));
    TLoc v_MW (XLit (3 # 500));
    TLoc v_pspatial (XLit (3 # 10));
    TSet n_set_masses [(XVar v_mu); (XVar v_me); (XVar v_mh); (XVar v_MW)];
    TRuns (XVar v_mu) (XVar v_me) (XVar v_me) (XVar v_mu) (XVar v_pspatial)
      [(HLab, n_amp2, 5%nat); (HRot, n_amp2, 5%nat); (HBoost, n_amp2, 5%nat); (HBoth, n_amp2, 5%nat)];
    TLoc v_mu (XLit (6 # 5));
    TLoc v_me (XLit (123 # 100));
    TLoc v_MW (XLit (211 # 100));
    TLoc v_mh (XLit (25 # 8));
    TLoc v_pspatial (XLit (3 # 10));
    TSet n_set_masses [(XVar v_mu); (XVar v_me); (XVar v_mh); (XVar v_MW)];
    TRuns (XVar v_mu) (XVar v_me) (XVar v_me) (XVar v_mu) (XVar v_pspatial)
      [(HLab, n_amp2, 6%nat); (HRot, n_amp2, 6%nat); (HBoost, n_amp2, 6%nat); (HBoth, n_amp2, 6%nat)];
    TLoc v_mu (XLit (6 # 5));
    TLoc v_me (XLit (123 # 100));
    TLoc v_MW (XLit (3 # 500));
    TLoc v_pspatial (XLit (3 # 10));
    TSet n_set_masses [(XVar v_mu); (XVar v_me); (XVar v_mh); (XVar v_MW)];
    TRuns (XVar v_mu) (XVar v_me) (XVar v_me) (XVar v_mu) (XVar v_pspatial)
      [(HLab, n_amp2, 7%nat); (HRot, n_amp2, 7%nat); (HBoost, n_amp2, 7%nat); (HBoth, n_amp2, 7%nat)] ].

(** SM/uguh.cpp 148-219 *)
Definition test_uguh : test := mkTest uguh
  [ TLoc v_mu (XLit (21 # 5000));
    TLoc v_mh (XInt 125);
    TLoc v_EE (XLit (31333 # 100000));
    TLoc v_MW (XLit (16077 # 200));
    TLoc v_SW (XLit (237 # 500));
    TLoc v_gs (XLit (619 # 500));
    TNew [(XVar v_EE); (XVar v_gs); (XVar v_mu); (XVar v_mh); (XVar v_MW); (XVar v_SW)];
    TLoc v_pspatial (XInt 250);
    TRuns (XVar v_mu) (XInt 0) (XVar v_mu) (XVar v_mh) (XVar v_pspatial)
      [(HLab, n_amp2, 0%nat); (HRot, n_amp2, 0%nat); (HBoost, n_amp2, 0%nat); (HBoth, n_amp2, 0%nat); (HLab, n_amp2_gplus, 0%nat); (HRot, n_amp2_gplus, 0%nat); (HBoost, n_amp2_gplus, 0%nat); (HBoth, n_amp2_gplus, 0%nat)];
    TLoc v_pspatial (XLit (1251 # 10));
    TRuns (XVar v_mu) (XInt 0) (XVar v_mu) (XVar v_mh) (XVar v_pspatial)
      [(HLab, n_amp2, 1%nat); (HRot, n_amp2, 1%nat); (HBoost, n_amp2, 1%nat); (HBoth, n_amp2, 1%nat); (HLab, n_amp2_gplus, 1%nat); (HRot, n_amp2_gplus, 1%nat); (HBoost, n_amp2_gplus, 1%nat); (HBoth, n_amp2_gplus, 1%nat)];
    TLoc v_mu (XLit (1251 # 10));
    TLoc v_mh (XInt 125);
    TLoc v_pspatial (XInt 95);
    TSet n_set_masses [(XVar v_mu); (XVar v_mh); (XVar v_MW)];
    TRuns (XVar v_mu) (XInt 0) (XVar v_mu) (XVar v_mh) (XVar v_pspatial)
      [(HLab, n_amp2, 2%nat); (HRot, n_amp2, 2%nat); (HBoost, n_amp2, 2%nat); (HBoth, n_amp2, 2%nat); (HLab, n_amp2_gplus, 2%nat); (HRot, n_amp2_gplus, 2%nat); (HBoost, n_amp2_gplus, 2%nat); (HBoth, n_amp2_gplus, 2%nat)];
    TLoc v_mu (XInt 125);
    TLoc v_mh (XLit (1 # 2000));
    TLoc v_pspatial (XLit (1251 # 10));
    TSet n_set_masses [(XVar v_mu); (XVar v_mh); (XVar v_MW)];
    TRuns (XVar v_mu) (XInt 0) (XVar v_mu) (XVar v_mh) (XVar v_pspatial)
      [(HLab, n_amp2, 3%nat); (HRot, n_amp2, 3%nat); (HBoost, n_amp2, 3%nat); (HBoth, n_amp2, 3%nat); (HLab, n_amp2_gplus, 3%nat); (HRot, n_amp2_gplus, 3%nat); (HBoost, n_amp2_gplus, 3%nat); (HBoth, n_amp2_gplus, 3%nat)] ].

(** SM/uhWd.cpp 171-270 *)
Definition test_uhWd : test := mkTest uhWd
  [ TLoc v_mu (XLit (21 # 5000));
    TLoc v_md (XLit (3 # 400));
    TLoc v_mh (XInt 125);
    TLoc v_EE (XLit (31333 # 100000));
    TLoc v_MW (XLit (16077 # 200));
    TLoc v_SW (XLit (237 # 500));
    TNew [(XVar v_EE); (XVar v_mu); (XVar v_md); (XVar v_mh); (XVar v_MW); (XInt 0); (XVar v_SW)];
    TLoc v_pspatial (XInt 2500);
    TRuns (XVar v_mu) (XVar v_mh) (XVar v_MW) (XVar v_md) (XVar v_pspatial)
      [(HLab, n_amp2, 0%nat); (HRot, n_amp2, 0%nat)];
    TLoc v_pspatial (XInt 250);
    TRuns (XVar v_mu) (XVar v_mh) (XVar v_MW) (XVar v_md) (XVar v_pspatial)
      [(HLab, n_amp2, 1%nat); (HRot, n_amp2, 1%nat); (HBoost, n_amp2, 1%nat); (HBoth, n_amp2, 1%nat)];
    TLoc v_pspatial (XLit (1251 # 10));
    TRuns (XVar v_mu) (XVar v_mh) (XVar v_MW) (XVar v_md) (XVar v_pspatial)
      [(HLab, n_amp2, 2%nat); (HRot, n_amp2, 2%nat); (HBoost, n_amp2, 2%nat); (HBoth, n_amp2, 2%nat)];
    TLoc v_mu (XLit (1251 # 10));
    TLoc v_md (XInt 130);
    TLoc v_mh (XInt 125);
    TLoc v_pspatial (XInt 1);
    TSet n_set_masses [(XVar v_mu); (XVar v_md); (XVar v_mh); (XVar v_MW)];
    TRuns (XVar v_mu) (XVar v_mh) (XVar v_MW) (XVar v_md) (XVar v_pspatial)
      [(HLab, n_amp2, 3%nat); (HRot, n_amp2, 3%nat); (HBoost, n_amp2, 3%nat); (HBoth, n_amp2, 3%nat)];
    TLoc v_mu (XInt 125);
    TLoc v_mh (XLit (1 # 2000));
    TLoc v_pspatial (XInt 250);
    TSet n_set_masses [(XVar v_mu); (XVar v_md); (XVar v_mh); (XVar v_MW)];
    TRuns (XVar v_mu) (XVar v_mh) (XVar v_MW) (XVar v_md) (XVar v_pspatial)
      [(HLab, n_amp2, 4%nat); (HRot, n_amp2, 4%nat); (HBoost, n_amp2, 4%nat); (HBoth, n_amp2, 4%nat)];
    TLoc v_pspatial (XInt 70);
    TRuns (XVar v_mu) (XVar v_mh) (XVar v_MW) (XVar v_md) (XVar v_pspatial)
      [(HLab, n_amp2, 5%nat); (HRot, n_amp2, 5%nat); (HBoost, n_amp2, 5%nat); (HBoth, n_amp2, 5%nat)];
    TLoc v_mu (XLit (1 # 250));
    TLoc v_mh (XLit (1 # 2000));
    TLoc v_MW (XLit (1 # 2500));
    TLoc v_pspatial (XInt 250);
    TSet n_set_masses [(XVar v_mu); (XVar v_md); (XVar v_mh); (XVar v_MW)];
    TRuns (XVar v_mu) (XVar v_mh) (XVar v_MW) (XVar v_md) (XVar v_pspatial)
      [(HLab, n_amp2, 6%nat); (HRot, n_amp2, 6%nat); (HBoost, n_amp2, 6%nat); (HBoth, n_amp2, 6%nat)];
    TLoc v_pspatial (XInt 130);
    TRuns (XVar v_mu) (XVar v_mh) (XVar v_MW) (XVar v_md) (XVar v_pspatial)
      [(HLab, n_amp2, 7%nat); (HRot, n_amp2, 7%nat); (HBoost, n_amp2, 7%nat); (HBoth, n_amp2, 7%nat)];
    TLoc v_mu (XLit (1 # 250));
    TLoc v_md (XLit (7 # 1000));
    TLoc v_mh (XLit (1 # 2000));
    TLoc v_MW (XLit (1 # 2500));
    TLoc v_pspatial (XLit (5 # 2));
    TSet n_set_masses [(XVar v_mu); (XVar v_md); (XVar v_mh); (XVar v_MW)];
    TRuns (XVar v_mu) (XVar v_mh) (XVar v_MW) (XVar v_md) (XVar v_pspatial)
      [(HLab, n_amp2, 8%nat); (HRot, n_amp2, 8%nat); (HBoost, n_amp2, 8%nat); (HBoth, n_amp2, 8%nat)];
    TLoc v_pspatial (XLit (3 # 1000));
    TRuns (XVar v_mu) (XVar v_mh) (XVar v_MW) (XVar v_md) (XVar v_pspatial)
      [(HLab, n_amp2, 9%nat); (HRot, n_amp2, 9%nat); (HBoost, n_amp2, 9%nat); (HBoth, n_amp2, 9%nat)] ].

(** SM/uhuh.cpp 143-204 *)
Definition test_uhuh : test := mkTest uhuh
  [ TLoc v_mu (XLit (21 # 5000));
    TLoc v_mh (XInt 125);
    TLoc v_wh (XInt 0);
    TLoc v_MW (XLit (16077 # 200));
    TLoc v_SW (XLit (237 # 500));
    TNew [(XLit (31333 # 100000)); (XVar v_mu); (XVar v_mh); (XVar v_wh); (XVar v_MW); (XVar v_SW)];
    TLoc v_pspatial (XInt 250);
    TRuns (XVar v_mu) (XVar v_mh) (XVar v_mu) (XVar v_mh) (XVar v_pspatial)
      [(HLab, n_amp2, 0%nat); (HRot, n_amp2, 0%nat); (HBoost, n_amp2, 0%nat); (HBoth, n_amp2, 0%nat)];
    TLoc v_pspatial (XInt 126);
    TRuns (XVar v_mu) (XVar v_mh) (XVar v_mu) (XVar v_mh) (XVar v_pspatial)
      [(HLab, n_amp2, 1%nat); (HRot, n_amp2, 1%nat); (HBoost, n_amp2, 1%nat); (HBoth, n_amp2, 1%nat)];
    TLoc v_mu (XLit (1 # 10));
    TLoc v_mh (XLit (3 # 20));
    TLoc v_pspatial (XLit (1 # 5));
    TSet n_set_masses [(XVar v_mu); (XVar v_mh); (XVar v_MW)];
    TRuns (XVar v_mu) (XVar v_mh) (XVar v_mu) (XVar v_mh) (XVar v_pspatial)
      [(HLab, n_amp2, 2%nat); (HRot, n_amp2, 2%nat); (HBoost, n_amp2, 2%nat); (HBoth, n_amp2, 2%nat)];
    TLoc v_mu (XLit (1 # 10));
    TLoc v_mh (XLit (3 # 20));
    TLoc v_MW (XLit (11 # 100));
    TLoc v_pspatial (XLit (1 # 5));
    TSet n_set_masses [(XVar v_mu); (XVar v_mh); (XVar v_MW)];
    TRuns (XVar v_mu) (XVar v_mh) (XVar v_mu) (XVar v_mh) (XVar v_pspatial)
      [(HLab, n_amp2, 3%nat); (HRot, n_amp2, 3%nat); (HBoost, n_amp2, 3%nat); (HBoth, n_amp2, 3%nat)];
    TLoc v_mu (XLit (1 # 10));
    TLoc v_mh (XLit (3 # 20));
    TLoc v_MW (XLit (3 # 500));
    TLoc v_pspatial (XLit (1 # 5));
    TSet n_set_masses [(XVar v_mu); (XVar v_mh); (XVar v_MW)];
    TRuns (XVar v_mu) (XVar v_mh) (XVar v_mu) (XVar v_mh) (XVar v_pspatial)
      [(HLab, n_amp2, 4%nat); (HRot, n_amp2, 4%nat); (HBoost, n_amp2, 4%nat); (HBoth, n_amp2, 4%nat)] ].

(** SM/ulnd.cpp 117-188 *)
Definition test_ulnd : test := mkTest ulnd
  [ TLoc v_mu (XLit (21 # 5000));
    TLoc v_md (XLit (3 # 400));
    TLoc v_mtau (XLit (1777 # 1000));
    TLoc v_MW (XLit (16077 # 200));
    TLoc v_WW (XInt 0);
    TLoc v_sinW (XLit (237 # 500));
    TNew [(XLit (31333 # 100000)); (XVar v_mu); (XVar v_md); (XVar v_mtau); (XVar v_MW); (XVar v_WW); (XVar v_sinW)];
    TLoc v_pspatial (XInt 250);
    TRuns (XVar v_mu) (XVar v_mtau) (XInt 0) (XVar v_md) (XVar v_pspatial)
      [(HLab, n_amp2, 0%nat); (HRot, n_amp2, 0%nat); (HBoost, n_amp2, 0%nat); (HBoth, n_amp2, 0%nat)];
    TLoc v_pspatial (XLit (9 # 5));
    TRuns (XVar v_mu) (XVar v_mtau) (XInt 0) (XVar v_md) (XVar v_pspatial)
      [(HLab, n_amp2, 1%nat); (HRot, n_amp2, 1%nat); (HBoost, n_amp2, 1%nat); (HBoth, n_amp2, 1%nat)];
    TLoc v_mu (XLit (21 # 5000));
    TLoc v_md (XLit (3 # 400));
    TLoc v_mtau (XLit (1 # 200));
    TLoc v_pspatial (XInt 250);
    TSet n_set_masses [(XVar v_mu); (XVar v_md); (XVar v_mtau); (XVar v_MW)];
    TRuns (XVar v_mu) (XVar v_mtau) (XInt 0) (XVar v_md) (XVar v_pspatial)
      [(HLab, n_amp2, 2%nat); (HRot, n_amp2, 2%nat); (HBoost, n_amp2, 2%nat); (HBoth, n_amp2, 2%nat)];
    TLoc v_pspatial (XLit (1 # 1000));
    TRuns (XVar v_mu) (XVar v_mtau) (XInt 0) (XVar v_md) (XVar v_pspatial)
      [(HLab, n_amp2, 3%nat); (HRot, n_amp2, 3%nat); (HBoost, n_amp2, 3%nat); (HBoth, n_amp2, 3%nat)];
    TLoc v_MW (XLit (3 # 500));
    TLoc v_pspatial (XInt 250);
    TSet n_set_masses [(XVar v_mu); (XVar v_md); (XVar v_mtau); (XVar v_MW)];
    TRuns (XVar v_mu) (XVar v_mtau) (XInt 0) (XVar v_md) (XVar v_pspatial)
      [(HLab, n_amp2, 4%nat); (HRot, n_amp2, 4%nat); (HBoost, n_amp2, 4%nat); (HBoth, n_amp2, 4%nat)];
    TLoc v_pspatial (XLit (1 # 1000));
    TRuns (XVar v_mu) (XVar v_mtau) (XInt 0) (XVar v_md) (XVar v_pspatial)
      [(HLab, n_amp2, 5%nat); (HRot, n_amp2, 5%nat); (HBoost, n_amp2, 5%nat); (HBoth, n_amp2, 5%nat)];
    TLoc v_MW (XLit (3 # 5000));
    TSet n_set_masses [(XVar v_mu); (XVar v_md); (XVar v_mtau); (XVar v_MW)];
    TRuns (XVar v_mu) (XVar v_mtau) (XInt 0) (XVar v_md) (XVar v_pspatial)
      [(HLab, n_amp2, 6%nat); (HRot, n_amp2, 6%nat); (HBoost, n_amp2, 6%nat); (HBoth, n_amp2, 6%nat)] ].

(** SM/unnu.cpp 143-188 *)
Definition test_unnu : test := mkTest unnu
  [ TLoc v_mu (XLit (21 # 5000));
    TLoc v_MW (XLit (16077 # 200));
    TLoc v_SW (XLit (237 # 500));
    TLoc v_WZ (XInt 0);
    TNew [(XLit (31333 # 100000)); (XVar v_mu); (XVar v_MW); (XVar v_SW); (XVar v_WZ)];
    TLoc v_pspatial (XInt 250);
    TRuns (XVar v_mu) (XInt 0) (XInt 0) (XVar v_mu) (XVar v_pspatial)
      [(HLab, n_amp2, 0%nat); (HRot, n_amp2, 0%nat); (HBoost, n_amp2, 0%nat); (HBoth, n_amp2, 0%nat)];
    TLoc v_pspatial (XLit (1 # 1000));
    TRuns (XVar v_mu) (XInt 0) (XInt 0) (XVar v_mu) (XVar v_pspatial)
      [(HLab, n_amp2, 1%nat); (HRot, n_amp2, 1%nat); (HBoost, n_amp2, 1%nat); (HBoth, n_amp2, 1%nat)];
    TLoc v_MW (XLit (3 # 200));
    TSet n_set_masses [(XVar v_mu); (XVar v_MW)];
    TRuns (XVar v_mu) (XInt 0) (XInt 0) (XVar v_mu) (XVar v_pspatial)
      [(HLab, n_amp2, 2%nat); (HRot, n_amp2, 2%nat); (HBoost, n_amp2, 2%nat); (HBoth, n_amp2, 2%nat)];
    TLoc v_MW (XLit (3 # 5000));
    TSet n_set_masses [(XVar v_mu); (XVar v_MW)];
    TRuns (XVar v_mu) (XInt 0) (XInt 0) (XVar v_mu) (XVar v_pspatial)
      [(HLab, n_amp2, 3%nat); (HRot, n_amp2, 3%nat); (HBoost, n_amp2, 3%nat); (HBoth, n_amp2, 3%nat)] ].

(** SM/usus.cpp 213-307 *)
Definition test_usus : test := mkTest usus
  [ TLoc v_mu (XLit (21 # 5000));
    TLoc v_ms (XLit (123 # 100));
    TLoc v_mh (XInt 125);
    TLoc v_wh (XInt 0);
    TLoc v_MW (XLit (16077 # 200));
    TLoc v_SW (XLit (237 # 500));
    TLoc v_WZ (XInt 0);
    TNew [(XLit (31333 # 100000)); (XLit (619 # 500)); (XVar v_mu); (XVar v_ms); (XVar v_mh); (XVar v_wh); (XVar v_MW); (XVar v_SW); (XVar v_WZ)];
    TLoc v_pspatial (XInt 250);
    TRuns (XVar v_mu) (XVar v_ms) (XVar v_mu) (XVar v_ms) (XVar v_pspatial)
      [(HLab, n_amp2, 0%nat); (HRot, n_amp2, 0%nat); (HBoost, n_amp2, 0%nat); (HBoth, n_amp2, 0%nat)];
    TLoc v_pspatial (XLit (5 # 4));
    TRuns (XVar v_mu) (XVar v_ms) (XVar v_mu) (XVar v_ms) (XVar v_pspatial)
      [(HLab, n_amp2, 1%nat); (HRot, n_amp2, 1%nat); (HBoost, n_amp2, 1%nat); (HBoth, n_amp2, 1%nat)];
    TLoc v_mu (XLit (123 # 100));
    TLoc v_ms (XLit (21 # 5000));
    TLoc v_pspatial (XLit (1 # 200));
    TSet n_set_masses [(XVar v_mu); (XVar v_ms); (XVar v_mh); (XVar v_MW)];
    TRuns (XVar v_mu) (XVar v_ms) (XVar v_mu) (XVar v_ms) (XVar v_pspatial)
      [(HLab, n_amp2, 2%nat); (HRot, n_amp2, 2%nat); (HBoost, n_amp2, 2%nat); (HBoth, n_amp2, 2%nat)];
    TLoc v_mu (XLit (6 # 5));
    TLoc v_ms (XLit (123 # 100));
    TLoc v_pspatial (XLit (3 # 10));
    TSet n_set_masses [(XVar v_mu); (XVar v_ms); (XVar v_mh); (XVar v_MW)];
    TRuns (XVar v_mu) (XVar v_ms) (XVar v_mu) (XVar v_ms) (XVar v_pspatial)
      [(HLab, n_amp2, 3%nat); (HRot, n_amp2, 3%nat); (HBoost, n_amp2, 3%nat); (HBoth, n_amp2, 3%nat)];
    TLoc v_mu (XLit (6 # 5));
    TLoc v_ms (XLit (123 # 100));
    TLoc v_MW (XLit (211 # 100));
    TLoc v_pspatial (XLit (3 # 10));
    TSet n_set_masses [(XVar v_mu); (XVar v_ms); (XVar v_mh); (XVar v_MW)];
    TRuns (XVar v_mu) (XVar v_ms) (XVar v_mu) (XVar v_ms) (XVar v_pspatial)
      [(HLab, n_amp2, 4%nat); (HRot, n_amp2, 4%nat); (HBoost, n_amp2, 4%nat); (HBoth, n_amp2, 4%nat)];
    TLoc v_mu (XLit (6 # 5));
    TLoc v_ms (XLit (123 # 100));
    TLoc v_MW (XLit (3 # 500));
    TLoc v_pspatial (XLit (3 # 10));
    TSet n_set_masses [(XVar v_mu); (XVar v_ms); (XVar v_mh); (XVar v_MW)];
    TRuns (XVar v_mu) (XVar v_ms) (XVar v_mu) (XVar v_ms) (XVar v_pspatial)
      [(HLab, n_amp2, 5%nat); (HRot, n_amp2, 5%nat); (HBoost, n_amp2, 5%nat); (HBoth, n_amp2, 5%nat)];
    TLoc v_mu (XLit (6 # 5));
    TLoc v_ms (XLit (123 # 100));
    TLoc v_MW (XLit (211 # 100));
    TLoc v_mh (XLit (25 # 8));
    TLoc v_pspatial (XLit (3 # 10));
    TSet n_set_masses [(XVar v_mu); (XVar v_ms); (XVar v_mh); (XVar v_MW)];
    TRuns (XVar v_mu) (XVar v_ms) (XVar v_mu) (XVar v_ms) (XVar v_pspatial)
      [(HLab, n_amp2, 6%nat); (HRot, n_amp2, 6%nat); (HBoost, n_amp2, 6%nat); (HBoth, n_amp2, 6%nat)];
    TLoc v_mu (XLit (6 # 5));
    TLoc v_ms (XLit (123 # 100));
    TLoc v_MW (XLit (3 # 500));
    TLoc v_pspatial (XLit (3 # 10));
    TSet n_set_masses [(XVar v_mu); (XVar v_ms); (XVar v_mh); (XVar v_MW)];
    TRuns (XVar v_mu) (XVar v_ms) (XVar v_mu) (XVar v_ms) (XVar v_pspatial)
      [(HLab, n_amp2, 7%nat); (HRot, n_amp2, 7%nat); (HBoost, n_amp2, 7%nat); (HBoth, n_amp2, 7%nat)] ].

(** SM/uuAA.cpp 142-171 *)
Definition test_uuAA : test := mkTest uuAA
  [ TLoc v_mu (XLit (21 # 5000));
    TLoc v_EE (XLit (31333 # 100000));
    TNew [(XVar v_EE); (XVar v_mu)];
    TLoc v_pspatial (XInt 250);
    TRuns (XVar v_mu) (XVar v_mu) (XInt 0) (XInt 0) (XVar v_pspatial)
      [(HLab, n_amp2, 0%nat); (HRot, n_amp2, 0%nat); (HBoost, n_amp2, 0%nat); (HBoth, n_amp2, 0%nat)];
    TLoc v_pspatial (XLit (1 # 1000));
    TRuns (XVar v_mu) (XVar v_mu) (XInt 0) (XInt 0) (XVar v_pspatial)
      [(HLab, n_amp2, 1%nat); (HRot, n_amp2, 1%nat); (HBoost, n_amp2, 1%nat); (HBoth, n_amp2, 1%nat)] ].

(** SM/uuAh.cpp 133-182 *)
Definition test_uuAh : test := mkTest uuAh
  [ TLoc v_mu (XLit (21 # 5000));
    TLoc v_mh (XInt 125);
    TLoc v_EE (XLit (31333 # 100000));
    TLoc v_MW (XLit (16077 # 200));
    TLoc v_SW (XLit (237 # 500));
    TNew [(XVar v_EE); (XVar v_mu); (XVar v_mh); (XVar v_MW); (XVar v_SW)];
    TLoc v_pspatial (XInt 250);
    TRuns (XVar v_mu) (XVar v_mu) (XInt 0) (XVar v_mh) (XVar v_pspatial)
      [(HLab, n_amp2, 0%nat); (HRot, n_amp2, 0%nat); (HBoost, n_amp2, 0%nat); (HBoth, n_amp2, 0%nat)];
    TLoc v_pspatial (XLit (1251 # 10));
    TRuns (XVar v_mu) (XVar v_mu) (XInt 0) (XVar v_mh) (XVar v_pspatial)
      [(HLab, n_amp2, 1%nat); (HRot, n_amp2, 1%nat); (HBoost, n_amp2, 1%nat); (HBoth, n_amp2, 1%nat)];
    TLoc v_mu (XLit (1251 # 10));
    TLoc v_mh (XInt 125);
    TLoc v_pspatial (XInt 95);
    TSet n_set_masses [(XVar v_mu); (XVar v_mh); (XVar v_MW)];
    TRuns (XVar v_mu) (XVar v_mu) (XInt 0) (XVar v_mh) (XVar v_pspatial)
      [(HLab, n_amp2, 2%nat); (HRot, n_amp2, 2%nat); (HBoost, n_amp2, 2%nat); (HBoth, n_amp2, 2%nat)];
    TLoc v_mu (XInt 125);
    TLoc v_mh (XLit (1 # 2000));
    TLoc v_pspatial (XLit (1251 # 10));
    TSet n_set_masses [(XVar v_mu); (XVar v_mh); (XVar v_MW)];
    TRuns (XVar v_mu) (XVar v_mu) (XInt 0) (XVar v_mh) (XVar v_pspatial)
      [(HLab, n_amp2, 3%nat); (HRot, n_amp2, 3%nat); (HBoost, n_amp2, 3%nat); (HBoth, n_amp2, 3%nat)] ].

(** SM/uuWW.cpp 216-272 *)
Definition test_uuWW : test := mkTest uuWW
  [ TLoc v_mu (XLit (21 # 5000));
    TLoc v_md (XLit (3 # 400));
    TLoc v_mh (XInt 125);
    TLoc v_EE (XLit (31333 # 100000));
    TLoc v_MW (XLit (16077 # 200));
    TLoc v_SW (XLit (237 # 500));
    TLoc v_CW (XSqrt (XOp Sub (XInt 1) (XOp Mul (XVar v_SW) (XVar v_SW))));
    TLoc v_MZ (XOp Div (XVar v_MW) (XVar v_CW));
    TNew [(XVar v_EE); (XVar v_mu); (XVar v_md); (XVar v_mh); (XInt 0); (XVar v_MW); (XVar v_SW); (XInt 0)];
    TLoc v_pspatial (XInt 250);
    TRuns (XVar v_mu) (XVar v_mu) (XVar v_MW) (XVar v_MW) (XVar v_pspatial)
      [(HLab, n_amp2, 0%nat); (HRot, n_amp2, 0%nat); (HBoost, n_amp2, 0%nat); (HBoth, n_amp2, 0%nat)];
    TLoc v_pspatial (XInt 2500);
    TRuns (XVar v_mu) (XVar v_mu) (XVar v_MW) (XVar v_MW) (XVar v_pspatial)
      [(HLab, n_amp2, 1%nat); (HRot, n_amp2, 1%nat)];
    TLoc v_pspatial (XLit (1251 # 10));
    TRuns (XVar v_mu) (XVar v_mu) (XVar v_MW) (XVar v_MW) (XVar v_pspatial)
      [(HLab, n_amp2, 2%nat); (HRot, n_amp2, 2%nat); (HBoost, n_amp2, 2%nat); (HBoth, n_amp2, 2%nat)];
    TLoc v_mu (XLit (1251 # 10));
    TLoc v_mh (XInt 125);
    TLoc v_pspatial (XInt 95);
    TSet n_set_masses [(XVar v_mu); (XVar v_md); (XVar v_mh); (XVar v_MW)];
    TRuns (XVar v_mu) (XVar v_mu) (XVar v_MW) (XVar v_MW) (XVar v_pspatial)
      [(HLab, n_amp2, 3%nat); (HRot, n_amp2, 3%nat); (HBoost, n_amp2, 3%nat); (HBoth, n_amp2, 3%nat)];
    TLoc v_mu (XInt 125);
    TLoc v_mh (XLit (1 # 2000));
    TLoc v_pspatial (XLit (1251 # 10));
    TSet n_set_masses [(XVar v_mu); (XVar v_md); (XVar v_mh); (XVar v_MW)];
    TRuns (XVar v_mu) (XVar v_mu) (XVar v_MW) (XVar v_MW) (XVar v_pspatial)
      [(HLab, n_amp2, 4%nat); (HRot, n_amp2, 4%nat); (HBoost, n_amp2, 4%nat); (HBoth, n_amp2, 4%nat)] ].

(** SM/uuZZ.cpp 191-242 *)
Definition test_uuZZ : test := mkTest uuZZ
  [ TLoc v_mf (XLit (21 # 5000));
    TLoc v_mh (XInt 125);
    TLoc v_EE (XLit (31333 # 100000));
    TLoc v_MW (XLit (16077 # 200));
    TLoc v_SW (XLit (237 # 500));
    TLoc v_CW (XSqrt (XOp Sub (XInt 1) (XOp Mul (XVar v_SW) (XVar v_SW))));
    TLoc v_MZ (XOp Div (XVar v_MW) (XVar v_CW));
    TNew [(XVar v_EE); (XVar v_mf); (XVar v_mh); (XInt 0); (XVar v_MW); (XVar v_SW); (XInt 0)];
    TLoc v_pspatial (XInt 250);
    TRuns (XVar v_mf) (XVar v_mf) (XVar v_MZ) (XVar v_MZ) (XVar v_pspatial)
      [(HLab, n_amp2, 0%nat); (HRot, n_amp2, 0%nat); (HBoost, n_amp2, 0%nat); (HBoth, n_amp2, 0%nat)];
    TLoc v_pspatial (XLit (1251 # 10));
    TRuns (XVar v_mf) (XVar v_mf) (XVar v_MZ) (XVar v_MZ) (XVar v_pspatial)
      [(HLab, n_amp2, 1%nat); (HRot, n_amp2, 1%nat); (HBoost, n_amp2, 1%nat); (HBoth, n_amp2, 1%nat)];
    TLoc v_mf (XLit (1251 # 10));
    TLoc v_mh (XInt 125);
    TLoc v_pspatial (XInt 95);
    TSet n_set_masses [(XVar v_mf); (XVar v_mh); (XVar v_MW)];
    TRuns (XVar v_mf) (XVar v_mf) (XVar v_MZ) (XVar v_MZ) (XVar v_pspatial)
      [(HLab, n_amp2, 2%nat); (HRot, n_amp2, 2%nat); (HBoost, n_amp2, 2%nat); (HBoth, n_amp2, 2%nat)];
    TLoc v_mf (XInt 125);
    TLoc v_mh (XLit (1 # 2000));
    TLoc v_pspatial (XLit (1251 # 10));
    TSet n_set_masses [(XVar v_mf); (XVar v_mh); (XVar v_MW)];
    TRuns (XVar v_mf) (XVar v_mf) (XVar v_MZ) (XVar v_MZ) (XVar v_pspatial)
      [(HLab, n_amp2, 3%nat); (HRot, n_amp2, 3%nat); (HBoost, n_amp2, 3%nat); (HBoth, n_amp2, 3%nat)] ].

(** SM/uuZh.cpp 181-232 *)
Definition test_uuZh : test := mkTest uuZh
  [ TLoc v_mu (XLit (21 # 5000));
    TLoc v_mh (XInt 125);
    TLoc v_EE (XLit (31333 # 100000));
    TLoc v_MW (XLit (16077 # 200));
    TLoc v_SW (XLit (237 # 500));
    TLoc v_CW (XSqrt (XOp Sub (XInt 1) (XOp Mul (XVar v_SW) (XVar v_SW))));
    TLoc v_MZ (XOp Div (XVar v_MW) (XVar v_CW));
    TNew [(XVar v_EE); (XVar v_mu); (XVar v_mh); (XInt 0); (XVar v_MW); (XVar v_SW); (XInt 0)];
    TLoc v_pspatial (XInt 250);
    TRuns (XVar v_mu) (XVar v_mu) (XVar v_MZ) (XVar v_mh) (XVar v_pspatial)
      [(HLab, n_amp2, 0%nat); (HRot, n_amp2, 0%nat); (HBoost, n_amp2, 0%nat); (HBoth, n_amp2, 0%nat)];
    TLoc v_pspatial (XLit (1251 # 10));
    TRuns (XVar v_mu) (XVar v_mu) (XVar v_MZ) (XVar v_mh) (XVar v_pspatial)
      [(HLab, n_amp2, 1%nat); (HRot, n_amp2, 1%nat); (HBoost, n_amp2, 1%nat); (HBoth, n_amp2, 1%nat)];
    TLoc v_mu (XLit (1251 # 10));
    TLoc v_mh (XInt 125);
    TLoc v_pspatial (XInt 95);
    TSet n_set_masses [(XVar v_mu); (XVar v_mh); (XVar v_MW)];
    TRuns (XVar v_mu) (XVar v_mu) (XVar v_MZ) (XVar v_mh) (XVar v_pspatial)
      [(HLab, n_amp2, 2%nat); (HRot, n_amp2, 2%nat); (HBoost, n_amp2, 2%nat); (HBoth, n_amp2, 2%nat)];
    TLoc v_mu (XInt 125);
    TLoc v_mh (XLit (1 # 2000));
    TLoc v_pspatial (XLit (1251 # 10));
    TSet n_set_masses [(XVar v_mu); (XVar v_mh); (XVar v_MW)];
    TRuns (XVar v_mu) (XVar v_mu) (XVar v_MZ) (XVar v_mh) (XVar v_pspatial)
      [(HLab, n_amp2, 3%nat); (HRot, n_amp2, 3%nat); (HBoost, n_amp2, 3%nat); (HBoth, n_amp2, 3%nat)] ].

(** SM/uucc.cpp 190-284 *)
Definition test_uucc : test := mkTest uucc
  [ TLoc v_mu (XLit (21 # 5000));
    TLoc v_mc (XLit (123 # 100));
    TLoc v_mh (XInt 125);
    TLoc v_wh (XInt 0);
    TLoc v_MW (XLit (16077 # 200));
    TLoc v_SW (XLit (237 # 500));
    TLoc v_WZ (XInt 0);
    TNew [(XLit (31333 # 100000)); (XLit (619 # 500)); (XVar v_mu); (XVar v_mc); (XVar v_mh); (XVar v_wh); (XVar v_MW); (XVar v_SW); (XVar v_WZ)];
    TLoc v_pspatial (XInt 250);
    TRuns (XVar v_mu) (XVar v_mu) (XVar v_mc) (XVar v_mc) (XVar v_pspatial)
      [(HLab, n_amp2, 0%nat); (HRot, n_amp2, 0%nat); (HBoost, n_amp2, 0%nat); (HBoth, n_amp2, 0%nat)];
    TLoc v_pspatial (XLit (5 # 4));
    TRuns (XVar v_mu) (XVar v_mu) (XVar v_mc) (XVar v_mc) (XVar v_pspatial)
      [(HLab, n_amp2, 1%nat); (HRot, n_amp2, 1%nat); (HBoost, n_amp2, 1%nat); (HBoth, n_amp2, 1%nat)];
    TLoc v_mu (XLit (123 # 100));
    TLoc v_mc (XLit (21 # 5000));
    TLoc v_pspatial (XLit (1 # 200));
    TSet n_set_masses [(XVar v_mu); (XVar v_mc); (XVar v_mh); (XVar v_MW)];
    TRuns (XVar v_mu) (XVar v_mu) (XVar v_mc) (XVar v_mc) (XVar v_pspatial)
      [(HLab, n_amp2, 2%nat); (HRot, n_amp2, 2%nat); (HBoost, n_amp2, 2%nat); (HBoth, n_amp2, 2%nat)];
    TLoc v_mu (XLit (6 # 5));
    TLoc v_mc (XLit (123 # 100));
    TLoc v_pspatial (XLit (3 # 10));
    TSet n_set_masses [(XVar v_mu); (XVar v_mc); (XVar v_mh); (XVar v_MW)];
    TRuns (XVar v_mu) (XVar v_mu) (XVar v_mc) (XVar v_mc) (XVar v_pspatial)
      [(HLab, n_amp2, 3%nat); (HRot, n_amp2, 3%nat); (HBoost, n_amp2, 3%nat); (HBoth, n_amp2, 3%nat)];
    TLoc v_mu (XLit (6 # 5));
    TLoc v_mc (XLit (123 # 100));
    TLoc v_MW (XLit (211 # 100));
    TLoc v_pspatial (XLit (3 # 10));
    TSet n_set_masses [(XVar v_mu); (XVar v_mc); (XVar v_mh); (XVar v_MW)];
    TRuns (XVar v_mu) (XVar v_mu) (XVar v_mc) (XVar v_mc) (XVar v_pspatial)
      [(HLab, n_amp2, 4%nat); (HRot, n_amp2, 4%nat); (HBoost, n_amp2, 4%nat); (HBoth, n_amp2, 4%nat)];
    TLoc v_mu (XLit (6 # 5));
    TLoc v_mc (XLit (123 # 100));
    TLoc v_MW (XLit (3 # 500));
    TLoc v_pspatial (XLit (3 # 10));
    TSet n_set_masses [(XVar v_mu); (XVar v_mc); (XVar v_mh); (XVar v_MW)];
    TRuns (XVar v_mu) (XVar v_mu) (XVar v_mc) (XVar v_mc) (XVar v_pspatial)
      [(HLab, n_amp2, 5%nat); (HRot, n_amp2, 5%nat); (HBoost, n_amp2, 5%nat); (HBoth, n_amp2, 5%nat)];
    TLoc v_mu (XLit (6 # 5));
    TLoc v_mc (XLit (123 # 100));
    TLoc v_MW (XLit (211 # 100));
    TLoc v_mh (XLit (25 # 8));
    TLoc v_pspatial (XLit (3 # 10));
    TSet n_set_masses [(XVar v_mu); (XVar v_mc); (XVar v_mh); (XVar v_MW)];
    TRuns (XVar v_mu) (XVar v_mu) (XVar v_mc) (XVar v_mc) (XVar v_pspatial)
      [(HLab, n_amp2, 6%nat); (HRot, n_amp2, 6%nat); (HBoost, n_amp2, 6%nat); (HBoth, n_amp2, 6%nat)];
    TLoc v_mu (XLit (6 # 5));
    TLoc v_mc (XLit (123 # 100));
    TLoc v_MW (XLit (3 # 500));
    TLoc v_pspatial (XLit (3 # 10));
    TSet n_set_masses [(XVar v_mu); (XVar v_mc); (XVar v_mh); (XVar v_MW)];
    TRuns (XVar v_mu) (XVar v_mu) (XVar v_mc) (XVar v_mc) (XVar v_pspatial)
      [(HLab, n_amp2, 7%nat); (HRot, n_amp2, 7%nat); (HBoost, n_amp2, 7%nat); (HBoth, n_amp2, 7%nat)] ].

(** SM/uudd.cpp 221-315 *)
Definition test_uudd : test := mkTest uudd
  [ TLoc v_mu (XLit (21 # 5000));
    TLoc v_md (XLit (123 # 100));
    TLoc v_mh (XInt 125);
    TLoc v_wh (XInt 0);
    TLoc v_MW (XLit (16077 # 200));
    TLoc v_WW (XInt 0);
    TLoc v_SW (XLit (237 # 500));
    TLoc v_WZ (XInt 0);
    TNew [(XLit (31333 # 100000)); (XLit (619 # 500)); (XVar v_mu); (XVar v_md); (XVar v_mh); (XVar v_wh); (XVar v_MW); (XVar v_WW); (XVar v_SW); (XVar v_WZ)];
    TLoc v_pspatial (XInt 250);
    TRuns (XVar v_mu) (XVar v_mu) (XVar v_md) (XVar v_md) (XVar v_pspatial)
      [(HLab, n_amp2, 0%nat); (HRot, n_amp2, 0%nat); (HBoost, n_amp2, 0%nat); (HBoth, n_amp2, 0%nat)];
    TLoc v_pspatial (XLit (5 # 4));
    TRuns (XVar v_mu) (XVar v_mu) (XVar v_md) (XVar v_md) (XVar v_pspatial)
      [(HLab, n_amp2, 1%nat); (HRot, n_amp2, 1%nat); (HBoost, n_amp2, 1%nat); (HBoth, n_amp2, 1%nat)];
    TLoc v_mu (XLit (123 # 100));
    TLoc v_md (XLit (21 # 5000));
    TLoc v_pspatial (XLit (1 # 200));
    TSet n_set_masses [(XVar v_mu); (XVar v_md); (XVar v_mh); (XVar v_MW)];
    TRuns (XVar v_mu) (XVar v_mu) (XVar v_md) (XVar v_md) (XVar v_pspatial)
      [(HLab, n_amp2, 2%nat); (HRot, n_amp2, 2%nat); (HBoost, n_amp2, 2%nat); (HBoth, n_amp2, 2%nat)];
    TLoc v_mu (XLit (6 # 5));
    TLoc v_md (XLit (123 # 100));
    TLoc v_pspatial (XLit (3 # 10));
    TSet n_set_masses [(XVar v_mu); (XVar v_md); (XVar v_mh); (XVar v_MW)];
    TRuns (XVar v_mu) (XVar v_mu) (XVar v_md) (XVar v_md) (XVar v_pspatial)
      [(HLab, n_amp2, 3%nat); (HRot, n_amp2, 3%nat); (HBoost, n_amp2, 3%nat); (HBoth, n_amp2, 3%nat)];
    TLoc v_mu (XLit (6 # 5));
    TLoc v_md (XLit (123 # 100));
    TLoc v_MW (XLit (211 # 100));
    TLoc v_pspatial (XLit (3 # 10));
    TSet n_set_masses [(XVar v_mu); (XVar v_md); (XVar v_mh); (XVar v_MW)];
    TRuns (XVar v_mu) (XVar v_mu) (XVar v_md) (XVar v_md) (XVar v_pspatial)
      [(HLab, n_amp2, 4%nat); (HRot, n_amp2, 4%nat); (HBoost, n_amp2, 4%nat); (HBoth, n_amp2, 4%nat)];
    TLoc v_mu (XLit (6 # 5));
    TLoc v_md (XLit (123 # 100));
    TLoc v_MW (XLit (3 # 500));
    TLoc v_pspatial (XLit (3 # 10));
    TSet n_set_masses [(XVar v_mu); (XVar v_md); (XVar v_mh); (XVar v_MW)];
    TRuns (XVar v_mu) (XVar v_mu) (XVar v_md) (XVar v_md) (XVar v_pspatial)
      [(HLab, n_amp2, 5%nat); (HRot, n_amp2, 5%nat); (HBoost, n_amp2, 5%nat); (HBoth, n_amp2, 5%nat)];
    TLoc v_mu (XLit (6 # 5));
    TLoc v_md (XLit (123 # 100));
    TLoc v_MW (XLit (211 # 100));
    TLoc v_mh (XLit (25 # 8));
    TLoc v_pspatial (XLit (3 # 10));
    TSet n_set_masses [(XVar v_mu); (XVar v_md); (XVar v_mh); (XVar v_MW)];
    TRuns (XVar v_mu) (XVar v_mu) (XVar v_md) (XVar v_md) (XVar v_pspatial)
      [(HLab, n_amp2, 6%nat); (HRot, n_amp2, 6%nat); (HBoost, n_amp2, 6%nat); (HBoth, n_amp2, 6%nat)];
    TLoc v_mu (XLit (6 # 5));
    TLoc v_md (XLit (123 # 100));
    TLoc v_MW (XLit (3 # 500));
    TLoc v_pspatial (XLit (3 # 10));
    TSet n_set_masses [(XVar v_mu); (XVar v_md); (XVar v_mh); (XVar v_MW)];
    TRuns (XVar v_mu) (XVar v_mu) (XVar v_md) (XVar v_md) (XVar v_pspatial)
      [(HLab, n_amp2, 7%nat); (HRot, n_amp2, 7%nat); (HBoost, n_amp2, 7%nat); (HBoth, n_amp2, 7%nat)] ].

(** SM/uuee.cpp 176-272 *)
Definition test_uuee : test := mkTest uuee
  [ TLoc v_mu (XLit (21 # 5000));
    TLoc v_me (XLit (1 # 2000));
    TLoc v_mh (XInt 125);
    TLoc v_wh (XInt 0);
    TLoc v_MW (XLit (16077 # 200));
    TLoc v_SW (XLit (237 # 500));
    TLoc v_WZ (XInt 0);
    TNew [(XLit (31333 # 100000)); (XVar v_mu); (XVar v_me); (XVar v_mh); (XVar v_wh); (XVar v_MW); (XVar v_SW); (XVar v_WZ)];
    TLoc v_pspatial (XInt 250);
    TRuns (XVar v_mu) (XVar v_mu) (XVar v_me) (XVar v_me) (XVar v_pspatial)
      [(HLab, n_amp2, 0%nat); (HRot, n_amp2, 0%nat); (HBoost, n_amp2, 0%nat); (HBoth, n_amp2, 0%nat)];
    TLoc v_me (XLit (123 # 100));
    TLoc v_pspatial (XLit (5 # 4));
    TSet n_set_masses [(XVar v_mu); (XVar v_me); (XVar v_mh); (XVar v_MW)];
    TRuns (XVar v_mu) (XVar v_mu) (XVar v_me) (XVar v_me) (XVar v_pspatial)
      [(HLab, n_amp2, 1%nat); (HRot, n_amp2, 1%nat); (HBoost, n_amp2, 1%nat); (HBoth, n_amp2, 1%nat)];
    TLoc v_mu (XLit (123 # 100));
    TLoc v_me (XLit (21 # 5000));
    TLoc v_pspatial (XLit (1 # 200));
    TSet n_set_masses [(XVar v_mu); (XVar v_me); (XVar v_mh); (XVar v_MW)];
    TRuns (XVar v_mu) (XVar v_mu) (XVar v_me) (XVar v_me) (XVar v_pspatial)
      [(HLab, n_amp2, 2%nat); (HRot, n_amp2, 2%nat); (HBoost, n_amp2, 2%nat); (HBoth, n_amp2, 2%nat)];
    TLoc v_mu (XLit (6 # 5));
    TLoc v_me (XLit (123 # 100));
    TLoc v_pspatial (XLit (3 # 10));
    TSet n_set_masses [(XVar v_mu); (XVar v_me); (XVar v_mh); (XVar v_MW)];
    TRuns (XVar v_mu) (XVar v_mu) (XVar v_me) (XVar v_me) (XVar v_pspatial)
      [(HLab, n_amp2, 3%nat); (HRot, n_amp2, 3%nat); (HBoost, n_amp2, 3%nat); (HBoth, n_amp2, 3%nat)];
    TLoc v_mu (XLit (6 # 5));
    TLoc v_me (XLit (123 # 100));
    TLoc v_MW (XLit (211 # 100));
    TLoc v_pspatial (XLit (3 # 10));
    TSet n_set_masses [(XVar v_mu); (XVar v_me); (XVar v_mh); (XVar v_MW)];
    TRuns (XVar v_mu) (XVar v_mu) (XVar v_me) (XVar v_me) (XVar v_pspatial)
      [(HLab, n_amp2, 4%nat); (HRot, n_amp2, 4%nat); (HBoost, n_amp2, 4%nat); (HBoth, n_amp2, 4%nat)];
    TLoc v_mu (XLit (6 # 5));
    TLoc v_me (XLit (123 # 100));
    TLoc v_MW (XLit (3 # 500));
    TLoc v_pspatial (XLit (3 # 10));
    TSet n_set_masses [(XVar v_mu); (XVar v_me); (XVar v_mh); (XVar v_MW)];
    TRuns (XVar v_mu) (XVar v_mu) (XVar v_me) (XVar v_me) (XVar v_pspatial)
      [(HLab, n_amp2, 5%nat); (HRot, n_amp2, 5%nat); (HBoost, n_amp2, 5%nat); (HBoth, n_amp2, 5%nat)];
    TLoc v_mu (XLit (6 # 5));
    TLoc v_me (XLit (123 # 100));
    TLoc v_MW (XLit (211 # 100));
    TLoc v_mh (XLit (25 # 8));
    TLoc v_pspatial (XLit (3 # 10));
    TSet n_set_masses [(XVar v_mu); (XVar v_me); (XVar v_mh); (XVar v_MW)];
    TRuns (XVar v_mu) (XVar v_mu) (XVar v_me) (XVar v_me) (XVar v_pspatial)
      [(HLab, n_amp2, 6%nat); (HRot, n_amp2, 6%nat); (HBoost, n_amp2, 6%nat); (HBoth, n_amp2, 6%nat)];
    TLoc v_mu (XLit (6 # 5));
    TLoc v_me (XLit (123 # 100));
    TLoc v_MW (XLit (3 # 500));
    TLoc v_pspatial (XLit (3 # 10));
    TSet n_set_masses [(XVar v_mu); (XVar v_me); (XVar v_mh); (XVar v_MW)];
    TRuns (XVar v_mu) (XVar v_mu) (XVar v_me) (XVar v_me) (XVar v_pspatial)
      [(HLab, n_amp2, 7%nat); (HRot, n_amp2, 7%nat); (HBoost, n_amp2, 7%nat); (HBoth, n_amp2, 7%nat)] ].

(** SM/uuhh.cpp 135-196 *)
Definition test_uuhh : test := mkTest uuhh
  [ TLoc v_mu (XLit (21 # 5000));
    TLoc v_mh (XInt 125);
    TLoc v_wh (XInt 0);
    TLoc v_MW (XLit (16077 # 200));
    TLoc v_SW (XLit (237 # 500));
    TNew [(XLit (31333 # 100000)); (XVar v_mu); (XVar v_mh); (XVar v_wh); (XVar v_MW); (XVar v_SW)];
    TLoc v_pspatial (XInt 250);
    TRuns (XVar v_mu) (XVar v_mu) (XVar v_mh) (XVar v_mh) (XVar v_pspatial)
      [(HLab, n_amp2, 0%nat); (HRot, n_amp2, 0%nat); (HBoost, n_amp2, 0%nat); (HBoth, n_amp2, 0%nat)];
    TLoc v_pspatial (XInt 126);
    TRuns (XVar v_mu) (XVar v_mu) (XVar v_mh) (XVar v_mh) (XVar v_pspatial)
      [(HLab, n_amp2, 1%nat); (HRot, n_amp2, 1%nat); (HBoost, n_amp2, 1%nat); (HBoth, n_amp2, 1%nat)];
    TLoc v_mu (XLit (1 # 10));
    TLoc v_mh (XLit (3 # 20));
    TLoc v_pspatial (XLit (1 # 5));
    TSet n_set_masses [(XVar v_mu); (XVar v_mh); (XVar v_MW)];
    TRuns (XVar v_mu) (XVar v_mu) (XVar v_mh) (XVar v_mh) (XVar v_pspatial)
      [(HLab, n_amp2, 2%nat); (HRot, n_amp2, 2%nat); (HBoost, n_amp2, 2%nat); (HBoth, n_amp2, 2%nat)];
    TLoc v_mu (XLit (1 # 10));
    TLoc v_mh (XLit (3 # 20));
    TLoc v_MW (XLit (11 # 100));
    TLoc v_pspatial (XLit (1 # 5));
    TSet n_set_masses [(XVar v_mu); (XVar v_mh); (XVar v_MW)];
    TRuns (XVar v_mu) (XVar v_mu) (XVar v_mh) (XVar v_mh) (XVar v_pspatial)
      [(HLab, n_amp2, 3%nat); (HRot, n_amp2, 3%nat); (HBoost, n_amp2, 3%nat); (HBoth, n_amp2, 3%nat)];
    TLoc v_mu (XLit (1 # 10));
    TLoc v_mh (XLit (3 # 20));
    TLoc v_MW (XLit (3 # 500));
    TLoc v_pspatial (XLit (1 # 5));
    TSet n_set_masses [(XVar v_mu); (XVar v_mh); (XVar v_MW)];
    TRuns (XVar v_mu) (XVar v_mu) (XVar v_mh) (XVar v_mh) (XVar v_pspatial)
      [(HLab, n_amp2, 4%nat); (HRot, n_amp2, 4%nat); (HBoost, n_amp2, 4%nat); (HBoth, n_amp2, 4%nat)] ].

(** SM/uunn.cpp 140-185 *)
Definition test_uunn : test := mkTest uunn
  [ TLoc v_mu (XLit (21 # 5000));
    TLoc v_MW (XLit (16077 # 200));
    TLoc v_SW (XLit (237 # 500));
    TLoc v_WZ (XInt 0);
    TNew [(XLit (31333 # 100000)); (XVar v_mu); (XVar v_MW); (XVar v_SW); (XVar v_WZ)];
    TLoc v_pspatial (XInt 250);
    TRuns (XVar v_mu) (XVar v_mu) (XInt 0) (XInt 0) (XVar v_pspatial)
      [(HLab, n_amp2, 0%nat); (HRot, n_amp2, 0%nat); (HBoost, n_amp2, 0%nat); (HBoth, n_amp2, 0%nat)];
    TLoc v_pspatial (XLit (1 # 1000));
    TRuns (XVar v_mu) (XVar v_mu) (XInt 0) (XInt 0) (XVar v_pspatial)
      [(HLab, n_amp2, 1%nat); (HRot, n_amp2, 1%nat); (HBoost, n_amp2, 1%nat); (HBoth, n_amp2, 1%nat)];
    TLoc v_MW (XLit (3 # 200));
    TSet n_set_masses [(XVar v_mu); (XVar v_MW)];
    TRuns (XVar v_mu) (XVar v_mu) (XInt 0) (XInt 0) (XVar v_pspatial)
      [(HLab, n_amp2, 2%nat); (HRot, n_amp2, 2%nat); (HBoost, n_amp2, 2%nat); (HBoth, n_amp2, 2%nat)];
    TLoc v_MW (XLit (3 # 5000));
    TSet n_set_masses [(XVar v_mu); (XVar v_MW)];
    TRuns (XVar v_mu) (XVar v_mu) (XInt 0) (XInt 0) (XVar v_pspatial)
      [(HLab, n_amp2, 3%nat); (HRot, n_amp2, 3%nat); (HBoost, n_amp2, 3%nat); (HBoth, n_amp2, 3%nat)] ].

(** SM/uuss.cpp 196-290 *)
Definition test_uuss : test := mkTest uuss
  [ TLoc v_mu (XLit (21 # 5000));
    TLoc v_ms (XLit (123 # 100));
    TLoc v_mh (XInt 125);
    TLoc v_wh (XInt 0);
    TLoc v_MW (XLit (16077 # 200));
    TLoc v_SW (XLit (237 # 500));
    TLoc v_WZ (XInt 0);
    TNew [(XLit (31333 # 100000)); (XLit (619 # 500)); (XVar v_mu); (XVar v_ms); (XVar v_mh); (XVar v_wh); (XVar v_MW); (XVar v_SW); (XVar v_WZ)];
    TLoc v_pspatial (XInt 250);
    TRuns (XVar v_mu) (XVar v_mu) (XVar v_ms) (XVar v_ms) (XVar v_pspatial)
      [(HLab, n_amp2, 0%nat); (HRot, n_amp2, 0%nat); (HBoost, n_amp2, 0%nat); (HBoth, n_amp2, 0%nat)];
    TLoc v_pspatial (XLit (5 # 4));
    TRuns (XVar v_mu) (XVar v_mu) (XVar v_ms) (XVar v_ms) (XVar v_pspatial)
      [(HLab, n_amp2, 1%nat); (HRot, n_amp2, 1%nat); (HBoost, n_amp2, 1%nat); (HBoth, n_amp2, 1%nat)];
    TLoc v_mu (XLit (123 # 100));
    TLoc v_ms (XLit (21 # 5000));
    TLoc v_pspatial (XLit (1 # 200));
    TSet n_set_masses [(XVar v_mu); (XVar v_ms); (XVar v_mh); (XVar v_MW)];
    TRuns (XVar v_mu) (XVar v_mu) (XVar v_ms) (XVar v_ms) (XVar v_pspatial)
      [(HLab, n_amp2, 2%nat); (HRot, n_amp2, 2%nat); (HBoost, n_amp2, 2%nat); (HBoth, n_amp2, 2%nat)];
    TLoc v_mu (XLit (6 # 5));
    TLoc v_ms (XLit (123 # 100));
    TLoc v_pspatial (XLit (3 # 10));
    TSet n_set_masses [(XVar v_mu); (XVar v_ms); (XVar v_mh); (XVar v_MW)];
    TRuns (XVar v_mu) (XVar v_mu) (XVar v_ms) (XVar v_ms) (XVar v_pspatial)
      [(HLab, n_amp2, 3%nat); (HRot, n_amp2, 3%nat); (HBoost, n_amp2, 3%nat); (HBoth, n_amp2, 3%nat)];
    TLoc v_mu (XLit (6 # 5));
    TLoc v_ms (XLit (123 # 100));
    TLoc v_MW (XLit (211 # 100));
    TLoc v_pspatial (XLit (3 # 10));
    TSet n_set_masses [(XVar v_mu); (XVar v_ms); (XVar v_mh); (XVar v_MW)];
    TRuns (XVar v_mu) (XVar v_mu) (XVar v_ms) (XVar v_ms) (XVar v_pspatial)
      [(HLab, n_amp2, 4%nat); (HRot, n_amp2, 4%nat); (HBoost, n_amp2, 4%nat); (HBoth, n_amp2, 4%nat)];
    TLoc v_mu (XLit (6 # 5));
    TLoc v_ms (XLit (123 # 100));
    TLoc v_MW (XLit (3 # 500));
    TLoc v_pspatial (XLit (3 # 10));
    TSet n_set_masses [(XVar v_mu); (XVar v_ms); (XVar v_mh); (XVar v_MW)];
    TRuns (XVar v_mu) (XVar v_mu) (XVar v_ms) (XVar v_ms) (XVar v_pspatial)
      [(HLab, n_amp2, 5%nat); (HRot, n_amp2, 5%nat); (HBoost, n_amp2, 5%nat); (HBoth, n_amp2, 5%nat)];
    TLoc v_mu (XLit (6 # 5));
    TLoc v_ms (XLit (123 # 100));
    TLoc v_MW (XLit (211 # 100));
    TLoc v_mh (XLit (25 # 8));
    TLoc v_pspatial (XLit (3 # 10));
    TSet n_set_masses [(XVar v_mu); (XVar v_ms); (XVar v_mh); (XVar v_MW)];
    TRuns (XVar v_mu) (XVar v_mu) (XVar v_ms) (XVar v_ms) (XVar v_pspatial)
      [(HLab, n_amp2, 6%nat); (HRot, n_amp2, 6%nat); (HBoost, n_amp2, 6%nat); (HBoth, n_amp2, 6%nat)];
    TLoc v_mu (XLit (6 # 5));
    TLoc v_ms (XLit (123 # 100));
    TLoc v_MW (XLit (3 # 500));
    TLoc v_pspatial (XLit (3 # 10));
    TSet n_set_masses [(XVar v_mu); (XVar v_ms); (XVar v_mh); (XVar v_MW)];
    TRuns (XVar v_mu) (XVar v_mu) (XVar v_ms) (XVar v_ms) (XVar v_pspatial)
      [(HLab, n_amp2, 7%nat); (HRot, n_amp2, 7%nat); (HBoost, n_amp2, 7%nat); (HBoth, n_amp2, 7%nat)] ].

(** SM/uuuu.cpp 257-336 *)
Definition test_uuuu : test := mkTest uuuu
  [ TLoc v_mu (XLit (21 # 5000));
    TLoc v_mh (XInt 125);
    TLoc v_wh (XInt 0);
    TLoc v_MW (XLit (16077 # 200));
    TLoc v_SW (XLit (237 # 500));
    TLoc v_WZ (XInt 0);
    TNew [(XLit (31333 # 100000)); (XLit (619 # 500)); (XVar v_mu); (XVar v_mh); (XVar v_wh); (XVar v_MW); (XVar v_SW); (XVar v_WZ)];
    TLoc v_pspatial (XInt 250);
    TRuns (XVar v_mu) (XVar v_mu) (XVar v_mu) (XVar v_mu) (XVar v_pspatial)
      [(HLab, n_amp2, 0%nat); (HRot, n_amp2, 0%nat); (HBoost, n_amp2, 0%nat); (HBoth, n_amp2, 0%nat)];
    TLoc v_pspatial (XLit (1 # 200));
    TRuns (XVar v_mu) (XVar v_mu) (XVar v_mu) (XVar v_mu) (XVar v_pspatial)
      [(HLab, n_amp2, 1%nat); (HRot, n_amp2, 1%nat); (HBoost, n_amp2, 1%nat); (HBoth, n_amp2, 1%nat)];
    TLoc v_mu (XLit (6 # 5));
    TLoc v_pspatial (XLit (3 # 10));
    TSet n_set_masses [(XVar v_mu); (XVar v_mh); (XVar v_MW)];
    TRuns (XVar v_mu) (XVar v_mu) (XVar v_mu) (XVar v_mu) (XVar v_pspatial)
      [(HLab, n_amp2, 2%nat); (HRot, n_amp2, 2%nat); (HBoost, n_amp2, 2%nat); (HBoth, n_amp2, 2%nat)];
    TLoc v_mu (XLit (6 # 5));
    TLoc v_MW (XLit (211 # 100));
    TLoc v_pspatial (XLit (3 # 10));
    TSet n_set_masses [(XVar v_mu); (XVar v_mh); (XVar v_MW)];
    TRuns (XVar v_mu) (XVar v_mu) (XVar v_mu) (XVar v_mu) (XVar v_pspatial)
      [(HLab, n_amp2, 3%nat); (HRot, n_amp2, 3%nat); (HBoost, n_amp2, 3%nat); (HBoth, n_amp2, 3%nat)];
    TLoc v_mu (XLit (6 # 5));
    TLoc v_MW (XLit (3 # 500));
    TLoc v_pspatial (XLit (3 # 10));
    TSet n_set_masses [(XVar v_mu); (XVar v_mh); (XVar v_MW)];
    TRuns (XVar v_mu) (XVar v_mu) (XVar v_mu) (XVar v_mu) (XVar v_pspatial)
      [(HLab, n_amp2, 4%nat); (HRot, n_amp2, 4%nat); (HBoost, n_amp2, 4%nat); (HBoth, n_amp2, 4%nat)];
    TLoc v_mu (XLit (6 # 5));
    TLoc v_MW (XLit (211 # 100));
    TLoc v_mh (XLit (25 # 8));
    TLoc v_pspatial (XLit (3 # 10));
    TSet n_set_masses [(XVar v_mu); (XVar v_mh); (XVar v_MW)];
    TRuns (XVar v_mu) (XVar v_mu) (XVar v_mu) (XVar v_mu) (XVar v_pspatial)
      [(HLab, n_amp2, 5%nat); (HRot, n_amp2, 5%nat); (HBoost, n_amp2, 5%nat); (HBoth, n_amp2, 5%nat)];
    TLoc v_mu (XLit (6 # 5));
    TLoc v_MW (XLit (3 # 500));
    TLoc v_pspatial (XLit (3 # 10));
    TSet n_set_masses [(XVar v_mu); (XVar v_mh); (XVar v_MW)];
    TRuns (XVar v_mu) (XVar v_mu) (XVar v_mu) (XVar v_mu) (XVar v_pspatial)
      [(HLab, n_amp2, 6%nat); (HRot, n_amp2, 6%nat); (HBoost, n_amp2, 6%nat); (HBoth, n_amp2, 6%nat)] ].

(** SM/uuuu2.cpp 289-368 *)
Definition test_uuuu2 : test := mkTest uuuu2
  [ TLoc v_mu (XLit (21 # 5000));
    TLoc v_mh (XInt 125);
    TLoc v_wh (XInt 0);
    TLoc v_MW (XLit (16077 # 200));
    TLoc v_SW (XLit (237 # 500));
    TLoc v_WZ (XInt 0);
    TNew [(XLit (31333 # 100000)); (XLit (619 # 500)); (XVar v_mu); (XVar v_mh); (XVar v_wh); (XVar v_MW); (XVar v_SW); (XVar v_WZ)];
    TLoc v_pspatial (XInt 250);
    TRuns (XVar v_mu) (XVar v_mu) (XVar v_mu) (XVar v_mu) (XVar v_pspatial)
      [(HLab, n_amp2, 0%nat); (HRot, n_amp2, 0%nat); (HBoost, n_amp2, 0%nat); (HBoth, n_amp2, 0%nat)];
    TLoc v_pspatial (XLit (1 # 200));
    TRuns (XVar v_mu) (XVar v_mu) (XVar v_mu) (XVar v_mu) (XVar v_pspatial)
      [(HLab, n_amp2, 1%nat); (HRot, n_amp2, 1%nat); (HBoost, n_amp2, 1%nat); (HBoth, n_amp2, 1%nat)];
    TLoc v_mu (XLit (6 # 5));
    TLoc v_pspatial (XLit (3 # 10));
    TSet n_set_masses [(XVar v_mu); (XVar v_mh); (XVar v_MW)];
    TRuns (XVar v_mu) (XVar v_mu) (XVar v_mu) (XVar v_mu) (XVar v_pspatial)
      [(HLab, n_amp2, 2%nat); (HRot, n_amp2, 2%nat); (HBoost, n_amp2, 2%nat); (HBoth, n_amp2, 2%nat)];
    TLoc v_mu (XLit (6 # 5));
    TLoc v_MW (XLit (211 # 100));
    TLoc v_pspatial (XLit (3 # 10));
    TSet n_set_masses [(XVar v_mu); (XVar v_mh); (XVar v_MW)];
    TRuns (XVar v_mu) (XVar v_mu) (XVar v_mu) (XVar v_mu) (XVar v_pspatial)
      [(HLab, n_amp2, 3%nat); (HRot, n_amp2, 3%nat); (HBoost, n_amp2, 3%nat); (HBoth, n_amp2, 3%nat)];
    TLoc v_mu (XLit (6 # 5));
    TLoc v_MW (XLit (3 # 500));
    TLoc v_pspatial (XLit (3 # 10));
    TSet n_set_masses [(XVar v_mu); (XVar v_mh); (XVar v_MW)];
    TRuns (XVar v_mu) (XVar v_mu) (XVar v_mu) (XVar v_mu) (XVar v_pspatial)
      [(HLab, n_amp2, 4%nat); (HRot, n_amp2, 4%nat); (HBoost, n_amp2, 4%nat); (HBoth, n_amp2, 4%nat)];
    TLoc v_mu (XLit (6 # 5));
    TLoc v_MW (XLit (211 # 100));
    TLoc v_mh (XLit (25 # 8));
    TLoc v_pspatial (XLit (3 # 10));
    TSet n_set_masses [(XVar v_mu); (XVar v_mh); (XVar v_MW)];
    TRuns (XVar v_mu) (XVar v_mu) (XVar v_mu) (XVar v_mu) (XVar v_pspatial)
      [(HLab, n_amp2, 5%nat); (HRot, n_amp2, 5%nat); (HBoost, n_amp2, 5%nat); (HBoth, n_amp2, 5%nat)];
    TLoc v_mu (XLit (6 # 5));
    TLoc v_MW (XLit (3 # 500));
    TLoc v_pspatial (XLit (3 # 10));
    TSet n_set_masses [(XVar v_mu); (XVar v_mh); (XVar v_MW)];
    TRuns (XVar v_mu) (XVar v_mu) (XVar v_mu) (XVar v_mu) (XVar v_pspatial)
      [(HLab, n_amp2, 6%nat); (HRot, n_amp2, 6%nat); (HBoost, n_amp2, 6%nat); (HBoth, n_amp2, 6%nat)] ].

(** user-dir/eemm.cpp 116-135 *)
Definition test_eemmQED2 : test := mkTest eemmQED2
  [ TLoc v_e (XLit (31333 # 100000));
    TLoc v_me (XLit (1 # 2000));
    TLoc v_mmu (XLit (21 # 200));
    TNew [(XVar v_e); (XVar v_me); (XVar v_mmu)];
    TLoc v_pspatial (XInt 250);
    TRuns (XVar v_me) (XVar v_me) (XVar v_mmu) (XVar v_mmu) (XVar v_pspatial)
      [(HLab, n_amp2, 0%nat); (HRot, n_amp2, 0%nat); (HBoost, n_amp2, 0%nat); (HBoth, n_amp2, 0%nat)] ].

Definition sm_tests : list test :=
  [test_AAWW; test_AAdd; test_AAee; test_AAuu; test_AWAW; test_AWWh; test_AWZW; test_AWud; test_AZWW; test_AZdd; test_AZee; test_AZuu; test_AdZd; test_AeZe; test_AhWW; test_AnWe; test_AuZu; test_WWWW; test_WWWW2; test_WdWd; test_WdZu; test_ZWWh; test_ZWZW; test_ZZWW; test_ZZZZ; test_ZhWW; test_ZnWe; test_dAAd; test_dAdh; test_dAgd; test_dWgu; test_dZZd; test_dZdh; test_ddAA; test_ddAh; test_ddWW; test_ddZZ; test_ddZh; test_dddd; test_dddd2; test_ddee; test_ddhh; test_ddnn; test_ddss; test_deed; test_dgdh; test_dggd; test_dhdh; test_dnnd; test_dsds; test_eAAe; test_eAeh; test_eWWe; test_eZZe; test_eZeh; test_eeAA; test_eeAZ; test_eeAh; test_eeWW; test_eeZZ; test_eeZh; test_eeee; test_eeee2; test_eeeeQED; test_eehh; test_eemm; test_eemmQED; test_eenene; test_eenmnm; test_eheh; test_emem; test_enAW; test_enWh; test_enZW; test_enenee; test_enmenm; test_gAdd; test_gAuu; test_gWud; test_gZdd; test_gZuu; test_gdZd; test_ggdd; test_gggg; test_gguu; test_guAu; test_guZu; test_gugu; test_hWWh; test_hZZh; test_hgdd; test_hguu; test_hhWW; test_hhZZ; test_hhhh; test_hnWe; test_menn; test_mnen; test_nWWn; test_nZZn; test_nZnh; test_nenenene; test_nenenene2; test_nenenmnm; test_nenmnenm; test_nnWW; test_nnZZ; test_nnZh; test_uAAu; test_uAuh; test_uWWu; test_uZZu; test_uZuh; test_ubdt; test_ucuc; test_udAW; test_udWh; test_udZW; test_udnl; test_udtb; test_udud; test_ueeu; test_uguh; test_uhWd; test_uhuh; test_ulnd; test_unnu; test_usus; test_uuAA; test_uuAh; test_uuWW; test_uuZZ; test_uuZh; test_uucc; test_uudd; test_uuee; test_uuhh; test_uunn; test_uuss; test_uuuu; test_uuuu2; test_eemmQED2].

(** the tests main runs: SM/test.cpp 172-343 *)
Definition main_tests : list test :=
  [test_eemmQED; test_eeeeQED; test_uucc; test_ucuc; test_uuuu; test_uuuu2; test_uuss; test_usus; test_uudd; test_udud; test_uuee; test_ueeu; test_uunn; test_unnu; test_ddss; test_dsds; test_dddd; test_dddd2; test_ddee; test_deed; test_ddnn; test_dnnd; test_eemm; test_emem; test_eeee; test_eeee2; test_eenmnm; test_enmenm; test_eenene; test_enenee; test_nenenmnm; test_nenmnenm; test_nenenene; test_nenenene2; test_udtb; test_ubdt; test_udnl; test_ulnd; test_menn; test_mnen; test_eehh; test_eheh; test_eeAh; test_eAeh; test_eeZh; test_eZeh; test_eeAA; test_eAAe; test_AAee; test_AZee; test_AeZe; test_eeZZ; test_eZZe; test_eeWW; test_eWWe; test_nnZh; test_nZnh; test_nnZZ; test_nZZn; test_nnWW; test_nWWn; test_uuhh; test_uhuh; test_uuAh; test_uAuh; test_uuZh; test_uZuh; test_uuAA; test_AAuu; test_uAAu; test_AZuu; test_AuZu; test_uuZZ; test_uZZu; test_uuWW; test_uWWu; test_uguh; test_hguu; test_gZuu; test_guZu; test_gAuu; test_guAu; test_gguu; test_gugu; test_ddhh; test_dhdh; test_ddAh; test_dAdh; test_ddZh; test_dZdh; test_ddAA; test_AAdd; test_dAAd; test_AZdd; test_AdZd; test_ddZZ; test_dZZd; test_ddWW; test_WdWd; test_dgdh; test_hgdd; test_gZdd; test_gdZd; test_gAdd; test_dAgd; test_ggdd; test_dggd; test_enWh; test_hnWe; test_enAW; test_AnWe; test_enZW; test_ZnWe; test_udWh; test_uhWd; test_udAW; test_AWud; test_gWud; test_dWgu; test_udZW; test_WdZu; test_hhhh; test_hhZZ; test_hZZh; test_hhWW; test_hWWh; test_AhWW; test_AWWh; test_ZhWW; test_ZWWh; test_AAWW; test_AWAW; test_AZWW; test_AWZW; test_ZZZZ; test_ZZWW; test_ZWZW; test_WWWW; test_WWWW2; test_gggg].
