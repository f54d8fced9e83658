(** Notations of the generated files SM*.v. *)
From Coq Require Import ZArith QArith.
From Verif Require Import Lang.
Declare Scope sm_scope.
Delimit Scope sm_scope with sm.
Notation "s1 ;, s2" := (SSeq s1 s2) (at level 100, s2 at level 200, right associativity) : sm_scope.
Notation "x +d y" := (EBin (OpD Add) x y) (at level 50, left associativity) : sm_scope.
Notation "x -d y" := (EBin (OpD Sub) x y) (at level 50, left associativity) : sm_scope.
Notation "x *d y" := (EBin (OpD Mul) x y) (at level 40, left associativity) : sm_scope.
Notation "x /d y" := (EBin (OpD Div) x y) (at level 40, left associativity) : sm_scope.
Notation "x +t y" := (EBin (OpT Add) x y) (at level 50, left associativity) : sm_scope.
Notation "x -t y" := (EBin (OpT Sub) x y) (at level 50, left associativity) : sm_scope.
Notation "x *t y" := (EBin (OpT Mul) x y) (at level 40, left associativity) : sm_scope.
Notation "x /t y" := (EBin (OpT Div) x y) (at level 40, left associativity) : sm_scope.
Notation "x +c y" := (EBin (OpC Add) x y) (at level 50, left associativity) : sm_scope.
Notation "x -c y" := (EBin (OpC Sub) x y) (at level 50, left associativity) : sm_scope.
Notation "x *c y" := (EBin (OpC Mul) x y) (at level 40, left associativity) : sm_scope.
Notation "x /c y" := (EBin (OpC Div) x y) (at level 40, left associativity) : sm_scope.
Notation "x +ct y" := (EBin (OpCT Add) x y) (at level 50, left associativity) : sm_scope.
Notation "x -ct y" := (EBin (OpCT Sub) x y) (at level 50, left associativity) : sm_scope.
Notation "x *ct y" := (EBin (OpCT Mul) x y) (at level 40, left associativity) : sm_scope.
Notation "x /ct y" := (EBin (OpCT Div) x y) (at level 40, left associativity) : sm_scope.
Notation "x +tc y" := (EBin (OpTC Add) x y) (at level 50, left associativity) : sm_scope.
Notation "x -tc y" := (EBin (OpTC Sub) x y) (at level 50, left associativity) : sm_scope.
Notation "x *tc y" := (EBin (OpTC Mul) x y) (at level 40, left associativity) : sm_scope.
Notation "x /tc y" := (EBin (OpTC Div) x y) (at level 40, left associativity) : sm_scope.
Arguments EInt z%Z.
Arguments ALit z%Z.
Arguments ELit q%Q.
