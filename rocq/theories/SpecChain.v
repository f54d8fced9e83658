(** * Vocabulary for identities between spinor chains

    An end of a chain is [None] for a massless particle and [Some (spin, upper)] for a
    massive one; spin is twice the spin, upper the height of the spin index. *)
From Coq Require Import Reals.
From Coquelicot Require Import Complex.
From Verif Require Import Base Scalar RealNum.
Open Scope R_scope.

(** the same end with the spin index moved up or down *)
Definition flip (s : option (Z * bool)) : option (Z * bool) :=
  match s with None => None | Some (j, u) => Some (j, negb u) end.

(** +1 for a massless end, for an upper index on an angle spinor and for a lower index
    on a square spinor; -1 otherwise *)
Definition csign (angle : bool) (s : option (Z * bool)) : R :=
  match s with None => 1 | Some (_, u) => if Bool.eqb angle u then 1 else -1 end.

(** the spin states of an end of mass m *)
Definition spin_args (m : R) (u : bool) : list (option (Z * bool)) :=
  if Reqb m 0 then [None] else [Some ((-1)%Z, u); Some (1%Z, u)].

(** sums and products of results *)
Fixpoint osum (l : list (outcome C)) : outcome C :=
  match l with
  | [] => Ok (RtoC 0)
  | x :: l' => let! a := x in let! b := osum l' in Ok (Cplus a b)
  end.
Definition omul (x y : outcome C) : outcome C := let! a := x in let! b := y in Ok (Cmult a b).
Definition oconj (x : outcome C) : outcome C := let! a := x in Ok (Cconj a).
Definition oscale (c : R) (x : outcome C) : outcome C := let! a := x in Ok (Cmult (RtoC c) a).

(** the sum of f over a list of ends *)
Definition sum_over {A} (l : list A) (f : A -> outcome C) : outcome C := osum (map f l).
