(** * The C++ type int and loops

    int is 32 bits wide, as on every platform the library is built for. *)
From Verif Require Import Base.

Definition int_min : Z := - 2 ^ 31.
Definition int_max : Z := 2 ^ 31 - 1.
Definition in_int (x : Z) : bool := (int_min <=? x)%Z && (x <=? int_max)%Z.

(** Signed arithmetic: a result that does not fit is undefined behaviour. *)
Definition int_res (x : Z) : outcome Z := if in_int x then Ok x else UB IntOverflow.
Definition int_mul (x y : Z) : outcome Z := int_res (x * y).
Definition int_add (x y : Z) : outcome Z := int_res (x + y).

(** [x >> n]: undefined unless 0 <= n < 32; arithmetic shift. *)
Definition int_shr (x n : Z) : outcome Z :=
  if (0 <=? n)%Z && (n <? 32)%Z then Ok (Z.shiftr x n) else UB BadShift.

(** [a[i]] *)
Definition arr_get {A} (a : list A) (i : nat) : outcome A :=
  match nth_error a i with Some x => Ok x | None => UB BadIndex end.
Fixpoint arr_upd {A} (a : list A) (i : nat) (x : A) : list A :=
  match a, i with
  | [], _ => []
  | _ :: a', O => x :: a'
  | y :: a', S i' => y :: arr_upd a' i' x
  end.
Definition arr_set {A} (a : list A) (i : nat) (x : A) : outcome (list A) :=
  if (i <? length a)%nat then Ok (arr_upd a i x) else UB BadIndex.

(** [for(int i=lo;i<lo+n;i++) body]: the loop variable and the variables the body
    changes. *)
Fixpoint ofor {A} (lo n : nat) (body : nat -> A -> outcome A) (a : A) : outcome A :=
  match n with
  | O => Ok a
  | S n' => let! a' := body lo a in ofor (S lo) n' body a'
  end.
Fixpoint sfor {S A} (lo n : nat) (body : nat -> A -> ST S A) (a : A) : ST S A :=
  match n with
  | O => sret a
  | Datatypes.S n' => sbind (body lo a) (fun a' => sfor (Datatypes.S lo) n' body a')
  end.
