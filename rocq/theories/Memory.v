(** * cmatrix objects in memory

    Linear.v treats the compound assignments as functions of values.  Here they are the
    element-by-element loops of the source, run on a memory of matrix objects in which
    the left and the right operand may be one and the same object. *)
From Verif Require Import Base Scalar Linear.
Open Scope st_scope.

Section Memory.
  Context {num : Num}.
  Notation T := (T num).
  Notation CX := (CX num).
  Notation cmatrix := (cmatrix num).

  (** The live cmatrix objects; an address is a position in the list. *)
  Definition memory : Type := list cmatrix.

  (** mat[i][j], include/cmatrix.h 31; [false] is index 0, [true] is index 1 (the loop
      variables of source/cmatrix.cpp only take these two values). *)
  Definition elem (m : cmatrix) (i j : bool) : CX :=
    match i, j with
    | false, false => m00 m | false, true => m01 m
    | true, false => m10 m | true, true => m11 m
    end.
  Definition set_elem (m : cmatrix) (i j : bool) (x : CX) : cmatrix :=
    match i, j with
    | false, false => CM x (m01 m) (m10 m) (m11 m)
    | false, true => CM (m00 m) x (m10 m) (m11 m)
    | true, false => CM (m00 m) (m01 m) x (m11 m)
    | true, true => CM (m00 m) (m01 m) (m10 m) x
    end.

  Fixpoint upd (mem : memory) (a : nat) (m : cmatrix) : memory :=
    match mem, a with
    | [], _ => []
    | _ :: r, O => m :: r
    | x :: r, S a' => x :: upd r a' m
    end.

  (** Reading and writing one element of the object at address a.  An address without an
      object is undefined behaviour. *)
  Definition load (a : nat) (i j : bool) : ST memory CX :=
    fun mem => match nth_error mem a with
               | Some m => (Ok (elem m i j), mem)
               | None => (UB BadPointer, mem)
               end.
  Definition store (a : nat) (i j : bool) (x : CX) : ST memory unit :=
    fun mem => match nth_error mem a with
               | Some m => (Ok tt, upd mem a (set_elem m i j x))
               | None => (UB BadPointer, mem)
               end.

  (** for(int i=0;i<2;i++) for(int j=0;j<2;j++) body *)
  Definition for_ij (body : bool -> bool -> ST memory unit) : ST memory unit :=
    body false false ;; body false true ;; body true false ;; body true true.

  (** operator+=(m): source/cmatrix.cpp 85-90 *)
  Definition add_assign (a b : nat) : ST memory unit :=
    for_ij (fun i j => do x <- load a i j; do y <- load b i j; store a i j (x + y)%cx).
  (** operator-=(m): source/cmatrix.cpp 95-100 *)
  Definition sub_assign (a b : nat) : ST memory unit :=
    for_ij (fun i j => do x <- load a i j; do y <- load b i j; store a i j (x - y)%cx).
  (** mat[i][0]*m.mat[0][j]+mat[i][1]*m.mat[1][j]: source/cmatrix.cpp 112 *)
  Definition row_col (a b : nat) (i j : bool) : ST memory CX :=
    do x0 <- load a i false; do y0 <- load b false j;
    do x1 <- load a i true; do y1 <- load b true j;
    sret (x0 * y0 + x1 * y1)%cx.
  (** operator*=(m): source/cmatrix.cpp 108-117.  The local array mnew is complete before
      anything is written back. *)
  Definition mul_assign (a b : nat) : ST memory unit :=
    do n00 <- row_col a b false false; do n01 <- row_col a b false true;
    do n10 <- row_col a b true false; do n11 <- row_col a b true true;
    let mnew := CM n00 n01 n10 n11 in
    for_ij (fun i j => store a i j (elem mnew i j)).
  (** operator*=(cdouble) 118-123, operator*=(ldouble) 130-135, operator*=(int) 142-147,
      operator/=(cdouble) 156-161, operator/=(ldouble) 165-170, operator/=(int) 174-179 of
      source/cmatrix.cpp: one loop [mat[i][j]=f(mat[i][j])].  The scalar cannot be an
      element of the matrix: mat is private and get returns by value. *)
  Definition each_assign (f : CX -> CX) (a : nat) : ST memory unit :=
    for_ij (fun i j => do x <- load a i j; store a i j (f x)).

  Inductive scalar : Type :=
  | ByC (d : CX) | ByT (d : T) | ByI (d : Z).
  Definition scale_assign (d : scalar) : nat -> ST memory unit :=
    each_assign (fun x => match d with
                          | ByC d => (x * d)%cx | ByT d => cmult x d | ByI d => cmult x (tZ d)
                          end).
  Definition div_assign (d : scalar) : nat -> ST memory unit :=
    each_assign (fun x => match d with
                          | ByC d => cdiv x d | ByT d => cdivt x d | ByI d => cdivt x (tZ d)
                          end).

  (** [cmatrix( *this ) op= m]: a temporary is copy-constructed, assigned to, and its value
      returned; the temporary then ceases to exist.  source/cmatrix.cpp 82-84 92-94 105-107
      124-126 136-138 148-150 162-164 171-173 180-182. *)
  Definition on_copy (op : nat -> ST memory unit) (a : nat) : ST memory cmatrix :=
    fun mem =>
      match nth_error mem a with
      | None => (UB BadPointer, mem)
      | Some m =>
          let t := length mem in
          match op t (mem ++ [m]) with
          | (Ok _, mem') =>
              match nth_error mem' t with
              | Some r => (Ok r, firstn t mem')
              | None => (UB BadPointer, mem')
              end
          | (Exn e, mem') => (Exn e, mem')
          | (UB u, mem') => (UB u, mem')
          end
      end.
  (** operator+ 82-84, operator- 92-94, operator* 105-107 of source/cmatrix.cpp *)
  Definition add_op (a b : nat) : ST memory cmatrix := on_copy (fun t => add_assign t b) a.
  Definition sub_op (a b : nat) : ST memory cmatrix := on_copy (fun t => sub_assign t b) a.
  Definition mul_op (a b : nat) : ST memory cmatrix := on_copy (fun t => mul_assign t b) a.
  (** m*d, d*m and m/d *)
  Definition scale_op (d : scalar) (a : nat) : ST memory cmatrix := on_copy (scale_assign d) a.
  Definition div_op (d : scalar) (a : nat) : ST memory cmatrix := on_copy (div_assign d) a.
End Memory.
Arguments memory : clear implicits.
Arguments scalar : clear implicits.
