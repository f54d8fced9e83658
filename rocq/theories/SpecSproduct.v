(** * What a spinor product is

    <L|p1 p2 ...|R> and [L|p1 p2 ...|R], read off the particles alone. *)
From Verif Require Import Base Scalar Linear Particle.

Section SpecSproduct.
  Context {num : Num}.

  (** <L| or [L| *)
  Definition left_side (angle : bool) : side := if angle then LAngle else LSquare.
  (** |R> or |R]: after an even number of momenta the same bracket as on the left *)
  Definition right_side (angle : bool) (n : nat) : side :=
    if Bool.eqb angle (Nat.even n) then RAngle else RSquare.

  (** The momenta between the ends: after an angle bracket p-lower comes first, then
      upper and lower alternate. *)
  Fixpoint chain_mats (lower : bool) (ps : list (particle num)) : outcome (list (cmatrix num)) :=
    match ps with
    | [] => Ok []
    | P :: ps' =>
        let! M := fst ((if lower then lmat else umat) P) in
        let! Ms := chain_mats (negb lower) ps' in Ok (M :: Ms)
    end.

  (** l.(M1 M2 ... Mn).r *)
  Definition sandwich (l : cvector num) (Ms : list (cmatrix num)) (r : cvector num) : CX num :=
    match Ms with
    | [] => cv_dot l r
    | M :: Ms' => cv_dot (cv_mul_cm l (fold_left cm_mul Ms' M)) r
    end.

  (** The end of a chain: [None] a massless particle, [Some (spin,upper)] a massive one. *)
  Definition end_spinor (d : side) (s : option (Z * bool)) (P : particle num) : outcome (cvector num) :=
    match s with
    | None => fst (spinor0 d P)
    | Some (spin, upper) => fst (spinor2 d spin upper P)
    end.

  Definition chain (angle : bool) (sL : option (Z * bool)) (PL : particle num)
      (ps : list (particle num)) (sR : option (Z * bool)) (PR : particle num) : outcome (CX num) :=
    let! l := end_spinor (left_side angle) sL PL in
    let! Ms := chain_mats angle ps in
    let! r := end_spinor (right_side angle (length ps)) sR PR in
    Ok (sandwich l Ms r).
End SpecSproduct.
