(** * sproduct (include/sproduct.h, source/sproduct.cpp)

    An [sproduct] holds raw pointers to particles owned by somebody else, so its
    methods act on a heap of particles.  A pointer is an index into the heap. *)
From Verif Require Import Base Scalar Linear Particle.
Open Scope st_scope.

Section Sproduct.
  Context {num : Num}.
  Notation T := (T num).
  Notation CX := (CX num).
  Notation cvector := (cvector num).
  Notation cmatrix := (cmatrix num).
  Notation particle := (particle num).

  Definition addr : Type := nat.
  Definition heap : Type := list particle.

  Fixpoint hset (h : heap) (a : addr) (P : particle) : heap :=
    match h, a with
    | [], _ => []
    | _ :: h', O => P :: h'
    | Q :: h', S a' => Q :: hset h' a' P
    end.

  (** class sproduct: include/sproduct.h 29-47.  [None] is an indeterminate pointer
      (default constructor).  N is the length of [sp_mid].  A pair
      isCalculated[i][j]/product[i][j] is one [option]. *)
  Record sproduct : Type := mkSproduct {
    sp_L : option addr;
    sp_R : option addr;
    sp_mid : list addr;                         (* p[0..N-1] *)
    sp_pMat : cmatrix;
    sp_Lmassive : bool;
    sp_Rmassive : bool;
    sp_angle : bool;                            (* isLeftAngle *)
    sp_Lupper : bool;
    sp_Rupper : bool;
    sp_prod : bool -> bool -> option CX         (* index: spin > 0 *)
  }.

  Definition no_prod : bool -> bool -> option CX := fun _ _ => None.

  (** sproduct(): source/sproduct.cpp 35, member initialisers include/sproduct.h 37-46 *)
  Definition sproduct_default : sproduct :=
    mkSproduct None None [] cmatrix_zero false false false true true no_prod.

  Definition s_Lmassive x sp := mkSproduct (sp_L sp) (sp_R sp) (sp_mid sp) (sp_pMat sp) x (sp_Rmassive sp) (sp_angle sp) (sp_Lupper sp) (sp_Rupper sp) (sp_prod sp).
  Definition s_Rmassive x sp := mkSproduct (sp_L sp) (sp_R sp) (sp_mid sp) (sp_pMat sp) (sp_Lmassive sp) x (sp_angle sp) (sp_Lupper sp) (sp_Rupper sp) (sp_prod sp).
  Definition s_pMat x sp := mkSproduct (sp_L sp) (sp_R sp) (sp_mid sp) x (sp_Lmassive sp) (sp_Rmassive sp) (sp_angle sp) (sp_Lupper sp) (sp_Rupper sp) (sp_prod sp).
  Definition s_prod x sp := mkSproduct (sp_L sp) (sp_R sp) (sp_mid sp) (sp_pMat sp) (sp_Lmassive sp) (sp_Rmassive sp) (sp_angle sp) (sp_Lupper sp) (sp_Rupper sp) x.
  Definition s_prod1 (i j : bool) (x : CX) sp :=
    s_prod (fun i' j' => if eqb i i' && eqb j j' then Some x else sp_prod sp i' j') sp.

  Definition store : Type := (heap * sproduct)%type.

  (** [ptr->method()] *)
  Definition call {A} (a : addr) (f : ST particle A) : ST store A := fun st =>
    let (h, sp) := st in
    match nth_error h a with
    | Some P => let (r, P') := f P in (r, (hset h a P', sp))
    | None => (UB BadPointer, st)
    end.
  Definition call_opt {A} (a : option addr) (f : ST particle A) : ST store A :=
    match a with Some a => call a f | None => slift (UB BadPointer) end.
  Definition sgets {A} (f : sproduct -> A) : ST store A := fun st => (Ok (f (snd st)), st).
  Definition smodify (f : sproduct -> sproduct) : ST store unit :=
    fun st => (Ok tt, (fst st, f (snd st))).

  (** The loops of source/sproduct.cpp 269-272 and 276-279: [pMat *= p[i]->...],
      [lower] telling which matrix comes next. *)
  Fixpoint mul_rest (lower : bool) (ps : list addr) : ST store unit :=
    match ps with
    | [] => sret tt
    | a :: ps' =>
        do m <- call a (if lower then lmat else umat);
        smodify (fun sp => s_pMat (cm_mul (sp_pMat sp) m) sp) ;;
        mul_rest (negb lower) ps'
    end.

  (** source/sproduct.cpp 266-281, N > 0 *)
  Definition build_pMat (angle : bool) (a : addr) (ps : list addr) : ST store unit :=
    if angle then
      do m <- call a lmat; smodify (s_pMat m) ;; mul_rest false ps
    else
      do m <- call a umat; smodify (s_pMat m) ;; mul_rest true ps.

  (** sproduct::update(): source/sproduct.cpp 251-282 *)
  Definition sp_update : ST store unit :=
    smodify (s_Lmassive false) ;; smodify (s_Rmassive false) ;;
    do pL <- sgets sp_L; do pR <- sgets sp_R;
    do mL <- call_opt pL (sconst mass);
    (if negb (teqb mL (tZ 0)) then smodify (s_Lmassive true) else sret tt) ;;
    do mR <- call_opt pR (sconst mass);
    (if negb (teqb mR (tZ 0)) then smodify (s_Rmassive true) else sret tt) ;;
    do sp <- sgets (fun sp => sp);
    if negb (sp_Lmassive sp) && negb (sp_Lupper sp) then sthrow LowerLeft
    else if negb (sp_Rmassive sp) && negb (sp_Rupper sp) then sthrow LowerRight
    else
      smodify (s_prod no_prod) ;;
      match sp_mid sp with
      | [] => sret tt
      | a :: ps => build_pMat (sp_angle sp) a ps
      end.

  (** The constructors, source/sproduct.cpp 38-246: they only differ in the number of
      internal momenta (0..6) and in whether iLU / iRU are given (default true).
      As for particle, a throwing constructor yields no object. *)
  Definition sp_construct (angle : bool) (pL : addr) (iLU : bool) (mid : list addr)
             (pR : addr) (iRU : bool) (h : heap) : outcome unit * store :=
    sp_update (h, mkSproduct (Some pL) (Some pR) mid cmatrix_zero false false angle iLU iRU no_prod).

  Definition is_even (n : nat) : bool := Nat.even n.

  (** The common computation of v(...): the left spinor [l], times pMat when N>0, times
      the right spinor [r] of the kind selected by the bracket and the parity of N.
      source/sproduct.cpp 295-313, 329-347, 361-379, 399-417. *)
  Definition v_compute (l : side -> ST particle cvector) (r : side -> ST particle cvector)
    : ST store CX :=
    do sp <- sgets (fun sp => sp);
    do vec <- call_opt (sp_L sp) (l (if sp_angle sp then LAngle else LSquare));
    let vec' := match sp_mid sp with [] => vec | _ => cv_mul_cm vec (sp_pMat sp) end in
    let rside := if sp_angle sp
                 then (if is_even (length (sp_mid sp)) then RAngle else RSquare)
                 else (if is_even (length (sp_mid sp)) then RSquare else RAngle) in
    do w <- call_opt (sp_R sp) (r rside);
    sret (cv_dot vec' w).

  (** The pattern [if(isCalculated[i][j]) return product[i][j]; ...] *)
  Definition v_memo (i j : bool) (compute : ST store CX) : ST store CX :=
    do c <- sgets (fun sp => sp_prod sp i j);
    match c with
    | Some x => sret x
    | None => do x <- compute; smodify (s_prod1 i j x) ;; sret x
    end.

  (** v(): source/sproduct.cpp 287-316 *)
  Definition v0 : ST store CX :=
    do sp <- sgets (fun sp => sp);
    if sp_Lmassive sp || sp_Rmassive sp then sthrow ProductUsage
    else v_memo false false (v_compute spinor0 spinor0).

  (** v(spin): source/sproduct.cpp 318-385 *)
  Definition v1 (spin : Z) : ST store CX :=
    do sp <- sgets (fun sp => sp);
    let j := (spin >? 0)%Z in
    if sp_Lmassive sp then
      if sp_Rmassive sp then sthrow ProductUsage
      else v_memo j false
             (v_compute (fun d => spinor2 d spin (sp_Lupper sp)) spinor0)
    else if sp_Rmassive sp then (* the test at 352-355 is dead: isLeftMassive is false here *)
      v_memo false j
             (v_compute spinor0 (fun d => spinor2 d spin (sp_Rupper sp)))
    else sthrow ProductUsage.

  (** v(spinL,spinR): source/sproduct.cpp 387-420 *)
  Definition v2 (spinL spinR : Z) : ST store CX :=
    do sp <- sgets (fun sp => sp);
    if negb (sp_Lmassive sp) || negb (sp_Rmassive sp) then sthrow ProductUsage
    else v_memo (spinL >? 0)%Z (spinR >? 0)%Z
           (v_compute (fun d => spinor2 d spinL (sp_Lupper sp))
                      (fun d => spinor2 d spinR (sp_Rupper sp))).
End Sproduct.
Arguments sproduct : clear implicits.
Arguments heap : clear implicits.
Arguments store : clear implicits.
