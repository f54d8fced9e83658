(** * particle (include/particle.h, source/particle.cpp) *)
From Coq Require Import QArith.
From Verif Require Import Base Scalar Linear.
Open Scope st_scope.

(** The two momentum matrices and the four spinor kinds. *)
Inductive matkey : Type := UpMat | LoMat.
Inductive side : Type := RAngle | LAngle | LSquare | RSquare.
(** Which cached member of a spinor kind: the massless one, or the massive one with
    upper/lower index and spin +1/-1. *)
Inductive kind : Type := M0 | UpP1 | UpM1 | LoP1 | LoM1.
Definition veckey : Type := (side * kind)%type.

Definition matkey_eqb (a b : matkey) : bool :=
  match a, b with UpMat, UpMat | LoMat, LoMat => true | _, _ => false end.
Definition side_eqb (a b : side) : bool :=
  match a, b with
  | RAngle, RAngle | LAngle, LAngle | LSquare, LSquare | RSquare, RSquare => true
  | _, _ => false
  end.
Definition kind_eqb (a b : kind) : bool :=
  match a, b with
  | M0, M0 | UpP1, UpP1 | UpM1, UpM1 | LoP1, LoP1 | LoM1, LoM1 => true
  | _, _ => false
  end.
Definition veckey_eqb (a b : veckey) : bool :=
  side_eqb (fst a) (fst b) && kind_eqb (snd a) (snd b).

Section Particle.
  Context {num : Num}.
  Notation T := (T num).
  Notation CX := (CX num).
  Notation cell := (cell num).
  Notation cvector := (cvector num).
  Notation cmatrix := (cmatrix num).

  (** class particle: include/particle.h (private members).  Scalars without an
      initialiser are [cell]s; [cdouble], [cvector] and [cmatrix] members have default
      constructors that zero them.  A pair [xCalculated]/[x] of members is one
      [option]: [None] when the flag is false (the stored value is then dead). *)
  Record particle : Type := mkParticle {
    pa_m : cell;
    pa_p : vec4 cell;
    pa_pmag : cell;
    pa_pxymag : cell;
    pa_theta : cell;
    pa_phi : cell;
    pa_c : CX;  pa_s : CX;  pa_sc : CX;
    pa_rtp : CX;                                   (* sqrtEpP *)
    pa_rtm : CX;                                   (* sqrtEmP *)
    pa_mat : matkey -> option cmatrix;             (* upMat, loMat *)
    pa_vec : veckey -> option cvector              (* the 20 spinor members *)
  }.

  Definition no_mat : matkey -> option cmatrix := fun _ => None.
  Definition no_vec : veckey -> option cvector := fun _ => None.

  (** particle(): source/particle.cpp 35-36.  [g] supplies the bit patterns found in
      the uninitialised members. *)
  Definition particle_default (g : nat -> T) : particle :=
    mkParticle (Indet (g 0%nat)) (V4 (Indet (g 1%nat)) (Indet (g 2%nat)) (Indet (g 3%nat)) (Indet (g 4%nat)))
      (Indet (g 5%nat)) (Indet (g 6%nat)) (Indet (g 7%nat)) (Indet (g 8%nat))
      c0 c0 c0 c0 c0 no_mat no_vec.

  (** particle(mass): source/particle.cpp 38-39.  [m] is declared before [p], so
      [p{m,0,0,0}] reads the initialised mass.  No update(). *)
  Definition particle_mass (g : nat -> T) (mass : T) : particle :=
    mkParticle (Val mass) (V4 (Val mass) (Val (tZ 0)) (Val (tZ 0)) (Val (tZ 0)))
      (Indet (g 5%nat)) (Indet (g 6%nat)) (Indet (g 7%nat)) (Indet (g 8%nat))
      c0 c0 c0 c0 c0 no_mat no_vec.

  (** Field updates (plumbing; each corresponds to one C++ assignment). *)
  Definition w_m x P := mkParticle x (pa_p P) (pa_pmag P) (pa_pxymag P) (pa_theta P) (pa_phi P) (pa_c P) (pa_s P) (pa_sc P) (pa_rtp P) (pa_rtm P) (pa_mat P) (pa_vec P).
  Definition w_p x P := mkParticle (pa_m P) x (pa_pmag P) (pa_pxymag P) (pa_theta P) (pa_phi P) (pa_c P) (pa_s P) (pa_sc P) (pa_rtp P) (pa_rtm P) (pa_mat P) (pa_vec P).
  Definition w_pmag x P := mkParticle (pa_m P) (pa_p P) x (pa_pxymag P) (pa_theta P) (pa_phi P) (pa_c P) (pa_s P) (pa_sc P) (pa_rtp P) (pa_rtm P) (pa_mat P) (pa_vec P).
  Definition w_pxymag x P := mkParticle (pa_m P) (pa_p P) (pa_pmag P) x (pa_theta P) (pa_phi P) (pa_c P) (pa_s P) (pa_sc P) (pa_rtp P) (pa_rtm P) (pa_mat P) (pa_vec P).
  Definition w_theta x P := mkParticle (pa_m P) (pa_p P) (pa_pmag P) (pa_pxymag P) x (pa_phi P) (pa_c P) (pa_s P) (pa_sc P) (pa_rtp P) (pa_rtm P) (pa_mat P) (pa_vec P).
  Definition w_phi x P := mkParticle (pa_m P) (pa_p P) (pa_pmag P) (pa_pxymag P) (pa_theta P) x (pa_c P) (pa_s P) (pa_sc P) (pa_rtp P) (pa_rtm P) (pa_mat P) (pa_vec P).
  Definition w_c x P := mkParticle (pa_m P) (pa_p P) (pa_pmag P) (pa_pxymag P) (pa_theta P) (pa_phi P) x (pa_s P) (pa_sc P) (pa_rtp P) (pa_rtm P) (pa_mat P) (pa_vec P).
  Definition w_s x P := mkParticle (pa_m P) (pa_p P) (pa_pmag P) (pa_pxymag P) (pa_theta P) (pa_phi P) (pa_c P) x (pa_sc P) (pa_rtp P) (pa_rtm P) (pa_mat P) (pa_vec P).
  Definition w_sc x P := mkParticle (pa_m P) (pa_p P) (pa_pmag P) (pa_pxymag P) (pa_theta P) (pa_phi P) (pa_c P) (pa_s P) x (pa_rtp P) (pa_rtm P) (pa_mat P) (pa_vec P).
  Definition w_rtp x P := mkParticle (pa_m P) (pa_p P) (pa_pmag P) (pa_pxymag P) (pa_theta P) (pa_phi P) (pa_c P) (pa_s P) (pa_sc P) x (pa_rtm P) (pa_mat P) (pa_vec P).
  Definition w_rtm x P := mkParticle (pa_m P) (pa_p P) (pa_pmag P) (pa_pxymag P) (pa_theta P) (pa_phi P) (pa_c P) (pa_s P) (pa_sc P) (pa_rtp P) x (pa_mat P) (pa_vec P).
  Definition w_mat k x P := mkParticle (pa_m P) (pa_p P) (pa_pmag P) (pa_pxymag P) (pa_theta P) (pa_phi P) (pa_c P) (pa_s P) (pa_sc P) (pa_rtp P) (pa_rtm P)
      (fun k' => if matkey_eqb k k' then x else pa_mat P k') (pa_vec P).
  Definition w_vec k x P := mkParticle (pa_m P) (pa_p P) (pa_pmag P) (pa_pxymag P) (pa_theta P) (pa_phi P) (pa_c P) (pa_s P) (pa_sc P) (pa_rtp P) (pa_rtm P)
      (pa_mat P) (fun k' => if veckey_eqb k k' then x else pa_vec P k').

  Definition get (f : particle -> cell) : ST particle T := fun P => (rd (f P), P).
  Definition gets {A} (f : particle -> A) : ST particle A := fun P => (Ok (f P), P).
  Definition modify (f : particle -> particle) : ST particle unit := fun P => (Ok tt, f P).
  Definition f_p0 P := v_0 (pa_p P).
  Definition f_p1 P := v_1 (pa_p P).
  Definition f_p2 P := v_2 (pa_p P).
  Definition f_p3 P := v_3 (pa_p P).

  (** The flags reset at the end of update(), in source order:
      source/particle.cpp 85-101. *)
  Definition reset_mats : list matkey := [UpMat; LoMat].
  Definition reset_vecs : list veckey :=
    [ (RAngle, M0); (LAngle, M0); (RSquare, M0); (LSquare, M0);
      (RAngle, UpP1); (RAngle, UpM1); (RAngle, LoP1); (RAngle, LoM1);
      (LAngle, UpP1); (LAngle, UpM1); (LAngle, LoP1); (LAngle, LoM1);
      (LSquare, UpP1); (LSquare, UpM1); (LSquare, LoP1); (LSquare, LoM1);
      (RSquare, UpP1); (RSquare, UpM1); (RSquare, LoP1); (RSquare, LoM1) ].
  Definition reset_caches (P : particle) : particle :=
    fold_left (fun Q k => w_vec k None Q) reset_vecs
      (fold_left (fun Q k => w_mat k None Q) reset_mats P).

  (** the tolerance eps*1000000000 of source/particle.cpp 68 *)
  Definition shell_tol : T := (teps * tZ 1000000000)%ld.
  (** the literal 2. of source/particle.cpp 77-78 *)
  Definition two_ : T := lit (2 # 1).

  (** update(): source/particle.cpp 67-102 *)
  Definition update : ST particle unit :=
    do p1 <- get f_p1; do p2 <- get f_p2;
    modify (w_pxymag (Val (tsqrt (p1*p1 + p2*p2)%ld)));;                (* 69 *)
    do pxy <- get pa_pxymag; do p3 <- get f_p3;
    modify (w_pmag (Val (tsqrt (pxy*pxy + p3*p3)%ld)));;                (* 70 *)
    do p0 <- get f_p0; do pmag <- get pa_pmag; do m <- get pa_m;
    if tgtb (tabs ((p0*p0 - pmag*pmag) - m*m)%ld) shell_tol               (* 71 *)
    then sthrow MassShell                                                 (* 72 *)
    else
    modify (w_theta (Val (tatan2 pxy p3)));;                            (* 74 *)
    modify (w_phi (Val (tatan2 p2 p1)));;                               (* 75 *)
    do theta <- get pa_theta; do phi <- get pa_phi;
    modify (w_c (cmk (tcos (theta / two_)%ld) (lit (0 # 1))));;         (* 77 *)
    do s <- slift (polar (tsin (theta / two_)%ld) phi);
    modify (w_s s);;                                                    (* 78 *)
    modify (w_sc (cconj s));;                                           (* 79 *)
    modify (w_rtp (cmk (tsqrt (p0 + pmag)%ld) (tZ 0)));;                (* 80 *)
    modify (w_rtm (cmk (tsqrt (p0 - pmag)%ld) (tZ 0)));;                (* 81 *)
    modify reset_caches.                                                  (* 85-101 *)

  (** set_mass: source/particle.cpp 48-50 *)
  Definition set_mass (mass : T) : ST particle unit := modify (w_m (Val mass)).
  Definition cells (q : mom num) : vec4 cell :=
    V4 (Val (v_0 q)) (Val (v_1 q)) (Val (v_2 q)) (Val (v_3 q)).
  (** set_momentum: source/particle.cpp 51-54 *)
  Definition set_momentum (q : mom num) : ST particle unit :=
    modify (w_p (cells q)) ;; update.

  (** particle(momentum,mass): source/particle.cpp 41-45.  A throwing constructor
      yields no object; the second component is then meaningless. *)
  Definition particle_new (g : nat -> T) (q : mom num) (mass : T) : outcome unit * particle :=
    update (w_p (cells q) (w_m (Val mass) (particle_default g))).

  (** mass(), get_mass(): source/particle.cpp 56-61 *)
  Definition mass (P : particle) : outcome T := rd (pa_m P).
  (** get_momentum(mu): source/particle.cpp 62-64; p[mu] is not bounds checked. *)
  Definition get_momentum (P : particle) (mu : Z) : outcome T :=
    if (mu =? 0)%Z then rd (f_p0 P) else if (mu =? 1)%Z then rd (f_p1 P)
    else if (mu =? 2)%Z then rd (f_p2 P) else if (mu =? 3)%Z then rd (f_p3 P)
    else UB BadIndex.

  (** test_angles(): source/particle.cpp 105-121 (printing omitted) *)
  Definition angles_tol : T := (teps * tZ 1000000)%ld.
  Definition test_angles (P : particle) : outcome bool :=
    let! theta := rd (pa_theta P) in let! phi := rd (pa_phi P) in
    let! pmag := rd (pa_pmag P) in
    let! q0 := rd (f_p0 P) in let! q1 := rd (f_p1 P) in
    let! q2 := rd (f_p2 P) in let! q3 := rd (f_p3 P) in
    let p0 := (cre (pa_rtp P * cconj (pa_rtp P) + pa_rtm P * cconj (pa_rtm P))%cx / tZ 2)%ld in
    let p1 := (pmag * tsin theta * tcos phi)%ld in
    let p2 := (pmag * tsin theta * tsin phi)%ld in
    let p3 := (pmag * tcos theta)%ld in
    Ok (negb (tgtb (tabs (q0 - p0)%ld) angles_tol || tgtb (tabs (q1 - p1)%ld) angles_tol
              || tgtb (tabs (q2 - p2)%ld) angles_tol || tgtb (tabs (q3 - p3)%ld) angles_tol)).

  (** dot: source/particle.cpp 125-127 *)
  Definition dot (P Q : particle) : outcome T :=
    let! a0 := rd (f_p0 P) in let! a1 := rd (f_p1 P) in
    let! a2 := rd (f_p2 P) in let! a3 := rd (f_p3 P) in
    let! b0 := rd (f_p0 Q) in let! b1 := rd (f_p1 Q) in
    let! b2 := rd (f_p2 Q) in let! b3 := rd (f_p3 Q) in
    Ok (((a0*b0 - a1*b1) - a2*b2) - a3*b3)%ld.

  (** The pattern [if(!xCalculated){ x = ...; xCalculated = true; } return x;] shared
      by all memoised accessors. *)
  Definition memo_mat (k : matkey) (compute : particle -> outcome cmatrix) : ST particle cmatrix :=
    fun P => match pa_mat P k with
             | Some v => (Ok v, P)
             | None => match compute P with
                       | Ok v => (Ok v, w_mat k (Some v) P)
                       | Exn e => (Exn e, P)
                       | UB u => (UB u, P)
                       end
             end.
  Definition memo_vec (k : veckey) (compute : particle -> outcome cvector) : ST particle cvector :=
    fun P => match pa_vec P k with
             | Some v => (Ok v, P)
             | None => match compute P with
                       | Ok v => (Ok v, w_vec k (Some v) P)
                       | Exn e => (Exn e, P)
                       | UB u => (UB u, P)
                       end
             end.

  (** umat(): source/particle.cpp 134-141 *)
  Definition umat_value (P : particle) : outcome cmatrix :=
    let! p0 := rd (f_p0 P) in let! p3 := rd (f_p3 P) in
    let! pxy := rd (pa_pxymag P) in let! phi := rd (pa_phi P) in
    let! a := polar pxy (- phi)%ld in let! b := polar pxy phi in
    Ok (CM (cmk (p0 - p3)%ld (tZ 0)) (- a)%cx (- b)%cx (cmk (p0 + p3)%ld (tZ 0))).
  Definition umat : ST particle cmatrix := memo_mat UpMat umat_value.
  (** lmat(): source/particle.cpp 143-150 *)
  Definition lmat_value (P : particle) : outcome cmatrix :=
    let! p0 := rd (f_p0 P) in let! p3 := rd (f_p3 P) in
    let! pxy := rd (pa_pxymag P) in let! phi := rd (pa_phi P) in
    let! a := polar pxy (- phi)%ld in let! b := polar pxy phi in
    Ok (CM (cmk (p0 + p3)%ld (tZ 0)) a b (cmk (p0 - p3)%ld (tZ 0))).
  Definition lmat : ST particle cmatrix := memo_mat LoMat lmat_value.

  (** The value assigned to each cached spinor.
      massless: source/particle.cpp 159 170 181 192;
      rangle 212 222 239 249; langle 266 276 293 303;
      lsquare 320 330 347 357; rsquare 374 384 401 411. *)
  Definition spinor_value (k : veckey) (P : particle) : cvector :=
    let c := pa_c P in let s := pa_s P in let sc := pa_sc P in
    let rp := pa_rtp P in let rm := pa_rtm P in
    (match k with
     | (RAngle, M0)   => CV (rp*c) (rp*s)
     | (LSquare, M0)  => CV (rp*c) (rp*sc)
     | (LAngle, M0)   => CV (rp*s) (-rp*c)
     | (RSquare, M0)  => CV (rp*sc) (-rp*c)
     | (RAngle, UpM1) => CV (rp*c) (rp*s)
     | (RAngle, UpP1) => CV (-rm*sc) (rm*c)
     | (RAngle, LoM1) => CV (-rm*sc) (rm*c)
     | (RAngle, LoP1) => CV (-rp*c) (-rp*s)
     | (LAngle, UpM1) => CV (rp*s) (-rp*c)
     | (LAngle, UpP1) => CV (rm*c) (rm*sc)
     | (LAngle, LoM1) => CV (rm*c) (rm*sc)
     | (LAngle, LoP1) => CV (-rp*s) (rp*c)
     | (LSquare, UpM1) => CV (rm*s) (-rm*c)
     | (LSquare, UpP1) => CV (rp*c) (rp*sc)
     | (LSquare, LoM1) => CV (rp*c) (rp*sc)
     | (LSquare, LoP1) => CV (-rm*s) (rm*c)
     | (RSquare, UpM1) => CV (-rm*c) (-rm*s)
     | (RSquare, UpP1) => CV (rp*sc) (-rp*c)
     | (RSquare, LoM1) => CV (rp*sc) (-rp*c)
     | (RSquare, LoP1) => CV (rm*c) (rm*s)
     end)%cx.

  (** rangle(), lsquare(), langle(), rsquare(): source/particle.cpp 153-196 *)
  Definition spinor0 (d : side) : ST particle cvector :=
    memo_vec (d, M0) (fun P =>
      let! m := rd (pa_m P) in
      if negb (teqb m (tZ 0)) then Exn MassNonzero else Ok (spinor_value (d, M0) P)).

  Definition kind_of (spin2 : Z) (upper : bool) : kind :=
    if (spin2 =? -1)%Z then (if upper then UpM1 else LoM1)
    else (if upper then UpP1 else LoP1).

  (** rangle(spin2,upper) 201-253, langle 255-307, lsquare 309-361, rsquare 363-415.
      The one-argument overloads are the case upper = true. *)
  Definition spinor2 (d : side) (spin2 : Z) (upper : bool) : ST particle cvector :=
    if negb (spin2 =? 1)%Z && negb (spin2 =? -1)%Z then sthrow BadSpin
    else memo_vec (d, kind_of spin2 upper) (fun P =>
      let! m := rd (pa_m P) in
      if teqb m (tZ 0) then Exn MassZero else Ok (spinor_value (d, kind_of spin2 upper) P)).
  Definition spinor1 (d : side) (spin2 : Z) : ST particle cvector := spinor2 d spin2 true.

  (** rangle_matrix(upper) and the three others: source/particle.cpp 420-455 *)
  Definition spinor_matrix (d : side) (upper : bool) : ST particle cmatrix :=
    do a <- spinor2 d (-1) upper; do b <- spinor2 d 1 upper;
    slift (let! a0 := cv_get a 0 in let! b0 := cv_get b 0 in
           let! a1 := cv_get a 1 in let! b1 := cv_get b 1 in
           Ok (CM a0 b0 a1 b1)).

  (** ** Generators: source/particle.cpp 478-623 *)
  Definition half_ : T := lit (1 # 2).
  Definition cone : CX := cmk (tZ 1) (tZ 0).
  (** the prefactor [half*sqrt((p0-pmag)/(p0+pmag))], or [dflt] when m==0 *)
  Definition pre_minus (P : particle) (dflt : T) : outcome T :=
    let! m := rd (pa_m P) in
    if negb (teqb m (tZ 0)) then
      let! p0 := rd (f_p0 P) in let! pmag := rd (pa_pmag P) in
      Ok (half_ * tsqrt ((p0 - pmag) / (p0 + pmag)))%ld
    else Ok dflt.
  Definition pre_plus (P : particle) (dflt : T) : outcome T :=
    let! m := rd (pa_m P) in
    if negb (teqb m (tZ 0)) then
      let! p0 := rd (f_p0 P) in let! pmag := rd (pa_pmag P) in
      Ok (half_ * tsqrt ((p0 + pmag) / (p0 - pmag)))%ld
    else Ok dflt.

  Inductive generator : Type :=
  | LJ3lu | LJPlu | LJMlu | LJ3ul | LJPul | LJMul
  | LJ3luD | LJPluD | LJMluD | LJ3ulD | LJPulD | LJMulD
  | SJ3lu | SJPlu | SJMlu | SJ3ul | SJPul | SJMul.

  Definition one_ : T := tZ 1.

  Definition generator_matrix (gen : generator) (P : particle) : outcome cmatrix :=
    match gen with
    | LJ3lu => (* 478-484 *)
        let! th := rd (pa_theta P) in let! ph := rd (pa_phi P) in
        let! a := polar (tsin th) (- ph)%ld in let! b := polar (tsin th) ph in
        Ok (cm_scalet (CM (tmulc (tcos th) cone) a b (tmulc (- tcos th)%ld cone)) (- half_)%ld)
    | LJPlu => (* 485-493 *)
        let! pre := pre_minus P (tZ 0) in
        let! th := rd (pa_theta P) in let! ph := rd (pa_phi P) in
        let! a := polar (- one_ + tcos th)%ld (- ph)%ld in let! b := polar (one_ + tcos th)%ld ph in
        Ok (cm_scalet (CM (cT (tsin th)) (- a)%cx (- b)%cx (cT (- tsin th)%ld)) pre)
    | LJMlu => (* 494-501 *)
        let! pre := pre_plus P (tZ 1) in
        let! th := rd (pa_theta P) in let! ph := rd (pa_phi P) in
        let! a := polar (one_ + tcos th)%ld (- ph)%ld in let! b := polar (- one_ + tcos th)%ld ph in
        Ok (cm_scalet (CM (cT (tsin th)) (- a)%cx (- b)%cx (cT (- tsin th)%ld)) pre)
    | LJ3ul => (* 503-509 *)
        let! th := rd (pa_theta P) in let! ph := rd (pa_phi P) in
        let! a := polar (tsin th) ph in let! b := polar (tsin th) (- ph)%ld in
        Ok (cm_scalet (CM (tmulc (tcos th) cone) a b (tmulc (- tcos th)%ld cone)) half_)
    | LJPul => (* 510-518 *)
        let! pre := pre_minus P (tZ 0) in
        let! th := rd (pa_theta P) in let! ph := rd (pa_phi P) in
        let! a := polar (one_ + tcos th)%ld ph in let! b := polar (- one_ + tcos th)%ld (- ph)%ld in
        Ok (cm_scalet (CM (cT (- tsin th)%ld) a b (cT (tsin th))) pre)
    | LJMul => (* 519-526 *)
        let! pre := pre_plus P (tZ 1) in
        let! th := rd (pa_theta P) in let! ph := rd (pa_phi P) in
        let! a := polar (- one_ + tcos th)%ld ph in let! b := polar (one_ + tcos th)%ld (- ph)%ld in
        Ok (cm_scalet (CM (cT (- tsin th)%ld) a b (cT (tsin th))) pre)
    | LJ3luD => (* 531-537 *)
        let! th := rd (pa_theta P) in let! ph := rd (pa_phi P) in
        let! a := polar (tsin th) ph in let! b := polar (tsin th) (- ph)%ld in
        Ok (cm_scalet (CM (tmulc (tcos th) cone) a b (tmulc (- tcos th)%ld cone)) half_)
    | LJPluD => (* 538-546 *)
        let! pre := pre_plus P (tZ 1) in
        let! th := rd (pa_theta P) in let! ph := rd (pa_phi P) in
        let! a := polar (one_ + tcos th)%ld ph in let! b := polar (- one_ + tcos th)%ld (- ph)%ld in
        Ok (cm_scalet (CM (cT (- tsin th)%ld) a b (cT (tsin th))) pre)
    | LJMluD => (* 547-554 *)
        let! pre := pre_minus P (tZ 0) in
        let! th := rd (pa_theta P) in let! ph := rd (pa_phi P) in
        let! a := polar (- one_ + tcos th)%ld ph in let! b := polar (one_ + tcos th)%ld (- ph)%ld in
        Ok (cm_scalet (CM (cT (- tsin th)%ld) a b (cT (tsin th))) pre)
    | LJ3ulD => (* 556-562 *)
        let! th := rd (pa_theta P) in let! ph := rd (pa_phi P) in
        let! a := polar (tsin th) (- ph)%ld in let! b := polar (tsin th) ph in
        Ok (cm_scalet (CM (tmulc (- tcos th)%ld cone) (- a)%cx (- b)%cx (tmulc (tcos th) cone)) half_)
    | LJPulD => (* 563-571 *)
        let! pre := pre_plus P (tZ 1) in
        let! th := rd (pa_theta P) in let! ph := rd (pa_phi P) in
        let! a := polar (- one_ + tcos th)%ld (- ph)%ld in let! b := polar (one_ + tcos th)%ld ph in
        Ok (cm_scalet (CM (cT (tsin th)) (- a)%cx (- b)%cx (cT (- tsin th)%ld)) pre)
    | LJMulD => (* 572-580 *)
        let! pre := pre_minus P (tZ 0) in
        let! th := rd (pa_theta P) in let! ph := rd (pa_phi P) in
        let! a := polar (one_ + tcos th)%ld (- ph)%ld in let! b := polar (- one_ + tcos th)%ld ph in
        Ok (cm_scalet (CM (cT (tsin th)) (- a)%cx (- b)%cx (cT (- tsin th)%ld)) pre)
    | SJ3lu => (* 585-590 *)
        Ok (cm_scalet (CM (- cone)%cx c0 c0 cone) half_)
    | SJPlu => (* 591-596 *)
        let! ph := rd (pa_phi P) in let! a := polar one_ ph in
        Ok (CM c0 c0 (- a)%cx c0)
    | SJMlu => (* 597-602 *)
        let! ph := rd (pa_phi P) in let! a := polar one_ (- ph)%ld in
        Ok (CM c0 (- a)%cx c0 c0)
    | SJ3ul => (* 606-611 *)
        Ok (cm_scalet (CM cone c0 c0 (- cone)%cx) half_)
    | SJPul => (* 612-617 *)
        let! ph := rd (pa_phi P) in let! a := polar one_ ph in
        Ok (CM c0 a c0 c0)
    | SJMul => (* 618-623 *)
        let! ph := rd (pa_phi P) in let! a := polar one_ (- ph)%ld in
        Ok (CM c0 c0 a c0)
    end.

  (** ** Public calls

      One constructor per public method of include/particle.h; used to speak about
      arbitrary call histories. *)
  Inductive pcall : Type :=
  | CSetMass (mass : T)
  | CSetMomentum (q : mom num)
  | CUpdate
  | CMass
  | CGetMomentum (mu : Z)
  | CTestAngles
  | CMat (k : matkey)
  | CSpinor0 (d : side)
  | CSpinor1 (d : side) (spin2 : Z)
  | CSpinor2 (d : side) (spin2 : Z) (upper : bool)
  | CSpinorMatrix (d : side) (upper : bool)
  | CGenerator (g : generator).

  Inductive pval : Type :=
  | VUnit
  | VNum (x : T)
  | VBool (b : bool)
  | VVec (v : cvector)
  | VMat (m : cmatrix).

  Definition smap {S A B} (f : A -> B) (x : ST S A) : ST S B := do a <- x; sret (f a).
  Definition sconst {S A} (f : S -> outcome A) : ST S A := fun s => (f s, s).

  Definition mat_accessor (k : matkey) : ST particle cmatrix :=
    match k with UpMat => umat | LoMat => lmat end.

  Definition pstep (o : pcall) : ST particle pval :=
    match o with
    | CSetMass mass => smap (fun _ => VUnit) (set_mass mass)
    | CSetMomentum q => smap (fun _ => VUnit) (set_momentum q)
    | CUpdate => smap (fun _ => VUnit) update
    | CMass => smap VNum (sconst mass)
    | CGetMomentum mu => smap VNum (sconst (fun P => get_momentum P mu))
    | CTestAngles => smap VBool (sconst test_angles)
    | CMat k => smap VMat (mat_accessor k)
    | CSpinor0 d => smap VVec (spinor0 d)
    | CSpinor1 d j => smap VVec (spinor1 d j)
    | CSpinor2 d j u => smap VVec (spinor2 d j u)
    | CSpinorMatrix d u => smap VMat (spinor_matrix d u)
    | CGenerator g => smap VMat (sconst (generator_matrix g))
    end.

  (** A history of calls on one object, exceptions being caught by the caller; the
      list of everything returned or thrown, and the final state. *)
  Fixpoint prun (h : list pcall) (P : particle) : list (outcome pval) * particle :=
    match h with
    | [] => ([], P)
    | o :: h' => let (r, P') := pstep o P in
                 let (rs, P'') := prun h' P' in (r :: rs, P'')
    end.

  (** The calls that do not set anything. *)
  Definition is_accessor (o : pcall) : bool :=
    match o with CSetMass _ | CSetMomentum _ | CUpdate => false | _ => true end.
End Particle.
Arguments particle : clear implicits.
Arguments pcall : clear implicits.
Arguments pval : clear implicits.
