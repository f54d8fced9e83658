(** * Process classes in x87 extended arithmetic: concrete runs

    Used for examples and counterexamples.  The C library functions are right for the
    multiples of pi/4 from 0 to pi, which are all that momenta along the x and z axes need. *)
From Coq Require Import ZArith QArith.
From Flocq Require Import Core BinarySingleNaN.
From Verif Require Import Base Scalar IEEE Linear Integers Particle Sproduct Propagator Process Lang SMNames.
Close Scope Q_scope.
Open Scope Z_scope.

Definition F80 : Type := binary_float 64 16384.
Definition fz (n : Z) : F80 := fof 64 16384 Hp64 He64 n.
(** pi rounded: 14488038916154245685 / 2^62; its half; the root of 1/2 *)
Definition fpi : F80 := binary_normalize 64 16384 Hp64 He64 mode_NE 14488038916154245685 (-62) false.
Definition fpi2 : F80 := binary_normalize 64 16384 Hp64 He64 mode_NE 14488038916154245685 (-63) false.
Definition fr2 : F80 := fsqrt 64 16384 Hp64 He64 (binary_normalize 64 16384 Hp64 He64 mode_NE 1 (-1) false).
Definition near (x : F80) : Z :=                 (* 0 to 4 eighths of a turn *)
  let ge p e := fge 64 16384 x (binary_normalize 64 16384 Hp64 He64 mode_NE p e false) in
  if ge 3 0 then 4 else if ge 2 0 then 3 else if ge 5 (-2) then 2 else if ge 1 (-1) then 1 else 0.
Definition fneg (x : F80) : F80 := fopp 64 16384 x.
Definition lm_axis : libm F80 := mkLibm F80
  (fun x => match near x with 0 => fz 1 | 1 => fr2 | 2 => fz 0 | 3 => fneg fr2 | _ => fz (-1) end)
  (fun x => match near x with 0 => fz 0 | 1 => fr2 | 2 => fz 1 | 3 => fr2 | _ => fz 0 end)
  (fun y x => if fge 64 16384 x (fz 0) then if fge 64 16384 (fz 0) x then if fge 64 16384 (fz 0) y then fz 0 else fpi2
                                          else fz 0 else fpi)
  (fun x y => fsqrt 64 16384 Hp64 He64 (fadd 64 16384 Hp64 He64 (fmul 64 16384 Hp64 He64 x x) (fmul 64 16384 Hp64 He64 y y))).
Definition XN : Num := LD false lm_axis.
Definition junk0 (_ : id) (_ : nat) : T XN := fz 77.
Definition zmom (e p : Z) : mom XN := V4 (fz e : T XN) (fz 0 : T XN) (fz 0 : T XN) (fz p : T XN).
Definition xmom (e p : Z) : mom XN := V4 (fz e : T XN) (fz p : T XN) (fz 0 : T XN) (fz 0 : T XN).
Definition finite_nonzero (x : F80) : bool := match x with B754_finite _ _ _ _ => true | _ => false end.
(** construction, set_momenta, a method without parameters *)
Definition fnums (l : list Q) : list (T XN) := map (fun q => tD (n:=XN) (dQ (n:=XN) q)) l.
Definition fbuild (c : cls) (params : list Q) : outcome unit * obj XN := construct junk0 c (fnums params).
Definition fmomenta (c : cls) (q : list (mom XN)) (o : obj XN) : outcome (option (ret XN)) * obj XN :=
  callm junk0 c n_set_momenta (map GMom q) o.
Definition fvalue (c : cls) (m : id) (o : obj XN) : option F80 :=
  match fst (callm junk0 c m [] o) with Ok (Some (RtT x)) => Some x | _ => None end.

(** Momenta of a two-to-two process in the centre of mass frame, incoming along z, outgoing
    along x, up to rounding. *)
Definition fkin (m1 m2 m3 m4 p : F80) : list (mom XN) :=
  let add := fadd 64 16384 Hp64 He64 in let sub := fsub 64 16384 Hp64 He64 in
  let mul := fmul 64 16384 Hp64 He64 in let div := fdiv 64 16384 Hp64 He64 in
  let sq x := mul x x in let en m p := fsqrt 64 16384 Hp64 He64 (add (sq m) (sq p)) in
  let e := add (en m1 p) (en m2 p) in
  let d := sub (sub (sq e) (sq m3)) (sq m4) in
  let p' := div (fsqrt 64 16384 Hp64 He64 (sub (sq d) (mul (fz 4) (mul (sq m3) (sq m4))))) (mul (fz 2) e) in
  [V4 (en m1 p : T XN) (fz 0 : T XN) (fz 0 : T XN) (p : T XN);
   V4 (en m2 p : T XN) (fz 0 : T XN) (fz 0 : T XN) (fneg p : T XN);
   V4 (en m3 p' : T XN) (p' : T XN) (fz 0 : T XN) (fz 0 : T XN);
   V4 (en m4 p' : T XN) (fneg p' : T XN) (fz 0 : T XN) (fz 0 : T XN)].
Definition fmass (o : obj XN) (p : nat) : F80 :=
  match nth_error (o_heap o) p with Some P => match pa_m P with Val m => m | Indet _ => fz 0 end | None => fz 0 end.
Definition fmasses (c : cls) (ms : list Q) (o : obj XN) : outcome (option (ret XN)) * obj XN :=
  callm junk0 c n_set_masses (map GT (fnums ms)) o.
(** the two differ by more than a thousandth of the first *)
Definition far (x y : F80) : bool :=
  fgt 64 16384 (fmul 64 16384 Hp64 He64 (fz 1000) (fabs 64 16384 (fsub 64 16384 Hp64 He64 x y))) (fabs 64 16384 x).
