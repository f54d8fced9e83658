(** * The language of the test functions test_* (SM/*.cpp, user-dir/eemm.cpp)

    Every test function is a straight line: local variables of type ldouble, one process
    object, set_masses calls, reference tables, and calls of the harness (Harness.v).
    tools/tests.py turns each of them into a list of the statements below (SMTests.v).

    Simplifications:
    - The reference tables are arguments: [tables k] is the k-th table of the function.
    - Printing is left out.  The counter i is the result; n+=i adds it to zero.
    - [X xAmp = X(...)] builds the object in place (copy elision). *)
From Coq Require Import QArith.
From Verif Require Import Base Scalar Linear Integers Utilities Particle Sproduct Propagator Process Lang SMNames Harness.
Close Scope Q_scope.
Open Scope st_scope.

(** expressions of type ldouble; a literal or an int is converted where it meets one *)
Inductive tx : Type :=
| XInt (z : Z) | XLit (q : Q) | XVar (x : id) | XOp (a : aop) (e f : tx) | XSqrt (e : tx).

(** test_2to2_amp2, ..._rotations, ..._boosts, ..._boosts_and_rotations *)
Inductive hk : Type := HLab | HRot | HBoost | HBoth.

Inductive tstmt : Type :=
| TLoc (x : id) (e : tx)                     (* ldouble x=e; x = e; *)
| TNew (args : list tx)                      (* X xAmp = X(args); *)
| TSet (m : id) (args : list tx)             (* xAmp.set_masses(args); *)
| TRuns (m1 m2 m3 m4 p : tx) (runs : list (hk * id * nat)).
    (* for each (h,f,k): i += xAmp.h([&]() { return xAmp.f(); }, m1,m2,m3,m4,p,table k); *)

Record test : Type := mkTest { t_cls : cls; t_prog : list tstmt }.

Section Tests.
  Context {num : Num}.
  Notation T := (T num).
  Notation obj := (obj num).
  Variable junk : id -> nat -> T.        (* what uninitialised members hold *)
  Variable fuel : nat.                   (* for the loop of boost_random_test_momenta *)
  Variable tables : nat -> list T.
  Variable c : cls.

  Fixpoint xeval (vars : id -> option T) (e : tx) : outcome T :=
    match e with
    | XInt z => Ok (tZ z)
    | XLit q => Ok (lit q)
    | XVar x => match vars x with Some v => Ok v | None => UB ReadIndeterminate end
    | XOp a e f => let! x := xeval vars e in let! y := xeval vars f in Ok (aopT a x y)
    | XSqrt e => let! x := xeval vars e in Ok (tsqrt x)
    end.
  Fixpoint xevals (vars : id -> option T) (l : list tx) : outcome (list T) :=
    match l with
    | [] => Ok []
    | e :: l' => let! x := xeval vars e in let! xs := xevals vars l' in Ok (x :: xs)
    end.

  (** the virtual set_momenta and the callable of the harness, on the object *)
  Definition proc_momenta (q1 q2 q3 q4 : mom num) : ST obj unit :=
    callm junk c n_set_momenta [GMom q1; GMom q2; GMom q3; GMom q4] ;; sret tt.
  Definition proc_amp2 (f : id) : ST obj T :=
    do r <- callm junk c f [];
    match r with Some (RtT x) => sret x | _ => slift (UB TypeMismatch) end.

  Definition harness (h : hk) (f : id) : T -> T -> T -> T -> T -> list T -> ST (obj * stream num) Z :=
    match h with
    | HLab => test_2to2_amp2 proc_momenta (proc_amp2 f)
    | HRot => test_2to2_amp2_rotations proc_momenta (proc_amp2 f)
    | HBoost => test_2to2_amp2_boosts proc_momenta (proc_amp2 f) fuel
    | HBoth => test_2to2_amp2_boosts_and_rotations proc_momenta (proc_amp2 f) fuel
    end.
  Fixpoint run_all (m1 m2 m3 m4 p : T) (runs : list (hk * id * nat)) (i : Z) : ST (obj * stream num) Z :=
    match runs with
    | [] => sret i
    | (h, f, k) :: runs' =>
        do z <- harness h f m1 m2 m3 m4 p (tables k);
        do i' <- slift (int_add i z);
        run_all m1 m2 m3 m4 p runs' i'
    end.

  (** the local variables, the object once it exists, the random numbers to come *)
  Record tst : Type := mkTst { ts_vars : id -> option T; ts_obj : option obj; ts_rng : stream num }.
  Definition tstep (s : tstmt) (i : Z) : ST tst Z := fun t =>
    match s with
    | TLoc x e =>
        match xeval (ts_vars t) e with
        | Ok v => (Ok i, mkTst (upd (ts_vars t) x (Some v)) (ts_obj t) (ts_rng t))
        | Exn e => (Exn e, t) | UB u => (UB u, t)
        end
    | TNew args =>
        match xevals (ts_vars t) args with
        | Ok vs => match construct junk c vs with
                   | (Ok _, o) => (Ok i, mkTst (ts_vars t) (Some o) (ts_rng t))
                   | (Exn e, _) => (Exn e, t) | (UB u, _) => (UB u, t)
                   end
        | Exn e => (Exn e, t) | UB u => (UB u, t)
        end
    | TSet m args =>
        match xevals (ts_vars t) args, ts_obj t with
        | Ok vs, Some o => let (r, o') := callm junk c m (map GT vs) o in
                           (omap (fun _ => i) r, mkTst (ts_vars t) (Some o') (ts_rng t))
        | Ok _, None => (UB BadPointer, t)
        | Exn e, _ => (Exn e, t) | UB u, _ => (UB u, t)
        end
    | TRuns m1 m2 m3 m4 p runs =>
        match xevals (ts_vars t) [m1; m2; m3; m4; p], ts_obj t with
        | Ok [m1; m2; m3; m4; p], Some o =>
            let (r, og) := run_all m1 m2 m3 m4 p runs i (o, ts_rng t) in
            (r, mkTst (ts_vars t) (Some (fst og)) (snd og))
        | Ok _, _ => (UB BadPointer, t)
        | Exn e, _ => (Exn e, t) | UB u, _ => (UB u, t)
        end
    end.
  Fixpoint texec (l : list tstmt) (i : Z) : ST tst Z :=
    match l with
    | [] => sret i
    | s :: l' => do i' <- tstep s i; texec l' i'
    end.
  Definition tstart (g : stream num) : tst := mkTst (fun _ => None) None g.
End Tests.
Arguments tst : clear implicits.

(** a test function: its result, and the random numbers left *)
Definition run_test {num : Num} (junk : id -> nat -> T num) (fuel : nat) (tables : nat -> list (T num)) (t : test)
  : ST (stream num) Z := fun g =>
  let (r, s) := texec junk fuel tables (t_cls t) (t_prog t) 0%Z (tstart g) in (r, ts_rng s).

(** main: SM/test.cpp 172-343: j = test_...(); if(j>0) n++; [env k] is what the k-th test finds *)
Fixpoint run_main {num : Num} (env : nat -> (id -> nat -> T num) * (nat -> list (T num))) (fuel k : nat) (l : list test) (n : Z)
  : ST (stream num) Z :=
  match l with
  | [] => sret n
  | t :: l' =>
      do j <- run_test (fst (env k)) fuel (snd (env k)) t;
      do n' <- slift (if (j >? 0)%Z then int_add n 1 else Ok n);
      run_main env fuel (S k) l' n'
  end.
