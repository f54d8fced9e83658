(** * The language of the process classes (SM/*.cpp, SM/include/*.h)

    The 141 classes in SM and the example in user-dir use a small part of C++.  tools/translate.py turns each of them
    into an abstract syntax tree of the types below (files SM*.v); nothing is evaluated or
    simplified there, only the implicit arithmetic conversions are written out.  This file
    gives the trees their meaning.

    Simplifications:
    - Operands are evaluated from left to right (C++ leaves the order open).
    - [std::cout << ...] does nothing.
    - A copy of an object with uninitialised members copies them without a read. *)
From Coq Require Import QArith String.
From Verif Require Import Base Scalar Linear Integers Particle Sproduct Propagator Process.
Close Scope Q_scope.
Open Scope st_scope.

(** Names of variables, members and methods; SMNames.v lists them. *)
Definition id : Type := positive.

(** Types of expressions: bool, int, double, ldouble, cdouble, cvector, cmatrix. *)
Inductive ty : Type := yB | yI | yD | yT | yC | yV | yM.

(** An int argument or index: a local variable or a literal. *)
Inductive atom : Type := AVar (x : id) | ALit (z : Z).

Inductive aop : Type := Add | Sub | Mul | Div.
Inductive iop : Type := IAdd | ISub | IMul.
Inductive cop : Type := CLt | CGt | CLe | CEq.

(** Unary operators, conversions and one-argument functions. *)
Inductive unop : ty -> ty -> Type :=
| NegI : unop yI yI | NegD : unop yD yD | NegT : unop yT yT | NegC : unop yC yC
| I2D : unop yI yD | I2T : unop yI yT | D2T : unop yD yT | T2C : unop yT yC
| SqrtD : unop yD yD                 (* std::sqrt(double) *)
| SqrtT : unop yT yT                 (* std::sqrt(ldouble) *)
| Pow2T : unop yT yT                 (* std::pow(ldouble,2) *)
| AbsC : unop yC yT                  (* std::abs(cdouble) *)
| ReC : unop yC yT                   (* std::real *)
| ConjC : unop yC yC.                (* std::conj *)

(** Binary operators: one constructor per overload. *)
Inductive binop : ty -> ty -> ty -> Type :=
| OpI (a : iop) : binop yI yI yI
| OpD (a : aop) : binop yD yD yD
| OpT (a : aop) : binop yT yT yT
| OpC (a : aop) : binop yC yC yC
| OpCT (a : aop) : binop yC yT yC
| OpTC (a : aop) : binop yT yC yC
| CmpI (c : cop) : binop yI yI yB
| OpTTC : binop yT yT yC             (* cdouble(re,im) *)
| OpVM : binop yV yM yV              (* cvector * cmatrix *)
| OpVV : binop yV yV yC.             (* cvector * cvector *)

Inductive exp : ty -> Type :=
| EInt (z : Z) : exp yI
| ELit (q : Q) : exp yD
| ELocI (x : id) : exp yI
| ELocT (x : id) : exp yT
| ELocC (x : id) : exp yC
| EMemT (x : id) : exp yT
| EMemC (x : id) : exp yC
| EArrT (x : id) (i : atom) : exp yT              (* x[i] *)
| EArrC (x : id) (is : list atom) : exp yC        (* x[i] or x[i][j] *)
| EUn {a b} (o : unop a b) (e : exp a) : exp b
| EBin {a b c} (o : binop a b c) (e : exp a) (f : exp b) : exp c
| EAnd (e f : exp yB) : exp yB
| EOr (e f : exp yB) : exp yB
| EV (s : id) (args : list atom) : exp yC         (* s.v(args) *)
| EDen (r : id) (x : id) : exp yC                 (* r.denominator(x) *)
| ECall (m : id) (args : list atom) : exp yC      (* another method of the object *)
| ENLoops (args : list atom) : exp yI             (* get_num_spin_loops(args) *)
| ENorm (args : list atom) : exp yT               (* get_spin_normalization(args) *)
| ESpinor0 (p : addr) (d : side) : exp yV         (* p.rangle() ... *)
| ESpinor1 (p : addr) (d : side) (e : exp yI) : exp yV
| EMat (p : addr) (upper : bool) : exp yM.        (* p.umat(), p.lmat() *)

Inductive rty : Type := rI | rT | rC.
Definition ty_of (r : rty) : ty := match r with rI => yI | rT => yT | rC => yC end.

Inductive stmt : Type :=
| SSkip
| SSeq (s1 s2 : stmt)
| SDecl (r : rty) (x : id)                                    (* int x; *)
| SLoc (r : rty) (x : id) (e : exp (ty_of r))                 (* x = e; int x = e; *)
| SMemT (x : id) (e : exp yT)
| SMemC (x : id) (e : exp yC)
| SDeclT (x : id) (n : nat)                                   (* ldouble x[n]; *)
| SDeclC (x : id) (dims : list nat)                           (* cdouble x[2][2]; *)
| SArrT (x : id) (i : atom) (e : exp yT)                      (* x[i] = e; *)
| SArrC (x : id) (is : list atom) (e : exp yC)
| SIf (b : exp yB) (s1 s2 : stmt)
| SFor (x : id) (lo : exp yI) (cond : exp yB) (next : exp yI) (s : stmt)  (* for(int x=lo;cond;x=next) s *)
| SReturnT (e : exp yT)
| SReturnC (e : exp yC)
| SThrow (e : exn)
| SParticle (p : addr) (m : exp yT)                           (* p = particle(m); *)
| SSetMass (p : addr) (m : exp yT)
| SSetMomentum (p : addr) (x : id)
| SPropNew (r : id) (m w : exp yT)                               (* r = propagator(m,w); *)
| SPropMass (r : id) (m : exp yT)
| SSprod (s : id) (angle : bool) (pL : addr) (mid : list addr) (pR : addr)
                                                              (* s = sproduct(ANGLE,&pL,...,&pR); *)
| SUpdate (s : id)
| SSpins (args : list (id * id * id)) (i : atom).             (* get_spinor_spins(ds,dsa,dsb,...,i) *)

(** Data members, in the order in which the class declares (and so initialises) them. *)
Inductive mkind : Type := KT | KC | KProp | KSprod | KPart (p : addr).
Inductive minit : Type :=
| NT (e : exp yT)
| NProp (m w : exp yT)
| NProp0
| NPart (m : exp yT)
| NSprod (angle : bool) (pL : addr) (mid : list addr) (pR : addr).

Inductive pkind : Type := PkI | PkT | PkMom.
Record meth : Type := mkMeth {
  m_name : id;
  m_params : list (id * pkind);
  m_body : stmt }.

Record cls : Type := mkCls {
  c_name : string;
  c_members : list (id * mkind);
  c_params : list id;                   (* of the constructor, all const ldouble& *)
  c_inits : list (id * minit);          (* the member initialisers as written *)
  c_body : stmt;                        (* the body of the constructor *)
  c_methods : list meth }.

Definition find_init (l : list (id * minit)) (x : id) : option minit :=
  option_map snd (find (fun p => Pos.eqb (fst p) x) l).
Definition find_meth (c : cls) (m : id) : option meth :=
  find (fun f => Pos.eqb (m_name f) m) (c_methods c).

(** More iterations than any loop of the classes makes; a loop that is not done by then
    would be reported as [LoopNotDone]. *)
Definition loop_fuel : nat := 64.

Definition upd {A} (f : id -> A) (x : id) (v : A) : id -> A :=
  fun y => if Pos.eqb x y then v else f y.

(** the position of x[i1]...[ik] in an array with the given dimensions *)
Fixpoint flat_index (dims : list nat) (is : list Z) (acc : nat) : outcome nat :=
  match dims, is with
  | [], [] => Ok acc
  | n :: dims', i :: is' =>
      if (0 <=? i)%Z && (i <? Z.of_nat n)%Z then flat_index dims' is' (acc * n + Z.to_nat i)
      else UB BadIndex
  | _, _ => UB TypeMismatch
  end.

Fixpoint number {A} (k : nat) (l : list A) : list (iaddr * iaddr * iaddr) :=
  match l with [] => [] | _ :: l' => (k, S k, S (S k)) :: number (S (S (S k))) l' end.
Definition flat3 (l : list (id * id * id)) : list id :=
  flat_map (fun t => [fst (fst t); snd (fst t); snd t]) l.

Definition iop_sem (a : iop) (x y : Z) : outcome Z :=
  int_res match a with IAdd => x + y | ISub => x - y | IMul => x * y end%Z.
Definition cop_sem (c : cop) (x y : Z) : bool :=
  match c with CLt => x <? y | CGt => x >? y | CLe => x <=? y | CEq => x =? y end%Z.

Section Lang.
  Context {num : Num}.
  Notation T := (T num).
  Notation CX := (CX num).
  Notation cell := (cell num).

  Definition val (t : ty) : Type :=
    match t with
    | yB => bool | yI => Z | yD => D num | yT => T | yC => CX
    | yV => cvector num | yM => cmatrix num
    end.

  (** A process object. *)
  Record obj : Type := mkObj {
    o_T : id -> cell;                   (* ldouble members *)
    o_C : id -> CX;                     (* cdouble members; their constructor zeroes them *)
    o_R : id -> propagator num;
    o_S : id -> sproduct num;
    o_heap : heap num }.                (* the particles p1 ... p4 *)

  (** The local variables of a method. *)
  Record env : Type := mkEnv {
    l_I : id -> option Z;               (* None: not initialised *)
    l_T : id -> cell;
    l_C : id -> CX;
    l_aT : id -> list cell;
    l_aC : id -> list nat * list CX }.

  Definition st : Type := (obj * env)%type.

  Inductive arg : Type := GI (z : Z) | GT (x : T) | GMom (q : mom num).
  Inductive ret : Type := RtT (x : T) | RtC (x : CX).

  Definition geto {A} (f : obj -> A) : ST st A := fun s => (Ok (f (fst s)), s).
  Definition getl {A} (f : env -> A) : ST st A := fun s => (Ok (f (snd s)), s).
  Definition modo (f : obj -> obj) : ST st unit := fun s => (Ok tt, (f (fst s), snd s)).
  Definition modl (f : env -> env) : ST st unit := fun s => (Ok tt, (fst s, f (snd s))).
  Definition ono {A} (f : ST obj A) : ST st A := fun s =>
    let (r, o) := f (fst s) in (r, (o, snd s)).

  Definition u_T x v (o : obj) := mkObj (upd (o_T o) x v) (o_C o) (o_R o) (o_S o) (o_heap o).
  Definition u_C x v (o : obj) := mkObj (o_T o) (upd (o_C o) x v) (o_R o) (o_S o) (o_heap o).
  Definition u_R x v (o : obj) := mkObj (o_T o) (o_C o) (upd (o_R o) x v) (o_S o) (o_heap o).
  Definition u_S x v (o : obj) := mkObj (o_T o) (o_C o) (o_R o) (upd (o_S o) x v) (o_heap o).
  Definition u_heap h (o : obj) := mkObj (o_T o) (o_C o) (o_R o) (o_S o) h.
  Definition w_I x v (l : env) := mkEnv (upd (l_I l) x v) (l_T l) (l_C l) (l_aT l) (l_aC l).
  Definition w_T x v (l : env) := mkEnv (l_I l) (upd (l_T l) x v) (l_C l) (l_aT l) (l_aC l).
  Definition w_C x v (l : env) := mkEnv (l_I l) (l_T l) (upd (l_C l) x v) (l_aT l) (l_aC l).
  Definition w_aT x v (l : env) := mkEnv (l_I l) (l_T l) (l_C l) (upd (l_aT l) x v) (l_aC l).
  Definition w_aC x v (l : env) := mkEnv (l_I l) (l_T l) (l_C l) (l_aT l) (upd (l_aC l) x v).

  (** a call on particle p *)
  Definition on_part {A} (p : addr) (f : ST (particle num) A) : ST obj A := fun o =>
    match nth_error (o_heap o) p with
    | Some P => let (r, P') := f P in (r, u_heap (hset (o_heap o) p P') o)
    | None => (UB BadPointer, o)
    end.
  (** a call on sproduct s *)
  Definition on_sprod {A} (s : id) (f : ST (store num) A) : ST obj A := fun o =>
    match f (o_heap o, o_S o s) with
    | (r, (h, sp)) => (r, u_S s sp (u_heap h o))
    end.

  (** ** Operators *)
  Definition aopD (a : aop) : D num -> D num -> D num :=
    match a with Add => dadd | Sub => dsub | Mul => dmul | Div => ddiv end.
  Definition aopT (a : aop) : T -> T -> T :=
    match a with Add => tadd | Sub => tsub | Mul => tmul | Div => tdiv end.
  Definition aopC (a : aop) : CX -> CX -> CX :=
    match a with Add => cadd | Sub => csub | Mul => cmul | Div => cdiv end.
  Definition aopCT (a : aop) : CX -> T -> CX :=
    match a with Add => caddt | Sub => csubt | Mul => cmult | Div => cdivt end.
  Definition aopTC (a : aop) : T -> CX -> CX :=
    match a with Add => taddc | Sub => tsubc | Mul => tmulc | Div => tdivc end.

  Definition un_sem {a b} (o : unop a b) : val a -> outcome (val b) :=
    match o in unop a b return val a -> outcome (val b) with
    | NegI => fun x => int_res (- x)
    | NegD => fun x => Ok (dopp x)
    | NegT => fun x => Ok (topp x)
    | NegC => fun x => Ok (copp x)
    | I2D => fun x => Ok (dQ (inject_Z x))
    | I2T => fun x => Ok (tZ x)
    | D2T => fun x => Ok (tD x)
    | T2C => fun x => Ok (cT x)
    | SqrtD => fun x => Ok (dsqrt x)
    | SqrtT => fun x => Ok (tsqrt x)
    | Pow2T => fun x => Ok (tpow2 x)
    | AbsC => fun x => Ok (cabs x)
    | ReC => fun x => Ok (cre x)
    | ConjC => fun x => Ok (cconj x)
    end.
  Definition bin_sem {a b c} (o : binop a b c) : val a -> val b -> outcome (val c) :=
    match o in binop a b c return val a -> val b -> outcome (val c) with
    | OpI a => fun x y => iop_sem a x y
    | OpD a => fun x y => Ok (aopD a x y)
    | OpT a => fun x y => Ok (aopT a x y)
    | OpC a => fun x y => Ok (aopC a x y)
    | OpCT a => fun x y => Ok (aopCT a x y)
    | OpTC a => fun x y => Ok (aopTC a x y)
    | CmpI c => fun x y => Ok (cop_sem c x y)
    | OpTTC => fun x y => Ok (cmk x y)
    | OpVM => fun x y => Ok (cv_mul_cm x y)
    | OpVV => fun x y => Ok (cv_dot x y)
    end.

  (** ** Expressions *)
  Definition rdI (x : id) (l : env) : outcome Z :=
    match l_I l x with Some z => Ok z | None => UB ReadIndeterminate end.
  Definition atom_sem (a : atom) (l : env) : outcome Z :=
    match a with AVar x => rdI x l | ALit z => Ok z end.
  Fixpoint atoms_sem (la : list atom) (l : env) : outcome (list Z) :=
    match la with
    | [] => Ok []
    | a :: la' => let! z := atom_sem a l in let! zs := atoms_sem la' l in Ok (z :: zs)
    end.
  Definition idx (z : Z) : outcome nat := if (z <? 0)%Z then UB BadIndex else Ok (Z.to_nat z).

  (** s.v(...): the overload is chosen by the number of arguments *)
  Definition v_sem (s : id) (args : list Z) : ST obj CX :=
    match args with
    | [] => on_sprod s v0
    | [z] => on_sprod s (v1 z)
    | [z; z'] => on_sprod s (v2 z z')
    | _ => slift (UB TypeMismatch)
    end.

  Definition read4 (l : list cell) : outcome (mom num) :=
    match l with
    | [a; b; c; d] => let! a := rd a in let! b := rd b in let! c := rd c in let! d := rd d in
                      Ok (V4 a b c d)
    | _ => UB TypeMismatch
    end.

  (** [call]: what a call of another method of the object does.  [junk x k]: the bit
      pattern found in the k-th scalar of the uninitialised variable x. *)
  Variable junk : id -> nat -> T.
  Variable call : id -> list arg -> ST obj (option ret).

  Fixpoint eval {t} (e : exp t) : ST st (val t) :=
    match e in exp t return ST st (val t) with
    | EInt z => sret z
    | ELit q => sret (dQ q)
    | ELocI x => do l <- getl (fun l => l); slift (rdI x l)
    | ELocT x => do c <- getl (fun l => l_T l x); slift (rd c)
    | ELocC x => getl (fun l => l_C l x)
    | EMemT x => do c <- geto (fun o => o_T o x); slift (rd c)
    | EMemC x => geto (fun o => o_C o x)
    | EArrT x i =>
        do l <- getl (fun l => l);
        do z <- slift (atom_sem i l);
        slift (let! k := idx z in let! c := arr_get (l_aT l x) k in rd c)
    | EArrC x is =>
        do l <- getl (fun l => l);
        do zs <- slift (atoms_sem is l);
        slift (let! k := flat_index (fst (l_aC l x)) zs 0 in arr_get (snd (l_aC l x)) k)
    | EUn o e => do x <- eval e; slift (un_sem o x)
    | EBin o e f => do x <- eval e; do y <- eval f; slift (bin_sem o x y)
    | EAnd e f => do x <- eval e; if x then eval f else sret false
    | EOr e f => do x <- eval e; if x then sret true else eval f
    | EV s args => do l <- getl (fun l => l); do zs <- slift (atoms_sem args l); ono (v_sem s zs)
    | EDen r x =>
        do a <- getl (fun l => l_aT l x);
        do q <- slift (read4 a);
        do pr <- geto (fun o => o_R o r);
        sret (denominator pr q)
    | ECall m args =>
        do l <- getl (fun l => l);
        do zs <- slift (atoms_sem args l);
        do r <- ono (call m (map GI zs));
        match r with Some (RtC x) => sret x | _ => slift (UB TypeMismatch) end
    | ENLoops args => do l <- getl (fun l => l); do zs <- slift (atoms_sem args l); slift (num_spin_loops_of zs)
    | ENorm args => do l <- getl (fun l => l); do zs <- slift (atoms_sem args l); slift (spin_normalization_of zs)
    | ESpinor0 p d => ono (on_part p (spinor0 d))
    | ESpinor1 p d e => do s <- eval e; ono (on_part p (spinor1 d s))
    | EMat p upper => ono (on_part p (if upper then umat else lmat))
    end.

  (** ** Statements: [Some r] when the method returned r *)
  Definition set_loc (r : rty) (x : id) : val (ty_of r) -> env -> env :=
    match r return val (ty_of r) -> env -> env with
    | rI => fun v => w_I x (Some v)
    | rT => fun v => w_T x (Val v)
    | rC => fun v => w_C x v
    end.
  Definition decl_loc (r : rty) (x : id) : env -> env :=
    match r with
    | rI => w_I x None
    | rT => w_T x (Indet (junk x 0))
    | rC => w_C x c0
    end.
  Fixpoint prod_dims (dims : list nat) : nat :=
    match dims with [] => 1 | n :: dims' => n * prod_dims dims' end.

  Fixpoint loop (fuel : nat) (x : id) (cond : exp yB) (next : exp yI) (body : ST st (option ret))
    : ST st (option ret) :=
    match fuel with
    | O => slift (UB LoopNotDone)
    | S fuel' =>
        do b <- eval cond;
        if b then
          do r <- body;
          match r with
          | Some _ => sret r
          | None => do z <- eval next; modl (w_I x (Some z)) ;; loop fuel' x cond next body
          end
        else sret None
    end.

  (** get_spinor_spins gets references to the variables, which are all different: the
      k-th variable of the call has address k. *)
  Definition spins_sem (args : list (id * id * id)) (i : Z) (l : env) : outcome env :=
    let vars := flat3 args in
    let! M := spinor_spins_of (number 0 args) i
                (fun k => match nth_error vars k with Some x => l_I l x | None => None end) in
    Ok (fold_left (fun l kx => w_I (snd kx) (M (fst kx)) l) (combine (seq 0 (List.length vars)) vars) l).

  (** s = sproduct(ANGLE/SQUARE,&pL,...,&pR): no index arguments are ever given *)
  Definition make_sprod (s : id) (angle : bool) (pL : addr) (mid : list addr) (pR : addr) : ST obj unit :=
    fun o =>
      match sp_construct angle pL true mid pR true (o_heap o) with
      | (Ok _, (h, sp)) => (Ok tt, u_S s sp (u_heap h o))
      | (Exn e, (h, _)) => (Exn e, u_heap h o)
      | (UB u, (h, _)) => (UB u, u_heap h o)
      end.

  Definition void (x : ST st unit) : ST st (option ret) := x ;; sret None.

  Fixpoint exec (s : stmt) : ST st (option ret) :=
    match s with
    | SSkip => sret None
    | SSeq s1 s2 => do r <- exec s1; match r with Some _ => sret r | None => exec s2 end
    | SDecl r x => void (modl (decl_loc r x))
    | SLoc r x e => do v <- eval e; void (modl (set_loc r x v))
    | SMemT x e => do v <- eval e; void (modo (u_T x (Val v)))
    | SMemC x e => do v <- eval e; void (modo (u_C x v))
    | SDeclT x n => void (modl (w_aT x (map (fun k => Indet (junk x k)) (seq 0 n))))
    | SDeclC x dims => void (modl (w_aC x (dims, repeat c0 (prod_dims dims))))
    | SArrT x i e =>
        do v <- eval e;
        do l <- getl (fun l => l);
        do z <- slift (atom_sem i l);
        do a <- slift (let! k := idx z in arr_set (l_aT l x) k (Val v));
        void (modl (w_aT x a))
    | SArrC x is e =>
        do v <- eval e;
        do l <- getl (fun l => l);
        do zs <- slift (atoms_sem is l);
        do a <- slift (let! k := flat_index (fst (l_aC l x)) zs 0 in arr_set (snd (l_aC l x)) k v);
        void (modl (w_aC x (fst (l_aC l x), a)))
    | SIf b s1 s2 => do x <- eval b; if x then exec s1 else exec s2
    | SFor x lo cond next s =>
        do z <- eval lo;
        modl (w_I x (Some z)) ;;
        loop loop_fuel x cond next (exec s)
    | SReturnT e => do x <- eval e; sret (Some (RtT x))
    | SReturnC e => do x <- eval e; sret (Some (RtC x))
    | SThrow e => sthrow e
    | SParticle p m =>
        do x <- eval m;
        void (ono (on_part p (modify (fun _ => particle_mass (fun k => junk xH (9 * p + k)) x))))
    | SSetMass p m => do x <- eval m; void (ono (on_part p (set_mass x)))
    | SSetMomentum p x =>
        do a <- getl (fun l => l_aT l x);
        do q <- slift (read4 a);
        void (ono (on_part p (set_momentum q)))
    | SPropNew r m w => do x <- eval m; do y <- eval w; void (modo (u_R r (propagator_new x y)))
    | SPropMass r m => do x <- eval m; void (modo (fun o => u_R r (pr_set_mass x (o_R o r)) o))
    | SSprod s angle pL mid pR => void (ono (make_sprod s angle pL mid pR))
    | SUpdate s => void (ono (on_sprod s sp_update))
    | SSpins args i =>
        do l <- getl (fun l => l);
        do z <- slift (atom_sem i l);
        do l' <- slift (spins_sem args z l);
        void (modl (fun _ => l'))
    end.

  (** ** Calling a method *)
  Definition env0 : env :=
    mkEnv (fun _ => None) (fun x => Indet (junk x 0)) (fun _ => c0) (fun _ => []) (fun _ => ([], [])).
  Definition bind_arg (p : id * pkind) (a : arg) (l : env) : outcome env :=
    match snd p, a with
    | PkI, GI z => Ok (w_I (fst p) (Some z) l)
    | PkT, GT x => Ok (w_T (fst p) (Val x) l)
    | PkMom, GMom q => Ok (w_aT (fst p) [Val (v_0 q); Val (v_1 q); Val (v_2 q); Val (v_3 q)] l)
    | _, _ => UB TypeMismatch
    end.
  Fixpoint bind_args (ps : list (id * pkind)) (args : list arg) (l : env) : outcome env :=
    match ps, args with
    | [], [] => Ok l
    | p :: ps', a :: args' => let! l' := bind_arg p a l in bind_args ps' args' l'
    | _, _ => UB TypeMismatch
    end.
  Definition invoke (f : meth) (args : list arg) : ST obj (option ret) := fun o =>
    match bind_args (m_params f) args env0 with
    | Ok l => match exec (m_body f) (o, l) with (r, (o', _)) => (r, o') end
    | Exn e => (Exn e, o)
    | UB u => (UB u, o)
    end.
End Lang.
Arguments obj : clear implicits.
Arguments env : clear implicits.
Arguments st : clear implicits.
Arguments arg : clear implicits.
Arguments ret : clear implicits.
Arguments val : clear implicits.

Section Class.
  Context {num : Num}.
  Notation T := (T num).
  Variable junk : id -> nat -> T.
  Variable c : cls.

  (** A method called from outside may call other methods of the object; none of those
      calls a further one. *)
  Fixpoint run (depth : nat) (m : id) (args : list (arg num)) : ST (obj num) (option (ret num)) :=
    match depth with
    | O => slift (UB TypeMismatch)
    | S d => match find_meth c m with
             | Some f => invoke junk (run d) f args
             | None => slift (UB TypeMismatch)
             end
    end.
  Definition callm (m : id) (args : list (arg num)) : ST (obj num) (option (ret num)) := run 2 m args.

  (** *** Construction: memory as found, then the members in declaration order, then the
      body. *)
  Definition raw : obj num :=
    mkObj (fun x => Indet (junk x 0)) (fun _ => c0) (fun _ => propagator_default)
      (fun _ => sproduct_default)
      (map (fun p => particle_default (fun k => junk xH (9 * p + k))) (seq 0 4)).

  Definition no_call : id -> list (arg num) -> ST (obj num) (option (ret num)) :=
    fun _ _ => slift (UB TypeMismatch).
  Definition init_member (x : id) (k : mkind) (i : option minit) : ST (st num) unit :=
    match k, i with
    | _, None => sret tt                           (* default initialisation, see [raw] *)
    | KT, Some (NT e) => do v <- eval no_call e; modo (u_T x (Val v))
    | KProp, Some (NProp m w) =>
        do a <- eval no_call m; do b <- eval no_call w; modo (u_R x (propagator_new a b))
    | KProp, Some NProp0 => modo (u_R x propagator_default)
    | KPart p, Some (NPart m) =>
        do a <- eval no_call m;
        ono (on_part p (modify (fun _ => particle_mass (fun k => junk xH (9 * p + k)) a)))
    | KSprod, Some (NSprod angle pL mid pR) => ono (make_sprod x angle pL mid pR)
    | _, _ => slift (UB TypeMismatch)
    end.
  Fixpoint init_members (ms : list (id * mkind)) : ST (st num) unit :=
    match ms with
    | [] => sret tt
    | (x, k) :: ms' => init_member x k (find_init (c_inits c) x) ;; init_members ms'
    end.
  Definition construct (params : list T) : outcome unit * obj num :=
    match bind_args (map (fun x => (x, PkT)) (c_params c)) (map GT params) (env0 junk) with
    | Ok l =>
        match (init_members (c_members c) ;; do _ <- exec junk no_call (c_body c); sret tt) (raw, l) with
        | (r, (o, _)) => (r, o)
        end
    | Exn e => (Exn e, raw)
    | UB u => (UB u, raw)
    end.

  (** *** A history of calls on an object: what each returned or threw, and the object *)
  Inductive ocall : Type := OCall (m : id) (args : list (arg num)).
  Definition ostep (k : ocall) (o : obj num) : outcome (option (ret num)) * obj num :=
    match k with OCall m args => callm m args o end.
  Fixpoint orun (h : list ocall) (o : obj num) : list (outcome (option (ret num))) * obj num :=
    match h with
    | [] => ([], o)
    | k :: h' => let (r, o') := ostep k o in let (rs, o'') := orun h' o' in (r :: rs, o'')
    end.
End Class.
Arguments ocall : clear implicits.
Arguments OCall {num}.
