(** * A machine without caches for the language of the process classes

    Used in proofs only.  It runs the same trees as Lang.v, but particles are pairs of a
    mass and a momentum, spinor products are functions of those, and it knows nothing
    about memory it has not seen written: reading such memory stops it with [PNone]
    ("no statement").  PureProofs.v shows that the model of the code does what this
    machine does whenever it gets to the end.

    The machine works over any [Num]; the functions below say what it takes spinors,
    matrices and spinor products to be, and which masses it takes to be zero. *)
From Coq Require Import QArith.
From Verif Require Import Base Scalar Linear Integers Particle Sproduct Propagator Process Lang.
Close Scope Q_scope.

Inductive pres (A : Type) : Type := PNone | PExn (e : exn) | POk (a : A).
Arguments PNone {A}. Arguments PExn {A} e. Arguments POk {A} a.
Definition pbind {A B} (x : pres A) (f : A -> pres B) : pres B :=
  match x with PNone => PNone | PExn e => PExn e | POk a => f a end.
Declare Scope pres_scope.
Notation "'let?' x ':=' e 'in' f" := (pbind e (fun x => f))
  (at level 200, x pattern, right associativity) : pres_scope.
Open Scope pres_scope.
Definition pof {A} (x : outcome A) : pres A :=
  match x with Ok a => POk a | _ => PNone end.
Definition pget {A} (x : option A) : pres A := match x with Some a => POk a | None => PNone end.
Definition isPOk {A} (x : pres A) : bool := match x with POk _ => true | _ => false end.

Record sstat : Type := mkStat { ss_angle : bool; ss_L : addr; ss_mid : list addr; ss_R : addr }.
Definition ss_addrs (s : sstat) : list addr := ss_L s :: ss_R s :: ss_mid s.

Section Pure.
  Context {num : Num}.
  Notation T := (T num).
  Notation CX := (CX num).
  Notation pdata := (T * mom num)%type.

  Record oracle : Type := mkOracle {
    q_zero : T -> option bool;                       (* x == 0, if known *)
    q_v : bool -> option Z -> pdata -> list pdata -> option Z -> pdata -> CX;
    q_spinor : side -> option Z -> pdata -> cvector num;
    q_mat : bool -> pdata -> cmatrix num;
    q_accept : T -> mom num -> bool;                 (* does set_momentum succeed? *)
    q_midctor : bool;                                (* products over particles without momentum *)
    q_junk : id -> option T }.                       (* what uninitialised members hold, if known *)

  Record pobj : Type := mkPobj {
    b_T : id -> option T;
    b_C : id -> option CX;
    b_R : id -> option (propagator num);
    b_S : id -> option (sstat * bool);               (* true: up to date *)
    b_P : list (option T * option (mom num)) }.
  Record penv : Type := mkPenv {
    r_I : id -> option Z;
    r_T : id -> option T;
    r_C : id -> option CX;
    r_aT : id -> list (option T);
    r_aC : id -> list nat * list CX }.
  Definition pst : Type := (pobj * penv)%type.

  Variable Q : oracle.

  Definition pl_T x v (o : pobj) := mkPobj (upd (b_T o) x v) (b_C o) (b_R o) (b_S o) (b_P o).
  Definition pl_C x v (o : pobj) := mkPobj (b_T o) (upd (b_C o) x v) (b_R o) (b_S o) (b_P o).
  Definition pl_R x v (o : pobj) := mkPobj (b_T o) (b_C o) (upd (b_R o) x v) (b_S o) (b_P o).
  Definition pl_S x v (o : pobj) := mkPobj (b_T o) (b_C o) (b_R o) (upd (b_S o) x v) (b_P o).
  Definition e_I x v (l : penv) := mkPenv (upd (r_I l) x v) (r_T l) (r_C l) (r_aT l) (r_aC l).
  Definition e_T x v (l : penv) := mkPenv (r_I l) (upd (r_T l) x v) (r_C l) (r_aT l) (r_aC l).
  Definition e_C x v (l : penv) := mkPenv (r_I l) (r_T l) (upd (r_C l) x v) (r_aT l) (r_aC l).
  Definition e_aT x v (l : penv) := mkPenv (r_I l) (r_T l) (r_C l) (upd (r_aT l) x v) (r_aC l).
  Definition e_aC x v (l : penv) := mkPenv (r_I l) (r_T l) (r_C l) (r_aT l) (upd (r_aC l) x v).

  (** changing particle p: every product over it is out of date *)
  Fixpoint pset {A} (l : list A) (p : addr) (x : A) : list A :=
    match l, p with
    | [], _ => []
    | _ :: l', O => x :: l'
    | y :: l', S p' => y :: pset l' p' x
    end.
  Definition stale (p : addr) (s : option (sstat * bool)) : option (sstat * bool) :=
    match s with
    | Some (t, u) => Some (t, u && negb (existsb (Nat.eqb p) (ss_addrs t)))
    | None => None
    end.
  Definition pl_P p d (o : pobj) :=
    mkPobj (b_T o) (b_C o) (b_R o) (fun s => stale p (b_S o s)) (pset (b_P o) p d).

  Definition p_mass (o : pobj) (p : addr) : pres T :=
    match nth_error (b_P o) p with Some (Some m, _) => POk m | _ => PNone end.
  Definition p_data (o : pobj) (p : addr) : pres pdata :=
    match nth_error (b_P o) p with Some (Some m, Some q) => POk (m, q) | _ => PNone end.
  Fixpoint p_datas (o : pobj) (ps : list addr) : pres (list pdata) :=
    match ps with
    | [] => POk []
    | p :: ps' => let? d := p_data o p in let? ds := p_datas o ps' in POk (d :: ds)
    end.

  Definition p_rdI (x : id) (l : penv) : pres Z := pget (r_I l x).
  Definition p_atom (a : atom) (l : penv) : pres Z :=
    match a with AVar x => p_rdI x l | ALit z => POk z end.
  Fixpoint p_atoms (la : list atom) (l : penv) : pres (list Z) :=
    match la with
    | [] => POk []
    | a :: la' => let? z := p_atom a l in let? zs := p_atoms la' l in POk (z :: zs)
    end.
  Definition spin_ok (z : Z) : bool := (z =? 1)%Z || (z =? -1)%Z.

  Definition p_v (o : pobj) (s : id) (args : list Z) : pres CX :=
    match b_S o s with
    | Some (t, true) =>
        let? dL := p_data o (ss_L t) in
        let? dR := p_data o (ss_R t) in
        let? dm := p_datas o (ss_mid t) in
        let? zL := pget (q_zero Q (fst dL)) in
        let? zR := pget (q_zero Q (fst dR)) in
        match args with
        | [] => if zL && zR then POk (q_v Q (ss_angle t) None dL dm None dR) else PExn ProductUsage
        | [z] =>
            if Bool.eqb zL zR then PExn ProductUsage
            else if spin_ok z then
              POk (if zL then q_v Q (ss_angle t) None dL dm (Some z) dR
                   else q_v Q (ss_angle t) (Some z) dL dm None dR)
            else PNone
        | [z; z'] =>
            if zL || zR then PExn ProductUsage
            else if spin_ok z && spin_ok z' then POk (q_v Q (ss_angle t) (Some z) dL dm (Some z') dR)
            else PNone
        | _ => PNone
        end
    | _ => PNone
    end.

  Definition p_read4 (l : list (option T)) : pres (mom num) :=
    match l with [Some a; Some b; Some c; Some d] => POk (V4 a b c d) | _ => PNone end.

  Variable pcall : pobj -> id -> list Z -> pres CX.

  Fixpoint peval {t} (e : exp t) (s : pst) : pres (val num t) :=
    match e in exp t return pres (val num t) with
    | EInt z => POk z
    | ELit q => POk (dQ q)
    | ELocI x => p_rdI x (snd s)
    | ELocT x => pget (r_T (snd s) x)
    | ELocC x => pget (r_C (snd s) x)
    | EMemT x => match b_T (fst s) x with Some v => POk v | None => pget (q_junk Q x) end
    | EMemC x => pget (b_C (fst s) x)
    | EArrT x i =>
        let? z := p_atom i (snd s) in
        let? k := pof (idx z) in
        let? c := pget (nth_error (r_aT (snd s) x) k) in pget c
    | EArrC x is =>
        let? zs := p_atoms is (snd s) in
        let? k := pof (flat_index (fst (r_aC (snd s) x)) zs 0) in
        pget (nth_error (snd (r_aC (snd s) x)) k)
    | EUn o e => let? x := peval e s in pof (un_sem o x)
    | EBin o e f => let? x := peval e s in let? y := peval f s in pof (bin_sem o x y)
    | EAnd e f => let? x := peval e s in if x then peval f s else POk false
    | EOr e f => let? x := peval e s in if x then POk true else peval f s
    | EV x args => let? zs := p_atoms args (snd s) in p_v (fst s) x zs
    | EDen r x =>
        let? q := p_read4 (r_aT (snd s) x) in
        let? pr := pget (b_R (fst s) r) in POk (denominator pr q)
    | ECall m args => let? zs := p_atoms args (snd s) in pcall (fst s) m zs
    | ENLoops args => let? zs := p_atoms args (snd s) in pof (num_spin_loops_of zs)
    | ENorm args => let? zs := p_atoms args (snd s) in pof (spin_normalization_of zs)
    | ESpinor0 p d =>
        let? dp := p_data (fst s) p in
        let? z := pget (q_zero Q (fst dp)) in
        if z then POk (q_spinor Q d None dp) else PExn MassNonzero
    | ESpinor1 p d e =>
        let? j := peval e s in
        let? dp := p_data (fst s) p in
        let? z := pget (q_zero Q (fst dp)) in
        if spin_ok j then if z then PExn MassZero else POk (q_spinor Q d (Some j) dp)
        else PExn BadSpin
    | EMat p upper => let? dp := p_data (fst s) p in POk (q_mat Q upper dp)
    end.

  Definition p_setloc (r : rty) (x : id) : val num (ty_of r) -> penv -> penv :=
    match r return val num (ty_of r) -> penv -> penv with
    | rI => fun v => e_I x (Some v)
    | rT => fun v => e_T x (Some v)
    | rC => fun v => e_C x (Some v)
    end.
  Definition p_decloc (r : rty) (x : id) : penv -> penv :=
    match r with rI => e_I x None | rT => e_T x None | rC => e_C x (Some c0) end.

  Notation pret := (pres (option (ret num) * pst)).
  Fixpoint ploop (fuel : nat) (x : id) (cond : exp yB) (next : exp yI) (body : pst -> pret) (s : pst) : pret :=
    match fuel with
    | O => PNone
    | S fuel' =>
        let? b := peval cond s in
        if b then
          let? rs := body s in
          match rs with
          | (Some r, s') => POk (Some r, s')
          | (None, s') => let? z := peval next s' in
                          ploop fuel' x cond next body (fst s', e_I x (Some z) (snd s'))
          end
        else POk (None, s)
    end.

  Definition p_spins (args : list (id * id * id)) (i : Z) (l : penv) : pres penv :=
    let vars := flat3 args in
    let? M := pof (spinor_spins_of (number 0 args) i
                (fun k => match nth_error vars k with Some x => r_I l x | None => None end)) in
    POk (fold_left (fun l kx => e_I (snd kx) (M (fst kx)) l) (combine (seq 0 (List.length vars)) vars) l).

  (** the particle of an end of a new or updated product must have a known mass, those in
      the middle a known momentum *)
  Definition p_update (o : pobj) (t : sstat) (mid_free : bool) : pres bool :=
    let? mL := p_mass o (ss_L t) in
    let? mR := p_mass o (ss_R t) in
    match p_data o (ss_L t), p_data o (ss_R t), p_datas o (ss_mid t) with
    | POk _, POk _, POk _ => POk true
    | _, _, _ => if match ss_mid t with
                    | [] => true
                    | mid => mid_free && forallb (fun a => a <? length (b_P o))%nat mid
                    end then POk false else PNone
    end.

  (** [ro]: changes of the object are not allowed *)
  Variable ro : bool.
  Definition w {A} (x : pres A) : pres A := if ro then PNone else x.

  Fixpoint pexec (c : stmt) (s : pst) : pret :=
    match c with
    | SSkip => POk (None, s)
    | SSeq c1 c2 =>
        let? rs := pexec c1 s in
        match rs with (Some r, s') => POk (Some r, s') | (None, s') => pexec c2 s' end
    | SDecl r x => POk (None, (fst s, p_decloc r x (snd s)))
    | SLoc r x e => let? v := peval e s in POk (None, (fst s, p_setloc r x v (snd s)))
    | SMemT x e => w (let? v := peval e s in POk (None, (pl_T x (Some v) (fst s), snd s)))
    | SMemC x e => w (let? v := peval e s in POk (None, (pl_C x (Some v) (fst s), snd s)))
    | SDeclT x n => POk (None, (fst s, e_aT x (repeat None n) (snd s)))
    | SDeclC x dims => POk (None, (fst s, e_aC x (dims, repeat c0 (prod_dims dims)) (snd s)))
    | SArrT x i e =>
        let? v := peval e s in
        let? z := p_atom i (snd s) in
        let? k := pof (idx z) in
        let? a := pof (arr_set (r_aT (snd s) x) k (Some v)) in
        POk (None, (fst s, e_aT x a (snd s)))
    | SArrC x is e =>
        let? v := peval e s in
        let? zs := p_atoms is (snd s) in
        let? k := pof (flat_index (fst (r_aC (snd s) x)) zs 0) in
        let? a := pof (arr_set (snd (r_aC (snd s) x)) k v) in
        POk (None, (fst s, e_aC x (fst (r_aC (snd s) x), a) (snd s)))
    | SIf b c1 c2 => let? x := peval b s in if x then pexec c1 s else pexec c2 s
    | SFor x lo cond next c =>
        let? z := peval lo s in
        ploop loop_fuel x cond next (pexec c) (fst s, e_I x (Some z) (snd s))
    | SReturnT e => let? x := peval e s in POk (Some (RtT x), s)
    | SReturnC e => let? x := peval e s in POk (Some (RtC x), s)
    | SThrow e => PExn e
    | SParticle p m =>
        w (let? x := peval m s in
           if (p <? length (b_P (fst s)))%nat then POk (None, (pl_P p (Some x, None) (fst s), snd s)) else PNone)
    | SSetMass p m =>
        w (let? x := peval m s in
           if (p <? length (b_P (fst s)))%nat then POk (None, (pl_P p (Some x, None) (fst s), snd s)) else PNone)
    | SSetMomentum p x =>
        w (let? q := p_read4 (r_aT (snd s) x) in
           let? m := p_mass (fst s) p in
           if q_accept Q m q then POk (None, (pl_P p (Some m, Some q) (fst s), snd s)) else PNone)
    | SPropNew r m wd =>
        w (let? x := peval m s in let? y := peval wd s in
           POk (None, (pl_R r (Some (propagator_new x y)) (fst s), snd s)))
    | SPropMass r m =>
        w (let? x := peval m s in
           let? pr := pget (b_R (fst s) r) in
           POk (None, (pl_R r (Some (pr_set_mass x pr)) (fst s), snd s)))
    | SSprod x angle pL mid pR =>
        w (let t := mkStat angle pL mid pR in
           let? u := p_update (fst s) t (q_midctor Q) in
           POk (None, (pl_S x (Some (t, u)) (fst s), snd s)))
    | SUpdate x =>
        w (let? tu := pget (b_S (fst s) x) in
           let? u := p_update (fst s) (fst tu) false in
           POk (None, (pl_S x (Some (fst tu, u)) (fst s), snd s)))
    | SSpins args i =>
        let? z := p_atom i (snd s) in
        let? l' := p_spins args z (snd s) in POk (None, (fst s, l'))
    end.

  Definition penv0 : penv :=
    mkPenv (fun _ => None) (fun _ => None) (fun _ => Some c0) (fun _ => []) (fun _ => ([], [])).
  Definition p_bind (p : id * pkind) (a : arg num) (l : penv) : pres penv :=
    match snd p, a with
    | PkI, GI z => POk (e_I (fst p) (Some z) l)
    | PkT, GT x => POk (e_T (fst p) (Some x) l)
    | PkMom, GMom q => POk (e_aT (fst p) [Some (v_0 q); Some (v_1 q); Some (v_2 q); Some (v_3 q)] l)
    | _, _ => PNone
    end.
  Fixpoint p_binds (ps : list (id * pkind)) (args : list (arg num)) (l : penv) : pres penv :=
    match ps, args with
    | [], [] => POk l
    | p :: ps', a :: args' => let? l' := p_bind p a l in p_binds ps' args' l'
    | _, _ => PNone
    end.
  Definition pinvoke (f : meth) (args : list (arg num)) (o : pobj) : pres (option (ret num) * pobj) :=
    let? l := p_binds (m_params f) args penv0 in
    let? rs := pexec (m_body f) (o, l) in
    POk (fst rs, fst (snd rs)).
End Pure.
Arguments oracle : clear implicits.
Arguments pobj : clear implicits.
Arguments penv : clear implicits.
Arguments pst : clear implicits.

Section PClass.
  Context {num : Num}.
  Variable Q : oracle num.
  Variable c : cls.

  Definition nocall : pobj num -> id -> list Z -> pres (CX num) := fun _ _ _ => PNone.
  (** an inner call: the object may only be read *)
  Definition pinner (o : pobj num) (m : id) (zs : list Z) : pres (CX num) :=
    match find_meth c m with
    | Some f => let? r := pinvoke Q nocall true f (map GI zs) o in
                match fst r with Some (RtC x) => POk x | _ => PNone end
    | None => PNone
    end.
  Definition pmethod (inner : pobj num -> id -> list Z -> pres (CX num)) (m : id) (args : list (arg num))
      (o : pobj num) : pres (option (ret num) * pobj num) :=
    match find_meth c m with
    | Some f => pinvoke Q inner false f args o
    | None => PNone
    end.

  Definition pinit (x : id) (k : mkind) (i : option minit) (s : pst num) : pres (pst num) :=
    match k, i with
    | _, None => POk s
    | KT, Some (NT e) => let? v := peval Q nocall e s in POk (pl_T x (Some v) (fst s), snd s)
    | KProp, Some (NProp m wd) =>
        let? a := peval Q nocall m s in let? b := peval Q nocall wd s in
        POk (pl_R x (Some (propagator_new a b)) (fst s), snd s)
    | KProp, Some NProp0 => POk (pl_R x (Some propagator_default) (fst s), snd s)
    | KPart p, Some (NPart m) =>
        let? a := peval Q nocall m s in
        if (p <? length (b_P (fst s)))%nat then POk (pl_P p (Some a, None) (fst s), snd s) else PNone
    | KSprod, Some (NSprod angle pL mid pR) =>
        let t := mkStat angle pL mid pR in
        let? u := p_update (fst s) t (q_midctor Q) in
        POk (pl_S x (Some (t, u)) (fst s), snd s)
    | _, _ => PNone
    end.
  Fixpoint pinits (ms : list (id * mkind)) (s : pst num) : pres (pst num) :=
    match ms with
    | [] => POk s
    | (x, k) :: ms' => let? s' := pinit x k (find_init (c_inits c) x) s in pinits ms' s'
    end.
  Definition praw : pobj num :=
    mkPobj (fun _ => None) (fun _ => Some c0) (fun _ => Some propagator_default) (fun _ => None)
      [(None, None); (None, None); (None, None); (None, None)].
  Definition pconstruct (params : list (T num)) : pres (pobj num) :=
    let? l := p_binds (map (fun x => (x, PkT)) (c_params c)) (map GT params) penv0 in
    let? s := pinits (c_members c) (praw, l) in
    let? rs := pexec Q nocall false (c_body c) s in
    POk (fst (snd rs)).
End PClass.
