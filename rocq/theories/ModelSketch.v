(** Model of Patro/Pattern/Sketch.py, SketchOperation.py, of the evaluation of expressions in
    Calculator.py and of Patro/Pattern/__init__.py, over the real numbers. *)
From Coq Require Import String Reals List ZArith Bool.
From Verif Require Import Base ModelVector ModelLine ModelConic ModelGraph ModelCounter.
Import ListNotations.
Local Open Scope R_scope.
Local Open Scope result_scope.

(** ** Expressions *)

(** Calculator.py 162-191: the special functions; the five which return 0 are [Spl_like]. *)
Inductive fname := FLine | FAngleLine | FCurrentLength | FSplLike.

(** The python syntax tree of a compiled expression (Calculator.py 309-313), restricted to numbers,
    names, arithmetic and calls of the special functions on the names of points. *)
Inductive expr :=
| EConst (x : R)
| EName (name : string)
| ENeg (a : expr)
| EAdd (a b : expr) | ESub (a b : expr) | EMul (a b : expr) | EDiv (a b : expr)
| ECall (f : fname) (args : list string).

(** Calculator.py 203-213: an Expression object.  [x_dependencies] is None before the compilation;
    an operation is its position in [ops] below. *)
Record expression := Expr {
  x_source : expr; x_dependencies : option (list nat); x_value : option R; x_error : bool }.
Definition new_expression (e : expr) : expression := Expr e None None false.

(** ** Operations *)

(** The classes of SketchOperation.py: SketchOperation 68, Point 365, SinglePoint 405,
    AlongLinePoint 445, EndLinePoint 480, LineIntersectPoint 512, NormalPoint 566, PointOfContact 606,
    PointOfIntersection 664, Line 692, SimpleInteractiveSpline 725. *)
Inductive kind :=
| KOperation | KPoint | KSingle | KAlong | KEnd | KIntersect | KNormal | KContact | KIntersection | KLine | KSpline.

Definition is_point (k : kind) : bool := match k with KOperation | KLine | KSpline => false | _ => true end.

(** The attributes of an operation.  [o_refs]: first_point, second_point, center... as positions;
    [o_exprs]: the Expression attributes, in the order of their evaluation. *)
Record op := Op {
  o_kind : kind; o_id : Z; o_name : string; o_node : node;
  o_refs : list nat; o_exprs : list expression;
  o_dependencies : list nat;
  o_vector : option vec;
  o_controls : option (vec * vec) }.

Inductive key := KeyId (id : Z) | KeyName (name : string).
Definition key_eqb (a b : key) : bool :=
  match a, b with
  | KeyId x, KeyId y => Z.eqb x y
  | KeyName x, KeyName y => String.eqb x y
  | _, _ => false
  end.

(** Sketch.py 53-62, Calculator.py 88-101: the attributes of the sketch and of its calculator, and the
    counter of ids shared by all objects (Object.py 67).  A dict is a list with the newest first.  The
    cache gives the values of the measurements. *)
Record sketch := Sketch {
  counter : Z;
  ops : list op;
  op_dict : list (key * nat);
  dag : graph;
  points : list (string * nat);
  segment : option vec;
  cache : list (string * R) }.

Definition new_sketch (counter : Z) (measurements : list (string * R)) : sketch :=
  Sketch counter [] [] empty_graph [] None measurements.

Definition set_counter c s := Sketch c (ops s) (op_dict s) (dag s) (points s) (segment s) (cache s).
Definition set_ops l s := Sketch (counter s) l (op_dict s) (dag s) (points s) (segment s) (cache s).
Definition set_dict d s := Sketch (counter s) (ops s) d (dag s) (points s) (segment s) (cache s).
Definition set_dag g s := Sketch (counter s) (ops s) (op_dict s) g (points s) (segment s) (cache s).
Definition set_points d s := Sketch (counter s) (ops s) (op_dict s) (dag s) d (segment s) (cache s).
Definition set_segment v s := Sketch (counter s) (ops s) (op_dict s) (dag s) (points s) v (cache s).

Fixpoint assoc {A B} (eqb : A -> A -> bool) (k : A) (d : list (A * B)) : option B :=
  match d with
  | [] => None
  | (k', v) :: d => if eqb k k' then Some v else assoc eqb k d
  end.

(** Sketch.py 98-104: has_operation_id, get_operation *)
Definition has_operation (s : sketch) (k : key) : bool :=
  match assoc key_eqb k (op_dict s) with Some _ => true | None => false end.
Definition get_operation (s : sketch) (k : key) : result nat :=
  match assoc key_eqb k (op_dict s) with Some i => Ok i | None => Raise KeyError end.

(** ** Construction of an operation: effects stay when an exception is raised *)
Definition action (A : Type) := sketch -> result A * sketch.
Definition returns {A} (r : result A) : action A := fun s => (r, s).
Definition then_ {A B} (m : action A) (k : A -> action B) : action B := fun s =>
  match m s with
  | (Ok a, s) => k a s
  | (Raise e, s) => (Raise e, s)
  end.
Definition modify (f : sketch -> sketch) : action unit := fun s => (Ok tt, f s).
Definition look : action sketch := fun s => (Ok s, s).
Declare Scope action_scope.
Delimit Scope action_scope with action.
Notation "x <== m ;; k" := (then_ m (fun x => k)) (at level 61, m at next level, right associativity) : action_scope.
Local Open Scope action_scope.

(** What can be given as a point: an operation of the sketch, an id or a name; an object of another
    sketch is [RForeign]. *)
Inductive reference := ROp (i : nat) | RId (id : Z) | RName (name : string) | RForeign.

(** SketchOperation.py 107-118: _get_operation; an operation of another sketch is accepted here, and
    its node is not found at lines 181-186. *)
Definition resolve (r : reference) : action nat := fun s =>
  match r with
  | ROp i => if Nat.ltb i (length (ops s)) then (Ok i, s) else (Raise KeyError, s)
  | RId id => (get_operation s (KeyId id), s)
  | RName n => (get_operation s (KeyName n), s)
  | RForeign => (Raise KeyError, s)
  end.
Fixpoint resolve_all (l : list reference) : action (list nat) :=
  match l with
  | [] => returns (Ok [])
  | r :: l => i <== resolve r ;; t <== resolve_all l ;; returns (Ok (i :: t))
  end.

(** SketchOperation.py 181-186: _connect_ancestor, on the node [n] *)
Fixpoint connect_all (n : node) (l : list nat) : action unit :=
  match l with
  | [] => returns (Ok tt)
  | i :: l => fun s =>
      match nth_error (ops s) i with
      | Some o =>
          match connect_ancestor (dag s) n (o_node o) with
          | Ok g => connect_all n l (set_dag g s)
          | Raise e => (Raise e, s)
          end
      | None => (Raise KeyError, s)
      end
  end.

(** The arguments of the constructors: the groups of references which are resolved then connected
    together (248-251, 269-271, 327-329, 524-530) and the expressions *)
Record arguments := Args { a_kind : kind; a_name : string; a_groups : list (list reference); a_exprs : list expr }.
Fixpoint resolve_groups (n : node) (l : list (list reference)) : action (list nat) :=
  match l with
  | [] => returns (Ok [])
  | g :: l =>
      r <== resolve_all g ;; _ <== connect_all n r ;; t <== resolve_groups n l ;; returns (Ok (r ++ t)%list)
  end.

(** The number of references in each group, and of expressions, of a class *)
Definition signature (k : kind) : list nat * nat :=
  match k with
  | KOperation | KPoint => ([], 0%nat)
  | KSingle => ([], 2%nat)
  | KAlong => ([2%nat], 1%nat)
  | KEnd => ([1%nat], 2%nat)
  | KIntersect => ([4%nat], 0%nat)
  | KNormal => ([2%nat], 2%nat)
  | KContact => ([2%nat; 1%nat], 1%nat)
  | KIntersection | KLine => ([2%nat], 0%nat)
  | KSpline => ([2%nat], 4%nat)
  end.
Fixpoint same_nats (l m : list nat) : bool :=
  match l, m with
  | [], [] => true
  | a :: l, b :: m => andb (Nat.eqb a b) (same_nats l m)
  | _, _ => false
  end.
Definition well_formed (a : arguments) : bool :=
  andb (same_nats (map (@length _) (a_groups a)) (fst (signature (a_kind a))))
       (Nat.eqb (length (a_exprs a)) (snd (signature (a_kind a)))).

(** SketchOperation.py 68-90 and the constructors; Patro/Pattern/__init__.py 44-55: the methods of
    Sketch which make an operation and add it; Sketch.py 87-94: _add_operation *)
Definition add_op (a : arguments) (id : option Z) : action nat :=
  if negb (well_formed a) then returns (Raise TypeError)
  else fun s =>
    match new_object (counter s) id with
    | (Raise _, c) => (Raise NameError, set_counter c s)
    | (Ok id, c) =>
        let s := set_counter c s in
        match add_node (dag s) (Z.of_nat (length (g_heap (dag s)))) with
        | Raise e => (Raise e, s)
        | Ok (n, g) =>
            (refs <== resolve_groups n (a_groups a) ;;
             s <== look ;;
             let i := length (ops s) in
             let o := Op (a_kind a) id (a_name a) n refs (map new_expression (a_exprs a)) refs None None in
             let d := (KeyId id, i) :: op_dict s in
             let d := if is_point (a_kind a) then (KeyName (a_name a), i) :: d else d in
             _ <== modify (fun s => set_dict d (set_ops (ops s ++ [o])%list s)) ;;
             returns (Ok i)) (set_dag g s)
        end
    end.

(** ** Evaluation *)

(** Calculator.py 137-138: _name_to_vector_point *)
Definition point_vector (s : sketch) (name : string) : result (option vec) :=
  match assoc String.eqb name (points s) with
  | None => Raise KeyError
  | Some i => match nth_error (ops s) i with Some o => Ok (o_vector o) | None => Raise KeyError end
  end.

(** The difference of two vectors, one of which may be None: [b - a]. *)
Definition difference (b a : option vec) : result vec :=
  match b with
  | None => Raise TypeError
  | Some b => match a with None => Raise AttributeError | Some a => Ok (vsub b a) end
  end.

(** Calculator.py 162-191 *)
Definition call (s : sketch) (f : fname) (args : list string) : result R :=
  match f, args with
  | FCurrentLength, [] =>
      match segment s with Some v => Ok (magnitude v) | None => Raise AttributeError end
  | FCurrentLength, _ => Raise TypeError
  | _, [name1; name2] =>
      p1 <- point_vector s name1 ;;
      p2 <- point_vector s name2 ;;
      match f with
      | FLine => v <- difference p2 p1 ;; Ok (magnitude v)
      | FAngleLine => v <- difference p2 p1 ;; orientation v
      | _ => Ok 0
      end
  | _, _ => Raise TypeError
  end.

(** The python evaluation of the syntax tree, Calculator.py 332-347 *)
Fixpoint evaluate (s : sketch) (e : expr) : result R :=
  match e with
  | EConst x => Ok x
  | EName n => match assoc String.eqb n (cache s) with Some v => Ok v | None => Raise NameError end
  | ENeg a => x <- evaluate s a ;; Ok (- x)
  | EAdd a b => x <- evaluate s a ;; y <- evaluate s b ;; Ok (x + y)
  | ESub a b => x <- evaluate s a ;; y <- evaluate s b ;; Ok (x - y)
  | EMul a b => x <- evaluate s a ;; y <- evaluate s b ;; Ok (x * y)
  | EDiv a b => x <- evaluate s a ;; y <- evaluate s b ;; fdiv x y
  | ECall f args => call s f args
  end.

(** Calculator.py 63-76: the points registered by the visitor, only for the function Line *)
Definition name_to_point (s : sketch) (name : string) : result nat :=
  match assoc String.eqb name (points s) with Some i => Ok i | None => Raise KeyError end.
Fixpoint visit_expr (s : sketch) (e : expr) : result (list nat) :=
  match e with
  | EConst _ | EName _ => Ok []
  | ENeg a => visit_expr s a
  | EAdd a b | ESub a b | EMul a b | EDiv a b =>
      l <- visit_expr s a ;; m <- visit_expr s b ;; Ok (l ++ m)%list
  | ECall FLine args => traverse (name_to_point s) args
  | ECall _ _ => Ok []
  end.

(** Assigning an operation, an expression of an operation. *)
Definition put_op (i : nat) (f : op -> op) : action unit := modify (fun s =>
  match nth_error (ops s) i with
  | Some o => set_ops (update i (f o) (ops s)) s
  | None => s
  end).
Definition set_exprs l o := Op (o_kind o) (o_id o) (o_name o) (o_node o) (o_refs o) l (o_dependencies o) (o_vector o) (o_controls o).
Definition set_vector v o := Op (o_kind o) (o_id o) (o_name o) (o_node o) (o_refs o) (o_exprs o) (o_dependencies o) v (o_controls o).
Definition set_controls c o := Op (o_kind o) (o_id o) (o_name o) (o_node o) (o_refs o) (o_exprs o) (o_dependencies o) (o_vector o) c.
Definition add_dependencies l o := Op (o_kind o) (o_id o) (o_name o) (o_node o) (o_refs o) (o_exprs o) (o_dependencies o ++ l)%list (o_vector o) (o_controls o).
Definition the_op (i : nat) : action op := fun s =>
  match nth_error (ops s) i with Some o => (Ok o, s) | None => (Raise IndexError, s) end.
Definition the_expr (i j : nat) : action expression := fun s =>
  match nth_error (ops s) i with
  | Some o => match nth_error (o_exprs o) j with Some x => (Ok x, s) | None => (Raise AttributeError, s) end
  | None => (Raise IndexError, s)
  end.
Definition put_expr (i j : nat) (x : expression) : action unit :=
  put_op i (fun o => set_exprs (update j x (o_exprs o)) o).

(** Calculator.py 260-365: the value of an Expression: it is compiled once, and evaluated unless it
    has a value or had a NameError *)
Definition value (i j : nat) : action (option R) :=
  x <== the_expr i j ;;
  match x_value x, x_error x with
  | None, false =>
      _ <== (match x_dependencies x with
             | Some _ => returns (Ok tt)
             | None =>
                 s <== look ;;
                 d <== returns (visit_expr s (x_source x)) ;;
                 put_expr i j (Expr (x_source x) (Some d) None false)
             end) ;;
      x <== the_expr i j ;;
      s <== look ;;
      match evaluate s (x_source x) with
      | Ok v => _ <== put_expr i j (Expr (x_source x) (x_dependencies x) (Some v) false) ;; returns (Ok (Some v))
      | Raise NameError => _ <== put_expr i j (Expr (x_source x) (x_dependencies x) None true) ;; returns (Ok None)
      | Raise e => returns (Raise e)
      end
  | v, _ => returns (Ok v)
  end.
(** The value used in an arithmetic operation: None is refused. *)
Definition number (i j : nat) : action R :=
  v <== value i j ;; returns (match v with Some x => Ok x | None => Raise TypeError end).

(** Calculator.py 351-353: set_dirty *)
Definition set_dirty (i j : nat) : action unit :=
  x <== the_expr i j ;; put_expr i j (Expr (x_source x) (x_dependencies x) None false).

(** The attribute vector of the k-th reference of an operation, None when not evaluated *)
Definition ref_vector (o : op) (k : nat) : action (option vec) := fun s =>
  match nth_error (o_refs o) k with
  | None => (Raise AttributeError, s)
  | Some i =>
      match nth_error (ops s) i with
      | Some p => if is_point (o_kind p) then (Ok (o_vector p), s) else (Raise AttributeError, s)
      | None => (Raise AttributeError, s)
      end
  end.

(** SketchOperation.py 122-124: eval formats the operation, hence reads the names of its points (a
    center which is not a point raises one line later, at 640) *)
Definition named_refs (o : op) : action unit := fun s =>
  if forallb (fun i => match nth_error (ops s) i with Some p => is_point (o_kind p) | None => false end) (o_refs o)
  then (Ok tt, s) else (Raise AttributeError, s).

Definition plus (a : option vec) (b : vec) : result vec :=
  match a with Some a => Ok (vadd a b) | None => Raise TypeError end.

(** The methods eval_internal: 439-441, 470-476, 505-508, 557-562, 591-602, 636-660, 686-688, 784-790.
    A coordinate None becomes nan in numpy, line 440. *)
Definition eval_internal (i : nat) (o : op) : action unit :=
  let vector v := put_op i (set_vector v) in
  match o_kind o with
  | KOperation | KPoint | KLine => returns (Ok tt)
  | KSingle =>
      x <== value i 0 ;; y <== value i 1 ;;
      match x, y with
      | Some x, Some y => vector (Some (V x y))
      | _, _ => returns (Raise NotANumber)
      end
  | KAlong =>
      b <== ref_vector o 1 ;; a <== ref_vector o 0 ;;
      v <== returns (difference b a) ;;
      _ <== modify (set_segment (Some v)) ;;
      u <== returns (normalise v) ;;
      l <== number i 0 ;;
      p <== returns (plus a (vscale u l)) ;;
      _ <== vector (Some p) ;;
      modify (set_segment None)
  | KEnd =>
      a <== ref_vector o 0 ;; angle <== number i 0 ;; l <== number i 1 ;;
      p <== returns (plus a (vscale (from_angle angle) l)) ;;
      vector (Some p)
  | KIntersect =>
      a <== ref_vector o 0 ;; b <== ref_vector o 1 ;; v1 <== returns (difference b a) ;;
      c <== ref_vector o 2 ;; d <== ref_vector o 3 ;; v2 <== returns (difference d c) ;;
      match a, c with
      | Some a, Some c => q <== returns (line_intersection (Ln a v1) (Ln c v2)) ;; vector q
      | _, _ => returns (Raise AttributeError)
      end
  | KNormal =>
      b <== ref_vector o 1 ;; a <== ref_vector o 0 ;;
      v <== returns (difference b a) ;;
      _ <== modify (set_segment (Some v)) ;;
      u <== returns (normalise v) ;;
      angle <== value i 0 ;;
      let n := normal u in
      let n := match angle with Some t => if Reqb t 0 then n else rotate n t true | None => n end in
      l <== number i 1 ;;
      p <== returns (plus a (vscale n l)) ;;
      _ <== vector (Some p) ;;
      modify (set_segment None)
  | KContact =>
      a <== ref_vector o 0 ;; b <== ref_vector o 1 ;;
      match a, b with
      | Some a, Some b =>
          c <== ref_vector o 2 ;; r <== value i 0 ;;
          match c, r with
          | None, _ => returns (Raise ValueError)
          | Some _, None => returns (Raise TypeError)
          | Some c, Some r =>
              m <== returns (intersect_segment (Circ c r None) (Seg a b)) ;;
              match m with
              | MNone => vector None
              | MOne _ => returns (Raise AttributeError)
              | MTwo p q =>
                  t <== returns (contain_point (Seg a b) p) ;;
                  _ <== returns (contain_point (Seg a b) q) ;;
                  vector (Some (if t then p else q))
              end
          end
      | _, _ => returns (Raise ValueError)
      end
  | KIntersection =>
      a <== ref_vector o 0 ;; b <== ref_vector o 1 ;;
      match a, b with
      | Some a, Some b => vector (Some (V (vx a) (vy b)))
      | _, _ => returns (Raise AttributeError)
      end
  | KSpline =>
      a1 <== number i 0 ;; l1 <== number i 1 ;; a2 <== number i 2 ;; l2 <== number i 3 ;;
      a <== ref_vector o 0 ;; p <== returns (plus a (vscale (from_angle a1) l1)) ;;
      b <== ref_vector o 1 ;; q <== returns (plus b (vscale (from_angle a2) l2)) ;;
      put_op i (set_controls (Some (p, q)))
  end.

(** SketchOperation.py 195-205: connect_ancestor_for_expressions; [*None] is a TypeError *)
Fixpoint connect_expressions (i : nat) (l : list expression) : action unit :=
  match l with
  | [] => returns (Ok tt)
  | x :: l =>
      match x_dependencies x with
      | None => returns (Raise TypeError)
      | Some d =>
          o <== the_op i ;;
          _ <== put_op i (add_dependencies d) ;;
          _ <== connect_all (o_node o) d ;;
          connect_expressions i l
      end
  end.

(** Sketch.py 108-119: eval, one operation *)
Definition eval_op (i : nat) : action unit :=
  o <== the_op i ;;
  _ <== (if is_point (o_kind o) then
           _ <== modify (fun s => set_points ((o_name o, i) :: points s) s) ;;
           _ <== named_refs o ;; eval_internal i o
         else
           match o_kind o with
           | KSpline => _ <== named_refs o ;; eval_internal i o
           | _ => returns (Ok tt)
           end) ;;
  o <== the_op i ;;
  connect_expressions i (o_exprs o).
Fixpoint eval_ops (l : list nat) : action unit :=
  match l with
  | [] => returns (Ok tt)
  | i :: l => _ <== eval_op i ;; eval_ops l
  end.
Definition eval_sketch : action unit := fun s => eval_ops (seq 0 (length (ops s))) s.

(** ** What a client does: every call catches its exception *)
Inductive event :=
| Add (a : arguments) (id : option Z)     (* sketch.AlongLinePoint(...) and the like *)
| Elsewhere (id : option Z)               (* another object takes an id *)
| Eval                                    (* sketch.eval() *)
| Value (i j : nat)                       (* reading the value of an expression *)
| Dirty (i j : nat)                       (* expression.set_dirty() *)
| Get (k : key).                          (* get_operation *)
Definition happen (e : event) (s : sketch) : sketch :=
  match e with
  | Add a id => snd (add_op a id s)
  | Elsewhere id => set_counter (snd (new_object (counter s) id)) s
  | Eval => snd (eval_sketch s)
  | Value i j => snd (value i j s)
  | Dirty i j => snd (set_dirty i j s)
  | Get k => s
  end.
Definition history (l : list event) (s : sketch) : sketch := fold_left (fun s e => happen e s) l s.
