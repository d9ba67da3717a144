(** * A small-step-free semantics of the subset of Python that genieutils is written in.

    The method bodies of /repo/src/genieutils are carried as syntax trees (Src_*.v, generated from
    the Python [ast] of the source files); this file says what running such a tree does.  Objects and
    lists live in a heap and are referred to by location, so aliasing and mutation are what they are
    in Python.  Every call uses up one unit of the recursion limit.

    Values are dynamically typed; a wrongly typed operand raises what CPython 3.11 raises.
    Simplifications: a [memoryview] is its bytes; an [IntEnum] member is its integer; a generator
    expression is evaluated to a list at once (all are consumed by [b''.join], which does the same);
    a loop runs over the items its list had when it started; function defaults and module constants
    are evaluated when used.  [Unsupported] marks what is outside the subset; the theorems of
    Props_Source.v say that the sources never run into it. *)
From Verif Require Import Base PyInt PyFloat PyStr PyStruct DataTypes Versions Common FloatSpec.
From Coq Require Import String Ascii.
Open Scope Z_scope.
Local Open Scope list_scope.

(** ** Syntax *)
Inductive const : Type := KNone | KBool (b : bool) | KInt (z : Z) | KFloat (x : f64) | KStr (s : string) | KBytes (b : bytes).
Inductive cmpop : Set := CEq | CNe | CLt | CLe | CGt | CGe | CIs | CIsNot.
Inductive binop : Set := BAdd | BSub | BMul.
(** [EStar] and [EKw] occur only as arguments of calls. *)
Inductive expr : Type :=
| EConst (k : const)
| EName (x : string)
| EAttr (e : expr) (a : string)
| EIndex (e i : expr)
| ESlice (e a b : expr)
| ECall (f : expr) (args : list expr)
| EStar (e : expr)
| EKw (x : string) (e : expr)
| EBin (o : binop) (a b : expr)
| ENot (e : expr)
| ENeg (e : expr)
| ECmp (o : cmpop) (a b : expr)
| EChain (o : cmpop) (a b : expr) (p : cmpop) (c : expr)      (* a o b p c *)
| EAnd (a b : expr)
| EIf (c a b : expr)                                          (* a if c else b *)
| EList (l : list expr)
| ETuple (l : list expr)
| EFor (body : expr) (x : string) (iter : expr) (cond : option expr). (* comprehension, generator *)
Inductive stmt : Type :=
| SAssign (x : string) (e : expr)
| SUnpack (xs : list string) (e : expr)
| SSetAttr (o : expr) (a : string) (e : expr)
| SSetItem (o i e : expr)                                     (* o[i] = e; only in programs of users *)
| SAdd (x : string) (e : expr)                                (* x += e *)
| SReturn (e : expr)
| SExpr (e : expr)
| SAssert (e : expr)
| SRaise (e : exn)
| SIf (c : expr) (a b : list stmt)
| SFor (x : string) (iter : expr) (body : list stmt).

(** Functions and classes. *)
Inductive kind : Set := Method | ClassMethod | StaticMethod | Property.
Record func : Type := mkFunc {
  f_kind : kind;
  f_module : string;                          (* whose constants it sees *)
  f_params : list string;                     (* with self / cls *)
  f_defaults : list (string * expr);
  f_body : list stmt }.
Inductive sort : Set := Dataclass | Plain | Enum | IntEnum.
Record class : Type := mkClass {
  c_sort : sort;
  c_bases : list string;
  c_fields : list string;                     (* of a dataclass, in order *)
  c_defaults : list (string * const);
  c_members : list (string * const);          (* of an enum *)
  c_methods : list (string * func) }.
Record program : Type := mkProgram {
  p_classes : list (string * class);
  p_globals : list (string * list (string * expr)) }.  (* module -> its constants *)

Fixpoint assoc {A} (x : string) (l : list (string * A)) : option A :=
  match l with [] => None | (y, a) :: l => if String.eqb x y then Some a else assoc x l end.

(** ** Values, heap, outcomes *)
Inductive val : Type :=
| PNone
| PBool (b : bool)
| PInt (z : Z)
| PFloat (x : f64)
| PStr (s : pystr)
| PBytes (b : bytes)
| PTuple (l : list val)
| PRef (l : nat)                    (* a list or an instance of a class *)
| PRange (n : Z)
| PClass (c : string)               (* a class or a module *)
| PMember (c m : string)            (* a member of an Enum *)
| PFun (f : string)                 (* a builtin function *)
| PMeth (recv : val) (m : string).  (* a bound method *)
Inductive obj : Type := OList (l : list val) | OInst (c : string) (fields : list (string * val)).
Definition heap := list obj.

Inductive fault : Set := Std (e : exn) | TypeError | NameError | RecursionError | Unsupported.
Inductive outcome (A : Type) : Type := Ret (a : A) | Raise (e : fault).
Arguments Ret {A} a.
Arguments Raise {A} e.
Definition M (A : Type) := heap -> outcome (A * heap).
Definition mret {A} (a : A) : M A := fun h => Ret (a, h).
Definition mraise {A} (e : fault) : M A := fun _ => Raise e.
Definition mbind {A B} (m : M A) (k : A -> M B) : M B :=
  fun h => match m h with Ret (a, h') => k a h' | Raise e => Raise e end.
Definition mres {A} (r : res A) : M A := match r with Ok a => mret a | Err e => mraise (Std e) end.
Definition mopt {A} (e : fault) (o : option A) : M A := match o with Some a => mret a | None => mraise e end.
Notation "x <~ m ;; k" := (mbind m (fun x => k)) (at level 61, m at next level, right associativity).

Definition alloc (o : obj) : M val := fun h => Ret (PRef (List.length h), h ++ [o]).
Definition get_obj (l : nat) : M obj := fun h => mopt Unsupported (nth_error h l) h.
Fixpoint put (h : heap) (l : nat) (o : obj) : heap :=
  match h, l with
  | [], _ => []
  | _ :: h, O => o :: h
  | a :: h, S l => a :: put h l o
  end.
Definition set_obj (l : nat) (o : obj) : M unit := fun h => Ret (tt, put h l o).

(** ** Primitive operations *)
Definition const_val (k : const) : val :=
  match k with KNone => PNone | KBool b => PBool b | KInt z => PInt z | KFloat x => PFloat x | KStr s => PStr (lit s) | KBytes b => PBytes b end.
(** [int], and [bool] where an int will do *)
Definition as_int (v : val) : option Z :=
  match v with PInt z => Some z | PBool b => Some (Z.b2z b) | _ => None end.
Definition type_error {A} : M A := mraise TypeError.
Definition need_int (v : val) : M Z := mopt TypeError (as_int v).

(** [bool(v)] *)
Definition is_true (v : val) : M bool :=
  match v with
  | PNone => mret false
  | PBool b => mret b
  | PInt z => mret (truthy z)
  | PFloat x => mret (negb ((f64_exp (f64_bits x) =? 0) && (f64_man (f64_bits x) =? 0)))
  | PStr s => mret (nonempty s)
  | PBytes b => mret (nonempty b)
  | PTuple l => mret (nonempty l)
  | PRange n => mret (0 <? n)
  | PRef l => o <~ get_obj l ;; mret (match o with OList l => nonempty l | OInst _ _ => true end)
  | PClass _ | PMember _ _ | PFun _ | PMeth _ _ => mret true
  end.
(** the items of an iterable *)
Definition range_items (n : Z) : list val := map (fun i => PInt (Z.of_nat i)) (seq 0 (Z.to_nat n)).
Definition items (v : val) : M (list val) :=
  match v with
  | PTuple l => mret l
  | PStr s => mret (map (fun c => PStr [c]) s)
  | PBytes b => mret (map (fun c => PInt (byte_val c)) b)
  | PRange n => mret (range_items n)
  | PRef l => o <~ get_obj l ;; match o with OList l => mret l | OInst _ _ => type_error end
  | PClass _ => mraise Unsupported
  | _ => type_error
  end.
(** [len(v)] *)
Definition length_of (v : val) : M Z :=
  match v with
  | PTuple l => mret (len l)
  | PStr s => mret (len s)
  | PBytes b => mret (len b)
  | PRange n => mret (Z.max 0 n)
  | PRef l => o <~ get_obj l ;; match o with OList l => mret (len l) | OInst _ _ => type_error end
  | PClass _ => mraise Unsupported
  | _ => type_error
  end.
(** [v[i]] *)
Definition index_of {A} (l : list A) (i : Z) : M A :=
  let j := if i <? 0 then i + len l else i in
  if (j <? 0) || (len l <=? j) then mraise (Std IndexError)
  else mopt Unsupported (nth_error l (Z.to_nat j)).
Definition get_item (v i : val) : M val :=
  match v with
  | PTuple l => i <~ need_int i ;; index_of l i
  | PStr s => i <~ need_int i ;; c <~ index_of s i ;; mret (PStr [c])
  | PBytes b => i <~ need_int i ;; c <~ index_of b i ;; mret (PInt (byte_val c))
  | PRef l => o <~ get_obj l ;;
      match o with OList l => i <~ need_int i ;; index_of l i | OInst _ _ => type_error end
  | PRange _ | PClass _ => mraise Unsupported
  | _ => type_error
  end.
(** [v[i] = w] *)
Fixpoint replace {A} (l : list A) (i : nat) (a : A) : list A :=
  match l, i with
  | [], _ => []
  | _ :: l, O => a :: l
  | b :: l, S i => b :: replace l i a
  end.
Definition set_item (v i w : val) : M unit :=
  match v with
  | PRef l => o <~ get_obj l ;;
      match o with
      | OList vs => z <~ need_int i ;; _ <~ index_of vs z ;; set_obj l (OList (replace vs (Z.to_nat (if z <? 0 then z + len vs else z)) w))
      | OInst _ _ => type_error
      end
  | PClass _ => mraise Unsupported
  | _ => type_error
  end.
(** [copy.deepcopy(v)]: new lists and instances with equal contents; an object met before is not copied
    again, [memo] says what it has become.  Every step below an object adds it to [memo], so that one
    more than the number of objects is enough for [n].  (The recursion limit is not counted here; a
    ByteHandler holds a memoryview, which cannot be copied.) *)
Fixpoint lookup (l : nat) (memo : list (nat * nat)) : option nat :=
  match memo with [] => None | (k, k') :: memo => if Nat.eqb l k then Some k' else lookup l memo end.
Definition thread {A B S} (f : A -> S -> M (B * S)) : list A -> S -> M (list B * S) :=
  fix all (l : list A) (s : S) : M (list B * S) :=
    match l with [] => mret ([], s) | a :: l => b <~ f a s ;; r <~ all l (snd b) ;; mret (fst b :: fst r, snd r) end.
Definition alloc_at (o : obj) : M nat := fun h => Ret (List.length h, h ++ [o]).
Fixpoint deep_copy (n : nat) (v : val) (memo : list (nat * nat)) {struct n} : M (val * list (nat * nat)) :=
  match n with
  | O => mraise RecursionError
  | S n =>
      (fix go (v : val) (memo : list (nat * nat)) {struct v} : M (val * list (nat * nat)) :=
         match v with
         | PTuple vs => r <~ thread go vs memo ;; mret (PTuple (fst r), snd r)
         | PMeth _ _ => mraise Unsupported
         | PRef l =>
             match lookup l memo with
             | Some l' => mret (PRef l', memo)
             | None => o <~ get_obj l ;;
                 match o with
                 | OList vs => l' <~ alloc_at (OList []) ;; r <~ thread (deep_copy n) vs ((l, l') :: memo) ;;
                     _ <~ set_obj l' (OList (fst r)) ;; mret (PRef l', snd r)
                 | OInst c fs =>
                     if String.eqb c "ByteHandler" then mraise Unsupported else
                     l' <~ alloc_at (OInst c []) ;; r <~ thread (deep_copy n) (map snd fs) ((l, l') :: memo) ;;
                     _ <~ set_obj l' (OInst c (combine (map fst fs) (fst r))) ;; mret (PRef l', snd r)
                 end
             end
         | _ => mret (v, memo)
         end) v memo
  end.
(** [v[a:b]]; a bound below 0 counts from the end, bounds are cut to 0 .. len *)
Definition bound (n i : Z) : nat := Z.to_nat (Z.min n (if i <? 0 then i + n else i)).
Definition get_slice (v a b : val) : M val :=
  match v with
  | PBytes l => a <~ need_int a ;; b <~ need_int b ;;
      let a := bound (len l) a in let b := bound (len l) b in
      mret (PBytes (firstn (b - a) (skipn a l)))
  | _ => mraise Unsupported
  end.
Definition bin (o : binop) (a b : val) : M val :=
  match o, a, b with
  | BAdd, PBytes x, PBytes y => mret (PBytes (x ++ y))
  | BMul, PBytes x, _ => n <~ need_int b ;; mret (PBytes (List.concat (repeat x (Z.to_nat n))))
  | _, _, _ => x <~ need_int a ;; y <~ need_int b ;;
      mret (PInt (match o with BAdd => x + y | BSub => x - y | BMul => x * y end))
  end.

(** Numbers: [None] for NaN, infinities beyond every integer; an integer [z] is [z * 2^1074] units
    of the smallest binary64 number. *)
Definition float_nan (x : f64) : bool := (f64_exp (f64_bits x) =? 2047) && negb (f64_man (f64_bits x) =? 0).
Definition float_cmp (x y : f64) : option comparison :=
  if float_nan x || float_nan y then None else Some (f64_value x ?= f64_value y).
(** an integer against a float: infinities are further out than every integer *)
Definition int_float_cmp (z : Z) (x : f64) : option comparison :=
  if float_nan x then None
  else if f64_exp (f64_bits x) =? 2047 then Some (if f64_sign (f64_bits x) =? 0 then Lt else Gt)
  else Some (z * 2 ^ 1074 ?= f64_value x).
Inductive number : Type := NInt (z : Z) | NFloat (x : f64).
Definition as_number (v : val) : option number :=
  match v with PInt z => Some (NInt z) | PBool b => Some (NInt (Z.b2z b)) | PFloat x => Some (NFloat x) | _ => None end.
Definition num_cmp (a b : number) : option comparison :=
  match a, b with
  | NInt x, NInt y => Some (x ?= y)
  | NInt x, NFloat y => int_float_cmp x y
  | NFloat x, NInt y => option_map CompOpp (int_float_cmp y x)
  | NFloat x, NFloat y => float_cmp x y
  end.
Definition holds (o : cmpop) (c : option comparison) : bool :=
  match o, c with
  | CEq, Some Eq => true
  | CNe, Some Eq => false
  | CNe, _ => true
  | CLt, Some Lt => true
  | CGt, Some Gt => true
  | CLe, Some (Lt | Eq) => true
  | CGe, Some (Gt | Eq) => true
  | _, _ => false
  end.
Definition method_of (o : cmpop) : string :=
  match o with CLt => "__lt__" | CLe => "__le__" | CGt => "__gt__" | CGe => "__ge__" | _ => "__eq__" end%string.
Definition as_str (v : val) : option pystr := match v with PStr s => Some s | _ => None end.
Definition is_member (v : val) : bool := match v with PMember _ _ => true | _ => false end.
Definition is_none (v : val) : bool := match v with PNone => true | _ => false end.
(** [a is None], comparisons; [call] is used for the methods of an Enum class that defines order.
    A number never equals something that is not a number. *)
Definition compare (call : val -> list val -> list (string * val) -> M val) (o : cmpop) (a b : val) : M val :=
  let ordered :=
    match as_number a, as_number b with
    | Some x, Some y => mret (PBool (holds o (num_cmp x y)))
    | _, _ =>
        match as_str a, as_str b with
        | Some x, Some y => mret (PBool (holds o (Some (str_compare x y))))
        | _, _ => if is_member a then call (PMeth a (method_of o)) [b] [] else type_error
        end
    end in
  let equal :=
    match as_number a, as_number b with
    | Some x, Some y => mret (PBool (holds o (num_cmp x y)))
    | None, None =>
        match as_str a, as_str b with
        | Some x, Some y => mret (PBool (holds o (Some (str_compare x y))))
        | _, _ => mraise Unsupported
        end
    | _, _ => mret (PBool (holds o None))
    end in
  match o with
  | CIs => if is_none b then mret (PBool (is_none a)) else mraise Unsupported
  | CIsNot => if is_none b then mret (PBool (negb (is_none a))) else mraise Unsupported
  | CEq | CNe => equal
  | _ => ordered
  end.

(** ** Expressions and statements, given what calling does *)
Definition env := list (string * val).
Definition builtin_names : list (string * val) :=
  [("len", PFun "len"); ("range", PFun "range"); ("bytes", PClass "bytes"); ("memoryview", PClass "memoryview");
   ("int", PClass "int"); ("struct", PClass "struct"); ("copy", PClass "copy")]%string.

Section Run.
Variable p : program.

Definition class_of (c : string) : option class := assoc c (p_classes p).
(** A method of a class or of its direct bases (the sources have one level of inheritance). *)
Fixpoint find_in (bases : list string) (m : string) : option func :=
  match bases with
  | [] => None
  | b :: bs => match class_of b with
               | Some k => match assoc m (c_methods k) with Some f => Some f | None => find_in bs m end
               | None => find_in bs m
               end
  end.
Definition find_method (c m : string) : option func :=
  match class_of c with
  | Some k => match assoc m (c_methods k) with Some f => Some f | None => find_in (c_bases k) m end
  | None => None
  end.

(** [v.a] *)
Definition attr (call : val -> list val -> list (string * val) -> M val) (v : val) (a : string) : M val :=
  let missing := mraise (Std AttributeError) in
  match v with
  | PRef l => o <~ get_obj l ;;
      match o with
      | OList _ => if String.eqb a "append" || String.eqb a "pop" then mret (PMeth v a) else missing
      | OInst c fields =>
          match assoc a fields with
          | Some w => mret w
          | None => match find_method c a with
                    | Some f => match f_kind f with
                                | Property => call (PMeth v a) [] []
                                | Method => mret (PMeth v a)
                                | _ => mret (PMeth (PClass c) a)
                                end
                    | None => missing
                    end
          end
      end
  | PClass c =>
      match class_of c with
      | Some k =>
          match assoc a (c_members k) with
          | Some w => match c_sort k with IntEnum => mret (const_val w) | _ => mret (PMember c a) end
          | None => match find_method c a with
                    | Some f => match f_kind f with
                                | ClassMethod | StaticMethod => mret (PMeth v a)
                                | _ => mraise Unsupported
                                end
                    | None => missing
                    end
          end
      | None => mret (PMeth v a)          (* struct.pack, int.from_bytes: known when called *)
      end
  | PMember c m =>
      match class_of c with
      | Some k => if String.eqb a "value" then mopt Unsupported (option_map const_val (assoc m (c_members k)))
                  else if is_some (find_method c a) then mret (PMeth v a) else missing
      | None => mraise Unsupported
      end
  | PInt _ | PBool _ => if String.eqb a "to_bytes" then mret (PMeth v a) else missing
  | PStr _ => if String.eqb a "encode" then mret (PMeth v a) else missing
  | PBytes _ => if String.eqb a "join" || String.eqb a "rstrip" || String.eqb a "decode" then mret (PMeth v a) else missing
  | _ => missing
  end.

Section Eval.
Variable call : val -> list val -> list (string * val) -> M val.
Variable module : string.

(** A name that is not local: a constant of the module, a class, a builtin.  The constants are
    literals or [struct.calcsize(NAME)]. *)
Definition global_const (x : string) : option val :=
  match assoc module (p_globals p) with
  | None => None
  | Some g =>
      match assoc x g with
      | Some (EConst k) => Some (const_val k)
      | Some (ECall (EAttr (EName s) f) [EName y]) =>
          if String.eqb s "struct" && String.eqb f "calcsize" then
            match assoc y g with Some (EConst (KStr fmt)) => Some (PInt (Z.of_nat (calcsize fmt))) | _ => None end
          else None
      | _ => None
      end
  end.
Definition global (x : string) : option val :=
  match global_const x with
  | Some v => Some v
  | None => match class_of x with Some _ => Some (PClass x) | None => assoc x builtin_names end
  end.
(** TILE_TYPE_COUNT and the like are imported from common.py under their own names. *)
Definition imported (x : string) : option val :=
  match assoc "common"%string (p_globals p) with
  | Some g => match assoc x g with Some (EConst k) => Some (const_val k) | _ => None end
  | None => None
  end.
Definition name (e : env) (x : string) : M val :=
  match assoc x e with
  | Some v => mret v
  | None => match global x with
            | Some v => mret v
            | None => mopt NameError (imported x)
            end
  end.

Fixpoint eval (en : env) (e : expr) {struct e} : M val :=
  match e with
  | EConst k => mret (const_val k)
  | EName x => name en x
  | EAttr e a => v <~ eval en e ;; attr call v a
  | EIndex e i => v <~ eval en e ;; i <~ eval en i ;; get_item v i
  | ESlice e a b => v <~ eval en e ;; a <~ eval en a ;; b <~ eval en b ;; get_slice v a b
  | ECall f args =>
      f <~ eval en f ;;
      pk <~ (fix go (l : list expr) : M (list val * list (string * val)) :=
               match l with
               | [] => mret ([], [])
               | EStar e :: l => v <~ eval en e ;; vs <~ items v ;; r <~ go l ;; mret (vs ++ fst r, snd r)
               | EKw x e :: l => v <~ eval en e ;; r <~ go l ;; mret (fst r, (x, v) :: snd r)
               | e :: l => v <~ eval en e ;; r <~ go l ;; mret (v :: fst r, snd r)
               end) args ;;
      call f (fst pk) (snd pk)
  | EStar _ | EKw _ _ => mraise Unsupported
  | EBin o a b => x <~ eval en a ;; y <~ eval en b ;; bin o x y
  | ENot e => v <~ eval en e ;; b <~ is_true v ;; mret (PBool (negb b))
  | ENeg e => v <~ eval en e ;; z <~ need_int v ;; mret (PInt (- z))
  | ECmp o a b => x <~ eval en a ;; y <~ eval en b ;; compare call o x y
  | EChain o a b q c =>
      x <~ eval en a ;; y <~ eval en b ;; r <~ compare call o x y ;; t <~ is_true r ;;
      (if t then z <~ eval en c ;; compare call q y z else mret r)
  | EAnd a b => x <~ eval en a ;; t <~ is_true x ;; if t then eval en b else mret x
  | EIf c a b => x <~ eval en c ;; t <~ is_true x ;; if t then eval en a else eval en b
  | EList l =>
      vs <~ (fix go (l : list expr) : M (list val) :=
               match l with [] => mret [] | e :: l => v <~ eval en e ;; r <~ go l ;; mret (v :: r) end) l ;;
      alloc (OList vs)
  | ETuple l =>
      vs <~ (fix go (l : list expr) : M (list val) :=
               match l with [] => mret [] | e :: l => v <~ eval en e ;; r <~ go l ;; mret (v :: r) end) l ;;
      mret (PTuple vs)
  | EFor body x iter cond =>
      v <~ eval en iter ;; vs <~ items v ;;
      rs <~ (fix go (l : list val) : M (list val) :=
               match l with
               | [] => mret []
               | v :: l =>
                   let en := (x, v) :: en in
                   t <~ match cond with Some c => w <~ eval en c ;; is_true w | None => mret true end ;;
                   (if t then r <~ eval en body ;; rs <~ go l ;; mret (r :: rs) else go l)
               end) vs ;;
      alloc (OList rs)
  end.

(** [Some v]: the function returned [v]. *)
Definition set_field (fs : list (string * val)) (a : string) (v : val) : list (string * val) :=
  map (fun f => if String.eqb (fst f) a then (fst f, v) else f) fs.
(** [o.a = v]: all classes have slots or set their attributes in [__init__]. *)
Definition set_attr (o : val) (a : string) (v : val) : M unit :=
  match o with
  | PRef l => b <~ get_obj l ;;
      match b with
      | OInst c fs =>
          match assoc a fs with
          | Some _ => set_obj l (OInst c (set_field fs a v))
          | None => match class_of c with
                    | Some k => match c_sort k with
                                | Plain => set_obj l (OInst c (fs ++ [(a, v)]))
                                | _ => mraise (Std AttributeError)
                                end
                    | None => mraise Unsupported
                    end
          end
      | OList _ => mraise (Std AttributeError)
      end
  | _ => mraise (Std AttributeError)
  end.
Fixpoint unpack {A} (xs : list string) (vs : list A) : option (list (string * A)) :=
  match xs, vs with
  | [], [] => Some []
  | x :: xs, v :: vs => option_map (fun e => e ++ [(x, v)]) (unpack xs vs)
  | _, _ => None
  end.

Fixpoint exec (s : stmt) (en : env) {struct s} : M (env * option val) :=
  let block := fix block (l : list stmt) (en : env) : M (env * option val) :=
    match l with
    | [] => mret (en, None)
    | s :: l => r <~ exec s en ;; match snd r with Some _ => mret r | None => block l (fst r) end
    end in
  match s with
  | SAssign x e => v <~ eval en e ;; mret ((x, v) :: en, None)
  | SUnpack xs e => v <~ eval en e ;; vs <~ items v ;;
      new <~ mopt (Std ValueError) (unpack xs vs) ;; mret (new ++ en, None)
  | SSetAttr o a e => v <~ eval en e ;; o <~ eval en o ;; _ <~ set_attr o a v ;; mret (en, None)
  | SSetItem o i e => v <~ eval en e ;; o <~ eval en o ;; i <~ eval en i ;; _ <~ set_item o i v ;; mret (en, None)
  | SAdd x e => a <~ name en x ;; b <~ eval en e ;; v <~ bin BAdd a b ;; mret ((x, v) :: en, None)
  | SReturn e => v <~ eval en e ;; mret (en, Some v)
  | SExpr e => _ <~ eval en e ;; mret (en, None)
  | SAssert e => v <~ eval en e ;; t <~ is_true v ;;
      if t then mret (en, None) else mraise (Std AssertionError)
  | SRaise e => mraise (Std e)
  | SIf c a b => v <~ eval en c ;; t <~ is_true v ;; if t then block a en else block b en
  | SFor x iter body =>
      v <~ eval en iter ;; vs <~ items v ;;
      (fix go (l : list val) (en : env) : M (env * option val) :=
         match l with
         | [] => mret (en, None)
         | v :: l => r <~ block body ((x, v) :: en) ;;
             match snd r with Some _ => mret r | None => go l (fst r) end
         end) vs en
  end.
Fixpoint block (l : list stmt) (en : env) : M (env * option val) :=
  match l with
  | [] => mret (en, None)
  | s :: l => r <~ exec s en ;; match snd r with Some _ => mret r | None => block l (fst r) end
  end.
End Eval.

(** ** Calls *)
(** Arguments to parameters. *)
Fixpoint bind_args {A} (params : list string) (pos : list A) (kw : list (string * A))
    (defaults : list (string * A)) : option (list (string * A)) :=
  match params with
  | [] => match pos with [] => Some [] | _ => None end
  | x :: ps =>
      match pos with
      | v :: pos => match assoc x kw with
                    | Some _ => None
                    | None => option_map (cons (x, v)) (bind_args ps pos kw defaults)
                    end
      | [] => match assoc x kw with
              | Some v => option_map (cons (x, v)) (bind_args ps [] kw defaults)
              | None => match assoc x defaults with
                        | Some v => option_map (cons (x, v)) (bind_args ps [] kw defaults)
                        | None => None
                        end
              end
      end
  end.
Definition known_kw {A} (params : list string) (kw : list (string * A)) : bool :=
  forallb (fun k => existsb (String.eqb (fst k)) params) kw.

(** Arguments of [struct.pack]. *)
Definition as_pack (v : val) : option pyval :=
  match v with
  | PInt z => Some (VInt z)
  | PBool b => Some (VInt (Z.b2z b))
  | PFloat x => Some (VFloat x)
  | _ => None
  end.
(** [None] is what [struct] cannot pack. *)
Fixpoint pack_vals (cs : list fc) (vs : list (option pyval)) : res bytes :=
  match cs, vs with
  | c :: cs', v :: vs' => (match v with Some w => pack1 c w | None => Err StructError end) +++ pack_vals cs' vs'
  | _, _ => Ok []
  end.
Definition ascii_of (s : pystr) : string :=
  fold_right (fun c r => String (ascii_of_N (Z.to_N c)) r) EmptyString s.
(** the native float format, of [Float] *)
Definition native_f (f : pystr) : bool := str_eqb f (lit "f").
Definition py_pack (f : pystr) (vs : list (option pyval)) : res bytes :=
  if native_f f then
    match vs with
    | [v] => match v with
             | Some (VFloat x) => Float_to_bytes LittleEndian x
             | Some (VInt z) => match f64_of_Z z with Some x => Float_to_bytes LittleEndian x | None => Err StructError end
             | None => Err StructError
             end
    | _ => Err StructError
    end
  else
    match parse_fmt (ascii_of f) with
    | None => Err StructError
    | Some cs => if Nat.eqb (List.length cs) (List.length vs) then pack_vals cs vs else Err StructError
    end.
Definition of_pack (v : pyval) : val := match v with VInt z => PInt z | VFloat x => PFloat x end.
Definition py_unpack (f : pystr) (b : bytes) : res (list val) :=
  if native_f f then rbind (Float_from_bytes LittleEndian b) (fun x => Ok [PFloat x])
  else rbind (struct_unpack (ascii_of f) b) (fun l => Ok (map of_pack l)).

Definition as_bytes (v : val) : option bytes := match v with PBytes b => Some b | _ => None end.
Fixpoint join_vals (l : list val) : option bytes :=
  match l with
  | [] => Some []
  | PBytes b :: l => option_map (app b) (join_vals l)
  | _ => None
  end.
(** the kinds of values one of which is passed as [byteorder] *)
Definition little (v : val) : bool := match v with PStr s => str_eqb s (lit "little") | _ => false end.

(** Methods and functions of Python itself. *)
Definition builtin (recv : val) (m : string) (pos : list val) (kw : list (string * val)) : M val :=
  (match recv, pos, kw with
  | PRef l, [v], [] =>                                                     (* list.append *)
      if String.eqb m "append" then
        o <~ get_obj l ;; match o with
                          | OList vs => _ <~ set_obj l (OList (vs ++ [v])) ;; mret PNone
                          | _ => mraise Unsupported
                          end
      else mraise Unsupported
  | PRef l, [], [] =>                                                      (* list.pop *)
      if String.eqb m "pop" then
        o <~ get_obj l ;; match o with
                          | OList [] => mraise (Std IndexError)
                          | OList (v :: vs) => _ <~ set_obj l (OList (removelast (v :: vs))) ;; mret (last vs v)
                          | _ => mraise Unsupported
                          end
      else type_error
  | (PInt _ | PBool _), [n; order], [(k, s)] =>                            (* int.to_bytes(n, 'little', signed=s) *)
      if String.eqb k "signed" then
        z <~ need_int recv ;; n <~ need_int n ;; s <~ is_true s ;;
        (if little order && (0 <=? n)%Z then b <~ mres (int_to_bytes z (Z.to_nat n) s) ;; mret (PBytes b)
         else mraise Unsupported)
      else type_error
  | (PInt _ | PBool _), [n], [] =>                                         (* int.to_bytes(n) *)
      match as_int n with Some _ => mraise Unsupported | None => type_error end
  | (PInt _ | PBool _), _, _ => type_error
  | PStr s, [], [] => b <~ mres (str_encode s) ;; mret (PBytes b)          (* str.encode() *)
  | PStr s, [PStr c], [] =>
      if str_eqb c (lit "utf-8") then b <~ mres (str_encode s) ;; mret (PBytes b) else mraise Unsupported
  | PBytes b, _, [] =>
      if String.eqb m "join" then
        match b, pos with
        | [], [v] => vs <~ items v ;; r <~ mopt TypeError (join_vals vs) ;; mret (PBytes r)
        | _, _ => mraise Unsupported
        end
      else if String.eqb m "rstrip" then
        match pos with
        | [PBytes [c]] => if byte_eqb c (byte_of 0) then mret (PBytes (rstrip0 b)) else mraise Unsupported
        | _ => mraise Unsupported
        end
      else match pos with
           | [] => s <~ mres (bytes_decode b) ;; mret (PStr s)
           | _ => mraise Unsupported
           end
  | PClass c, _, _ =>
      if String.eqb c "struct" && String.eqb m "pack" then
        match pos, kw with
        | PStr f :: vs, [] => b <~ mres (py_pack f (map as_pack vs)) ;; mret (PBytes b)
        | _, _ => type_error
        end
      else if String.eqb c "struct" && String.eqb m "unpack" then
        match pos, kw with
        | [PStr f; PBytes b], [] => l <~ mres (py_unpack f b) ;; mret (PTuple l)
        | _, _ => type_error
        end
      else if String.eqb c "int" && String.eqb m "from_bytes" then
        match pos, kw with
        | [PBytes b], [(k, o); (k', s)] =>
            if String.eqb k "byteorder" && String.eqb k' "signed" && little o then
              s <~ is_true s ;; mret (PInt (int_from_bytes b s))
            else mraise Unsupported
        | _, _ => mraise Unsupported
        end
      else if String.eqb c "copy" && String.eqb m "deepcopy" then
        match pos, kw with
        | [v], [] => r <~ (fun h => deep_copy (S (List.length h)) v [] h) ;; mret (fst r)
        | _, _ => mraise Unsupported
        end
      else mraise Unsupported
  | _, _, _ => mraise Unsupported
  end)%string.

(** Running a function of the sources, given what calling does. *)
Definition apply_func (call : val -> list val -> list (string * val) -> M val) (fn : func)
    (pos : list val) (kw : list (string * val)) : M val :=
  defaults <~ (fix go (l : list (string * expr)) : M (list (string * val)) :=
                 match l with
                 | [] => mret []
                 | (x, e) :: l => v <~ eval call (f_module fn) [] e ;; r <~ go l ;; mret ((x, v) :: r)
                 end) (f_defaults fn) ;;
  (if known_kw (f_params fn) kw then
     en <~ mopt TypeError (bind_args (f_params fn) pos kw defaults) ;;
     r <~ block call (f_module fn) (f_body fn) en ;;
     mret (match snd r with Some v => v | None => PNone end)
   else type_error).
Definition apply_method (call : val -> list val -> list (string * val) -> M val) (c m : string)
    (pos : list val) (kw : list (string * val)) : M val :=
  match find_method c m with Some fn => apply_func call fn pos kw | None => mraise Unsupported end.

(** Calling [f] with positional and keyword arguments; [n] is what is left of the recursion limit. *)
Fixpoint call (n : nat) (f : val) (pos : list val) (kw : list (string * val)) : M val :=
  match n with
  | O => mraise RecursionError
  | S n =>
      match f with
      | PMeth recv m =>
          match recv with
          | PRef l => o <~ get_obj l ;;
              match o with
              | OInst c _ => apply_method (call n) c m (recv :: pos) kw
              | OList _ => builtin recv m pos kw
              end
          | PMember c _ => apply_method (call n) c m (recv :: pos) kw
          | PClass c =>
              match find_method c m with
              | Some fn => match f_kind fn with
                           | StaticMethod => apply_func (call n) fn pos kw
                           | ClassMethod => apply_func (call n) fn (recv :: pos) kw
                           | _ => mraise Unsupported
                           end
              | None => builtin recv m pos kw
              end
          | _ => builtin recv m pos kw
          end
      | PClass c =>
          match class_of c with
          | Some k =>
              match c_sort k with
              | Dataclass =>
                  if known_kw (c_fields k) kw then
                    fs <~ mopt TypeError (bind_args (c_fields k) pos kw (map (fun d => (fst d, const_val (snd d))) (c_defaults k))) ;; alloc (OInst c fs)
                  else type_error
              | Plain => self <~ alloc (OInst c []) ;; _ <~ apply_method (call n) c "__init__"%string (self :: pos) kw ;; mret self
              | Enum =>
                  match pos, kw with
                  | [PMember c' m], [] => if String.eqb c c' then mret (PMember c m) else mraise (Std ValueError)
                  | [PStr s], [] =>
                      match find (fun m => match snd m with KStr t => str_eqb (lit t) s | _ => false end) (c_members k) with
                      | Some m => mret (PMember c (fst m))
                      | None => mraise (Std ValueError)
                      end
                  | [_], [] => mraise (Std ValueError)
                  | _, _ => type_error
                  end
              | IntEnum => mraise Unsupported
              end
          | None =>
              if String.eqb c "bytes" || String.eqb c "memoryview" then
                match pos, kw with [PBytes b], [] => mret (PBytes b) | _, _ => mraise Unsupported end
              else mraise Unsupported
          end
      | PFun f =>
          match pos, kw with
          | [v], [] => if String.eqb f "len" then z <~ length_of v ;; mret (PInt z)
                       else z <~ need_int v ;; mret (PRange z)
          | _, _ => type_error
          end
      | _ => type_error
      end
  end.
End Run.
