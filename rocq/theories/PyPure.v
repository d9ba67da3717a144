(** * Running a program that changes nothing

    The methods that write a record read attributes, call each other and join bytes, but assign to no
    attribute and append to no list.  For such a program the heap does not matter: it can be run on
    [deep] values.  [PyPureSim.v] proves that running it in the heap does the same.

    [Unsupported] here means: no claim. *)
From Verif Require Import Base PyInt PyFloat PyStr PyStruct DataTypes Versions Common Py PyRep.
From Coq Require Import String Ascii.
Open Scope Z_scope.
Local Open Scope list_scope.

Definition obind {A B} (o : outcome A) (k : A -> outcome B) : outcome B :=
  match o with Ret a => k a | Raise e => Raise e end.
Notation "x <+ m ;; k" := (obind m (fun x => k)) (at level 61, m at next level, right associativity).
Definition oopt {A} (e : fault) (o : option A) : outcome A := match o with Some a => Ret a | None => Raise e end.
Definition ores {A} (r : res A) : outcome A := match r with Ok a => Ret a | Err e => Raise (Std e) end.

Definition dconst (k : const) : deep :=
  match k with KNone => DNone | KBool b => DBool b | KInt z => DInt z | KFloat x => DFloat x | KStr s => DStr (lit s) | KBytes b => DBytes b end.
Definition d_int (d : deep) : option Z := match d with DInt z => Some z | DBool b => Some (Z.b2z b) | _ => None end.
(** What a program does with a number for which an int may stand, other than to store it or to pack it as a float: no claim. *)
Definition d_need_int (d : deep) : outcome Z :=
  match d with DNum _ => Raise Unsupported | _ => oopt TypeError (d_int d) end.
Definition d_true (d : deep) : outcome bool :=
  match d with
  | DNone => Ret false
  | DBool b => Ret b
  | DInt z => Ret (truthy z)
  | DFloat _ | DNum _ => Raise Unsupported
  | DStr s => Ret (nonempty s)
  | DBytes b => Ret (nonempty b)
  | DList l | DTuple l => Ret (nonempty l)
  | DRange n => Ret (0 <? n)
  | DObj _ _ | DClass _ | DMember _ _ | DFun _ | DMeth _ _ => Ret true
  end.
Definition d_items (d : deep) : outcome (list deep) :=
  match d with
  | DList l | DTuple l => Ret l
  | DStr s => Ret (map (fun c => DStr [c]) s)
  | DBytes b => Ret (map (fun c => DInt (byte_val c)) b)
  | DRange n => Ret (map (fun i => DInt (Z.of_nat i)) (seq 0 (Z.to_nat n)))
  | DNum _ | DClass _ => Raise Unsupported
  | _ => Raise TypeError
  end.
Definition d_len (d : deep) : outcome Z :=
  match d with
  | DList l | DTuple l => Ret (len l)
  | DStr s => Ret (len s)
  | DBytes b => Ret (len b)
  | DRange n => Ret (Z.max 0 n)
  | DNum _ | DClass _ => Raise Unsupported
  | _ => Raise TypeError
  end.
Definition d_index {A} (l : list A) (i : Z) : outcome A :=
  let j := if i <? 0 then i + len l else i in
  if (j <? 0) || (len l <=? j) then Raise (Std IndexError) else oopt Unsupported (nth_error l (Z.to_nat j)).
Definition d_item (d i : deep) : outcome deep :=
  match d with
  | DList l | DTuple l => i <+ d_need_int i ;; d_index l i
  | DStr s => i <+ d_need_int i ;; c <+ d_index s i ;; Ret (DStr [c])
  | DBytes b => i <+ d_need_int i ;; c <+ d_index b i ;; Ret (DInt (byte_val c))
  | DNum _ | DRange _ | DClass _ => Raise Unsupported
  | _ => Raise TypeError
  end.
Definition d_slice (d a b : deep) : outcome deep :=
  match d with
  | DBytes l => a <+ d_need_int a ;; b <+ d_need_int b ;;
      let a := bound (len l) a in let b := bound (len l) b in Ret (DBytes (firstn (b - a) (skipn a l)))
  | _ => Raise Unsupported
  end.
Definition d_bin (o : binop) (a b : deep) : outcome deep :=
  match o, a, b with
  | BAdd, DBytes x, DBytes y => Ret (DBytes (x ++ y))
  | BMul, DBytes x, _ => n <+ d_need_int b ;; Ret (DBytes (List.concat (repeat x (Z.to_nat n))))
  | _, _, _ => x <+ d_need_int a ;; y <+ d_need_int b ;;
      Ret (DInt (match o with BAdd => x + y | BSub => x - y | BMul => x * y end))
  end.
Definition d_is_float (d : deep) : bool := match d with DFloat _ | DNum _ => true | _ => false end.
Definition d_str (d : deep) : option pystr := match d with DStr s => Some s | _ => None end.
Definition d_member (d : deep) : bool := match d with DMember _ _ => true | _ => false end.
Definition d_none (d : deep) : bool := match d with DNone => true | _ => false end.
Definition d_compare (call : deep -> list deep -> list (string * deep) -> outcome deep) (o : cmpop) (a b : deep) : outcome deep :=
  let ordered :=
    match d_int a, d_int b with
    | Some x, Some y => Ret (DBool (holds o (Some (x ?= y))))
    | _, _ =>
        match d_str a, d_str b with
        | Some x, Some y => Ret (DBool (holds o (Some (str_compare x y))))
        | _, _ => if d_member a then call (DMeth a (method_of o)) [b] [] else Raise TypeError
        end
    end in
  let equal :=
    match d_int a, d_int b with
    | Some x, Some y => Ret (DBool (holds o (Some (x ?= y))))
    | None, None =>
        match d_str a, d_str b with
        | Some x, Some y => Ret (DBool (holds o (Some (str_compare x y))))
        | _, _ => Raise Unsupported
        end
    | _, _ => Ret (DBool (holds o None))
    end in
  match o with
  | CIs => if d_none b then Ret (DBool (d_none a)) else Raise Unsupported
  | CIsNot => if d_none b then Ret (DBool (negb (d_none a))) else Raise Unsupported
  | CEq | CNe => if d_is_float a || d_is_float b then Raise Unsupported else equal
  | _ => if d_is_float a || d_is_float b then Raise Unsupported else ordered
  end.

Section Run.
Variable p : program.

Definition d_attr (call : deep -> list deep -> list (string * deep) -> outcome deep) (d : deep) (a : string) : outcome deep :=
  let missing := Raise (Std AttributeError) in
  match d with
  | DNum _ | DList _ | DTuple _ => Raise Unsupported
  | DObj c fields =>
      match assoc a fields with
      | Some w => Ret w
      | None => match find_method p c a with
                | Some f => match f_kind f with
                            | Property => call (DMeth d a) [] []
                            | Method => Ret (DMeth d a)
                            | _ => Ret (DMeth (DClass c) a)
                            end
                | None => missing
                end
      end
  | DClass c =>
      match class_of p c with
      | Some k =>
          match assoc a (c_members k) with
          | Some w => match c_sort k with IntEnum => Ret (dconst w) | _ => Ret (DMember c a) end
          | None => match find_method p c a with
                    | Some f => match f_kind f with
                                | ClassMethod | StaticMethod => Ret (DMeth d a)
                                | _ => Raise Unsupported
                                end
                    | None => missing
                    end
          end
      | None => Ret (DMeth d a)
      end
  | DMember c m =>
      match class_of p c with
      | Some k => if String.eqb a "value" then oopt Unsupported (option_map dconst (assoc m (c_members k)))
                  else if is_some (find_method p c a) then Ret (DMeth d a) else missing
      | None => Raise Unsupported
      end
  | DInt _ | DBool _ => if String.eqb a "to_bytes" then Ret (DMeth d a) else missing
  | DStr _ => if String.eqb a "encode" then Ret (DMeth d a) else missing
  | DBytes _ => if String.eqb a "join" || String.eqb a "rstrip" || String.eqb a "decode" then Ret (DMeth d a) else missing
  | _ => missing
  end.

Section Eval.
Variable call : deep -> list deep -> list (string * deep) -> outcome deep.
Variable module : string.

(** What a value of a global name is as a deep value: constants, classes, builtins. *)
Definition d_of (v : val) : outcome deep :=
  match v with
  | PNone => Ret DNone | PBool b => Ret (DBool b) | PInt z => Ret (DInt z) | PFloat x => Ret (DFloat x)
  | PStr s => Ret (DStr s) | PBytes b => Ret (DBytes b) | PClass c => Ret (DClass c) | PFun f => Ret (DFun f)
  | _ => Raise Unsupported
  end.
Definition d_name (en : list (string * deep)) (x : string) : outcome deep :=
  match assoc x en with
  | Some d => Ret d
  | None => match global p module x with
            | Some v => d_of v
            | None => match imported p x with Some v => d_of v | None => Raise NameError end
            end
  end.

Fixpoint d_eval (en : list (string * deep)) (e : expr) {struct e} : outcome deep :=
  match e with
  | EConst k => Ret (dconst k)
  | EName x => d_name en x
  | EAttr e a => v <+ d_eval en e ;; d_attr call v a
  | EIndex e i => v <+ d_eval en e ;; i <+ d_eval en i ;; d_item v i
  | ESlice e a b => v <+ d_eval en e ;; a <+ d_eval en a ;; b <+ d_eval en b ;; d_slice v a b
  | ECall f args =>
      f <+ d_eval en f ;;
      pk <+ (fix go (l : list expr) : outcome (list deep * list (string * deep)) :=
               match l with
               | [] => Ret ([], [])
               | EStar e :: l => v <+ d_eval en e ;; vs <+ d_items v ;; r <+ go l ;; Ret (vs ++ fst r, snd r)
               | EKw x e :: l => v <+ d_eval en e ;; r <+ go l ;; Ret (fst r, (x, v) :: snd r)
               | e :: l => v <+ d_eval en e ;; r <+ go l ;; Ret (v :: fst r, snd r)
               end) args ;;
      call f (fst pk) (snd pk)
  | EStar _ | EKw _ _ => Raise Unsupported
  | EBin o a b => x <+ d_eval en a ;; y <+ d_eval en b ;; d_bin o x y
  | ENot e => v <+ d_eval en e ;; b <+ d_true v ;; Ret (DBool (negb b))
  | ENeg e => v <+ d_eval en e ;; z <+ d_need_int v ;; Ret (DInt (- z))
  | ECmp o a b => x <+ d_eval en a ;; y <+ d_eval en b ;; d_compare call o x y
  | EChain o a b q c =>
      x <+ d_eval en a ;; y <+ d_eval en b ;; r <+ d_compare call o x y ;; t <+ d_true r ;;
      (if t then z <+ d_eval en c ;; d_compare call q y z else Ret r)
  | EAnd a b => x <+ d_eval en a ;; t <+ d_true x ;; if t then d_eval en b else Ret x
  | EIf c a b => x <+ d_eval en c ;; t <+ d_true x ;; if t then d_eval en a else d_eval en b
  | EList l =>
      vs <+ (fix go (l : list expr) : outcome (list deep) :=
               match l with [] => Ret [] | e :: l => v <+ d_eval en e ;; r <+ go l ;; Ret (v :: r) end) l ;;
      Ret (DList vs)
  | ETuple l =>
      vs <+ (fix go (l : list expr) : outcome (list deep) :=
               match l with [] => Ret [] | e :: l => v <+ d_eval en e ;; r <+ go l ;; Ret (v :: r) end) l ;;
      Ret (DTuple vs)
  | EFor body x iter cond =>
      v <+ d_eval en iter ;; vs <+ d_items v ;;
      rs <+ (fix go (l : list deep) : outcome (list deep) :=
               match l with
               | [] => Ret []
               | v :: l =>
                   let en := (x, v) :: en in
                   t <+ match cond with Some c => w <+ d_eval en c ;; d_true w | None => Ret true end ;;
                   (if t then r <+ d_eval en body ;; rs <+ go l ;; Ret (r :: rs) else go l)
               end) vs ;;
      Ret (DList rs)
  end.

Fixpoint d_exec (s : stmt) (en : list (string * deep)) {struct s} : outcome (list (string * deep) * option deep) :=
  let block := fix block (l : list stmt) (en : list (string * deep)) : outcome (list (string * deep) * option deep) :=
    match l with
    | [] => Ret (en, None)
    | s :: l => r <+ d_exec s en ;; match snd r with Some _ => Ret r | None => block l (fst r) end
    end in
  match s with
  | SAssign x e => v <+ d_eval en e ;; Ret ((x, v) :: en, None)
  | SUnpack xs e => v <+ d_eval en e ;; vs <+ d_items v ;;
      new <+ oopt (Std ValueError) (unpack xs vs) ;; Ret (new ++ en, None)
  | SSetAttr o a e => Raise Unsupported
  | SSetItem o i e => Raise Unsupported
  | SAdd x e => a <+ d_name en x ;; b <+ d_eval en e ;; v <+ d_bin BAdd a b ;; Ret ((x, v) :: en, None)
  | SReturn e => v <+ d_eval en e ;; Ret (en, Some v)
  | SExpr e => _ <+ d_eval en e ;; Ret (en, None)
  | SAssert e => v <+ d_eval en e ;; t <+ d_true v ;; if t then Ret (en, None) else Raise (Std AssertionError)
  | SRaise e => Raise (Std e)
  | SIf c a b => v <+ d_eval en c ;; t <+ d_true v ;; if t then block a en else block b en
  | SFor x iter body =>
      v <+ d_eval en iter ;; vs <+ d_items v ;;
      (fix go (l : list deep) (en : list (string * deep)) : outcome (list (string * deep) * option deep) :=
         match l with
         | [] => Ret (en, None)
         | v :: l => r <+ block body ((x, v) :: en) ;;
             match snd r with Some _ => Ret r | None => go l (fst r) end
         end) vs en
  end.
Fixpoint d_block (l : list stmt) (en : list (string * deep)) : outcome (list (string * deep) * option deep) :=
  match l with
  | [] => Ret (en, None)
  | s :: l => r <+ d_exec s en ;; match snd r with Some _ => Ret r | None => d_block l (fst r) end
  end.
End Eval.

Definition d_pack (d : deep) : option pyval :=
  match d with DInt z => Some (VInt z) | DBool b => Some (VInt (Z.b2z b)) | DFloat x | DNum x => Some (VFloat x) | _ => None end.
(** Is a number for which an int may stand packed as an int?  (Then [struct] raises for the float only.) *)
Fixpoint nums_fit (cs : list fc) (ds : list deep) : bool :=
  match cs, ds with
  | c :: cs, d :: ds => (match c, d with Ff, _ => true | _, DNum _ => false | _, _ => true end) && nums_fit cs ds
  | _, _ => true
  end.
Definition pack_fits (f : pystr) (ds : list deep) : bool :=
  native_f f || match parse_fmt (ascii_of f) with Some cs => negb (Nat.eqb (List.length cs) (List.length ds)) || nums_fit cs ds | None => true end.
Definition d_of_pack (v : pyval) : deep := match v with VInt z => DInt z | VFloat x => DFloat x end.
Definition d_unpack (f : pystr) (b : bytes) : res (list deep) :=
  if native_f f then rbind (Float_from_bytes LittleEndian b) (fun x => Ok [DFloat x])
  else rbind (struct_unpack (ascii_of f) b) (fun l => Ok (map d_of_pack l)).
Fixpoint d_join (l : list deep) : option bytes :=
  match l with
  | [] => Some []
  | DBytes b :: l => option_map (app b) (d_join l)
  | _ => None
  end.
Definition d_little (d : deep) : bool := match d with DStr s => str_eqb s (lit "little") | _ => false end.

Definition d_builtin (recv : deep) (m : string) (pos : list deep) (kw : list (string * deep)) : outcome deep :=
  (match recv, pos, kw with
  | (DInt _ | DBool _), [n; order], [(k, s)] =>
      if String.eqb k "signed" then
        z <+ d_need_int recv ;; n <+ d_need_int n ;; s <+ d_true s ;;
        (if d_little order && (0 <=? n)%Z then b <+ ores (int_to_bytes z (Z.to_nat n) s) ;; Ret (DBytes b)
         else Raise Unsupported)
      else Raise TypeError
  | DStr s, [], [] => b <+ ores (str_encode s) ;; Ret (DBytes b)
  | DStr s, [DStr c], [] =>
      if str_eqb c (lit "utf-8") then b <+ ores (str_encode s) ;; Ret (DBytes b) else Raise Unsupported
  | DBytes b, _, [] =>
      if String.eqb m "join" then
        match b, pos with
        | [], [v] => vs <+ d_items v ;; r <+ oopt TypeError (d_join vs) ;; Ret (DBytes r)
        | _, _ => Raise Unsupported
        end
      else if String.eqb m "rstrip" then
        match pos with
        | [DBytes [c]] => if byte_eqb c (byte_of 0) then Ret (DBytes (rstrip0 b)) else Raise Unsupported
        | _ => Raise Unsupported
        end
      else match pos with
           | [] => s <+ ores (bytes_decode b) ;; Ret (DStr s)
           | _ => Raise Unsupported
           end
  | DClass c, _, _ =>
      if String.eqb c "struct" && String.eqb m "pack" then
        match pos, kw with
        | DStr f :: vs, [] =>
            if pack_fits f vs then b <+ ores (py_pack f (map d_pack vs)) ;; Ret (DBytes b) else Raise Unsupported
        | _, _ => Raise Unsupported
        end
      else if String.eqb c "struct" && String.eqb m "unpack" then
        match pos, kw with
        | [DStr f; DBytes b], [] => l <+ ores (d_unpack f b) ;; Ret (DTuple l)
        | _, _ => Raise Unsupported
        end
      else if String.eqb c "int" && String.eqb m "from_bytes" then
        match pos, kw with
        | [DBytes b], [(k, o); (k', s)] =>
            if String.eqb k "byteorder" && String.eqb k' "signed" && d_little o then
              s <+ d_true s ;; Ret (DInt (int_from_bytes b s))
            else Raise Unsupported
        | _, _ => Raise Unsupported
        end
      else Raise Unsupported
  | _, _, _ => Raise Unsupported
  end)%string.

Definition d_apply (call : deep -> list deep -> list (string * deep) -> outcome deep) (fn : func)
    (pos : list deep) (kw : list (string * deep)) : outcome deep :=
  defaults <+ (fix go (l : list (string * expr)) : outcome (list (string * deep)) :=
                 match l with
                 | [] => Ret []
                 | (x, e) :: l => v <+ d_eval call (f_module fn) [] e ;; r <+ go l ;; Ret ((x, v) :: r)
                 end) (f_defaults fn) ;;
  (if known_kw (f_params fn) kw then
     en <+ oopt TypeError (bind_args (f_params fn) pos kw defaults) ;;
     r <+ d_block call (f_module fn) (f_body fn) en ;;
     Ret (match snd r with Some v => v | None => DNone end)
   else Raise TypeError).
Definition d_method (call : deep -> list deep -> list (string * deep) -> outcome deep) (c m : string)
    (pos : list deep) (kw : list (string * deep)) : outcome deep :=
  match find_method p c m with Some fn => d_apply call fn pos kw | None => Raise Unsupported end.

Fixpoint d_call (n : nat) (f : deep) (pos : list deep) (kw : list (string * deep)) : outcome deep :=
  match n with
  | O => Raise RecursionError
  | S n =>
      match f with
      | DMeth recv m =>
          match recv with
          | DObj c _ => d_method (d_call n) c m (recv :: pos) kw
          | DMember c _ => d_method (d_call n) c m (recv :: pos) kw
          | DClass c =>
              match find_method p c m with
              | Some fn => match f_kind fn with
                           | StaticMethod => d_apply (d_call n) fn pos kw
                           | ClassMethod => d_apply (d_call n) fn (recv :: pos) kw
                           | _ => Raise Unsupported
                           end
              | None => d_builtin recv m pos kw
              end
          | _ => d_builtin recv m pos kw
          end
      | DClass c =>
          match class_of p c with
          | Some k =>
              match c_sort k with
              | Dataclass =>
                  if known_kw (c_fields k) kw then
                    fs <+ oopt TypeError (bind_args (c_fields k) pos kw (map (fun d => (fst d, dconst (snd d))) (c_defaults k))) ;;
                    Ret (DObj c fs)
                  else Raise TypeError
              | Enum =>
                  match pos, kw with
                  | [DStr s], [] =>
                      match find (fun m => match snd m with KStr t => str_eqb (lit t) s | _ => false end) (c_members k) with
                      | Some m => Ret (DMember c (fst m))
                      | None => Raise (Std ValueError)
                      end
                  | _, _ => Raise Unsupported
                  end
              | _ => Raise Unsupported
              end
          | None =>
              if String.eqb c "bytes" || String.eqb c "memoryview" then
                match pos, kw with [DBytes b], [] => Ret (DBytes b) | _, _ => Raise Unsupported end
              else Raise Unsupported
          end
      | DFun f =>
          match pos, kw with
          | [v], [] => if String.eqb f "len" then z <+ d_len v ;; Ret (DInt z)
                       else z <+ d_need_int v ;; Ret (DRange z)
          | _, _ => Raise TypeError
          end
      | _ => Raise TypeError
      end
  end.
End Run.
