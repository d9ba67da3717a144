(** * The command [dat-to-json] (pyproject.toml:28) as written: scripts.py:10-19, on top of World.v.

    What the script uses of the standard library, on the heap: [argparse] with positional arguments,
    [dataclasses.asdict], [json.dumps] with [indent=2], [print].

    Simplifications: those of World.v; a [dict] with strings as keys is an [OInst "dict"]; a command
    line that [argparse] does not take as exactly the positional arguments is [Unsupported] ([argparse]
    prints a usage message and exits), and so is an argument that starts with a minus sign; what
    [add_argument] returns is not modelled; [asdict] and [dumps] need one frame for each level they go
    down (they need a fixed multiple of it).  [float.__repr__] is a parameter, as in Json.v. *)
From Verif Require Import Base PyInt PyFloat PyStr PyStruct DataTypes Versions Common Py Source SourceCli FS World.
From Verif Require Import Dump Json.
From Coq Require Import String Ascii.
Open Scope Z_scope.
Local Open Scope list_scope.

Fixpoint mmap {A B} (f : A -> M B) (l : list A) : M (list B) :=
  match l with
  | [] => mret []
  | a :: l => b <~ f a ;; r <~ mmap f l ;; mret (b :: r)
  end.

(** dataclasses.py (3.11) [_asdict_inner]: a dictionary of the fields of a dataclass in the order of
    declaration; lists and tuples become new lists and tuples; [copy.deepcopy] of the rest, which is
    immutable here. *)
Fixpoint asdict (n : nat) (v : val) : M val :=
  match n with
  | O => mraise RecursionError
  | S n =>
      match v with
      | PTuple l => l' <~ mmap (asdict n) l ;; mret (PTuple l')
      | PRef q => o <~ get_obj q ;;
          match o with
          | OList l => l' <~ mmap (asdict n) l ;; alloc (OList l')
          | OInst c fs =>
              match class_of source c with
              | Some k =>
                  match c_sort k with
                  | Dataclass =>
                      kvs <~ mmap (fun x => w <~ mopt (Std AttributeError) (assoc x fs) ;; w' <~ asdict n w ;; mret (x, w')) (c_fields k) ;;
                      alloc (OInst "dict" kvs)
                  | _ => mraise Unsupported
                  end
              | None => mraise Unsupported
              end
          end
      | _ => mret v
      end
  end.

Section Cli.
Variable inflate : bytes -> res bytes.
Variable deflate : bytes -> bytes.
Variable repr : f64 -> pystr.
Variable argv : list pystr.                             (* sys.argv[1:] *)

(** json/encoder.py:277-431 _make_iterencode on the objects of the heap; the pieces are those of Json.v. *)
Fixpoint json_encode (n : nat) (level : nat) (v : val) : M pystr :=
  match n with
  | O => mraise RecursionError
  | S n =>
      let items l := ts <~ mmap (json_encode n (S level)) l ;; mret (enclose LBRACKET RBRACKET level ts) in
      match v with
      | PNone => mret (text "null")
      | PBool b => mret (text (if b then "true" else "false"))
      | PInt z => mret (int_repr z)
      | PFloat x => mret (float_text repr x)
      | PStr s => mret (quote s)
      | PTuple l => items l
      | PRef q => o <~ get_obj q ;;
          match o with
          | OList l => items l
          | OInst c kvs =>
              if String.eqb c "dict" then
                ts <~ mmap (fun kv => t <~ json_encode n (S level) (snd kv) ;; mret (quote (text (fst kv)) ++ [COLON; 32] ++ t)) kvs ;;
                mret (enclose LBRACE RBRACE level ts)
              else type_error
          end
      | _ => type_error
      end
  end.

(** [argparse]: an [ArgumentParser] is the names of its positional arguments; [parse_args] gives them the
    words of the command line, in order. *)
Definition as_name (s : pystr) : string := string_of_list_ascii (map (fun c => ascii_of_N (Z.to_N c)) s).
Definition positional (a : pystr) : bool := match a with c :: _ => negb (c =? MINUS) | [] => true end.
Definition parser_call (l : nat) (fields : list (string * val)) (m : string) (pos : list val) (kw : list (string * val)) : W val :=
  if String.eqb m "add_argument" then
    match pos with
    | [PStr name] => if positional name then lift (_ <~ set_obj l (OInst "ArgumentParser" (fields ++ [(as_name name, match assoc "type"%string kw with Some t => t | None => PNone end)])) ;; mret PNone)
                     else unsupported
    | _ => unsupported
    end
  else if String.eqb m "parse_args" then
    if forallb positional argv && (List.length argv =? List.length fields)%nat
       && forallb (fun f => match snd f with PNone => true | PClass c => String.eqb c "Path" | _ => false end) fields
    then lift (alloc (OInst "Namespace" (combine (map fst fields) (map PStr argv))))
    else unsupported
  else unsupported.

Fixpoint xcall (n : nat) (f : val) (pos : list val) (kw : list (string * val)) : W val :=
  match n with
  | O => lift (mraise RecursionError)
  | S n' =>
      let plain := wcall inflate deflate n f pos kw in
      match f with
      | PClass c =>
          if String.eqb c "print" then
            match pos, kw with
            | [PStr s], [] => fun h => Print (s ++ [10]) (Stop (Ret (PNone, h)))
            | _, _ => unsupported
            end
          else if String.eqb c "dat_to_json" then wapply n' (xcall n') src_dat_to_json pos kw
          else plain
      | PMeth (PClass c) m =>
          if String.eqb c "argparse" then
            if String.eqb m "ArgumentParser" then lift (alloc (OInst "ArgumentParser" [])) else unsupported
          else if String.eqb c "dataclasses" then
            match pos, kw with
            | [v], [] => if String.eqb m "asdict" then lift (asdict n' v) else unsupported
            | _, _ => unsupported
            end
          else if String.eqb c "json" then
            match pos, kw with
            | [v], [(x, PInt i)] =>
                if String.eqb m "dumps" && String.eqb x "indent" && (i =? 2) then lift (t <~ json_encode n' 0 v ;; mret (PStr t)) else unsupported
            | _, _ => unsupported
            end
          else plain
      | PMeth (PRef l) m => o <- lift (get_obj l) ;;;
          match o with
          | OInst c fields => if String.eqb c "ArgumentParser" then parser_call l fields m pos kw else plain
          | OList _ => plain
          end
      | _ => plain
      end
  end.

(** ** What the user runs *)
(** [dat-to-json a1 a2 ...] *)
Definition user_cli (n : nat) (h : heap) : act val := wapply n (xcall n) src_dat_to_json [] [] h.
(** [python scripts.py a1 a2 ...] (scripts.py:22-27) *)
Definition user_main (n : nat) (h : heap) : act val := wapply n (xcall n) src_main [] [] h.
End Cli.
