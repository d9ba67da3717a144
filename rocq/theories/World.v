(** * Programs that touch files: [DatFile.parse] and [DatFile.save] as written, and programs that call
    them, from the file system they find to the file system they leave.

    [Py.v] says what the text of the library does to a heap; here the statements that reach outside
    (datfile.py:46-48 and 53-55, the programs of README.md, scripts.py) are added.  A run is a tree of
    the requests it makes ([act]); [wstep] says what the operating system may answer, in small steps,
    so that a crash can be looked at between any two of them.

    Simplifications: those of Py.v and FS.v; a [Path] is its string; which [OSError] is raised is not
    distinguished ([OsFailed]), except that reading a file that does not exist raises
    [FileNotFoundError]; a file is read at one moment (for changes while it is read see Sched.v); the
    frames that [pathlib], [argparse], [json] and [dataclasses] need are not counted. *)
From Verif Require Import Base PyInt PyFloat PyStr PyStruct DataTypes Versions Common Py Source FS.
From Coq Require Import String Ascii.
Open Scope Z_scope.
Local Open Scope list_scope.

(** ** Requests *)
Inductive act (A : Type) : Type :=
| Stop (o : outcome (A * heap))                         (* returned or raised *)
| ReadFile (p : path) (k : bytes -> act A)
| WriteFile (p : path) (b : bytes) (k : act A)
| Print (s : pystr) (k : act A).
Arguments Stop {A} o.
Arguments ReadFile {A} p k.
Arguments WriteFile {A} p b k.
Arguments Print {A} s k.
Fixpoint abind {A B} (t : act A) (k : A -> heap -> act B) : act B :=
  match t with
  | Stop (Ret (a, h)) => k a h
  | Stop (Raise e) => Stop (Raise e)
  | ReadFile p f => ReadFile p (fun c => abind (f c) k)
  | WriteFile p b t => WriteFile p b (abind t k)
  | Print s t => Print s (abind t k)
  end.
Definition W (A : Type) := heap -> act A.
Definition lift {A} (m : M A) : W A := fun h => Stop (m h).
Definition wret {A} (a : A) : W A := lift (mret a).
Definition wbind {A B} (m : W A) (k : A -> W B) : W B := fun h => abind (m h) k.
Notation "x <- m ;;; k" := (wbind m (fun x => k)) (at level 61, m at next level, right associativity).

(** ** Which parts of a program can reach outside *)
Definition io_names : list string := ["Path"; "zlib"; "argparse"; "dataclasses"; "json"; "print"; "dat_to_json"]%string.
Definition io_attrs : list string := ["parse"; "save"; "ArgumentParser"; "add_argument"; "parse_args"]%string.
Definition among (x : string) (l : list string) : bool := existsb (String.eqb x) l.
Fixpoint io_free (e : expr) : bool :=
  match e with
  | EConst _ => true
  | EName x => negb (among x io_names)
  | EAttr e a => io_free e && negb (among a io_attrs)
  | EIndex e i => io_free e && io_free i
  | ESlice e a b => io_free e && io_free a && io_free b
  | ECall f args => io_free f && forallb io_free args
  | EStar e | EKw _ e | ENot e | ENeg e => io_free e
  | EBin _ a b | ECmp _ a b | EAnd a b => io_free a && io_free b
  | EChain _ a b _ c | EIf a b c => io_free a && io_free b && io_free c
  | EList l | ETuple l => forallb io_free l
  | EFor b _ i c => io_free b && io_free i && match c with Some c => io_free c | None => true end
  end.
Fixpoint io_free_stmt (s : stmt) : bool :=
  match s with
  | SAssign _ e | SUnpack _ e | SAdd _ e | SReturn e | SExpr e | SAssert e => io_free e
  | SSetAttr o _ e => io_free o && io_free e
  | SSetItem o i e => io_free o && io_free i && io_free e
  | SRaise _ => true
  | SIf c a b => io_free c && forallb io_free_stmt a && forallb io_free_stmt b
  | SFor _ i b => io_free i && forallb io_free_stmt b
  end.
(** The methods of the library that reach outside: datfile.py:45-55. *)
Definition io_method (c m : string) : option func :=
  if String.eqb c "DatFile" && String.eqb m "parse" then Some src_DatFile_parse
  else if String.eqb c "DatFile" && String.eqb m "save" then Some src_DatFile_save
  else None.

Section World.
(** [zlib.decompress(b, wbits=-15)], [zlib.compress(b, level=-1, wbits=-15)] *)
Variable inflate : bytes -> res bytes.
Variable deflate : bytes -> bytes.

Definition unsupported {A} : W A := lift (mraise Unsupported).

(** ** Expressions and statements: what does not reach outside is run by Py.v *)
Section Run.
Variable n : nat.                                       (* frames left *)
Variable wcall : val -> list val -> list (string * val) -> W val.
Variable module : string.

Definition wattr (v : val) (a : string) : W val :=
  let plain := lift (attr source (call source n) v a) in
  match v with
  | PStr _ => if String.eqb a "read_bytes" || String.eqb a "write_bytes" then wret (PMeth v a) else plain
  | PClass c => if among c io_names then wret (PMeth v a)
                else match io_method c a with
                     | Some fn => match f_kind fn with ClassMethod => wret (PMeth v a) | _ => unsupported end
                     | None => plain
                     end
  | PRef l => o <- lift (get_obj l) ;;;
      match o with
      | OInst c _ => if String.eqb c "ArgumentParser" then wret (PMeth v a)       (* Cli.v *)
                     else match io_method c a with
                     | Some fn => match f_kind fn with Method => wret (PMeth v a) | _ => unsupported end
                     | None => plain
                     end
      | OList _ => plain
      end
  | _ => plain
  end.
Fixpoint weval (en : env) (e : expr) {struct e} : W val :=
  if io_free e then lift (eval source (call source n) module en e)
  else
    match e with
    | EName x => match assoc x en with Some v => wret v | None => wret (PClass x) end
    | EAttr e a => v <- weval en e ;;; wattr v a
    | ECall f args =>
        f <- weval en f ;;;
        pk <- (fix go (l : list expr) : W (list val * list (string * val)) :=
                 match l with
                 | [] => wret ([], [])
                 | EStar _ :: _ => unsupported
                 | EKw x e :: l => v <- weval en e ;;; r <- go l ;;; wret (fst r, (x, v) :: snd r)
                 | e :: l => v <- weval en e ;;; r <- go l ;;; wret (v :: fst r, snd r)
                 end) args ;;;
        wcall f (fst pk) (snd pk)
    | _ => unsupported
    end.
Definition wexec (s : stmt) (en : env) : W (env * option val) :=
  match s with
  | SAssign x e => v <- weval en e ;;; wret ((x, v) :: en, None)
  | SReturn e => v <- weval en e ;;; wret (en, Some v)
  | SExpr e => _ <- weval en e ;;; wret (en, None)
  | _ => unsupported
  end.
Fixpoint wblock (l : list stmt) (en : env) : W (env * option val) :=
  match l with
  | [] => wret (en, None)
  | s :: l' =>
      if forallb io_free_stmt l then lift (Py.block source (call source n) module l en)
      else r <- (if io_free_stmt s then lift (exec source (call source n) module s en) else wexec s en) ;;;
           match snd r with Some _ => wret r | None => wblock l' (fst r) end
  end.
Definition wrun (l : list stmt) (en : env) : W val :=
  r <- wblock l en ;;; wret (match snd r with Some v => v | None => PNone end).
End Run.

Definition wapply (n : nat) (wcall : val -> list val -> list (string * val) -> W val) (fn : func)
    (pos : list val) (kw : list (string * val)) : W val :=
  if known_kw (f_params fn) kw then
    match bind_args (f_params fn) pos kw [] with
    | Some en => wrun n wcall (f_module fn) (f_body fn) en
    | None => lift type_error
    end
  else lift type_error.

(** [zlib.decompress], [zlib.compress] (datfile.py:48, 54) *)
Definition zlib_call (m : string) (pos : list val) (kw : list (string * val)) : W val :=
  match pos, kw with
  | [PBytes b], [(w, PInt z)] =>
      if String.eqb m "decompress" && String.eqb w "wbits" && (z =? -15) then lift (d <~ mres (inflate b) ;; mret (PBytes d))
      else unsupported
  | [PBytes b], [(l, PInt y); (w, PInt z)] =>
      if String.eqb m "compress" && String.eqb l "level" && (y =? -1) && String.eqb w "wbits" && (z =? -15)
      then wret (PBytes (deflate b)) else unsupported
  | _, _ => unsupported
  end.
(** [path.read_bytes()], [path.write_bytes(b)] (datfile.py:46, 55) *)
Definition path_call (p : path) (m : string) (pos : list val) (kw : list (string * val)) : option (W val) :=
  match pos, kw with
  | [], [] => if String.eqb m "read_bytes" then Some (fun h => ReadFile p (fun c => Stop (Ret (PBytes c, h)))) else None
  | [PBytes b], [] =>
      if String.eqb m "write_bytes" then Some (fun h => WriteFile p b (Stop (Ret (PInt (len b), h)))) else None
  | _, _ => None
  end.
Fixpoint wcall (n : nat) (f : val) (pos : list val) (kw : list (string * val)) : W val :=
  match n with
  | O => lift (mraise RecursionError)
  | S n' =>
      let plain := lift (call source n f pos kw) in
      match f with
      | PClass c =>
          if String.eqb c "Path" then match pos, kw with [PStr s], [] => wret (PStr s) | _, _ => unsupported end
          else plain
      | PMeth recv m =>
          match recv with
          | PStr p => match path_call p m pos kw with Some w => w | None => plain end
          | PClass c =>
              if String.eqb c "zlib" then zlib_call m pos kw
              else match io_method c m with
                   | Some fn => wapply n' (wcall n') fn (recv :: pos) kw
                   | None => plain
                   end
          | PRef l => o <- lift (get_obj l) ;;;
              match o with
              | OInst c _ => match io_method c m with
                             | Some fn => wapply n' (wcall n') fn (recv :: pos) kw
                             | None => plain
                             end
              | OList _ => plain
              end
          | _ => plain
          end
      | _ => plain
      end
  end.
End World.

(** ** What the operating system does with the requests *)
(** Running; with so many bytes of a file still to be written; failed for a reason of the operating
    system.  [Running (Stop _)] is the end. *)
Inductive pc (A : Type) : Type :=
| Running (t : act A)
| Writing (p : path) (rest : bytes) (t : act A)
| OsError.
Arguments Running {A} t.
Arguments Writing {A} p rest t.
Arguments OsError {A}.
Record world (A : Type) : Type := mkWorld { w_pc : pc A; w_fs : fs; w_out : pystr }.
Arguments mkWorld {A} w_pc w_fs w_out.
Arguments w_pc {A} w.
Arguments w_fs {A} w.
Arguments w_out {A} w.

Inductive wstep {A} : world A -> world A -> Prop :=
| w_read p k f o c : f p = Some c -> wstep (mkWorld (Running (ReadFile p k)) f o) (mkWorld (Running (k c)) f o)
| w_missing p k f o : f p = None ->
    wstep (mkWorld (Running (ReadFile p k)) f o) (mkWorld (Running (Stop (Raise (Std FileNotFoundError)))) f o)
| w_read_fails p k f o : wstep (mkWorld (Running (ReadFile p k)) f o) (mkWorld OsError f o)
(** opening the target with mode 'wb' empties it *)
| w_open p b t f o : wstep (mkWorld (Running (WriteFile p b t)) f o) (mkWorld (Writing p b t) (set_file f p []) o)
| w_open_fails p b t f o : wstep (mkWorld (Running (WriteFile p b t)) f o) (mkWorld OsError f o)
| w_write p rest t f o cur k : f p = Some cur -> (1 <= k <= List.length rest)%nat ->
    wstep (mkWorld (Writing p rest t) f o) (mkWorld (Writing p (skipn k rest) t) (set_file f p (cur ++ firstn k rest)) o)
| w_write_fails p rest t f o : wstep (mkWorld (Writing p rest t) f o) (mkWorld OsError f o)
| w_close p t f o : wstep (mkWorld (Writing p [] t) f o) (mkWorld (Running t) f o)
(** some or all of a text reaches the standard output *)
| w_print s t f o k : (1 <= k <= List.length s)%nat ->
    wstep (mkWorld (Running (Print s t)) f o) (mkWorld (Running (Print (skipn k s) t)) f (o ++ firstn k s))
| w_print_fails s t f o : wstep (mkWorld (Running (Print s t)) f o) (mkWorld OsError f o)
| w_printed t f o : wstep (mkWorld (Running (Print [] t)) f o) (mkWorld (Running t) f o).
Inductive wreach {A} (t : act A) (f : fs) (o : pystr) : world A -> Prop :=
| wr_start : wreach t f o (mkWorld (Running t) f o)
| wr_step s s' : wreach t f o s -> wstep s s' -> wreach t f o s'.

(** ** What the user runs *)
(** [DatFile.parse(p)] *)
Definition user_parse inflate deflate (n : nat) (h : heap) (p : path) : act val :=
  weval n (wcall inflate deflate n) "__main__" [("p"%string, PStr p)] (ECall (EAttr (EName "DatFile") "parse") [EName "p"]) h.
(** [dat.save(p)] *)
Definition user_save_to inflate deflate (n : nat) (h : heap) (dat : val) (p : path) : act val :=
  weval n (wcall inflate deflate n) "__main__" [("dat"%string, dat); ("p"%string, PStr p)] (ECall (EAttr (EName "dat") "save") [EName "p"]) h.
(** a whole program *)
Definition user_program inflate deflate (n : nat) (h : heap) (prog : list stmt) : act val :=
  wrun n (wcall inflate deflate n) "__main__" prog [] h.
