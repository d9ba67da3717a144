(** * Programs that change a loaded file in place: assignments to attributes and items, [pop], [append],
    loops and conditions, with values that may be computed, new objects or deep copies, as a user would
    write them (README.md:20-52 has two of them).

    [change] is a way to write such a program; [text] is the Python text (Py.v); [does] says what it is
    meant to do to the contents of the object the variable refers to.  That running the text does this,
    in any heap, is [change_runs]. *)
From Verif Require Import Base PyInt PyFloat PyStr PyStruct DataTypes Versions Common Py Source PyRep PyPure PyPureSim PyW PyWE Deep PyWC PyWS PyWD.
From Verif Require Import Spec PyR PyRE PyTree PyLoad Props_Load Props_Programs P_DatFile PyKinds PyNew.
From Coq Require Import String Ascii Lia.
Open Scope Z_scope.
Local Open Scope list_scope.

(** ** The programs *)
(** Paths start at a variable, which the surroundings name: [data], or the variable of a loop. *)
Inductive value : Type :=
| Const (k : const)
| Arith (o : binop) (a b : value)                             (* a o b *)
| Read (p : list hop)                                         (* x.p *)
| Copy (p : list hop)                                         (* copy.deepcopy(x.p) *)
| ListOf (l : list value)                                     (* [e, ...] *)
| TupleOf (l : list value)                                    (* (e, ...) *)
| New (c : string) (args : list (string * value)).            (* c(a=e, ...) *)
Inductive cond : Type :=
| Cmp (o : cmpop) (p : list hop) (k : const)                  (* x.p o k *)
| Compare (o : cmpop) (p q : list hop)                        (* x.p o x.q *)
| Truth (p : list hop)                                        (* x.p *)
| Not (c : cond)                                              (* not c *)
| Both (c1 c2 : cond).                                        (* c1 and c2 *)
Inductive change : Type :=
| Assign (p : list hop) (a : string) (e : value)              (* x.p.a = e *)
| SetItem (p : list hop) (i : Z) (e : value)                  (* x.p[i] = e *)
| Pop (p : list hop)                                          (* x.p.pop() *)
| Append (p : list hop) (e : value)                           (* x.p.append(e) *)
| Each (p : list hop) (y : string) (body : list change)       (* for y in x.p: body, about y *)
| When (c : cond) (body orelse : list change)                 (* if c: body, else: orelse, both about x *)
| Local (p : list hop) (y : string) (body : list change).     (* y = x.p, and then body, about y *)

(** The text. *)
Fixpoint value_text (x : string) (e : value) : expr :=
  match e with
  | Const k => EConst k
  | Arith o a b => EBin o (value_text x a) (value_text x b)
  | Read p => path_text (EName x) p
  | Copy p => ECall (EAttr (EName "copy") "deepcopy") [path_text (EName x) p]
  | ListOf l => EList (map (value_text x) l)
  | TupleOf l => ETuple (map (value_text x) l)
  | New c args => ECall (EName c) (map (fun a => EKw (fst a) (value_text x (snd a))) args)
  end.
Fixpoint cond_text (x : string) (c : cond) : expr :=
  match c with
  | Cmp o p k => ECmp o (path_text (EName x) p) (EConst k)
  | Compare o p q => ECmp o (path_text (EName x) p) (path_text (EName x) q)
  | Truth p => path_text (EName x) p
  | Not c => ENot (cond_text x c)
  | Both c1 c2 => EAnd (cond_text x c1) (cond_text x c2)
  end.
Fixpoint text (x : string) (c : change) : list stmt :=
  match c with
  | Assign p a e => [SSetAttr (path_text (EName x) p) a (value_text x e)]
  | SetItem p i e => [SSetItem (path_text (EName x) p) (EConst (KInt i)) (value_text x e)]
  | Pop p => [SExpr (ECall (EAttr (path_text (EName x) p) "pop") [])]
  | Append p e => [SExpr (ECall (EAttr (path_text (EName x) p) "append") [value_text x e])]
  | Each p y body => [SFor y (path_text (EName x) p) (flat_map (text y) body)]
  | When c a b => [SIf (cond_text x c) (flat_map (text x) a) (flat_map (text x) b)]
  | Local p y body => SAssign y (path_text (EName x) p) :: flat_map (text y) body
  end.
Definition texts (x : string) (l : list change) : list stmt := flat_map (text x) l.

(** ** What they are meant to do to the contents of [x] *)
(** [None]: this is not said (for example, a loop over something that is not a list). *)
Definition tbind {A B} (m : option (res A)) (k : A -> option (res B)) : option (res B) :=
  match m with Some (Ok a) => k a | Some (Err e) => Some (Err e) | None => None end.
Definition const_deep (k : const) : deep :=
  match k with KNone => DNone | KBool b => DBool b | KInt z => DInt z | KFloat x => DFloat x | KStr s => DStr (lit s) | KBytes b => DBytes b end.
Definition arith (o : binop) (x y : Z) : Z := match o with BAdd => x + y | BSub => x - y | BMul => x * y end.
(** What [x.p] is, if it is not an object: assigning an object would make it part of two others. *)
Definition plain_value (d : deep) : option (res deep) :=
  match d with DNone | DBool _ | DInt _ | DFloat _ | DStr _ | DBytes _ => Some (Ok d) | _ => None end.
Fixpoint distinct (l : list string) : bool :=
  match l with [] => true | a :: l => negb (existsb (String.eqb a) l) && distinct l end.
(** The attributes of a new object: what is given, or the default of the class. *)
Fixpoint fill (fields : list string) (given defaults : list (string * deep)) : option (list (string * deep)) :=
  match fields with
  | [] => Some []
  | f :: fields =>
      match assoc f given, assoc f defaults with
      | Some d, _ | None, Some d => option_map (cons (f, d)) (fill fields given defaults)
      | None, None => None
      end
  end.
(** An argument that the class does not have, and a missing one, are a TypeError, about which nothing is
    said here; one that is given twice is not a program of Python. *)
Definition construct (c : string) (given : list (string * deep)) : option (res deep) :=
  match class_of source c with
  | Some k =>
      match c_sort k with
      | Dataclass =>
          if distinct (map fst given) && forallb (fun a => existsb (String.eqb a) (c_fields k)) (map fst given) then
            option_map (fun fs => Ok (DObj c fs)) (fill (c_fields k) given (map (fun d => (fst d, const_deep (snd d))) (c_defaults k)))
          else None
      | _ => None
      end
  | None => None
  end.
Fixpoint value_of (e : value) (d : deep) {struct e} : option (res deep) :=
  let all := fix all (l : list value) : option (res (list deep)) :=
    match l with [] => Some (Ok []) | e :: l => tbind (value_of e d) (fun v => tbind (all l) (fun vs => Some (Ok (v :: vs)))) end in
  match e with
  | Const k => Some (Ok (const_deep k))
  | Arith o a b => tbind (value_of a d) (fun da => match da with
                     | DInt x => tbind (value_of b d) (fun db => match db with DInt y => Some (Ok (DInt (arith o x y))) | _ => None end)
                     | _ => None
                     end)
  | Read p => tbind (walk p d) plain_value
  | Copy p => tbind (walk p d) (fun d0 => if copyable d0 then Some (Ok d0) else None)
  | ListOf l => tbind (all l) (fun l => Some (Ok (DList l)))
  | TupleOf l => tbind (all l) (fun l => Some (Ok (DTuple l)))
  | New c args => if negb (match class_of source c with Some _ => true | None => false end) then None else
      tbind ((fix alla (l : list (string * value)) : option (res (list (string * deep))) :=
                match l with [] => Some (Ok []) | (a, e) :: l => tbind (value_of e d) (fun v => tbind (alla l) (fun vs => Some (Ok ((a, v) :: vs)))) end) args)
        (construct c)
  end.
(** Comparisons of ints, of strings, and with None. *)
Definition test (o : cmpop) (d : deep) (k : const) : option bool :=
  match o, d, k with
  | CIs, _, KNone => Some (match d with DNone => true | _ => false end)
  | CIsNot, _, KNone => Some (match d with DNone => false | _ => true end)
  | CEq, DInt x, KInt y => Some (x =? y)
  | CNe, DInt x, KInt y => Some (negb (x =? y))
  | CLt, DInt x, KInt y => Some (x <? y)
  | CLe, DInt x, KInt y => Some (x <=? y)
  | CGt, DInt x, KInt y => Some (y <? x)
  | CGe, DInt x, KInt y => Some (y <=? x)
  | CEq, DStr s, KStr t => Some (str_eqb s (lit t))
  | CNe, DStr s, KStr t => Some (negb (str_eqb s (lit t)))
  | _, _, _ => None
  end.
Definition truth (d : deep) : option bool :=
  match d with
  | DNone => Some false
  | DObj _ _ => Some true
  | DInt z => Some (negb (z =? 0))
  | DList [] | DStr [] => Some false
  | DList _ | DStr _ => Some true
  | _ => None
  end.
Fixpoint holds_for (c : cond) (d : deep) : option (res bool) :=
  match c with
  | Cmp o p k => tbind (walk p d) (fun d0 => option_map Ok (test o d0 k))
  | Compare o p q => tbind (walk p d) (fun d1 => tbind (walk q d) (fun d2 => match d1, d2 with DInt _, DInt z => option_map Ok (test o d1 (KInt z)) | _, _ => None end))
  | Truth p => tbind (walk p d) (fun d0 => option_map Ok (truth d0))
  | Not c => tbind (holds_for c d) (fun t => Some (Ok (negb t)))
  | Both c1 c2 => tbind (holds_for c1 d) (fun t : bool => if t then holds_for c2 d else Some (Ok false))
  end.
(** [f] at the end of a path. *)
Definition at_end (p : list hop) (f : deep -> option (res deep)) (d : deep) : option (res deep) :=
  tbind (walk p d) (fun d0 => tbind (f d0) (fun d1 => option_map Ok (edit_at p (fun _ => Some d1) d))).
(** An attribute that the class does not declare cannot be set, and neither can one of something that is
    not an object. *)
Definition assign (a : string) (new : deep) (d : deep) : option (res deep) :=
  match d with
  | DObj c fs => match assoc a fs with
                 | Some _ => if distinct (map fst fs) then Some (Ok (DObj c (set_deep fs a new))) else None
                 | None => match class_of source c with
                           | Some k => match c_sort k with Dataclass => Some (Err AttributeError) | _ => None end
                           | None => None
                           end
                 end
  | _ => Some (Err AttributeError)
  end.
(** Negative indices count from the end. *)
Definition set_at (i : Z) (new : deep) (d : deep) : option (res deep) :=
  match d with
  | DList l => let j := if i <? 0 then i + len l else i in
               Some (if (0 <=? j) && (j <? len l) then Ok (DList (firstn (Z.to_nat j) l ++ new :: skipn (S (Z.to_nat j)) l)) else Err IndexError)
  | _ => None
  end.
Definition pop_last (d : deep) : option (res deep) :=
  match d with
  | DList [] => Some (Err IndexError)
  | DList l => Some (Ok (DList (removelast l)))
  | DNone => Some (Err AttributeError)
  | _ => None
  end.
(** [new] is evaluated after the attribute was looked up. *)
Definition add_last (new : option (res deep)) (d : deep) : option (res deep) :=
  match d with DList l => tbind new (fun new => Some (Ok (DList (l ++ [new])))) | DNone => Some (Err AttributeError) | _ => None end.
Fixpoint each (f : deep -> option (res deep)) (l : list deep) : option (res (list deep)) :=
  match l with
  | [] => Some (Ok [])
  | d :: l => tbind (f d) (fun d' => tbind (each f l) (fun l' => Some (Ok (d' :: l'))))
  end.
Definition for_each (f : deep -> option (res deep)) (d : deep) : option (res deep) :=
  match d with
  | DList l => tbind (each f l) (fun l => Some (Ok (DList l)))
  | DTuple l => tbind (each f l) (fun l => Some (Ok (DTuple l)))
  | _ => None
  end.
Fixpoint does (c : change) (d : deep) {struct c} : option (res deep) :=
  let all := fix all (l : list change) (d : deep) : option (res deep) :=
    match l with [] => Some (Ok d) | c :: l => tbind (does c d) (all l) end in
  match c with
  | Assign p a e => tbind (value_of e d) (fun new => at_end p (assign a new) d)
  | SetItem p i e => tbind (value_of e d) (fun new => at_end p (set_at i new) d)
  | Pop p => at_end p pop_last d
  | Append p e => at_end p (add_last (value_of e d)) d
  | Each p y body => at_end p (for_each (all body)) d
  | When c a b => tbind (holds_for c d) (fun t : bool => if t then all a d else all b d)
  | Local p y body => at_end p (all body) d
  end.
Fixpoint does_all (l : list change) (d : deep) : option (res deep) :=
  match l with [] => Some (Ok d) | c :: l => tbind (does c d) (does_all l) end.

(** The variables a program binds; the variable it is about must stay what it is, and so must the classes
    and [copy]. *)
Definition special (y : string) : bool := String.eqb y "copy" || match class_of source y with Some _ => true | None => false end.
Fixpoint vars (c : change) : list string :=
  match c with
  | Each _ y body | Local _ y body => y :: flat_map vars body
  | When _ a b => flat_map vars a ++ flat_map vars b
  | _ => []
  end.
Fixpoint scoped (x : string) (c : change) : Prop :=
  let all := fix all (x : string) (l : list change) : Prop := match l with [] => True | c :: l => scoped x c /\ all x l end in
  ~ In x (vars c) /\ forallb (fun y => negb (special y)) (vars c) = true /\
  match c with
  | Each _ y body | Local _ y body => all y body
  | When _ a b => all x a /\ all x b
  | _ => True
  end.
Fixpoint all_scoped (x : string) (l : list change) : Prop := match l with [] => True | c :: l => scoped x c /\ all_scoped x l end.
Section ValueInduction.
Variable P : value -> Prop.
Hypothesis const_case : forall k, P (Const k).
Hypothesis arith_case : forall o a b, P a -> P b -> P (Arith o a b).
Hypothesis read_case : forall p, P (Read p).
Hypothesis copy_case : forall p, P (Copy p).
Hypothesis list_case : forall l, Forall P l -> P (ListOf l).
Hypothesis tuple_case : forall l, Forall P l -> P (TupleOf l).
Hypothesis new_case : forall c args, Forall P (map snd args) -> P (New c args).
Fixpoint value_rec' (e : value) : P e :=
  let all := fix all (l : list value) : Forall P l := match l with [] => Forall_nil _ | e :: l => Forall_cons _ (value_rec' e) (all l) end in
  match e with
  | Const k => const_case k
  | Arith o a b => arith_case o a b (value_rec' a) (value_rec' b)
  | Read p => read_case p
  | Copy p => copy_case p
  | ListOf l => list_case l (all l)
  | TupleOf l => tuple_case l (all l)
  | New c args => new_case c args ((fix all (l : list (string * value)) : Forall P (map snd l) := match l with [] => Forall_nil _ | e :: l => Forall_cons _ (value_rec' (snd e)) (all l) end) args)
  end.
End ValueInduction.
Section Induction.
Variable P : change -> Prop.
Hypothesis assign_case : forall p a e, P (Assign p a e).
Hypothesis item_case : forall p i e, P (SetItem p i e).
Hypothesis pop_case : forall p, P (Pop p).
Hypothesis append_case : forall p e, P (Append p e).
Hypothesis each_case : forall p y body, Forall P body -> P (Each p y body).
Hypothesis when_case : forall c a b, Forall P a -> Forall P b -> P (When c a b).
Hypothesis local_case : forall p y body, Forall P body -> P (Local p y body).
Fixpoint change_rec' (c : change) : P c :=
  let all := fix all (l : list change) : Forall P l := match l with [] => Forall_nil _ | c :: l => Forall_cons _ (change_rec' c) (all l) end in
  match c with
  | Assign p a e => assign_case p a e
  | SetItem p i e => item_case p i e
  | Pop p => pop_case p
  | Append p e => append_case p e
  | Each p y body => each_case p y body (all body)
  | When c a b => when_case c a b (all a) (all b)
  | Local p y body => local_case p y body (all body)
  end.
End Induction.

(** ** Part of a tree, and what the tree becomes when the part changes *)
(** [b] is where new objects begin. *)
Definition untouched (b : nat) (fp : list nat) (h h' : heap) : Prop := forall i, (i < b)%nat -> ~ In i fp -> nth_error h' i = nth_error h i.
Definition grown (b : nat) (fp' fp : list nat) : Prop := forall i, In i fp' -> In i fp \/ (b <= i)%nat.
Definition below (b : nat) (fp : list nat) : Prop := forall i, In i fp -> (i < b)%nat.
Definition refit (b : nat) (h : heap) (w : val) (fpw : list nat) (h' : heap) (d1 : deep) (fpw' : list nat) : Prop :=
  own h' d1 w fpw' /\ NoDup fpw' /\ grown b fpw' fpw /\ untouched b fpw h h'.
Lemma grown_refl b fp : grown b fp fp. Proof. intros i I. left. exact I. Qed.
Lemma incl_grown b fp' fp : incl fp' fp -> grown b fp' fp. Proof. intros H i I. left. apply H, I. Qed.
Lemma grown_app b a a' c c' : grown b a a' -> grown b c c' -> grown b (a ++ c) (a' ++ c').
Proof. intros H G i I. apply in_app_or in I as [I|I]; [destruct (H i I)|destruct (G i I)]; auto; left; apply in_or_app; auto. Qed.
Lemma grown_cons b q a a' : grown b a a' -> grown b (q :: a) (q :: a').
Proof. intros H i [<-|I]; [left; left; reflexivity|destruct (H i I); [left; right; assumption|right; assumption]]. Qed.
Lemma grown_trans b b1 a c e : (b <= b1)%nat -> grown b c e -> grown b1 a c -> grown b a e.
Proof. intros L H G i I. destruct (G i I) as [J|J]; [apply H, J|right; lia]. Qed.
Lemma below_app b a c : below b (a ++ c) -> below b a /\ below b c.
Proof. intros H. split; intros i I; apply H, in_or_app; auto. Qed.
Lemma untouched_keeps b fp fp2 h h' : untouched b fp h h' -> below b fp2 -> (forall i, In i fp -> In i fp2 -> False) -> keeps fp2 h h'.
Proof. intros U B D i I. apply U; [apply B, I|]. intros J. apply (D i J I). Qed.
Lemma kept_apart b fp fp' fp2 : grown b fp' fp -> below b fp2 -> (forall i, In i fp -> In i fp2 -> False) -> forall i, In i fp' -> In i fp2 -> False.
Proof. intros G B D i I J. destruct (G i I) as [K|K]; [apply (D i K J)|]. specialize (B i J). lia. Qed.
Lemma not_grown b q fp' fp : grown b fp' fp -> (q < b)%nat -> ~ In q fp -> ~ In q fp'.
Proof. intros G B N I. destruct (G q I) as [K|K]; [apply (N K)|lia]. Qed.
Lemma owns_focus b h l vs fps : owns h l vs fps -> NoDup (List.concat fps) -> below b (List.concat fps) -> forall i d0, nth_error l i = Some d0 ->
  exists w fpw, nth_error vs i = Some w /\ own h d0 w fpw /\ NoDup fpw /\ incl fpw (List.concat fps) /\
  forall h' d1 fpw' f, refit b h w fpw h' d1 fpw' -> f d0 = Some d1 ->
    exists l' fps', edit_item f i l = Some l' /\ owns h' l' vs fps' /\ NoDup (List.concat fps') /\ grown b (List.concat fps') (List.concat fps).
Proof.
  intros O. induction O as [|d v fp l vs fps H O IH]; intros N B i d0 E; [destruct i; discriminate E|]. cbn [List.concat] in N, B |- *. apply nodup_app in N as (N1 & N2 & D). apply below_app in B as [B1 B2]. destruct i as [|i]; cbn [nth_error] in E |- *.
  - injection E as ->. exists v, fp. split; [reflexivity|]. split; [exact H|]. split; [exact N1|]. split; [apply incl_appl, incl_refl|]. intros h' d1 fpw' f (R1 & R2 & R3 & R4) F.
    eexists _, (fpw' :: fps). cbn [edit_item]. rewrite F. split; [reflexivity|]. split.
    + constructor; [exact R1|]. apply (owns_keep h); [apply (untouched_keeps _ _ _ _ _ R4 B2 D)|exact O].
    + cbn [List.concat]. split; [apply app_nodup; [exact R2|exact N2|apply (kept_apart _ _ _ _ R3 B2 D)]|]. apply grown_app; [exact R3|apply grown_refl].
  - destruct (IH N2 B2 i d0 E) as (w & fpw & E1 & E2 & E3 & E4 & E5). exists w, fpw. split; [exact E1|]. split; [exact E2|]. split; [exact E3|]. split; [apply incl_appr, E4|].
    intros h' d1 fpw' f R F. destruct (E5 h' d1 fpw' f R F) as (l' & fps' & F1 & F2 & F3 & F4). destruct R as (R1 & R2 & R3 & R4).
    exists (d :: l'), (fp :: fps'). cbn [edit_item]. rewrite F1. split; [reflexivity|]. split.
    + constructor; [|exact F2]. apply (own_keeps h); [|exact H]. apply (untouched_keeps _ _ _ _ _ R4 B1). intros j J K. apply (D j K (E4 _ J)).
    + cbn [List.concat]. split; [apply app_nodup; [exact N1|exact F3|]|apply grown_app; [apply grown_refl|exact F4]]. intros j J K. apply (kept_apart _ _ _ _ F4 B1 (fun i I J => D i J I) j K J).
Qed.
Lemma ownf_focus b h l vs fps : ownf h l vs fps -> NoDup (List.concat fps) -> below b (List.concat fps) -> forall a d0, assoc a l = Some d0 ->
  exists w fpw, assoc a vs = Some w /\ own h d0 w fpw /\ NoDup fpw /\ incl fpw (List.concat fps) /\
  forall h' d1 fpw' f, refit b h w fpw h' d1 fpw' -> f d0 = Some d1 ->
    exists l' fps', edit_field f a l = Some l' /\ ownf h' l' vs fps' /\ NoDup (List.concat fps') /\ grown b (List.concat fps') (List.concat fps).
Proof.
  intros O. induction O as [|x d v fp l vs fps H O IH]; intros N B a d0 E; [discriminate E|]. cbn [List.concat] in N, B |- *. apply nodup_app in N as (N1 & N2 & D). apply below_app in B as [B1 B2]. cbn [assoc edit_field] in E |- *. destruct (String.eqb a x).
  - injection E as ->. exists v, fp. split; [reflexivity|]. split; [exact H|]. split; [exact N1|]. split; [apply incl_appl, incl_refl|]. intros h' d1 fpw' f (R1 & R2 & R3 & R4) F.
    eexists _, (fpw' :: fps). rewrite F. split; [reflexivity|]. split.
    + constructor; [exact R1|]. apply (ownf_keep h); [apply (untouched_keeps _ _ _ _ _ R4 B2 D)|exact O].
    + cbn [List.concat]. split; [apply app_nodup; [exact R2|exact N2|apply (kept_apart _ _ _ _ R3 B2 D)]|]. apply grown_app; [exact R3|apply grown_refl].
  - destruct (IH N2 B2 a d0 E) as (w & fpw & E1 & E2 & E3 & E4 & E5). exists w, fpw. split; [exact E1|]. split; [exact E2|]. split; [exact E3|]. split; [apply incl_appr, E4|].
    intros h' d1 fpw' f R F. destruct (E5 h' d1 fpw' f R F) as (l' & fps' & F1 & F2 & F3 & F4). destruct R as (R1 & R2 & R3 & R4).
    exists ((x, d) :: l'), (fp :: fps'). rewrite F1. split; [reflexivity|]. split.
    + constructor; [|exact F2]. apply (own_keeps h); [|exact H]. apply (untouched_keeps _ _ _ _ _ R4 B1). intros j J K. apply (D j K (E4 _ J)).
    + cbn [List.concat]. split; [apply app_nodup; [exact N1|exact F3|]|apply grown_app; [apply grown_refl|exact F4]]. intros j J K. apply (kept_apart _ _ _ _ F4 B1 (fun i I J => D i J I) j K J).
Qed.
Lemma own_focus b h p : forall d v fp d0, own h d v fp -> NoDup fp -> below b fp -> walk p d = Some (Ok d0) ->
  exists w fpw, follow h v p = Some w /\ own h d0 w fpw /\ NoDup fpw /\ incl fpw fp /\
  forall h' d1 fpw', refit b h w fpw h' d1 fpw' -> exists d' fp', edit_at p (fun _ => Some d1) d = Some d' /\ refit b h v fp h' d' fp'.
Proof.
  induction p as [|s p IH]; intros d v fp d0 O N B W.
  - cbn [walk] in W. injection W as ->. exists v, fp. split; [reflexivity|]. split; [exact O|]. split; [exact N|]. split; [apply incl_refl|].
    intros h' d1 fpw' R. exists d1, fpw'. split; [reflexivity|exact R].
  - destruct s as [a|i]; destruct d as [| | | | | |l|l|c fs| | | | | |]; try discriminate W; cbn [walk] in W.
    + apply own_obj in O as (q & vs & fps & -> & Q & -> & O). inversion N as [|y z Q1 N1]; subst. assert (B1 : below b (List.concat fps)) by (intros i I; apply B; right; exact I). destruct (assoc a fs) as [d2|] eqn:A; [|discriminate W].
      destruct (ownf_focus b _ _ _ _ O N1 B1 a d2 A) as (u & fpu & E1 & E2 & E3 & E4 & E5). destruct (IH d2 u fpu d0 E2 E3 (fun i I => B1 i (E4 i I)) W) as (w & fpw & F1 & F2 & F3 & F4 & F5).
      exists w, fpw. split; [cbn [follow hop_to]; rewrite Q, E1; exact F1|]. split; [exact F2|]. split; [exact F3|]. split; [apply incl_tl, (incl_tran F4 E4)|].
      intros h' d1 fpw' R. destruct (F5 h' d1 fpw' R) as (d' & fp' & G1 & G2). destruct (E5 h' d' fp' (edit_at p (fun _ => Some d1)) G2 G1) as (l' & fps' & K1 & K2 & K3 & K4).
      exists (DObj c l'), (q :: List.concat fps'). cbn [edit_at]. rewrite K1. split; [reflexivity|]. destruct G2 as (_ & _ & _ & U). split; [|split; [|split]].
      * apply own_obj. exists q, vs, fps'. split; [reflexivity|]. split; [rewrite U; [exact Q|apply B; left; reflexivity|intros J; apply Q1, E4, J]|]. split; [reflexivity|exact K2].
      * constructor; [apply (not_grown _ _ _ _ K4); [apply B; left; reflexivity|exact Q1]|exact K3].
      * apply grown_cons, K4.
      * intros j L J. apply U; [exact L|]. intros K. apply J. right. apply E4, K.
    + apply own_list in O as (q & vs & fps & -> & Q & -> & O). inversion N as [|y z Q1 N1]; subst. assert (B1 : below b (List.concat fps)) by (intros k I; apply B; right; exact I). destruct (nth_error l i) as [d2|] eqn:A; [|discriminate W].
      destruct (owns_focus b _ _ _ _ O N1 B1 i d2 A) as (u & fpu & E1 & E2 & E3 & E4 & E5). destruct (IH d2 u fpu d0 E2 E3 (fun i I => B1 i (E4 i I)) W) as (w & fpw & F1 & F2 & F3 & F4 & F5).
      exists w, fpw. split; [cbn [follow hop_to]; rewrite Q, E1; exact F1|]. split; [exact F2|]. split; [exact F3|]. split; [apply incl_tl, (incl_tran F4 E4)|].
      intros h' d1 fpw' R. destruct (F5 h' d1 fpw' R) as (d' & fp' & G1 & G2). destruct (E5 h' d' fp' (edit_at p (fun _ => Some d1)) G2 G1) as (l' & fps' & K1 & K2 & K3 & K4).
      exists (DList l'), (q :: List.concat fps'). cbn [edit_at]. rewrite K1. split; [reflexivity|]. destruct G2 as (_ & _ & _ & U). split; [|split; [|split]].
      * apply own_list. exists q, vs, fps'. split; [reflexivity|]. split; [rewrite U; [exact Q|apply B; left; reflexivity|intros J; apply Q1, E4, J]|]. split; [reflexivity|exact K2].
      * constructor; [apply (not_grown _ _ _ _ K4); [apply B; left; reflexivity|exact Q1]|exact K3].
      * apply grown_cons, K4.
      * intros j L J. apply U; [exact L|]. intros K. apply J. right. apply E4, K.
    + apply own_tuple in O as (vs & fps & -> & -> & O). destruct (nth_error l i) as [d2|] eqn:A; [|discriminate W].
      destruct (owns_focus b _ _ _ _ O N B i d2 A) as (u & fpu & E1 & E2 & E3 & E4 & E5). destruct (IH d2 u fpu d0 E2 E3 (fun i I => B i (E4 i I)) W) as (w & fpw & F1 & F2 & F3 & F4 & F5).
      exists w, fpw. split; [cbn [follow hop_to]; rewrite E1; exact F1|]. split; [exact F2|]. split; [exact F3|]. split; [apply (incl_tran F4 E4)|].
      intros h' d1 fpw' R. destruct (F5 h' d1 fpw' R) as (d' & fp' & G1 & G2). destruct (E5 h' d' fp' (edit_at p (fun _ => Some d1)) G2 G1) as (l' & fps' & K1 & K2 & K3 & K4).
      exists (DTuple l'), (List.concat fps'). cbn [edit_at]. rewrite K1. split; [reflexivity|]. destruct G2 as (_ & _ & _ & U). split; [|split; [|split]].
      * apply own_tuple. exists vs, fps'. split; [reflexivity|]. split; [reflexivity|exact K2].
      * exact K3.
      * exact K4.
      * intros j L J. apply U; [exact L|]. intros K. apply J, E4, K.
Qed.

(** ** Running *)
Definition carried (run : env -> M (env * option val)) (bound : list string) (en : env) (h : heap) (v : val) (fp : list nat) (r : option (res deep)) : Prop :=
  match r with
  | Some (Ok d') => exists en' h' fp', run en h = Ret ((en', None), h') /\ (forall s, ~ In s bound -> assoc s en' = assoc s en) /\
      refit (List.length h) h v fp h' d' fp' /\ (List.length h <= List.length h')%nat
  | Some (Err e) => run en h = Raise (Std e)
  | None => True
  end.
Lemma refit_trans b b1 h v fp h1 d1 fp1 h2 d2 fp2 : (b <= b1)%nat -> refit b h v fp h1 d1 fp1 -> refit b1 h1 v fp1 h2 d2 fp2 -> refit b h v fp h2 d2 fp2.
Proof.
  intros L (A1 & A2 & A3 & A4) (B1 & B2 & B3 & B4). split; [exact B1|]. split; [exact B2|]. split; [apply (grown_trans _ _ _ _ _ L A3 B3)|].
  intros i I J. rewrite B4; [apply A4; assumption|lia|]. apply (not_grown _ _ _ _ A3 I J).
Qed.
Lemma refit_from h t v fp h' d' fp' : refit (List.length h) (h ++ t) v fp h' d' fp' -> refit (List.length h) h v fp h' d' fp'.
Proof. intros (A1 & A2 & A3 & A4). split; [exact A1|]. split; [exact A2|]. split; [exact A3|]. intros i I J. rewrite A4 by assumption. apply nth_error_app1, I. Qed.
Lemma const_own k h : own h (const_deep k) (const_val k) [].
Proof. destruct k; cbn [const_deep const_val own]; split; reflexivity. Qed.
Section Runs.
Variable n : nat.
Notation ev := (eval source (call source (S n)) "__main__").
Notation ex := (exec source (call source (S n)) "__main__").
Notation blk := (Py.block source (call source (S n)) "__main__").

Lemma ev_name x en v h : assoc x en = Some v -> ev en (EName x) h = Ret (v, h).
Proof. intros A. apply (p_name (S n) "__main__" en x v A h). Qed.
(** Names that a program does not bind. *)
Definition clear (en : env) : Prop := forall s, special s = true -> assoc s en = None.
Lemma ev_class c en h k : clear en -> class_of source c = Some k -> ev en (EName c) h = Ret (PClass c, h).
Proof.
  intros C K. assert (G : global source "__main__" c = Some (PClass c)) by (unfold global; change (global_const source "__main__" c) with (@None val); rewrite K; reflexivity).
  apply (p_global (S n) "__main__" en c _ ltac:(apply C; unfold special; rewrite K; apply orb_true_r) G h).
Qed.
Lemma ev_copy en h : clear en -> ev en (EAttr (EName "copy") "deepcopy") h = Ret (PMeth (PClass "copy") "deepcopy", h).
Proof. intros C. cbn [eval]. unfold name. rewrite (C "copy"%string eq_refl). reflexivity. Qed.
Definition made (run : M val) (h : heap) (r : option (res deep)) : Prop :=
  match r with
  | Some (Ok new) => exists w t fpw, run h = Ret (w, h ++ t) /\ own (h ++ t) new w fpw /\ NoDup fpw /\ forall i, In i fpw -> (List.length h <= i)%nat
  | Some (Err f) => run h = Raise (Std f)
  | None => True
  end.
Definition evs (en : env) : list expr -> M (list val) :=
  fix go (l : list expr) : M (list val) := match l with [] => mret [] | e :: l => v <~ ev en e ;; r <~ go l ;; mret (v :: r) end.
Definition values_of (d : deep) : list value -> option (res (list deep)) :=
  fix all (l : list value) : option (res (list deep)) :=
    match l with [] => Some (Ok []) | e :: l => tbind (value_of e d) (fun v => tbind (all l) (fun vs => Some (Ok (v :: vs)))) end.
Lemma values_run x l d v fp en : Forall (fun e => forall h, own h d v fp -> made (ev en (value_text x e)) h (value_of e d)) l -> forall h, own h d v fp ->
  match values_of d l with
  | Some (Ok news) => exists ws t fps, evs en (map (value_text x) l) h = Ret (ws, h ++ t) /\ owns (h ++ t) news ws fps /\ NoDup (List.concat fps) /\ forall i, In i (List.concat fps) -> (List.length h <= i)%nat
  | Some (Err f) => evs en (map (value_text x) l) h = Raise (Std f)
  | None => True
  end.
Proof.
  intros F. induction F as [|e l He F IH]; intros h O.
  - exists [], [], []. rewrite app_nil_r. split; [reflexivity|]. split; [constructor|]. split; [constructor|intros i []].
  - cbn [values_of map evs]. specialize (He h O). unfold made in He. destruct (value_of e d) as [[new|f]|]; cbn [tbind]; [|unfold mbind; rewrite He; reflexivity|exact I].
    destruct He as (w & t & fpw & E & O1 & N1 & G1). specialize (IH (h ++ t) (own_more _ _ _ _ _ O)). fold (values_of d). fold (evs en). destruct (values_of d l) as [[news|f]|]; cbn [tbind]; [| |exact I].
    + destruct IH as (ws & t2 & fps & E2 & O2 & N2 & G2). exists (w :: ws), (t ++ t2), (fpw :: fps). rewrite app_assoc. split; [rewrite (mbind_ret _ _ _ _ _ E), (mbind_ret _ _ _ _ _ E2); reflexivity|].
      split; [constructor; [apply own_more, O1|exact O2]|]. cbn [List.concat]. split.
      * apply app_nodup; [exact N1|exact N2|]. intros i J K. pose proof (own_lt _ _ _ _ O1 i J). pose proof (G2 i K). lia.
      * intros i J. apply in_app_or in J as [J|J]; [apply G1, J|]. specialize (G2 i J). rewrite app_length in G2. lia.
    + rewrite (mbind_ret _ _ _ _ _ E). unfold mbind. rewrite IH. reflexivity.
Qed.
(** Arguments of a call. *)
Lemma args_eq d args : (fix alla (l : list (string * value)) : option (res (list (string * deep))) :=
    match l with [] => Some (Ok []) | (a, e) :: l => tbind (value_of e d) (fun v => tbind (alla l) (fun vs => Some (Ok ((a, v) :: vs)))) end) args =
  tbind (values_of d (map snd args)) (fun vs => Some (Ok (combine (map fst args) vs))).
Proof.
  induction args as [|[a e] l IH]; [reflexivity|]. rewrite IH. cbn [map fst snd values_of]. destruct (value_of e d) as [[u|f]|]; cbn [tbind]; [|reflexivity..]. fold (values_of d).
  destruct (values_of d (map snd l)) as [[us|f]|]; reflexivity.
Qed.
Lemma argv_kws x en args : forall h, argv (S n) "__main__" en (map (fun a => EKw (fst a) (value_text x (snd a))) args) h =
  match evs en (map (value_text x) (map snd args)) h with Ret (ws, h') => Ret (([], combine (map fst args) ws), h') | Raise f => Raise f end.
Proof.
  induction args as [|[a e] l IH]; intros h; [reflexivity|]. cbn [map fst snd evs combine]. rewrite argv_kw. unfold mbind at 1 3. destruct (ev en (value_text x e) h) as [[w h1]|f]; [|reflexivity].
  fold (evs en). unfold mbind. rewrite IH. destruct (evs en (map (value_text x) (map snd l)) h1) as [[ws h2]|f]; reflexivity.
Qed.
Lemma values_length d l : forall news, values_of d l = Some (Ok news) -> List.length news = List.length l.
Proof.
  induction l as [|e l IH]; intros news E; cbn [values_of] in E; [injection E as <-; reflexivity|]. destruct (value_of e d) as [[w|f]|]; try discriminate E. cbn [tbind] in E. fold (values_of d) in E.
  destruct (values_of d l) as [[ws|f]|] eqn:W; try discriminate E. injection E as <-. cbn [List.length]. f_equal. apply IH. reflexivity.
Qed.
Lemma owns_named h : forall names ds vs fps, owns h ds vs fps -> List.length names = List.length ds -> ownf h (combine names ds) (combine names vs) fps.
Proof. induction names as [|a names IH]; intros ds vs fps O L; inversion O; subst; try discriminate L; cbn [combine]; constructor; [assumption|apply IH; [assumption|injection L as L; exact L]]. Qed.
Lemma combine_fst {A} : forall (names : list string) (ds : list A), List.length names = List.length ds -> map fst (combine names ds) = names.
Proof. induction names as [|a names IH]; intros [|d ds] L; try discriminate L; [reflexivity|]. cbn [combine map fst]. f_equal. apply IH. injection L as L. exact L. Qed.
(** Which footprint an argument has. *)
Lemma ownf_at h ds vs fps : ownf h ds vs fps -> forall f d, assoc f ds = Some d -> exists w fp, assoc f vs = Some w /\ assoc f (combine (map fst ds) fps) = Some fp /\ own h d w fp.
Proof.
  intros O. induction O as [|x d0 v fp l vs fps H O IH]; intros f d E; [discriminate E|]. cbn [assoc map fst combine] in *. destruct (String.eqb f x); [injection E as <-; exists v, fp; auto|apply IH, E].
Qed.
Lemma at_in f : forall names (fps : list (list nat)) fp, assoc f (combine names fps) = Some fp -> NoDup (List.concat fps) -> NoDup fp /\ incl fp (List.concat fps).
Proof.
  induction names as [|a names IH]; intros [|fp0 fps] fp E N; try discriminate E. cbn [combine assoc List.concat] in *. apply nodup_app in N as (N1 & N2 & _). destruct (String.eqb f a).
  - injection E as ->. split; [exact N1|apply incl_appl, incl_refl].
  - destruct (IH _ _ E N2) as [X Y]. split; [exact X|apply incl_appr, Y].
Qed.
Lemma at_apart f g : f <> g -> forall names (fps : list (list nat)) a b, assoc f (combine names fps) = Some a -> assoc g (combine names fps) = Some b -> NoDup (List.concat fps) -> forall i, In i a -> In i b -> False.
Proof.
  intros FG. induction names as [|k names IH]; intros [|fp0 fps] a b E1 E2 N i I J; try discriminate E1. cbn [combine assoc List.concat] in *. apply nodup_app in N as (N1 & N2 & D).
  destruct (String.eqb_spec f k) as [->|], (String.eqb_spec g k) as [->|].
  - apply FG. reflexivity.
  - injection E1 as ->. apply (D i I). apply (proj2 (at_in _ _ _ _ E2 N2)), J.
  - injection E2 as ->. apply (D i J). apply (proj2 (at_in _ _ _ _ E1 N2)), I.
  - apply (IH _ _ _ E1 E2 N2 i I J).
Qed.
Lemma assoc_map {A B} (g : A -> B) x l : assoc x (map (fun d => (fst d, g (snd d))) l) = option_map g (assoc x l).
Proof. induction l as [|[k a] l IH]; [reflexivity|]. cbn [map fst snd assoc]. destruct (String.eqb x k); [reflexivity|exact IH]. Qed.
Lemma fill_runs h ds vs fps (defaults : list (string * const)) : ownf h ds vs fps -> NoDup (List.concat fps) -> forall fields, NoDup fields ->
  match fill fields ds (map (fun d => (fst d, const_deep (snd d))) defaults) with
  | Some fs => exists ws fps', bind_args fields [] vs (map (fun d => (fst d, const_val (snd d))) defaults) = Some ws /\ ownf h fs ws fps' /\ NoDup (List.concat fps') /\
      forall i, In i (List.concat fps') -> exists g a, In g fields /\ assoc g (combine (map fst ds) fps) = Some a /\ In i a
  | None => bind_args fields [] vs (map (fun d => (fst d, const_val (snd d))) defaults) = None
  end.
Proof.
  intros O N fields NF. induction NF as [|f fields NI NF IH].
  - exists [], []. split; [reflexivity|]. split; [constructor|]. split; [constructor|intros i []].
  - cbn [fill bind_args]. rewrite !assoc_map. pose proof (ownf_assoc _ _ _ _ f O) as AV. destruct (assoc f ds) as [d|] eqn:A.
    + destruct (ownf_at _ _ _ _ O f d A) as (w & fp & A1 & A2 & A3). rewrite A1. destruct (fill fields ds _) as [fs|]; cbn [option_map]; [|rewrite IH; reflexivity].
      destruct IH as (ws & fps' & E & O' & N' & G). rewrite E. exists ((f, w) :: ws), (fp :: fps'). split; [reflexivity|]. split; [constructor; assumption|]. cbn [List.concat]. split.
      * apply app_nodup; [apply (proj1 (at_in _ _ _ _ A2 N))|exact N'|]. intros i I J. destruct (G i J) as (g & a & G1 & G2 & G3). refine (at_apart f g _ _ _ _ _ A2 G2 N i I G3). intros ->. apply (NI G1).
      * intros i I. apply in_app_or in I as [I|I]; [exists f, fp; split; [left; reflexivity|auto]|]. destruct (G i I) as (g & a & G1 & G2 & G3). exists g, a. split; [right; exact G1|auto].
    + rewrite AV. destruct (assoc f defaults) as [k|]; cbn [option_map]; [|reflexivity]. destruct (fill fields ds _) as [fs|]; cbn [option_map]; [|rewrite IH; reflexivity].
      destruct IH as (ws & fps' & E & O' & N' & G). rewrite E. exists ((f, const_val k) :: ws), ([] :: fps'). split; [reflexivity|]. split; [constructor; [apply const_own|exact O']|]. split; [exact N'|].
      intros i I. destruct (G i I) as (g & a & G1 & G2 & G3). exists g, a. split; [right; exact G1|auto].
Qed.
Lemma distinct_nodup l : distinct l = true -> NoDup l.
Proof.
  induction l as [|a l IH]; intros D; [constructor|]. cbn [distinct] in D. apply andb_true_iff in D as [D1 D2]. constructor; [|apply IH, D2]. intros I. apply negb_true_iff in D1.
  assert (X : existsb (String.eqb a) l = true) by (apply existsb_exists; exists a; split; [exact I|apply String.eqb_refl]). congruence.
Qed.
Lemma fields_distinct c k : class_of source c = Some k -> NoDup (c_fields k).
Proof.
  intros K. apply distinct_nodup. assert (X : forallb (fun f => distinct (c_fields (snd f))) (p_classes source) = true) by (vm_compute; reflexivity).
  unfold class_of in K. revert X K. generalize (p_classes source). induction l as [|[x k0] l IH]; intros X K; [discriminate K|]. cbn [forallb assoc fst snd] in *. apply andb_true_iff in X as [X1 X2].
  destruct (String.eqb c x); [injection K as <-; exact X1|apply IH; assumption].
Qed.
Lemma known_names {A} ps (l : list (string * A)) : known_kw ps l = forallb (fun a => existsb (String.eqb a) ps) (map fst l).
Proof. unfold known_kw. induction l as [|[a b] l IH]; [reflexivity|]. cbn [forallb map fst]. rewrite IH. reflexivity. Qed.
Lemma call_class c k vs h : class_of source c = Some k -> c_sort k = Dataclass ->
  call source (S n) (PClass c) [] vs h = (if known_kw (c_fields k) vs then
     match bind_args (c_fields k) [] vs (map (fun d => (fst d, const_val (snd d))) (c_defaults k)) with Some fs => Ret (PRef (List.length h), h ++ [OInst c fs]) | None => Raise TypeError end
   else Raise TypeError).
Proof.
  intros K D. cbn [call]. rewrite K, D. destruct (known_kw (c_fields k) vs); [|reflexivity]. unfold mbind. destruct (bind_args _ _ _ _); reflexivity.
Qed.
Lemma value_plain x e : plain (value_text x e) = true.
Proof.
  destruct e; try reflexivity. cbn [value_text]. enough (G : forall e, plain e = true -> plain (path_text e p) = true) by (apply G; reflexivity).
  induction p as [|[a|i] p IH]; intros e P; [exact P|apply IH; reflexivity..].
Qed.
Lemma value_runs x e d v fp en : NoDup fp -> assoc x en = Some v -> clear en -> forall h, own h d v fp -> made (ev en (value_text x e)) h (value_of e d).
Proof.
  intros N A CL. assert (PATH : forall p h, own h d v fp -> forall r, walk p d = Some r -> match r with Ok d' => exists w fp', ev en (path_text (EName x) p) h = Ret (w, h) /\ own h d' w fp' /\ NoDup fp' | Err f => ev en (path_text (EName x) p) h = Raise (Std f) end).
  { intros p h O r W. pose proof (eval_walk (call source (S n)) "__main__" en h p d v fp (EName x) r O (ev_name x en v h A) W) as X. destruct r as [d0|f]; [|exact X].
    destruct (own_focus (List.length h) h p d v fp d0 O N (own_lt _ _ _ _ O) W) as (w & fpw & F1 & F2 & F3 & _). exists w, fpw. split; [|auto]. eapply eval_path; [apply ev_name, A|exact F1]. }
  induction e as [k|o a b IHa IHb|p|p|l IH|l IH|c args IH] using value_rec'; intros h O; cbn [value_of value_text].
  - exists (const_val k), [], []. rewrite app_nil_r. split; [reflexivity|]. split; [apply const_own|]. split; [constructor|intros i []].
  - assert (EB : ev en (EBin o (value_text x a) (value_text x b)) = (u <~ ev en (value_text x a) ;; w <~ ev en (value_text x b) ;; bin o u w)) by reflexivity.
    specialize (IHa h O). unfold made in IHa |- *. rewrite EB. destruct (value_of a d) as [[da|f]|]; cbn [tbind]; [|unfold mbind; rewrite IHa; reflexivity|exact I].
    destruct da; try exact I. destruct IHa as (u & t & fpu & EU & OU & _). cbn [own] in OU. destruct OU as [-> _]. rewrite (mbind_ret _ _ _ _ _ EU).
    specialize (IHb (h ++ t) (own_more h t _ _ _ O)). unfold made in IHb. destruct (value_of b d) as [[db|f]|]; cbn [tbind]; [|unfold mbind; rewrite IHb; reflexivity|exact I].
    destruct db; try exact I. destruct IHb as (w & t2 & fpw & EW & OW & _). cbn [own] in OW. destruct OW as [-> _]. rewrite (mbind_ret _ _ _ _ _ EW).
    exists (PInt (arith o z z0)), (t ++ t2), []. rewrite app_assoc. split; [destruct o; reflexivity|]. split; [split; reflexivity|split; [constructor|intros i []]].
  - destruct (walk p d) as [r|] eqn:W; [|exact I]. pose proof (PATH p h O r W) as X. destruct r as [d0|f]; cbn [tbind made]; [|exact X]. destruct X as (w & fp' & E & OW & _).
    assert (P : plain_value d0 = Some (Ok d0) /\ fp' = [] \/ plain_value d0 = None) by (destruct d0; auto; left; split; try reflexivity; apply OW). destruct P as [[-> ->]| ->]; [|exact I].
    exists w, [], []. rewrite app_nil_r. split; [exact E|]. split; [exact OW|]. split; [constructor|intros i []].
  - destruct (walk p d) as [r|] eqn:W; [|exact I]. pose proof (PATH p h O r W) as X. assert (PP : plain (path_text (EName x) p) = true) by apply (value_plain x (Read p)). destruct r as [d0|f]; cbn [tbind made].
    + destruct X as (w & fp' & E & OW & NW). destruct (copyable d0) eqn:CO; [|exact I]. destruct (deepcopy_runs h d0 w fp' OW NW CO) as (v' & t & fp2 & E2 & O2 & N2 & G2). exists v', t, fp2. split; [|auto].
      rewrite eval_call. rewrite (mbind_ret _ _ _ _ _ (ev_copy en h CL)). erewrite mbind_ret; [|rewrite argv_plain by exact PP; rewrite (mbind_ret _ _ _ _ _ E); reflexivity]. exact E2.
    + rewrite eval_call. rewrite (mbind_ret _ _ _ _ _ (ev_copy en h CL)). unfold mbind. rewrite argv_plain by exact PP. unfold mbind. rewrite X. reflexivity.
  - change (made (vs <~ evs en (map (value_text x) l) ;; alloc (OList vs)) h (tbind (values_of d l) (fun l => Some (Ok (DList l))))).
    pose proof (values_run x l d v fp en IH h O) as X. destruct (values_of d l) as [[news|f]|]; cbn [tbind made]; [|unfold mbind; rewrite X; reflexivity|exact I].
    destruct X as (ws & t & fps & E & O' & N' & G). exists (PRef (List.length (h ++ t))), (t ++ [OList ws]), (List.length (h ++ t) :: List.concat fps). rewrite app_assoc. split; [rewrite (mbind_ret _ _ _ _ _ E); reflexivity|].
    split; [apply own_list; exists (List.length (h ++ t)), ws, fps; split; [reflexivity|]; split; [apply nth_new|]; split; [reflexivity|apply owns_more, O']|].
    split; [constructor; [intros J; pose proof (owns_lt _ _ _ _ O' _ J); lia|exact N']|]. intros i [<-|J]; [rewrite app_length; lia|apply G, J].
  - change (made (vs <~ evs en (map (value_text x) l) ;; mret (PTuple vs)) h (tbind (values_of d l) (fun l => Some (Ok (DTuple l))))).
    pose proof (values_run x l d v fp en IH h O) as X. destruct (values_of d l) as [[news|f]|]; cbn [tbind made]; [|unfold mbind; rewrite X; reflexivity|exact I].
    destruct X as (ws & t & fps & E & O' & N' & G). exists (PTuple ws), t, (List.concat fps). split; [rewrite (mbind_ret _ _ _ _ _ E); reflexivity|].
    split; [apply own_tuple; exists ws, fps; auto|auto].
  - rewrite args_eq. pose proof (values_run x (map snd args) d v fp en IH h O) as X. pose proof (values_length d (map snd args)) as LV.
    destruct (class_of source c) as [k|] eqn:K; cbn [negb]; [|exact I].
    assert (EC : ev en (ECall (EName c) (map (fun a => EKw (fst a) (value_text x (snd a))) args)) h =
      match evs en (map (value_text x) (map snd args)) h with Ret (ws, h') => call source (S n) (PClass c) [] (combine (map fst args) ws) h' | Raise f => Raise f end).
    { rewrite eval_call. rewrite (mbind_ret _ _ _ _ _ (ev_class c en h k CL K)). unfold mbind. rewrite argv_kws. destruct (evs en (map (value_text x) (map snd args)) h) as [[ws h1]|f]; reflexivity. }
    unfold made. rewrite EC. destruct (values_of d (map snd args)) as [[news|f]|]; cbn [tbind]; [|rewrite X; reflexivity|exact I]. specialize (LV _ eq_refl). rewrite map_length in LV.
    destruct X as (ws & t & fps & E & O' & N' & G). rewrite E. unfold construct. rewrite K. destruct (c_sort k) eqn:D; try exact I. destruct (distinct _); [|exact I]. cbn [andb].
    assert (LN : List.length (map fst args) = List.length news) by (rewrite map_length; congruence).
    pose proof (owns_named _ _ _ _ _ O' LN) as OF. rewrite (call_class c k _ _ K D), known_names.
    assert (LW : List.length (map fst args) = List.length ws) by (rewrite LN; clear - O'; induction O'; cbn [List.length]; congruence).
    rewrite (combine_fst _ ws LW), (combine_fst _ news LN).
    pose proof (fill_runs _ _ _ _ (c_defaults k) OF N' (c_fields k) (fields_distinct c k K)) as FR. destruct (forallb _ (map fst args)); [|exact I]. destruct (fill (c_fields k) (combine (map fst args) news) _) as [fs|]; cbn [option_map]; [|exact I]. destruct FR as (vs & fps' & EB & O2 & N2 & G2). rewrite EB.
    assert (G3 : forall i, In i (List.concat fps') -> (List.length h <= i)%nat /\ (i < List.length (h ++ t))%nat).
    { intros i I. destruct (G2 i I) as (g & a & _ & A1 & A2). apply (proj2 (at_in _ _ _ _ A1 N')) in A2. split; [apply G, A2|apply (owns_lt _ _ _ _ O' _ A2)]. }
    exists (PRef (List.length (h ++ t))), (t ++ [OInst c vs]), (List.length (h ++ t) :: List.concat fps'). rewrite app_assoc. split; [reflexivity|].
    split; [apply own_obj; exists (List.length (h ++ t)), vs, fps'; split; [reflexivity|]; split; [apply nth_new|]; split; [reflexivity|]|].
    + apply (ownf_keep (h ++ t)); [|exact O2]. apply keeps_more. intros i I. apply (G3 i I).
    + split; [constructor; [intros J; destruct (G3 _ J); lia|exact N2]|]. intros i [<-|J]; [rewrite app_length; lia|apply (G3 _ J)].
Qed.
Lemma ret_bool (a b : bool) (h : heap) : a = b -> Ret (PBool a, h) = Ret (PBool b, h).
Proof. intros ->. reflexivity. Qed.
Lemma test_runs cl o d k t h w fp : own h d w fp -> test o d k = Some t -> Py.compare cl o w (const_val k) h = Ret (PBool t, h).
Proof.
  intros O T. destruct o.
  1-6: destruct d; try discriminate T; destruct k; try discriminate T; cbn [own] in O; destruct O as [-> _]; cbn [test] in T; injection T as <-; cbn [Py.compare const_val as_number as_str num_cmp]; unfold mret; apply ret_bool.
  - rewrite Z.eqb_compare. destruct (z ?= z0); reflexivity.
  - unfold holds, str_eqb. destruct (str_compare s (lit s0)); reflexivity.
  - rewrite Z.eqb_compare. destruct (z ?= z0); reflexivity.
  - unfold holds, str_eqb. destruct (str_compare s (lit s0)); reflexivity.
  - unfold Z.ltb. destruct (z ?= z0); reflexivity.
  - unfold Z.leb. destruct (z ?= z0); reflexivity.
  - rewrite (Z.ltb_compare z0 z), (Z.compare_antisym z0 z). destruct (z0 ?= z); reflexivity.
  - rewrite (Z.leb_compare z0 z), (Z.compare_antisym z0 z). destruct (z0 ?= z); reflexivity.
  - assert (N : is_none w = match d with DNone => true | _ => false end).
    { clear T. destruct d; try (cbn [own] in O; contradiction); try (destruct O as [-> _]; reflexivity).
      - apply own_list in O as (q & vs & fps & -> & _). reflexivity.
      - apply own_tuple in O as (vs & fps & -> & _). reflexivity.
      - apply own_obj in O as (q & vs & fps & -> & _). reflexivity.
      - cbn [own] in O. destruct O as [[->|[-> _]] _]; reflexivity. }
    destruct k; try (destruct d; discriminate T). cbn [Py.compare const_val is_none]. unfold mret. rewrite N. destruct d; injection T as <-; reflexivity.
  - assert (N : is_none w = match d with DNone => true | _ => false end).
    { clear T. destruct d; try (cbn [own] in O; contradiction); try (destruct O as [-> _]; reflexivity).
      - apply own_list in O as (q & vs & fps & -> & _). reflexivity.
      - apply own_tuple in O as (vs & fps & -> & _). reflexivity.
      - apply own_obj in O as (q & vs & fps & -> & _). reflexivity.
      - cbn [own] in O. destruct O as [[->|[-> _]] _]; reflexivity. }
    destruct k; try (destruct d; discriminate T). cbn [Py.compare const_val is_none]. unfold mret. rewrite N. destruct d; injection T as <-; reflexivity.
Qed.
Lemma truth_runs d t h w fp : own h d w fp -> truth d = Some t -> is_true w h = Ret (t, h).
Proof.
  intros O T. destruct d as [|b|z|x|s|b|l|l|c fs| | | | | |]; try discriminate T; cbn [truth] in T.
  - injection T as <-. destruct O as [-> _]. reflexivity.
  - injection T as <-. destruct O as [-> _]. reflexivity.
  - destruct O as [-> _]. destruct s; injection T as <-; reflexivity.
  - apply own_list in O as (q & vs & fps & -> & Q & _ & O). unfold is_true, mbind, get_obj. rewrite Q. cbn [mopt]. unfold mret. inversion O; subst; injection T as <-; reflexivity.
  - apply own_obj in O as (q & vs & fps & -> & Q & _ & O). injection T as <-. unfold is_true, mbind, get_obj. rewrite Q. reflexivity.
Qed.
Lemma cond_runs x c d v fp en h : own h d v fp -> assoc x en = Some v ->
  match holds_for c d with
  | Some (Ok t) => exists w, ev en (cond_text x c) h = Ret (w, h) /\ is_true w h = Ret (t, h)
  | Some (Err f) => ev en (cond_text x c) h = Raise (Std f)
  | None => True
  end.
Proof.
  intros O A. assert (PATH : forall p r, walk p d = Some r -> match r with Ok d' => exists w fp', ev en (path_text (EName x) p) h = Ret (w, h) /\ own h d' w fp' | Err f => ev en (path_text (EName x) p) h = Raise (Std f) end).
  { intros p r W. pose proof (eval_walk (call source (S n)) "__main__" en h p d v fp (EName x) r O (ev_name x en v h A) W) as X. destruct r as [d0|f]; [|exact X]. destruct X as (w & fp' & E & _ & OW). exists w, fp'. auto. }
  induction c as [o p k|o p q|p|c IH|c1 IH1 c2 IH2]; cbn [holds_for cond_text].
  - destruct (walk p d) as [r|] eqn:W; [|exact I]. pose proof (PATH p r W) as X. destruct r as [d0|f]; cbn [tbind].
    + destruct X as (w & fp' & E & OW). destruct (test o d0 k) as [t|] eqn:T; [|exact I]. cbn [option_map]. exists (PBool t). split; [|reflexivity].
      cbn [eval]. unfold mbind at 1. rewrite E. unfold mbind, mret. apply (test_runs _ _ _ _ _ _ _ _ OW T).
    + cbn [eval]. unfold mbind at 1. rewrite X. reflexivity.
  - assert (EC : ev en (ECmp o (path_text (EName x) p) (path_text (EName x) q)) = (u <~ ev en (path_text (EName x) p) ;; w <~ ev en (path_text (EName x) q) ;; Py.compare (call source (S n)) o u w)) by reflexivity.
    rewrite EC. destruct (walk p d) as [r|] eqn:W; [|exact I]. pose proof (PATH p r W) as X. destruct r as [d1|f]; cbn [tbind]; [|unfold mbind; rewrite X; reflexivity].
    destruct X as (u & fpu & EU & OU). rewrite (mbind_ret _ _ _ _ _ EU). destruct (walk q d) as [r|] eqn:W2; [|exact I]. pose proof (PATH q r W2) as X. destruct r as [d2|f]; cbn [tbind]; [|unfold mbind; rewrite X; reflexivity].
    destruct X as (w & fpw & EW & OW). rewrite (mbind_ret _ _ _ _ _ EW). destruct d1; try exact I. destruct d2; try exact I. destruct (test o (DInt z) (KInt z0)) as [t|] eqn:T; [|exact I]. cbn [option_map].
    cbn [own] in OW. destruct OW as [-> _]. exists (PBool t). split; [|reflexivity]. apply (test_runs _ _ _ _ _ _ _ _ OU T).
  - destruct (walk p d) as [r|] eqn:W; [|exact I]. pose proof (PATH p r W) as X. destruct r as [d0|f]; cbn [tbind]; [|exact X].
    destruct X as (w & fp' & E & OW). destruct (truth d0) as [t|] eqn:T; [|exact I]. cbn [option_map]. exists w. split; [exact E|apply (truth_runs _ _ _ _ _ OW T)].
  - destruct (holds_for c d) as [[t|f]|]; cbn [tbind]; [| |exact I].
    + destruct IH as (w & E & T). exists (PBool (negb t)). split; [|destruct t; reflexivity]. cbn [eval]. unfold mbind. rewrite E, T. reflexivity.
    + cbn [eval]. unfold mbind. rewrite IH. reflexivity.
  - assert (EA : ev en (EAnd (cond_text x c1) (cond_text x c2)) = (u <~ ev en (cond_text x c1) ;; t <~ is_true u ;; if t then ev en (cond_text x c2) else mret u)) by reflexivity.
    rewrite EA. destruct (holds_for c1 d) as [[t|f]|]; cbn [tbind]; [| |exact I].
    + destruct IH1 as (w & E & T). unfold mbind. rewrite E, T. destruct t; [exact IH2|]. exists w. split; [reflexivity|exact T].
    + unfold mbind. rewrite IH1. reflexivity.
Qed.
(** [e.append(w)] *)
Lemma ev_append en e e2 q vs w h t : ev en e h = Ret (PRef q, h) -> nth_error h q = Some (OList vs) -> plain e2 = true -> ev en e2 h = Ret (w, h ++ t) ->
  ev en (ECall (EAttr e "append") [e2]) h = Ret (PNone, put (h ++ t) q (OList (vs ++ [w]))).
Proof.
  intros E Q P E2. rewrite eval_call. erewrite mbind_ret.
  2:{ cbn [eval]. rewrite (mbind_ret _ _ _ _ _ E). unfold attr, mbind, get_obj. rewrite Q. cbn [mopt]. unfold mret. cbn [String.eqb Ascii.eqb Bool.eqb orb]. reflexivity. }
  erewrite mbind_ret; [|rewrite argv_plain by exact P; rewrite (mbind_ret _ _ _ _ _ E2); reflexivity]. assert (Q' : nth_error (h ++ t) q = Some (OList vs)) by (rewrite nth_error_app1; [exact Q|apply (nth_lt _ _ _ Q)]).
  cbn [fst snd call]. unfold mbind at 1, get_obj at 1. rewrite Q'. cbn [mopt]. unfold mret at 1.
  unfold builtin. cbn [String.eqb Ascii.eqb Bool.eqb]. unfold mbind at 1, get_obj at 1. rewrite Q'. reflexivity.
Qed.
Lemma ev_append_raise en e e2 q vs f h : ev en e h = Ret (PRef q, h) -> nth_error h q = Some (OList vs) -> plain e2 = true -> ev en e2 h = Raise f ->
  ev en (ECall (EAttr e "append") [e2]) h = Raise f.
Proof.
  intros E Q P E2. rewrite eval_call. erewrite mbind_ret.
  2:{ cbn [eval]. rewrite (mbind_ret _ _ _ _ _ E). unfold attr, mbind, get_obj. rewrite Q. cbn [mopt]. unfold mret. cbn [String.eqb Ascii.eqb Bool.eqb orb]. reflexivity. }
  unfold mbind. rewrite argv_plain by exact P. unfold mbind. rewrite E2. reflexivity.
Qed.
(** An attribute of None. *)
Lemma ev_none en e a l h : ev en e h = Ret (PNone, h) -> ev en (ECall (EAttr e a) l) h = Raise (Std AttributeError).
Proof. intros E. rewrite eval_call. unfold mbind at 1. cbn [eval]. unfold mbind. rewrite E. reflexivity. Qed.
Lemma ev_raise en e a l f h : ev en e h = Raise f -> ev en (ECall (EAttr e a) l) h = Raise f.
Proof. intros E. rewrite eval_call. unfold mbind at 1. cbn [eval]. unfold mbind. rewrite E. reflexivity. Qed.

(** A loop. *)
Definition loop (y : string) (body : list stmt) : list val -> env -> M (env * option val) :=
  fix go (l : list val) (en : env) : M (env * option val) :=
    match l with
    | [] => mret (en, None)
    | v :: l => r <~ blk body ((y, v) :: en) ;; match snd r with Some _ => mret r | None => go l (fst r) end
    end.
Lemma ex_for y e body en : ex (SFor y e body) en = (v <~ ev en e ;; vs <~ items v ;; loop y body vs en).
Proof. reflexivity. Qed.
Lemma clear_bind y v en : special y = false -> clear en -> clear ((y, v) :: en).
Proof. intros S C s X. cbn [assoc]. destruct (String.eqb_spec s y) as [->|]; [congruence|apply C, X]. Qed.
Lemma clear_kept bound en en' : forallb (fun y => negb (special y)) bound = true -> (forall s, ~ In s bound -> assoc s en' = assoc s en) -> clear en -> clear en'.
Proof. intros B K C s X. rewrite K; [apply C, X|]. intros I. rewrite forallb_forall in B. specialize (B s I). rewrite X in B. discriminate B. Qed.
Lemma loop_each y body bound (F : deep -> option (res deep)) : special y = false -> forallb (fun y => negb (special y)) bound = true ->
  (forall d v fp en h, own h d v fp -> NoDup fp -> assoc y en = Some v -> clear en -> carried (blk body) bound en h v fp (F d)) ->
  forall l vs fps en h, clear en -> owns h l vs fps -> NoDup (List.concat fps) ->
  match each F l with
  | Some (Ok l') => exists en' h' fps', loop y body vs en h = Ret ((en', None), h') /\ (forall s, ~ In s (y :: bound) -> assoc s en' = assoc s en) /\
      owns h' l' vs fps' /\ NoDup (List.concat fps') /\ grown (List.length h) (List.concat fps') (List.concat fps) /\ untouched (List.length h) (List.concat fps) h h' /\ (List.length h <= List.length h')%nat
  | Some (Err e) => loop y body vs en h = Raise (Std e)
  | None => True
  end.
Proof.
  intros SY SB B. induction l as [|d l IH]; intros vs fps en h CL O N; inversion O; subst; cbn [each].
  - exists en, h, []. split; [reflexivity|]. split; [intros s _; reflexivity|]. split; [constructor|]. split; [constructor|]. split; [apply grown_refl|]. split; [intros i _ _; reflexivity|apply Nat.le_refl].
  - cbn [List.concat] in N. apply nodup_app in N as (N1 & N2 & D).
    match goal with H : own h d ?v ?fp |- _ => pose proof (B d v fp ((y, v) :: en) h H N1 ltac:(cbn [assoc]; rewrite String.eqb_refl; reflexivity) (clear_bind _ _ _ SY CL)) as X; pose proof (own_lt _ _ _ _ H : below (List.length h) fp) as B1; assert (CL1 : clear ((y, v) :: en)) by (apply clear_bind; assumption) end.
    match goal with H : owns h l ?vs0 ?fps0 |- _ => pose proof (owns_lt _ _ _ _ H : below (List.length h) (List.concat fps0)) as B2 end.
    unfold carried in X. destruct (F d) as [[d'|e]|]; cbn [tbind]; [|cbn [loop]; unfold mbind; rewrite X; reflexivity|exact I].
    destruct X as (en1 & h1 & fp1 & E1 & A1 & (R1 & R2 & R3 & R4) & L1).
    match goal with H : owns h l ?vs0 ?fps0 |- _ => assert (O1 : owns h1 l vs0 fps0) by (apply (owns_keep h); [apply (untouched_keeps _ _ _ _ _ R4 B2 D)|exact H]) end.
    pose proof (clear_kept _ _ _ SB A1 CL1) as CL2.
    specialize (IH _ _ en1 h1 CL2 O1 N2). destruct (each F l) as [[l'|e]|]; cbn [tbind].
    + destruct IH as (en2 & h2 & fps2 & E2 & A2 & O2 & N3 & I2 & U2 & L2). exists en2, h2, (fp1 :: fps2). split; [cbn [loop]; unfold mbind; rewrite E1; cbn [snd fst]; exact E2|]. split.
      { intros s NI. rewrite A2 by exact NI. rewrite A1 by (intros J; apply NI; right; exact J). cbn [assoc]. destruct (String.eqb s y) eqn:SS; [|reflexivity]. apply String.eqb_eq in SS as ->. exfalso. apply NI. left. reflexivity. }
      assert (D1 : forall i, In i fp1 -> In i (List.concat fps0) -> False) by (apply (kept_apart _ _ _ _ R3 B2 D)).
      split; [constructor; [|exact O2]; apply (own_keeps h1); [|exact R1]; apply (untouched_keeps _ _ _ _ _ U2 (own_lt _ _ _ _ R1)); intros i J K; apply (D1 i K J)|].
      cbn [List.concat]. split; [apply app_nodup; [exact R2|exact N3|]|].
      { intros i J K. apply (kept_apart _ _ _ _ I2 (own_lt _ _ _ _ R1) (fun i I J => D1 i J I) i K J). }
      split; [apply grown_app; [exact R3|]; apply (grown_trans _ _ _ _ _ L1 (grown_refl _ _) I2)|].
      split; [|lia]. intros i L J. rewrite U2; [|lia|intros K; apply J, in_or_app; right; exact K]. apply R4; [exact L|]. intros K. apply J, in_or_app. left. exact K.
    + cbn [loop]. unfold mbind. rewrite E1. cbn [snd fst]. exact IH.
    + exact I.
Qed.
(** An object that changes in place. *)
Lemma refit_list b h q vs fps l' vs' fps' : nth_error h q = Some (OList vs) -> (q < b)%nat -> NoDup (q :: List.concat fps) ->
  owns h l' vs' fps' -> NoDup (List.concat fps') -> grown b (List.concat fps') (List.concat fps) ->
  refit b h (PRef q) (q :: List.concat fps) (put h q (OList vs')) (DList l') (q :: List.concat fps').
Proof.
  intros Q QB N O N' I'. inversion N as [|y z Q1 N1]; subst. pose proof (not_grown _ _ _ _ I' QB Q1) as Q2. split; [|split; [|split]].
  - apply own_list. exists q, vs', fps'. split; [reflexivity|]. split; [apply put_same; apply (nth_lt _ _ _ Q)|]. split; [reflexivity|].
    apply (owns_keep h); [apply keeps_put; exact Q2|exact O].
  - constructor; [exact Q2|exact N'].
  - apply grown_cons, I'.
  - intros i _ J. apply put_other. intros ->. apply J. left. reflexivity.
Qed.
Lemma refit_obj b h q c vs fps fs' vs' fps' : nth_error h q = Some (OInst c vs) -> (q < b)%nat -> NoDup (q :: List.concat fps) ->
  ownf h fs' vs' fps' -> NoDup (List.concat fps') -> grown b (List.concat fps') (List.concat fps) ->
  refit b h (PRef q) (q :: List.concat fps) (put h q (OInst c vs')) (DObj c fs') (q :: List.concat fps').
Proof.
  intros Q QB N O N' I'. inversion N as [|y z Q1 N1]; subst. pose proof (not_grown _ _ _ _ I' QB Q1) as Q2. split; [|split; [|split]].
  - apply own_obj. exists q, vs', fps'. split; [reflexivity|]. split; [apply put_same; apply (nth_lt _ _ _ Q)|]. split; [reflexivity|].
    apply (ownf_keep h); [apply keeps_put; exact Q2|exact O].
  - constructor; [exact Q2|exact N'].
  - apply grown_cons, I'.
  - intros i _ J. apply put_other. intros ->. apply J. left. reflexivity.
Qed.
(** One attribute, one item, one more item. *)
Lemma ownf_change b h a new w fpw ds vs fps : own h new w fpw -> NoDup fpw -> (forall i, In i fpw -> (b <= i)%nat) -> below b (List.concat fps) -> ownf h ds vs fps -> NoDup (map fst ds) -> NoDup (List.concat fps) ->
  exists fps', ownf h (set_deep ds a new) (set_field vs a w) fps' /\ NoDup (List.concat fps') /\ grown b (List.concat fps') (List.concat fps) /\
    (forall i, In i (List.concat fps') -> In i (List.concat fps) \/ (In a (map fst ds) /\ In i fpw)).
Proof.
  intros W NW GW B O. induction O as [|x d v fp ds vs fps H O IH]; intros ND N; [exists []; split; [constructor|]; split; [constructor|]; split; [apply grown_refl|intros i []]|].
  cbn [List.concat map fst] in N, B, ND. apply nodup_app in N as (N1 & N2 & D). apply below_app in B as [B1 B2]. inversion ND as [|y z X1 ND1]; subst. destruct (IH B2 ND1 N2) as (fps' & O' & N' & I' & J'). cbn [set_deep set_field map fst snd].
  fold (set_deep ds a new) (set_field vs a w). destruct (String.eqb_spec x a) as [->|NE].
  - exists (fpw :: fps'). split; [constructor; assumption|]. cbn [List.concat]. split; [apply app_nodup; [exact NW|exact N'|]|split].
    + intros i I J. destruct (J' i J) as [K|[K _]]; [|apply (X1 K)]. specialize (GW i I). specialize (B2 i K). lia.
    + intros i I. apply in_app_or in I as [I|I]; [right; apply GW, I|]. destruct (I' i I) as [K|K]; [left; apply in_or_app; right; exact K|right; exact K].
    + intros i I. apply in_app_or in I as [I|I]; [right; split; [left; reflexivity|exact I]|]. destruct (J' i I) as [K|[K _]]; [left; apply in_or_app; right; exact K|destruct (X1 K)].
  - exists (fp :: fps'). split; [constructor; assumption|]. cbn [List.concat]. split; [apply app_nodup; [exact N1|exact N'|]|split].
    + intros i I J. apply (kept_apart _ _ _ _ I' B1 (fun i I J => D i J I) i J I).
    + apply grown_app; [apply grown_refl|exact I'].
    + intros i I. apply in_app_or in I as [I|I]; [left; apply in_or_app; left; exact I|]. destruct (J' i I) as [K|[K1 K2]]; [left; apply in_or_app; right; exact K|right; split; [right; exact K1|exact K2]].
Qed.
Lemma owns_replace b h new w fpw : own h new w fpw -> NoDup fpw -> (forall i, In i fpw -> (b <= i)%nat) -> forall ds vs fps, owns h ds vs fps -> below b (List.concat fps) -> NoDup (List.concat fps) -> forall j, (j < List.length ds)%nat ->
  exists fps', owns h (firstn j ds ++ new :: skipn (S j) ds) (replace vs j w) fps' /\ NoDup (List.concat fps') /\ grown b (List.concat fps') (List.concat fps).
Proof.
  intros W NW GW ds vs fps O. induction O as [|d v fp ds vs fps H O IH]; intros B N j L; [cbn in L; lia|]. cbn [List.concat] in N, B. apply nodup_app in N as (N1 & N2 & D). apply below_app in B as [B1 B2]. destruct j as [|j].
  - cbn [firstn skipn app replace]. exists (fpw :: fps). split; [constructor; assumption|]. cbn [List.concat]. split.
    + apply app_nodup; [exact NW|exact N2|]. intros i I J. specialize (GW i I). specialize (B2 i J). lia.
    + intros i I. apply in_app_or in I as [I|I]; [right; apply GW, I|left; apply in_or_app; right; exact I].
  - cbn [List.length] in L. destruct (IH B2 N2 j ltac:(lia)) as (fps' & O' & N' & G'). change (skipn (S (S j)) (d :: ds)) with (skipn (S j) ds). cbn [firstn app replace]. exists (fp :: fps'). split; [constructor; assumption|]. cbn [List.concat]. split.
    + apply app_nodup; [exact N1|exact N'|]. intros i I J. apply (kept_apart _ _ _ _ G' B1 (fun i I J => D i J I) i J I).
    + apply grown_app; [apply grown_refl|exact G'].
Qed.
Lemma owns_length h ds vs fps : owns h ds vs fps -> List.length vs = List.length ds.
Proof. intros O. induction O; cbn [List.length]; congruence. Qed.
Lemma set_item_runs b h q ds vs fps new w fpw z : own h new w fpw -> NoDup fpw -> (forall i, In i fpw -> (b <= i)%nat) -> nth_error h q = Some (OList vs) -> owns h ds vs fps ->
  below b (q :: List.concat fps) -> NoDup (q :: List.concat fps) ->
  match set_at z new (DList ds) with
  | Some (Ok d1) => exists h' fp', set_item (PRef q) (PInt z) w h = Ret (tt, h') /\ refit b h (PRef q) (q :: List.concat fps) h' d1 fp' /\ List.length h' = List.length h
  | Some (Err e) => set_item (PRef q) (PInt z) w h = Raise (Std e)
  | None => True
  end.
Proof.
  intros W NW GW Q O B N. cbn [set_at]. cbv zeta. pose proof (owns_length _ _ _ _ O) as LL. unfold len. set (j := if z <? 0 then z + Z.of_nat (List.length ds) else z).
  assert (EQ : set_item (PRef q) (PInt z) w h = if (0 <=? j) && (j <? Z.of_nat (List.length ds)) then Ret (tt, put h q (OList (replace vs (Z.to_nat j) w))) else Raise (Std IndexError)).
  { unfold set_item. unfold mbind at 1, get_obj. rewrite Q. cbn [mopt]. unfold mret at 1. unfold need_int, mbind at 1. cbn [as_int mopt]. unfold mret at 1. unfold index_of, len. rewrite LL. fold j.
    destruct ((0 <=? j) && (j <? Z.of_nat (List.length ds))) eqn:C.
    - apply andb_true_iff in C as [C1 C2]. apply Z.leb_le in C1. apply Z.ltb_lt in C2. replace (j <? 0) with false by (symmetry; apply Z.ltb_ge, C1). replace (Z.of_nat (List.length ds) <=? j) with false by (symmetry; apply Z.leb_gt, C2).
      cbn [orb]. destruct (nth_error vs (Z.to_nat j)) as [w0|] eqn:NE; [reflexivity|]. apply nth_error_None in NE. lia.
    - replace ((j <? 0) || (Z.of_nat (List.length ds) <=? j)) with true; [reflexivity|]. symmetry. apply andb_false_iff in C as [C|C]; apply orb_true_iff; [left; apply Z.leb_gt in C; apply Z.ltb_lt; lia|right; apply Z.ltb_ge in C; apply Z.leb_le; lia]. }
  rewrite EQ. destruct ((0 <=? j) && (j <? Z.of_nat (List.length ds))) eqn:C; [|reflexivity]. apply andb_true_iff in C as [C1 C2]. apply Z.leb_le in C1. apply Z.ltb_lt in C2. inversion N as [|y y0 Q1 N1]; subst.
  destruct (owns_replace b h new w fpw W NW GW ds vs fps O (fun i I => B i (or_intror I)) N1 (Z.to_nat j) ltac:(lia)) as (fps' & O' & N' & G').
  exists (put h q (OList (replace vs (Z.to_nat j) w))), (q :: List.concat fps'). split; [reflexivity|]. split; [|apply put_length].
  apply (refit_list b h q vs fps _ _ _ Q (B q (or_introl eq_refl)) N O' N' G').
Qed.
Lemma does_all_eq l d : (fix all (l : list change) (d : deep) : option (res deep) :=
    match l with [] => Some (Ok d) | c :: l => tbind (does c d) (all l) end) l d = does_all l d.
Proof. revert d. induction l as [|c l IH]; intros d; [reflexivity|]. cbn [does_all]. destruct (does c d) as [[d'|e]|]; [apply IH|reflexivity|reflexivity]. Qed.
Lemma scoped_all_eq x l : (fix all (x : string) (l : list change) : Prop := match l with [] => True | c :: l => scoped x c /\ all x l end) x l <-> all_scoped x l.
Proof. induction l as [|c l IH]; [reflexivity|]. cbn [all_scoped]. rewrite IH. reflexivity. Qed.
Lemma scoped_free x c : scoped x c -> ~ In x (vars c).
Proof. destruct c; intros [H _]; exact H. Qed.
Lemma scoped_special x c : scoped x c -> forallb (fun y => negb (special y)) (vars c) = true.
Proof. destruct c; intros [_ [H _]]; exact H. Qed.
Definition right_for (c : change) : Prop := forall x d v fp en h, scoped x c -> own h d v fp -> NoDup fp -> assoc x en = Some v -> clear en -> carried (blk (text x c)) (vars c) en h v fp (does c d).
Lemma one_right s bound en h v fp r : carried (ex s) bound en h v fp r -> carried (blk [s]) bound en h v fp r.
Proof.
  unfold carried. destruct r as [[d'|e]|]; [|intros E; rewrite block_cons; unfold mbind; rewrite E; reflexivity|intros _; exact I].
  intros (en' & h' & fp' & E & X). exists en', h', fp'. split; [|exact X]. rewrite block_cons. unfold mbind. rewrite E. reflexivity.
Qed.
Lemma block_right l : Forall right_for l -> forall x d v fp en h, all_scoped x l -> own h d v fp -> NoDup fp -> assoc x en = Some v -> clear en ->
  carried (blk (flat_map (text x) l)) (flat_map vars l) en h v fp (does_all l d).
Proof.
  intros F. induction F as [|c l C F IH]; intros x d v fp en h S O N A CL.
  - exists en, h, fp. split; [reflexivity|]. split; [intros s _; reflexivity|]. split; [|apply Nat.le_refl]. split; [exact O|]. split; [exact N|]. split; [apply grown_refl|intros i _ _; reflexivity].
  - destruct S as [S1 S2]. cbn [does_all flat_map]. pose proof (C x d v fp en h S1 O N A CL) as X. unfold carried in X |- *. rewrite block_app. destruct (does c d) as [[d1|e]|]; cbn [tbind].
    2:{ unfold mbind. rewrite X. reflexivity. }
    2:{ exact I. }
    destruct X as (en1 & h1 & fp1 & E1 & A1 & R1 & L1). pose proof (clear_kept _ _ _ (scoped_special _ _ S1) A1 CL) as CL1. apply scoped_free in S1.
    pose proof (IH x d1 v fp1 en1 h1 S2 (proj1 R1) (proj1 (proj2 R1)) (eq_trans (A1 _ S1) A) CL1) as Y. unfold carried in Y. unfold mbind. rewrite E1. cbn [snd fst].
    destruct (does_all l d1) as [[d2|e]|]; [|exact Y|exact I]. destruct Y as (en2 & h2 & fp2 & E2 & A2 & R2 & L2). exists en2, h2, fp2. split; [exact E2|]. split.
    + intros s NI. rewrite A2, A1; [reflexivity|intros J; apply NI, in_or_app; left; exact J|intros J; apply NI, in_or_app; right; exact J].
    + split; [apply (refit_trans _ _ _ _ _ _ _ _ _ _ _ L1 R1 R2)|lia].
Qed.
(** A statement that evaluates [e], then [x.p], and then changes what it found there. *)
Lemma store_right x p e d v fp en h (f : deep -> deep -> option (res deep)) (s : stmt) (act : val -> val -> M unit) :
  own h d v fp -> NoDup fp -> assoc x en = Some v -> clear en ->
  ex s en = (w <~ ev en (value_text x e) ;; u <~ ev en (path_text (EName x) p) ;; _ <~ act u w ;; mret (en, None)) ->
  (forall h new w fpw d0 u fpu b, own h new w fpw -> NoDup fpw -> (forall i, In i fpw -> (b <= i)%nat) -> own h d0 u fpu -> NoDup fpu -> below b fpu ->
     match f new d0 with
     | Some (Ok d1) => exists h' fp', act u w h = Ret (tt, h') /\ refit b h u fpu h' d1 fp' /\ List.length h' = List.length h
     | Some (Err g) => act u w h = Raise (Std g)
     | None => True
     end) ->
  carried (ex s) [] en h v fp (tbind (value_of e d) (fun new => at_end p (f new) d)).
Proof.
  intros O N A CL EX ACT. unfold carried. rewrite EX. pose proof (value_runs x e d v fp en N A CL h O) as V. unfold made in V. destruct (value_of e d) as [[new|g]|]; cbn [tbind]; [|unfold mbind; rewrite V; reflexivity|exact I].
  destruct V as (w & t & fpw & EV & OW & NW & GW). rewrite (mbind_ret _ _ _ _ _ EV). pose proof (own_more h t _ _ _ O) as O1. unfold at_end. destruct (walk p d) as [[d0|g]|] eqn:W; cbn [tbind].
  2:{ unfold mbind. rewrite (eval_walk (call source (S n)) "__main__" en (h ++ t) p d v fp (EName x) _ O1 (ev_name x en v _ A) W). reflexivity. }
  2:{ exact I. }
  destruct (own_focus (List.length h) (h ++ t) p d v fp d0 O1 N (own_lt _ _ _ _ O) W) as (u & fpu & F1 & F2 & F3 & F4 & F5).
  assert (EU : ev en (path_text (EName x) p) (h ++ t) = Ret (u, h ++ t)) by (eapply eval_path; [apply ev_name, A|exact F1]). rewrite (mbind_ret _ _ _ _ _ EU).
  pose proof (ACT (h ++ t) new w fpw d0 u fpu (List.length h) OW NW GW F2 F3 (fun i I => own_lt _ _ _ _ O i (F4 i I))) as X. destruct (f new d0) as [[d1|g]|]; cbn [tbind]; [|unfold mbind; rewrite X; reflexivity|exact I].
  destruct X as (h' & fpu' & X1 & X2 & X3). destruct (F5 h' d1 fpu' X2) as (d' & fp' & G1 & G2). rewrite G1. cbn [option_map]. exists en, h', fp'. split; [rewrite (mbind_ret _ _ _ _ _ X1); reflexivity|]. split; [intros s0 _; reflexivity|].
  split; [apply refit_from with (t := t), G2|]. rewrite X3, app_length. lia.
Qed.
Theorem change_runs : forall c, right_for c.
Proof.
  intros c. induction c as [p a e|p z e|p|p e|p y body IH|c0 a b IHa IHb|p y body IH] using change_rec'; intros x d v fp en h SC O N A CL; cbn [text does vars]; try apply one_right.
  - apply (store_right x p e d v fp en h (assign a) _ (fun u w => set_attr source u a w) O N A CL); [reflexivity|]. clear. intros h new w fpw d0 u fpu b OW NW GW F2 F3 BF.
    destruct (match d0 with DObj _ _ => true | _ => false end) eqn:ISO.
    + destruct d0 as [| | | | | | | |c fs| | | | | |]; try discriminate ISO. cbn [assign]. apply own_obj in F2 as (q & vs & fps & -> & Q & -> & OF). pose proof (ownf_assoc _ _ _ _ a OF) as AV. destruct (assoc a fs) as [dold|].
      * destruct AV as (w0 & AV). destruct (distinct (map fst fs)) eqn:DI; [|exact I]. apply distinct_nodup in DI.
        destruct (ownf_change b h a new w fpw fs vs fps OW NW GW (fun i I => BF i (or_intror I)) OF DI ltac:(inversion F3; assumption)) as (fps' & O' & N' & I' & _).
        exists (put h q (OInst c (set_field vs a w))), (q :: List.concat fps'). split; [unfold set_attr, mbind, get_obj; rewrite Q; cbn [mopt]; unfold mret; rewrite AV; reflexivity|].
        split; [apply (refit_obj _ _ _ _ _ _ _ _ _ Q (BF q (or_introl eq_refl)) F3 O' N' I')|apply put_length].
      * destruct (class_of source c) as [k|] eqn:CO; [|exact I]. destruct (c_sort k) eqn:CS; try exact I. unfold set_attr, mbind, get_obj. rewrite Q. cbn [mopt]. unfold mret. rewrite AV, CO, CS. reflexivity.
    + replace (assign a new d0) with (Some (Err (A := deep) AttributeError)) by (destruct d0; try reflexivity; discriminate ISO).
      destruct d0; try discriminate ISO; try (cbn [own] in F2; contradiction); try (destruct F2 as [-> _]; reflexivity).
      * apply own_list in F2 as (q & vs & fps & -> & Q & _). unfold set_attr, mbind, get_obj. rewrite Q. reflexivity.
      * apply own_tuple in F2 as (vs & fps & -> & _). reflexivity.
      * cbn [own] in F2. destruct F2 as [[->|[-> _]] _]; reflexivity.
  - apply (store_right x p e d v fp en h (set_at z) _ (fun u w => set_item u (PInt z) w) O N A CL); [reflexivity|]. clear. intros h new w fpw d0 u fpu b OW NW GW F2 F3 BF.
    destruct d0; try exact I.
    + apply own_list in F2 as (q & vs & fps & -> & Q & -> & OL). apply (set_item_runs b h q l vs fps new w fpw z OW NW GW Q OL BF F3).
  - unfold carried, at_end. destruct (walk p d) as [[d0|f]|] eqn:W; cbn [tbind]; [|cbn [exec]; unfold mbind; erewrite ev_raise; [reflexivity|exact (eval_walk (call source (S n)) "__main__" en h p d v fp (EName x) _ O (ev_name x en v h A) W)]|exact I].
    destruct (own_focus (List.length h) h p d v fp d0 O N (own_lt _ _ _ _ O) W) as (u & fpu & F1 & F2 & F3 & F4 & F5).
    assert (EU : ev en (path_text (EName x) p) h = Ret (u, h)) by (eapply eval_path; [apply ev_name, A|exact F1]).
    destruct d0 as [| | | | | |l| | | | | | | |]; try exact I; cbn [pop_last tbind].
    + destruct F2 as [-> _]. cbn [exec]. unfold mbind. rewrite (ev_none _ _ _ _ _ EU). reflexivity.
    + apply own_list in F2 as (q & vs & fps & -> & Q & -> & OL). pose proof (eval_pop n "__main__" en _ q vs h EU Q) as EP. destruct l as [|d1 l].
      * inversion OL; subst. cbn [tbind exec]. unfold mbind. rewrite EP. reflexivity.
      * cbn [tbind]. destruct (owns_removelast _ _ _ _ OL ltac:(inversion F3; assumption)) as (O' & N' & I').
        destruct (F5 _ _ _ (refit_list _ _ _ _ _ _ _ _ Q (nth_lt _ _ _ Q) F3 O' N' (incl_grown _ _ _ I'))) as (d' & fp' & G1 & G2). rewrite G1. cbn [option_map].
        exists en, (put h q (OList (removelast vs))), fp'. split; [|split; [intros s _; reflexivity|split; [exact G2|rewrite put_length; apply Nat.le_refl]]].
        cbn [exec]. unfold mbind. rewrite EP. inversion OL; subst. reflexivity.
  - unfold carried, at_end. destruct (walk p d) as [[d0|f]|] eqn:W; cbn [tbind]; [|cbn [exec]; unfold mbind; erewrite ev_raise; [reflexivity|exact (eval_walk (call source (S n)) "__main__" en h p d v fp (EName x) _ O (ev_name x en v h A) W)]|exact I].
    destruct (own_focus (List.length h) h p d v fp d0 O N (own_lt _ _ _ _ O) W) as (u & fpu & F1 & F2 & F3 & F4 & F5).
    assert (EU : ev en (path_text (EName x) p) h = Ret (u, h)) by (eapply eval_path; [apply ev_name, A|exact F1]).
    destruct d0 as [| | | | | |l| | | | | | | |]; try exact I; cbn [add_last tbind].
    + destruct F2 as [-> _]. cbn [exec]. unfold mbind. rewrite (ev_none _ _ _ _ _ EU). reflexivity.
    + apply own_list in F2 as (q & vs & fps & -> & Q & -> & OL). pose proof (value_runs x e d v fp en N A CL h O) as V. unfold made in V. destruct (value_of e d) as [[new|f]|]; cbn [tbind]; [| |exact I].
      * destruct V as (w & t & fpw & EV & OW & NW & GW). pose proof (ev_append en _ _ q vs w h t EU Q (value_plain x e) EV) as EP.
        assert (Q' : nth_error (h ++ t) q = Some (OList vs)) by (rewrite nth_error_app1; [exact Q|apply (nth_lt _ _ _ Q)]).
        pose proof (owns_lt _ _ _ _ OL : below (List.length h) (List.concat fps)) as BL.
        assert (O' : owns (h ++ t) (l ++ [new]) (vs ++ [w]) (fps ++ [fpw])).
        { apply (owns_more h t) in OL. clear - OL OW. induction OL as [|d v fp l vs fps H O IH]; cbn [app]; [constructor; [apply OW|constructor]|constructor; [exact H|exact IH]]. }
        assert (CC : List.concat (fps ++ [fpw]) = List.concat fps ++ fpw) by (rewrite concat_app; cbn [List.concat]; rewrite app_nil_r; reflexivity).
        assert (RL : refit (List.length h) h (PRef q) (q :: List.concat fps) (put (h ++ t) q (OList (vs ++ [w]))) (DList (l ++ [new])) (q :: List.concat (fps ++ [fpw]))).
        { apply refit_from with (t := t). apply (refit_list _ _ _ _ _ _ _ _ Q' (nth_lt _ _ _ Q) F3 O'); rewrite CC.
          - apply app_nodup; [inversion F3; assumption|exact NW|]. intros i I J. specialize (BL i I). specialize (GW i J). lia.
          - intros i I. apply in_app_or in I as [I|I]; [left; exact I|right; apply GW, I]. }
        destruct (F5 _ _ _ RL) as (d' & fp' & G1 & G2). rewrite G1. cbn [option_map].
        exists en, (put (h ++ t) q (OList (vs ++ [w]))), fp'. split; [|split; [intros s _; reflexivity|split; [exact G2|rewrite put_length, app_length; lia]]].
        cbn [exec]. unfold mbind. rewrite EP. reflexivity.
      * cbn [exec]. unfold mbind. rewrite (ev_append_raise en _ _ q vs _ h EU Q (value_plain x e) V). reflexivity.
  - destruct SC as [S1 [SS S2]]. apply scoped_all_eq in S2. cbn [vars forallb] in SS. apply andb_true_iff in SS as [SY SB]. apply negb_true_iff in SY. unfold carried, at_end. destruct (walk p d) as [[d0|f]|] eqn:W; cbn [tbind]; [|rewrite ex_for; unfold mbind; rewrite (eval_walk (call source (S n)) "__main__" en h p d v fp (EName x) _ O (ev_name x en v h A) W); reflexivity|exact I].
    destruct (own_focus (List.length h) h p d v fp d0 O N (own_lt _ _ _ _ O) W) as (u & fpu & F1 & F2 & F3 & F4 & F5).
    assert (EU : ev en (path_text (EName x) p) h = Ret (u, h)) by (eapply eval_path; [apply ev_name, A|exact F1]).
    assert (B : forall d v fp en h, own h d v fp -> NoDup fp -> assoc y en = Some v -> clear en -> carried (blk (flat_map (text y) body)) (flat_map vars body) en h v fp (does_all body d)).
    { intros d1 v1 fp1 en1 h1 O1 N1 A1 CL1. apply (block_right body IH); assumption. }
    assert (EF : forall d1, (fix all (l : list change) (d : deep) : option (res deep) := match l with [] => Some (Ok d) | c :: l => tbind (does c d) (all l) end) body d1 = does_all body d1) by (intros; apply does_all_eq).
    assert (EE : forall l, each ((fix all (l : list change) (d : deep) : option (res deep) := match l with [] => Some (Ok d) | c :: l => tbind (does c d) (all l) end) body) l = each (does_all body) l).
    { induction l as [|d1 l IHl]; [reflexivity|]. cbn [each]. rewrite EF. destruct (does_all body d1) as [[|]|]; cbn [tbind]; [rewrite IHl; reflexivity|reflexivity..]. }
    destruct d0 as [| | | | | |l|l| | | | | | |]; try exact I; cbn [for_each tbind]; rewrite EE.
    + apply own_list in F2 as (q & vs & fps & -> & Q & -> & OL). inversion F3 as [|y0 z0 Q1 N1]; subst. pose proof (loop_each y _ _ _ SY SB B l vs fps en h CL OL N1) as L.
      assert (IT : items (PRef q) h = Ret (vs, h)) by (unfold items, mbind, get_obj; rewrite Q; reflexivity).
      destruct (each (does_all body) l) as [[l'|f]|]; cbn [tbind]; [|rewrite ex_for; unfold mbind; rewrite EU, IT; exact L|exact I].
      destruct L as (en' & h' & fps' & E' & A' & O' & N' & I' & U' & L').
      assert (RF : refit (List.length h) h (PRef q) (q :: List.concat fps) h' (DList l') (q :: List.concat fps')).
      { split; [apply own_list; exists q, vs, fps'; split; [reflexivity|]; split; [rewrite U'; [exact Q|apply (nth_lt _ _ _ Q)|exact Q1]|]; split; [reflexivity|exact O']|]. split; [constructor; [apply (not_grown _ _ _ _ I' (nth_lt _ _ _ Q) Q1)|exact N']|].
        split; [apply grown_cons, I'|]. intros i L J. apply U'; [exact L|]. intros K. apply J. right. exact K. }
      destruct (F5 _ _ _ RF) as (d' & fp' & G1 & G2). rewrite G1. cbn [option_map]. exists en', h', fp'. split; [rewrite ex_for; unfold mbind; rewrite EU, IT; exact E'|]. split; [exact A'|]. split; [exact G2|exact L'].
    + apply own_tuple in F2 as (vs & fps & -> & -> & OL). pose proof (loop_each y _ _ _ SY SB B l vs fps en h CL OL F3) as L.
      assert (IT : items (PTuple vs) h = Ret (vs, h)) by reflexivity.
      destruct (each (does_all body) l) as [[l'|f]|]; cbn [tbind]; [|rewrite ex_for; unfold mbind; rewrite EU, IT; exact L|exact I].
      destruct L as (en' & h' & fps' & E' & A' & O' & N' & I' & U' & L').
      assert (RF : refit (List.length h) h (PTuple vs) (List.concat fps) h' (DTuple l') (List.concat fps')).
      { split; [apply own_tuple; exists vs, fps'; split; [reflexivity|]; split; [reflexivity|exact O']|]. split; [exact N'|]. split; [exact I'|exact U']. }
      destruct (F5 _ _ _ RF) as (d' & fp' & G1 & G2). rewrite G1. cbn [option_map]. exists en', h', fp'. split; [rewrite ex_for; unfold mbind; rewrite EU, IT; exact E'|]. split; [exact A'|]. split; [exact G2|exact L'].
  - destruct SC as [S1 [_ [S2 S3]]]. apply scoped_all_eq in S2, S3. pose proof (cond_runs x c0 d v fp en h O A) as X. unfold carried.
    assert (EX : ex (SIf (cond_text x c0) (flat_map (text x) a) (flat_map (text x) b)) en = (w <~ ev en (cond_text x c0) ;; t <~ is_true w ;; if t then blk (flat_map (text x) a) en else blk (flat_map (text x) b) en)) by reflexivity. rewrite EX.
    destruct (holds_for c0 d) as [[t|f]|]; cbn [tbind]; [|unfold mbind; rewrite X; reflexivity|exact I]. destruct X as (w & E1 & E2). unfold mbind. rewrite E1, E2.
    destruct t; rewrite does_all_eq.
    + pose proof (block_right a IHa x d v fp en h S2 O N A CL) as Y. unfold carried in Y. destruct (does_all a d) as [[d'|f]|]; [|exact Y|exact I].
      destruct Y as (en' & h' & fp' & Y1 & Y2 & Y3). exists en', h', fp'. split; [exact Y1|]. split; [|exact Y3]. intros s NI. apply Y2. intros J. apply NI, in_or_app. left. exact J.
    + pose proof (block_right b IHb x d v fp en h S3 O N A CL) as Y. unfold carried in Y. destruct (does_all b d) as [[d'|f]|]; [|exact Y|exact I].
      destruct Y as (en' & h' & fp' & Y1 & Y2 & Y3). exists en', h', fp'. split; [exact Y1|]. split; [|exact Y3]. intros s NI. apply Y2. intros J. apply NI, in_or_app. right. exact J.
  - destruct SC as [S1 [SS S2]]. apply scoped_all_eq in S2. cbn [vars forallb] in SS. apply andb_true_iff in SS as [SY SB]. apply negb_true_iff in SY. unfold carried, at_end.
    assert (EX : forall h, blk (SAssign y (path_text (EName x) p) :: flat_map (text y) body) en h = (w <~ ev en (path_text (EName x) p) ;; blk (flat_map (text y) body) ((y, w) :: en)) h).
    { intros h1. rewrite block_cons. cbn [exec]. unfold mbind. destruct (ev en (path_text (EName x) p) h1) as [[w h2]|f]; reflexivity. }
    rewrite EX. destruct (walk p d) as [[d0|f]|] eqn:W; cbn [tbind]; [|unfold mbind; rewrite (eval_walk (call source (S n)) "__main__" en h p d v fp (EName x) _ O (ev_name x en v h A) W); reflexivity|exact I].
    destruct (own_focus (List.length h) h p d v fp d0 O N (own_lt _ _ _ _ O) W) as (u & fpu & F1 & F2 & F3 & F4 & F5).
    assert (EU : ev en (path_text (EName x) p) h = Ret (u, h)) by (eapply eval_path; [apply ev_name, A|exact F1]). rewrite (mbind_ret _ _ _ _ _ EU). rewrite does_all_eq.
    pose proof (block_right body IH y d0 u fpu ((y, u) :: en) h S2 F2 F3 ltac:(cbn [assoc]; rewrite String.eqb_refl; reflexivity) (clear_bind _ _ _ SY CL)) as X. unfold carried in X.
    destruct (does_all body d0) as [[d1|f]|]; cbn [tbind]; [|exact X|exact I]. destruct X as (en' & h' & fp' & X1 & X2 & X3 & X4). destruct (F5 _ _ _ X3) as (d' & fp2 & G1 & G2). rewrite G1. cbn [option_map].
    exists en', h', fp2. split; [exact X1|]. split; [|split; [exact G2|exact X4]]. intros s NI. rewrite X2 by (intros J; apply NI; right; exact J). cbn [assoc]. destruct (String.eqb_spec s y) as [->|_]; [exfalso; apply NI; left; reflexivity|reflexivity].
Qed.
Theorem changes_run : forall l x d v fp en h, all_scoped x l -> own h d v fp -> NoDup fp -> assoc x en = Some v -> clear en ->
  carried (blk (texts x l)) (flat_map vars l) en h v fp (does_all l d).
Proof. intros l. apply block_right, Forall_forall. intros c _. apply change_runs. Qed.
End Runs.
