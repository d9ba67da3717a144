(** * Running statements and expressions in the heap, one at a time *)
From Verif Require Import Base PyInt PyFloat PyStr PyStruct DataTypes Versions Common Py Source PyRep PyPure PyW PyR.
From Coq Require Import String Ascii Lia.
Open Scope Z_scope.
Local Open Scope list_scope.

Lemma mbind_assoc {A B C} (m : M A) (k : A -> M B) (k' : B -> M C) h : mbind (mbind m k) k' h = mbind m (fun x => mbind (k x) k') h.
Proof. unfold mbind. destruct (m h) as [[a h']|e]; reflexivity. Qed.
Lemma mbind_ret {A B} (m : M A) (k : A -> M B) h a h' : m h = Ret (a, h') -> mbind m k h = k a h'.
Proof. intros E. unfold mbind. rewrite E. reflexivity. Qed.
Lemma mbind_ext {A B} (m : M A) (k k' : A -> M B) h : (forall a h, k a h = k' a h) -> mbind m k h = mbind m k' h.
Proof. intros E. unfold mbind. destruct (m h) as [[a h']|e]; [apply E|reflexivity]. Qed.

Section Run.
Variables (n : nat) (md : string).
Notation ev := (eval source (call source n) md).
Notation blk := (block source (call source n) md).
Definition run (l : list stmt) (en : env) : M val :=
  r <~ blk l en ;; mret (match snd r with Some v => v | None => PNone end).
Definition argv (en : env) : list expr -> M (list val * list (string * val)) :=
  fix go (l : list expr) :=
    match l with
    | [] => mret ([], [])
    | EStar e :: l => v <~ ev en e ;; vs <~ items v ;; r <~ go l ;; mret (vs ++ fst r, snd r)
    | EKw x e :: l => v <~ ev en e ;; r <~ go l ;; mret (fst r, (x, v) :: snd r)
    | e :: l => v <~ ev en e ;; r <~ go l ;; mret (v :: fst r, snd r)
    end.
Lemma eval_call en f args : ev en (ECall f args) = (fv <~ ev en f ;; pk <~ argv en args ;; call source n fv (fst pk) (snd pk)).
Proof. reflexivity. Qed.
Lemma block_cons s l en : blk (s :: l) en = (r <~ exec source (call source n) md s en ;; match snd r with Some _ => mret r | None => blk l (fst r) end).
Proof. reflexivity. Qed.
Lemma block_app a b en h : blk (a ++ b) en h = (r <~ blk a en ;; match snd r with Some _ => mret r | None => blk b (fst r) end) h.
Proof.
  revert en h. induction a as [|s a IH]; intros en h; [reflexivity|]. cbn [app]. rewrite !block_cons. rewrite mbind_assoc.
  apply mbind_ext. intros [en' [v|]] h'; cbn [snd fst]; [reflexivity|apply IH].
Qed.
Lemma run_nil en h : run [] en h = Ret (PNone, h). Proof. reflexivity. Qed.
Lemma run_assign x e l en h : run (SAssign x e :: l) en h = (v <~ ev en e ;; run l ((x, v) :: en)) h.
Proof. unfold run. rewrite block_cons. cbn [exec]. rewrite !mbind_assoc. apply mbind_ext. reflexivity. Qed.
Lemma run_return e l en h : run (SReturn e :: l) en h = ev en e h.
Proof.
  unfold run. rewrite block_cons. cbn [exec]. rewrite !mbind_assoc. unfold mbind. destruct (ev en e h) as [[v h']|f]; reflexivity.
Qed.
Lemma run_expr e l en h : run (SExpr e :: l) en h = (_ <~ ev en e ;; run l en) h.
Proof. unfold run. rewrite block_cons. cbn [exec]. rewrite !mbind_assoc. apply mbind_ext. reflexivity. Qed.
Lemma run_assert e l en h : run (SAssert e :: l) en h = (v <~ ev en e ;; t <~ is_true v ;; if t then run l en else mraise (Std AssertionError)) h.
Proof.
  unfold run. rewrite block_cons. cbn [exec]. rewrite !mbind_assoc. apply mbind_ext. intros v h'. rewrite !mbind_assoc. apply mbind_ext.
  intros [|] h''; reflexivity.
Qed.
Lemma run_set o a e l en h : run (SSetAttr o a e :: l) en h = (v <~ ev en e ;; w <~ ev en o ;; _ <~ set_attr source w a v ;; run l en) h.
Proof.
  unfold run. rewrite block_cons. cbn [exec]. rewrite !mbind_assoc. apply mbind_ext. intros v h'. rewrite !mbind_assoc. apply mbind_ext.
  intros w h''. rewrite !mbind_assoc. apply mbind_ext. reflexivity.
Qed.
Lemma run_unpack xs e l en h : run (SUnpack xs e :: l) en h = (v <~ ev en e ;; vs <~ items v ;; new <~ mopt (Std ValueError) (unpack xs vs) ;; run l (new ++ en)) h.
Proof.
  unfold run. rewrite block_cons. cbn [exec]. rewrite !mbind_assoc. apply mbind_ext. intros v h'. rewrite !mbind_assoc. apply mbind_ext.
  intros vs h''. rewrite !mbind_assoc. apply mbind_ext. reflexivity.
Qed.
Lemma run_if c a b l en h : run (SIf c a b :: l) en h = (v <~ ev en c ;; t <~ is_true v ;; run ((if t then a else b) ++ l) en) h.
Proof.
  unfold run. rewrite block_cons.
  cbn [exec]. rewrite !mbind_assoc. apply mbind_ext. intros v h'. rewrite !mbind_assoc. apply mbind_ext. intros t h''.
  assert (X : forall s, (r <~ blk s en ;; r <~ match snd r with Some _ => mret r | None => blk l (fst r) end ;; mret (match snd r with Some v => v | None => PNone end)) h'' = run (s ++ l) en h'').
  { intros s. rewrite <- mbind_assoc. unfold run, mbind at 1. rewrite <- block_app. reflexivity. }
  destruct t; apply X.
Qed.

(** ** Expressions that only look *)
Definition pure (en : env) (e : expr) (v : val) : Prop := forall h, ev en e h = Ret (v, h).
Lemma p_const en k : pure en (EConst k) (const_val k). Proof. intros h. reflexivity. Qed.
Lemma p_int en z : pure en (EConst (KInt z)) (PInt z). Proof. intros h. reflexivity. Qed.
Lemma p_name en x v : assoc x en = Some v -> pure en (EName x) v.
Proof. intros A h. cbn [eval]. unfold name. rewrite A. reflexivity. Qed.
Lemma p_global en x v : assoc x en = None -> global source md x = Some v -> pure en (EName x) v.
Proof. intros A G h. cbn [eval]. unfold name. rewrite A, G. reflexivity. Qed.
Lemma p_imported en x v : assoc x en = None -> global source md x = None -> imported source x = Some v -> pure en (EName x) v.
Proof. intros A G I h. cbn [eval]. unfold name. rewrite A, G, I. reflexivity. Qed.
Lemma p_neg en e z : pure en e (PInt z) -> pure en (ENeg e) (PInt (- z)).
Proof. intros P h. cbn [eval]. rewrite (mbind_ret _ _ _ _ _ (P h)). reflexivity. Qed.
Lemma p_add en a b x y : pure en a (PInt x) -> pure en b (PInt y) -> pure en (EBin BAdd a b) (PInt (x + y)).
Proof. intros P Q h. cbn [eval]. rewrite (mbind_ret _ _ _ _ _ (P h)). rewrite (mbind_ret _ _ _ _ _ (Q h)). reflexivity. Qed.
Lemma p_mul en a b x y : pure en a (PInt x) -> pure en b (PInt y) -> pure en (EBin BMul a b) (PInt (x * y)).
Proof. intros P Q h. cbn [eval]. rewrite (mbind_ret _ _ _ _ _ (P h)). rewrite (mbind_ret _ _ _ _ _ (Q h)). reflexivity. Qed.
Inductive pures (en : env) : list expr -> list val -> Prop :=
| pures_nil : pures en [] []
| pures_cons e v l vs : pure en e v -> pures en l vs -> pures en (e :: l) (v :: vs).
Lemma p_tuple en l vs : pures en l vs -> pure en (ETuple l) (PTuple vs).
Proof.
  intros P h. cbn [eval].
  match goal with |- mbind (?g l) _ h = _ => set (go := g) end.
  assert (E : go l h = Ret (vs, h)).
  { induction P as [|e v l vs H P IH]; [reflexivity|]. cbn. rewrite (mbind_ret _ _ _ _ _ (H h)), (mbind_ret _ _ _ _ _ IH). reflexivity. }
  rewrite (mbind_ret _ _ _ _ _ E). reflexivity.
Qed.
(** Comparison of integers, and with members of [UnitType] (an [IntEnum]) *)
Lemma p_cmp en o a b x y : o <> CIs -> o <> CIsNot -> pure en a (PInt x) -> pure en b (PInt y) ->
  pure en (ECmp o a b) (PBool (holds o (Some (x ?= y)))).
Proof. intros N1 N2 P Q h. cbn [eval]. rewrite (mbind_ret _ _ _ _ _ (P h)). rewrite (mbind_ret _ _ _ _ _ (Q h)). destruct o; try contradiction; reflexivity. Qed.
Lemma p_eq en a b x y : pure en a (PInt x) -> pure en b (PInt y) -> pure en (ECmp CEq a b) (PBool (x =? y)).
Proof. intros P Q. pose proof (p_cmp en CEq _ _ _ _ ltac:(discriminate) ltac:(discriminate) P Q) as R. rewrite Z.eqb_compare. destruct (x ?= y); exact R. Qed.
Lemma p_ne en a b x y : pure en a (PInt x) -> pure en b (PInt y) -> pure en (ECmp CNe a b) (PBool (negb (x =? y))).
Proof. intros P Q. pose proof (p_cmp en CNe _ _ _ _ ltac:(discriminate) ltac:(discriminate) P Q) as R. rewrite Z.eqb_compare. destruct (x ?= y); exact R. Qed.
Lemma p_ge en a b x y : pure en a (PInt x) -> pure en b (PInt y) -> pure en (ECmp CGe a b) (PBool (y <=? x)).
Proof. intros P Q. pose proof (p_cmp en CGe _ _ _ _ ltac:(discriminate) ltac:(discriminate) P Q) as R. rewrite Z.leb_compare, (Z.compare_antisym x y). destruct (x ?= y); exact R. Qed.
Lemma p_member en c a k w : assoc c en = None -> global source md c = Some (PClass c) -> class_of source c = Some k -> c_sort k = IntEnum ->
  assoc a (c_members k) = Some w -> pure en (EAttr (EName c) a) (const_val w).
Proof.
  intros A G C K W h. cbn [eval]. rewrite (mbind_ret _ _ _ _ _ (p_global _ _ _ A G h)). unfold attr. rewrite C, W, K. reflexivity.
Qed.
Lemma p_version en v : assoc "Version" en = None -> global source md "Version" = Some (PClass "Version") ->
  pure en (EAttr (EName "Version") (version_member v)) (version_val v).
Proof.
  intros A G h. cbn [eval]. rewrite (mbind_ret _ _ _ _ _ (p_global _ _ _ A G h)). unfold attr. rewrite c_Version. destruct v; reflexivity.
Qed.

(** Arguments that only look *)
Definition pargs (en : env) (args : list expr) (pos : list val) (kw : list (string * val)) : Prop := forall h, argv en args h = Ret ((pos, kw), h).
Definition plain (e : expr) : bool := match e with EStar _ | EKw _ _ => false | _ => true end.
Lemma pa_nil en : pargs en [] [] []. Proof. intros h. reflexivity. Qed.
Lemma argv_plain en e l : plain e = true -> argv en (e :: l) = (v <~ ev en e ;; r <~ argv en l ;; mret (v :: fst r, snd r)).
Proof. intros P. destruct e; try discriminate P; reflexivity. Qed.
Lemma argv_kw en x e l : argv en (EKw x e :: l) = (v <~ ev en e ;; r <~ argv en l ;; mret (fst r, (x, v) :: snd r)).
Proof. reflexivity. Qed.
Lemma argv_star en e l : argv en (EStar e :: l) = (v <~ ev en e ;; vs <~ items v ;; r <~ argv en l ;; mret (vs ++ fst r, snd r)).
Proof. reflexivity. Qed.
Lemma pa_pos en e l v pos kw : plain e = true -> pure en e v -> pargs en l pos kw -> pargs en (e :: l) (v :: pos) kw.
Proof. intros P E R h. rewrite argv_plain by exact P. rewrite (mbind_ret _ _ _ _ _ (E h)), (mbind_ret _ _ _ _ _ (R h)). reflexivity. Qed.
Lemma pa_kw en x e l v pos kw : pure en e v -> pargs en l pos kw -> pargs en (EKw x e :: l) pos ((x, v) :: kw).
Proof. intros E R h. rewrite argv_kw. rewrite (mbind_ret _ _ _ _ _ (E h)), (mbind_ret _ _ _ _ _ (R h)). reflexivity. Qed.
Lemma eval_call_pure en f args v pos kw h : pure en f v -> pargs en args pos kw -> ev en (ECall f args) h = call source n v pos kw h.
Proof. intros P A. rewrite eval_call. rewrite (mbind_ret _ _ _ _ _ (P h)), (mbind_ret _ _ _ _ _ (A h)). reflexivity. Qed.
(** A method of a class *)
Lemma p_class_attr en c a k f : assoc c en = None -> global source md c = Some (PClass c) -> class_of source c = Some k -> assoc a (c_members k) = None ->
  find_method source c a = Some f -> (f_kind f = StaticMethod \/ f_kind f = ClassMethod) -> pure en (EAttr (EName c) a) (PMeth (PClass c) a).
Proof.
  intros A G C N F K h. cbn [eval]. rewrite (mbind_ret _ _ _ _ _ (p_global _ _ _ A G h)). unfold attr. rewrite C, N, F. destruct K as [->| ->]; reflexivity.
Qed.
Lemma p_class_attr_local en x c a k f : assoc x en = Some (PClass c) -> class_of source c = Some k -> assoc a (c_members k) = None ->
  find_method source c a = Some f -> (f_kind f = StaticMethod \/ f_kind f = ClassMethod) -> pure en (EAttr (EName x) a) (PMeth (PClass c) a).
Proof.
  intros A C N F K h. cbn [eval]. rewrite (mbind_ret _ _ _ _ _ (p_name _ _ _ A h)). unfold attr. rewrite C, N, F. destruct K as [->| ->]; reflexivity.
Qed.
End Run.

(** ** Calls *)
(** all defaults in the sources are constants *)
Fixpoint defaults (l : list (string * expr)) : option (list (string * val)) :=
  match l with
  | [] => Some []
  | (x, EConst k) :: l => option_map (cons (x, const_val k)) (defaults l)
  | _ => None
  end.
Definition binds (fn : func) (pos : list val) (kw : list (string * val)) (en : env) : Prop :=
  exists ds, defaults (f_defaults fn) = Some ds /\ known_kw (f_params fn) kw = true /\ bind_args (f_params fn) pos kw ds = Some en.
Lemma apply_run n fn pos kw en h : binds fn pos kw en -> apply_func source (call source n) fn pos kw h = run n (f_module fn) (f_body fn) en h.
Proof.
  intros (ds & D & K & B). unfold apply_func.
  match goal with |- mbind (?g _) _ h = _ => set (go := g) end.
  assert (E : forall l ds, defaults l = Some ds -> go l h = Ret (ds, h)).
  { clear. induction l as [|[x e] l IH]; intros ds D; [injection D as <-; reflexivity|].
    destruct e; try discriminate D. cbn [defaults] in D. destruct (defaults l) as [d|]; [|discriminate D]. injection D as <-.
    unfold go at 1. fold go. cbn [eval]. unfold mbind at 1, mret at 1. rewrite (mbind_ret _ _ _ _ _ (IH d eq_refl)). reflexivity. }
  specialize (E _ _ D).
  rewrite (mbind_ret _ _ _ _ _ E). rewrite K, B. reflexivity.
Qed.
Lemma call_meth n l c fs a fn pos kw en h : nth_error h l = Some (OInst c fs) -> find_method source c a = Some fn ->
  binds fn (PRef l :: pos) kw en -> call source (S n) (PMeth (PRef l) a) pos kw h = run n (f_module fn) (f_body fn) en h.
Proof.
  intros O F B. cbn [call]. unfold mbind at 1, get_obj at 1. rewrite O. cbn [mopt]. unfold mret at 1. unfold apply_method. rewrite F. apply apply_run; assumption.
Qed.
Lemma call_static_h n c a fn pos kw en h : find_method source c a = Some fn -> f_kind fn = StaticMethod ->
  binds fn pos kw en -> call source (S n) (PMeth (PClass c) a) pos kw h = run n (f_module fn) (f_body fn) en h.
Proof. intros F S B. cbn [call]. rewrite F, S. apply apply_run; assumption. Qed.
Lemma call_class_h n c a fn pos kw en h : find_method source c a = Some fn -> f_kind fn = ClassMethod ->
  binds fn (PClass c :: pos) kw en -> call source (S n) (PMeth (PClass c) a) pos kw h = run n (f_module fn) (f_body fn) en h.
Proof. intros F S B. cbn [call]. rewrite F, S. apply apply_run; assumption. Qed.
Lemma call_builtin_class n c a pos kw : find_method source c a = None -> call source (S n) (PMeth (PClass c) a) pos kw = builtin (PClass c) a pos kw.
Proof. intros F. cbn [call]. rewrite F. reflexivity. Qed.
Lemma call_new n c k pos kw fs h : class_of source c = Some k -> c_sort k = Dataclass -> known_kw (c_fields k) kw = true ->
  bind_args (c_fields k) pos kw (map (fun d => (fst d, const_val (snd d))) (c_defaults k)) = Some fs -> call source (S n) (PClass c) pos kw h = alloc (OInst c fs) h.
Proof. intros C S K B. cbn [call]. rewrite C, S, K, B. reflexivity. Qed.

(** The environment matters only through what it binds. *)
Definition same (en en' : env) : Prop := forall x, assoc x en = assoc x en'.
Lemma same_cons x v en en' : same en en' -> same ((x, v) :: en) ((x, v) :: en').
Proof. intros E y. cbn [assoc]. rewrite E. reflexivity. Qed.
