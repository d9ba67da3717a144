(** * Whatever a program does, objects stay what they are: a list stays a list, an instance stays an
    instance of its class, with the same attributes if it is a dataclass (all of them have slots), and no
    object disappears.  For every program of the subset of Py.v, by induction on its text and on the
    recursion limit. *)
From Verif Require Import Base PyInt PyFloat PyStr PyStruct DataTypes Versions Common Py Source PyRep PyPure PyPureSim.
From Coq Require Import String Ascii Lia.
Open Scope Z_scope.
Local Open Scope list_scope.

(** [o] may have become [o']. *)
Definition same_kind (p : program) (o o' : obj) : Prop :=
  match o, o' with
  | OList _, OList _ => True
  | OInst c fs, OInst c' fs' => c' = c /\ forall k, class_of p c = Some k -> c_sort k <> Plain -> map fst fs' = map fst fs
  | _, _ => False
  end.
Definition kinds (p : program) (h h' : heap) : Prop :=
  forall i o, nth_error h i = Some o -> exists o', nth_error h' i = Some o' /\ same_kind p o o'.

Section Kinds.
Variable p : program.
Lemma same_kind_refl o : same_kind p o o.
Proof. destruct o; cbn; auto. Qed.
Lemma same_kind_trans a b c : same_kind p a b -> same_kind p b c -> same_kind p a c.
Proof. destruct a, b, c; cbn; try tauto. intros [-> H] [-> G]. split; [reflexivity|]. intros k K N. rewrite (G k K N). apply (H k K N). Qed.
Lemma kinds_refl h : kinds p h h.
Proof. intros i o E. exists o. split; [exact E|apply same_kind_refl]. Qed.
Lemma kinds_trans a b c : kinds p a b -> kinds p b c -> kinds p a c.
Proof. intros H G i o E. destruct (H i o E) as (o' & E' & K). destruct (G i o' E') as (o2 & E2 & K2). exists o2. split; [exact E2|apply (same_kind_trans _ _ _ K K2)]. Qed.

(** [m] keeps kinds. *)
Definition kk {A} (m : M A) : Prop := forall h a h', m h = Ret (a, h') -> kinds p h h'.
Lemma kk_ret A (a : A) : kk (mret a).
Proof. intros h b h' E. injection E as _ <-. apply kinds_refl. Qed.
Lemma kk_raise A e : kk (@mraise A e).
Proof. intros h b h' E. discriminate E. Qed.
Lemma kk_bind A B (m : M A) (k : A -> M B) : kk m -> (forall a, kk (k a)) -> kk (mbind m k).
Proof. intros H G h b h' E. unfold mbind in E. destruct (m h) as [[a h1]|e] eqn:X; [|discriminate E]. apply (kinds_trans _ h1); [apply (H _ _ _ X)|apply (G _ _ _ _ E)]. Qed.
Lemma kk_res A (r : res A) : kk (mres r).
Proof. destruct r; [apply kk_ret|apply kk_raise]. Qed.
Lemma kk_opt A e (o : option A) : kk (mopt e o).
Proof. destruct o; [apply kk_ret|apply kk_raise]. Qed.
Lemma kk_alloc o : kk (alloc o).
Proof.
  intros h a h' E. injection E as _ <-. intros i b X. exists b. split; [|apply same_kind_refl]. rewrite nth_error_app1; [exact X|]. apply nth_error_Some. rewrite X. discriminate.
Qed.
Lemma kk_get l : kk (get_obj l).
Proof. intros h a h' E. unfold get_obj in E. destruct (nth_error h l); [|discriminate E]. injection E as _ <-. apply kinds_refl. Qed.
Lemma put_at : forall h l o b, nth_error h l = Some b -> nth_error (put h l o) l = Some o.
Proof. induction h as [|a h IH]; intros [|l] o b E; try discriminate E; cbn in *; [reflexivity|apply (IH l o b E)]. Qed.
Lemma put_other : forall h l o i, i <> l -> nth_error (put h l o) i = nth_error h i.
Proof. induction h as [|a h IH]; intros [|l] o [|i] N; cbn; try reflexivity; [destruct (N eq_refl)|apply IH; intros ->; apply N; reflexivity]. Qed.
(** Reading an object and putting one of the same kind back. *)
Lemma kk_put A l (f : obj -> M A) : (forall o, kk (f o) \/ exists o', same_kind p o o' /\ exists g, (f o = mbind (set_obj l o') g) /\ forall u, kk (g u)) -> kk (o <~ get_obj l ;; f o).
Proof.
  intros H h a h' E. unfold mbind at 1, get_obj in E. destruct (nth_error h l) as [o|] eqn:X; [|discriminate E]. cbn [mopt mret] in E. unfold mret in E.
  destruct (H o) as [K|(o' & K & g & F & G)]; [apply (K _ _ _ E)|]. rewrite F in E. unfold mbind, set_obj in E.
  apply (kinds_trans _ (put h l o')); [|apply (G tt _ _ _ E)].
  intros i b Y. destruct (Nat.eq_dec i l) as [->|N].
  - exists o'. rewrite X in Y. injection Y as <-. split; [apply (put_at _ _ _ _ X)|exact K].
  - exists b. rewrite (put_other _ _ _ _ N). split; [exact Y|apply same_kind_refl].
Qed.
Hint Resolve kk_ret kk_raise kk_res kk_opt kk_alloc kk_get : kk.
Ltac kk :=
  repeat first
    [ apply kk_ret | apply kk_raise | apply kk_res | apply kk_opt | apply kk_alloc | apply kk_get
    | apply kk_bind; [|intros ?] | assumption | eassumption
    | match goal with
      | |- kk (match ?x with _ => _ end) => destruct x
      | |- kk (if ?x then _ else _) => destruct x
      end ].
Lemma kk_need v : kk (need_int v). Proof. apply kk_opt. Qed.
Lemma kk_true v : kk (is_true v). Proof. unfold is_true. kk. Qed.
Lemma kk_items v : kk (items v). Proof. unfold items, type_error. kk. Qed.
Lemma kk_length v : kk (length_of v). Proof. unfold length_of, type_error. kk. Qed.
Lemma kk_index A (l : list A) i : kk (index_of l i). Proof. unfold index_of. cbv zeta. kk. Qed.
Lemma kk_item v i : kk (get_item v i). Proof. unfold get_item, type_error. destruct v; kk; try apply kk_need; try apply kk_index. Qed.
Lemma kk_slice v a b : kk (get_slice v a b). Proof. unfold get_slice. destruct v; kk; apply kk_need. Qed.
Lemma kk_bin o a b : kk (bin o a b). Proof. unfold bin. kk; apply kk_need. Qed.
Lemma kk_set_attr o a v : kk (set_attr p o a v).
Proof.
  unfold set_attr. destruct o; try apply kk_raise. apply kk_put. intros [vs|c fs]; [left; apply kk_raise|].
  assert (W : forall m, (forall h b h', m h = Ret (b, h') -> mbind m (fun u : unit => mret u) h = Ret (b, h')) /\ mbind m (fun u : unit => mret u) = mbind m (fun u => mret u)) by (intros m; split; [intros h b h' E; unfold mbind; rewrite E; reflexivity|reflexivity]).
  destruct (assoc a fs) as [w|] eqn:X.
  - right. exists (OInst c (set_field fs a v)). split.
    + cbn. split; [reflexivity|]. intros _ _ _. unfold set_field. rewrite map_map. apply map_ext. intros [b d]. cbn. destruct (String.eqb b a); reflexivity.
    + exists (fun u => mret u). split; [|intros u; apply kk_ret]. reflexivity.
  - destruct (class_of p c) as [k|] eqn:K; [|left; apply kk_raise]. destruct (c_sort k) eqn:S; try (left; apply kk_raise).
    right. exists (OInst c (fs ++ [(a, v)])). split.
    + cbn. split; [reflexivity|]. intros k' K' N. rewrite K in K'. injection K' as <-. congruence.
    + exists (fun u => mret u). split; [reflexivity|intros u; apply kk_ret].
Qed.
Lemma kk_set_item v i w : kk (set_item v i w).
Proof.
  unfold set_item, type_error. destruct v; try apply kk_raise. intros h a h' E. unfold mbind at 1, get_obj in E. destruct (nth_error h l) as [o|] eqn:X; [|discriminate E]. cbn [mopt mret] in E. unfold mret in E.
  destruct o as [vs|c fs]; [|discriminate E]. unfold need_int, mbind in E. destruct (as_int i) as [z|]; [|discriminate E]. cbn [mopt] in E. unfold mret in E.
  unfold index_of in E. cbv zeta in E. destruct (orb _ _); [discriminate E|]. destruct (nth_error vs _); [|discriminate E]. cbn [mopt] in E. unfold mret, set_obj in E. injection E as _ <-.
  intros j b Y. destruct (Nat.eq_dec j l) as [->|N].
  - eexists. rewrite X in Y. injection Y as <-. split; [apply (put_at _ _ _ _ X)|exact I].
  - exists b. rewrite (put_other _ _ _ _ N). split; [exact Y|apply same_kind_refl].
Qed.
(** Copying: what was there is not touched at all. *)
Fixpoint val_rec' (P : val -> Prop) (H : forall vs, Forall P vs -> P (PTuple vs)) (G : forall v, (forall vs, v <> PTuple vs) -> P v) (v : val) : P v :=
  match v with
  | PTuple vs => H vs ((fix all (l : list val) : Forall P l := match l with [] => Forall_nil _ | v :: l => Forall_cons _ (val_rec' P H G v) (all l) end) vs)
  | v => G v ltac:(intros vs E; discriminate E)
  end.
Definition grows {A} (m : M A) : Prop := forall h a h', m h = Ret (a, h') -> exists t, h' = h ++ t.
Lemma grows_thread A B S (f : A -> S -> M (B * S)) l : Forall (fun a => forall s, grows (f a s)) l -> forall s, grows (thread f l s).
Proof.
  intros H. induction H as [|a l Ha Hl IH]; intros s h r h' E; [injection E as _ <-; exists []; symmetry; apply app_nil_r|].
  cbn [thread] in E. unfold mbind in E. destruct (f a s h) as [[b h1]|] eqn:X; [|discriminate E]. destruct (thread f l (snd b) h1) as [[c h2]|] eqn:Y; [|discriminate E]. injection E as _ <-.
  destruct (Ha _ _ _ _ X) as (t & ->). destruct (IH _ _ _ _ Y) as (t' & ->). exists (t ++ t'). symmetry. apply app_assoc.
Qed.
Lemma put_app h l o t : (List.length h <= l)%nat -> put (h ++ t) l o = h ++ put t (l - List.length h) o.
Proof. revert l. induction h as [|a h IH]; intros l L; cbn [app List.length Nat.sub] in *; [rewrite Nat.sub_0_r; reflexivity|]. destruct l as [|l]; [lia|]. cbn [put Nat.sub]. f_equal. apply IH. lia. Qed.
Lemma grows_copy n : forall v memo, grows (deep_copy n v memo).
Proof.
  induction n as [|n IH]; [intros v memo h a h' E; discriminate E|]. intros v. induction v as [vs F|v NT] using val_rec'; intros memo h a h' E.
  - cbn [deep_copy] in E. unfold mbind in E. match type of E with match thread ?f vs memo h with _ => _ end = _ => destruct (thread f vs memo h) as [[r h1]|] eqn:X; [|discriminate E]; apply (grows_thread _ _ _ f vs F) in X end. injection E as _ <-. exact X.
  - assert (B : forall l o (ws : list val) k, ((l' <~ alloc_at o ;; r <~ thread (deep_copy n) ws ((l, l') :: memo) ;; _ <~ set_obj l' (k (fst r)) ;; mret (PRef l', snd r)) h = Ret (a, h')) -> exists t, h' = h ++ t).
    { intros l o ws k E'. unfold mbind, alloc_at in E'. destruct (thread (deep_copy n) ws ((l, List.length h) :: memo) (h ++ [o])) as [[r h1]|] eqn:X; [|discriminate E']. unfold set_obj, mret in E'. injection E' as _ <-.
      apply (grows_thread _ _ _ (deep_copy n) ws ltac:(apply Forall_forall; intros w _; apply IH)) in X as (t & ->). rewrite <- app_assoc, put_app by apply Nat.le_refl. eexists. reflexivity. }
    assert (K : forall b (x : val * list (nat * nat)), mret x h = Ret (b, h') -> exists t, h' = h ++ t) by (intros b x E'; injection E' as _ <-; exists []; symmetry; apply app_nil_r).
    destruct v; try (destruct (NT _ eq_refl)); cbn [deep_copy] in E; try (apply (K _ _ E)); try discriminate E.
    destruct (lookup l memo); [apply (K _ _ E)|]. unfold mbind at 1, get_obj in E. destruct (nth_error h l) as [o|] eqn:X; [|discriminate E]. cbn [mopt] in E. unfold mret at 1 in E.
    destruct o as [vs|c fs]; [apply (B _ _ _ (fun x => OList x) E)|]. destruct (String.eqb c "ByteHandler"); [discriminate E|]. apply (B _ _ _ (fun x => OInst c (combine (map fst fs) x)) E).
Qed.
Lemma grows_kk A (m : M A) : grows m -> kk m.
Proof. intros G h a h' E. destruct (G _ _ _ E) as (t & ->). intros i o X. exists o. split; [rewrite nth_error_app1; [exact X|apply nth_error_Some; rewrite X; discriminate]|apply same_kind_refl]. Qed.
Lemma kk_copy v : kk (fun h => deep_copy (S (List.length h)) v [] h).
Proof. apply grows_kk. intros h a h' E. apply (grows_copy _ _ _ _ _ _ E). Qed.
Lemma kk_builtin r m pos kw : kk (builtin r m pos kw).
Proof.
  unfold builtin, type_error. destruct r; try apply kk_raise;
    try (kk; try apply kk_need; try apply kk_true; try apply kk_items; try apply kk_copy; fail).
  destruct pos as [|v [|v2 pos]]; try (kk; fail).
  - destruct kw; [|kk]. destruct (String.eqb m "pop"); [|kk]. apply kk_put. intros [[|v vs]|c fs]; try (left; apply kk_raise).
    right. exists (OList (removelast (v :: vs))). split; [exact I|]. eexists. split; [reflexivity|]. intros u. apply kk_ret.
  - destruct kw; [|kk]. destruct (String.eqb m "append"); [|kk]. apply kk_put. intros [vs|c fs]; try (left; apply kk_raise).
    right. exists (OList (vs ++ [v])). split; [exact I|]. eexists. split; [reflexivity|]. intros u. apply kk_ret.
Qed.

Definition kkc (cl : val -> list val -> list (string * val) -> M val) : Prop := forall f pos kw, kk (cl f pos kw).
Section Eval.
Variables (cl : val -> list val -> list (string * val) -> M val) (module : string).
Hypothesis C : kkc cl.
Lemma kk_attr v a : kk (attr p cl v a).
Proof. unfold attr. cbv zeta. destruct v; kk; try apply C. Qed.
Lemma kk_compare o a b : kk (Py.compare cl o a b).
Proof. unfold Py.compare, type_error. cbv zeta. kk; apply C. Qed.
Lemma kk_name en x : kk (name p module en x).
Proof. unfold name. kk. Qed.
Definition inner (e : expr) : expr := match e with EStar e | EKw _ e => e | e => e end.
Ltac go := repeat first [apply kk_ret | apply kk_raise | apply kk_alloc | apply kk_name | apply kk_attr | apply kk_item | apply kk_slice | apply kk_bin | apply kk_true | apply kk_need | apply kk_compare | apply kk_items
  | match goal with H : _ |- _ => apply H end | apply kk_bind; [|intros ?] | match goal with |- kk (if ?t then _ else _) => destruct t end].
Lemma kk_list en l : Forall (fun e => kk (eval p cl module en e)) l ->
  kk ((fix go (l : list expr) : M (list val) := match l with [] => mret [] | e :: l => v <~ eval p cl module en e ;; r <~ go l ;; mret (v :: r) end) l).
Proof. intros H. induction H as [|e l He Hl IH]; [apply kk_ret|]. go. Qed.
Lemma kk_eval' e : (forall en, kk (eval p cl module en e)) /\ (forall en, kk (eval p cl module en (inner e))).
Proof.
  induction e using expr_rect'; cbn [inner];
    repeat match goal with H : _ /\ _ |- _ => destruct H end; try (split; [intros en; apply kk_raise|assumption]);
    match goal with |- ?A /\ ?B => enough (X : A) by (split; exact X) end; intros en; cbn [eval].
  all: try (go; fail).
  - apply kk_bind; [go|]. intros f. apply kk_bind; [|intros pk; apply C].
    match goal with H : Forall _ ?l |- _ => induction H as [|e' l' [E1 E2] Hl IH] end; [apply kk_ret|].
    destruct e'; cbn [inner] in *; (apply kk_bind; [first [apply E2|apply E1]|intros ?]); go.
  - apply kk_bind; [|intros ?; apply kk_alloc]. apply kk_list. eapply Forall_impl; [|eassumption]. intros e [E _]. apply E.
  - apply kk_bind; [|intros ?; apply kk_ret]. apply kk_list. eapply Forall_impl; [|eassumption]. intros e [E _]. apply E.
  - apply kk_bind; [go|]. intros v. apply kk_bind; [apply kk_items|]. intros vs. apply kk_bind; [|intros ?; apply kk_alloc].
    induction vs as [|w vs IH]; [apply kk_ret|]. cbv zeta. apply kk_bind; [apply kk_ret|]. intros t. destruct t; [|exact IH]. apply kk_bind; [go|]. intros r. apply kk_bind; [exact IH|intros ?; apply kk_ret].
  - apply kk_bind; [go|]. intros v. apply kk_bind; [apply kk_items|]. intros vs. apply kk_bind; [|intros ?; apply kk_alloc].
    induction vs as [|w vs IH]; [apply kk_ret|]. cbv zeta. apply kk_bind; [go|]. intros t. destruct t; [|exact IH]. apply kk_bind; [go|]. intros r. apply kk_bind; [exact IH|intros ?; apply kk_ret].
Qed.
Lemma kk_eval e en : kk (eval p cl module en e).
Proof. apply kk_eval'. Qed.
Lemma kk_exec s : forall en, kk (exec p cl module s en).
Proof.
  assert (B : forall l, Forall (fun s => forall en, kk (exec p cl module s en)) l -> forall en,
    kk ((fix block (l : list stmt) (en : env) : M (env * option val) := match l with [] => mret (en, None) | s :: l => r <~ exec p cl module s en ;; match snd r with Some _ => mret r | None => block l (fst r) end end) l en)).
  { intros l H. clear s. induction H as [|s l Hs Hl IH]; intros en; [apply kk_ret|]. apply kk_bind; [apply Hs|]. intros r. destruct (snd r); [apply kk_ret|apply IH]. }
  induction s using stmt_rect'; intros en; cbn [exec];
    repeat first [apply kk_ret | apply kk_raise | apply kk_eval | apply kk_items | apply kk_opt | apply kk_set_attr | apply kk_set_item | apply kk_name | apply kk_bin | apply kk_true | apply B; assumption | apply kk_bind; [|intros ?] | match goal with |- kk (if ?t then _ else _) => destruct t end].
  match goal with |- kk (_ ?l en) => revert en; induction l as [|w l IH]; intros en; [apply kk_ret|] end.
  apply kk_bind; [apply B; assumption|]. intros r. destruct (snd r); [apply kk_ret|apply IH].
Qed.
Lemma kk_block l : forall en, kk (Py.block p cl module l en).
Proof. induction l as [|s l IH]; intros en; [apply kk_ret|]. cbn [Py.block]. apply kk_bind; [apply kk_exec|]. intros r. destruct (snd r); [apply kk_ret|apply IH]. Qed.
End Eval.
Lemma kk_apply cl fn pos kw : kkc cl -> kk (apply_func p cl fn pos kw).
Proof.
  intros C. unfold apply_func, type_error. apply kk_bind.
  - induction (f_defaults fn) as [|[x e] l IH]; [apply kk_ret|]. apply kk_bind; [apply (kk_eval cl _ C)|]. intros v. apply kk_bind; [exact IH|intros ?; apply kk_ret].
  - intros ds. destruct (known_kw (f_params fn) kw); [|apply kk_raise]. apply kk_bind; [apply kk_opt|]. intros en. apply kk_bind; [apply (kk_block cl _ C)|intros ?; apply kk_ret].
Qed.
Lemma kk_method cl c m pos kw : kkc cl -> kk (apply_method p cl c m pos kw).
Proof. intros C. unfold apply_method. destruct (find_method p c m); [apply kk_apply, C|apply kk_raise]. Qed.
Lemma kk_call n : kkc (call p n).
Proof.
  induction n as [|n IH]; intros f pos kw; [apply kk_raise|]. cbn [call]. unfold type_error.
  destruct f; try apply kk_raise.
  - destruct (class_of p c) as [k|]; [|kk]. destruct (c_sort k).
    + destruct (known_kw (c_fields k) kw); kk.
    + apply kk_bind; [apply kk_alloc|]. intros self. apply kk_bind; [apply kk_method, IH|intros ?; apply kk_ret].
    + kk.
    + kk.
  - kk; first [apply kk_length | apply kk_need | idtac].
  - destruct f; try apply kk_builtin.
    + apply kk_bind; [apply kk_get|]. intros o. destruct o; [apply kk_builtin|apply kk_method, IH].
    + destruct (find_method p c m) as [fn|]; [|apply kk_builtin]. destruct (f_kind fn); first [apply kk_raise | apply kk_apply, IH].
    + apply kk_method, IH.
Qed.
(** Running statements, in any module, at any recursion limit. *)
Theorem block_kinds n module l en h r h' : Py.block p (call p n) module l en h = Ret (r, h') -> kinds p h h'.
Proof. apply (kk_block _ _ (kk_call n)). Qed.
End Kinds.

(** ** Statements that do not assign to a variable *)
(** [x] is not assigned to by [s], and [s] has no [return]. *)
Fixpoint leaves (x : string) (s : stmt) : bool :=
  match s with
  | SAssign y _ | SAdd y _ => negb (String.eqb x y)
  | SUnpack ys _ => negb (existsb (String.eqb x) ys)
  | SReturn _ => false
  | SIf _ a b => forallb (leaves x) a && forallb (leaves x) b
  | SFor y _ b => negb (String.eqb x y) && forallb (leaves x) b
  | SSetAttr _ _ _ | SSetItem _ _ _ | SExpr _ | SAssert _ | SRaise _ => true
  end.
Section Leaves.
Variables (p : program) (cl : val -> list val -> list (string * val) -> M val) (module x : string).
Definition left_alone (m : env -> M (env * option val)) : Prop := forall en h en' r h', m en h = Ret ((en', r), h') -> r = None /\ assoc x en' = assoc x en.
Lemma unpack_other : forall ys (vs : list val) new, existsb (String.eqb x) ys = false -> unpack ys vs = Some new -> forall en : env, assoc x (new ++ en) = assoc x en.
Proof.
  induction ys as [|y ys IH]; intros [|v vs] new X U en; try discriminate U; cbn in *; [injection U as <-; reflexivity|].
  apply orb_false_iff in X as [X1 X2]. destruct (unpack ys vs) as [e|] eqn:E; [|discriminate U]. injection U as <-. rewrite <- app_assoc, (IH vs e X2 E). cbn. rewrite X1. reflexivity.
Qed.
Lemma leaves_exec s : leaves x s = true -> left_alone (exec p cl module s).
Proof.
  assert (B : forall l, Forall (fun s => leaves x s = true -> left_alone (exec p cl module s)) l -> forallb (leaves x) l = true ->
    left_alone ((fix block (l : list stmt) (en : env) : M (env * option val) := match l with [] => mret (en, None) | s :: l => r <~ exec p cl module s en ;; match snd r with Some _ => mret r | None => block l (fst r) end end) l)).
  { clear s. intros l H. induction H as [|s l Hs Hl IH]; intros F en h en' r h' E; [injection E as <- <- _; auto|].
    cbn [forallb] in F. apply andb_true_iff in F as [F1 F2]. unfold mbind in E. destruct (exec p cl module s en h) as [[[en1 r1] h1]|e] eqn:X; [|discriminate E].
    destruct (Hs F1 _ _ _ _ _ X) as [-> A]. cbn [snd fst] in E. destruct (IH F2 _ _ _ _ _ E) as [-> A']. split; [reflexivity|congruence]. }
  induction s using stmt_rect'; intros L en h en' r h' E; cbn [exec leaves] in *; unfold mbind in E;
    repeat match type of E with
           | match ?m with Ret _ => _ | Raise _ => _ end = _ => let X := fresh "X" in destruct m as [[? ?]|?] eqn:X; [|discriminate E]
           end; try discriminate E; try discriminate L; try (injection E as <- <- _; auto; fail).
  - injection E as <- <- _. cbn [assoc]. rewrite (proj1 (negb_true_iff _) L). auto.
  - destruct (unpack xs l) as [new|] eqn:U; [|discriminate X1]. cbn [mopt] in X1. unfold mret in X1. injection X1 as <- _. injection E as <- <- _. split; [reflexivity|].
    apply (unpack_other _ _ _ (proj1 (negb_true_iff _) L) U).
  - injection E as <- <- _. cbn [assoc]. rewrite (proj1 (negb_true_iff _) L). auto.
  - destruct b; [|discriminate E]. injection E as <- <- _. auto.
  - apply andb_true_iff in L as [L1 L2]. match type of E with (if ?t then _ else _) _ = _ => destruct t end; [apply (B _ H L1 _ _ _ _ _ E)|apply (B _ H0 L2 _ _ _ _ _ E)].
  - apply andb_true_iff in L as [L1 L2]. match type of E with _ ?l en ?h0 = _ => clear - E B H L1 L2; revert en h0 E; induction l as [|w l IH]; intros en h0 E; [injection E as <- <- _; auto|] end.
    unfold mbind in E. match type of E with match ?m with Ret _ => _ | Raise _ => _ end = _ => destruct m as [[[en1 r1] h9]|e] eqn:X; [|discriminate E] end.
    destruct (B _ H L2 _ _ _ _ _ X) as [-> A]. cbn [snd fst] in E. destruct (IH _ _ E) as [-> A']. split; [reflexivity|]. rewrite A', A. cbn [assoc]. rewrite (proj1 (negb_true_iff _) L1). reflexivity.
Qed.
Lemma leaves_block l : forallb (leaves x) l = true -> left_alone (Py.block p cl module l).
Proof.
  induction l as [|s l IH]; intros F en h en' r h' E; [injection E as <- <- _; auto|]. cbn [forallb] in F. apply andb_true_iff in F as [F1 F2].
  cbn [Py.block] in E. unfold mbind in E. destruct (exec p cl module s en h) as [[[en1 r1] h1]|e] eqn:X; [|discriminate E].
  destruct (leaves_exec s F1 _ _ _ _ _ X) as [-> A]. cbn [snd fst] in E. destruct (IH F2 _ _ _ _ _ E) as [-> A']. split; [reflexivity|congruence].
Qed.
End Leaves.
