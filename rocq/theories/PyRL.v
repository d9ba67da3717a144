(** * The loops of [ByteHandler] that collect a list (common.py:113-278) *)
From Verif Require Import Base PyInt PyFloat PyStr PyStruct DataTypes Versions Common Py Source PyRep PyPure PyW PyR PyRE PyRH PyRA.
From Coq Require Import String Ascii Lia.
Open Scope Z_scope.
Local Open Scope list_scope.

(** Reading one after the other. *)
Fixpoint each {B} (fs : list (rd B)) : rd (list B) :=
  match fs with
  | [] => ret []
  | f :: fs => e <- f ;; r <- each fs ;; ret (e :: r)
  end.
Lemma each_loop {B} n (f : rd B) hd : each (repeat f n) hd = loop n f hd.
Proof.
  revert hd. induction n as [|n IH]; intros hd; [reflexivity|]. cbn [repeat each loop]. unfold bind. destruct (f hd) as [[b hd']|e]; [|reflexivity].
  rewrite IH. reflexivity.
Qed.
(** only the objects at [l] and [q] change *)
Definition stepq (l q : nat) (h h' : heap) : Prop :=
  (List.length h <= List.length h')%nat /\ forall i, (i < List.length h)%nat -> i <> l -> i <> q -> nth_error h' i = nth_error h i.
Lemma stepq_refl l q h : stepq l q h h. Proof. split; [lia|reflexivity]. Qed.
Lemma stepq_trans l q a b c : stepq l q a b -> stepq l q b c -> stepq l q a c.
Proof. intros [L1 E1] [L2 E2]. split; [lia|]. intros i I N N'. rewrite E2 by lia. apply E1; assumption. Qed.
Lemma step_stepq l q h h' : step l h h' -> stepq l q h h'.
Proof. intros [L E]. split; [exact L|]. intros i I N _. apply E; assumption. Qed.
Lemma sep_app2 lo mid hi a b : sep lo mid a -> sep mid hi b -> (lo <= mid)%nat -> (mid <= hi)%nat -> sep lo hi (a ++ b).
Proof.
  intros [N1 R1] [N2 R2] A B. split.
  - clear A B. induction N1 as [|x a X N1 IH]; [exact N2|]. cbn [app]. constructor.
    + intros I. apply in_app_or in I as [I|I]; [contradiction|]. specialize (R2 _ I). specialize (R1 x (or_introl eq_refl)). lia.
    + apply IH. intros i I. apply R1. right. exact I.
  - intros i I. apply in_app_or in I as [I|I]; [specialize (R1 _ I); lia|specialize (R2 _ I); lia].
Qed.
Lemma sep_wider lo hi lo' hi' fp : sep lo hi fp -> (lo' <= lo)%nat -> (hi <= hi')%nat -> sep lo' hi' fp.
Proof. intros [N R] A B. split; [exact N|]. intros i I. specialize (R _ I). lia. Qed.
Lemma owns_app {ee : Era} h a va fa b vb fb : owns h a va fa -> owns h b vb fb -> owns h (a ++ b) (va ++ vb) (fa ++ fb).
Proof. intros O P. induction O; [exact P|]. cbn [app]. constructor; assumption. Qed.

(** The list at [q] holds these values. *)
Definition listed {ee : Era} {B} (D : B -> deep) (h : heap) (q : nat) (bs : list B) : Prop :=
  exists vs fps, nth_error h q = Some (OList vs) /\ owns h (map D bs) vs fps /\ sep (S q) (List.length h) (List.concat fps).
(** One more was appended. *)
Definition added {ee : Era} {B} (l q : nat) (D : B -> deep) (h : heap) (vs : list val) (h' : heap) (b : B) : Prop :=
  exists v fp, nth_error h' q = Some (OList (vs ++ [v])) /\ stepq l q h h' /\ own h' (D b) v fp /\ sep (List.length h) (List.length h') fp.
Lemma listed_added {ee : Era} {B} l q (D : B -> deep) h vs h' bs b : (l <= q)%nat -> (q < List.length h)%nat -> nth_error h q = Some (OList vs) ->
  listed D h q bs -> added l q D h vs h' b -> listed D h' q (bs ++ [b]).
Proof.
  intros L QL Q (vs0 & fps & Q0 & O & Se) (v & fp & Q' & T & O' & Se'). rewrite Q in Q0. injection Q0 as <-.
  exists (vs ++ [v]), (fps ++ [fp]). split; [exact Q'|]. split.
  - rewrite map_app. apply owns_app; [|constructor; [exact O'|constructor]]. apply (owns_keeps h); [|exact O].
    intros i I. destruct Se as [_ R]. specialize (R _ I). destruct T as [_ E]. apply E; lia.
  - rewrite concat_app. cbn [List.concat]. rewrite app_nil_r. eapply sep_app2; [exact Se|exact Se'|lia|apply T].
Qed.
Lemma listed_own {ee : Era} {B} (D : B -> deep) h q bs : listed D h q bs -> exists fp, own h (DList (map D bs)) (PRef q) fp /\ sep q (List.length h) fp.
Proof.
  intros (vs & fps & Q & O & Se). exists (q :: List.concat fps). split.
  - apply own_list. exists q, vs, fps. repeat (split; [first [reflexivity|exact Q]|]). exact O.
  - destruct Se as [N R]. pose proof (nth_lt _ _ _ Q). split; [constructor; [|exact N]|].
    + intros I. specialize (R _ I). lia.
    + intros i [<-|I]; [lia|specialize (R _ I); lia].
Qed.

(** What the environment binds. *)
Definition binding (ps : list (string * val)) (en : env) : Prop := Forall (fun p => assoc (fst p) en = Some (snd p)) ps.
Lemma binding_cons ps en y v : forallb (fun p => negb (String.eqb (fst p) y)) ps = true -> binding ps en -> binding ps ((y, v) :: en).
Proof.
  intros N Bi. unfold binding in *. rewrite forallb_forall in N. rewrite Forall_forall in *. intros p I. specialize (N _ I). cbn [assoc].
  destruct (String.eqb (fst p) y); [discriminate N|]. apply Bi, I.
Qed.
Lemma binding_get ps en x v : binding ps en -> assoc x ps = Some v -> assoc x en = Some v.
Proof.
  intros Bi A. induction Bi as [|[y w] ps H Bi IH]; [discriminate A|]. cbn [assoc fst snd] in *. destruct (String.eqb_spec x y) as [->|_]; [|apply IH, A].
  injection A as <-. exact H.
Qed.

Section Loop.
Variables (n : nat) (l q : nat) (x : string) (body : list stmt) (ps : list (string * val)).
Notation blk := (block source (call source n) "common").
Definition floop : list val -> env -> M (env * option val) :=
  fix go (l : list val) (en : env) : M (env * option val) :=
    match l with
    | [] => mret (en, None)
    | v :: l => r <~ blk body ((x, v) :: en) ;; match snd r with Some _ => mret r | None => go l (fst r) end
    end.
Lemma run_for iter rest en h : run n "common" (SFor x iter body :: rest) en h =
  (v <~ eval source (call source n) "common" en iter ;; vs <~ items v ;; r <~ floop vs en ;;
   match snd r with Some v => mret v | None => run n "common" rest (fst r) end) h.
Proof.
  unfold run at 1. rewrite block_cons. cbn [exec]. rewrite !mbind_assoc. apply mbind_ext. intros v h'. rewrite !mbind_assoc. apply mbind_ext.
  intros vs h''.
  change (mbind (floop vs en) (fun r => r <~ match snd r with Some _ => mret r | None => blk rest (fst r) end ;; mret match snd r with Some v => v | None => PNone end) h'' =
          mbind (floop vs en) (fun r => match snd r with Some v => mret v | None => run n "common" rest (fst r) end) h'').
  apply mbind_ext. intros [en' [w|]] h3; reflexivity.
Qed.
Context {B : Type} (D : B -> deep).
Hypothesis LQ : (l < q)%nat.
(** what else stays true of the heap *)
Variable J : heap -> Prop.
Hypothesis JK : forall h h', J h -> stepq l q h h' -> J h'.
Definition body_ok {ee : Era} (i : val) (f : rd B) : Prop := forall en h hd vs, binding ps en -> J h -> at_ l hd h -> nth_error h q = Some (OList vs) ->
  ok l (fun h' b (r : env * option val) => snd r = None /\ binding ps (fst r) /\ added l q D h vs h' b) (blk body ((x, i) :: en) h) (f hd).
Lemma floop_ok {ee : Era} is fs : Forall2 body_ok is fs -> forall en h hd bs, binding ps en -> J h -> at_ l hd h -> listed D h q bs ->
  ok l (fun h' bs' (r : env * option val) => snd r = None /\ binding ps (fst r) /\ stepq l q h h' /\ listed D h' q (bs ++ bs')) (floop is en h) (each fs hd).
Proof.
  intros F. induction F as [|i f is fs Hb F IH]; intros en h hd bs Bi HJ A Ls.
  - cbn [floop each]. cbn [ok ret]. eexists _, _. split; [reflexivity|]. split; [exact A|]. split; [reflexivity|]. split; [exact Bi|]. split; [apply stepq_refl|].
    rewrite app_nil_r. exact Ls.
  - cbn [floop each]. pose proof Ls as (vs & fps & Q & _). pose proof (nth_lt _ _ _ Q) as QL. eapply ok_bind; [apply (Hb _ _ _ _ Bi HJ A Q)|].
    intros [en' o] b h' hd' A' (E & Bi' & Ad). cbn [snd fst] in *. subst o. pose proof (listed_added l q D h vs h' bs b ltac:(lia) QL Q Ls Ad) as Ls'.
    assert (HJ' : J h') by (destruct Ad as (? & ? & _ & T & _); apply (JK h); assumption). specialize (IH en' h' hd' (bs ++ [b]) Bi' HJ' A' Ls'). fold floop. unfold ok in IH |- *. unfold bind. destruct (each fs hd') as [[r hd2]|e]; [|exact IH].
    destruct IH as (a & h2 & E2 & A2 & S2 & Bi2 & T2 & L2). cbn [ret]. exists a, h2. split; [exact E2|]. split; [exact A2|]. split; [exact S2|]. split; [exact Bi2|].
    split; [destruct Ad as (? & ? & _ & T & _); eapply stepq_trans; eassumption|]. rewrite <- app_assoc in L2. exact L2.
Qed.
(** [elements.append(v)] *)
Lemma append_run en e v h h' vs : (1 <= n)%nat -> assoc "elements" en = Some (PRef q) -> nth_error h q = Some (OList vs) -> plain e = true ->
  eval source (call source n) "common" en e h = Ret (v, h') -> forall vs', nth_error h' q = Some (OList vs') ->
  eval source (call source n) "common" en (ECall (EAttr (EName "elements") "append") [e]) h = Ret (PNone, put h' q (OList (vs' ++ [v]))).
Proof.
  clear JK J LQ.
  intros N EL Q PL E vs' Q'. rewrite PyRE.eval_call.
  assert (X : eval source (call source n) "common" en (EAttr (EName "elements") "append") h = Ret (PMeth (PRef q) "append", h)).
  { cbn [eval]. rewrite (mbind_ret _ _ _ _ _ (p_name n "common" _ _ _ EL h)). unfold attr, mbind, get_obj. rewrite Q. reflexivity. }
  rewrite (mbind_ret _ _ _ _ _ X). rewrite argv_plain by exact PL. rewrite !mbind_assoc. rewrite (mbind_ret _ _ _ _ _ E).
  destruct n as [|n']; [lia|]. cbn. unfold mbind, get_obj, mret. cbn. rewrite Q'. cbn. unfold mret. rewrite Q'. reflexivity.
Qed.
Lemma append_added {ee : Era} h h' hd hd' vs b v fp : at_ l hd h -> at_ l hd' h' -> nth_error h q = Some (OList vs) -> step l h h' -> own h' (D b) v fp -> sep (List.length h) (List.length h') fp ->
  at_ l hd' (put h' q (OList (vs ++ [v]))) /\ added l q D h vs (put h' q (OList (vs ++ [v]))) b.
Proof.
  clear JK J.
  intros A A' Q T O Se. pose proof (nth_lt _ _ _ Q) as QL. assert (QL' : (q < List.length h')%nat) by (destruct T; lia). split.
  - split; [rewrite put_other by lia; exact A'|apply (at_fits _ _ _ A')].
  - exists v, fp. split; [apply put_same, QL'|]. split.
    + split; [rewrite put_length; apply T|]. intros i I N1 N2. rewrite put_other by exact N2. apply T; assumption.
    + split.
      * apply (own_keeps h'); [|exact O]. intros i I. destruct Se as [_ R]. specialize (R _ I). apply put_other. lia.
      * rewrite put_length. exact Se.
Qed.
(** [elements.append(e)] *)
Lemma body_append {ee : Era} e i f : (1 <= n)%nat -> plain e = true -> body = [SExpr (ECall (EAttr (EName "elements") "append") [e])] ->
  assoc "elements" ps = Some (PRef q) -> forallb (fun p => negb (String.eqb (fst p) x)) ps = true ->
  (forall en h hd, binding ps en -> J h -> at_ l hd h -> ok l (built l h D) (eval source (call source n) "common" ((x, i) :: en) e h) (f hd)) ->
  body_ok i f.
Proof.
  intros N PL EB EL NX H en h hd vs Bi HJ A Q. rewrite EB. pose proof (binding_cons _ _ x i NX Bi) as Bi'. specialize (H en h hd Bi HJ A). unfold ok in H |- *.
  rewrite block_cons. cbn [exec]. destruct (f hd) as [[b hd']|er].
  - destruct H as (v & h' & E & A' & T & fp & O & Se).
    assert (Q' : nth_error h' q = Some (OList vs)) by (rewrite (proj2 T); [exact Q|apply (nth_lt _ _ _ Q)|lia]).
    pose proof (append_run _ e v h h' vs N (binding_get _ _ _ _ Bi' EL) Q PL E vs Q') as R. rewrite mbind_assoc. rewrite (mbind_ret _ _ _ _ _ R).
    destruct (append_added h h' hd hd' vs b v fp A A' Q T O Se) as [A2 Ad].
    eexists _, _. split; [reflexivity|]. split; [exact A2|]. split; [reflexivity|]. split; [exact Bi'|exact Ad].
  - rewrite mbind_assoc, PyRE.eval_call.
    assert (X : eval source (call source n) "common" ((x, i) :: en) (EAttr (EName "elements") "append") h = Ret (PMeth (PRef q) "append", h)).
    { cbn [eval]. rewrite (mbind_ret _ _ _ _ _ (p_name n "common" _ _ _ (binding_get _ _ _ _ Bi' EL) h)). unfold attr, mbind, get_obj. rewrite Q. reflexivity. }
    rewrite !mbind_assoc. rewrite (mbind_ret _ _ _ _ _ X). rewrite argv_plain by exact PL. rewrite !mbind_assoc. unfold mbind at 1. rewrite H. reflexivity.
Qed.
(** [y = e; elements.append(y)] *)
Lemma body_assign {ee : Era} y e i f : (1 <= n)%nat -> body = [SAssign y e; SExpr (ECall (EAttr (EName "elements") "append") [EName y])] ->
  assoc "elements" ps = Some (PRef q) -> forallb (fun p => negb (String.eqb (fst p) x)) ps = true -> forallb (fun p => negb (String.eqb (fst p) y)) ps = true ->
  (forall en h hd, binding ps en -> J h -> at_ l hd h -> ok l (built l h D) (eval source (call source n) "common" ((x, i) :: en) e h) (f hd)) ->
  body_ok i f.
Proof.
  intros N EB EL NX NY H en h hd vs Bi HJ A Q. rewrite EB. pose proof (binding_cons _ _ x i NX Bi) as Bi'. specialize (H en h hd Bi HJ A). unfold ok in H |- *.
  rewrite block_cons. cbn [exec]. rewrite mbind_assoc. destruct (f hd) as [[b hd']|er]; [|unfold mbind at 1; rewrite H; reflexivity].
  destruct H as (v & h' & E & A' & T & fp & O & Se). rewrite (mbind_ret _ _ _ _ _ E). unfold mbind at 1, mret at 1. cbn [snd fst].
  assert (Q' : nth_error h' q = Some (OList vs)) by (rewrite (proj2 T); [exact Q|apply (nth_lt _ _ _ Q)|lia]).
  pose proof (binding_cons _ _ y v NY Bi') as Bi2.
  rewrite block_cons. cbn [exec]. rewrite mbind_assoc.
  pose proof (append_run ((y, v) :: (x, i) :: en) (EName y) v h' h' vs N (binding_get _ _ _ _ Bi2 EL) Q' eq_refl) as R.
  rewrite (mbind_ret _ _ _ _ _ (R ltac:(apply p_name; cbn [assoc]; rewrite String.eqb_refl; reflexivity) vs Q')).
  destruct (append_added h h' hd hd' vs b v fp A A' Q T O Se) as [A2 Ad].
  eexists _, _. split; [reflexivity|]. split; [exact A2|]. split; [reflexivity|]. split; [exact Bi2|exact Ad].
Qed.
End Loop.

(** [elements = []; for x in range(size): body; return elements] *)
Lemma collect_run {ee : Era} {B} n l hd h en x body (D : B -> deep) size fs (ps : list (string * val)) (J : heap -> Prop) (r : res (list B * handler)) : (1 <= n)%nat ->
  J h -> (forall h0 h', J h0 -> stepq l (List.length h) h0 h' -> J h') ->
  at_ l hd h -> binding ps en -> forallb (fun p => negb (String.eqb (fst p) "elements")) ps = true -> assoc "range" en = None ->
  assoc "size" en = Some (PInt size) ->
  r = each fs hd ->
  (Forall2 (body_ok n l (List.length h) x body (("elements"%string, PRef (List.length h)) :: ps) D J) (range_items size) fs) ->
  ok l (built l h (fun bs => DList (map D bs)))
    (run n "common" [SAssign "elements" (EList []); SFor x (ECall (EName "range") [EName "size"]) body; SReturn (EName "elements")] en h) r.
Proof.
  intros N HJ JK A Bi NE NR SZ -> F. set (q := List.length h) in *. rewrite run_assign.
  assert (E0 : eval source (call source n) "common" en (EList []) h = Ret (PRef q, h ++ [OList []])) by reflexivity.
  rewrite (mbind_ret _ _ _ _ _ E0). set (en1 := ("elements"%string, PRef q) :: en). rewrite run_for.
  assert (ER : forall h, eval source (call source n) "common" en1 (ECall (EName "range") [EName "size"]) h = Ret (PRange size, h)).
  { intros h1. erewrite eval_call_pure; [|apply p_global; [exact NR|apply g_common_range]|apply pa_pos; [reflexivity|apply p_name; exact SZ|apply pa_nil]].
    destruct n; [lia|]. reflexivity. }
  rewrite (mbind_ret _ _ _ _ _ (ER _)). cbn [items]. unfold mbind at 1, mret at 1.
  assert (Bi1 : binding (("elements"%string, PRef q) :: ps) en1).
  { constructor; [reflexivity|]. apply binding_cons; assumption. }
  pose proof (at_lt _ _ _ A) as LT.
  assert (L0 : listed D (h ++ [OList []]) q []).
  { exists [], []. split; [apply nth_new|]. split; [constructor|apply sep_nil]. }
  assert (HJ1 : J (h ++ [OList []])) by (apply (JK h); [exact HJ|apply step_stepq, step_app]).
  pose proof (floop_ok n l q x body _ D LT J JK _ _ F en1 (h ++ [OList []]) hd [] Bi1 HJ1 (at_app _ _ _ _ A) L0) as H. unfold ok in H |- *.
  unfold mbind at 1. destruct (each fs hd) as [[bs hd']|er].
  - destruct H as ([en2 o] & h' & -> & A' & E & Bi2 & T & Ls). cbn [snd fst] in *. subst o. rewrite run_return.
    rewrite (p_name n "common" en2 "elements" (PRef q) (binding_get _ _ "elements" (PRef q) Bi2 eq_refl)). eexists _, _. split; [reflexivity|]. split; [exact A'|]. split.
    + destruct T as [TL TE]. rewrite app_length in *. cbn [List.length] in *. split; [lia|]. intros i I Ni. rewrite TE; [|lia|exact Ni|fold q in I; lia]. apply nth_error_app1, I.
    + cbn [app] in Ls. apply (listed_own D h' q bs Ls).
  - unfold mbind. rewrite H. reflexivity.
Qed.
