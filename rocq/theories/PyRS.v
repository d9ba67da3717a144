(** * Steps of the [from_bytes] methods *)
From Verif Require Import Base PyInt PyFloat PyStr PyStruct DataTypes Versions Common Py Source PyRep PyPure PyW PyR PyRE PyRH PyRA PyRL PyRC PyRP Deep.
From Coq Require Import String Ascii Lia Permutation.
Open Scope Z_scope.
Local Open Scope list_scope.

(** ** Fields from what was built *)
Fixpoint pick {A} (i : nat) (l : list A) : option (A * list A) :=
  match i, l with
  | _, [] => None
  | O, a :: l => Some (a, l)
  | S i, a :: l => option_map (fun r => (fst r, a :: snd r)) (pick i l)
  end.
Lemma pick_perm {A} i (l : list A) a r : pick i l = Some (a, r) -> Permutation l (a :: r).
Proof.
  revert l a r. induction i as [|i IH]; intros [|b l] a r E; try discriminate E; cbn [pick] in E.
  - injection E as <- <-. apply Permutation_refl.
  - destruct (pick i l) as [[c s]|] eqn:P; [|discriminate E]. injection E as <- <-. cbn [fst snd]. rewrite (IH _ _ _ P). apply perm_swap.
Qed.
(** [held] in a form that does not depend on the order *)
Lemma held_perm {ee : Era} h lo L L' : Permutation L L' -> held h lo L -> held h lo L'.
Proof.
  intros P (fps & O & Se).
  assert (X : exists fps', owns h (map fst L') (map snd L') fps' /\ Permutation (List.concat fps) (List.concat fps')).
  { clear Se. revert fps O. induction P as [|[d v] L L' P IH|[d v] [d' v'] L|L L2 L3 P1 IH1 P2 IH2]; intros fps O.
    - exists fps. split; [exact O|apply Permutation_refl].
    - cbn [map fst snd] in O. inversion O as [|d0 v0 fp l0 vs0 fps0 O1 O2]; subst. destruct (IH _ O2) as (fps' & O' & P').
      exists (fp :: fps'). split; [constructor; assumption|]. cbn [List.concat]. apply Permutation_app_head, P'.
    - cbn [map fst snd] in O. inversion O as [|d0 v0 fp l0 vs0 fps0 O1 O2]; subst. inversion O2 as [|d1 v1 fp1 l1 vs1 fps1 O3 O4]; subst.
      exists (fp1 :: fp :: fps1). split; [repeat (constructor; [assumption|]); assumption|]. cbn [List.concat]. rewrite !app_assoc.
      apply Permutation_app_tail, Permutation_app_comm.
    - destruct (IH1 _ O) as (f2 & O2 & P2'). destruct (IH2 _ O2) as (f3 & O3 & P3'). exists f3. split; [exact O3|]. eapply Permutation_trans; eassumption. }
  destruct X as (fps' & O' & P'). exists fps'. split; [exact O'|]. destruct Se as [N R]. split; [apply (Permutation_NoDup P' N)|].
  intros i I. apply R. apply (Permutation_in i (Permutation_sym P')), I.
Qed.
Lemma held_tail {ee : Era} h lo p L : held h lo (p :: L) -> held h lo L.
Proof.
  intros (fps & O & [N R]). destruct p as [d v]. cbn [map fst snd] in O. inversion O as [|d0 v0 fp l0 vs0 fps0 O1 O2]; subst. exists fps0. split; [exact O2|].
  cbn [List.concat] in *. split.
  - clear - N. induction fp as [|x fp IH]; [exact N|]. inversion N; subst. apply IH; assumption.
  - intros i I. apply R, in_or_app. right. exact I.
Qed.
(** the fields of an object: scalars, and each built value at most once *)
Inductive takes {ee : Era} : list (deep * val) -> list (string * deep) -> list (string * val) -> Prop :=
| t_nil L : takes L [] []
| t_scalar L x d v fs vs : (forall h, own h d v []) -> takes L fs vs -> takes L ((x, d) :: fs) ((x, v) :: vs)
| t_item i L L' x d v fs vs : pick i L = Some ((d, v), L') -> takes L' fs vs -> takes L ((x, d) :: fs) ((x, v) :: vs).
(** the same with the footprint a part of that of [L] *)
Lemma takes_own0 {ee : Era} h L fs vs : takes L fs vs -> forall fps0, owns h (map fst L) (map snd L) fps0 ->
  exists fps rest, ownf h fs vs fps /\ Permutation (List.concat fps0) (List.concat fps ++ rest).
Proof.
  intros T. induction T as [L|L x d v fs vs H T IH|i L L' x d v fs vs P T IH]; intros fps0 O0.
  - exists [], (List.concat fps0). split; [constructor|apply Permutation_refl].
  - destruct (IH _ O0) as (fps & rest & O & P). exists ([] :: fps), rest. split; [constructor; [apply H|exact O]|exact P].
  - assert (X : exists fp fps1, own h d v fp /\ owns h (map fst L') (map snd L') fps1 /\ Permutation (List.concat fps0) (fp ++ List.concat fps1)).
    { clear - P O0. revert L L' fps0 P O0. induction i as [|i IH]; intros [|[d1 v1] L] L' fps0 P O0; try discriminate P; cbn [pick map fst snd] in *;
        inversion O0 as [|d0 v0 fp l0 vs0 fps1 O1 O2]; subst.
      - injection P as -> -> ->. exists fp, fps1. split; [exact O1|]. split; [exact O2|apply Permutation_refl].
      - destruct (pick i L) as [[[d2 v2] L2]|] eqn:E; [|discriminate P]. injection P as -> -> <-. destruct (IH _ _ _ E O2) as (fp2 & fps2 & A & B & C).
        exists fp2, (fp :: fps2). split; [exact A|]. split; [constructor; assumption|]. cbn [List.concat]. rewrite C. rewrite !app_assoc. apply Permutation_app_tail, Permutation_app_comm. }
    destruct X as (fp & fps1 & O1 & O2 & P1). destruct (IH _ O2) as (fps & rest & O & P2). exists (fp :: fps), rest. split; [constructor; assumption|].
    cbn [List.concat]. rewrite P1, P2. rewrite app_assoc. apply Permutation_refl.
Qed.
Lemma takes_own {ee : Era} h lo L fs vs : takes L fs vs -> held h lo L -> exists fps, ownf h fs vs fps /\ sep lo (List.length h) (List.concat fps).
Proof.
  intros T (fps0 & O0 & [N R]). destruct (takes_own0 h L fs vs T fps0 O0) as (fps & rest & O & P). exists fps. split; [exact O|]. split.
  - apply (Permutation_NoDup P) in N. clear - N. induction (List.concat fps) as [|x l IH]; [constructor|]. inversion N; subst. constructor; [|apply IH; assumption].
    intros I. apply H1, in_or_app. left. exact I.
  - intros i I. apply R. apply (Permutation_in i (Permutation_sym P)), in_or_app. left. exact I.
Qed.
Lemma ownf_keeps {ee : Era} h h' ds vs fps : ownf h ds vs fps -> keeps (List.concat fps) h h' -> ownf h' ds vs fps.
Proof.
  intros O KK. induction O as [|x d v fp ds vs fps H O IH]; [constructor|]. cbn [List.concat] in KK; apply keeps_app in KK as [K1 K2].
  constructor; [apply (own_keeps h); assumption|apply IH, K2].
Qed.
Lemma own_zero {ee : Era} h : the_era <> New -> own h (DNum f64_zero) (PInt 0) [].
Proof. intros N. split; [|reflexivity]. unfold level. destruct the_era; [right; split; reflexivity|split; reflexivity|contradiction N; reflexivity]. Qed.
Lemma own_none {ee : Era} h : own h DNone PNone []. Proof. split; reflexivity. Qed.

(** ** Steps *)
Section Steps.
Context {B C : Type}.
Variables (n : nat) (md : string) (l : nat) (h0 : heap).
Notation ev := (eval source (call source n) md).
(** [x = content.a(...)] gives a scalar *)
Lemma s_scalar {ee : Era} {A} en L hd h x a fn (f : rd A) E k (g : A -> rd B) (Q : heap -> B -> C -> Prop) (K : val -> M C) args pos kw :
  assoc x en = Some (PRef l) -> inv l h0 L hd h -> assoc a (c_methods src_ByteHandler) = Some fn -> f_kind fn = Method ->
  pargs n md en args pos kw -> tells k a pos kw f E -> (k <= n)%nat ->
  (forall b hd' h', inv l h0 L hd' h' -> ok l Q (K (E b) h') (g b hd')) ->
  ok l Q (mbind (ev en (ECall (EAttr (EName x) a) args)) K h) (bind f g hd).
Proof.
  intros AX I F KI P T N H. pose proof (i_at _ _ _ _ _ I) as AT. eapply ok_bind.
  - erewrite e_handler; [|exact AX|exact AT|exact F|exact KI|exact P]. apply T; [exact N|exact AT].
  - intros v b h' hd' A' [T' ->]. apply H. eapply inv_step; eassumption.
Qed.
(** ... gives a new object *)
Lemma s_build {ee : Era} {A} en L hd h x a fn (f : rd A) D k (g : A -> rd B) (Q : heap -> B -> C -> Prop) (K : val -> M C) args pos kw :
  assoc x en = Some (PRef l) -> inv l h0 L hd h -> assoc a (c_methods src_ByteHandler) = Some fn -> f_kind fn = Method ->
  pargs n md en args pos kw -> does k a pos kw f D -> (k <= n)%nat ->
  (forall b v hd' h', inv l h0 ((D b, v) :: L) hd' h' -> ok l Q (K v h') (g b hd')) ->
  ok l Q (mbind (ev en (ECall (EAttr (EName x) a) args)) K h) (bind f g hd).
Proof.
  intros AX I F KI P T N H. pose proof (i_at _ _ _ _ _ I) as AT. eapply ok_bind.
  - erewrite e_handler; [|exact AX|exact AT|exact F|exact KI|exact P]. apply T; [exact N|exact AT].
  - intros v b h' hd' A' (T' & fp & O & Se). apply H. eapply inv_own; eassumption.
Qed.
(** an expression that only looks *)
Lemma s_pure {ee : Era} en e v h (Q : heap -> B -> C -> Prop) (K : val -> M C) r : pure n md en e v -> ok l Q (K v h) r -> ok l Q (mbind (ev en e) K h) r.
Proof. intros P H. rewrite (mbind_ret _ _ _ _ _ (P h)). exact H. Qed.
(** [[]] *)
Lemma s_empty {ee : Era} en L hd h (g : rd B) (Q : heap -> B -> C -> Prop) (K : val -> M C) : inv l h0 L hd h ->
  (forall v h', inv l h0 ((DList [], v) :: L) hd h' -> ok l Q (K v h') (g hd)) -> ok l Q (mbind (ev en (EList [])) K h) (g hd).
Proof.
  intros I H. match goal with |- ok _ _ ?o _ => change o with (K (PRef (List.length h)) (h ++ [OList []])) end. apply H.
  eapply inv_own; [exact I|apply step_app|apply at_app, I| |].
  - apply own_list. exists (List.length h), [], []. split; [reflexivity|]. split; [apply nth_new|]. split; [reflexivity|constructor].
  - cbn [List.concat]. split; [constructor; [intros []|constructor]|]. intros i [<-|[]]. rewrite app_length. cbn [List.length]. lia.
Qed.
End Steps.
(** ** Constructors *)
Definition argk (n : nat) (md : string) (c : string) (en : env) (args : list expr) (acc : list (string * val)) : M val :=
  pk <~ argv n md en args ;; call source n (PClass c) (fst pk) (acc ++ snd pk).
Lemma argk_start n md en x c args h : assoc x en = Some (PClass c) -> eval source (call source n) md en (ECall (EName x) args) h = argk n md c en args [] h.
Proof. intros A. rewrite PyRE.eval_call. rewrite (mbind_ret _ _ _ _ _ (p_name n md _ _ _ A h)). reflexivity. Qed.
Lemma argk_cons n md c en x e args acc h : argk n md c en (EKw x e :: args) acc h = (v <~ eval source (call source n) md en e ;; argk n md c en args (acc ++ [(x, v)])) h.
Proof.
  unfold argk. rewrite argv_kw. rewrite mbind_assoc. apply mbind_ext. intros v h'. rewrite mbind_assoc. apply mbind_ext. intros [pos kw] h''.
  cbn. unfold mbind, mret. cbn [fst snd]. rewrite <- app_assoc. reflexivity.
Qed.
Lemma argk_nil n md c en acc h : argk n md c en [] acc h = call source n (PClass c) [] acc h.
Proof. unfold argk. cbn. unfold mbind, mret. cbn [fst snd]. rewrite app_nil_r. reflexivity. Qed.
Lemma s_new {ee : Era} {B} n l h0 L hd h c k kw fs dfs (b : B) (D : B -> deep) : (1 <= n)%nat -> class_of source c = Some k -> c_sort k = Dataclass ->
  known_kw (c_fields k) kw = true -> bind_args (c_fields k) [] kw (map (fun d => (fst d, const_val (snd d))) (c_defaults k)) = Some fs ->
  inv l h0 L hd h -> D b = DObj c dfs -> takes L dfs fs -> ok l (built l h0 D) (call source n (PClass c) [] kw h) (ret b hd).
Proof.
  intros N C S K BA I E T. destruct n as [|n]; [lia|]. rewrite (call_new n c k [] kw fs h C S K BA). cbn [ok ret]. unfold alloc. eexists _, _. split; [reflexivity|].
  pose proof (inv_step _ _ _ _ _ hd _ I (step_app l h [OInst c fs]) (at_app _ _ _ _ (i_at _ _ _ _ _ I))) as [A LT T1 He]. split; [exact A|]. split; [exact T1|].
  pose proof (takes_own h _ L dfs fs T (i_held _ _ _ _ _ I)) as (fps & O & [Nd R]).
  exists (List.length h :: List.concat fps). split.
  - rewrite E. apply own_obj. exists (List.length h), fs, fps. split; [reflexivity|]. split; [apply nth_new|]. split; [reflexivity|].
    assert (KK : keeps (List.concat fps) h (h ++ [OInst c fs])) by (intros i Ii; apply nth_error_app1; specialize (R _ Ii); lia).
    exact (ownf_keeps _ _ _ _ _ O KK).
  - split.
    + constructor; [|exact Nd]. intros Ii. specialize (R _ Ii). lia.
    + rewrite app_length. cbn [List.length]. intros i [<-|Ii]; [destruct (i_step _ _ _ _ _ I); lia|specialize (R _ Ii); lia].
Qed.
(** [[C(a=..., b=...)]] where all arguments only look *)
Lemma s_new_list {ee : Era} {B C} n md l h0 L hd h en c k args kw fs dfs (g : rd B) (Q : heap -> B -> C -> Prop) (K : val -> M C) : (1 <= n)%nat ->
  assoc c en = None -> global source md c = Some (PClass c) -> class_of source c = Some k -> c_sort k = Dataclass ->
  pargs n md en args [] kw -> known_kw (c_fields k) kw = true ->
  bind_args (c_fields k) [] kw (map (fun d => (fst d, const_val (snd d))) (c_defaults k)) = Some fs -> inv l h0 L hd h -> takes [] dfs fs ->
  (forall v h', inv l h0 ((DList [DObj c dfs], v) :: L) hd h' -> ok l Q (K v h') (g hd)) ->
  ok l Q (mbind (eval source (call source n) md en (EList [ECall (EName c) args])) K h) (g hd).
Proof.
  intros N A G CL S PA KN BA I T H. destruct n as [|n]; [lia|].
  assert (E1 : eval source (call source (Datatypes.S n)) md en (ECall (EName c) args) h = Ret (PRef (List.length h), h ++ [OInst c fs])).
  { erewrite eval_call_pure; [|apply p_global; [exact A|exact G]|exact PA]. rewrite (call_new n c k [] kw fs h CL S KN BA). reflexivity. }
  assert (E2 : eval source (call source (Datatypes.S n)) md en (EList [ECall (EName c) args]) h = Ret (PRef (List.length (h ++ [OInst c fs])), (h ++ [OInst c fs]) ++ [OList [PRef (List.length h)]])).
  { change (eval source (call source (Datatypes.S n)) md en (EList [ECall (EName c) args]) h) with
      ((vs <~ (v <~ eval source (call source (Datatypes.S n)) md en (ECall (EName c) args) ;; r <~ mret [] ;; mret (v :: r)) ;; alloc (OList vs)) h).
    rewrite mbind_assoc. rewrite (mbind_ret _ _ _ _ _ E1). reflexivity. }
  rewrite (mbind_ret _ _ _ _ _ E2). apply H. rewrite <- app_assoc. cbn [app].
  pose proof (takes_own h 0 [] dfs fs T ltac:(exists []; split; [constructor|apply sep_nil])) as X.
  assert (O : exists fps, ownf h dfs fs fps /\ List.concat fps = []).
  { clear - T. remember [] as L0 eqn:EL. induction T as [L|L x d v ds vs H T IH|i L L' x d v ds vs P T IH].
    - exists []. split; [constructor|reflexivity].
    - destruct (IH EL) as (fps & O & E). exists ([] :: fps). split; [constructor; [apply H|exact O]|exact E].
    - subst L. destruct i; discriminate P. }
  destruct O as (fps & O & E0).
  eapply inv_own; [exact I|apply step_app|apply at_app, I| |].
  - apply own_list. exists (List.length (h ++ [OInst c fs])), [PRef (List.length h)], [[List.length h]]. split; [reflexivity|]. 
    split; [change [OInst c fs; OList [PRef (List.length h)]] with ([OInst c fs] ++ [OList [PRef (List.length h)]]); rewrite app_assoc; apply nth_new|]. split; [reflexivity|]. constructor; [|constructor].
    apply own_obj. exists (List.length h), fs, fps. split; [reflexivity|]. split; [rewrite nth_error_app2 by lia; rewrite Nat.sub_diag; reflexivity|]. split; [rewrite E0; reflexivity|].
    assert (KK : keeps (List.concat fps) h (h ++ [OInst c fs; OList [PRef (List.length h)]])) by (rewrite E0; intros i []).
    exact (ownf_keeps _ _ _ _ _ O KK).
  - cbn [List.concat app]. rewrite !app_length. cbn [List.length]. split.
    + constructor; [intros [E|[]]; lia|]. constructor; [intros []|constructor].
    + intros i [<-|[<-|[]]]; lia.
Qed.

(** ** [struct.unpack(FORMAT, content.consume_range(FORMAT_LENGTH))] *)
Fixpoint all_vals (ks : list fc) (Q : list pyval -> Prop) : Prop :=
  match ks with
  | [] => Q []
  | Ff :: r => forall x : f64, all_vals r (fun l => Q (VFloat x :: l))
  | _ :: r => forall z : Z, all_vals r (fun l => Q (VInt z :: l))
  end.
Lemma all_vals_use ks : forall Q bs, all_vals ks Q -> Q (unpack_items ks bs).
Proof.
  induction ks as [|c ks IH]; intros Q bs H; [exact H|]. cbn [unpack_items]. destruct c; cbn [all_vals unpack1] in *;
  eapply (IH (fun l => Q (_ :: l))), H.
Qed.
Lemma s_struct {ee : Era} {B C} n md l h0 L hd h en x f k fmt its p (g : list pyval -> rd B) (Q : heap -> B -> C -> Prop) (K : val -> M C) : (1 <= n)%nat ->
  assoc "struct" en = None -> global source md "struct" = Some (PClass "struct") ->
  assoc x en = Some (PRef l) -> pure n md en (EName f) (PStr p) -> native_f p = false -> ascii_of p = fmt -> pure n md en (EName k) (PInt (Z.of_nat (calcsize fmt))) ->
  parse_fmt fmt = Some its -> inv l h0 L hd h ->
  (forall hd' h', inv l h0 L hd' h' -> all_vals its (fun vals => ok l Q (K (PTuple (map of_pack vals)) h') (g vals hd'))) ->
  ok l Q (mbind (eval source (call source n) md en (ECall (EAttr (EName "struct") "unpack") [EName f; ECall (EAttr (EName x) "consume_range") [EName k]])) K h)
    (bind (read_struct fmt (calcsize fmt)) g hd).
Proof.
  intros N NS GS AX PF NF AF PK PP I H. rewrite PyRE.eval_call. rewrite !mbind_assoc. rewrite (mbind_ret _ _ _ _ _ (p_unknown_attr n md en "struct" "unpack" NS GS c_struct h)).
  rewrite !mbind_assoc. rewrite argv_plain by reflexivity. rewrite !mbind_assoc. rewrite (mbind_ret _ _ _ _ _ (PF h)). rewrite !mbind_assoc. rewrite argv_plain by reflexivity. rewrite !mbind_assoc.
  unfold read_struct.
  pose proof (i_at _ _ _ _ _ I) as AT.
  assert (EC : eval source (call source n) md en (ECall (EAttr (EName x) "consume_range") [EName k]) h = call source n (PMeth (PRef l) "consume_range") [PInt (Z.of_nat (calcsize fmt))] [] h).
  { erewrite e_handler; [reflexivity|exact AX|exact AT|reflexivity|reflexivity|apply pa_pos; [reflexivity|exact PK|apply pa_nil]]. }
  pose proof (consume_run (calcsize fmt) n l hd h N AT) as CR. unfold ok in CR. unfold bind at 1 2. unfold mbind at 1. rewrite EC.
  destruct (consume_range (calcsize fmt) hd) as [[bs hd1]|e]; [|rewrite CR; reflexivity].
  destruct CR as (v & h1 & -> & A1 & T1 & ->).
  match goal with |- ok _ _ ?o _ => change o with ((v <~ call source n (PMeth (PClass "struct") "unpack") [PStr p; PBytes bs] [] ;; K v) h1) end.
  destruct n as [|m]; [lia|]. rewrite call_builtin_class by apply m_struct. unfold builtin. cbn [String.eqb Ascii.eqb Bool.eqb andb].
  unfold py_unpack. rewrite NF, AF.
  assert (I1 : inv l h0 L hd1 h1) by (eapply inv_step; eassumption).
  unfold note, lift, struct_unpack. rewrite PP.
  assert (J1 : forall ls, inv l h0 L (mkHandler (h_content hd1) (h_offset hd1) (h_version hd1) ls) h1) by (intros ls; destruct I1 as [AA ? ? ?]; constructor; [split; apply AA|assumption..]).
  destruct (Nat.eqb _ _); [|destruct (struct_snan fmt bs); reflexivity].
  cbn [rbind mres]. unfold mbind, mret. destruct (struct_snan fmt bs).
  - specialize (H _ _ (J1 (SNaNQuieted :: h_losses hd1))). apply (all_vals_use its _ bs) in H. exact H.
  - specialize (H _ _ I1). apply (all_vals_use its _ bs) in H. exact H.
Qed.

(** ** Conditions on the version of the file *)
Lemma m_gt : find_method source "Version" "__gt__" = Some src_Version___gt__. Proof. look. Qed.
Lemma e_version {ee : Era} n md en x l hd h o m w (r : Versions.Version -> Versions.Version -> bool) : (1 <= n)%nat -> assoc x en = Some (PRef l) -> at_ l hd h ->
  assoc "Version" en = None -> global source md "Version" = Some (PClass "Version") -> m = version_member w -> (o = CGe /\ r = version_ge \/ o = CGt /\ r = version_gt) ->
  eval source (call source n) md en (ECmp o (EAttr (EName x) "version") (EAttr (EName "Version") m)) h = Ret (PBool (r (h_version hd) w), h).
Proof.
  intros N AX AT AV G -> R. 
  change (eval source (call source n) md en (ECmp o (EAttr (EName x) "version") (EAttr (EName "Version") (version_member w))) h) with
    ((a <~ eval source (call source n) md en (EAttr (EName x) "version") ;; b <~ eval source (call source n) md en (EAttr (EName "Version") (version_member w)) ;; Py.compare (call source n) o a b) h).
  rewrite (mbind_ret _ _ _ _ _ (p_handler_field n md en x l hd h "version" _ AX AT eq_refl)). rewrite (mbind_ret _ _ _ _ _ (p_version n md en w AV G h)).
  assert (V : forall cl v h, attr source cl (version_val v) "value" h = Ret (PStr (version_value v), h)).
  { intros cl v h1. unfold attr, version_val. rewrite c_Version. destruct v; reflexivity. }
  destruct n as [|n]; [lia|]. set (v := h_version hd). clearbody v.
  destruct R as [[-> ->]|[-> ->]].
  - change (Py.compare (call source (Datatypes.S n)) CGe (version_val v) (version_val w) h) with (apply_method source (call source n) "Version" "__ge__" [version_val v; version_val w] [] h).
    unfold apply_method. rewrite m_ge. erewrite apply_run by bnd. cbn [f_module f_body src_Version___ge__]. rewrite run_return.
    match goal with |- eval _ ?cl _ ?e _ h = _ => change ((a <~ (a <~ eval source cl "versions" e (EName "self") ;; attr source cl a "value") ;; b <~ (b <~ eval source cl "versions" e (EName "other") ;; attr source cl b "value") ;; Py.compare cl CGe a b) h = Ret (PBool (version_ge v w), h)) end.
    rewrite mbind_assoc. erewrite (mbind_ret _ _ h); [|apply p_name; reflexivity]. rewrite (mbind_ret _ _ _ _ _ (V _ _ _)). rewrite mbind_assoc.
    erewrite (mbind_ret _ _ h); [|apply p_name; reflexivity]. rewrite (mbind_ret _ _ _ _ _ (V _ _ _)). cbn. unfold mret, version_ge. destruct (str_compare (version_value v) (version_value w)); reflexivity.
  - change (Py.compare (call source (Datatypes.S n)) CGt (version_val v) (version_val w) h) with (apply_method source (call source n) "Version" "__gt__" [version_val v; version_val w] [] h).
    unfold apply_method. rewrite m_gt. erewrite apply_run by bnd. cbn [f_module f_body src_Version___gt__]. rewrite run_return.
    match goal with |- eval _ ?cl _ ?e _ h = _ => change ((a <~ (a <~ eval source cl "versions" e (EName "self") ;; attr source cl a "value") ;; b <~ (b <~ eval source cl "versions" e (EName "other") ;; attr source cl b "value") ;; Py.compare cl CGt a b) h = Ret (PBool (version_gt v w), h)) end.
    rewrite mbind_assoc. erewrite (mbind_ret _ _ h); [|apply p_name; reflexivity]. rewrite (mbind_ret _ _ _ _ _ (V _ _ _)). rewrite mbind_assoc.
    erewrite (mbind_ret _ _ h); [|apply p_name; reflexivity]. rewrite (mbind_ret _ _ _ _ _ (V _ _ _)). cbn. unfold mret, version_gt. destruct (str_compare (version_value v) (version_value w)); reflexivity.
Qed.
Lemma run_version {ee : Era} n md en x l hd h o m w r a b rest : (1 <= n)%nat -> assoc x en = Some (PRef l) -> at_ l hd h ->
  assoc "Version" en = None -> global source md "Version" = Some (PClass "Version") -> m = version_member w -> (o = CGe /\ r = version_ge \/ o = CGt /\ r = version_gt) ->
  run n md (SIf (ECmp o (EAttr (EName x) "version") (EAttr (EName "Version") m)) a b :: rest) en h = run n md ((if r (h_version hd) w then a else b) ++ rest) en h.
Proof.
  intros N AX AT AV G E R. rewrite run_if. rewrite (mbind_ret _ _ _ _ _ (e_version n md en x l hd h o m w r N AX AT AV G E R)). reflexivity.
Qed.
(** [if e:] for an expression that only looks *)
Lemma run_if_pure n md en e v t a b rest h : pure n md en e v -> is_true v h = Ret (t, h) -> run n md (SIf e a b :: rest) en h = run n md ((if t then a else b) ++ rest) en h.
Proof. intros P T. rewrite run_if. rewrite (mbind_ret _ _ _ _ _ (P h)). rewrite (mbind_ret _ _ _ _ _ T). reflexivity. Qed.
