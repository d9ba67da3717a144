(** * Tactics that run a [from_bytes] method beside its typed model *)
From Verif Require Import Base PyInt PyFloat PyStr PyStruct DataTypes Versions Common Py Source PyRep PyPure PyPureSim PyW PyR PyRE PyRH PyRA PyRL PyRC PyRP PyRS Deep.
From Coq Require Import String Ascii Lia.
Open Scope Z_scope.
Local Open Scope list_scope.

Create HintDb readers discriminated.
#[export] Hint Constants Opaque : readers.
#[export] Hint Variables Opaque : readers.
Ltac look := vm_compute; reflexivity.
(** the value of an expression that only looks *)
Ltac pval := first [apply p_int | apply p_const | apply p_name; reflexivity | apply p_neg; apply p_int | apply p_global; [reflexivity|look]
  | apply p_imported; [reflexivity|look|look] | apply p_tuple; repeat (apply pures_cons; [pval|]); apply pures_nil].
Ltac pargs_ := repeat first [apply pa_nil | apply pa_kw; [pval|] | apply pa_pos; [reflexivity|pval|]].
Ltac sc T := match goal with I : inv _ _ _ ?hd ?h |- ok _ _ _ (_ ?hd) =>
  eapply s_scalar; [reflexivity|exact I|reflexivity|reflexivity|pargs_|apply T|lia|clear I; intros ? ? ? I; cbv beta] end.
Ltac bl T := match goal with I : inv _ _ _ ?hd ?h |- ok _ _ _ (_ ?hd) =>
  eapply s_build; [reflexivity|exact I|reflexivity|reflexivity|pargs_|T|lia|clear I; intros ? ? ? ? I; cbv beta] end.
Ltac rdr := solve [eauto with readers nocore].
Ltac get_ := match goal with |- ok _ _ _ (bind ?f _ _) => lazymatch f with
  | read_int_8 => sc int_8_run
  | read_int_16 true => sc int_16_run
  | read_int_16 false => sc uint_16_run
  | read_int_32 true => sc int_32_run
  | read_int_32 false => sc uint_32_run
  | read_float => sc float_run
  | read_debug_string => sc debug_run
  | read_string _ => sc string_run
  | read_int_8_array_2 => sc int_8_2_run
  | read_int_8_array_3 => sc int_8_3_run
  | read_int_8_array_5 => sc int_8_5_run
  | read_int_8_array_6 => sc int_8_6_run
  | read_int_8_array_10 => sc int_8_10_run
  | read_int_16_array_2 => sc int_16_2_run
  | read_int_16_array_3 => sc int_16_3_run
  | read_int_16_array_4 => sc int_16_4_run
  | read_int_16_array_6 => sc int_16_6_run
  | read_int_32_array_10 => sc int_32_10_run
  | read_float_array_2 => sc float_2_run
  | read_float_array_3 => sc float_3_run
  | read_int_8_array _ => bl ltac:(apply int_8_array_run)
  | read_int_16_array _ => bl ltac:(apply int_16_array_run)
  | read_int_32_array _ => bl ltac:(apply int_32_array_run)
  | read_float_array _ => bl ltac:(apply float_array_run)
  | read_class _ => bl ltac:(eapply class_run; [rdr|rdr|lia])
  | read_class_array _ _ => bl ltac:(eapply class_array_run; [rdr|rdr|lia])
  | read_class_array_kept _ _ => bl ltac:(eapply class_array_kept_run; [rdr|rdr|lia])
  | read_class_array_3 _ => bl ltac:(eapply class_array_3_run; [rdr|rdr|lia])
  | read_class_array_4 _ => bl ltac:(eapply class_array_4_run; [rdr|rdr|lia])
  | read_class_array_with_param _ _ _ => bl ltac:(eapply class_param_run; [rdr|rdr|lia])
  end end.
(** [return cls(a=x, ...)] where the arguments are names, constants and tuples of names *)
Fixpoint simple (en : env) (e : expr) : option val :=
  match e with
  | EConst k => Some (const_val k)
  | EName x => assoc x en
  | ENeg (EConst (KInt z)) => Some (PInt (- z))
  | ETuple l => option_map PTuple ((fix go (l : list expr) : option (list val) :=
      match l with
      | [] => Some []
      | e :: l => match simple en e, go l with Some v, Some vs => Some (v :: vs) | _, _ => None end
      end) l)
  | _ => None
  end.
Fixpoint simple_args (en : env) (args : list expr) : option (list (string * val)) :=
  match args with
  | [] => Some []
  | EKw x e :: l => match simple en e, simple_args en l with Some v, Some vs => Some ((x, v) :: vs) | _, _ => None end
  | _ => None
  end.
Definition same_env (en en' : env) : Prop := forall x, assoc x en = assoc x en'.
Lemma simple_ok n md en en' : same_env en en' -> forall e v, simple en' e = Some v -> pure n md en e v.
Proof.
  intros E. induction e using PyPureSim.expr_rect'; intros v S; cbn [simple] in S; try discriminate S.
  - injection S as <-. apply p_const.
  - apply p_name. rewrite E. exact S.
  - destruct e; try discriminate S. destruct k; try discriminate S. injection S as <-. apply p_neg, p_int.
  - match goal with S : option_map _ (?g _) = _ |- _ => set (go := g) in S end.
    destruct (go l) as [vs|] eqn:G; [|discriminate S]. injection S as <-. apply p_tuple.
    revert vs G. induction l as [|e l IH]; intros vs G.
    + injection G as <-. apply pures_nil.
    + cbn in G. fold go in G. match goal with F : List.Forall _ _ |- _ => inversion F as [|? ? F1 F2]; subst end.
      destruct (simple en' e) as [v|] eqn:S1; [|discriminate G]. destruct (go l) as [vs'|] eqn:G'; [|discriminate G]. injection G as <-.
      apply pures_cons; [apply F1; reflexivity|apply IH; [exact F2|reflexivity]].
Qed.
Lemma simple_args_ok n md en en' : same_env en en' -> forall args kw, simple_args en' args = Some kw -> pargs n md en args [] kw.
Proof.
  intros E. induction args as [|e args IH]; intros kw S; cbn [simple_args] in S.
  - injection S as <-. apply pa_nil.
  - destruct e; try discriminate S. destruct (simple en' e) as [v|] eqn:S1; [|discriminate S]. destruct (simple_args en' args) as [vs|] eqn:S2; [|discriminate S].
    injection S as <-. apply pa_kw; [apply (simple_ok _ _ _ _ E), S1|apply IH; reflexivity].
Qed.
Lemma same_refl en : same_env en en. Proof. intros x. reflexivity. Qed.
Lemma s_return_new {ee : Era} {B} n md l h0 L hd h en en' c k args rest kw fs dfs (b : B) (D : B -> deep) : (1 <= n)%nat -> same_env en en' -> assoc "cls" en' = Some (PClass c) ->
  class_of source c = Some k -> c_sort k = Dataclass -> simple_args en' args = Some kw ->
  known_kw (c_fields k) kw = true -> bind_args (c_fields k) [] kw (map (fun d => (fst d, const_val (snd d))) (c_defaults k)) = Some fs ->
  inv l h0 L hd h -> D b = DObj c dfs -> takes L dfs fs -> ok l (built l h0 D) (run n md (SReturn (ECall (EName "cls") args) :: rest) en h) (ret b hd).
Proof.
  intros N SE C CL S SA K BA I E T. rewrite run_return. erewrite eval_call_pure; [|apply p_name; rewrite SE; exact C|exact (simple_args_ok _ _ _ _ SE _ _ SA)].
  eapply s_new; eassumption.
Qed.
Ltac simple_eq_ := match goal with |- ?a = Some _ => let r := eval cbv [simple simple_args assoc String.eqb Ascii.eqb Bool.eqb option_map const_val] in a in
  lazymatch r with Some _ => exact (eq_refl r <: a = r) end end.
Ltac pos_ v L := match L with (_, v) :: _ => constr:(0%nat) | _ :: ?r => let i := pos_ v r in constr:(S i) end.
Ltac own_ := solve [intros; first [apply own_int | apply own_float | apply own_num; assumption | apply own_str | apply own_ints | apply own_floats | apply own_zero; assumption | apply own_none]].
Ltac take_ := match goal with
  | |- takes _ [] [] => apply t_nil
  | |- takes ?L ((?x, ?d) :: _) ((_, ?v) :: _) => first [is_var v; let i := pos_ v L in eapply (t_item i); [cbn [pick option_map fst snd]; reflexivity|] | apply t_scalar; [own_|]]
  end.
Ltac new_ := match goal with I : inv _ _ _ ?hd ?h |- ok _ _ (call _ _ _ _ _ _) _ =>
  eapply s_new; [lia|look|reflexivity|reflexivity|reflexivity|exact I|reflexivity|repeat take_] end.
Ltac struct_ := match goal with I : inv _ _ _ ?hd ?h |- ok _ _ _ (_ ?hd) =>
  eapply s_struct; [lia|reflexivity|look|reflexivity|pval|reflexivity|reflexivity|pval|reflexivity|exact I|clear I; intros ? ? I; cbn [all_vals]; intros] end.
Ltac one_ := match goal with
  | |- ok _ _ (run _ _ (SAssign _ (ECall (EAttr (EName "content") _) _) :: _) _ _) _ => rewrite run_assign; get_
  | |- ok _ _ (run _ _ (SAssign _ (EList [ECall (EName _) _]) :: _) _ _) _ => rewrite run_assign; match goal with I : inv _ _ _ ?hd ?h |- _ =>
      eapply s_new_list; [lia|reflexivity|look|look|reflexivity|pargs_|reflexivity|reflexivity|exact I|repeat (eapply t_scalar; [intros; apply own_int|]); apply t_nil|clear I; intros ? ? I; cbv beta] end
  | |- ok _ _ (run _ _ (SAssign _ _ :: _) _ _) _ => rewrite run_assign; eapply s_pure; [pval|cbv beta]
  | I : inv _ _ _ ?hd ?h |- ok _ _ (run _ _ (SReturn (ECall (EName "cls") _) :: _) _ _) (ret _ _) =>
      eapply s_return_new; [lia|apply same_refl|reflexivity|look|reflexivity|simple_eq_|reflexivity|reflexivity|exact I|reflexivity|repeat take_]
  | |- ok _ _ (run _ _ (SReturn (ECall (EName "cls") _) :: _) _ _) _ => rewrite run_return; erewrite argk_start by reflexivity
  | |- ok _ _ (argk _ _ _ _ (EKw _ (ECall (EAttr (EName "content") _) _) :: _) _ _) _ => rewrite argk_cons; get_
  | |- ok _ _ (argk _ _ _ _ (EKw _ _ :: _) _ _) _ => rewrite argk_cons; eapply s_pure; [pval|cbv beta]
  | |- ok _ _ (argk _ _ _ _ [] _ _) _ => rewrite argk_nil; cbn [app]; new_
  end.
(** [cls.m(content)] *)
Lemma s_dispatch {ee : Era} {B} n md l hd h en c a k (f : rd B) D rest : assoc "cls" en = Some (PClass c) -> reader c a -> assoc "content" en = Some (PRef l) ->
  reads k c a [] f D -> (k <= n)%nat -> inv l h [] hd h ->
  ok l (built l h D) (run n md (SReturn (ECall (EAttr (EName "cls") a) [EName "content"]) :: rest) en h) (f hd).
Proof.
  intros C (k0 & fn & C1 & C2 & C3 & C4) SF R N I. rewrite run_return. erewrite eval_call_pure; [|eapply p_class_attr_local; try eassumption; right; exact C4|apply pa_pos; [reflexivity|apply p_name; exact SF|apply pa_nil]].
  apply R; [exact N|apply I].
Qed.
(** [x = a if e else b] *)
Lemma run_assign_if n md en x e v t a b rest h : pure n md en e v -> is_true v h = Ret (t, h) ->
  run n md (SAssign x (EIf e a b) :: rest) en h = run n md (SAssign x (if t then a else b) :: rest) en h.
Proof.
  intros P T. rewrite !run_assign.
  transitivity ((v <~ (c <~ eval source (call source n) md en e ;; t <~ is_true c ;; if t then eval source (call source n) md en a else eval source (call source n) md en b) ;; run n md rest ((x, v) :: en)) h); [reflexivity|].
  rewrite !mbind_assoc. rewrite (mbind_ret _ _ _ _ _ (P h)). rewrite !mbind_assoc. rewrite (mbind_ret _ _ _ _ _ T). destruct t; reflexivity.
Qed.
Ltac flow_ := match goal with
  | I : inv _ _ _ ?hd ?h |- ok _ _ (run _ _ (SAssign _ (EList []) :: _) _ _) (bind (ret []) _ _) =>
      eapply (ok_ghost _ _ _ (ret [])); [reflexivity|]; rewrite run_assign; eapply s_empty; [exact I|]; clear I; intros ? ? I; cbv beta
  | |- ok _ _ _ (bind (bind _ _) _ _) => rewrite bind_assoc; cbv beta
  | |- ok _ _ _ (bind (ret _) _ _) => eapply ok_ghost; [reflexivity|]; cbv beta iota
  | |- ok _ _ _ (bind get_version _ _) => eapply ok_ghost; [reflexivity|]; cbv beta
  | I : inv _ _ _ ?hd ?h |- ok _ _ (run _ _ (SIf (ECmp _ (EAttr (EName "content") "version") _) _ _ :: _) _ _) _ =>
      match goal with |- context [if ?c then _ else _] => lazymatch c with
        | version_ge _ ?w => erewrite (run_version _ _ _ _ _ _ _ _ _ w version_ge); [|lia|reflexivity|exact (i_at _ _ _ _ _ I)|reflexivity|look|reflexivity|left; split; reflexivity]; destruct c
        | version_gt _ ?w => erewrite (run_version _ _ _ _ _ _ _ _ _ w version_gt); [|lia|reflexivity|exact (i_at _ _ _ _ _ I)|reflexivity|look|reflexivity|right; split; reflexivity]; destruct c
        end end; cbn [app]
  | |- ok _ _ (run _ _ (SIf (EName _) _ _ :: _) _ _) (bind (if truthy ?x then _ else _) _ _) => erewrite run_if_pure; [|pval|reflexivity]; destruct (truthy x); cbn [app]
  | |- ok _ _ (run _ _ (SAssign _ (EIf (EName _) _ _) :: _) _ _) (bind (if truthy ?x then _ else _) _ _) => erewrite run_assign_if; [|pval|reflexivity]; destruct (truthy x)
  | |- ok _ _ (run _ _ (SReturn (ECall (EAttr (EName "cls") _) [EName "content"]) :: _) _ _) _ => eapply s_dispatch; [reflexivity|rdr|reflexivity|rdr|lia|eassumption]
  | |- ok _ _ (run _ _ (SUnpack _ _ :: _) _ _) _ => rewrite run_unpack; struct_; cbn [map of_pack]; cbv iota;
      match goal with |- ok _ _ (mbind (items _) _ ?h) _ => erewrite (mbind_ret _ _ h); [|reflexivity] end;
      match goal with |- ok _ _ (mbind _ _ ?h) _ => erewrite (mbind_ret _ _ h); [|reflexivity] end; cbv beta; cbn [app]
  end.
Ltac enter_ M src rd0 :=
  let m := fresh "m" in let A := fresh "A" in
  intros m l hd h MM A; destruct m as [|m]; [lia|]; erewrite call_class_h; [|apply M|reflexivity|bnd];
  cbn [f_module f_body src]; unfold rd0; cbv zeta; pose proof (inv_start _ _ _ A) as I; clear A.
Ltac class_ M src rd0 := enter_ M src rd0; repeat first [flow_|one_].
Ltac reader_ M := eexists _, _; split; [look|split; [reflexivity|split; [apply M|reflexivity]]].
