(** * The array readers of [ByteHandler] (common.py:113-278), run from their source text *)
From Verif Require Import Base PyInt PyFloat PyStr PyStruct DataTypes Versions Common Py Source PyRep PyPure PyW PyR PyRE PyRH.
From Coq Require Import String Ascii Lia.
Open Scope Z_scope.
Local Open Scope list_scope.

(** ** Tuples of fixed length *)
(** [x = self.a()], then the rest *)
Lemma s_tells {ee : Era} {A B C} n md en l hd h0 h x a fn (f : rd A) E k rest (g : A -> rd B) (Q : heap -> B -> C -> Prop) (K : val -> M C) : 
  assoc x en = Some (PRef l) -> at_ l hd h -> assoc a (c_methods src_ByteHandler) = Some fn -> f_kind fn = Method ->
  forall args pos kw, pargs n md en args pos kw -> tells k a pos kw f E -> (k <= n)%nat -> step l h0 h -> rest = K ->
  (forall b hd' h', at_ l hd' h' -> step l h0 h' -> ok l Q (K (E b) h') (g b hd')) ->
  ok l Q (mbind (eval source (call source n) md en (ECall (EAttr (EName x) a) args)) rest h) (bind f g hd).
Proof.
  intros AX AT F KI args pos kw P T N S -> H. eapply ok_bind.
  - erewrite e_handler; [|exact AX|exact AT|exact F|exact KI|exact P]. apply T; [exact N|exact AT].
  - intros v b h' hd' A' [T' ->]. apply H; [exact A'|]. eapply step_trans; eassumption.
Qed.
Lemma ok_ret {ee : Era} {B} l h0 (E : B -> val) h hd v b : at_ l hd h -> step l h0 h -> v = E b -> ok l (just l h0 E) (Ret (v, h)) (ret b hd).
Proof. intros A S ->. cbn [ok ret]. eexists _, _. split; [reflexivity|]. split; [exact A|]. split; [exact S|reflexivity]. Qed.
Ltac one T := rewrite run_assign; eapply s_tells; [reflexivity|eassumption|reflexivity|reflexivity|apply pa_nil|apply T|lia|eassumption|reflexivity|intros ? ? ? ? ?; cbv beta].
Ltac fixed src rd0 T :=
  let m := fresh "m" in let M := fresh in let A := fresh "A" in
  intros m l hd h M A; destruct m as [|m]; [lia|]; erewrite call_meth; [|exact A|rewrite find_handler; reflexivity|bnd];
  cbn [f_module f_body src]; unfold rd0; pose proof (step_refl l h);
  repeat one T; rewrite run_return; erewrite p_tuple by (repeat (apply pures_cons; [apply p_name; reflexivity|]); apply pures_nil);
  apply ok_ret; [assumption|assumption|reflexivity].
Definition pints (l : list Z) : val := PTuple (map PInt l).
Definition pfloats (l : list f64) : val := PTuple (map PFloat l).
Lemma int_8_2_run {ee : Era} : tells 4 "read_int_8_array_2" [] [] read_int_8_array_2 pints. Proof. fixed src_ByteHandler_read_int_8_array_2 read_int_8_array_2 int_8_run. Qed.
Lemma int_8_3_run {ee : Era} : tells 4 "read_int_8_array_3" [] [] read_int_8_array_3 pints. Proof. fixed src_ByteHandler_read_int_8_array_3 read_int_8_array_3 int_8_run. Qed.
Lemma int_8_5_run {ee : Era} : tells 4 "read_int_8_array_5" [] [] read_int_8_array_5 pints. Proof. fixed src_ByteHandler_read_int_8_array_5 read_int_8_array_5 int_8_run. Qed.
Lemma int_8_6_run {ee : Era} : tells 4 "read_int_8_array_6" [] [] read_int_8_array_6 pints. Proof. fixed src_ByteHandler_read_int_8_array_6 read_int_8_array_6 int_8_run. Qed.
Lemma int_8_10_run {ee : Era} : tells 4 "read_int_8_array_10" [] [] read_int_8_array_10 pints. Proof. fixed src_ByteHandler_read_int_8_array_10 read_int_8_array_10 int_8_run. Qed.
Lemma int_16_2_run {ee : Era} : tells 4 "read_int_16_array_2" [] [] read_int_16_array_2 pints. Proof. fixed src_ByteHandler_read_int_16_array_2 read_int_16_array_2 int_16_run. Qed.
Lemma int_16_3_run {ee : Era} : tells 4 "read_int_16_array_3" [] [] read_int_16_array_3 pints. Proof. fixed src_ByteHandler_read_int_16_array_3 read_int_16_array_3 int_16_run. Qed.
Lemma int_16_4_run {ee : Era} : tells 4 "read_int_16_array_4" [] [] read_int_16_array_4 pints. Proof. fixed src_ByteHandler_read_int_16_array_4 read_int_16_array_4 int_16_run. Qed.
Lemma int_16_6_run {ee : Era} : tells 4 "read_int_16_array_6" [] [] read_int_16_array_6 pints. Proof. fixed src_ByteHandler_read_int_16_array_6 read_int_16_array_6 int_16_run. Qed.
Lemma int_32_10_run {ee : Era} : tells 4 "read_int_32_array_10" [] [] read_int_32_array_10 pints. Proof. fixed src_ByteHandler_read_int_32_array_10 read_int_32_array_10 int_32_run. Qed.
Lemma float_2_run {ee : Era} : tells 4 "read_float_array_2" [] [] read_float_array_2 pfloats. Proof. fixed src_ByteHandler_read_float_array_2 read_float_array_2 float_run. Qed.
Lemma float_3_run {ee : Era} : tells 4 "read_float_array_3" [] [] read_float_array_3 pfloats. Proof. fixed src_ByteHandler_read_float_array_3 read_float_array_3 float_run. Qed.
