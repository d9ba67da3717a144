(** * Loading, editing and saving with the source text: what Props_Load.v needs *)
From Verif Require Import Base PyInt PyFloat PyStr PyStruct DataTypes Versions Common Py Source PyRep PyW PyWE PyR PyRE PyRH PyTree.
From Verif Require Import PyRT PyRU.
From Coq Require Import String Ascii Lia.
Open Scope Z_scope.
Local Open Scope list_scope.

(** ** [ByteHandler(content)] *)
Lemma put_last h o o' : put (h ++ [o]) (List.length h) o' = h ++ [o'].
Proof. induction h as [|a h IH]; [reflexivity|]. cbn [app List.length put]. rewrite IH. reflexivity. Qed.
Lemma set_new q c k fs a v h : nth_error h q = Some (OInst c fs) -> assoc a fs = None -> class_of source c = Some k -> c_sort k = Plain ->
  set_attr source (PRef q) a v h = Ret (tt, put h q (OInst c (fs ++ [(a, v)]))).
Proof. intros Q A C S. unfold set_attr, mbind, get_obj. rewrite Q. cbn [mopt]. unfold mret. rewrite A, C, S. reflexivity. Qed.
Lemma handler_new n b h : call source (S (S n)) (PClass "ByteHandler") [PBytes b] [] h = Ret (PRef (List.length h), h ++ [hobj (new_handler b)]).
Proof.
  assert (X : apply_method source (call source (S n)) "ByteHandler" "__init__" [PRef (List.length h); PBytes b] [] (h ++ [OInst "ByteHandler" []]) = Ret (PNone, h ++ [hobj (new_handler b)])).
  { unfold apply_method. rewrite find_handler. change (assoc "__init__" (c_methods src_ByteHandler)) with (Some src_ByteHandler___init__). cbv iota.
    erewrite apply_run; [|bnd]. cbn [f_module f_body src_ByteHandler___init__].
    rewrite run_set. erewrite mbind_ret; [|apply p_name; reflexivity]. erewrite mbind_ret; [|apply p_name; reflexivity].
    erewrite mbind_ret; [|eapply set_new; [apply nth_new|reflexivity|apply c_handler|reflexivity]]. rewrite put_last.
    rewrite run_set. erewrite mbind_ret; [|apply p_const]. erewrite mbind_ret; [|apply p_name; reflexivity].
    erewrite mbind_ret; [|eapply set_new; [apply nth_new|reflexivity|apply c_handler|reflexivity]]. rewrite put_last.
    rewrite run_set. erewrite (mbind_ret (eval source (call source (S n)) "common" _ (EAttr (EName "Version") "UNDEFINED"))); [|vm_compute; reflexivity]. erewrite mbind_ret; [|apply p_name; reflexivity].
    erewrite mbind_ret; [|eapply set_new; [apply nth_new|reflexivity|apply c_handler|reflexivity]]. rewrite put_last. reflexivity. }
  cbn [call]. rewrite c_handler. change (c_sort src_ByteHandler) with Plain. cbv iota. unfold mbind at 1, alloc. rewrite (mbind_ret _ _ _ _ _ X). reflexivity.
Qed.

(** ** What is owned stands for the tree *)
Lemma own_stands lax h d : forall v fp, own h d v fp -> stands lax h d v.
Proof.
  induction d as [|z|x|s|b|b|n|c|c m|f|r m IHr|l IH|l IH|c fs IH|x] using deep_rect'; intros v fp H.
  1,5,7,8,9,10: try (cbn [own] in H; contradiction).
  all: try (destruct H as [-> _]; reflexivity).
  all: try (cbn [own] in H; contradiction).
  - destruct H as [-> _]. left. reflexivity.
  - apply own_list in H as (q & vs & fps & -> & Q & -> & O). apply stands_list. exists vs. split; [right; exists q; split; [reflexivity|exact Q]|].
    clear Q. induction O as [|d v fp l vs fps H O IHO]; [constructor|]. inversion IH; subst. constructor; [eapply H2; eassumption|apply IHO; assumption].
  - apply own_tuple in H as (vs & fps & -> & -> & O). apply stands_tuple. exists vs. split; [left; reflexivity|].
    induction O as [|d v fp l vs fps H O IHO]; [constructor|]. inversion IH; subst. constructor; [eapply H2; eassumption|apply IHO; assumption].
  - apply own_obj in H as (q & vs & fps & -> & Q & -> & O). apply stands_obj. exists q, vs. split; [reflexivity|]. split; [exact Q|].
    clear Q. induction O as [|x d v fp l vs fps H O IHO]; [constructor|]. inversion IH; subst. constructor; [split; [reflexivity|eapply H2; eassumption]|apply IHO; assumption].
  - destruct H as [[->|[-> ->]] _]; [left; left; reflexivity|right; split; reflexivity].
Qed.
