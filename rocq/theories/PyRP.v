(** * [read_class_array_with_pointers] (common.py:264-271), run from its source text *)
From Verif Require Import Base PyInt PyFloat PyStr PyStruct DataTypes Versions Common Py Source PyRep PyPure PyW PyR PyRE PyRH PyRA PyRL PyRC Deep.
From Coq Require Import String Ascii Lia.
Open Scope Z_scope.
Local Open Scope list_scope.

Definition pointed {B} (f : rd B) (ptrs : list Z) (i : nat) : rd (option B) :=
  p <- lift (py_index ptrs i) ;;
  _ <- note (negb ((p =? 0) || (p =? 1))) PointerNot01 ;;
  (if truthy p then e <- f ;; ret (Some e) else ret None).
Lemma bind_assoc {A B C} (m : rd A) (f : A -> rd B) (g : B -> rd C) hd : bind (bind m f) g hd = bind m (fun x => bind (f x) g) hd.
Proof. unfold bind. destruct (m hd) as [[a hd']|e]; reflexivity. Qed.
Lemma bind_ext {A B} (m : rd A) (f g : A -> rd B) hd : (forall a hd, f a hd = g a hd) -> bind m f hd = bind m g hd.
Proof. intros E. unfold bind. destruct (m hd) as [[a hd']|e]; [apply E|reflexivity]. Qed.
Lemma ok_note {ee : Era} {A B} l h (P : heap -> B -> A -> Prop) o c e (g : unit -> rd B) hd : at_ l hd h ->
  (forall hd', at_ l hd' h -> ok l P o (g tt hd')) -> ok l P o (bind (note c e) g hd).
Proof. intros AT H. unfold bind, note. destruct c; apply H; split; apply AT. Qed.
Lemma pointer_each {B} (f : rd B) ptrs k : forall i hd, pointer_loop f ptrs i k hd = each (map (pointed f ptrs) (seq i k)) hd.
Proof.
  induction k as [|k IH]; intros i hd; [reflexivity|]. cbn [pointer_loop seq map each]. unfold pointed at 1. rewrite bind_assoc.
  apply bind_ext. intros p hd1. rewrite bind_assoc. apply bind_ext. intros u hd2. apply bind_ext. intros o hd3. unfold bind at 1 2. rewrite IH. reflexivity.
Qed.
Lemma exec_if cl md c a b en h : exec source cl md (SIf c a b) en h = (v <~ eval source cl md en c ;; t <~ is_true v ;; block source cl md (if t then a else b) en) h.
Proof. cbn [exec]. apply mbind_ext. intros v h'. apply mbind_ext. intros [|] h''; reflexivity. Qed.
Lemma index_int ptrs i h : index_of (map PInt ptrs) (Z.of_nat i) h = match py_index ptrs i with Ok p => Ret (PInt p, h) | Err e => Raise (Std e) end.
Proof.
  unfold index_of, py_index, len. rewrite map_length. replace (Z.of_nat i <? 0) with false by (symmetry; apply Z.ltb_ge; lia). cbn [orb]. 
  replace (Z.of_nat i <? 0) with false by (symmetry; apply Z.ltb_ge; lia). cbn [orb]. rewrite Nat2Z.id, nth_error_map.
  destruct (nth_error ptrs i) as [p|] eqn:E.
  - apply nth_lt in E. replace (Z.of_nat (List.length ptrs) <=? Z.of_nat i) with false by (symmetry; apply Z.leb_gt; lia). reflexivity.
  - apply nth_error_None in E. replace (Z.of_nat (List.length ptrs) <=? Z.of_nat i) with true by (symmetry; apply Z.leb_le; lia). reflexivity.
Qed.

Section Pointers.
Context {ee : Era}.
Context {B : Type} (k : nat) (c : string) (f : rd B) (D : B -> deep).
Hypothesis R : reads k c "from_bytes" [] f D.
Hypothesis RC : reader c "from_bytes".
Hypothesis K1 : (1 <= k)%nat.
Lemma built_some l h0 h b v : built l h0 D h b v -> built l h0 (emb_opt D) h (Some b) v. Proof. intros H. exact H. Qed.
Lemma pointers_run size ptrs m l q' hd h : (S k <= m)%nat -> at_ l hd h -> nth_error h q' = Some (OList (map PInt ptrs)) ->
  ok l (built l h (fun bs => DList (map (emb_opt D) bs)))
    (call source m (PMeth (PRef l) "read_class_array_with_pointers") [PClass c; PInt size; PRef q'] [] h) (read_class_array_with_pointers f size ptrs hd).
Proof.
  intros M A P. destruct m as [|m]; [lia|]. erewrite call_meth; [|exact A|rewrite find_handler; reflexivity|bnd]. cbn [f_module f_body src_ByteHandler_read_class_array_with_pointers].
  unfold read_class_array_with_pointers. apply (ok_note l h _ _ _ _ _ _ A). intros hd1 A1. clear hd A.
  rewrite pointer_each.
  set (en := [("self"%string, PRef l); ("class_"%string, PClass c); ("size"%string, PInt size); ("pointers"%string, PRef q')]).
  set (q := List.length h).
  eapply (collect_run m l hd1 h en "i" _ (emb_opt D) size _ [("self"%string, PRef l); ("class_"%string, PClass c); ("pointers"%string, PRef q')]
    (fun h => nth_error h q' = Some (OList (map PInt ptrs)))); try reflexivity; try exact A1; try exact P; [lia| |repeat (constructor; [reflexivity|]); constructor|].
  { intros h0 h' HP [_ E]. destruct (Nat.eq_dec q' l) as [->|N1].
    { rewrite (at_eq _ _ _ A1) in P. discriminate P. }
    destruct (Nat.eq_dec q' q) as [->|N2]; [apply nth_lt in P; fold q in P; lia|]. rewrite E; [exact HP|apply (nth_lt _ _ _ HP)|exact N1|exact N2]. }
  unfold range_items. generalize (seq 0 (Z.to_nat size)) as is_. induction is_ as [|i is_ IH]; [constructor|]. cbn [map]. constructor; [|exact IH]. clear IH is_.
  intros en1 h1 hd vs Bi HP A Q. pose proof (at_lt _ _ _ A1) as LT. fold q in LT, Bi, Q.
  rewrite block_cons. cbn [exec eval const_val]. rewrite mbind_assoc. unfold mbind at 1, mret at 1. unfold mbind at 1, mret at 1. cbn [snd fst].
  set (en2 := ("element"%string, PNone) :: ("i"%string, PInt (Z.of_nat i)) :: en1).
  assert (Bi2 : binding (("elements"%string, PRef q) :: [("self"%string, PRef l); ("class_"%string, PClass c); ("pointers"%string, PRef q')]) en2)
    by (unfold en2; apply binding_cons; [reflexivity|]; apply binding_cons; [reflexivity|exact Bi]).
  rewrite block_cons. unfold mbind at 1. rewrite exec_if.
  assert (EP : eval source (call source m) "common" en2 (EIndex (EName "pointers") (EName "i")) h1 = match py_index ptrs i with Ok p => Ret (PInt p, h1) | Err e => Raise (Std e) end).
  { cbn [eval]. rewrite (mbind_ret _ _ _ _ _ (p_name m "common" en2 "pointers" (PRef q') (binding_get _ _ "pointers" (PRef q') Bi2 eq_refl) h1)).
    rewrite (mbind_ret _ _ _ _ _ (p_name m "common" en2 "i" (PInt (Z.of_nat i)) eq_refl h1)). unfold get_item. unfold mbind at 1, get_obj at 1. rewrite HP. cbn [mopt]. unfold mret at 1.
    cbn [need_int as_int mopt]. unfold mbind, mret. apply index_int. }
  unfold mbind at 1. rewrite EP. unfold pointed, bind at 1, lift. destruct (py_index ptrs i) as [p|e]; [|reflexivity].
  cbn [is_true]. unfold mbind at 1, mret at 1.
  apply (ok_note l h1 _ _ _ _ _ _ A). intros hd2 A2. clear hd A.
  destruct (truthy p).
  - rewrite block_cons. cbn [exec]. rewrite mbind_assoc. 
    pose proof (R m l hd2 h1 ltac:(lia) A2) as H. unfold ok in H |- *. unfold bind.
    assert (EC : eval source (call source m) "common" en2 (ECall (EAttr (EName "class_") "from_bytes") [EName "self"]) h1 = call source m (PMeth (PClass c) "from_bytes") [PRef l] [] h1).
    { erewrite e_class; [reflexivity|apply (binding_get _ _ "class_" (PClass c) Bi2 eq_refl)|exact RC|apply (binding_get _ _ "self" (PRef l) Bi2 eq_refl)|apply pa_nil]. }
    destruct (f hd2) as [[b hd3]|e]; [|unfold mbind at 1; rewrite EC, H; reflexivity]. destruct H as (v & h3 & EV & A3 & T & fp & O & Se). rewrite EV in EC.
    unfold mbind at 1. rewrite EC. unfold mbind at 1, mret at 1. cbn [snd fst ret]. unfold block at 1, mret at 1. cbn [snd fst].
    assert (Q3 : nth_error h3 q = Some (OList vs)) by (rewrite (proj2 T); [exact Q|apply (nth_lt _ _ _ Q)|lia]).
    assert (Bi3 : binding (("elements"%string, PRef q) :: [("self"%string, PRef l); ("class_"%string, PClass c); ("pointers"%string, PRef q')]) (("element"%string, v) :: en2)) by (apply binding_cons; [reflexivity|exact Bi2]).
    rewrite block_cons. cbn [exec]. rewrite mbind_assoc.
    rewrite (mbind_ret _ _ _ _ _ (append_run m q (("element"%string, v) :: en2) (EName "element") v h3 h3 vs ltac:(lia) (binding_get _ _ "elements" (PRef q) Bi3 eq_refl) Q3 eq_refl ltac:(apply p_name; reflexivity) vs Q3)).
    destruct (append_added l q (emb_opt D) LT h1 h3 hd2 hd3 vs (Some b) v fp A2 A3 Q T O Se) as [A4 Ad].
    eexists _, _. split; [reflexivity|]. split; [exact A4|]. split; [reflexivity|]. split; [exact Bi3|exact Ad].
  - unfold block at 1, mret at 1. cbn [snd fst]. rewrite block_cons. cbn [exec]. rewrite mbind_assoc. cbn [ok ret].
    rewrite (mbind_ret _ _ _ _ _ (append_run m q en2 (EName "element") PNone h1 h1 vs ltac:(lia) (binding_get _ _ "elements" (PRef q) Bi2 eq_refl) Q eq_refl ltac:(apply p_name; reflexivity) vs Q)).
    destruct (append_added l q (emb_opt D) LT h1 h1 hd2 hd2 vs None PNone [] A2 A2 Q (step_refl _ _) (conj eq_refl eq_refl) (sep_nil _ _)) as [A4 Ad].
    eexists _, _. split; [reflexivity|]. split; [exact A4|]. split; [reflexivity|]. split; [exact Bi2|exact Ad].
Qed.
End Pointers.
