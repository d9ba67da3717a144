(** * The methods of [ByteHandler] (common.py:89-278), run from their source text *)
From Verif Require Import Base PyInt PyFloat PyStr PyStruct DataTypes Versions Common Py Source PyRep PyPure PyW PyR PyRE.
From Coq Require Import String Ascii Lia.
Open Scope Z_scope.
Local Open Scope list_scope.

(** A value that is not in the heap. *)
Definition just {B} (l : nat) (h0 : heap) (E : B -> val) (h : heap) (b : B) (v : val) : Prop := step l h0 h /\ v = E b.
Definition tells {ee : Era} {B} (k : nat) (a : string) (pos : list val) (kw : list (string * val)) (f : rd B) (E : B -> val) : Prop :=
  forall m l hd h, (k <= m)%nat -> at_ l hd h -> ok l (just l h E) (call source m (PMeth (PRef l) a) pos kw h) (f hd).
Lemma tells_more {ee : Era} {B} k k' a pos kw (f : rd B) E : (k <= k')%nat -> tells k a pos kw f E -> tells k' a pos kw f E.
Proof. intros L H m l hd h M A. apply H; [lia|exact A]. Qed.

(** ** The methods and the class *)
Lemma c_handler : class_of source "ByteHandler" = Some src_ByteHandler. Proof. look. Qed.
Lemma find_handler a : find_method source "ByteHandler" a = assoc a (c_methods src_ByteHandler).
Proof. unfold find_method. rewrite c_handler. destruct (assoc a (c_methods src_ByteHandler)); reflexivity. Qed.
Lemma m_Int_from : find_method source "Int" "from_bytes" = Some src_Int_from_bytes. Proof. look. Qed.
Lemma m_Float_from : find_method source "Float" "from_bytes" = Some src_Float_from_bytes. Proof. look. Qed.
Lemma m_String_from : find_method source "String" "from_bytes" = Some src_String_from_bytes. Proof. look. Qed.
Lemma g_datatypes_int : global source "datatypes" "int" = Some (PClass "int"). Proof. look. Qed.
Lemma g_datatypes_bytes : global source "datatypes" "bytes" = Some (PClass "bytes"). Proof. look. Qed.
Lemma g_common_range : global source "common" "range" = Some (PFun "range"). Proof. look. Qed.
Lemma c_int : class_of source "int" = None. Proof. look. Qed.
Lemma c_bytes : class_of source "bytes" = None. Proof. look. Qed.
Lemma m_int a : find_method source "int" a = None. Proof. unfold find_method. rewrite c_int. reflexivity. Qed.
(** the fields of the handler are no methods *)
Definition handler_fields : list string := ["content"; "offset"; "version"]%string.
Lemma handler_attr {ee : Era} cl l hd h a fn : at_ l hd h -> assoc a (c_methods src_ByteHandler) = Some fn -> f_kind fn = Method ->
  attr source cl (PRef l) a h = Ret (PMeth (PRef l) a, h).
Proof.
  intros A F K. unfold attr, mbind, get_obj. rewrite (at_eq _ _ _ A). cbn [mopt mret]. unfold mret. unfold hobj.
  match goal with |- context[assoc a ?fs] => assert (X : assoc a fs = None) end.
  - cbn [assoc]. destruct (String.eqb_spec a "content") as [->|_]; [vm_compute in F; discriminate F|].
    destruct (String.eqb_spec a "offset") as [->|_]; [vm_compute in F; discriminate F|]. destruct (String.eqb_spec a "version") as [->|_]; [vm_compute in F; discriminate F|]. reflexivity.
  - rewrite X, find_handler, F, K. reflexivity.
Qed.

(** ** Values from bytes (datatypes.py) *)
Ltac bnd := eexists; split; [reflexivity|split; reflexivity].
Lemma p_unknown_attr n md en c a : assoc c en = None -> global source md c = Some (PClass c) -> class_of source c = None -> pure n md en (EAttr (EName c) a) (PMeth (PClass c) a).
Proof. intros A G C h. cbn [eval]. rewrite (mbind_ret _ _ _ _ _ (p_global n md _ _ _ A G h)). unfold attr. rewrite C. reflexivity. Qed.
Ltac pv := first [apply p_const | apply p_name; reflexivity].
Ltac pas := repeat first [apply pa_nil | apply pa_kw; [pv|] | apply pa_pos; [reflexivity|pv|]].
(** datatypes.py:20-21 *)
Lemma Int_from_run n b (s : bool) h :
  call source (S (S n)) (PMeth (PClass "Int") "from_bytes") [PBytes b] [("signed"%string, PBool s)] h = Ret (PInt (Int_from_bytes b s), h).
Proof.
  erewrite call_static_h; [|apply m_Int_from|reflexivity|bnd]. cbn [f_module f_body src_Int_from_bytes]. rewrite run_return.
  erewrite eval_call_pure; [|apply p_unknown_attr; [reflexivity|apply g_datatypes_int|apply c_int]|pas].
  rewrite call_builtin_class by apply m_int. reflexivity.
Qed.
(** datatypes.py:30-31 *)
Lemma Float_from_run n b h :
  call source (S (S n)) (PMeth (PClass "Float") "from_bytes") [PBytes b] [] h = match Float_from_bytes LittleEndian b with Ok x => Ret (PFloat x, h) | Err e => Raise (Std e) end.
Proof.
  erewrite call_static_h; [|apply m_Float_from|reflexivity|bnd]. cbn [f_module f_body src_Float_from_bytes]. rewrite run_return.
  match goal with |- eval _ _ _ ?en (EIndex ?e ?x) h = _ => change (eval source (call source (S n)) "datatypes" en (EIndex e x) h) with ((v <~ eval source (call source (S n)) "datatypes" en e ;; i <~ eval source (call source (S n)) "datatypes" en x ;; get_item v i) h) end.
  unfold mbind at 1.
  erewrite eval_call_pure; [|apply p_unknown_attr; [reflexivity|apply g_datatypes_struct|apply c_struct]|pas].
  rewrite call_builtin_class by apply m_struct. unfold builtin. cbn [String.eqb Ascii.eqb Bool.eqb andb const_val]. unfold mbind at 1.
  unfold py_unpack. change (native_f (lit "f")) with true. cbv iota.
  destruct (Float_from_bytes LittleEndian b) as [x|e]; reflexivity.
Qed.
(** datatypes.py:6-7 *)
Lemma String_from_run n b h :
  call source (S (S n)) (PMeth (PClass "String") "from_bytes") [PBytes b] [] h = match String_from_bytes b with Ok x => Ret (PStr x, h) | Err e => Raise (Std e) end.
Proof.
  erewrite call_static_h; [|apply m_String_from|reflexivity|bnd]. cbn [f_module f_body src_String_from_bytes]. rewrite run_return.
  rewrite eval_call. cbn [eval]. rewrite !mbind_assoc.
  set (en := [("content"%string, PBytes b)]).
  assert (P1 : pure (S n) "datatypes" en (ECall (EName "bytes") [EName "content"]) (PBytes b)).
  { intros h1. erewrite eval_call_pure; [|apply p_global; [reflexivity|apply g_datatypes_bytes]|pas]. cbn [call]. rewrite c_bytes. reflexivity. }
  assert (P2 : pure (S n) "datatypes" en (ECall (EAttr (ECall (EName "bytes") [EName "content"]) "rstrip") [EConst (KBytes [byte_of 0])]) (PBytes (rstrip0 b))).
  { intros h1. erewrite eval_call_pure; [|intros h2; change (eval source (call source (S n)) "datatypes" en (EAttr (ECall (EName "bytes") [EName "content"]) "rstrip") h2) with ((v <~ eval source (call source (S n)) "datatypes" en (ECall (EName "bytes") [EName "content"]) ;; attr source (call source (S n)) v "rstrip") h2);
       rewrite (mbind_ret _ _ _ _ _ (P1 h2)); reflexivity|pas]. reflexivity. }
  pose proof (mbind_ret _ (fun v => fv <~ attr source (call source (S n)) v "decode" ;; pk <~ argv (S n) "datatypes" en [] ;; call source (S n) fv (fst pk) (snd pk)) _ _ _ (P2 h)) as E.
  unfold String_from_bytes. etransitivity; [exact E|]. cbn. unfold mbind, mres, mret. destruct (bytes_decode (rstrip0 b)); reflexivity.
Qed.

(** ** [consume_range] (common.py:95-99) *)
Lemma p_handler_field {ee : Era} n md en x l hd h a v : assoc x en = Some (PRef l) -> at_ l hd h -> assoc a (match hobj hd with OInst _ fs => fs | OList _ => [] end) = Some v ->
  eval source (call source n) md en (EAttr (EName x) a) h = Ret (v, h).
Proof.
  intros A H F. cbn [eval]. rewrite (mbind_ret _ _ _ _ _ (p_name n md _ _ _ A h)). unfold attr, mbind, get_obj. rewrite (at_eq _ _ _ H). cbn [mopt]. unfold mret at 1.
  unfold hobj in F |- *. rewrite F. reflexivity.
Qed.
Lemma consume_run {ee : Era} k : tells 1 "consume_range" [PInt (Z.of_nat k)] [] (consume_range k) PBytes.
Proof.
  intros m l hd h M A. destruct m as [|m]; [lia|].
  erewrite call_meth; [|exact A|rewrite find_handler; reflexivity|bnd]. cbn [f_module f_body src_ByteHandler_consume_range].
  set (en := [("self"%string, PRef l); ("length"%string, PInt (Z.of_nat k))]).
  rewrite run_assign. rewrite (mbind_ret _ _ _ _ _ (p_handler_field m "common" en "self" l hd h "offset" _ eq_refl A eq_refl)).
  rewrite run_assign. erewrite (mbind_ret _ _ h); [|apply p_add; apply p_name; reflexivity].
  rewrite run_set. erewrite (mbind_ret _ _ h); [|apply p_name; reflexivity]. erewrite (mbind_ret _ _ h); [|apply p_name; reflexivity].
  set (hd' := mkHandler (h_content hd) (h_offset hd + k) (h_version hd) (h_losses hd)).
  assert (ST : set_attr source (PRef l) "offset" (PInt (Z.of_nat (h_offset hd) + Z.of_nat k)) h = Ret (tt, put h l (hobj hd'))).
  { unfold set_attr, mbind, get_obj. rewrite (at_eq _ _ _ A). cbn. unfold set_obj. rewrite <- Nat2Z.inj_add. reflexivity. }
  rewrite (mbind_ret _ _ _ _ _ ST). rewrite run_return. pose proof (at_put _ _ hd' _ A eq_refl) as A'.
  match goal with |- ok _ _ (eval _ ?cl _ ?e (ESlice ?a ?b ?c) ?hh) _ => change (eval source cl "common" e (ESlice a b c) hh) with
     ((v <~ eval source cl "common" e a ;; x <~ eval source cl "common" e b ;; y <~ eval source cl "common" e c ;; get_slice v x y) hh); set (en' := e) end.
  rewrite (mbind_ret _ _ _ _ _ (p_handler_field m "common" en' "self" l hd' _ "content" _ eq_refl A' eq_refl)).
  erewrite (mbind_ret _ _ (put h l (hobj hd'))); [|apply p_name; reflexivity]. erewrite (mbind_ret _ _ (put h l (hobj hd'))); [|apply p_name; reflexivity].
  assert (SL : forall h, get_slice (PBytes (h_content hd')) (PInt (Z.of_nat (h_offset hd))) (PInt (Z.of_nat (h_offset hd) + Z.of_nat k)) h = Ret (PBytes (slice (h_content hd) (h_offset hd) k), h)).
  { intros h1. cbn. unfold mret. do 2 f_equal. f_equal. unfold bound, slice, len.
    replace (Z.of_nat (h_offset hd) <? 0) with false by (symmetry; apply Z.ltb_ge; lia).
    replace (Z.of_nat (h_offset hd) + Z.of_nat k <? 0) with false by (symmetry; apply Z.ltb_ge; lia).
    set (c := h_content hd). destruct (Nat.le_gt_cases (h_offset hd) (List.length c)) as [L|L].
    - replace (Z.to_nat (Z.min (Z.of_nat (List.length c)) (Z.of_nat (h_offset hd)))) with (h_offset hd) by lia.
      destruct (Nat.le_gt_cases (h_offset hd + k) (List.length c)) as [L2|L2].
      + f_equal. lia.
      + rewrite !firstn_all2; [reflexivity|rewrite skipn_length; lia..].
    - rewrite !(skipn_all2 c) by lia. rewrite !firstn_nil. reflexivity. }
  rewrite SL. unfold consume_range, bind, consume_slice, note, ret. fold hd'.
  set (bs := slice (h_content hd) (h_offset hd) k). destruct (Nat.ltb _ _); cbn [ok]; eexists _, _; (split; [reflexivity|]); (split; [split; apply A'|]); split; try reflexivity; apply step_put.
Qed.
Lemma just_trans {B} l (E : B -> val) h h1 h2 b v : step l h h1 -> just l h1 E h2 b v -> just l h E h2 b v.
Proof. intros S [T ->]. split; [eapply step_trans; eassumption|reflexivity]. Qed.
(** calling a method of the handler, in an expression *)
Lemma e_handler {ee : Era} n md en x l hd h a fn args pos kw : assoc x en = Some (PRef l) -> at_ l hd h -> assoc a (c_methods src_ByteHandler) = Some fn -> f_kind fn = Method ->
  pargs n md en args pos kw -> eval source (call source n) md en (ECall (EAttr (EName x) a) args) h = call source n (PMeth (PRef l) a) pos kw h.
Proof.
  intros A H F K P. rewrite eval_call.
  assert (E : eval source (call source n) md en (EAttr (EName x) a) h = Ret (PMeth (PRef l) a, h)).
  { cbn [eval]. rewrite (mbind_ret _ _ _ _ _ (p_name n md _ _ _ A h)). eapply handler_attr; eassumption. }
  rewrite (mbind_ret _ _ _ _ _ E), (mbind_ret _ _ _ _ _ (P h)). reflexivity.
Qed.
Lemma int_run_gen {ee : Era} m l hd h a k (s : bool) v : at_ l hd h -> (2 <= m)%nat -> 
  assoc "self" a = Some (PRef l) -> assoc "Int" a = None -> pure m "common" a v (PBool s) ->
  ok l (just l h PInt) (eval source (call source m) "common" a (ECall (EAttr (EName "Int") "from_bytes") [ECall (EAttr (EName "self") "consume_range") [EConst (KInt (Z.of_nat k))]; EKw "signed" v]) h)
     ((bs <- consume_range k ;; ret (Int_from_bytes bs s)) hd).
Proof.
  intros A M SF NI P. rewrite eval_call.
  assert (PA : pure m "common" a (EAttr (EName "Int") "from_bytes") (PMeth (PClass "Int") "from_bytes")).
  { eapply (p_class_attr _ _ _ _ _ _ _ NI g_common_Int c_Int eq_refl m_Int_from). left; reflexivity. }
  rewrite (mbind_ret _ _ _ _ _ (PA h)). rewrite argv_plain by reflexivity. rewrite !mbind_assoc.
  eapply ok_bind.
  - erewrite e_handler; [|exact SF|exact A|reflexivity|reflexivity|apply pa_pos; [reflexivity|apply p_const|apply pa_nil]]. apply consume_run; [lia|exact A].
  - intros w b h' hd' A' [T ->]. assert (PK : pargs m "common" a [EKw "signed" v] [] [("signed"%string, PBool s)]) by (apply pa_kw; [exact P|apply pa_nil]).
    rewrite mbind_assoc, (mbind_ret _ _ _ _ _ (PK h')). unfold mbind at 1, mret at 1. destruct m as [|[|m]]; try lia. cbn [fst snd]. rewrite Int_from_run.
    cbn [ret ok]. eexists _, _. split; [reflexivity|]. split; [exact A'|]. split; [exact T|reflexivity].
Qed.
(** common.py:110-111 *)
Lemma int_8_run {ee : Era} : tells 3 "read_int_8" [] [] read_int_8 PInt.
Proof.
  intros m l hd h M A. destruct m as [|m]; [lia|]. erewrite call_meth; [|exact A|rewrite find_handler; reflexivity|bnd]. cbn [f_module f_body src_ByteHandler_read_int_8].
  rewrite run_return. apply (int_run_gen m l hd h _ 1); [exact A|lia|reflexivity|reflexivity|apply p_const].
Qed.
(** common.py:161-162 *)
Lemma int_16_run {ee : Era} : tells 3 "read_int_16" [] [] (read_int_16 true) PInt.
Proof.
  intros m l hd h M A. destruct m as [|m]; [lia|]. erewrite call_meth; [|exact A|rewrite find_handler; reflexivity|bnd]. cbn [f_module f_body src_ByteHandler_read_int_16].
  rewrite run_return. apply (int_run_gen m l hd h _ 2); [exact A|lia|reflexivity|reflexivity|apply p_name; reflexivity].
Qed.
Lemma uint_16_run {ee : Era} : tells 3 "read_int_16" [] [("signed"%string, PBool false)] (read_int_16 false) PInt.
Proof.
  intros m l hd h M A. destruct m as [|m]; [lia|]. erewrite call_meth; [|exact A|rewrite find_handler; reflexivity|bnd]. cbn [f_module f_body src_ByteHandler_read_int_16].
  rewrite run_return. apply (int_run_gen m l hd h _ 2); [exact A|lia|reflexivity|reflexivity|apply p_name; reflexivity].
Qed.
(** common.py:197-198 *)
Lemma int_32_run {ee : Era} : tells 3 "read_int_32" [] [] (read_int_32 true) PInt.
Proof.
  intros m l hd h M A. destruct m as [|m]; [lia|]. erewrite call_meth; [|exact A|rewrite find_handler; reflexivity|bnd]. cbn [f_module f_body src_ByteHandler_read_int_32].
  rewrite run_return. apply (int_run_gen m l hd h _ 4); [exact A|lia|reflexivity|reflexivity|apply p_name; reflexivity].
Qed.
Lemma uint_32_run {ee : Era} : tells 3 "read_int_32" [] [("signed"%string, PBool false)] (read_int_32 false) PInt.
Proof.
  intros m l hd h M A. destruct m as [|m]; [lia|]. erewrite call_meth; [|exact A|rewrite find_handler; reflexivity|bnd]. cbn [f_module f_body src_ByteHandler_read_int_32].
  rewrite run_return. apply (int_run_gen m l hd h _ 4); [exact A|lia|reflexivity|reflexivity|apply p_name; reflexivity].
Qed.
(** common.py:220-221 *)
Lemma float_run {ee : Era} : tells 3 "read_float" [] [] read_float PFloat.
Proof.
  intros m l hd h M A. destruct m as [|m]; [lia|]. erewrite call_meth; [|exact A|rewrite find_handler; reflexivity|bnd]. cbn [f_module f_body src_ByteHandler_read_float].
  rewrite run_return, eval_call. set (en := [("self"%string, PRef l)]).
  assert (PA : pure m "common" en (EAttr (EName "Float") "from_bytes") (PMeth (PClass "Float") "from_bytes")).
  { apply (p_class_attr m "common" en "Float" "from_bytes" src_Float src_Float_from_bytes); [reflexivity|apply g_common_Float|apply c_Float|reflexivity|apply m_Float_from|left; reflexivity]. }
  rewrite (mbind_ret _ _ _ _ _ (PA h)). rewrite argv_plain by reflexivity. rewrite !mbind_assoc. unfold read_float.
  eapply ok_bind.
  - erewrite e_handler; [|reflexivity|exact A|reflexivity|reflexivity|apply pa_pos; [reflexivity|apply p_const|apply pa_nil]]. apply (consume_run 4); [lia|exact A].
  - intros w b h' hd' A' [T ->]. destruct m as [|[|m]]; try lia.
    match goal with |- ok _ _ ?o _ => replace o with (call source (S (S m)) (PMeth (PClass "Float") "from_bytes") [PBytes b] [] h') by reflexivity end. rewrite Float_from_run.
    unfold bind, note, lift. destruct (_ && _); destruct (Float_from_bytes LittleEndian b) as [x|e]; cbn [ok]; try reflexivity;
      eexists _, _; (split; [reflexivity|]); (split; [split; apply A'|]); (split; [exact T|reflexivity]).
Qed.
(** common.py:107-108 *)
Lemma string_run_gen {ee : Era} m l hd h en e k : at_ l hd h -> (2 <= m)%nat -> assoc "self" en = Some (PRef l) -> assoc "String" en = None -> plain e = true ->
  pure m "common" en e (PInt (Z.of_nat k)) ->
  ok l (just l h PStr) (eval source (call source m) "common" en (ECall (EAttr (EName "String") "from_bytes") [ECall (EAttr (EName "self") "consume_range") [e]]) h)
     ((bs <- consume_range k ;; lift (String_from_bytes bs)) hd).
Proof.
  intros A M SF NS PL P. rewrite eval_call.
  assert (PA : pure m "common" en (EAttr (EName "String") "from_bytes") (PMeth (PClass "String") "from_bytes")).
  { eapply (p_class_attr _ _ _ _ _ _ _ NS g_common_String c_String eq_refl m_String_from). left; reflexivity. }
  rewrite (mbind_ret _ _ _ _ _ (PA h)). rewrite argv_plain by reflexivity. rewrite !mbind_assoc.
  eapply ok_bind.
  - erewrite e_handler; [|exact SF|exact A|reflexivity|reflexivity|apply pa_pos; [exact PL|exact P|apply pa_nil]]. apply consume_run; [lia|exact A].
  - intros w b h' hd' A' [T ->]. destruct m as [|[|m]]; try lia.
    match goal with |- ok _ _ ?o _ => replace o with (call source (S (S m)) (PMeth (PClass "String") "from_bytes") [PBytes b] [] h') by reflexivity end. rewrite String_from_run.
    unfold lift. destruct (String_from_bytes b) as [x|e']; cbn [ok]; [|reflexivity].
    eexists _, _; (split; [reflexivity|]); (split; [split; apply A'|]); (split; [exact T|reflexivity]).
Qed.
Lemma string_run {ee : Era} k : tells 3 "read_string" [PInt (Z.of_nat k)] [] (read_string k) PStr.
Proof.
  intros m l hd h M A. destruct m as [|m]; [lia|]. erewrite call_meth; [|exact A|rewrite find_handler; reflexivity|bnd]. cbn [f_module f_body src_ByteHandler_read_string].
  rewrite run_return. apply string_run_gen; try reflexivity; [exact A|lia|apply p_name; reflexivity].
Qed.
(** common.py:101-105 *)
Lemma debug_run {ee : Era} : tells 4 "read_debug_string" [] [] read_debug_string PStr.
Proof.
  intros m l hd h M A. destruct m as [|m]; [lia|]. erewrite call_meth; [|exact A|rewrite find_handler; reflexivity|bnd]. cbn [f_module f_body src_ByteHandler_read_debug_string].
  rewrite run_assign. unfold read_debug_string. eapply ok_bind.
  { erewrite e_handler; [|reflexivity|exact A|reflexivity|reflexivity|apply pa_kw; [apply p_const|apply pa_nil]]. apply uint_16_run; [lia|exact A]. }
  intros w z h' hd' A' [T ->]. rewrite run_assert. erewrite (mbind_ret _ _ h'); [|apply p_eq; [apply p_name; reflexivity|apply p_int]].
  cbn [is_true const_val]. unfold mbind at 1, mret at 1. unfold bind at 1, lift at 1, py_assert. destruct (z =? 2656); [|reflexivity].
  rewrite run_assign.
  match goal with |- ok _ _ ?o _ => set (out := o) end.
  match goal with |- ok _ _ _ ?r => change r with (bind (read_int_16 false) (fun size => bind (consume_range (Z.to_nat size)) (fun bs => bind (note (ends_in_nul bs) TrailingNul) (fun _ => lift (String_from_bytes bs)))) hd') end.
  subst out.
  assert (NN : forall z1 hd1, read_int_16 false hd' = Ok (z1, hd1) -> 0 <= z1).
  { intros z1 hd1 E. unfold read_int_16, bind, consume_range, consume_slice, note, ret in E. unfold bind in E.
    match type of E with Ok (Int_from_bytes ?b false, _) = _ => pose proof (int_from_bytes_fits b false) as FF end.
    injection E as <- _. unfold Int_from_bytes. unfold int_fits in FF. apply andb_prop in FF as [FF _]. apply Z.leb_le in FF. exact FF. }
  assert (U : ok l (just l h' PInt) (call source m (PMeth (PRef l) "read_int_16") [] [("signed"%string, PBool false)] h') (read_int_16 false hd')) by (apply uint_16_run; [lia|exact A']).
  unfold mbind at 1. erewrite e_handler; [|reflexivity|exact A'|reflexivity|reflexivity|apply pa_kw; [apply p_const|apply pa_nil]]. cbn [const_val].
  unfold bind at 1. destruct (read_int_16 false hd') as [[size hd1]|e] eqn:R; cbn [ok] in U; [|rewrite U; reflexivity].
  destruct U as (w & h1 & -> & A1 & T1 & ->). specialize (NN _ _ eq_refl). rewrite run_return.
  pose proof (string_run_gen m l hd1 h1 [("size"%string, PInt size); ("tmp_size"%string, PInt z); ("self"%string, PRef l)] (EName "size") (Z.to_nat size) A1 ltac:(lia) eq_refl eq_refl eq_refl) as SG.
  rewrite Z2Nat.id in SG by exact NN. specialize (SG ltac:(apply p_name; reflexivity)).
  assert (GG : exists ls, bind (consume_range (Z.to_nat size)) (fun bs => bind (note (ends_in_nul bs) TrailingNul) (fun _ => lift (String_from_bytes bs))) hd1
    = match bind (consume_range (Z.to_nat size)) (fun bs => lift (String_from_bytes bs)) hd1 with
      | Ok (s, x) => Ok (s, mkHandler (h_content x) (h_offset x) (h_version x) ls)
      | Err e => Err e end).
  { unfold bind. destruct (consume_range (Z.to_nat size) hd1) as [[bs hd2]|e]; [|exists []; reflexivity]. unfold note, lift.
    destruct (String_from_bytes bs); [|exists []; reflexivity]. destruct (ends_in_nul bs); [eexists; reflexivity|exists (h_losses hd2); destruct hd2; reflexivity]. }
  destruct GG as (ls & ->). destruct (bind _ _ hd1) as [[s hd2]|e]; cbn [ok] in SG |- *; [|exact SG].
  destruct SG as (w & h2 & -> & A2 & T2 & ->). eexists _, _. split; [reflexivity|]. split; [split; apply A2|]. split; [|reflexivity].
  eapply step_trans; [exact T|]. eapply step_trans; eassumption.
Qed.
