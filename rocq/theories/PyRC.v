(** * The readers of [ByteHandler] that build lists and objects (common.py:113-278), run from their source text *)
From Verif Require Import Base PyInt PyFloat PyStr PyStruct DataTypes Versions Common Py Source PyRep PyPure PyW PyR PyRE PyRH PyRA PyRL.
From Coq Require Import String Ascii Lia Permutation.
Open Scope Z_scope.
Local Open Scope list_scope.

(** Scalars and tuples of scalars are owned without a place in the heap. *)
Lemma tells_does {ee : Era} {B} k a pos kw (f : rd B) E D : tells k a pos kw f E -> (forall h b, own h (D b) (E b) []) -> does k a pos kw f D.
Proof.
  intros T O m l hd h M A. specialize (T m l hd h M A). unfold ok in *. destruct (f hd) as [[b hd']|e]; [|exact T].
  destruct T as (v & h' & E1 & A' & S1 & ->). exists (E b), h'. split; [exact E1|]. split; [exact A'|]. split; [exact S1|].
  exists []. split; [apply O|apply sep_nil].
Qed.
Lemma own_int {ee : Era} h z : own h (DInt z) (PInt z) []. Proof. split; reflexivity. Qed.
Lemma own_float {ee : Era} h x : own h (DFloat x) (PFloat x) []. Proof. split; reflexivity. Qed.
Lemma own_num {ee : Era} h x : the_era <> Old -> own h (DNum x) (PFloat x) [].
Proof. intros N. split; [|reflexivity]. unfold level. destruct the_era; [left; reflexivity|contradiction N; reflexivity|reflexivity]. Qed.
Lemma own_str {ee : Era} h x : own h (DStr x) (PStr x) []. Proof. split; reflexivity. Qed.
Lemma own_scalars {ee : Era} {A} (D : A -> deep) (E : A -> val) (l : list A) h : (forall a, own h (D a) (E a) []) -> own h (DTuple (map D l)) (PTuple (map E l)) [].
Proof.
  intros H. apply own_tuple. exists (map E l), (map (fun _ => []) l). split; [reflexivity|]. split.
  - induction l; [reflexivity|assumption].
  - induction l as [|a l IH]; [constructor|]. cbn [map]. constructor; [apply H|exact IH].
Qed.
Lemma own_ints {ee : Era} h l : own h (DTuple (map DInt l)) (pints l) []. Proof. apply own_scalars. intros a. apply own_int. Qed.
Lemma own_floats {ee : Era} h l : own h (DTuple (map DFloat l)) (pfloats l) []. Proof. apply own_scalars. intros a. apply own_float. Qed.

(** ** Lists of scalars *)
Lemma range_items_length z : List.length (range_items z) = Z.to_nat z.
Proof. unfold range_items. rewrite map_length, seq_length. reflexivity. Qed.
Lemma Forall2_repeat {A B} (P : A -> B -> Prop) (l : list A) b k : List.length l = k -> (forall a, P a b) -> Forall2 P l (repeat b k).
Proof. intros <- H. induction l as [|a l IH]; cbn [List.length repeat]; constructor; [apply H|exact IH]. Qed.
Lemma for_range_each {ee : Era} {B} size (f : rd B) hd (P : res (list B * handler) -> Prop) :
  (forall hd', (forall l h, at_ l hd h -> at_ l hd' h) -> P (each (repeat f (Z.to_nat size)) hd')) -> P (for_range size f hd).
Proof.
  intros H. unfold for_range, bind, note. destruct (size <? 0); rewrite <- each_loop; apply H; intros l h A; split; apply A.
Qed.
Lemma array_run {ee : Era} {B} src a k (g : string) fn (f : rd B) (D : B -> deep) :
  assoc a (c_methods src_ByteHandler) = Some src -> f_module src = "common"%string -> f_params src = ["self"; "size"]%string -> f_defaults src = [] ->
  f_body src = [SAssign "elements" (EList []); SFor "i" (ECall (EName "range") [EName "size"]) [SExpr (ECall (EAttr (EName "elements") "append") [ECall (EAttr (EName "self") g) []])]; SReturn (EName "elements")]%string ->
  assoc g (c_methods src_ByteHandler) = Some fn -> f_kind fn = Method -> does k g [] [] f D -> (1 <= k)%nat ->
  forall size, does (S k) a [PInt size] [] (for_range size f) (fun bs => DList (map D bs)).
Proof.
  intros HA HM HP HD HB HG HK T K1 size m l hd h M A. destruct m as [|m]; [lia|].
  erewrite call_meth; [|exact A|rewrite find_handler; exact HA|unfold binds; rewrite HD, HP; bnd]. rewrite HM, HB.
  apply for_range_each. intros hd1 H1. apply H1 in A. set (en := [("self"%string, PRef l); ("size"%string, PInt size)]).
  eapply (collect_run m l hd1 h en "i" _ D size _ [("self"%string, PRef l)] (fun _ => True)); try reflexivity; try exact A; try (intros; exact I); [lia|constructor; [reflexivity|constructor]|].
  apply Forall2_repeat; [apply range_items_length|]. intros i. apply body_append with (e := ECall (EAttr (EName "self") g) []);
    [apply (at_lt _ _ _ A)|intros; exact I|lia|reflexivity|reflexivity|reflexivity|reflexivity|].
  intros en1 h1 hd2 Bi _ A2. pose proof (binding_get _ _ "self" (PRef l) Bi eq_refl) as SF.
  erewrite e_handler; [|cbn [assoc]; exact SF|exact A2|exact HG|exact HK|apply pa_nil]. apply T; [lia|exact A2].
Qed.
Notation ints := (fun bs => DList (map DInt bs)).
Notation floats := (fun bs => DList (map DFloat bs)).
Lemma int_8_array_run {ee : Era} size : does 4 "read_int_8_array" [PInt size] [] (read_int_8_array size) ints.
Proof. eapply (array_run src_ByteHandler_read_int_8_array _ 3 "read_int_8"); try reflexivity; [eapply tells_does; [apply int_8_run|intros; apply own_int]|lia]. Qed.
Lemma int_16_array_run {ee : Era} size : does 4 "read_int_16_array" [PInt size] [] (read_int_16_array size) ints.
Proof. eapply (array_run src_ByteHandler_read_int_16_array _ 3 "read_int_16"); try reflexivity; [eapply tells_does; [apply int_16_run|intros; apply own_int]|lia]. Qed.
Lemma int_32_array_run {ee : Era} size : does 4 "read_int_32_array" [PInt size] [] (read_int_32_array size) ints.
Proof. eapply (array_run src_ByteHandler_read_int_32_array _ 3 "read_int_32"); try reflexivity; [eapply tells_does; [apply int_32_run|intros; apply own_int]|lia]. Qed.
Lemma float_array_run {ee : Era} size : does 4 "read_float_array" [PInt size] [] (read_float_array size) floats.
Proof. eapply (array_run src_ByteHandler_read_float_array _ 3 "read_float"); try reflexivity; [eapply tells_does; [apply float_run|intros; apply own_float]|lia]. Qed.

(** ** Objects *)
(** [c] has the class method [a]. *)
Definition reader (c a : string) : Prop := exists k fn, class_of source c = Some k /\ assoc a (c_members k) = None /\ find_method source c a = Some fn /\ f_kind fn = ClassMethod.
(** [class_.a(self, ...)] *)
Lemma e_class n en c a l args pos h : assoc "class_" en = Some (PClass c) -> reader c a -> assoc "self" en = Some (PRef l) -> pargs n "common" en args pos [] ->
  eval source (call source n) "common" en (ECall (EAttr (EName "class_") a) (EName "self" :: args)) h = call source n (PMeth (PClass c) a) (PRef l :: pos) [] h.
Proof.
  intros C (k & fn & C1 & C2 & C3 & C4) SF PA. erewrite eval_call_pure; [reflexivity|eapply p_class_attr_local; try eassumption; right; exact C4|].
  apply pa_pos; [reflexivity|apply p_name; exact SF|exact PA].
Qed.
Section Class.
Context {ee : Era}.
Context {B : Type} (k : nat) (c : string) (f : rd B) (D : B -> deep).
Hypothesis R : reads k c "from_bytes" [] f D.
Hypothesis RC : reader c "from_bytes".
Hypothesis K1 : (1 <= k)%nat.
(** common.py:240-242 *)
Lemma class_run : does (S k) "read_class" [PClass c] [] (read_class f) D.
Proof.
  intros m l hd h M A. destruct m as [|m]; [lia|]. erewrite call_meth; [|exact A|rewrite find_handler; reflexivity|bnd]. cbn [f_module f_body src_ByteHandler_read_class].
  rewrite run_assign. unfold read_class. eapply ok_bind.
  - erewrite e_class; [|reflexivity|exact RC|reflexivity|apply pa_nil]. apply R; [lia|exact A].
  - intros v b h' hd' A' Bu. rewrite run_return. erewrite p_name; [|reflexivity]. cbn [ok ret]. exists v, h'. split; [reflexivity|]. split; [exact A'|exact Bu].
Qed.
(** common.py:244-249 *)
Lemma class_loop_run size m l hd h : (k <= m)%nat -> at_ l hd h ->
  ok l (built l h (fun bs => DList (map D bs))) (call source (S m) (PMeth (PRef l) "read_class_array") [PClass c; PInt size] [] h) (each (repeat f (Z.to_nat size)) hd).
Proof.
  intros M A. erewrite call_meth; [|exact A|rewrite find_handler; reflexivity|bnd]. cbn [f_module f_body src_ByteHandler_read_class_array].
  set (en := [("self"%string, PRef l); ("class_"%string, PClass c); ("size"%string, PInt size)]).
  eapply (collect_run m l hd h en "i" _ D size _ [("self"%string, PRef l); ("class_"%string, PClass c)] (fun _ => True)); try reflexivity; try exact A; try (intros; exact I); [lia|repeat (constructor; [reflexivity|]); constructor|].
  apply Forall2_repeat; [apply range_items_length|]. intros i. apply body_assign with (y := "element"%string) (e := ECall (EAttr (EName "class_") "from_bytes") [EName "self"]);
    [apply (at_lt _ _ _ A)|intros; exact I|lia|reflexivity|reflexivity|reflexivity|reflexivity|].
  intros en1 h1 hd2 Bi _ A2. erewrite e_class; [|apply (binding_get _ _ "class_" (PClass c) Bi eq_refl)|exact RC|apply (binding_get _ _ "self" (PRef l) Bi eq_refl)|apply pa_nil]. apply R; [lia|exact A2].
Qed.
Lemma class_array_run size : does (S k) "read_class_array" [PClass c; PInt size] [] (read_class_array f size) (fun bs => DList (map D bs)).
Proof.
  intros m l hd h M A. destruct m as [|m]; [lia|]. unfold read_class_array. apply for_range_each. intros hd1 H1. apply H1 in A. apply class_loop_run; [lia|exact A].
Qed.
Lemma class_array_kept_run size : does (S k) "read_class_array" [PClass c; PInt size] [] (read_class_array_kept f size) (fun bs => DList (map D bs)).
Proof.
  intros m l hd h M A. destruct m as [|m]; [lia|]. unfold read_class_array_kept. rewrite <- each_loop. apply class_loop_run; [lia|exact A].
Qed.
(** Several, one after the other: what was built first stays. *)
Lemma s_class {A C} n en l h0 L hd h (g : B -> rd A) (Q : heap -> A -> C -> Prop) (K : val -> M C) :
  (k <= n)%nat -> assoc "class_" en = Some (PClass c) -> assoc "self" en = Some (PRef l) -> inv l h0 L hd h ->
  (forall b v hd' h', inv l h0 ((D b, v) :: L) hd' h' -> ok l Q (K v h') (g b hd')) ->
  ok l Q (mbind (eval source (call source n) "common" en (ECall (EAttr (EName "class_") "from_bytes") [EName "self"])) K h) (bind f g hd).
Proof.
  intros N C1 C2 I H. eapply ok_bind.
  - erewrite e_class; [|exact C1|exact RC|exact C2|apply pa_nil]. apply R; [exact N|apply I].
  - intros v b h' hd' A' (T & fp & O & Se). apply H. eapply inv_own; eassumption.
Qed.
Lemma rev_own h lo L : held h lo L -> exists fps, owns h (rev (map fst L)) (rev (map snd L)) fps /\ sep lo (List.length h) (List.concat fps).
Proof.
  intros (fps & O & Se). exists (rev fps). split.
  - clear Se. induction O as [|d v fp l vs fps H O IH]; [constructor|]. cbn [rev]. apply owns_app; [exact IH|constructor; [exact H|constructor]].
  - destruct Se as [N Rg]. split.
    + assert (P : forall (x : list (list nat)), Permutation (List.concat x) (List.concat (rev x))).
      { clear. induction x as [|a x IH]; [constructor|]. cbn [rev List.concat]. rewrite concat_app. cbn [List.concat]. rewrite app_nil_r.
        rewrite Permutation_app_comm. apply Permutation_app_tail, IH. }
      apply (Permutation_NoDup (P fps) N).
    + intros i I. apply Rg. apply in_concat in I as (x & X & I). apply in_concat. exists x. split; [apply in_rev, X|exact I].
Qed.
Lemma ret_tuple l h0 L hd h v (bs : list B) : inv l h0 L hd h -> map D bs = rev (map fst L) -> v = PTuple (rev (map snd L)) ->
  ok l (built l h0 (fun bs => DTuple (map D bs))) (Ret (v, h)) (ret bs hd).
Proof.
  intros [A LT T He] E ->. cbn [ok ret]. eexists _, _. split; [reflexivity|]. split; [exact A|]. split; [exact T|].
  apply rev_own in He as (fps & O & Se). exists (List.concat fps). split; [|exact Se]. apply own_tuple. rewrite E. eexists _, _. split; [reflexivity|]. split; [reflexivity|exact O].
Qed.
Ltac three := rewrite run_assign; eapply s_class; [lia|reflexivity|reflexivity|eassumption|intros ? ? ? ? ?; cbv beta].
Ltac last_tuple := rewrite run_return; erewrite p_tuple by (repeat (apply pures_cons; [apply p_name; reflexivity|]); apply pures_nil); eapply ret_tuple; [eassumption|reflexivity|reflexivity].
(** common.py:251-262 *)
Lemma class_array_3_run : does (S k) "read_class_array_3" [PClass c] [] (read_class_array_3 f) (fun bs => DTuple (map D bs)).
Proof.
  intros m l hd h M A. destruct m as [|m]; [lia|]. erewrite call_meth; [|exact A|rewrite find_handler; reflexivity|bnd]. cbn [f_module f_body src_ByteHandler_read_class_array_3].
  unfold read_class_array_3. pose proof (inv_start _ _ _ A). three. three. three. last_tuple.
Qed.
Lemma class_array_4_run : does (S k) "read_class_array_4" [PClass c] [] (read_class_array_4 f) (fun bs => DTuple (map D bs)).
Proof.
  intros m l hd h M A. destruct m as [|m]; [lia|]. erewrite call_meth; [|exact A|rewrite find_handler; reflexivity|bnd]. cbn [f_module f_body src_ByteHandler_read_class_array_4].
  unfold read_class_array_4. pose proof (inv_start _ _ _ A). three. three. three. three. last_tuple.
Qed.
End Class.
(** common.py:273-278 *)
Lemma class_param_run {ee : Era} {B} k c (f : Z -> rd B) D size p : reads k c "from_bytes_with_count" [PInt p] (f p) D -> reader c "from_bytes_with_count" -> (1 <= k)%nat ->
  does (S k) "read_class_array_with_param" [PClass c; PInt size; PInt p] [] (read_class_array_with_param f size p) (fun bs => DList (map D bs)).
Proof.
  intros R RC K1 m l hd h M A. destruct m as [|m]; [lia|]. unfold read_class_array_with_param. apply for_range_each. intros hd1 H1. apply H1 in A.
  erewrite call_meth; [|exact A|rewrite find_handler; reflexivity|bnd]. cbn [f_module f_body src_ByteHandler_read_class_array_with_param].
  set (en := [("self"%string, PRef l); ("class_"%string, PClass c); ("size"%string, PInt size); ("terrains_used_1"%string, PInt p)]).
  eapply (collect_run m l hd1 h en "i" _ D size _ [("self"%string, PRef l); ("class_"%string, PClass c); ("terrains_used_1"%string, PInt p)] (fun _ => True)); try reflexivity; try exact A; try (intros; exact I); [lia|repeat (constructor; [reflexivity|]); constructor|].
  apply Forall2_repeat; [apply range_items_length|]. intros i. apply body_assign with (y := "terrain_restriction"%string) (e := ECall (EAttr (EName "class_") "from_bytes_with_count") [EName "self"; EName "terrains_used_1"]);
    [apply (at_lt _ _ _ A)|intros; exact I|lia|reflexivity|reflexivity|reflexivity|reflexivity|].
  intros en1 h1 hd2 Bi _ A2. erewrite e_class; [|apply (binding_get _ _ "class_" (PClass c) Bi eq_refl)|exact RC|apply (binding_get _ _ "self" (PRef l) Bi eq_refl)|].
  - apply R; [lia|exact A2].
  - apply pa_pos; [reflexivity|apply p_name; apply (binding_get _ _ "terrains_used_1" (PInt p) Bi eq_refl)|apply pa_nil].
Qed.
