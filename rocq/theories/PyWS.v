(** * The [to_bytes] methods with local variables, conditions and version dispatch *)
From Verif Require Import Base PyInt PyFloat PyStr PyStruct DataTypes Versions Common Py Source PyRep PyPure PyW PyWE Deep PyWC.
From Verif Require Import M_Sound M_PlayerColour M_Effect M_TerrainRestriction M_Graphic
  M_TerrainBlock M_RandomMaps M_Task M_UnitHeaders M_Unit M_Civ M_Tech M_TechTree M_DatFile.
From Coq Require Import String Ascii Lia.
Open Scope Z_scope.
Local Open Scope list_scope.

Section More.
Variables (m : nat) (mod_ : string).
Notation cl := (d_call source m).
Notation dev := (d_eval source cl mod_).
Lemma x_eq en a b x y : dev en a = Ret (DInt x) -> dev en b = Ret (DInt y) -> dev en (ECmp CEq a b) = Ret (DBool (x =? y)).
Proof. intros A B. rewrite (x_cmp m mod_ en CEq a b x y A B) by discriminate. rewrite Z.eqb_compare. destruct (x ?= y); reflexivity. Qed.
Lemma x_ne en a b x y : dev en a = Ret (DInt x) -> dev en b = Ret (DInt y) -> dev en (ECmp CNe a b) = Ret (DBool (negb (x =? y))).
Proof. intros A B. rewrite (x_cmp m mod_ en CNe a b x y A B) by discriminate. rewrite Z.eqb_compare. destruct (x ?= y); reflexivity. Qed.
Lemma x_geq en a b x y : dev en a = Ret (DInt x) -> dev en b = Ret (DInt y) -> dev en (ECmp CGe a b) = Ret (DBool (y <=? x)).
Proof. intros A B. rewrite (x_cmp m mod_ en CGe a b x y A B) by discriminate. rewrite Z.leb_compare, (Z.compare_antisym y x). destruct (y ?= x); reflexivity. Qed.
(** [return self.to_bytes_N(version)] under [if version >= Version.VER_N:] *)
Lemma run_dispatch en e r l w v : (1 <= m)%nat -> assoc "version" en = Some (dver v) -> assoc "Version" en = None -> global source mod_ "Version" = Some (PClass "Version") ->
  dev en e = outb r -> forall s, run m mod_ l en = outb s ->
  run m mod_ (SIf (ECmp CGe (EName "version") (EAttr (EName "Version") (version_member w))) [SReturn e] [] :: l) en
  = outb (if version_ge v w then r else s).
Proof.
  intros N A1 A2 G E s L. rewrite (run_if _ _ _ _ _ _ _ _ _ (x_ge m mod_ en v w N A1 A2 G) eq_refl).
  destruct (version_ge v w); cbn [app]; [|exact L]. rewrite run_return. exact E.
Qed.
(** [x = e] when [c] *)
Lemma run_opt en c x e l t b r (K : bytes -> res bytes) : dev en c = Ret (DBool t) -> assoc x en = Some (DBytes b) -> dev en e = outb r ->
  (forall b' en', assoc x en' = Some (DBytes b') -> (forall y, String.eqb y x = false -> assoc y en' = assoc y en) -> run m mod_ l en' = outb (K b')) ->
  run m mod_ (SIf c [SAssign x e] [] :: l) en = outb (rbind (if t then b' <-- r ;;; Ok b' else Ok b) K).
Proof.
  intros C A E H. rewrite (run_if _ _ _ _ _ _ _ _ _ C eq_refl). destruct t; cbn [app].
  - rewrite run_assign, E. destruct r as [b'|f]; cbn [outb obind rbind]; [|reflexivity]. apply H.
    + cbn [assoc]. rewrite String.eqb_refl. reflexivity.
    + intros y Y. cbn [assoc]. rewrite Y. reflexivity.
  - apply H; [exact A|reflexivity].
Qed.
(** [f(self.a) if self.a is not None else b''] *)
Lemma x_opt {A} en c fs a (emb : A -> deep) o body (f : A -> res bytes) : assoc "self" en = Some (DObj c fs) -> assoc a fs = Some (emb_opt emb o) ->
  (forall x, d_none (emb x) = false) -> (forall x, o = Some x -> dev en body = outb (f x)) ->
  dev en (EIf (ECmp CIsNot (EAttr (EName "self") a) (EConst KNone)) body (EConst (KBytes [])))
  = outb (match o with Some x => f x | None => Ok [] end).
Proof.
  intros SF F D B. rewrite (x_if _ _ _ _ _ _ _ _ (x_not_none m mod_ en _ _ (x_field m mod_ en c fs SF a _ F)) eq_refl).
  destruct o as [x|]; cbn [emb_opt d_none negb]; [|reflexivity]. rewrite D. apply B. reflexivity.
Qed.
Lemma x_opt_and {A} en c fs a z q (emb : A -> deep) o body (f : A -> res bytes) : assoc "self" en = Some (DObj c fs) ->
  assoc q fs = Some (DInt z) -> assoc a fs = Some (emb_opt emb o) ->
  (forall x, d_none (emb x) = false) -> (forall x, o = Some x -> dev en body = outb (f x)) ->
  dev en (EIf (EAnd (EAttr (EName "self") q) (ECmp CIsNot (EAttr (EName "self") a) (EConst KNone))) body (EConst (KBytes [])))
  = outb (if truthy z then match o with Some x => f x | None => Ok [] end else Ok []).
Proof.
  intros SF Q F D B.
  assert (E : dev en (EAnd (EAttr (EName "self") q) (ECmp CIsNot (EAttr (EName "self") a) (EConst KNone)))
              = if truthy z then Ret (DBool (negb (d_none (emb_opt emb o)))) else Ret (DInt z)).
  { cbn [d_eval]. pose proof (x_field m mod_ en c fs SF q _ Q) as X. cbn [d_eval] in X. rewrite X. cbn [obind d_true].
    destruct (truthy z); [|reflexivity]. exact (x_not_none m mod_ en _ _ (x_field m mod_ en c fs SF a _ F)). }
  destruct (truthy z) eqn:T.
  - rewrite (x_if _ _ _ _ _ _ _ _ E eq_refl). destruct o as [x|]; cbn [emb_opt d_none negb]; [|reflexivity]. rewrite D. apply B. reflexivity.
  - rewrite (x_if _ _ _ _ _ _ _ false E); [reflexivity|]. cbn [d_true]. rewrite T. reflexivity.
Qed.
(** [self.l[0].a] *)
Lemma x_first {A} en c fs l a (emb : A -> deep) seq xs : assoc "self" en = Some (DObj c fs) -> assoc l fs = Some seq -> seq_of seq (map emb xs) ->
  dev en (EAttr (EIndex (EAttr (EName "self") l) (EConst (KInt 0))) a)
  = match xs with x :: _ => d_attr source cl (emb x) a | [] => Raise (Std IndexError) end.
Proof.
  intros SF F S. cbn [d_eval]. pose proof (x_field m mod_ en c fs SF l _ F) as X. cbn [d_eval] in X. rewrite X. cbn [obind dconst].
  assert (E : d_item seq (DInt 0) = match xs with x :: _ => Ret (emb x) | [] => Raise (Std IndexError) end).
  { destruct S as [-> | ->]; cbn [d_item d_need_int d_int oopt obind]; (destruct xs as [|x xs]; [reflexivity|]);
      unfold d_index; cbn [Z.ltb Z.compare map orb]; replace (len (emb x :: map emb xs) <=? 0) with false
        by (symmetry; apply Z.leb_gt; unfold len; cbn [List.length]; lia); reflexivity. }
  rewrite E. destruct xs; reflexivity.
Qed.
(** [[0 if u is None else 1 for u in self.l]] as a property *)
Lemma x_pointers {A} en c fs a fn y l (emb : A -> deep) xs seq : (1 <= m)%nat -> assoc "self" en = Some (DObj c fs) -> assoc a fs = None ->
  find_method source c a = Some fn ->
  fn = mkFunc Property (f_module fn) ["self"%string] [] [SReturn (EFor (EIf (ECmp CIs (EName y) (EConst KNone)) (EConst (KInt 0)) (EConst (KInt 1))) y (EAttr (EName "self") l) None)] ->
  assoc l fs = Some seq -> seq_of seq (map (emb_opt emb) xs) -> (forall x, d_none (emb x) = false) ->
  dev en (EAttr (EName "self") a) = Ret (DList (map DInt (map (fun x => match x with None => 0 | Some _ => 1 end) xs))).
Proof.
  intros N SF NF F E L S D. cbn [d_eval]. rewrite (x_name m mod_ en _ _ SF : d_name source mod_ en "self" = _). cbn [obind].
  unfold d_attr. rewrite NF, F, E. cbn [f_kind]. destruct m as [|n]; [lia|]. rewrite (call_method _ _ _ _ fn _ _ F). rewrite E.
  unfold d_apply. cbn [f_module f_defaults f_params f_body obind known_kw forallb bind_args assoc option_map oopt app].
  match goal with |- context[d_block source (d_call source n) ?mm ?l ?e] =>
    change (r <+ d_block source (d_call source n) mm l e;; Ret match snd r with Some v => v | None => DNone end) with (run n mm l e); set (en0 := e) end.
  rewrite run_return. cbn [d_eval]. pose proof (x_field n (f_module fn) en0 c fs eq_refl l _ L) as X. cbn [d_eval] in X. rewrite X. cbn [obind].
  rewrite (seq_items _ _ S). cbn [obind].
  match goal with |- (rs <+ ?g (map (emb_opt emb) xs) ;; _) = _ => set (go := g) end.
  assert (K : go (map (emb_opt emb) xs) = Ret (map DInt (map (fun x => match x with None => 0 | Some _ => 1 end) xs))).
  { clear -D. induction xs as [|x xs IH]; [reflexivity|]. cbn [map]. unfold go at 1. fold go. cbn [obind]. unfold d_name at 1. cbn [assoc]. rewrite String.eqb_refl.
    cbn [obind]. cbn [map] in IH. rewrite IH. unfold d_compare. cbn [d_none dconst]. destruct x as [x|]; cbn [emb_opt d_none obind d_true]; [rewrite D|]; reflexivity. }
  rewrite K. reflexivity.
Qed.
Lemma pack_raise en x e0 es d f : assoc "struct" en = None -> global source mod_ "struct" = Some (PClass "struct") ->
  plain e0 = true -> dev en (EName x) = Ret d -> dev en e0 = Raise f -> dev en (ECall (EAttr (EName "struct") "pack") (EName x :: e0 :: es)) = Raise f.
Proof.
  intros A G P X E. rewrite eval_call. cbn [d_eval]. rewrite (x_global m mod_ _ _ _ _ A G eq_refl : d_name source mod_ en "struct" = _). cbn [obind].
  rewrite attr_struct. cbn [obind]. rewrite args_plain by reflexivity. rewrite X. cbn [obind]. rewrite args_plain by exact P. rewrite E. reflexivity.
Qed.
End More.
Ltac body r := rewrite run_return; unfold r; bytes.

(** terrainrestriction.py:44-49 *)
Theorem TerrainRestriction_w : writes 9 TerrainRestriction_deep TerrainRestriction_to_bytes.
Proof.
  start "TerrainRestriction"%string src_TerrainRestriction_to_bytes. erewrite run_assert; [|apply x_eq; value].
  unfold TerrainRestriction_to_bytes. rewrite !len_map. destruct (_ =? _); [|reflexivity]. cbn [py_assert rbind]. rewrite run_return. bytes.
Qed.
#[export] Hint Resolve TerrainRestriction_w : writes.
(** randommaps.py:298-305 *)
Theorem RandomMaps_w : writes 12 RandomMaps_deep RandomMaps_to_bytes.
Proof.
  start "RandomMaps"%string src_RandomMaps_to_bytes. erewrite run_assert; [|apply x_eq; value].
  unfold RandomMaps_to_bytes. rewrite !len_map. destruct (_ =? _); [|reflexivity]. cbn [py_assert rbind]. rewrite run_return. bytes.
Qed.
#[export] Hint Resolve RandomMaps_w : writes.
Ltac dispatch w := apply (run_dispatch _ _ _ _ _ _ w); [lia|reflexivity|reflexivity|look| |].
Ltac self_call := erewrite x_self_call; [|reflexivity|reflexivity|reflexivity|look|reflexivity|reflexivity|reflexivity]; cbn [f_module f_body].
(** task.py:200-274 *)
Theorem Task_w : writes 7 Task_deep Task_to_bytes.
Proof.
  start "Task"%string src_Task_to_bytes. destruct m as [|m]; [lia|]. dispatch VER_88; [|rewrite run_return]; self_call; rewrite run_return.
  - unfold Task_to_bytes_88. bytes.
  - unfold Task_to_bytes_84. bytes.
Qed.
#[export] Hint Resolve Task_w : writes.
(** unitheaders.py:25-30 *)
Theorem UnitHeaders_w : writes 10 UnitHeaders_deep UnitHeaders_to_bytes.
Proof.
  start "UnitHeaders"%string src_UnitHeaders_to_bytes. rewrite run_return. unfold UnitHeaders_to_bytes.
  apply x_join; [lia|]. constructor; [bytes|]. constructor; [|constructor; [|constructor]].
  - eapply (x_opt_and _ _ _ _ fs _ _ _ (fun l => DList (map Task_deep l))); [reflexivity|reflexivity|reflexivity|reflexivity|].
    intros l E. self x_int_16; [lia|reflexivity| |].
    + eapply x_len; [lia|reflexivity|look|reflexivity| |].
      * eapply x_field; [reflexivity|]. unfold fs. cbn. rewrite E. reflexivity.
      * reflexivity.
    + rewrite len_map. reflexivity.
  - eapply (x_opt_and _ _ _ _ fs _ _ _ (fun l => DList (map Task_deep l))); [reflexivity|reflexivity|reflexivity|reflexivity|].
    intros l E. self x_class_array; [eauto with writes|lia|reflexivity| |seq|var].
    eapply x_field; [reflexivity|]. unfold fs. cbn. rewrite E. reflexivity.
Qed.
#[export] Hint Resolve UnitHeaders_w : writes.
(** unit.py:179-193 *)
Theorem Bird_w : writes 10 Bird_deep Bird_to_bytes.
Proof.
  start "Bird"%string src_Bird_to_bytes. rewrite run_return. unfold Bird_to_bytes. apply x_join; [lia|].
  repeat (apply Forall2_cons; [first [self x_int_16_if; [lia|reflexivity|value|rewrite len_map; reflexivity|]; apply (x_ge _ _ _ _ VER_78); [lia|reflexivity|reflexivity|look]|bytes]|]).
  constructor.
Qed.
#[export] Hint Resolve Bird_w : writes.
(** unit.py:312-347 *)
Theorem Type50_w : writes 9 Type50_deep Type50_to_bytes.
Proof.
  start "Type50"%string src_Type50_to_bytes. rewrite run_assign. unfold Type50_to_bytes.
  match goal with |- (v <+ ?e ;; _) = outb (rbind ?j _) => assert (E : e = outb j) by bytes; rewrite E; clear E; destruct j as [b|f]; [|reflexivity] end.
  cbn [outb obind rbind]. erewrite run_if; [|apply (x_ge _ _ _ v VER_84); [lia|reflexivity|reflexivity|look]|reflexivity].
  destruct (version_ge v VER_84); cbn [app].
  - erewrite run_add; [|reflexivity].
    match goal with |- (v <+ ?e ;; _) = outb (rbind (rbind (_ +++ ?j) _) _) => assert (E : e = outb j) by bytes; rewrite E; clear E; destruct j as [b'|f]; [|reflexivity] end.
    reflexivity.
  - reflexivity.
Qed.
#[export] Hint Resolve Type50_w : writes.
(** unit.py:459-462 *)
Theorem TrainLocation_w : writes 6 TrainLocation_deep TrainLocation_to_bytes.
Proof.
  start "TrainLocation"%string src_TrainLocation_to_bytes. unfold TrainLocation_to_bytes. dispatch VER_88; [bytes|rewrite run_return; bytes].
Qed.
#[export] Hint Resolve TrainLocation_w : writes.
(** unit.py:756-866 *)
Ltac first_value :=
  erewrite (x_first _ _ _ "Creatable" _ _ _ TrainLocation_deep); [|reflexivity|reflexivity|seq]; reflexivity.
Theorem Creatable_w : writes 10 Creatable_deep Creatable_to_bytes.
Proof.
  start "Creatable"%string src_Creatable_to_bytes. destruct m as [|m]; [lia|].
  dispatch VER_88; [|dispatch VER_84; [|rewrite run_return]]; self_call; rewrite run_return.
  - unfold Creatable_to_bytes_88. bytes.
  - unfold Creatable_to_bytes_84. apply x_add; [bytes|]. destruct (Creatable_train_locations x) as [|t ts] eqn:T.
    + cbn [py_index nth_error rbind outb]. apply (pack_raise _ _ _ _ _ _ (DStr (lit unit_CREATABLE_FORMAT_84))); [reflexivity|look|reflexivity| |].
      * eapply x_global; [reflexivity|look|reflexivity].
      * erewrite (x_first _ _ _ "Creatable" _ _ _ TrainLocation_deep _ []); [reflexivity|reflexivity|unfold fs; cbn; rewrite T; reflexivity|seq].
    + cbn [py_index nth_error rbind].
      assert (V : forall a, d_eval source (d_call source m) "unit" [("self"%string, DObj "Creatable" fs); ("version"%string, dver v)]
         (EAttr (EIndex (EAttr (EName "self") "train_locations") (EConst (KInt 0))) a) = d_attr source (d_call source m) (TrainLocation_deep t) a).
      { intros a. erewrite (x_first _ _ _ "Creatable" _ _ _ TrainLocation_deep _ (t :: ts)); [reflexivity|reflexivity|unfold fs; cbn; rewrite T; reflexivity|seq]. }
      eapply x_pack; [lia|var|look|var|look|reflexivity|vm_compute; reflexivity|cbn [app]].
      do 3 (eapply packs_cons; [reflexivity|rewrite V; reflexivity|reflexivity|reflexivity|]). packs.
  - unfold Creatable_to_bytes_78. apply x_add; [bytes|]. destruct (Creatable_train_locations x) as [|t ts] eqn:T.
    + cbn [py_index nth_error rbind outb]. apply (pack_raise _ _ _ _ _ _ (DStr (lit unit_CREATABLE_FORMAT))); [reflexivity|look|reflexivity| |].
      * eapply x_global; [reflexivity|look|reflexivity].
      * erewrite (x_first _ _ _ "Creatable" _ _ _ TrainLocation_deep _ []); [reflexivity|reflexivity|unfold fs; cbn; rewrite T; reflexivity|seq].
    + cbn [py_index nth_error rbind].
      assert (V : forall a, d_eval source (d_call source m) "unit" [("self"%string, DObj "Creatable" fs); ("version"%string, dver v)]
         (EAttr (EIndex (EAttr (EName "self") "train_locations") (EConst (KInt 0))) a) = d_attr source (d_call source m) (TrainLocation_deep t) a).
      { intros a. erewrite (x_first _ _ _ "Creatable" _ _ _ TrainLocation_deep _ (t :: ts)); [reflexivity|reflexivity|unfold fs; cbn; rewrite T; reflexivity|seq]. }
      eapply x_pack; [lia|var|look|var|look|reflexivity|vm_compute; reflexivity|cbn [app]].
      do 3 (eapply packs_cons; [reflexivity|rewrite V; reflexivity|reflexivity|reflexivity|]). packs.
Qed.
#[export] Hint Resolve Creatable_w : writes.

Lemma rbind_assoc {A B C} (r : res A) (f : A -> res B) (g : B -> res C) : rbind (rbind r f) g = rbind r (fun x => rbind (f x) g).
Proof. destruct r; reflexivity. Qed.
(** tech.py:158-211 *)
Theorem Tech_w : writes 10 Tech_deep Tech_to_bytes.
Proof.
  start "Tech"%string src_Tech_to_bytes. destruct m as [|m]; [lia|]. dispatch VER_88; [|rewrite run_return]; self_call.
  - rewrite run_return. unfold Tech_to_bytes_88. bytes.
  - unfold Tech_to_bytes_84. rewrite !run_assign. cbn [d_eval dconst obind d_need_int d_int oopt Z.opp].
    rewrite run_assign. cbn [d_eval dconst obind]. rewrite run_assign. cbn [d_eval dconst obind]. rewrite run_assign. cbn [d_eval dconst obind d_need_int d_int oopt Z.opp].
    erewrite run_if; [|value|reflexivity]. rewrite len_map. destruct (Tech_research_locations x) as [|t ts] eqn:T.
    + change (truthy (len (@nil ResearchLocation))) with false. cbv iota. cbn [app rbind]. rewrite run_return. bytes.
    + replace (truthy (len (t :: ts))) with true by reflexivity. cbv iota. cbn [app py_index nth_error rbind].
      assert (V : forall en a, assoc "self" en = Some (DObj "Tech" fs) -> d_eval source (d_call source m) "tech" en
         (EAttr (EIndex (EAttr (EName "self") "research_locations") (EConst (KInt 0))) a) = d_attr source (d_call source m) (ResearchLocation_deep t) a).
      { intros en a S. erewrite (x_first _ _ _ "Tech" _ _ _ ResearchLocation_deep _ (t :: ts)); [reflexivity|exact S|unfold fs; cbn; rewrite T; reflexivity|seq]. }
      do 4 (rewrite run_assign, V by reflexivity; cbn [d_attr ResearchLocation_deep assoc String.eqb Ascii.eqb Bool.eqb obind]).
      rewrite run_return. bytes.
Qed.
#[export] Hint Resolve Tech_w : writes.

(** unit.py:1522-1744 *)
Ltac types a := first [apply x_ne|apply x_geq|apply x_eq]; [value|eapply x_unit_type; [var|look|reflexivity]].
Ltac opt emb := eapply (x_opt _ _ _ _ _ _ emb); [var|reflexivity|reflexivity|].
Ltac opt_class fs E := self x_class; [eauto with writes|lia|reflexivity|eapply x_field; [var|unfold fs; cbn [Unit_deep fields assoc String.eqb Ascii.eqb Bool.eqb]; rewrite E; reflexivity]|var].
Ltac opt_run fs := rewrite ?rbind_assoc; eapply run_opt; [types 0|var|eapply x_opt; [var|reflexivity|reflexivity|intros ? E; opt_class fs E]|intros ? ? ? ?].
Ltac unit_body fs x :=
  rewrite run_assign; cbn [d_eval dconst obind]; rewrite run_assign; cbn [d_eval dconst obind]; rewrite run_assign; cbn [d_eval dconst obind];
  rewrite run_assign; cbn [d_eval dconst obind]; rewrite run_assign; cbn [d_eval dconst obind]; rewrite run_assign; cbn [d_eval dconst obind];
  rewrite run_assign; cbn [d_eval dconst obind]; cbn [rbind];
  (erewrite run_if; [|types 0|reflexivity]);
  match goal with |- run _ _ ((if ?t then _ else _) ++ _) _ = _ => change t with (negb (Unit_type x =? UnitType_AoeTrees)) end;
  destruct (negb (Unit_type x =? UnitType_AoeTrees)); cbn [app];
  [(erewrite run_if; [|types 0|reflexivity]); 
   match goal with |- run _ _ ((if ?t then _ else _) ++ _) _ = _ => change t with (UnitType_Flag <=? Unit_type x) end;
   destruct (UnitType_Flag <=? Unit_type x); cbn [app];
   [rewrite run_assign;
    match goal with |- (v <+ ?e ;; _) = outb (rbind (rbind (rbind ?j _) _) _) =>
      let E := fresh in assert (E : e = outb j) by (eapply x_opt; [var|reflexivity|reflexivity|
        let E := fresh in intros ? E; self x_float; [lia|reflexivity|eapply x_field; [var|unfold fs; cbn [Unit_deep fields assoc String.eqb Ascii.eqb Bool.eqb]; rewrite E; reflexivity]]]);
      rewrite E; clear E; destruct j; [|reflexivity] end;
    cbn [outb obind]; cbn [rbind]; opt_run fs; opt_run fs; opt_run fs; opt_run fs; opt_run fs; opt_run fs; cbn [rbind]|cbn [rbind]]
  |cbn [rbind]].
Theorem Unit_w : writes 14 Unit_deep Unit_to_bytes.
Proof.
  start "Unit"%string src_Unit_to_bytes. destruct m as [|m]; [lia|]. dispatch VER_88; [|rewrite run_return]; self_call.
  - unfold Unit_to_bytes_88. unit_body fs x. all: rewrite run_return; bytes.
  - unfold Unit_to_bytes_84. unit_body fs x. all: rewrite run_return; bytes.
Qed.
#[export] Hint Resolve Unit_w : writes.
