(** * C59: the primitive types and the versions, called by a user as they are written.

    The classes of datatypes.py and versions.py are also a user's: here expressions of a program
    with [from genieutils.datatypes import Int, Float, String] and
    [from genieutils.versions import Version] are run on the source text, with and without the
    arguments that have defaults. *)
From Verif Require Import Base PyInt PyFloat PyStr PyStruct DataTypes Versions Common Wire FloatSpec FloatP Codec CodecP CodecF.
From Verif Require Import Py Source PyRep PyPure PyW PyR PyRE PyRH PyRA PyRL PyRC PyRT PyRK1 PyRK2 PyRK3 PyRK4 PyRU PyRV PyRD PyLoad Props_Prim.
From Coq Require Import String Ascii Lia.
Open Scope Z_scope.
Local Open Scope list_scope.
Local Notation length := List.length.

(** ** What the user writes *)
(** an expression, in a program whose names are [en] *)
Definition shell (n : nat) (en : env) (e : expr) (h : heap) : outcome (val * heap) := eval source (call source n) "__main__" en e h.
(** [c.a(args)] *)
Definition dot (c a : string) (args : list expr) : expr := ECall (EAttr (EName c) a) args.
(** an argument that may be left out: [, x=x] *)
Definition given {X} (x : string) (o : option X) : list expr := match o with Some _ => [EKw x (EName x)] | None => [] end.
Definition or_else {X} (o : option X) (d : X) : X := match o with Some x => x | None => d end.
(** the names of the program: [b], [z], [x], [s] are the values in question *)
Definition names_int (z : Z) (len : option nat) (signed : option bool) : env :=
  [("z", PInt z); ("length", PInt (Z.of_nat (or_else len 0%nat))); ("signed", PBool (or_else signed false))]%string.
Definition names_bytes (b : bytes) (signed : option bool) : env := [("b", PBytes b); ("signed", PBool (or_else signed false))]%string.
Definition names_text (s : pystr) (len : option Z) : env := [("s", PStr s); ("length", PInt (or_else len 0))]%string.

(** ** Running the text *)
Lemma g_main c k : class_of source c = Some k -> global source "__main__" c = Some (PClass c).
Proof. intros C. unfold global. change (global_const source "__main__" c) with (@None val). rewrite C. reflexivity. Qed.
Lemma static_pure n en c a k fn args pos kw h : assoc c en = None -> class_of source c = Some k -> c_members k = [] -> find_method source c a = Some fn -> f_kind fn = StaticMethod ->
  pargs n "__main__" en args pos kw -> shell n en (dot c a args) h = call source n (PMeth (PClass c) a) pos kw h.
Proof.
  intros N C M F S P. unfold shell, dot. eapply eval_call_pure; [|exact P].
  eapply p_class_attr; [exact N|apply (g_main _ _ C)|exact C|rewrite M; reflexivity|exact F|left; exact S].
Qed.
Lemma c_Float' : class_of source "Float" = Some src_Float. Proof. look. Qed.
Lemma c_String' : class_of source "String" = Some src_String. Proof. look. Qed.
Lemma c_Int' : class_of source "Int" = Some src_Int. Proof. look. Qed.

(** datatypes.py:20-21, with or without [signed] *)
Lemma Int_from_call n b (s : option bool) h :
  call source (S (S n)) (PMeth (PClass "Int") "from_bytes") [PBytes b] (match s with Some s => [("signed"%string, PBool s)] | None => [] end) h
  = Ret (PInt (Int_from_bytes b (or_else s true)), h).
Proof.
  destruct s as [s|]; [apply Int_from_run|].
  erewrite call_static_h; [|apply m_Int_from|reflexivity|bnd]. cbn [f_module f_body src_Int_from_bytes]. rewrite run_return.
  erewrite eval_call_pure; [|apply p_unknown_attr; [reflexivity|apply g_datatypes_int|apply c_int]|pas].
  rewrite call_builtin_class by apply m_int. reflexivity.
Qed.
(** datatypes.py:24-25 *)
Lemma Int_to_call n z (l : option nat) (s : option bool) h :
  call source (S (S n)) (PMeth (PClass "Int") "to_bytes") [PInt z]
    (match l with Some l => [("length"%string, PInt (Z.of_nat l))] | None => [] end ++ match s with Some s => [("signed"%string, PBool s)] | None => [] end) h
  = match Int_to_bytes z (or_else l 2%nat) (or_else s true) with Ok b => Ret (PBytes b, h) | Err e => Raise (Std e) end.
Proof.
  assert (R : forall l s pos kw, binds src_Int_to_bytes pos kw [("content", PInt z); ("length", PInt (Z.of_nat l)); ("signed", PBool s)]%string ->
    call source (S (S n)) (PMeth (PClass "Int") "to_bytes") pos kw h = match Int_to_bytes z l s with Ok b => Ret (PBytes b, h) | Err e => Raise (Std e) end).
  { intros l0 s0 pos kw B. erewrite call_static_h; [|apply m_Int_to_bytes|reflexivity|exact B]. cbn [f_module f_body src_Int_to_bytes]. rewrite run_return.
    erewrite eval_call_pure; [|intros h'; reflexivity|pas].
    cbn [call]. unfold builtin. cbn [String.eqb Ascii.eqb Bool.eqb andb]. unfold need_int, as_int, mbind, mopt, mret, is_true.
    cbn [const_val]. change (little (PStr (lit "little"))) with true. replace (0 <=? Z.of_nat l0) with true by (symmetry; apply Z.leb_le; lia). cbn [andb].
    rewrite Nat2Z.id. unfold Int_to_bytes, mres, mret. destruct (int_to_bytes z l0 s0); reflexivity. }
  change 2%nat with (Z.to_nat 2) at 1.
  destruct l as [l|], s as [s|]; cbn [or_else app]; apply R; bnd.
Qed.

(** datatypes.py:34-35 *)
Lemma Float_to_call n x h :
  call source (S (S n)) (PMeth (PClass "Float") "to_bytes") [PFloat x] [] h = match Float_to_bytes LittleEndian x with Ok b => Ret (PBytes b, h) | Err e => Raise (Std e) end.
Proof.
  erewrite call_static_h; [|apply m_Float_to_bytes|reflexivity|bnd]. cbn [f_module f_body src_Float_to_bytes]. rewrite run_return.
  erewrite eval_call_pure; [|apply p_unknown_attr; [reflexivity|apply g_datatypes_struct|apply c_struct]|pas].
  rewrite call_builtin_class by apply m_struct. unfold builtin. cbn [String.eqb Ascii.eqb Bool.eqb andb const_val]. unfold mbind at 1, py_pack.
  change (native_f (lit "f")) with true. cbv iota. reflexivity.
Qed.
(** datatypes.py:10-15: the [length] is None, 0, or any other int *)
Definition String_of (s : pystr) (len : option Z) : res bytes :=
  rbind (str_encode s) (fun b => let k := or_else len 0 in let k := if k =? 0 then Z.of_nat (length b) + 1 else k in Ok (b ++ repeat (byte_of 0) (Z.to_nat (k - Z.of_nat (length b))))).
Lemma concat_nul j : List.concat (repeat [byte_of 0] j) = repeat (byte_of 0) j.
Proof. induction j as [|j IH]; [reflexivity|]. cbn [repeat List.concat app]. f_equal. exact IH. Qed.
Lemma String_to_call n s (len : option Z) h :
  call source (S (S n)) (PMeth (PClass "String") "to_bytes") [PStr s] (match len with Some k => [("length"%string, PInt k)] | None => [] end) h
  = match String_of s len with Ok b => Ret (PBytes b, h) | Err e => Raise (Std e) end.
Proof.
  assert (R : forall v pos kw, v = PNone \/ (exists k, v = PInt k) -> binds src_String_to_bytes pos kw [("content", PStr s); ("length", v)]%string ->
    call source (S (S n)) (PMeth (PClass "String") "to_bytes") pos kw h = match String_of s (match v with PInt k => Some k | _ => None end) with Ok b => Ret (PBytes b, h) | Err e => Raise (Std e) end).
  { intros v pos kw V B. erewrite call_static_h; [|apply m_String_to_bytes|reflexivity|exact B]. cbn [f_module f_body src_String_to_bytes]. rewrite run_assign.
    unfold String_of. unfold mbind at 1. erewrite eval_call_pure; [|intros h'; reflexivity|apply pa_nil].
    change (call source (S n) (PMeth (PStr s) "encode") [] [] h) with ((b <~ mres (str_encode s) ;; mret (PBytes b)) h). unfold mbind at 1, mres.
    destruct (str_encode s) as [b|e]; [|reflexivity]. cbn [rbind].
    change (mret b h) with (@Ret (bytes * heap) (b, h)). cbv iota. change (mret (PBytes b) h) with (@Ret (val * heap) (PBytes b, h)). cbv iota.
    assert (L : forall en, assoc "encoded"%string en = Some (PBytes b) -> assoc "len"%string en = None -> pure (S n) "datatypes" en (ECall (EName "len") [EName "encoded"]) (PInt (Z.of_nat (length b)))).
    { intros en E1 E2 h1. erewrite eval_call_pure; [|apply p_global; [exact E2|apply g_datatypes_len]|apply pa_pos; [reflexivity|apply p_name, E1|apply pa_nil]]. reflexivity. }
    assert (T : forall k en, assoc "length"%string en = Some (PInt k) -> assoc "encoded"%string en = Some (PBytes b) -> assoc "len"%string en = None ->
      run (S n) "datatypes" [SAssign "zfill" (EBin BSub (EName "length") (ECall (EName "len") [EName "encoded"]));
         SReturn (EBin BAdd (EName "encoded") (EBin BMul (EConst (KBytes [byte_of 0])) (EName "zfill")))] en h = Ret (PBytes (b ++ repeat (byte_of 0) (Z.to_nat (k - Z.of_nat (length b)))), h)).
    { intros k en E1 E2 E3. rewrite run_assign.
      assert (Q : pure (S n) "datatypes" en (EBin BSub (EName "length") (ECall (EName "len") [EName "encoded"])) (PInt (k - Z.of_nat (length b)))).
      { intros h1. change (eval source (call source (S n)) "datatypes" en (EBin BSub (EName "length") (ECall (EName "len") [EName "encoded"])) h1)
          with ((x <~ eval source (call source (S n)) "datatypes" en (EName "length") ;; y <~ eval source (call source (S n)) "datatypes" en (ECall (EName "len") [EName "encoded"]) ;; bin BSub x y) h1).
        rewrite (mbind_ret _ _ _ _ _ (p_name _ _ _ _ _ E1 h1)), (mbind_ret _ _ _ _ _ (L en E2 E3 h1)). reflexivity. }
      rewrite (mbind_ret _ _ _ _ _ (Q h)), run_return. cbn [eval]. unfold name. cbn [assoc String.eqb Ascii.eqb Bool.eqb]. rewrite E2. rewrite <- concat_nul. reflexivity. }
    rewrite run_if. destruct V as [->|(k & ->)].
    - change (run (S n) "datatypes" [SAssign "length" (EBin BAdd (ECall (EName "len") [EName "encoded"]) (EConst (KInt 1)));
         SAssign "zfill" (EBin BSub (EName "length") (ECall (EName "len") [EName "encoded"]));
         SReturn (EBin BAdd (EName "encoded") (EBin BMul (EConst (KBytes [byte_of 0])) (EName "zfill")))] [("encoded", PBytes b); ("content", PStr s); ("length", PNone)]%string h = Ret (PBytes (b ++ repeat (byte_of 0) (Z.to_nat (Z.of_nat (length b) + 1 - Z.of_nat (length b)))), h)).
      rewrite run_assign. erewrite mbind_ret; [|apply p_add; [apply L; reflexivity|apply p_int]]. apply T; reflexivity.
    - cbn [or_else]. transitivity (run (S n) "datatypes" ((if negb (negb (k =? 0)) then [SAssign "length" (EBin BAdd (ECall (EName "len") [EName "encoded"]) (EConst (KInt 1)))] else []) ++
         [SAssign "zfill" (EBin BSub (EName "length") (ECall (EName "len") [EName "encoded"]));
         SReturn (EBin BAdd (EName "encoded") (EBin BMul (EConst (KBytes [byte_of 0])) (EName "zfill")))]) [("encoded", PBytes b); ("content", PStr s); ("length", PInt k)]%string h); [reflexivity|].
      rewrite negb_involutive. destruct (k =? 0); cbn [app]; [|apply T; reflexivity].
      rewrite run_assign. erewrite mbind_ret; [|apply p_add; [apply L; reflexivity|apply p_int]]. apply T; reflexivity. }
  destruct len as [k|]; [apply (R (PInt k))|apply (R PNone)]; eauto; bnd.
Qed.

(** ** Integers *)
(** [Int.from_bytes(b)] and [Int.from_bytes(b, signed=signed)]: the little-endian value of all the
    bytes, in two's complement unless told otherwise; the heap is left as it was. *)
Theorem C59_int_from_bytes : forall n h b (signed : option bool), (2 <= n)%nat -> exists z,
  shell n (names_bytes b signed) (dot "Int" "from_bytes" (EName "b" :: given "signed" signed)) h = Ret (PInt z, h) /\
  holds (length b) (or_else signed true) z /\
  exists k, z = positional 0 b + k * 2 ^ (8 * Z.of_nat (length b)) /\ (or_else signed true = false -> k = 0).
Proof.
  intros n h b signed N. destruct n as [|[|n]]; try lia. exists (Int_from_bytes b (or_else signed true)).
  split; [|split; [apply C09_reencode|apply C09_value]].
  erewrite static_pure; [apply (Int_from_call n b signed h)|reflexivity|apply c_Int'|reflexivity|apply m_Int_from|reflexivity|].
  destruct signed; cbn [given or_else]; pas.
Qed.
(** [Int.to_bytes(z)], [Int.to_bytes(z, length=length)], [... signed=signed)]: two bytes and signed
    unless told otherwise; the number that does not fit is refused. *)
Definition to_bytes_int (len : option nat) (signed : option bool) : expr := dot "Int" "to_bytes" (EName "z" :: given "length" len ++ given "signed" signed).
Lemma to_bytes_int_runs n h z len signed : (2 <= n)%nat ->
  shell n (names_int z len signed) (to_bytes_int len signed) h
  = match Int_to_bytes z (or_else len 2%nat) (or_else signed true) with Ok b => Ret (PBytes b, h) | Err e => Raise (Std e) end.
Proof.
  intros N. destruct n as [|[|n]]; try lia. unfold to_bytes_int.
  erewrite static_pure; [apply (Int_to_call n z len signed h)|reflexivity|apply c_Int'|reflexivity|apply m_Int_to_bytes|reflexivity|].
  destruct len, signed; cbn [given or_else app]; pas.
Qed.
Theorem C59_int_to_bytes : forall n h z (len : option nat) (signed : option bool), (2 <= n)%nat ->
  let k := or_else len 2%nat in let s := or_else signed true in
  (holds k s z -> shell n (names_int z len signed) (to_bytes_int len signed) h = Ret (PBytes (little_endian k z), h) /\ length (little_endian k z) = k) /\
  (~ holds k s z -> shell n (names_int z len signed) (to_bytes_int len signed) h = Raise (Std OverflowError)).
Proof.
  intros n h z len signed N k s. rewrite to_bytes_int_runs by exact N. fold k s. destruct (C09_encode k s z) as [A B]. split; intros H.
  - destruct (A H) as [E L]. rewrite E. split; [reflexivity|exact L].
  - rewrite (B H). reflexivity.
Qed.
(** the one undoes the other, in one expression: [Int.from_bytes(Int.to_bytes(z, ...), ...)] *)
Theorem C59_int_round_trip : forall n h z (len : option nat) (signed : option bool), (2 <= n)%nat ->
  holds (or_else len 2%nat) (or_else signed true) z ->
  shell n (names_int z len signed) (dot "Int" "from_bytes" (to_bytes_int len signed :: given "signed" signed)) h = Ret (PInt z, h).
Proof.
  intros n h z len signed N H. pose proof (to_bytes_int_runs n) as R. destruct (proj1 (C09_encode _ _ _) H) as [E L].
  assert (P : pure n "__main__" (names_int z len signed) (to_bytes_int len signed) (PBytes (little_endian (or_else len 2%nat) z))).
  { intros h1. pose proof (R h1 z len signed N) as R1. rewrite E in R1. exact R1. }
  destruct n as [|[|n]]; try lia.
  erewrite static_pure; [etransitivity; [apply (Int_from_call n (little_endian (or_else len 2%nat) z) signed h)|rewrite (C09_decode _ _ _ _ E); reflexivity]|reflexivity|apply c_Int'|reflexivity|apply m_Int_from|reflexivity|].
  apply pa_pos; [reflexivity|exact P|]. destruct signed; cbn [given or_else]; pas.
Qed.
(** ... and [Int.to_bytes(Int.from_bytes(b, ...), length=length, ...)] gives the bytes back, for any [b] of that length *)
Theorem C59_int_bytes_back : forall n h b (signed : option bool), (2 <= n)%nat ->
  shell n (("length"%string, PInt (Z.of_nat (length b))) :: names_bytes b signed)
    (dot "Int" "to_bytes" (dot "Int" "from_bytes" (EName "b" :: given "signed" signed) :: EKw "length" (EName "length") :: given "signed" signed)) h = Ret (PBytes b, h).
Proof.
  intros n h b signed N. destruct n as [|[|n]]; try lia.
  set (en := ("length"%string, PInt (Z.of_nat (length b))) :: names_bytes b signed).
  assert (P : pure (S (S n)) "__main__" en (dot "Int" "from_bytes" (EName "b" :: given "signed" signed)) (PInt (Int_from_bytes b (or_else signed true)))).
  { intros h1. change (shell (S (S n)) en (dot "Int" "from_bytes" (EName "b" :: given "signed" signed)) h1 = Ret (PInt (Int_from_bytes b (or_else signed true)), h1)).
    erewrite static_pure; [apply (Int_from_call n b signed h1)|reflexivity|apply c_Int'|reflexivity|apply m_Int_from|reflexivity|]. destruct signed; cbn [given or_else]; pas. }
  erewrite static_pure; [etransitivity; [apply (Int_to_call n (Int_from_bytes b (or_else signed true)) (Some (length b)) signed h)|cbn [or_else]; rewrite (proj2 (C09_reencode b _)); reflexivity]
    |reflexivity|apply c_Int'|reflexivity|apply m_Int_to_bytes|reflexivity|].
  apply pa_pos; [reflexivity|exact P|]. destruct signed; cbn [given or_else app]; pas.
Qed.
Example C59_case_int : shell 2 (names_int (-2) None None) (to_bytes_int None None) [] = Ret (PBytes [byte_of 254; byte_of 255], []) /\
  shell 2 (names_bytes [byte_of 254; byte_of 255] None) (dot "Int" "from_bytes" [EName "b"]) [] = Ret (PInt (-2), []) /\ holds 2 true (-2) /\ ~ holds 2 true 32768.
Proof. repeat split; try (vm_compute; reflexivity); unfold holds; try lia. Qed.

(** ** Floats *)
(** [Float.from_bytes(b)]: four bytes give the number the pattern stands for; anything else is refused. *)
Theorem C59_float_from_bytes : forall n h b, (2 <= n)%nat ->
  (length b = 4%nat -> exists x, shell n [("b"%string, PBytes b)] (dot "Float" "from_bytes" [EName "b"]) h = Ret (PFloat x, h) /\
     (f32_finite (le_value b) -> f64_finite x /\ d_sign x = s_sign (le_value b) /\ f64_value x = f32_value (le_value b))) /\
  (length b <> 4%nat -> shell n [("b"%string, PBytes b)] (dot "Float" "from_bytes" [EName "b"]) h = Raise (Std StructError)).
Proof.
  intros n h b N. destruct n as [|[|n]]; try lia.
  erewrite static_pure; [|reflexivity|apply c_Float'|reflexivity|apply m_Float_from|reflexivity|pas]. rewrite Float_from_run. split; intros L.
  - destruct (Float_from_bytes LittleEndian b) as [x|e] eqn:E; [|unfold Float_from_bytes in E; rewrite L in E; discriminate E].
    exists x. split; [reflexivity|]. intros F. apply (C13_read_value b x L F E).
  - rewrite (C13_length b L). reflexivity.
Qed.
(** [Float.to_bytes(x)]: four bytes, for every float: the nearest single (ties to even) when [x] is
    in range, an infinity with the sign of [x] beyond. *)
Theorem C59_float_to_bytes : forall n h x, (2 <= n)%nat -> exists b,
  shell n [("x"%string, PFloat x)] (dot "Float" "to_bytes" [EName "x"]) h = Ret (PBytes (little_endian 4 b), h) /\
  (f64_finite x -> too_big x -> b = infinity_of x) /\ (f64_finite x -> ~ too_big x -> nearest_even (f64_value x) b).
Proof.
  intros n h x N. destruct n as [|[|n]]; try lia.
  erewrite static_pure; [|reflexivity|apply c_Float'|reflexivity|apply m_Float_to_bytes|reflexivity|pas]. rewrite Float_to_call.
  exists (f32_of_f64 x). unfold Float_to_bytes. cbn [order]. rewrite little_endian_le_bytes. split; [reflexivity|]. split.
  - intros F T. assert (E : f64_too_large x = true) by (apply too_large_iff; split; assumption).
    unfold f64_too_large, narrow_overflows in E. unfold f64_finite in F. change (d_exp x) with (f64_exp (f64_bits x)) in F.
    unfold f32_of_f64, narrow, narrow_mag, infinity_of, f32_inf in *. change (d_sign x) with (f64_sign (f64_bits x)).
    destruct (f64_exp (f64_bits x) =? 2047) eqn:X; [lia|]. lia.
  - intros F T. apply round_nearest; [exact F|]. destruct (f64_too_large x) eqn:E; [|reflexivity]. apply too_large_iff in E. destruct E as [_ E]. contradiction.
Qed.
(** [Float.to_bytes(Float.from_bytes(b))]: the same bytes, unless they are a signalling NaN. *)
Theorem C59_float_bytes_back : forall n h b, (2 <= n)%nat -> length b = 4%nat -> ~ signalling (le_value b) ->
  shell n [("b"%string, PBytes b)] (dot "Float" "to_bytes" [dot "Float" "from_bytes" [EName "b"]]) h = Ret (PBytes b, h).
Proof.
  intros n h b N L G. destruct n as [|[|n]]; try lia. destruct (C13_patterns b L G) as (x & E & W).
  assert (P : pure (S (S n)) "__main__" [("b"%string, PBytes b)] (dot "Float" "from_bytes" [EName "b"]) (PFloat x)).
  { intros h1. change (shell (S (S n)) [("b"%string, PBytes b)] (dot "Float" "from_bytes" [EName "b"]) h1 = Ret (PFloat x, h1)).
    erewrite static_pure; [|reflexivity|apply c_Float'|reflexivity|apply m_Float_from|reflexivity|pas]. rewrite Float_from_run, E. reflexivity. }
  erewrite static_pure; [|reflexivity|apply c_Float'|reflexivity|apply m_Float_to_bytes|reflexivity|apply pa_pos; [reflexivity|exact P|apply pa_nil]].
  rewrite Float_to_call, W. reflexivity.
Qed.
Example C59_case_float : f64_finite f64_tenth /\ ~ too_big f64_tenth /\ f64_finite f64_1e39 /\ too_big f64_1e39 /\ ~ signalling (le_value (map byte_of [0; 0; 128; 63])).
Proof.
  split; [vm_compute; discriminate|]. split; [intros H; vm_compute in H; apply H; reflexivity|]. split; [vm_compute; discriminate|].
  split; [vm_compute; discriminate|]. intros [H _]. vm_compute in H. discriminate H.
Qed.

(** ** Text *)
(** [String.to_bytes(s)] and [String.to_bytes(s, length=length)]: the UTF-8 of the text, followed by
    one NUL when there is no length (or it is 0), else by as many as there is room for (none, when
    the text is longer: it is not cut). *)
Definition to_bytes_text (len : option Z) : expr := dot "String" "to_bytes" (EName "s" :: given "length" len).
Theorem C59_string_to_bytes : forall n h s (len : option Z), (2 <= n)%nat ->
  (forall enc, str_encode s = Ok enc -> exists k,
     shell n (names_text s len) (to_bytes_text len) h = Ret (PBytes (enc ++ repeat (byte_of 0) k), h) /\
     (len = None \/ len = Some 0 -> k = 1%nat) /\
     (forall z, len = Some z -> z <> 0 -> Z.of_nat (length enc + k) = Z.max (Z.of_nat (length enc)) z)) /\
  (forall e, str_encode s = Err e -> shell n (names_text s len) (to_bytes_text len) h = Raise (Std e)).
Proof.
  intros n h s len N. destruct n as [|[|n]]; try lia.
  assert (E : shell (S (S n)) (names_text s len) (to_bytes_text len) h = match String_of s len with Ok b => Ret (PBytes b, h) | Err e => Raise (Std e) end).
  { unfold to_bytes_text. erewrite static_pure; [apply (String_to_call n s len h)|reflexivity|apply c_String'|reflexivity|apply m_String_to_bytes|reflexivity|].
    destruct len; cbn [given or_else]; pas. }
  rewrite E. unfold String_of. split; [intros enc W|intros e W]; rewrite W; cbn [rbind]; [|reflexivity].
  eexists. split; [reflexivity|]. split.
  - intros [->| ->]; cbn [or_else]; change (0 =? 0) with true; cbv iota; lia.
  - intros z -> Z0. cbn [or_else]. destruct (Z.eqb_spec z 0); [contradiction|]. lia.
Qed.
(** [String.from_bytes(b)]: the UTF-8 text of the bytes, its trailing NULs left out; what is no UTF-8 is refused. *)
Lemma String_from_cases b :
  (forall s t, str_encode s = Ok b -> strip_nul s t -> String_from_bytes b = Ok t) /\ ((forall s, str_encode s <> Ok b) -> String_from_bytes b = Err UnicodeDecodeError).
Proof.
  split.
  - intros s t E Q. unfold str_encode in E. destruct (forallb scalar s) eqn:C; [|discriminate E]. injection E as <-. apply (String_from_bytes_strip s t C Q).
  - intros H. unfold String_from_bytes. destruct (C10_decode_encode (rstrip0 b)) as [E|(s & _ & _ & E)]; [rewrite E; reflexivity|]. exfalso.
    destruct (rstrip0_spec b) as [k Q]. apply (H (s ++ repeat 0 k)). rewrite Q. apply C10_append; [exact E|].
    clear. unfold str_encode. replace (forallb scalar (repeat 0 k)) with true by (induction k; [reflexivity|]; cbn [repeat forallb]; rewrite <- IHk; reflexivity).
    f_equal. induction k as [|k IH]; [reflexivity|]. cbn [repeat]. change (utf8 (0 :: repeat 0 k)) with (byte_of 0 :: utf8 (repeat 0 k)). rewrite IH. reflexivity.
Qed.
Theorem C59_string_from_bytes : forall n h b, (2 <= n)%nat ->
  (forall s t, str_encode s = Ok b -> strip_nul s t -> shell n [("b"%string, PBytes b)] (dot "String" "from_bytes" [EName "b"]) h = Ret (PStr t, h)) /\
  ((forall s, str_encode s <> Ok b) -> shell n [("b"%string, PBytes b)] (dot "String" "from_bytes" [EName "b"]) h = Raise (Std UnicodeDecodeError)).
Proof.
  intros n h b N. destruct n as [|[|n]]; try lia.
  erewrite static_pure; [|reflexivity|apply c_String'|reflexivity|apply m_String_from|reflexivity|pas]. rewrite String_from_run.
  destruct (String_from_cases b) as [A B]. split.
  - intros s t E Q. rewrite (A s t E Q). reflexivity.
  - intros H. rewrite (B H). reflexivity.
Qed.
(** [String.from_bytes(String.to_bytes(s, ...))] is [s] without its trailing NULs, whatever the length. *)
Theorem C59_string_round_trip : forall n h s t enc (len : option Z), (2 <= n)%nat -> str_encode s = Ok enc -> strip_nul s t ->
  shell n (names_text s len) (dot "String" "from_bytes" [to_bytes_text len]) h = Ret (PStr t, h).
Proof.
  intros n h s t enc len N E Q.
  assert (P : exists k, pure n "__main__" (names_text s len) (to_bytes_text len) (PBytes (enc ++ repeat (byte_of 0) k))).
  { destruct n as [|[|n]]; try lia. exists (Z.to_nat ((if or_else len 0 =? 0 then Z.of_nat (length enc) + 1 else or_else len 0) - Z.of_nat (length enc))). intros h1. change (shell (S (S n)) (names_text s len) (to_bytes_text len) h1 = Ret (PBytes (enc ++ repeat (byte_of 0) (Z.to_nat ((if or_else len 0 =? 0 then Z.of_nat (length enc) + 1 else or_else len 0) - Z.of_nat (length enc)))), h1)).
    unfold to_bytes_text. erewrite static_pure; [etransitivity; [apply (String_to_call n s len h1)|unfold String_of; rewrite E; cbn [rbind]; reflexivity]|reflexivity|apply c_String'|reflexivity|apply m_String_to_bytes|reflexivity|].
    destruct len; cbn [given or_else]; pas. }
  destruct P as [k P]. destruct n as [|[|n]]; try lia.
  erewrite static_pure; [|reflexivity|apply c_String'|reflexivity|apply m_String_from|reflexivity|apply pa_pos; [reflexivity|exact P|apply pa_nil]].
  rewrite String_from_run. unfold str_encode in E. destruct (forallb scalar s) eqn:C; [|discriminate E]. injection E as <-.
  pose proof (String_from_bytes_strip s t C Q) as R. unfold String_from_bytes in *. rewrite rstrip0_zeros, R. reflexivity.
Qed.
Example C59_case_text : str_encode [97; 0; 98; 0] = Ok (map byte_of [97; 0; 98; 0]) /\ strip_nul [97; 0; 98; 0] [97; 0; 98] /\
  shell 2 (names_text (lit "ab") (Some 4)) (to_bytes_text (Some 4)) [] = Ret (PBytes (map byte_of [97; 98; 0; 0]), []).
Proof. repeat split; try (vm_compute; reflexivity). exists 1%nat. split; [reflexivity|]. apply no_trailing_nul_spec. reflexivity. Qed.

(** ** Versions *)
(** [v < w], [v <= w], [v > w], [v >= w]: the order of the version numbers, UNDEFINED below all. *)
Definition holds_cmp (o : cmpop) (a b : Z) : option Prop :=
  match o with CLt => Some (a < b) | CLe => Some (a <= b) | CGt => Some (a > b) | CGe => Some (a >= b) | _ => None end.
Theorem C59_version_order : forall n h v w o P, (3 <= n)%nat -> holds_cmp o (vnum v) (vnum w) = Some P -> exists t,
  shell n [("v", version_val v); ("w", version_val w)]%string (ECmp o (EName "v") (EName "w")) h = Ret (PBool t, h) /\ (t = true <-> P).
Proof.
  intros n h v w o P N H.
  exists (match o with CLt => vnum v <? vnum w | CLe => vnum v <=? vnum w | CGt => vnum w <? vnum v | CGe => vnum w <=? vnum v | _ => false end).
  split; [|destruct o; cbn [holds_cmp] in H; try discriminate H; injection H as <-; lia].
  destruct n as [|[|[|n]]]; try lia.
  destruct o; cbn [holds_cmp] in H; try discriminate H; clear H; destruct v, w; reflexivity.
Qed.
(** [Version(s)]: the member whose string is [s]; any other text is refused.  [v.value] is that string. *)
Theorem C59_version_lookup : forall n h s, (2 <= n)%nat ->
  (forall v, version_value v = s -> shell n [("s"%string, PStr s)] (ECall (EName "Version") [EName "s"]) h = Ret (version_val v, h)) /\
  ((forall v, version_value v <> s) -> shell n [("s"%string, PStr s)] (ECall (EName "Version") [EName "s"]) h = Raise (Std ValueError)).
Proof.
  intros n h s N. destruct n as [|n]; [lia|].
  assert (E : shell (S n) [("s"%string, PStr s)] (ECall (EName "Version") [EName "s"]) h = match version_lookup s with Ok v => Ret (version_val v, h) | Err f => Raise (Std f) end).
  { unfold shell. erewrite eval_call_pure; [|apply p_global; [reflexivity|apply (g_main "Version" _ c_Version)]|pas]. apply call_version. }
  rewrite E. destruct (C16_lookup s) as [A B]. split.
  - intros v V. rewrite (proj2 (A v) V). reflexivity.
  - intros V. rewrite (B V). reflexivity.
Qed.
Theorem C59_version_value : forall n h v, shell n [("v", version_val v)]%string (EAttr (EName "v") "value") h = Ret (PStr (version_value v), h).
Proof. intros n h v. destruct v; reflexivity. Qed.
Example C59_case_version : shell 3 [("v", version_val VER_78); ("w", version_val VER_84)]%string (ECmp CLt (EName "v") (EName "w")) [] = Ret (PBool true, []) /\
  (exists v, version_value v = lit "VER 7.8") /\ forall v, version_value v <> lit "VER 9.9".
Proof. split; [reflexivity|]. split; [exists VER_78; reflexivity|]. intros v. destruct v; vm_compute; discriminate. Qed.

(** ** Reading from a [ByteHandler] *)
(** [data = ByteHandler(memoryview(b))] gives a new object, at the start of the bytes. *)
Definition cursor (c : bytes) (o : nat) (v : Version) : obj := OInst "ByteHandler" [("content", PBytes c); ("offset", PInt (Z.of_nat o)); ("version", version_val v)]%string.
Theorem C59_handler : forall n h b, (2 <= n)%nat ->
  shell n [("b"%string, PBytes b)] (ECall (EName "ByteHandler") [ECall (EName "memoryview") [EName "b"]]) h = Ret (PRef (length h), h ++ [cursor b 0 UNDEFINED]).
Proof.
  intros n h b N. destruct n as [|[|n]]; try lia. unfold shell.
  erewrite eval_call_pure; [|apply p_global; [reflexivity|apply (g_main "ByteHandler" _ c_handler)]|].
  - apply (handler_new n b h).
  - apply pa_pos; [reflexivity| |apply pa_nil]. intros h1. reflexivity.
Qed.
(** [data.a(args)] gives [v], moves the cursor of [data] on by [k], and does nothing else. *)
Definition takes (n : nat) (h : heap) (l : nat) (c : bytes) (o : nat) (w : Version) (a : string) (args : list expr) (k : nat) (v : val) : Prop :=
  exists h', shell n [("data"%string, PRef l)] (dot "data" a args) h = Ret (v, h') /\ nth_error h' l = Some (cursor c (o + k) w) /\
    (length h <= length h')%nat /\ forall q, (q < length h)%nat -> q <> l -> nth_error h' q = nth_error h q.
Definition at_cursor (h : heap) (l : nat) (c : bytes) (o : nat) (w : Version) : Prop := nth_error h l = Some (cursor c o w).
Lemma takes_of {B} n h l c o w a fn args pos kw k (f : rd B) (E : B -> val) j : at_cursor h l c o w -> assoc a (c_methods src_ByteHandler) = Some fn -> f_kind fn = Method ->
  pargs n "__main__" [("data"%string, PRef l)] args pos kw -> @tells Any B k a pos kw f E -> (k <= n)%nat ->
  match f (mkHandler c o w []) with
  | Ok (b, hd) => (h_content hd = c /\ h_offset hd = (o + j)%nat /\ h_version hd = w) -> takes n h l c o w a args j (E b)
  | Err e => shell n [("data"%string, PRef l)] (dot "data" a args) h = Raise (Std e)
  end.
Proof.
  intros C F K P T N. pose (hd0 := mkHandler c o w []).
  assert (A : @at_ Any l hd0 h) by (constructor; [exact C|exact Logic.I]).
  pose proof (T n l hd0 h N A) as R. unfold ok in R. fold hd0.
  assert (Q : shell n [("data"%string, PRef l)] (dot "data" a args) h = call source n (PMeth (PRef l) a) pos kw h).
  { unfold shell, dot. eapply (@e_handler Any); [reflexivity|exact A|exact F|exact K|exact P]. }
  destruct (f hd0) as [[b hd]|e]; [|rewrite Q; exact R]. intros (H1 & H2 & H3). destruct R as (v & h' & R & A' & T' & ->).
  exists h'. rewrite Q. split; [exact R|]. split; [|split; [apply T'|apply T']].
  rewrite (at_eq _ _ _ A'). unfold hobj, cursor. rewrite H1, H2, H3. reflexivity.
Qed.
(** The readers of one integer: how many bytes, and whether signed.  Past the end there are fewer bytes. *)
Definition int_readers : list (string * list expr * nat * bool) :=
  [("read_int_8", [], 1%nat, false); ("read_int_16", [], 2%nat, true); ("read_int_16", [EKw "signed" (EConst (KBool false))], 2%nat, false);
   ("read_int_32", [], 4%nat, true); ("read_int_32", [EKw "signed" (EConst (KBool false))], 4%nat, false)]%string.
Theorem C59_read_int : forall n h l c o w a args k s, (3 <= n)%nat -> at_cursor h l c o w -> In (a, args, k, s) int_readers -> exists z,
  takes n h l c o w a args k (PInt z) /\ let b := slice c o k in
  holds (length b) s z /\ exists m, z = positional 0 b + m * 2 ^ (8 * Z.of_nat (length b)) /\ (s = false -> m = 0).
Proof.
  intros n h l c o w a args k s N C I. exists (Int_from_bytes (slice c o k) s). split; [|split; [apply C09_reencode|apply C09_value]].
  destruct I as [E|[E|[E|[E|[E|[]]]]]]; injection E as <- <- <- <-;
  match goal with |- takes _ _ _ _ _ _ ?a ?args ?k _ =>
    match a with
    | "read_int_8"%string => pose proof (takes_of n h l c o w a _ args [] [] 3 _ _ k C eq_refl eq_refl ltac:(pas) (@int_8_run Any) N) as T
    | "read_int_16"%string => match args with
       | [] => pose proof (takes_of n h l c o w a _ args [] [] 3 _ _ k C eq_refl eq_refl ltac:(pas) (@int_16_run Any) N) as T
       | _ => pose proof (takes_of n h l c o w a _ args [] [("signed"%string, PBool false)] 3 _ _ k C eq_refl eq_refl ltac:(pas) (@uint_16_run Any) N) as T end
    | _ => match args with
       | [] => pose proof (takes_of n h l c o w a _ args [] [] 3 _ _ k C eq_refl eq_refl ltac:(pas) (@int_32_run Any) N) as T
       | _ => pose proof (takes_of n h l c o w a _ args [] [("signed"%string, PBool false)] 3 _ _ k C eq_refl eq_refl ltac:(pas) (@uint_32_run Any) N) as T end
    end end;
  unfold read_int_8, read_int_16, read_int_32, consume_range, consume_slice, bind, note, ret, lift in T; cbn [h_content h_offset h_version h_losses] in T;
  destruct (Nat.ltb _ _) in T; cbn [h_content h_offset h_version h_losses] in T; apply T; auto.
Qed.
(** a float: four bytes or nothing *)
Theorem C59_read_float : forall n h l c o w, (3 <= n)%nat -> at_cursor h l c o w -> let b := slice c o 4 in
  (length b = 4%nat -> exists x, takes n h l c o w "read_float" [] 4 (PFloat x) /\
     (f32_finite (le_value b) -> f64_finite x /\ d_sign x = s_sign (le_value b) /\ f64_value x = f32_value (le_value b))) /\
  (length b <> 4%nat -> shell n [("data"%string, PRef l)] (dot "data" "read_float" []) h = Raise (Std StructError)).
Proof.
  intros n h l c o w N C b.
  pose proof (takes_of n h l c o w "read_float" _ [] [] [] 3 _ _ 4 C eq_refl eq_refl ltac:(pas) (@float_run Any) N) as T.
  unfold read_float, consume_range, consume_slice, bind, note, ret, lift in T. cbn [h_content h_offset h_version h_losses] in T. fold b in T.
  split; intros L.
  - destruct (Float_from_bytes LittleEndian b) as [x|e] eqn:E; [|unfold Float_from_bytes in E; rewrite L in E; discriminate E].
    exists x. split; [destruct (Nat.ltb _ _), (_ && _); cbn in T; apply T; auto|]. intros F. apply (C13_read_value b x L F E).
  - rewrite (C13_length b L) in T. exact T.
Qed.
(** a text of fixed length: what is before the trailing NULs of the next [k] bytes *)
Theorem C59_read_string : forall n h l c o w k, (3 <= n)%nat -> at_cursor h l c o w -> let b := slice c o k in
  (forall s t, str_encode s = Ok b -> strip_nul s t -> takes n h l c o w "read_string" [EConst (KInt (Z.of_nat k))] k (PStr t)) /\
  ((forall s, str_encode s <> Ok b) -> shell n [("data"%string, PRef l)] (dot "data" "read_string" [EConst (KInt (Z.of_nat k))]) h = Raise (Std UnicodeDecodeError)).
Proof.
  intros n h l c o w k N C b.
  pose proof (takes_of n h l c o w "read_string" _ [EConst (KInt (Z.of_nat k))] [PInt (Z.of_nat k)] [] 3 _ _ k C eq_refl eq_refl ltac:(pas) (@string_run Any k) N) as T.
  unfold read_string, consume_range, consume_slice, bind, note, ret, lift in T. cbn [h_content h_offset h_version h_losses] in T. fold b in T.
  destruct (String_from_cases b) as [A B]. split.
  - intros s t E Q. rewrite (A s t E Q) in T. destruct (Nat.ltb _ _) in T; cbn in T; apply T; auto.
  - intros H. rewrite (B H) in T. exact T.
Qed.
(** a debug string as it is written: the marker, the length, the text; any other marker is refused *)
Theorem C59_read_debug_string : forall n h l c o w, (4 <= n)%nat -> at_cursor h l c o w ->
  (forall pre s t enc post, (Z.of_nat (length enc) <= 65535) -> str_encode s = Ok enc -> strip_nul s t -> o = length pre ->
     c = pre ++ ([byte_of 96; byte_of 10] ++ little_endian 2 (Z.of_nat (length enc)) ++ enc) ++ post ->
     takes n h l c o w "read_debug_string" [] (4 + length enc) (PStr t)) /\
  (slice c o 2 <> [byte_of 96; byte_of 10] -> shell n [("data"%string, PRef l)] (dot "data" "read_debug_string" []) h = Raise (Std AssertionError)).
Proof.
  intros n h l c o w N C.
  assert (T := fun j => takes_of n h l c o w "read_debug_string" _ [] [] [] 4 _ _ j C eq_refl eq_refl ltac:(pas) (@debug_run Any) N).
  split.
  - intros pre s t enc post L E Q O0 C0. pose proof (proj1 (C11_write s enc E) L) as W.
    destruct (C11_read_written s t _ W Q pre post w []) as [ls R]. rewrite <- C0, <- O0 in R.
    specialize (T (4 + length enc)%nat). rewrite R in T. cbn [h_content h_offset h_version] in T. apply T. split; [reflexivity|]. split; [|reflexivity].
    rewrite !app_length. rewrite little_endian_le_bytes, le_bytes_length. cbn [List.length]. lia.
  - intros M. specialize (T 0%nat). rewrite (C11_marker (mkHandler c o w [])) in T by exact M. exact T.
Qed.
(** The readers of so many integers, one after the other, as a tuple. *)
Definition tuple_readers : list (string * nat * nat * bool) :=
  [("read_int_8_array_2", 2, 1, false); ("read_int_8_array_3", 3, 1, false); ("read_int_8_array_5", 5, 1, false); ("read_int_8_array_6", 6, 1, false);
   ("read_int_8_array_10", 10, 1, false); ("read_int_16_array_2", 2, 2, true); ("read_int_16_array_3", 3, 2, true); ("read_int_16_array_4", 4, 2, true);
   ("read_int_16_array_6", 6, 2, true); ("read_int_32_array_10", 10, 4, true)]%string%nat.
Definition take_int (k : nat) (s : bool) : rd Z := bs <- consume_range k ;; ret (Int_from_bytes bs s).
Lemma loop_take k s m : forall hd, exists ls,
  loop m (take_int k s) hd = Ok (map (fun i => Int_from_bytes (slice (h_content hd) (h_offset hd + i * k) k) s) (seq 0 m), mkHandler (h_content hd) (h_offset hd + m * k) (h_version hd) ls).
Proof.
  induction m as [|m IH]; intros hd; cbn [loop seq map].
  - exists (h_losses hd). unfold ret. rewrite Nat.add_0_r. destruct hd; reflexivity.
  - unfold take_int at 1, consume_range, consume_slice, bind, note, ret. cbn [h_content h_offset h_version h_losses]. 
    match goal with |- context[loop m _ ?x] => set (hd1 := x) end.
    assert (Q : h_content hd1 = h_content hd /\ h_offset hd1 = (h_offset hd + k)%nat /\ h_version hd1 = h_version hd) by (subst hd1; destruct (Nat.ltb _ _); auto).
    destruct Q as (Q1 & Q2 & Q3). destruct (IH hd1) as [ls E]. rewrite E, Q1, Q2, Q3. exists ls. f_equal. f_equal.
    + f_equal; [rewrite Nat.mul_0_l, Nat.add_0_r; reflexivity|]. rewrite <- seq_shift, map_map. apply map_ext. intros i. do 2 f_equal. lia.
    + f_equal. lia.
Qed.
Lemma range_loop {A} m (f : rd A) hd : for_range (Z.of_nat m) f hd = loop m f hd.
Proof. unfold for_range, bind, note. replace (Z.of_nat m <? 0) with false by lia. rewrite Nat2Z.id. reflexivity. Qed.
Theorem C59_read_tuple : forall n h l c o w a m k s, (4 <= n)%nat -> at_cursor h l c o w -> In (a, m, k, s) tuple_readers -> exists zs,
  takes n h l c o w a [] (m * k) (PTuple (map PInt zs)) /\ length zs = m /\
  forall i z, nth_error zs i = Some z -> let b := slice c (o + i * k) k in
    holds (length b) s z /\ exists j, z = positional 0 b + j * 2 ^ (8 * Z.of_nat (length b)) /\ (s = false -> j = 0).
Proof.
  intros n h l c o w a m k s N C I. exists (map (fun i => Int_from_bytes (slice c (o + i * k) k) s) (seq 0 m)).
  split; [|split; [rewrite map_length, seq_length; reflexivity|]].
  2:{ intros i z E b. rewrite nth_error_map in E. destruct (nth_error (seq 0 m) i) as [i'|] eqn:Q; [|discriminate E]. injection E as <-.
      assert (L : (i < m)%nat) by (rewrite <- (seq_length m 0); apply nth_error_Some; rewrite Q; discriminate).
      apply (nth_error_nth _ _ 0%nat) in Q. rewrite seq_nth in Q by exact L. cbn in Q. subst i'.
      split; [apply C09_reencode|apply C09_value]. }
  assert (F := fun a fn rd0 A K T => takes_of n h l c o w a fn [] [] [] 4 rd0 pints (m * k)%nat C A K (pa_nil _ _ _) T N).
  assert (G : forall a fn rd0, assoc a (c_methods src_ByteHandler) = Some fn -> f_kind fn = Method -> @tells Any _ 4 a [] [] rd0 pints ->
    (forall hd, rd0 hd = loop m (take_int k s) hd) -> takes n h l c o w a [] (m * k) (PTuple (map PInt (map (fun i => Int_from_bytes (slice c (o + i * k) k) s) (seq 0 m))))).
  { intros a0 fn rd0 A K T E. specialize (F a0 fn rd0 A K T). rewrite E in F. destruct (loop_take k s m (mkHandler c o w [])) as [ls R]. rewrite R in F.
    cbn [h_content h_offset h_version] in F. apply F. auto. }
  assert (R0 : forall hd, read_int_8_array_2 hd = read_int_8_array 2 hd) by (intros hd; apply (C37_fixed hd)).
  assert (R1 : forall hd, read_int_8_array_3 hd = read_int_8_array 3 hd) by (intros hd; apply (C37_fixed hd)).
  assert (R2 : forall hd, read_int_8_array_5 hd = read_int_8_array 5 hd) by (intros hd; apply (C37_fixed hd)).
  assert (R3 : forall hd, read_int_8_array_6 hd = read_int_8_array 6 hd) by (intros hd; apply (C37_fixed hd)).
  assert (R4 : forall hd, read_int_8_array_10 hd = read_int_8_array 10 hd) by (intros hd; apply (C37_fixed hd)).
  assert (R5 : forall hd, read_int_16_array_2 hd = read_int_16_array 2 hd) by (intros hd; apply (C37_fixed hd)).
  assert (R6 : forall hd, read_int_16_array_3 hd = read_int_16_array 3 hd) by (intros hd; apply (C37_fixed hd)).
  assert (R7 : forall hd, read_int_16_array_4 hd = read_int_16_array 4 hd) by (intros hd; apply (C37_fixed hd)).
  assert (R8 : forall hd, read_int_16_array_6 hd = read_int_16_array 6 hd) by (intros hd; apply (C37_fixed hd)).
  assert (R9 : forall hd, read_int_32_array_10 hd = read_int_32_array 10 hd) by (intros hd; apply (C37_fixed hd)).
  clear F. unfold tuple_readers in I.
  apply in_inv in I. destruct I as [E|I]; [injection E as <- <- <- <-; apply (G "read_int_8_array_2"%string src_ByteHandler_read_int_8_array_2 read_int_8_array_2 eq_refl eq_refl int_8_2_run (fun hd => eq_trans (R0 hd) (range_loop 2 read_int_8 hd)))|].
  apply in_inv in I. destruct I as [E|I]; [injection E as <- <- <- <-; apply (G "read_int_8_array_3"%string src_ByteHandler_read_int_8_array_3 read_int_8_array_3 eq_refl eq_refl int_8_3_run (fun hd => eq_trans (R1 hd) (range_loop 3 read_int_8 hd)))|].
  apply in_inv in I. destruct I as [E|I]; [injection E as <- <- <- <-; apply (G "read_int_8_array_5"%string src_ByteHandler_read_int_8_array_5 read_int_8_array_5 eq_refl eq_refl int_8_5_run (fun hd => eq_trans (R2 hd) (range_loop 5 read_int_8 hd)))|].
  apply in_inv in I. destruct I as [E|I]; [injection E as <- <- <- <-; apply (G "read_int_8_array_6"%string src_ByteHandler_read_int_8_array_6 read_int_8_array_6 eq_refl eq_refl int_8_6_run (fun hd => eq_trans (R3 hd) (range_loop 6 read_int_8 hd)))|].
  apply in_inv in I. destruct I as [E|I]; [injection E as <- <- <- <-; apply (G "read_int_8_array_10"%string src_ByteHandler_read_int_8_array_10 read_int_8_array_10 eq_refl eq_refl int_8_10_run (fun hd => eq_trans (R4 hd) (range_loop 10 read_int_8 hd)))|].
  apply in_inv in I. destruct I as [E|I]; [injection E as <- <- <- <-; apply (G "read_int_16_array_2"%string src_ByteHandler_read_int_16_array_2 read_int_16_array_2 eq_refl eq_refl int_16_2_run (fun hd => eq_trans (R5 hd) (range_loop 2 (read_int_16 true) hd)))|].
  apply in_inv in I. destruct I as [E|I]; [injection E as <- <- <- <-; apply (G "read_int_16_array_3"%string src_ByteHandler_read_int_16_array_3 read_int_16_array_3 eq_refl eq_refl int_16_3_run (fun hd => eq_trans (R6 hd) (range_loop 3 (read_int_16 true) hd)))|].
  apply in_inv in I. destruct I as [E|I]; [injection E as <- <- <- <-; apply (G "read_int_16_array_4"%string src_ByteHandler_read_int_16_array_4 read_int_16_array_4 eq_refl eq_refl int_16_4_run (fun hd => eq_trans (R7 hd) (range_loop 4 (read_int_16 true) hd)))|].
  apply in_inv in I. destruct I as [E|I]; [injection E as <- <- <- <-; apply (G "read_int_16_array_6"%string src_ByteHandler_read_int_16_array_6 read_int_16_array_6 eq_refl eq_refl int_16_6_run (fun hd => eq_trans (R8 hd) (range_loop 6 (read_int_16 true) hd)))|].
  apply in_inv in I. destruct I as [E|I]; [injection E as <- <- <- <-; apply (G "read_int_32_array_10"%string src_ByteHandler_read_int_32_array_10 read_int_32_array_10 eq_refl eq_refl int_32_10_run (fun hd => eq_trans (R9 hd) (range_loop 10 (read_int_32 true) hd)))|].
  destruct I.
Qed.
(** ... and so many floats: steps of four bytes, each of which must be there. *)
Lemma slice_length (c : bytes) o k : length (slice c o k) = Nat.min k (length c - o).
Proof. unfold slice. rewrite firstn_length, skipn_length. reflexivity. Qed.
Lemma loop_floats m : forall hd,
  ((h_offset hd + m * 4 <= length (h_content hd))%nat -> exists xs ls, loop m read_float hd = Ok (xs, mkHandler (h_content hd) (h_offset hd + m * 4) (h_version hd) ls) /\ length xs = m /\
     forall i x, nth_error xs i = Some x -> Float_from_bytes LittleEndian (slice (h_content hd) (h_offset hd + i * 4) 4) = Ok x) /\
  ((length (h_content hd) < h_offset hd + m * 4)%nat -> (0 < m)%nat -> loop m read_float hd = Err StructError).
Proof.
  induction m as [|m IH]; intros hd; cbn [loop].
  - split; [|lia]. intros _. exists [], (h_losses hd). unfold ret. rewrite Nat.add_0_r. destruct hd; split; [reflexivity|]. split; [reflexivity|]. intros [|i] x E; discriminate E.
  - pose proof (slice_length (h_content hd) (h_offset hd) 4) as SL.
    unfold read_float at 1 3, consume_range, consume_slice, bind, note, ret, lift. cbn [h_content h_offset h_version h_losses].
    set (b := slice (h_content hd) (h_offset hd) 4) in *.
    destruct (Nat.le_gt_cases (h_offset hd + 4) (length (h_content hd))) as [L|L].
    2:{ split; [lia|]. intros _ _. rewrite C13_length by lia. reflexivity. }
    destruct (Float_from_bytes LittleEndian b) as [x|e] eqn:E; [|unfold Float_from_bytes in E; rewrite SL in E; replace (Nat.min 4 _) with 4%nat in E by lia; discriminate E].
    match goal with |- context[loop m _ ?x] => set (hd1 := x) end.
    assert (Q : h_content hd1 = h_content hd /\ h_offset hd1 = (h_offset hd + 4)%nat /\ h_version hd1 = h_version hd) by (subst hd1; destruct (_ && _), (Nat.ltb _ _); auto).
    clearbody hd1. destruct Q as (Q1 & Q2 & Q3). destruct (IH hd1) as [I1 I2]. rewrite Q1, Q2, Q3 in I1. rewrite Q1, Q2 in I2. split; intros H.
    + destruct I1 as (xs & ls & R & Lx & V); [lia|]. rewrite R. exists (x :: xs), ls. split; [do 3 f_equal; lia|]. split; [cbn; lia|].
      intros [|i] y Y; cbn in Y.
      * injection Y as <-. rewrite Nat.mul_0_l, Nat.add_0_r. exact E.
      * rewrite <- (V i y Y). do 2 f_equal. lia.
    + intros _. rewrite I2 by lia. reflexivity.
Qed.
Theorem C59_read_floats : forall n h l c o w a m, (4 <= n)%nat -> at_cursor h l c o w -> In (a, m) [("read_float_array_2", 2); ("read_float_array_3", 3)]%string%nat ->
  ((o + m * 4 <= length c)%nat -> exists xs, takes n h l c o w a [] (m * 4) (PTuple (map PFloat xs)) /\ length xs = m /\
    forall i x, nth_error xs i = Some x -> let b := slice c (o + i * 4) 4 in f32_finite (le_value b) -> f64_finite x /\ d_sign x = s_sign (le_value b) /\ f64_value x = f32_value (le_value b)) /\
  ((length c < o + m * 4)%nat -> shell n [("data"%string, PRef l)] (dot "data" a []) h = Raise (Std StructError)).
Proof.
  intros n h l c o w a m N C I.
  assert (F := fun a fn rd0 A K T => takes_of n h l c o w a fn [] [] [] 4 rd0 pfloats (m * 4)%nat C A K (pa_nil _ _ _) T N).
  assert (G : forall a fn rd0, assoc a (c_methods src_ByteHandler) = Some fn -> f_kind fn = Method -> @tells Any _ 4 a [] [] rd0 pfloats -> (0 < m)%nat ->
    (forall hd, rd0 hd = loop m read_float hd) ->
    ((o + m * 4 <= length c)%nat -> exists xs, takes n h l c o w a [] (m * 4) (PTuple (map PFloat xs)) /\ length xs = m /\
      forall i x, nth_error xs i = Some x -> let b := slice c (o + i * 4) 4 in f32_finite (le_value b) -> f64_finite x /\ d_sign x = s_sign (le_value b) /\ f64_value x = f32_value (le_value b)) /\
    ((length c < o + m * 4)%nat -> shell n [("data"%string, PRef l)] (dot "data" a []) h = Raise (Std StructError))).
  { intros a0 fn rd0 A K T P E. specialize (F a0 fn rd0 A K T). rewrite E in F. destruct (loop_floats m (mkHandler c o w [])) as [R1 R2]. cbn [h_content h_offset h_version] in R1, R2. split; intros H.
    - destruct (R1 H) as (xs & ls & R & Lx & V). rewrite R in F. cbn [h_content h_offset h_version] in F. exists xs. split; [apply F; auto|]. split; [exact Lx|].
      intros i x X b Fi. apply (C13_read_value b x); [|exact Fi|apply (V i x X)].
      subst b. rewrite slice_length. assert (i < length xs)%nat by (apply nth_error_Some; rewrite X; discriminate). lia.
    - rewrite (R2 H P) in F. exact F. }
  clear F.
  assert (R0 : forall hd, read_float_array_2 hd = read_float_array 2 hd) by (intros hd; apply (C37_fixed hd)).
  assert (R1 : forall hd, read_float_array_3 hd = read_float_array 3 hd) by (intros hd; apply (C37_fixed hd)).
  apply in_inv in I. destruct I as [E|I]; [injection E as <- <-; apply (G "read_float_array_2"%string src_ByteHandler_read_float_array_2 read_float_array_2 eq_refl eq_refl float_2_run ltac:(lia) (fun hd => eq_trans (R0 hd) (range_loop 2 read_float hd)))|].
  apply in_inv in I. destruct I as [E|I]; [injection E as <- <-; apply (G "read_float_array_3"%string src_ByteHandler_read_float_array_3 read_float_array_3 eq_refl eq_refl float_3_run ltac:(lia) (fun hd => eq_trans (R1 hd) (range_loop 3 read_float hd)))|].
  destruct I.
Qed.
(** a handler two bytes into six, with a marker there *)
Definition six : bytes := map byte_of [96; 10; 2; 0; 97; 98].
Example C59_case_reader : at_cursor [cursor six 0 UNDEFINED] 0 six 0 UNDEFINED /\
  takes 4 [cursor six 0 UNDEFINED] 0 six 0 UNDEFINED "read_debug_string" [] 6 (PStr (lit "ab")) /\
  takes 4 [cursor six 0 UNDEFINED] 0 six 0 UNDEFINED "read_int_16" [] 2 (PInt 2656) /\ length (slice six 4 4) = 2%nat.
Proof.
  split; [reflexivity|]. split; [|split; [|reflexivity]].
  - apply (proj1 (C59_read_debug_string 4 [cursor six 0 UNDEFINED] 0 six 0 UNDEFINED (le_n 4) eq_refl) [] (lit "ab") (lit "ab") (map byte_of [97; 98]) []).
    + cbn. lia.
    + vm_compute. reflexivity.
    + exists 0%nat. split; [reflexivity|]. apply no_trailing_nul_spec. reflexivity.
    + reflexivity.
    + vm_compute. reflexivity.
  - eexists. split; [vm_compute; reflexivity|]. split; [vm_compute; reflexivity|]. split; [reflexivity|]. intros [|q] A B; [contradiction B; reflexivity|cbn in A; lia].
Qed.
(** The readers of a number of integers, given as an argument: a new list of that many (none, when
    the number is negative). *)
Definition list_readers : list (string * nat * bool) := [("read_int_8_array", 1%nat, false); ("read_int_16_array", 2%nat, true); ("read_int_32_array", 4%nat, true)]%string.
Lemma owns_ints h zs : forall vs fps, @owns Any h (map DInt zs) vs fps -> vs = map PInt zs.
Proof.
  induction zs as [|z zs IH]; intros vs fps O; cbn [map] in O; inversion O as [|d v fp l vs' fps' O1 O2]; subst; [reflexivity|].
  destruct O1 as [-> _]. cbn [map]. f_equal. apply (IH _ _ O2).
Qed.
Theorem C59_read_list : forall n h l c o w a k s size, (4 <= n)%nat -> at_cursor h l c o w -> In (a, k, s) list_readers ->
  let m := Z.to_nat size in exists zs q h',
  shell n [("data"%string, PRef l)] (dot "data" a [EConst (KInt size)]) h = Ret (PRef q, h') /\
  (length h <= q < length h')%nat /\ nth_error h' q = Some (OList (map PInt zs)) /\
  nth_error h' l = Some (cursor c (o + m * k) w) /\ (forall p, (p < length h)%nat -> p <> l -> nth_error h' p = nth_error h p) /\
  length zs = m /\ forall i z, nth_error zs i = Some z -> let b := slice c (o + i * k) k in
    holds (length b) s z /\ exists j, z = positional 0 b + j * 2 ^ (8 * Z.of_nat (length b)) /\ (s = false -> j = 0).
Proof.
  intros n h l c o w a k s size N C I m. set (zs := map (fun i => Int_from_bytes (slice c (o + i * k) k) s) (seq 0 m)).
  assert (G : forall a fn rd0, assoc a (c_methods src_ByteHandler) = Some fn -> f_kind fn = Method -> @does Any _ 4 a [PInt size] [] rd0 (fun bs => DList (map DInt bs)) ->
    (forall hd, rd0 hd = for_range size (take_int k s) hd) -> exists q h',
    shell n [("data"%string, PRef l)] (dot "data" a [EConst (KInt size)]) h = Ret (PRef q, h') /\
    (length h <= q < length h')%nat /\ nth_error h' q = Some (OList (map PInt zs)) /\
    nth_error h' l = Some (cursor c (o + m * k) w) /\ (forall p, (p < length h)%nat -> p <> l -> nth_error h' p = nth_error h p)).
  { clear a I. intros a fn rd0 HA HK T E. pose (hd0 := mkHandler c o w []). assert (A : @at_ Any l hd0 h) by (constructor; [exact C|exact Logic.I]).
    specialize (T n l hd0 h N A). rewrite E in T.
    assert (Q : shell n [("data"%string, PRef l)] (dot "data" a [EConst (KInt size)]) h = call source n (PMeth (PRef l) a) [PInt size] [] h).
    { unfold shell, dot. eapply (@e_handler Any); [reflexivity|exact A|exact HA|exact HK|]. apply pa_pos; [reflexivity|apply p_int|apply pa_nil]. }
    unfold for_range, bind, note in T. set (hd1 := if size <? 0 then _ else _) in T.
    assert (F : h_content hd1 = c /\ h_offset hd1 = o /\ h_version hd1 = w) by (subst hd1; destruct (size <? 0); auto). destruct F as (F1 & F2 & F3). 
    replace (if size <? 0 then _ else _) with (Ok (tt, hd1)) in T by (subst hd1; destruct (size <? 0); reflexivity).
    destruct (loop_take k s (Z.to_nat size) hd1) as [ls R]. fold m in R, T. rewrite R, F1, F2, F3 in T. fold zs in T. cbn [ok] in T.
    destruct T as (v & h' & T & A' & S1 & fp & O & Se). apply own_list in O. destruct O as (q & vs & fps & -> & O1 & -> & O2). apply owns_ints in O2. subst vs.
    exists q, h'. rewrite Q. split; [exact T|]. destruct Se as [_ Se]. split; [apply Se; left; reflexivity|]. split; [exact O1|]. split; [|apply S1].
    rewrite (at_eq _ _ _ A'). reflexivity. }
  assert (V : exists q h',
    shell n [("data"%string, PRef l)] (dot "data" a [EConst (KInt size)]) h = Ret (PRef q, h') /\
    (length h <= q < length h')%nat /\ nth_error h' q = Some (OList (map PInt zs)) /\
    nth_error h' l = Some (cursor c (o + m * k) w) /\ (forall p, (p < length h)%nat -> p <> l -> nth_error h' p = nth_error h p)).
  { unfold list_readers in I.
    apply in_inv in I. destruct I as [E|I]; [injection E as <- <- <-; apply (G "read_int_8_array"%string src_ByteHandler_read_int_8_array (read_int_8_array size) eq_refl eq_refl (int_8_array_run size)); reflexivity|].
    apply in_inv in I. destruct I as [E|I]; [injection E as <- <- <-; apply (G "read_int_16_array"%string src_ByteHandler_read_int_16_array (read_int_16_array size) eq_refl eq_refl (int_16_array_run size)); reflexivity|].
    apply in_inv in I. destruct I as [E|I]; [injection E as <- <- <-; apply (G "read_int_32_array"%string src_ByteHandler_read_int_32_array (read_int_32_array size) eq_refl eq_refl (int_32_array_run size)); reflexivity|].
    destruct I. }
  destruct V as (q & h' & V1 & V2 & V3 & V4 & V5). exists zs, q, h'. do 5 (split; [assumption|]). subst zs. split; [rewrite map_length, seq_length; reflexivity|].
  intros i z E b. rewrite nth_error_map in E. destruct (nth_error (seq 0 m) i) as [i'|] eqn:Q; [|discriminate E]. injection E as <-.
  assert (L : (i < m)%nat) by (rewrite <- (seq_length m 0); apply nth_error_Some; rewrite Q; discriminate).
  apply (nth_error_nth _ _ 0%nat) in Q. rewrite seq_nth in Q by exact L. cbn in Q. subst i'. split; [apply C09_reencode|apply C09_value].
Qed.

(** ** The abstract methods *)
(** [GenieClass.from_bytes(data)] and [GenieClass.from_bytes_with_count(data, n)]: NotImplementedError. *)
Theorem C59_abstract : forall n h d k, (1 <= n)%nat ->
  shell n [("data", d); ("k", k)]%string (dot "GenieClass" "from_bytes" [EName "data"]) h = Raise (Std NotImplementedError) /\
  shell n [("data", d); ("k", k)]%string (dot "GenieClass" "from_bytes_with_count" [EName "data"; EName "k"]) h = Raise (Std NotImplementedError).
Proof. intros n h d k N. destruct n as [|n]; [lia|]. split; reflexivity. Qed.

Definition all_of_this_file := (C59_int_from_bytes, C59_int_to_bytes, C59_int_round_trip, C59_int_bytes_back, C59_float_from_bytes, C59_float_to_bytes, C59_float_bytes_back,
  C59_string_to_bytes, C59_string_from_bytes, C59_string_round_trip, C59_version_order, C59_version_lookup, C59_version_value, C59_handler, C59_read_int, C59_read_float,
  C59_read_string, C59_read_debug_string, C59_read_tuple, C59_read_floats, C59_read_list, C59_abstract).
Print Assumptions all_of_this_file.
