(** * The writers of [GenieClass] (common.py:38-83), run from their source text *)
From Verif Require Import Base PyInt PyFloat PyStr PyStruct DataTypes Versions Common Py Source PyRep PyPure.
From Coq Require Import String Ascii Lia.
Open Scope Z_scope.
Local Open Scope list_scope.

Definition outb (r : res bytes) : outcome deep := match r with Ok b => Ret (DBytes b) | Err e => Raise (Std e) end.
Definition dver (v : Version) : deep := DMember "Version" (version_member v).
Definition writers : list (string * func) :=
  [("write_debug_string", src_GenieClass_write_debug_string); ("write_string", src_GenieClass_write_string);
   ("write_int_8", src_GenieClass_write_int_8); ("write_int_8_array", src_GenieClass_write_int_8_array);
   ("write_int_16", src_GenieClass_write_int_16); ("write_int_16_array", src_GenieClass_write_int_16_array);
   ("write_int_32", src_GenieClass_write_int_32); ("write_int_32_array", src_GenieClass_write_int_32_array);
   ("write_float", src_GenieClass_write_float); ("write_float_array", src_GenieClass_write_float_array);
   ("write_class", src_GenieClass_write_class); ("write_class_array", src_GenieClass_write_class_array)]%string.
(** A class that inherits the writers and has no attributes of these names. *)
Definition genie (c : string) (fs : list (string * deep)) : Prop :=
  Forall (fun m => find_method source c (fst m) = Some (snd m)) writers /\ Forall (fun m => assoc (fst m) fs = None) writers.

(** ** Where names lead *)
Ltac look := vm_compute; reflexivity.
Lemma m_Int_to_bytes : find_method source "Int" "to_bytes" = Some src_Int_to_bytes. Proof. look. Qed.
Lemma m_Float_to_bytes : find_method source "Float" "to_bytes" = Some src_Float_to_bytes. Proof. look. Qed.
Lemma m_String_to_bytes : find_method source "String" "to_bytes" = Some src_String_to_bytes. Proof. look. Qed.
Lemma m_ge : find_method source "Version" "__ge__" = Some src_Version___ge__. Proof. look. Qed.
Lemma c_Int : class_of source "Int" = Some src_Int. Proof. look. Qed.
Lemma c_Float : class_of source "Float" = Some src_Float. Proof. look. Qed.
Lemma c_String : class_of source "String" = Some src_String. Proof. look. Qed.
Lemma c_Version : class_of source "Version" = Some src_Version. Proof. look. Qed.
Lemma c_UnitType : class_of source "UnitType" = Some src_UnitType. Proof. look. Qed.
Lemma c_struct : class_of source "struct" = None. Proof. look. Qed.
Lemma m_struct a : find_method source "struct" a = None. Proof. unfold find_method. rewrite c_struct. reflexivity. Qed.
Lemma g_common_Int : global source "common" "Int" = Some (PClass "Int"). Proof. look. Qed.
Lemma g_common_Float : global source "common" "Float" = Some (PClass "Float"). Proof. look. Qed.
Lemma g_common_String : global source "common" "String" = Some (PClass "String"). Proof. look. Qed.
Lemma g_common_len : global source "common" "len" = Some (PFun "len"). Proof. look. Qed.
Lemma g_datatypes_len : global source "datatypes" "len" = Some (PFun "len"). Proof. look. Qed.
Lemma g_datatypes_struct : global source "datatypes" "struct" = Some (PClass "struct"). Proof. look. Qed.
Global Opaque source.
Arguments lit : simpl never.
Arguments d_call : simpl never.
Arguments Int_to_bytes : simpl never.
Arguments String_to_bytes : simpl never.
Arguments Float_to_bytes : simpl never.

(** ** Calls, one layer at a time *)
Lemma call_method n c fs m fn pos kw : find_method source c m = Some fn ->
  d_call source (S n) (DMeth (DObj c fs) m) pos kw = d_apply source (d_call source n) fn (DObj c fs :: pos) kw.
Proof. intros F. unfold d_call; fold d_call. unfold d_method. rewrite F. reflexivity. Qed.
Lemma call_static n c m fn pos kw : find_method source c m = Some fn -> f_kind fn = StaticMethod ->
  d_call source (S n) (DMeth (DClass c) m) pos kw = d_apply source (d_call source n) fn pos kw.
Proof. intros F K. unfold d_call; fold d_call. rewrite F, K. reflexivity. Qed.
Lemma call_member n c k m fn pos kw : find_method source c m = Some fn ->
  d_call source (S n) (DMeth (DMember c k) m) pos kw = d_apply source (d_call source n) fn (DMember c k :: pos) kw.
Proof. intros F. unfold d_call; fold d_call. unfold d_method. rewrite F. reflexivity. Qed.
Lemma call_struct n m pos kw : d_call source (S n) (DMeth (DClass "struct") m) pos kw = d_builtin (DClass "struct") m pos kw.
Proof. unfold d_call; fold d_call. rewrite m_struct. reflexivity. Qed.
Lemma call_len n d : d_call source (S n) (DFun "len") [d] [] = (z <+ d_len d ;; Ret (DInt z)).
Proof. reflexivity. Qed.
Lemma call_int n z m pos kw : d_call source (S n) (DMeth (DInt z) m) pos kw = d_builtin (DInt z) m pos kw.
Proof. reflexivity. Qed.
Lemma call_bool n z m pos kw : d_call source (S n) (DMeth (DBool z) m) pos kw = d_builtin (DBool z) m pos kw.
Proof. reflexivity. Qed.
Lemma call_str n s m pos kw : d_call source (S n) (DMeth (DStr s) m) pos kw = d_builtin (DStr s) m pos kw.
Proof. reflexivity. Qed.
Lemma call_bytes n s m pos kw : d_call source (S n) (DMeth (DBytes s) m) pos kw = d_builtin (DBytes s) m pos kw.
Proof. reflexivity. Qed.

Lemma attr_class cl a c k f : class_of source c = Some k -> c_members k = [] -> find_method source c a = Some f ->
  (f_kind f = StaticMethod \/ f_kind f = ClassMethod) -> d_attr source cl (DClass c) a = Ret (DMeth (DClass c) a).
Proof. intros C N F K. unfold d_attr. rewrite C, N, F. cbn [assoc]. destruct K as [->| ->]; reflexivity. Qed.
Lemma attr_Int cl : d_attr source cl (DClass "Int") "to_bytes" = Ret (DMeth (DClass "Int") "to_bytes").
Proof. apply (attr_class _ _ _ _ _ c_Int eq_refl m_Int_to_bytes). left; reflexivity. Qed.
Lemma attr_Float cl : d_attr source cl (DClass "Float") "to_bytes" = Ret (DMeth (DClass "Float") "to_bytes").
Proof. apply (attr_class _ _ _ _ _ c_Float eq_refl m_Float_to_bytes). left; reflexivity. Qed.
Lemma attr_String cl : d_attr source cl (DClass "String") "to_bytes" = Ret (DMeth (DClass "String") "to_bytes").
Proof. apply (attr_class _ _ _ _ _ c_String eq_refl m_String_to_bytes). left; reflexivity. Qed.
Lemma attr_struct a cl : d_attr source cl (DClass "struct") a = Ret (DMeth (DClass "struct") a).
Proof. unfold d_attr. rewrite c_struct. reflexivity. Qed.
Lemma attr_version cl v : d_attr source cl (dver v) "value" = Ret (DStr (version_value v)).
Proof. unfold d_attr, dver. rewrite c_Version. destruct v; reflexivity. Qed.
Lemma attr_method cl c fs m fn : assoc m fs = None -> find_method source c m = Some fn -> f_kind fn = Method ->
  d_attr source cl (DObj c fs) m = Ret (DMeth (DObj c fs) m).
Proof. intros A F K. unfold d_attr. rewrite A, F, K. reflexivity. Qed.

Ltac py := cbn [d_apply f_kind f_params f_defaults f_body f_module d_block d_exec d_eval obind oopt ores
  known_kw forallb existsb bind_args assoc String.eqb Ascii.eqb Bool.eqb fst snd option_map dconst d_name orb andb d_need_int d_int
  d_true negb d_of d_items outb].

(** datatypes.py:24-25 *)
Lemma Int_to_bytes_run n d z l s : d_int d = Some z ->
  d_call source (S (S n)) (DMeth (DClass "Int") "to_bytes") [d] [("length"%string, DInt (Z.of_nat l)); ("signed"%string, DBool s)]
  = outb (int_to_bytes z l s).
Proof.
  intros V. rewrite (call_static _ _ _ _ _ _ m_Int_to_bytes eq_refl). unfold src_Int_to_bytes. py.
  replace (d_attr source (d_call source (S n)) d "to_bytes") with (Ret (DMeth d "to_bytes")) by (destruct d; try discriminate V; reflexivity). py.
  assert (B : d_call source (S n) (DMeth d "to_bytes") [DInt (Z.of_nat l); DStr (lit "little")] [("signed"%string, DBool s)] = outb (int_to_bytes z l s)).
  { assert (E : 0 <=? Z.of_nat l = true) by (apply Z.leb_le; lia).
    destruct d; try discriminate V; injection V as <-; rewrite ?call_bool, ?call_int; unfold d_builtin; py;
      change (d_little (DStr (lit "little"))) with true; rewrite E; cbn [andb]; rewrite Nat2Z.id; destruct (int_to_bytes _ l s); reflexivity. }
  rewrite B. destruct (int_to_bytes z l s); reflexivity.
Qed.
(** datatypes.py:34-35 *)
Lemma Float_to_bytes_run n x :
  d_call source (S (S n)) (DMeth (DClass "Float") "to_bytes") [DFloat x] [] = outb (Float_to_bytes LittleEndian x).
Proof.
  rewrite (call_static _ _ _ _ _ _ m_Float_to_bytes eq_refl). unfold src_Float_to_bytes. py.
  rewrite g_datatypes_struct. py. rewrite attr_struct. py. rewrite call_struct. unfold d_builtin. py. unfold py_pack.
  change (native_f (lit "f")) with true. cbv iota. cbn [map d_pack]. destruct (Float_to_bytes LittleEndian x); reflexivity.
Qed.

Section Writers.
Variables (n : nat) (c : string) (fs : list (string * deep)).
Hypothesis G : genie c fs.
Notation self := (DObj c fs).
Lemma meth m fn : In (m, fn) writers -> find_method source c m = Some fn.
Proof. intros I. destruct G as [F _]. rewrite Forall_forall in F. exact (F _ I). Qed.
Lemma attr_w cl m fn : In (m, fn) writers -> d_attr source cl self m = Ret (DMeth self m).
Proof.
  intros I. apply (attr_method _ _ _ _ fn); [|apply meth, I|].
  - destruct G as [_ F]. rewrite Forall_forall in F. exact (F _ I).
  - cbn in I. repeat (destruct I as [E|I]; [injection E as <- <-; reflexivity|]). contradiction.
Qed.
Ltac inw := cbn; tauto.

Lemma w_int_16 m d z (s : bool) (i : option bool) : (3 <= m)%nat -> d_int d = Some z ->
  d_call source m (DMeth self "write_int_16") [d] ((if s then @nil (string * deep) else [("signed"%string, DBool false)]) ++ match i with Some b => [("if_"%string, DBool b)] | None => [] end)
  = outb (write_int_16 z s match i with Some b => b | None => true end).
Proof.
  intros N V. destruct m as [|[|[|m]]]; try lia. rewrite (call_method _ _ _ _ src_GenieClass_write_int_16) by (apply meth; inw).
  unfold src_GenieClass_write_int_16. change (DInt 2) with (DInt (Z.of_nat 2)).
  unfold write_int_16, Int_to_bytes. destruct s, i as [[]|]; cbn [app]; py; try reflexivity;
    rewrite g_common_Int; py; rewrite attr_Int; py; change (DInt 2) with (DInt (Z.of_nat 2)); rewrite (Int_to_bytes_run _ _ _ _ _ V); py;
    match goal with |- context[int_to_bytes ?a ?b ?cc] => destruct (int_to_bytes a b cc); reflexivity end.
Qed.
Lemma w_int_8 m d z : (3 <= m)%nat -> d_int d = Some z -> d_call source m (DMeth self "write_int_8") [d] [] = outb (write_int_8 z).
Proof.
  intros N V. destruct m as [|[|[|m]]]; try lia. rewrite (call_method _ _ _ _ src_GenieClass_write_int_8) by (apply meth; inw).
  unfold src_GenieClass_write_int_8. py. rewrite g_common_Int. py. rewrite attr_Int. py. change (DInt 1) with (DInt (Z.of_nat 1)).
  rewrite (Int_to_bytes_run _ _ _ _ _ V). unfold write_int_8, Int_to_bytes. destruct (int_to_bytes z 1 false); reflexivity.
Qed.
Lemma w_int_32 m d z (s : bool) : (3 <= m)%nat -> d_int d = Some z ->
  d_call source m (DMeth self "write_int_32") [d] (if s then @nil (string * deep) else [("signed"%string, DBool false)]) = outb (write_int_32 z s).
Proof.
  intros N V. destruct m as [|[|[|m]]]; try lia. rewrite (call_method _ _ _ _ src_GenieClass_write_int_32) by (apply meth; inw).
  unfold src_GenieClass_write_int_32, write_int_32, Int_to_bytes. destruct s; py; rewrite g_common_Int; py; rewrite attr_Int; py; change (DInt 4) with (DInt (Z.of_nat 4));
    rewrite (Int_to_bytes_run _ _ _ _ _ V); match goal with |- context[int_to_bytes ?a ?b ?cc] => destruct (int_to_bytes a b cc); reflexivity end.
Qed.
Lemma w_float m x : (3 <= m)%nat -> d_call source m (DMeth self "write_float") [DFloat x] [] = outb (write_float x).
Proof.
  intros N. destruct m as [|[|[|m]]]; try lia. rewrite (call_method _ _ _ _ src_GenieClass_write_float) by (apply meth; inw).
  unfold src_GenieClass_write_float. py. rewrite g_common_Float. py. rewrite attr_Float. py. rewrite Float_to_bytes_run.
  unfold write_float. destruct (Float_to_bytes LittleEndian x); reflexivity.
Qed.
Lemma w_string m k s : (3 <= m)%nat -> d_call source m (DMeth self "write_string") [DInt (Z.of_nat (S k)); DStr s] [] = outb (write_string (S k) s).
Proof.
  intros N. destruct m as [|[|[|m]]]; try lia. rewrite (call_method _ _ _ _ src_GenieClass_write_string) by (apply meth; inw).
  unfold src_GenieClass_write_string. py. rewrite g_common_String. py. rewrite attr_String. py.
  rewrite (call_static _ _ _ _ _ _ m_String_to_bytes eq_refl). unfold src_String_to_bytes. py. cbn [d_attr]. py. rewrite call_str. unfold d_builtin. py.
  unfold write_string, String_to_bytes. destruct (str_encode s) as [b|e]; [|reflexivity]. py.
  replace (truthy (Z.of_nat (S k))) with true by reflexivity. py. rewrite g_datatypes_len. py. rewrite call_len. cbn [d_len]. py.
  unfold d_bin. py.
  assert (C : forall j, List.concat (repeat [byte_of 0] j) = repeat (byte_of 0) j).
  { induction j as [|j IH]; [reflexivity|]. cbn [repeat List.concat app]. f_equal. exact IH. }
  rewrite C. cbn [rbind outb]. unfold len.
  replace (Z.to_nat (Z.of_nat (S k) - Z.of_nat (List.length b))) with (S k - List.length b)%nat by lia. reflexivity.
Qed.
Lemma w_debug m s : (4 <= m)%nat -> d_call source m (DMeth self "write_debug_string") [DStr s] [] = outb (write_debug_string s).
Proof.
  intros N. destruct m as [|m]; try lia. rewrite (call_method _ _ _ _ src_GenieClass_write_debug_string) by (apply meth; inw).
  unfold src_GenieClass_write_debug_string. py. cbn [d_attr]. py. destruct m as [|m]; [lia|]. rewrite call_str. unfold d_builtin. py.
  change (str_eqb (lit "utf-8") (lit "utf-8")) with true. cbv iota.
  unfold write_debug_string. destruct (str_encode s) as [b|e]; [|reflexivity]. py. cbn [rbind].
  rewrite (attr_w _ _ src_GenieClass_write_int_16) by inw. py.
  pose proof (w_int_16 (S m) (DInt 2656) 2656 false None) as W1. cbn [app] in W1. rewrite W1 by (lia || reflexivity).
  destruct (write_int_16 2656 false true) as [b1|e]; py; [|reflexivity].
  rewrite g_common_len. py. rewrite call_len. cbn [d_len]. py.
  pose proof (w_int_16 (S m) (DInt (len b)) (len b) false None) as W2. cbn [app] in W2. rewrite W2 by (lia || reflexivity).
  destruct (write_int_16 (len b) false true) as [b2|e]; py; [|reflexivity]. unfold d_bin. py. unfold wapp, rbind. py. rewrite <- app_assoc. reflexivity.
Qed.

End Writers.

(** [b''.join(e(x) for x in l if c(x))], [b''.join([e1, e2, ...])] *)
Lemma join_ok rs bs : Forall2 (fun r b => r = Ok b) rs bs -> join rs = Ok (List.concat bs) /\ d_join (map DBytes bs) = Some (List.concat bs).
Proof.
  intros F. induction F as [|r b rs bs -> F [I1 I2]]; [split; reflexivity|]. cbn [join map d_join List.concat]. rewrite I1, I2. split; reflexivity.
Qed.
Fixpoint collect (rs : list (res bytes)) : outcome (list deep) :=
  match rs with
  | [] => Ret []
  | r :: rs => v <+ outb r ;; vs <+ collect rs ;; Ret (v :: vs)
  end.
Lemma collect_join n rs : (l <+ collect rs ;; d_call source (S n) (DMeth (DBytes []) "join") [DList l] []) = outb (join rs).
Proof.
  assert (K : match collect rs with
              | Ret l => exists bs, l = map DBytes bs /\ Forall2 (fun r b => r = Ok b) rs bs
              | Raise e => outb (join rs) = Raise e
              end).
  { induction rs as [|r rs IH]; cbn [collect]; [exists []; split; [reflexivity|constructor]|].
    destruct r as [b|e]; cbn [outb obind join rbind]; [|reflexivity]. destruct (collect rs) as [l|e]; cbn [obind].
    - destruct IH as (bs & -> & F). exists (b :: bs). split; [reflexivity|constructor; [reflexivity|exact F]].
    - destruct (join rs) as [b'|e']; cbn [outb] in IH; [discriminate IH|]. cbn [rbind outb]. exact IH. }
  destruct (collect rs) as [l|e]; cbn [obind]; [|symmetry; exact K]. destruct K as (bs & -> & F). destruct (join_ok _ _ F) as [J D].
  rewrite call_bytes. unfold d_builtin. py. change (String.eqb "join" "join") with true. cbv iota. py. rewrite D, J. reflexivity.
Qed.
Section Join.
Variables (n : nat) (mod_ : string) (en : list (string * deep)).
Notation dev := (d_eval source (d_call source (S n)) mod_).
Lemma e_join es rs : Forall2 (fun e r => dev en e = outb r) es rs ->
  dev en (ECall (EAttr (EConst (KBytes [])) "join") [EList es]) = outb (join rs).
Proof.
  intros F. rewrite <- (collect_join n). cbn [d_eval obind dconst]. change (d_attr source (d_call source (S n)) (DBytes []) "join") with (Ret (DMeth (DBytes []) "join")).
  cbn [obind].
  set (go := fix go (l : list expr) : outcome (list deep) :=
               match l with [] => Ret [] | e :: l => v <+ dev en e ;; r <+ go l ;; Ret (v :: r) end).
  assert (E : go es = collect rs).
  { clear -F. induction F as [|e r es rs H F IH]; [reflexivity|]. cbn [collect]. rewrite <- IH. unfold go at 1. fold go.
    rewrite H. destruct (outb r); reflexivity. }
  rewrite E. destruct (collect rs); reflexivity.
Qed.
Lemma e_for {A} body x iter cond d (emb : A -> deep) (l : list A) (keep : A -> bool) (f : A -> res bytes) :
  dev en iter = Ret d -> d_items d = Ret (map emb l) ->
  (forall a, match cond with
             | Some c => dev ((x, emb a) :: en) c = Ret (DBool (keep a))
             | None => keep a = true
             end) ->
  (forall a, keep a = true -> dev ((x, emb a) :: en) body = outb (f a)) ->
  dev en (ECall (EAttr (EConst (KBytes [])) "join") [EFor body x iter cond]) = outb (join (map f (filter keep l))).
Proof.
  intros I D C B. rewrite <- (collect_join n). cbn [d_eval obind dconst]. change (d_attr source (d_call source (S n)) (DBytes []) "join") with (Ret (DMeth (DBytes []) "join")).
  cbn [obind]. rewrite I. cbn [obind]. rewrite D. cbn [obind].
  set (go := fix go (l : list deep) : outcome (list deep) :=
               match l with
               | [] => Ret []
               | v :: l =>
                   let en := (x, v) :: en in
                   t <+ match cond with Some c => w <+ dev en c ;; d_true w | None => Ret true end ;;
                   (if t then r <+ dev en body ;; rs <+ go l ;; Ret (r :: rs) else go l)
               end).
  assert (E : go (map emb l) = collect (map f (filter keep l))).
  { clear -C B. induction l as [|a l IH]; [reflexivity|]. cbn [map filter]. unfold go at 1. fold go. specialize (C a).
    assert (T : (match cond with Some c => w <+ dev ((x, emb a) :: en) c ;; d_true w | None => Ret true end) = Ret (keep a)).
    { destruct cond as [c|]; [rewrite C; reflexivity|rewrite C; reflexivity]. }
    rewrite T. cbn [obind]. destruct (keep a) eqn:K; [|exact IH]. cbn [map collect]. rewrite (B a K), <- IH. destruct (outb (f a)); reflexivity. }
  rewrite E. destruct (collect (map f (filter keep l))); reflexivity.
Qed.
End Join.

Lemma filter_all {A} (l : list A) : filter (fun _ => true) l = l.
Proof. induction l as [|a l IH]; [reflexivity|]. cbn [filter]. rewrite IH. reflexivity. Qed.

Section Arrays.
Variables (n : nat) (c : string) (fs : list (string * deep)).
Hypothesis G : genie c fs.
Notation self := (DObj c fs).
Ltac inw := cbn; tauto.
(** A list or tuple of these items. *)
Definition seq_of (d : deep) (l : list deep) : Prop := d = DList l \/ d = DTuple l.
Lemma seq_items d l : seq_of d l -> d_items d = Ret l.
Proof. intros [->| ->]; reflexivity. Qed.
Lemma seq_len_of d l : seq_of d l -> d_len d = Ret (len l).
Proof. intros [->| ->]; reflexivity. Qed.

Lemma w_int_8_array m d l : (4 <= m)%nat -> seq_of d (map DInt l) -> d_call source m (DMeth self "write_int_8_array") [d] [] = outb (write_int_8_array l).
Proof.
  intros N S. destruct m as [|m]; [lia|]. rewrite (call_method _ _ _ _ src_GenieClass_write_int_8_array) by (apply (meth _ _ G); inw).
  unfold src_GenieClass_write_int_8_array. cbn [d_apply f_kind f_params f_defaults f_body f_module d_block d_exec known_kw forallb existsb bind_args assoc String.eqb Ascii.eqb Bool.eqb fst snd option_map orb andb oopt obind].
  destruct m as [|m]; [lia|].
  erewrite (e_for m _ _ _ _ _ _ d DInt l (fun _ => true) write_int_8); [|reflexivity|apply seq_items, S|reflexivity|].
  - rewrite filter_all. unfold write_int_8_array. destruct (join (map write_int_8 l)); reflexivity.
  - intros a _. cbn [d_eval d_name assoc String.eqb Ascii.eqb Bool.eqb obind fst snd]. rewrite (attr_w _ _ G _ _ src_GenieClass_write_int_8) by inw.
    cbn [obind fst snd]. apply (w_int_8 _ _ G); [lia|reflexivity].
Qed.
Lemma w_int_16_array m d l : (4 <= m)%nat -> seq_of d (map DInt l) -> d_call source m (DMeth self "write_int_16_array") [d] [] = outb (write_int_16_array l).
Proof.
  intros N S. destruct m as [|m]; [lia|]. rewrite (call_method _ _ _ _ src_GenieClass_write_int_16_array) by (apply (meth _ _ G); inw).
  unfold src_GenieClass_write_int_16_array. cbn [d_apply f_kind f_params f_defaults f_body f_module d_block d_exec known_kw forallb existsb bind_args assoc String.eqb Ascii.eqb Bool.eqb fst snd option_map orb andb oopt obind].
  destruct m as [|m]; [lia|].
  erewrite (e_for m _ _ _ _ _ _ d DInt l (fun _ => true) (fun v => write_int_16 v true true)); [|reflexivity|apply seq_items, S|reflexivity|].
  - rewrite filter_all. unfold write_int_16_array. destruct (join (map _ l)); reflexivity.
  - intros a _. cbn [d_eval d_name assoc String.eqb Ascii.eqb Bool.eqb obind fst snd]. rewrite (attr_w _ _ G _ _ src_GenieClass_write_int_16) by inw.
    cbn [obind fst snd]. apply (w_int_16 _ _ G _ _ _ true None); [lia|reflexivity].
Qed.
Lemma w_int_32_array m d l : (4 <= m)%nat -> seq_of d (map DInt l) -> d_call source m (DMeth self "write_int_32_array") [d] [] = outb (write_int_32_array l).
Proof.
  intros N S. destruct m as [|m]; [lia|]. rewrite (call_method _ _ _ _ src_GenieClass_write_int_32_array) by (apply (meth _ _ G); inw).
  unfold src_GenieClass_write_int_32_array. cbn [d_apply f_kind f_params f_defaults f_body f_module d_block d_exec known_kw forallb existsb bind_args assoc String.eqb Ascii.eqb Bool.eqb fst snd option_map orb andb oopt obind].
  destruct m as [|m]; [lia|].
  erewrite (e_for m _ _ _ _ _ _ d DInt l (fun _ => true) (fun v => write_int_32 v true)); [|reflexivity|apply seq_items, S|reflexivity|].
  - rewrite filter_all. unfold write_int_32_array. destruct (join (map _ l)); reflexivity.
  - intros a _. cbn [d_eval d_name assoc String.eqb Ascii.eqb Bool.eqb obind fst snd]. rewrite (attr_w _ _ G _ _ src_GenieClass_write_int_32) by inw.
    cbn [obind fst snd]. apply (w_int_32 _ _ G _ _ _ true); [lia|reflexivity].
Qed.
Lemma w_float_array m d l : (4 <= m)%nat -> seq_of d (map DFloat l) -> d_call source m (DMeth self "write_float_array") [d] [] = outb (write_float_array l).
Proof.
  intros N S. destruct m as [|m]; [lia|]. rewrite (call_method _ _ _ _ src_GenieClass_write_float_array) by (apply (meth _ _ G); inw).
  unfold src_GenieClass_write_float_array. cbn [d_apply f_kind f_params f_defaults f_body f_module d_block d_exec known_kw forallb existsb bind_args assoc String.eqb Ascii.eqb Bool.eqb fst snd option_map orb andb oopt obind].
  destruct m as [|m]; [lia|].
  erewrite (e_for m _ _ _ _ _ _ d DFloat l (fun _ => true) write_float); [|reflexivity|apply seq_items, S|reflexivity|].
  - rewrite filter_all. unfold write_float_array. destruct (join (map _ l)); reflexivity.
  - intros a _. cbn [d_eval d_name assoc String.eqb Ascii.eqb Bool.eqb obind fst snd]. rewrite (attr_w _ _ G _ _ src_GenieClass_write_float) by inw.
    cbn [obind fst snd]. apply (w_float _ _ G). lia.
Qed.

(** A record of a class whose [to_bytes] is [f]. *)
Definition writes {A} (k : nat) (emb : A -> deep) (f : A -> Version -> res bytes) : Prop :=
  forall x, (exists c fs, emb x = DObj c fs) /\
    (forall cl, d_attr source cl (emb x) "to_bytes" = Ret (DMeth (emb x) "to_bytes")) /\
    forall m v, (k <= m)%nat -> d_call source m (DMeth (emb x) "to_bytes") [dver v] [] = outb (f x v).
Lemma w_class {A} k (emb : A -> deep) f m x v : writes k emb f -> (S k <= m)%nat ->
  d_call source m (DMeth self "write_class") [emb x; dver v] [] = outb (write_class f x v).
Proof.
  intros W N. destruct m as [|m]; [lia|]. rewrite (call_method _ _ _ _ src_GenieClass_write_class) by (apply (meth _ _ G); inw).
  unfold src_GenieClass_write_class. py. destruct (W x) as (_ & WA & WC). rewrite WA. py. rewrite WC by lia. unfold write_class.
  destruct (f x v) as [b|e]; [|reflexivity]. py. cbn [rbind]. destruct (nonempty b); reflexivity.
Qed.
Lemma w_class_array {A} k (emb : A -> deep) f m d l v : writes k emb f -> (S (S k) <= m)%nat -> seq_of d (map (emb_opt emb) l) ->
  d_call source m (DMeth self "write_class_array") [d; dver v] [] = outb (write_class_array f l v).
Proof.
  intros W N S. destruct m as [|m]; [lia|]. rewrite (call_method _ _ _ _ src_GenieClass_write_class_array) by (apply (meth _ _ G); inw).
  unfold src_GenieClass_write_class_array. cbn [d_apply f_kind f_params f_defaults f_body f_module d_block d_exec known_kw forallb existsb bind_args assoc String.eqb Ascii.eqb Bool.eqb fst snd option_map orb andb oopt obind].
  destruct m as [|m]; [lia|].
  erewrite (e_for m _ _ _ _ _ _ d (emb_opt emb) l is_some (fun o => match o with Some a => write_class f a v | None => Ok [] end)); [|reflexivity|apply seq_items, S| |].
  - unfold write_class_array.
    replace (flat_map (fun v0 => match v0 with Some a => [write_class f a v] | None => [] end) l)
      with (map (fun o => match o with Some a => write_class f a v | None => Ok [] end) (filter is_some l)).
    + destruct (join _) as [b|e]; [|reflexivity]. py. cbn [rbind]. destruct (nonempty b); reflexivity.
    + clear. induction l as [|[a|] l IH]; [reflexivity| |]; cbn [filter is_some flat_map map app]; [f_equal; exact IH|exact IH].
  - intros [a|]; [|reflexivity]. cbn [d_eval d_name assoc String.eqb Ascii.eqb Bool.eqb obind dconst emb_opt is_some].
    destruct (W a) as ((c0 & fs0 & ->) & _). reflexivity.
  - intros [a|] K; [|discriminate K]. cbn [d_eval d_name assoc String.eqb Ascii.eqb Bool.eqb obind fst snd emb_opt].
    rewrite (attr_w _ _ G _ _ src_GenieClass_write_class) by inw. cbn [obind fst snd]. eapply w_class; [exact W|lia].
Qed.
End Arrays.
