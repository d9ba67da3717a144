(** * The statements and expressions of the [to_bytes] methods, run from their source text *)
From Verif Require Import Base PyInt PyFloat PyStr PyStruct DataTypes Versions Common Py Source PyRep PyPure PyW.
From Coq Require Import String Ascii Lia.
Open Scope Z_scope.
Local Open Scope list_scope.

Section Expr.
Variables (m : nat) (mod_ : string).
Notation cl := (d_call source m).
Notation dev := (d_eval source cl mod_).

(** ** Statements *)
Definition run (l : list stmt) (en : list (string * deep)) : outcome deep :=
  r <+ d_block source cl mod_ l en ;; Ret (match snd r with Some v => v | None => DNone end).
Lemma run_return e l en : run (SReturn e :: l) en = dev en e.
Proof. unfold run. cbn [d_block d_exec]. destruct (dev en e); reflexivity. Qed.
Lemma run_assign x e l en : run (SAssign x e :: l) en = (v <+ dev en e ;; run l ((x, v) :: en)).
Proof. unfold run. cbn [d_block d_exec]. destruct (dev en e); reflexivity. Qed.
Lemma run_add x e l en b : assoc x en = Some (DBytes b) -> run (SAdd x e :: l) en =
  (v <+ dev en e ;; w <+ d_bin BAdd (DBytes b) v ;; run l ((x, w) :: en)).
Proof. intros A. unfold run. cbn [d_block d_exec]. unfold d_name. rewrite A. cbn [obind]. destruct (dev en e); [|reflexivity]. cbn [obind]. destruct (d_bin BAdd (DBytes b) a); reflexivity. Qed.
Lemma run_assert e l en b : dev en e = Ret (DBool b) -> run (SAssert e :: l) en = if b then run l en else Raise (Std AssertionError).
Proof. intros E. unfold run. cbn [d_block d_exec]. rewrite E. destruct b; reflexivity. Qed.
Lemma run_raise e l en : run (SRaise e :: l) en = Raise (Std e).
Proof. reflexivity. Qed.
Lemma block_app a l en : d_block source cl mod_ (a ++ l) en =
  (r <+ d_block source cl mod_ a en ;; match snd r with Some _ => Ret r | None => d_block source cl mod_ l (fst r) end).
Proof.
  revert en. induction a as [|s a IH]; intros en; cbn [app d_block]; [reflexivity|].
  destruct (d_exec source cl mod_ s en) as [[e o]|f]; [|reflexivity]. cbn [obind fst snd]. destruct o; [reflexivity|]. apply IH.
Qed.
Lemma run_if c a b l en d t : dev en c = Ret d -> d_true d = Ret t -> run (SIf c a b :: l) en = run ((if t then a else b) ++ l) en.
Proof.
  intros E T. unfold run. rewrite block_app. cbn [d_block d_exec]. rewrite E. cbn [obind]. rewrite T. cbn [obind]. destruct t.
  - change ((fix block (l0 : list stmt) (en0 : list (string * deep)) {struct l0} : outcome (list (string * deep) * option deep) :=
       match l0 with [] => Ret (en0, None) | s :: l1 => r <+ d_exec source cl mod_ s en0;; match snd r with | Some _ => Ret r | None => block l1 (fst r) end end) a en)
      with (d_block source cl mod_ a en).
    destruct (d_block source cl mod_ a en) as [[e o]|f]; [|reflexivity]. cbn [obind fst snd]. destruct o; reflexivity.
  - change ((fix block (l0 : list stmt) (en0 : list (string * deep)) {struct l0} : outcome (list (string * deep) * option deep) :=
       match l0 with [] => Ret (en0, None) | s :: l1 => r <+ d_exec source cl mod_ s en0;; match snd r with | Some _ => Ret r | None => block l1 (fst r) end end) b en)
      with (d_block source cl mod_ b en).
    destruct (d_block source cl mod_ b en) as [[e o]|f]; [|reflexivity]. cbn [obind fst snd]. destruct o; reflexivity.
Qed.

(** ** Arguments *)
Definition plain (e : expr) : bool := match e with EStar _ | EKw _ _ => false | _ => true end.
Definition args (en : list (string * deep)) : list expr -> outcome (list deep * list (string * deep)) :=
  fix go (l : list expr) :=
    match l with
    | [] => Ret ([], [])
    | EStar e :: l => v <+ dev en e ;; vs <+ d_items v ;; r <+ go l ;; Ret (vs ++ fst r, snd r)
    | EKw x e :: l => v <+ dev en e ;; r <+ go l ;; Ret (fst r, (x, v) :: snd r)
    | e :: l => v <+ dev en e ;; r <+ go l ;; Ret (v :: fst r, snd r)
    end.
Lemma eval_call en f l : dev en (ECall f l) = (fd <+ dev en f ;; pk <+ args en l ;; cl fd (fst pk) (snd pk)).
Proof. reflexivity. Qed.
Lemma args_plain en e l : plain e = true -> args en (e :: l) = (v <+ dev en e ;; r <+ args en l ;; Ret (v :: fst r, snd r)).
Proof. destruct e; intros P; try discriminate P; reflexivity. Qed.
Lemma args_kw en x e l : args en (EKw x e :: l) = (v <+ dev en e ;; r <+ args en l ;; Ret (fst r, (x, v) :: snd r)).
Proof. reflexivity. Qed.
Lemma args_star en e l : args en (EStar e :: l) = (v <+ dev en e ;; vs <+ d_items v ;; r <+ args en l ;; Ret (vs ++ fst r, snd r)).
Proof. reflexivity. Qed.
Lemma call1 en f e fd d : plain e = true -> dev en f = Ret fd -> dev en e = Ret d -> dev en (ECall f [e]) = cl fd [d] [].
Proof. intros P F E. rewrite eval_call, F. cbn [obind]. rewrite args_plain by exact P. rewrite E. reflexivity. Qed.
Lemma call1kw en f e x e2 fd d d2 : plain e = true -> dev en f = Ret fd -> dev en e = Ret d -> dev en e2 = Ret d2 ->
  dev en (ECall f [e; EKw x e2]) = cl fd [d] [(x, d2)].
Proof. intros P F E E2. rewrite eval_call, F. cbn [obind]. rewrite args_plain by exact P. rewrite E. cbn [obind]. rewrite args_kw, E2. reflexivity. Qed.
Lemma call2 en f e e2 fd d d2 : plain e = true -> plain e2 = true -> dev en f = Ret fd -> dev en e = Ret d -> dev en e2 = Ret d2 ->
  dev en (ECall f [e; e2]) = cl fd [d; d2] [].
Proof. intros P P2 F E E2. rewrite eval_call, F. cbn [obind]. rewrite args_plain by exact P. rewrite E. cbn [obind]. rewrite args_plain by exact P2. rewrite E2. reflexivity. Qed.

(** ** Names *)
Lemma x_name en x d : assoc x en = Some d -> dev en (EName x) = Ret d.
Proof. intros A. cbn [d_eval]. unfold d_name. rewrite A. reflexivity. Qed.
Lemma x_global en x v d : assoc x en = None -> global source mod_ x = Some v -> d_of v = Ret d -> dev en (EName x) = Ret d.
Proof. intros A G D. cbn [d_eval]. unfold d_name. rewrite A, G. exact D. Qed.
Lemma x_len en e d z : (1 <= m)%nat -> assoc "len" en = None -> global source mod_ "len" = Some (PFun "len") -> plain e = true ->
  dev en e = Ret d -> d_len d = Ret z -> dev en (ECall (EName "len") [e]) = Ret (DInt z).
Proof.
  intros N A G P E L. rewrite (call1 en _ e (DFun "len") d P (x_global _ _ _ _ A G eq_refl) E). destruct m as [|n]; [lia|].
  rewrite call_len, L. reflexivity.
Qed.
Lemma x_member en v : assoc "Version" en = None -> global source mod_ "Version" = Some (PClass "Version") ->
  dev en (EAttr (EName "Version") (version_member v)) = Ret (dver v).
Proof.
  intros A G. cbn [d_eval]. unfold d_name. rewrite A, G. cbn [d_of obind]. unfold d_attr. rewrite c_Version. destruct v; reflexivity.
Qed.
Lemma x_ge en v w : (1 <= m)%nat -> assoc "version" en = Some (dver v) -> assoc "Version" en = None -> global source mod_ "Version" = Some (PClass "Version") ->
  dev en (ECmp CGe (EName "version") (EAttr (EName "Version") (version_member w))) = Ret (DBool (version_ge v w)).
Proof.
  intros N A A2 G. cbn [d_eval]. rewrite (x_name _ _ _ A : d_name source mod_ en "version" = _). cbn [obind].
  pose proof (x_member en w A2 G) as M. cbn [d_eval] in M. rewrite M. cbn [obind].
  unfold d_compare. cbn [d_is_float dver orb d_int d_str d_member method_of].
  destruct m as [|n]; [lia|]. unfold dver. rewrite (call_member _ _ _ _ _ _ _ m_ge). unfold src_Version___ge__. py.
  fold (dver v) (dver w). rewrite !attr_version. py. unfold d_compare. cbn [d_is_float orb d_int d_str]. unfold version_ge.
  destruct (str_compare (version_value v) (version_value w)); reflexivity.
Qed.
Lemma x_unit_type en a z : assoc "UnitType" en = None -> global source mod_ "UnitType" = Some (PClass "UnitType") ->
  assoc a (c_members src_UnitType) = Some (KInt z) -> dev en (EAttr (EName "UnitType") a) = Ret (DInt z).
Proof.
  intros A G K. cbn [d_eval]. unfold d_name. rewrite A, G. cbn [d_of obind]. unfold d_attr. rewrite c_UnitType, K. reflexivity.
Qed.
(** [x if e is not None else b''] *)
Lemma x_not_none en e d : dev en e = Ret d -> dev en (ECmp CIsNot e (EConst KNone)) = Ret (DBool (negb (d_none d))).
Proof. intros E. cbn [d_eval]. rewrite E. reflexivity. Qed.
Lemma x_if en c a b d t : dev en c = Ret d -> d_true d = Ret t -> dev en (EIf c a b) = if t then dev en a else dev en b.
Proof. intros E T. cbn [d_eval]. rewrite E. cbn [obind]. rewrite T. destruct t; reflexivity. Qed.
Lemma x_cmp en o a b x y : dev en a = Ret (DInt x) -> dev en b = Ret (DInt y) -> o <> CIs -> o <> CIsNot ->
  dev en (ECmp o a b) = Ret (DBool (holds o (Some (x ?= y)))).
Proof. intros A B N1 N2. cbn [d_eval]. rewrite A. cbn [obind]. rewrite B. cbn [obind]. destruct o; try contradiction; reflexivity. Qed.
Lemma x_chain en a b c x y z : dev en a = Ret (DInt x) -> dev en b = Ret (DInt y) -> dev en c = Ret (DInt z) ->
  dev en (EChain CEq a b CEq c) = Ret (DBool ((x =? y) && (y =? z))).
Proof.
  intros A B C. cbn [d_eval]. rewrite A, B, C. cbn [obind]. unfold d_compare at 1. cbn [d_is_float orb d_int].
  rewrite (Z.eqb_compare x y), (Z.eqb_compare y z). destruct (x ?= y); cbn [holds obind d_true andb]; try reflexivity.
Qed.
Lemma x_add en a b r s : dev en a = outb r -> dev en b = outb s -> dev en (EBin BAdd a b) = outb (r +++ s).
Proof. intros A B. cbn [d_eval]. rewrite A. destruct r; [|reflexivity]. cbn [outb obind]. rewrite B. destruct s; reflexivity. Qed.
Lemma x_bytes en b : dev en (EConst (KBytes b)) = outb (Ok b). Proof. reflexivity. Qed.
Lemma x_join en es rs : (1 <= m)%nat -> Forall2 (fun e r => dev en e = outb r) es rs ->
  dev en (ECall (EAttr (EConst (KBytes [])) "join") [EList es]) = outb (join rs).
Proof. intros N F. destruct m as [|n]; [lia|]. apply e_join, F. Qed.

(** ** [struct.pack] *)
Definition is_num (d : deep) : bool := match d with DNum _ => true | _ => false end.
Definition num_ok (c : fc) (d : deep) : bool := match c, d with Ff, _ => true | _, DNum _ => false | _, _ => true end.
Definition packs (en : list (string * deep)) (o : option (list fc)) (es : list expr) (vs : list pyval) : Prop :=
  exists ds, args en es = Ret (ds, []) /\ map d_pack ds = map Some vs /\
    match o with Some cs => nums_fit cs ds = true | None => existsb is_num ds = false end.
Lemma no_num_fits cs ds : existsb is_num ds = false -> nums_fit cs ds = true.
Proof.
  revert ds. induction cs as [|c cs IH]; intros [|d ds]; cbn [existsb nums_fit]; try reflexivity. intros E. apply Bool.orb_false_iff in E as [E1 E2].
  rewrite (IH _ E2). destruct c, d; try reflexivity; discriminate E1.
Qed.
Lemma packs_none en o es vs : packs en None es vs -> packs en o es vs.
Proof. intros (ds & A & M & F). exists ds. split; [exact A|]. split; [exact M|]. destruct o; [apply no_num_fits, F|exact F]. Qed.
Lemma packs_nil en o : packs en o [] [].
Proof. exists []. split; [reflexivity|]. split; [reflexivity|]. destruct o as [[|]|]; reflexivity. Qed.
Lemma packs_cons en c cs e es d v vs : plain e = true -> dev en e = Ret d -> d_pack d = Some v -> num_ok c d = true -> packs en (Some cs) es vs -> packs en (Some (c :: cs)) (e :: es) (v :: vs).
Proof.
  intros P E D K (ds & A & M & F). exists (d :: ds). rewrite args_plain by exact P. rewrite E. cbn [obind]. rewrite A. split; [reflexivity|].
  cbn [map nums_fit]. rewrite D, M. split; [reflexivity|]. fold (num_ok c d). rewrite K, F. reflexivity.
Qed.
Lemma packs_cons_none en e es d v vs : plain e = true -> dev en e = Ret d -> d_pack d = Some v -> is_num d = false -> packs en None es vs -> packs en None (e :: es) (v :: vs).
Proof.
  intros P E D K (ds & A & M & F). exists (d :: ds). rewrite args_plain by exact P. rewrite E. cbn [obind]. rewrite A. split; [reflexivity|].
  cbn [map existsb]. rewrite D, M, K, F. split; reflexivity.
Qed.
Lemma no_nums {A} (f : A -> deep) l : (forall a, is_num (f a) = false) -> existsb is_num (map f l) = false.
Proof. intros H. induction l as [|a l IH]; [reflexivity|]. cbn [map existsb]. rewrite H, IH. reflexivity. Qed.
Lemma packs_star en o e es d l vs ws : dev en e = Ret d -> seq_of d l -> map d_pack l = map Some vs -> existsb is_num l = false -> packs en None es ws -> packs en o (EStar e :: es) (vs ++ ws).
Proof.
  intros E D M K (ds & A & N & F). apply packs_none. exists (l ++ ds). rewrite args_star, E. cbn [obind]. rewrite (seq_items _ _ D). cbn [obind]. rewrite A. split; [reflexivity|].
  rewrite !map_app, M, N, existsb_app, K, F. split; reflexivity.
Qed.
Lemma packs_star_last en o e d l vs : dev en e = Ret d -> seq_of d l -> map d_pack l = map Some vs -> existsb is_num l = false -> packs en o [EStar e] vs.
Proof. intros E D M K. rewrite <- (app_nil_r vs). eapply packs_star; [exact E|exact D|exact M|exact K|apply packs_nil]. Qed.
Lemma ascii_of_lit s : ascii_of (lit s) = s.
Proof.
  induction s as [|a s IH]; [reflexivity|]. unfold lit in *. cbn. change (fold_right _ _ _) with (ascii_of (lit s)) at 1. unfold lit. rewrite IH. f_equal.
  rewrite <- (ascii_N_embedding a) at 2. f_equal. try rewrite N2Z.id. try reflexivity.
Qed.
Lemma py_pack_items cs vs : pack_vals cs (map Some vs) = pack_items cs vs.
Proof. revert vs. induction cs as [|c cs IH]; intros [|v vs]; cbn [map pack_vals pack_items]; try reflexivity. rewrite IH. reflexivity. Qed.
Lemma py_pack_struct f vs : native_f (lit f) = false -> py_pack (lit f) (map Some vs) = struct_pack f vs.
Proof. intros N. unfold py_pack, struct_pack. rewrite N, ascii_of_lit, map_length. destruct (parse_fmt f); [|reflexivity]. rewrite py_pack_items. reflexivity. Qed.
Lemma x_pack en x f cs es vs : (1 <= m)%nat -> assoc "struct" en = None -> global source mod_ "struct" = Some (PClass "struct") ->
  assoc x en = None -> global source mod_ x = Some (PStr (lit f)) -> native_f (lit f) = false -> parse_fmt f = Some cs -> packs en (Some cs) es vs ->
  dev en (ECall (EAttr (EName "struct") "pack") (EName x :: es)) = outb (struct_pack f vs).
Proof.
  intros N A G AX GX NF PF (ds & AR & M & FIT). rewrite eval_call. cbn [d_eval]. rewrite (x_global _ _ _ _ A G eq_refl : d_name source mod_ en "struct" = _). cbn [obind].
  rewrite attr_struct. cbn [obind]. rewrite args_plain by reflexivity. rewrite (x_global _ _ _ _ AX GX eq_refl). cbn [obind]. rewrite AR. cbn [obind fst snd].
  destruct m as [|n]; [lia|]. rewrite call_struct. unfold d_builtin. cbn [String.eqb Ascii.eqb Bool.eqb andb].
  replace (pack_fits (lit f) ds) with true by (unfold pack_fits; rewrite NF, ascii_of_lit, PF, FIT, Bool.orb_true_r; reflexivity). rewrite M, py_pack_struct by exact NF.
  destruct (struct_pack f vs); reflexivity.
Qed.

(** ** [self.field], [self.write_...(...)] *)
Section Self.
Variables (en : list (string * deep)) (c : string) (fs : list (string * deep)).
Hypothesis SF : assoc "self" en = Some (DObj c fs).
Lemma x_field a d : assoc a fs = Some d -> dev en (EAttr (EName "self") a) = Ret d.
Proof. intros A. cbn [d_eval]. rewrite (x_name _ _ _ SF : d_name source mod_ en "self" = _). cbn [obind d_attr]. rewrite A. reflexivity. Qed.
Hypothesis G : genie c fs.
Ltac inw := cbn; tauto.
Lemma x_w a fn : In (a, fn) writers -> dev en (EAttr (EName "self") a) = Ret (DMeth (DObj c fs) a).
Proof. intros I. cbn [d_eval]. rewrite (x_name _ _ _ SF : d_name source mod_ en "self" = _). cbn [obind]. apply (attr_w _ _ G _ _ _ I). Qed.
Lemma x_int_16 e d z : (3 <= m)%nat -> plain e = true -> dev en e = Ret d -> d_int d = Some z ->
  dev en (ECall (EAttr (EName "self") "write_int_16") [e]) = outb (write_int_16 z true true).
Proof. intros N P E D. erewrite call1; [|exact P|eapply x_w; inw|exact E]. apply (w_int_16 _ _ G _ _ _ true None N D). Qed.
Lemma x_int_16_if e d z ec b : (3 <= m)%nat -> plain e = true -> dev en e = Ret d -> d_int d = Some z -> dev en ec = Ret (DBool b) ->
  dev en (ECall (EAttr (EName "self") "write_int_16") [e; EKw "if_" ec]) = outb (write_int_16 z true b).
Proof. intros N P E D C. erewrite call1kw; [|exact P|eapply x_w; inw|exact E|exact C]. apply (w_int_16 _ _ G _ _ _ true (Some b) N D). Qed.
Lemma x_int_8 e d z : (3 <= m)%nat -> plain e = true -> dev en e = Ret d -> d_int d = Some z ->
  dev en (ECall (EAttr (EName "self") "write_int_8") [e]) = outb (write_int_8 z).
Proof. intros N P E D. erewrite call1; [|exact P|eapply x_w; inw|exact E]. apply (w_int_8 _ _ G _ _ _ N D). Qed.
Lemma x_int_32 e d z : (3 <= m)%nat -> plain e = true -> dev en e = Ret d -> d_int d = Some z ->
  dev en (ECall (EAttr (EName "self") "write_int_32") [e]) = outb (write_int_32 z true).
Proof. intros N P E D. erewrite call1; [|exact P|eapply x_w; inw|exact E]. apply (w_int_32 _ _ G _ _ _ true N D). Qed.
Lemma x_int_32_unsigned e d z : (3 <= m)%nat -> plain e = true -> dev en e = Ret d -> d_int d = Some z ->
  dev en (ECall (EAttr (EName "self") "write_int_32") [e; EKw "signed" (EConst (KBool false))]) = outb (write_int_32 z false).
Proof. intros N P E D. erewrite call1kw; [|exact P|eapply x_w; inw|exact E|reflexivity]. apply (w_int_32 _ _ G _ _ _ false N D). Qed.
Lemma x_float e x : (3 <= m)%nat -> plain e = true -> dev en e = Ret (DFloat x) ->
  dev en (ECall (EAttr (EName "self") "write_float") [e]) = outb (write_float x).
Proof. intros N P E. erewrite call1; [|exact P|eapply x_w; inw|exact E]. apply (w_float _ _ G _ _ N). Qed.
Lemma x_string k e s : (3 <= m)%nat -> plain e = true -> dev en e = Ret (DStr s) ->
  dev en (ECall (EAttr (EName "self") "write_string") [EConst (KInt (Z.of_nat (S k))); e]) = outb (write_string (S k) s).
Proof. intros N P E. erewrite call2; [|reflexivity|exact P|eapply x_w; inw|reflexivity|exact E]. apply (w_string _ _ G _ _ _ N). Qed.
Lemma x_debug e s : (4 <= m)%nat -> plain e = true -> dev en e = Ret (DStr s) ->
  dev en (ECall (EAttr (EName "self") "write_debug_string") [e]) = outb (write_debug_string s).
Proof. intros N P E. erewrite call1; [|exact P|eapply x_w; inw|exact E]. apply (w_debug _ _ G _ _ N). Qed.
Lemma x_int_8_array e d l : (4 <= m)%nat -> plain e = true -> dev en e = Ret d -> seq_of d (map DInt l) ->
  dev en (ECall (EAttr (EName "self") "write_int_8_array") [e]) = outb (write_int_8_array l).
Proof. intros N P E D. erewrite call1; [|exact P|eapply x_w; inw|exact E]. apply (w_int_8_array _ _ G _ _ _ N D). Qed.
Lemma x_int_16_array e d l : (4 <= m)%nat -> plain e = true -> dev en e = Ret d -> seq_of d (map DInt l) ->
  dev en (ECall (EAttr (EName "self") "write_int_16_array") [e]) = outb (write_int_16_array l).
Proof. intros N P E D. erewrite call1; [|exact P|eapply x_w; inw|exact E]. apply (w_int_16_array _ _ G _ _ _ N D). Qed.
Lemma x_int_32_array e d l : (4 <= m)%nat -> plain e = true -> dev en e = Ret d -> seq_of d (map DInt l) ->
  dev en (ECall (EAttr (EName "self") "write_int_32_array") [e]) = outb (write_int_32_array l).
Proof. intros N P E D. erewrite call1; [|exact P|eapply x_w; inw|exact E]. apply (w_int_32_array _ _ G _ _ _ N D). Qed.
Lemma x_float_array e d l : (4 <= m)%nat -> plain e = true -> dev en e = Ret d -> seq_of d (map DFloat l) ->
  dev en (ECall (EAttr (EName "self") "write_float_array") [e]) = outb (write_float_array l).
Proof. intros N P E D. erewrite call1; [|exact P|eapply x_w; inw|exact E]. apply (w_float_array _ _ G _ _ _ N D). Qed.
Lemma x_class {A} k (emb : A -> deep) f e x v : writes k emb f -> (k + 1 <= m)%nat -> plain e = true -> dev en e = Ret (emb x) ->
  assoc "version" en = Some (dver v) ->
  dev en (ECall (EAttr (EName "self") "write_class") [e; EName "version"]) = outb (write_class f x v).
Proof. intros W N P E V. erewrite call2; [|exact P|reflexivity|eapply x_w; inw|exact E|apply x_name, V]. eapply (w_class _ _ G); [exact W|lia]. Qed.
Lemma x_class_array_opt {A} k (emb : A -> deep) f e d l v : writes k emb f -> (k + 2 <= m)%nat -> plain e = true -> dev en e = Ret d ->
  seq_of d (map (emb_opt emb) l) -> assoc "version" en = Some (dver v) ->
  dev en (ECall (EAttr (EName "self") "write_class_array") [e; EName "version"]) = outb (write_class_array f l v).
Proof. intros W N P E D V. erewrite call2; [|exact P|reflexivity|eapply x_w; inw|exact E|apply x_name, V]. eapply (w_class_array _ _ G); [exact W|lia|exact D]. Qed.
Lemma x_class_array {A} k (emb : A -> deep) f e d l v : writes k emb f -> (k + 2 <= m)%nat -> plain e = true -> dev en e = Ret d ->
  seq_of d (map emb l) -> assoc "version" en = Some (dver v) ->
  dev en (ECall (EAttr (EName "self") "write_class_array") [e; EName "version"]) = outb (write_class_array f (map Some l) v).
Proof. intros W N P E D V. eapply x_class_array_opt; try eassumption. rewrite map_map. exact D. Qed.
End Self.
End Expr.

(** ** Methods *)
Lemma writes_intro {A} k (emb : A -> deep) f c fn :
  find_method source c "to_bytes" = Some fn -> f_kind fn = Method -> f_params fn = ["self"; "version"]%string -> f_defaults fn = [] ->
  (forall x, exists fs, emb x = DObj c fs /\ assoc "to_bytes" fs = None) ->
  (forall m x v, (k <= m)%nat -> run m (f_module fn) (f_body fn) [("self"%string, emb x); ("version"%string, dver v)] = outb (f x v)) ->
  writes (S k) emb f.
Proof.
  intros F K P D E R x. destruct (E x) as (fs & EX & T). split; [exists c, fs; exact EX|]. split.
  - intros cl. rewrite EX. apply (attr_method _ _ _ _ fn T F K).
  - intros [|m] v N; [lia|]. rewrite EX. rewrite (call_method _ _ _ _ fn _ _ F). unfold d_apply. rewrite D. cbn [obind]. rewrite P.
    cbn [known_kw forallb bind_args assoc option_map oopt obind]. rewrite <- EX. apply (R m x v). lia.
Qed.
(** [self.to_bytes_84(version)] *)
Lemma x_self_call m mod_ en c fs a fn v : assoc "self" en = Some (DObj c fs) -> assoc "version" en = Some (dver v) ->
  assoc a fs = None -> find_method source c a = Some fn -> f_kind fn = Method -> f_params fn = ["self"; "version"]%string -> f_defaults fn = [] ->
  d_eval source (d_call source (S m)) mod_ en (ECall (EAttr (EName "self") a) [EName "version"])
  = run m (f_module fn) (f_body fn) [("self"%string, DObj c fs); ("version"%string, dver v)].
Proof.
  intros SF V A F K P D. erewrite call1; [|reflexivity| |apply x_name, V].
  2: { cbn [d_eval]. rewrite (x_name (S m) mod_ en _ _ SF : d_name source mod_ en "self" = _). cbn [obind]. apply (attr_method _ _ _ _ fn A F K). }
  rewrite (call_method _ _ _ _ fn _ _ F). unfold d_apply. rewrite D. cbn [obind]. rewrite P. reflexivity.
Qed.
Lemma len_map {A} (f : A -> deep) l : len (map f l) = len l. Proof. unfold len. rewrite map_length. reflexivity. Qed.
Lemma seq_l l : seq_of (DList l) l. Proof. left. reflexivity. Qed.
Lemma seq_t l : seq_of (DTuple l) l. Proof. right. reflexivity. Qed.
