(** * [==] on Python objects: what the generated [__eq__] of the dataclasses, lists and tuples give on
    a heap, and that on the trees of Deep.v it is Equal.v.  The lemmas per class are generated by
    tools/gen_same.py. *)
From Verif Require Import Base PyInt PyFloat PyStr PyStruct DataTypes Versions Common Py Source PyRep PyR Deep Dump CliL CliS Equal.
From Verif Require Import M_Sound M_PlayerColour M_Effect M_TerrainRestriction M_Graphic
  M_TerrainBlock M_RandomMaps M_Task M_UnitHeaders M_Unit M_Civ M_Tech M_TechTree M_DatFile.
From Verif Require Import FloatSpec FloatP Props_Equal.
From Coq Require Import String Ascii Lia.
Open Scope Z_scope.
Local Open Scope list_scope.

(** ** Python *)
(** Two numbers: by value, an int against a float exactly. *)
Definition number_eq (a b : number) : bool := holds CEq (num_cmp a b).
(** The items of two lists, or of two tuples: the first two that differ decide. *)
Fixpoint items_eq (f : val -> val -> option bool) (l m : list val) : option bool :=
  match l, m with
  | [], [] => Some true
  | v :: l, w :: m => match f v w with Some true => items_eq f l m | r => r end
  | _, _ => Some false
  end.
Fixpoint attributes (l : list (string * val)) (names : list string) : option (list val) :=
  match names with
  | [] => Some []
  | a :: names => match assoc a l, attributes l names with Some v, Some vs => Some (v :: vs) | _, _ => None end
  end.
(** [v == w] with [n] frames left on the stack; [None]: an exception.  Two references to one object are
    equal: lists and tuples look at that first for their items, and an object has the same fields as
    itself.  Two lists of different length are different.  Two objects of one dataclass are equal if the
    tuples of their fields, in the order of declaration, are: this is the [__eq__] that
    [@dataclass(slots=True)] makes (there is no other [__eq__] in /repo/src); it gives NotImplemented
    for objects of two classes, and Python then compares by identity, as it does for objects of a
    class without [__eq__].  Simplification: a float is never taken for the same object as another
    float of the same value; this matters for NaN only (each [struct.unpack] makes new floats). *)
Fixpoint py_eq (n : nat) (h : heap) (v w : val) {struct n} : option bool :=
  match n with
  | O => None
  | S n =>
      match v, w with
      | PNone, PNone => Some true
      | PStr a, PStr b => Some (str_eq a b)
      | PTuple l, PTuple m => items_eq (py_eq n h) l m
      | PRef p, PRef q =>
          if Nat.eqb p q then Some true else
          match nth_error h p, nth_error h q with
          | Some (OList l), Some (OList m) => if Nat.eqb (List.length l) (List.length m) then items_eq (py_eq n h) l m else Some false
          | Some (OInst c xs), Some (OInst c' ys) =>
              if String.eqb c c' then
                match class_of source c with
                | Some k => match c_sort k with
                            | Dataclass => match attributes xs (c_fields k), attributes ys (c_fields k) with
                                           | Some l, Some m => items_eq (py_eq n h) l m
                                           | _, _ => None
                                           end
                            | _ => Some false
                            end
                | None => Some false
                end
              else Some false
          | _, _ => Some false
          end
      | _, _ => match as_number v, as_number w with Some a, Some b => Some (number_eq a b) | _, _ => Some false end
      end
  end.

(** ** Trees *)
Fixpoint deq (d e : deep) {struct d} : bool :=
  match d, e with
  | DNone, DNone => true
  | DStr a, DStr b => str_eq a b
  | DInt a, DInt b => int_eq a b
  | (DFloat a | DNum a), (DFloat b | DNum b) => float_eq a b
  | DInt a, (DFloat b | DNum b) => number_eq (NInt a) (NFloat b)
  | (DFloat a | DNum a), DInt b => number_eq (NFloat a) (NInt b)
  | DList l, DList m | DTuple l, DTuple m =>
      (fix go l m {struct l} := match l, m with [], [] => true | a :: l, b :: m => deq a b && go l m | _, _ => false end) l m
  | DObj c l, DObj c' m => String.eqb c c' &&
      (fix go (l m : list (string * deep)) {struct l} := match l, m with [], [] => true | (_, a) :: l, (_, b) :: m => deq a b && go l m | _, _ => false end) l m
  | _, _ => false
  end.
Lemma holds_eq c : holds CEq c = match c with Some Eq => true | _ => false end.
Proof. destruct c as [[]|]; reflexivity. Qed.

Lemma mag_pos x : 0 <= f64_mag x /\ (f64_mag x = 0 -> is_zero x = true).
Proof.
  unfold f64_mag, is_zero. change (d_exp x) with (f64_exp (f64_bits x)) in *. change (d_man x) with (f64_man (f64_bits x)) in *.
  destruct (f64_split _ (f64_bits_range x)) as (_ & _ & E & M). destruct (f64_exp (f64_bits x) =? 0) eqn:Z.
  - split; [lia|]. intros ->. reflexivity.
  - pose proof (Z.pow_pos_nonneg 2 (f64_exp (f64_bits x) - 1) ltac:(lia) ltac:(lia)). split; nia.
Qed.
Lemma value_inj x y : d_sign x = d_sign y -> f64_value x = f64_value y -> x = y.
Proof.
  intros Es Ev. apply f64_bits_inj.
  destruct (f64_split _ (f64_bits_range x)) as (Bx & Sx & Ex & Mx). destruct (f64_split _ (f64_bits_range y)) as (By & Sy & Ey & My).
  assert (Em : f64_mag x = f64_mag y) by (unfold f64_value in Ev; rewrite Es in Ev; destruct (d_sign y =? 0); lia).
  unfold f64_mag in Em.
  change (d_sign x) with (f64_sign (f64_bits x)) in *. change (d_sign y) with (f64_sign (f64_bits y)) in *.
  change (d_exp x) with (f64_exp (f64_bits x)) in *. change (d_exp y) with (f64_exp (f64_bits y)) in *.
  change (d_man x) with (f64_man (f64_bits x)) in *. change (d_man y) with (f64_man (f64_bits y)) in *.
  set (ex := f64_exp (f64_bits x)) in *. set (ey := f64_exp (f64_bits y)) in *.
  set (mx := f64_man (f64_bits x)) in *. set (my := f64_man (f64_bits y)) in *.
  destruct (Z.lt_trichotomy ex ey) as [L|[L|L]].
  - pose proof (mag64_lt ex mx ey my ltac:(lia) L Mx My). lia.
  - rewrite L in *. assert (mx = my).
    { destruct (ey =? 0) eqn:E; [exact Em|]. pose proof (Z.pow_pos_nonneg 2 (ey - 1) ltac:(lia) ltac:(lia)).
      apply Z.mul_cancel_r in Em; lia. }
    rewrite Bx, By, Es. lia.
  - pose proof (mag64_lt ey my ex mx ltac:(lia) L My Mx). lia.
Qed.
Lemma value_zero_iff x : f64_value x = 0 <-> is_zero x = true.
Proof.
  split; [|apply zero_value]. intros V. apply mag_pos. unfold f64_value in V. destruct (d_sign x =? 0); lia.
Qed.
Lemma value_eq x y : f64_value x = f64_value y <-> x = y \/ (is_zero x = true /\ is_zero y = true).
Proof.
  split.
  - intros V. destruct (Z.eq_dec (f64_value x) 0) as [Z|Z]; [right; split; apply value_zero_iff; congruence|]. left. apply value_inj; [|exact V].
    unfold f64_value in V, Z. pose proof (proj1 (mag_pos x)). pose proof (proj1 (mag_pos y)).
    change (d_sign x) with (f64_sign (f64_bits x)) in *. change (d_sign y) with (f64_sign (f64_bits y)) in *.
    destruct (f64_split _ (f64_bits_range x)) as (_ & Sx & _ & _). destruct (f64_split _ (f64_bits_range y)) as (_ & Sy & _ & _).
    destruct (f64_sign (f64_bits x) =? 0) eqn:A, (f64_sign (f64_bits y) =? 0) eqn:B; lia.
  - intros [->|[A B]]; [reflexivity|]. rewrite (proj2 (value_zero_iff x) A), (proj2 (value_zero_iff y) B). reflexivity.
Qed.
Lemma compare_eqb a b : holds CEq (Some (a ?= b)) = (a =? b).
Proof. unfold Z.eqb. destruct (a ?= b) eqn:C; cbn [holds]; destruct (Z.compare_spec a b); try discriminate C; symmetry; [apply Z.eqb_eq|apply Z.eqb_neq|apply Z.eqb_neq]; lia. Qed.
Lemma two_ints a b : number_eq (NInt a) (NInt b) = int_eq a b.
Proof. apply compare_eqb. Qed.
Lemma two_floats a b : number_eq (NFloat a) (NFloat b) = float_eq a b.
Proof.
  unfold number_eq. cbn [num_cmp]. unfold float_cmp, float_eq. change float_nan with is_nan in *. destruct (is_nan a), (is_nan b); try reflexivity. cbn [orb negb andb].
  rewrite compare_eqb. apply eq_true_iff_eq. rewrite Z.eqb_eq, orb_true_iff, f64_eqb_eq, andb_true_iff. apply value_eq.
Qed.
Lemma inf_value x : is_nan x = false -> f64_exp (f64_bits x) =? 2047 = true -> is_zero x = false.
Proof. intros _ E. apply Z.eqb_eq in E. unfold is_zero. rewrite E. reflexivity. Qed.
Lemma zero_float x : number_eq (NInt 0) (NFloat x) = float_eq f64_zero x.
Proof.
  unfold number_eq. cbn [num_cmp]. unfold int_float_cmp. change float_nan with is_nan in *. rewrite <- two_floats. unfold number_eq. cbn [num_cmp]. unfold float_cmp. change float_nan with is_nan in *.
  replace (is_nan f64_zero) with false by (vm_compute; reflexivity). cbn [orb]. destruct (is_nan x) eqn:N; [reflexivity|].
  replace (f64_value f64_zero) with 0 by (vm_compute; reflexivity). destruct (f64_exp (f64_bits x) =? 2047) eqn:E; [|reflexivity].
  rewrite compare_eqb. pose proof (inf_value x N E) as I. symmetry. transitivity false; [|destruct (f64_sign (f64_bits x) =? 0); reflexivity].
  apply Z.eqb_neq. intros V. symmetry in V. apply value_zero_iff in V. congruence.
Qed.
Lemma number_sym a b : number_eq a b = number_eq b a.
Proof.
  destruct a as [a|a], b as [b|b]; [rewrite !two_ints; apply Z.eqb_sym| | |].
  - unfold number_eq. cbn [num_cmp]. destruct (int_float_cmp a b) as [[]|]; reflexivity.
  - unfold number_eq. cbn [num_cmp]. destruct (int_float_cmp b a) as [[]|]; reflexivity.
  - rewrite !two_floats. unfold float_eq. rewrite (Bool.andb_comm (negb (is_nan a))), (Bool.andb_comm (is_zero a)). f_equal. f_equal. apply eq_true_iff_eq. rewrite !f64_eqb_eq. split; congruence.
Qed.
(** The numbers that stand for a number of a tree *)
Definition num_of (d : deep) : option number := match d with DInt z => Some (NInt z) | DFloat x | DNum x => Some (NFloat x) | _ => None end.
Definition same_number (a b : number) : Prop := a = b \/ (a = NInt 0 /\ b = NFloat f64_zero).
Lemma zero_eq b : number_eq (NInt 0) b = number_eq (NFloat f64_zero) b.
Proof.
  destruct b as [z|x]; [|rewrite zero_float, two_floats; reflexivity]. rewrite two_ints. unfold number_eq, int_eq. cbn [num_cmp]. unfold int_float_cmp. change float_nan with is_nan in *.
  replace (is_nan f64_zero) with false by (vm_compute; reflexivity). replace (f64_exp (f64_bits f64_zero) =? 2047) with false by (vm_compute; reflexivity).
  replace (f64_value f64_zero) with 0 by (vm_compute; reflexivity). cbn [option_map]. transitivity (holds CEq (Some (z * 2 ^ 1074 ?= 0))); [|destruct (z * 2 ^ 1074 ?= 0); reflexivity].
  rewrite compare_eqb. pose proof (Z.pow_pos_nonneg 2 1074 ltac:(lia) ltac:(lia)). set (p := 2 ^ 1074) in *. clearbody p. apply eq_true_iff_eq. rewrite !Z.eqb_eq. nia.
Qed.
Lemma same_number_eq a b a' b' : same_number a a' -> same_number b b' -> number_eq a b = number_eq a' b'.
Proof.
  intros A B. transitivity (number_eq a' b).
  - destruct A as [->|[-> ->]]; [reflexivity|apply zero_eq].
  - rewrite (number_sym a' b), (number_sym a' b'). destruct B as [->|[-> ->]]; [reflexivity|apply zero_eq].
Qed.
Lemma num_of_eq d e a b : num_of d = Some a -> num_of e = Some b -> deq d e = number_eq a b.
Proof.
  destruct d; intros A; try discriminate A; injection A as <-; destruct e; intros B; try discriminate B; injection B as <-; cbn [deq]; try reflexivity;
    (rewrite two_ints || rewrite two_floats); reflexivity.
Qed.
Lemma num_of_none d e a : num_of d = Some a -> num_of e = None -> deq d e = false.
Proof. destruct d; intros A; try discriminate A; destruct e; intros B; try discriminate B; reflexivity. Qed.
Lemma num_none_of d e a : num_of d = None -> num_of e = Some a -> deq d e = false.
Proof. destruct d; intros A; try discriminate A; destruct e; intros B; try discriminate B; reflexivity. Qed.

(** ** [==] on the objects of two trees that share nothing *)
Definition share_nothing (fp fq : list nat) : Prop := forall q, In q fp -> In q fq -> False.
Lemma share_nothing_concat fps fqs fp fq : share_nothing (List.concat fps) (List.concat fqs) -> In fp fps -> In fq fqs -> share_nothing fp fq.
Proof. intros A I J q P Q. apply (A q); apply in_concat; eexists; split; eassumption. Qed.
Definition list_deq := fix go l m {struct l} := match l, m with [], [] => true | a :: l, b :: m => deq a b && go l m | _, _ => false end.
Definition fields_deq := fix go (l m : list (string * deep)) {struct l} := match l, m with [], [] => true | (_, a) :: l, (_, b) :: m => deq a b && go l m | _, _ => false end.
Definition decides (n : nat) (h : heap) (f : val -> val -> option bool) : Prop := forall d t e u v w fp fq, @own Any h d v fp -> @own Any h e w fq ->
  says false n d t -> says false n e u -> share_nothing fp fq -> f v w = Some (deq d e).
Lemma items_decides n h f : decides n h f -> forall l vs fps, @owns Any h l vs fps -> forall m ws fqs, @owns Any h m ws fqs -> forall ts us,
  Forall2 (says false n) l ts -> Forall2 (says false n) m us -> share_nothing (List.concat fps) (List.concat fqs) -> items_eq f vs ws = Some (list_deq l m).
Proof.
  intros D l vs fps O. induction O as [|d v fp l vs fps Od O IH]; intros m ws fqs P ts us Y Z A; inversion P; subst; try reflexivity.
  inversion Y; subst. inversion Z; subst. cbn [items_eq list_deq].
  match goal with Q : own h ?e ?w ?fq, B : says _ _ ?e ?u, C : says _ _ d ?t |- _ => rewrite (D d t e u v w fp fq Od Q C B) end.
  2:{ apply (share_nothing_concat _ _ _ _ A); left; reflexivity. }
  match goal with |- context [deq d ?e] => destruct (deq d e) end; [|reflexivity]. eapply IH; try eassumption. intros q I J. apply (A q); cbn [List.concat]; apply in_or_app; right; assumption.
Qed.
Lemma fields_owns {ee : Era} h fs vs fps : ownf h fs vs fps -> owns h (map snd fs) (map snd vs) fps.
Proof. intros O. induction O; constructor; assumption. Qed.
Lemma fields_deq_list l : forall m, fields_deq l m = list_deq (map snd l) (map snd m).
Proof. induction l as [|[x a] l IH]; intros [|[y b] m]; try reflexivity. cbn [fields_deq list_deq map snd]. rewrite IH. reflexivity. Qed.
Lemma attributes_all (xs : list (string * val)) : differ (map fst xs) = true -> attributes xs (map fst xs) = Some (map snd xs).
Proof.
  intros D. assert (H : forall post pre, xs = pre ++ post -> attributes xs (map fst post) = Some (map snd post)); [|apply (H xs []); reflexivity].
  induction post as [|[x v] post IH]; intros pre E; [reflexivity|]. cbn [map fst snd attributes].
  rewrite (differ_assoc _ _ _ _ _ D E), (IH (pre ++ [(x, v)])); [reflexivity|]. rewrite <- app_assoc. exact E.
Qed.
Lemma list_deq_length l : forall m, List.length l <> List.length m -> list_deq l m = false.
Proof. induction l as [|a l IH]; intros [|b m] N; try reflexivity; [destruct N; reflexivity|]. cbn [list_deq]. rewrite (IH m), andb_false_r; [reflexivity|]. cbn [List.length] in N. lia. Qed.
Lemma owns_length {ee : Era} h l vs fps : owns h l vs fps -> List.length l = List.length vs.
Proof. intros O. induction O; cbn [List.length]; congruence. Qed.
(** What a number of a tree is in the heap *)
Lemma own_num h d v fp a : @own Any h d v fp -> num_of d = Some a -> exists b, as_number v = Some b /\ same_number b a.
Proof.
  destruct d; intros O E; try discriminate E; injection E as <-; cbn [own] in O; destruct O as [O _].
  - subst v. eexists. split; [reflexivity|left; reflexivity].
  - subst v. eexists. split; [reflexivity|left; reflexivity].
  - destruct O as [->|[-> ->]]; (eexists; split; [reflexivity|]); [left; reflexivity|right; split; reflexivity].
Qed.
Theorem eq_own n : forall h, decides n h (py_eq n h).
Proof.
  induction n as [|n IH]; intros h d t e u v w fp fq O P Y Z A; [inversion Y|].
  assert (NUM : forall a, num_of d = Some a -> py_eq (S n) h v w = Some (deq d e)).
  { intros a E. destruct (own_num _ _ _ _ _ O E) as (a' & V & SA).
    assert (GO : py_eq (S n) h v w = match as_number w with Some b => Some (number_eq a' b) | None => Some false end) by (destruct v; try discriminate V; cbn [py_eq]; rewrite V; reflexivity).
    rewrite GO. destruct (num_of e) as [b|] eqn:F.
    - destruct (own_num _ _ _ _ _ P F) as (b' & -> & SB). rewrite (num_of_eq _ _ _ _ E F), (same_number_eq _ _ _ _ SA SB). reflexivity.
    - rewrite (num_of_none _ _ _ E F). replace (as_number w) with (@None number); [reflexivity|]. inversion Z; subst; try discriminate F; clear - P.
      + destruct P as [-> _]. reflexivity.
      + destruct P as [-> _]. reflexivity.
      + apply own_list in P as (? & ? & ? & -> & _). reflexivity.
      + apply own_tuple in P as (? & ? & -> & _). reflexivity.
      + apply own_obj in P as (? & ? & ? & -> & _). reflexivity. }
  destruct (num_of d) as [a|] eqn:E; [apply (NUM a eq_refl)|clear NUM].
  destruct (num_of e) as [b|] eqn:F.
  { destruct (own_num _ _ _ _ _ P F) as (b' & W & _). rewrite (num_none_of _ _ _ E F).
    inversion Y; subst; try discriminate E.
    - destruct O as [-> _]. destruct w; try discriminate W; reflexivity.
    - destruct O as [-> _]. destruct w; try discriminate W; reflexivity.
    - apply own_list in O as (? & ? & ? & -> & _). destruct w; try discriminate W; reflexivity.
    - apply own_tuple in O as (? & ? & -> & _). destruct w; try discriminate W; reflexivity.
    - apply own_obj in O as (? & ? & ? & -> & _). destruct w; try discriminate W; reflexivity. }
  inversion Y; subst; try discriminate E; clear E.
  - destruct O as [-> _]. inversion Z; subst; try discriminate F; clear F.
    + destruct P as [-> _]. reflexivity.
    + destruct P as [-> _]. reflexivity.
    + apply own_list in P as (? & ? & ? & -> & _). reflexivity.
    + apply own_tuple in P as (? & ? & -> & _). reflexivity.
    + apply own_obj in P as (? & ? & ? & -> & _). reflexivity.
  - destruct O as [-> _]. inversion Z; subst; try discriminate F; clear F.
    + destruct P as [-> _]. reflexivity.
    + destruct P as [-> _]. reflexivity.
    + apply own_list in P as (? & ? & ? & -> & _). reflexivity.
    + apply own_tuple in P as (? & ? & -> & _). reflexivity.
    + apply own_obj in P as (? & ? & ? & -> & _). reflexivity.
  - apply own_list in O as (p & vs & fps & -> & Q & -> & O). inversion Z; subst; try discriminate F; clear F.
    + destruct P as [-> _]. reflexivity.
    + destruct P as [-> _]. reflexivity.
    + apply own_list in P as (q & ws & fqs & -> & R & -> & P).
      assert (NE : Nat.eqb p q = false) by (apply Nat.eqb_neq; intros ->; apply (A q); left; reflexivity).
      cbn [py_eq]. rewrite NE, Q, R. change (deq (DList l) (DList l0)) with (list_deq l l0).
      pose proof (owns_length _ _ _ _ O) as L1. pose proof (owns_length _ _ _ _ P) as L2.
      destruct (Nat.eqb (List.length vs) (List.length ws)) eqn:L.
      * eapply (items_decides n h _ (IH h)); try eassumption. intros x I J. apply (A x); right; assumption.
      * rewrite list_deq_length; [reflexivity|]. apply Nat.eqb_neq in L. congruence.
    + apply own_tuple in P as (? & ? & -> & _). reflexivity.
    + apply own_obj in P as (q & ? & ? & -> & R & -> & _). cbn [py_eq].
      assert (NE : Nat.eqb p q = false) by (apply Nat.eqb_neq; intros ->; apply (A q); left; reflexivity). rewrite NE, Q, R. reflexivity.
  - apply own_tuple in O as (vs & fps & -> & -> & O). inversion Z; subst; try discriminate F; clear F.
    + destruct P as [-> _]. reflexivity.
    + destruct P as [-> _]. reflexivity.
    + apply own_list in P as (? & ? & ? & -> & _). reflexivity.
    + apply own_tuple in P as (ws & fqs & -> & -> & P). cbn [py_eq]. change (deq (DTuple l) (DTuple l0)) with (list_deq l l0).
      eapply (items_decides n h _ (IH h)); eassumption.
    + apply own_obj in P as (? & ? & ? & -> & _). reflexivity.
  - apply own_obj in O as (p & vs & fps & -> & Q & -> & O). inversion Z; subst; try discriminate F; clear F.
    + destruct P as [-> _]. reflexivity.
    + destruct P as [-> _]. reflexivity.
    + apply own_list in P as (q & ? & ? & -> & R & -> & _). cbn [py_eq].
      assert (NE : Nat.eqb p q = false) by (apply Nat.eqb_neq; intros ->; apply (A q); left; reflexivity). rewrite NE, Q, R. reflexivity.
    + apply own_tuple in P as (? & ? & -> & _). reflexivity.
    + apply own_obj in P as (q & ws & fqs & -> & R & -> & P).
      assert (NE : Nat.eqb p q = false) by (apply Nat.eqb_neq; intros ->; apply (A q); left; reflexivity).
      cbn [py_eq]. rewrite NE, Q, R. change (deq (DObj c fs) (DObj c0 fs0)) with (String.eqb c c0 && fields_deq fs fs0).
      destruct (String.eqb_spec c c0) as [<-|_]; [|reflexivity]. cbn [andb].
      match goal with K : class_of source c = Some ?k, K' : class_of source c = Some ?k' |- _ => assert (k' = k) by congruence; subst k'; rewrite K end.
      match goal with H : c_sort k = Dataclass |- _ => rewrite H end.
      pose proof (ownf_names _ _ _ _ O) as N1. pose proof (ownf_names _ _ _ _ P) as N2.
      assert (M1 : attributes vs (c_fields k) = Some (map snd vs)) by (replace (c_fields k) with (map fst vs) by congruence; apply attributes_all; congruence).
      assert (M2 : attributes ws (c_fields k) = Some (map snd ws)) by (replace (c_fields k) with (map fst ws) by congruence; apply attributes_all; congruence).
      rewrite M1, M2, fields_deq_list.
      assert (F2 : forall fs ts, Forall2 (fun a b : string * _ => fst a = fst b /\ says false n (snd a) (snd b)) fs ts -> Forall2 (says false n) (map snd fs) (map snd ts)).
      { clear. intros fs ts H. induction H as [|a b fs ts [_ B] H IH]; constructor; assumption. }
      eapply (items_decides n h _ (IH h)); [apply fields_owns; eassumption|apply fields_owns; eassumption|apply F2; eassumption|apply F2; eassumption|].
      intros x I J. apply (A x); right; assumption.
Qed.

(** ** Classes *)
Lemma deq_list {A} (f : A -> deep) e : (forall x y, deq (f x) (f y) = e x y) -> forall l m, deq (DList (map f l)) (DList (map f m)) = list_eq e l m.
Proof.
  intros H l m. change (list_deq (map f l) (map f m) = list_eq e l m). revert m. induction l as [|a l IH]; intros [|b m]; try reflexivity.
  cbn [map list_deq list_eq]. rewrite H, IH. reflexivity.
Qed.
Lemma deq_tuple {A} (f : A -> deep) e : (forall x y, deq (f x) (f y) = e x y) -> forall l m, deq (DTuple (map f l)) (DTuple (map f m)) = list_eq e l m.
Proof. intros H l m. rewrite <- (deq_list f e H). reflexivity. Qed.
Lemma deq_opt {A} (f : A -> deep) e : (forall x, f x <> DNone) -> (forall x y, deq (f x) (f y) = e x y) -> forall o p, deq (emb_opt f o) (emb_opt f p) = option_eq e o p.
Proof.
  intros N H [x|] [y|]; cbn [emb_opt option_eq]; [apply H| | |reflexivity].
  - specialize (N x). destruct (f x); try reflexivity. contradiction.
  - specialize (N y). destruct (f y); try reflexivity. contradiction.
Qed.
Lemma deq_object c l m r : fields_deq l m = tuple_eq r -> deq (DObj c l) (DObj c m) = tuple_eq r.
Proof. intros <-. change (deq (DObj c l) (DObj c m)) with (String.eqb c c && fields_deq l m). rewrite String.eqb_refl. reflexivity. Qed.
Lemma deq_field k a b l m e r : deq a b = e -> fields_deq l m = tuple_eq r -> fields_deq ((k, a) :: l) ((k, b) :: m) = tuple_eq (e :: r).
Proof. intros <- H. change (tuple_eq (deq a b :: r)) with (deq a b && tuple_eq r). rewrite <- H. reflexivity. Qed.
Lemma deq_int a b : deq (DInt a) (DInt b) = int_eq a b. Proof. reflexivity. Qed.
Lemma deq_str a b : deq (DStr a) (DStr b) = str_eq a b. Proof. reflexivity. Qed.
Lemma deq_float a b : deq (DFloat a) (DFloat b) = float_eq a b. Proof. reflexivity. Qed.
Lemma deq_num a b : deq (DNum a) (DNum b) = float_eq a b. Proof. reflexivity. Qed.
Create HintDb deq.
Ltac same_item := first [ apply deq_int | apply deq_float | apply deq_str | apply deq_num | apply deq_opt; [intros ?; discriminate|intros ? ?; same_item]
  | apply deq_list; intros ? ?; same_item | apply deq_tuple; intros ? ?; same_item | auto with deq nocore ].
Ltac same_fields := intros x y; apply deq_object; repeat first [ reflexivity | apply deq_field; [same_item|] ].

Lemma SoundItem_deq : forall x y, deq (SoundItem_deep x) (SoundItem_deep y) = SoundItem_eq x y.
Proof. unfold SoundItem_deep, SoundItem_eq. same_fields. Qed.
#[export] Hint Resolve SoundItem_deq : deq.
Lemma Sound_deq : forall x y, deq (Sound_deep x) (Sound_deep y) = Sound_eq x y.
Proof. unfold Sound_deep, Sound_eq. same_fields. Qed.
#[export] Hint Resolve Sound_deq : deq.
Lemma PlayerColour_deq : forall x y, deq (PlayerColour_deep x) (PlayerColour_deep y) = PlayerColour_eq x y.
Proof. unfold PlayerColour_deep, PlayerColour_eq. same_fields. Qed.
#[export] Hint Resolve PlayerColour_deq : deq.
Lemma EffectCommand_deq : forall x y, deq (EffectCommand_deep x) (EffectCommand_deep y) = EffectCommand_eq x y.
Proof. unfold EffectCommand_deep, EffectCommand_eq. same_fields. Qed.
#[export] Hint Resolve EffectCommand_deq : deq.
Lemma Effect_deq : forall x y, deq (Effect_deep x) (Effect_deep y) = Effect_eq x y.
Proof. unfold Effect_deep, Effect_eq. same_fields. Qed.
#[export] Hint Resolve Effect_deq : deq.
Lemma TerrainPassGraphic_deq : forall x y, deq (TerrainPassGraphic_deep x) (TerrainPassGraphic_deep y) = TerrainPassGraphic_eq x y.
Proof. unfold TerrainPassGraphic_deep, TerrainPassGraphic_eq. same_fields. Qed.
#[export] Hint Resolve TerrainPassGraphic_deq : deq.
Lemma TerrainRestriction_deq : forall x y, deq (TerrainRestriction_deep x) (TerrainRestriction_deep y) = TerrainRestriction_eq x y.
Proof. unfold TerrainRestriction_deep, TerrainRestriction_eq. same_fields. Qed.
#[export] Hint Resolve TerrainRestriction_deq : deq.
Lemma GraphicDelta_deq : forall x y, deq (GraphicDelta_deep x) (GraphicDelta_deep y) = GraphicDelta_eq x y.
Proof. unfold GraphicDelta_deep, GraphicDelta_eq. same_fields. Qed.
#[export] Hint Resolve GraphicDelta_deq : deq.
Lemma GraphicAngleSound_deq : forall x y, deq (GraphicAngleSound_deep x) (GraphicAngleSound_deep y) = GraphicAngleSound_eq x y.
Proof. unfold GraphicAngleSound_deep, GraphicAngleSound_eq. same_fields. Qed.
#[export] Hint Resolve GraphicAngleSound_deq : deq.
Lemma Graphic_deq : forall x y, deq (Graphic_deep x) (Graphic_deep y) = Graphic_eq x y.
Proof. unfold Graphic_deep, Graphic_eq. same_fields. Qed.
#[export] Hint Resolve Graphic_deq : deq.
Lemma FrameData_deq : forall x y, deq (FrameData_deep x) (FrameData_deep y) = FrameData_eq x y.
Proof. unfold FrameData_deep, FrameData_eq. same_fields. Qed.
#[export] Hint Resolve FrameData_deq : deq.
Lemma Terrain_deq : forall x y, deq (Terrain_deep x) (Terrain_deep y) = Terrain_eq x y.
Proof. unfold Terrain_deep, Terrain_eq. same_fields. Qed.
#[export] Hint Resolve Terrain_deq : deq.
Lemma TileSize_deq : forall x y, deq (TileSize_deep x) (TileSize_deep y) = TileSize_eq x y.
Proof. unfold TileSize_deep, TileSize_eq. same_fields. Qed.
#[export] Hint Resolve TileSize_deq : deq.
Lemma TerrainBlock_deq : forall x y, deq (TerrainBlock_deep x) (TerrainBlock_deep y) = TerrainBlock_eq x y.
Proof. unfold TerrainBlock_deep, TerrainBlock_eq. same_fields. Qed.
#[export] Hint Resolve TerrainBlock_deq : deq.
Lemma MapUnit_deq : forall x y, deq (MapUnit_deep x) (MapUnit_deep y) = MapUnit_eq x y.
Proof. unfold MapUnit_deep, MapUnit_eq. same_fields. Qed.
#[export] Hint Resolve MapUnit_deq : deq.
Lemma MapTerrain_deq : forall x y, deq (MapTerrain_deep x) (MapTerrain_deep y) = MapTerrain_eq x y.
Proof. unfold MapTerrain_deep, MapTerrain_eq. same_fields. Qed.
#[export] Hint Resolve MapTerrain_deq : deq.
Lemma MapLand_deq : forall x y, deq (MapLand_deep x) (MapLand_deep y) = MapLand_eq x y.
Proof. unfold MapLand_deep, MapLand_eq. same_fields. Qed.
#[export] Hint Resolve MapLand_deq : deq.
Lemma MapElevation_deq : forall x y, deq (MapElevation_deep x) (MapElevation_deep y) = MapElevation_eq x y.
Proof. unfold MapElevation_deep, MapElevation_eq. same_fields. Qed.
#[export] Hint Resolve MapElevation_deq : deq.
Lemma MapInfo_deq : forall x y, deq (MapInfo_deep x) (MapInfo_deep y) = MapInfo_eq x y.
Proof. unfold MapInfo_deep, MapInfo_eq. same_fields. Qed.
#[export] Hint Resolve MapInfo_deq : deq.
Lemma RandomMaps_deq : forall x y, deq (RandomMaps_deep x) (RandomMaps_deep y) = RandomMaps_eq x y.
Proof. unfold RandomMaps_deep, RandomMaps_eq. same_fields. Qed.
#[export] Hint Resolve RandomMaps_deq : deq.
Lemma Task_deq : forall x y, deq (Task_deep x) (Task_deep y) = Task_eq x y.
Proof. unfold Task_deep, Task_eq. same_fields. Qed.
#[export] Hint Resolve Task_deq : deq.
Lemma UnitHeaders_deq : forall x y, deq (UnitHeaders_deep x) (UnitHeaders_deep y) = UnitHeaders_eq x y.
Proof. unfold UnitHeaders_deep, UnitHeaders_eq. same_fields. Qed.
#[export] Hint Resolve UnitHeaders_deq : deq.
Lemma ResourceStorage_deq : forall x y, deq (ResourceStorage_deep x) (ResourceStorage_deep y) = ResourceStorage_eq x y.
Proof. unfold ResourceStorage_deep, ResourceStorage_eq. same_fields. Qed.
#[export] Hint Resolve ResourceStorage_deq : deq.
Lemma DamageGraphic_deq : forall x y, deq (DamageGraphic_deep x) (DamageGraphic_deep y) = DamageGraphic_eq x y.
Proof. unfold DamageGraphic_deep, DamageGraphic_eq. same_fields. Qed.
#[export] Hint Resolve DamageGraphic_deq : deq.
Lemma DeadFish_deq : forall x y, deq (DeadFish_deep x) (DeadFish_deep y) = DeadFish_eq x y.
Proof. unfold DeadFish_deep, DeadFish_eq. same_fields. Qed.
#[export] Hint Resolve DeadFish_deq : deq.
Lemma Bird_deq : forall x y, deq (Bird_deep x) (Bird_deep y) = Bird_eq x y.
Proof. unfold Bird_deep, Bird_eq. same_fields. Qed.
#[export] Hint Resolve Bird_deq : deq.
Lemma AttackOrArmor_deq : forall x y, deq (AttackOrArmor_deep x) (AttackOrArmor_deep y) = AttackOrArmor_eq x y.
Proof. unfold AttackOrArmor_deep, AttackOrArmor_eq. same_fields. Qed.
#[export] Hint Resolve AttackOrArmor_deq : deq.
Lemma Type50_deq : forall x y, deq (Type50_deep x) (Type50_deep y) = Type50_eq x y.
Proof. unfold Type50_deep, Type50_eq. same_fields. Qed.
#[export] Hint Resolve Type50_deq : deq.
Lemma Projectile_deq : forall x y, deq (Projectile_deep x) (Projectile_deep y) = Projectile_eq x y.
Proof. unfold Projectile_deep, Projectile_eq. same_fields. Qed.
#[export] Hint Resolve Projectile_deq : deq.
Lemma ResourceCost_deq : forall x y, deq (ResourceCost_deep x) (ResourceCost_deep y) = ResourceCost_eq x y.
Proof. unfold ResourceCost_deep, ResourceCost_eq. same_fields. Qed.
#[export] Hint Resolve ResourceCost_deq : deq.
Lemma TrainLocation_deq : forall x y, deq (TrainLocation_deep x) (TrainLocation_deep y) = TrainLocation_eq x y.
Proof. unfold TrainLocation_deep, TrainLocation_eq. same_fields. Qed.
#[export] Hint Resolve TrainLocation_deq : deq.
Lemma Creatable_deq : forall x y, deq (Creatable_deep x) (Creatable_deep y) = Creatable_eq x y.
Proof. unfold Creatable_deep, Creatable_eq. same_fields. Qed.
#[export] Hint Resolve Creatable_deq : deq.
Lemma BuildingAnnex_deq : forall x y, deq (BuildingAnnex_deep x) (BuildingAnnex_deep y) = BuildingAnnex_eq x y.
Proof. unfold BuildingAnnex_deep, BuildingAnnex_eq. same_fields. Qed.
#[export] Hint Resolve BuildingAnnex_deq : deq.
Lemma Building_deq : forall x y, deq (Building_deep x) (Building_deep y) = Building_eq x y.
Proof. unfold Building_deep, Building_eq. same_fields. Qed.
#[export] Hint Resolve Building_deq : deq.
Lemma Unit_deq : forall x y, deq (Unit_deep x) (Unit_deep y) = Unit_eq x y.
Proof. unfold Unit_deep, Unit_eq. same_fields. Qed.
#[export] Hint Resolve Unit_deq : deq.
Lemma Civ_deq : forall x y, deq (Civ_deep x) (Civ_deep y) = Civ_eq x y.
Proof. unfold Civ_deep, Civ_eq. same_fields. Qed.
#[export] Hint Resolve Civ_deq : deq.
Lemma ResearchResourceCost_deq : forall x y, deq (ResearchResourceCost_deep x) (ResearchResourceCost_deep y) = ResearchResourceCost_eq x y.
Proof. unfold ResearchResourceCost_deep, ResearchResourceCost_eq. same_fields. Qed.
#[export] Hint Resolve ResearchResourceCost_deq : deq.
Lemma ResearchLocation_deq : forall x y, deq (ResearchLocation_deep x) (ResearchLocation_deep y) = ResearchLocation_eq x y.
Proof. unfold ResearchLocation_deep, ResearchLocation_eq. same_fields. Qed.
#[export] Hint Resolve ResearchLocation_deq : deq.
Lemma Tech_deq : forall x y, deq (Tech_deep x) (Tech_deep y) = Tech_eq x y.
Proof. unfold Tech_deep, Tech_eq. same_fields. Qed.
#[export] Hint Resolve Tech_deq : deq.
Lemma Common_deq : forall x y, deq (Common_deep x) (Common_deep y) = Common_eq x y.
Proof. unfold Common_deep, Common_eq. same_fields. Qed.
#[export] Hint Resolve Common_deq : deq.
Lemma TechTreeAge_deq : forall x y, deq (TechTreeAge_deep x) (TechTreeAge_deep y) = TechTreeAge_eq x y.
Proof. unfold TechTreeAge_deep, TechTreeAge_eq. same_fields. Qed.
#[export] Hint Resolve TechTreeAge_deq : deq.
Lemma BuildingConnection_deq : forall x y, deq (BuildingConnection_deep x) (BuildingConnection_deep y) = BuildingConnection_eq x y.
Proof. unfold BuildingConnection_deep, BuildingConnection_eq. same_fields. Qed.
#[export] Hint Resolve BuildingConnection_deq : deq.
Lemma UnitConnection_deq : forall x y, deq (UnitConnection_deep x) (UnitConnection_deep y) = UnitConnection_eq x y.
Proof. unfold UnitConnection_deep, UnitConnection_eq. same_fields. Qed.
#[export] Hint Resolve UnitConnection_deq : deq.
Lemma ResearchConnection_deq : forall x y, deq (ResearchConnection_deep x) (ResearchConnection_deep y) = ResearchConnection_eq x y.
Proof. unfold ResearchConnection_deep, ResearchConnection_eq. same_fields. Qed.
#[export] Hint Resolve ResearchConnection_deq : deq.
Lemma TechTree_deq : forall x y, deq (TechTree_deep x) (TechTree_deep y) = TechTree_eq x y.
Proof. unfold TechTree_deep, TechTree_eq. same_fields. Qed.
#[export] Hint Resolve TechTree_deq : deq.
Lemma DatFile_deq : forall x y, deq (DatFile_deep x) (DatFile_deep y) = DatFile_eq x y.
Proof. unfold DatFile_deep, DatFile_eq. same_fields. Qed.
#[export] Hint Resolve DatFile_deq : deq.
