(** * How the values of the typed model appear in the heap of a Python program *)
From Verif Require Import Base PyInt PyFloat PyStr PyStruct DataTypes Versions Common Py Source.
From Coq Require Import String.
Open Scope Z_scope.
Local Open Scope list_scope.

(** A value with everything it refers to: what a user sees when he prints an object. *)
Inductive deep : Type :=
| DNone
| DBool (b : bool)
| DInt (z : Z)
| DFloat (x : f64)
| DStr (s : pystr)
| DBytes (b : bytes)
| DList (l : list deep)
| DTuple (l : list deep)
| DObj (c : string) (fs : list (string * deep))
| DRange (n : Z)
| DClass (c : string)
| DMember (c m : string)
| DFun (f : string)
| DMeth (recv : deep) (m : string)
(** a float, for which the int 0 may stand if it is 0.0: unit.py:551 sets [invulnerability_level = 0] *)
| DNum (x : f64).

(** [v] is an int, or a bool where an int will do. *)
Definition int_like (v : val) (z : Z) : Prop := as_int v = Some z.
(** [v] is a float, or (if [lax]) an int or bool that is stored as that float. *)
Definition float_like (lax : bool) (v : val) (x : f64) : Prop :=
  v = PFloat x \/ (lax = true /\ exists z, as_int v = Some z /\ f64_of_Z z = Some x).
Definition num_like (lax : bool) (v : val) (x : f64) : Prop := float_like lax v x \/ (v = PInt 0 /\ x = f64_zero).
(** [v] is a list or a tuple with these items. *)
Definition seq_like (h : heap) (v : val) (vs : list val) : Prop :=
  v = PTuple vs \/ exists l, v = PRef l /\ nth_error h l = Some (OList vs).
(** [v] stands for [d] in the heap [h]: the same fields with the same contents, where ints may be
    bools, floats may be ints or bools if [lax], and lists and tuples may stand for each other. *)
Section Stands.
Variable lax : bool.
Fixpoint stands (h : heap) (d : deep) (v : val) {struct d} : Prop :=
  match d with
  | DNone => v = PNone
  | DBool b => v = PBool b
  | DBytes b => v = PBytes b
  | DRange n => v = PRange n
  | DClass c => v = PClass c
  | DMember c m => v = PMember c m
  | DFun f => v = PFun f
  | DMeth r m => exists w, v = PMeth w m /\ stands h r w
  | DInt z => int_like v z
  | DFloat x => float_like lax v x
  | DNum x => num_like lax v x
  | DStr s => v = PStr s
  | DList l | DTuple l => exists vs, seq_like h v vs /\
      (fix all (l : list deep) (vs : list val) : Prop :=
         match l, vs with
         | [], [] => True
         | d :: l, v :: vs => stands h d v /\ all l vs
         | _, _ => False
         end) l vs
  | DObj c fs => exists p vs, v = PRef p /\ nth_error h p = Some (OInst c vs) /\
      (fix all (l : list (string * deep)) (vs : list (string * val)) : Prop :=
         match l, vs with
         | [], [] => True
         | (x, d) :: l, (y, v) :: vs => (x = y /\ stands h d v) /\ all l vs
         | _, _ => False
         end) fs vs
  end.

End Stands.

(** A later heap in which nothing that was there has changed. *)
Definition later (h h' : heap) : Prop := forall l o, nth_error h l = Some o -> nth_error h' l = Some o.
Lemma later_refl h : later h h. Proof. intros l o H. exact H. Qed.
Lemma later_trans a b c : later a b -> later b c -> later a c.
Proof. intros H K l o E. apply K, H, E. Qed.
Lemma later_app h e : later h (h ++ e).
Proof. intros l o H. rewrite nth_error_app1; [exact H|]. apply nth_error_Some. congruence. Qed.
#[export] Hint Resolve later_refl later_app : later.

(** The lists in [stands] as [Forall2]. *)
Lemma stands_items lax h l vs :
  (fix all (l : list deep) (vs : list val) : Prop :=
     match l, vs with [], [] => True | d :: l, v :: vs => stands lax h d v /\ all l vs | _, _ => False end) l vs
  <-> Forall2 (stands lax h) l vs.
Proof.
  revert vs. induction l as [|d l IH]; intros [|v vs]; split; intros H; try constructor; try contradiction; try (inversion H; fail).
  - apply H.
  - apply IH, H.
  - inversion H; assumption.
  - apply IH. inversion H; assumption.
Qed.
Definition field_stands (lax : bool) h (f : string * deep) (g : string * val) : Prop := fst f = fst g /\ stands lax h (snd f) (snd g).
Lemma stands_fields lax h l vs :
  (fix all (l : list (string * deep)) (vs : list (string * val)) : Prop :=
     match l, vs with [], [] => True | (x, d) :: l, (y, v) :: vs => (x = y /\ stands lax h d v) /\ all l vs | _, _ => False end) l vs
  <-> Forall2 (field_stands lax h) l vs.
Proof.
  revert vs. induction l as [|[x d] l IH]; intros [|[y v] vs]; split; intros H; try constructor; try contradiction; try (inversion H; fail).
  - apply H.
  - apply IH, H.
  - inversion H; assumption.
  - apply IH. inversion H; assumption.
Qed.
Lemma stands_list lax h l v : stands lax h (DList l) v <-> exists vs, seq_like h v vs /\ Forall2 (stands lax h) l vs.
Proof. cbn [stands]. split; intros (vs & S & F); exists vs; split; try assumption; apply stands_items, F. Qed.
Lemma stands_tuple lax h l v : stands lax h (DTuple l) v <-> exists vs, seq_like h v vs /\ Forall2 (stands lax h) l vs.
Proof. exact (stands_list lax h l v). Qed.
Lemma stands_obj lax h c fs v : stands lax h (DObj c fs) v <->
  exists p vs, v = PRef p /\ nth_error h p = Some (OInst c vs) /\ Forall2 (field_stands lax h) fs vs.
Proof. cbn [stands]. split; intros (p & vs & E & O & F); exists p, vs; (split; [exact E|split; [exact O|apply stands_fields, F]]). Qed.

(** Induction over deep values. *)
Section DeepInd.
  Variable P : deep -> Prop.
  Hypothesis HN : P DNone.
  Hypothesis HI : forall z, P (DInt z).
  Hypothesis HF : forall x, P (DFloat x).
  Hypothesis HS : forall s, P (DStr s).
  Hypothesis HB : forall b, P (DBool b).
  Hypothesis HY : forall b, P (DBytes b).
  Hypothesis HR : forall n, P (DRange n).
  Hypothesis HC : forall c, P (DClass c).
  Hypothesis HM : forall c m, P (DMember c m).
  Hypothesis HU : forall f, P (DFun f).
  Hypothesis HH : forall r m, P r -> P (DMeth r m).
  Hypothesis HL : forall l, Forall P l -> P (DList l).
  Hypothesis HT : forall l, Forall P l -> P (DTuple l).
  Hypothesis HO : forall c fs, Forall (fun f => P (snd f)) fs -> P (DObj c fs).
  Hypothesis HNum : forall x, P (DNum x).
  Fixpoint deep_rect' (d : deep) : P d :=
    let go := fix go (l : list deep) : Forall P l :=
      match l with [] => Forall_nil _ | d :: l => Forall_cons d (deep_rect' d) (go l) end in
    let gof := fix gof (l : list (string * deep)) : Forall (fun f => P (snd f)) l :=
      match l with [] => Forall_nil _ | f :: l => Forall_cons f (deep_rect' (snd f)) (gof l) end in
    match d with
    | DNone => HN | DInt z => HI z | DFloat x => HF x | DStr s => HS s
    | DBool b => HB b | DBytes b => HY b | DRange n => HR n | DClass c => HC c | DMember c m => HM c m | DFun f => HU f
    | DMeth r m => HH r m (deep_rect' r)
    | DList l => HL l (go l) | DTuple l => HT l (go l) | DObj c fs => HO c fs (gof fs) | DNum x => HNum x
    end.
End DeepInd.

Lemma seq_later h h' v vs : later h h' -> seq_like h v vs -> seq_like h' v vs.
Proof. intros L [E|(l & E & O)]; [left; exact E|right; exists l; split; [exact E|apply L, O]]. Qed.
Lemma stands_later lax h h' d : later h h' -> forall v, stands lax h d v -> stands lax h' d v.
Proof.
  intros L. induction d as [|z|x|s|b|b|n|c|c m|f|r m IHr|l IH|l IH|c fs IH|x] using deep_rect'; intros v H; try exact H.
  - destruct H as (w & -> & H). exists w. split; [reflexivity|]. apply IHr, H.
  - apply stands_list in H as (vs & S & F). apply stands_list. exists vs. split; [eapply seq_later; eassumption|].
    clear S. induction F as [|d v0 l vs D F IHF]; constructor; inversion IH; subst; auto.
  - apply stands_tuple in H as (vs & S & F). apply stands_tuple. exists vs. split; [eapply seq_later; eassumption|].
    clear S. induction F as [|d v0 l vs D F IHF]; constructor; inversion IH; subst; auto.
  - apply stands_obj in H as (p & vs & E & O & F). apply stands_obj. exists p, vs. split; [exact E|]. split; [apply L, O|].
    clear O. induction F as [|[x d] [y w] l vs [D1 D2] F IHF]; constructor; inversion IH; subst; auto. split; [exact D1|]. auto.
Qed.
(** The value of a field. *)
Lemma stands_field lax h fs vs a d : Forall2 (field_stands lax h) fs vs -> assoc a fs = Some d ->
  exists v, assoc a vs = Some v /\ stands lax h d v.
Proof.
  intros F. induction F as [|[x d'] [y v] fs vs [E D] F IH]; cbn [assoc]; [discriminate|]. cbn [fst snd] in *. subst y.
  destruct (String.eqb a x); [|apply IH]. intros E. injection E as <-. exists v. split; [reflexivity|exact D].
Qed.
Lemma field_names lax h fs vs : Forall2 (field_stands lax h) fs vs -> map fst fs = map fst vs.
Proof. intros F. induction F as [|f g fs vs [E _] F IH]; [reflexivity|]. cbn [map]. rewrite E, IH. reflexivity. Qed.
Lemma assoc_none {A B} a (fs : list (string * A)) (vs : list (string * B)) :
  map fst fs = map fst vs -> assoc a fs = None -> assoc a vs = None.
Proof.
  revert vs. induction fs as [|[x d] fs IH]; intros [|[y v] vs]; cbn [map fst assoc]; try discriminate; [reflexivity|].
  intros E. injection E as -> E. destruct (String.eqb a y); [discriminate|]. apply IH, E.
Qed.

(** A version as the member of the Enum. *)
Definition version_member (v : Version) : string :=
  match v with
  | UNDEFINED => "UNDEFINED" | VER_71 => "VER_71" | VER_72 => "VER_72" | VER_73 => "VER_73" | VER_74 => "VER_74"
  | VER_75 => "VER_75" | VER_76 => "VER_76" | VER_77 => "VER_77" | VER_78 => "VER_78" | VER_84 => "VER_84" | VER_88 => "VER_88"
  end%string.
Definition version_val (v : Version) : val := PMember "Version" (version_member v).
(** [None] for [None]. *)
Definition emb_opt {A} (emb : A -> deep) (o : option A) : deep := match o with Some a => emb a | None => DNone end.
