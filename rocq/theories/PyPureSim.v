(** * Running a program that changes nothing: in the heap and on deep values *)
From Verif Require Import Base PyInt PyFloat PyStr PyStruct DataTypes Versions Common Py PyRep PyPure.
From Coq Require Import String Ascii Lia.
Open Scope Z_scope.
Local Open Scope list_scope.

Section Sim.
Variable p : program.
Variable lax : bool.

Definition sim {A B} (R : heap -> A -> B -> Prop) (h : heap) (o : outcome A) (r : outcome (B * heap)) : Prop :=
  match o with
  | Ret a => exists b h', r = Ret (b, h') /\ later h h' /\ R h' a b
  | Raise Unsupported => True
  | Raise e => lax = true \/ r = Raise e
  end.
Notation same := (fun (_ : heap) a b => a = b).
Notation st := (stands lax).
Definition sts (h : heap) := Forall2 (st h).
Definition ste (h : heap) := Forall2 (field_stands lax h).
Definition stp (h : heap) (a : list deep * list (string * deep)) (b : list val * list (string * val)) : Prop :=
  sts h (fst a) (fst b) /\ ste h (snd a) (snd b).

Lemma sts_later h h' l vs : later h h' -> sts h l vs -> sts h' l vs.
Proof. intros L F. induction F; constructor; [eapply stands_later; eassumption|assumption]. Qed.
Lemma ste_later h h' l vs : later h h' -> ste h l vs -> ste h' l vs.
Proof. intros L F. induction F as [|a b l vs [E D] F IH]; constructor; [split; [exact E|eapply stands_later; eassumption]|assumption]. Qed.

Lemma sim_bind {A B A' B'} (R : heap -> A -> B -> Prop) (S : heap -> A' -> B' -> Prop) h o m k f :
  sim R h o (m h) -> (forall a b h', later h h' -> R h' a b -> sim S h' (k a) (f b h')) ->
  sim S h (obind o k) (mbind m f h).
Proof.
  intros H K. unfold sim in H |- *. unfold mbind. destruct o as [a|e]; cbn [obind].
  - destruct H as (b & h' & E & L & Hab). rewrite E. specialize (K a b h' L Hab). unfold sim in K. destruct (k a) as [c|e].
    + destruct K as (d & h'' & -> & L' & Hcd). exists d, h''. split; [reflexivity|]. split; [eapply later_trans; eassumption|exact Hcd].
    + destruct e; exact K.
  - destruct e; try exact I; (destruct H as [H|H]; [left; exact H|right; rewrite H; reflexivity]).
Qed.
Lemma sim_ret {A B} (R : heap -> A -> B -> Prop) h a b : R h a b -> sim R h (Ret a) (mret b h).
Proof. intros H. exists b, h. split; [reflexivity|]. split; [apply later_refl|exact H]. Qed.
Lemma sim_raise {A B} (R : heap -> A -> B -> Prop) h e : sim R h (Raise e) (mraise e h).
Proof. destruct e; try exact I; right; reflexivity. Qed.
Lemma sim_unsup {A B} (R : heap -> A -> B -> Prop) h r : sim (A:=A) (B:=B) R h (Raise Unsupported) r.
Proof. exact I. Qed.
Lemma sim_opt {A B} (R : heap -> A -> B -> Prop) h e o o' :
  match o, o' with Some a, Some b => R h a b | None, None => True | _, _ => False end ->
  sim R h (oopt e o) (mopt e o' h).
Proof. intros H. destruct o, o'; try contradiction; [apply sim_ret, H|apply sim_raise]. Qed.
Lemma sim_res {A} h (r : res A) : sim same h (ores r) (mres r h).
Proof. destruct r; [apply sim_ret; reflexivity|apply sim_raise]. Qed.
Lemma sim_weaken {A B} (R S : heap -> A -> B -> Prop) h o r :
  sim R h o r -> (forall h' a b, R h' a b -> S h' a b) -> sim S h o r.
Proof.
  intros H K. unfold sim in *. destruct o as [a|e]; [|exact H]. destruct H as (b & h' & E & L & X). exists b, h'. auto.
Qed.

(** ** Values *)
Lemma int_val h d v z : st h d v -> d_int d = Some z -> as_int v = Some z.
Proof. destruct d; try discriminate; cbn [stands d_int]; intros H E. - subst. exact E. - injection E as <-. exact H. Qed.
Lemma int_none h d v : st h d v -> d_is_float d = false -> d_int d = None -> as_int v = None.
Proof.
  destruct d; try discriminate; cbn [stands]; intros H _ _; try (subst; reflexivity).
  - destruct H as (vs & [->|(l' & -> & _)] & _); reflexivity.
  - destruct H as (vs & [->|(l' & -> & _)] & _); reflexivity.
  - destruct H as (q & vs & -> & _); reflexivity.
  - destruct H as (w & -> & _); reflexivity.
Qed.
Lemma sim_int h d v : st h d v -> sim same h (d_need_int d) (need_int v h).
Proof.
  intros H. destruct (match d with DNum _ => true | _ => false end) eqn:NU; [destruct d; try discriminate NU; exact I|].
  replace (d_need_int d) with (oopt TypeError (d_int d)) by (destruct d; try reflexivity; discriminate NU).
  unfold need_int. destruct (d_int d) as [z|] eqn:E.
  - rewrite (int_val _ _ _ _ H E). apply sim_ret. reflexivity.
  - destruct (d_is_float d) eqn:F.
    + destruct d; try discriminate F; try discriminate NU. destruct H as [->|[X _]]; [right; reflexivity|left; exact X].
    + rewrite (int_none _ _ _ H F E). right. reflexivity.
Qed.
Lemma const_stands h k : st h (dconst k) (const_val k).
Proof. destruct k; cbn [dconst const_val stands]; try reflexivity. left. reflexivity. Qed.

Lemma seq_len h l vs : sts h l vs -> len l = len vs.
Proof. intros F. unfold len. f_equal. induction F; cbn [List.length]; congruence. Qed.
Lemma seq_nonempty h l vs : sts h l vs -> nonempty l = nonempty vs.
Proof. intros F. destruct F; reflexivity. Qed.
Lemma seq_get h v vs : seq_like h v vs -> v = PTuple vs \/ exists l, v = PRef l /\ forall (A : Type) (k : obj -> M A), mbind (get_obj l) k h = k (OList vs) h.
Proof. intros [->|(l & -> & E)]; [left; reflexivity|right]. exists l. split; [reflexivity|]. intros A k. unfold mbind, get_obj. rewrite E. reflexivity. Qed.
Lemma obj_get {A} h q o (k : obj -> M A) : nth_error h q = Some o -> mbind (get_obj q) k h = k o h.
Proof. intros E. unfold mbind, get_obj. rewrite E. reflexivity. Qed.

Ltac seq_case H vs F :=
  first [apply stands_list in H | apply stands_tuple in H]; destruct H as (vs & H & F);
  let l := fresh "l" in let G := fresh "G" in apply seq_get in H as [->|(l & -> & G)].
Ltac obj_case H q vs O F := apply stands_obj in H as (q & vs & -> & O & F).

Lemma sim_true h d v : st h d v -> sim same h (d_true d) (is_true v h).
Proof.
  destruct d; intros H; cbn [d_true]; try exact I.
  - cbn [stands] in H. subst. apply sim_ret. reflexivity.
  - cbn [stands] in H. subst. apply sim_ret. reflexivity.
  - cbn [stands] in H. destruct v; try discriminate H; injection H as <-; apply sim_ret; [destruct b; reflexivity|reflexivity].
  - cbn [stands] in H. subst. apply sim_ret. reflexivity.
  - cbn [stands] in H. subst. apply sim_ret. reflexivity.
  - seq_case H vs F; cbn [is_true]; rewrite ?G; apply sim_ret; symmetry; rewrite (seq_nonempty _ _ _ F); reflexivity.
  - seq_case H vs F; cbn [is_true]; rewrite ?G; apply sim_ret; symmetry; rewrite (seq_nonempty _ _ _ F); reflexivity.
  - obj_case H q vs OO F. cbn [is_true]. rewrite (obj_get _ _ _ _ OO). apply sim_ret. reflexivity.
  - cbn [stands] in H. subst. apply sim_ret. reflexivity.
  - cbn [stands] in H. subst. apply sim_ret. reflexivity.
  - cbn [stands] in H. subst. apply sim_ret. reflexivity.
  - cbn [stands] in H. subst. apply sim_ret. reflexivity.
  - destruct H as (w & -> & _). apply sim_ret. reflexivity.
Qed.
Lemma map_sts {A} h (f : A -> deep) (g : A -> val) l : (forall a, st h (f a) (g a)) -> sts h (map f l) (map g l).
Proof. intros H. induction l; constructor; auto. Qed.
Lemma sim_items h d v : st h d v -> sim sts h (d_items d) (items v h).
Proof.
  destruct d; intros H; cbn [d_items]; try exact I.
  - cbn [stands] in H. subst. right. reflexivity.
  - cbn [stands] in H. subst. right. reflexivity.
  - cbn [stands] in H. destruct v; try discriminate H; right; reflexivity.
  - destruct H as [->|[X _]]; [right; reflexivity|left; exact X].
  - cbn [stands] in H. subst. apply sim_ret, map_sts. reflexivity.
  - cbn [stands] in H. subst. apply sim_ret, map_sts. reflexivity.
  - seq_case H vs F; cbn [items]; rewrite ?G; apply sim_ret; exact F.
  - seq_case H vs F; cbn [items]; rewrite ?G; apply sim_ret; exact F.
  - obj_case H q vs OO F. cbn [items]. rewrite (obj_get _ _ _ _ OO). apply sim_raise.
  - cbn [stands] in H. subst. apply sim_ret, map_sts. reflexivity.
  - cbn [stands] in H. subst. right. reflexivity.
  - cbn [stands] in H. subst. right. reflexivity.
  - destruct H as (w & -> & _). right. reflexivity.
Qed.
Lemma sim_len h d v : st h d v -> sim same h (d_len d) (length_of v h).
Proof.
  destruct d; intros H; cbn [d_len]; try exact I.
  - cbn [stands] in H. subst. right. reflexivity.
  - cbn [stands] in H. subst. right. reflexivity.
  - cbn [stands] in H. destruct v; try discriminate H; right; reflexivity.
  - destruct H as [->|[X _]]; [right; reflexivity|left; exact X].
  - cbn [stands] in H. subst. apply sim_ret. reflexivity.
  - cbn [stands] in H. subst. apply sim_ret. reflexivity.
  - seq_case H vs F; cbn [length_of]; rewrite ?G; apply sim_ret; apply (seq_len _ _ _ F).
  - seq_case H vs F; cbn [length_of]; rewrite ?G; apply sim_ret; apply (seq_len _ _ _ F).
  - obj_case H q vs OO F. cbn [length_of]. rewrite (obj_get _ _ _ _ OO). apply sim_raise.
  - cbn [stands] in H. subst. apply sim_ret. reflexivity.
  - cbn [stands] in H. subst. right. reflexivity.
  - cbn [stands] in H. subst. right. reflexivity.
  - destruct H as (w & -> & _). right. reflexivity.
Qed.
Lemma sim_index {A B} (R : heap -> A -> B -> Prop) h l vs i : Forall2 (R h) l vs ->
  sim R h (d_index l i) (index_of vs i h).
Proof.
  intros F. unfold d_index, index_of.
  assert (E : len l = len vs) by (unfold len; f_equal; clear -F; induction F; cbn [List.length]; congruence).
  rewrite E. set (j := if i <? 0 then i + len vs else i). destruct ((j <? 0) || (len vs <=? j)); [apply sim_raise|].
  apply sim_opt. clear E. generalize (Z.to_nat j). clear j. induction F as [|a b l vs X F IH]; intros [|m]; cbn [nth_error]; auto; apply IH.
Qed.
Lemma forall2_same {A} (l : list A) : Forall2 (fun a b : A => a = b) l l.
Proof. induction l; constructor; auto. Qed.
Lemma sim_item h d v i w : st h d v -> st h i w -> sim st h (d_item d i) (get_item v w h).
Proof.
  intros H I. pose proof (sim_int _ _ _ I) as N.
  destruct d; cbn [d_item]; try exact Logic.I.
  - cbn [stands] in H. subst. right. reflexivity.
  - cbn [stands] in H. subst. right. reflexivity.
  - cbn [stands] in H. destruct v; try discriminate H; right; reflexivity.
  - destruct H as [->|[X _]]; [right; reflexivity|left; exact X].
  - cbn [stands] in H. subst. cbn [get_item]. eapply sim_bind; [exact N|]. intros z ? h' L ->.
    eapply sim_bind; [apply (sim_index same), forall2_same|]. intros c ? h'' L' ->. apply sim_ret. reflexivity.
  - cbn [stands] in H. subst. cbn [get_item]. eapply sim_bind; [exact N|]. intros z ? h' L ->.
    eapply sim_bind; [apply (sim_index same), forall2_same|]. intros c ? h'' L' ->. apply sim_ret. reflexivity.
  - seq_case H vs F; cbn [get_item]; rewrite ?G; (eapply sim_bind; [exact N|]; intros z ? h' L ->;
      apply sim_index; eapply sts_later; eassumption).
  - seq_case H vs F; cbn [get_item]; rewrite ?G; (eapply sim_bind; [exact N|]; intros z ? h' L ->;
      apply sim_index; eapply sts_later; eassumption).
  - obj_case H q vs OO F. cbn [get_item]. rewrite (obj_get _ _ _ _ OO). apply sim_raise.
  - cbn [stands] in H. subst. right. reflexivity.
  - cbn [stands] in H. subst. right. reflexivity.
  - destruct H as (x & -> & _). right. reflexivity.
Qed.
Lemma sim_slice h d v a a' b b' : st h d v -> st h a a' -> st h b b' -> sim st h (d_slice d a b) (get_slice v a' b' h).
Proof.
  intros H A B. destruct d; try exact I. cbn [stands] in H. subst v. cbn [d_slice get_slice].
  eapply sim_bind; [apply sim_int, A|]. intros x ? h' L ->. eapply sim_bind; [apply sim_int; eapply stands_later; eassumption|].
  intros y ? h'' L' ->. apply sim_ret. reflexivity.
Qed.
Lemma not_bytes h d v : st h d v -> (forall b, d <> DBytes b) -> forall b, v <> PBytes b.
Proof.
  intros H N b ->. destruct d; cbn [stands] in H; try discriminate H.
  - destruct H as [X|(_ & z & X & _)]; discriminate X.
  - injection H as <-. exact (N _ eq_refl).
  - destruct H as (vs & [X|(l' & X & _)] & _); discriminate X.
  - destruct H as (vs & [X|(l' & X & _)] & _); discriminate X.
  - destruct H as (q & vs & X & _); discriminate X.
  - destruct H as (w & X & _); discriminate X.
  - destruct H as [[X|(_ & z & X & _)]|[X _]]; discriminate X.
Qed.
Lemma sim_bin h o a a' b b' : st h a a' -> st h b b' -> sim st h (d_bin o a b) (bin o a' b' h).
Proof.
  intros A B.
  assert (G : sim st h (x <+ d_need_int a ;; y <+ d_need_int b ;; Ret (DInt (match o with BAdd => x + y | BSub => x - y | BMul => x * y end)))
    ((x <~ need_int a' ;; y <~ need_int b' ;; mret (PInt (match o with BAdd => x + y | BSub => x - y | BMul => x * y end))) h)).
  { eapply sim_bind; [apply sim_int, A|]. intros x ? h' L ->. eapply sim_bind; [apply sim_int; eapply stands_later; eassumption|].
    intros y ? h'' L' ->. apply sim_ret. reflexivity. }
  destruct (match a with DBytes _ => true | _ => false end) eqn:EA.
  - destruct a; try discriminate EA. cbn [stands] in A. subst a'. destruct o.
    + destruct (match b with DBytes _ => true | _ => false end) eqn:EB.
      * destruct b; try discriminate EB. cbn [stands] in B. subst b'. apply sim_ret. reflexivity.
      * assert (N : forall c, b' <> PBytes c) by (apply (not_bytes _ _ _ B); intros c ->; discriminate EB).
        cbn [d_bin]. destruct b; try discriminate EB; (cbn [bin]; destruct b'; try exact G; exfalso; eapply N; reflexivity).
    + exact G.
    + cbn [d_bin bin]. eapply sim_bind; [apply sim_int, B|]. intros x ? h' L ->. apply sim_ret. reflexivity.
  - assert (N : forall c, a' <> PBytes c) by (apply (not_bytes _ _ _ A); intros c ->; discriminate EA).
    replace (d_bin o a b) with (x <+ d_need_int a ;; y <+ d_need_int b ;; Ret (DInt (match o with BAdd => x + y | BSub => x - y | BMul => x * y end)))
      by (destruct o, a; try discriminate EA; reflexivity).
    replace (bin o a' b') with (x <~ need_int a' ;; y <~ need_int b' ;; mret (PInt (match o with BAdd => x + y | BSub => x - y | BMul => x * y end)))
      by (destruct o, a'; try reflexivity; exfalso; eapply N; reflexivity).
    exact G.
Qed.

(** ** Calling *)
Definition simulates (dc : deep -> list deep -> list (string * deep) -> outcome deep)
    (cl : val -> list val -> list (string * val) -> M val) : Prop :=
  forall h f pos kw f' pos' kw', st h f f' -> sts h pos pos' -> ste h kw kw' -> sim st h (dc f pos kw) (cl f' pos' kw' h).

Lemma none_val h d v : st h d v -> (match d with DNone => true | _ => false end) = (match v with PNone => true | _ => false end).
Proof.
  destruct d; cbn [stands]; intros H; try (subst; reflexivity).
  - destruct v; try discriminate H; reflexivity.
  - destruct H as [->|[_ (z & X & _)]]; [reflexivity|]. destruct v; try discriminate X; reflexivity.
  - destruct H as (vs & [->|(l' & -> & _)] & _); reflexivity.
  - destruct H as (vs & [->|(l' & -> & _)] & _); reflexivity.
  - destruct H as (q & vs & -> & _); reflexivity.
  - destruct H as (w & -> & _); reflexivity.
  - destruct H as [[->|[_ (z & X & _)]]|[-> _]]; [reflexivity| |reflexivity]. destruct v; try discriminate X; reflexivity.
Qed.
Lemma number_int v z : as_int v = Some z -> as_number v = Some (NInt z).
Proof. destruct v; try discriminate; intros E; injection E as <-; reflexivity. Qed.
Lemma number_none h d v : st h d v -> d_is_float d = false -> d_int d = None -> as_number v = None.
Proof.
  destruct d; try discriminate; cbn [stands]; intros H _ _; try (subst; reflexivity).
  - destruct H as (vs & [->|(l' & -> & _)] & _); reflexivity.
  - destruct H as (vs & [->|(l' & -> & _)] & _); reflexivity.
  - destruct H as (q & vs & -> & _); reflexivity.
  - destruct H as (w & -> & _); reflexivity.
Qed.
Lemma str_val h d v : st h d v -> d_str d = as_str v.
Proof.
  destruct d; cbn [stands]; intros H; try (subst; reflexivity).
  - destruct v; try discriminate H; reflexivity.
  - destruct H as [->|[_ (z & X & _)]]; [reflexivity|]. destruct v; try discriminate X; reflexivity.
  - destruct H as (vs & [->|(l' & -> & _)] & _); reflexivity.
  - destruct H as (vs & [->|(l' & -> & _)] & _); reflexivity.
  - destruct H as (q & vs & -> & _); reflexivity.
  - destruct H as (w & -> & _); reflexivity.
  - destruct H as [[->|[_ (z & X & _)]]|[-> _]]; [reflexivity| |reflexivity]. destruct v; try discriminate X; reflexivity.
Qed.
Lemma member_val h d v : st h d v -> d_member d = is_member v.
Proof.
  destruct d; cbn [stands]; intros H; try (subst; reflexivity).
  - destruct v; try discriminate H; reflexivity.
  - destruct H as [->|[_ (z & X & _)]]; [reflexivity|]. destruct v; try discriminate X; reflexivity.
  - destruct H as (vs & [->|(l' & -> & _)] & _); reflexivity.
  - destruct H as (vs & [->|(l' & -> & _)] & _); reflexivity.
  - destruct H as (q & vs & -> & _); reflexivity.
  - destruct H as (w & -> & _); reflexivity.
  - destruct H as [[->|[_ (z & X & _)]]|[-> _]]; [reflexivity| |reflexivity]. destruct v; try discriminate X; reflexivity.
Qed.
Lemma number_val h d v : st h d v -> d_is_float d = false -> as_number v = option_map NInt (d_int d).
Proof.
  intros H F. destruct (d_int d) as [z|] eqn:E; [apply number_int, (int_val _ _ _ _ H E)|apply (number_none _ _ _ H F E)].
Qed.
Lemma sim_compare dc cl h o a a' b b' : simulates dc cl -> st h a a' -> st h b b' ->
  sim st h (d_compare dc o a b) (Py.compare cl o a' b' h).
Proof.
  intros C A B. pose proof (none_val _ _ _ A) as NA. pose proof (none_val _ _ _ B) as NB.
  fold (d_none a) in NA. fold (d_none b) in NB. fold (is_none a') in NA. fold (is_none b') in NB.
  unfold d_compare, Py.compare. cbv zeta. rewrite <- (str_val _ _ _ A), <- (str_val _ _ _ B), <- (member_val _ _ _ A), <- NA, <- NB.
  assert (EQ : sim st h (if d_is_float a || d_is_float b then Raise Unsupported else
     match d_int a, d_int b with
    | Some x, Some y => Ret (DBool (holds o (Some (x ?= y))))
    | None, None =>
        match d_str a, d_str b with
        | Some x, Some y => Ret (DBool (holds o (Some (str_compare x y))))
        | _, _ => Raise Unsupported
        end
    | _, _ => Ret (DBool (holds o None))
    end)
    (match as_number a', as_number b' with
    | Some x, Some y => mret (PBool (holds o (num_cmp x y)))
    | None, None =>
        match d_str a, d_str b with
        | Some x, Some y => mret (PBool (holds o (Some (str_compare x y))))
        | _, _ => mraise Unsupported
        end
    | _, _ => mret (PBool (holds o None))
    end h)).
  { destruct (d_is_float a || d_is_float b) eqn:F; [exact I|]. apply Bool.orb_false_iff in F as [FA FB].
    rewrite (number_val _ _ _ A FA), (number_val _ _ _ B FB).
    destruct (d_int a), (d_int b), (d_str a), (d_str b); cbn [option_map]; try (apply sim_ret; reflexivity); exact I. }
  assert (ORD : sim st h (if d_is_float a || d_is_float b then Raise Unsupported else
     match d_int a, d_int b with
    | Some x, Some y => Ret (DBool (holds o (Some (x ?= y))))
    | _, _ =>
        match d_str a, d_str b with
        | Some x, Some y => Ret (DBool (holds o (Some (str_compare x y))))
        | _, _ => if d_member a then dc (DMeth a (method_of o)) [b] [] else Raise TypeError
        end
    end)
    (match as_number a', as_number b' with
    | Some x, Some y => mret (PBool (holds o (num_cmp x y)))
    | _, _ =>
        match d_str a, d_str b with
        | Some x, Some y => mret (PBool (holds o (Some (str_compare x y))))
        | _, _ => if d_member a then cl (PMeth a' (method_of o)) [b'] [] else type_error
        end
    end h)).
  { destruct (d_is_float a || d_is_float b) eqn:F; [exact I|]. apply Bool.orb_false_iff in F as [FA FB].
    rewrite (number_val _ _ _ A FA), (number_val _ _ _ B FB).
    assert (K : sim st h (if d_member a then dc (DMeth a (method_of o)) [b] [] else Raise TypeError)
                  ((if d_member a then cl (PMeth a' (method_of o)) [b'] [] else type_error) h)).
    { destruct (d_member a); [|right; reflexivity]. apply C; [exists a'; split; [reflexivity|exact A]| |]; constructor; [exact B|constructor]. }
    destruct (d_int a), (d_int b), (d_str a), (d_str b); cbn [option_map]; try exact K; apply sim_ret; reflexivity. }
  destruct o; try exact EQ; try exact ORD; (destruct (d_none b); [apply sim_ret; reflexivity|exact I]).
Qed.

Lemma sim_attr dc cl h d v a : simulates dc cl -> st h d v -> sim st h (d_attr p dc d a) (attr p cl v a h).
Proof.
  intros C H. assert (R : forall m, st h (DMeth d m) (PMeth v m)) by (intros m; exists v; split; [reflexivity|exact H]).
  destruct d; cbn [d_attr]; try exact I.
  - cbn [stands] in H. subst. right. reflexivity.
  - cbn [stands] in H. subst. cbn [attr]. destruct (String.eqb a "to_bytes"); [apply sim_ret, R|apply sim_raise].
  - replace (attr p cl v a h) with ((if String.eqb a "to_bytes" then mret (PMeth v a) else mraise (Std AttributeError)) h)
      by (cbn [stands] in H; destruct v; try discriminate H; reflexivity).
    destruct (String.eqb a "to_bytes"); [apply sim_ret, R|apply sim_raise].
  - destruct H as [->|[X _]]; [right; reflexivity|left; exact X].
  - cbn [stands] in H. subst. cbn [attr]. destruct (String.eqb a "encode"); [apply sim_ret, R|apply sim_raise].
  - cbn [stands] in H. subst. cbn [attr]. destruct (String.eqb a "join" || String.eqb a "rstrip" || String.eqb a "decode"); [apply sim_ret, R|apply sim_raise].
  - pose proof H as H0. obj_case H q vs OO F. cbn [attr]. rewrite (obj_get _ _ _ _ OO).
    destruct (assoc a fs) as [w|] eqn:E.
    + destruct (stands_field _ _ _ _ _ _ F E) as (u & -> & U). apply sim_ret, U.
    + rewrite (assoc_none a fs vs (field_names _ _ _ _ F) E). destruct (find_method p c a) as [f|]; [|apply sim_raise].
      destruct (f_kind f); try (apply sim_ret, R); try (apply sim_ret; eexists; split; reflexivity).
      apply C; [apply R| |]; constructor.
  - cbn [stands] in H. subst. right. reflexivity.
  - cbn [stands] in H. subst. cbn [attr]. destruct (class_of p c) as [k|]; [|apply sim_ret, R].
    destruct (assoc a (c_members k)) as [w|]; [destruct (c_sort k); apply sim_ret; try reflexivity; apply const_stands|].
    destruct (find_method p c a) as [f|]; [|apply sim_raise]. destruct (f_kind f); try exact I; apply sim_ret, R.
  - cbn [stands] in H. subst. cbn [attr]. destruct (class_of p c) as [k|]; [|exact I].
    destruct (String.eqb a "value").
    + apply sim_opt. destruct (assoc m (c_members k)); cbn [option_map]; [apply const_stands|exact I].
    + destruct (is_some (find_method p c a)); [apply sim_ret, R|apply sim_raise].
  - cbn [stands] in H. subst. right. reflexivity.
  - destruct H as (w & -> & _). right. reflexivity.
Qed.

Lemma sim_of h v : sim st h (d_of v) (mret v h).
Proof. destruct v; try exact I; apply sim_ret; try reflexivity. left. reflexivity. Qed.
Lemma sim_name module h en en' x : ste h en en' -> sim st h (d_name p module en x) (name p module en' x h).
Proof.
  intros F. unfold d_name, name. destruct (assoc x en) as [d|] eqn:E.
  - destruct (stands_field _ _ _ _ _ _ F E) as (u & -> & U). apply sim_ret, U.
  - rewrite (assoc_none x en en' (field_names _ _ _ _ F) E). destruct (global p module x) as [v|]; [apply sim_of|].
    destruct (imported p x) as [v|]; [apply sim_of|apply sim_raise].
Qed.

(** ** Expressions *)
Section ExprInd.
  Variable P : expr -> Prop.
  Hypothesis Hk : forall k, P (EConst k).
  Hypothesis Hn : forall x, P (EName x).
  Hypothesis Ha : forall e a, P e -> P (EAttr e a).
  Hypothesis Hi : forall e i, P e -> P i -> P (EIndex e i).
  Hypothesis Hs : forall e a b, P e -> P a -> P b -> P (ESlice e a b).
  Hypothesis Hc : forall f l, P f -> Forall P l -> P (ECall f l).
  Hypothesis Hst : forall e, P e -> P (EStar e).
  Hypothesis Hkw : forall x e, P e -> P (EKw x e).
  Hypothesis Hb : forall o a b, P a -> P b -> P (EBin o a b).
  Hypothesis Hnot : forall e, P e -> P (ENot e).
  Hypothesis Hneg : forall e, P e -> P (ENeg e).
  Hypothesis Hcmp : forall o a b, P a -> P b -> P (ECmp o a b).
  Hypothesis Hchain : forall o a b q c, P a -> P b -> P c -> P (EChain o a b q c).
  Hypothesis Hand : forall a b, P a -> P b -> P (EAnd a b).
  Hypothesis Hif : forall c a b, P c -> P a -> P b -> P (EIf c a b).
  Hypothesis Hl : forall l, Forall P l -> P (EList l).
  Hypothesis Ht : forall l, Forall P l -> P (ETuple l).
  Hypothesis Hfor : forall b x i, P b -> P i -> P (EFor b x i None).
  Hypothesis Hforif : forall b x i c, P b -> P i -> P c -> P (EFor b x i (Some c)).
  Fixpoint expr_rect' (e : expr) : P e :=
    let go := fix go (l : list expr) : Forall P l :=
      match l with [] => Forall_nil _ | e :: l => Forall_cons e (expr_rect' e) (go l) end in
    match e with
    | EConst k => Hk k | EName x => Hn x | EAttr e a => Ha e a (expr_rect' e)
    | EIndex e i => Hi e i (expr_rect' e) (expr_rect' i)
    | ESlice e a b => Hs e a b (expr_rect' e) (expr_rect' a) (expr_rect' b)
    | ECall f l => Hc f l (expr_rect' f) (go l)
    | EStar e => Hst e (expr_rect' e) | EKw x e => Hkw x e (expr_rect' e)
    | EBin o a b => Hb o a b (expr_rect' a) (expr_rect' b)
    | ENot e => Hnot e (expr_rect' e) | ENeg e => Hneg e (expr_rect' e)
    | ECmp o a b => Hcmp o a b (expr_rect' a) (expr_rect' b)
    | EChain o a b q c => Hchain o a b q c (expr_rect' a) (expr_rect' b) (expr_rect' c)
    | EAnd a b => Hand a b (expr_rect' a) (expr_rect' b)
    | EIf c a b => Hif c a b (expr_rect' c) (expr_rect' a) (expr_rect' b)
    | EList l => Hl l (go l) | ETuple l => Ht l (go l)
    | EFor b x i None => Hfor b x i (expr_rect' b) (expr_rect' i)
    | EFor b x i (Some c) => Hforif b x i c (expr_rect' b) (expr_rect' i) (expr_rect' c)
    end.
End ExprInd.

Section Eval.
Variables (dc : deep -> list deep -> list (string * deep) -> outcome deep) (cl : val -> list val -> list (string * val) -> M val) (module : string).
Hypothesis C : simulates dc cl.
Notation dev := (d_eval p dc module).
Notation ev := (eval p cl module).
Notation good := (fun e => forall h en en', ste h en en' -> sim st h (dev en e) (ev en' e h)).

Lemma sim_alloc h l vs : sts h l vs -> sim st h (Ret (DList l)) (alloc (OList vs) h).
Proof.
  intros F. exists (PRef (List.length h)), (h ++ [OList vs]). split; [reflexivity|]. split; [apply later_app|].
  apply stands_list. exists vs. split; [right; exists (List.length h); split; [reflexivity|]|].
  - rewrite nth_error_app2 by lia. rewrite Nat.sub_diag. reflexivity.
  - apply (sts_later _ _ _ _ (later_app h _) F).
Qed.
Lemma sim_eval_list l : Forall good l -> forall h en en', ste h en en' ->
  sim sts h ((fix go (l : list expr) : outcome (list deep) :=
               match l with [] => Ret [] | e :: l => v <+ dev en e ;; r <+ go l ;; Ret (v :: r) end) l)
    ((fix go (l : list expr) : M (list val) :=
               match l with [] => mret [] | e :: l => v <~ ev en' e ;; r <~ go l ;; mret (v :: r) end) l h).
Proof.
  intros G. induction G as [|e l He G IH]; intros h en en' F; [apply sim_ret; constructor|].
  eapply sim_bind; [apply He, F|]. intros d v h' L D. eapply sim_bind; [apply IH, (ste_later _ _ _ _ L F)|].
  intros r r' h'' L' R. apply sim_ret. constructor; [apply (stands_later _ _ _ _ L' _ D)|exact R].
Qed.
Notation dargs en := (fix go (l : list expr) : outcome (list deep * list (string * deep)) :=
               match l with
               | [] => Ret ([], [])
               | EStar e :: l => v <+ dev en e ;; vs <+ d_items v ;; r <+ go l ;; Ret (vs ++ fst r, snd r)
               | EKw x e :: l => v <+ dev en e ;; r <+ go l ;; Ret (fst r, (x, v) :: snd r)
               | e :: l => v <+ dev en e ;; r <+ go l ;; Ret (v :: fst r, snd r)
               end).
Notation args en' := (fix go (l : list expr) : M (list val * list (string * val)) :=
               match l with
               | [] => mret ([], [])
               | EStar e :: l => v <~ ev en' e ;; vs <~ items v ;; r <~ go l ;; mret (vs ++ fst r, snd r)
               | EKw x e :: l => v <~ ev en' e ;; r <~ go l ;; mret (fst r, (x, v) :: snd r)
               | e :: l => v <~ ev en' e ;; r <~ go l ;; mret (v :: fst r, snd r)
               end).
Definition arg_good (e : expr) : Prop := match e with EStar e | EKw _ e => good e | e => good e end.
Lemma sim_args l : Forall arg_good l -> forall h en en', ste h en en' -> sim stp h (dargs en l) (args en' l h).
Proof.
  intros G. induction G as [|e l He G IH]; intros h en en' F; [apply sim_ret; split; constructor|].
  assert (K : good e -> sim stp h (v <+ dev en e ;; r <+ dargs en l ;; Ret (v :: fst r, snd r))
                ((v <~ ev en' e ;; r <~ args en' l ;; mret (v :: fst r, snd r)) h)).
  { intros Ge. eapply sim_bind; [apply Ge, F|]. intros d v h' L D. eapply sim_bind; [apply IH, (ste_later _ _ _ _ L F)|].
    intros r r' h'' L' [R1 R2]. apply sim_ret. split; [constructor; [apply (stands_later _ _ _ _ L' _ D)|exact R1]|exact R2]. }
  destruct e; try exact (K He).
  - cbn [arg_good] in He. eapply sim_bind; [apply He, F|]. intros d v h' L D. eapply sim_bind; [apply sim_items, D|].
    intros vs vs' h1 L1 V. eapply sim_bind; [apply IH, (ste_later _ _ _ _ (later_trans _ _ _ L L1) F)|].
    intros r r' h'' L' [R1 R2]. apply sim_ret. split; [apply Forall2_app; [apply (sts_later _ _ _ _ L' V)|exact R1]|exact R2].
  - cbn [arg_good] in He. eapply sim_bind; [apply He, F|]. intros d v h' L D. eapply sim_bind; [apply IH, (ste_later _ _ _ _ L F)|].
    intros r r' h'' L' [R1 R2]. apply sim_ret. split; [exact R1|constructor; [split; [reflexivity|apply (stands_later _ _ _ _ L' _ D)]|exact R2]].
Qed.

Ltac gap := match goal with |- sim _ _ (d_eval _ _ _ _ ?e) _ =>
  match goal with H : forall h en en', _ -> sim _ h (d_eval _ _ _ en e) _ |- _ => apply H end end.
Lemma sim_eval' e : good e /\ arg_good e.
Proof.
  assert (fst_all : forall l, Forall (fun e => good e /\ arg_good e) l -> Forall good l) by (intros l F; induction F as [|? ? [? ?]]; constructor; assumption).
  assert (snd_all : forall l, Forall (fun e => good e /\ arg_good e) l -> Forall arg_good l) by (intros l F; induction F as [|? ? [? ?]]; constructor; assumption).
  induction e using expr_rect';
    repeat match goal with H : _ /\ _ |- _ => let K := fresh "G" in destruct H as [K _] end;
    match goal with
    | |- _ /\ arg_good (EStar _) => split; [intros ? ? ? ?; exact I|exact G]
    | |- _ /\ arg_good (EKw _ _) => split; [intros ? ? ? ?; exact I|exact G]
    | |- ?g /\ _ => enough (W : g) by (split; exact W)
    end.
  all: try (intros h en en' F; cbn [d_eval eval]).
  - apply sim_ret, const_stands.
  - apply sim_name, F.
  - eapply sim_bind; [gap; assumption|]. intros d v h' L D. apply sim_attr; assumption.
  - eapply sim_bind; [gap; assumption|]. intros d v h' L D. eapply sim_bind; [gap; apply (ste_later _ _ _ _ L F)|].
    intros j w h'' L' J. apply sim_item; [apply (stands_later _ _ _ _ L' _ D)|exact J].
  - eapply sim_bind; [gap; assumption|]. intros d v h' L D. eapply sim_bind; [gap; apply (ste_later _ _ _ _ L F)|].
    intros j w h'' L' J. eapply sim_bind; [gap; apply (ste_later _ _ _ _ (later_trans _ _ _ L L') F)|].
    intros k u h3 L3 K. apply sim_slice; [apply (stands_later _ _ _ _ (later_trans _ _ _ L' L3) _ D)|apply (stands_later _ _ _ _ L3 _ J)|exact K].
  - eapply sim_bind; [gap; assumption|]. intros d v h' L D. eapply sim_bind; [apply sim_args; [apply snd_all; assumption|apply (ste_later _ _ _ _ L F)]|].
    intros r r' h'' L' [R1 R2]. apply C; [apply (stands_later _ _ _ _ L' _ D)|exact R1|exact R2].
  - eapply sim_bind; [gap; assumption|]. intros d v h' L D. eapply sim_bind; [gap; apply (ste_later _ _ _ _ L F)|].
    intros j w h'' L' J. apply sim_bin; [apply (stands_later _ _ _ _ L' _ D)|exact J].
  - eapply sim_bind; [gap; assumption|]. intros d v h' L D. eapply sim_bind; [apply sim_true, D|]. intros b ? h'' L' <-. apply sim_ret. reflexivity.
  - eapply sim_bind; [gap; assumption|]. intros d v h' L D. eapply sim_bind; [apply sim_int, D|]. intros b ? h'' L' <-. apply sim_ret. reflexivity.
  - eapply sim_bind; [gap; assumption|]. intros d v h' L D. eapply sim_bind; [gap; apply (ste_later _ _ _ _ L F)|].
    intros j w h'' L' J. apply sim_compare; [exact C|apply (stands_later _ _ _ _ L' _ D)|exact J].
  - eapply sim_bind; [gap; assumption|]. intros d v h' L D. eapply sim_bind; [gap; apply (ste_later _ _ _ _ L F)|].
    intros j w h'' L' J. eapply sim_bind; [apply sim_compare; [exact C|apply (stands_later _ _ _ _ L' _ D)|exact J]|].
    intros r r' h3 L3 R. eapply sim_bind; [apply sim_true, R|]. intros t ? h4 L4 <-. destruct t; [|apply sim_ret, (stands_later _ _ _ _ L4 _ R)].
    assert (LL : later h h4) by (eapply later_trans; [exact L|eapply later_trans; [exact L'|eapply later_trans; eassumption]]).
    eapply sim_bind; [gap; apply (ste_later _ _ _ _ LL F)|]. intros k u h5 L5 K.
    apply sim_compare; [exact C| |exact K]. refine (stands_later _ _ _ _ _ _ J). eapply later_trans; [exact L3|eapply later_trans; eassumption].
  - eapply sim_bind; [gap; assumption|]. intros d v h' L D. eapply sim_bind; [apply sim_true, D|]. intros b ? h'' L' <-.
    destruct b; [gap; apply (ste_later _ _ _ _ (later_trans _ _ _ L L') F)|apply sim_ret, (stands_later _ _ _ _ L' _ D)].
  - eapply sim_bind; [gap; assumption|]. intros d v h' L D. eapply sim_bind; [apply sim_true, D|]. intros b ? h'' L' <-.
    destruct b; [gap; apply (ste_later _ _ _ _ (later_trans _ _ _ L L') F)|gap; apply (ste_later _ _ _ _ (later_trans _ _ _ L L') F)].
  - eapply sim_bind; [apply sim_eval_list; [apply fst_all; assumption|exact F]|]. intros r r' h' L R. apply sim_alloc, R.
  - eapply sim_bind; [apply sim_eval_list; [apply fst_all; assumption|exact F]|]. intros r r' h' L R. apply sim_ret.
    apply stands_tuple. exists r'. split; [left; reflexivity|exact R].
  - eapply sim_bind; [gap; assumption|]. intros d v h' L D. eapply sim_bind; [apply sim_items, D|]. intros vs vs' h1 L1 V.
    pose proof (ste_later _ _ _ _ (later_trans _ _ _ L L1) F) as F1. clear D L L1 F.
    eapply sim_bind; [|intros r r' h2 L2 R; apply sim_alloc, R].
    revert vs' h1 V F1. induction vs as [|d0 vs IH]; intros vs' h1 V F1; inversion V as [|? w ? ws D0 V']; subst; [apply sim_ret; constructor|].
    assert (F2 : ste h1 ((x, d0) :: en) ((x, w) :: en')) by (constructor; [split; [reflexivity|exact D0]|exact F1]).
    apply sim_bind with (R := same); [apply sim_ret; reflexivity|]. intros t ? h2 L2 <-. 
    destruct t; [|apply IH; [apply (sts_later _ _ _ _ L2 V')|apply (ste_later _ _ _ _ L2 F1)]].
    eapply sim_bind; [gap; apply (ste_later _ _ _ _ L2 F2)|]. intros r r' h3 L3 R.
    eapply sim_bind; [apply IH; [apply (sts_later _ _ _ _ (later_trans _ _ _ L2 L3) V')|apply (ste_later _ _ _ _ (later_trans _ _ _ L2 L3) F1)]|].
    intros rs rs' h4 L4 RS. apply sim_ret. constructor; [apply (stands_later _ _ _ _ L4 _ R)|exact RS].
  - eapply sim_bind; [gap; assumption|]. intros d v h' L D. eapply sim_bind; [apply sim_items, D|]. intros vs vs' h1 L1 V.
    pose proof (ste_later _ _ _ _ (later_trans _ _ _ L L1) F) as F1. clear D L L1 F.
    eapply sim_bind; [|intros r r' h2 L2 R; apply sim_alloc, R].
    revert vs' h1 V F1. induction vs as [|d0 vs IH]; intros vs' h1 V F1; inversion V as [|? w ? ws D0 V']; subst; [apply sim_ret; constructor|].
    assert (F2 : ste h1 ((x, d0) :: en) ((x, w) :: en')) by (constructor; [split; [reflexivity|exact D0]|exact F1]).
    apply sim_bind with (R := same).
    { eapply sim_bind; [gap; assumption|]. intros t t' h2 L2 T. apply sim_true, T. }
    intros t ? h2 L2 <-. 
    destruct t; [|apply IH; [apply (sts_later _ _ _ _ L2 V')|apply (ste_later _ _ _ _ L2 F1)]].
    eapply sim_bind; [gap; apply (ste_later _ _ _ _ L2 F2)|]. intros r r' h3 L3 R.
    eapply sim_bind; [apply IH; [apply (sts_later _ _ _ _ (later_trans _ _ _ L2 L3) V')|apply (ste_later _ _ _ _ (later_trans _ _ _ L2 L3) F1)]|].
    intros rs rs' h4 L4 RS. apply sim_ret. constructor; [apply (stands_later _ _ _ _ L4 _ R)|exact RS].
Qed.
Lemma sim_eval h en en' e : ste h en en' -> sim st h (dev en e) (ev en' e h).
Proof. apply (proj1 (sim_eval' e)). Qed.

(** ** Statements *)
Definition ster (h : heap) (a : list (string * deep) * option deep) (b : env * option val) : Prop :=
  ste h (fst a) (fst b) /\ match snd a, snd b with Some d, Some v => st h d v | None, None => True | _, _ => False end.
Lemma unpack_rel h xs vs vs' : sts h vs vs' ->
  match unpack xs vs, unpack xs vs' with Some e, Some e' => ste h e e' | None, None => True | _, _ => False end.
Proof.
  intros F. revert xs. induction F as [|d v vs vs' D F IH]; intros [|x xs]; cbn [unpack]; try exact I; [constructor|].
  specialize (IH xs). destruct (unpack xs vs), (unpack xs vs'); cbn [option_map]; try contradiction; [|exact I].
  apply Forall2_app; [exact IH|]. constructor; [split; [reflexivity|exact D]|constructor].
Qed.
Section StmtInd.
  Variable P : stmt -> Prop.
  Hypothesis H1 : forall x e, P (SAssign x e).
  Hypothesis H2 : forall xs e, P (SUnpack xs e).
  Hypothesis H3 : forall o a e, P (SSetAttr o a e).
  Hypothesis H3i : forall o i e, P (SSetItem o i e).
  Hypothesis H4 : forall x e, P (SAdd x e).
  Hypothesis H5 : forall e, P (SReturn e).
  Hypothesis H6 : forall e, P (SExpr e).
  Hypothesis H7 : forall e, P (SAssert e).
  Hypothesis H8 : forall e, P (SRaise e).
  Hypothesis H9 : forall c a b, Forall P a -> Forall P b -> P (SIf c a b).
  Hypothesis H10 : forall x i b, Forall P b -> P (SFor x i b).
  Fixpoint stmt_rect' (s : stmt) : P s :=
    let go := fix go (l : list stmt) : Forall P l :=
      match l with [] => Forall_nil _ | e :: l => Forall_cons e (stmt_rect' e) (go l) end in
    match s with
    | SAssign x e => H1 x e | SUnpack xs e => H2 xs e | SSetAttr o a e => H3 o a e | SSetItem o i e => H3i o i e | SAdd x e => H4 x e
    | SReturn e => H5 e | SExpr e => H6 e | SAssert e => H7 e | SRaise e => H8 e
    | SIf c a b => H9 c a b (go a) (go b) | SFor x i b => H10 x i b (go b)
    end.
End StmtInd.
Notation dex := (d_exec p dc module).
Notation ex := (exec p cl module).
Notation good_s := (fun s => forall h en en', ste h en en' -> sim ster h (dex s en) (ex s en' h)).
Notation dblk := (fix block (l : list stmt) (en : list (string * deep)) : outcome (list (string * deep) * option deep) :=
    match l with
    | [] => Ret (en, None)
    | s :: l => r <+ dex s en ;; match snd r with Some _ => Ret r | None => block l (fst r) end
    end).
Notation blk := (fix block (l : list stmt) (en : env) : M (env * option val) :=
    match l with
    | [] => mret (en, None)
    | s :: l => r <~ ex s en ;; match snd r with Some _ => mret r | None => block l (fst r) end
    end).
Lemma sim_blk l : Forall good_s l -> forall h en en', ste h en en' -> sim ster h (dblk l en) (blk l en' h).
Proof.
  intros G. induction G as [|s l Hs G IH]; intros h en en' F; [apply sim_ret; split; [exact F|exact I]|].
  eapply sim_bind; [apply Hs, F|]. intros [e1 o1] [e2 o2] h' L [R1 R2]. cbn [fst snd] in *.
  destruct o1, o2; try contradiction; [apply sim_ret; split; assumption|apply IH, R1].
Qed.
Lemma sim_exec' s : good_s s.
Proof.
  induction s using stmt_rect'; intros h en en' F; cbn [d_exec exec]; try exact I.
  - eapply sim_bind; [apply sim_eval, F; exact C|]. intros d v h' L D. apply sim_ret. split; [|exact I].
    constructor; [split; [reflexivity|exact D]|apply (ste_later _ _ _ _ L F)].
  - eapply sim_bind; [apply sim_eval, F; exact C|]. intros d v h' L D. eapply sim_bind; [apply sim_items, D|].
    intros vs vs' h1 L1 V. eapply (sim_bind (fun h => ste h)); [apply sim_opt, unpack_rel, V|]. intros n n' h2 L2 N. apply sim_ret.
    split; [|exact I]. apply Forall2_app; [exact N|]. apply (ste_later _ _ _ _ (later_trans _ _ _ L (later_trans _ _ _ L1 L2)) F).
  - eapply sim_bind; [apply sim_name, F|]. intros d v h' L D. eapply sim_bind; [apply sim_eval, (ste_later _ _ _ _ L F); exact C|].
    intros d2 v2 h1 L1 D2. eapply sim_bind; [apply sim_bin; [apply (stands_later _ _ _ _ L1 _ D)|exact D2]|].
    intros d3 v3 h2 L2 D3. apply sim_ret. split; [|exact I]. constructor; [split; [reflexivity|exact D3]|].
    apply (ste_later _ _ _ _ (later_trans _ _ _ L (later_trans _ _ _ L1 L2)) F).
  - eapply sim_bind; [apply sim_eval, F; exact C|]. intros d v h' L D. apply sim_ret. split; [apply (ste_later _ _ _ _ L F)|exact D].
  - eapply sim_bind; [apply sim_eval, F; exact C|]. intros d v h' L D. apply sim_ret. split; [apply (ste_later _ _ _ _ L F)|exact I].
  - eapply sim_bind; [apply sim_eval, F; exact C|]. intros d v h' L D. eapply sim_bind; [apply sim_true, D|]. intros t ? h1 L1 <-.
    destruct t; [|apply sim_raise]. apply sim_ret. split; [apply (ste_later _ _ _ _ (later_trans _ _ _ L L1) F)|exact I].
  - right. reflexivity.
  - eapply sim_bind; [apply sim_eval, F; exact C|]. intros d v h' L D. eapply sim_bind; [apply sim_true, D|]. intros t ? h1 L1 <-.
    pose proof (ste_later _ _ _ _ (later_trans _ _ _ L L1) F) as F1. destruct t; apply sim_blk; assumption.
  - eapply sim_bind; [apply sim_eval, F; exact C|]. intros d v h' L D. eapply sim_bind; [apply sim_items, D|].
    intros vs vs' h1 L1 V. pose proof (ste_later _ _ _ _ (later_trans _ _ _ L L1) F) as F1. clear F L L1 D h h' d v.
    revert vs' h1 en en' V F1. induction vs as [|d vs IH]; intros vs' h1 en en' V F1; inversion V as [|? w ? ws D0 V']; subst.
    + apply sim_ret. split; [exact F1|exact I].
    + eapply (sim_bind ster).
      * apply sim_blk; [assumption|]. constructor; [split; [reflexivity|exact D0]|exact F1].
      * intros [e1 o1] [e2 o2] h' L [R1 R2]. cbn [fst snd] in *. destruct o1, o2; try contradiction; [apply sim_ret; split; assumption|].
        apply IH; [apply (sts_later _ _ _ _ L V')|exact R1].
Qed.
Lemma sim_block l h en en' : ste h en en' -> sim ster h (d_block p dc module l en) (block p cl module l en' h).
Proof.
  revert h en en'. induction l as [|s l IH]; intros h en en' F; cbn [d_block block]; [apply sim_ret; split; [exact F|exact I]|].
  eapply sim_bind; [apply sim_exec', F|]. intros [e1 o1] [e2 o2] h' L [R1 R2]. cbn [fst snd] in *.
  destruct o1, o2; try contradiction; [apply sim_ret; split; assumption|apply IH, R1].
Qed.
End Eval.

(** ** Calls *)
Lemma assoc_rel h x l l' : ste h l l' ->
  match assoc x l, assoc x l' with Some d, Some v => st h d v | None, None => True | _, _ => False end.
Proof.
  intros F. destruct (assoc x l) as [d|] eqn:E.
  - destruct (stands_field _ _ _ _ _ _ F E) as (u & -> & U). exact U.
  - rewrite (assoc_none x l l' (field_names _ _ _ _ F) E). exact I.
Qed.
Lemma bind_args_rel h ps pos pos' kw kw' df df' : sts h pos pos' -> ste h kw kw' -> ste h df df' ->
  match bind_args ps pos kw df, bind_args ps pos' kw' df' with Some e, Some e' => ste h e e' | None, None => True | _, _ => False end.
Proof.
  intros P K D. revert pos pos' P. induction ps as [|x ps IH]; intros pos pos' P; cbn [bind_args].
  - destruct P; [constructor|exact I].
  - pose proof (assoc_rel _ x _ _ K) as A. pose proof (assoc_rel _ x _ _ D) as B.
    assert (T : forall d v q q', st h d v -> sts h q q' ->
      match option_map (cons (x, d)) (bind_args ps q kw df), option_map (cons (x, v)) (bind_args ps q' kw' df') with
      | Some e, Some e' => ste h e e' | None, None => True | _, _ => False end).
    { intros d v q q' S Q. specialize (IH q q' Q). destruct (bind_args ps q kw df), (bind_args ps q' kw' df'); cbn [option_map]; try contradiction; [|exact I].
      constructor; [split; [reflexivity|exact S]|exact IH]. }
    destruct P as [|d v pos pos' S P].
    + destruct (assoc x kw), (assoc x kw'); try contradiction; [apply T; [exact A|constructor]|].
      destruct (assoc x df), (assoc x df'); try contradiction; [apply T; [exact B|constructor]|exact I].
    + destruct (assoc x kw), (assoc x kw'); try contradiction; [exact I|]. apply T; assumption.
Qed.
Lemma known_rel h ps kw kw' : ste h kw kw' -> known_kw ps kw = known_kw ps kw'.
Proof. intros F. unfold known_kw. induction F as [|f g kw kw' [E _] F IH]; [reflexivity|]. cbn [forallb]. rewrite E, IH. reflexivity. Qed.

Definition pk_rel (a b : option pyval) : Prop :=
  a = b \/ (exists z x, a = Some (VFloat x) /\ b = Some (VInt z) /\ f64_of_Z z = Some x).
Definition pk_exact (d : deep) (b : option pyval) : Prop :=
  d_pack d = b \/ (exists z x, d = DNum x /\ b = Some (VInt z) /\ f64_of_Z z = Some x).
Lemma f64_of_0 : f64_of_Z 0 = Some f64_zero. Proof. vm_compute. reflexivity. Qed.
Lemma pack_val' h d v : st h d v -> pk_rel (d_pack d) (as_pack v) /\ (lax = true \/ pk_exact d (as_pack v)).
Proof.
  destruct d; cbn [stands]; intros H; try (subst; split; [left; reflexivity|right; left; reflexivity]).
  - destruct v; try discriminate H; injection H as <-; (split; [left; reflexivity|right; left; reflexivity]).
  - destruct H as [->|(X & z & A & B)]; [split; [left; reflexivity|right; left; reflexivity]|].
    split; [|left; exact X]. right. exists z, x. split; [reflexivity|]. split; [|exact B]. destruct v; try discriminate A; injection A as <-; reflexivity.
  - destruct H as (vs & [->|(l' & -> & _)] & _); (split; [left; reflexivity|right; left; reflexivity]).
  - destruct H as (vs & [->|(l' & -> & _)] & _); (split; [left; reflexivity|right; left; reflexivity]).
  - destruct H as (q & vs & -> & _); (split; [left; reflexivity|right; left; reflexivity]).
  - destruct H as (w & -> & _); (split; [left; reflexivity|right; left; reflexivity]).
  - destruct H as [[->|(X & z & A & B)]|[-> ->]].
    + split; [left; reflexivity|right; left; reflexivity].
    + split; [|left; exact X]. right. exists z, x. split; [reflexivity|]. split; [|exact B]. destruct v; try discriminate A; injection A as <-; reflexivity.
    + split; right; [|right]; exists 0, f64_zero; (split; [reflexivity|split; [reflexivity|exact f64_of_0]]).
Qed.
Lemma pack_vals_rel cs l l' b : Forall2 pk_rel l l' -> pack_vals cs l = Ok b -> pack_vals cs l' = Ok b.
Proof.
  intros F. revert cs b. induction F as [|a a' l l' A F IH]; intros [|c cs] b; cbn [pack_vals]; try (intros E; exact E).
  destruct A as [->|(z & x & -> & -> & Z)].
  - intros E. destruct (match a' with Some w => pack1 c w | None => Err StructError end) as [b1|e]; [|discriminate E].
    cbn [wapp] in E |- *. destruct (pack_vals cs l) as [b2|e] eqn:E2; [|discriminate E]. rewrite (IH _ _ E2). exact E.
  - intros E. destruct (pack1 c (VFloat x)) as [b1|e] eqn:E1; [|discriminate E].
    assert (E1' : pack1 c (VInt z) = Ok b1) by (destruct c; try discriminate E1; cbn [pack1] in *; rewrite Z; exact E1).
    rewrite E1'. cbn [wapp] in E |- *. destruct (pack_vals cs l) as [b2|e] eqn:E2; [|discriminate E]. rewrite (IH _ _ E2). exact E.
Qed.
Lemma py_pack_rel f l l' b : Forall2 pk_rel l l' -> py_pack f l = Ok b -> py_pack f l' = Ok b.
Proof.
  intros F. unfold py_pack. destruct (native_f f).
  - destruct F as [|a a' l l' A F]; [discriminate|]. destruct F; [|discriminate].
    destruct A as [->|(z & x & -> & -> & Z)]; [intros E; exact E|]. rewrite Z. intros E; exact E.
  - destruct (parse_fmt (ascii_of f)) as [cs|]; [|discriminate].
    assert (E : List.length l = List.length l') by (induction F; cbn [List.length]; congruence). rewrite <- E.
    destruct (Nat.eqb (List.length cs) (List.length l)); [|discriminate]. apply pack_vals_rel, F.
Qed.
Lemma pack_vals_exact cs l l' : Forall2 pk_exact l l' -> nums_fit cs l = true -> pack_vals cs l' = pack_vals cs (map d_pack l).
Proof.
  intros F. revert cs. induction F as [|a a' l l' A F IH]; intros [|c cs]; cbn [pack_vals nums_fit map]; try reflexivity.
  intros E. apply andb_prop in E as [E1 E2]. rewrite (IH _ E2). f_equal. destruct A as [->|(z & x & -> & -> & Z)]; [reflexivity|].
  destruct c; try discriminate E1. cbn [d_pack pack1]. rewrite Z. reflexivity.
Qed.
Lemma py_pack_exact f l l' : Forall2 pk_exact l l' -> pack_fits f l = true -> py_pack f l' = py_pack f (map d_pack l).
Proof.
  intros F. unfold py_pack, pack_fits. destruct (native_f f); cbn [orb].
  - intros _. destruct F as [|a a' l l' A F]; [reflexivity|]. destruct F; [|reflexivity]. cbn [map].
    destruct A as [->|(z & x & -> & -> & Z)]; [reflexivity|]. cbn [d_pack]. rewrite Z. reflexivity.
  - destruct (parse_fmt (ascii_of f)) as [cs|]; [|reflexivity]. intros FF.
    assert (E : List.length l = List.length l') by (clear FF; induction F; cbn [List.length]; congruence). rewrite map_length, <- E.
    destruct (Nat.eqb (List.length cs) (List.length l)); [|reflexivity]. apply pack_vals_exact; assumption.
Qed.
Lemma sim_pack h f l l' : sts h l l' ->
  sim st h (if pack_fits f l then b <+ ores (py_pack f (map d_pack l)) ;; Ret (DBytes b) else Raise Unsupported)
  ((b <~ mres (py_pack f (map as_pack l')) ;; mret (PBytes b)) h).
Proof.
  intros F. assert (P : Forall2 pk_rel (map d_pack l) (map as_pack l')).
  { clear -F. induction F; cbn [map]; constructor; [eapply pack_val'; eassumption|assumption]. }
  assert (S : lax = true \/ Forall2 pk_exact l (map as_pack l')).
  { clear -F. induction F as [|d v l l' D F [IH|IH]]; cbn [map]; [right; constructor|left; exact IH|].
    destruct (proj2 (pack_val' _ _ _ D)) as [X|X]; [left; exact X|right; constructor; assumption]. }
  destruct (pack_fits f l) eqn:PF; [|exact I].
  destruct (py_pack f (map d_pack l)) as [b|e] eqn:E.
  - rewrite (py_pack_rel _ _ _ _ P E). apply sim_ret. reflexivity.
  - cbn [ores obind sim]. destruct S as [X|S]; [left; exact X|right]. rewrite (py_pack_exact _ _ _ S PF), E. reflexivity.
Qed.
Lemma unpack_sts h f b : sim sts h (ores (d_unpack f b)) (mres (py_unpack f b) h).
Proof.
  unfold d_unpack, py_unpack. destruct (native_f f).
  - destruct (Float_from_bytes LittleEndian b) as [x|e]; cbn [rbind]; [|apply sim_raise]. apply sim_ret.
    constructor; [left; reflexivity|constructor].
  - destruct (struct_unpack (ascii_of f) b) as [l|e]; cbn [rbind]; [|apply sim_raise]. apply sim_ret, map_sts.
    intros [z|x]; cbn [d_of_pack of_pack stands]; [reflexivity|left; reflexivity].
Qed.
Lemma join_rel h l l' : sts h l l' -> d_join l = join_vals l'.
Proof.
  intros F. induction F as [|d v l l' D F IH]; [reflexivity|]. cbn [d_join join_vals].
  destruct (match d with DBytes _ => true | _ => false end) eqn:E.
  - destruct d; try discriminate E. cbn [stands] in D. subst v. rewrite IH. reflexivity.
  - assert (N : forall c, v <> PBytes c) by (apply (not_bytes _ _ _ D); intros c ->; discriminate E).
    destruct d; try discriminate E; destruct v; try reflexivity; exfalso; eapply N; reflexivity.
Qed.
Lemma little_rel h d v : st h d v -> d_little d = little v.
Proof. intros H. apply str_val in H. destruct d, v; try discriminate H; try reflexivity. injection H as ->. reflexivity. Qed.
Lemma bytes_val h v b : st h (DBytes b) v -> v = PBytes b. Proof. intros H. exact H. Qed.

Lemma sim_builtin h recv recv' m pos pos' kw kw' : st h recv recv' -> sts h pos pos' -> ste h kw kw' ->
  (match recv with DObj _ _ | DList _ | DTuple _ => False | _ => True end) ->
  sim st h (d_builtin recv m pos kw) (builtin recv' m pos' kw' h).
Proof.
  intros R P K N. unfold d_builtin.
  assert (INT : forall z, as_int recv' = Some z -> d_int recv = Some z -> sim st h
     (match pos, kw with [n; order], [(k, s)] =>
      if String.eqb k "signed" then
        z <+ d_need_int recv ;; n <+ d_need_int n ;; s <+ d_true s ;;
        (if d_little order && (0 <=? n)%Z then b <+ ores (int_to_bytes z (Z.to_nat n) s) ;; Ret (DBytes b)
         else Raise Unsupported)
      else Raise TypeError | _, _ => Raise Unsupported end) (builtin recv' m pos' kw' h)).
  { intros z A B. destruct P as [|n n' pos pos' HN P]; [exact I|]. destruct P as [|o o' pos pos' HO P]; [exact I|]. destruct P; [|exact I].
    destruct K as [|[k s] [k' s'] kw kw' [E S] K]; [exact I|]. destruct K; [|exact I]. cbn [fst snd] in E, S. subst k'.
    replace (builtin recv' m [n'; o'] [(k, s')] h) with ((if String.eqb k "signed" then
        z <~ need_int recv' ;; n <~ need_int n' ;; s <~ is_true s' ;;
        (if little o' && (0 <=? n)%Z then b <~ mres (int_to_bytes z (Z.to_nat n) s) ;; mret (PBytes b)
         else mraise Unsupported)
      else type_error) h) by (destruct recv'; try discriminate A; reflexivity).
    destruct (String.eqb k "signed"); [|right; reflexivity].
    eapply sim_bind; [apply sim_int, R|]. intros y ? h' L <-. eapply sim_bind; [apply sim_int, (stands_later _ _ _ _ L _ HN)|]. intros w ? h1 L1 <-.
    eapply sim_bind; [apply sim_true, (stands_later _ _ _ _ (later_trans _ _ _ L L1) _ S)|]. intros t ? h2 L2 <-.
    rewrite (little_rel _ _ _ HO). destruct (little o' && (0 <=? w)); [|exact I].
    eapply sim_bind; [apply sim_res|]. intros bs ? h3 L3 <-. apply sim_ret. reflexivity. }
  destruct recv; try exact I; try contradiction.
  - specialize (INT (Z.b2z b)). cbn [stands] in R. subst recv'. apply INT; reflexivity.
  - specialize (INT z R eq_refl). exact INT.
  - cbn [stands] in R. subst recv'. destruct P as [|d v pos pos' D P].
    + destruct K as [|? ? ? ? ? ?]; [|exact I]. unfold builtin. eapply sim_bind; [apply sim_res|]. intros bs ? h3 L3 <-. apply sim_ret. reflexivity.
    + destruct P; [|destruct d; exact I]. destruct d; try exact I. cbn [stands] in D. subst v. destruct K; [|exact I].
      unfold builtin. destruct (str_eqb s0 (lit "utf-8")); [|exact I]. eapply sim_bind; [apply sim_res|]. intros bs ? h3 L3 <-. apply sim_ret. reflexivity.
  - cbn [stands] in R. subst recv'. destruct K; [|exact I]. unfold builtin. destruct (String.eqb m "join").
    + destruct b; [|exact I]. destruct P as [|d v pos pos' D P]; [exact I|]. destruct P; [|exact I].
      eapply sim_bind; [apply sim_items, D|]. intros vs vs' h1 L1 V. rewrite (join_rel _ _ _ V).
      eapply (sim_bind same); [apply sim_opt; destruct (join_vals vs'); reflexivity|]. intros bs ? h3 L3 <-. apply sim_ret. reflexivity.
    + destruct (String.eqb m "rstrip").
      * destruct P as [|d v pos pos' D P]; [exact I|]. destruct d; try exact I. destruct b0 as [|c [|? ?]]; try exact I. destruct P; [|exact I].
        cbn [stands] in D. subst v. destruct (byte_eqb c (byte_of 0)); [apply sim_ret; reflexivity|exact I].
      * destruct P; [|exact I]. eapply sim_bind; [apply sim_res|]. intros bs ? h3 L3 <-. apply sim_ret. reflexivity.
  - cbn [stands] in R. subst recv'.
    replace (match pos, kw with _, _ =>
      (if String.eqb c "struct" && String.eqb m "pack" then
        match pos, kw with
        | DStr f :: vs, [] => if pack_fits f vs then b <+ ores (py_pack f (map d_pack vs)) ;; Ret (DBytes b) else Raise Unsupported
        | _, _ => Raise Unsupported
        end
      else if String.eqb c "struct" && String.eqb m "unpack" then
        match pos, kw with
        | [DStr f; DBytes b], [] => l <+ ores (d_unpack f b) ;; Ret (DTuple l)
        | _, _ => Raise Unsupported
        end
      else if String.eqb c "int" && String.eqb m "from_bytes" then
        match pos, kw with
        | [DBytes b], [(k, o); (k', s)] =>
            if String.eqb k "byteorder" && String.eqb k' "signed" && d_little o then
              s <+ d_true s ;; Ret (DInt (int_from_bytes b s))
            else Raise Unsupported
        | _, _ => Raise Unsupported
        end
      else Raise Unsupported)%string end) with 
      (if String.eqb c "struct" && String.eqb m "pack" then
        match pos, kw with
        | DStr f :: vs, [] => if pack_fits f vs then b <+ ores (py_pack f (map d_pack vs)) ;; Ret (DBytes b) else Raise Unsupported
        | _, _ => Raise Unsupported
        end
      else if String.eqb c "struct" && String.eqb m "unpack" then
        match pos, kw with
        | [DStr f; DBytes b], [] => l <+ ores (d_unpack f b) ;; Ret (DTuple l)
        | _, _ => Raise Unsupported
        end
      else if String.eqb c "int" && String.eqb m "from_bytes" then
        match pos, kw with
        | [DBytes b], [(k, o); (k', s)] =>
            if String.eqb k "byteorder" && String.eqb k' "signed" && d_little o then
              s <+ d_true s ;; Ret (DInt (int_from_bytes b s))
            else Raise Unsupported
        | _, _ => Raise Unsupported
        end
      else Raise Unsupported)%string by reflexivity.
    unfold builtin. 
    destruct (String.eqb c "struct" && String.eqb m "pack").
    { destruct P as [|d v pos pos' D P]; [exact I|]. destruct d; try exact I. destruct K; [|exact I]. cbn [stands] in D. subst v. apply sim_pack, P. }
    destruct (String.eqb c "struct" && String.eqb m "unpack").
    { destruct P as [|d v pos pos' D P]; [exact I|]. destruct d; try exact I. destruct P as [|d2 v2 pos pos' D2 P]; [exact I|].
      destruct d2; try exact I. destruct P; [|exact I]. destruct K; [|exact I]. cbn [stands] in D, D2. subst v v2.
      eapply sim_bind; [apply unpack_sts|]. intros l l' h1 L1 F. apply sim_ret. apply stands_tuple. exists l'. split; [left; reflexivity|exact F]. }
    destruct (String.eqb c "int" && String.eqb m "from_bytes"); [|exact I].
    destruct P as [|d v pos pos' D P]; [exact I|]. destruct d; try exact I. destruct P; [|exact I]. cbn [stands] in D. subst v.
    destruct K as [|[k s] [k' s'] kw kw' [E S] K]; [exact I|]. destruct K as [|[k2 s2] [k2' s2'] kw kw' [E2 S2] K]; [exact I|]. destruct K; [|exact I].
    cbn [fst snd] in E, S, E2, S2. subst k' k2'. rewrite (little_rel _ _ _ S).
    destruct (String.eqb k "byteorder" && String.eqb k2 "signed" && little s'); [|exact I].
    eapply sim_bind; [apply sim_true, S2|]. intros t ? h2 L2 <-. apply sim_ret. reflexivity.
Qed.

Lemma sim_apply dc cl fn h pos pos' kw kw' : simulates dc cl -> sts h pos pos' -> ste h kw kw' ->
  sim st h (d_apply p dc fn pos kw) (apply_func p cl fn pos' kw' h).
Proof.
  intros C P K. unfold d_apply, apply_func. rewrite (known_rel _ _ _ _ K).
  eapply (sim_bind (fun h => ste h)).
  - generalize (f_defaults fn). intros l. clear P K. revert h. induction l as [|[x e] l IH]; intros h; [apply sim_ret; constructor|].
    eapply sim_bind; [apply sim_eval; [exact C|constructor]|]. intros d v h' L D. eapply (sim_bind (fun h => ste h)); [apply IH|].
    intros r r' h1 L1 R. apply sim_ret. constructor; [split; [reflexivity|apply (stands_later _ _ _ _ L1 _ D)]|exact R].
  - intros df df' h' L D. destruct (known_kw (f_params fn) kw'); [|right; reflexivity].
    eapply (sim_bind (fun h => ste h)); [apply sim_opt, bind_args_rel; [apply (sts_later _ _ _ _ L P)|apply (ste_later _ _ _ _ L K)|exact D]|].
    intros en en' h1 L1 E. eapply sim_bind; [apply sim_block; [exact C|exact E]|].
    intros [e1 o1] [e2 o2] h2 L2 [R1 R2]. cbn [fst snd] in *. apply sim_ret. destruct o1, o2; try contradiction; [exact R2|reflexivity].
Qed.
Lemma sim_method dc cl c m h pos pos' kw kw' : simulates dc cl -> sts h pos pos' -> ste h kw kw' ->
  sim st h (d_method p dc c m pos kw) (apply_method p cl c m pos' kw' h).
Proof.
  intros C P K. unfold d_method, apply_method. destruct (find_method p c m); [apply sim_apply; assumption|exact I].
Qed.

(** What a program does on deep values, it does in the heap: it returns something that stands for the
    deep result, leaves everything that was in the heap as it was, and (if floats are floats) raises
    what the run on deep values raises. *)
Theorem call_simulates n : simulates (d_call p n) (call p n).
Proof.
  induction n as [|n IH]; intros h f pos kw f' pos' kw' F P K; [right; reflexivity|].
  destruct f; cbn [d_call].
  - cbn [stands] in F. subst f'. right. reflexivity.
  - cbn [stands] in F. subst f'. right. reflexivity.
  - cbn [stands] in F. destruct f'; try discriminate F; right; reflexivity.
  - destruct F as [->|[X _]]; [right; reflexivity|left; exact X].
  - cbn [stands] in F. subst f'. right. reflexivity.
  - cbn [stands] in F. subst f'. right. reflexivity.
  - destruct F as (vs & [->|(l' & -> & _)] & _); right; reflexivity.
  - destruct F as (vs & [->|(l' & -> & _)] & _); right; reflexivity.
  - destruct F as (q & vs & -> & _); right; reflexivity.
  - cbn [stands] in F. subst f'. right. reflexivity.
  - cbn [stands] in F. subst f'. cbn [call]. destruct (class_of p c) as [k|].
    + destruct (c_sort k); try exact I.
      2: { destruct P as [|d v pos pos' D P]; [exact I|]. destruct d; try exact I. destruct P; [|exact I]. destruct K; [|exact I].
           cbn [stands] in D. subst v. match goal with |- sim _ _ (match ?f with _ => _ end) _ => destruct f end; [apply sim_ret; reflexivity|right; reflexivity]. }
      rewrite (known_rel _ _ _ _ K). destruct (known_kw (c_fields k) kw'); [|right; reflexivity].
      eapply (sim_bind (fun h => ste h)).
      * apply sim_opt, bind_args_rel; [exact P|exact K|]. generalize (c_defaults k). intros l. induction l as [|[x e] l IHl]; constructor; [|exact IHl].
        split; [reflexivity|apply const_stands].
      * intros fs fs' h' L D. exists (PRef (List.length h')), (h' ++ [OInst c fs']). split; [reflexivity|]. split; [apply later_app|].
        apply stands_obj. exists (List.length h'), fs'. split; [reflexivity|]. split; [rewrite nth_error_app2 by lia; rewrite Nat.sub_diag; reflexivity|].
        apply (ste_later _ _ _ _ (later_app h' _) D).
    + destruct (String.eqb c "bytes" || String.eqb c "memoryview"); [|exact I].
      destruct P as [|d v pos pos' D P]; [exact I|]. destruct d; try exact I. destruct P; [|exact I]. destruct K; [|exact I]. cbn [stands] in D. subst v. apply sim_ret. reflexivity.
  - cbn [stands] in F. subst f'. right. reflexivity.
  - cbn [stands] in F. subst f'. cbn [call]. destruct P as [|d v pos pos' D P]; [right; reflexivity|]. destruct P; [|right; destruct kw'; reflexivity].
    destruct K; [|right; reflexivity]. destruct (String.eqb f "len").
    + eapply sim_bind; [apply sim_len, D|]. intros z ? h' L <-. apply sim_ret. reflexivity.
    + eapply sim_bind; [apply sim_int, D|]. intros z ? h' L <-. apply sim_ret. reflexivity.
  - destruct F as (w & -> & W).
    assert (PP : sts h (f :: pos) (w :: pos')) by (constructor; assumption).
    assert (B : (match f with DObj _ _ | DList _ | DTuple _ | DMember _ _ | DClass _ => False | _ => True end) ->
                sim st h (d_builtin f m pos kw) (call p (S n) (PMeth w m) pos' kw' h)).
    { intros N. replace (call p (S n) (PMeth w m) pos' kw' h) with (builtin w m pos' kw' h).
      - apply sim_builtin; try assumption. destruct f; try exact I; contradiction.
      - destruct f; try contradiction; cbn [stands] in W; try (subst w; reflexivity).
        + destruct w; try discriminate W; reflexivity.
        + destruct W as [->|(_ & z & A & _)]; [reflexivity|]. destruct w; try discriminate A; reflexivity.
        + destruct W as (u & -> & _). reflexivity.
        + destruct W as [[->|(_ & z & A & _)]|[-> _]]; [reflexivity| |reflexivity]. destruct w; try discriminate A; reflexivity. }
    destruct f; try (apply B; exact I).
    + exact I.
    + exact I.
    + pose proof W as W0. obj_case W q vs OO FF. cbn [call]. rewrite (obj_get _ _ _ _ OO). apply sim_method; assumption.
    + cbn [stands] in W. subst w. cbn [call]. destruct (find_method p c m) as [fn|].
      * destruct (f_kind fn); try exact I; apply sim_apply; assumption.
      * apply sim_builtin; try assumption; try reflexivity.
    + cbn [stands] in W. subst w. cbn [call]. apply sim_method; assumption.
  - destruct F as [[->|(_ & z & X & _)]|[-> _]]; [right; reflexivity| |right; reflexivity]. destruct f'; try discriminate X; right; reflexivity.
Qed.
End Sim.
