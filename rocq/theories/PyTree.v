(** * Objects that share nothing: paths, and changing one attribute *)
From Verif Require Import Base PyInt PyFloat PyStr PyStruct DataTypes Versions Common Py Source PyRep PyR.
From Coq Require Import String Ascii Lia.
Open Scope Z_scope.
Local Open Scope list_scope.

(** Here nothing is known of the version of the file. *)
#[global] Instance any_era : Era | 100 := Any.

(** ** Paths *)
(** [.a] and [[i]] *)
Inductive hop : Set := Attr (a : string) | Item (i : nat).
Definition hop_to (h : heap) (v : val) (s : hop) : option val :=
  match v, s with
  | PRef l, Attr a => match nth_error h l with Some (OInst _ fs) => assoc a fs | _ => None end
  | PRef l, Item i => match nth_error h l with Some (OList vs) => nth_error vs i | _ => None end
  | PTuple vs, Item i => nth_error vs i
  | _, _ => None
  end.
(** What [v.a[i].b...] refers to. *)
Fixpoint follow (h : heap) (v : val) (p : list hop) : option val :=
  match p with
  | [] => Some v
  | s :: p => match hop_to h v s with Some w => follow h w p | None => None end
  end.

Lemma nodup_app {A} (a b : list A) : NoDup (a ++ b) -> NoDup a /\ NoDup b /\ forall i, In i a -> In i b -> False.
Proof.
  induction a as [|x a IH]; intros N; [split; [constructor|split; [exact N|intros i []]]|]. cbn [app] in N. inversion N as [|y z X Y]; subst. destruct (IH Y) as (N1 & N2 & D).
  split; [constructor; [intros I; apply X, in_or_app; left; exact I|exact N1]|]. split; [exact N2|]. intros i [<-|I] J; [apply X, in_or_app; right; exact J|apply (D i I J)].
Qed.
Lemma app_nodup {A} (a b : list A) : NoDup a -> NoDup b -> (forall i, In i a -> In i b -> False) -> NoDup (a ++ b).
Proof.
  intros N1 N2 D. induction N1 as [|x a X N1 IH]; [exact N2|]. cbn [app]. constructor.
  - intros I. apply in_app_or in I as [I|I]; [apply X, I|apply (D x (or_introl eq_refl) I)].
  - apply IH. intros i I J. apply (D i (or_intror I) J).
Qed.

(** One part. *)
Definition part (h : heap) (w : val) (fp : list nat) : Prop := exists d fp', own h d w fp' /\ NoDup fp' /\ incl fp' fp.
Lemma owns_part h l vs fps i w : owns h l vs fps -> NoDup (List.concat fps) -> nth_error vs i = Some w -> part h w (List.concat fps).
Proof.
  intros O. revert i. induction O as [|d v fp l vs fps H O IH]; intros [|i] N E; try discriminate E; cbn [nth_error List.concat] in *; apply nodup_app in N as (N1 & N2 & _).
  - injection E as ->. exists d, fp. split; [exact H|]. split; [exact N1|]. apply incl_appl, incl_refl.
  - destruct (IH _ N2 E) as (d' & fp' & A & B & C). exists d', fp'. split; [exact A|]. split; [exact B|]. apply incl_appr, C.
Qed.
Lemma ownf_part h l vs fps a w : ownf h l vs fps -> NoDup (List.concat fps) -> assoc a vs = Some w -> part h w (List.concat fps).
Proof.
  intros O. induction O as [|x d v fp l vs fps H O IH]; intros N E; [discriminate E|]. cbn [assoc List.concat] in *. apply nodup_app in N as (N1 & N2 & _).
  destruct (String.eqb a x).
  - injection E as ->. exists d, fp. split; [exact H|]. split; [exact N1|]. apply incl_appl, incl_refl.
  - destruct (IH N2 E) as (d' & fp' & A & B & C). exists d', fp'. split; [exact A|]. split; [exact B|]. apply incl_appr, C.
Qed.
(** Two parts. *)
Definition apart (h : heap) (w1 w2 : val) : Prop := exists d1 f1 d2 f2, own h d1 w1 f1 /\ NoDup f1 /\ own h d2 w2 f2 /\ NoDup f2 /\ forall q, In q f1 -> In q f2 -> False.
Lemma apart_sym h a b : apart h a b -> apart h b a.
Proof.
  intros (d1 & f1 & d2 & f2 & A & B & C & D & E). exists d2, f2, d1, f1. split; [exact C|]. split; [exact D|]. split; [exact A|]. split; [exact B|]. intros q I J. apply (E q J I).
Qed.
Lemma owns_apart h l vs fps : owns h l vs fps -> NoDup (List.concat fps) -> forall i j w1 w2, i <> j -> nth_error vs i = Some w1 -> nth_error vs j = Some w2 -> apart h w1 w2.
Proof.
  intros O. induction O as [|d v fp l vs fps H O IH]; intros N i j w1 w2 NE E1 E2; [destruct i; discriminate E1|]. cbn [List.concat] in N. apply nodup_app in N as (N1 & N2 & D).
  assert (F : forall k w, nth_error vs k = Some w -> apart h v w).
  { intros k w E. destruct (owns_part _ _ _ _ _ _ O N2 E) as (d' & fp' & A & B & C). exists d, fp, d', fp'.
    split; [exact H|]. split; [exact N1|]. split; [exact A|]. split; [exact B|]. intros q I J. apply (D q I), C, J. }
  destruct i as [|i], j as [|j]; cbn [nth_error] in E1, E2.
  - contradiction.
  - injection E1 as <-. apply (F j), E2.
  - injection E2 as <-. apply apart_sym, (F i), E1.
  - apply (IH N2 i j); [congruence|exact E1|exact E2].
Qed.
Lemma ownf_apart h l vs fps : ownf h l vs fps -> NoDup (List.concat fps) -> forall a b w1 w2, a <> b -> assoc a vs = Some w1 -> assoc b vs = Some w2 -> apart h w1 w2.
Proof.
  intros O. induction O as [|x d v fp l vs fps H O IH]; intros N a b w1 w2 NE E1 E2; [discriminate E1|]. cbn [List.concat assoc] in *. apply nodup_app in N as (N1 & N2 & D).
  assert (F : forall k w, assoc k vs = Some w -> apart h v w).
  { intros k w E. destruct (ownf_part _ _ _ _ _ _ O N2 E) as (d' & fp' & A & B & C). exists d, fp, d', fp'.
    split; [exact H|]. split; [exact N1|]. split; [exact A|]. split; [exact B|]. intros q I J. apply (D q I), C, J. }
  destruct (String.eqb_spec a x) as [->|Na], (String.eqb_spec b x) as [->|Nb].
  - contradiction.
  - injection E1 as <-. apply (F b), E2.
  - injection E2 as <-. apply apart_sym, (F a), E1.
  - apply (IH N2 a b); assumption.
Qed.
(** The location of what is owned. *)
Lemma own_ref h d q fp : own h d (PRef q) fp -> exists r, fp = q :: r.
Proof.
  destruct d; cbn [own]; intros H; try contradiction; try (destruct H as [H _]; discriminate H); try (destruct H as [[H|[H _]] _]; discriminate H).
  - destruct H as (q' & vs & fps & E & _ & -> & _). injection E as <-. eexists. reflexivity.
  - destruct H as (vs & fps & E & _). discriminate E.
  - destruct H as (q' & vs & fps & E & _ & -> & _). injection E as <-. eexists. reflexivity.
Qed.
(** Every hop leads into a part of the footprint that does not contain the object itself. *)
Lemma own_hop h d v fp s w : own h d v fp -> NoDup fp -> hop_to h v s = Some w -> exists rest, part h w rest /\ incl rest fp /\ (forall q, v = PRef q -> ~ In q rest).
Proof.
  intros O N E. destruct d; cbn [own] in O; try contradiction; try (destruct O as [-> _]; discriminate E); try (destruct O as [[->|[-> _]] _]; discriminate E).
  - fold (own h (DList l) v fp) in O. apply (proj1 (own_list h l v fp)) in O as (q & vs & fps & -> & Q & -> & O). inversion N as [|y z Q1 N1]; subst. 
    destruct s as [a|i]; cbn [hop_to] in E; rewrite Q in E; [discriminate E|]. exists (List.concat fps). split; [apply (owns_part _ _ _ _ _ _ O N1 E)|]. split; [apply incl_tl, incl_refl|].
    intros q' EQ. injection EQ as <-. exact Q1.
  - apply (proj1 (own_tuple h l v fp)) in O as (vs & fps & -> & -> & O). destruct s as [a|i]; [discriminate E|]. cbn [hop_to] in E.
    exists (List.concat fps). split; [apply (owns_part _ _ _ _ _ _ O N E)|]. split; [apply incl_refl|]. intros q EQ. discriminate EQ.
  - apply (proj1 (own_obj h c fs v fp)) in O as (q & vs & fps & -> & Q & -> & O). inversion N as [|y z Q1 N1]; subst.
    destruct s as [a|i]; cbn [hop_to] in E; rewrite Q in E; [|discriminate E]. exists (List.concat fps). split; [apply (ownf_part _ _ _ _ _ _ O N1 E)|]. split; [apply incl_tl, incl_refl|].
    intros q' EQ. injection EQ as <-. exact Q1.
Qed.
Lemma own_hops h d v fp s1 s2 w1 w2 : own h d v fp -> NoDup fp -> hop_to h v s1 = Some w1 -> hop_to h v s2 = Some w2 -> s1 <> s2 -> apart h w1 w2.
Proof.
  intros O N E1 E2 NE. destruct d; cbn [own] in O; try contradiction; try (destruct O as [-> _]; discriminate E1); try (destruct O as [[->|[-> _]] _]; discriminate E1).
  - apply (proj1 (own_list h l v fp)) in O as (q & vs & fps & -> & Q & -> & O). inversion N as [|y z Q1 N1]; subst.
    destruct s1 as [a|i]; cbn [hop_to] in E1; rewrite Q in E1; [discriminate E1|]. destruct s2 as [a|j]; cbn [hop_to] in E2; rewrite Q in E2; [discriminate E2|].
    apply (owns_apart _ _ _ _ O N1 i j); [congruence|exact E1|exact E2].
  - apply (proj1 (own_tuple h l v fp)) in O as (vs & fps & -> & -> & O). destruct s1 as [a|i]; [discriminate E1|]. destruct s2 as [a|j]; [discriminate E2|]. cbn [hop_to] in *.
    apply (owns_apart _ _ _ _ O N i j); [congruence|exact E1|exact E2].
  - apply (proj1 (own_obj h c fs v fp)) in O as (q & vs & fps & -> & Q & -> & O). inversion N as [|y z Q1 N1]; subst.
    destruct s1 as [a|i]; cbn [hop_to] in E1; rewrite Q in E1; [|discriminate E1]. destruct s2 as [b|j]; cbn [hop_to] in E2; rewrite Q in E2; [|discriminate E2].
    apply (ownf_apart _ _ _ _ O N1 a b); [congruence|exact E1|exact E2].
Qed.
Lemma follow_in h p : forall d v fp q, own h d v fp -> NoDup fp -> follow h v p = Some (PRef q) -> In q fp.
Proof.
  induction p as [|s p IH]; intros d v fp q O N E; cbn [follow] in E.
  - injection E as ->. destruct (own_ref _ _ _ _ O) as [r ->]. left. reflexivity.
  - destruct (hop_to h v s) as [w|] eqn:H; [|discriminate E]. destruct (own_hop _ _ _ _ _ _ O N H) as (rest & (d' & fp' & A & B & C) & I & _).
    apply I, C, (IH _ _ _ _ A B E).
Qed.
(** Two different paths never lead to the same object. *)
Lemma no_alias h p1 : forall p2 d v fp q, own h d v fp -> NoDup fp -> follow h v p1 = Some (PRef q) -> follow h v p2 = Some (PRef q) -> p1 = p2.
Proof.
  assert (X : forall d v fp s p q, own h d v fp -> NoDup fp -> v = PRef q -> follow h v (s :: p) = Some (PRef q) -> False).
  { intros d v fp s p q O N EV E. cbn [follow] in E. destruct (hop_to h v s) as [w|] eqn:H; [|discriminate E].
    destruct (own_hop _ _ _ _ _ _ O N H) as (rest & (d' & fp' & A & B & C) & I & NI). apply (NI q EV), C, (follow_in _ _ _ _ _ _ A B E). }
  induction p1 as [|s1 p1 IH]; intros [|s2 p2] d v fp q O N E1 E2.
  - reflexivity.
  - injection E1 as EV. exfalso. apply (X _ _ _ _ _ _ O N EV E2).
  - injection E2 as EV. exfalso. apply (X _ _ _ _ _ _ O N EV E1).
  - cbn [follow] in E1, E2. destruct (hop_to h v s1) as [w1|] eqn:H1; [|discriminate E1]. destruct (hop_to h v s2) as [w2|] eqn:H2; [|discriminate E2].
    assert (D : s1 = s2 \/ s1 <> s2) by (destruct s1 as [a|i], s2 as [b|j]; try (right; discriminate); [destruct (String.eqb_spec a b) as [->|NE]|destruct (Nat.eq_dec i j) as [->|NE]]; [left; reflexivity|right; congruence|left; reflexivity|right; congruence]).
    destruct D as [->|NE].
    + rewrite H1 in H2. injection H2 as <-. destruct (own_hop _ _ _ _ _ _ O N H1) as (rest & (d' & fp' & A & B & C) & _). f_equal. apply (IH p2 d' w1 fp' q A B E1 E2).
    + exfalso. destruct (own_hops _ _ _ _ _ _ _ _ O N H1 H2 NE) as (d1 & f1 & d2 & f2 & A1 & B1 & A2 & B2 & D). apply (D q); [apply (follow_in _ _ _ _ _ _ A1 B1 E1)|apply (follow_in _ _ _ _ _ _ A2 B2 E2)].
Qed.

(** ** Changing one object *)
Fixpoint edit_field (f : deep -> option deep) (b : string) (fs : list (string * deep)) : option (list (string * deep)) :=
  match fs with
  | [] => None
  | (x, d) :: fs => if String.eqb b x then option_map (fun d => (x, d) :: fs) (f d) else option_map (cons (x, d)) (edit_field f b fs)
  end.
Fixpoint edit_item (f : deep -> option deep) (i : nat) (l : list deep) {struct l} : option (list deep) :=
  match l, i with
  | [], _ => None
  | d :: l, O => option_map (fun d => d :: l) (f d)
  | d :: l, S i => option_map (cons d) (edit_item f i l)
  end.
(** The tree in which [f] changed what [p] leads to; [None] if there is no such thing. *)
Fixpoint edit_at (p : list hop) (f : deep -> option deep) (d : deep) : option deep :=
  match p, d with
  | [], d => f d
  | Attr b :: p, DObj c fs => option_map (DObj c) (edit_field (edit_at p f) b fs)
  | Item i :: p, DList l => option_map DList (edit_item (edit_at p f) i l)
  | Item i :: p, DTuple l => option_map DTuple (edit_item (edit_at p f) i l)
  | _, _ => None
  end.
(** [.a = new], if there is such an attribute *)
Definition set_deep (fs : list (string * deep)) (a : string) (new : deep) : list (string * deep) :=
  map (fun f => (fst f, if String.eqb (fst f) a then new else snd f)) fs.
Definition set_to (a : string) (new : deep) (d : deep) : option deep :=
  match d with
  | DObj c fs => match assoc a fs with Some _ => Some (DObj c (set_deep fs a new)) | None => None end
  | _ => None
  end.
(** The tree after [x.p.a = new]; [None] if there is no such attribute. *)
Definition edit (p : list hop) (a : string) (new : deep) (d : deep) : option deep := edit_at p (set_to a new) d.

Lemma keeps_put h q o fp : ~ In q fp -> keeps fp h (put h q o). Proof. intros N i I. apply put_other. intros ->. contradiction. Qed.
Lemma ownf_keep h h' ds vs fps : keeps (List.concat fps) h h' -> ownf h ds vs fps -> ownf h' ds vs fps.
Proof.
  intros KK O. induction O as [|x d v fp ds vs fps H O IH]; [constructor|]. cbn [List.concat] in KK; apply keeps_app in KK as [K1 K2].
  constructor; [apply (own_keeps h); assumption|apply IH, K2].
Qed.
Section Act.
Context (h : heap) (upd : obj -> option obj).
(** What changing the object that [p] leads to does to a tree. *)
Definition changed (v : val) (fp : list nat) (p : list hop) (d' : deep) : Prop :=
  exists q o o' fp', follow h v p = Some (PRef q) /\ nth_error h q = Some o /\ upd o = Some o' /\ In q fp /\
    own (put h q o') d' v fp' /\ NoDup fp' /\ incl fp' fp.
(** parts of a tree, one of which is changed *)
Lemma owns_changed p f l vs fps : owns h l vs fps -> NoDup (List.concat fps) ->
  (forall d v fp d', own h d v fp -> NoDup fp -> f d = Some d' -> changed v fp p d') ->
  forall i l', edit_item f i l = Some l' -> exists v q o o' fps', nth_error vs i = Some v /\ follow h v p = Some (PRef q) /\ nth_error h q = Some o /\ upd o = Some o' /\
    In q (List.concat fps) /\ owns (put h q o') l' vs fps' /\ NoDup (List.concat fps') /\ incl (List.concat fps') (List.concat fps).
Proof.
  intros O. induction O as [|d v fp l vs fps H O IH]; intros N F i l' E; [discriminate E|]. cbn [List.concat] in N. apply nodup_app in N as (N1 & N2 & D).
  destruct i as [|i]; cbn [edit_item] in E.
  - destruct (f d) as [d'|] eqn:FD; [|discriminate E]. injection E as <-. destruct (F _ _ _ _ H N1 FD) as (q & o & o' & fp' & E1 & E2 & E3 & E4 & E5 & E6 & E7).
    exists v, q, o, o', (fp' :: fps). cbn [List.concat nth_error]. split; [reflexivity|]. split; [exact E1|]. split; [exact E2|]. split; [exact E3|]. split; [apply in_or_app; left; exact E4|]. split.
    + constructor; [exact E5|]. apply (owns_keeps h); [|exact O]. apply keeps_put. intros J. apply (D _ E4 J).
    + split; [apply app_nodup; [exact E6|exact N2|]; intros j J K; apply (D j (E7 _ J) K)|]. apply incl_app; [apply incl_appl, E7|apply incl_appr, incl_refl].
  - destruct (edit_item f i l) as [l1|] eqn:FD; [|discriminate E]. injection E as <-. destruct (IH N2 F i l1 FD) as (v0 & q & o & o' & fps' & E0 & E1 & E2 & E3 & E4 & E5 & E6 & E7).
    exists v0, q, o, o', (fp :: fps'). cbn [List.concat nth_error]. split; [exact E0|]. split; [exact E1|]. split; [exact E2|]. split; [exact E3|]. split; [apply in_or_app; right; exact E4|]. split.
    + constructor; [|exact E5]. apply (own_keeps h); [|exact H]. apply keeps_put. intros J. apply (D _ J E4).
    + split; [apply app_nodup; [exact N1|exact E6|]; intros j J K; apply (D j J (E7 _ K))|]. apply incl_app; [apply incl_appl, incl_refl|apply incl_appr, E7].
Qed.
Lemma ownf_changed p f l vs fps : ownf h l vs fps -> NoDup (List.concat fps) ->
  (forall d v fp d', own h d v fp -> NoDup fp -> f d = Some d' -> changed v fp p d') ->
  forall b l', edit_field f b l = Some l' -> exists v q o o' fps', assoc b vs = Some v /\ follow h v p = Some (PRef q) /\ nth_error h q = Some o /\ upd o = Some o' /\
    In q (List.concat fps) /\ ownf (put h q o') l' vs fps' /\ NoDup (List.concat fps') /\ incl (List.concat fps') (List.concat fps).
Proof.
  intros O. induction O as [|x d v fp l vs fps H O IH]; intros N F b l' E; [discriminate E|]. cbn [List.concat] in N. apply nodup_app in N as (N1 & N2 & D).
  cbn [edit_field] in E. cbn [assoc]. destruct (String.eqb b x).
  - destruct (f d) as [d'|] eqn:FD; [|discriminate E]. injection E as <-. destruct (F _ _ _ _ H N1 FD) as (q & o & o' & fp' & E1 & E2 & E3 & E4 & E5 & E6 & E7).
    exists v, q, o, o', (fp' :: fps). cbn [List.concat]. split; [reflexivity|]. split; [exact E1|]. split; [exact E2|]. split; [exact E3|]. split; [apply in_or_app; left; exact E4|]. split.
    + constructor; [exact E5|]. apply (ownf_keep h); [|exact O]. apply keeps_put. intros J. apply (D _ E4 J).
    + split; [apply app_nodup; [exact E6|exact N2|]; intros j J K; apply (D j (E7 _ J) K)|]. apply incl_app; [apply incl_appl, E7|apply incl_appr, incl_refl].
  - destruct (edit_field f b l) as [l1|] eqn:FD; [|discriminate E]. injection E as <-. destruct (IH N2 F b l1 FD) as (v0 & q & o & o' & fps' & E0 & E1 & E2 & E3 & E4 & E5 & E6 & E7).
    exists v0, q, o, o', (fp :: fps'). cbn [List.concat]. split; [exact E0|]. split; [exact E1|]. split; [exact E2|]. split; [exact E3|]. split; [apply in_or_app; right; exact E4|]. split.
    + constructor; [|exact E5]. apply (own_keeps h); [|exact H]. apply keeps_put. intros J. apply (D _ J E4).
    + split; [apply app_nodup; [exact N1|exact E6|]; intros j J K; apply (D j J (E7 _ K))|]. apply incl_app; [apply incl_appl, incl_refl|apply incl_appr, E7].
Qed.
Lemma own_edit_at f : (forall d v fp d', own h d v fp -> NoDup fp -> f d = Some d' -> changed v fp [] d') ->
  forall p d v fp d', own h d v fp -> NoDup fp -> edit_at p f d = Some d' -> changed v fp p d'.
Proof.
  intros W. induction p as [|s p IH]; intros d v fp d' O N E.
  - apply (W d); assumption.
  - destruct s as [b|i]; destruct d as [| | | | | |l|l|c fs| | | | | |]; try discriminate E; cbn [edit_at] in E.
    + apply own_obj in O as (q & vs & fps & -> & Q & -> & O). inversion N as [|y z Q1 N1]; subst. destruct (edit_field (edit_at p f) b fs) as [fs'|] eqn:EF; [|discriminate E]. injection E as <-.
      destruct (ownf_changed p _ _ _ _ O N1 IH b fs' EF) as (v0 & q0 & c0 & fs0 & fps' & E0 & E1 & E2 & E3 & E4 & E5 & E6 & E7).
      exists q0, c0, fs0, (q :: List.concat fps'). split; [cbn [follow hop_to]; rewrite Q, E0; exact E1|]. split; [exact E2|]. split; [exact E3|]. split; [right; exact E4|]. split.
      * apply own_obj. exists q, vs, fps'. split; [reflexivity|]. split; [rewrite put_other by (intros ->; contradiction); exact Q|]. split; [reflexivity|exact E5].
      * split; [constructor; [intros J; apply Q1, E7, J|exact E6]|]. intros j [<-|J]; [left; reflexivity|right; apply E7, J].
    + apply own_list in O as (q & vs & fps & -> & Q & -> & O). inversion N as [|y z Q1 N1]; subst. destruct (edit_item (edit_at p f) i l) as [l'|] eqn:EF; [|discriminate E]. injection E as <-.
      destruct (owns_changed p _ _ _ _ O N1 IH i l' EF) as (v0 & q0 & c0 & fs0 & fps' & E0 & E1 & E2 & E3 & E4 & E5 & E6 & E7).
      exists q0, c0, fs0, (q :: List.concat fps'). split; [cbn [follow hop_to]; rewrite Q, E0; exact E1|]. split; [exact E2|]. split; [exact E3|]. split; [right; exact E4|]. split.
      * apply own_list. exists q, vs, fps'. split; [reflexivity|]. split; [rewrite put_other by (intros ->; contradiction); exact Q|]. split; [reflexivity|exact E5].
      * split; [constructor; [intros J; apply Q1, E7, J|exact E6]|]. intros j [<-|J]; [left; reflexivity|right; apply E7, J].
    + apply own_tuple in O as (vs & fps & -> & -> & O). destruct (edit_item (edit_at p f) i l) as [l'|] eqn:EF; [|discriminate E]. injection E as <-.
      destruct (owns_changed p _ _ _ _ O N IH i l' EF) as (v0 & q0 & c0 & fs0 & fps' & E0 & E1 & E2 & E3 & E4 & E5 & E6 & E7).
      exists q0, c0, fs0, (List.concat fps'). split; [cbn [follow hop_to]; rewrite E0; exact E1|]. split; [exact E2|]. split; [exact E3|]. split; [exact E4|]. split.
      * apply own_tuple. exists vs, fps'. split; [reflexivity|]. split; [reflexivity|exact E5].
      * split; [exact E6|exact E7].
Qed.
End Act.
(** *** Setting an attribute *)
Definition upd_set (a : string) (w : val) (o : obj) : option obj :=
  match o with OInst c fs => match assoc a fs with Some _ => Some (OInst c (set_field fs a w)) | None => None end | OList _ => None end.
Lemma ownf_set h a new w ds vs fps : own h new w [] -> ownf h ds vs fps -> NoDup (List.concat fps) ->
  exists fps', ownf h (set_deep ds a new) (set_field vs a w) fps' /\ NoDup (List.concat fps') /\ incl (List.concat fps') (List.concat fps).
Proof.
  intros W O. induction O as [|x d v fp ds vs fps H O IH]; intros N; [exists []; split; [constructor|]; split; [constructor|apply incl_refl]|].
  cbn [List.concat] in N. apply nodup_app in N as (N1 & N2 & D). destruct (IH N2) as (fps' & O' & N' & I'). cbn [set_deep set_field map fst snd].
  fold (set_deep ds a new) (set_field vs a w). destruct (String.eqb x a).
  - exists ([] :: fps'). split; [constructor; assumption|]. split; [exact N'|]. cbn [List.concat app]. apply incl_appr, I'.
  - exists (fp :: fps'). split; [constructor; assumption|]. cbn [List.concat]. split; [apply app_nodup; [exact N1|exact N'|]|].
    + intros i I J. apply (D i I), I', J.
    + apply incl_app; [apply incl_appl, incl_refl|apply incl_appr, I'].
Qed.
Lemma ownf_assoc h ds vs fps a : ownf h ds vs fps -> match assoc a ds with Some _ => exists w, assoc a vs = Some w | None => assoc a vs = None end.
Proof. intros O. induction O as [|x d v fp l vs fps H O IH]; [reflexivity|]. cbn [assoc] in *. destruct (String.eqb a x); [eexists; reflexivity|apply IH]. Qed.
Lemma own_set h a new w : (forall h, own h new w []) -> forall d v fp d', own h d v fp -> NoDup fp -> set_to a new d = Some d' -> changed h (upd_set a w) v fp [] d'.
Proof.
  intros W d v fp d' O N E. destruct d as [| | | | | | | |c fs| | | | | |]; try discriminate E. cbn [set_to] in E. apply own_obj in O as (q & vs & fps & -> & Q & -> & O). inversion N as [|y z Q1 N1]; subst.
  destruct (assoc a fs) as [d0|] eqn:AF; [|discriminate E]. injection E as <-.
  destruct (ownf_set h a new w _ _ _ (W h) O N1) as (fps' & O' & N' & I'). pose proof (ownf_assoc _ _ _ _ a O) as AV. rewrite AF in AV. destruct AV as [w0 AV].
  eexists q, (OInst c vs), _, (q :: List.concat fps'). split; [reflexivity|]. split; [exact Q|]. split; [cbn [upd_set]; rewrite AV; reflexivity|]. split; [left; reflexivity|]. split.
  - apply own_obj. eexists q, _, fps'. split; [reflexivity|]. split; [apply put_same, (nth_lt _ _ _ Q)|]. split; [reflexivity|].
    apply (ownf_keep h); [|exact O']. apply keeps_put. intros J. apply Q1, I', J.
  - split; [constructor; [intros J; apply Q1, I', J|exact N']|]. intros i [<-|J]; [left; reflexivity|right; apply I', J].
Qed.
Lemma own_edit h a new w p d v fp d' : (forall h, own h new w []) -> own h d v fp -> NoDup fp -> edit p a new d = Some d' -> changed h (upd_set a w) v fp p d'.
Proof. intros W. apply own_edit_at, own_set, W. Qed.
(** *** Removing the last item *)
Definition pop_deep (d : deep) : option deep := match d with DList (x :: l) => Some (DList (removelast (x :: l))) | _ => None end.
Definition upd_pop (o : obj) : option obj := match o with OList (x :: l) => Some (OList (removelast (x :: l))) | _ => None end.
Lemma owns_removelast h l vs fps : owns h l vs fps -> NoDup (List.concat fps) -> owns h (removelast l) (removelast vs) (removelast fps) /\
  NoDup (List.concat (removelast fps)) /\ incl (List.concat (removelast fps)) (List.concat fps).
Proof.
  intros O. induction O as [|d v fp l vs fps H O IH]; intros N; [split; [constructor|]; split; [constructor|apply incl_refl]|].
  cbn [List.concat] in N. apply nodup_app in N as (N1 & N2 & D). destruct (IH N2) as (O' & N' & I'). destruct O as [|d1 v1 fp1 l vs fps H1 O].
  - cbn [removelast]. split; [constructor|]. split; [constructor|]. intros i [].
  - change (removelast (d :: d1 :: l)) with (d :: removelast (d1 :: l)). change (removelast (v :: v1 :: vs)) with (v :: removelast (v1 :: vs)).
    change (removelast (fp :: fp1 :: fps)) with (fp :: removelast (fp1 :: fps)). split; [constructor; [exact H|exact O']|]. split.
    + change (NoDup (fp ++ List.concat (removelast (fp1 :: fps)))). apply app_nodup; [exact N1|exact N'|]. intros i I J. apply (D i I), I', J.
    + change (incl (fp ++ List.concat (removelast (fp1 :: fps))) (fp ++ List.concat (fp1 :: fps))). apply incl_app; [apply incl_appl, incl_refl|apply incl_appr, I'].
Qed.
Lemma own_pop h d v fp d' : own h d v fp -> NoDup fp -> pop_deep d = Some d' -> changed h upd_pop v fp [] d'.
Proof.
  intros O N E. destruct d as [| | | | | |l| | | | | | | |]; try discriminate E. destruct l as [|d0 l]; [discriminate E|]. cbn [pop_deep] in E. injection E as <-.
  apply own_list in O as (q & vs & fps & -> & Q & -> & O). inversion N as [|y z Q1 N1]; subst. destruct (owns_removelast _ _ _ _ O N1) as (O' & N' & I').
  destruct vs as [|v0 vs]; [inversion O|]. eexists q, _, _, (q :: List.concat (removelast fps)). split; [reflexivity|]. split; [exact Q|]. split; [reflexivity|]. split; [left; reflexivity|]. split.
  - apply own_list. eexists q, _, _. split; [reflexivity|]. split; [apply put_same, (nth_lt _ _ _ Q)|]. split; [reflexivity|].
    apply (owns_keeps h); [|exact O']. apply keeps_put. intros J. apply Q1, I', J.
  - split; [constructor; [intros J; apply Q1, I', J|exact N']|]. intros i [<-|J]; [left; reflexivity|right; apply I', J].
Qed.

(** ** As text *)
(** [e.a[i].b...] *)
Fixpoint path_text (e : expr) (p : list hop) : expr :=
  match p with
  | [] => e
  | Attr a :: p => path_text (EAttr e a) p
  | Item i :: p => path_text (EIndex e (EConst (KInt (Z.of_nat i)))) p
  end.
Lemma eval_path cl md en h p : forall e v w, eval source cl md en e h = Ret (v, h) -> follow h v p = Some w -> eval source cl md en (path_text e p) h = Ret (w, h).
Proof.
  induction p as [|s p IH]; intros e v w E F; cbn [follow path_text] in *; [injection F as <-; exact E|].
  destruct (hop_to h v s) as [u|] eqn:H; [|discriminate F]. assert (X : forall l i, nth_error l i = Some u -> index_of l (Z.of_nat i) h = Ret (u, h)).
  { intros l i N. unfold index_of. pose proof (nth_lt _ _ _ N) as L. unfold len. replace (Z.of_nat i <? 0) with false by (symmetry; apply Z.ltb_ge; lia). cbn [orb].
    replace (Z.of_nat i <? 0) with false by (symmetry; apply Z.ltb_ge; lia). cbn [orb]. replace (Z.of_nat (List.length l) <=? Z.of_nat i) with false by (symmetry; apply Z.leb_gt; lia).
    rewrite Nat2Z.id, N. reflexivity. }
  destruct s as [a|i]; apply (IH _ u); try exact F; cbn [eval]; unfold mbind at 1; rewrite E.
  - destruct v; try discriminate H. cbn [hop_to] in H. unfold attr, mbind, get_obj. destruct (nth_error h l) as [[|c fs]|]; try discriminate H. cbn [mopt]. unfold mret. rewrite H. reflexivity.
  - unfold mbind at 1, mret at 1. cbn [const_val]. destruct v; try discriminate H; cbn [hop_to] in H.
    + unfold get_item, mbind, need_int. cbn [as_int mopt]. unfold mret. apply X, H.
    + unfold get_item, mbind, get_obj. destruct (nth_error h l) as [[vs|c fs]|]; try discriminate H. cbn [mopt]. unfold mret at 1, need_int. cbn [as_int mopt]. unfold mret. apply X, H.
Qed.
