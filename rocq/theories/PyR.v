(** * Reading from a [ByteHandler] in the heap

    The readers change the heap in two ways only: they advance the [ByteHandler] they are given, and
    they build new objects.  This file says what that means ([at_], [step], [own]) and how a
    computation in the heap follows a reader of the typed model ([ok]). *)
From Verif Require Import Base PyInt PyFloat PyStr PyStruct DataTypes Versions Common Py Source PyRep.
From Coq Require Import String Ascii Lia.
Open Scope Z_scope.
Local Open Scope list_scope.

(** ** The objects that were built *)
(** One field, [invulnerability_level], is the int 0 in files before version 8.4 and a float from there
    on (unit.py:551, 613, 680).  [Era] says what is known of the file: nothing, before 8.4, since 8.4. *)
Inductive times : Set := Any | Old | New.
Class Era := the_era : times.
Definition level {ee : Era} (x : f64) (v : val) : Prop :=
  match the_era with
  | Any => v = PFloat x \/ v = PInt 0 /\ x = f64_zero
  | Old => v = PInt 0 /\ x = f64_zero
  | New => v = PFloat x
  end.
Definition fits {ee : Era} (v : Version) : Prop :=
  match the_era with Any => True | Old => version_ge v VER_84 = false | New => version_ge v VER_84 = true end.

(** [own h d v fp]: in the heap [h] the value [v] is the tree [d], and [fp] lists the locations of
    the lists and objects in it, each as often as it is referred to.  Ints are ints, lists are lists,
    tuples are tuples; where an int may stand for the float 0.0 ([DNum]) see [level]. *)
Fixpoint own {ee : Era} (h : heap) (d : deep) (v : val) (fp : list nat) {struct d} : Prop :=
  let all := fix all (l : list deep) (vs : list val) (fps : list (list nat)) : Prop :=
    match l, vs, fps with
    | [], [], [] => True
    | d :: l, v :: vs, fp :: fps => own h d v fp /\ all l vs fps
    | _, _, _ => False
    end in
  match d with
  | DNone => v = PNone /\ fp = []
  | DBool b => v = PBool b /\ fp = []
  | DInt z => v = PInt z /\ fp = []
  | DFloat x => v = PFloat x /\ fp = []
  | DNum x => level x v /\ fp = []
  | DStr s => v = PStr s /\ fp = []
  | DBytes b => v = PBytes b /\ fp = []
  | DTuple l => exists vs fps, v = PTuple vs /\ fp = List.concat fps /\ all l vs fps
  | DList l => exists q vs fps, v = PRef q /\ nth_error h q = Some (OList vs) /\ fp = q :: List.concat fps /\ all l vs fps
  | DObj c fs => exists q vs fps, v = PRef q /\ nth_error h q = Some (OInst c vs) /\ fp = q :: List.concat fps /\
      (fix allf (l : list (string * deep)) (vs : list (string * val)) (fps : list (list nat)) : Prop :=
         match l, vs, fps with
         | [], [], [] => True
         | (x, d) :: l, (y, v) :: vs, fp :: fps => (x = y /\ own h d v fp) /\ allf l vs fps
         | _, _, _ => False
         end) fs vs fps
  | _ => False
  end.
Inductive owns {ee : Era} (h : heap) : list deep -> list val -> list (list nat) -> Prop :=
| owns_nil : owns h [] [] []
| owns_cons d v fp l vs fps : own h d v fp -> owns h l vs fps -> owns h (d :: l) (v :: vs) (fp :: fps).
Inductive ownf {ee : Era} (h : heap) : list (string * deep) -> list (string * val) -> list (list nat) -> Prop :=
| ownf_nil : ownf h [] [] []
| ownf_cons x d v fp l vs fps : own h d v fp -> ownf h l vs fps -> ownf h ((x, d) :: l) ((x, v) :: vs) (fp :: fps).
Lemma own_all {ee : Era} h l vs fps :
  (fix all (l : list deep) (vs : list val) (fps : list (list nat)) : Prop :=
    match l, vs, fps with
    | [], [], [] => True
    | d :: l, v :: vs, fp :: fps => own h d v fp /\ all l vs fps
    | _, _, _ => False
    end) l vs fps <-> owns h l vs fps.
Proof.
  revert vs fps. induction l as [|d l IH]; intros [|v vs] [|fp fps]; split; intros H; try contradiction; try (inversion H; fail); try constructor; try exact I.
  - apply H.
  - apply IH, H.
  - inversion H; assumption.
  - apply IH. inversion H; assumption.
Qed.
Lemma own_list {ee : Era} h l v fp : own h (DList l) v fp <->
  exists q vs fps, v = PRef q /\ nth_error h q = Some (OList vs) /\ fp = q :: List.concat fps /\ owns h l vs fps.
Proof. cbn [own]. split; intros (q & vs & fps & A & B & C & D); exists q, vs, fps; repeat (split; [assumption|]); apply own_all, D. Qed.
Lemma own_tuple {ee : Era} h l v fp : own h (DTuple l) v fp <->
  exists vs fps, v = PTuple vs /\ fp = List.concat fps /\ owns h l vs fps.
Proof. cbn [own]. split; intros (vs & fps & A & C & D); exists vs, fps; repeat (split; [assumption|]); apply own_all, D. Qed.
Lemma own_obj {ee : Era} h c fs v fp : own h (DObj c fs) v fp <->
  exists q vs fps, v = PRef q /\ nth_error h q = Some (OInst c vs) /\ fp = q :: List.concat fps /\ ownf h fs vs fps.
Proof.
  assert (E : forall fs vs fps, (fix allf (l : list (string * deep)) (vs : list (string * val)) (fps : list (list nat)) : Prop :=
         match l, vs, fps with
         | [], [], [] => True
         | (x, d) :: l, (y, v) :: vs, fp :: fps => (x = y /\ own h d v fp) /\ allf l vs fps
         | _, _, _ => False
         end) fs vs fps <-> ownf h fs vs fps).
  { clear. induction fs as [|[x d] l IH]; intros [|[y v] vs] [|fp fps]; split; intros H; try contradiction; try (inversion H; fail); try constructor; try exact I.
    - destruct H as [[<- H] K]. constructor; [exact H|apply IH, K].
    - inversion H; subst. split; [reflexivity|assumption].
    - apply IH. inversion H; assumption. }
  cbn [own]. split; intros (q & vs & fps & A & B & C & D); exists q, vs, fps; repeat (split; [assumption|]); apply E, D.
Qed.

(** ** Heaps *)
(** What a reader may do to a heap: add objects, and change the object at [l]. *)
Definition step (l : nat) (h h' : heap) : Prop :=
  (List.length h <= List.length h')%nat /\
  forall i, (i < List.length h)%nat -> i <> l -> nth_error h' i = nth_error h i.
Lemma step_refl l h : step l h h. Proof. split; [lia|reflexivity]. Qed.
Lemma step_trans l a b c : step l a b -> step l b c -> step l a c.
Proof. intros [L1 E1] [L2 E2]. split; [lia|]. intros i I N. rewrite E2 by lia. apply E1; assumption. Qed.
Lemma step_app l h e : step l h (h ++ e).
Proof. split; [rewrite app_length; lia|]. intros i I _. apply nth_error_app1, I. Qed.
Lemma put_length h l o : List.length (put h l o) = List.length h.
Proof. revert l. induction h as [|a h IH]; intros [|l]; cbn [put List.length]; [reflexivity..|]. rewrite IH. reflexivity. Qed.
Lemma put_same h l o : (l < List.length h)%nat -> nth_error (put h l o) l = Some o.
Proof. revert l. induction h as [|a h IH]; intros [|l] L; cbn [put nth_error List.length] in *; try lia; [reflexivity|]. apply IH. lia. Qed.
Lemma put_other h l o i : i <> l -> nth_error (put h l o) i = nth_error h i.
Proof. revert l i. induction h as [|a h IH]; intros [|l] [|i] N; cbn [put nth_error]; try reflexivity; try contradiction. apply IH. lia. Qed.
Lemma step_put l h o : step l h (put h l o).
Proof. split; [rewrite put_length; lia|]. intros i _ N. apply put_other, N. Qed.
Lemma put_put h l a b : put (put h l a) l b = put h l b.
Proof. revert l. induction h as [|x h IH]; intros [|l]; cbn [put]; try reflexivity. rewrite IH. reflexivity. Qed.
Lemma put_app h l o e : (l < List.length h)%nat -> put (h ++ e) l o = put h l o ++ e.
Proof. revert l. induction h as [|a h IH]; intros [|l] L; cbn [put app List.length] in *; try lia; [reflexivity|]. rewrite IH by lia. reflexivity. Qed.
Lemma nth_lt {A} (h : list A) i o : nth_error h i = Some o -> (i < List.length h)%nat.
Proof. intros E. apply nth_error_Some. congruence. Qed.
Lemma nth_new {A} (h : list A) o : nth_error (h ++ [o]) (List.length h) = Some o.
Proof. rewrite nth_error_app2 by lia. rewrite Nat.sub_diag. reflexivity. Qed.

(** What is owned stays if its locations are not touched. *)
Definition keeps (fp : list nat) (h h' : heap) : Prop := forall i, In i fp -> nth_error h' i = nth_error h i.
Lemma keeps_app a b h h' : keeps (a ++ b) h h' -> keeps a h h' /\ keeps b h h'.
Proof. intros K. split; intros i I; apply K, in_or_app; auto. Qed.
Lemma own_keeps {ee : Era} h h' d : forall v fp, keeps fp h h' -> own h d v fp -> own h' d v fp.
Proof.
  assert (L : forall l, Forall (fun d => forall v fp, keeps fp h h' -> own h d v fp -> own h' d v fp) l ->
     forall vs fps, keeps (List.concat fps) h h' -> owns h l vs fps -> owns h' l vs fps).
  { intros l F. induction F as [|d0 l Hd F IH]; intros vs fps K O; inversion O; subst; constructor.
    - apply Hd; [|assumption]. cbn [List.concat] in K. apply keeps_app in K. apply K.
    - apply IH; [|assumption]. cbn [List.concat] in K. apply keeps_app in K. apply K. }
  induction d as [|z|x|s|b|b|n|c|c m|f|r m IHr|l IH|l IH|c fs IH|x] using deep_rect'; intros v fp K H; try exact H.
  - apply own_list in H as (q & vs & fps & E & N & -> & O). apply own_list. exists q, vs, fps. split; [exact E|].
    split; [rewrite K by (left; reflexivity); exact N|]. split; [reflexivity|]. apply L; [exact IH| |exact O]. intros i I. apply K. right. exact I.
  - apply own_tuple in H as (vs & fps & E & -> & O). apply own_tuple. exists vs, fps. split; [exact E|]. split; [reflexivity|]. apply L; assumption.
  - apply own_obj in H as (q & vs & fps & E & N & -> & O). apply own_obj. exists q, vs, fps. split; [exact E|].
    split; [rewrite K by (left; reflexivity); exact N|]. split; [reflexivity|].
    assert (K' : keeps (List.concat fps) h h') by (intros i I; apply K; right; exact I). clear K E N.
    revert vs fps K' O. induction IH as [|[x d] fs Hd F IHf]; intros vs fps K O; inversion O; subst; constructor.
    + apply Hd; [|assumption]. cbn [List.concat] in K. apply keeps_app in K. apply K.
    + apply IHf; [|assumption]. cbn [List.concat] in K. apply keeps_app in K. apply K.
Qed.
(** What is known without the version. *)
Lemma level_any {ee : Era} x v : level x v -> @level Any x v.
Proof. unfold level, the_era. destruct ee; intros H; [exact H|right; exact H|left; exact H]. Qed.
Lemma own_any {ee : Era} h d : forall v fp, own h d v fp -> @own Any h d v fp.
Proof.
  assert (L : forall l, Forall (fun d => forall v fp, own h d v fp -> @own Any h d v fp) l -> forall vs fps, owns h l vs fps -> @owns Any h l vs fps).
  { intros l F. induction F as [|d0 l Hd F IH]; intros vs fps O; inversion O; subst; constructor; [apply Hd; assumption|apply IH; assumption]. }
  induction d as [|z|x|s|b|b|n|c|c m|f|r m IHr|l IH|l IH|c fs IH|x] using deep_rect'; intros v fp H; try exact H.
  - apply own_list in H as (q & vs & fps & E & N & -> & O). apply own_list. exists q, vs, fps. split; [exact E|]. split; [exact N|]. split; [reflexivity|]. apply L; assumption.
  - apply own_tuple in H as (vs & fps & E & -> & O). apply own_tuple. exists vs, fps. split; [exact E|]. split; [reflexivity|]. apply L; assumption.
  - apply own_obj in H as (q & vs & fps & E & N & -> & O). apply own_obj. exists q, vs, fps. split; [exact E|]. split; [exact N|]. split; [reflexivity|].
    clear E N. revert vs fps O. induction IH as [|[x d] fs Hd F IHf]; intros vs fps O; inversion O; subst; constructor; [apply Hd; assumption|apply IHf; assumption].
  - destruct H as [H ->]. split; [apply level_any, H|reflexivity].
Qed.
(** Locations that are all different and lie between two bounds. *)
Definition sep (lo hi : nat) (fp : list nat) : Prop := NoDup fp /\ forall i, In i fp -> (lo <= i < hi)%nat.
Lemma sep_nil lo hi : sep lo hi []. Proof. split; [constructor|intros i []]. Qed.
Lemma sep_app lo mid hi a b : sep lo mid a -> sep mid hi b -> (lo <= mid)%nat -> (mid <= hi)%nat -> sep lo hi (b ++ a).
Proof.
  intros [N1 R1] [N2 R2] A B. split.
  - clear A B. induction N2 as [|x b X N2 IH]; [exact N1|]. cbn [app]. constructor.
    + intros I. apply in_app_or in I as [I|I]; [contradiction|]. specialize (R1 _ I). specialize (R2 x (or_introl eq_refl)). lia.
    + apply IH. intros i I. apply R2. right. exact I.
  - intros i I. apply in_app_or in I as [I|I]; [specialize (R2 _ I); lia|specialize (R1 _ I); lia].
Qed.
Lemma sep_keeps l lo h h' fp : step l h h' -> (l < lo)%nat -> sep lo (List.length h) fp -> keeps fp h h'.
Proof. intros [_ E] L [_ R] i I. specialize (R _ I). apply E; lia. Qed.

(** ** The [ByteHandler] *)
Definition hobj (hd : handler) : obj :=
  OInst "ByteHandler" [("content", PBytes (h_content hd)); ("offset", PInt (Z.of_nat (h_offset hd))); ("version", version_val (h_version hd))]%string.
Record at_ {ee : Era} (l : nat) (hd : handler) (h : heap) : Prop := mkAt { at_eq :> nth_error h l = Some (hobj hd); at_fits : fits (h_version hd) }.
Lemma at_lt {ee : Era} l hd h : at_ l hd h -> (l < List.length h)%nat. Proof. intros A. apply (nth_lt _ _ _ A). Qed.
Lemma at_put {ee : Era} l hd hd' h : at_ l hd h -> h_version hd' = h_version hd -> at_ l hd' (put h l (hobj hd')).
Proof. intros A V. split; [apply put_same, (at_lt _ _ _ A)|]. rewrite V. apply (at_fits _ _ _ A). Qed.
Lemma at_app {ee : Era} l hd h e : at_ l hd h -> at_ l hd (h ++ e).
Proof. intros A. split; [rewrite nth_error_app1; [exact A|apply (at_lt _ _ _ A)]|apply (at_fits _ _ _ A)]. Qed.

(** What was built so far. *)
Definition held {ee : Era} (h : heap) (lo : nat) (L : list (deep * val)) : Prop :=
  exists fps, owns h (map fst L) (map snd L) fps /\ sep lo (List.length h) (List.concat fps).
Lemma owns_keeps {ee : Era} h h' l vs fps : keeps (List.concat fps) h h' -> owns h l vs fps -> owns h' l vs fps.
Proof.
  intros K O. induction O as [|d v fp l vs fps H O IH]; constructor; cbn [List.concat] in K; apply keeps_app in K as [K1 K2].
  - apply (own_keeps h); assumption.
  - apply IH, K2.
Qed.
Lemma held_step {ee : Era} l lo h h' L : step l h h' -> (l < lo)%nat -> held h lo L -> held h' lo L.
Proof.
  intros T N (fps & O & Se). exists fps. split; [apply (owns_keeps h); [apply (sep_keeps l lo); assumption|exact O]|].
  destruct Se as [N1 R]. split; [exact N1|]. intros i I. specialize (R _ I). destruct T as [T _]. lia.
Qed.
(** The state in the middle of a reader that began with heap [h0]: the handler at [l] is [hd], and
    the values [L] are trees of objects built since. *)
Record inv {ee : Era} (l : nat) (h0 : heap) (L : list (deep * val)) (hd : handler) (h : heap) : Prop := mkInv {
  i_at : at_ l hd h;
  i_lt : (l < List.length h0)%nat;
  i_step : step l h0 h;
  i_held : held h (List.length h0) L }.
Lemma inv_start {ee : Era} l hd h : at_ l hd h -> inv l h [] hd h.
Proof. intros A. constructor; [exact A|apply (at_lt _ _ _ A)|apply step_refl|]. exists []. split; [constructor|apply sep_nil]. Qed.
Lemma inv_step {ee : Era} l h0 L hd h hd' h' : inv l h0 L hd h -> step l h h' -> at_ l hd' h' -> inv l h0 L hd' h'.
Proof.
  intros [A B C D] T A'. constructor; [exact A'|exact B|eapply step_trans; eassumption|]. apply (held_step l _ h); assumption.
Qed.
Lemma inv_own {ee : Era} l h0 L hd h hd' h' d v fp : inv l h0 L hd h -> step l h h' -> at_ l hd' h' ->
  own h' d v fp -> sep (List.length h) (List.length h') fp -> inv l h0 ((d, v) :: L) hd' h'.
Proof.
  intros I T A' O Se. pose proof (inv_step _ _ _ _ _ _ _ I T A') as [A B C (fps & OO & SS)]. constructor; try assumption.
  destruct (i_held _ _ _ _ _ I) as (fps0 & OO0 & SS0). 
  exists (fp :: fps0). split.
  - constructor; [exact O|]. apply (owns_keeps h); [|exact OO0]. apply (sep_keeps l (List.length h0)); [exact T|exact B|exact SS0].
  - cbn [List.concat]. apply (sep_app _ (List.length h)); [exact SS0|exact Se|apply (i_step _ _ _ _ _ I)|apply T].
Qed.

(** ** Following a reader of the typed model *)
Definition ok {ee : Era} {A B} (l : nat) (P : heap -> B -> A -> Prop) (o : outcome (A * heap)) (r : res (B * handler)) : Prop :=
  match r with
  | Ok (b, hd) => exists a h, o = Ret (a, h) /\ at_ l hd h /\ P h b a
  | Err e => o = Raise (Std e)
  end.
(** A value was built from [h] on. *)
Definition built {ee : Era} {B} (l : nat) (h0 : heap) (D : B -> deep) (h : heap) (b : B) (v : val) : Prop :=
  step l h0 h /\ exists fp, own h (D b) v fp /\ sep (List.length h0) (List.length h) fp.
Lemma ok_bind {ee : Era} {A B A' B'} l (P : heap -> B -> A -> Prop) (Q : heap -> B' -> A' -> Prop) m k h f g hd :
  ok l P (m h) (f hd) -> (forall a b h' hd', at_ l hd' h' -> P h' b a -> ok l Q (k a h') (g b hd')) ->
  ok l Q (mbind m k h) (bind f g hd).
Proof.
  intros H K. unfold ok in H. unfold mbind, bind. destruct (f hd) as [[b hd']|e]; [|rewrite H; reflexivity].
  destruct H as (a & h' & -> & A0 & H). apply K; assumption.
Qed.
(** the same value if the typed model only changes its ghost state *)
Lemma ok_ghost {ee : Era} {A B C} l (P : heap -> B -> A -> Prop) o (f : rd C) (g : C -> rd B) hd c hd' :
  f hd = Ok (c, hd') -> ok l P o (g c hd') -> ok l P o (bind f g hd).
Proof. intros E H. unfold bind. rewrite E. exact H. Qed.

(** Running a method of the handler, with [k] calls of depth. *)
Definition does {ee : Era} {B} (k : nat) (a : string) (pos : list val) (kw : list (string * val)) (f : rd B) (D : B -> deep) : Prop :=
  forall m l hd h, (k <= m)%nat -> at_ l hd h -> ok l (built l h D) (call source m (PMeth (PRef l) a) pos kw h) (f hd).
(** Running [c.from_bytes(handler)]. *)
Definition reads {ee : Era} {B} (k : nat) (c a : string) (args : list val) (f : rd B) (D : B -> deep) : Prop :=
  forall m l hd h, (k <= m)%nat -> at_ l hd h -> ok l (built l h D) (call source m (PMeth (PClass c) a) (PRef l :: args) [] h) (f hd).
Lemma does_more {ee : Era} {B} k k' a pos kw (f : rd B) D : (k <= k')%nat -> does k a pos kw f D -> does k' a pos kw f D.
Proof. intros L H m l hd h M A. apply H; [lia|exact A]. Qed.
Lemma reads_more {ee : Era} {B} k k' c a pos (f : rd B) D : (k <= k')%nat -> reads k c a pos f D -> reads k' c a pos f D.
Proof. intros L H m l hd h M A. apply H; [lia|exact A]. Qed.
