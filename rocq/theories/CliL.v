(** * [asdict] and [json.dumps] on the heap are those of Dump.v and Json.v. *)
From Verif Require Import Base PyInt PyFloat PyStr PyStruct DataTypes Versions Common Py Source SourceCli FS World.
From Verif Require Import PyRep PyR Dump Json JsonP Cli.
From Coq Require Import String Ascii Lia.
Open Scope Z_scope.
Local Open Scope list_scope.

(** ** Python objects that are a tree of dictionaries and lists *)
Fixpoint jval (h : heap) (t : tree) (v : val) {struct t} : Prop :=
  let all := fix all (l : list tree) (vs : list val) : Prop :=
    match l, vs with [], [] => True | t :: l, v :: vs => jval h t v /\ all l vs | _, _ => False end in
  match t with
  | TNull => v = PNone
  | TInt z => v = PInt z
  | TFloat x => v = PFloat x
  | TText s => v = PStr s
  | TList l => exists vs, (v = PTuple vs \/ exists q, v = PRef q /\ nth_error h q = Some (OList vs)) /\ all l vs
  | TDict l => exists q kvs, v = PRef q /\ nth_error h q = Some (OInst "dict" kvs) /\
      (fix allf (l : list (string * tree)) (vs : list (string * val)) : Prop :=
         match l, vs with [], [] => True | (x, t) :: l, (y, v) :: vs => (x = y /\ jval h t v) /\ allf l vs | _, _ => False end) l kvs
  end.
Definition jfield (h : heap) (a : string * tree) (b : string * val) : Prop := fst a = fst b /\ jval h (snd a) (snd b).
Lemma jval_list h l v : jval h (TList l) v <-> exists vs, (v = PTuple vs \/ exists q, v = PRef q /\ nth_error h q = Some (OList vs)) /\ Forall2 (jval h) l vs.
Proof.
  assert (E : forall l vs, (fix all (l : list tree) (vs : list val) : Prop :=
    match l, vs with [], [] => True | t :: l, v :: vs => jval h t v /\ all l vs | _, _ => False end) l vs <-> Forall2 (jval h) l vs).
  { clear. induction l as [|t l IH]; intros [|v vs]; split; intros H; try contradiction; try (inversion H; fail); try constructor; try exact I.
    - apply H.
    - apply IH, H.
    - inversion H; assumption.
    - apply IH. inversion H; assumption. }
  cbn [jval]. split; intros (vs & A & B); exists vs; (split; [exact A|apply E, B]).
Qed.
Lemma jval_dict h l v : jval h (TDict l) v <-> exists q kvs, v = PRef q /\ nth_error h q = Some (OInst "dict" kvs) /\ Forall2 (jfield h) l kvs.
Proof.
  assert (E : forall l vs, (fix allf (l : list (string * tree)) (vs : list (string * val)) : Prop :=
         match l, vs with [], [] => True | (x, t) :: l, (y, v) :: vs => (x = y /\ jval h t v) /\ allf l vs | _, _ => False end) l vs <-> Forall2 (jfield h) l vs).
  { clear. induction l as [|[x t] l IH]; intros [|[y v] vs]; split; intros H; try contradiction; try (inversion H; fail); try constructor; try exact I.
    - apply H.
    - apply IH, H.
    - inversion H; subst. assumption.
    - apply IH. inversion H; assumption. }
  cbn [jval]. split; intros (q & kvs & A & B & C); exists q, kvs; (split; [exact A|]; split; [exact B|apply E, C]).
Qed.
Lemma F2_imp {A B} (P Q : A -> B -> Prop) l : Forall (fun a => forall b, P a b -> Q a b) l -> forall vs, Forall2 P l vs -> Forall2 Q l vs.
Proof. intros F. induction F as [|a l H F IH]; intros vs G; inversion G; subst; constructor; [apply H; assumption|apply IH; assumption]. Qed.
Lemma jval_later h h' t : later h h' -> forall v, jval h t v -> jval h' t v.
Proof.
  intros L. induction t as [|z|x|s|l IH|l IH] using tree_rec'; intros v H; try exact H.
  - apply jval_list in H as (vs & A & B). apply jval_list. exists vs. split.
    + destruct A as [->|(q & -> & Q)]; [left; reflexivity|right; exists q; split; [reflexivity|apply L, Q]].
    + apply (F2_imp _ _ _ IH), B.
  - apply jval_dict in H as (q & kvs & -> & Q & B). apply jval_dict. exists q, kvs. split; [reflexivity|]. split; [apply L, Q|].
    revert B. apply F2_imp. induction IH as [|kt l H F IHl]; constructor; [|exact IHl]. intros [y w] [E J]. split; [exact E|apply H, J].
Qed.
Lemma F2_later h h' ts vs : later h h' -> Forall2 (jval h) ts vs -> Forall2 (jval h') ts vs.
Proof. intros L F. induction F; constructor; [apply (jval_later h); assumption|assumption]. Qed.
Lemma F2_later_f h h' ts vs : later h h' -> Forall2 (jfield h) ts vs -> Forall2 (jfield h') ts vs.
Proof. intros L F. induction F as [|a b ts vs [A B] F IH]; constructor; [split; [exact A|apply (jval_later h); assumption]|exact IH]. Qed.
Lemma own_later {ee : Era} h h' d : later h h' -> forall v fp, own h d v fp -> own h' d v fp.
Proof.
  intros L. assert (LL : forall l, Forall (fun d => forall v fp, own h d v fp -> own h' d v fp) l -> forall vs fps, owns h l vs fps -> owns h' l vs fps).
  { intros l F. induction F as [|d0 l Hd F IH]; intros vs fps O; inversion O; subst; constructor; [apply Hd; assumption|apply IH; assumption]. }
  induction d as [|z|x|s|b|b|n|c|c m|f|r m IHr|l IH|l IH|c fs IH|x] using deep_rect'; intros v fp H; try exact H.
  - apply own_list in H as (q & vs & fps & E & N & -> & O). apply own_list. exists q, vs, fps. split; [exact E|]. split; [apply L, N|]. split; [reflexivity|]. apply LL; assumption.
  - apply own_tuple in H as (vs & fps & E & -> & O). apply own_tuple. exists vs, fps. split; [exact E|]. split; [reflexivity|]. apply LL; assumption.
  - apply own_obj in H as (q & vs & fps & E & N & -> & O). apply own_obj. exists q, vs, fps. split; [exact E|]. split; [apply L, N|]. split; [reflexivity|].
    clear E N. revert vs fps O. induction IH as [|[x d] fs Hd F IHf]; intros vs fps O; inversion O; subst; constructor; [apply Hd; assumption|apply IHf; assumption].
Qed.

(** ** What [asdict] makes of a tree of objects *)
(** [says old n d t]: the dump of [d] is [t], [n] levels deep at most; [old]: the file is older than 8.4. *)
Fixpoint differ (l : list string) : bool := match l with [] => true | x :: l => negb (among x l) && differ l end.
Inductive says (old : bool) : nat -> deep -> tree -> Prop :=
| y_none n : says old (S n) DNone TNull
| y_int n z : says old (S n) (DInt z) (TInt z)
| y_float n x : says old (S n) (DFloat x) (TFloat x)
| y_num n x : says old (S n) (DNum x) (if old then TInt 0 else TFloat x)
| y_str n s : says old (S n) (DStr s) (TText s)
| y_list n l ts : Forall2 (says old n) l ts -> says old (S n) (DList l) (TList ts)
| y_tuple n l ts : Forall2 (says old n) l ts -> says old (S n) (DTuple l) (TList ts)
| y_obj n c k fs ts : class_of source c = Some k -> c_sort k = Dataclass -> c_fields k = map fst fs -> differ (map fst fs) = true ->
    Forall2 (fun a b => fst a = fst b /\ says old n (snd a) (snd b)) fs ts -> says old (S n) (DObj c fs) (TDict ts).
Lemma says_opt {A} old n (f : A -> deep) (g : A -> tree) o : (forall a, says old (S n) (f a) (g a)) -> says old (S n) (emb_opt f o) (of_option g o).
Proof. intros H. destruct o; [apply H|apply y_none]. Qed.
Lemma says_opt_old {A} n (f : A -> deep) (g : A -> tree) o : (forall a, says true (S n) (f a) (int_levels (g a))) -> says true (S n) (emb_opt f o) (int_levels (of_option g o)).
Proof. intros H. destruct o; [apply H|apply y_none]. Qed.
Lemma F2_map {A B C} (P : B -> C -> Prop) (f : A -> B) (g : A -> C) l : (forall a, P (f a) (g a)) -> Forall2 P (map f l) (map g l).
Proof. intros H. induction l; constructor; auto. Qed.

Definition era_of (old : bool) : Era := if old then Old else New.
Lemma mmap_list old n h0 : forall l vs ts fps h, later h0 h -> @owns (era_of old) h0 l vs fps ->
  (forall d v t fp h, later h0 h -> @own (era_of old) h0 d v fp -> says old n d t -> exists v' h', asdict n v h = Ret (v', h') /\ later h h' /\ jval h' t v') ->
  Forall2 (says old n) l ts -> exists vs' h', mmap (asdict n) vs h = Ret (vs', h') /\ later h h' /\ Forall2 (jval h') ts vs'.
Proof.
  induction l as [|d l IH]; intros vs ts fps h L O H Y; inversion O; subst; inversion Y; subst.
  - exists [], h. split; [reflexivity|]. split; [apply later_refl|constructor].
  - match goal with A : own _ d ?v ?fp, B : says _ _ d ?t |- _ => destruct (H _ _ _ _ h L A B) as (v' & h1 & E & L1 & J) end.
    match goal with A : owns _ l ?vs ?fps, B : Forall2 _ l ?ts |- _ => destruct (IH vs ts fps h1 (later_trans _ _ _ L L1) A H B) as (vs' & h2 & E2 & L2 & J2) end.
    exists (v' :: vs'), h2. split; [cbn [mmap]; unfold mbind; rewrite E, E2; reflexivity|]. split; [apply (later_trans _ _ _ L1 L2)|]. constructor; [apply (jval_later _ _ _ L2 _ J)|exact J2].
Qed.
Lemma differ_assoc {A} (fs : list (string * A)) pre x w post : differ (map fst fs) = true -> fs = pre ++ (x, w) :: post -> assoc x fs = Some w.
Proof.
  intros D ->. induction pre as [|[y u] pre IH]; cbn [app map fst differ assoc] in *; [rewrite String.eqb_refl; reflexivity|].
  apply andb_prop in D as [D1 D2]. destruct (String.eqb x y) eqn:E; [|apply IH, D2]. exfalso. apply String.eqb_eq in E as ->.
  apply negb_true_iff in D1. unfold among in D1. assert (X : existsb (String.eqb y) (map fst (pre ++ (y, w) :: post)) = true); [|congruence].
  apply existsb_exists. exists y. split; [|apply String.eqb_refl]. rewrite map_app. apply in_or_app. right. left. reflexivity.
Qed.
Lemma ownf_names {ee : Era} h fs vs fps : ownf h fs vs fps -> map fst fs = map fst vs.
Proof. intros O. induction O; [reflexivity|]. cbn [map fst]. f_equal. assumption. Qed.
Lemma mmap_fields old n h0 all : differ (map fst all) = true -> forall l pre vs ts fps h, all = pre ++ vs -> later h0 h -> @ownf (era_of old) h0 l vs fps ->
  (forall d v t fp h, later h0 h -> @own (era_of old) h0 d v fp -> says old n d t -> exists v' h', asdict n v h = Ret (v', h') /\ later h h' /\ jval h' t v') ->
  Forall2 (fun a b => fst a = fst b /\ says old n (snd a) (snd b)) l ts ->
  exists kvs h', mmap (fun x => w <~ mopt (Std AttributeError) (assoc x all) ;; w' <~ asdict n w ;; mret (x, w')) (map fst l) h = Ret (kvs, h') /\ later h h' /\ Forall2 (jfield h') ts kvs.
Proof.
  intros D. induction l as [|[x d] l IH]; intros pre vs ts fps h AL L O H Y; inversion O; subst; inversion Y; subst.
  - exists [], h. split; [reflexivity|]. split; [apply later_refl|constructor].
  - match goal with A : own _ d ?v ?fp, B : _ /\ says _ _ _ _ |- _ => destruct B as [N B]; destruct (H _ _ _ _ h L A B) as (v' & h1 & E & L1 & J); rename v into v0 end.
    match goal with A : ownf _ l ?vs ?fps, B : Forall2 _ l ?ts |- _ => destruct (IH (pre ++ [(x, v0)]) vs ts fps h1 ltac:(rewrite <- app_assoc; reflexivity) (later_trans _ _ _ L L1) A H B) as (vs' & h2 & E2 & L2 & J2) end.
    cbn [fst snd] in *. exists ((x, v') :: vs'), h2. split; [|split; [apply (later_trans _ _ _ L1 L2)|constructor; [|exact J2]]].
    + cbn [map fst mmap]. unfold mbind at 1 2. rewrite (differ_assoc _ _ _ _ _ D eq_refl). cbn [mopt]. unfold mret at 1. unfold mbind at 1. rewrite E. unfold mret at 1. unfold mbind at 1. rewrite E2. reflexivity.
    + split; [symmetry; exact N|]. apply (jval_later _ _ _ L2), J.
Qed.
Theorem asdict_says old n : forall h0 h d v t fp, later h0 h -> @own (era_of old) h0 d v fp -> says old n d t ->
  exists v' h', asdict n v h = Ret (v', h') /\ later h h' /\ jval h' t v'.
Proof.
  induction n as [|n IH]; intros h0 h d v t fp L O Y; inversion Y; subst.
  - destruct O as [-> _]. exists PNone, h. split; [reflexivity|]. split; [apply later_refl|reflexivity].
  - destruct O as [-> _]. eexists _, h. split; [reflexivity|]. split; [apply later_refl|reflexivity].
  - destruct O as [-> _]. eexists _, h. split; [reflexivity|]. split; [apply later_refl|reflexivity].
  - destruct O as [O _]. exists v, h. unfold level, the_era, era_of in O. destruct old; [destruct O as [-> _]|subst v]; (split; [reflexivity|]; split; [apply later_refl|reflexivity]).
  - destruct O as [-> _]. eexists _, h. split; [reflexivity|]. split; [apply later_refl|reflexivity].
  - apply own_list in O as (q & vs & fps & -> & Q & _ & O). match goal with Z : Forall2 _ _ _ |- _ => destruct (mmap_list old n h0 _ _ _ _ h L O (fun d v t fp' h' L' O' Y' => IH h0 h' d v t fp' L' O' Y') Z) as (vs' & h1 & E & L1 & J) end.
    exists (PRef (List.length h1)), (h1 ++ [OList vs']). split; [|split].
    + cbn [asdict]. unfold mbind at 1, get_obj. rewrite (L _ _ Q). cbn [mopt]. unfold mret. cbn iota. unfold mbind. rewrite E. reflexivity.
    + eapply later_trans; [exact L1|apply later_app].
    + apply jval_list. exists vs'. split; [right; exists (List.length h1); split; [reflexivity|apply nth_new]|].
      apply (F2_later h1); [apply later_app|exact J].
  - apply own_tuple in O as (vs & fps & -> & _ & O). match goal with Z : Forall2 _ _ _ |- _ => destruct (mmap_list old n h0 _ _ _ _ h L O (fun d v t fp' h' L' O' Y' => IH h0 h' d v t fp' L' O' Y') Z) as (vs' & h1 & E & L1 & J) end.
    exists (PTuple vs'), h1. split; [|split; [exact L1|]].
    + cbn [asdict]. unfold mbind. rewrite E. reflexivity.
    + apply jval_list. exists vs'. split; [left; reflexivity|exact J].
  - apply own_obj in O as (q & vs & fps & -> & Q & _ & O).
    match goal with K : class_of source ?c = Some ?k, SO : c_sort ?k = _, F : c_fields ?k = _, D : differ _ = true, Z : Forall2 _ _ _ |- _ =>
      rename K into EK; rename SO into ES; rename F into EF; rename D into ED; rename Z into EZ end.
    destruct (mmap_fields old n h0 vs ltac:(rewrite <- (ownf_names _ _ _ _ O); exact ED) _ [] vs _ _ h eq_refl L O (fun d v t fp' h' L' O' Y' => IH h0 h' d v t fp' L' O' Y') EZ) as (kvs & h1 & E & L1 & J).
    exists (PRef (List.length h1)), (h1 ++ [OInst "dict" kvs]). split; [|split].
    + cbn [asdict]. unfold mbind at 1, get_obj. rewrite (L _ _ Q). cbn [mopt]. unfold mret at 1. cbn iota. rewrite EK, ES, EF. unfold mbind at 1. rewrite E. reflexivity.
    + eapply later_trans; [exact L1|apply later_app].
    + apply jval_dict. exists (List.length h1), kvs. split; [reflexivity|]. split; [apply nth_new|].
      apply (F2_later_f h1); [apply later_app|exact J].
Qed.

(** ** [json.dumps] *)
Fixpoint deeper (t : tree) : nat :=
  match t with
  | TList l => S (list_max (map deeper l))
  | TDict l => S (list_max (map (fun kt => deeper (snd kt)) l))
  | _ => 1
  end.
Lemma json_encode_dumps repr t : forall n level h v, (deeper t <= n)%nat -> jval h t v -> json_encode repr n level v h = Ret (dumps repr level t, h).
Proof.
  induction t as [|z|x|s|l IH|l IH] using tree_rec'; intros n level h v N J; (destruct n as [|n]; [cbn [deeper] in N; lia|]); try (cbn [jval] in J; subst v; reflexivity).
  - apply jval_list in J as (vs & V & J). cbn [deeper] in N.
    assert (E : mmap (json_encode repr n (S level)) vs h = Ret (map (dumps repr (S level)) l, h)).
    { assert (N' : (list_max (map deeper l) <= n)%nat) by lia. clear N V. revert N'. induction J as [|t w l vs A J IHJ]; intros N; [reflexivity|]. inversion IH; subst. cbn [map] in N. pose proof (list_max_app [deeper t] (map deeper l)) as LM. cbn [app] in LM. rewrite LM in N. cbn [list_max] in N.
      cbn [mmap map]. unfold mbind at 1. match goal with H : forall n level h v, (deeper t <= n)%nat -> _ |- _ => rewrite (H n (S level) h w) by (try assumption; cbn in N; lia) end.
      unfold mbind at 1. rewrite IHJ; [reflexivity|assumption|lia]. }
    destruct V as [->|(q & -> & Q)]; cbn [json_encode dumps].
    + unfold mbind. rewrite E. reflexivity.
    + unfold mbind at 1, get_obj. rewrite Q. cbn [mopt]. unfold mret at 1. cbn iota. unfold mbind. rewrite E. reflexivity.
  - apply jval_dict in J as (q & kvs & -> & Q & J). cbn [deeper] in N.
    assert (E : mmap (fun kv => t <~ json_encode repr n (S level) (snd kv) ;; mret (quote (text (fst kv)) ++ [COLON; 32] ++ t)) kvs h =
      Ret (map (fun kt => quote (text (fst kt)) ++ [COLON; 32] ++ dumps repr (S level) (snd kt)) l, h)).
    { assert (N' : (list_max (map (fun kt => deeper (snd kt)) l) <= n)%nat) by lia. clear N Q. revert N'. induction J as [|t v l vs [A1 A2] J IHJ]; intros N; [reflexivity|]. inversion IH; subst. cbn [map] in N.
      pose proof (list_max_app [deeper (snd t)] (map (fun kt => deeper (snd kt)) l)) as LM. cbn [app] in LM. rewrite LM in N. cbn [list_max] in N.
      cbn [mmap map]. unfold mbind at 1 2. match goal with H : forall n level h v, (deeper (snd t) <= n)%nat -> _ |- _ => rewrite (H n (S level) h (snd v)) by (try assumption; cbn in N; lia) end.
      unfold mret at 1. unfold mbind at 1. rewrite IHJ; [|assumption|lia]. rewrite A1. reflexivity. }
    cbn [json_encode dumps]. unfold mbind at 1, get_obj. rewrite Q. cbn [mopt]. unfold mret at 1. cbn iota. rewrite String.eqb_refl. unfold mbind at 1. rewrite E. reflexivity.
Qed.
Lemma says_deeper old n : forall d t, says old n d t -> (deeper t <= n)%nat.
Proof.
  induction n as [|n IH]; intros d t Y; inversion Y; subst; cbn [deeper]; try lia.
  - destruct old; cbn [deeper]; lia.
  - apply le_n_S, list_max_le, Forall_map. match goal with F : Forall2 _ _ _ |- _ => revert F end. clear - IH. intros F. induction F; constructor; eauto.
  - apply le_n_S, list_max_le, Forall_map. match goal with F : Forall2 _ _ _ |- _ => revert F end. clear - IH. intros F. induction F; constructor; eauto.
  - apply le_n_S, list_max_le, Forall_map. match goal with F : Forall2 _ _ _ |- _ => revert F end. clear - IH. intros F. induction F as [|a b l l' [A1 A2] F IHF]; constructor; eauto.
Qed.
Theorem printed_says repr old n h d v t fp : @own (era_of old) h d v fp -> says old n d t ->
  exists v' h', asdict n v h = Ret (v', h') /\ later h h' /\ json_encode repr n 0 v' h' = Ret (dumps repr 0 t, h').
Proof.
  intros O Y. destruct (asdict_says old n h h d v t fp (later_refl h) O Y) as (v' & h' & E & L & J). exists v', h'. split; [exact E|]. split; [exact L|].
  apply json_encode_dumps; [apply (says_deeper old n d), Y|exact J].
Qed.
