(** * New objects in programs of users: [copy.deepcopy].

    A copy of a tree (PyR.v, [own]) is a tree with the same contents made of objects that did not exist
    before; nothing that existed is touched. *)
From Verif Require Import Base PyInt PyFloat PyStr PyStruct DataTypes Versions Common Py Source PyRep PyPure PyPureSim PyW PyWE Deep PyWC PyWS PyWD.
From Verif Require Import PyR PyRE PyTree PyKinds.
From Coq Require Import String Ascii Lia.
Open Scope Z_scope.
Local Open Scope list_scope.

(** No part of the tree is a ByteHandler. *)
Fixpoint copyable (d : deep) : bool :=
  match d with
  | DList l | DTuple l => forallb copyable l
  | DObj c fs => negb (String.eqb c "ByteHandler") && forallb (fun f => copyable (snd f)) fs
  | _ => true
  end.

Lemma own_lt h d : forall v fp, own h d v fp -> forall i, In i fp -> (i < List.length h)%nat.
Proof.
  assert (L : forall l, Forall (fun d => forall v fp, own h d v fp -> forall i, In i fp -> (i < List.length h)%nat) l -> forall vs fps, owns h l vs fps -> forall i, In i (List.concat fps) -> (i < List.length h)%nat).
  { intros l F. induction F as [|d0 l Hd F IH]; intros vs fps O i I; inversion O; subst; [destruct I|]. cbn [List.concat] in I. apply in_app_or in I as [I|I]; [eapply Hd; eassumption|eapply IH; eassumption]. }
  induction d as [|z|x|s|b|b|n|c|c m|f|r m IHr|l IH|l IH|c fs IH|x] using deep_rect'; intros v fp H i I; try (cbn [own] in H; contradiction); try (destruct H as [_ ->]; destruct I).
  - apply own_list in H as (q & vs & fps & -> & Q & -> & O). destruct I as [<-|I]; [apply (nth_lt _ _ _ Q)|]. eapply L; eassumption.
  - apply own_tuple in H as (vs & fps & -> & -> & O). eapply L; eassumption.
  - apply own_obj in H as (q & vs & fps & -> & Q & -> & O). destruct I as [<-|I]; [apply (nth_lt _ _ _ Q)|]. clear - IH O I. revert vs fps O I.
    induction IH as [|[x d] fs Hd F IHf]; intros vs fps O I; inversion O; subst; [destruct I|]. cbn [List.concat] in I. apply in_app_or in I as [I|I]; [eapply Hd; eassumption|eapply IHf; eassumption].
Qed.
Lemma owns_lt h l vs fps : owns h l vs fps -> forall i, In i (List.concat fps) -> (i < List.length h)%nat.
Proof. intros O. induction O as [|d v fp l vs fps H O IH]; intros i I; [destruct I|]. cbn [List.concat] in I. apply in_app_or in I as [I|I]; [apply (own_lt _ _ _ _ H _ I)|apply IH, I]. Qed.
Lemma ownf_lt h l vs fps : ownf h l vs fps -> forall i, In i (List.concat fps) -> (i < List.length h)%nat.
Proof. intros O. induction O as [|x d v fp l vs fps H O IH]; intros i I; [destruct I|]. cbn [List.concat] in I. apply in_app_or in I as [I|I]; [apply (own_lt _ _ _ _ H _ I)|apply IH, I]. Qed.
Lemma keeps_more fp h t : (forall i, In i fp -> (i < List.length h)%nat) -> keeps fp h (h ++ t).
Proof. intros L i I. apply nth_error_app1, L, I. Qed.
Lemma own_more h t d v fp : own h d v fp -> own (h ++ t) d v fp.
Proof. intros O. apply (own_keeps h); [|exact O]. apply keeps_more, (own_lt _ _ _ _ O). Qed.
Lemma owns_keep h h' ds vs fps : keeps (List.concat fps) h h' -> owns h ds vs fps -> owns h' ds vs fps.
Proof.
  intros K O. induction O as [|d v fp l vs fps H O IH]; [constructor|]. cbn [List.concat] in K. apply keeps_app in K as [K1 K2]. constructor; [apply (own_keeps h); assumption|apply IH, K2].
Qed.
Lemma owns_more h t l vs fps : owns h l vs fps -> owns (h ++ t) l vs fps.
Proof. intros O. apply (owns_keep h); [|exact O]. apply keeps_more, (owns_lt _ _ _ _ O). Qed.
Lemma ownf_owns h ds vs fps : ownf h ds vs fps -> owns h (map snd ds) (map snd vs) fps /\ map fst vs = map fst ds.
Proof. intros O. induction O as [|x d v fp l vs fps H O [IH1 IH2]]; cbn [map fst snd]; [split; [constructor|reflexivity]|]. split; [constructor; assumption|congruence]. Qed.
Lemma owns_ownf h ds : forall vs fps, owns h (map snd ds) vs fps -> ownf h ds (combine (map fst ds) vs) fps.
Proof. induction ds as [|[x d] ds IH]; intros vs fps O; inversion O; subst; cbn [map fst snd combine]; constructor; [assumption|apply IH; assumption]. Qed.
Lemma put_here h o t x : put (h ++ o :: t) (List.length h) x = h ++ x :: t.
Proof. rewrite put_app by apply Nat.le_refl. rewrite Nat.sub_diag. reflexivity. Qed.

Lemma copy_tuple n vs memo : deep_copy (S n) (PTuple vs) memo = (r <~ thread (deep_copy (S n)) vs memo ;; mret (PTuple (fst r), snd r)).
Proof. reflexivity. Qed.
Definition copies (d : deep) : Prop := forall n v fp memo h, own h d v fp -> NoDup fp -> copyable d = true -> (List.length fp < n)%nat -> (forall i, In i fp -> lookup i memo = None) ->
  exists v' memo' t fp', deep_copy n v memo h = Ret ((v', memo'), h ++ t) /\ own (h ++ t) d v' fp' /\ NoDup fp' /\ (forall i, In i fp' -> (List.length h <= i)%nat) /\
    forall i, ~ In i fp -> lookup i memo' = lookup i memo.
Lemma copy_all l : Forall copies l -> forall n vs fps memo h, owns h l vs fps -> NoDup (List.concat fps) -> forallb copyable l = true -> (List.length (List.concat fps) < n)%nat ->
  (forall i, In i (List.concat fps) -> lookup i memo = None) ->
  exists vs' memo' t fps', thread (deep_copy n) vs memo h = Ret ((vs', memo'), h ++ t) /\ owns (h ++ t) l vs' fps' /\ NoDup (List.concat fps') /\ (forall i, In i (List.concat fps') -> (List.length h <= i)%nat) /\
    forall i, ~ In i (List.concat fps) -> lookup i memo' = lookup i memo.
Proof.
  intros F. induction F as [|d l Hd F IH]; intros n vs fps memo h O N CO LN M; inversion O; subst.
  - exists [], memo, [], []. rewrite app_nil_r. split; [reflexivity|]. split; [constructor|]. split; [constructor|]. split; [intros i []|reflexivity].
  - cbn [List.concat forallb] in *. apply andb_true_iff in CO as [C1 C2]. apply nodup_app in N as (N1 & N2 & D). rewrite app_length in LN.
    match goal with H : own h d ?v ?fp |- _ => destruct (Hd n v fp memo h H N1 C1 ltac:(lia) ltac:(intros i I; apply M, in_or_app; left; exact I)) as (v' & memo1 & t1 & fp1 & E1 & O1 & N1' & G1 & L1) end.
    match goal with H : owns h l ?vs ?fps |- _ => destruct (IH n vs fps memo1 (h ++ t1) (owns_more _ t1 _ _ _ H) N2 C2 ltac:(lia) ltac:(intros i I; rewrite L1; [apply M, in_or_app; right; exact I|intros J; apply (D i J I)]))
      as (vs' & memo2 & t2 & fps2 & E2 & O2 & N2' & G2 & L2) end.
    exists (v' :: vs'), memo2, (t1 ++ t2), (fp1 :: fps2). rewrite app_assoc. split; [|split; [|split; [|split]]].
    + cbn [thread]. rewrite (mbind_ret _ _ _ _ _ E1). cbn [fst snd]. rewrite (mbind_ret _ _ _ _ _ E2). reflexivity.
    + constructor; [apply own_more, O1|exact O2].
    + cbn [List.concat]. apply app_nodup; [exact N1'|exact N2'|]. intros i I J. pose proof (own_lt _ _ _ _ O1 i I). pose proof (G2 i J). lia.
    + cbn [List.concat]. intros i I. apply in_app_or in I as [I|I]; [apply G1, I|]. pose proof (G2 i I) as X. rewrite app_length in X. lia.
    + intros i I. rewrite L2 by (intros J; apply I, in_or_app; right; exact J). apply L1. intros J. apply I, in_or_app. left. exact J.
Qed.
(** The part that is the same for lists and for instances. *)
Lemma copy_below l n q vs fps memo h o (k : list val -> obj) : Forall copies l -> owns h l vs fps -> NoDup (q :: List.concat fps) -> forallb copyable l = true -> (List.length (q :: List.concat fps) < S n)%nat ->
  (forall i, In i (q :: List.concat fps) -> lookup i memo = None) ->
  exists vs' memo' t fps', (l' <~ alloc_at o ;; r <~ thread (deep_copy n) vs ((q, l') :: memo) ;; _ <~ set_obj l' (k (fst r)) ;; mret (PRef l', snd r)) h = Ret ((PRef (List.length h), memo'), h ++ k vs' :: t) /\
    owns (h ++ k vs' :: t) l vs' fps' /\ NoDup (List.length h :: List.concat fps') /\ (forall i, In i (List.length h :: List.concat fps') -> (List.length h <= i)%nat) /\
    forall i, ~ In i (q :: List.concat fps) -> lookup i memo' = lookup i memo.
Proof.
  intros F O N CO LN M. inversion N as [|y z Q1 N1]; subst. cbn [List.length] in LN.
  destruct (copy_all l F n vs fps ((q, List.length h) :: memo) (h ++ [o]) (owns_more _ _ _ _ _ O) N1 CO ltac:(lia)) as (vs' & memo' & t & fps' & E & O' & N' & G & L).
  { intros i I. cbn [lookup]. destruct (Nat.eqb_spec i q) as [->|]; [contradiction|]. apply M. right. exact I. }
  assert (G' : forall i, In i (List.concat fps') -> (List.length h < i)%nat) by (intros i I; specialize (G i I); rewrite app_length in G; cbn [List.length] in G; lia).
  rewrite <- app_assoc in E, O'. cbn [app] in E, O'.
  exists vs', memo', t, fps'. split; [|split; [|split; [|split]]].
  - unfold mbind at 1, alloc_at. rewrite (mbind_ret _ _ _ _ _ E). cbn [fst snd]. unfold mbind, set_obj, mret. rewrite put_here. reflexivity.
  - apply (owns_keep (h ++ o :: t)); [|exact O']. rewrite <- (put_here h o t (k vs')). apply keeps_put. intros I. specialize (G' _ I). lia.
  - constructor; [intros I; specialize (G' _ I); lia|exact N'].
  - intros i [<-|I]; [lia|]. specialize (G' _ I). lia.
  - intros i I. rewrite L by (intros J; apply I; right; exact J). cbn [lookup]. destruct (Nat.eqb_spec i q) as [->|]; [exfalso; apply I; left; reflexivity|reflexivity].
Qed.
Lemma copy_deep d : copies d.
Proof.
  induction d as [|z|x|s|b|b|n0|c|c m|f|r m IHr|l IH|l IH|c fs IH|x] using deep_rect'; intros n v fp memo h O N CO LN M; (destruct n as [|n]; [lia|]); try (cbn [own] in O; contradiction).
  1-6: destruct O as [-> ->]; eexists _, memo, [], []; rewrite app_nil_r; (split; [reflexivity|]); (split; [split; reflexivity|]); (split; [constructor|]); (split; [intros i []|reflexivity]).
  - apply own_list in O as (q & vs & fps & -> & Q & -> & O). cbn [copyable] in CO.
    destruct (copy_below l n q vs fps memo h (OList []) OList IH O N CO LN M) as (vs' & memo' & t & fps' & E & O' & N' & G & L).
    exists (PRef (List.length h)), memo', (OList vs' :: t), (List.length h :: List.concat fps'). split; [|split; [|auto]].
    + cbn [deep_copy]. rewrite (M q) by (left; reflexivity). unfold mbind at 1, get_obj at 1. rewrite Q. cbn [mopt]. unfold mret at 1. exact E.
    + apply own_list. exists (List.length h), vs', fps'. split; [reflexivity|]. split; [rewrite nth_error_app2, Nat.sub_diag by lia; reflexivity|]. split; [reflexivity|exact O'].
  - apply own_tuple in O as (vs & fps & -> & -> & O). cbn [copyable] in CO. destruct (copy_all l IH (S n) vs fps memo h O N CO LN M) as (vs' & memo' & t & fps' & E & O' & N' & G & L).
    exists (PTuple vs'), memo', t, (List.concat fps'). split; [|split; [|auto]].
    + rewrite copy_tuple. rewrite (mbind_ret _ _ _ _ _ E). reflexivity.
    + apply own_tuple. exists vs', fps'. auto.
  - apply own_obj in O as (q & vs & fps & -> & Q & -> & O). cbn [copyable] in CO. apply andb_true_iff in CO as [CB CO]. apply ownf_owns in O as [O NM].
    assert (IH' : Forall copies (map snd fs)) by (clear - IH; induction IH; constructor; assumption).
    assert (CO' : forallb copyable (map snd fs) = true) by (clear - CO; induction fs as [|f fs IH]; [reflexivity|]; cbn [map forallb] in *; apply andb_true_iff in CO as [C1 C2]; rewrite C1; apply IH, C2).
    destruct (copy_below (map snd fs) n q (map snd vs) fps memo h (OInst c []) (fun r => OInst c (combine (map fst vs) r)) IH' O N CO' LN M) as (vs' & memo' & t & fps' & E & O' & N' & G & L).
    exists (PRef (List.length h)), memo', (OInst c (combine (map fst vs) vs') :: t), (List.length h :: List.concat fps'). split; [|split; [|auto]].
    + cbn [deep_copy]. rewrite (M q) by (left; reflexivity). unfold mbind at 1, get_obj at 1. rewrite Q. cbn [mopt]. unfold mret at 1. rewrite (proj1 (negb_true_iff _) CB). exact E.
    + apply own_obj. exists (List.length h), (combine (map fst vs) vs'), fps'. split; [reflexivity|]. split; [rewrite nth_error_app2, Nat.sub_diag by lia; reflexivity|]. split; [reflexivity|]. rewrite NM in *. apply owns_ownf, O'.
  - destruct O as [O ->]. assert (S : level x v) by exact O. cbn [own]. exists v, memo, [], []. rewrite app_nil_r. split; [destruct O as [->|[-> _]]; reflexivity|]. split; [split; [exact S|reflexivity]|]. split; [constructor|]. split; [intros i []|reflexivity].
Qed.
Lemma small_nodup (l : list nat) m : NoDup l -> (forall i, In i l -> (i < m)%nat) -> (List.length l <= m)%nat.
Proof. intros N L. rewrite <- (seq_length m 0). apply NoDup_incl_length; [exact N|]. intros i I. apply in_seq. specialize (L i I). lia. Qed.
(** [copy.deepcopy(v)] *)
Theorem deepcopy_runs h d v fp : own h d v fp -> NoDup fp -> copyable d = true ->
  exists v' t fp', builtin (PClass "copy") "deepcopy" [v] [] h = Ret (v', h ++ t) /\ own (h ++ t) d v' fp' /\ NoDup fp' /\ forall i, In i fp' -> (List.length h <= i)%nat.
Proof.
  intros O N C. destruct (copy_deep d (S (List.length h)) v fp [] h O N C) as (v' & memo' & t & fp' & E & O' & N' & G & _).
  - pose proof (small_nodup fp _ N (own_lt _ _ _ _ O)). lia.
  - reflexivity.
  - exists v', t, fp'. split; [|auto]. transitivity ((r <~ (fun h => deep_copy (S (List.length h)) v [] h) ;; mret (fst r)) h); [reflexivity|]. unfold mbind. rewrite E. reflexivity.
Qed.
