(** * Reading a unit, as written: the optional parts and the hot key *)
From Verif Require Import Base PyInt PyFloat PyStr PyStruct DataTypes Versions Common Py Source PyRep PyPure PyPureSim PyW PyR PyRE PyRH PyRA PyRL PyRC PyRP PyRS PyRT Deep.
From Verif Require Import M_Unit PyRK3 PyRK4.
From Coq Require Import String Ascii Lia.
Open Scope Z_scope.
Local Open Scope list_scope.

(** ** Changing an object that was built *)
Lemma inv_open {ee : Era} l h0 d v L hd h : inv l h0 ((d, v) :: L) hd h -> exists fp, own h d v fp /\ NoDup fp /\ (forall i, In i fp -> (List.length h0 <= i < List.length h)%nat) /\
  forall d' v' h' fp', (List.length h <= List.length h')%nat -> own h' d' v' fp' -> NoDup fp' -> (forall i, In i fp' -> In i fp \/ (List.length h <= i < List.length h')%nat) ->
    (forall i, (i < List.length h)%nat -> ~ In i fp -> nth_error h' i = nth_error h i) -> inv l h0 ((d', v') :: L) hd h'.
Proof.
  intros [A B C (fps & O & [N R])]. cbn [map fst snd] in O. inversion O as [|d0 v0 fp l0 vs0 fps0 O1 O2]; subst. cbn [List.concat] in N, R.
  assert (ND : NoDup fp /\ NoDup (List.concat fps0) /\ forall i, In i fp -> ~ In i (List.concat fps0)).
  { clear - N. induction fp as [|x fp IH]; [split; [constructor|split; [exact N|intros i []]]|]. cbn [app] in N. inversion N as [|y z X Y]; subst. destruct (IH Y) as (N1 & N2 & D).
    split; [constructor; [intros I; apply X, in_or_app; left; exact I|exact N1]|]. split; [exact N2|]. intros i [<-|I]; [intros J; apply X, in_or_app; right; exact J|apply D, I]. }
  destruct ND as (N1 & N2 & D). exists fp. split; [exact O1|]. split; [exact N1|]. split; [intros i I; apply R, in_or_app; left; exact I|].
  intros d' v' h' fp' LE O' N' F' K. assert (NI : forall i, (i < List.length h0)%nat -> ~ In i fp) by (intros i I J; specialize (R i ltac:(apply in_or_app; left; exact J)); lia).
  destruct C as [C1 C2]. constructor; [|exact B| |].
  - split; [rewrite K; [exact A|apply (at_lt _ _ _ A)|apply NI, B]|apply (at_fits _ _ _ A)].
  - split; [lia|]. intros i I J. rewrite K; [apply C2; assumption|lia|apply NI, I].
  - exists (fp' :: fps0). cbn [map fst snd]. split.
    + constructor; [exact O'|]. apply (owns_keeps h); [|exact O2]. intros i I. apply K; [specialize (R i ltac:(apply in_or_app; right; exact I)); lia|]. intros J. apply (D i J I).
    + cbn [List.concat]. split.
      * clear O O1 O2 O' NI K. assert (X : forall i, In i fp' -> ~ In i (List.concat fps0)).
        { intros i I J. destruct (F' i I) as [I1|I1]; [apply (D i I1 J)|]. specialize (R i ltac:(apply in_or_app; right; exact J)). lia. }
        clear F'. induction fp' as [|x fp' IH]; [exact N2|]. cbn [app]. inversion N' as [|y z Y Z]; subst. constructor.
        -- intros I. apply in_app_or in I as [I|I]; [apply Y, I|apply (X x (or_introl eq_refl) I)].
        -- apply IH; [exact Z|]. intros i I. apply X. right. exact I.
      * intros i I. apply in_app_or in I as [I|I]; [destruct (F' i I) as [J|J]; [specialize (R i ltac:(apply in_or_app; left; exact J)); lia|lia]|].
        specialize (R i ltac:(apply in_or_app; right; exact I)). lia.
Qed.
Lemma inv_perm {ee : Era} l h0 L L' hd h : Permutation.Permutation L L' -> inv l h0 L hd h -> inv l h0 L' hd h.
Proof. intros P [A B C D]. constructor; [exact A|exact B|exact C|]. apply (held_perm _ _ _ _ P D). Qed.

Lemma ownf_names {ee : Era} h ds vs fps : ownf h ds vs fps -> map fst ds = map fst vs.
Proof. intros O. induction O as [|x d v fp ds vs fps H O IH]; [reflexivity|]. cbn [map fst]. rewrite IH. reflexivity. Qed.
Lemma set_field_out a w vs : ~ In a (map fst vs) -> set_field vs a w = vs.
Proof.
  intros N. induction vs as [|[x v] vs IH]; [reflexivity|]. cbn [set_field map fst] in *. destruct (String.eqb_spec x a) as [->|_]; [destruct N; left; reflexivity|].
  f_equal. apply IH. intros I. apply N. right. exact I.
Qed.
Lemma owns_cons {ee : Era} h d l vs fps : owns h (d :: l) vs fps -> exists v vs' fp fps', vs = v :: vs' /\ fps = fp :: fps' /\ own h d v fp /\ owns h l vs' fps'.
Proof. intros O. inversion O; subst. repeat eexists; eassumption. Qed.
Lemma ownf_cons {ee : Era} h x d l vs fps : ownf h ((x, d) :: l) vs fps -> exists v vs' fp fps', vs = (x, v) :: vs' /\ fps = fp :: fps' /\ own h d v fp /\ ownf h l vs' fps'.
Proof. intros O. inversion O; subst. repeat eexists; eassumption. Qed.
Lemma own_int_inv {ee : Era} h z v fp : own h (DInt z) v fp -> v = PInt z /\ fp = []. Proof. exact (fun H => H). Qed.

(** the fields of a creatable besides the first two *)
Definition creatable_rest (c : Creatable) : list (string * deep) := match Creatable_deep c with DObj _ (_ :: _ :: r) => r | _ => [] end.
Lemma creatable_shape c : Creatable_deep c = DObj "Creatable" (("resource_costs", DTuple (map ResourceCost_deep (Creatable_resource_costs c)))
  :: ("train_locations", DList (map TrainLocation_deep (Creatable_train_locations c))) :: creatable_rest c)%string.
Proof. reflexivity. Qed.
Lemma creatable_rest_set c t : creatable_rest (set_Creatable_train_locations t c) = creatable_rest c. Proof. destruct c. reflexivity. Qed.
Lemma creatable_rest_names c : ~ In "train_locations"%string (map fst (creatable_rest c)).
Proof. cbn. intros I. repeat (destruct I as [I|I]; [discriminate I|]). exact I. Qed.
Lemma set_locations c t : Creatable_train_locations (set_Creatable_train_locations t c) = t /\ Creatable_resource_costs (set_Creatable_train_locations t c) = Creatable_resource_costs c.
Proof. destruct c. split; reflexivity. Qed.
Lemma set_twice c t u : set_Creatable_train_locations u (set_Creatable_train_locations t c) = set_Creatable_train_locations u c. Proof. destruct c. reflexivity. Qed.
(** A creatable in the heap. *)
Lemma own_creatable {ee : Era} h c v fp : own h (Creatable_deep c) v fp -> exists q vr q2 vs rest f1 fls frest, v = PRef q /\
  nth_error h q = Some (OInst "Creatable" (("resource_costs", vr) :: ("train_locations", PRef q2) :: rest))%string /\
  own h (DTuple (map ResourceCost_deep (Creatable_resource_costs c))) vr f1 /\ nth_error h q2 = Some (OList vs) /\
  owns h (map TrainLocation_deep (Creatable_train_locations c)) vs fls /\ ownf h (creatable_rest c) rest frest /\
  fp = q :: f1 ++ (q2 :: List.concat fls) ++ List.concat frest.
Proof.
  rewrite creatable_shape. generalize (creatable_rest c) as r. intros r O. apply own_obj in O as (q & fs & fps & -> & N & -> & O).
  apply ownf_cons in O as (vr & fs1 & f1 & fps1 & -> & -> & O1 & O). apply ownf_cons in O as (vt & rest & ft & frest & -> & -> & Ot & O).
  apply own_list in Ot as (q2 & vs & fls & -> & N2 & -> & Ot). exists q, vr, q2, vs, rest, f1, fls, frest.
  split; [reflexivity|]. split; [exact N|]. split; [exact O1|]. split; [exact N2|]. split; [exact Ot|]. split; [exact O|reflexivity].
Qed.
Lemma creatable_own {ee : Era} h c q vr q2 vs rest f1 fls frest :
  nth_error h q = Some (OInst "Creatable" (("resource_costs", vr) :: ("train_locations", PRef q2) :: rest))%string ->
  own h (DTuple (map ResourceCost_deep (Creatable_resource_costs c))) vr f1 -> nth_error h q2 = Some (OList vs) ->
  owns h (map TrainLocation_deep (Creatable_train_locations c)) vs fls -> ownf h (creatable_rest c) rest frest ->
  own h (Creatable_deep c) (PRef q) (q :: f1 ++ (q2 :: List.concat fls) ++ List.concat frest).
Proof.
  intros N O1 N2 Ot O. rewrite creatable_shape. apply own_obj. eexists q, _, (f1 :: (q2 :: List.concat fls) :: frest). split; [reflexivity|]. split; [exact N|]. split; [reflexivity|].
  constructor; [exact O1|]. constructor; [|exact O]. apply own_list. exists q2, vs, fls. split; [reflexivity|]. split; [exact N2|]. split; [reflexivity|exact Ot].
Qed.
Lemma NoDup_parts {A} (a b : list A) : NoDup (a ++ b) -> NoDup a /\ NoDup b /\ forall i, In i a -> In i b -> False.
Proof.
  induction a as [|x a IH]; intros N; [split; [constructor|split; [exact N|intros i []]]|]. cbn [app] in N. inversion N as [|y z X Y]; subst. destruct (IH Y) as (N1 & N2 & D).
  split; [constructor; [intros I; apply X, in_or_app; left; exact I|exact N1]|]. split; [exact N2|]. intros i [<-|I] J; [apply X, in_or_app; right; exact J|apply (D i I J)].
Qed.
Lemma NoDup_join {A} (a b : list A) : NoDup a -> NoDup b -> (forall i, In i a -> In i b -> False) -> NoDup (a ++ b).
Proof.
  intros N1 N2 D. induction N1 as [|x a X N1 IH]; [exact N2|]. cbn [app]. constructor.
  - intros I. apply in_app_or in I as [I|I]; [apply X, I|apply (D x (or_introl eq_refl) I)].
  - apply IH. intros i I J. apply (D i (or_intror I) J).
Qed.
Lemma inv_pair {ee : Era} l h0 d v e w L hd h : inv l h0 ((d, v) :: (e, w) :: L) hd h -> inv l h0 ((DTuple [d; e], PTuple [v; w]) :: L) hd h.
Proof.
  intros [A B C (fps & O & Se)]. constructor; [exact A|exact B|exact C|]. cbn [map fst snd] in O. apply owns_cons in O as (v' & vs & f & fps1 & E & -> & O1 & O). injection E as <- <-.
  apply owns_cons in O as (w' & vs & g & fps2 & E & -> & O2 & O). injection E as <- <-. exists ((f ++ g) :: fps2). split.
  - constructor; [|exact O]. apply own_tuple. exists [v; w], [f; g]. split; [reflexivity|]. split; [cbn; rewrite app_nil_r; reflexivity|]. repeat (constructor; [assumption|]). constructor.
  - cbn [List.concat] in *. rewrite <- app_assoc. exact Se.
Qed.
Ltac inn := repeat (rewrite ?in_app_iff; cbn [In]); tauto.
(** [creatable.train_locations = w] *)
Lemma adopt {ee : Era} l h0 ts w c v L hd h : inv l h0 ((DList (map TrainLocation_deep ts), w) :: (Creatable_deep c, v) :: L) hd h ->
  exists q fs w0, v = PRef q /\ nth_error h q = Some (OInst "Creatable" fs) /\ assoc "train_locations" fs = Some w0 /\
    inv l h0 ((Creatable_deep (set_Creatable_train_locations ts c), PRef q) :: L) hd (put h q (OInst "Creatable" (set_field fs "train_locations" w)))%string.
Proof.
  intros I. apply inv_pair in I. destruct (inv_open _ _ _ _ _ _ _ I) as (fp & O & N & R & H). clear I.
  apply own_tuple in O as (vs0 & fps0 & E0 & -> & O). injection E0 as <-. apply owns_cons in O as (w' & vs1 & fw & fps1 & E1 & -> & Ow & O). injection E1 as <- <-.
  apply owns_cons in O as (v' & vs1 & fc & fps2 & E1 & -> & Oc & O). injection E1 as <- <-. inversion O; subst; clear O.
  apply own_creatable in Oc as (q & vr & q2 & vs & rest & f1 & fls & frest & -> & NQ & O1 & NL & Ol & Or & ->).
  exists q, (("resource_costs", vr) :: ("train_locations", PRef q2) :: rest)%string, (PRef q2). split; [reflexivity|]. split; [exact NQ|]. split; [reflexivity|].
  assert (LQ : (q < List.length h)%nat) by (apply (nth_lt _ _ _ NQ)).
  assert (SF : (set_field (("resource_costs", vr) :: ("train_locations", PRef q2) :: rest) "train_locations" w = (("resource_costs", vr) :: ("train_locations", w) :: rest))%string).
  { cbn [set_field map fst String.eqb Ascii.eqb Bool.eqb]. do 2 f_equal. apply set_field_out. rewrite <- (ownf_names _ _ _ _ Or). apply creatable_rest_names. }
  rewrite SF. set (h' := put h q _).
  cbn [List.concat] in N, R, H. rewrite app_nil_r in N, R, H. apply NoDup_parts in N as (Nw & Nc & Dwc). inversion Nc as [|y z Q1 Nc1]; subst.
  apply NoDup_parts in Nc1 as (N1 & Nc2 & D1). change (NoDup ((q2 :: List.concat fls) ++ List.concat frest)) in Nc2. apply NoDup_parts in Nc2 as (Nl & Nr & Dl).
  assert (KP : forall fp, ~ In q fp -> keeps fp h h') by (intros fp NI i Ii; apply put_other; intros ->; apply NI, Ii).
  assert (Qw : ~ In q fw) by (intros J; apply (Dwc q J); left; reflexivity).
  apply own_list in Ow as (qw & vw & fws & -> & NW & -> & Ow).
  apply (H _ _ _ (q :: f1 ++ (qw :: List.concat fws) ++ List.concat frest)).
  - unfold h'. rewrite put_length. lia.
  - destruct (set_locations c ts) as [E1 E2]. eapply (creatable_own h' _ q vr qw vw rest f1 fws frest).
    + unfold h'. apply put_same, LQ.
    + rewrite E2. apply (own_keeps h); [apply KP|exact O1]. intros J. apply Q1; inn.
    + unfold h'. rewrite put_other; [exact NW|]. intros ->. apply Qw. left. reflexivity.
    + rewrite E1. apply (owns_keeps h); [apply KP|exact Ow]. intros J. apply Qw. right. exact J.
    + rewrite creatable_rest_set. apply (ownf_keeps h); [exact Or|]. apply KP. intros J. apply Q1. inn.
  - constructor.
    + intros J. apply in_app_or in J as [J|J]; [apply Q1; inn|]. apply in_app_or in J as [J|J]; [apply Qw, J|]. apply Q1. inn.
    + apply NoDup_join; [exact N1| |].
      * apply NoDup_join; [exact Nw|exact Nr|]. intros i J K. apply (Dwc i J). inn.
      * intros i J K. apply in_app_or in K as [K|K]; [apply (Dwc i K); right; apply in_or_app; left; exact J|]. apply (D1 i J). inn.
  - intros i J. left. destruct J as [<-|J]; [apply in_or_app; right; left; reflexivity|]. apply in_app_or in J as [J|J]; [apply in_or_app; right; right; apply in_or_app; left; exact J|].
    apply in_app_or in J as [J|J]; [apply in_or_app; left; exact J|]. apply in_or_app. right. inn.
  - intros i J K. unfold h'. apply put_other. intros ->. apply K. inn.
Qed.
(** The first of the train locations, and [creatable.train_locations[0].hot_key_id = k]. *)
Lemma first_location {ee : Era} l h0 c t ts v L hd h : inv l h0 ((Creatable_deep c, v) :: L) hd h -> Creatable_train_locations c = t :: ts ->
  exists q fs q2 q3 vs fs3, v = PRef q /\ nth_error h q = Some (OInst "Creatable" fs) /\ assoc "train_locations" fs = Some (PRef q2) /\
    nth_error h q2 = Some (OList (PRef q3 :: vs)) /\ nth_error h q3 = Some (OInst "TrainLocation" fs3) /\ assoc "hot_key_id" fs3 = Some (PInt (TrainLocation_hot_key_id t)) /\
    forall k, inv l h0 ((Creatable_deep (set_Creatable_train_locations (set_TrainLocation_hot_key_id k t :: ts) c), v) :: L) hd
      (put h q3 (OInst "TrainLocation" (set_field fs3 "hot_key_id" (PInt k))))%string.
Proof.
  intros I E. destruct (inv_open _ _ _ _ _ _ _ I) as (fp & O & N & R & H). clear I.
  apply own_creatable in O as (q & vr & q2 & vs0 & rest & f1 & fls0 & frest & -> & NQ & O1 & NL & Ol & Or & ->).
  rewrite E in Ol. cbn [map] in Ol. apply owns_cons in Ol as (vt & vs & ft & fls & -> & -> & Ot & Ol).
  apply own_obj in Ot as (q3 & fs3 & fps3 & -> & N3 & -> & Ot).
  apply ownf_cons in Ot as (v1 & fs31 & g1 & fps31 & -> & -> & P1 & Ot). apply own_int_inv in P1 as [-> ->].
  apply ownf_cons in Ot as (v2 & fs32 & g2 & fps32 & -> & -> & P2 & Ot). apply own_int_inv in P2 as [-> ->].
  apply ownf_cons in Ot as (v3 & fs33 & g3 & fps33 & -> & -> & P3 & Ot). apply own_int_inv in P3 as [-> ->].
  apply ownf_cons in Ot as (v4 & fs34 & g4 & fps34 & -> & -> & P4 & Ot). apply own_int_inv in P4 as [-> ->]. inversion Ot; subst; clear Ot.
  eexists q, _, q2, q3, vs, _. split; [reflexivity|]. split; [exact NQ|]. split; [reflexivity|]. split; [exact NL|]. split; [exact N3|]. split; [reflexivity|]. intros k.
  cbn [set_field map fst String.eqb Ascii.eqb Bool.eqb]. set (h' := put h q3 _). cbn [List.concat app] in N, R, H.
  assert (L3 : (q3 < List.length h)%nat) by (apply (nth_lt _ _ _ N3)).
  inversion N as [|y z Q1 N']; subst. apply NoDup_parts in N' as (NF1 & N' & D1). inversion N' as [|y z Q2 N'']; subst. inversion N'' as [|y z Q3 N3']; subst.
  assert (KP : forall fp, ~ In q3 fp -> keeps fp h h') by (intros fp NI i Ii; apply put_other; intros ->; apply NI, Ii).
  apply (H _ _ _ (q :: f1 ++ (q2 :: List.concat ([q3] :: fls)) ++ List.concat frest)).
  - unfold h'. rewrite put_length. lia.
  - destruct (set_locations c (set_TrainLocation_hot_key_id k t :: ts)) as [E1 E2]. eapply (creatable_own h' _ q vr q2 (PRef q3 :: vs) rest f1 ([q3] :: fls) frest).
    + unfold h'. rewrite put_other; [exact NQ|]. intros ->. apply Q1. inn.
    + rewrite E2. apply (own_keeps h); [apply KP|exact O1]. intros J. apply (D1 _ J). right. left. reflexivity.
    + unfold h'. rewrite put_other; [exact NL|]. intros ->. apply Q2. left. reflexivity.
    + rewrite E1. cbn [map]. constructor.
      * apply own_obj. eexists q3, _, [[]; []; []; []]. split; [reflexivity|]. split; [unfold h'; apply put_same, L3|]. split; [reflexivity|].
        destruct t as [t1 t2 t3 t4]. repeat (constructor; [split; reflexivity|]). constructor.
      * apply (owns_keeps h); [apply KP|exact Ol]. intros J. apply Q3, in_or_app. left. exact J.
    + rewrite creatable_rest_set. apply (ownf_keeps h); [exact Or|]. apply KP. intros J. apply Q3, in_or_app. right. exact J.
  - exact N.
  - intros i J. left. exact J.
  - intros i J K. unfold h'. apply put_other. intros ->. apply K. inn.
Qed.
Lemma some_locations {ee : Era} l h0 c v L hd h : inv l h0 ((Creatable_deep c, v) :: L) hd h -> exists q fs q2 vs, v = PRef q /\
  nth_error h q = Some (OInst "Creatable" fs) /\ assoc "train_locations" fs = Some (PRef q2) /\ nth_error h q2 = Some (OList vs) /\
  nonempty vs = nonempty (Creatable_train_locations c).
Proof.
  intros I. destruct (inv_open _ _ _ _ _ _ _ I) as (fp & O & _). apply own_creatable in O as (q & vr & q2 & vs & rest & f1 & fls & frest & -> & NQ & O1 & NL & Ol & Or & _).
  eexists q, _, q2, vs. split; [reflexivity|]. split; [exact NQ|]. split; [reflexivity|]. split; [exact NL|].
  destruct (Creatable_train_locations c); inversion Ol; subst; reflexivity.
Qed.
Section Hot.
Variables (n : nat) (md : string).
Notation ev := (eval source (call source n) md).
Lemma e_field en x q c fs a w h : assoc x en = Some (PRef q) -> nth_error h q = Some (OInst c fs) -> assoc a fs = Some w -> ev en (EAttr (EName x) a) h = Ret (w, h).
Proof.
  intros A Q F. change (ev en (EAttr (EName x) a) h) with ((o <~ ev en (EName x) ;; attr source (call source n) o a) h).
  rewrite (mbind_ret _ _ _ _ _ (p_name n md _ _ _ A h)). unfold attr, mbind, get_obj. rewrite Q. cbn [mopt]. unfold mret. rewrite F. reflexivity.
Qed.
Lemma e_first en e q2 w vs h : ev en e h = Ret (PRef q2, h) -> nth_error h q2 = Some (OList (w :: vs)) -> ev en (EIndex e (EConst (KInt 0))) h = Ret (w, h).
Proof.
  intros E Q. change (ev en (EIndex e (EConst (KInt 0))) h) with ((v <~ ev en e ;; i <~ mret (PInt 0) ;; get_item v i) h).
  rewrite (mbind_ret _ _ _ _ _ E). unfold mbind at 1, mret at 1. unfold get_item, mbind, get_obj. rewrite Q. reflexivity.
Qed.
Lemma true_list q vs h : nth_error h q = Some (OList vs) -> is_true (PRef q) h = Ret (nonempty vs, h).
Proof. intros Q. unfold is_true, mbind, get_obj. rewrite Q. reflexivity. Qed.
Lemma true_inst q c fs h : nth_error h q = Some (OInst c fs) -> is_true (PRef q) h = Ret (true, h).
Proof. intros Q. unfold is_true, mbind, get_obj. rewrite Q. reflexivity. Qed.
Lemma set_run q c fs a w v h : nth_error h q = Some (OInst c fs) -> assoc a fs = Some w -> set_attr source (PRef q) a v h = Ret (tt, put h q (OInst c (set_field fs a v))).
Proof. intros Q F. unfold set_attr, mbind, get_obj. rewrite Q. cbn [mopt]. unfold mret. rewrite F. reflexivity. Qed.
End Hot.
(** ** The hot key *)
(** unit.py:1258-1262 *)
Definition hot_84 : stmt :=
  SIf (EName "creatable") [
    SIf (ENot (EAttr (EName "creatable") "train_locations")) [
      SSetAttr (EName "creatable") "train_locations" (EList [(ECall (EName "TrainLocation") [EKw "train_time" (EConst (KInt 0)); EKw "unit_id" (ENeg (EConst (KInt 1))); EKw "button_id" (EConst (KInt 0)); EKw "hot_key_id" (EConst (KInt 16000))])])] [];
    SSetAttr (EIndex (EAttr (EName "creatable") "train_locations") (EConst (KInt 0))) "hot_key_id" (EName "hot_key")] [].
(** unit.py:1451-1452 *)
Definition hot_88 : stmt :=
  SIf (EAnd (EName "creatable") (EAttr (EName "creatable") "train_locations")) [
    SAssign "hot_key" (EAttr (EIndex (EAttr (EName "creatable") "train_locations") (EConst (KInt 0))) "hot_key_id")] [].
Lemma run_set_ret n md en o a e v w h h' rest : eval source (call source n) md en e h = Ret (v, h) -> eval source (call source n) md en o h = Ret (w, h) ->
  set_attr source w a v h = Ret (tt, h') -> run n md (SSetAttr o a e :: rest) en h = run n md rest en h'.
Proof. intros E O S. rewrite run_set. rewrite (mbind_ret _ _ _ _ _ E), (mbind_ret _ _ _ _ _ O), (mbind_ret _ _ _ _ _ S). reflexivity. Qed.
Lemma hot_84_run {ee : Era} {B} n l h0 L hd h en en0 v hk o (g : option Creatable -> rd B) (Q : heap -> B -> val -> Prop) rest : (1 <= n)%nat -> same_env en en0 ->
  assoc "creatable" en0 = Some v -> assoc "hot_key" en0 = Some (PInt hk) -> assoc "TrainLocation" en0 = None ->
  inv l h0 ((emb_opt Creatable_deep o, v) :: L) hd h ->
  (forall o' h', inv l h0 ((emb_opt Creatable_deep o', v) :: L) hd h' -> ok l Q (run n "unit" rest en h') (g o' hd)) ->
  ok l Q (run n "unit" (hot_84 :: rest) en h) (bind (lift
      (match o with
       | Some c =>
           let c := if nonempty (Creatable_train_locations c) then c
                    else set_Creatable_train_locations
                           [{| TrainLocation_train_time := 0; TrainLocation_unit_id := (-1);
                               TrainLocation_button_id := 0; TrainLocation_hot_key_id := 16000 |}] c in
           first <-- py_index (Creatable_train_locations c) 0 ;;;
           Ok (Some (set_Creatable_train_locations
                       (set_TrainLocation_hot_key_id hk first :: tl (Creatable_train_locations c)) c))
       | None => Ok None
       end)) g hd).
Proof.
  intros N SE Ac Ah At I H. unfold hot_84. rewrite run_if. rewrite <- SE in Ac, Ah, At. rewrite (mbind_ret _ _ _ _ _ (p_name n "unit" _ _ _ Ac h)).
  destruct o as [c|]; cbn [emb_opt] in I.
  2:{ assert (V : v = PNone) by (destruct (i_held _ _ _ _ _ I) as (fps & O & _); cbn [map fst snd] in O; inversion O as [|? ? ? ? ? ? X]; subst; apply X).
      subst v. erewrite (mbind_ret _ _ h); [|reflexivity]. cbn [app]. eapply ok_ghost; [reflexivity|]. apply H. exact I. }
  destruct (some_locations _ _ _ _ _ _ _ I) as (q & fs & q2 & vs & -> & NQ & AQ & NL & NE). rewrite (mbind_ret _ _ _ _ _ (true_inst _ _ _ _ NQ)). cbn [app].
  (* after the first statement the list is not empty *)
  assert (G : forall c t ts h, inv l h0 ((Creatable_deep c, PRef q) :: L) hd h -> Creatable_train_locations c = t :: ts ->
    ok l Q (run n "unit" (SSetAttr (EIndex (EAttr (EName "creatable") "train_locations") (EConst (KInt 0))) "hot_key_id" (EName "hot_key") :: rest) en h)
      (g (Some (set_Creatable_train_locations (set_TrainLocation_hot_key_id hk t :: ts) c)) hd)).
  { clear c h I NQ AQ NL NE fs q2 vs. intros c t ts h I E. destruct (first_location _ _ _ _ _ _ _ _ _ I E) as (q' & fs & q2 & q3 & vs & fs3 & V & NQ & AQ & NL & N3 & A3 & U). injection V as <-.
    erewrite run_set_ret; [|apply p_name; exact Ah|eapply e_first; [eapply e_field; eassumption|exact NL]|eapply set_run; eassumption]. apply H. apply U. }
  cbn zeta. rewrite run_if.
  assert (EN : eval source (call source n) "unit" en (ENot (EAttr (EName "creatable") "train_locations")) h = Ret (PBool (negb (nonempty vs)), h)).
  { change (eval source (call source n) "unit" en (ENot (EAttr (EName "creatable") "train_locations")) h) with
      ((v <~ eval source (call source n) "unit" en (EAttr (EName "creatable") "train_locations") ;; b <~ is_true v ;; mret (PBool (negb b))) h).
    erewrite (mbind_ret _ _ h); [|eapply e_field; eassumption]. rewrite (mbind_ret _ _ _ _ _ (true_list _ _ _ NL)). reflexivity. }
  rewrite (mbind_ret _ _ _ _ _ EN). erewrite (mbind_ret _ _ h); [|reflexivity]. rewrite NE.
  destruct (Creatable_train_locations c) as [|t ts] eqn:E; cbn [nonempty negb app].
  - rewrite run_set. set (t0 := {| TrainLocation_train_time := 0; TrainLocation_unit_id := -1; TrainLocation_button_id := 0; TrainLocation_hot_key_id := 16000 |}).
    destruct (set_locations c [t0]) as [E1 _]. eapply ok_ghost; [rewrite E1; reflexivity|]. cbv beta.
    eapply (s_new_list n "unit" l h0 _ hd h en "TrainLocation" src_TrainLocation _ _ _ _ (g _)); [exact N|exact At|look|look|reflexivity|pargs_|reflexivity|reflexivity|exact I|repeat (eapply t_scalar; [intros; apply own_int|]); apply t_nil|].
    intros w h1 I1. rewrite (mbind_ret _ _ _ _ _ (p_name n "unit" _ _ _ Ac h1)).
    destruct (adopt l h0 [t0] w c (PRef q) L hd h1 I1) as (q' & fs' & w0 & V & NQ' & AQ' & I2). injection V as <-.
    rewrite (mbind_ret _ _ _ _ _ (set_run _ _ _ _ _ w _ NQ' AQ')). rewrite <- set_twice with (t := [t0]). eapply (G _ t0 []); [exact I2|exact E1].
  - rewrite E. eapply ok_ghost; [reflexivity|]. cbv beta. cbn [tl]. apply G; assumption.
Qed.
Lemma hot_88_run {ee : Era} {B} n l h0 L hd h en en0 v hk o (g : Z -> rd B) (Q : heap -> B -> val -> Prop) rest : same_env en en0 ->
  assoc "creatable" en0 = Some v -> assoc "hot_key" en0 = Some (PInt hk) ->
  inv l h0 ((emb_opt Creatable_deep o, v) :: L) hd h ->
  (forall k en', same_env en' (("hot_key"%string, PInt k) :: en0) -> ok l Q (run n "unit" rest en' h) (g k hd)) ->
  ok l Q (run n "unit" (hot_88 :: rest) en h) (bind (lift
      (match o with
       | Some c =>
           if nonempty (Creatable_train_locations c)
           then first <-- py_index (Creatable_train_locations c) 0 ;;; Ok (TrainLocation_hot_key_id first)
           else Ok hk
       | None => Ok hk
       end)) g hd).
Proof.
  intros SE Ac Ah I H. unfold hot_88. rewrite run_if. pose proof Ac as Ac0. rewrite <- SE in Ac.
  assert (K0 : same_env en (("hot_key"%string, PInt hk) :: en0)).
  { intros x. rewrite SE. cbn [assoc]. destruct (String.eqb_spec x "hot_key") as [->|_]; [exact Ah|reflexivity]. }
  assert (EA : forall h, eval source (call source n) "unit" en (EAnd (EName "creatable") (EAttr (EName "creatable") "train_locations")) h =
    (x <~ eval source (call source n) "unit" en (EName "creatable") ;; t <~ is_true x ;; if t then eval source (call source n) "unit" en (EAttr (EName "creatable") "train_locations") else mret x) h) by reflexivity.
  destruct o as [c|]; cbn [emb_opt] in I.
  2:{ assert (V : v = PNone) by (destruct (i_held _ _ _ _ _ I) as (fps & O & _); cbn [map fst snd] in O; inversion O as [|? ? ? ? ? ? X]; subst; apply X).
      subst v. erewrite (mbind_ret _ _ h); [|rewrite EA; rewrite (mbind_ret _ _ _ _ _ (p_name n "unit" _ _ _ Ac h)); reflexivity].
      erewrite (mbind_ret _ _ h); [|reflexivity]. cbn [app]. eapply ok_ghost; [reflexivity|]. apply H. exact K0. }
  destruct (some_locations _ _ _ _ _ _ _ I) as (q & fs & q2 & vs & -> & NQ & AQ & NL & NE).
  assert (E1 : eval source (call source n) "unit" en (EAnd (EName "creatable") (EAttr (EName "creatable") "train_locations")) h = Ret (PRef q2, h)).
  { rewrite EA. rewrite (mbind_ret _ _ _ _ _ (p_name n "unit" _ _ _ Ac h)). rewrite (mbind_ret _ _ _ _ _ (true_inst _ _ _ _ NQ)). eapply e_field; eassumption. }
  rewrite (mbind_ret _ _ _ _ _ E1). rewrite (mbind_ret _ _ _ _ _ (true_list _ _ _ NL)). rewrite NE.
  destruct (Creatable_train_locations c) as [|t ts] eqn:E; cbn [nonempty app].
  - eapply ok_ghost; [reflexivity|]. apply H. exact K0.
  - destruct (first_location _ _ _ _ _ _ _ _ _ I E) as (q' & fs' & q2' & q3 & vs' & fs3 & V & NQ' & AQ' & NL' & N3 & A3 & _). injection V as <-.
    eapply ok_ghost; [reflexivity|]. cbv beta. rewrite run_assign.
    assert (EF : eval source (call source n) "unit" en (EAttr (EIndex (EAttr (EName "creatable") "train_locations") (EConst (KInt 0))) "hot_key_id") h = Ret (PInt (TrainLocation_hot_key_id t), h)).
    { change (eval source (call source n) "unit" en (EAttr (EIndex (EAttr (EName "creatable") "train_locations") (EConst (KInt 0))) "hot_key_id") h) with
        ((o <~ eval source (call source n) "unit" en (EIndex (EAttr (EName "creatable") "train_locations") (EConst (KInt 0))) ;; attr source (call source n) o "hot_key_id") h).
      erewrite (mbind_ret _ _ h); [|eapply e_first; [eapply e_field; eassumption|exact NL']]. unfold attr, mbind, get_obj. rewrite N3. cbn [mopt]. unfold mret. rewrite A3. reflexivity. }
    rewrite (mbind_ret _ _ _ _ _ EF). apply H. intros x. cbn [assoc]. destruct (String.eqb x "hot_key"); [reflexivity|apply SE].
Qed.
(** ** The parts of a unit that depend on its type *)
Lemma inv_scalar {ee : Era} l h0 d v L hd h : (forall h, own h d v []) -> inv l h0 L hd h -> inv l h0 ((d, v) :: L) hd h.
Proof. intros O [A B C (fps & Os & Se)]. constructor; [exact A|exact B|exact C|]. exists ([] :: fps). split; [constructor; [apply O|exact Os]|exact Se]. Qed.
Lemma c_UnitType : class_of source "UnitType" = Some src_UnitType. Proof. look. Qed.
Lemma e_unit_type n en o t a z : assoc "type_" en = Some (PInt t) -> assoc "UnitType" en = None -> assoc a (c_members src_UnitType) = Some (KInt z) ->
  forall r, (o = CGe /\ r = (z <=? t) \/ o = CEq /\ r = (t =? z) \/ o = CNe /\ r = negb (t =? z)) ->
  pure n "unit" en (ECmp o (EName "type_") (EAttr (EName "UnitType") a)) (PBool r).
Proof.
  intros A U M r R h.
  assert (P : pure n "unit" en (EAttr (EName "UnitType") a) (PInt z)).
  { intros h1. change (eval source (call source n) "unit" en (EAttr (EName "UnitType") a) h1) with ((o <~ eval source (call source n) "unit" en (EName "UnitType") ;; attr source (call source n) o a) h1).
    assert (G : pure n "unit" en (EName "UnitType") (PClass "UnitType")) by (apply p_global; [exact U|look]).
    rewrite (mbind_ret _ _ _ _ _ (G h1)). unfold attr. rewrite c_UnitType, M. reflexivity. }
  change (eval source (call source n) "unit" en (ECmp o (EName "type_") (EAttr (EName "UnitType") a)) h) with
    ((x <~ eval source (call source n) "unit" en (EName "type_") ;; y <~ eval source (call source n) "unit" en (EAttr (EName "UnitType") a) ;; Py.compare (call source n) o x y) h).
  rewrite (mbind_ret _ _ _ _ _ (p_name n "unit" _ _ _ A h)). rewrite (mbind_ret _ _ _ _ _ (P h)).
  destruct R as [[-> ->]|[[-> ->]|[-> ->]]]; cbn [Py.compare as_number num_cmp holds]; unfold mret; do 3 f_equal.
  - rewrite Z.leb_compare, (Z.compare_antisym z t). destruct (z ?= t); reflexivity.
  - rewrite Z.eqb_compare. destruct (t ?= z); reflexivity.
  - rewrite Z.eqb_compare. destruct (t ?= z); reflexivity.
Qed.
Lemma same_add x v en en0 : same_env en en0 -> same_env ((x, v) :: en) ((x, v) :: en0).
Proof. intros S y. cbn [assoc]. destruct (String.eqb y x); [reflexivity|apply S]. Qed.
Lemma same_keep x v en en0 : same_env en en0 -> assoc x en0 = Some v -> same_env en ((x, v) :: en0).
Proof. intros S A y. cbn [assoc]. rewrite S. destruct (String.eqb_spec y x) as [->|_]; [exact A|reflexivity]. Qed.
Lemma s_opt {ee : Era} {A B} n l h0 L hd h en en0 x cn cond r k (f : rd A) D (g : option A -> rd B) (Q : heap -> B -> val -> Prop) rest : 
  same_env en en0 -> pure n "unit" en cond (PBool r) -> assoc x en0 = Some PNone -> assoc "content" en0 = Some (PRef l) ->
  (forall en, assoc cn en = None -> pure n "unit" en (EName cn) (PClass cn)) -> assoc cn en0 = None -> reader cn "from_bytes" -> reads k cn "from_bytes" [] f D -> (1 <= k)%nat -> (S k <= n)%nat ->
  inv l h0 L hd h ->
  (forall o v en' hd' h', same_env en' ((x, v) :: en0) -> inv l h0 ((emb_opt D o, v) :: L) hd' h' -> ok l Q (run n "unit" rest en' h') (g o hd')) ->
  ok l Q (run n "unit" (SIf cond [SAssign x (ECall (EAttr (EName "content") "read_class") [EName cn])] [] :: rest) en h)
    (bind (if r then bind (read_class f) (fun b => ret (Some b)) else ret None) g hd).
Proof.
  intros SE P AX AC PC AN R RD K1 N I H. erewrite run_if_pure; [|exact P|reflexivity]. destruct r; cbn [app].
  - rewrite bind_assoc. rewrite run_assign. eapply s_build; [rewrite SE; exact AC|exact I|reflexivity|reflexivity|apply pa_pos; [reflexivity|apply PC; rewrite SE; exact AN|apply pa_nil]|apply (class_run k cn f D RD R K1)|exact N|].
    intros b v hd' h' I'. eapply ok_ghost; [reflexivity|]. apply (H (Some b) v); [apply same_add, SE|exact I'].
  - eapply ok_ghost; [reflexivity|]. apply (H None PNone); [apply same_keep; assumption|]. apply inv_scalar; [apply own_none|exact I].
Qed.

(** unit.py:1231-1256 and 1424-1449 *)
Definition parts_84 : stmt :=
  SIf (ECmp CNe (EName "type_") (EAttr (EName "UnitType") "AoeTrees")) [
    SIf (ECmp CGe (EName "type_") (EAttr (EName "UnitType") "Flag")) [
      SAssign "speed" (ECall (EAttr (EName "content") "read_float") []);
      SIf (ECmp CGe (EName "type_") (EAttr (EName "UnitType") "DeadFish")) [
        SAssign "dead_fish" (ECall (EAttr (EName "content") "read_class") [(EName "DeadFish")])] [];
      SIf (ECmp CGe (EName "type_") (EAttr (EName "UnitType") "Bird")) [
        SAssign "bird" (ECall (EAttr (EName "content") "read_class") [(EName "Bird")])] [];
      SIf (ECmp CGe (EName "type_") (EAttr (EName "UnitType") "Combatant")) [
        SAssign "type_50" (ECall (EAttr (EName "content") "read_class") [(EName "Type50")])] [];
      SIf (ECmp CEq (EName "type_") (EAttr (EName "UnitType") "Projectile")) [
        SAssign "projectile" (ECall (EAttr (EName "content") "read_class") [(EName "Projectile")])] [];
      SIf (ECmp CGe (EName "type_") (EAttr (EName "UnitType") "Creatable")) [
        SAssign "creatable" (ECall (EAttr (EName "content") "read_class") [(EName "Creatable")])] [];
      SIf (ECmp CEq (EName "type_") (EAttr (EName "UnitType") "Building")) [
        SAssign "building" (ECall (EAttr (EName "content") "read_class") [(EName "Building")])] []] []] [].
Definition none_parts : option f64 * option DeadFish * option Bird * option Type50 * option Projectile * option Creatable * option Building := (None, None, None, None, None, None, None).
Definition parts_rd (type_ : Z) : rd (option f64 * option DeadFish * option Bird * option Type50 * option Projectile * option Creatable * option Building) :=
    let speed : option f64 := None in
    let dead_fish : option DeadFish := None in
    let bird : option Bird := None in
    let type_50 : option Type50 := None in
    let projectile : option Projectile := None in
    let creatable : option Creatable := None in
    let building : option Building := None in
      (if negb (type_ =? UnitType_AoeTrees) then
        '(speed, dead_fish, bird, type_50, projectile, creatable, building) <-
          (if UnitType_Flag <=? type_ then
            speed <- read_float ;;
            let speed := Some speed in
            dead_fish <-
              (if UnitType_DeadFish <=? type_ then
                dead_fish <- read_class DeadFish_from_bytes ;;
                let dead_fish := Some dead_fish in
                ret dead_fish
               else ret dead_fish) ;;
            bird <-
              (if UnitType_Bird <=? type_ then
                bird <- read_class Bird_from_bytes ;;
                let bird := Some bird in
                ret bird
               else ret bird) ;;
            type_50 <-
              (if UnitType_Combatant <=? type_ then
                type_50 <- read_class Type50_from_bytes ;;
                let type_50 := Some type_50 in
                ret type_50
               else ret type_50) ;;
            projectile <-
              (if type_ =? UnitType_Projectile then
                projectile <- read_class Projectile_from_bytes ;;
                let projectile := Some projectile in
                ret projectile
               else ret projectile) ;;
            creatable <-
              (if UnitType_Creatable <=? type_ then
                creatable <- read_class Creatable_from_bytes ;;
                let creatable := Some creatable in
                ret creatable
               else ret creatable) ;;
            building <-
              (if type_ =? UnitType_Building then
                building <- read_class Building_from_bytes ;;
                let building := Some building in
                ret building
               else ret building) ;;
            ret (speed, dead_fish, bird, type_50, projectile, creatable, building)
           else ret (speed, dead_fish, bird, type_50, projectile, creatable, building)) ;;
        ret (speed, dead_fish, bird, type_50, projectile, creatable, building)
       else ret (speed, dead_fish, bird, type_50, projectile, creatable, building)).
Ltac asc_ := cbn [assoc String.eqb Ascii.eqb Bool.eqb]; eassumption.
Ltac opt_ := rewrite ?bind_assoc; match goal with SE : same_env ?en _, I : inv _ _ _ ?hd ?h |- ok _ _ (run _ _ _ ?en ?h) _ =>
  eapply s_opt; [exact SE|eapply e_unit_type; [rewrite SE; asc_|rewrite SE; asc_|reflexivity|first [left; split; reflexivity|right; left; split; reflexivity]]
    |asc_|asc_|intros; first [apply p_global; [assumption|look] | apply p_imported; [assumption|look|look]]|asc_|rdr|rdr|lia|lia|exact I|
     clear I SE; let SE := fresh "SE" in let I := fresh "I" in intros ? ? ? ? ? SE I; cbv beta] end.
Lemma parts_run {ee : Era} {B} n l h0 L hd h en en0 t (g : _ -> rd B) (Q : heap -> B -> val -> Prop) rest : (11 <= n)%nat -> same_env en en0 ->
  assoc "type_" en0 = Some (PInt t) -> assoc "UnitType" en0 = None -> assoc "content" en0 = Some (PRef l) ->
  assoc "speed" en0 = Some PNone -> assoc "dead_fish" en0 = Some PNone -> assoc "bird" en0 = Some PNone -> assoc "type_50" en0 = Some PNone ->
  assoc "projectile" en0 = Some PNone -> assoc "creatable" en0 = Some PNone -> assoc "building" en0 = Some PNone ->
  assoc "DeadFish" en0 = None -> assoc "Bird" en0 = None -> assoc "Type50" en0 = None -> assoc "Projectile" en0 = None -> assoc "Creatable" en0 = None -> assoc "Building" en0 = None ->
  inv l h0 L hd h ->
  (forall s d b t5 p c bu vs vd vb vt vp vc vu en' hd' h',
     same_env en' (("building", vu) :: ("creatable", vc) :: ("projectile", vp) :: ("type_50", vt) :: ("bird", vb) :: ("dead_fish", vd) :: ("speed", vs) :: en0)%string ->
     inv l h0 ((emb_opt Building_deep bu, vu) :: (emb_opt Creatable_deep c, vc) :: (emb_opt Projectile_deep p, vp) :: (emb_opt Type50_deep t5, vt) ::
               (emb_opt Bird_deep b, vb) :: (emb_opt DeadFish_deep d, vd) :: (emb_opt DFloat s, vs) :: L) hd' h' ->
     ok l Q (run n "unit" rest en' h') (g (s, d, b, t5, p, c, bu) hd')) ->
  ok l Q (run n "unit" (parts_84 :: rest) en h) (bind (parts_rd t) g hd).
Proof.
  intros N SE At AU Ac As Ad Ab A5 Ap Acr Abu D1 D2 D3 D4 D5 D6 I H.
  assert (HN : ok l Q (run n "unit" rest en h) (g none_parts hd)).
  { apply (H None None None None None None None PNone PNone PNone PNone PNone PNone PNone).
    - repeat (apply same_keep; [|cbn [assoc String.eqb Ascii.eqb Bool.eqb]; assumption]). exact SE.
    - repeat (apply inv_scalar; [apply own_none|]). exact I. }
  unfold parts_84, parts_rd. cbv zeta.
  erewrite run_if_pure; [|eapply e_unit_type; [rewrite SE; exact At|rewrite SE; exact AU|reflexivity|right; right; split; reflexivity]|reflexivity].
  change UnitType_AoeTrees with 90. destruct (negb (t =? 90)); cbn [app]; [|eapply ok_ghost; [reflexivity|]; exact HN].
  rewrite bind_assoc.
  erewrite run_if_pure; [|eapply e_unit_type; [rewrite SE; exact At|rewrite SE; exact AU|reflexivity|left; split; reflexivity]|reflexivity].
  change UnitType_Flag with 20. destruct (20 <=? t); cbn [app]; [|eapply ok_ghost; [reflexivity|]; cbv beta iota; eapply ok_ghost; [reflexivity|]; exact HN].
  clear HN. rewrite bind_assoc. rewrite run_assign.
  eapply s_scalar; [rewrite SE; exact Ac|exact I|reflexivity|reflexivity|apply pa_nil|apply float_run|lia|]. rename SE into SE0. clear I hd h. intros s hd h I. cbv beta.
  apply (inv_scalar l h0 (emb_opt DFloat (Some s)) (PFloat s)) in I; [|intros h1; apply own_float].
  match goal with |- ok _ _ (run _ _ _ ?e _) _ => assert (SE : same_env e (("speed"%string, PFloat s) :: en0)) by (apply same_add; exact SE0) end. clear SE0.
  do 6 opt_.
  eapply ok_ghost; [reflexivity|]. cbv beta iota. eapply ok_ghost; [reflexivity|]. eapply H; [exact SE|exact I].
Qed.
