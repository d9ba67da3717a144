(** * Reading a civilization and the whole file, as written *)
From Verif Require Import Base PyInt PyFloat PyStr PyStruct DataTypes Versions Common Py Source PyRep PyPure PyPureSim PyW PyR PyRE PyRH PyRA PyRL PyRC PyRP PyRS PyRT Deep PyWD.
From Verif Require Import M_Unit M_Civ M_DatFile PyRK1 PyRK2 PyRK3 PyRK4 PyRU PyRV.
From Coq Require Import String Ascii Lia Permutation.
Open Scope Z_scope.
Local Open Scope list_scope.

Lemma owns_ints {ee : Era} h l : forall vs fps, owns h (map DInt l) vs fps -> vs = map PInt l.
Proof.
  induction l as [|z l IH]; intros vs fps O; cbn [map] in O.
  - inversion O; reflexivity.
  - apply owns_cons in O as (v & vs' & fp & fps' & -> & -> & [-> _] & O). rewrite (IH _ _ O). reflexivity.
Qed.
(** [x = content.read_class_array_with_pointers(C, size, pointers)] *)
Lemma s_pointers {ee : Era} {A B C} n md l h0 en L L' hd h i ptrs v size k cn (f : rd A) D (g : list (option A) -> rd B) (Q : heap -> B -> C -> Prop) (K : val -> M C) args :
  assoc "content" en = Some (PRef l) -> inv l h0 L hd h -> pargs n md en args [PClass cn; PInt size; v] [] ->
  pick i L = Some ((DList (map DInt ptrs), v), L') -> reads k cn "from_bytes" [] f D -> reader cn "from_bytes" -> (1 <= k)%nat -> (S k <= n)%nat ->
  (forall b w hd' h', inv l h0 ((DList (map (emb_opt D) b), w) :: L) hd' h' -> ok l Q (K w h') (g b hd')) ->
  ok l Q (mbind (eval source (call source n) md en (ECall (EAttr (EName "content") "read_class_array_with_pointers") args)) K h) (bind (read_class_array_with_pointers f size ptrs) g hd).
Proof.
  intros AX I P PK R RC K1 N H. pose proof (i_at _ _ _ _ _ I) as AT.
  assert (X : exists q, v = PRef q /\ nth_error h q = Some (OList (map PInt ptrs))).
  { apply pick_perm in PK. pose proof (inv_perm _ _ _ _ _ _ PK I) as J. destruct (inv_open _ _ _ _ _ _ _ J) as (fp & O & _).
    apply own_list in O as (q & vs & fps & -> & E & _ & O). exists q. split; [reflexivity|]. rewrite E. rewrite (owns_ints _ _ _ _ O). reflexivity. }
  destruct X as (q & -> & E). eapply ok_bind.
  - erewrite e_handler; [|exact AX|exact AT|reflexivity|reflexivity|exact P]. apply (pointers_run k cn f D R RC K1); [exact N|exact AT|exact E].
  - intros w b h' hd' A' (T' & fp & O & Se). apply H. eapply inv_own; eassumption.
Qed.
Ltac ptr_ := match goal with I : inv _ _ ?L ?hd ?h |- ok _ _ (run _ _ (SAssign _ (ECall (EAttr (EName "content") "read_class_array_with_pointers") [_; _; EName ?x]) :: _) ?en _) _ =>
  rewrite run_assign; let v := eval cbn [assoc String.eqb Ascii.eqb Bool.eqb] in (assoc x en) in match v with Some ?v => let i := pos_ v L in
  eapply (s_pointers _ _ _ _ _ _ _ _ _ i); [reflexivity|exact I|pargs_|cbn [pick option_map fst snd]; reflexivity|rdr|rdr|lia|lia|clear I; intros ? ? ? ? I; cbv beta] end end.

Lemma Civ_m : find_method source "Civ" "from_bytes" = Some src_Civ_from_bytes. Proof. look. Qed.
Lemma Civ_k : reader "Civ" "from_bytes". Proof. reader_ Civ_m. Qed.
Lemma Civ_r {ee : Era} : reads 16 "Civ" "from_bytes" [] Civ_from_bytes Civ_deep.
Proof. enter_ Civ_m src_Civ_from_bytes Civ_from_bytes. repeat first [flow_|one_|ptr_]. Qed.
#[export] Hint Resolve Civ_k Civ_r : readers.

(** [Version(s)] *)
Lemma call_version n s h : call source (S n) (PClass "Version") [PStr s] [] h = match version_lookup s with Ok v => Ret (version_val v, h) | Err f => Raise (Std f) end.
Proof.
  cbn [call]. rewrite c_Version. change (c_sort src_Version) with Enum. cbv iota.
  change (c_members src_Version) with (map (fun v => (version_member v, KStr (version_string v))) all_versions).
  unfold version_lookup. induction all_versions as [|v l IH]; [reflexivity|]. cbn [map find snd].
  replace (lit (version_string v)) with (version_value v) by (destruct v; reflexivity).
  destruct (str_eqb (version_value v) s); [reflexivity|exact IH].
Qed.
Lemma s_note {ee : Era} {B C} l h0 L hd h c e (g : unit -> rd B) (Q : heap -> B -> C -> Prop) o : inv l h0 L hd h ->
  (forall hd', inv l h0 L hd' h -> ok l Q o (g tt hd')) -> ok l Q o (bind (note c e) g hd).
Proof.
  intros I H. unfold bind, note. destruct c; cbn [rbind]; apply H; [|exact I]. destruct I as [I1 I2 I3 I4]. constructor; [split; apply I1|exact I2|exact I3|exact I4].
Qed.
Lemma DatFile_m : find_method source "DatFile" "from_bytes" = Some src_DatFile_from_bytes. Proof. look. Qed.
Lemma DatFile_k : reader "DatFile" "from_bytes". Proof. reader_ DatFile_m. Qed.
(** ** The version decides *)
Definition time_of (v : Version) : times := if version_ge v VER_84 then New else Old.
Lemma fits_time v : @fits (time_of v) v.
Proof. unfold fits, the_era, time_of. destruct (version_ge v VER_84); reflexivity. Qed.
Lemma time_fits {ee : Era} v : the_era <> Any -> fits v -> the_era = time_of v.
Proof. unfold fits, the_era, time_of. destruct ee; intros N F; [contradiction N; reflexivity|rewrite F; reflexivity..]. Qed.
Definition ok_in {A B} (l : nat) (P : Era -> heap -> B -> A -> Prop) (o : outcome (A * heap)) (r : res (B * handler)) : Prop :=
  match r with
  | Ok (b, hd) => exists a h, o = Ret (a, h) /\ @at_ (time_of (h_version hd)) l hd h /\ P (time_of (h_version hd)) h b a
  | Err e => o = Raise (Std e)
  end.
Lemma ok_in_of {ee : Era} {A B} l (P : Era -> heap -> B -> A -> Prop) o r : the_era <> Any -> ok l (P ee) o r -> ok_in l P o r.
Proof.
  intros N H. unfold ok in H. unfold ok_in. destruct r as [[b hd]|e]; [|exact H]. destruct H as (a & h & E & AT & H). exists a, h. split; [exact E|].
  pose proof (time_fits _ N (at_fits _ _ _ AT)) as T. unfold the_era in T. rewrite <- T. split; assumption.
Qed.
Lemma ok_in_bind {ee : Era} {A B A' B'} l (P : heap -> B -> A -> Prop) (Q : Era -> heap -> B' -> A' -> Prop) m k h f g hd :
  ok l P (m h) (f hd) -> (forall a b h' hd', at_ l hd' h' -> P h' b a -> ok_in l Q (k a h') (g b hd')) ->
  ok_in l Q (mbind m k h) (bind f g hd).
Proof.
  intros H K. unfold ok in H. unfold mbind, bind. destruct (f hd) as [[b hd']|e]; [|rewrite H; reflexivity].
  destruct H as (a & h' & -> & A0 & H). apply K; assumption.
Qed.
Lemma DatFile_in : forall m l hd h, (18 <= m)%nat -> @at_ Any l hd h ->
  ok_in l (fun ee => built l h DatFile_deep) (call source m (PMeth (PClass "DatFile") "from_bytes") [PRef l] [] h) (DatFile_from_bytes hd).
Proof.
  enter_ DatFile_m src_DatFile_from_bytes DatFile_from_bytes. rewrite run_assign. pose proof (i_at _ _ _ _ _ I) as AT.
  assert (LT := i_lt _ _ _ _ _ I). clear I. eapply (@ok_in_bind Any).
  { erewrite e_handler; [|reflexivity|exact AT|reflexivity|reflexivity|pargs_]. apply (string_run 8); [lia|exact AT]. }
  intros v s h1 hd1 A1 [T1 ->]. rewrite run_set. unfold bind at 1, lift.
  assert (E : forall en, assoc "version" en = Some (PStr s) -> assoc "Version" en = None ->
    eval source (call source m) "datfile" en (ECall (EName "Version") [EName "version"]) h1 = match version_lookup s with Ok v => Ret (version_val v, h1) | Err f => Raise (Std f) end).
  { intros en AX AV. destruct m as [|m]; [lia|]. erewrite eval_call_pure; [|apply p_global; [exact AV|look]|apply pa_pos; [reflexivity|apply p_name; exact AX|apply pa_nil]]. apply call_version. }
  unfold mbind at 1. rewrite E by reflexivity. destruct (version_lookup s) as [v|e]; [|reflexivity].
  match goal with |- context [mbind (eval _ _ ?md ?en (EName "content")) _ h1] => rewrite (mbind_ret _ _ _ _ _ (p_name m md en "content" (PRef l) eq_refl h1)) end.
  erewrite (mbind_ret _ _ h1); [|eapply set_run; [exact A1|reflexivity]].
  unfold bind at 1, set_version. set (hd2 := mkHandler _ _ _ _).
  match goal with |- ok_in _ _ (run _ _ _ _ (put h1 l ?o)) _ => change o with (hobj hd2) end. set (h2 := put h1 l (hobj hd2)).
  apply (@ok_in_of (time_of v)); [unfold the_era, time_of; destruct (version_ge v VER_84); discriminate|].
  assert (I : @inv (time_of v) l h [] hd2 h2).
  { constructor; [|exact LT|eapply step_trans; [exact T1|apply step_put]|exists []; split; [constructor|apply sep_nil]].
    split; [apply put_same, (at_lt _ _ _ A1)|apply fits_time]. }
  clearbody hd2 h2. clear E A1 T1 AT. generalize dependent (time_of v). intros ee I.
  repeat first [flow_|one_|ptr_].
  match goal with I : inv _ _ _ ?hd ?h |- _ => eapply s_note; [exact I|clear I; intros ? I; cbv beta] end.
  repeat first [flow_|one_|ptr_].
Qed.
Lemma DatFile_r : @reads Any _ 18 "DatFile" "from_bytes" [] DatFile_from_bytes DatFile_deep.
Proof.
  intros m l hd h M AT. pose proof (DatFile_in m l hd h M AT) as H. unfold ok_in in H. unfold ok. destruct (DatFile_from_bytes hd) as [[x hd']|e]; [|exact H].
  destruct H as (v & h' & E & A' & T & fp & O & Se). exists v, h'. split; [exact E|]. split; [split; [exact A'|exact Logic.I]|]. split; [exact T|]. exists fp. split; [apply own_any in O; exact O|exact Se].
Qed.
