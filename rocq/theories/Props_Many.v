(** * C57: programs that run at the same time and do not write each other's files do not notice each
    other. *)
From Verif Require Import Base PyInt PyFloat PyStr PyStruct DataTypes Versions Common Py Source PyRep PyPure Deep.
From Verif Require Import M_DatFile Spec Shape Update Edit Sample PyR PyTree PyLoad Props_Load FS Props_FS World Props_World PyEdit Props_Edits Json Dump Cli Props_Cli Props_Dat Theory Props_Json Props_Readme Props_Programs Many.
From Verif Require Sched.
From Coq Require Import String Ascii Lia.
Open Scope Z_scope.
Local Open Scope list_scope.

Definition stage_uses (reads writes : path -> Prop) (s : stage) : Prop :=
  match s with
  | At t => uses reads writes t
  | Reading p k _ => reads p /\ forall c, uses reads writes (k c)
  | Filling p _ _ t => writes p /\ uses reads writes t
  | Failed => True
  end.
Lemma put_eq st i s : put st i s i = s. Proof. unfold put. destruct (Nat.eq_dec i i); [reflexivity|contradiction]. Qed.
Lemma put_neq st i s j : j <> i -> put st i s j = st j. Proof. intros N. unfold put. destruct (Nat.eq_dec j i); [contradiction|reflexivity]. Qed.
Lemma step_uses R Wr s o f s' o' f' : pstep ((s, o), f) ((s', o'), f') -> stage_uses R Wr s ->
  stage_uses R Wr s' /\ forall p, ~ Wr p -> f' p = f p.
Proof.
  intros T U. inversion T; subst; cbn [stage_uses uses] in *; try (split; [tauto|intros; reflexivity]).
  - split; [apply U|intros; reflexivity].
  - split; [tauto|]. intros q NW. apply set_other. intros ->. tauto.
  - split; [tauto|]. intros q NW. apply set_other. intros ->. tauto.
Qed.
Section Isolation.
Variable programs : nat -> act val.
Variable f0 : fs.
Variable reads writes : nat -> path -> Prop.
Hypothesis U : forall i, uses (reads i) (writes i) (programs i).
Lemma all_use st f : together programs f0 (st, f) -> (forall i, stage_uses (reads i) (writes i) (fst (st i))) /\ forall p, (forall i, ~ writes i p) -> f p = f0 p.
Proof.
  intros R. remember (st, f) as s eqn:E. revert st f E. induction R as [|st0 g i s' g' R IH T]; intros st f E; injection E as <- <-.
  - split; [exact U|reflexivity].
  - destruct (IH _ _ eq_refl) as [A B]. destruct (st0 i) as [s o] eqn:ST, s' as [s' o']. pose proof (A i) as Ai. rewrite ST in Ai. destruct (step_uses _ _ _ _ _ _ _ _ T Ai) as [A' B']. split.
    + intros j. destruct (Nat.eq_dec j i) as [->|N]; [rewrite put_eq; exact A'|rewrite put_neq by exact N; apply A].
    + intros p NW. rewrite (B' p (NW i)). apply B, NW.
Qed.
Hypothesis AP : apart reads writes.
(** The process [i] as if alone. *)
Definition follows (i : nat) (s : stage) (o : pystr) (f : fs) (w : world val) : Prop :=
  w_pc w = alone s /\ w_out w = o /\ (forall p, reads i p \/ writes i p -> w_fs w p = f p) /\
  match s with
  | Reading p _ acc => exists c, f p = Some c /\ acc = firstn (List.length acc) c
  | Filling p b n _ => f p = Some (firstn n b) /\ (n <= List.length b)%nat
  | _ => True
  end.
Lemma firstn_more {A} (l : list A) a n : (a + n <= List.length l)%nat -> firstn a l ++ firstn n (skipn a l) = firstn (a + n) l.
Proof. revert a. induction l as [|x l IH]; intros [|a] L; cbn [List.length] in L; cbn [skipn firstn app]; try reflexivity. - destruct n; [reflexivity|cbn in L; lia]. - cbn [Nat.add firstn]. f_equal. apply IH. lia. Qed.
Lemma skipn_more {A} (l : list A) a n : skipn n (skipn a l) = skipn (a + n) l.
Proof. revert a. induction l as [|x l IH]; intros [|a]; cbn [skipn Nat.add]; try reflexivity. - destruct n; reflexivity. - apply IH. Qed.
Lemma own_step i s o f s' o' f' w t0 : pstep ((s, o), f) ((s', o'), f') -> stage_uses (reads i) (writes i) s -> follows i s o f w -> wreach t0 f0 [] w ->
  exists w', follows i s' o' f' w' /\ wreach t0 f0 [] w'.
Proof.
  intros T US (P & O & F & X) R. destruct w as [pc g out]. cbn [w_pc w_out w_fs] in *. inversion T; subst; cbn [alone stage_uses uses] in *.
  - exists (mkWorld (Running (ReadFile p k)) g o'). split; [|exact R]. unfold follows. cbn [w_pc w_out w_fs alone]. repeat (split; [reflexivity || exact F|]). exists cur. split; [assumption|reflexivity].
  - eexists. split; [|eapply wr_step; [exact R|apply w_missing; rewrite F by tauto; assumption]]. unfold follows. cbn [w_pc w_out w_fs alone]. auto.
  - eexists. split; [|eapply wr_step; [exact R|apply w_read_fails]]. unfold follows. cbn [w_pc w_out w_fs alone]. auto.
  - exists (mkWorld (Running (ReadFile p k)) g o'). split; [|exact R]. unfold follows. cbn [w_pc w_out w_fs alone]. repeat (split; [reflexivity || exact F|]). destruct X as (c & C & E). exists cur. split; [assumption|].
    assert (c = cur) by congruence. subst c. rewrite app_length, firstn_length, skipn_length. replace (Nat.min n (List.length cur - List.length acc)) with n by lia. rewrite <- firstn_more by assumption. f_equal. exact E.
  - destruct X as (c & C & E). assert (c = cur) by congruence. subst c. rewrite firstn_all2 in E by assumption. subst acc.
    eexists. split; [|eapply wr_step; [exact R|apply w_read; rewrite F by tauto; eassumption]]. unfold follows. cbn [w_pc w_out w_fs alone]. auto.
  - eexists. split; [|eapply wr_step; [exact R|apply w_read_fails]]. unfold follows. cbn [w_pc w_out w_fs alone]. auto.
  - eexists. split; [|eapply wr_step; [exact R|apply w_open]]. unfold follows. cbn [w_pc w_out w_fs alone skipn firstn]. split; [reflexivity|]. split; [reflexivity|]. split; [|split; [apply set_same|lia]].
    intros q Q. unfold set_file. destruct (path_eq_dec q p); [reflexivity|apply F, Q].
  - eexists. split; [|eapply wr_step; [exact R|apply w_open_fails]]. unfold follows. cbn [w_pc w_out w_fs alone]. auto.
  - destruct X as (C & L). assert (E : Sched.write_at cur n (firstn k (skipn n b)) = firstn (n + k) b).
    { assert (cur = firstn n b) by congruence. subst cur. unfold Sched.write_at. rewrite firstn_firstn, Nat.min_id, firstn_length. replace (n - Nat.min n (List.length b))%nat with 0%nat by lia. cbn [repeat app].
      rewrite (skipn_all2 (firstn n b)) by (rewrite !firstn_length, skipn_length; lia). rewrite app_nil_r. apply firstn_more. assumption. }
    rewrite E. eexists. split; [|eapply wr_step; [exact R|eapply (w_write p (skipn n b) t g o' (firstn n b) k); [rewrite F by tauto; exact C|rewrite skipn_length; lia]]].
    unfold follows. cbn [w_pc w_out w_fs alone]. rewrite skipn_more, firstn_more by assumption. split; [reflexivity|]. split; [reflexivity|]. split; [|split; [apply set_same|assumption]].
    intros q Q. unfold set_file. destruct (path_eq_dec q p); [reflexivity|apply F, Q].
  - eexists. split; [|eapply wr_step; [exact R|apply w_write_fails]]. unfold follows. cbn [w_pc w_out w_fs alone]. auto.
  - rewrite skipn_all in R. eexists. split; [|eapply wr_step; [exact R|apply w_close]]. unfold follows. cbn [w_pc w_out w_fs alone]. auto.
  - eexists. split; [|eapply wr_step; [exact R|apply (w_print _ _ _ _ k); assumption]]. unfold follows. cbn [w_pc w_out w_fs alone]. auto.
  - eexists. split; [|eapply wr_step; [exact R|apply w_print_fails]]. unfold follows. cbn [w_pc w_out w_fs alone]. auto.
  - eexists. split; [|eapply wr_step; [exact R|apply w_printed]]. unfold follows. cbn [w_pc w_out w_fs alone]. auto.
Qed.
Lemma other_step i j s o f s' o' f' w si oi : i <> j -> pstep ((s, o), f) ((s', o'), f') -> stage_uses (reads j) (writes j) s -> stage_uses (reads i) (writes i) si ->
  follows i si oi f w -> follows i si oi f' w.
Proof.
  intros N T US USi (P & O & F & X). destruct (step_uses _ _ _ _ _ _ _ _ T US) as [_ K].
  assert (E : forall p, reads i p \/ writes i p -> f' p = f p) by (intros p H; apply K; intros H'; destruct (AP i j p N H'); tauto).
  unfold follows. repeat (split; [assumption|]). split; [intros p H; rewrite (E p H); apply F, H|].
  destruct si as [t|p k acc|p b n t|]; try exact X; cbn [stage_uses] in USi; rewrite E by tauto; exact X.
Qed.
Lemma isolated i st f : together programs f0 (st, f) -> exists w, wreach (programs i) f0 [] w /\ follows i (fst (st i)) (snd (st i)) f w.
Proof.
  intros R. remember (st, f) as s eqn:E. revert st f E. induction R as [|st0 g j s' g' R IH T]; intros st f E; injection E as <- <-.
  - exists (mkWorld (Running (programs i)) f0 []). split; [apply wr_start|]. unfold follows. cbn. auto.
  - destruct (IH _ _ eq_refl) as (w & RW & FW). destruct (all_use _ _ R) as [A _]. destruct s' as [s' o']. destruct (Nat.eq_dec i j) as [->|N].
    + rewrite put_eq. cbn [fst snd]. destruct (st0 j) as [s o] eqn:ST. pose proof (A j) as Aj. rewrite ST in Aj. destruct (own_step j s o g s' o' g' w _ T Aj FW RW) as (w' & FW' & RW'). exists w'. split; assumption.
    + rewrite put_neq by exact N. exists w. split; [exact RW|]. destruct (st0 j) as [s o] eqn:ST. pose proof (A j) as Aj. rewrite ST in Aj. apply (other_step i j s o g s' o' g' w _ _ N T Aj (A i) FW).
Qed.
End Isolation.


(** ** Any programs *)
(** Programs that do not write each other's files: at any moment of any schedule each process is where it
    could be if it ran alone from the same files, has printed what it would have printed, and finds in its
    files what it would find. *)
Theorem C57_alone : forall programs f0 reads writes, (forall i, uses (reads i) (writes i) (programs i)) -> apart reads writes ->
  forall st f, together programs f0 (st, f) ->
  (forall i, exists w, wreach (programs i) f0 [] w /\ w_pc w = alone (fst (st i)) /\ w_out w = snd (st i) /\ forall p, reads i p \/ writes i p -> w_fs w p = f p) /\
  (forall p, (forall i, ~ writes i p) -> f p = f0 p).
Proof.
  intros programs f0 reads writes U AP st f R. split.
  - intros i. destruct (isolated _ _ _ _ U AP i _ _ R) as (w & RW & P & O & F & _). exists w. auto.
  - apply (all_use _ _ _ _ U _ _ R).
Qed.

(** No deadlock, whatever the programs are: a process to which the operating system has not reported an
    error can end, whatever the others have done, without any step of theirs. *)
Definition opened (s : stage) (f : fs) : Prop := match s with Reading p _ _ => f p <> None | Filling p b n _ => f p <> None /\ (n <= List.length b)%nat | _ => True end.
Lemma step_opened s o f s' o' f' : pstep ((s, o), f) ((s', o'), f') -> opened s f -> opened s' f' /\ forall p, f p <> None -> f' p <> None.
Proof.
  assert (X : forall f p b q, f q <> None -> set_file f p b q <> None) by (intros g p b q H; unfold set_file; destruct (path_eq_dec q p); [discriminate|exact H]).
  intros T O. inversion T; subst; cbn [opened] in *; (split; [|first [apply X|auto]]); try congruence; try rewrite set_same; try (split; [discriminate|lia]); auto.
Qed.
Lemma all_opened programs f0 st f : together programs f0 (st, f) -> forall i, opened (fst (st i)) f.
Proof.
  intros R. remember (st, f) as s eqn:E. revert st f E. induction R as [|st0 g i s' g' R IH T]; intros st f E; injection E as <- <-; [intros i; exact I|].
  pose proof (IH _ _ eq_refl) as H. destruct (st0 i) as [s o] eqn:ST, s' as [s' o']. pose proof (H i) as Hi. rewrite ST in Hi. destruct (step_opened _ _ _ _ _ _ T Hi) as [N K]. intros j. destruct (Nat.eq_dec j i) as [->|NE].
  - rewrite put_eq. exact N.
  - rewrite put_neq by exact NE. specialize (H j). destruct (fst (st0 j)); cbn [opened] in *; [exact I|apply K, H|split; [apply K|]; apply H|exact I].
Qed.
(** [others i st st']: the processes other than [i] are where they were. *)
Definition others (i : nat) (st st' : nat -> process) : Prop := forall j, j <> i -> st' j = st j.
Definition goes_on (programs : nat -> act val) (f0 : fs) (i : nat) (st : nat -> process) (good : process -> fs -> Prop) : Prop :=
  exists st' f', together programs f0 (st', f') /\ others i st st' /\ good (st' i) f'.
Lemma go programs f0 i st f s' f' good : together programs f0 (st, f) -> pstep (st i, f) (s', f') -> (together programs f0 (put st i s', f') -> goes_on programs f0 i (put st i s') good) -> goes_on programs f0 i st good.
Proof.
  intros R T K. destruct (K (t_step _ _ _ _ _ _ _ R T)) as (st' & f2 & R2 & OT & G). exists st', f2. split; [exact R2|]. split; [|exact G]. intros j N. rewrite (OT j N). apply put_neq, N.
Qed.
Definition ended (s : process) (f : fs) : Prop := exists r, fst s = At (Stop r).
Lemma can_end programs f0 i : forall t st f o, together programs f0 (st, f) -> st i = (At t, o) -> goes_on programs f0 i st ended.
Proof.
  induction t as [r|p k IH|p b t IH|s t IH]; intros st f o R E.
  - exists st, f. split; [exact R|]. split; [intros j _; reflexivity|]. exists r. rewrite E. reflexivity.
  - destruct (f p) as [c|] eqn:C.
    + eapply go; [exact R|rewrite E; apply (p_open _ _ _ _ _ C)|]. intros R1. destruct c as [|b0 c0] eqn:EC.
      * eapply go; [exact R1|rewrite put_eq; apply (p_read_end _ _ _ _ _ _ C); cbn; lia|]. intros R2. eapply IH; [exact R2|apply put_eq].
      * eapply go; [exact R1|rewrite put_eq; apply (p_read _ _ _ _ _ _ (List.length c) C); subst c; cbn; lia|]. intros R2.
        eapply go; [exact R2|rewrite put_eq; apply (p_read_end _ _ _ _ _ _ C); subst c; cbn [List.length skipn app]; rewrite firstn_length; cbn; lia|]. intros R3. eapply IH; [exact R3|apply put_eq].
    + eapply go; [exact R|rewrite E; apply (p_missing _ _ _ _ C)|]. intros R1. eexists _, _. split; [exact R1|]. split; [intros j _; reflexivity|]. rewrite put_eq. eexists. reflexivity.
  - eapply go; [exact R|rewrite E; apply p_create|]. intros R1. destruct b as [|b0 b1] eqn:EB.
    + eapply go; [exact R1|rewrite put_eq; apply p_close; reflexivity|]. intros R2. eapply IH; [exact R2|apply put_eq].
    + eapply go; [exact R1|rewrite put_eq; apply (p_write _ _ _ _ _ _ [] (List.length b)); [apply set_same|subst b; cbn; lia..]|]. intros R2.
      eapply go; [exact R2|rewrite put_eq; apply p_close; subst b; cbn; lia|]. intros R3. eapply IH; [exact R3|apply put_eq].
  - destruct s as [|c s'] eqn:ES.
    + eapply go; [exact R|rewrite E; apply p_printed|]. intros R1. eapply IH; [exact R1|apply put_eq].
    + eapply go; [exact R|rewrite E; apply (p_print _ _ _ _ (List.length s)); subst s; cbn; lia|]. intros R1. rewrite <- ES, skipn_all in R1 |- *.
      eapply go; [exact R1|rewrite put_eq; apply p_printed|]. intros R2. eapply IH; [exact R2|apply put_eq].
Qed.
Theorem C57_no_deadlock : forall programs f0 st f i, together programs f0 (st, f) -> fst (st i) <> Failed ->
  exists st' f' r, together programs f0 (st', f') /\ (forall j, j <> i -> st' j = st j) /\ fst (st' i) = At (Stop r).
Proof.
  intros programs f0 st f i R NF. assert (G : goes_on programs f0 i st ended).
  { pose proof (all_opened _ _ _ _ R i) as OP. destruct (st i) as [s o] eqn:E. destruct s as [t|p k acc|p b n t|]; cbn [fst opened] in *.
    - eapply can_end; [exact R|exact E].
    - destruct (f p) as [c|] eqn:C; [|contradiction]. destruct (Nat.le_gt_cases (List.length c) (List.length acc)) as [L|L].
      + eapply go; [exact R|rewrite E; apply (p_read_end _ _ _ _ _ _ C L)|]. intros R1. eapply can_end; [exact R1|apply put_eq].
      + eapply go; [exact R|rewrite E; apply (p_read _ _ _ _ _ _ (List.length c - List.length acc) C); lia|]. intros R1.
        eapply go; [exact R1|rewrite put_eq; apply (p_read_end _ _ _ _ _ _ C); rewrite app_length, firstn_length, skipn_length; lia|]. intros R2. eapply can_end; [exact R2|apply put_eq].
    - destruct OP as [OP LE]. destruct (f p) as [c|] eqn:C; [|contradiction]. destruct (Nat.le_gt_cases (List.length b) n) as [L|L].
      + eapply go; [exact R|rewrite E; apply p_close; lia|]. intros R1. eapply can_end; [exact R1|apply put_eq].
      + eapply go; [exact R|rewrite E; apply (p_write _ _ _ _ _ _ _ (List.length b - n) C); lia|]. intros R1.
        eapply go; [exact R1|rewrite put_eq; apply p_close; lia|]. intros R2. eapply can_end; [exact R2|apply put_eq].
    - contradiction. }
  destruct G as (st' & f' & R' & OT & r & E). exists st', f', r. auto.
Qed.


(** ** Scripts and commands at once *)
Lemma lit_inj a b : lit a = lit b -> a = b.
Proof.
  revert b. induction a as [|c a IH]; intros [|d b] E; try discriminate; [reflexivity|]. cbn [lit] in E. injection E as E1 E2. f_equal; [|apply IH, E2].
  apply N2Z.inj in E1. rewrite <- (ascii_N_embedding c), <- (ascii_N_embedding d), E1. reflexivity.
Qed.
(** What the processes are: a script that loads [p], changes the record and saves to [q] (C55), or the
    command [dat-to-json a] (C56). *)
Inductive job : Type :=
| Script (p q : string) (cs : list PyEdit.change)
| Show (a : pystr).
Definition job_text inflate deflate repr (n : nat) (h : heap) (j : job) : act val :=
  match j with
  | Script p q cs => user_program inflate deflate n h (patch p q (PyEdit.texts "data" cs))
  | Show a => user_cli inflate deflate repr [a] n h
  end.
Definition source_of (j : job) : path := match j with Script p _ _ => lit p | Show a => a end.
Definition target_of (j : job) : option path := match j with Script _ q _ => Some (lit q) | Show _ => None end.
Definition sound_job (j : job) : Prop :=
  match j with
  | Script _ _ cs => forallb io_free_stmt (PyEdit.texts "data" cs) = true /\ all_scoped "data" cs /\ exists change, carries_out cs change
  | Show a => positional a = true
  end.
(** No script saves to a file that another process loads or saves. *)
Definition no_clash (jobs : nat -> job) : Prop := forall i j q, i <> j -> target_of (jobs j) = Some q -> source_of (jobs i) <> q /\ target_of (jobs i) <> Some q.

Section Jobs.
Variables (inflate : bytes -> res bytes) (deflate : bytes -> bytes) (repr : f64 -> pystr) (n : nat) (h : nat -> heap) (jobs : nat -> job).
Hypothesis N : (21 <= n)%nat.
Hypothesis SJ : forall i, sound_job (jobs i).
Hypothesis NC : no_clash jobs.
Definition texts (i : nat) : act val := job_text inflate deflate repr n (h i) (jobs i).
Definition job_reads (i : nat) (p : path) : Prop := p = source_of (jobs i).
Definition job_writes (i : nat) (p : path) : Prop := target_of (jobs i) = Some p.
Lemma jobs_use i : uses (job_reads i) (job_writes i) (texts i).
Proof.
  unfold texts, job_reads, job_writes. specialize (SJ i). destruct (jobs i) as [p q cs|a]; cbn [sound_job job_text source_of target_of] in *.
  - destruct SJ as (Q & SC & change & CO). destruct (patch_shape inflate deflate p q cs change Q SC CO n (h i) N) as (k & -> & K). cbn [uses]. split; [reflexivity|]. intros c. specialize (K c).
    destruct (rbind (rbind (inflate c) from_bytes) (fun x => rbind (change x) to_bytes)) as [b|e]; [destruct K as (h' & _ & ->)|rewrite K]; cbn [uses]; auto.
  - destruct (cli_shape inflate deflate repr a n (h i) ltac:(lia) SJ) as (k & -> & K). cbn [uses]. split; [reflexivity|]. intros c. specialize (K c).
    destruct (rbind (inflate c) from_bytes) as [x|e]; [destruct K as (h' & _ & ->)|rewrite K]; cbn [uses]; auto.
Qed.
Lemma jobs_apart : apart job_reads job_writes.
Proof. intros i j p NE W. destruct (NC i j p NE W) as [A B]. unfold job_reads, job_writes. split; [intros ->; apply A; reflexivity|exact B]. Qed.
Lemma job_alone f0 st f i : together texts f0 (st, f) -> exists w, wreach (texts i) f0 [] w /\ w_pc w = alone (fst (st i)) /\ w_out w = snd (st i) /\ forall p, job_reads i p \/ job_writes i p -> w_fs w p = f p.
Proof. intros R. exact (proj1 (C57_alone texts f0 _ _ jobs_use jobs_apart st f R) i). Qed.
End Jobs.

(** What a script leaves in its file, at any moment and whatever the other processes do: what was there,
    a beginning of the new file, or, once the script has ended without an exception, all of it.  The new
    file is computed from what the source file held at the start, because no other process changes that.
    If the script raises, its file is as it was. *)
Theorem C57_script : forall inflate deflate repr n h jobs f0 st f i p q cs change, (21 <= n)%nat -> (forall i, sound_job (jobs i)) -> no_clash jobs ->
  together (texts inflate deflate repr n h jobs) f0 (st, f) -> jobs i = Script p q cs -> carries_out cs change ->
  snd (st i) = [] /\ (p <> q -> f (lit p) = f0 (lit p)) /\
  match fst (st i) with
  | At (Stop (Ret _)) => exists b, new_bytes inflate f0 (lit p) change = Ok b /\ f (lit q) = Some (deflate b)
  | At (Stop (Raise e)) => f (lit q) = f0 (lit q) /\ exists e', e = Std e' /\ new_bytes inflate f0 (lit p) change = Err e'
  | _ => f (lit q) = f0 (lit q) \/ exists b k, new_bytes inflate f0 (lit p) change = Ok b /\ f (lit q) = Some (firstn k (deflate b))
  end.
Proof.
  intros inflate deflate repr n h jobs f0 st f i p q cs change N SJ NC R J CO. destruct (job_alone _ _ _ _ _ _ N SJ NC _ _ _ i R) as (w & RW & PC & OUT & F).
  pose proof (SJ i) as S. rewrite J in S. destruct S as (Q & SC & _). unfold texts, job_reads, job_writes in *. rewrite J in *. cbn [job_text source_of target_of] in *.
  destruct (C55_program inflate deflate n (h i) p q cs change N Q SC CO f0 [] w RW) as (O & SB & H).
  split; [congruence|]. split.
  { intros NE. rewrite <- (F (lit p)) by auto. apply SB. intros E. apply NE. apply lit_inj, E. }
  rewrite <- (F (lit q)) by auto. rewrite PC in H. destruct (fst (st i)) as [t|r k acc|r b m t|]; cbn [alone] in H.
  - destruct t as [[[v h']|e]|r k|r b t|s t].
    + destruct H as (_ & b & C & W). exists b. auto.
    + destruct H as (-> & E). split; [reflexivity|exact E].
    + left. destruct H as (_ & ->). reflexivity.
    + left. destruct H as (_ & -> & _). reflexivity.
    + destruct H.
  - left. destruct H as (_ & ->). reflexivity.
  - right. destruct H as (_ & b' & d & C & D & W). exists b', (List.length d). split; [exact C|]. rewrite W, D, firstn_app, Nat.sub_diag, firstn_all, firstn_O, app_nil_r. reflexivity.
  - destruct H as [->|H]; [left; reflexivity|right; exact H].
Qed.

(** When a script has ended without an exception, its file loads to the changed record, at that moment and
    as long as no other process writes it. *)
Theorem C57_saved : forall inflate deflate, inverts inflate deflate -> forall repr n h jobs f0 st f i p q cs change x y r, (21 <= n)%nat -> (forall i, sound_job (jobs i)) -> no_clash jobs ->
  together (texts inflate deflate repr n h jobs) f0 (st, f) -> jobs i = Script p q cs -> carries_out cs change ->
  parse inflate f0 (lit p) = Ok x -> change x = Ok y -> DatFile_wf y -> fst (st i) = At (Stop (Ret r)) ->
  parse inflate f (lit q) = Ok y.
Proof.
  intros inflate deflate Z repr n h jobs f0 st f i p q cs change x y r N SJ NC R J CO P CH WF E.
  destruct (C57_script inflate deflate repr n h jobs f0 st f i p q cs change N SJ NC R J CO) as (_ & _ & H). rewrite E in H. destruct H as (b & NB & W).
  unfold new_bytes in NB. rewrite P in NB. cbn [rbind] in NB. rewrite CH in NB. cbn [rbind] in NB. destruct (C01_round_trip y WF) as (b' & TB & FB & _). rewrite TB in NB. injection NB as <-.
  unfold parse. rewrite W, Z. exact FB.
Qed.
(** What [dat-to-json] prints, at any moment and whatever the other processes do: a beginning of the text
    for the file as it was at the start; all of it when it has ended; nothing if it raises.  Its file does
    not change. *)
Theorem C57_show : forall inflate deflate repr n h jobs f0 st f i a, (21 <= n)%nat -> (forall i, sound_job (jobs i)) -> no_clash jobs ->
  together (texts inflate deflate repr n h jobs) f0 (st, f) -> jobs i = Show a ->
  f a = f0 a /\
  match fst (st i) with
  | At (Stop (Ret _)) => printed repr inflate f0 a = Ok (snd (st i))
  | At (Stop (Raise e)) => snd (st i) = [] /\ exists e', e = Std e' /\ printed repr inflate f0 a = Err e'
  | _ => snd (st i) = [] \/ exists t k, printed repr inflate f0 a = Ok t /\ snd (st i) = firstn k t
  end.
Proof.
  intros inflate deflate repr n h jobs f0 st f i a N SJ NC R J. destruct (job_alone _ _ _ _ _ _ N SJ NC _ _ _ i R) as (w & RW & PC & OUT & F).
  pose proof (SJ i) as S. rewrite J in S. unfold texts, job_reads, job_writes in *. rewrite J in *. cbn [job_text source_of target_of sound_job] in *.
  destruct (C56_prints inflate deflate repr n (h i) f0 [] a w ltac:(lia) S RW) as (FS & H). split; [rewrite <- (F a) by auto; rewrite FS; reflexivity|].
  assert (PRE : forall t pre rest : pystr, t = pre ++ rest -> pre = firstn (List.length pre) t) by (intros t pre rest ->; rewrite firstn_app, Nat.sub_diag, firstn_all, firstn_O, app_nil_r; reflexivity).
  rewrite <- OUT. rewrite PC in H. destruct (fst (st i)) as [t|r k acc|r b m t|]; cbn [alone] in H.
  - destruct t as [[[v h']|e]|r k|r b t|s t].
    + destruct H as (t & P & ->). exact P.
    + destruct H as (e' & -> & P & ->). split; [reflexivity|]. exists e'. auto.
    + left. apply H.
    + destruct H.
    + right. destruct H as (t' & pre & P & E & ->). exists t', (List.length pre). split; [exact P|]. apply (PRE _ _ _ E).
  - left. apply H.
  - destruct H.
  - destruct H as [->|(t & pre & rest & P & E & ->)]; [left; reflexivity|right]. exists t, (List.length pre). split; [exact P|]. apply (PRE _ _ _ E).
Qed.
(** Files that are nobody's target do not change. *)
Theorem C57_others : forall inflate deflate repr n h jobs f0 st f p, (21 <= n)%nat -> (forall i, sound_job (jobs i)) -> no_clash jobs ->
  together (texts inflate deflate repr n h jobs) f0 (st, f) -> (forall i, target_of (jobs i) <> Some p) -> f p = f0 p.
Proof.
  intros inflate deflate repr n h jobs f0 st f p N SJ NC R T.
  exact (proj2 (C57_alone (texts inflate deflate repr n h jobs) f0 _ _ (jobs_use _ _ _ _ _ _ N SJ) (jobs_apart _ NC) st f R) p T).
Qed.

(** ** Cases *)
(** Two scripts and any number of dumps of the same file. *)
Definition pops : list PyEdit.change := [Each [Attr "civs"] "civ" [Pop (task_path 434)]].
Definition the_jobs (i : nat) : job :=
  match i with
  | 0%nat => Script "a.dat" "b.dat" twice
  | 1%nat => Script "a.dat" "c.dat" pops
  | _ => Show (lit "a.dat")
  end.
Lemma the_jobs_sound i : sound_job (the_jobs i).
Proof.
  destruct i as [|[|i]]; cbn [the_jobs sound_job].
  - destruct C55_case_ready as [A B]. split; [exact A|]. split; [exact B|]. eexists. exact C55_case_twice.
  - split; [reflexivity|]. split; [cbn; intuition (discriminate || auto)|]. eexists. exact C55_case_kings.
  - reflexivity.
Qed.
Lemma the_jobs_no_clash : no_clash the_jobs.
Proof.
  intros i j q NE T. destruct j as [|[|j]]; cbn in T; [injection T as <-|injection T as <-|discriminate]; destruct i as [|[|i]]; try (contradiction NE; reflexivity); cbn; (split; [intros E; discriminate|discriminate]).
Qed.

(** All of them run to the end: the second script has opened its file before the first one starts.  Both
    files load to what the scripts say, and the dump is that of the first file. *)
Example C57_case : forall inflate deflate repr, inverts inflate deflate -> forall b f0 h, to_bytes kings_file = Ok b -> f0 (lit "a.dat") = Some (deflate b) ->
  exists st f r0 r1 r2, together (texts inflate deflate repr 21 h the_jobs) f0 (st, f) /\
    fst (st 0%nat) = At (Stop (Ret r0)) /\ fst (st 1%nat) = At (Stop (Ret r1)) /\ fst (st 2%nat) = At (Stop (Ret r2)) /\
    parse inflate f (lit "b.dat") = Ok (twice_file kings_file) /\
    (exists y, pop_tasks 434 kings_file = Ok y /\ y <> kings_file /\ parse inflate f (lit "c.dat") = Ok y) /\
    printed repr inflate f0 (lit "a.dat") = Ok (snd (st 2%nat)).
Proof.
  intros inflate deflate repr Z b f0 h TB F. set (T := texts inflate deflate repr 21 h the_jobs).
  assert (FB : from_bytes b = Ok kings_file) by (destruct (C01_round_trip _ kings_wf) as (b' & TB' & FB' & _); congruence).
  assert (P : parse inflate f0 (lit "a.dat") = Ok kings_file) by (unfold parse; rewrite F, Z; exact FB).
  pose proof the_jobs_sound as SJ. pose proof the_jobs_no_clash as NC.
  destruct (patch_shape inflate deflate "a.dat" "c.dat" pops _ eq_refl (proj1 (proj2 (the_jobs_sound 1))) C55_case_kings 21 (h 1%nat) (le_n _)) as (k & EK & _).
  assert (R0 : together T f0 (put (fun i => (At (T i), [])) 1 (Reading (lit "a.dat") k [], []), f0)).
  { eapply t_step; [apply t_start|]. unfold T, texts. cbn [the_jobs job_text]. rewrite EK. apply (p_open _ _ _ _ _ F). }
  destruct (C57_no_deadlock T f0 _ _ 0 R0) as (st1 & f1 & r0 & R1 & O1 & E0). { rewrite put_neq by discriminate. discriminate. }
  destruct (C57_no_deadlock T f0 _ _ 2 R1) as (st2 & f2 & r2 & R2 & O2 & E2). { rewrite O1, put_neq by discriminate. discriminate. }
  destruct (C57_no_deadlock T f0 _ _ 1 R2) as (st3 & f3 & r1 & R3 & O3 & E1). { rewrite O2, O1, put_eq by discriminate. discriminate. }
  assert (E0' : fst (st3 0%nat) = At (Stop r0)) by (rewrite O3, O2 by discriminate; exact E0). assert (E2' : fst (st3 2%nat) = At (Stop r2)) by (rewrite O3 by discriminate; exact E2).
  destruct C53_case_kings as (b0 & y & TB0 & Y & NY & _).
  destruct (C32_tasks 434 _ _ kings_wf Y) as (b1 & TY & FY). assert (WY : DatFile_wf y) by (apply wf_iff_survives; exists b1; auto).
  assert (G0 : exists r, r0 = Ret r).
  { destruct r0 as [r|e]; [eexists; reflexivity|]. exfalso. destruct (C57_script inflate deflate repr 21 h the_jobs f0 st3 f3 0 "a.dat" "b.dat" twice _ (le_n _) SJ NC R3 eq_refl C55_case_twice) as (_ & _ & H). rewrite E0' in H.
    destruct H as (_ & e' & _ & H). unfold new_bytes in H. rewrite P in H. cbn [rbind] in H. destruct (C01_round_trip _ twice_wf) as (b' & TB' & _). congruence. }
  assert (G1 : exists r, r1 = Ret r).
  { destruct r1 as [r|e]; [eexists; reflexivity|]. exfalso. destruct (C57_script inflate deflate repr 21 h the_jobs f0 st3 f3 1 "a.dat" "c.dat" _ _ (le_n _) SJ NC R3 eq_refl C55_case_kings) as (_ & _ & H). rewrite E1 in H.
    destruct H as (_ & e' & _ & H). unfold new_bytes in H. rewrite P in H. cbn [rbind] in H. rewrite Y in H. cbn [rbind] in H. congruence. }
  pose proof (C57_show inflate deflate repr 21 h the_jobs f0 st3 f3 2 _ (le_n _) SJ NC R3 eq_refl) as (_ & H2). rewrite E2' in H2.
  assert (G2 : exists r, r2 = Ret r).
  { destruct r2 as [r|e]; [eexists; reflexivity|]. exfalso. destruct H2 as (_ & e' & _ & H). unfold printed, dat_to_json in H. rewrite P in H. discriminate H. }
  destruct G0 as [r0' ->], G1 as [r1' ->], G2 as [r2' ->]. exists st3, f3, r0', r1', r2'. split; [exact R3|]. repeat (split; [assumption|]). split; [|split; [|exact H2]].
  - exact (C57_saved inflate deflate Z repr 21 h the_jobs f0 st3 f3 0 "a.dat" "b.dat" twice _ _ _ _ (le_n _) SJ NC R3 eq_refl C55_case_twice P eq_refl twice_wf E0').
  - exists y. split; [exact Y|]. split; [exact NY|]. exact (C57_saved inflate deflate Z repr 21 h the_jobs f0 st3 f3 1 "a.dat" "c.dat" _ _ _ _ _ (le_n _) SJ NC R3 eq_refl C55_case_kings P Y WY E1).
Qed.
(** The condition on the files is needed: a dump of a file that a script is saving at that moment fails,
    although the file was in order before and will be afterwards. *)
Definition clashing (i : nat) : job := match i with 0%nat => Script "a.dat" "b.dat" twice | _ => Show (lit "b.dat") end.
Example C57_case_clash : exists b st f, to_bytes kings_file = Ok b /\
  let f0 : fs := fun q => if path_eq_dec q (lit "a.dat") then Some (store b) else if path_eq_dec q (lit "b.dat") then Some (store b) else None in
  together (texts unstore store (fun _ => []) 21 (fun _ => []) clashing) f0 (st, f) /\
  parse unstore f0 (lit "b.dat") = Ok kings_file /\ fst (st 1%nat) = At (Stop (Raise (Std ZlibError))).
Proof.
  destruct (C01_round_trip _ kings_wf) as (b & TB & FB & _). destruct (C01_round_trip _ twice_wf) as (b2 & TB2 & _).
  destruct C55_case_ready as [Q SC].
  destruct (patch_shape unstore store "a.dat" "b.dat" twice _ Q SC C55_case_twice 21 [] (le_n _)) as (k & EK & K).
  specialize (K (store b)). rewrite store_inverts in K. cbn [rbind] in K. rewrite FB in K. cbn [rbind] in K. rewrite TB2 in K. destruct K as (h' & _ & K).
  destruct (cli_shape unstore store (fun _ => []) (lit "b.dat") 21 [] ltac:(lia) eq_refl) as (k1 & EK1 & K1). specialize (K1 []).
  set (T := texts unstore store (fun _ => []) 21 (fun _ => []) clashing).
  set (f0 := (fun q => if path_eq_dec q (lit "a.dat") then Some (store b) else if path_eq_dec q (lit "b.dat") then Some (store b) else None) : fs).
  assert (FA : f0 (lit "a.dat") = Some (store b)) by reflexivity.
  assert (S0 : pstep ((At (T 0%nat), []), f0) ((Reading (lit "a.dat") k [], []), f0)) by (unfold T, texts; cbn [clashing job_text]; rewrite EK; apply (p_open _ _ _ _ _ FA)).
  assert (L : (1 <= List.length (store b))%nat) by (pose proof (store_inverts b) as SI; destruct (store b); [discriminate SI|cbn; lia]).
  eexists b, _, _. split; [exact TB|]. cbv zeta. fold f0. split; [|split].
  - eapply t_step with (i := 1%nat); [eapply t_step with (i := 1%nat); [eapply t_step with (i := 0%nat); [eapply t_step with (i := 0%nat); [eapply t_step with (i := 0%nat); [eapply t_step with (i := 0%nat); [apply t_start|exact S0]|]|]|]|]|].
    + rewrite put_eq. apply (p_read _ _ _ _ _ _ (List.length (store b)) FA L). apply le_n.
    + rewrite put_eq. apply (p_read_end _ _ _ _ _ _ FA). cbn [List.length skipn app]. rewrite firstn_all. apply le_n.
    + rewrite put_eq. cbn [List.length skipn app]. rewrite firstn_all, K. apply p_create.
    + rewrite !put_neq by discriminate. unfold T at 1, texts. cbn [clashing job_text]. rewrite EK1. eapply p_open. apply set_same.
    + rewrite put_eq. eapply p_read_end; [apply set_same|cbn; lia].
  - assert (FBB : f0 (lit "b.dat") = Some (store b)) by reflexivity. unfold parse. rewrite FBB, store_inverts. exact FB.
  - rewrite put_eq. cbn [fst]. rewrite <- K1. reflexivity.
Qed.

Definition all_of_this_file := (C57_alone, C57_no_deadlock, C57_script, C57_saved, C57_show, C57_others, C57_case, C57_case_clash).
Print Assumptions all_of_this_file.

